(** SpecExact2.v — the vocabulary of the exact response-side properties (C56 on), independent of the model's code. *)
From Verif Require Import Base Lib ModelRequest ModelSend ModelResponse SpecRequest SpecSend SpecResponse.

(** The status of a call, from its log alone.  [raw]: the do-not-parse-body flag is set; [L]: size of the buffer. *)
Definition reports (raw : bool) (L : Z) (tr : list tev) (st : status) : Prop :=
  (recv_failed tr /\ st = HTTPNetworkError) \/
  (exists e, ended_with tr e /\
     st = match parse_error e with
          | Some x => x
          | None =>
              match v_msg (view_of tr) with
              | MsgNone => HTTPNoResponse
              | MsgComplete => HTTPSuccess
              | MsgBegun => if raw then HTTPSuccess
                            else if received tr =? L then HTTPInsufficientMemory else HTTPPartialResponse
              end
          end).
(** The request text begins with these bytes. *)
Definition begins (req m : bytes) : Prop := exists rest, req = m ++ rest.
(** Content-Length as reported in a size_t of [SZ cfg] values: "none" (UINT64_MAX) is 0. *)
Definition clen_reported (cfg : config) (clen : Z) : Z := if clen =? UINT64_MAX then 0 else clen mod SZ cfg.
(** The whole response structure after a call whose parser was called, from the structure before ([r]) and what the parser
    reported ([v]): the application's own fields as they were; areHeadersComplete and contentLength as they were unless
    the headers were complete; everything else from the response.  [q]: where the header section ends. *)
Definition response_after (cfg : config) (buf : ptr) (r : response) (v : view) : response :=
  let '(body, bodyLen) :=
    match no_parse_body r, v_hend v with
    | true, Some (_, q) => (Some (poff buf q), zlen (v_stream v) - q)
    | _, _ => (option_map (poff buf) (v_bstart v), zlen (v_body v))
    end in
  mkresp (r_buf r) (r_bufLen r) (r_cb r) (r_time r)
         (option_map (poff buf) (v_hstart v)) (match v_hend v with Some (hl, _) => hl | None => 0 end)
         body bodyLen (v_code v)
         (match v_hend v with Some _ => clen_reported cfg (v_clen v) | None => r_clen r end)
         (zlen (v_headers v))
         (match v_hend v with Some _ => 1 | None => r_hdone r end)
         (r_opt r) (conn_flags (v_close v) (v_ka v)).
