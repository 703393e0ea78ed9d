(** SpecRaw.v — the vocabulary of C69: responses received with HTTP_RESPONSE_DO_NOT_PARSE_BODY_FLAG.  Nothing here refers to the
    library's code. *)
From Verif Require Import Base Lib ModelRequest ModelSend ModelResponse SpecRequest SpecSend SpecResponse SpecHttp SpecParser.

(** ** Parsers *)
(** One call of a parser in state [s0], every callback answered with "go on", except that the parser is told to pause when it reports the
    end of the headers: what was reported, the errno, the parser's state. *)
Fixpoint heading {S} (s0 : S) (t : ptree S) (v : view) : view * errno * S :=
  match t with
  | PDone e s => (v, e, s)
  | PEmit ev k =>
      match ev with
      | EvHeadersComplete _ _ _ _ => (view_event v ev, HPE_PAUSED, s0)
      | _ => heading s0 (k CbContinue) (view_event v ev)
      end
  end.
(** [heard P ps s v]: the parser [P], fed with the non-empty pieces [ps], one per call, has returned HPE_OK each time, is now in state [s] and
    has reported [v]. *)
Inductive heard (P : parser) : list bytes -> PS P -> view -> Prop :=
| HeardNil : heard P [] (p_init P) view0
| HeardMore ps d s v s' v' : heard P ps s v -> d <> [] -> heading s (p_exec P s d) (given v d) = (v', HPE_OK, s') -> heard P (ps ++ [d]) s' v'.

(** What the log says when the end of the headers has just been reported. *)
Record says_head (resp : http) (v : view) : Prop := mksaysh {
  yh_msg : v_msg v = MsgBegun;
  yh_adj : v_adj v = true;
  yh_code : v_code v = code_of resp;
  yh_headers : v_headers v = map (fun h => (h_name h, h_value h, code_of resp)) (p_headers resp);
  yh_end : option_map snd (v_hend v) = Some (zlen (head_bytes resp));
  yh_clen : http_clen resp (v_clen v);
  yh_close : v_close v = true <-> says_close resp;
  yh_ka : v_ka v = true <-> says_keep_alive resp
}.

(** A parser that reads the header section of HTTP/1.1 responses, however it is cut into pieces, and whatever follows it. *)
Record reads_heads (P : parser) : Prop := mkheads {
  (* it keeps to the callback diagram *)
  hd_contract : parser_ok P;
  (* it finds no error in a part of a header section, and knows that a message has begun *)
  hd_part : forall resp ps d rest s v, head_ok resp -> heard P ps s v -> d <> [] -> head_bytes resp = concat ps ++ d ++ rest -> rest <> [] ->
    exists v' s', heading s (p_exec P s d) (given v d) = (v', HPE_OK, s') /\ v_msg v' = MsgBegun;
  (* with the last piece of the header section, and whatever else is in that piece, it has reported the header section *)
  hd_whole : forall resp ps d x s v, head_ok resp -> heard P ps s v -> d <> [] -> head_bytes resp = concat ps ++ d ->
    exists v', heading s (p_exec P s (d ++ x)) (given v (d ++ x)) = (v', HPE_PAUSED, s) /\ says_head resp v';
  (* the end of the data in the header section changes nothing *)
  hd_end : forall resp ps rest s v v' e s', head_ok resp -> heard P ps s v -> head_bytes resp = concat ps ++ rest -> rest <> [] ->
    heading s (p_exec P s []) (given v []) = (v', e, s') ->
    parse_error e = None /\ e <> HPE_PAUSED /\ v_msg v' = v_msg v
}.

(** ** What the application gets *)
(** The header section of [resp], and [rest], the data received behind it, as they came. *)
Record gives_raw (cfg : config) (buf : ptr) (L : Z) (resp : http) (rest : bytes) (r r' : response) (w' : world) (tr : list tev) : Prop := mkgraw {
  gr_code : r_status r' = code_of resp;
  gr_headers : r_cb r = true -> delivered tr = map (fun h => (h_name h, h_value h, code_of resp)) (p_headers resp);
  gr_count : r_hcount r' = zlen (p_headers resp);
  gr_clen : exists n, http_clen resp n /\ r_clen r' = n mod SZ cfg;
  gr_done : r_hdone r' = 1;
  gr_close : Z.testbit (r_flags r') 0 = true <-> says_close resp;
  gr_ka : Z.testbit (r_flags r') 1 = true <-> says_keep_alive resp;
  gr_fits : zlen (head_bytes resp) + zlen rest <= L;
  gr_buffer : bytes_at (w_mem w') buf (zlen (head_bytes resp) + zlen rest) = head_bytes resp ++ rest;
  gr_body : r_body r' = Some (poff buf (zlen (head_bytes resp)));
  gr_bodyLen : r_bodyLen r' = zlen rest;
  gr_rest : bytes_at (w_mem w') (poff buf (zlen (head_bytes resp))) (r_bodyLen r') = rest
}.
