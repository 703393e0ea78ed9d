(** SpecSeries.v — the vocabulary of C73: several responses, one right behind the other.  Nothing here refers to the library's code. *)
From Verif Require Import Base Lib ModelRequest ModelSend ModelResponse SpecRequest SpecSend SpecResponse SpecHttp SpecParser SpecCut.

(** ** A series of responses *)
(** The end of the response can be seen without the end of the connection. *)
Definition ends (m : http) : Prop := match p_body m with ToClose _ => False | _ => True end.
(** Well-formed responses (for instance a 100 Continue and the answer proper); 101 is not among them: after it the connection no longer
    carries HTTP. *)
Definition series_ok (head : bool) (ms : list http) : Prop := Forall (fun m => http_ok head m /\ ends m /\ code_of m <> 101) ms.
Definition series_bytes (ms : list http) : bytes := flat_map http_bytes ms.
(** After such a response a server is not to send another one, and a parser may refuse it. *)
Definition may_close (m : http) : Prop := says_close m \/ p_minor m = 48.

(** ** What the log says *)
(** The log says of the responses [ms] and then [m], all read: status code and Content-Length of the last one, the headers and the
    bodies of all of them. *)
Record says_series (ms : list http) (m : http) (v : view) : Prop := mkseries {
  z_msg : v_msg v = MsgComplete;
  z_code : v_code v = code_of m;
  z_headers : v_headers v = flat_map reported (ms ++ [m]);
  z_texts : map (text_at (series_bytes (ms ++ [m]))) (v_locs v) = flat_map reported (ms ++ [m]);
  z_body : v_body v = flat_map (fun r => content (p_body r)) (ms ++ [m]);
  z_hend : v_hend v <> None;
  z_clen : http_clen m (v_clen v);
  z_close : v_close v = true <-> Exists says_close (ms ++ [m]);
  z_ka : v_ka v = true <-> Exists says_keep_alive (ms ++ [m])
}.

(** ** Parsers *)
(** A parser that takes what follows a response for the next response, or, if the server was to close the connection, for an error. *)
Record reads_series (P : parser) : Prop := mkreads_series {
  (* [d] ends at the end of the response [m] *)
  rs_whole : forall head ms m ps d s v v' e s', series_ok head (ms ++ [m]) -> handled head P ps s v -> d <> [] -> concat ps ++ d = series_bytes (ms ++ [m]) ->
    reading head (p_exec P s d) (given v d) = (v', e, s') ->
    goes_on e = true /\ says_series ms m v' \/ goes_on e = false /\ Exists may_close ms;
  (* [d] ends inside the response [m] *)
  rs_part : forall head ms m ps d x y s v v' e s', series_ok head (ms ++ [m]) -> handled head P ps s v -> d <> [] -> concat ps ++ d = series_bytes ms ++ x ->
    http_bytes m = x ++ y -> x <> [] -> y <> [] -> reading head (p_exec P s d) (given v d) = (v', e, s') ->
    goes_on e = true /\ v_msg v' = MsgBegun \/ goes_on e = false /\ Exists may_close ms;
  (* the data end inside the response [m] *)
  rs_end : forall head ms m ps x y s v v' e s', series_ok head (ms ++ [m]) -> handled head P ps s v -> concat ps = series_bytes ms ++ x ->
    http_bytes m = x ++ y -> x <> [] -> y <> [] -> reading head (p_exec P s []) (given v []) = (v', e, s') -> parse_error e = None /\ v_msg v' = v_msg v;
  (* there are no data *)
  rs_none : forall head v' e s', reading head (p_exec P (p_init P) []) (given view0 []) = (v', e, s') -> parse_error e = None /\ v_msg v' = MsgNone
}.

(** ** What the application gets *)
(** The status code and the Content-Length of the last response, the headers of all, the bodies of all put together. *)
Record gives_series (cfg : config) (buf : ptr) (L : Z) (ms : list http) (m : http) (r r' : response) (w' : world) (tr : list tev) : Prop := mkgives_series {
  gs_code : r_status r' = code_of m;
  gs_headers : r_cb r = true -> delivered tr = flat_map reported (ms ++ [m]);
  gs_count : r_hcount r' = zlen (flat_map reported (ms ++ [m]));
  gs_clen : exists n, http_clen m n /\ r_clen r' = n mod SZ cfg;
  gs_done : r_hdone r' = 1;
  gs_close : Z.testbit (r_flags r') 0 = true <-> Exists says_close (ms ++ [m]);
  gs_ka : Z.testbit (r_flags r') 1 = true <-> Exists says_keep_alive (ms ++ [m]);
  gs_bodyLen : r_bodyLen r' = zlen (flat_map (fun x => content (p_body x)) (ms ++ [m]));
  gs_body : forall p, r_body r' = Some p -> inside buf L p (r_bodyLen r') /\ bytes_at (w_mem w') p (r_bodyLen r') = flat_map (fun x => content (p_body x)) (ms ++ [m]);
  gs_nobody : r_body r' = None -> flat_map (fun x => content (p_body x)) (ms ++ [m]) = []
}.
