(** SpecParser.v — what it is for a parser to read HTTP/1.1 responses, and what the library is to return for a well-formed
    response.  Nothing here refers to the library's code or to a particular parser. *)
From Verif Require Import Base Lib ModelRequest ModelSend ModelResponse SpecRequest SpecSend SpecResponse SpecHttp.

(** ** What the application gets *)
(** [r'], [w'], [tr]: the response structure, the world and the log after the call; the response buffer is the [L] bytes at
    [buf]. *)
Record gives (cfg : config) (buf : ptr) (L : Z) (resp : http) (r r' : response) (w' : world) (tr : list tev) : Prop := mkgives {
  g_code : r_status r' = code_of resp;
  g_headers : r_cb r = true -> delivered tr = reported resp;
  g_count : r_hcount r' = zlen (reported resp);
  g_clen : exists n, http_clen resp n /\ r_clen r' = n mod SZ cfg;
  g_done : r_hdone r' = 1;
  g_head : bytes_at (w_mem w') buf (zlen (head_bytes resp)) = head_bytes resp;
  g_close : Z.testbit (r_flags r') 0 = true <-> says_close resp;
  g_ka : Z.testbit (r_flags r') 1 = true <-> says_keep_alive resp;
  g_bodyLen : r_bodyLen r' = zlen (content (p_body resp));
  g_body : forall p, r_body r' = Some p -> inside buf L p (r_bodyLen r') /\ bytes_at (w_mem w') p (r_bodyLen r') = content (p_body resp);
  g_nobody : r_body r' = None -> content (p_body resp) = []
}.

(** ** What the log says *)
(** What the log says once a whole response has been read. *)
Record says (resp : http) (v : view) : Prop := mksays {
  y_adj : v_adj v = true;
  y_code : v_code v = code_of resp;
  y_headers : v_headers v = reported resp;
  y_body : v_body v = content (p_body resp);
  y_hend : v_hend v <> None;
  y_h1 : v_h1 v = Some (zlen (head_bytes resp));
  y_clen : http_clen resp (v_clen v);
  y_close : v_close v = true <-> says_close resp;
  y_ka : v_ka v = true <-> says_keep_alive resp
}.
(** A response without a length lasts until the connection is closed. *)
Definition cut (resp : http) (d : bytes) : http := mkhttp (p_minor resp) (p_code resp) (p_reason resp) (p_headers resp) (ToClose d).

(** ** Parsers *)
(** One call of a parser, every callback answered with "go on", except that after the headers of the answer to a HEAD request
    ([head]) the parser is told that there is no body: what was reported, the errno, the parser's state. *)
Fixpoint reading {S} (head : bool) (t : ptree S) (v : view) : view * errno * S :=
  match t with
  | PDone e s => (v, e, s)
  | PEmit ev k =>
      reading head (k (match ev with EvHeadersComplete _ _ _ _ => if head then CbNoBody else CbContinue | _ => CbContinue end)) (view_event v ev)
  end.
(** The data [d] are given to the parser. *)
Definition given (v : view) (d : bytes) : view := view_step v (TParse (mkptr 0 0) d).
(** [fed head P ps s v]: the parser [P], fed with the non-empty pieces [ps], one per call, has returned HPE_OK each time, is now in state
    [s] and has reported [v]. *)
Inductive fed (head : bool) (P : parser) : list bytes -> PS P -> view -> Prop :=
| FedNil : fed head P [] (p_init P) view0
| FedMore ps d s v s' v' : fed head P ps s v -> d <> [] -> reading head (p_exec P s d) (given v d) = (v', HPE_OK, s') ->
    fed head P (ps ++ [d]) s' v'.

(** A parser that reads HTTP/1.1 responses, however they are cut into pieces. *)
Record reads_http (P : parser) : Prop := mkreads {
  (* it keeps to the callback diagram *)
  rd_contract : parser_ok P;
  (* it finds no error in a well-formed response *)
  rd_goes_on : forall head resp ps d rest s v, http_ok head resp -> fed head P ps s v -> d <> [] -> http_bytes resp = concat ps ++ d ++ rest ->
    exists v' s', reading head (p_exec P s d) (given v d) = (v', HPE_OK, s');
  (* when the whole response has been given to it, it has reported it *)
  rd_whole : forall head resp ps s v, http_ok head resp -> fed head P ps s v -> concat ps = http_bytes resp ->
    says resp v /\ v_msg v = match p_body resp with ToClose _ => MsgBegun | _ => MsgComplete end;
  (* before that, it has not reported the end of the message *)
  rd_part : forall head resp ps rest s v, http_ok head resp -> fed head P ps s v -> http_bytes resp = concat ps ++ rest -> ps <> [] -> rest <> [] ->
    v_msg v = MsgBegun;
  (* the end of the data ends a response without a length, and nothing else *)
  rd_end : forall head resp ps s v v' e s', http_ok head resp -> fed head P ps s v -> reading head (p_exec P s []) (given v []) = (v', e, s') ->
    (forall d, p_body resp = ToClose d -> concat ps = http_bytes resp -> parse_error e = None /\ v_msg v' = MsgComplete /\ says resp v') /\
    (forall rest, http_bytes resp = concat ps ++ rest -> rest <> [] -> (forall d, p_body resp = ToClose d -> zlen (concat ps) < zlen (head_bytes resp)) ->
       parse_error e = None /\ v_msg v' = v_msg v)
}.

(** ** Schedules *)
(** The transport delivers the pieces [ps], one per call, from its [n]-th call on; an empty piece is an empty read. *)
Definition feeds (E : env) (n : nat) (ps : list bytes) : Prop :=
  forall i room, (i < length ps)%nat -> zlen (nth i ps []) <= room -> e_recv E (n + i)%nat room = (zlen (nth i ps []), nth i ps []).
(** Empty reads go on for less than the timeout (without a clock there are none).  The [nt]-th reading of the clock is the one
    before the first piece. *)
Definition prompt (cfg : config) (E : env) (tf : timefn) (nt : nat) (ps : list bytes) : Prop :=
  forall i k, (i <= k < length ps)%nat -> (forall m, (i <= m <= k)%nat -> nth m ps [] = []) ->
    tf = TUser /\ elapsed (e_time E (nt + 1 + k)%nat) (e_time E (nt + i)%nat) < RECV_TO cfg.
