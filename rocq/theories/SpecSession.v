(** SpecSession.v — a connection used for several requests, one after the other. *)
From Verif Require Import Base Lib ModelRequest ModelSend ModelResponse SpecRequest SpecSend SpecResponse SpecHttp SpecParser SpecExchange ProofsRequest.

(** One request and its response.  Between two of them the application does what it likes with its memory and its structures;
    [q_mem] is the memory it has made when it calls HTTPClient_Send. *)
Record turn := mkturn {
  q_mem : mem;
  q_h : reqHeaders;  q_hbuf : ptr;  q_n : Z;  q_req : bytes;      (* the request [q_req], in the [q_n] bytes at [q_hbuf] *)
  q_body : option ptr;  q_len : Z;  q_bd : bytes;                 (* the body *)
  q_r : response;  q_rbuf : ptr;  q_L : Z;                        (* the response structure and its buffer *)
  q_flags : Z;
  q_block : bytes;                                                (* the header block that goes out *)
  q_resp : http;                                                  (* what the server answers *)
  q_ps : list bytes                                               (* how the transport cuts the answer *)
}.
Definition with_mem (w : world) (m : mem) : world := mkw m (w_ns w) (w_nr w) (w_nt w) (w_tr w).

(** The turn is one of a valid call whose response fits, not cut by the timeout; the last piece is not an empty read. *)
Definition turn_ok (cfg : config) (E : env) (P : parser) (t : transport) (q : turn) : Prop :=
  (forall w, w_mem w = q_mem q -> send_setup cfg E P t (q_h q) (q_hbuf q) (q_n q) (q_req q) (q_body q) (q_len q) (q_bd q) (q_r q) (q_rbuf q) (q_L q) w) /\
  no_parse_body (q_r q) = false /\
  wire_headers (q_flags q) (q_len q) (q_req q) (q_block q) /\ zlen (q_block q) <= q_n q /\
  http_ok (beqb (slice (q_req q) 0 4) (B "HEAD")) (q_resp q) /\ (forall d, p_body (q_resp q) <> ToClose d) /\ zlen (http_bytes (q_resp q)) <= q_L q /\
  concat (q_ps q) = http_bytes (q_resp q) /\ last (q_ps q) [] <> [] /\
  (forall nt, prompt cfg E (r_time (with_clock (q_r q))) nt (q_ps q)).

(** The calls are made one after the other and every one of them succeeds, sends its request and gives its own response; the
    log of the whole is [tr]. *)
Inductive session (fuel : nat) (cfg : config) (E : env) (P : parser) (t : transport) : world -> list turn -> list tev -> Prop :=
| SNil w : session fuel cfg E P t w [] []
| SCons w q qs h' r' w' tr trs :
    exchanges fuel cfg E P t (q_h q) (q_body q) (q_len q) (q_r q) (q_flags q) (with_mem w (q_mem q)) HTTPSuccess h' r' w' tr ->
    accepted tr = q_block q ++ q_bd q -> data_received tr = http_bytes (q_resp q) ->
    gives cfg (q_rbuf q) (q_L q) (q_resp q) (q_r q) r' w' tr ->
    session fuel cfg E P t w' qs trs ->
    session fuel cfg E P t w (q :: qs) (tr ++ trs).
