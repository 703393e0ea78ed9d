(** SpecPipeline.v — the vocabulary of C94: several requests sent before their responses are fetched.  Nothing here refers to the library's
    code except through its API. *)
From Verif Require Import Base Lib ModelRequest ModelSend ModelResponse SpecRequest SpecSend SpecResponse SpecHttp SpecParser SpecExchange SpecSeries SpecSession SpecAgain ProofsRequest.

(** A request to be sent: HTTPClient_SendHttpHeaders, and HTTPClient_SendHttpData for its body if there is one.  [k_mem] is the memory the
    application has made when it calls them. *)
Record asking := mkasking {
  k_mem : mem; k_time : timefn;
  k_h : reqHeaders;  k_hbuf : ptr;  k_n : Z;  k_req : bytes;      (* the request [k_req], in the [k_n] bytes at [k_hbuf] *)
  k_body : option ptr;  k_len : Z;  k_bd : bytes;                 (* the body *)
  k_flags : Z;
  k_block : bytes                                                 (* the header block that goes out *)
}.
(** A response to be fetched with HTTPClient_ReceiveAndParseHttpResponse: [f_h] is the structure of its request, [f_mem] the memory then. *)
Record fetching := mkfetching {
  f_mem : mem;
  f_h : reqHeaders;  f_req : bytes;
  f_r : response;  f_buf : ptr;  f_L : Z;
  f_answer : answer                                               (* what the server sends, and how the transport cuts it *)
}.
(** What the application does, in this order; in between it does what it likes with its memory. *)
Inductive act := Ask (k : asking) | Fetch (f : fetching).

Definition act_ok (cfg : config) (E : env) (P : parser) (t : transport) (fuel : nat) (x : act) : Prop :=
  match x with
  | Ask k =>
      k_time k <> TNull /\ holds (k_mem k) (k_h k) (k_hbuf k) (k_n k) (k_req k) /\ 0 <= k_len k <= INT32_MAX /\ k_n k + 30 < SZ cfg /\
      body_arg (k_mem k) (k_hbuf k) (k_n k) (k_body k) (k_len k) (k_bd k) /\
      wire_headers (k_flags k) (k_len k) (k_req k) (k_block k) /\ zlen (k_block k) <= k_n k /\ k_n k + k_len k < Z.of_nat fuel
  | Fetch f =>
      (forall w, w_mem w = f_mem f -> recv_setup cfg E P t (f_r f) (f_h f) (f_buf f) (f_L f) (f_req f) w) /\ no_parse_body (f_r f) = false /\
      answer_ok cfg E (r_time (f_r f)) (beqb (slice (f_req f) 0 4) (B "HEAD")) (f_L f) (f_answer f) /\ (length (a_ps (f_answer f)) < fuel)%nat
  end.
Definition asked (x : act) : bytes := match x with Ask k => k_block k ++ k_bd k | Fetch _ => [] end.
Definition fetched (x : act) : list bytes := match x with Ask _ => [] | Fetch f => a_ps (f_answer f) end.
Definition answered_with (x : act) : bytes := match x with Ask _ => [] | Fetch f => http_bytes (a_resp (f_answer f)) end.

(** Every call succeeds; a call that asks sends its own request, a call that fetches receives and gives its own response. *)
Inductive pipeline (fuel : nat) (cfg : config) (E : env) (P : parser) (t : transport) : world -> list act -> list tev -> Prop :=
| PNil w : pipeline fuel cfg E P t w [] []
| PAsk w k l h1 w1 w2 tr trs :
    SendHttpHeaders fuel cfg E (Some t) (k_time k) (Some (k_h k)) (k_len k) (k_flags k) (with_mem w (k_mem k)) = Ret (HTTPSuccess, Some h1, w1) ->
    match k_body k with
    | Some p => SendHttpData fuel cfg E (Some t) (k_time k) (Some p) (k_len k) w1 = Ret (HTTPSuccess, w2)
    | None => w2 = w1
    end ->
    w_tr w2 = w_tr w ++ tr -> accepted tr = k_block k ++ k_bd k -> recvs tr = 0 ->
    holds (w_mem w2) h1 (k_hbuf k) (k_n k) (k_block k) ->
    pipeline fuel cfg E P t w2 l trs ->
    pipeline fuel cfg E P t w (Ask k :: l) (tr ++ trs)
| PFetch w f l r1 w1 tr trs :
    receives fuel cfg E P t (f_r f) (f_h f) (with_mem w (f_mem f)) HTTPSuccess r1 w1 tr ->
    no_send tr -> data_received tr = http_bytes (a_resp (f_answer f)) -> gives cfg (f_buf f) (f_L f) (a_resp (f_answer f)) (f_r f) r1 w1 tr ->
    pipeline fuel cfg E P t w1 l trs ->
    pipeline fuel cfg E P t w (Fetch f :: l) (tr ++ trs).
