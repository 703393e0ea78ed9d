(** SpecAgain.v — the vocabulary of C92: several responses to one request (103 Early Hints before the answer, for instance), each
    fetched by a call of its own.  Nothing here refers to the library's code except through its API. *)
From Verif Require Import Base Lib ModelRequest ModelSend ModelResponse SpecRequest SpecSend SpecResponse SpecHttp SpecParser SpecExchange SpecSeries.

(** A response and how the transport cuts it. *)
Record answer := mkanswer { a_resp : http; a_ps : list bytes }.
(** A well-formed response whose end can be seen, that fits the [L] bytes; its pieces, the last of which is not an empty read; no
    pause is as long as the timeout. *)
Definition answer_ok (cfg : config) (E : env) (tf : timefn) (head : bool) (L : Z) (a : answer) : Prop :=
  http_ok head (a_resp a) /\ ends (a_resp a) /\ zlen (http_bytes (a_resp a)) <= L /\
  concat (a_ps a) = http_bytes (a_resp a) /\ last (a_ps a) [] <> [] /\ (forall nt, prompt cfg E tf nt (a_ps a)).

(** Calls of HTTPClient_ReceiveAndParseHttpResponse one behind the other with the same request and response structures, nothing in
    between: every one of them succeeds, receives exactly its own response and gives exactly that.  From [r], [w] to [r'], [w'];
    the log of all is [tr]. *)
Inductive reads_on (fuel : nat) (cfg : config) (E : env) (P : parser) (t : transport) (rh : reqHeaders) (buf : ptr) (L : Z) :
  response -> world -> list answer -> response -> world -> list tev -> Prop :=
| RNil r w : reads_on fuel cfg E P t rh buf L r w [] r w []
| RCons r w a l r1 w1 tr r' w' trs :
    receives fuel cfg E P t r rh w HTTPSuccess r1 w1 tr ->
    data_received tr = http_bytes (a_resp a) -> gives cfg buf L (a_resp a) r r1 w1 tr ->
    reads_on fuel cfg E P t rh buf L r1 w1 l r' w' trs ->
    reads_on fuel cfg E P t rh buf L r w (a :: l) r' w' (tr ++ trs).
