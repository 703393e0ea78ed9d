(** SpecGrow.v — the vocabulary of C78: the same request structure with a larger buffer. *)
From Verif Require Import Base Lib ModelRequest ModelSend ModelResponse SpecRequest.

Definition larger (n : Z) (h : reqHeaders) : reqHeaders := mkrh (rh_buf h) n (rh_len h).
(** The result of HTTPClient_Send with the request structure enlarged. *)
Definition larger_result (n : Z) (x : res (status * option reqHeaders * option response * world)) : res (status * option reqHeaders * option response * world) :=
  match x with Ret (st, Some h, r, w) => Ret (st, Some (larger n h), r, w) | x => x end.
