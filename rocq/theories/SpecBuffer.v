(** SpecBuffer.v — the vocabulary of C74, C75 and C77.  Nothing here refers to the library's code. *)
From Verif Require Import Base Lib ModelRequest ModelSend ModelResponse SpecRequest SpecSend SpecResponse.

(** The [n] bytes at place [a] of the response buffer have nothing to do with the body the call put together; with the do-not-parse-body flag it puts
    none together. *)
Definition apart (buf : ptr) (r r' : response) (a n : Z) : Prop :=
  no_parse_body r = true \/ forall b, r_body r' = Some (poff buf b) -> a + n <= b \/ b + r_bodyLen r' <= a.

(** How many header sections the parser completed. *)
Definition sections (tr : list tev) : nat := length (filter (fun e => match e with TEvent (EvHeadersComplete _ _ _ _) => true | _ => false end) tr).

(** C77: a transport that stores what it says it received and nothing else. *)
Definition recv_exact (E : env) : Prop := forall i k, zlen (snd (e_recv E i k)) = Z.max 0 (fst (e_recv E i k)).
(** The data with the body put together at the place of its first piece; they stay as they are if there is none. *)
Definition put_together (v : view) (data : bytes) : bytes :=
  match v_bstart v with Some b => splice data b (v_body v) | None => data end.
