(** SpecLive.v — a slow network that does its part.  Nothing here refers to the library's code. *)
From Verif Require Import Base Lib.

(** The transport never fails to send, and returns zero for the same data at most [z] times in a row. *)
Definition live_send (E : env) (z : nat) : Prop :=
  (forall i k, 0 < k -> 0 <= e_send E i k) /\ (forall i k, 0 < k -> exists j, (j <= z)%nat /\ 0 < e_send E (i + j)%nat k).
(** Of the pieces in which the response comes at most [z] in a row are empty. *)
Definition live_pieces (ps : list bytes) (z : nat) : Prop := forall a e b, ps = a ++ repeat [] e ++ b -> (e <= z)%nat.
(** From the [n]-th call on recv has nothing to give. *)
Definition silent_from (E : env) (n : nat) : Prop := forall i room, (n <= i)%nat -> e_recv E i room = (0, []).
