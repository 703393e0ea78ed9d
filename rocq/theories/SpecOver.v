(** SpecOver.v — transports that break their contract: what they may claim.  Nothing here refers to the library's code. *)
From Verif Require Import Base Lib.
(** No send of the log claims to have sent more than it was offered. *)
Definition honest_sends (tr : list tev) : Prop := Forall (fun e => match e with TSend d r => r <= zlen d | _ => True end) tr.
(** At some call from the [k]th on the transport would claim, being offered [room] bytes (not none), to have sent more. *)
Definition overclaims (E : env) (k : nat) (room : Z) : Prop := exists i, (k <= i)%nat /\ 0 < room < e_send E i room.
(** What recv returns is an int32_t. *)
Definition recv_int32 (E : env) : Prop := forall i k, fst (e_recv E i k) <= 2147483647.
