(** SpecTime.v — how long a call takes.  [e_time E n] is the time of the application at its [n]th reading of the clock (which the library sees modulo
    2^32).  Nothing here refers to the library's code. *)
From Verif Require Import Base Lib.

(** Between two readings of the clock pass at most [D] milliseconds (in between lies one call of the transport, and what the parser and the
    application's header callback do). *)
Definition paced (E : env) (D : Z) : Prop := forall n, 0 <= e_time E (S n) - e_time E n <= D.
(** Readings of the clock in a log. *)
Fixpoint readings (tr : list tev) : nat := match tr with [] => O | TTime _ :: tr' => S (readings tr') | _ :: tr' => readings tr' end.
(** Calls of the transport that sent or received something. *)
Fixpoint progress (tr : list tev) : Z :=
  match tr with [] => 0 | TSend _ r :: tr' | TRecv _ _ r _ :: tr' => (if 0 <? r then 1 else 0) + progress tr' | _ :: tr' => progress tr' end.
(** Milliseconds from the first to the last reading of the clock in a call with the log [tr], begun in [w]. *)
Definition duration (E : env) (w : world) (tr : list tev) : Z := e_time E (w_nt w + readings tr - 1) - e_time E (w_nt w).
