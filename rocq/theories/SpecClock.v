(** SpecClock.v — the vocabulary of C76.  Nothing here refers to the library's code. *)
From Verif Require Import Base.

(** The same transport, with a clock that is [c] milliseconds ahead of (behind, if negative) the other one; what the application's function
    returns is a 32-bit number and wraps around. *)
Definition shifted (c : Z) (E : env) : env := mkenv (e_send E) (e_recv E) (fun i => e_time E i + c).
(** The same event in the log of a run with the shifted clock. *)
Definition reclock (c : Z) (e : tev) : tev := match e with TTime v => TTime ((v + c) mod 4294967296) | _ => e end.
(** Two worlds reached from logs that are equal up to [T]: the same memory, as many calls of the transport and of the clock, and the same log but
    for the readings of the clock. *)
Record same_but_clock (c : Z) (T : list tev) (w w' : world) : Prop := mksbc {
  sc_mem : w_mem w' = w_mem w;
  sc_ns : w_ns w' = w_ns w;  sc_nr : w_nr w' = w_nr w;  sc_nt : w_nt w' = w_nt w;
  sc_tr : exists tr, w_tr w = T ++ tr /\ w_tr w' = T ++ map (reclock c) tr
}.
(** Two outcomes of a call that agree: it returned the same in worlds that are the same but for the clock; or it is still running, or went wrong
    in the same way. *)
Definition agree (c : Z) (T : list tev) {A : Type} (x y : res (A * world)) : Prop :=
  match x, y with
  | Ret (a, w), Ret (b, w') => b = a /\ same_but_clock c T w w'
  | More _, More _ => True
  | Ub k, Ub k' => k = k'
  | AssertFail l, AssertFail l' => l = l'
  | _, _ => False
  end.
