(** SpecLog.v — what may be logged. *)
From Verif Require Import Base Lib ModelLog.

(** A text of [n] bytes at [s] may be logged: it is part of an object, all of its bytes are the application's to show, and its length is a
    positive int. *)
Definition may_log (G : logging) (m : mem) (s : src) (n : Z) : Prop :=
  0 <= n <= INT32_MAX /\
  match s with
  | SNull => True
  | SLit l => n <= zlen l
  | SAt p => object m p n /\ forall o, po p <= o < po p + n -> lg_may G (pb p) o = true
  end.
(** The parser has a reason for every way to end a call. *)
Definition has_reasons (G : logging) : Prop := forall e, lg_reason G e = true.
