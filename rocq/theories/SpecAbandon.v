(** SpecAbandon.v — a call that is abandoned: the task that made it is stopped at some moment and never goes on. *)
From Verif Require Import Base Lib ModelRequest ModelSend ModelResponse ModelReadHeader ModelTask SpecRequest SpecTask.

(** A task alone in memory: [reaches E m k m1 k1]: from memory [m] and task [k], it gets to memory [m1] and task [k1] (any number of stops later). *)
Inductive reaches {A} (E : env) (m : mem) (k : task A) : mem -> task A -> Prop :=
| reaches_start : reaches E m k m k
| reaches_step m1 k1 m2 k2 : reaches E m k m1 k1 -> go E m1 k1 = (m2, k2) -> reaches E m k m2 k2.
(** [m1] is what memory holds at some moment (from before its first step to after its last) of a call that runs program [p] in memory [m]. *)
Definition moment {A} (p : prog A) (m m1 : mem) : Prop := exists E w k1, reaches E m (Going p w) m1 k1.
(** [a] is a beginning of [b]. *)
Definition beginning (a b : bytes) : Prop := exists r, b = a ++ r.
(** The call asks to add the header with name [f] and value [v]; the texts can be read, do not overlap the [n]-byte buffer at [buf], and the lengths
    do not exceed what size_t can count. *)
Definition adds (cfg : config) (m : mem) (buf : ptr) (n : Z) (c : call) (f v : bytes) : Prop :=
  match c with
  | CInit _ => False
  | CAdd field fl value vl => arg_for m buf n field fl f /\ arg_for m buf n value vl v /\ 0 < fl /\ 0 < vl /\ n + fl + vl + 6 < SZ cfg
  | CRange s e => is_int32 s /\ is_int32 e /\ ~ range_rejected s e /\ f = B "Range" /\ range_value s e v /\ n + 38 < SZ cfg
  end.
