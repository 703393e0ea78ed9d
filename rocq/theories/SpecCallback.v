(** SpecCallback.v — what functions of the application may do to memory while the library runs (C93), stated without the model's helpers. *)
From Verif Require Import Base Lib ModelRequest ModelSend ModelResponse SpecRequest SpecSend SpecResponse ModelCallback.

(** Places in memory: sets of (block, index). *)
Definition place := nat -> Z -> Prop.
(** The [n] bytes at [p]. *)
Definition within (p : ptr) (n : Z) : place := fun b i => b = pb p /\ po p <= i < po p + n.
Definition elsewhere (S : place) : place := fun b i => ~ S b i.

(** Two memories with the same blocks (nothing freed, moved or resized) and the same bytes at the places [S]. *)
Definition same_on (S : place) (m m' : mem) : Prop :=
  length m = length m' /\
  (forall b, zlen (blk m b) = zlen (blk m' b)) /\
  (forall b i, 0 <= i -> S b i -> zn (blk m b) i = zn (blk m' b) i).

(** The contract for functions of the application: whatever happened before, they leave the bytes at [S] alone (and free nothing).  Everywhere
    else they may write what they like. *)
Definition keeps (K : effect) (S : place) : Prop := forall past m, same_on S m (K past m).

(** The entries of the log that are calls of functions of the application: the transport, the clock and the header callback. *)
Definition asks (e : tev) : bool :=
  match e with TSend _ _ | TRecv _ _ _ _ | TTime _ | THeader _ _ _ _ _ _ _ => true | _ => false end.

(** [doing K R past m past' m']: between the logs [past] and [past'] memory went from [m] to [m'] by nothing else than
    - writes of the library (or of recv into the buffer it was given) at places of [R], and
    - what the application's functions do, each time one of them is called. *)
Inductive doing (K : effect) (R : place) (past : list tev) (m : mem) : list tev -> mem -> Prop :=
| doing_none : doing K R past m past m
| doing_library past1 m1 m2 : doing K R past m past1 m1 -> same_on (elsewhere R) m1 m2 -> doing K R past m past1 m2
| doing_event past1 m1 e : doing K R past m past1 m1 -> asks e = false -> doing K R past m (past1 ++ [e]) m1
| doing_call past1 m1 e : doing K R past m past1 m1 -> asks e = true -> doing K R past m (past1 ++ [e]) (K (past1 ++ [e]) m1).

(** The same run seen in the two programs: the same calls of the application's functions with the same arguments and the same results, the same
    bytes at [S]. *)
Record same_run (S : place) (w w' : world) : Prop := {
  sr_sends : w_ns w = w_ns w';
  sr_recvs : w_nr w = w_nr w';
  sr_times : w_nt w = w_nt w';
  sr_log : w_tr w = w_tr w';
  sr_mem : same_on S (w_mem w) (w_mem w')
}.
