(** SpecRelease.v — a call in a build without assertions compared with the same call in a build with them. *)
From Verif Require Import Base ModelRequest ModelRelease SpecRequest.

(** If the call returns with assertions, or is still running, then it does so without, with the same result, memory and log. *)
Definition as_asserted {A} (x y : res A) : Prop := (forall a, x = Ret a -> y = Ret a) /\ (forall w, x = More w -> y = More w).
(** A series of calls (as [history] of SpecRequest.v) in a build without assertions. *)
Fixpoint history_r (cfg : config) (m : mem) (h : reqHeaders) (cs : list call) : res (list status * reqHeaders * mem) :=
  match cs with
  | [] => Ret ([], h, m)
  | c :: cs' =>
      ' (st, oh, m1) <-
        match c with
        | CInit ri => InitializeRequestHeaders_r cfg m (Some h) (Some ri)
        | CAdd f fl v vl => AddHeader_r cfg m (Some h) f fl v vl
        | CRange s e => AddRangeHeader_r cfg m (Some h) s e
        end ;;
      match oh with
      | None => Ub UbNull
      | Some h1 => ' (sts, h2, m2) <- history_r cfg m1 h1 cs' ;; Ret (st :: sts, h2, m2)
      end
  end.
