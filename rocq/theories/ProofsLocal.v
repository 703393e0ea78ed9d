(** ProofsLocal.v — a call of the library looks at and changes nothing but the objects its arguments point to. *)
From Verif Require Import Base Lib ModelRequest ModelSend ModelResponse ModelReadHeader ModelTask SpecRequest SpecTask ProofsTask.

Lemma padd_in T m p n q : padd m p n = Ret q -> inp T p -> inp T q.
Proof. unfold padd. destruct (_ && _); [|discriminate]. intros H K. injection H as <-. exact K. Qed.

(** [S]: the objects it may look at; [W]: those it may change. *)
Section local.
Variables S W : nat -> Prop.
Hypothesis WS : forall b, W b -> S b.
Notation winp := (inp W).  Notation wino := (ino W).  Notation inp := (inp S).  Notation ino := (ino S).  Notation ins := (ins S).  Notation agree_on := (agree_on S).
Lemma wi p : winp p -> inp p.
Proof. apply WS. Qed.
Local Hint Resolve wi : core.
Record near (M1 M2 m1 m2 : mem) : Prop := mknear { n_in : agree_on m1 m2; n_1 : forall b, ~ W b -> blk m1 b = blk M1 b; n_2 : forall b, ~ W b -> blk m2 b = blk M2 b }.
Lemma near_refl m1 m2 : agree_on m1 m2 -> near m1 m2 m1 m2.
Proof. intros H. constructor; auto. Qed.
Lemma near_trans M1 M2 m1 m2 m1' m2' : near M1 M2 m1 m2 -> near m1 m2 m1' m2' -> near M1 M2 m1' m2'.
Proof. intros [A B C] [A' B' C']. constructor; auto; intros b H; [rewrite B', B|rewrite C', C]; auto. Qed.

Lemma rr_bind2 {A A' C C'} (R : A -> A' -> Prop) (Q : C -> C' -> Prop) x y f g : rr R x y -> (forall a b, R a b -> rr Q (f a) (g b)) -> rr Q (bind x f) (bind y g).
Proof. destruct x, y; cbn [rr bind]; intros H K; try contradiction; auto. Qed.
Lemma rr_same2 {A C C'} (Q : C -> C' -> Prop) (x : res A) f g : (forall a, x = Ret a -> rr Q (f a) (g a)) -> rr Q (bind x f) (bind x g).
Proof. destruct x; cbn [rr bind]; auto. Qed.

(** ** Memory *)
Section two.
Variables m1 m2 : mem.
Hypothesis AG : agree_on m1 m2.
Lemma range_eq p n : inp p -> in_range m2 p n = in_range m1 p n.
Proof. intros H. unfold in_range. rewrite (AG _ H). reflexivity. Qed.
Lemma loadn_eq p n : inp p -> loadn m2 p n = loadn m1 p n.
Proof. intros H. unfold loadn. rewrite (range_eq _ _ H), (AG _ H). reflexivity. Qed.
Lemma load1_eq p : inp p -> load1 m2 p = load1 m1 p.
Proof. intros H. unfold load1. rewrite (range_eq _ _ H), (AG _ H). reflexivity. Qed.
Lemma padd_eq p n : inp p -> padd m2 p n = padd m1 p n.
Proof. intros H. unfold padd. rewrite (AG _ H). reflexivity. Qed.
End two.
Lemma storen_near M1 M2 m1 m2 p d : near M1 M2 m1 m2 -> winp p -> rr (near M1 M2) (storen m1 p d) (storen m2 p d).
Proof.
  intros [A B C] H. unfold storen. rewrite (range_eq m1 m2 A _ _ (WS _ H)), (A _ (WS _ H)). destruct (in_range m1 p (zlen d)) eqn:R; cbn [rr]; auto.
  unfold in_range in R. apply andb_prop in R as [R R3]. apply andb_prop in R as [R1 R2].
  assert (L : forall m, blk m (pb p) = blk m1 (pb p) -> blk (setblk m (pb p) (splice (blk m1 (pb p)) (po p) d)) (pb p) = splice (blk m1 (pb p)) (po p) d).
  { intros m Q. apply blk_setblk_same. rewrite Q. unfold splice. rewrite !zlen_app. unfold zlen in *. rewrite firstn_length, skipn_length. lia. }
  constructor.
  - intros b Hb. destruct (Nat.eq_dec (pb p) b) as [<-|N]; [rewrite !L by auto using WS; auto|]. rewrite !blk_setblk_other by auto. apply A. exact Hb.
  - intros b Hb. rewrite blk_setblk_other; auto. intros <-. exact (Hb H).
  - intros b Hb. rewrite blk_setblk_other; auto. intros <-. exact (Hb H).
Qed.
End local.
