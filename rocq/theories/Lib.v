(** Lib.v — lemmas about slices, splices and memory. *)
From Verif Require Import Base.
From Coq Require Import Arith.

(** ** Element access by Z index *)
Definition zn (l : bytes) (i : Z) : Z := nth (Z.to_nat i) l 0.

Lemma zlen_nonneg {A} (l : list A) : 0 <= zlen l.
Proof. unfold zlen; lia. Qed.
Lemma zlen_nil {A} : zlen (@nil A) = 0.
Proof. reflexivity. Qed.
Lemma zlen_cons {A} (x : A) l : zlen (x :: l) = 1 + zlen l.
Proof. unfold zlen; simpl length; lia. Qed.
Lemma zlen_app {A} (a b : list A) : zlen (a ++ b) = zlen a + zlen b.
Proof. unfold zlen; rewrite app_length; lia. Qed.
Lemma zlen_zero {A} (l : list A) : zlen l = 0 -> l = [].
Proof. destruct l; auto. rewrite zlen_cons. pose proof (zlen_nonneg l); lia. Qed.
Lemma zlen_repeat {A} (x : A) n : zlen (repeat x n) = Z.of_nat n.
Proof. unfold zlen; rewrite repeat_length; lia. Qed.
Lemma zlen_map {A C} (f : A -> C) l : zlen (map f l) = zlen l.
Proof. unfold zlen; rewrite map_length; lia. Qed.
Lemma zlen_rev {A} (l : list A) : zlen (rev l) = zlen l.
Proof. unfold zlen; rewrite rev_length; lia. Qed.

Ltac zl :=
  repeat (rewrite ?zlen_app, ?zlen_cons, ?@zlen_nil in * );
  repeat match goal with
         | |- context [zlen ?l] => lazymatch goal with
             | H : 0 <= zlen l |- _ => fail
             | _ => pose proof (zlen_nonneg l) end
         | _ : context [zlen ?l] |- _ => lazymatch goal with
             | H : 0 <= zlen l |- _ => fail
             | _ => pose proof (zlen_nonneg l) end
         end.
Ltac zlia := zl; lia.

Lemma list_ext (a b : bytes) :
  zlen a = zlen b -> (forall i, 0 <= i < zlen a -> zn a i = zn b i) -> a = b.
Proof.
  intros L H. unfold zlen in *. apply (nth_ext _ _ 0 0); [lia|].
  intros n Hn. specialize (H (Z.of_nat n)). unfold zn in H. rewrite Nat2Z.id in H. apply H. lia.
Qed.

Lemma zn_app a b i : 0 <= i -> zn (a ++ b) i = if i <? zlen a then zn a i else zn b (i - zlen a).
Proof.
  intros Hi. unfold zn, zlen. destruct (Z.ltb_spec i (Z.of_nat (length a))).
  - rewrite app_nth1; [auto|lia].
  - rewrite app_nth2; [|lia]. f_equal. lia.
Qed.

Lemma zn_oob l i : zlen l <= i -> zn l i = 0.
Proof. intros. unfold zn, zlen in *. apply nth_overflow. lia. Qed.

Lemma zn_cons0 x l : zn (x :: l) 0 = x.
Proof. reflexivity. Qed.
Lemma zn_cons x l i : 0 < i -> zn (x :: l) i = zn l (i - 1).
Proof.
  intros. unfold zn. replace (Z.to_nat i) with (S (Z.to_nat (i - 1))) by lia. reflexivity.
Qed.

Lemma nth_skipn' (l : bytes) n i : nth i (skipn n l) 0 = nth (n + i) l 0.
Proof. revert l; induction n; intros l; simpl; auto. destruct l; simpl; auto. destruct i; auto. Qed.
Lemma nth_firstn' (l : bytes) n i : (i < n)%nat -> nth i (firstn n l) 0 = nth i l 0.
Proof.
  revert l i; induction n; intros l i H; [lia|]. destruct l; simpl; auto. destruct i; auto.
  apply IHn; lia.
Qed.

Lemma slice_len {A} (l : list A) o n :
  0 <= o -> 0 <= n -> o + n <= zlen l -> zlen (slice l o n) = n.
Proof. intros. unfold slice, zlen in *. rewrite firstn_length, skipn_length. lia. Qed.
Lemma slice_len_le {A} (l : list A) o n : 0 <= n -> zlen (slice l o n) <= n.
Proof. intros. unfold slice, zlen in *. rewrite firstn_length. lia. Qed.

Lemma zn_slice l o n i : 0 <= o -> 0 <= i < n -> zn (slice l o n) i = zn l (o + i).
Proof.
  intros. unfold zn, slice. rewrite nth_firstn' by lia. rewrite nth_skipn'. f_equal. lia.
Qed.

Lemma splice_len {A} (l : list A) o d :
  0 <= o -> o + zlen d <= zlen l -> zlen (splice l o d) = zlen l.
Proof.
  intros. unfold splice, zlen in *. rewrite !app_length, firstn_length, skipn_length. lia.
Qed.

Lemma zn_splice l o d i :
  0 <= o -> o + zlen d <= zlen l -> 0 <= i ->
  zn (splice l o d) i = if (o <=? i) && (i <? o + zlen d) then zn d (i - o) else zn l i.
Proof.
  intros Ho Hl Hi. unfold splice.
  assert (L1 : zlen (firstn (Z.to_nat o) l) = o).
  { pose proof (zlen_nonneg d). unfold zlen in *. rewrite firstn_length. lia. }
  rewrite zn_app by lia. rewrite L1.
  destruct (Z.ltb_spec i o).
  - replace (o <=? i) with false by lia. simpl. unfold zn. apply nth_firstn'. lia.
  - replace (o <=? i) with true by lia. simpl. rewrite zn_app by lia.
    destruct (Z.ltb_spec (i - o) (zlen d)).
    + replace (i <? o + zlen d) with true by lia. auto.
    + replace (i <? o + zlen d) with false by lia.
      unfold zn. rewrite nth_skipn'. f_equal. unfold zlen in *. lia.
Qed.

Lemma skipn_skipn' {A} (l : list A) a b : skipn a (skipn b l) = skipn (a + b) l.
Proof.
  revert l; induction b; intros l; simpl; [rewrite Nat.add_0_r; auto|].
  rewrite Nat.add_succ_r. destruct l; simpl; [destruct a; auto|]. apply IHb.
Qed.
Lemma slice_app {A} (l : list A) o n k :
  0 <= o -> 0 <= n -> 0 <= k -> slice l o (n + k) = slice l o n ++ slice l (o + n) k.
Proof.
  intros. unfold slice.
  replace (Z.to_nat (n + k)) with (Z.to_nat n + Z.to_nat k)%nat by lia.
  replace (Z.to_nat (o + n)) with (Z.to_nat n + Z.to_nat o)%nat by lia.
  rewrite <- skipn_skipn'.
  generalize (skipn (Z.to_nat o) l) as x. generalize (Z.to_nat k) as b.
  induction (Z.to_nat n); intros; simpl; auto. destruct x; simpl; [destruct b; auto|].
  f_equal. auto.
Qed.
Lemma slice_0 {A} (l : list A) o : slice l o 0 = [].
Proof. reflexivity. Qed.
Lemma slice_all {A} (l : list A) : slice l 0 (zlen l) = l.
Proof. unfold slice, zlen. simpl. rewrite Nat2Z.id. apply firstn_all. Qed.
Lemma slice_full {A} (l : list A) n : n = zlen l -> slice l 0 n = l.
Proof. intros ->. apply slice_all. Qed.
Lemma slice_zlen_slice {A} (l : list A) o k : slice l o (zlen (slice l o k)) = slice l o k.
Proof.
  unfold slice, zlen. rewrite Nat2Z.id, firstn_length.
  destruct (Nat.le_gt_cases (Z.to_nat k) (length (skipn (Z.to_nat o) l))).
  - rewrite Nat.min_l; auto.
  - rewrite Nat.min_r by lia. rewrite !firstn_all2; auto; lia.
Qed.
Lemma nth_repeat_in (x d : Z) n i : (i < n)%nat -> nth i (repeat x n) d = x.
Proof. revert i; induction n; intros i H; [lia|]. destruct i; simpl; auto. apply IHn. lia. Qed.
Lemma slice_1 (l : bytes) o : 0 <= o < zlen l -> slice l o 1 = [zn l o].
Proof.
  intros. apply list_ext.
  - rewrite slice_len by lia. reflexivity.
  - intros i Hi. rewrite slice_len in Hi by lia. rewrite zn_slice by lia.
    replace i with 0 by lia. rewrite zn_cons0. f_equal. lia.
Qed.
Lemma slice_cons (l : bytes) o n : 0 <= o -> o < zlen l -> 0 < n ->
  slice l o n = zn l o :: slice l (o + 1) (n - 1).
Proof.
  intros. replace n with (1 + (n - 1)) at 1 by lia. rewrite slice_app by lia.
  rewrite slice_1 by lia. reflexivity.
Qed.
Lemma slice_of_app_l (a b : bytes) o n :
  0 <= o -> 0 <= n -> o + n <= zlen a -> slice (a ++ b) o n = slice a o n.
Proof.
  intros. apply list_ext.
  - rewrite !slice_len; zlia.
  - intros i Hi. rewrite slice_len in Hi by zlia. rewrite !zn_slice by lia.
    rewrite zn_app by lia. replace (o + i <? zlen a) with true by lia. auto.
Qed.
Lemma slice_of_app_r (a b : bytes) o n :
  zlen a <= o -> 0 <= n -> o + n <= zlen a + zlen b -> slice (a ++ b) o n = slice b (o - zlen a) n.
Proof.
  intros. apply list_ext.
  - rewrite !slice_len; zlia.
  - intros i Hi. rewrite slice_len in Hi by zlia. rewrite !zn_slice by zlia.
    rewrite zn_app by zlia. replace (o + i <? zlen a) with false by lia. f_equal. lia.
Qed.
Lemma slice_slice (l : bytes) o n o' n' :
  0 <= o -> 0 <= o' -> 0 <= n' -> o' + n' <= n -> o + n <= zlen l ->
  slice (slice l o n) o' n' = slice l (o + o') n'.
Proof.
  intros. apply list_ext.
  - rewrite !slice_len; try lia. rewrite slice_len; lia.
  - intros i Hi. rewrite slice_len in Hi; [|lia|lia|rewrite slice_len; lia].
    rewrite !zn_slice by lia. f_equal. lia.
Qed.

Lemma splice_nil {A} (l : list A) o : splice l o [] = l.
Proof. unfold splice. simpl. rewrite Nat.add_0_r. apply firstn_skipn. Qed.

Lemma splice_adj (l : bytes) o (d1 d2 : bytes) :
  0 <= o -> o + zlen d1 + zlen d2 <= zlen l ->
  splice (splice l o d1) (o + zlen d1) d2 = splice l o (d1 ++ d2).
Proof.
  intros. pose proof (zlen_nonneg d1). pose proof (zlen_nonneg d2).
  assert (L : zlen (splice l o d1) = zlen l) by (apply splice_len; lia).
  apply list_ext.
  - rewrite !splice_len; zlia.
  - intros i Hi. rewrite splice_len in Hi by zlia.
    rewrite !zn_splice by zlia. rewrite zlen_app.
    destruct (Z.leb_spec (o + zlen d1) i); destruct (Z.ltb_spec i (o + zlen d1 + zlen d2)); simpl.
    + replace (o <=? i) with true by lia. replace (i <? o + (zlen d1 + zlen d2)) with true by lia.
      simpl. rewrite zn_app by lia. replace (i - o <? zlen d1) with false by lia. f_equal. lia.
    + replace (i <? o + (zlen d1 + zlen d2)) with false by lia. rewrite andb_false_r.
      replace (i <? o + zlen d1) with false by lia. rewrite andb_false_r. auto.
    + destruct (Z.leb_spec o i); simpl; auto.
      replace (i <? o + zlen d1) with true by lia.
      replace (i <? o + (zlen d1 + zlen d2)) with true by lia.
      rewrite zn_app by lia. replace (i - o <? zlen d1) with true by lia. auto.
    + lia.
Qed.

Lemma slice_splice_same (l : bytes) o (d : bytes) :
  0 <= o -> o + zlen d <= zlen l -> slice (splice l o d) o (zlen d) = d.
Proof.
  intros. pose proof (zlen_nonneg d). apply list_ext.
  - rewrite slice_len; try lia. rewrite splice_len; lia.
  - intros i Hi. rewrite slice_len in Hi by (rewrite ?splice_len; lia).
    rewrite zn_slice by lia. rewrite zn_splice by lia.
    replace (o <=? o + i) with true by lia. replace (o + i <? o + zlen d) with true by lia.
    simpl. f_equal. lia.
Qed.

Lemma slice_splice_disj (l : bytes) o (d : bytes) o' n :
  0 <= o -> o + zlen d <= zlen l -> 0 <= o' -> 0 <= n -> o' + n <= zlen l ->
  (o' + n <= o \/ o + zlen d <= o') ->
  slice (splice l o d) o' n = slice l o' n.
Proof.
  intros. pose proof (zlen_nonneg d). apply list_ext.
  - rewrite !slice_len; try lia. rewrite splice_len; lia.
  - intros i Hi. rewrite slice_len in Hi by (rewrite ?splice_len; lia).
    rewrite !zn_slice by lia. rewrite zn_splice by lia.
    destruct (Z.leb_spec o (o' + i)); destruct (Z.ltb_spec (o' + i) (o + zlen d)); simpl; auto; lia.
Qed.

(** ** Blocks *)
Lemma setblk_length m b l : length (setblk m b l) = length m.
Proof. revert b; induction m; intros [|b]; simpl; auto. Qed.
Lemma blk_setblk_other m b l b' : b <> b' -> blk (setblk m b l) b' = blk m b'.
Proof.
  unfold blk. revert b b'; induction m; intros [|b] [|b'] H; simpl; auto; congruence.
Qed.
Lemma blk_setblk_same m b l : zlen l = zlen (blk m b) -> blk (setblk m b l) b = l.
Proof.
  unfold blk. revert b; induction m; intros [|b] H; simpl in *; auto;
    symmetry; apply zlen_zero; auto.
Qed.
Lemma mem_ext (m m' : mem) : length m = length m' -> (forall b, blk m b = blk m' b) -> m = m'.
Proof. intros L H. apply (nth_ext _ _ [] []); auto. intros; apply H. Qed.
Lemma setblk_id m b : setblk m b (blk m b) = m.
Proof.
  apply mem_ext; [apply setblk_length|]. intros b'. destruct (Nat.eq_dec b b') as [->|].
  - apply blk_setblk_same; auto.
  - apply blk_setblk_other; auto.
Qed.

(** ** Regions *)
(** [object m p n]: the [n] bytes at [p] are part of one object. *)
Definition object (m : mem) (p : ptr) (n : Z) : Prop :=
  0 <= n /\ 0 <= po p /\ po p + n <= zlen (blk m (pb p)).
Definition bytes_at (m : mem) (p : ptr) (n : Z) : bytes := slice (blk m (pb p)) (po p) n.
Definition poff (p : ptr) (n : Z) : ptr := mkptr (pb p) (po p + n).
Definition write (m : mem) (p : ptr) (d : bytes) : mem :=
  setblk m (pb p) (splice (blk m (pb p)) (po p) d).

Lemma in_range_iff m p n : in_range m p n = true <-> object m p n.
Proof. unfold in_range, object. rewrite !andb_true_iff, !Z.leb_le. tauto. Qed.
Lemma in_range_t m p n : object m p n -> in_range m p n = true.
Proof. apply in_range_iff. Qed.

Lemma loadn_ok m p n : object m p n -> loadn m p n = Ret (bytes_at m p n).
Proof. intros H. unfold loadn. rewrite in_range_t; auto. Qed.
Lemma storen_ok m p d : object m p (zlen d) -> storen m p d = Ret (write m p d).
Proof. intros H. unfold storen. rewrite in_range_t; auto. Qed.
Lemma load1_ok m p : object m p 1 -> load1 m p = Ret (zn (blk m (pb p)) (po p)).
Proof. intros H. unfold load1. rewrite in_range_t; auto. Qed.
Lemma padd_ok m p n : 0 <= po p + n <= zlen (blk m (pb p)) -> padd m p n = Ret (poff p n).
Proof. intros. unfold padd. replace (0 <=? po p + n) with true by lia.
  replace (po p + n <=? zlen (blk m (pb p))) with true by lia. reflexivity. Qed.

Lemma bytes_at_len m p n : object m p n -> zlen (bytes_at m p n) = n.
Proof. intros (?&?&?). apply slice_len; auto. Qed.

Lemma write_length m p d : length (write m p d) = length m.
Proof. apply setblk_length. Qed.
Lemma blk_write m p d b : object m p (zlen d) ->
  blk (write m p d) b = if Nat.eqb (pb p) b then splice (blk m b) (po p) d else blk m b.
Proof.
  intros (_&H&H'). unfold write. destruct (Nat.eqb_spec (pb p) b) as [<-|N].
  - apply blk_setblk_same. apply splice_len; auto.
  - apply blk_setblk_other; auto.
Qed.
Lemma zlen_blk_write m p d b : object m p (zlen d) -> zlen (blk (write m p d) b) = zlen (blk m b).
Proof.
  intros H. rewrite blk_write; auto. destruct (Nat.eqb_spec (pb p) b) as [<-|N]; auto.
  destruct H as (_&?&?). apply splice_len; auto.
Qed.
Lemma object_write m p d q n : object m p (zlen d) -> (object (write m p d) q n <-> object m q n).
Proof. intros H. unfold object at 1 2. rewrite zlen_blk_write; tauto. Qed.
Lemma write_nil m p : write m p [] = m.
Proof. unfold write. rewrite splice_nil. apply setblk_id. Qed.

Lemma write_adj m p q d1 d2 :
  object m p (zlen d1 + zlen d2) -> q = poff p (zlen d1) ->
  write (write m p d1) q d2 = write m p (d1 ++ d2).
Proof.
  intros (A&B&C) ->. zl. assert (O1 : object m p (zlen d1)) by (repeat split; lia).
  apply mem_ext.
  - rewrite !write_length; auto.
  - intros b. rewrite blk_write; [|apply object_write; auto; unfold poff; repeat split; simpl; lia].
    rewrite !blk_write; [|repeat split; zlia|auto].
    simpl. destruct (Nat.eqb_spec (pb p) b) as [<-|]; auto.
    apply splice_adj; lia.
Qed.

(** The two memories agree except possibly on the [n] bytes at [p]. *)
Definition same_outside (m m' : mem) (p : ptr) (n : Z) : Prop :=
  length m = length m' /\
  (forall b, zlen (blk m b) = zlen (blk m' b)) /\
  (forall b i, 0 <= i -> ~ (b = pb p /\ po p <= i < po p + n) -> zn (blk m b) i = zn (blk m' b) i).

Lemma same_outside_refl m p n : same_outside m m p n.
Proof. repeat split; auto. Qed.
Lemma same_outside_sym m m' p n : same_outside m m' p n -> same_outside m' m p n.
Proof. intros (A&C&D). repeat split; auto. intros; symmetry; auto. Qed.
Lemma same_outside_trans m1 m2 m3 p n :
  same_outside m1 m2 p n -> same_outside m2 m3 p n -> same_outside m1 m3 p n.
Proof.
  intros (A&C&D) (A'&C'&D'). split; [congruence|]. split.
  - intros b. rewrite C; auto.
  - intros. rewrite D; auto.
Qed.
Lemma same_outside_weaken m m' p n q k :
  same_outside m m' p n -> pb p = pb q -> po q <= po p -> po p + n <= po q + k ->
  same_outside m m' q k.
Proof.
  intros (A&C&D) E L1 L2. split; [auto|]. split; [auto|].
  intros b i Hi N. apply D; auto. intros (->&?). apply N. split; auto. lia.
Qed.
Lemma same_outside_write m p d : object m p (zlen d) -> same_outside m (write m p d) p (zlen d).
Proof.
  intros O. split; [rewrite write_length; auto|]. split.
  - intros b. rewrite zlen_blk_write; auto.
  - intros b i Hi N. rewrite blk_write; auto. destruct (Nat.eqb_spec (pb p) b) as [<-|]; auto.
    destruct O as (?&?&?). rewrite zn_splice by lia.
    destruct (Z.leb_spec (po p) i); destruct (Z.ltb_spec i (po p + zlen d)); simpl; auto.
    exfalso; apply N; split; auto.
Qed.
Lemma same_outside_object m m' p n q k : same_outside m m' p n -> (object m q k <-> object m' q k).
Proof. intros (A&C&D). unfold object. rewrite C. tauto. Qed.

(** Two regions do not overlap. *)
Definition disjoint (p : ptr) (n : Z) (q : ptr) (k : Z) : Prop :=
  pb p <> pb q \/ po p + n <= po q \/ po q + k <= po p.

Lemma bytes_at_same m m' p n q k :
  same_outside m m' p n -> object m q k -> disjoint p n q k -> bytes_at m' q k = bytes_at m q k.
Proof.
  intros S O Dj. pose proof O as O'. apply (same_outside_object _ _ _ _ _ _ S) in O'.
  destruct S as (A&C&D). apply list_ext.
  - rewrite !bytes_at_len; auto.
  - intros i Hi. rewrite bytes_at_len in Hi by auto. unfold bytes_at.
    destruct O as (?&?&?), O' as (?&?&?). rewrite !zn_slice by lia.
    symmetry. apply D; [lia|]. unfold disjoint in Dj. intros (E&?). destruct Dj; [congruence|lia].
Qed.

Lemma bytes_at_write_same m p d : object m p (zlen d) -> bytes_at (write m p d) p (zlen d) = d.
Proof.
  intros O. unfold bytes_at. rewrite blk_write by auto. rewrite Nat.eqb_refl.
  destruct O as (?&?&?). apply slice_splice_same; lia.
Qed.
Lemma bytes_at_app m p n k : 0 <= po p -> 0 <= n -> 0 <= k ->
  bytes_at m p (n + k) = bytes_at m p n ++ bytes_at m (poff p n) k.
Proof. intros. apply slice_app; lia. Qed.

Ltac obj :=
  unfold object, poff in *; cbn [pb po] in *;
  repeat match goal with H : _ /\ _ |- _ => destruct H end;
  repeat split; zlia.
