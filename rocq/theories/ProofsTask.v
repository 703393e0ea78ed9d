(** ProofsTask.v — ModelTask.v says the same as ModelRequest.v, ModelSend.v, ModelResponse.v and ModelReadHeader.v. *)
From Verif Require Import Base Lib ModelRequest ModelSend ModelResponse ModelReadHeader ModelTask SpecRequest SpecTask.

(** A program run alone, without interruption. *)
Fixpoint exec {A} (E : env) (t : tree A) (w : world) : res (A * world) :=
  match t with
  | TRet a m => Ret (a, set_mem w m)
  | TUb k => Ub k
  | TAssert l => AssertFail l
  | TMore => More w
  | TCall q m k => let '(n, d, w') := answer E q w in exec E (k n d m) w'
  end.
Definition run {A} (E : env) (p : prog A) (w : world) : res (A * world) := exec E (p (w_mem w)) w.

Definition rr {A C} (R : A -> C -> Prop) (x : res A) (y : res C) : Prop :=
  match x, y with
  | Ret a, Ret b => R a b
  | Ub k, Ub k' => k = k'
  | AssertFail l, AssertFail l' => l = l'
  | More _, More _ => True
  | _, _ => False
  end.
Lemma rr_imp {A C} (R R' : A -> C -> Prop) x y : rr R x y -> (forall a b, R a b -> R' a b) -> rr R' x y.
Proof. destruct x, y; cbn [rr]; auto. Qed.
Lemma set_mem_id w : set_mem w (w_mem w) = w. Proof. destruct w; reflexivity. Qed.
Lemma set_mem_mem w m m' : set_mem (set_mem w m) m' = set_mem w m'. Proof. reflexivity. Qed.
Lemma answer_mem E q w m : answer E q (set_mem w m) = let '(n, d, w') := answer E q w in (n, d, set_mem w' m).
Proof. destruct w, q; cbn; auto. destruct (e_recv E _ room); reflexivity. Qed.
Lemma exec_mem {A} E (t : tree A) : forall w m, rr eq (exec E t w) (exec E t (set_mem w m)).
Proof.
  induction t as [a m'|k|l| |q m' k IH]; intros w m; cbn [exec rr]; auto.
  rewrite answer_mem. destruct (answer E q w) as [[n d] w']. apply IH.
Qed.
Lemma rr_trans {A C D} (R : A -> C -> Prop) (Q : C -> D -> Prop) x y z : rr R x y -> rr Q y z -> rr (fun a d => exists c, R a c /\ Q c d) x z.
Proof. destruct x, y, z; cbn [rr]; intros; try contradiction; subst; eauto. Qed.
Lemma rr_eq {A C} (R : A -> C -> Prop) x y z : rr eq x y -> rr R y z -> rr R x z.
Proof. destruct x, y, z; cbn [rr]; intros; try contradiction; subst; auto. Qed.
Lemma exec_bind {A C} E (t : tree A) (f : A -> prog C) : forall w, rr eq (exec E (tbind t f) w) (bind (exec E t w) (fun x => run E (f (fst x)) (snd x))).
Proof.
  induction t as [a m'|k|l| |q m' k IH]; intros w; cbn [exec tbind bind rr]; auto.
  - unfold run. cbn [fst snd set_mem w_mem]. apply exec_mem.
  - destruct (answer E q w) as [[n d] w']. apply IH.
Qed.
Lemma rr_bind {A C X Y} E (p : prog A) (f : A -> prog C) w (x : res X) (g : X -> res Y) (R : A * world -> X -> Prop) (Q : C * world -> Y -> Prop) :
  rr R (run E p w) x -> (forall a w' b, R (a, w') b -> rr Q (run E (f a) w') (g b)) -> rr Q (run E (pbind p f) w) (bind x g).
Proof.
  intros H K. unfold pbind. unfold run at 1. eapply rr_eq; [apply exec_bind|]. unfold run in H. destruct (exec E (p (w_mem w)) w) as [[a w']| | |] eqn:Q0, x; cbn [rr bind fst snd] in *; try contradiction; auto.
Qed.
Lemma run_reading {A} E (f : mem -> res A) w : rr (fun x b => fst x = b /\ snd x = w) (run E (reading f) w) (f (w_mem w)).
Proof. unfold run, reading. destruct (f (w_mem w)); cbn [exec rr fst snd]; auto. rewrite set_mem_id. auto. Qed.
Lemma run_fixed {A} E (x : res A) w : rr (fun x b => fst x = b /\ snd x = w) (run E (fixed x) w) x.
Proof. apply (run_reading E (fun _ => x)). Qed.
Lemma run_writing {A} E (f : mem -> res (A * mem)) w : rr (fun x b => x = (fst b, set_mem w (snd b))) (run E (writing f) w) (f (w_mem w)).
Proof. unfold run, writing. destruct (f (w_mem w)) as [[a m]| | |]; cbn [exec rr fst snd]; auto. Qed.
Lemma run_ret {A} E (a : A) w : run E (pret a) w = Ret (a, w).
Proof. unfold run, pret. cbn [exec]. rewrite set_mem_id. reflexivity. Qed.
Lemma answer_keeps E q w : w_mem (snd (answer E q w)) = w_mem w.
Proof. destruct q; cbn; auto. destruct (e_recv E _ _); reflexivity. Qed.
Lemma rr_stop {C Y} E q (f : Z * bytes -> prog C) w (Q : C * world -> Y -> Prop) (y : res Y) n d w' :
  answer E q w = (n, d, w') -> rr Q (run E (f (n, d)) w') y -> rr Q (run E (pbind (stop q) f) w) y.
Proof.
  intros H K. unfold run, pbind, stop. cbn [tbind exec]. rewrite H. unfold run in K. pose proof (answer_keeps E q w) as M. rewrite H in M. cbn [snd] in M. rewrite M in K. exact K.
Qed.
Lemma rr_note {C Y} E e (f : unit -> prog C) w (Q : C * world -> Y -> Prop) (y : res Y) :
  rr Q (run E (f tt) (log w e)) y -> rr Q (run E (pbind (note e) f) w) y.
Proof. intros K. unfold run, pbind, note, stop, pret. cbn. exact K. Qed.
Lemma rr_fixed {A C Y} E (x : res A) (f : A -> prog C) w (g : A -> res Y) (Q : C * world -> Y -> Prop) :
  (forall a, x = Ret a -> rr Q (run E (f a) w) (g a)) -> rr Q (run E (pbind (fixed x) f) w) (bind x g).
Proof. intros K. destruct x; unfold run, pbind, fixed, reading; cbn [tbind exec bind rr]; auto. apply K. reflexivity. Qed.
Lemma rr_reading {A C Y} E (x : mem -> res A) (f : A -> prog C) w (g : A -> res Y) (Q : C * world -> Y -> Prop) :
  (forall a, x (w_mem w) = Ret a -> rr Q (run E (f a) w) (g a)) -> rr Q (run E (pbind (reading x) f) w) (bind (x (w_mem w)) g).
Proof. intros K. unfold run, pbind, reading. destruct (x (w_mem w)); cbn [tbind exec bind rr]; auto. apply K. reflexivity. Qed.
Lemma rr_writing {A C Y} E (x : mem -> res (A * mem)) (f : A -> prog C) w (g : A * mem -> res Y) (Q : C * world -> Y -> Prop) :
  (forall a m, x (w_mem w) = Ret (a, m) -> rr Q (run E (f a) (set_mem w m)) (g (a, m))) -> rr Q (run E (pbind (writing x) f) w) (bind (x (w_mem w)) g).
Proof.
  intros K. unfold pbind, writing. unfold run at 1. destruct (x (w_mem w)) as [[a m]| | |]; cbn [tbind exec bind rr]; auto. specialize (K a m eq_refl).
  unfold run in K. cbn [set_mem w_mem] in K. eapply rr_eq; [apply (exec_mem E (f a m) w m)|]. exact K.
Qed.
Lemma run_more {A} E w : rr (fun x (y : A * world) => x = y) (run E (fun _ => @TMore A) w) (More w).
Proof. exact Logic.I. Qed.
Lemma run_time E tf w : rr eq (run E (time_p tf) w) (get_time E tf w).
Proof. destruct tf; cbn [time_p]; [reflexivity|rewrite run_ret; reflexivity|]. eapply rr_stop; [reflexivity|]. rewrite run_ret. reflexivity. Qed.

Lemma rr_ret {A C Y} E (a : A) (f : A -> prog C) w (Q : C * world -> Y -> Prop) (y : res Y) : rr Q (run E (f a) w) y -> rr Q (run E (pbind (pret a) f) w) y.
Proof. exact (fun K => K). Qed.
(** ** Memory, a byte at a time *)
Lemma rr_pause {C Y} E (f : unit -> prog C) w (Q : C * world -> Y -> Prop) (y : res Y) : rr Q (run E (f tt) w) y -> rr Q (run E (pbind pause f) w) y.
Proof. intros K. unfold run, pbind, pause, stop, pret. cbn. exact K. Qed.
(** A program that reads, one that writes, one that does both. *)
Definition samer {A} E (p : prog A) (f : mem -> res A) : Prop := forall w, rr (fun x b => x = (b, w)) (run E p w) (f (w_mem w)).
Definition samem E (p : prog unit) (f : mem -> res mem) : Prop := forall w, rr (fun x m => x = (tt, set_mem w m)) (run E p w) (f (w_mem w)).
Definition samew {A} E (p : prog A) (f : mem -> res (A * mem)) : Prop := forall w, rr (fun x b => x = (fst b, set_mem w (snd b))) (run E p w) (f (w_mem w)).
Lemma rr_r {A C Y} E p (f : mem -> res A) (k : A -> prog C) w m (g : A -> res Y) (Q : C * world -> Y -> Prop) : samer E p f -> w_mem w = m -> (forall a, f m = Ret a -> rr Q (run E (k a) w) (g a)) ->
  rr Q (run E (pbind p k) w) (bind (f m) g).
Proof.
  intros S <- H. specialize (S w). eapply (rr_bind E p k w (f (w_mem w)) g (fun x b => x = (b, w) /\ f (w_mem w) = Ret b)).
  - destruct (run E p w) as [[? ?]| | |], (f (w_mem w)); cbn [rr] in *; auto.
  - intros a w' b (R&R2). injection R as -> ->. apply H. exact R2.
Qed.
Lemma rr_m {C Y} E p (f : mem -> res mem) (k : unit -> prog C) w m (g : mem -> res Y) (Q : C * world -> Y -> Prop) : samem E p f -> w_mem w = m -> (forall m1, rr Q (run E (k tt) (set_mem w m1)) (g m1)) ->
  rr Q (run E (pbind p k) w) (bind (f m) g).
Proof. intros S <- H. eapply rr_bind; [apply S|]. intros a w' b R. injection R as -> ->. apply H. Qed.
Lemma rr_w {A C Y} E p (f : mem -> res (A * mem)) (k : A -> prog C) w m (g : A * mem -> res Y) (Q : C * world -> Y -> Prop) : samew E p f -> w_mem w = m ->
  (forall a m1, f m = Ret (a, m1) -> rr Q (run E (k a) (set_mem w m1)) (g (a, m1))) -> rr Q (run E (pbind p k) w) (bind (f m) g).
Proof.
  intros S <- H. specialize (S w). eapply (rr_bind E p k w (f (w_mem w)) g (fun x b => x = (fst b, set_mem w (snd b)) /\ f (w_mem w) = Ret b)).
  - destruct (run E p w) as [[? ?]| | |], (f (w_mem w)); cbn [rr] in *; auto.
  - intros a w' [b m1] (R&R2). injection R as -> ->. apply H. exact R2.
Qed.
Lemma same_reading {A} E (f : mem -> res A) : samer E (reading f) f.
Proof. intros w. unfold run, reading. destruct (f (w_mem w)); cbn [exec rr]; auto. rewrite set_mem_id. reflexivity. Qed.
Lemma same_padd E p n : samer E (padd_p p n) (fun m => padd m p n).
Proof. apply same_reading. Qed.
Lemma same_load1 E p : samer E (load1_p p) (fun m => load1 m p).
Proof.
  intros w. unfold load1_p. replace (load1 (w_mem w) p) with (bind (load1 (w_mem w) p) Ret) by (destruct (load1 (w_mem w) p); reflexivity).
  apply (rr_r E _ (fun m => load1 m p)); [apply same_reading|reflexivity|]. intros x _. apply rr_pause. rewrite run_ret. reflexivity.
Qed.
Lemma loads_same E n : forall p w, object (w_mem w) p (Z.of_nat n) -> rr (fun x b => x = (b, w)) (run E (loads_p p n) w) (Ret (bytes_at (w_mem w) p (Z.of_nat n))).
Proof.
  induction n as [|n IH]; intros p w O; [cbn [loads_p]; rewrite run_ret; reflexivity|]. cbn [loads_p]. destruct O as (O1&O2&O3). unfold bytes_at. rewrite slice_cons by lia.
  change (Ret (zn (blk (w_mem w) (pb p)) (po p) :: slice (blk (w_mem w) (pb p)) (po p + 1) (Z.of_nat (S n) - 1)))
    with (bind (Ret (zn (blk (w_mem w) (pb p)) (po p))) (fun x => Ret (x :: slice (blk (w_mem w) (pb p)) (po p + 1) (Z.of_nat (S n) - 1)))).
  rewrite <- load1_ok by (repeat split; lia). apply (rr_r E _ (fun m => load1 m p)); [apply same_load1|reflexivity|]. intros x _.
  unshelve epose proof (IH (mkptr (pb p) (po p + 1)) w _) as H; [repeat split; cbn; lia|]. unfold bytes_at in H. cbn [pb po] in H. replace (Z.of_nat (S n) - 1) with (Z.of_nat n) by lia.
  change (Ret (x :: slice (blk (w_mem w) (pb p)) (po p + 1) (Z.of_nat n))) with (bind (Ret (slice (blk (w_mem w) (pb p)) (po p + 1) (Z.of_nat n))) (fun d => Ret (x :: d))).
  eapply rr_bind; [exact H|]. intros a w' b R. injection R as -> ->. rewrite run_ret. reflexivity.
Qed.
Lemma same_loadn E p n : samer E (loadn_p p n) (fun m => loadn m p n).
Proof.
  intros w. unfold loadn_p, loadn. destruct (in_range (w_mem w) p n) eqn:R; unfold run, range_p, pbind, reading; rewrite R; cbn [tbind exec rr]; [|reflexivity].
  apply in_range_iff in R. replace (slice (blk (w_mem w) (pb p)) (po p) n) with (bytes_at (w_mem w) p (Z.of_nat (Z.to_nat n))) by (rewrite Z2Nat.id by apply R; reflexivity).
  apply loads_same. rewrite Z2Nat.id by apply R. exact R.
Qed.
Lemma stores_same E d : forall p w, object (w_mem w) p (zlen d) -> rr (fun x m => x = (tt, set_mem w m)) (run E (stores_p p d) w) (Ret (write (w_mem w) p d)).
Proof.
  induction d as [|c d IH]; intros p w O; cbn [stores_p]; [rewrite run_ret, write_nil, <- (set_mem_id w) at 1; reflexivity|].
  assert (O1 : object (w_mem w) p (zlen [c])) by (unfold object in *; unfold zlen in *; cbn [length] in *; lia).
  assert (O2 : object (write (w_mem w) p [c]) (mkptr (pb p) (po p + 1)) (zlen d)) by (apply object_write; auto; unfold object in *; unfold zlen in *; cbn [length pb po] in *; lia).
  unfold run. unfold pbind at 1, writing. rewrite storen_ok by exact O1. cbn [bind tbind]. change (c :: d) with ([c] ++ d). rewrite <- (write_adj (w_mem w) p (mkptr (pb p) (po p + 1)) [c] d); [|unfold object in *; unfold zlen in *; cbn [length] in *; lia|reflexivity].
  eapply rr_eq; [apply (exec_mem E _ w (write (w_mem w) p [c]))|]. specialize (IH _ (set_mem w (write (w_mem w) p [c])) O2).
  assert (K := rr_pause E (fun _ => stores_p (mkptr (pb p) (po p + 1)) d) (set_mem w (write (w_mem w) p [c])) _ _ IH). unfold run in K. cbn [w_mem set_mem] in K. eapply rr_imp; [exact K|].
  intros x m ->. reflexivity.
Qed.
Lemma same_storen E p d : samem E (storen_p p d) (fun m => storen m p d).
Proof.
  intros w. unfold storen_p, storen. destruct (in_range (w_mem w) p (zlen d)) eqn:R; unfold run, range_p, pbind, reading; rewrite R; cbn [tbind exec rr]; [|reflexivity].
  apply in_range_iff in R. apply stores_same. exact R.
Qed.
Lemma same_src_byte E s i : samer E (src_byte_p s i) (fun m => src_byte m s i).
Proof. destruct s; [apply same_reading|apply same_reading|apply same_load1]. Qed.
Lemma same_src_bytes E s n : samer E (src_bytes_p s n) (fun m => src_bytes m s n).
Proof. destruct s; [apply same_reading|apply same_reading|apply same_loadn]. Qed.
Lemma same_memcpy E p s n : samem E (memcpy_p p s n) (fun m => memcpy m p s n).
Proof.
  intros w. unfold memcpy_p, memcpy. destruct (overlaps p s n); [reflexivity|]. apply (rr_r E _ (fun m => src_bytes m s n)); [apply same_src_bytes|reflexivity|]. intros d _. apply same_storen.
Qed.
Lemma same_memmove E p q n : samem E (memmove_p p q n) (fun m => memmove m p q n).
Proof. intros w. unfold memmove_p, memmove. apply (rr_r E _ (fun m => loadn m q n)); [apply same_loadn|reflexivity|]. intros d _. apply same_storen. Qed.
Lemma same_strncmp E lit : forall p, samer E (strncmp_p p lit) (fun m => strncmp_eq m p lit).
Proof.
  induction lit as [|c lit IH]; intros p w; cbn [strncmp_p strncmp_eq]; [rewrite run_ret; reflexivity|]. apply (rr_r E _ (fun m => load1 m p)); [apply same_load1|reflexivity|]. intros x _.
  destruct (x =? c); [apply IH|rewrite run_ret; reflexivity].
Qed.

(** ** Building requests *)
Ltac next := match goal with
  | |- rr _ (run ?E (pbind (fixed _) _) _) _ => apply rr_fixed; intros ? _
  | |- rr _ (run ?E (pbind (padd_p ?p ?n) _) _) _ => apply (rr_r E _ (fun m => padd m p n)); [apply same_padd|reflexivity|intros ? _]
  | |- rr _ (run ?E (pbind (loadn_p ?p ?n) _) _) _ => apply (rr_r E _ (fun m => loadn m p n)); [apply same_loadn|reflexivity|intros ? _]
  | |- rr _ (run ?E (pbind (load1_p ?p) _) _) _ => apply (rr_r E _ (fun m => load1 m p)); [apply same_load1|reflexivity|intros ? _]
  | |- rr _ (run ?E (pbind (src_byte_p ?s ?i) _) _) _ => apply (rr_r E _ (fun m => src_byte m s i)); [apply same_src_byte|reflexivity|intros ? _]
  | |- rr _ (run ?E (pbind (strncmp_p ?p ?l) _) _) _ => apply (rr_r E _ (fun m => strncmp_eq m p l)); [apply same_strncmp|reflexivity|intros ? _]
  | |- rr _ (run ?E (pbind (storen_p ?p ?d) _) _) _ => apply (rr_m E _ (fun m => storen m p d)); [apply same_storen|reflexivity|intros ?]
  | |- rr _ (run ?E (pbind (memcpy_p ?p ?s ?n) _) _) _ => apply (rr_m E _ (fun m => memcpy m p s n)); [apply same_memcpy|reflexivity|intros ?]
  | |- rr _ (run ?E (pbind (memmove_p ?p ?q ?n) _) _) _ => apply (rr_m E _ (fun m => memmove m p q n)); [apply same_memmove|reflexivity|intros ?]
  end.
Ltac done_ := rewrite run_ret; cbn [rr fst snd]; rewrite ?set_mem_id; reflexivity.
Lemma same_strncpy E dst s f n : forall i, samew E (strncpy_loop_p dst s f n i) (fun m => strncpy_loop m dst s f n i).
Proof.
  induction n as [|n IH]; intros i w; cbn [strncpy_loop_p strncpy_loop]; [done_|]. next. destruct (_ || _); [done_|]. next. eapply rr_imp; [apply IH|]. intros x b ->. reflexivity.
Qed.
Lemma same_hstrncpy E dst s n f : samew E (httpHeaderStrncpy_p dst s n f) (fun m => httpHeaderStrncpy m dst s n f).
Proof. intros w. unfold httpHeaderStrncpy_p, httpHeaderStrncpy. next. apply same_strncpy. Qed.
Lemma same_addHeader E cfg h f fl v vl : samew E (addHeader_p cfg h f fl v vl) (fun m => addHeader cfg m h f fl v vl).
Proof.
  intros w. unfold addHeader_p, addHeader. destruct (rh_buf h) as [buf|]; [|reflexivity]. do 4 next. next. rename a3 into cur0.
  match goal with |- rr _ (run E (pbind ?p _) w) (bind ?x _) => assert (K : rr (fun y b => y = (b, w)) (run E p w) x) end.
  { destruct (4 <=? rh_len h); [|done_]. do 2 next. destruct a4; [|done_]. next. done_. }
  eapply rr_bind; [exact K|]. clear K. intros [cur back] w' [? ?] R. injection R as <- <- ->. cbv zeta. destruct (_ <=? rh_bufLen h); [|done_].
  apply (rr_w E _ (fun m => httpHeaderStrncpy m cur f fl true)); [apply same_hstrncpy|reflexivity|]. intros [|] m1 _; cbn [negb]; [|done_]. do 3 next.
  apply (rr_w E _ (fun m => httpHeaderStrncpy m _ v vl false)); [apply same_hstrncpy|reflexivity|]. intros [|] m2 _; cbn [negb]; [|done_]. do 2 next. done_.
Qed.
Lemma same_rangeHeader E cfg h a b : samew E (addRangeHeader_p cfg h a b) (fun m => addRangeHeader cfg m h a b).
Proof. intros w. unfold addRangeHeader_p, addRangeHeader. cbv zeta. next. destruct a0 as [a2 k]. next. destruct a0 as [a3 n3]. apply same_addHeader. Qed.
Lemma same_contentLength E cfg h n : samew E (addContentLengthHeader_p cfg h n) (fun m => addContentLengthHeader cfg m h n).
Proof. intros w. unfold addContentLengthHeader_p, addContentLengthHeader. cbv zeta. next. next. destruct a0 as [a1 k]. apply same_addHeader. Qed.
Lemma same_requestLine E cfg h mt ml pt pl : samew E (writeRequestLine_p cfg h mt ml pt pl) (fun m => writeRequestLine cfg m h mt ml pt pl).
Proof.
  intros w. unfold writeRequestLine_p, writeRequestLine. destruct (rh_buf h) as [buf|]; [|reflexivity]. do 2 next. cbv zeta. destruct (rh_bufLen h <? _); [done_|]. do 4 next.
  match goal with |- rr _ (run E (pbind ?p _) ?W) (bind ?x _) => assert (K : rr (fun y b => fst y = snd b /\ snd y = set_mem w (fst b)) (run E p W) x) end.
  { assert (Z0 : forall s n q V, set_mem V = set_mem w -> rr (fun (y : ptr * world) (b : mem * ptr) => fst y = snd b /\ snd y = set_mem w (fst b)) (run E (_ <~ memcpy_p q s n ;; padd_p q n) V) (m3 <- memcpy (w_mem V) q s n ;; c3 <- padd m3 q n ;; Ret (m3, c3))).
    { intros s n q V HV. next. rename m2 into mm. pose proof (same_padd E q n (set_mem V mm)) as SP. cbn [w_mem set_mem] in SP. destruct (run E (padd_p q n) _) as [[c3 w3]| | |], (padd mm q n); cbn [rr bind fst snd] in *; try contradiction; auto. injection SP as -> ->.
      split; [reflexivity|]. exact (f_equal (fun g => g mm) HV). }
    destruct (is_null pt || _); apply Z0; reflexivity. }
  eapply rr_bind; [exact K|]. clear K. intros c3 w' [m3 c3'] (R1&R2). cbn [fst snd] in R1, R2. subst c3' w'. do 5 next. done_.
Qed.
Lemma same_andThen E (p : prog (status * reqHeaders)) x k f : samew E p x -> (forall h, samew E (k h) (f h)) -> samew E (andThen_p p k) (fun m => andThen (x m) f).
Proof. intros H K w. unfold andThen_p, andThen. apply (rr_w E p x); [exact H|reflexivity|]. intros [st h] m1 _. destruct (is_success st); [|done_]. eapply rr_imp; [apply K|]. intros y b ->. reflexivity. Qed.
Lemma same_some E (p : prog (status * reqHeaders)) x : samew E p x -> samew E (' (st, h') <~ p ;; pret (st, Some h')) (fun m => ' (st, h', m') <- x m ;; Ret (st, Some h', m')).
Proof. intros H w. apply (rr_w E p x); [exact H|reflexivity|]. intros [st h] m1 _. done_. Qed.
Lemma same_call E cfg h c : samew E (call_p cfg h c) (fun m => do_call cfg m h c).
Proof.
  assert (BAD : forall st : status, samew E (pret (st, Some h)) (fun m => Ret (st, Some h, m))) by (intros st w; done_). assert (OK : forall (st : status) h, samew E (pret (st, h)) (fun m => Ret (st, h : reqHeaders, m))) by (intros st h0 w; done_).
  destruct c as [ri|f fl v vl|a b]; cbn [call_p do_call].
  - unfold InitializeRequestHeaders_p, InitializeRequestHeaders. destruct (match rh_buf h with None => true | _ => false end); [apply BAD|]. destruct (is_null (ri_method ri)); [apply BAD|]. destruct (is_null (ri_host ri)); [apply BAD|].
    destruct (ri_methodLen ri =? 0); [apply BAD|]. destruct (ri_hostLen ri =? 0); [apply BAD|]. cbv zeta.
    refine (same_some E _ (fun m => andThen (andThen (andThen (writeRequestLine cfg m (set_rh_len h 0) (ri_method ri) (ri_methodLen ri) (ri_path ri) (ri_pathLen ri)) _) _) _) _).
    refine (same_andThen E _ (fun m => andThen (andThen (writeRequestLine cfg m (set_rh_len h 0) (ri_method ri) (ri_methodLen ri) (ri_path ri) (ri_pathLen ri)) _) _) _ (fun h m => _) _ _).
    + refine (same_andThen E _ (fun m => andThen (writeRequestLine cfg m (set_rh_len h 0) (ri_method ri) (ri_methodLen ri) (ri_path ri) (ri_pathLen ri)) _) _ (fun h m => _) _ _).
      * refine (same_andThen E _ (fun m => writeRequestLine cfg m (set_rh_len h 0) (ri_method ri) (ri_methodLen ri) (ri_path ri) (ri_pathLen ri)) _ (fun h m => _) _ _); [apply same_requestLine|].
        intros h1. destruct (_ =? 0); [apply same_addHeader|apply OK].
      * intros h1. apply same_addHeader.
    + intros h1. destruct (negb _); [apply same_addHeader|apply OK].
  - unfold AddHeader_p, AddHeader. destruct (match rh_buf h with None => true | _ => false end); [apply BAD|]. destruct (is_null f); [apply BAD|]. destruct (is_null v); [apply BAD|].
    destruct (fl =? 0); [apply BAD|]. destruct (vl =? 0); [apply BAD|]. destruct (rh_bufLen h <? rh_len h); [apply BAD|]. apply same_some, same_addHeader.
  - unfold AddRangeHeader_p, AddRangeHeader. destruct (match rh_buf h with None => true | _ => false end); [apply BAD|]. destruct (rh_bufLen h <? rh_len h); [apply BAD|]. destruct (b <? _); [apply BAD|]. destruct (_ && _); [apply BAD|].
    destruct (_ && _); [apply BAD|]. destruct (a =? _); [apply BAD|]. apply same_some, same_rangeHeader.
Qed.

(** ** Sending *)
Lemma send_loop_same E tf retry fuel : forall p rem last w, rr eq (run E (send_loop_p fuel tf retry p rem last) w) (send_loop fuel E tf retry p rem last w).
Proof.
  induction fuel as [|fuel IH]; intros p rem last w; cbn [send_loop_p send_loop]; [exact Logic.I|]. destruct (rem <=? 0); [rewrite run_ret; reflexivity|].
  apply (rr_r E _ (fun m => loadn m p rem)); [apply same_loadn|reflexivity|]. intros d _. eapply rr_stop; [reflexivity|]. cbv zeta. fold (w_after_send w d (e_send E (w_ns w) rem)). destruct (_ <? 0); [rewrite run_ret; reflexivity|]. destruct (0 <? _).
  - apply rr_fixed. intros _ _. eapply rr_bind; [apply run_time|]. intros t w2 [t' w2'] Q. injection Q as <- <-. apply (rr_r E _ (fun m => padd m p _)); [apply same_padd|reflexivity|]. intros p' _. apply IH.
  - eapply rr_bind; [apply run_time|]. intros t w2 [t' w2'] Q. injection Q as <- <-. destruct (_ <=? _); [rewrite run_ret; reflexivity|]. apply IH.
Qed.
Lemma data_same E fuel cfg t tf p n w : rr eq (run E (SendHttpData_p fuel cfg t tf p n) w) (SendHttpData fuel cfg E t tf p n w).
Proof.
  unfold SendHttpData_p, SendHttpData. destruct t; [|reflexivity]. apply rr_fixed. intros _ _. destruct p; [|reflexivity]. cbv zeta.
  eapply rr_bind; [apply run_time|]. intros t0 w2 [t' w2'] Q. injection Q as <- <-. apply send_loop_same.
Qed.
Definition lay2 {A B C : Type} (x : A * B * C) (y : A * B * C) := x = y.
Lemma headers_same E fuel cfg t tf h n fl w : rr eq (run E (SendHttpHeaders_p fuel cfg t tf h n fl) w) (SendHttpHeaders fuel cfg E t tf h n fl w).
Proof.
  unfold SendHttpHeaders_p, SendHttpHeaders. destruct t; [|reflexivity]. apply rr_fixed. intros _ _. destruct h as [h|]; [|reflexivity].
  assert (K : forall st h1 m1, rr eq (run E (if is_success st then st2 <~ SendHttpData_p fuel cfg (Some t) tf (rh_buf h1) (rh_len h1) ;; pret (st2, Some h1) else pret (st, Some h1)) (set_mem w m1))
    (if is_success st then ' (st2, w2) <- SendHttpData fuel cfg E (Some t) tf (rh_buf h1) (rh_len h1) (set_mem w m1) ;; Ret (st2, Some h1, w2) else Ret (st, Some h1, set_mem w m1))).
  { intros st h1 m1. destruct (is_success st); [|rewrite run_ret; reflexivity]. eapply rr_bind; [apply data_same|]. intros st2 w2 [? ?] Q. injection Q as <- <-. rewrite run_ret. reflexivity. }
  destruct (_ && _).
  - apply (rr_w E _ (fun m => addContentLengthHeader cfg m h n)); [apply same_contentLength|reflexivity|]. intros [st h1] m1 _. apply K.
  - unfold pbind at 1. unfold run at 1. cbn [pret tbind bind]. rewrite set_mem_id. specialize (K HTTPSuccess h (w_mem w)). rewrite set_mem_id in K. exact K.
Qed.
Lemma request_same E fuel cfg t tf h b n fl w : rr eq (run E (sendHttpRequest_p fuel cfg t tf h b n fl) w) (sendHttpRequest fuel cfg E t tf h b n fl w).
Proof.
  unfold sendHttpRequest_p, sendHttpRequest. do 4 (apply rr_fixed; intros _ _). eapply rr_bind; [apply headers_same|]. intros [st h1] w1 [[? ?] ?] Q. injection Q as <- <- <-.
  destruct (is_success st); [|rewrite run_ret; reflexivity]. destruct b as [b|]; [|rewrite run_ret; reflexivity]. unfold sendHttpBody_p, sendHttpBody.
  apply (rr_bind E _ _ w1 _ _ eq eq).
  - destruct t; [|reflexivity]. do 2 (apply rr_fixed; intros _ _). apply data_same.
  - intros st2 w2 [? ?] Q. injection Q as <- <-. rewrite run_ret. reflexivity.
Qed.

(** ** Receiving *)
Definition back1 (x : pst * world) (s : cbst) : Prop := s = mkst (fst (fst x)) (snd (fst x)) (snd x).
Definition back {X} (x : X * pst * world) (s : X * cbst) : Prop := s = (fst (fst x), mkst (fst (snd (fst x))) (snd (snd (fst x))) (snd x)).
Lemma pch_same E cfg c r w : rr back1 (run E (processCompleteHeader_p cfg (c, r)) w) (processCompleteHeader cfg (mkst c r w)).
Proof.
  unfold processCompleteHeader_p, processCompleteHeader. cbn [s_ctx s_resp s_w]. apply rr_fixed. intros _ _. destruct (c_lf c) as [f|]; [|rewrite run_ret; reflexivity].
  destruct (c_lv c) as [v|]; [|rewrite run_ret; reflexivity]. apply rr_fixed. intros _ _. cbv zeta. destruct (r_cb r); [|rewrite run_ret; reflexivity].
  apply (rr_r E _ (fun m => loadn m f (c_lfl c))); [apply same_loadn|reflexivity|]. intros fb _. apply (rr_r E _ (fun m => loadn m v (c_lvl c))); [apply same_loadn|reflexivity|]. intros vb _. apply rr_note. rewrite run_ret. reflexivity.
Qed.
(** A callback that does not leave the library depends on nothing but the memory. *)
Definition quiet {X} (f : cbst -> res (X * cbst)) : Prop := forall c r w,
  f (mkst c r w) = match f (mkst c r (mkw (w_mem w) O O O [])) with Ret (x, s) => Ret (x, mkst (s_ctx s) (s_resp s) (set_mem w (w_mem (s_w s)))) | y => y end.
Lemma inside_same {X} E (f : cbst -> res (X * cbst)) c r w : quiet f -> rr back (run E (inside f (c, r)) w) (f (mkst c r w)).
Proof.
  intros Q. rewrite Q. unfold inside, run, writing. cbn [fst snd]. destruct (f (mkst c r (mkw (w_mem w) 0 0 0 []))) as [[x s]| | |]; cbn [exec rr]; auto. reflexivity.
Qed.
Lemma callback_quiet cfg start ev : match ev with EvField _ _ | EvHeadersComplete _ _ _ _ | EvBody _ _ => True | _ => quiet (callback cfg start ev) end.
Proof.
  destruct ev; try exact Logic.I; intros c r w; cbn [callback]; unfold onMessageBegin, onStatus, onStatusComplete, onHeaderValue, onMessageComplete; cbn [s_ctx s_resp s_w w_mem]; cbv zeta.
  all: repeat match goal with |- bind ?x _ = match bind ?x _ with _ => _ end => destruct x; cbn [bind]; auto end.
  all: try (cbn [s_ctx s_resp s_w w_mem]; rewrite ?set_mem_id; reflexivity).
Qed.
Lemma callback_same E cfg start ev c r w : rr back (run E (callback_p cfg start ev (c, r)) w) (callback cfg start ev (mkst c r w)).
Proof.
  pose proof (callback_quiet cfg start ev) as Q. destruct ev; try (apply inside_same; exact Q); cbn [callback_p callback]; clear Q.
  - unfold onHeaderField_p, onHeaderField. cbn [s_ctx s_resp s_w fst snd]. apply rr_fixed. intros _ _. cbv zeta. apply (rr_r E _ (fun m => padd m _ len)); [apply same_padd|reflexivity|]. intros q _.
    eapply rr_bind; [apply pch_same|]. intros [c2 r2] w2 s Hs. unfold back1 in Hs. subst s. cbn [s_ctx s_resp s_w fst snd]. destruct (c_lf c2) as [f|]; [|rewrite run_ret; reflexivity]. apply rr_fixed. intros _ _. rewrite run_ret. reflexivity.
  - unfold onHeadersComplete_p, onHeadersComplete. cbn [s_ctx s_resp s_w]. cbv zeta. apply rr_fixed. intros _ _. destruct (c_cur c) as [cur|]; [|reflexivity]. destruct (r_buf r) as [buf|]; [|reflexivity].
    apply rr_fixed. intros d _. apply rr_fixed. intros _ _. apply (rr_r E _ (fun m => padd m buf (r_bufLen r))); [apply same_padd|reflexivity|]. intros endp _. apply rr_fixed. intros d2 _. apply rr_fixed. intros _ _. apply rr_fixed. intros r2 _.
    eapply rr_bind; [apply pch_same|]. intros [c3 r3] w3 s Hs. unfold back1 in Hs. subst s. rewrite run_ret. reflexivity.
  - unfold onBody_p, onBody. cbn [s_ctx s_resp s_w]. cbv zeta. next. destruct (r_buf r) as [buf|]; [|reflexivity]. do 5 next. destruct (match r_body r with Some b => (b, _) | None => _ end) as [body bl]. do 2 next.
    destruct (0 <? _); [do 2 next; rewrite run_ret; reflexivity|]. apply rr_ret. cbn [bind]. next. rewrite run_ret. cbn [rr]. rewrite set_mem_id. reflexivity.
Qed.
Lemma run_tree_same E cfg start {S} (s0 : S) t : forall c r w, rr back (run E (run_tree_p cfg start s0 t (c, r)) w) (run_tree cfg start s0 t (mkst c r w)).
Proof.
  induction t as [e q|ev k IH]; intros c r w; cbn [run_tree_p run_tree]; [rewrite run_ret; reflexivity|]. apply rr_note. cbn [s_ctx s_resp s_w].
  eapply rr_bind; [apply callback_same|]. intros [x [c1 r1]] w1 [? ?] Q. injection Q as -> ->. cbn [s_ctx s_resp s_w fst snd]. apply rr_note. destruct x; try apply IH; rewrite run_ret; reflexivity.
Qed.
Lemma parse_same E cfg P ps c r w n : rr back (run E (parseHttpResponse_p cfg P ps (c, r) n) w) (parseHttpResponse cfg P ps (mkst c r w) n).
Proof.
  unfold parseHttpResponse_p, parseHttpResponse. cbn [s_ctx s_resp s_w]. cbv zeta.
  match goal with |- rr _ (run _ (match c_cur (fst ?x) with _ => _ end) _) (match c_cur (s_ctx ?y) with _ => _ end) => set (s1 := x); set (s2 := y) end. assert (Q : s2 = mkst (fst s1) (snd s1) w) by (unfold s1, s2; destruct (c_resp c); reflexivity).
  clearbody s1 s2. subst s2. destruct s1 as [c1 r1]. cbn [s_ctx s_resp s_w fst snd]. destruct (c_cur c1) as [start|]; [|reflexivity].
  apply (rr_r E _ (fun m => loadn m start n)); [apply same_loadn|reflexivity|]. intros d _. apply rr_note. eapply rr_bind; [apply run_tree_same|]. intros [[[e epos] ps'] [c2 r2]] w2 [[[? ?] ?] ?] Q. injection Q as -> -> -> ->.
  cbn [s_ctx s_resp s_w fst snd].
  assert (K : forall z, rr back (run E (cur' <~ reading (fun m => padd m start z) ;; _ <~ note (TParsed e) ;; pret (processLlhttpError e, ps', (set_cur c2 (Some cur'), r2))) w2)
    (cur' <- padd (w_mem w2) start z ;; Ret (processLlhttpError e, ps', mkst (set_cur c2 (Some cur')) r2 (log w2 (TParsed e))))).
  { intros z. apply (rr_r E _ (fun m => padd m start z)); [apply same_padd|reflexivity|]. intros cur' _. apply rr_note. rewrite run_ret. reflexivity. }
  destruct e; apply K.
Qed.
Lemma recv_loop_same E cfg P retry fuel : forall total last ps c r w, rr back (run E (recv_loop_p fuel cfg P retry total last ps (c, r)) w) (recv_loop fuel cfg E P retry total last ps (mkst c r w)).
Proof.
  induction fuel as [|fuel IH]; intros total last ps c r w; cbn [recv_loop_p recv_loop]; [exact Logic.I|]. cbn [s_ctx s_resp s_w fst snd]. destruct (r_buf r) as [buf|]; [|reflexivity].
  apply (rr_r E _ (fun m => padd m buf total)); [apply same_padd|reflexivity|]. intros dst _. cbv zeta.
  destruct (e_recv E (w_nr w) ((r_bufLen r - total) mod SZ cfg)) as [n d] eqn:ER. eapply rr_stop; [cbn [answer]; rewrite ER; reflexivity|].
  apply (rr_m E _ (fun m => storen m dst d)); [apply same_storen|reflexivity|]. intros m1. unfold set_mem. cbn [w_mem w_ns w_nr w_nt w_tr]. fold (w_after_recv w m1 dst ((r_bufLen r - total) mod SZ cfg) n d).
  destruct (n <? 0); [rewrite run_ret; reflexivity|]. eapply rr_bind; [apply run_time|]. intros t w2 [? ?] Q. injection Q as <- <-. destruct (0 <? n).
  - eapply rr_bind; [apply parse_same|]. intros [[st ps'] [c3 r3]] w3 [[? ?] ?] Q. injection Q as -> -> ->. cbn [s_ctx s_resp s_w fst snd]. destruct (_ && _ && _); [apply IH|rewrite run_ret; reflexivity].
  - destruct (retry <=? _).
    + eapply rr_bind; [apply parse_same|]. intros [[st ps'] [c3 r3]] w3 [[? ?] ?] Q. injection Q as -> -> ->. rewrite run_ret. reflexivity.
    + destruct (_ && _); [apply IH|rewrite run_ret; reflexivity].
Qed.
Lemma same_init E h : samer E (initializeParsingContextForFirstResponse_p h) (fun m => initializeParsingContextForFirstResponse m h).
Proof. intros w. unfold initializeParsingContextForFirstResponse_p, initializeParsingContextForFirstResponse. next. destruct (rh_buf h); [|reflexivity]. next. rewrite run_ret. reflexivity. Qed.
Lemma receive_same E fuel cfg P t r h w : rr eq (run E (ReceiveAndParseHttpResponse_p fuel cfg P t r h) w) (ReceiveAndParseHttpResponse fuel cfg E P t r h w).
Proof.
  unfold ReceiveAndParseHttpResponse_p, ReceiveAndParseHttpResponse. destruct t; [|reflexivity]. apply rr_fixed. intros _ _. destruct r as [r|]; [|reflexivity]. destruct h as [h|]; [|reflexivity].
  apply (rr_r E _ (fun m => initializeParsingContextForFirstResponse m h)); [apply same_init|reflexivity|]. intros c _. cbv zeta. eapply rr_bind; [apply run_time|]. intros t0 w2 [? ?] Q. injection Q as <- <-.
  eapply rr_bind; [apply recv_loop_same|]. intros [[st total] [c3 r3]] w3 [[? ?] ?] Q. injection Q as -> -> ->. cbn [s_ctx s_resp s_w fst snd]. apply rr_fixed. intros [st2 r2] _.
  destruct (is_success st2); [|rewrite run_ret; reflexivity]. apply rr_fixed. intros st3 _. rewrite run_ret. reflexivity.
Qed.
Lemma Send_same E fuel cfg P t h b n r fl w : rr eq (run E (Send_p fuel cfg P t h b n r fl) w) (Send fuel cfg E P t h b n r fl w).
Proof.
  unfold Send_p, Send. cbv zeta. assert (INV : rr eq (run E (pret (HTTPInvalidParameter, h, r)) w) (Ret (HTTPInvalidParameter, h, r, w))) by (rewrite run_ret; reflexivity).
  destruct t as [t|]; [|exact INV]. destruct (negb (t_send t)); [exact INV|]. destruct (negb (t_recv t)); [exact INV|]. destruct h as [rh|]; [|exact INV].
  destruct (match rh_buf rh with None => true | _ => false end); [exact INV|]. destruct (rh_len rh <? HTTP_MINIMUM_REQUEST_LINE_LENGTH); [exact INV|]. destruct (rh_bufLen rh <? rh_len rh); [exact INV|].
  destruct r as [r|]; [|exact INV]. destruct (match r_buf r with None => true | _ => false end); [exact INV|]. destruct (r_bufLen r =? 0); [exact INV|].
  destruct (match b with None => 0 <? n | _ => false end); [exact INV|]. destruct (INT32_MAX mod SZ cfg <? n); [exact INV|]. clear INV.
  eapply rr_bind; [apply request_same|]. intros [st h1] w1 [[? ?] ?] Q. injection Q as <- <- <-. destruct (is_success st); [|rewrite run_ret; reflexivity].
  eapply rr_bind; [apply receive_same|]. intros [st2 r2] w2 [[? ?] ?] Q. injection Q as <- <- <-. rewrite run_ret. reflexivity.
Qed.
(** ** Reading a header *)
Lemma same_ci E s p n : forall i, samer E (ci_loop_p s p n i) (fun m => ci_loop m s p n i).
Proof. induction n as [|n IH]; intros i w; cbn [ci_loop_p ci_loop]; [rewrite run_ret; reflexivity|]. do 2 next. destruct (_ =? _); [apply IH|rewrite run_ret; reflexivity]. Qed.
Lemma same_find_callback E start ev x : samer E (find_callback_p start ev x) (fun m => find_callback m start ev x).
Proof.
  intros w. destruct ev; cbn [find_callback_p find_callback]; try (rewrite run_ret; reflexivity); [|apply (same_reading E (fun _ => findHeaderValue x (mkptr (pb start) (po start + off)) len))].
  unfold findHeaderField_p, findHeaderField, caseInsensitiveStringCmp. do 5 next. destruct (len =? f_fieldLen x).
  - apply (rr_r E _ (fun m => ci_loop m (f_field x) (mkptr (pb start) (po start + off)) (Z.to_nat len) 0)); [apply same_ci|reflexivity|]. intros b _. rewrite run_ret. reflexivity.
  - unfold pbind at 1. unfold run at 1. cbn [pret tbind bind exec rr]. rewrite set_mem_id. reflexivity.
Qed.
Lemma same_find_tree E start {X} (t : ptree X) : forall x, samer E (find_tree_p start t x) (fun m => find_tree m start t x).
Proof.
  induction t as [e q|ev k IH]; intros x w; cbn [find_tree_p find_tree]; [rewrite run_ret; reflexivity|].
  apply (rr_r E _ (fun m => find_callback m start ev x)); [apply same_find_callback|reflexivity|]. intros [r x1] _. destruct r; try apply IH; rewrite run_ret; reflexivity.
Qed.
Lemma same_ReadHeader E P r f n a b : samer E (ReadHeader_p P r f n a b) (fun m => ReadHeader P m r f n a b).
Proof.
  intros w. unfold ReadHeader_p, ReadHeader. cbv zeta. assert (INV : rr (fun (x : _ * world) y => x = (y, w)) (run E (pret (HTTPInvalidParameter, None)) w) (Ret (HTTPInvalidParameter, @None (option ptr * Z)))) by (rewrite run_ret; reflexivity).
  destruct r as [r|]; [|exact INV]. destruct (r_buf r) as [buf|]; [|exact INV]. destruct (r_bufLen r =? 0); [exact INV|]. destruct (is_null f); [exact INV|]. destruct (n =? 0); [exact INV|].
  destruct (negb a); [exact INV|]. destruct (negb b); [exact INV|]. clear INV. unfold findHeaderInResponse_p, findHeaderInResponse. next.
  apply (rr_r E _ (fun m => find_tree m buf (p_exec P (p_init P) a0) (mkfctx f n false false None))); [apply same_find_tree|reflexivity|]. intros [e x] _. next. cbv zeta. rewrite run_ret. reflexivity.
Qed.
Lemma need_same {A C} E (o : option A) (f : A -> prog C) (g : A -> res (C * world)) w : (forall a, rr eq (run E (f a) w) (g a)) -> rr eq (run E (need_p o f) w) (need o g).
Proof. intros H. destruct o; cbn [need need_p]; [apply H|reflexivity]. Qed.
Lemma deed_same E fuel cfg P t d s w : rr eq (run E (deed_p fuel cfg P t d s) w) (do_deed fuel cfg E P t d s w).
Proof.
  destruct s as [h r]. destruct d; cbn [deed_p do_deed].
  - apply (rr_w E _ (fun m => do_call cfg m h c)); [apply same_call|reflexivity|]. intros [st oh] m1 _. apply need_same. intros h1. rewrite run_ret. reflexivity.
  - eapply rr_bind; [apply Send_same|]. intros [[st oh] or] w1 [[[? ?] ?] ?] Q. injection Q as <- <- <- <-. apply need_same. intros h1. apply need_same. intros r1. rewrite run_ret. reflexivity.
  - eapply rr_bind; [apply headers_same|]. intros [st oh] w1 [[? ?] ?] Q. injection Q as <- <- <-. apply need_same. intros h1. rewrite run_ret. reflexivity.
  - eapply rr_bind; [apply data_same|]. intros st w1 [? ?] Q. injection Q as <- <-. rewrite run_ret. reflexivity.
  - eapply rr_bind; [apply receive_same|]. intros [st or] w1 [[? ?] ?] Q. injection Q as <- <- <-. apply need_same. intros r1. rewrite run_ret. reflexivity.
  - apply (rr_r E _ (fun m => ReadHeader P m (Some r) field n true true)); [apply same_ReadHeader|reflexivity|]. intros [st out] _. rewrite run_ret. reflexivity.
  - next. rewrite run_ret. reflexivity.
Qed.
Lemma deeds_same E fuel cfg P t ds : forall s w, rr eq (run E (deeds_p fuel cfg P t ds s) w) (do_deeds fuel cfg E P t ds s w).
Proof.
  induction ds as [|d ds IH]; intros s w; cbn [deeds_p do_deeds]; [rewrite run_ret; reflexivity|]. eapply rr_bind; [apply deed_same|]. intros [g s1] w1 [[? ?] ?] Q. injection Q as <- <- <-.
  eapply rr_bind; [apply IH|]. intros [gs s2] w2 [[? ?] ?] Q. injection Q as <- <- <-. rewrite run_ret. reflexivity.
Qed.
