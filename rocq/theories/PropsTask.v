(** PropsTask.v — C79: tasks that do not write what another one reads do not disturb each other. *)
From Verif Require Import Base Lib ModelRequest ModelSend ModelResponse ModelReadHeader RefParser Demo DemoResponse PropsResponse PropsExchange ModelTask SpecRequest SpecTask ProofsTask ProofsLocal ProofsLocal2.

(** ** One task alone *)
Fixpoint solo {A} (E : env) (n : nat) (m : mem) (k : task A) : mem * task A :=
  match n with O => (m, k) | S n => let (m1, k1) := solo E n m k in go E m1 k1 end.
Lemma solo_S {A} E n : forall m (k : task A), solo E (S n) m k = let (m1, k1) := go E m k in solo E n m1 k1.
Proof.
  induction n as [|n IH]; intros m k; [cbn [solo]; destruct (go E m k); reflexivity|]. cbn [solo] in *. rewrite IH. destruct (go E m k) as [m1 k1]. reflexivity.
Qed.
Lemma solo_more {A} E m (k : task A) n m' x : solo E n m k = (m', Ended x) -> forall n', (n <= n')%nat -> solo E n' m k = (m', Ended x).
Proof. intros H n' L. induction L; auto. cbn [solo]. rewrite IHL. reflexivity. Qed.
(** It ends, as [exec] does. *)
Lemma solo_ends {A} E (t : tree A) : forall p m w, p m = t ->
  exists n m' x, solo E n m (Going p w) = (m', Ended x) /\ rr eq x (exec E t w) /\ match x with Ret (_, w') => m' = w_mem w' | _ => True end.
Proof.
  induction t as [a m0|k|l| |q m0 k IH]; intros p m w H.
  - exists 1%nat, m0, (Ret (a, set_mem w m0)). cbn [solo go]. rewrite H. cbn. auto.
  - exists 1%nat, m, (Ub k). cbn [solo go]. rewrite H. cbn. auto.
  - exists 1%nat, m, (AssertFail l). cbn [solo go]. rewrite H. cbn. auto.
  - exists 1%nat, m, (More w). cbn [solo go]. rewrite H. cbn. auto.
  - cbn [exec]. destruct (answer E q w) as [[n d] w'] eqn:AN. destruct (IH n d m0 (k n d) m0 w' eq_refl) as (N&m'&x&H1&H2&H3).
    exists (S N), m', x. rewrite solo_S. cbn [go]. rewrite H, AN. auto.
Qed.

(** ** A task and its run alone *)
Definition same_calls (w w' : world) : Prop := w_ns w' = w_ns w /\ w_nr w' = w_nr w /\ w_nt w' = w_nt w /\ w_tr w' = w_tr w.
Definition krel {A} (S W : nat -> Prop) (Q : A -> Prop) (k k' : task A) : Prop :=
  match k, k' with
  | Going p w, Going q w' => w' = w /\ forall m1 m2, agree_on S m1 m2 -> tsim S W Q m1 m2 (p m1) (q m2)
  | Ended (Ret (a, w)), Ended (Ret (b, w')) => b = a /\ same_calls w w'
  | Ended (Ub u), Ended (Ub u') => u' = u
  | Ended (AssertFail l), Ended (AssertFail l') => l' = l
  | Ended (More _), Ended (More _) => True
  | _, _ => False
  end.
Lemma go_rel {A} S W (Q : A -> Prop) E m1 m2 k1 k2 m1' k1' m2' k2' : krel S W Q k1 k2 -> agree_on S m1 m2 -> go E m1 k1 = (m1', k1') -> go E m2 k2 = (m2', k2') ->
  krel S W Q k1' k2' /\ agree_on S m1' m2' /\ (forall b, ~ W b -> blk m2' b = blk m2 b).
Proof.
  intros K AG G1 G2. destruct k1 as [p w|x], k2 as [q w'|y]; [|contradiction|destruct x as [[? ?]| | |]; contradiction|].
  - destruct K as (->&K). specialize (K m1 m2 AG). cbn [go] in G1, G2. destruct (p m1) as [a a1|u|l| |qq a1 f], (q m2) as [b b1|u'|l'| |qq' b1 f']; cbn [tsim] in K; try contradiction.
    + destruct K as (->&_&N). injection G1 as <- <-. injection G2 as <- <-. split; [cbn; unfold same_calls; auto|]. split; apply N.
    + injection G1 as <- <-. injection G2 as <- <-. split; [exact K|auto].
    + injection G1 as <- <-. injection G2 as <- <-. split; [exact K|auto].
    + injection G1 as <- <-. injection G2 as <- <-. split; [exact Logic.I|auto].
    + destruct K as (->&N&K). destruct (answer E qq w) as [[n d] w2]. injection G1 as <- <-. injection G2 as <- <-. split; [split; auto|]. split; apply N.
  - cbn [go] in G1, G2. injection G1 as <- <-. injection G2 as <- <-. auto.
Qed.
(** Whatever the others do, the task stands where it would stand alone after as many steps. *)
Lemma runs_rel {A} (Q : A -> Prop) (E : nat -> env) (sees own : nat -> nat -> Prop) m ks l m' ks' : (forall i j b, own i b -> sees j b -> i = j) -> (forall i, krel (sees i) (own i) Q (ks i) (ks i)) ->
  runs E sees m ks l m' ks' -> forall i, let (ma, ka) := solo (E i) (count_occ Nat.eq_dec l i) m (ks i) in krel (sees i) (own i) Q ka (ks' i) /\ agree_on (sees i) ma m'.
Proof.
  intros AP KI R. induction R as [|l m1 ks1 j m2 k R IH G|l m1 ks1 m2 R IH O]; intros i.
  - cbn. split; [apply KI|]. intros b _. reflexivity.
  - rewrite count_occ_app. cbn [count_occ]. pose proof (IH j) as IJ. destruct (solo (E j) (count_occ Nat.eq_dec l j) m (ks j)) as [mj kj] eqn:SJ. destruct IJ as (KJ&AJ).
    destruct (go (E j) mj kj) as [mj' kj'] eqn:GJ. destruct (go_rel _ _ _ _ _ _ _ _ _ _ _ _ KJ AJ GJ G) as (K2&A2&F2).
    destruct (Nat.eq_dec j i) as [->|N].
    + rewrite Nat.add_1_r. cbn [solo]. rewrite SJ, GJ. unfold upd. rewrite Nat.eqb_refl. auto.
    + rewrite Nat.add_0_r. specialize (IH i). destruct (solo (E i) (count_occ Nat.eq_dec l i) m (ks i)) as [mi ki]. destruct IH as (K1&A1). unfold upd. destruct (Nat.eqb_spec i j) as [->|_]; [congruence|].
      split; [exact K1|]. intros b Hb. rewrite F2; [apply A1; exact Hb|]. intros Hj. apply N. exact (AP _ _ _ Hj Hb).
  - specialize (IH i). destruct (solo (E i) (count_occ Nat.eq_dec l i) m (ks i)) as [mi ki]. destruct IH as (K1&A1). split; [exact K1|]. intros b Hb. rewrite (O i b Hb). apply A1. exact Hb.
Qed.

(** ** C79 *)
Theorem C79_tasks : forall fuel cfg P (E : nat -> env) (sees own : nat -> nat -> Prop) (t : nat -> transport) (jobs : nat -> list deed) (s : nat -> structs) m i,
  (forall i b, own i b -> sees i b) -> (forall i j b, own i b -> sees j b -> i = j) -> (forall i, structs_in (own i) (s i) /\ Forall (deed_in (sees i) (own i)) (jobs i)) ->
  exists N, forall l m' ks', runs E sees m (fun i => Going (deeds_p fuel cfg P (t i) (jobs i) (s i)) (mkw m 0 0 0 [])) l m' ks' -> (N <= count_occ Nat.eq_dec l i)%nat ->
    ended_like (sees i) m' (ks' i) (do_deeds fuel cfg (E i) P (t i) (jobs i) (s i) (mkw m 0 0 0 [])).
Proof.
  intros fuel cfg P E sees own t jobs s m i WS AP OWN.
  destruct (solo_ends (E i) (deeds_p fuel cfg P (t i) (jobs i) (s i) m) _ m (mkw m 0 0 0 []) eq_refl) as (N&ma&x&SN&RX&MX).
  exists N. intros l m' ks' R L. unshelve epose proof (runs_rel (fun _ => True) E sees own _ _ l m' ks' AP _ R i) as K.
  { intros j. split; [auto|]. intros m1 m2 A. destruct (OWN j) as (H1&H2). apply (tsim_imp (sees j) (own j) (fun a => structs_in (own j) (snd a))); [auto|]. apply (deeds_local (sees j) (own j) (WS j)); auto. }
  cbn beta in K. rewrite (solo_more _ _ _ _ _ _ SN _ L) in K. destruct K as (K&A).
  pose proof (rr_eq _ _ _ _ RX (deeds_same (E i) fuel cfg P (t i) (jobs i) (s i) (mkw m 0 0 0 []))) as Q.
  destruct (do_deeds fuel cfg (E i) P (t i) (jobs i) (s i) (mkw m 0 0 0 [])) as [[[g s'] w']| | |], x as [[[g1 s1] w1]| | |]; cbn [rr] in Q; try contradiction; destruct (ks' i) as [|[[[g2 s2] w2]| | |]]; cbn [krel] in K; try contradiction; cbn [ended_like]; try congruence; auto.
  injection Q as <- <- <-. destruct K as (K&(K1&K2&K3&K4)). injection K as <- <-. subst ma. auto 10.
Qed.
Print Assumptions C79_tasks.

(** ** At every moment a task has done the beginning of what it would do alone. *)
Definition calls_of {A} (k : task A) : list tev := match k with Going _ w => w_tr w | Ended (Ret (_, w)) => w_tr w | Ended _ => [] end.
Lemma go_calls {A} E m (k : task A) m' k' : go E m k = (m', k') -> match k' with Ended (Ret _) | Going _ _ => exists r, calls_of k' = calls_of k ++ r | _ => True end.
Proof.
  intros G. destruct k as [p w|x]; cbn [go] in G.
  - destruct (p m) as [a a1|u|l| |q a1 f]; try (injection G as <- <-; cbn; exists []; rewrite app_nil_r; reflexivity); try (injection G as <- <-; exact Logic.I).
    destruct (answer E q w) as [[n d] w2] eqn:A1. injection G as <- <-. cbn [calls_of]. destruct q; cbn [answer] in A1; try (injection A1 as <- <- <-; cbn [log w_tr]; eauto; exists []; rewrite app_nil_r; reflexivity).
    destruct (e_recv E (w_nr w) room). injection A1 as <- <- <-. cbn [w_tr]. eauto.
  - injection G as <- <-. destruct x; auto. exists []. rewrite app_nil_r. reflexivity.
Qed.
Lemma runs_on {A} E sees m ks l m1 (ks1 : nat -> task A) i n : runs E sees m ks l m1 ks1 -> exists m2 ks2, runs E sees m ks (l ++ repeat i n) m2 ks2 /\
  (forall x, ks1 i = Ended x -> ks2 i = Ended x) /\ match ks2 i with Ended (Ret _) => exists r, calls_of (ks2 i) = calls_of (ks1 i) ++ r | _ => True end.
Proof.
  revert l m1 ks1. induction n as [|n IH]; intros l m1 ks1 R.
  - exists m1, ks1. cbn [repeat]. rewrite app_nil_r. split; [exact R|]. split; [auto|]. destruct (ks1 i) as [|[| | |]]; auto. exists []. rewrite app_nil_r. reflexivity.
  - destruct (go (E i) m1 (ks1 i)) as [m2 k] eqn:G. destruct (IH _ _ _ (runs_task _ _ _ _ _ _ _ _ _ _ R G)) as (m3&ks3&R3&X&C). exists m3, ks3. cbn [repeat]. rewrite <- app_assoc in R3. split; [exact R3|].
    unfold upd in X, C. rewrite Nat.eqb_refl in X, C. split; [intros x Q; apply X; rewrite Q in G; cbn [go] in G; injection G as <- <-; reflexivity|].
    pose proof (go_calls _ _ _ _ _ G) as GC. destruct (ks3 i) as [|[y| | |]]; auto. destruct C as (r&C). rewrite C.
    destruct k as [p w|[z|u|z|z]]; try (discriminate (X _ eq_refl)); destruct GC as (r0&->); exists (r0 ++ r); rewrite app_assoc; reflexivity.
Qed.
Theorem C79_so_far : forall fuel cfg P (E : nat -> env) (sees own : nat -> nat -> Prop) (t : nat -> transport) (jobs : nat -> list deed) (s : nat -> structs) m i l m' ks' g s' w',
  (forall i b, own i b -> sees i b) -> (forall i j b, own i b -> sees j b -> i = j) -> (forall i, structs_in (own i) (s i) /\ Forall (deed_in (sees i) (own i)) (jobs i)) ->
  runs E sees m (fun i => Going (deeds_p fuel cfg P (t i) (jobs i) (s i)) (mkw m 0 0 0 [])) l m' ks' ->
  do_deeds fuel cfg (E i) P (t i) (jobs i) (s i) (mkw m 0 0 0 []) = Ret (g, s', w') -> exists rest, w_tr w' = calls_of (ks' i) ++ rest.
Proof.
  intros fuel cfg P E sees own t jobs s m i l m' ks' g s' w' WS AP OWN R D. destruct (C79_tasks fuel cfg P E sees own t jobs s m i WS AP OWN) as (N&H).
  destruct (runs_on _ _ _ _ _ _ _ i N R) as (m2&ks2&R2&_&C). specialize (H _ _ _ R2). rewrite D in H.
  assert (L : (N <= count_occ Nat.eq_dec (l ++ repeat i N) i)%nat) by (rewrite count_occ_app, count_occ_repeat_eq by auto; lia).
  specialize (H L). destruct (ks2 i) as [|[[[g2 s2] w2]| | |]]; cbn [ended_like] in H; try contradiction. destruct H as (_&_&_&_&_&H&_). destruct C as (r&C). cbn [calls_of] in C. exists r. rewrite <- H. exact C.
Qed.
Print Assumptions C79_so_far.

(** Two tasks at the same time, in turn: task 0 adds a header, sends its request and looks for a header; task 1 writes a body and sends its own
    on another connection, where the response is chunked.  Task [i] may change the blocks 3i to 3i+2 of the memory.  Both look at block 6, where
    the program keeps the name and value of a header it puts into all its requests; nobody changes it.  Meanwhile nobody else runs. *)
Fixpoint play {A} (E : nat -> env) (l : list nat) (m : mem) (ks : nat -> task A) : mem * (nat -> task A) :=
  match l with [] => (m, ks) | i :: l => let (m1, k) := go (E i) m (ks i) in play E l m1 (upd ks i k) end.
Lemma play_runs {A} E sees m (ks : nat -> task A) l : forall l0 m1 ks1, runs E sees m ks l0 m1 ks1 -> runs E sees m ks (l0 ++ l) (fst (play E l m1 ks1)) (snd (play E l m1 ks1)).
Proof.
  induction l as [|i l IH]; intros l0 m1 ks1 R; cbn [play]; [rewrite app_nil_r; exact R|]. destruct (go (E i) m1 (ks1 i)) as [m2 k] eqn:G.
  replace (l0 ++ i :: l) with ((l0 ++ [i]) ++ l) by (rewrite <- app_assoc; reflexivity). apply IH. eapply runs_task; eauto.
Qed.
Definition own3 (i b : nat) : Prop := (Nat.div b 3 = i /\ i < 2)%nat.
Definition sees3 (i b : nat) : Prop := own3 i b \/ b = 6%nat.
Definition m6 : mem := w_mem wsep ++ w_mem wsep ++ [B "Agent: me"].
Definition s6 (i : nat) : structs :=
  match i with
  | 0%nat | 1%nat => (mkrh (Some (mkptr (3 * i) 0)) 300 (zlen req1), mkresp (Some (mkptr (3 * i + 1) 0)) 300 true TUser None 0 None 0 0 0 0 0 0 0)
  | _ => (mkrh None 0 0, mkresp None 0 true TUser None 0 None 0 0 0 0 0 0 0)
  end.
Definition agent : deed := DRequest (CAdd (SAt (mkptr 6 0)) 5 (SAt (mkptr 6 7)) 2).
Definition j6 (i : nat) : list deed :=
  match i with
  | 0%nat => [agent; DSend (Some (mkptr 2 0)) 4 0; DRead (SLit (B "a")) 1]
  | 1%nat => [DWrite (mkptr 5 0) (B "DATA"); agent; DSend (Some (mkptr 5 0)) 4 0]
  | _ => []
  end.
Definition e6 (i : nat) : env := match i with 0%nat => env_ex resp_ok | _ => env_ex resp_chunked end.
Definition start6 : nat -> task (list got * structs) := fun i => Going (deeds_p 100 cfg0 refparser trr (j6 i) (s6 i)) (mkw m6 0 0 0 []).
Definition sched6 : list nat := concat (repeat [0; 1; 0]%nat 400).
Lemma own6 : (forall i b, own3 i b -> sees3 i b) /\ (forall i j b, own3 i b -> sees3 j b -> i = j) /\ (forall i, structs_in (own3 i) (s6 i) /\ Forall (deed_in (sees3 i) (own3 i)) (j6 i)).
Proof.
  split; [left; assumption|]. split.
  - intros i j b (<-&L) [(H&_)| ->]; [exact H|]. cbn in L. lia.
  - intros i.
    assert (O0 : forall k, (k < 3)%nat -> own3 0 k) by (intros k K; split; [apply Nat.div_small; exact K|lia]).
    assert (O1 : forall k, (3 <= k < 6)%nat -> own3 1 k) by (intros k K; split; [|lia]; destruct k as [|[|[|[|[|[|k]]]]]]; try lia; reflexivity).
    destruct i as [|[|i]].
    + split; [split; [apply O0; cbn; lia|split; [apply O0; cbn; lia|split; exact Logic.I]]|]. cbn [j6]. apply Forall_cons; [split; right; reflexivity|]. apply Forall_cons; [left; apply O0; cbn; lia|]. apply Forall_cons; [exact Logic.I|]. apply Forall_nil.
    + split; [split; [apply O1; cbn; lia|split; [apply O1; cbn; lia|split; exact Logic.I]]|]. cbn [j6]. apply Forall_cons; [apply O1; cbn; lia|]. apply Forall_cons; [split; right; reflexivity|]. apply Forall_cons; [left; apply O1; cbn; lia|]. apply Forall_nil.
    + split; [split; [|split; [|split]]; exact Logic.I|apply Forall_nil].
Qed.
Example C79_case : exists m' ks', runs e6 sees3 m6 start6 sched6 m' ks' /\
  (match ks' 0%nat with Ended (Ret (g, _, w)) => map fst g = [HTTPSuccess; HTTPSuccess; HTTPSuccess] /\ length (w_tr w) = 51%nat | _ => False end) /\
  (match ks' 1%nat with Ended (Ret (g, (_, r), w)) => map fst g = [HTTPSuccess; HTTPSuccess; HTTPSuccess] /\ bytes_at m' (mkptr 4 50) (r_bodyLen r) = B "abcdefg" | _ => False end) /\
  (* after 32 steps both are in the middle of writing the header *)
  bytes_at (fst (play e6 (firstn 32 sched6) m6 start6)) (mkptr 0 25) 11 = B "Agent: me" ++ [13; 0] /\ bytes_at (fst (play e6 (firstn 32 sched6) m6 start6)) (mkptr 3 25) 3 = B "A" ++ [10; 0] /\
  match snd (play e6 (firstn 600 sched6) m6 start6) 0%nat, snd (play e6 (firstn 600 sched6) m6 start6) 1%nat with Going _ w, Going _ w' => length (w_tr w) = 51%nat /\ length (w_tr w') = 11%nat | _, _ => False end.
Proof.
  do 2 eexists. split; [exact (play_runs e6 sees3 m6 start6 sched6 [] m6 start6 (runs_begin _ _ _ _))|].
  split; [vm_compute; auto|]. split; [vm_compute; auto|]. split; [vm_compute; auto|]. split; [vm_compute; auto|]. vm_compute. auto.
Qed.
(** That no task changes what another one looks at is needed: two tasks that add a header to the same request, byte by byte in turn.  Both calls
    succeed, and the header of task 0 is lost. *)
Definition j7 (i : nat) : list deed := match i with 0%nat => [DRequest (CAdd (SLit (B "A")) 1 (SLit (B "11")) 2)] | _ => [DRequest (CAdd (SLit (B "Bcd")) 3 (SLit (B "2")) 1)] end.
Definition start7 : nat -> task (list got * structs) := fun i => Going (deeds_p 100 cfg0 refparser trr (j7 i) (s6 0)) (mkw m6 0 0 0 []).
Example C79_sharing_disturbs : exists m' ks', runs e6 sees3 m6 start7 (concat (repeat [0; 1]%nat 40)) m' ks' /\
  (forall i, (i < 2)%nat -> match ks' i with Ended (Ret (g, _, _)) => map fst g = [HTTPSuccess] | _ => False end) /\
  bytes_at m' (mkptr 0 25) 10 = B "Bcd: 2" ++ [13; 10; 13; 10] /\
  (match do_deeds 100 cfg0 (e6 0) refparser trr (j7 0) (s6 0) (mkw m6 0 0 0 []) with Ret (_, _, w) => bytes_at (w_mem w) (mkptr 0 25) 9 = B "A: 11" ++ [13; 10; 13; 10] | _ => False end).
Proof.
  do 2 eexists. split; [exact (play_runs e6 sees3 m6 start7 (concat (repeat [0; 1]%nat 40)) [] m6 start7 (runs_begin _ _ _ _))|].
  split; [intros [|[|i]] L; [vm_compute; auto|vm_compute; auto|lia]|]. split; vm_compute; auto.
Qed.
