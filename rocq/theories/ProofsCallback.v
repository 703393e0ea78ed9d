(** ProofsCallback.v — a run with functions of the application that write memory of their own does what a run without does. *)
From Verif Require Import Base Lib ModelRequest ModelSend ModelResponse SpecRequest SpecSend SpecResponse SpecExchange ProofsRequest
  ProofsSend ProofsSend2 ProofsResponse ProofsResponse2 ProofsResponse3 ProofsFollow ProofsIndep ProofsTwin ProofsExchange ModelCallback SpecCallback.

Lemma same_on_refl S m : same_on S m m.
Proof. split; [auto|split; auto]. Qed.
Lemma same_on_sym S m m' : same_on S m m' -> same_on S m' m.
Proof. intros (A&C&D). split; [auto|split; [auto|]]. intros; symmetry; auto. Qed.
Lemma same_on_trans S m1 m2 m3 : same_on S m1 m2 -> same_on S m2 m3 -> same_on S m1 m3.
Proof. intros (A&C&D) (A'&C'&D'). split; [congruence|split]. { intros; rewrite C; auto. } intros. rewrite D; auto. Qed.
Lemma same_on_less (S T : place) m m' : (forall b i, T b i -> S b i) -> same_on S m m' -> same_on T m m'.
Proof. intros H (A&C&D). split; [auto|split; auto]. Qed.
Lemma same_on_outside m m' p n : same_outside m m' p n <-> same_on (elsewhere (within p n)) m m'.
Proof. unfold same_outside, same_on, elsewhere, within. tauto. Qed.

Lemma in_range_on S m m' p n : same_on S m m' -> in_range m' p n = in_range m p n.
Proof. intros (_&C&_). unfold in_range. rewrite C. auto. Qed.
Lemma padd_on S m m' p n : same_on S m m' -> padd m' p n = padd m p n.
Proof. intros (_&C&_). unfold padd. rewrite C. auto. Qed.
Lemma loadn_on S m m' p n : same_on S m m' -> (forall i, 0 <= i < n -> S (pb p) (po p + i)) -> loadn m' p n = loadn m p n.
Proof.
  intros H HS. unfold loadn. rewrite (in_range_on S m m') by auto. destruct (in_range m p n) eqn:Q; auto. f_equal.
  apply in_range_iff in Q. assert (O' : object m' p n) by (destruct Q as (?&?&?), H as (_&C&_); unfold object; rewrite <- C; auto).
  destruct Q as (Q1&Q2&Q3), O' as (_&_&O3). destruct H as (_&_&D).
  apply list_ext. { rewrite !slice_len; lia. } intros i Hi. rewrite slice_len in Hi by lia. rewrite !zn_slice by lia. symmetry. apply D; [lia|]. apply HS; lia.
Qed.
Lemma storen_on S m m' p d m1 : same_on S m m' -> storen m p d = Ret m1 -> exists m1', storen m' p d = Ret m1' /\ same_on S m1 m1' /\
  same_outside m' m1' p (zlen d).
Proof.
  intros H Q. assert (R : in_range m p (zlen d) = true) by (unfold storen in Q; destruct (in_range m p (zlen d)); [auto|discriminate]).
  apply in_range_iff in R. assert (O' : object m' p (zlen d)) by (destruct R as (?&?&?), H as (_&C&_); unfold object; rewrite <- C; auto).
  rewrite storen_ok in Q by auto. injection Q as <-. exists (write m' p d). split; [apply storen_ok; auto|]. split; [|apply same_outside_write; auto].
  destruct H as (A&C&D). split; [rewrite !write_length; auto|]. split. { intros j. rewrite !zlen_blk_write by auto. auto. }
  intros j i Hi HS. rewrite !blk_write by auto. destruct (Nat.eqb (pb p) j) eqn:E; [|auto]. apply Nat.eqb_eq in E. subst j.
  destruct R as (R1&R2&R3), O' as (_&_&O3). rewrite !zn_splice by lia. destruct ((po p <=? i) && (i <? po p + zlen d)); auto.
Qed.

Section Sim.
Variables (cfg : config) (K : effect) (R S : place) (tr0 : list tev) (m0 : mem).
Hypothesis KS : keeps K S.

Record wsim (w v : world) : Prop := mkwsim { ws_run : same_run S w v; ws_did : doing K R tr0 m0 (w_tr v) (w_mem v) }.

Lemma wsim_log w v e : asks e = false -> wsim w v -> wsim (log w e) (log v e).
Proof. intros He [[A C D F G] H]. split; [split|]; cbn [log w_ns w_nr w_nt w_tr w_mem]; auto; [congruence|apply doing_event; auto]. Qed.
(** A call of the application: the log grows by one entry, then memory changes. *)
Lemma told_sim w v m m' ns nr nt e : asks e = true -> wsim w v -> same_on S m m' -> (same_on (elsewhere R) (w_mem v) m') ->
  wsim (mkw m ns nr nt (w_tr w ++ [e])) (told K (mkw m' ns nr nt (w_tr v ++ [e]))).
Proof.
  intros He [[A C D F G] H] M1 M2. unfold told, set_mem. cbn [w_mem w_tr w_ns w_nr w_nt].
  split; [split|]; cbn [w_ns w_nr w_nt w_tr w_mem]; auto; [congruence|eapply same_on_trans; [exact M1|apply KS]|].
  apply doing_call; auto. eapply doing_library; eauto.
Qed.
Lemma told_log w v e : asks e = true -> wsim w v -> wsim (log w e) (told K (log v e)).
Proof.
  intros He H. pose proof H as [[A C D F G] _]. unfold log. rewrite A, C, D. apply told_sim; auto. apply same_on_refl.
Qed.
Lemma get_time_sim E tf w v t w1 : wsim w v -> get_time E tf w = Ret (t, w1) -> exists v1, get_time_k K E tf v = Ret (t, v1) /\ wsim w1 v1.
Proof.
  intros H Q. unfold get_time_k. pose proof H as [[A C D F G] _]. destruct tf; cbn [get_time bind] in *; [discriminate| |].
  - injection Q as <- <-. eauto.
  - injection Q as <- <-. rewrite D. eexists. split; [reflexivity|]. rewrite A, C. apply told_sim; auto. apply same_on_refl.
Qed.
End Sim.

(** ** Receiving: the effects leave the response buffer alone *)
Section Recv.
Variables (cfg : config) (K : effect) (b : ptr) (L : Z) (tr0 : list tev) (m0 : mem) (base : list tev).
Notation S := (within b L).
Hypothesis KS : keeps K S.
Hypothesis HSZ : L < SZ cfg.
Notation sim := (wsim K S S tr0 m0).
Ltac fwd := repeat (match goal with Q : ?x = Ret _ |- context [bind ?x _] => rewrite Q end; cbn [bind]).
Notation twn := (twin cfg cfg b b L base base).

Definition ssim (s k : cbst) : Prop := s_ctx k = s_ctx s /\ s_resp k = s_resp s /\ sim (s_w s) (s_w k).

Lemma in_buf o n : 0 <= o -> o + n <= L -> forall i, 0 <= i < n -> S (pb (poff b o)) (po (poff b o) + i).
Proof. intros Ho Hn i Hi. unfold within, poff. cbn [pb po]. split; auto. lia. Qed.

Lemma sim_load w v p o n d : sim w v -> p = poff b o -> 0 <= o -> o + n <= L -> loadn (w_mem w) p n = Ret d -> loadn (w_mem v) p n = Ret d.
Proof. intros [[_ _ _ _ M] _] -> Ho Hn H. rewrite <- H. eapply loadn_on; [exact M|]. apply in_buf; auto. Qed.
Lemma sim_padd w v p n : sim w v -> padd (w_mem v) p n = padd (w_mem w) p n.
Proof. intros [[_ _ _ _ M] _]. eapply padd_on; eauto. Qed.

Lemma pch_sim hi s1 s2 k s' : tctx b b hi (s_ctx s1) s2 -> hi <= L -> ssim s1 k -> processCompleteHeader cfg s1 = Ret s' ->
  exists k', processCompleteHeader_k K cfg k = Ret k' /\ ssim s' k'.
Proof.
  intros TC HL (A&C&W) H. unfold processCompleteHeader in H. unfold processCompleteHeader_k. rewrite A, C.
  pose proof (tc_lf _ _ _ _ _ TC) as LF. pose proof (tc_lv _ _ _ _ _ TC) as LV. unfold osh in LF, LV.
  inv_bind H. cbn [bind].
  destruct (c_lf (s_ctx s1)) as [f|], (c_lv (s_ctx s1)) as [v|]; try (injection H as <-; exists k; split; [auto|split; auto]; fail).
  inv_bind H. cbn [bind]. destruct (r_cb (s_resp s1)).
  2:{ injection H as <-. eexists. split; [reflexivity|]. split; auto. }
  destruct (c_lf s2), (c_lv s2); try contradiction. destruct LF as (o&EF&_&F1&F2&F3). destruct LV as (o'&EV&_&V1&V2&V3).
  inv_bind H. inv_bind H. injection H as <-.
  assert (F4 : o + c_lfl (s_ctx s1) <= L) by lia. assert (V4 : o' + c_lvl (s_ctx s1) <= L) by lia.
  rewrite (sim_load _ _ _ o _ _ W EF F1 F4 E1), (sim_load _ _ _ o' _ _ W EV V1 V4 E2). cbn [bind].
  eexists. split; [reflexivity|]. split; [auto|]. split; [auto|]. cbn [s_w]. apply told_log; auto.
Qed.

Lemma cb_sim T hi a n pos ev s1 s2 k r s' : twn T hi s1 s2 -> 0 <= a -> 0 <= pos -> hi <= a + pos -> a + n <= T -> T <= L -> pos <= n -> ev_ok pos n ev ->
  ssim s1 k -> callback cfg (poff b a) ev s1 = Ret (r, s') -> exists k', callback_k K cfg (poff b a) ev k = Ret (r, k') /\ ssim s' k'.
Proof.
  intros (TC&TR&TW) Ha Hpos Hhi Hn HT Hpn OK SS H. pose proof SS as (A&C&W).
  destruct ev as [|off len code|code|off len|off len|p clen close ka|off len|]; cbn [callback callback_k ev_ok] in *; rewrite ?poff_at in *.
  - injection H as <- <-. eexists. split; [unfold onMessageBegin; reflexivity|]. rewrite A, C. split; auto.
  - unfold onStatus in *. rewrite A, C. inv_bind H. inv_bind H. injection H as <- <-. rewrite (sim_padd _ _ _ _ W), E0. cbn [bind]. eexists. split; [reflexivity|]. split; auto.
  - unfold onStatusComplete in *. rewrite A, C. inv_bind H. injection H as <- <-. cbn [bind]. eexists. split; [reflexivity|]. split; auto.
  - unfold onHeaderField, onHeaderField_k in *. rewrite A, C. inv_bind H. inv_bind H. inv_bind H. rewrite (sim_padd _ _ _ _ W), E0. cbn [bind].
    match type of E1 with processCompleteHeader _ ?x = _ => destruct (pch_sim T x (s_ctx x) (mkst (s_ctx x) (s_resp x) (s_w k)) a2) as (k'&Q&(B1&B2&B3)) end; auto.
    { apply padd_inv in E0. subst a1. rewrite poff_poff. cbn [s_ctx]. eapply tctx_mono with (hi := a + off + len); [lia|]. 
      assert (TC2 : tctx b b (a + off + len) (s_ctx s1) (s_ctx s2)) by (eapply tctx_mono; [|exact TC]; lia).
      assert (SELF : forall x p q, osh b b x (a + off + len) p q -> osh b b x (a + off + len) p p).
      { intros x [p|] [q|] Q; cbn in Q |- *; try contradiction; auto. destruct Q as (o&->&_&?). exists o. auto. }
      constructor; cbn; auto.
      - exists (a + off + len). conj; auto; lia.
      - eapply SELF, (tc_lf _ _ _ _ _ TC2).
      - eapply SELF, (tc_lv _ _ _ _ _ TC2). }
    { split; [auto|]. split; auto. }
    cbn [s_ctx s_resp] in Q. rewrite Q. cbn [bind]. rewrite B1, B2.
    destruct (c_lf (s_ctx a2)).
    + inv_bind H. injection H as <- <-. cbn [bind]. eexists. split; [reflexivity|]. split; auto.
    + injection H as <- <-. eexists. split; [reflexivity|]. split; auto.
  - unfold onHeaderValue in *. rewrite A, C. inv_bind H. rewrite (sim_padd _ _ _ _ W), E. cbn [bind]. inv_bind H. injection H as <- <-. cbn [bind].
    eexists. split; [reflexivity|]. split; auto.
  - unfold onHeadersComplete, onHeadersComplete_k in *. rewrite A, C. inv_bind H. cbn [bind]. destruct (c_cur (s_ctx s1)) as [cur|]; [|discriminate].
    destruct (r_buf (s_resp s1)) as [buf|]; [|discriminate]. inv_bind H. inv_bind H. rewrite (sim_padd _ _ _ _ W). do 4 inv_bind H. cbn [bind]. inv_bind H.
    injection H as <- <-.
    match type of E6 with processCompleteHeader _ ?x = _ => destruct (pch_sim T x (s_ctx s2) (mkst (s_ctx x) (s_resp x) (s_w k)) a7) as (k'&Q&(B1&B2&B3)) end; auto.
    { eapply tctx_mono; [|exact TC]; lia. }
    { split; [auto|]. split; auto. }
    cbn [s_ctx s_resp] in Q. fwd. rewrite B2. eexists. split; [reflexivity|]. split; auto.
  - unfold onBody in *. rewrite A, C. inv_bind H. cbn [bind]. rewrite (tr_buf1 _ _ _ _ _ _ _ _ TR) in *. rewrite (tr_len1 _ _ _ _ _ _ _ _ TR) in *.
    do 5 inv_bind H. cbn [bind]. rewrite (sim_padd _ _ _ _ W). fwd.
    pose proof (tr_body _ _ _ _ _ _ _ _ TR) as TB. unfold osh in TB.
    assert (BB : exists o bl, (match r_body (s_resp s1) with None => (poff b (a + off), 0) | Some b => (b, r_bodyLen (s_resp s1)) end) = (poff b o, bl) /\
       0 <= o /\ 0 <= bl /\ o + bl <= a + off).
    { destruct (r_body (s_resp s1)) eqn:R1, (r_body (s_resp s2)) eqn:R2; try contradiction.
      - destruct TB as (o&->&_&Q). exists o, (r_bodyLen (s_resp s1)). conj; auto; lia.
      - exists (a + off), 0. conj; auto; lia. }
    destruct BB as (o&bl&BB1&Q1&Q2&Q3). rewrite BB1 in *.
    inv_bind H. rewrite (sim_padd _ _ _ _ W). fwd. inv_bind H. fwd. inv_bind H.
    fwd. apply padd_inv in E5. subst a6. rewrite poff_poff in *. apply psub_inv in E6.
    assert (GP : psub (poff b (a + off)) (poff b (o + bl)) = Ret a7) by (rewrite E6; unfold psub, poff; cbn [pb po]; rewrite Nat.eqb_refl; auto).
    rewrite ?GP. cbn [bind].
    destruct (0 <? a7) eqn:G.
    + unfold memmove in *. inv_bind E7. rewrite (sim_load _ _ _ (a + off) len _ W eq_refl ltac:(lia) ltac:(lia) E5). cbn [bind].
      pose proof W as [[W1 W2 W3 W4 M] DD]. destruct (storen_on _ _ _ _ _ _ M E7) as (m1'&ST&M1&MO). rewrite ST. cbn [bind]. rewrite ?G. cbn [bind].
      inv_bind H. injection H as <- <-. rewrite (padd_on _ _ _ _ _ M1), E8. cbn [bind]. eexists. split; [reflexivity|]. split; [auto|]. split; [auto|].
      split; [split|]; cbn [s_w set_mem w_ns w_nr w_nt w_tr w_mem]; auto. eapply doing_library; [exact DD|].
      assert (LZ : zlen a6 = len) by (apply loadn_inv in E5; subst a6; apply bytes_at_len, (in_obj L); [apply (tw_o1 _ _ _ _ _ _ _ _ TW)|lia..]).
      apply same_on_outside. eapply same_outside_weaken; [exact MO|reflexivity| |]; unfold poff; cbn [po]; lia.
    + injection E7 as <-. fwd. rewrite ?G. cbn [bind].
      inv_bind H.
      injection H as <- <-. rewrite (sim_padd _ _ _ _ W), E5. cbn [bind]. eexists. split; [reflexivity|]. split; [auto|]. split; auto.
      destruct W as [[W1 W2 W3 W4 M] DD]. split; [split|]; auto.
  - injection H as <- <-. eexists. split; [unfold onMessageComplete; reflexivity|]. rewrite A, C. split; auto.
Qed.

Lemma run_sim {St} (Rr : St -> phase -> Prop) (s0 : St) T a n t : 0 <= a -> a + n <= T -> T <= L -> forall ph hi pos s k e p q s',
  conforms Rr n ph pos t -> twn T hi s s -> hcur s -> 0 <= pos <= n -> hi <= a + pos -> ssim s k ->
  run_tree cfg (poff b a) s0 t s = Ret (e, p, q, s') -> exists k', run_tree_k K cfg (poff b a) s0 t k = Ret (e, p, q, k') /\ ssim s' k'.
Proof.
  intros Ha Hn HT. induction t as [e0 sd|ev kk IH]; intros ph hi pos s k e p q s' CF TW HC Hp Hh SS H; cbn [run_tree run_tree_k conforms] in *.
  - injection H as <- <- <- <-. eauto.
  - destruct CF as (OK&CF). inv_bind H. destruct a0 as [r1 x1].
    assert (TW0 : twn T hi (mkst (s_ctx s) (s_resp s) (log (s_w s) (TEvent ev))) (mkst (s_ctx s) (s_resp s) (log (s_w s) (TEvent ev)))).
    { destruct TW as (TC&TR&TX). split; [auto|]. split; [auto|]. apply tworld_log; [auto|reflexivity]. }
    assert (SS0 : ssim (mkst (s_ctx s) (s_resp s) (log (s_w s) (TEvent ev))) (mkst (s_ctx k) (s_resp k) (log (s_w k) (TEvent ev)))).
    { destruct SS as (A&C&W). split; [auto|split; auto]. apply wsim_log; auto. }
    destruct (cb_sim T hi a n pos ev _ _ _ _ _ TW0 Ha ltac:(lia) Hh Hn HT ltac:(lia) OK SS0 E) as (k1&Q&SS1).
    rewrite Q. cbn [bind].
    destruct (cb_twin cfg cfg b b L base base HSZ HSZ T hi a n pos ev _ _ _ _ _ _ TW0 HC Ha ltac:(lia) Hh Hn HT ltac:(lia) OK E E) as (_&TW1&Hle&HC1).
    assert (TW2 : twn T (a + ev_end pos ev) (mkst (s_ctx x1) (s_resp x1) (log (s_w x1) (TReply r1))) (mkst (s_ctx x1) (s_resp x1) (log (s_w x1) (TReply r1)))).
    { destruct TW1 as (TC&TR&TX). split; [auto|]. split; [auto|]. apply tworld_log; [auto|reflexivity]. }
    assert (SS2 : ssim (mkst (s_ctx x1) (s_resp x1) (log (s_w x1) (TReply r1))) (mkst (s_ctx k1) (s_resp k1) (log (s_w k1) (TReply r1)))).
    { destruct SS1 as (A&C&W). split; [auto|split; auto]. apply wsim_log; auto. }
    assert (Hge : pos <= ev_end pos ev) by (destruct ev; cbn [ev_ok ev_end] in *; lia).
    destruct r1.
    + destruct (CF CbContinue (or_introl eq_refl)) as (ph'&_&CF'). eapply (IH CbContinue ph' (a + ev_end pos ev) (ev_end pos ev)); eauto; lia.
    + destruct (CF CbNoBody (or_intror eq_refl)) as (ph'&_&CF'). eapply (IH CbNoBody ph' (a + ev_end pos ev) (ev_end pos ev)); eauto; lia.
    + injection H as <- <- <- <-. eauto.
    + injection H as <- <- <- <-. eauto.
Qed.

Notation pr := (pair cfg cfg b b L base base).
Definition parse_k_reset : forall (P : parser) ps s n, parseHttpResponse_k K cfg P ps s n = parseHttpResponse_k K cfg P ps (reset s) n.
Proof.
  intros P ps s n. unfold parseHttpResponse_k, reset. destruct (c_resp (s_ctx s)) eqn:E; rewrite ?E; reflexivity.
Qed.
Lemma parse_sim (P : parser) (Rr : PS P -> phase -> Prop) ps ph T n s k st q s' :
  (forall s ph d, Rr s ph -> conforms Rr (zlen d) ph 0 (p_exec P s d)) -> Rr ps ph -> pr T s s -> 0 <= n -> T + n <= L -> ssim s k ->
  parseHttpResponse cfg P ps s n = Ret (st, q, s') -> exists k', parseHttpResponse_k K cfg P ps k n = Ret (st, q, k') /\ ssim s' k'.
Proof.
  intros PC RP PR Hn HL SS H. rewrite parse_reset in H. rewrite parse_k_reset.
  destruct (pair_twin cfg cfg b b L base base T n s s PR Hn HL eq_refl) as (R1&HC&TW&C1&_).
  assert (HT : 0 <= T) by (destruct PR as [(->&_)|(_&X&_)]; lia).
  assert (SS1 : ssim (reset s) (reset k)).
  { destruct SS as (A&C&W). unfold reset. rewrite A, C. destruct (c_resp (s_ctx s)); (split; [auto|split; auto]). }
  set (x := reset s) in *. set (y := reset k) in *. clearbody x y. clear SS PR.
  unfold parseHttpResponse in H. unfold parseHttpResponse_k. destruct SS1 as (A&C&W). rewrite R1, C1 in H. rewrite A, R1. cbv beta iota zeta. rewrite A, C1.
  inv_bind H. rewrite (sim_load _ _ _ T _ _ W eq_refl HT HL E). cbn [bind].
  assert (LD : zlen a = n) by (apply loadn_inv in E; subst a; destruct TW as (_&_&TX); apply bytes_at_len, (in_obj L); [apply (tw_o1 _ _ _ _ _ _ _ _ TX)|lia..]).
  inv_bind H. destruct a0 as (((e1&p1)&z1)&y1).
  assert (TW0 : twn (T + n) T (mkst (s_ctx x) (s_resp x) (log (s_w x) (TParse (poff b T) a))) (mkst (s_ctx x) (s_resp x) (log (s_w x) (TParse (poff b T) a)))).
  { destruct TW as (TC&TR&TY). split; [auto|]. split; [auto|]. apply tworld_log; [auto|]. split; [exists T; auto|reflexivity]. }
  pose proof (PC ps ph a RP) as CF. rewrite LD in CF.
  assert (SS0 : ssim (mkst (s_ctx x) (s_resp x) (log (s_w x) (TParse (poff b T) a))) (mkst (s_ctx x) (s_resp y) (log (s_w y) (TParse (poff b T) a)))).
  { split; [auto|split; auto]. apply wsim_log; auto. }
  destruct (run_sim Rr ps (T + n) T n _ HT ltac:(lia) HL _ T 0 _ _ _ _ _ _ CF TW0 HC ltac:(lia) ltac:(lia) SS0 E0) as (k1&Q&(A1&C1'&W1)).
  rewrite Q. cbn [bind]. inv_bind H. injection H as <- <- <-.
  assert (PA : match e1 with HPE_PAUSED => padd (w_mem (s_w k1)) (poff b T) p1 | _ => padd (w_mem (s_w k1)) (poff b T) n end = Ret a0).
  { rewrite !(sim_padd _ _ _ _ W1). exact E1. }
  rewrite PA. cbn [bind]. rewrite A1, C1'. eexists. split; [reflexivity|]. split; [auto|split; auto]. cbn [s_w]. apply wsim_log; auto.
Qed.

(** ** The receiving loop *)
Ltac inv_def H :=
  match type of H with defd (bind ?x ?f) =>
    let N := fresh "N" in assert (N : nomore x) by (first [apply nomore_parse | nomore]);
    apply (defd_bind x f N) in H; clear N;
    let a := fresh "a" in let E := fresh "E" in destruct H as (a&E&H); rewrite ?E; cbn [bind]
  end.
Definition out (x y : res (status * Z * cbst)) : Prop :=
  match x, y with
  | Ret (st, T, s), Ret (st', T', k) => st' = st /\ T' = T /\ ssim s k
  | More w, More v => sim w v
  | _, _ => False
  end.
Lemma loop_sim (E : env) (P : parser) (Rr : PS P -> phase -> Prop) retry :
  (forall s ph d, Rr s ph -> conforms Rr (zlen d) ph 0 (p_exec P s d)) -> recv_contract E ->
  forall fuel total last ps ph s k, Rr ps ph -> pr total s s -> total < L -> ssim s k ->
  defd (recv_loop fuel cfg E P retry total last ps s) ->
  out (recv_loop fuel cfg E P retry total last ps s) (recv_loop_k K fuel cfg E P retry total last ps k).
Proof.
  intros PC RC. induction fuel as [|fuel IH]; intros total last ps ph s k RP PR HT SS D; cbn [recv_loop recv_loop_k] in *.
  { cbn [out]. apply SS. }
  destruct (pair_facts _ _ _ _ _ _ _ _ _ _ PR) as (TW&B1&_&L1&_&_&_). pose proof (tw_T _ _ _ _ _ _ _ _ TW) as HT0.
  destruct SS as (A&C&W). rewrite A, C. rewrite B1, L1 in *.
  inv_def D. rewrite (sim_padd _ _ _ _ W), E0. cbn [bind]. apply padd_inv in E0. subst a.
  assert (RM : (L - total) mod SZ cfg = L - total) by (apply Z.mod_small; lia). rewrite RM in *.
  pose proof (RC (w_nr (s_w s)) (L - total) ltac:(lia)) as (C1&C2).
  pose proof W as [[W1 W2 W3 W4 M] DD]. rewrite <- W2.
  destruct (e_recv E (w_nr (s_w s)) (L - total)) as [n d]. cbn [fst snd] in C1, C2.
  inv_def D. destruct (storen_on _ _ _ _ _ _ M E0) as (m1'&ST&M1&MO). rewrite ST. cbn [bind s_ctx s_w] in *.
  assert (SIM1 : sim (w_after_recv (s_w s) a (poff b total) (L - total) n d) (told K (w_after_recv (s_w k) m1' (poff b total) (L - total) n d))).
  { unfold w_after_recv. rewrite <- W1, <- W2, <- W3. apply told_sim; auto. apply same_on_outside. eapply same_outside_weaken; [exact MO|reflexivity| |]; unfold poff; cbn [po]; lia. }
  assert (TW1 : tworld b b L base base total (w_after_recv (s_w s) a (poff b total) (L - total) n d) (w_after_recv (s_w s) a (poff b total) (L - total) n d)).
  { destruct TW as [O1 _ T1 _ _ _ _ (t1&t2&X1&X2&X3)]. assert (OD : object (w_mem (s_w s)) (poff b total) (zlen d)) by (apply (in_obj L); auto; pose proof (zlen_nonneg d); lia).
    rewrite storen_ok in E0 by auto. injection E0 as <-.
    constructor; cbn [w_after_recv w_mem w_ns w_nr w_nt w_tr]; auto; try (apply object_write; auto).
    exists (t1 ++ [TRecv (poff b total) (L - total) n d]), (t2 ++ [TRecv (poff b total) (L - total) n d]).
    split; [rewrite X1, <- app_assoc; auto|]. split; [rewrite X2, <- app_assoc; auto|]. apply Forall2_app; [auto|]. constructor; [|constructor]. split; [exists total; auto|auto]. }
  set (v1 := w_after_recv (s_w s) a (poff b total) (L - total) n d) in *.
  set (u1 := told K (w_after_recv (s_w k) m1' (poff b total) (L - total) n d)) in *. clearbody v1 u1. clear W W1 W2 W3 W4 M DD.
  destruct (n <? 0) eqn:NN.
  { cbn [out]. split; auto. split; auto. split; [auto|split; auto]. }
  inv_def D. destruct a0 as [t1 w1]. cbn [s_ctx s_w s_resp] in *.
  destruct (get_time_sim _ _ _ _ _ KS _ _ _ _ _ _ SIM1 E1) as (u2&QT&SIM2). rewrite QT. cbn [bind].
  destruct (get_time_twin b b L base base total _ E _ _ _ _ _ _ TW1 E1 E1) as (_&TW2&_).
  assert (PR2 : pr total (mkst (s_ctx s) (s_resp s) w1) (mkst (s_ctx s) (s_resp s) w1)) by (eapply pair_world; eauto).
  assert (SS2 : ssim (mkst (s_ctx s) (s_resp s) w1) (mkst (s_ctx s) (s_resp s) u2)) by (split; [auto|split; auto]).
  destruct (0 <? n) eqn:NP.
  - assert (MT : (total + n) mod SZ cfg = total + n) by (apply Z.mod_small; lia). rewrite MT in *.
    inv_def D. destruct a0 as ((st1&q1)&x1).
    destruct (parse_sim P Rr ps ph total n _ _ _ _ _ PC RP PR2 ltac:(lia) ltac:(lia) SS2 E2) as (k1&QP&SS3). rewrite QP. cbn [bind].
    destruct (parse_twin cfg cfg b b L base base HSZ HSZ P Rr ps ph total n _ _ _ _ _ _ _ _ PC RP PR2 ltac:(lia) ltac:(lia) eq_refl E2 E2) as (_&_&TW3&R3&GO&NE&CU&_).
    pose proof TW3 as (TC3&TR3&TX3). pose proof SS3 as (A3&C3&_). rewrite A3, C3. rewrite (tr_len1 _ _ _ _ _ _ _ _ TR3) in *.
    destruct (is_success st1 && _ && _) eqn:CO.
    + apply andb_prop in CO. destruct CO as (CO&CL). apply andb_prop in CO. destruct CO as (CO&CM).
      destruct (GO CO) as (ph'&RP'). destruct CU as (U0&U1&U2); [intros ->; discriminate|].
      assert (PR' : pr (total + n) x1 x1) by (right; conj; auto; lia).
      apply (IH (total + n) t1 q1 ph' x1 k1 RP' PR' ltac:(lia) SS3 D).
    + cbn [out]. auto.
  - destruct (retry <=? u32 (t1 - last)).
    + inv_def D. destruct a0 as ((st1&q1)&x1).
      destruct (parse_sim P Rr ps ph total 0 _ _ _ _ _ PC RP PR2 ltac:(lia) ltac:(lia) SS2 E2) as (k1&QP&SS3). rewrite QP. cbn [bind out]. auto.
    + destruct (_ && _) eqn:CO.
      * apply (IH total last ps ph _ _ RP PR2 ltac:(lia) SS2 D).
      * cbn [out]. auto.
Qed.

Definition rout (x y : res (status * option response * world)) : Prop :=
  match x, y with
  | Ret (st, r, w), Ret (st', r', v) => st' = st /\ r' = r /\ sim w v
  | More w, More v => sim w v
  | _, _ => False
  end.
Lemma receive_sim fuel E P t r rh rb n req w v : recv_setup cfg E P t r rh b L req w -> rh_buf rh = Some rb ->
  initializeParsingContextForFirstResponse (w_mem v) rh = initializeParsingContextForFirstResponse (w_mem w) rh -> base = w_tr w -> n = rh_bufLen rh -> sim w v ->
  rout (ReceiveAndParseHttpResponse fuel cfg E P (Some t) (Some r) (Some rh) w) (ReceiveAndParseHttpResponse_k K fuel cfg E P (Some t) (Some r) (Some rh) v).
Proof.
  intros SU RB IN BS NN W. pose proof (receive_defd fuel _ _ _ _ _ _ _ _ _ _ SU) as D.
  destruct SU as (T1&RC&(Rr&RI&PC)&TN1&F1&F2&O&HL&(rb'&n'&H1)&LQ).
  unfold ReceiveAndParseHttpResponse, ReceiveAndParseHttpResponse_k in *. rewrite IN.
  inv_def D. inv_def D. apply (init_ctx _ _ _ _ _ _ H1 LQ) in E1. subst a0.
  inv_def D. destruct a0 as [u1 v1]. destruct (get_time_sim _ _ _ _ _ KS _ _ _ _ _ _ W E1) as (v2&QT&SIM1). rewrite QT. cbn [bind].
  assert (TW0 : tworld b b L base base 0 w w).
  { constructor; auto; [lia|]. exists [], []. rewrite app_nil_r. auto. }
  destruct (get_time_twin b b L base base 0 _ E _ _ _ _ _ _ TW0 E1 E1) as (_&TW1&_).
  set (c := mkctx _ _ _ _ _ _ _ _) in *.
  assert (PR : pr 0 (mkst c r v1) (mkst c r v1)).
  { left. cbn [s_ctx s_resp s_w]. split; auto. split; [unfold idle; conj; auto|]. split; [unfold fresh; conj; auto|auto]. }
  set (retry := match r_time r with TZero => 0 | _ => RECV_TO cfg end) in *.
  assert (DD : forall A C (x : res A) (f : A -> res C), defd (bind x f) -> defd x) by (intros A C [] f; cbn; auto).
  assert (SS : ssim (mkst c r v1) (mkst c r v2)) by (split; [auto|split; auto]).
  pose proof (loop_sim E P Rr retry PC RC fuel 0 u1 (p_init P) PhIdle _ _ RI PR ltac:(lia) SS (DD _ _ _ _ D)) as LT.
  unfold out in LT.
  destruct (recv_loop fuel cfg E P retry 0 u1 (p_init P) (mkst c r v1)) as [((st1&Q1)&y1)| | |w1'],
    (recv_loop_k K fuel cfg E P retry 0 u1 (p_init P) (mkst c r v2)) as [((st2&Q2)&y2)| | |w2']; auto; try contradiction.
  destruct LT as (->&->&A&C&W2). cbn [bind] in *. rewrite A, C. inv_def D. destruct a0 as [sa ra].
  destruct (is_success sa); [|cbn [rout]; auto]. inv_def D. cbn [rout]. auto.
Qed.
End Recv.

(** ** Sending *)
Section Sending.
Variables (cfg : config) (K : effect) (R S : place) (tr0 : list tev) (m0 : mem).
Hypothesis KS : keeps K S.
Notation sim := (wsim K R S tr0 m0).
(** The [n] bytes at [p] are among the protected ones. *)
Definition prot (p : ptr) (n : Z) : Prop := forall i, 0 <= i < n -> S (pb p) (po p + i).
Definition sout (x y : res (status * world)) : Prop :=
  match x, y with
  | Ret (st, w), Ret (st', v) => st' = st /\ sim w v
  | More w, More v => sim w v
  | _, _ => False
  end.
Lemma send_loop_sim E tf retry : forall fuel p rem last w v, prot p rem -> sim w v ->
  defd (send_loop fuel E tf retry p rem last w) -> sout (send_loop fuel E tf retry p rem last w) (send_loop_k K fuel E tf retry p rem last v).
Proof.
  induction fuel as [|fuel IH]; intros p rem last w v PR W D; cbn [send_loop send_loop_k] in *; [exact W|].
  destruct (rem <=? 0) eqn:Z0; [cbn; auto|].
  pose proof W as [[W1 W2 W3 W4 M] DD].
  assert (N1 : nomore (loadn (w_mem w) p rem)) by nomore. apply (defd_bind _ _ N1) in D. destruct D as (d&E0&D). rewrite E0. cbn [bind].
  assert (LD : loadn (w_mem v) p rem = Ret d) by (rewrite <- E0; eapply loadn_on; [exact M|exact PR]). rewrite LD. cbn [bind]. rewrite <- W1.
  assert (SIM1 : sim (w_after_send w d (e_send E (w_ns w) rem)) (told K (w_after_send v d (e_send E (w_ns w) rem)))).
  { unfold w_after_send. rewrite W1, W2, W3. apply told_sim; auto. apply same_on_refl. }
  set (z := e_send E (w_ns w) rem) in *. set (w1 := w_after_send w d z) in *. set (v1 := told K (w_after_send v d z)) in *. clearbody z w1 v1.
  destruct (z <? 0) eqn:ZN; [cbn; auto|].
  destruct (0 <? z) eqn:ZP.
  - assert (N2 : nomore (assert_at (z <=? rem) 1861)) by nomore. apply (defd_bind _ _ N2) in D. destruct D as (u&E1&D). rewrite E1. cbn [bind].
    assert (ZR : z <= rem) by (unfold assert_at in E1; destruct (Z.leb_spec z rem); [auto|discriminate]).
    assert (N3 : nomore (get_time E tf w1)) by nomore. apply (defd_bind _ _ N3) in D. destruct D as ((t&w2)&E2&D). rewrite E2. cbn [bind].
    destruct (get_time_sim _ _ _ _ _ KS _ _ _ _ _ _ SIM1 E2) as (v2&QT&SIM2). rewrite QT. cbn [bind].
    assert (N4 : nomore (padd (w_mem w2) p z)) by nomore. apply (defd_bind _ _ N4) in D. destruct D as (q&E3&D). rewrite E3. cbn [bind].
    assert (PA : padd (w_mem v2) p z = Ret q) by (rewrite <- E3; eapply padd_on; apply SIM2). rewrite PA. cbn [bind].
    apply IH; auto. apply padd_inv in E3. subst q. intros i Hi. unfold poff. cbn [pb po]. replace (po p + z + i) with (po p + (z + i)) by lia. apply PR. lia.
  - assert (N3 : nomore (get_time E tf w1)) by nomore. apply (defd_bind _ _ N3) in D. destruct D as ((t&w2)&E2&D). rewrite E2. cbn [bind].
    destruct (get_time_sim _ _ _ _ _ KS _ _ _ _ _ _ SIM1 E2) as (v2&QT&SIM2). rewrite QT. cbn [bind].
    destruct (retry <=? u32 (t - last)); [cbn; auto|]. apply IH; auto.
Qed.
Lemma data_sim fuel E t tf p len w v : prot p len -> sim w v -> defd (SendHttpData fuel cfg E (Some t) tf (Some p) len w) ->
  sout (SendHttpData fuel cfg E (Some t) tf (Some p) len w) (SendHttpData_k K fuel cfg E (Some t) tf (Some p) len v).
Proof.
  intros PR W D. unfold SendHttpData, SendHttpData_k in *.
  assert (N1 : nomore (assert_at (t_send t) 1827)) by nomore. apply (defd_bind _ _ N1) in D. destruct D as (u&E0&D). rewrite E0. cbn [bind].
  assert (N3 : nomore (get_time E tf w)) by nomore. apply (defd_bind _ _ N3) in D. destruct D as ((t0&w2)&E2&D). rewrite E2. cbn [bind].
  destruct (get_time_sim _ _ _ _ _ KS _ _ _ _ _ _ W E2) as (v2&QT&SIM2). rewrite QT. cbn [bind]. apply send_loop_sim; auto.
Qed.
End Sending.

Lemma strncmp_on S m m' lit : same_on S m m' -> forall p, (forall i, 0 <= i < zlen lit -> S (pb p) (po p + i)) -> strncmp_eq m' p lit = strncmp_eq m p lit.
Proof.
  intros M. induction lit as [|c lit IH]; intros p H; cbn [strncmp_eq]; auto. rewrite zlen_cons in H. pose proof (zlen_nonneg lit).
  assert (Q : load1 m' p = load1 m p).
  { unfold load1. rewrite (in_range_on S m m') by auto. destruct (in_range m p 1) eqn:I; auto. apply in_range_iff in I. destruct I as (I1&I2&I3).
    destruct M as (_&_&D). f_equal. symmetry. apply (D (pb p) (po p)); auto. replace (po p) with (po p + 0) by lia. apply H. lia. }
  rewrite Q. destruct (load1 m p) as [x| | |]; cbn [bind]; auto. destruct (x =? c); auto. apply IH. cbn [pb po]. intros i Hi.
  replace (po p + 1 + i) with (po p + (1 + i)) by lia. apply H. lia.
Qed.

Definition qout (K : effect) (R S : place) tr0 m0 (x y : res (status * option reqHeaders * world)) : Prop :=
  match x, y with
  | Ret (st, h, w), Ret (st', h', v) => st' = st /\ h' = h /\ wsim K R S tr0 m0 w v
  | More w, More v => wsim K R S tr0 m0 w v
  | _, _ => False
  end.
Lemma headers_sim fuel cfg E tf t h buf n req len flags w K S :
  send_contract E -> tf <> TNull -> t_send t = true -> holds (w_mem w) h buf n req ->
  0 <= len <= INT32_MAX -> n + 30 < SZ cfg -> keeps K S -> prot S buf n ->
  qout K (within buf n) S (w_tr w) (w_mem w) (SendHttpHeaders fuel cfg E (Some t) tf (Some h) len flags w) (SendHttpHeaders_k K fuel cfg E (Some t) tf (Some h) len flags w).
Proof.
  intros SC TN Ht H Hl W KS PR. unfold SendHttpHeaders, SendHttpHeaders_k. rewrite Ht. cbn [assert_at bind].
  assert (GO : forall block h1 m1, holds m1 h1 buf n block -> same_outside (w_mem w) m1 buf n ->
     qout K (within buf n) S (w_tr w) (w_mem w) (' (st2, w2) <- SendHttpData fuel cfg E (Some t) tf (rh_buf h1) (rh_len h1) (set_mem w m1) ;; Ret (st2, Some h1, w2))
       (' (st2, w2) <- SendHttpData_k K fuel cfg E (Some t) tf (rh_buf h1) (rh_len h1) (set_mem w m1) ;; Ret (st2, Some h1, w2))).
  { intros block h1 m1 (Hb&Hn&HO&HL&->) SO. rewrite Hb.
    destruct (SendHttpData_run fuel cfg E tf t buf (rh_len h1) (set_mem w m1) SC TN Ht) as (o&w'&t0&tr&E1&_).
    { cbn [set_mem w_mem]. destruct HO as (?&?&?). unfold object. lia. }
    assert (S0 : wsim K (within buf n) S (w_tr w) (w_mem w) (set_mem w m1) (set_mem w m1)).
    { split; [split; auto; apply same_on_refl|]. cbn [set_mem w_tr w_mem]. eapply doing_library; [apply doing_none|]. apply same_on_outside; auto. }
    pose proof (data_sim cfg K (within buf n) S (w_tr w) (w_mem w) KS fuel E t tf buf (rh_len h1) _ _ ltac:(intros i Hi; apply PR; lia) S0) as DS.
    destruct (SendHttpData fuel cfg E (Some t) tf (Some buf) (rh_len h1) (set_mem w m1)) as [[st w2]| | |]; cbn [wout] in E1; try discriminate;
      specialize (DS Logic.I); destruct (SendHttpData_k K fuel cfg E (Some t) tf (Some buf) (rh_len h1) (set_mem w m1)) as [[st' v2]| | |]; cbn [sout] in DS; try contradiction; cbn [bind qout]; [|auto].
    destruct DS as (->&DS). auto. }
  rewrite landf1.
  destruct (Z.testbit flags 0) eqn:Ef; cbn [negb andb].
  - cbn [bind is_success]. apply (GO req); auto. apply same_outside_refl.
  - destruct (Z.ltb_spec 0 len).
    + destruct (addContentLength_outcome cfg (w_mem w) h buf n req len H) as (o&st&h'&m'&OP&EQ&D); [lia|lia|].
      rewrite EQ. cbn [bind]. cbv zeta in D.
      destruct D as [(C&->&->&->)|(C&->&Hh&SO)].
      * cbn [is_success qout]. split; auto. split; auto. destruct w as [x1 x2 x3 x4 x5]; cbn [set_mem w_mem w_tr w_ns w_nr w_nt]. split; [split; auto; apply same_on_refl|apply doing_none].
      * cbn [is_success]. eapply GO; [exact Hh|].
        eapply same_outside_weaken; [exact SO| | |]; cbn [poff pb po]; auto.
        -- pose proof (zlen_nonneg o). unfold poff. cbn [po]. lia.
        -- rewrite zlen_app in C. unfold poff. cbn [po]. lia.
    + cbn [bind is_success]. apply (GO req); auto. apply same_outside_refl.
Qed.
Lemma request_sim fuel cfg E tf t h buf n req body len bd flags w K S :
  send_contract E -> tf <> TNull -> t_send t = true -> holds (w_mem w) h buf n req ->
  0 <= len <= INT32_MAX -> n + 30 < SZ cfg -> body_arg (w_mem w) buf n body len bd -> keeps K S -> prot S buf n -> (forall p, body = Some p -> prot S p len) ->
  qout K (within buf n) S (w_tr w) (w_mem w) (sendHttpRequest fuel cfg E (Some t) tf (Some h) body len flags w) (sendHttpRequest_k K fuel cfg E (Some t) tf (Some h) body len flags w).
Proof.
  intros SC TN Ht H Hl W BA KS PR PB.
  destruct (sendHttpRequest_run fuel cfg E tf t h buf n req body len bd flags w SC TN Ht H Hl W BA) as (block&h1&m1&so&w1&sent&_&_&_&E1&_).
  pose proof (headers_sim fuel cfg E tf t h buf n req len flags w K S SC TN Ht H Hl W KS PR) as HS.
  unfold sendHttpRequest, sendHttpRequest_k in *.
  assert (B0 : match body with None => len =? 0 | _ => true end = true) by (destruct body; auto; destruct BA as (->&_); auto).
  assert (T0 : match tf with TNull => false | _ => true end = true) by (destruct tf; auto; congruence).
  rewrite B0, T0 in *. cbn [assert_at bind] in *.
  destruct (SendHttpHeaders fuel cfg E (Some t) tf (Some h) len flags w) as [[[st oh] w2]| | |w2]; cbn [bind wout] in E1; try discriminate;
    destruct (SendHttpHeaders_k K fuel cfg E (Some t) tf (Some h) len flags w) as [[[st' oh'] v2]| | |v2]; cbn [qout] in HS; try contradiction; cbn [bind]; [|auto].
  destruct HS as (->&->&HS). destruct (is_success st); [|cbn [qout]; auto].
  destruct body as [p|]; [|cbn [qout]; auto]. unfold sendHttpBody, sendHttpBody_k in *. rewrite Ht in *. cbn [assert_at bind] in *.
  pose proof (data_sim cfg K (within buf n) S (w_tr w) (w_mem w) KS fuel E t tf p len w2 v2 (PB p eq_refl) HS) as DS.
  destruct (SendHttpData fuel cfg E (Some t) tf (Some p) len w2) as [[s3 w3]| | |w3]; cbn [bind wout] in E1; try discriminate; specialize (DS Logic.I);
    destruct (SendHttpData_k K fuel cfg E (Some t) tf (Some p) len v2) as [[s3' v3]| | |v3]; cbn [sout] in DS; try contradiction; cbn [bind qout]; [|auto].
  destruct DS as (->&DS). auto.
Qed.

Lemma Send_k_valid Ks K fuel cfg E P tr prh body bodyLen pr flags w :
  size_ok cfg -> 0 <= bodyLen < SZ cfg -> ~ send_invalid tr prh body bodyLen pr ->
  exists r, pr = Some r /\ Send_k Ks K fuel cfg E P tr prh body bodyLen pr flags w =
      (' (st, prh1, w1) <- sendHttpRequest_k Ks fuel cfg E tr (r_time (eff_time r)) prh body bodyLen flags w ;;
       if is_success st
       then ' (st2, pr2, w2) <- ReceiveAndParseHttpResponse_k K fuel cfg E P tr (Some (eff_time r)) prh1 w1 ;;
            Ret (st2, prh1, pr2, w2)
       else Ret (st, prh1, Some (eff_time r), w1)).
Proof.
  intros SO HB H. destruct (Send_valid fuel cfg E P tr prh body bodyLen pr flags w SO HB H) as (t&h&r&->&E1&E2&->&->&(b&E3)&L1&(rb&E4)&L3&L4&L5&_).
  exists r. split; auto. unfold Send_k. rewrite E1, E2, E3, E4. cbn [negb]. unfold HTTP_MINIMUM_REQUEST_LINE_LENGTH.
  replace (rh_len h <? 16) with false by lia. replace (rh_bufLen h <? rh_len h) with false by lia.
  replace (r_bufLen r =? 0) with false by lia. rewrite int32max_mod by auto.
  replace (INT32_MAX <? bodyLen) with false by lia.
  replace (match body with Some _ => false | None => 0 <? bodyLen end) with false
    by (destruct body; auto; symmetry; apply Z.ltb_ge; rewrite L5; auto; lia).
  reflexivity.
Qed.
