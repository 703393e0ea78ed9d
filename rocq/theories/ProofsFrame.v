(** ProofsFrame.v — behind the data received, the response buffer is not written. *)
From Verif Require Import Base Lib ModelRequest ModelSend ModelResponse SpecRequest SpecSend SpecResponse ProofsRequest ProofsSend ProofsSend2
  ProofsResponse ProofsResponse2 ProofsIndep ProofsTwin SpecBuffer.

Definition frame (b : nat) (o : Z) (m m' : mem) : Prop := forall i, 0 <= i -> o <= i -> zn (blk m b) i = zn (blk m' b) i.
Lemma frame_refl b o m : frame b o m m.
Proof. intros i _ _. reflexivity. Qed.
Lemma frame_trans b o m1 m2 m3 : frame b o m1 m2 -> frame b o m2 m3 -> frame b o m1 m3.
Proof. intros A B i H1 H2. rewrite A, B; auto. Qed.
Lemma frame_mono b o o' m m' : o <= o' -> frame b o m m' -> frame b o' m m'.
Proof. intros L A i H1 H2. apply A; lia. Qed.
Lemma storen_frame m p d m' o : storen m p d = Ret m' -> (d <> [] -> po p + zlen d <= o) -> frame (pb p) o m m'.
Proof.
  intros H LE. unfold storen in H. destruct (in_range m p (zlen d)) eqn:IR; [|discriminate]. injection H as <-.
  apply in_range_iff in IR. destruct (same_outside_write _ _ _ IR) as (_&_&S). fold (write m p d). intros i H1 H2. apply S; auto.
  intros (_&H3). destruct d as [|x d]; [change (zlen (@nil Z)) with 0 in *; lia|]. specialize (LE ltac:(discriminate)). lia.
Qed.
Lemma memmove_frame m p q n m' o : memmove m p q n = Ret m' -> po p + n <= o -> frame (pb p) o m m'.
Proof.
  unfold memmove. intros H LE. inv_bind H. rename a into d. assert (Hd : 0 <= n -> zlen d = n).
  { unfold loadn in E. destruct (in_range m q n) eqn:IR; [|discriminate]. injection E as <-. apply in_range_iff in IR. intros _. apply (bytes_at_len _ _ _ IR). }
  assert (0 <= n) by (unfold loadn in E; destruct (in_range m q n) eqn:IR; [|discriminate]; apply in_range_iff in IR; destruct IR; auto).
  eapply storen_frame; [exact H|]. intros _. rewrite Hd; auto.
Qed.

(** What the callbacks keep. *)
Definition rkept (s s' : cbst) : Prop := r_buf (s_resp s') = r_buf (s_resp s) /\ r_bufLen (s_resp s') = r_bufLen (s_resp s) /\ c_resp (s_ctx s') = c_resp (s_ctx s) /\
  received (w_tr (s_w s')) = received (w_tr (s_w s)).
Ltac rk := split; [|split; [|split]]; try reflexivity; cbn [s_w log w_tr]; rewrite ?received_app0; cbn [received]; try lia.
Lemma rkept_refl s : rkept s s.
Proof. rk. Qed.
Lemma rkept_trans a b c : rkept a b -> rkept b c -> rkept a c.
Proof. intros (A1&A2&A3&A4) (B1&B2&B3&B4). split; [|split; [|split]]; congruence. Qed.
Lemma pch_kept cfg s s' : processCompleteHeader cfg s = Ret s' -> rkept s s' /\ w_mem (s_w s') = w_mem (s_w s).
Proof.
  unfold processCompleteHeader. intros H. inv_bind H.
  destruct (c_lf (s_ctx s)), (c_lv (s_ctx s)); try (injection H as <-; split; [apply rkept_refl|reflexivity]).
  inv_bind H. destruct (r_cb (s_resp s)); [|injection H as <-; split; [rk|reflexivity]].
  inv_bind H. inv_bind H. injection H as <-. split; [rk|reflexivity].
Qed.

Lemma callback_frame cfg start ev s r s' pos n : callback cfg start ev s = Ret (r, s') -> ev_ok pos n ev ->
  rkept s s' /\ frame (pb start) (po start + n) (w_mem (s_w s)) (w_mem (s_w s')).
Proof.
  intros H OK. destruct ev; cbn [callback] in H.
  - unfold onMessageBegin in H. injection H as <- <-. split; [rk|apply frame_refl].
  - unfold onStatus in H. inv_bind H. inv_bind H. injection H as <- <-. split; [rk|apply frame_refl].
  - unfold onStatusComplete in H. inv_bind H. injection H as <- <-. split; [rk|apply frame_refl].
  - unfold onHeaderField in H. inv_bind H. inv_bind H. inv_bind H. apply pch_kept in E1. destruct E1 as (K&M). cbn [s_w s_ctx s_resp] in M.
    assert (K2 : rkept s a1).
    { destruct K as (K1&K2&K3&K4). cbn [s_ctx s_resp s_w set_cur c_resp] in *. unfold rkept. rewrite K1, K2, K3, K4. destruct (r_headers (s_resp s)); rk. }
    destruct (c_lf (s_ctx a1)); [inv_bind H|]; injection H as <- <-; cbn [s_w]; rewrite M; (split; [exact K2|apply frame_refl]).
  - unfold onHeaderValue in H. inv_bind H. inv_bind H. injection H as <- <-. cbn [s_w]. split; [|apply frame_refl].
    rk. cbn [s_ctx]. destruct (c_lv _); reflexivity.
  - unfold onHeadersComplete in H. inv_bind H. destruct (c_cur (s_ctx s)); [|discriminate]. destruct (r_buf (s_resp s)) eqn:EB; [|discriminate].
    inv_bind H. inv_bind H. inv_bind H. inv_bind H. inv_bind H. inv_bind H. inv_bind H. injection H as <- <-. apply pch_kept in E6. destruct E6 as (K&M). cbn [s_w] in M. rewrite M.
    split; [|apply frame_refl]. destruct K as (K1&K2&K3&K4). cbn [s_resp s_ctx s_w] in *. split; [|split; [|split; [exact K3|exact K4]]].
    + rewrite K1. transitivity (r_buf a5); [destruct close, keepalive; reflexivity|]. destruct (r_headers _); [inv_bind E5; inv_bind E5|]; injection E5 as <-; reflexivity.
    + rewrite K2. transitivity (r_bufLen a5); [destruct close, keepalive; reflexivity|]. destruct (r_headers _); [inv_bind E5; inv_bind E5|]; injection E5 as <-; reflexivity.
  - cbn [ev_ok] in OK. unfold onBody in H. inv_bind H. destruct (r_buf (s_resp s)) eqn:EB; [|discriminate].
    inv_bind H. inv_bind H. inv_bind H. inv_bind H. inv_bind H.
    destruct (match r_body (s_resp s) with Some b => (b, r_bodyLen (s_resp s)) | None => _ end) as [body bl] eqn:EBD.
    inv_bind H. inv_bind H. inv_bind H. inv_bind H. injection H as <- <-. split; [rk|].
    cbn [s_w set_mem w_mem]. destruct (Z.ltb_spec 0 a6); [|injection E7 as <-; apply frame_refl].
    assert (PB : pb a5 = pb start).
    { unfold psub in E6. cbn [pb] in E6. destruct (Nat.eqb_spec (pb start) (pb a5)); [auto|discriminate]. }
    rewrite <- PB. eapply memmove_frame; [exact E7|]. apply psub_inv in E6. cbn [po] in E6. lia.
  - unfold onMessageComplete in H. injection H as <- <-. split; [rk|apply frame_refl].
Qed.

Lemma run_tree_frame cfg start {S} (R : S -> phase -> Prop) s0 n t : forall s ph pos e epos ps' s',
  run_tree cfg start s0 t s = Ret (e, epos, ps', s') -> conforms R n ph pos t ->
  rkept s s' /\ frame (pb start) (po start + n) (w_mem (s_w s)) (w_mem (s_w s')) /\ (goes_on e = true -> exists ph', R ps' ph').
Proof.
  induction t as [e0 sd|ev kk IH]; intros s ph pos e epos ps' s' H CF; cbn [run_tree conforms] in *.
  - injection H as <- <- <- <-. split; [apply rkept_refl|]. split; [apply frame_refl|]. intros X. exists ph. apply CF, X.
  - destruct CF as (C1&C2). inv_bind H. destruct a as (r&s1). destruct (callback_frame _ _ _ _ _ _ _ _ E C1) as (K&F). cbn [s_w log w_mem] in F.
    assert (K1 : rkept s (mkst (s_ctx s1) (s_resp s1) (log (s_w s1) (TReply r)))) by (destruct K as (?&?&?&K4); rk; auto; rewrite K4; cbn [s_w log w_tr]; rewrite received_app0; cbn [received]; lia).
    destruct r.
    + destruct (C2 CbContinue (or_introl eq_refl)) as (p2&_&X2). destruct (IH _ _ _ _ _ _ _ _ H X2) as (K2&F2&G).
      split; [eapply rkept_trans; eauto|]. split; [eapply frame_trans; [exact F|exact F2]|exact G].
    + destruct (C2 CbNoBody (or_intror eq_refl)) as (p2&_&X2). destruct (IH _ _ _ _ _ _ _ _ H X2) as (K2&F2&G).
      split; [eapply rkept_trans; eauto|]. split; [eapply frame_trans; [exact F|exact F2]|exact G].
    + injection H as <- <- <- <-. split; [exact K1|]. split; [exact F|discriminate].
    + injection H as <- <- <- <-. split; [exact K1|]. split; [exact F|discriminate].
Qed.

Lemma parse_frame cfg (P : parser) (R : PS P -> phase -> Prop) ps s ph n st ps' s' buf off :
  (forall s ph d, R s ph -> conforms R (zlen d) ph 0 (p_exec P s d)) -> R ps ph ->
  parseHttpResponse cfg P ps s n = Ret (st, ps', s') -> 0 <= off -> 0 <= n ->
  r_buf (s_resp s) = Some buf -> (if c_resp (s_ctx s) then c_cur (s_ctx s) = Some (poff buf off) else off = 0) ->
  r_buf (s_resp s') = Some buf /\ r_bufLen (s_resp s') = r_bufLen (s_resp s) /\ c_resp (s_ctx s') = true /\ received (w_tr (s_w s')) = received (w_tr (s_w s)) /\
  frame (pb buf) (po buf + off + n) (w_mem (s_w s)) (w_mem (s_w s')) /\
  (is_success st = true -> c_cur (s_ctx s') = Some (poff buf (off + n)) /\ exists ph', R ps' ph').
Proof.
  intros PO RP H O0 N0 EB EC. unfold parseHttpResponse in H.
  set (s1 := if c_resp (s_ctx s) then s else _) in H.
  assert (S1 : r_buf (s_resp s1) = Some buf /\ r_bufLen (s_resp s1) = r_bufLen (s_resp s) /\ c_resp (s_ctx s1) = true /\ s_w s1 = s_w s /\ c_cur (s_ctx s1) = Some (poff buf off)).
  { unfold s1. destruct (c_resp (s_ctx s)) eqn:CR; [auto|]. subst off. rewrite poff_0. cbn. auto. }
  clearbody s1. destruct S1 as (A1&A2&A3&A4&A5). rewrite A5 in H. inv_bind H. rename a into d. inv_bind H. destruct a as (((e&epos)&ps1)&s2). inv_bind H. injection H as <- <- <-.
  assert (LD : zlen d = n).
  { unfold loadn in E. destruct (in_range _ _ n) eqn:IR; [|discriminate]. injection E as <-. apply in_range_iff in IR. apply (bytes_at_len _ _ _ IR). }
  destruct (run_tree_frame _ _ R _ (zlen d) _ _ _ _ _ _ _ _ E0 (PO _ _ d RP)) as (K&F&G). cbn [s_w log w_mem poff pb po] in F. rewrite A4, LD in F.
  destruct K as (K1&K2&K3&K4). cbn [s_ctx s_resp s_w set_cur c_resp c_cur log w_mem w_tr] in *. rewrite !received_app0 in *. cbn [received] in *. rewrite A4 in K4.
  split; [congruence|]. split; [congruence|]. split; [congruence|]. split; [lia|]. split; [exact F|]. rewrite goes_on_success. intros GO. split; [|auto].
  assert (PA : padd (w_mem (s_w s2)) (poff buf off) n = Ret a) by (destruct e; try discriminate; exact E1). apply padd_inv in PA. subst a. rewrite poff_poff. reflexivity.
Qed.

Lemma recv_loop_frame cfg E (P : parser) (R : PS P -> phase -> Prop) retry buf L :
  (forall s ph d, R s ph -> conforms R (zlen d) ph 0 (p_exec P s d)) -> recv_contract E -> recv_exact E -> 0 < L < SZ cfg -> forall fuel total last ps s ph st total' s',
  recv_loop fuel cfg E P retry total last ps s = Ret (st, total', s') -> R ps ph -> 0 <= total < L ->
  r_buf (s_resp s) = Some buf -> r_bufLen (s_resp s) = L -> (if c_resp (s_ctx s) then c_cur (s_ctx s) = Some (poff buf total) else total = 0) ->
  received (w_tr (s_w s')) = received (w_tr (s_w s)) + (total' - total) /\ total <= total' /\ frame (pb buf) (po buf + total') (w_mem (s_w s)) (w_mem (s_w s')).
Proof.
  intros PO RC RE LL. induction fuel as [|f IH]; intros total last ps s ph st total' s' H RP T0 EB EL EC; [discriminate|].
  cbn [recv_loop] in H. rewrite EB, EL in H. inv_bind H. rename a into dst. apply padd_inv in E0. subst dst. rewrite (Z.mod_small (L - total)) in H by lia.
  specialize (RC (w_nr (s_w s)) (L - total) ltac:(lia)). specialize (RE (w_nr (s_w s)) (L - total)).
  destruct (e_recv E (w_nr (s_w s)) (L - total)) as [n d]. cbn [fst snd] in *. inv_bind H. rename a into m1.
  assert (F1 : frame (pb buf) (po buf + (total + Z.max 0 n)) (w_mem (s_w s)) m1).
  { eapply (storen_frame _ (poff buf total)); [exact E0|]. intros _. unfold poff. cbn [po]. lia. }
  destruct (Z.ltb_spec n 0).
  { injection H as <- <- <-. cbn [s_w w_after_recv w_mem w_tr]. rewrite received_app0. cbn [received]. split; [lia|]. split; [lia|]. replace (total + Z.max 0 n) with total in F1 by lia. exact F1. }
  inv_bind H. destruct a as (tm&w2). assert (M2 : w_mem w2 = m1) by (destruct (r_time (s_resp s)); cbn [get_time] in E1; try discriminate; injection E1 as _ <-; reflexivity).
  assert (RC2 : received (w_tr w2) = received (w_tr (s_w s)) + n).
  { destruct (get_time_tr _ _ _ _ _ E1) as (tk&X1&X2). rewrite X1. cbn [s_w w_after_recv w_tr]. rewrite !received_app0, X2. cbn [received]. lia. }
  replace (Z.max 0 n) with n in F1 by lia.
  destruct (Z.ltb_spec 0 n).
  - inv_bind H. destruct a as ((st1&ps1)&s3). rewrite (Z.mod_small (total + n)) in H by lia.
    destruct (parse_frame cfg P R ps _ ph n st1 ps1 s3 buf total PO RP E2) as (A1&A2&A3&AR&A4&A5); cbn [s_ctx s_resp]; try lia; auto.
    cbn [s_resp s_w] in A2, A4, AR. rewrite M2 in A4. rewrite <- Z.add_assoc in A4. pose proof (frame_trans _ _ _ _ _ F1 A4) as F2.
    destruct (is_success st1) eqn:SU; cbn [andb] in H; [|injection H as <- <- <-; split; [lia|split; [lia|exact F2]]].
    destruct (A5 eq_refl) as (A6&ph'&A7). rewrite A2, EL in H.
    destruct (match c_state _ with HTTP_PARSING_COMPLETE => false | _ => true end); cbn [andb] in H; [|injection H as <- <- <-; split; [lia|split; [lia|exact F2]]].
    destruct (Z.ltb_spec (total + n) L); [|injection H as <- <- <-; split; [lia|split; [lia|exact F2]]].
    destruct (IH _ _ _ _ _ _ _ _ H A7) as (BR&B1&B2); [lia|auto|congruence|rewrite A3; auto|]. split; [lia|]. split; [lia|].
    eapply frame_trans; [eapply frame_mono; [|exact F2]; lia|exact B2].
  - assert (n = 0) by lia. subst n. rewrite Z.add_0_r in F1. destruct (retry <=? u32 (tm - last)).
    + inv_bind H. destruct a as ((st1&ps1)&s3). injection H as <- <- <-.
      destruct (parse_frame cfg P R ps _ ph 0 st1 ps1 s3 buf total PO RP E2) as (A1&A2&A3&AR&A4&A5); cbn [s_ctx s_resp]; try lia; auto.
      cbn [s_w] in A4, AR. rewrite M2, Z.add_0_r in A4. split; [lia|]. split; [lia|]. eapply frame_trans; eauto.
    + destruct (match c_state _ with HTTP_PARSING_COMPLETE => false | _ => true end && _); [|injection H as <- <- <-; cbn [s_w]; rewrite M2; split; [lia|split; [lia|exact F1]]].
      destruct (IH _ _ _ _ _ _ _ _ H RP T0 EB EL EC) as (BR&B1&B2). cbn [s_w] in B2, BR. rewrite M2 in B2. split; [lia|]. split; [lia|].
      eapply frame_trans; [eapply frame_mono; [|exact F1]; lia|exact B2].
Qed.

Lemma receive_frame fuel cfg E P t r rh buf L req w st r' w' tr : recv_setup cfg E P t r rh buf L req w -> recv_exact E ->
  receives fuel cfg E P t r rh w st r' w' tr -> frame (pb buf) (po buf + received tr) (w_mem w) (w_mem w').
Proof.
  intros (H1&H2&(R&P1&P2)&H4&H5&H6&H7&H8&_&H9) RE (HR&HT). unfold ReceiveAndParseHttpResponse in HR. rewrite H1 in HR. cbn [assert_at bind] in HR.
  inv_bind HR. rename a into c.
  assert (C : c_resp c = false).
  { unfold initializeParsingContextForFirstResponse in E0. inv_bind E0. destruct (rh_buf rh); try discriminate. inv_bind E0. injection E0 as <-. auto. }
  inv_bind HR. destruct a as (t0&w1). inv_bind HR. destruct a as ((st1&total)&s).
  destruct (recv_loop_frame cfg E P R _ buf L P2 H2 RE H8 _ _ _ _ _ _ _ _ _ E2 P1) as (A1&A2&A3); cbn [s_resp s_ctx]; auto; [lia|rewrite C; auto|].
  cbn [s_w] in A1, A3.
  assert (W : w_mem w1 = w_mem w /\ received (w_tr w1) = received (w_tr w)).
  { destruct (get_time_tr _ _ _ _ _ E1) as (tk&X1&X2). split; [destruct (r_time r); cbn [get_time] in E1; try discriminate; injection E1 as _ <-; reflexivity|].
    rewrite X1, received_app0. lia. }
  destruct W as (W1&W2). rewrite W1 in A3.
  assert (EW : w' = s_w s).
  { inv_bind HR. destruct a as (st2&r2). destruct (is_success st2); [inv_bind HR|]; injection HR as _ _ <-; reflexivity. }
  subst w'. rewrite HT, received_app0 in A1. replace total with (received tr) in A3 by lia. exact A3.
Qed.
