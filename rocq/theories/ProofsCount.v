(** ProofsCount.v — the receiving side of the transport is at the point of its history the log says. *)
From Verif Require Import Base Lib ModelRequest ModelSend ModelResponse SpecRequest SpecSend SpecResponse ProofsRequest ProofsSend ProofsSend2 ProofsResponse ProofsResponse2 ProofsResponse3 ProofsTwin ProofsExchange.
Ltac one := first [exact I | cbn; lia].
Definition cext (w w' : world) : Prop := exists tr, w_tr w' = w_tr w ++ tr /\ Z.of_nat (w_nr w') = Z.of_nat (w_nr w) + recvs tr.
Lemma cext_refl w : cext w w.
Proof. exists []. rewrite app_nil_r. split; auto. cbn. lia. Qed.
Lemma cext_trans w1 w2 w3 : cext w1 w2 -> cext w2 w3 -> cext w1 w3.
Proof. intros (a&A1&A2) (b&B1&B2). exists (a ++ b). rewrite B1, A1, app_assoc. split; auto. rewrite recvs_app. lia. Qed.
Lemma cext_one w w' e : w_tr w' = w_tr w ++ [e] -> Z.of_nat (w_nr w') = Z.of_nat (w_nr w) + recvs [e] -> cext w w'.
Proof. intros E H. exists [e]. split; auto. Qed.
Lemma cext_same w w' : w_tr w' = w_tr w -> w_nr w' = w_nr w -> cext w w'.
Proof. intros E H. exists []. rewrite app_nil_r. split; auto. cbn. lia. Qed.
Lemma pch_cext cfg s s' : processCompleteHeader cfg s = Ret s' -> cext (s_w s) (s_w s').
Proof.
  unfold processCompleteHeader. intros H. inv_bind H.
  destruct (c_lf (s_ctx s)), (c_lv (s_ctx s)); try (injection H as <-; apply cext_refl).
  inv_bind H. destruct (r_cb (s_resp s)); [|injection H as <-; apply cext_refl].
  inv_bind H. inv_bind H. injection H as <-. eapply cext_one; [reflexivity|one].
Qed.
Lemma callback_cext cfg start ev s r s' : callback cfg start ev s = Ret (r, s') -> cext (s_w s) (s_w s').
Proof.
  destruct ev; cbn [callback]; intros H.
  - injection H as <- <-. apply cext_refl.
  - unfold onStatus in H. inv_bind H. inv_bind H. injection H as <- <-. apply cext_refl.
  - unfold onStatusComplete in H. inv_bind H. injection H as <- <-. apply cext_refl.
  - unfold onHeaderField in H. inv_bind H. inv_bind H. inv_bind H. apply pch_cext in E1. cbn [s_w] in E1.
    destruct (c_lf (s_ctx a1)); [inv_bind H|]; injection H as <- <-; auto.
  - unfold onHeaderValue in H. inv_bind H. inv_bind H. injection H as <- <-. apply cext_refl.
  - unfold onHeadersComplete in H. inv_bind H. destruct (c_cur (s_ctx s)); [|discriminate].
    destruct (r_buf (s_resp s)); [|discriminate]. inv_bind H. inv_bind H. inv_bind H. inv_bind H. inv_bind H. inv_bind H.
    inv_bind H. apply pch_cext in E6. injection H as <- <-. auto.
  - unfold onBody in H. inv_bind H. destruct (r_buf (s_resp s)); [|discriminate]. inv_bind H. inv_bind H. inv_bind H. inv_bind H. inv_bind H.
    destruct (match r_body (s_resp s) with Some b => _ | None => _ end). inv_bind H. inv_bind H. inv_bind H. inv_bind H.
    injection H as <- <-. apply cext_same; reflexivity.
  - injection H as <- <-. apply cext_refl.
Qed.
Lemma run_tree_cext cfg start {S} (s0 : S) t : forall s e pos s1 s', run_tree cfg start s0 t s = Ret (e, pos, s1, s') -> cext (s_w s) (s_w s').
Proof.
  induction t as [e0 sd|ev k IH]; intros s e pos s1 s' H; cbn [run_tree] in H.
  - injection H as <- <- <- <-. apply cext_refl.
  - inv_bind H. destruct a as [r s2]. apply callback_cext in E. cbn [s_w log] in E.
    assert (X : cext (s_w s) (s_w s2)) by (eapply cext_trans; [|exact E]; eapply cext_one; [reflexivity|one]).
    set (s3 := mkst (s_ctx s2) (s_resp s2) (log (s_w s2) (TReply r))) in H.
    assert (Y : cext (s_w s) (s_w s3)) by (eapply cext_trans; [exact X|]; eapply cext_one; [reflexivity|one]).
    clearbody s3. destruct r; try (injection H as <- <- <- <-; auto); eapply cext_trans; eauto.
Qed.

Lemma parse_cext cfg P ps s n st ps' s' : parseHttpResponse cfg P ps s n = Ret (st, ps', s') -> cext (s_w s) (s_w s').
Proof.
  unfold parseHttpResponse. intros H.
  set (s1 := if c_resp (s_ctx s) then s else _) in H.
  assert (W : s_w s1 = s_w s) by (unfold s1; destruct (c_resp (s_ctx s)); auto).
  destruct (c_cur (s_ctx s1)); [|discriminate]. inv_bind H. inv_bind H. destruct a0 as [[[e pos] ps1] s2].
  apply run_tree_cext in E0. cbn [s_w log] in E0. inv_bind H. injection H as <- <- <-. cbn [s_w].
  rewrite W in E0. eapply cext_trans; [|eapply cext_trans; [exact E0|]]; eapply cext_one; try reflexivity; one.
Qed.
Lemma get_time_cext E tf w t w' : get_time E tf w = Ret (t, w') -> cext w w'.
Proof.
  destruct tf; cbn [get_time]; intros H; [discriminate| |]; injection H as <- <-; [apply cext_refl|].
  eapply cext_one; [reflexivity|one].
Qed.

Lemma recv_loop_cext cfg E P T : forall fuel total last ps s,
  match recv_loop fuel cfg E P T total last ps s with
  | Ret (_, _, s') => cext (s_w s) (s_w s')
  | More w => cext (s_w s) w
  | _ => True end.
Proof.
  induction fuel as [|fuel IH]; intros total last ps s; cbn [recv_loop]; [apply cext_refl|].
  destruct (r_buf (s_resp s)); [|one].
  destruct (padd _ _ _) eqn:X; cbn [bind]; auto. 2:{ unfold padd in X; destruct (_ && _); discriminate. }
  destruct (e_recv _ _ _) as [n d].
  destruct (storen _ _ _) eqn:X2; cbn [bind]; auto. 2:{ unfold storen in X2; destruct (in_range _ _ _); discriminate. }
  set (w1 := w_after_recv _ _ _ _ _ _).
  assert (E1 : cext (s_w s) w1) by (eapply cext_one; [reflexivity|one]).
  destruct (n <? 0); [exact E1|]. cbn [s_w].
  destruct (get_time E (r_time (s_resp s)) w1) as [[t w2]| | |] eqn:Et; cbn [bind]; auto.
  2:{ destruct (r_time (s_resp s)); discriminate. }
  apply get_time_cext in Et. pose proof (cext_trans _ _ _ E1 Et) as E2.
  destruct (0 <? n).
  - match goal with |- context [parseHttpResponse cfg P ps ?S n] => destruct (parseHttpResponse cfg P ps S n) as [[[st ps'] s3]| | |] eqn:EP end; cbn [bind]; auto.
    2:{ apply parse_not_more in EP. tauto. }
    apply parse_cext in EP. cbn [s_w] in EP. pose proof (cext_trans _ _ _ E2 EP) as E3.
    destruct (_ && _ && _); [|exact E3].
    specialize (IH ((total + n) mod SZ cfg) t ps' s3).
    destruct (recv_loop _ _ _ _ _ _ _ _ _) as [[[? ?] ?]| | |]; auto; eapply cext_trans; eauto.
  - destruct (T <=? _).
    + match goal with |- context [parseHttpResponse cfg P ps ?S 0] => destruct (parseHttpResponse cfg P ps S 0) as [[[st ps'] s3]| | |] eqn:EP end; cbn [bind]; auto.
      2:{ apply parse_not_more in EP. tauto. }
      apply parse_cext in EP. cbn [s_w] in EP. eapply cext_trans; eauto.
    + destruct (_ && _); [|exact E2].
      specialize (IH total last ps (mkst (s_ctx s) (s_resp s) w2)).
      destruct (recv_loop _ _ _ _ _ _ _ _ _) as [[[? ?] ?]| | |]; auto; eapply cext_trans; eauto.
Qed.

Lemma Receive_cext fuel cfg E P tr r rh w x w' :
  wout (ReceiveAndParseHttpResponse fuel cfg E P tr r rh w) = Some (x, w') -> cext w w'.
Proof.
  unfold ReceiveAndParseHttpResponse. destruct tr as [t|]; [|discriminate].
  destruct (t_recv t); [|discriminate]. cbn [assert_at bind]. destruct r as [r|]; [|discriminate]. destruct rh as [rh|]; [|discriminate].
  unfold initializeParsingContextForFirstResponse. destruct (_ <=? _); [|discriminate]. cbn [assert_at bind].
  destruct (rh_buf rh); [|discriminate]. destruct (strncmp_eq _ _ _) eqn:X; cbn [bind]; try discriminate.
  2:{ exfalso. revert X. generalize (w_mem w) p HTTP_METHOD_HEAD. intros m q l. revert q.
      induction l as [|c l IH]; intros q; cbn [strncmp_eq]; [discriminate|].
      unfold load1. destruct (in_range _ _ _); [|discriminate]. cbn [bind]. destruct (_ =? _); [apply IH|discriminate]. }
  destruct (get_time _ _ _) as [[t0 w1]| | |] eqn:Et; cbn [bind]; try discriminate.
  2:{ destruct (r_time r); discriminate. }
  apply get_time_cext in Et.
  match goal with |- context [recv_loop fuel cfg E P ?T 0 t0 _ ?S] => pose proof (recv_loop_cext cfg E P T fuel 0 t0 (p_init P) S) as RL;
    destruct (recv_loop fuel cfg E P T 0 t0 (p_init P) S) as [[[st total] s]| | |] end; cbn [bind]; try discriminate.
  2:{ intros H. injection H as <- <-. eapply cext_trans; eauto. }
  cbn [s_w] in RL. assert (EW : cext w (s_w s)) by (eapply cext_trans; eauto).
  set (Y := match st with HTTPParserPaused => _ | _ => _ end).
  assert (NM : forall w, Y <> More w).
  { intros w0. unfold Y. destruct st; try discriminate. destruct (negb _); [|discriminate].
    destruct (c_cur (s_ctx s)); [destruct (r_buf (s_resp s))|]; try discriminate. unfold psub. destruct (Nat.eqb _ _); discriminate. }
  destruct Y as [[st2 r2]| | |] eqn:EY; cbn [bind]; try discriminate; [|exfalso; eapply NM; eauto].
  destruct (is_success st2).
  - destruct (getFinalResponseStatus _ _ _) eqn:G; cbn [bind]; try discriminate.
    + intros H. injection H as <- <-. auto.
    + exfalso. unfold getFinalResponseStatus in G. destruct (total <=? r_bufLen r2); [|discriminate]. cbn [assert_at bind] in G.
      destruct (c_state (s_ctx s)); try discriminate. destruct (_ =? 0) in G; [destruct (_ =? _) in G|]; discriminate.
  - intros H. injection H as <- <-. auto.
Qed.
