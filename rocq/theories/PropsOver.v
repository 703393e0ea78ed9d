(** PropsOver.v — C81, C82: transports that claim to have sent more than they were offered, or to have received more than there was room for. *)
From Verif Require Import Base Lib ModelRequest ModelSend ModelResponse SpecRequest SpecSend SpecResponse SpecExchange ProofsRequest ProofsSend ProofsSend2
  ProofsResponse ProofsResponse2 ProofsIndep ProofsTwin ProofsExchange SpecBuffer ProofsFrame RefParser Demo DemoResponse PropsSend PropsResponse PropsExchange SpecOver.

(** The transport [E], but where it would claim too much it fails. *)
Definition strict (E : env) : env := mkenv (fun i k => if (0 <? k) && (k <? e_send E i k) then -1 else e_send E i k) (e_recv E) (e_time E).
Lemma strict_contract E : send_contract (strict E).
Proof. intros i k H. cbn [strict e_send]. destruct (Z.ltb_spec 0 k), (Z.ltb_spec k (e_send E i k)); cbn [andb]; lia. Qed.
Lemma strict_time E tf w : get_time (strict E) tf w = get_time E tf w.
Proof. destruct tf; reflexivity. Qed.
(** The log of the call, with [w] before, is honest. *)
Definition honest_from {A} (w : world) (x : res (A * world)) : Prop := match x with Ret (_, w') | More w' => (w_ns w <= w_ns w')%nat /\ exists tr, w_tr w' = w_tr w ++ tr /\ honest_sends tr | _ => True end.
(** What a call does with the transport [E] and with [strict E]: it is the same, or an assertion fails with [E] because of a claim. *)
Definition caught {A} (E : env) (N : Z) (w : world) (x y : res (A * world)) : Prop :=
  x = y /\ honest_from w x \/ x = AssertFail 1861 /\ exists room, room <= N /\ overclaims E (w_ns w) room.
Lemma overclaims_mono E k k' room : (k' <= k)%nat -> overclaims E k room -> overclaims E k' room.
Proof. intros L (i&H). exists i. split; [lia|tauto]. Qed.
Lemma caught_trans {A} E N N' w w1 (x y : res (A * world)) tr : (w_ns w <= w_ns w1)%nat -> N' <= N -> w_tr w1 = w_tr w ++ tr -> honest_sends tr -> caught E N' w1 x y -> caught E N w x y.
Proof.
  intros L LN T H [(-> & G)|(->&room&R1&R2)]; [left|right].
  - split; [reflexivity|]. destruct y as [[a w']| | |w']; cbn [honest_from] in *; auto; destruct G as (G0&tr2&G1&G2); (split; [lia|]); exists (tr ++ tr2); (split; [rewrite G1, T, app_assoc; reflexivity|apply Forall_app; auto]).
  - split; [reflexivity|]. exists room. split; [lia|]. eapply overclaims_mono; eauto.
Qed.
Lemma honest_nil {A} w (a : A) : honest_from w (Ret (a, w)).
Proof. split; [lia|]. exists []. rewrite app_nil_r. split; [reflexivity|constructor]. Qed.
Lemma get_time_world E tf w t w' : get_time E tf w = Ret (t, w') -> w_ns w' = w_ns w /\ w_mem w' = w_mem w /\ exists tr, w_tr w' = w_tr w ++ tr /\ honest_sends tr.
Proof.
  destruct tf; cbn [get_time]; intros H; [discriminate| |]; injection H as <- <-; cbn; (split; [reflexivity|]; split; [reflexivity|]).
  - exists []. rewrite app_nil_r. split; [reflexivity|constructor].
  - eexists. split; [reflexivity|]. repeat constructor.
Qed.
Lemma send_loop_caught E tf retry : forall fuel p rem last w,
  caught E rem w (send_loop fuel E tf retry p rem last w) (send_loop fuel (strict E) tf retry p rem last w).
Proof.
  induction fuel as [|f IH]; intros p rem last w; cbn [send_loop].
  - left. split; [reflexivity|]. split; [lia|]. exists []. rewrite app_nil_r. split; [reflexivity|constructor].
  - destruct (Z.leb_spec rem 0); [left; split; [reflexivity|apply honest_nil]|].
    destruct (loadn (w_mem w) p rem) as [d| | |w0] eqn:LD; cbn [bind]; try (left; split; [reflexivity|exact Logic.I]).
    2:{ exfalso. unfold loadn in LD. destruct (in_range _ _ _); discriminate. }
    assert (ZD : zlen d = rem).
    { unfold loadn in LD. destruct (in_range _ _ rem) eqn:IR; [|discriminate]. injection LD as <-. apply in_range_iff in IR. apply (bytes_at_len _ _ _ IR). }
    cbn [strict e_send]. replace (0 <? rem) with true by lia. cbn [andb]. set (r := e_send E (w_ns w) rem). destruct (Z.ltb_spec rem r).
    + right. replace (r <? 0) with false by lia. replace (0 <? r) with true by lia. replace (r <=? rem) with false by lia. cbn [assert_at bind]. split; [reflexivity|].
      exists rem. split; [lia|]. exists (w_ns w). split; [lia|]. fold r. lia.
    + assert (HS : forall tr, w_tr (w_after_send w d r) = w_tr w ++ [TSend d r] /\ (honest_sends tr -> honest_sends (TSend d r :: tr))).
      { intros tr. split; [reflexivity|]. intros G. constructor; auto. lia. }
      destruct (Z.ltb_spec r 0); [left; split; [reflexivity|]; split; [cbn; lia|]; exists [TSend d r]; split; [reflexivity|constructor; [lia|constructor]]|].
      destruct (Z.ltb_spec 0 r).
      * replace (r <=? rem) with true by lia. cbn [assert_at bind]. rewrite strict_time. destruct (get_time E tf (w_after_send w d r)) as [[t w2]| | |w0] eqn:GT; cbn [bind]; try (left; split; [reflexivity|exact Logic.I]).
        2:{ exfalso. destruct tf; discriminate. }
        destruct (get_time_world _ _ _ _ _ GT) as (G1&_&tr&G2&G3). destruct (padd (w_mem w2) p r) eqn:PA; cbn [bind]; try (left; split; [reflexivity|exact Logic.I]).
        2:{ exfalso. unfold padd in PA. destruct (_ && _); discriminate. }
        apply (caught_trans E rem (rem - r) w w2 _ _ ([TSend d r] ++ tr)); [rewrite G1; cbn; lia|lia|rewrite G2, app_assoc; reflexivity|constructor; [lia|exact G3]|]. apply IH.
      * rewrite strict_time. destruct (get_time E tf (w_after_send w d r)) as [[t w2]| | |w0] eqn:GT; cbn [bind]; try (left; split; [reflexivity|exact Logic.I]).
        2:{ exfalso. destruct tf; discriminate. }
        destruct (get_time_world _ _ _ _ _ GT) as (G1&_&tr&G2&G3).
        assert (X : w_tr w2 = w_tr w ++ ([TSend d r] ++ tr)) by (rewrite G2, app_assoc; reflexivity). assert (HX : honest_sends ([TSend d r] ++ tr)) by (constructor; [lia|exact G3]).
        destruct (retry <=? u32 (t - last)); [left; split; [reflexivity|]; split; [rewrite G1; cbn; lia|]; eexists; split; [exact X|exact HX]|].
        apply (caught_trans E rem rem w w2 _ _ ([TSend d r] ++ tr)); [rewrite G1; cbn; lia|lia|exact X|exact HX|]. apply IH.
Qed.
Lemma SendHttpData_caught fuel cfg E tr tf p len w : caught E len w (SendHttpData fuel cfg E tr tf p len w) (SendHttpData fuel cfg (strict E) tr tf p len w).
Proof.
  unfold SendHttpData. assert (T : forall A (x : res (A * world)), (forall w', x <> More w') -> (forall a, x <> Ret a) -> caught E len w x x).
  { intros A x H1 H2. left. split; [reflexivity|]. destruct x as [a| | |w']; cbn; auto; [destruct (H2 _ eq_refl)|destruct (H1 _ eq_refl)]. }
  destruct tr as [t|]; [|apply T; discriminate]. destruct (t_send t); cbn [assert_at bind]; [|apply T; discriminate]. destruct p as [p|]; [|apply T; discriminate].
  rewrite strict_time. destruct (get_time E tf w) as [[t0 w2]| | |w0] eqn:GT; cbn [bind]; try (apply T; discriminate).
  - destruct (get_time_world _ _ _ _ _ GT) as (G1&_&tr&G2&G3). eapply caught_trans; [rewrite G1; apply Nat.le_refl|apply Z.le_refl|exact G2|exact G3|apply send_loop_caught].
  - exfalso. destruct tf; discriminate.
Qed.

Definition claimed {A} (E : env) (w : world) (x y : res (A * world)) : Prop := x = y /\ honest_from w x \/ x = AssertFail 1861 /\ exists room, overclaims E (w_ns w) room.
Lemma caught_claimed {A} E N w (x y : res (A * world)) : caught E N w x y -> claimed E w x y.
Proof. intros [H|(H&room&_&R)]; [left|right]; eauto. Qed.
Lemma claimed_bind {A C} E w (x y : res (A * world)) (f g : A * world -> res (C * world)) :
  claimed E w x y -> (forall a w1, x = Ret (a, w1) -> claimed E w1 (f (a, w1)) (g (a, w1))) -> claimed E w (bind x f) (bind y g).
Proof.
  intros [(->&H)|(->&H)] K; [|right; split; [reflexivity|exact H]].
  destruct y as [[a w1]| | |w1]; cbn [bind]; try (left; split; [reflexivity|exact H]).
  destruct H as (H0&tr&H1&H2). destruct (K a w1 eq_refl) as [(E1&G)|(E1&room&R)]; [left|right; split; [exact E1|exists room; eapply overclaims_mono; eauto]].
  split; [exact E1|]. destruct (f (a, w1)) as [[c w2]| | |w2]; cbn [honest_from] in *; auto; destruct G as (G0&tr2&G1&G2); (split; [lia|]); exists (tr ++ tr2); (split; [rewrite G1, H1, app_assoc; reflexivity|apply Forall_app; auto]).
Qed.
Lemma claimed_ret {A} E w (a : A) w' : w_ns w' = w_ns w -> w_tr w' = w_tr w -> claimed E w (Ret (a, w')) (Ret (a, w')).
Proof. intros H1 H2. left. split; [reflexivity|]. split; [lia|]. exists []. rewrite app_nil_r. split; [exact H2|constructor]. Qed.
Lemma claimed_same {A} E w w' (x y : res (A * world)) : w_ns w' = w_ns w -> w_tr w' = w_tr w -> claimed E w' x y -> claimed E w x y.
Proof. intros H1 H2 [(->&H)|(->&H)]; [left|right]; (split; [reflexivity|]); [|rewrite <- H1; exact H]. destruct y as [[a w2]| | |w2]; cbn [honest_from] in *; rewrite ?H1, ?H2 in H; exact H. Qed.
Lemma claimed_fail {A} E w (x : res (A * world)) : (forall a, x <> Ret a) -> (forall w', x <> More w') -> claimed E w x x.
Proof. intros H1 H2. left. split; [reflexivity|]. destruct x as [a| | |w']; cbn; auto; [destruct (H1 _ eq_refl)|destruct (H2 _ eq_refl)]. Qed.
Lemma Headers_claimed fuel cfg E tr tf h len flags w : (forall g w', h = Some g -> 0 < len -> addContentLengthHeader cfg (w_mem w) g len <> More w') ->
  claimed E w (SendHttpHeaders fuel cfg E tr tf h len flags w) (SendHttpHeaders fuel cfg (strict E) tr tf h len flags w).
Proof.
  intros NM. unfold SendHttpHeaders. destruct tr as [t|]; [|apply claimed_fail; discriminate]. destruct (t_send t); cbn [assert_at bind]; [|apply claimed_fail; discriminate]. destruct h as [h|]; [|apply claimed_fail; discriminate].
  set (Y := if _ : bool then _ else _). assert (NY : forall w', Y <> More w') by (unfold Y; destruct (Z.ltb_spec 0 len); rewrite ?Bool.andb_true_r, ?Bool.andb_false_r; [destruct (_ =? 0); [intros; apply NM; auto|discriminate]|discriminate]). clearbody Y.
  destruct Y as [[[st h1] m1]| | |w0]; cbn [bind]; try (apply claimed_fail; discriminate); [|destruct (NY _ eq_refl)]. destruct (is_success st); [|apply claimed_ret; reflexivity].
  apply (claimed_same E w (set_mem w m1)); [reflexivity|reflexivity|]. apply claimed_bind; [eapply caught_claimed; apply SendHttpData_caught|]. intros st2 w2 _. apply claimed_ret; reflexivity.
Qed.
Lemma recv_strict fuel cfg E P retry : forall total last ps s, recv_loop fuel cfg (strict E) P retry total last ps s = recv_loop fuel cfg E P retry total last ps s.
Proof.
  induction fuel as [|f IH]; intros; [reflexivity|]. cbn [recv_loop]. destruct (r_buf (s_resp s)); [|reflexivity]. destruct (padd _ _ _); cbn [bind]; try reflexivity.
  change (e_recv (strict E)) with (e_recv E). destruct (e_recv E (w_nr (s_w s)) _) as [n d]. destruct (storen _ _ _); cbn [bind]; try reflexivity. destruct (n <? 0); [reflexivity|]. rewrite strict_time.
  destruct (get_time _ _ _) as [[t w2]| | |]; cbn [bind]; try reflexivity. destruct (0 <? n).
  - destruct (parseHttpResponse _ _ _ _ _) as [[[st ps'] s3]| | |]; cbn [bind]; try reflexivity. destruct (_ && _); [apply IH|reflexivity].
  - destruct (retry <=? _); [reflexivity|]. destruct (_ && _); [apply IH|reflexivity].
Qed.
Lemma Receive_strict fuel cfg E P tr r rh w : ReceiveAndParseHttpResponse fuel cfg (strict E) P tr r rh w = ReceiveAndParseHttpResponse fuel cfg E P tr r rh w.
Proof.
  unfold ReceiveAndParseHttpResponse. destruct tr as [t|]; [|reflexivity]. destruct (t_recv t); [|reflexivity]. cbn [assert_at bind]. destruct r as [r|]; [|reflexivity]. destruct rh as [rh|]; [|reflexivity].
  destruct (initializeParsingContextForFirstResponse _ _); cbn [bind]; try reflexivity. rewrite strict_time. destruct (get_time _ _ _) as [[t0 w1]| | |]; cbn [bind]; try reflexivity. rewrite recv_strict. reflexivity.
Qed.

Lemma claimed_assert {A} E w b n (x y : res (A * world)) : claimed E w x y -> claimed E w (bind (assert_at b n) (fun _ => x)) (bind (assert_at b n) (fun _ => y)).
Proof. intros H. destruct b; cbn [assert_at bind]; [exact H|apply claimed_fail; discriminate]. Qed.
Lemma Request_claimed fuel cfg E tr tf h body len flags w : (forall g w', h = Some g -> 0 < len -> addContentLengthHeader cfg (w_mem w) g len <> More w') ->
  claimed E w (sendHttpRequest fuel cfg E tr tf h body len flags w) (sendHttpRequest fuel cfg (strict E) tr tf h body len flags w).
Proof.
  intros NM. unfold sendHttpRequest. do 4 apply claimed_assert.
  apply claimed_bind; [apply Headers_claimed; exact NM|]. intros [st h1] w1 _. destruct (is_success st); [|apply claimed_ret; reflexivity]. destruct body as [p|]; [|apply claimed_ret; reflexivity].
  apply claimed_bind; [|intros; apply claimed_ret; reflexivity]. unfold sendHttpBody. destruct tr as [t|]; [|apply claimed_fail; discriminate]. destruct (t_send t); cbn [assert_at bind]; [|apply claimed_fail; discriminate].
  eapply caught_claimed. apply SendHttpData_caught.
Qed.

(** ** C81: a send that claims too much fails an assertion; nothing else happens to the call. *)
Theorem C81_data : forall fuel cfg E tf t p len w, tf <> TNull -> t_send t = true -> object (w_mem w) p len ->
  match SendHttpData fuel cfg E (Some t) tf (Some p) len w with
  | Ret (_, w') | More w' => exists tr, w_tr w' = w_tr w ++ tr /\ honest_sends tr
  | AssertFail _ => exists room, room <= len /\ overclaims E (w_ns w) room
  | Ub _ => False
  end.
Proof.
  intros fuel cfg E tf t p len w TN T O.
  destruct (SendHttpData_caught fuel cfg E (Some t) tf (Some p) len w) as [(EQ&H)|(->&H)]; [|exact H].
  destruct (SendHttpData_run fuel cfg (strict E) tf t p len w (strict_contract E) TN T O) as (o&w'&t0&tr&W&_). rewrite <- EQ in W.
  destruct (SendHttpData fuel cfg E (Some t) tf (Some p) len w) as [[a w2]| | |w2]; cbn [honest_from wout] in *; try discriminate; apply H.
Qed.
Print Assumptions C81_data.
Theorem C81_exchange : forall fuel cfg E P t h hbuf n req body len bd r rbuf L w flags,
  (forall E', send_contract E' -> recv_contract E' -> send_setup cfg E' P t h hbuf n req body len bd r rbuf L w) -> recv_contract E ->
  match Send fuel cfg E P (Some t) (Some h) body len (Some r) flags w with
  | Ret (_, w') | More w' => exists tr, w_tr w' = w_tr w ++ tr /\ honest_sends tr
  | AssertFail _ => exists room, overclaims E (w_ns w) room
  | Ub _ => False
  end.
Proof.
  intros fuel cfg E P t h hbuf n req body len bd r rbuf L w flags S0 RC.
  pose proof (S0 (strict E) (strict_contract E) RC) as S. pose proof (setup_valid _ _ _ _ _ _ _ _ _ _ _ _ _ _ _ S) as NI. pose proof S as (SO&_&_&PO&T1&T2&H&LR&W&HL&HI&BA&RB&RL&OB&LL).
  assert (NM : forall g w', Some h = Some g -> 0 < len -> addContentLengthHeader cfg (w_mem w) g len <> More w').
  { intros g w' Q L0. injection Q as <-. destruct (addContentLength_outcome cfg (w_mem w) h hbuf n req len H) as (o&st'&h'&m'&OP&EQ&D); [lia|lia|]. rewrite EQ. discriminate. }
  destruct (C48_send_is_safe fuel _ _ _ _ _ _ _ _ _ _ _ _ _ _ _ flags S) as (o&wf&tr&WO&_).
  destruct (Send_valid fuel cfg E P _ _ _ _ _ flags w SO HL NI) as (t'&h'&r'&Q1&_&_&Q2&Q3&_&_&_&_&_&_&ES). injection Q1 as <-. injection Q2 as <-. injection Q3 as <-.
  destruct (Send_valid fuel cfg (strict E) P _ _ _ _ _ flags w SO HL NI) as (t'&h'&r'&Q1&_&_&Q2&Q3&_&_&_&_&_&_&ES'). injection Q1 as <-. injection Q2 as <-. injection Q3 as <-.
  rewrite ES' in WO. clear ES'. rewrite ES. clear ES.
  destruct (Request_claimed fuel cfg E (Some t) (r_time (eff_time r)) (Some h) body len flags w NM) as [(EQ&G)|(EQ&room&G)]; [|rewrite EQ; cbn [bind]; exists room; exact G].
  rewrite <- EQ in WO. destruct (sendHttpRequest fuel cfg E (Some t) (r_time (eff_time r)) (Some h) body len flags w) as [[[st h1] w1]| | |w1]; cbn [bind wout] in *; try discriminate; [|apply G].
  destruct G as (_&tr1&G1&G2). destruct (is_success st); [|cbn [wout] in WO; exists tr1; auto]. rewrite Receive_strict in WO.
  pose proof (Receive_ext fuel cfg E P (Some t) (Some (eff_time r)) h1 w1) as RX.
  destruct (ReceiveAndParseHttpResponse fuel cfg E P (Some t) (Some (eff_time r)) h1 w1) as [[[st2 pr2] w2]| | |w2]; cbn [bind wout] in *; try discriminate; destruct (RX _ _ eq_refl) as (tq&X1&X2);
    exists (tr1 ++ tq); (split; [rewrite X1, G1, app_assoc; reflexivity|]; apply Forall_app; split; [exact G2|]; eapply Forall_impl; [|exact X2]; intros [] HX; cbn in *; tauto).
Qed.
Print Assumptions C81_exchange.
(** A transport that at its third call claims one byte more than it was offered (and one that never does). *)
Definition env_liar : env := mkenv (fun n k => if Nat.eqb n 2 then k + 1 else Z.min 5 k) (fun _ _ => (0, [])) (fun n => 10 * Z.of_nat n).
Example C81_case : object (w_mem w1) buf0 (zlen req1) /\ SendHttpData 100 cfg0 env_liar (Some tr1) TUser (Some buf0) (zlen req1) w1 = AssertFail 1861 /\
  (exists w', SendHttpData 100 cfg0 env5 (Some tr1) TUser (Some buf0) (zlen req1) w1 = Ret (HTTPSuccess, w') /\ w_tr w' <> []) /\
  (forall E', send_contract E' -> recv_contract E' -> send_setup cfg0 E' refparser trr hx buf0 300 req1 (Some (mkptr 2 0)) 4 (B "data") rsep rbuf 300 wsep).
Proof.
  split; [vm_compute; repeat split; discriminate|]. split; [vm_compute; reflexivity|]. split; [eexists; split; [vm_compute; reflexivity|discriminate]|].
  intros E' SC RC. destruct (setup_ex []) as ((SO&_&_&S)&_). split; [exact SO|]. split; [exact SC|]. split; [exact RC|exact S].
Qed.

(** ** C82: a recv that claims too much *)
Lemma recv_loop_over cfg E (P : parser) (R : PS P -> phase -> Prop) retry buf L :
  (forall s ph d, R s ph -> conforms R (zlen d) ph 0 (p_exec P s d)) -> recv_int32 E -> 0 < L -> L + 2147483647 < SZ cfg -> forall fuel total last ps s ph st total' s',
  recv_loop fuel cfg E P retry total last ps s = Ret (st, total', s') -> R ps ph -> 0 <= total < L ->
  r_buf (s_resp s) = Some buf -> r_bufLen (s_resp s) = L -> (if c_resp (s_ctx s) then c_cur (s_ctx s) = Some (poff buf total) else total = 0) ->
  received (w_tr (s_w s')) = received (w_tr (s_w s)) + (total' - total) /\ r_bufLen (s_resp s') = L.
Proof.
  intros PO RI L0 LL. induction fuel as [|f IH]; intros total last ps s ph st total' s' H RP T0 EB EL EC; [discriminate|].
  cbn [recv_loop] in H. rewrite EB, EL in H. inv_bind H. rename a into dst. apply padd_inv in E0. subst dst. rewrite (Z.mod_small (L - total)) in H by lia.
  specialize (RI (w_nr (s_w s)) (L - total)). destruct (e_recv E (w_nr (s_w s)) (L - total)) as [n d]. cbn [fst snd] in *. inv_bind H. rename a into m1.
  destruct (Z.ltb_spec n 0).
  { injection H as <- <- <-. cbn [s_w s_resp w_after_recv w_mem w_tr]. rewrite received_app0. cbn [received]. split; [lia|auto]. }
  inv_bind H. destruct a as (tm&w2).
  assert (RC2 : received (w_tr w2) = received (w_tr (s_w s)) + n).
  { destruct (get_time_tr _ _ _ _ _ E1) as (tk&X1&X2). rewrite X1. cbn [s_w w_after_recv w_tr]. rewrite !received_app0, X2. cbn [received]. lia. }
  destruct (Z.ltb_spec 0 n).
  - inv_bind H. destruct a as ((st1&ps1)&s3). rewrite (Z.mod_small (total + n)) in H by lia.
    destruct (parse_frame cfg P R ps _ ph n st1 ps1 s3 buf total PO RP E2) as (A1&A2&A3&AR&A4&A5); cbn [s_ctx s_resp]; try lia; auto.
    cbn [s_resp s_w] in A2, A4, AR. 
    destruct (is_success st1) eqn:SU; cbn [andb] in H; [|injection H as <- <- <-; split; [lia|congruence]].
    destruct (A5 eq_refl) as (A6&ph'&A7). rewrite A2, EL in H.
    destruct (match c_state _ with HTTP_PARSING_COMPLETE => false | _ => true end); cbn [andb] in H; [|injection H as <- <- <-; split; [lia|congruence]].
    destruct (Z.ltb_spec (total + n) L); [|injection H as <- <- <-; split; [lia|congruence]].
    destruct (IH _ _ _ _ _ _ _ _ H A7) as (BR&B1); [lia|auto|congruence|rewrite A3; auto|]. split; [lia|auto].
  - assert (n = 0) by lia. subst n. destruct (retry <=? u32 (tm - last)).
    + inv_bind H. destruct a as ((st1&ps1)&s3). injection H as <- <- <-.
      destruct (parse_frame cfg P R ps _ ph 0 st1 ps1 s3 buf total PO RP E2) as (A1&A2&A3&AR&A4&A5); cbn [s_ctx s_resp]; try lia; auto.
      cbn [s_w s_resp] in A4, AR, A2. split; [lia|congruence].
    + destruct (match c_state _ with HTTP_PARSING_COMPLETE => false | _ => true end && _); [|injection H as <- <- <-; cbn [s_w s_resp]; split; [lia|auto]].
      destruct (IH _ _ _ _ _ _ _ _ H RP T0 EB EL EC) as (BR&B1). cbn [s_w] in BR. split; [lia|auto].
Qed.
Definition early (st : status) : Prop := st <> HTTPPartialResponse /\ st <> HTTPNoResponse /\ st <> HTTPInsufficientMemory.
Lemma parse_early cfg P ps s n st ps' s' : parseHttpResponse cfg P ps s n = Ret (st, ps', s') -> early st.
Proof.
  unfold parseHttpResponse. intros H. set (s1 := if c_resp (s_ctx s) then s else _) in H. destruct (c_cur (s_ctx s1)); [|discriminate]. inv_bind H. inv_bind H. destruct a0 as [[[e pos] ps1] s2]. inv_bind H. injection H as <- <- <-.
  unfold early. destruct e; cbn [processLlhttpError]; (split; [discriminate|split; discriminate]).
Qed.
Lemma recv_loop_early cfg E P retry : forall fuel total last ps s st total' s', recv_loop fuel cfg E P retry total last ps s = Ret (st, total', s') -> early st.
Proof.
  assert (E0 : early HTTPNetworkError /\ early HTTPSuccess) by (unfold early; split; (split; [discriminate|split; discriminate])). destruct E0 as (EN&ES).
  induction fuel as [|f IH]; intros total last ps s st total' s' H; [discriminate|]. cbn [recv_loop] in H. destruct (r_buf (s_resp s)); [|discriminate]. inv_bind H.
  destruct (e_recv E (w_nr (s_w s)) _) as [n d]. inv_bind H. destruct (n <? 0); [injection H as <- <- <-; exact EN|]. inv_bind H. destruct a1 as (tm&w2). destruct (0 <? n).
  - inv_bind H. destruct a1 as ((st1&ps1)&s3). destruct (_ && _); [eapply IH; eauto|]. injection H as <- <- <-. eapply parse_early; eauto.
  - destruct (retry <=? _); [inv_bind H; destruct a1 as ((st1&ps1)&s3); injection H as <- <- <-; eapply parse_early; eauto|]. destruct (_ && _); [eapply IH; eauto|]. injection H as <- <- <-. exact ES.
Qed.
(** The arguments are valid and recv writes into the room it was offered only; but it may claim any number of bytes. *)
Definition recv_setup_any (cfg : config) (E : env) (P : parser) (t : transport) (r : response) (rh : reqHeaders) (buf : ptr) (L : Z) (req : bytes) (w : world) : Prop :=
  recv_int32 E /\ (forall i k, 0 < k -> zlen (snd (e_recv E i k)) <= k) /\ L + 2147483647 < SZ cfg /\
  forall E', recv_contract E' -> recv_setup cfg E' P t r rh buf L req w.
(** The full property: whatever recv claims, nothing outside the response buffer is read. *)
Definition C82_full : Prop := forall fuel cfg E P t r rh buf L req w u, recv_setup_any cfg E P t r rh buf L req w ->
  ReceiveAndParseHttpResponse fuel cfg E P (Some t) (Some r) (Some rh) w <> Ub u.
(** It claims one byte more than there was room for: the parser is shown the byte behind the buffer. *)
Definition env_boaster : env := mkenv (fun _ k => k) (fun _ room => (Z.min 2147483647 (room + 1), slice (concat resp_ok) 0 (Z.max 0 (Z.min 49 room)))) (fun n => 400 * Z.of_nat n).
Lemma boaster_setup L : (0 < L < 1000)%nat -> recv_setup_any cfg0 env_boaster refparser trr (resp0 L 0) h1 rbuf (Z.of_nat L) req1 (wr L).
Proof.
  intros HL. split; [intros i k; cbn [env_boaster e_recv fst]; lia|]. split.
  { intros i k Hk. cbn [env_boaster e_recv snd]. assert (zlen (concat resp_ok) = 49) by reflexivity. rewrite slice_len; lia. }
  split; [change (SZ cfg0) with 4294967296; lia|]. intros E' RC. destruct (setup0 [] L 0 ltac:(lia) ltac:(lia)) as ((A1&_&A2)&_). split; [exact A1|]. split; [exact RC|exact A2].
Qed.
Theorem C82_claims_refuted : ~ C82_full.
Proof.
  intros H. apply (H 10%nat cfg0 env_boaster refparser trr (resp0 40 0) h1 rbuf 40 req1 (wr 40) UbOob); [exact (boaster_setup 40 ltac:(lia))|]. vm_compute. reflexivity.
Qed.
Print Assumptions C82_claims_refuted.
(** What is proved: it is never taken for an answer.  Without an error of the parser the call does not return at all (an assertion fails). *)
Theorem C82_claims_partial : forall fuel cfg E P t r rh buf L req w st r' w' tr, recv_setup_any cfg E P t r rh buf L req w ->
  receives fuel cfg E P t r rh w st r' w' tr -> L < received tr ->
  st <> HTTPSuccess /\ st <> HTTPPartialResponse /\ st <> HTTPNoResponse /\ st <> HTTPInsufficientMemory.
Proof.
  intros fuel cfg E P t r rh buf L req w st r' w' tr (RI&_&LS&S) (HR&HT) OV.
  destruct (S (mkenv (e_send E) (fun _ _ => (0, [])) (e_time E))) as (H1&_&(R&P1&P2)&H4&H5&H6&H7&H8&_&H9). { intros i k Hk. cbn. change (zlen (@nil Z)) with 0. lia. }
  unfold ReceiveAndParseHttpResponse in HR. rewrite H1 in HR. cbn [assert_at bind] in HR. inv_bind HR. rename a into c.
  assert (C : c_resp c = false).
  { unfold initializeParsingContextForFirstResponse in E0. inv_bind E0. destruct (rh_buf rh); try discriminate. inv_bind E0. injection E0 as <-. auto. }
  inv_bind HR. destruct a as (t0&w1). inv_bind HR. destruct a as ((st1&total)&s).
  destruct (recv_loop_over cfg E P R _ buf L P2 RI ltac:(lia) LS _ _ _ _ _ _ _ _ _ E2 P1) as (A1&A2); cbn [s_resp s_ctx]; auto; [lia|rewrite C; auto|]. cbn [s_w] in A1.
  destruct (get_time_tr _ _ _ _ _ E1) as (tk&X1&X2). rewrite X1, received_app0 in A1.
  inv_bind HR. destruct a as (st2&r2).
  assert (BL : r_bufLen r2 = L /\ st2 <> HTTPPartialResponse /\ st2 <> HTTPNoResponse /\ st2 <> HTTPInsufficientMemory).
  { pose proof (recv_loop_early _ _ _ _ _ _ _ _ _ _ _ _ E2) as EA. assert (K : forall x, Ret (st1, s_resp s) = Ret x -> x = (st2, r2) -> r_bufLen r2 = L /\ early st2) by (intros x Q1 Q2; subst x; injection Q1 as <- <-; auto).
    destruct st1; try (injection E3 as <- <-; split; [exact A2|exact EA]). destruct (negb _); [|injection E3 as <- <-; split; [exact A2|exact EA]].
    destruct (c_cur (s_ctx s)); [destruct (r_buf (s_resp s))|]; try discriminate. inv_bind E3. injection E3 as <- <-. split; [exact A2|]. split; [discriminate|split; discriminate]. }
  destruct BL as (BL&N1&N2&N3). destruct (is_success st2) eqn:SU.
  - inv_bind HR. injection HR as <- <- <-. unfold getFinalResponseStatus in E4. inv_bind E4. rewrite BL in *. rewrite HT, received_app0 in A1.
    destruct (Z.leb_spec total L); [lia|discriminate].
  - injection HR as <- <- <-. split; [intros ->; discriminate|auto].
Qed.
Print Assumptions C82_claims_partial.
(** The same transport with the buffer inside a larger memory object: the parser is shown the byte behind the buffer, finds nothing wrong, and the assertion fails. *)
Definition inner : response := mkresp (Some rbuf) 40 true TUser None 0 None 0 0 0 0 0 0 0.
Example C82_case : recv_setup_any cfg0 env_boaster refparser trr inner h1 rbuf 40 req1 (wr 100) /\
  ReceiveAndParseHttpResponse 10 cfg0 env_boaster refparser (Some trr) (Some inner) (Some h1) (wr 100) = AssertFail 1993.
Proof.
  split; [|vm_compute; reflexivity]. destruct (boaster_setup 100 ltac:(lia)) as (A1&A2&_&A4). split; [exact A1|]. split; [exact A2|]. split; [reflexivity|].
  intros E' RC. destruct (A4 E' RC) as (B1&B2&B3&B4&B5&B6&B7&B8&B9). split; [exact B1|]. split; [exact B2|]. split; [exact B3|]. split; [exact B4|]. split; [exact B5|]. split; [reflexivity|].
  split; [destruct B7 as (?&?&?); split; [lia|split; [auto|lia]]|]. split; [change (SZ cfg0) with 4294967296; lia|exact B9].
Qed.
(** The hypotheses of the theorem are met: with data that are not HTTP the call returns. *)
Definition env_noise : env := mkenv (fun _ k => k) (fun _ room => (Z.min 2147483647 (room + 1), if room <=? 0 then [] else B "x")) (fun n => 400 * Z.of_nat n).
Example C82_case_error : recv_setup_any cfg0 env_noise refparser trr inner h1 rbuf 40 req1 (wr 100) /\
  exists r' w' tr, receives 10 cfg0 env_noise refparser trr inner h1 (wr 100) HTTPSecurityAlertInvalidCharacter r' w' tr /\ received tr = 41.
Proof.
  split; [|do 3 eexists; split; [split; [vm_compute; reflexivity|reflexivity]|vm_compute; reflexivity]].
  destruct C82_case as ((_&_&A3&A4)&_). split; [intros i k; cbn [env_noise e_recv fst]; lia|]. split; [|split; [exact A3|exact A4]].
  intros i k H. cbn [env_noise e_recv snd]. destruct (Z.leb_spec k 0); [lia|]. change (zlen (B "x")) with 1. lia.
Qed.
