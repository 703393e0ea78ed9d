(** PropsPieces.v — C80: HTTPClient_Send is three calls, and a body can be sent in pieces. *)
From Verif Require Import Base Lib ModelRequest ModelSend ModelResponse SpecRequest SpecSend SpecResponse SpecHttp SpecParser SpecExchange SpecCut ProofsRequest ProofsSend ProofsSend2
  ProofsResponse ProofsResponse2 ProofsResponse5 ProofsTwin ProofsExchange RefParser Demo DemoResponse PropsSend PropsResponse PropsResponse2 PropsHttp PropsExchange PropsCut PropsMemory SpecTask SpecPieces.

Lemma Receive_some fuel cfg E P tr r rh w st o w' : ReceiveAndParseHttpResponse fuel cfg E P tr r rh w = Ret (st, o, w') -> exists r', o = Some r'.
Proof.
  unfold ReceiveAndParseHttpResponse. destruct tr as [t|]; [|discriminate]. intros H. inv_bind H. destruct r as [r|]; [|discriminate]. destruct rh as [rh|]; [|discriminate].
  inv_bind H. inv_bind H. destruct a1 as (t0&w1). inv_bind H. destruct a1 as ((st0&total)&s). inv_bind H. destruct a1 as (st2&r2). destruct (is_success st2).
  - inv_bind H. injection H as <- <- <-. eauto.
  - injection H as <- <- <-. eauto.
Qed.
Lemma Headers_some fuel cfg E tr tf h len flags w st o w' : SendHttpHeaders fuel cfg E tr tf h len flags w = Ret (st, o, w') -> exists h', o = Some h'.
Proof.
  unfold SendHttpHeaders. destruct tr as [t|]; [|discriminate]. intros H. inv_bind H. destruct h as [h|]; [|discriminate].
  inv_bind H. destruct a0 as ((st1&h1)&m1). destruct (is_success st1).
  - inv_bind H. destruct a0 as (st2&w2). injection H as <- <- <-. eauto.
  - injection H as <- <- <-. eauto.
Qed.

(** ** C80: HTTPClient_Send is HTTPClient_SendHttpHeaders, HTTPClient_SendHttpData (if there is a body) and HTTPClient_ReceiveAndParseHttpResponse. *)
Theorem C80_three_calls : forall fuel cfg E P t h body len r flags w,
  size_ok cfg -> 0 <= len < SZ cfg -> ~ send_invalid (Some t) (Some h) body len (Some r) -> r_time r = TUser ->
  Send fuel cfg E P (Some t) (Some h) body len (Some r) flags w =
  (' (st, (h', r'), w') <- until_failure fuel cfg E P t (upload len flags (match body with Some p => [(p, len)] | None => [] end)) (h, r) w ;; Ret (st, Some h', Some r', w')).
Proof.
  intros fuel cfg E P t h body len r flags w SO HL NI TU.
  destruct (Send_valid fuel cfg E P _ _ _ _ _ flags w SO HL NI) as (t'&h'&r'&Q1&T1&T2&Q2&Q3&_&_&_&_&_&BN&ES). injection Q1 as <-. injection Q2 as <-. injection Q3 as <-.
  rewrite ES. unfold eff_time. rewrite TU. clear ES. unfold sendHttpRequest. cbn [assert_at bind].
  replace (match body with Some _ => true | None => len =? 0 end) with true by (destruct body; auto; rewrite BN by auto; auto). cbn [assert_at bind]. rewrite TU.
  unfold upload. cbn [until_failure do_deed app].
  destruct (SendHttpHeaders fuel cfg E (Some t) TUser (Some h) len flags w) as [[[st oh] w1]| | |] eqn:Q; cbn [bind]; auto.
  destruct (Headers_some _ _ _ _ _ _ _ _ _ _ _ _ Q) as (h1&->). cbn [need bind fst].
  assert (K : forall w2, (' (st2, pr2, w3) <- ReceiveAndParseHttpResponse fuel cfg E P (Some t) (Some r) (Some h1) w2 ;; Ret (st2, Some h1, pr2, w3)) =
    (' (st0, (h', r'), w') <- until_failure fuel cfg E P t [DReceive] (h1, r) w2 ;; Ret (st0, Some h', Some r', w'))).
  { intros w2. cbn [until_failure do_deed]. destruct (ReceiveAndParseHttpResponse fuel cfg E P (Some t) (Some r) (Some h1) w2) as [[[st2 pr2] w3]| | |] eqn:R; cbn [bind]; auto.
    destruct (Receive_some _ _ _ _ _ _ _ _ _ _ _ R) as (r1&->). cbn [need bind fst]. destruct st2; reflexivity. }
  destruct st; cbn [is_success bind]; try reflexivity.
  destruct body as [p|]; cbn [map app]; [|cbn [is_success bind]; apply K].
  unfold sendHttpBody. rewrite T1. cbn [assert_at bind]. cbn [until_failure do_deed].
  destruct (SendHttpData fuel cfg E (Some t) TUser (Some p) len w1) as [[st2 w2]| | |] eqn:D; cbn [bind]; auto.
  destruct st2; cbn [is_success bind fst]; try reflexivity. apply K.
Qed.

(** ** C80: the body in pieces *)
Lemma send_pieces fuel cfg E P t pieces rest : forall s w st s' w',
  send_contract E -> t_send t = true -> Forall (fun '(p, k) => object (w_mem w) p k) pieces ->
  until_failure fuel cfg E P t (map (fun '(p, k) => DSendData TUser p k) pieces ++ rest) s w = Ret (st, s', w') ->
  (exists tr, w_tr w' = w_tr w ++ tr /\ send_only tr /\ st = HTTPNetworkError /\ prefix (accepted tr) (pieces_text (w_mem w) pieces) /\ zlen (accepted tr) < zlen (pieces_text (w_mem w) pieces) /\ s' = s /\ w_mem w' = w_mem w) \/
  exists sent w1, send_only sent /\ accepted sent = pieces_text (w_mem w) pieces /\ w_tr w1 = w_tr w ++ sent /\ w_mem w1 = w_mem w /\ w_nr w1 = w_nr w /\
    until_failure fuel cfg E P t rest s w1 = Ret (st, s', w').
Proof.
  induction pieces as [|[p k] pieces IH]; intros s w st s' w' SC T FO H; cbn [map app] in H.
  - right. exists [], w. split; [constructor|]. rewrite app_nil_r. auto 10.
  - inversion FO as [|? ? O FO']; subst. destruct s as [h r]. cbn [until_failure] in H. unfold do_deed in H at 1.
    destruct (SendHttpData_run fuel cfg E TUser t p k w SC ltac:(discriminate) T O) as (o&w1&t0&tr1&W&M&TR1&NR&_&R).
    destruct (srun_facts _ _ _ _ _ _ R) as (S1&S2&S3&S4&S5). set (sent := tick TUser t0 ++ tr1) in *.
    destruct (SendHttpData fuel cfg E (Some t) TUser (Some p) k w) as [[st1 w2]| | |] eqn:D; cbn [wout] in W; try discriminate; cbn [bind] in H; try discriminate.
    injection W as <- <-. cbn [fst bind] in H.
    assert (PT : pieces_text (w_mem w) ((p, k) :: pieces) = bytes_at (w_mem w) p k ++ pieces_text (w_mem w) pieces) by reflexivity. rewrite PT.
    destruct S5 as [X|[X|X]]; [discriminate| |]; injection X as ->.
    + rewrite <- M in FO'.
      destruct (IH _ _ _ _ _ SC T FO' H) as [(tr2&TR2&A1&A2&A3&A4&A5&A7)|(sent2&w3&A1&A2&A3&A4&A5&A6)]; rewrite M in *.
      * left. exists (sent ++ tr2). split; [rewrite TR2, TR1, <- app_assoc; auto|]. split; [apply Forall_app; auto|]. split; [auto|]. rewrite accepted_app, (S3 eq_refl). split; [destruct A3 as (c&->); exists c; rewrite app_assoc; auto|]. split; [rewrite !zlen_app; lia|auto].
      * right. exists (sent ++ sent2), w3. split; [apply Forall_app; auto|]. rewrite accepted_app, (S3 eq_refl), A2. split; [auto|]. split; [rewrite A3, TR1, <- app_assoc; auto|]. split; [auto|]. split; [congruence|auto].
    + injection H as <- <- <-. left. exists sent. split; [auto|]. split; [auto|]. split; [auto|]. split; [destruct S2 as (c&Q); rewrite Q; exists (c ++ pieces_text (w_mem w) pieces); rewrite app_assoc; auto|].
      split; [|auto]. rewrite zlen_app. pose proof (zlen_nonneg (pieces_text (w_mem w) pieces)). specialize (S4 eq_refl). lia.
Qed.
Lemma pieces_same m m' hbuf n pieces : same_outside m m' hbuf n -> pieces_arg m hbuf n pieces -> Forall (fun '(p, k) => object m' p k) pieces /\ pieces_text m' pieces = pieces_text m pieces.
Proof.
  intros S. unfold pieces_text. induction 1 as [|[p k] pieces (O&D) F (IH1&IH2)]; [split; [constructor|reflexivity]|]. cbn [map concat]. split.
  - constructor; [|exact IH1]. apply (same_outside_object _ _ _ _ _ _ S). exact O.
  - rewrite IH2. f_equal. eapply bytes_at_same; eauto.
Qed.
Theorem C80_body_in_pieces : forall fuel cfg E P t h hbuf n req r rbuf L w len flags pieces st h' r' w' tr,
  send_setup cfg E P t h hbuf n req None 0 [] r rbuf L w -> r_time r = TUser -> 0 <= len <= INT32_MAX -> pieces_arg (w_mem w) hbuf n pieces ->
  until_failure fuel cfg E P t (upload len flags pieces) (h, r) w = Ret (st, (h', r'), w') -> w_tr w' = w_tr w ++ tr ->
  let text := pieces_text (w_mem w) pieces in
  exists block, wire_headers flags len req block /\
    ((tr = [] /\ st = HTTPInsufficientMemory /\ n < zlen block /\ h' = h /\ r' = r /\ w' = w) \/
     (send_only tr /\ st = HTTPNetworkError /\ zlen block <= n /\ prefix (accepted tr) (block ++ text) /\ zlen (accepted tr) < zlen (block ++ text) /\ r' = r) \/
     (exists sent rtr w1, tr = sent ++ rtr /\ zlen block <= n /\ send_only sent /\ no_send rtr /\ accepted tr = block ++ text /\
        recv_setup cfg E P t r h' rbuf L block w1 /\ receives fuel cfg E P t r h' w1 st r' w' rtr)).
Proof.
  intros fuel cfg E P t h hbuf n req r rbuf L w len flags pieces st h' r' w' tr S TU HL PA X TR text. pose proof S as (SO&SC&RC&PO&T1&T2&H&LR&W&_&_&_&RB&RL&OB&LL).
  unfold upload in X. cbn [until_failure] in X. unfold do_deed in X at 1.
  destruct (SendHttpHeaders_run fuel cfg E TUser t h hbuf n req len flags w SC ltac:(discriminate) T1 H HL W) as (block&h1&m1&WH&D). exists block. split; [exact WH|].
  destruct D as [(BN&D)|(BN&HO&SM&SQ&o&w1&t0&tr1&WO&M&TR1&NR&_&R)].
  - left. rewrite D in X. cbn [bind need fst] in X. injection X as <- <- <- <-. rewrite <- (app_nil_r (w_tr w)) in TR at 1. apply app_inv_head in TR. auto 10.
  - destruct (srun_facts _ _ _ _ _ _ R) as (S1&S2&S3&S4&S5). set (sent := tick TUser t0 ++ tr1) in *.
    destruct (SendHttpHeaders fuel cfg E (Some t) TUser (Some h) len flags w) as [[[st1 oh] w2]| | |] eqn:Q; cbn [wout] in WO; try discriminate; cbn [bind] in X; try discriminate.
    destruct o as [st0|]; [|discriminate]. injection WO as -> -> ->. cbn [need bind fst] in X. right.
    destruct (pieces_same _ _ _ _ _ SM PA) as (PO'&PT). rewrite <- M in PO', PT. fold text in PT.
    destruct S5 as [Y|[Y|Y]]; [discriminate| |]; injection Y as ->.
    + destruct (send_pieces fuel cfg E P t pieces [DReceive] _ _ _ _ _ SC T1 PO' X) as [(tr2&TR2&A1&A2&A3&A4&A5&A6)|(sent2&w3&A1&A2&A3&A4&A5&A6)]; rewrite PT in *.
      * left. injection A5 as -> ->. rewrite TR2, TR1, <- app_assoc in TR. apply app_inv_head in TR. subst tr. split; [apply Forall_app; auto|]. split; [auto|]. split; [auto|]. rewrite accepted_app, (S3 eq_refl).
        split; [destruct A3 as (c&->); exists c; rewrite app_assoc; auto|]. split; [rewrite !zlen_app; lia|auto].
      * right. cbn [until_failure] in A6. unfold do_deed in A6 at 1.
        destruct (ReceiveAndParseHttpResponse fuel cfg E P (Some t) (Some r) (Some h1) w3) as [[[st2 pr2] w4]| | |] eqn:RQ; cbn [bind] in A6; try discriminate.
        destruct (Receive_some _ _ _ _ _ _ _ _ _ _ _ RQ) as (r1&->). cbn [need bind fst] in A6.
        assert (A7 : (st, (h', r'), w') = (st2, (h1, r1), w4)) by (destruct st2; injection A6 as <- <- <- <-; reflexivity). injection A7 as -> -> -> ->. clear A6.
        destruct (Receive_ext _ _ _ _ _ _ _ _ (Some (st2, Some r1)) w4 ltac:(rewrite RQ; reflexivity)) as (tq&Q1&Q2).
        rewrite Q1, A3, TR1, <- !app_assoc in TR. apply app_inv_head in TR. subst tr. exists (sent ++ sent2), tq, w3. split; [rewrite app_assoc; auto|]. split; [auto|].
        assert (SN : send_only (sent ++ sent2)) by (apply Forall_app; auto). split; [exact SN|]. split; [exact Q2|]. split; [rewrite app_assoc, accepted_only by auto; rewrite accepted_app, (S3 eq_refl), A2; auto|].
        split; [|split; auto]. pose proof (wire_len _ _ _ _ WH). unfold recv_setup. rewrite A4, M. split; [auto|]. split; [auto|]. split; [auto|]. split; [rewrite TU; discriminate|]. split; [auto|]. split; [auto|].
        split; [apply (same_outside_object _ _ _ _ _ _ SM); auto|]. split; [auto|]. split; [exists hbuf, n; auto|lia].
    + left. injection X as <- <- <- <-. rewrite TR1 in TR. apply app_inv_head in TR. subst tr. split; [auto|]. split; [auto|]. split; [auto|]. split; [destruct S2 as (c&Q2); rewrite Q2; exists (c ++ text); rewrite app_assoc; auto|].
      split; [|auto]. rewrite zlen_app. pose proof (zlen_nonneg text). specialize (S4 eq_refl). lia.
Qed.
Print Assumptions C80_three_calls.
Print Assumptions C80_body_in_pieces.

Lemma failed_behind sent tr : send_only sent -> recv_failed (sent ++ tr) <-> recv_failed tr.
Proof.
  intros SO. split; [|apply recv_failed_pre]. intros (a&p&room&n&d&Q&N). destruct tr as [|x tr] using rev_ind.
  - rewrite app_nil_r in Q. subst sent. apply Forall_app in SO. destruct SO as (_&SO). inversion SO. contradiction.
  - rewrite app_assoc in Q. apply app_inj_tail in Q. destruct Q as (_&->). exists tr, p, room, n, d. auto.
Qed.
Lemma received_behind sent tr : send_only sent -> received (sent ++ tr) = received tr.
Proof. induction 1 as [|x sent X F IH]; auto. destruct x; cbn in *; tauto. Qed.
(** ** The answer is the same however the body is cut into pieces, and however the network cuts the answer. *)
Theorem C80_same_answer : forall P cfg t h hbuf n req r rbuf L w len flags fuel1 E1 pieces1 st1 h1 r1 w1 tr1 fuel2 E2 pieces2 st2 h2 r2 w2 tr2,
  cut_free P -> send_setup cfg E1 P t h hbuf n req None 0 [] r rbuf L w -> send_setup cfg E2 P t h hbuf n req None 0 [] r rbuf L w -> recv_faithful E1 -> recv_faithful E2 ->
  r_time r = TUser -> no_parse_body r = false -> 0 <= len <= INT32_MAX ->
  pieces_arg (w_mem w) hbuf n pieces1 -> pieces_arg (w_mem w) hbuf n pieces2 -> pieces_text (w_mem w) pieces1 = pieces_text (w_mem w) pieces2 ->
  until_failure fuel1 cfg E1 P t (upload len flags pieces1) (h, r) w = Ret (st1, (h1, r1), w1) -> w_tr w1 = w_tr w ++ tr1 ->
  until_failure fuel2 cfg E2 P t (upload len flags pieces2) (h, r) w = Ret (st2, (h2, r2), w2) -> w_tr w2 = w_tr w ++ tr2 ->
  0 < recvs tr1 -> 0 < recvs tr2 -> data_received tr1 = data_received tr2 -> (recv_failed tr1 <-> recv_failed tr2) ->
  accepted tr1 = accepted tr2 /\ st1 = st2 /\
  (answered st1 tr1 -> same_response r r1 rbuf (w_mem w1) r r2 rbuf (w_mem w2) /\ (~ rejected st1 -> same_headers r r1 rbuf tr1 r r2 rbuf tr2)).
Proof.
  intros P cfg t h hbuf n req r rbuf L w len flags fuel1 E1 pieces1 st1 h1 r1 w1 tr1 fuel2 E2 pieces2 st2 h2 r2 w2 tr2 CF S1 S2 F1 F2 TU NP HL P1 P2 PT X1 Y1 X2 Y2 N1 N2 DR RF.
  destruct (C80_body_in_pieces _ _ _ _ _ _ _ _ _ _ _ _ _ _ _ _ _ _ _ _ _ S1 TU HL P1 X1 Y1) as (b1&WH1&D1). destruct (C80_body_in_pieces _ _ _ _ _ _ _ _ _ _ _ _ _ _ _ _ _ _ _ _ _ S2 TU HL P2 X2 Y2) as (b2&WH2&D2).
  pose proof (wire_fun _ _ _ _ _ WH1 WH2). subst b2.
  destruct D1 as [(->&_)|[(SO&_)|(s1&q1&v1&->&_&SO1&_&A1&RS1&RV1)]]; [cbn in N1; lia|rewrite (send_only_recvs _ SO) in N1; lia|].
  destruct D2 as [(->&_)|[(SO&_)|(s2&q2&v2&->&_&SO2&_&A2&RS2&RV2)]]; [cbn in N2; lia|rewrite (send_only_recvs _ SO) in N2; lia|].
  split; [rewrite A1, A2; congruence|].
  destruct (send_only_data s1 q1 SO1) as (D1&_). destruct (send_only_data s2 q2 SO2) as (D2&_). rewrite D1, D2 in DR.
  rewrite !failed_behind in RF by auto.
  destruct (C67_any_cut P cfg L L _ _ _ _ _ _ _ _ _ _ _ _ _ _ _ _ _ _ _ _ _ _ _ _ CF RS1 F1 NP RS2 F2 NP ltac:(tauto) RV1 RV2 DR ltac:(auto) RF) as (A&C). split; [exact A|].
  unfold answered. rewrite received_behind by auto. intros AN. destruct (C AN) as (C1&C2&_). split; [exact C1|]. intros NR. destruct (C2 NR) as [G1 G2 G3].
  constructor; auto. destruct (send_only_data s1 q1 SO1) as (_&->&_). destruct (send_only_data s2 q2 SO2) as (_&->&_). exact G3.
Qed.
Print Assumptions C80_same_answer.
(** The body "data" whole and as "da", "", "ta", and the answer in other pieces. *)
Definition body_pieces : list (ptr * Z) := [(mkptr 2 0, 2); (mkptr 2 2, 0); (mkptr 2 2, 2)].
Example C80_case : forall ps, 
  send_setup cfg0 (env_ex ps) refparser trr hx buf0 300 req1 None 0 [] rsep rbuf 300 wsep /\ cut_free refparser /\ recv_faithful (env_ex ps) /\
  pieces_arg (w_mem wsep) buf0 300 body_pieces /\ pieces_arg (w_mem wsep) buf0 300 [(mkptr 2 0, 4)] /\
  pieces_text (w_mem wsep) body_pieces = B "data" /\ pieces_text (w_mem wsep) [(mkptr 2 0, 4)] = B "data".
Proof.
  intros ps. destruct (setup_ex ps) as ((SO&SC&RC&PO&T1&T2&H&LR&W&HL&HI&BA&RB&RL&OB&LL)&_). destruct (env_ex_ok ps) as (_&_&RF&_).
  split; [unfold send_setup; conj; auto; try lia; split; reflexivity|]. split; [exact C67_reference_parser|]. split; [exact RF|].
  assert (O : forall o k, 0 <= o -> 0 <= k -> o + k <= 4 -> object (w_mem wsep) (mkptr 2 o) k /\ disjoint buf0 300 (mkptr 2 o) k).
  { intros o k H1 H2 H3. split; [unfold object; split; [lia|]; cbn [po]; split; [lia|]; cbn [pb wsep w_mem]; change (zlen (blk _ 2)) with 4; lia|left; discriminate]. }
  split; [|split; [|split; vm_compute; reflexivity]]; unfold pieces_arg, body_pieces; repeat (apply Forall_cons; [apply O; lia|]); apply Forall_nil.
Qed.
Example C80_runs : exists r1 h1 w1 r2 h2 w2,
  until_failure 100 cfg0 (env_ex resp_ok) refparser trr (upload 4 0 body_pieces) (hx, rsep) wsep = Ret (HTTPSuccess, (h1, r1), w1) /\
  until_failure 100 cfg0 (env_ex [concat resp_ok]) refparser trr (upload 4 0 [(mkptr 2 0, 4)]) (hx, rsep) wsep = Ret (HTTPSuccess, (h2, r2), w2) /\
  0 < recvs (w_tr w1) /\ 0 < recvs (w_tr w2) /\ data_received (w_tr w1) = data_received (w_tr w2) /\ sends (w_tr w1) = 3 /\ sends (w_tr w2) = 2.
Proof. do 6 eexists. split; [vm_compute; reflexivity|]. split; [vm_compute; reflexivity|]. vm_compute; auto 10. Qed.
