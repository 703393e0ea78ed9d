(** PropsBlank.v — C71: HTTPNoResponse, exactly. *)
From Verif Require Import Base Lib ModelRequest ModelSend ModelResponse SpecRequest SpecSend SpecResponse ProofsRequest ProofsSend ProofsSend2
  ProofsResponse ProofsResponse2 ProofsResponse3 ProofsResponse4 ProofsResponse5 RefParser RefRun SpecHttp SpecParser SpecCut HttpRun ProofsFollow ProofsEnd Demo DemoResponse
  PropsResponse PropsHttp ProofsAny PropsAny ProofsCut SpecBlank.

(** ** The reference parser *)
Lemma finish_msg v : v_msg (finish v) = v_msg v.
Proof. unfold finish. destruct (v_name v), (v_value v); reflexivity. Qed.
Lemma event_msg v ev : v_msg v <> MsgNone -> v_msg (view_event v ev) <> MsgNone.
Proof. intros H. destruct ev; cbn [view_event v_msg]; rewrite ?finish_msg; auto; discriminate. Qed.
Lemma reading_msg nb {S} (t : ptree S) : forall v v' e s', reading nb t v = (v', e, s') -> v_msg v <> MsgNone -> v_msg v' <> MsgNone.
Proof. induction t as [e q|ev k IH]; intros v v' e' s' H M; cbn [reading] in H; [injection H as <- _ _; auto|]. eapply IH; [exact H|]. apply event_msg. exact M. Qed.
Lemma blank_go nb d : forall sp pos v v' e s', reading nb (go rinit d sp pos) v = (v', e, s') -> v_msg v = MsgNone ->
  (only_line_ends d /\ v' = v /\ e = HPE_OK /\ s' = rinit) \/ (~ only_line_ends d /\ (v_msg v' <> MsgNone \/ (parse_error e <> None /\ goes_on e = false))).
Proof.
  induction d as [|c d IH]; intros sp pos v v' e s' H M.
  - left. cbn [go] in H. unfold flush in H. destruct (sp <? pos); cbn in H; injection H as <- <- <-; (split; [constructor|auto]).
  - cbn [go] in H. unfold step in H. cbn [q_st rinit] in H. destruct ((c =? CR) || (c =? LF)) eqn:CE.
    + cbn [map emit] in H. change (q_st rinit) with Start in H. cbn iota in H. destruct (IH _ _ _ _ _ _ H M) as [(I1&I2)|(I1&I2)].
      * left. split; [constructor; [|exact I1]|exact I2]. apply orb_prop in CE. destruct CE; lia.
      * right. split; [|exact I2]. intros Q. inversion Q; auto.
    + right. split. { intros Q. inversion Q as [|? ? Q1 _]; subst. destruct Q1 as [-> | ->]; discriminate. }
      destruct (c =? 72).
      * left. cbn [map emit event reading] in H. eapply reading_msg; [exact H|]. cbn. discriminate.
      * right. cbn [map emit q_st to reading] in H. injection H as <- <- <-. split; [discriminate|reflexivity].
Qed.
Lemma blank_state nb ps s v : handled nb refparser ps s v -> (only_line_ends (concat ps) /\ v_msg v = MsgNone /\ s = rinit) \/ (~ only_line_ends (concat ps) /\ v_msg v <> MsgNone).
Proof.
  induction 1 as [|ps d s v e s' v' H IH ND R G]; [left; split; [constructor|auto]|]. rewrite concat_app. cbn [concat]. rewrite app_nil_r. unfold only_line_ends. rewrite Forall_app.
  destruct IH as [(I1&I2&->)|(I1&I2)].
  - cbn [p_exec refparser] in R. unfold rexec in R. destruct d as [|c d]; [congruence|]. change (q_st rinit) with Start in R. cbn iota in R.
    destruct (blank_go nb _ _ _ _ _ _ _ R I2) as [(B1&->&_&->)|(B1&[B2|(_&B2)])]; [left; auto|right; split; [tauto|auto]|congruence].
  - right. split; [unfold only_line_ends in I1; tauto|]. eapply reading_msg; [exact R|exact I2].
Qed.
Theorem C71_reference_parser_skips_line_ends : skips_line_ends refparser.
Proof.
  intros nb ps d s v v' e s' H R. unfold only_line_ends. rewrite Forall_app. destruct (blank_state nb ps s v H) as [(I1&I2&->)|(I1&I2)].
  - cbn [p_exec refparser] in R. unfold rexec in R. destruct d as [|c d].
    + cbn in R. injection R as <- <- _. cbn [given view_step v_msg]. split; [auto|split; [exact I2|reflexivity]].
    + change (q_st rinit) with Start in R. cbn iota in R.
      destruct (blank_go nb _ _ _ _ _ _ _ R I2) as [(B1&->&->&_)|(B1&B2)].
      * split; [auto|]. intros _. split; [exact I2|reflexivity].
      * split; [|tauto]. intros (Q1&Q2). destruct B2 as [B2|(B2&_)]; congruence.
  - split; [|unfold only_line_ends in I1; tauto]. intros (Q&_). destruct (reading_msg nb _ _ _ _ _ R I2 Q).
Qed.
Print Assumptions C71_reference_parser_skips_line_ends.

(** ** The call *)
Theorem C71_no_response_exact : forall fuel cfg E P t r rh buf L req w st r' w' tr,
  skips_line_ends P -> recv_setup cfg E P t r rh buf L req w -> recv_faithful E -> no_parse_body r = false ->
  receives fuel cfg E P t r rh w st r' w' tr ->
  (st = HTTPNoResponse <-> ~ recv_failed tr /\ only_line_ends (data_received tr)).
Proof.
  intros fuel cfg E P t r rh buf L req w st r' w' tr SK HS F ND HR.
  destruct (receives_cut P _ _ _ _ _ _ _ _ _ _ _ _ _ _ _ eq_refl HS F ND HR) as (o&NM&ST&OC&VS&EN&_). set (v := view_of tr) in *.
  assert (DNP : dnp (kof r buf L req (w_mem w)) = false) by (unfold dnp, kof; cbn [k_opt]; rewrite dnp_bit; exact ND).
  set (nb := beqb _ _) in *.
  assert (PIECE : forall ps s v0 d e s', handled nb P ps s v0 -> reading nb (p_exec P s d) (given v0 d) = (v, e, s') -> (v_msg v = MsgNone /\ parse_error e = None <-> only_line_ends (data_received tr))).
  { intros ps s v0 d e s' H R. rewrite <- VS. pose proof (reading_stream nb (p_exec P s d) (given v0 d)) as RS. rewrite R in RS. cbn [fst given view_step v_stream] in RS.
    rewrite RS, (handled_stream _ _ _ _ _ H). eapply SK; eauto. }
  rewrite ST. unfold final_status. rewrite DNP. destruct o as [| |e|e]; [congruence| | |]; cbn [coutcome errno_of] in *.
  - split; [discriminate|tauto].
  - destruct OC as (ps&s&v0&d&s'&H&_&_&R&_). pose proof (PIECE _ _ _ _ _ _ H R) as X. pose proof (ended_not_failed _ _ EN) as NF.
    destruct (parse_error e) as [x|] eqn:PE.
    + split; [intros ->; destruct e; discriminate|]. intros (_&Q). apply X in Q. destruct Q; discriminate.
    + destruct (v_msg v) eqn:VM; [tauto| |]; (split; [intros Q|intros (_&Q); apply X in Q; destruct Q; discriminate]); [destruct (zlen (v_stream v) =? _)|]; discriminate.
  - destruct OC as (ps&s&v0&s'&H&_&_&R). pose proof (PIECE _ _ _ _ _ _ H R) as X. pose proof (ended_not_failed _ _ EN) as NF.
    destruct (parse_error e) as [x|] eqn:PE.
    + split; [intros ->; destruct e; discriminate|]. intros (_&Q). apply X in Q. destruct Q; discriminate.
    + destruct (v_msg v) eqn:VM; [tauto| |]; (split; [intros Q|intros (_&Q); apply X in Q; destruct Q; discriminate]); [destruct (zlen (v_stream v) =? _)|]; discriminate.
Qed.
Print Assumptions C71_no_response_exact.
Example C71_case : exists r' w' tr, demo_receives [[13]; [10; 10]; [13]] (resp0 200 0) 200 HTTPNoResponse r' w' tr /\ data_received tr = [13; 10; 10; 13] /\
  only_line_ends (data_received tr) /\ no_parse_body (resp0 200 0) = false.
Proof.
  do 3 eexists. split; [demo|]. match goal with |- ?x = _ /\ _ => assert (Q : x = [13; 10; 10; 13]) by (vm_compute; reflexivity); rewrite Q end.
  split; [reflexivity|]. split; [|reflexivity]. unfold only_line_ends, CR, LF. repeat (constructor; [lia|]). constructor.
Qed.
Example C71_other_case : exists r' w' tr, demo_receives [[13; 10; 32]] (resp0 200 0) 200 HTTPSecurityAlertInvalidCharacter r' w' tr /\ data_received tr = [13; 10; 32] /\ ~ only_line_ends [13; 10; 32].
Proof.
  do 3 eexists. split; [demo|]. split; [vm_compute; reflexivity|]. intros Q. inversion Q as [|? ? _ Q1]. inversion Q1 as [|? ? _ Q2]. inversion Q2 as [|? ? Q3 _]. destruct Q3; discriminate.
Qed.
