(** PropsBlankRaw.v — C71 with HTTP_RESPONSE_DO_NOT_PARSE_BODY_FLAG. *)
From Verif Require Import Base Lib ModelRequest ModelSend ModelResponse SpecRequest SpecSend SpecResponse ProofsRequest ProofsSend ProofsSend2
  ProofsResponse ProofsResponse2 ProofsResponse3 ProofsResponse4 ProofsResponse5 RefParser RefRun SpecHttp SpecParser SpecCut SpecRaw HttpRun ProofsFollow ProofsEnd Demo DemoResponse
  PropsResponse PropsHttp ProofsAny PropsAny ProofsRaw ProofsCut SpecBlank PropsBlank.

(** ** The reference parser *)
Lemma heading_msg {S} (s0 : S) (t : ptree S) : forall v v' e s', heading s0 t v = (v', e, s') -> v_msg v <> MsgNone -> v_msg v' <> MsgNone.
Proof.
  induction t as [e q|ev k IH]; intros v v' e' s' H M; cbn [heading] in H; [injection H as <- _ _; auto|].
  pose proof (event_msg v ev M) as M'. destruct ev; try (eapply IH; [exact H|exact M']). injection H as <- _ _. exact M'.
Qed.
Lemma blank_go_raw s0 d : forall sp pos v v' e s', heading s0 (go rinit d sp pos) v = (v', e, s') -> v_msg v = MsgNone ->
  (only_line_ends d /\ v' = v /\ e = HPE_OK /\ s' = rinit) \/ (~ only_line_ends d /\ (v_msg v' <> MsgNone \/ (parse_error e <> None /\ goes_on e = false))).
Proof.
  induction d as [|c d IH]; intros sp pos v v' e s' H M.
  - left. cbn [go] in H. unfold flush in H. destruct (sp <? pos); cbn in H; injection H as <- <- <-; (split; [constructor|auto]).
  - cbn [go] in H. unfold step in H. cbn [q_st rinit] in H. destruct ((c =? CR) || (c =? LF)) eqn:CE.
    + cbn [map emit] in H. change (q_st rinit) with Start in H. cbn iota in H. destruct (IH _ _ _ _ _ _ H M) as [(I1&I2)|(I1&I2)].
      * left. split; [constructor; [|exact I1]|exact I2]. apply orb_prop in CE. destruct CE; lia.
      * right. split; [|exact I2]. intros Q. inversion Q; auto.
    + right. split. { intros Q. inversion Q as [|? ? Q1 _]; subst. destruct Q1 as [-> | ->]; discriminate. }
      destruct (c =? 72).
      * left. cbn [map emit event heading] in H. eapply heading_msg; [exact H|]. cbn. discriminate.
      * right. cbn [map emit q_st to heading] in H. injection H as <- <- <-. split; [discriminate|reflexivity].
Qed.
Lemma blank_state_raw ps s v : handled_raw refparser ps s v -> (only_line_ends (concat ps) /\ v_msg v = MsgNone /\ s = rinit) \/ (~ only_line_ends (concat ps) /\ v_msg v <> MsgNone).
Proof.
  induction 1 as [|ps d s v e s' v' H IH ND R G]; [left; split; [constructor|auto]|]. rewrite concat_app. cbn [concat]. rewrite app_nil_r. unfold only_line_ends. rewrite Forall_app.
  destruct IH as [(I1&I2&->)|(I1&I2)].
  - cbn [p_exec refparser] in R. unfold rexec in R. destruct d as [|c d]; [congruence|]. change (q_st rinit) with Start in R. cbn iota in R.
    destruct (blank_go_raw _ _ _ _ _ _ _ _ R I2) as [(B1&->&_&->)|(B1&[B2|(_&B2)])]; [left; auto|right; split; [tauto|auto]|congruence].
  - right. split; [unfold only_line_ends in I1; tauto|]. eapply heading_msg; [exact R|exact I2].
Qed.
Theorem C71_reference_parser_skips_line_ends_raw : skips_line_ends_raw refparser.
Proof.
  intros ps d s v v' e s' H R. unfold only_line_ends. rewrite Forall_app. destruct (blank_state_raw ps s v H) as [(I1&I2&->)|(I1&I2)].
  - cbn [p_exec refparser] in R. unfold rexec in R. destruct d as [|c d].
    + cbn in R. injection R as <- <- _. cbn [given view_step v_msg]. split; [auto|split; [exact I2|reflexivity]].
    + change (q_st rinit) with Start in R. cbn iota in R.
      destruct (blank_go_raw _ _ _ _ _ _ _ _ R I2) as [(B1&->&->&_)|(B1&B2)].
      * split; [auto|]. intros _. split; [exact I2|reflexivity].
      * split; [|tauto]. intros (Q1&Q2). destruct B2 as [B2|(B2&_)]; congruence.
  - split; [|unfold only_line_ends in I1; tauto]. intros (Q&_). destruct (heading_msg _ _ _ _ _ _ R I2 Q).
Qed.
Print Assumptions C71_reference_parser_skips_line_ends_raw.

(** ** The loop *)
Lemma handled_raw_stream P ps s v : handled_raw P ps s v -> v_stream v = concat ps.
Proof.
  induction 1 as [|ps d s v e s' v' H IH ND R _]; [reflexivity|].
  pose proof (heading_stream s (p_exec P s d) (given v d)) as RS. rewrite R in RS. cbn [fst] in RS. rewrite RS, concat_app. cbn [given view_step v_stream concat]. rewrite IH, app_nil_r. reflexivity.
Qed.
Definition rawoutcome (P : parser) (o : rout) (v : view) : Prop :=
  match o with
  | OMore | OFail => exists ps s, handled_raw P ps s v
  | OStop e => exists ps s v0 d s', handled_raw P ps s v0 /\ heading s (p_exec P s d) (given v0 d) = (v, e, s')
  | OStall e => exists ps s v0 s', handled_raw P ps s v0 /\ heading s (p_exec P s []) (given v0 []) = (v, e, s')
  end.
Lemma rrun_raw P E T k last nr nt v tr o v' : recv_faithful E -> rrun E T k last nr nt v tr o v' ->
  forall A ps, rfollows P (A ++ tr) -> view_of A = v -> handled_raw P ps (rpst P A) v -> rawoutcome P o v'.
Proof.
  intros F H.
  induction H as [last nr nt v|last nr nt v n d H1 H2|last nr nt v n d b e blk tr o v' H1 H2 H3 H4 H5 H6 H7 H8 IH|last nr nt v n d b e blk H1 H2 H3 H4 H5 H6 H7|last nr nt v d e blk H1 H2 H3|last nr nt v d tr o v' H1 H2 H3 IH];
    intros A ps FO VA PA; [cbn [rawoutcome]; eauto|cbn [rawoutcome]; eauto| | | |].
  1,2: specialize (F nr (k_L k - zlen (v_stream v))); rewrite H1 in F; cbn [fst snd] in F; specialize (F H2); specialize (H4 F); subst d;
    destruct H6 as (evs&EV&->&_); pose proof (events_inner _ _ EV) as IN;
    set (rv := TRecv _ _ n b) in *; set (t := clk E (k_tf k) nt) in *;
    assert (BN : b <> []) by (intros ->; change (zlen (@nil Z)) with 0 in H3; lia);
    set (A1 := (A ++ [rv]) ++ tick (k_tf k) t);
    assert (V1 : view_of A1 = v) by (unfold A1; rewrite !view_of_app, VA; cbn [fold_left view_step]; apply view_tick);
    assert (P1 : rpst P A1 = rpst P A) by (unfold A1; rewrite rpst_tick, rpst_app; reflexivity);
    set (p := poff (k_buf k) (zlen (v_stream v))) in *.
  - assert (FQ : A ++ rv :: tick (k_tf k) t ++ (TParse p b :: evs ++ [TParsed e]) ++ tr = A1 ++ TParse p b :: evs ++ TParsed e :: tr).
    { unfold A1. rewrite <- !app_assoc. cbn [app]. rewrite <- app_assoc. reflexivity. }
    rewrite FQ in FO. pose proof (FO A1 p b evs e tr eq_refl IN) as X. rewrite P1, V1 in X. change (view_step v (TParse p b)) with (given v b) in X.
    set (v1 := view_of (A1 ++ TParse p b :: evs)) in *. set (s1 := rpst P (A1 ++ [TParse p b])) in *.
    assert (VB : fold_left view_step (TParse p b :: evs ++ [TParsed e]) v = v1).
    { unfold v1. rewrite view_of_app, V1. cbn [fold_left]. rewrite fold_left_app. reflexivity. }
    rewrite VB in *.
    assert (GE : goes_on e = true) by (destruct (goes_on e); [auto|discriminate H7]).
    pose proof (HRawMore P ps b _ v e s1 v1 PA BN X GE) as FD1.
    apply (IH (A1 ++ TParse p b :: evs ++ [TParsed e]) (ps ++ [b])).
    + rewrite <- app_assoc. cbn [app]. rewrite <- app_assoc. exact FO.
    + rewrite view_of_app, V1. exact VB.
    + rewrite rpst_inner by auto. exact FD1.
  - assert (FQ : A ++ rv :: tick (k_tf k) t ++ (TParse p b :: evs ++ [TParsed e]) = A1 ++ TParse p b :: evs ++ TParsed e :: []).
    { unfold A1. rewrite <- !app_assoc. reflexivity. }
    rewrite FQ in FO. pose proof (FO A1 p b evs e [] eq_refl IN) as X. rewrite P1, V1 in X. change (view_step v (TParse p b)) with (given v b) in X.
    assert (VB : fold_left view_step (TParse p b :: evs ++ [TParsed e]) v = view_of (A1 ++ TParse p b :: evs)).
    { rewrite view_of_app, V1. cbn [fold_left]. rewrite fold_left_app. reflexivity. }
    rewrite VB. cbn [rawoutcome]. do 5 eexists. split; [exact PA|exact X].
  - destruct H3 as (evs&EV&->&_); pose proof (events_inner _ _ EV) as IN.
    set (rv := TRecv _ _ 0 d) in *. set (t := clk E (k_tf k) nt) in *.
    set (A1 := (A ++ [rv]) ++ tick (k_tf k) t).
    assert (V1 : view_of A1 = v) by (unfold A1; rewrite !view_of_app, VA; cbn [fold_left view_step]; apply view_tick).
    assert (P1 : rpst P A1 = rpst P A) by (unfold A1; rewrite rpst_tick, rpst_app; reflexivity).
    set (p := poff (k_buf k) (zlen (v_stream v))) in *.
    assert (FQ : A ++ rv :: tick (k_tf k) t ++ (TParse p [] :: evs ++ [TParsed e]) = A1 ++ TParse p [] :: evs ++ TParsed e :: []).
    { unfold A1. rewrite <- !app_assoc. reflexivity. }
    rewrite FQ in FO. pose proof (FO A1 p [] evs e [] eq_refl IN) as X. rewrite P1, V1 in X. change (view_step v (TParse p [])) with (given v []) in X.
    assert (VB : fold_left view_step (TParse p [] :: evs ++ [TParsed e]) v = view_of (A1 ++ TParse p [] :: evs)).
    { rewrite view_of_app, V1. cbn [fold_left]. rewrite fold_left_app. reflexivity. }
    rewrite VB. cbn [rawoutcome]. do 4 eexists. split; [exact PA|exact X].
  - set (rv := TRecv _ _ 0 d) in *. set (t := clk E (k_tf k) nt) in *.
    apply (IH ((A ++ [rv]) ++ tick (k_tf k) t) ps); auto.
    + rewrite <- !app_assoc. exact FO.
    + rewrite !view_of_app, VA. cbn [fold_left view_step]. apply view_tick.
    + rewrite rpst_tick, rpst_app. exact PA.
Qed.

(** ** The call *)
Theorem C71_no_response_exact_raw : forall fuel cfg E P t r rh buf L req w st r' w' tr,
  skips_line_ends_raw P -> recv_setup cfg E P t r rh buf L req w -> recv_faithful E -> no_parse_body r = true ->
  receives fuel cfg E P t r rh w st r' w' tr ->
  (st = HTTPNoResponse <-> ~ recv_failed tr /\ only_line_ends (data_received tr)).
Proof.
  intros fuel cfg E P t r rh buf L req w st r' w' tr SK HS F ND HR.
  pose proof (rreceives_follow _ _ _ _ _ _ _ _ _ _ _ _ _ _ _ HS ND HR) as FO.
  destruct (receives_inv _ _ _ _ _ _ _ _ _ _ _ _ _ _ _ HS HR) as (trl&o&s'&ph&G&TR&RR&NM&ST&_).
  set (t0 := clk E (r_time r) (w_nt w)) in *.
  assert (DR : data_received tr = data_received trl) by (rewrite TR, data_received_app, (data_received_norecv (tick _ _)) by apply tick_norecv; reflexivity).
  pose proof (rrun_data _ _ _ _ _ _ _ _ _ _ F RR) as RD. cbn [view0 v_stream app] in RD. rewrite <- DR in RD.
  assert (OC : rawoutcome P o (view_of tr)).
  { apply (rrun_raw _ _ _ _ _ _ _ _ _ _ _ F RR (tick (r_time r) t0) []).
    - rewrite <- TR. exact FO.
    - apply (view_tick _ _ view0).
    - assert (PT : rpst P (tick (r_time r) t0) = p_init P) by apply (rpst_tick P []). rewrite PT. constructor. }
  assert (EN : match o with OFail => recv_failed tr | OStop e | OStall e => ended_with tr e | _ => True end).
  { pose proof (rrun_end _ _ _ _ _ _ _ _ _ _ RR) as X. destruct o; auto; rewrite TR; [apply failed_app|apply ended_app|apply ended_app]; auto. }
  set (v := view_of tr) in *.
  assert (DNP : dnp (kof r buf L req (w_mem w)) = true) by (unfold dnp, kof; cbn [k_opt]; rewrite dnp_bit; exact ND).
  assert (PIECE : forall ps s v0 d e s1, handled_raw P ps s v0 -> heading s (p_exec P s d) (given v0 d) = (v, e, s1) -> (v_msg v = MsgNone /\ parse_error e = None <-> only_line_ends (data_received tr))).
  { intros ps s v0 d e s1 H R. rewrite <- RD. pose proof (heading_stream s (p_exec P s d) (given v0 d)) as RS. rewrite R in RS. cbn [fst given view_step v_stream] in RS.
    rewrite RS, (handled_raw_stream _ _ _ _ H). eapply SK; eauto. }
  assert (FIN : forall e, ended_with tr e -> (v_msg v = MsgNone /\ parse_error e = None <-> only_line_ends (data_received tr)) ->
    (match parse_error e with Some st => st | None => match v_msg v with MsgNone => HTTPNoResponse | MsgComplete => HTTPSuccess | MsgBegun => HTTPSuccess end end = HTTPNoResponse
     <-> ~ recv_failed tr /\ only_line_ends (data_received tr))).
  { intros e EW X. pose proof (ended_not_failed _ _ EW) as NF. destruct (parse_error e) as [x|] eqn:PE.
    - split; [intros ->; destruct e; discriminate|]. intros (_&Q). apply X in Q. destruct Q; discriminate.
    - destruct (v_msg v) eqn:VM; [tauto| |]; (split; [discriminate|intros (_&Q); apply X in Q; destruct Q; discriminate]). }
  rewrite ST. unfold final_status. rewrite DNP. destruct o as [| |e|e]; [congruence| | |]; cbn [rawoutcome errno_of] in *.
  - split; [discriminate|tauto].
  - destruct OC as (ps&s&v0&d&s1&H&R). apply FIN; [exact EN|]. eapply PIECE; eauto.
  - destruct OC as (ps&s&v0&s1&H&R). apply FIN; [exact EN|]. eapply PIECE; eauto.
Qed.
Print Assumptions C71_no_response_exact_raw.
Example C71_case_raw : exists r' w' tr, demo_receives [[13]; [10; 10]; [13]] (resp0 200 1) 200 HTTPNoResponse r' w' tr /\ data_received tr = [13; 10; 10; 13] /\
  only_line_ends (data_received tr) /\ no_parse_body (resp0 200 1) = true.
Proof.
  do 3 eexists. split; [demo|]. match goal with |- ?x = _ /\ _ => assert (Q : x = [13; 10; 10; 13]) by (vm_compute; reflexivity); rewrite Q end.
  split; [reflexivity|]. split; [|reflexivity]. unfold only_line_ends, CR, LF. repeat (constructor; [lia|]). constructor.
Qed.
Example C71_other_case_raw : exists r' w' tr, demo_receives [[13; 10; 72; 84]] (resp0 200 1) 200 HTTPSuccess r' w' tr /\ data_received tr = [13; 10; 72; 84] /\ ~ only_line_ends [13; 10; 72; 84].
Proof.
  do 3 eexists. split; [demo|]. split; [vm_compute; reflexivity|]. intros Q. inversion Q as [|? ? _ Q1]. inversion Q1 as [|? ? _ Q2]. inversion Q2 as [|? ? Q3 _]. destruct Q3; discriminate.
Qed.
