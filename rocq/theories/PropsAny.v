(** PropsAny.v — the end-to-end properties with any parser that reads HTTP/1.1 responses ([reads_http], SpecParser.v). *)
From Verif Require Import Base Lib ModelRequest ModelSend ModelResponse SpecRequest SpecSend SpecResponse ProofsRequest ProofsSend ProofsSend2
  ProofsResponse ProofsResponse2 ProofsResponse3 ProofsResponse4 ProofsResponse5 RefParser RefRun SpecHttp SpecParser HttpRun ProofsFollow ProofsEnd Demo DemoResponse
  PropsResponse PropsHttp ProofsAny.

(** The hypothesis can be met: the reference parser reads HTTP. *)
Theorem C43_reference_parser_reads_http : reads_http refparser.
Proof. exact refparser_reads. Qed.
Print Assumptions C43_reference_parser_reads_http.

Lemma stream_reading nb {S} (t : ptree S) : forall v v' e s', reading nb t v = (v', e, s') -> v_stream v' = v_stream v.
Proof.
  assert (FI : forall u, v_stream (finish u) = v_stream u) by (intros u; unfold finish; destruct (v_name u), (v_value u); auto).
  assert (EV : forall u ev, v_stream (view_event u ev) = v_stream u) by (intros u []; cbn [view_event]; auto; rewrite ?FI; reflexivity).
  induction t as [e q|ev k IH]; intros v v' e' s' H; cbn [reading] in H; [injection H as <- _ _; auto|]. apply IH in H. rewrite H. apply EV.
Qed.
Lemma end_stream nb P s v v' e s' : reading nb (p_exec P s []) (given v []) = (v', e, s') -> v_stream v' = v_stream v.
Proof. intros H. apply stream_reading in H. rewrite H. cbn [given view_step v_stream]. apply app_nil_r. Qed.
Lemma fed_nil nb P ps s v : fed nb P ps s v -> concat ps = [] -> ps = [] /\ v = view0.
Proof.
  intros F E. destruct F as [|ps d s v s' v' F ND R]; [auto|]. rewrite concat_app in E. apply app_eq_nil in E. destruct E as (_&E). cbn in E. rewrite app_nil_r in E. contradiction.
Qed.

Section reader.
Variables (P : parser) (nb : bool) (resp : http).
Hypothesis RH : reads_http P.
Hypothesis HO : http_ok nb resp.
Lemma goes_resp : forall ps d s v, fed nb P ps s v -> d <> [] -> prefix_of (concat ps ++ d) (http_bytes resp) -> exists v' s', reading nb (p_exec P s d) (given v d) = (v', HPE_OK, s').
Proof. intros ps d s v F ND (x&E). rewrite <- app_assoc in E. eapply rd_goes_on; eauto. Qed.
Lemma part_msg ps s v rest : fed nb P ps s v -> http_bytes resp = concat ps ++ rest -> rest <> [] -> v_msg v = match concat ps with [] => MsgNone | _ => MsgBegun end.
Proof.
  intros F E NR. destruct (concat ps) as [|c x] eqn:Q.
  - destruct (fed_nil _ _ _ _ _ F Q) as (_&->). reflexivity.
  - eapply rd_part; eauto; [rewrite Q; exact E|intros ->; discriminate].
Qed.
Lemma end_part ps s v v' e s' rest : fed nb P ps s v -> reading nb (p_exec P s []) (given v []) = (v', e, s') -> http_bytes resp = concat ps ++ rest -> rest <> [] ->
  (forall d, p_body resp = ToClose d -> zlen (concat ps) < zlen (head_bytes resp)) ->
  parse_error e = None /\ v_msg v' = match concat ps with [] => MsgNone | _ => MsgBegun end.
Proof.
  intros F R E NR NC. destruct (rd_end P RH nb resp ps s v v' e s' HO F R) as (_&X). destruct (X rest E NR NC) as (X1&X2). split; [auto|].
  rewrite X2. eapply part_msg; eauto.
Qed.
End reader.

Theorem C43_any_parser_well_formed_response : forall fuel cfg E P t r rh buf L req w st r' w' tr resp,
  reads_http P -> recv_setup cfg E P t r rh buf L req w -> recv_faithful E -> no_parse_body r = false ->
  receives fuel cfg E P t r rh w st r' w' tr ->
  http_ok (beqb (slice req 0 4) (B "HEAD")) resp -> (forall d, p_body resp <> ToClose d) -> zlen (http_bytes resp) <= L ->
  (exists rest, http_bytes resp = data_received tr ++ rest) ->
  (data_received tr = http_bytes resp /\ st = HTTPSuccess /\ gives cfg buf L resp r r' w' tr) \/
  (zlen (data_received tr) < zlen (http_bytes resp) /\
   (recv_failed tr /\ st = HTTPNetworkError \/
    last_recv tr 0 /\ st = (match data_received tr with [] => HTTPNoResponse | _ => HTTPPartialResponse end))).
Proof.
  intros fuel cfg E P t r rh buf L req w st r' w' tr resp RH HS F ND HR HO NT LE PR.
  set (nb := beqb _ _) in *.
  destruct (receives_any P nb (http_bytes resp) (goes_resp P nb resp RH HO) _ _ _ _ _ _ _ _ _ _ _ _ _ _ eq_refl HS F ND HR PR) as (o&NM&ST&OC&VS&DL&EN).
  set (v := view_of tr) in *. destruct PR as (rest&PR).
  assert (DNP : dnp (kof r buf L req (w_mem w)) = false) by (unfold dnp, kof; cbn [k_opt]; rewrite dnp_bit; exact ND).
  assert (MC : match p_body resp with ToClose _ => MsgBegun | _ => MsgComplete end = MsgComplete) by (destruct (p_body resp); auto; destruct (NT d eq_refl)).
  assert (PART : forall ps s u, fed nb P ps s u -> concat ps = data_received tr -> done_msg u = false -> rest <> [] /\ zlen (data_received tr) < zlen (http_bytes resp)).
  { intros ps s u FD CP DN. rewrite PR, zlen_app. destruct rest as [|x rest]; [|rewrite zlen_cons; pose proof (zlen_nonneg rest); split; [discriminate|lia]].
    exfalso. rewrite app_nil_r in PR. rewrite <- PR in CP. destruct (rd_whole P RH nb resp ps s u HO FD CP) as (_&X). unfold done_msg in DN. rewrite X, MC in DN. discriminate. }
  rewrite ST. unfold final_status. rewrite DNP. destruct o as [| |e|e]; [congruence| | |]; cbn [aoutcome errno_of] in *.
  - destruct OC as (ps&s&FD&DN). right. split; [|left; auto]. eapply PART; eauto. rewrite <- VS. symmetry. eapply fed_stream; eauto.
  - destruct OC as (->&ps&s&FD&DD&NE). left. pose proof (fed_stream _ _ _ _ _ FD) as CP. rewrite VS in CP, DD, NE.
    assert (WH : data_received tr = http_bytes resp).
    { destruct rest as [|x rest]; [rewrite app_nil_r in PR; auto|]. exfalso.
      pose proof (zlen_nonneg rest). rewrite PR, zlen_app, zlen_cons in LE.
      destruct DD as [DD|DD]; [|lia]. unfold done_msg in DD.
      rewrite (part_msg P nb resp RH HO ps s v (x :: rest) FD ltac:(rewrite <- CP; exact PR) ltac:(discriminate)) in DD. destruct (concat ps); discriminate. }
    destruct (rd_whole P RH nb resp ps s v HO FD ltac:(congruence)) as (W1&W2). rewrite MC in W2.
    split; [auto|]. cbn [parse_error]. rewrite W2. split; [reflexivity|]. rewrite WH in VS.
    eapply gives_of; eauto. left. rewrite ST. unfold final_status. cbn [errno_of parse_error]. fold v. rewrite W2. discriminate.
  - destruct OC as (ps&s&v0&s'&FD&DN&R). pose proof (fed_stream _ _ _ _ _ FD) as CP. rewrite <- (end_stream _ _ _ _ _ _ _ R), VS in CP.
    destruct (PART _ _ _ FD (eq_sym CP) DN) as (NR&LT). right. split; [auto|]. right. split; [auto|].
    destruct (end_part P nb resp RH HO ps s v0 v e s' rest FD R ltac:(rewrite <- CP; exact PR) NR ltac:(intros d Q; destruct (NT d Q))) as (PE&VM).
    rewrite PE, VM, <- CP. destruct (data_received tr) eqn:ED; [reflexivity|]. rewrite <- ED in *.
    replace (zlen (v_stream v) =? k_L (kof r buf L req (w_mem w))) with false; [reflexivity|]. cbn [kof k_L]. rewrite VS. lia.
Qed.
Print Assumptions C43_any_parser_well_formed_response.

Theorem C43_any_parser_too_large : forall fuel cfg E P t r rh buf L req w st r' w' tr resp,
  reads_http P -> recv_setup cfg E P t r rh buf L req w -> recv_faithful E -> no_parse_body r = false ->
  receives fuel cfg E P t r rh w st r' w' tr ->
  http_ok (beqb (slice req 0 4) (B "HEAD")) resp -> (forall d, p_body resp <> ToClose d) -> L < zlen (http_bytes resp) ->
  (exists rest, http_bytes resp = data_received tr ++ rest) ->
  (recv_failed tr /\ st = HTTPNetworkError) \/
  (last_recv tr 0 /\ st = (match data_received tr with [] => HTTPNoResponse | _ => HTTPPartialResponse end)) \/
  (zlen (data_received tr) = L /\ st = HTTPInsufficientMemory).
Proof.
  intros fuel cfg E P t r rh buf L req w st r' w' tr resp RH HS F ND HR HO NT LE PR.
  set (nb := beqb _ _) in *.
  destruct (receives_any P nb (http_bytes resp) (goes_resp P nb resp RH HO) _ _ _ _ _ _ _ _ _ _ _ _ _ _ eq_refl HS F ND HR PR) as (o&NM&ST&OC&VS&DL&EN).
  set (v := view_of tr) in *. destruct PR as (rest&PR).
  assert (DNP : dnp (kof r buf L req (w_mem w)) = false) by (unfold dnp, kof; cbn [k_opt]; rewrite dnp_bit; exact ND).
  assert (NR : rest <> []) by (intros ->; rewrite app_nil_r in PR; rewrite PR in LE; lia).
  rewrite ST. unfold final_status. rewrite DNP. destruct o as [| |e|e]; [congruence| | |]; cbn [aoutcome errno_of] in *.
  - left. auto.
  - right. right. destruct OC as (->&ps&s&FD&DD&NE). pose proof (fed_stream _ _ _ _ _ FD) as CP. rewrite VS in CP, DD, NE.
    pose proof (part_msg P nb resp RH HO ps s v rest FD ltac:(rewrite <- CP; exact PR) NR) as VM. rewrite <- CP in VM. unfold done_msg in DD. cbn [parse_error]. rewrite VM in *.
    destruct (data_received tr) eqn:ED; [congruence|]. rewrite <- ED in *. destruct DD as [DD|DD]; [discriminate|]. split; [auto|]. cbn [kof k_L]. rewrite VS, DD, Z.eqb_refl. reflexivity.
  - destruct OC as (ps&s&v0&s'&FD&DN&R). pose proof (fed_stream _ _ _ _ _ FD) as CP. rewrite <- (end_stream _ _ _ _ _ _ _ R), VS in CP.
    destruct (end_part P nb resp RH HO ps s v0 v e s' rest FD R ltac:(rewrite <- CP; exact PR) NR ltac:(intros d Q; destruct (NT d Q))) as (PE&VM).
    rewrite PE, VM, <- CP. destruct (data_received tr) eqn:ED; [right; left; auto|]. rewrite <- ED in *. cbn [kof k_L]. rewrite VS.
    destruct (zlen (data_received tr) =? L) eqn:EL; [right; right; split; [lia|auto]|right; left; auto].
Qed.
Print Assumptions C43_any_parser_too_large.

Theorem C43_any_parser_until_close : forall fuel cfg E P t r rh buf L req w st r' w' tr resp d,
  reads_http P -> recv_setup cfg E P t r rh buf L req w -> recv_faithful E -> no_parse_body r = false ->
  receives fuel cfg E P t r rh w st r' w' tr ->
  http_ok (beqb (slice req 0 4) (B "HEAD")) resp -> p_body resp = ToClose d ->
  (exists rest, http_bytes resp = data_received tr ++ rest) ->
  (recv_failed tr /\ st = HTTPNetworkError) \/
  (zlen (data_received tr) = L /\ st = HTTPInsufficientMemory) \/
  (last_recv tr 0 /\ zlen (data_received tr) < zlen (head_bytes resp) /\
   st = (match data_received tr with [] => HTTPNoResponse | _ => HTTPPartialResponse end)) \/
  (last_recv tr 0 /\ st = HTTPSuccess /\
   exists d', data_received tr = head_bytes resp ++ d' /\ gives cfg buf L (cut resp d') r r' w' tr).
Proof.
  intros fuel cfg E P t r rh buf L req w st r' w' tr resp d RH HS F ND HR HO HB PR.
  set (nb := beqb _ _) in *.
  destruct (receives_any P nb (http_bytes resp) (goes_resp P nb resp RH HO) _ _ _ _ _ _ _ _ _ _ _ _ _ _ eq_refl HS F ND HR PR) as (o&NM&ST&OC&VS&DL&EN).
  destruct PR as (rest&PR). set (v := view_of tr) in *.
  assert (HOC : forall d', http_ok nb (cut resp d')).
  { intros d'. destruct HO as (H1&H2). split; [exact H1|]. rewrite HB in H2. exact H2. }
  assert (HD : forall d', http_bytes (cut resp d') = head_bytes resp ++ d') by reflexivity.
  assert (CASES : (exists d', data_received tr = head_bytes resp ++ d') \/ zlen (data_received tr) < zlen (head_bytes resp) /\ exists x, x <> [] /\ head_bytes resp = data_received tr ++ x).
  { pose proof (HD d) as X. replace (cut resp d) with resp in X by (destruct resp; cbn in *; unfold cut; cbn; congruence). rewrite X in PR.
    apply app_eq_app in PR. destruct PR as (l&[(H1&H2)|(H1&H2)]).
    - destruct l as [|c l]; [left; exists []; rewrite app_nil_r in *; auto|]. right. split; [|exists (c :: l); split; [discriminate|auto]].
      rewrite H1, zlen_app, zlen_cons. pose proof (zlen_nonneg l). lia.
    - left. eauto. }
  assert (NDONE : forall ps s u, fed nb P ps s u -> concat ps = data_received tr -> v_msg u = match data_received tr with [] => MsgNone | _ => MsgBegun end).
  { intros ps s u FD CP. destruct CASES as [(d'&E1)|(LT&x&NX&E1)].
    - destruct (rd_whole P RH nb (cut resp d') ps s u (HOC d') FD) as (_&W); [rewrite HD; congruence|]. cbn [cut p_body] in W. rewrite W, E1. unfold head_bytes, status_bytes. reflexivity.
    - rewrite <- CP. apply (part_msg P nb (cut resp []) RH (HOC []) ps s u x FD); [rewrite HD, app_nil_r; congruence|auto]. }
  assert (DNP : dnp (kof r buf L req (w_mem w)) = false) by (unfold dnp, kof; cbn [k_opt]; rewrite dnp_bit; exact ND).
  rewrite ST. unfold final_status. rewrite DNP. destruct o as [| |e|e]; [congruence| | |]; cbn [aoutcome errno_of] in *.
  - left. auto.
  - right. left. destruct OC as (->&ps&s&FD&DD&NE). pose proof (fed_stream _ _ _ _ _ FD) as CP. rewrite VS in CP, NE, DD. cbn [parse_error].
    pose proof (NDONE _ _ _ FD (eq_sym CP)) as VM. rewrite VM.
    assert (ZL : zlen (data_received tr) = L).
    { destruct DD as [DD|DD]; [|auto]. unfold done_msg in DD. rewrite VM in DD. destruct (data_received tr); discriminate. }
    cbn [kof k_L]. rewrite VS. split; [auto|]. destruct (data_received tr) eqn:ED; [congruence|]. rewrite <- ED in *. rewrite ZL, Z.eqb_refl. reflexivity.
  - right. right. destruct OC as (ps&s&v0&s'&FD&DN&R). pose proof (fed_stream _ _ _ _ _ FD) as CP. rewrite <- (end_stream _ _ _ _ _ _ _ R), VS in CP.
    assert (RM : zlen (data_received tr) < L).
    { destruct (C19_parser_reads_what_was_received _ _ _ _ _ _ _ _ _ _ _ _ _ _ _ HS F HR) as (_&->&_).
      destruct EN as (tr1&p&room&d0&tr2&X1&X2). destruct (C19_receive_stays_in_buffer fuel _ _ _ _ _ _ _ _ _ _ HS) as (o1&w1&tr0&Z1&Z2&OT&_). pose proof HR as (HR1&HR2). rewrite HR1 in Z1. cbn [wout] in Z1. injection Z1 as Z1 <-. rewrite HR2 in Z2. apply app_inv_head in Z2. subst tr0.
      destruct (OT _ _ _ _ _ _ X1) as (_&Y1&Y2&_). rewrite X1, received_app. cbn [received]. rewrite (recvs0_received _ X2). change (Z.max 0 0) with 0. lia. }
    destruct CASES as [(d'&E1)|(LT&x&NX&E1)].
    + right. split; [auto|].
      destruct (rd_end P RH nb (cut resp d') ps s v0 v e s' (HOC d') FD R) as (X&_). destruct (X d' eq_refl) as (PE&VM&SY); [rewrite HD; congruence|].
      assert (V2 : v_stream v = http_bytes (cut resp d')) by (rewrite VS, E1; reflexivity).
      rewrite PE, VM. split; [reflexivity|]. exists d'. split; [auto|]. eapply gives_of; eauto.
      left. rewrite ST. unfold final_status. cbn [errno_of]. fold v. rewrite PE, VM. discriminate.
    + left. split; [auto|]. split; [auto|].
      destruct (end_part P nb (cut resp []) RH (HOC []) ps s v0 v e s' x FD R) as (PE&VM); [rewrite HD, app_nil_r; congruence|auto|intros q _; rewrite <- CP; exact LT|].
      rewrite PE, VM, <- CP. destruct (data_received tr) eqn:ED; [reflexivity|]. rewrite <- ED in *.
      replace (zlen (v_stream v) =? k_L (kof r buf L req (w_mem w))) with false; [reflexivity|]. cbn [kof k_L]. rewrite VS. lia.
Qed.
Print Assumptions C43_any_parser_until_close.

(** In particular the library asks the transport for nothing after the last piece of the response. *)
Theorem C43_any_parser_every_fragmentation : forall fuel cfg E P t r rh buf L req w resp ps,
  reads_http P -> recv_setup cfg E P t r rh buf L req w -> recv_faithful E -> no_parse_body r = false ->
  http_ok (beqb (slice req 0 4) (B "HEAD")) resp -> (forall d, p_body resp <> ToClose d) -> zlen (http_bytes resp) <= L ->
  concat ps = http_bytes resp -> feeds E (w_nr w) ps -> prompt cfg E (r_time r) (w_nt w) ps -> (length ps < fuel)%nat ->
  exists r' w' tr, receives fuel cfg E P t r rh w HTTPSuccess r' w' tr /\
    data_received tr = http_bytes resp /\ recvs tr <= Z.of_nat (length ps) /\ gives cfg buf L resp r r' w' tr.
Proof.
  intros fuel cfg E P t r rh buf L req w resp ps RH HS F ND HO NT LE CC FE PR FU.
  set (nb := beqb _ _) in *.
  assert (MC : match p_body resp with ToClose _ => MsgBegun | _ => MsgComplete end = MsgComplete) by (destruct (p_body resp); auto; destruct (NT d eq_refl)).
  destruct (Receive_run fuel _ _ _ _ _ _ _ _ _ _ HS) as (tr&o&v'&RR&HX). set (k := kof r buf L req (w_mem w)) in *. set (t0 := clk E (r_time r) (w_nt w)) in *.
  assert (FO : follows nb P (tick (r_time r) t0 ++ tr)).
  { destruct o.
    - destruct HX as (w'&H1&H2&_). eapply (more_follow fuel); eauto.
    - destruct HX as (r'&s1&H1&H2&_). eapply (receives_follow fuel); eauto. split; eauto.
    - destruct HX as (r'&s1&H1&H2&_). eapply (receives_follow fuel); eauto. split; eauto.
    - destruct HX as (r'&s1&H1&H2&_). eapply (receives_follow fuel); eauto. split; eauto. }
  assert (PT : pst nb P (tick (r_time r) t0) = p_init P) by apply (pst_tick nb P []).
  pose proof (rrun_fed cfg E k (w_nr w) (w_nt w) ps FE PR F _ _ _ _ _ _ _ RR 0%nat 0%nat) as FD.
  destruct FD as [(tr1&tr2&v1&E1&E2&E3)|(X1&X2&X3)].
  - lia.
  - cbn [kof k_tf] in *. intros TU. unfold t0. change (k_tf k) with (r_time r) in TU. rewrite TU. cbn [clk clk_next]. split; [lia|]. do 2 f_equal. lia.
  - lia.
  - intros; lia.
  - cbn [view0 v_stream skipn]. change (zlen (@nil Z)) with 0. rewrite CC. exact LE.
  - exfalso. cbn [skipn] in E3. rewrite CC in E3. rewrite E1, app_assoc in FO. apply follows_prefix in FO.
    pose proof (rrun_data _ _ _ _ _ _ _ _ _ _ F E2) as RD. cbn [view0 v_stream app] in RD.
    assert (OC : aoutcome P nb (k_L k) OMore v1).
    { apply (rrun_any P nb (http_bytes resp) (goes_resp P nb resp RH HO) _ _ _ _ _ _ _ _ _ _ F E2 (tick (r_time r) t0) []).
      + exact FO.
      + apply (view_tick _ _ view0).
      + rewrite PT. constructor.
      + reflexivity.
      + rewrite E3. apply prefix_refl. }
    destruct OC as (qs&s&FD&DN). destruct (rd_whole P RH nb resp qs s v1 HO FD) as (_&X); [rewrite <- (fed_stream _ _ _ _ _ FD), RD; exact E3|]. unfold done_msg in DN. rewrite X, MC in DN. discriminate.
  - cbn [skipn] in X1. rewrite CC in X1.
    assert (DR : data_received (tick (r_time r) t0 ++ tr) = data_received tr) by (rewrite data_received_app, data_received_norecv by apply tick_norecv; reflexivity).
    destruct o as [| |e|e]; [exfalso; destruct HX as (w'&_&_&RC&_); rewrite RC in X3; apply Nat2Z.inj_lt in FU; change (Z.of_nat 0) with 0 in X3; rewrite Z.sub_0_r in X3; exact (Zlt_not_le _ _ FU X3)|tauto| |tauto].
    destruct HX as (r'&s1&H1&H2&_).
    assert (HR : receives fuel cfg E P t r rh w (final_status k (OStop e) v') r' (s_w s1) (tick (r_time r) t0 ++ tr)) by (split; auto).
    assert (PX : exists rest, http_bytes resp = data_received (tick (r_time r) t0 ++ tr) ++ rest) by (rewrite DR; exact X1).
    destruct (C43_any_parser_well_formed_response fuel _ _ _ _ _ _ _ _ _ _ _ _ _ _ _ RH HS F ND HR HO NT LE PX) as [(D1&D2&D3)|(D1&D2)].
    + rewrite D2 in HR. exists r', (s_w s1), (tick (r_time r) t0 ++ tr). split; [exact HR|]. split; [exact D1|]. split; [|exact D3].
      rewrite recvs_tick_app. change (Z.of_nat 0) with 0 in X3. rewrite Z.sub_0_r in X3. exact X3.
    + exfalso. pose proof (rrun_data _ _ _ _ _ _ _ _ _ _ F RR) as RD. cbn [view0 v_stream app] in RD.
      assert (OC : aoutcome P nb (k_L k) (OStop e) v').
      { apply (rrun_any P nb (http_bytes resp) (goes_resp P nb resp RH HO) _ _ _ _ _ _ _ _ _ _ F RR (tick (r_time r) t0) []).
        + exact FO.
        + apply (view_tick _ _ view0).
        + rewrite PT. constructor.
        + reflexivity.
        + exact X1. }
      destruct OC as (_&qs&s&FD&DD&NE). pose proof (fed_stream _ _ _ _ _ FD) as CP. rewrite RD in CP. rewrite DR in D1. destruct X1 as (rest&X1). rewrite X1, zlen_app in D1, LE.
      destruct rest as [|c rest]; [change (zlen (@nil Z)) with 0 in D1; lia|].
      change (k_L k) with L in DD. rewrite RD in DD, NE.
      destruct DD as [DD|DD]; [|lia]. unfold done_msg in DD.
      rewrite (part_msg P nb resp RH HO qs s v' (c :: rest) FD ltac:(rewrite <- CP; exact X1) ltac:(discriminate)) in DD. destruct (concat qs); discriminate.
Qed.
Print Assumptions C43_any_parser_every_fragmentation.
