(** PropsHttp.v — end-to-end properties, with the reference parser: what the library returns for a well-formed response. *)
From Verif Require Import Base Lib ModelRequest ModelSend ModelResponse SpecRequest SpecSend SpecResponse ProofsRequest ProofsSend ProofsSend2
  ProofsResponse ProofsResponse2 ProofsResponse3 ProofsResponse4 ProofsResponse5 RefParser RefRun SpecHttp SpecParser HttpRun ProofsFollow ProofsEnd Demo DemoResponse
  PropsResponse.

(** ** What is returned *)
Lemma clen_range hs o : content_length hs o -> 0 <= match o with Some x => x | None => 0 end < UINT64_MAX.
Proof.
  induction 1 as [|h hs o N C IH|h hs E (V1&V2&V3) C IH]; [unfold UINT64_MAX; lia|auto|].
  pose proof (decval_range (h_value h) (digits_all _ V2)) as X. change (decval (h_value h)) with (dec_value (h_value h)) in X.
  assert (10 ^ zlen (h_value h) <= 10 ^ 19) by (apply Z.pow_le_mono_r; unfold zlen; lia). unfold UINT64_MAX. lia.
Qed.
Lemma flag_iff hs n v f : (forall h, f h = ieq (h_name h) n && ieq (h_value h) v) -> (existsb f hs = true <-> has_header hs n v).
Proof.
  intros F. unfold has_header. rewrite existsb_exists. split; intros (h&H1&H2); exists h; (split; [auto|]).
  - rewrite F in H2. apply andb_true_iff in H2. destruct H2 as (A&B). split; apply ieq_ci; auto.
  - rewrite F. destruct H2 as (A&B). apply andb_true_iff. split; apply ieq_ci; auto.
Qed.

Lemma rrun_stalled E T k last nr nt v tr o v' : rrun E T k last nr nt v tr o v' -> forall e, o = OStall e ->
  exists tr1 p room d tr2, tr = tr1 ++ TRecv p room 0 d :: tr2 /\ recvs tr2 = 0.
Proof.
  induction 1 as [|last nr nt v n d H1 H2|last nr nt v n d b e blk tr o v' H1 H2 H3 H4 H5 H6 H7 H8 IH|last nr nt v n d b e blk H1 H2 H3 H4 H5 H6 H7|last nr nt v d e blk H1 H2 H3|last nr nt v d tr o v' H1 H2 H3 IH];
    intros e0 EO; try discriminate.
  - destruct (IH _ EO) as (x&p&room&d1&y&->&Y). do 5 eexists. split; [|exact Y]. rewrite 2 app_assoc, app_comm_cons. reflexivity.
  - exists [], (poff (k_buf k) (zlen (v_stream v))), (k_L k - zlen (v_stream v)), d. eexists. split; [reflexivity|]. rewrite recvs_tick_app. apply recvs_norecv. eapply blk_norecv; eauto.
  - destruct (IH _ EO) as (x&p&room&d1&y&->&Y). do 5 eexists. split; [|exact Y]. rewrite app_assoc, app_comm_cons. reflexivity.
Qed.

(** ** The call *)
Lemma receives_http fuel cfg E t r rh buf L req w st r' w' tr D : let nb := beqb (slice req 0 4) (B "HEAD") in
  recv_setup cfg E refparser t r rh buf L req w -> recv_faithful E -> no_parse_body r = false ->
  receives fuel cfg E refparser t r rh w st r' w' tr -> okrun nb rinit D -> prefix_of (data_received tr) D ->
  exists o, o <> OMore /\ st = final_status (kof r buf L req (w_mem w)) o (view_of tr) /\ outcome nb L o (view_of tr) /\
    v_stream (view_of tr) = data_received tr /\ zlen (data_received tr) <= L /\
    match o with OFail => recv_failed tr | OStall _ => last_recv tr 0 | _ => True end.
Proof.
  intros nb HS F ND HR OK PR. pose proof (receives_follow _ _ _ _ _ _ _ _ _ _ _ _ _ _ _ HS ND HR) as FO. fold nb in FO.
  destruct (receives_inv _ _ _ _ _ _ _ _ _ _ _ _ _ _ _ HS HR) as (trl&o&s'&ph&G&TR&RR&NM&ST&HW&_&I&_).
  set (t0 := clk E (r_time r) (w_nt w)) in *.
  assert (DR : data_received tr = data_received trl) by (rewrite TR, data_received_app, (data_received_norecv (tick _ _)) by apply tick_norecv; reflexivity).
  pose proof (rrun_data _ _ _ _ _ _ _ _ _ _ F RR) as RD. cbn [view0 v_stream app] in RD. rewrite <- DR in RD.
  exists o. split; [auto|]. split; [auto|]. split; [|split; [auto|split]].
  - change L with (k_L (kof r buf L req (w_mem w))).
    apply (rrun_http _ _ _ nb D _ _ _ _ _ _ _ F RR OK (tick (r_time r) t0)).
    + rewrite <- TR. exact FO.
    + apply (view_tick _ _ view0).
    + apply (pst_tick nb rp []).
    + split; [split; [split; [reflexivity|]|]; cbn; [left; repeat split|discriminate]|reflexivity].
    + reflexivity.
    + rewrite <- DR. exact PR.
  - rewrite <- RD. pose proof (i_pos _ _ _ _ _ _ _ _ I) as X. cbn [kof k_L] in X. lia.
  - pose proof (rrun_end _ _ _ _ _ _ _ _ _ _ RR) as X. destruct o; auto.
    + destruct X as (x&p&room&n&d&X&Y). exists (tick (r_time r) t0 ++ x), p, room, n, d. rewrite TR, X, app_assoc. auto.
    + destruct (rrun_stalled _ _ _ _ _ _ _ _ _ _ RR _ eq_refl) as (x&p&room&d&y&X1&X2). exists (tick (r_time r) t0 ++ x), p, room, d, y. rewrite TR, X1, app_assoc. auto.
Qed.

Lemma whole_view nb resp v : http_ok nb resp -> v_stream v = http_bytes resp -> stands nb v ->
  says resp v /\ v_msg v = match p_body resp with ToClose _ => MsgBegun | _ => MsgComplete end.
Proof.
  intros HO VS ST. destruct (http_runs nb resp HO) as (s'&(OK&SR)&AE&Q1&Q2&Q3&Q4&Q5&Q6&Q7).
  unfold stands in ST. rewrite VS, SR in ST. destruct ST as (((AD&R)&P)&HF).
  assert (NN : http_bytes resp <> []) by (unfold http_bytes, head_bytes, status_bytes; discriminate).
  assert (X : v_msg v = match p_body resp with ToClose _ => MsgBegun | _ => MsgComplete end /\ v_code v = q_code s' /\ settled v (q_hdrs s') /\
    past_headers s' v /\ v_body v = q_body s' /\ (q_tr s' = true -> (v_name v = None <-> q_name s' = []))).
  { unfold at_end in AE. unfold pend in P. destruct (p_body resp); rewrite AE in R, P.
    4:{ destruct R as (R1&R2&R3&R4&R5&R6). rewrite unrep_nil, app_nil_r in R6. repeat (split; [solve [auto]|]). congruence. }
    all: destruct R as [(->&_)|(_&R2&R3&R4&R5&R6)]; [exfalso; apply (okrun_code nb _ OK NN); rewrite SR; reflexivity|auto 10]. }
  clear R P. destruct X as (R2&R3&R4&R5&R6&P).
  destruct R5 as (S1&S2&S3&S4&S5). destruct R4 as (T1&T2&T3).
  assert (HH : v_headers v = reported resp).
  { unfold reported. rewrite <- Q2. destruct (v_name v) as [nm|] eqn:EN.
    - destruct (trailers (p_body resp)) eqn:TB.
      + exfalso. destruct (proj2 Q7 eq_refl) as [X|X]; [specialize (S5 X); congruence|].
        destruct (q_tr s'); [|specialize (S5 eq_refl); congruence]. pose proof (proj2 (P eq_refl) X). congruence.
      + unfold finish in T1, T2. rewrite EN in T1, T2. destruct (v_value v) as [x|]; [|rewrite EN in T2; discriminate]. cbn in T1. rewrite <- T1. symmetry. apply removelast_last.
    - destruct (trailers (p_body resp)) eqn:TB; [unfold finish in T1; rewrite EN in T1; auto|].
      exfalso. assert (X : q_tr s' = false \/ q_name s' = []); [|apply Q7 in X; discriminate].
      destruct (q_tr s'); [|auto]. right. apply (P eq_refl). auto. }
  destruct HO as (HO&_). pose proof (hfind_head nb resp (body_bytes (p_body resp)) HO) as HH1. destruct HO as (_&_&_&_&_&_&o&CL). pose proof (content_length_f _ _ CL) as (CE&_).
  split; [|auto]. constructor; auto; try congruence.
  - unfold h1_ok in HF. rewrite HF, VS. exact HH1.
  - exists o. split; [auto|]. rewrite S2. unfold clen_field. rewrite Q4, <- CE. reflexivity.
  - rewrite S3, Q5. apply flag_iff. reflexivity.
  - rewrite S4, Q6. apply flag_iff. reflexivity.
Qed.
Lemma slice_pre (l : bytes) o h n : 0 <= h <= n -> slice l o h = slice (slice l o n) 0 h.
Proof. intros H. unfold slice. cbn [skipn Z.to_nat]. rewrite firstn_firstn. f_equal. lia. Qed.
Lemma gives_of fuel cfg E P t r rh buf L req w st r' w' tr resp :
  recv_setup cfg E P t r rh buf L req w -> recv_faithful E -> no_parse_body r = false ->
  receives fuel cfg E P t r rh w st r' w' tr -> answered st tr -> v_stream (view_of tr) = http_bytes resp -> says resp (view_of tr) -> gives cfg buf L resp r r' w' tr.
Proof.
  intros HS F ND HR AN VS [Y1 Y2 Y3 Y4 Y5 YH Y6 Y7 Y8].
  destruct (outputs _ _ _ _ _ _ _ _ _ _ _ _ _ _ _ HS HR AN) as ((O1&O2&O3&O4&O5)&_&O6&_). set (v := view_of tr) in *.
  specialize (O6 Y5). destruct O6 as (O6&O7).
  pose proof (C27_body _ _ _ _ _ _ _ _ _ _ _ _ _ _ _ HS HR AN ND) as BD. fold v in BD. cbn zeta in BD.
  destruct (C19_parser_reads_what_was_received _ _ _ _ _ _ _ _ _ _ _ _ _ _ _ HS F HR) as (RV&RW&RL). fold v in RV.
  constructor; auto; try congruence.
  - intros CB. rewrite <- Y3. apply (C24_headers_delivered _ _ _ _ _ _ _ _ _ _ _ _ _ _ _ HS HR CB Y1 AN).
  - exists (v_clen v). split; [auto|]. rewrite O7. unfold ProofsResponse.clen_of. destruct Y6 as (o&CL&VE). pose proof (clen_range _ _ CL).
    replace (v_clen v =? UINT64_MAX) with false by (rewrite VE; lia). reflexivity.
  - assert (HL : 0 <= zlen (head_bytes resp) <= zlen (http_bytes resp)) by (unfold http_bytes; rewrite zlen_app; pose proof (zlen_nonneg (body_bytes (p_body resp))); pose proof (zlen_nonneg (head_bytes resp)); lia).
    assert (HP : slice (http_bytes resp) 0 (zlen (head_bytes resp)) = head_bytes resp) by (unfold http_bytes; rewrite slice_of_app_l by lia; apply slice_all).
    unfold bytes_at in BD |- *. destruct (v_bstart v) as [bo|].
    + destruct BD as (_&_&_&B4&B5&B6&p&B7&B8). rewrite YH in B7. injection B7 as <-. rewrite (slice_pre _ _ _ bo) by lia. rewrite B6, VS. rewrite <- (slice_pre _ _ _ bo) by lia. exact HP.
    + destruct BD as (_&_&_&B6). rewrite (slice_pre _ _ _ (received tr)) by (rewrite <- RW, <- RV, VS; lia). rewrite B6, VS. exact HP.
  - rewrite O3, <- Y7. destruct (v_close v), (v_ka v); cbn; tauto.
  - rewrite O3, <- Y8. destruct (v_close v), (v_ka v); cbn; tauto.
  - destruct (v_bstart v); destruct BD as (_&->&BD); [congruence|]. destruct BD as (BD&_). rewrite <- Y4, BD. reflexivity.
  - intros p Hp. destruct (v_bstart v) as [bo|]; destruct BD as (B1&B2&B3&B4); [|congruence].
    rewrite Hp in B1. injection B1 as ->. rewrite B2. destruct B4 as (B4&B5&_). split; [exists bo; pose proof (zlen_nonneg (v_body v)); repeat (split; [auto; lia|]); lia|]. congruence.
  - intros Hp. destruct (v_bstart v) as [bo|]; destruct BD as (B1&B2&B3&B4); congruence.
Qed.
Lemma nonempty_http resp : http_bytes resp <> [].
Proof. unfold http_bytes, head_bytes, status_bytes. discriminate. Qed.
(** How far the message is, after a proper prefix. *)
Lemma prefix_msg nb d rest v : okrun nb rinit (d ++ rest) -> rest <> [] -> v_stream v = d -> stands nb v ->
  v_msg v = match d with [] => MsgNone | _ => MsgBegun end.
Proof.
  intros OK NR VS (((_&SV)&_)&_). rewrite VS in SV. destruct d as [|x d].
  - cbn in SV. destruct SV as [(_&SV&_)|(SV&_)]; [auto|congruence].
  - pose proof (okrun_start nb _ _ OK ltac:(discriminate) NR) as NS.
    apply okrun_app in OK. destruct OK as (OK&_). destruct (okrun_live _ _ OK) as (L1&L2).
    destruct (q_st (srun nb rinit (x :: d))) eqn:QQ; try (destruct SV as (SV&_); exact SV); [congruence|contradiction].
Qed.
Lemma eof_stays nb l : forall q, q_st q = BodyEof -> q_st (srun nb q l) = BodyEof /\ q_body (srun nb q l) = q_body q ++ l.
Proof.
  induction l as [|c l IH]; intros q Q; [rewrite app_nil_r; auto|]. cbn [srun fold_left].
  assert (S1 : step1 nb q c = add_body q c) by (unfold step1, step; rewrite Q; cbn; rewrite Q; reflexivity).
  rewrite S1. destruct (IH (add_body q c) Q) as (A&B). split; [exact A|]. unfold srun in B. rewrite B. cbn. rewrite <- app_assoc. reflexivity.
Qed.

(** ** C43 *)
(** The response [resp] is being received: the transport has delivered nothing but a prefix of it. *)
Theorem C43_well_formed_response : forall fuel cfg E t r rh buf L req w st r' w' tr resp,
  recv_setup cfg E refparser t r rh buf L req w -> recv_faithful E -> no_parse_body r = false ->
  receives fuel cfg E refparser t r rh w st r' w' tr ->
  http_ok (beqb (slice req 0 4) (B "HEAD")) resp -> (forall d, p_body resp <> ToClose d) -> zlen (http_bytes resp) <= L ->
  (exists rest, http_bytes resp = data_received tr ++ rest) ->
  (data_received tr = http_bytes resp /\ st = HTTPSuccess /\ gives cfg buf L resp r r' w' tr) \/
  (zlen (data_received tr) < zlen (http_bytes resp) /\
   (recv_failed tr /\ st = HTTPNetworkError \/
    last_recv tr 0 /\ st = (match data_received tr with [] => HTTPNoResponse | _ => HTTPPartialResponse end))).
Proof.
  intros fuel cfg E t r rh buf L req w st r' w' tr resp HS F ND HR HO NT LE PR.
  set (nb := beqb _ _) in *. destruct (http_runs nb resp HO) as (s'&(OK&SR)&AE&_).
  destruct (receives_http _ _ _ _ _ _ _ _ _ _ _ _ _ _ _ HS F ND HR OK PR) as (o&NM&ST&OC&VS&DL&EN). fold nb in OC.
  assert (QS : q_st s' = Start) by (unfold at_end in AE; destruct (p_body resp); auto; destruct (NT d eq_refl)).
  assert (NN : http_bytes resp <> []) by (unfold http_bytes, head_bytes, status_bytes; discriminate).
  set (v := view_of tr) in *. destruct PR as (rest&PR).
  assert (NBE : q_st (srun nb rinit (data_received tr)) <> BodyEof).
  { intros Q. rewrite PR, srun_app in SR. destruct (eof_stays nb rest _ Q) as (Q2&_). rewrite SR in Q2. congruence. }
  assert (DNP : dnp (kof r buf L req (w_mem w)) = false) by (unfold dnp, kof; cbn [k_opt]; rewrite dnp_bit; exact ND).
  assert (MC : match p_body resp with ToClose _ => MsgBegun | _ => MsgComplete end = MsgComplete) by (destruct (p_body resp); auto; destruct (NT d eq_refl)).
  (* nothing but the whole response is complete *)
  assert (PART : stands nb v -> done_msg v = false -> rest <> [] /\ zlen (data_received tr) < zlen (http_bytes resp)).
  { intros SV DN. rewrite PR, zlen_app. destruct rest as [|x rest]; [|rewrite zlen_cons; pose proof (zlen_nonneg rest); split; [discriminate|lia]].
    exfalso. rewrite app_nil_r in PR. rewrite <- PR in VS.
    destruct (whole_view nb resp v HO VS SV) as (_&X). unfold done_msg in DN. rewrite X, MC in DN. discriminate. }
  rewrite ST. unfold final_status. rewrite DNP. destruct o as [| |e|e]; [congruence| | |]; cbn [outcome errno_of] in *.
  - destruct OC as (SV&DN). right. split; [apply PART; auto|]. left. auto.
  - destruct OC as (->&SV&DD&NE). left.
    assert (WH : data_received tr = http_bytes resp).
    { destruct rest as [|x rest]; [rewrite app_nil_r in PR; auto|]. exfalso.
      pose proof (zlen_nonneg rest). rewrite PR, zlen_app, zlen_cons in LE. rewrite VS in DD, NE.
      destruct DD as [DD|DD]; [|lia]. rewrite PR in OK. unfold done_msg in DD.
      rewrite (prefix_msg nb _ _ v OK ltac:(discriminate) VS SV) in DD. destruct (data_received tr); discriminate. }
    rewrite WH in VS. destruct (whole_view nb resp v HO VS SV) as (W1&W2). rewrite MC in W2.
    split; [auto|]. cbn [parse_error]. rewrite W2. split; [reflexivity|].
    eapply gives_of; eauto. left. rewrite ST. unfold final_status. cbn [errno_of parse_error]. fold v. rewrite W2. discriminate.
  - destruct OC as (EE&[(_&SV&DN)|(BE&_)]).
    + destruct (PART SV DN) as (NR&LT). right. split; [auto|]. right. split; [auto|].
      assert (PE : parse_error e = None) by (destruct EE as [-> | ->]; reflexivity). rewrite PE. rewrite PR in OK. rewrite (prefix_msg nb _ _ v OK NR VS SV).
      destruct (data_received tr) eqn:ED; [reflexivity|]. rewrite <- ED in *.
      replace (zlen (v_stream v) =? k_L (kof r buf L req (w_mem w))) with false; [reflexivity|]. cbn [kof k_L]. rewrite VS. lia.
    + rewrite VS in BE. destruct (NBE BE).
Qed.

Lemma recvs0_received tr : recvs tr = 0 -> received tr = 0.
Proof.
  assert (P : forall l, 0 <= recvs l) by (induction l as [|[] l IH]; cbn [recvs]; lia).
  induction tr as [|x tr IH]; [reflexivity|]. pose proof (P tr). destruct x; cbn [recvs received]; intros; try lia; auto.
Qed.
Theorem C43_until_close : forall fuel cfg E t r rh buf L req w st r' w' tr resp d,
  recv_setup cfg E refparser t r rh buf L req w -> recv_faithful E -> no_parse_body r = false ->
  receives fuel cfg E refparser t r rh w st r' w' tr ->
  http_ok (beqb (slice req 0 4) (B "HEAD")) resp -> p_body resp = ToClose d ->
  (exists rest, http_bytes resp = data_received tr ++ rest) ->
  (recv_failed tr /\ st = HTTPNetworkError) \/
  (zlen (data_received tr) = L /\ st = HTTPInsufficientMemory) \/
  (last_recv tr 0 /\ zlen (data_received tr) < zlen (head_bytes resp) /\
   st = (match data_received tr with [] => HTTPNoResponse | _ => HTTPPartialResponse end)) \/
  (last_recv tr 0 /\ st = HTTPSuccess /\
   exists d', data_received tr = head_bytes resp ++ d' /\ gives cfg buf L (cut resp d') r r' w' tr).
Proof.
  intros fuel cfg E t r rh buf L req w st r' w' tr resp d HS F ND HR HO HB PR.
  set (nb := beqb _ _) in *. destruct (http_runs nb resp HO) as (s'&(OK&SR)&AE&_). rewrite HB in AE. cbn [at_end] in AE.
  destruct (receives_http _ _ _ _ _ _ _ _ _ _ _ _ _ _ _ HS F ND HR OK PR) as (o&NM&ST&OC&VS&DL&EN). fold nb in OC.
  destruct PR as (rest&PR). set (v := view_of tr) in *.
  (* what has been received is a response itself, or not yet a whole header section *)
  assert (HOC : forall d', http_ok nb (cut resp d')).
  { intros d'. destruct HO as (H1&H2). split; [exact H1|]. rewrite HB in H2. exact H2. }
  assert (HD : forall d', http_bytes (cut resp d') = head_bytes resp ++ d') by reflexivity.
  assert (CASES : (exists d', data_received tr = head_bytes resp ++ d') \/ zlen (data_received tr) < zlen (head_bytes resp) /\ exists x, x <> [] /\ head_bytes resp = data_received tr ++ x).
  { pose proof (HD d) as X. replace (cut resp d) with resp in X by (destruct resp; cbn in *; unfold cut; cbn; congruence). rewrite X in PR.
    apply app_eq_app in PR. destruct PR as (l&[(H1&H2)|(H1&H2)]).
    - destruct l as [|c l]; [left; exists []; rewrite app_nil_r in *; auto|]. right. split; [|exists (c :: l); split; [discriminate|auto]].
      rewrite H1, zlen_app, zlen_cons. pose proof (zlen_nonneg l). lia.
    - left. eauto. }
  assert (NDONE : stands nb v -> v_msg v = match data_received tr with [] => MsgNone | _ => MsgBegun end).
  { intros SV. destruct CASES as [(d'&E1)|(LT&x&NX&E1)].
    - rewrite E1, <- HD in VS. destruct (whole_view nb _ v (HOC d') VS SV) as (_&W). cbn [cut p_body] in W. rewrite W, E1. unfold head_bytes, status_bytes. reflexivity.
    - apply (prefix_msg nb (data_received tr) x); auto. rewrite <- E1.
      destruct (http_runs nb _ (HOC [])) as (?&(OK2&_)&_). rewrite HD, app_nil_r in OK2. exact OK2. }
  assert (DNP : dnp (kof r buf L req (w_mem w)) = false) by (unfold dnp, kof; cbn [k_opt]; rewrite dnp_bit; exact ND).
  rewrite ST. unfold final_status. rewrite DNP. destruct o as [| |e|e]; [congruence| | |]; cbn [outcome errno_of] in *.
  - left. auto.
  - right. left. destruct OC as (->&SV&DD&NE). cbn [parse_error]. rewrite (NDONE SV). rewrite VS in NE.
    assert (ZL : zlen (v_stream v) = L).
    { destruct DD as [DD|DD]; [|auto]. unfold done_msg in DD. rewrite (NDONE SV) in DD. destruct (data_received tr); discriminate. }
    cbn [kof k_L]. rewrite ZL, Z.eqb_refl. rewrite <- VS at 1. split; [auto|]. destruct (data_received tr); [congruence|reflexivity].
  - right. right. destruct OC as (EE&OC).
    assert (PE : parse_error e = None) by (destruct EE as [-> | ->]; reflexivity). rewrite PE.
    assert (RM : zlen (data_received tr) < L).
    { destruct (C19_parser_reads_what_was_received _ _ _ _ _ _ _ _ _ _ _ _ _ _ _ HS F HR) as (_&->&_).
      destruct EN as (tr1&p&room&d0&tr2&X1&X2). destruct (C19_receive_stays_in_buffer fuel _ _ _ _ _ _ _ _ _ _ HS) as (o1&w1&tr0&Z1&Z2&OT&_). pose proof HR as (HR1&HR2). rewrite HR1 in Z1. cbn [wout] in Z1. injection Z1 as Z1 <-. rewrite HR2 in Z2. apply app_inv_head in Z2. subst tr0.
      destruct (OT _ _ _ _ _ _ X1) as (_&Y1&Y2&_). rewrite X1, received_app. cbn [received]. rewrite (recvs0_received _ X2). change (Z.max 0 0) with 0. lia. }
    destruct OC as [(NB&SV&DN)|(BE&v0&SV&V0&VE)].
    + left. split; [auto|]. destruct CASES as [(d'&E1)|(LT&x&NX&E1)].
      { exfalso. rewrite VS, E1, <- HD in NB. destruct (http_runs nb _ (HOC d')) as (?&(_&SR2)&AE2&_). rewrite SR2 in NB. exact (NB AE2). }
      split; [auto|]. rewrite (NDONE SV). destruct (data_received tr); [reflexivity|].
      replace (zlen (v_stream v) =? k_L (kof r buf L req (w_mem w))) with false; [reflexivity|]. cbn [kof k_L]. rewrite VS. lia.
    + right. split; [auto|]. destruct CASES as [(d'&E1)|(LT&x&NX&E1)].
      2:{ exfalso. rewrite VS in BE. destruct (http_runs nb _ (HOC [])) as (s2&(OK2&SR2)&_&_&_&QB&_). rewrite HD, app_nil_r, E1, srun_app in SR2.
          destruct (eof_stays nb x _ BE) as (_&QX). rewrite SR2, QB in QX. cbn [cut p_body content] in QX. symmetry in QX. apply app_eq_nil in QX. destruct QX; auto. }
      rewrite VS, E1, <- HD in V0.
      destruct (whole_view nb _ v0 (HOC d') ltac:(congruence) SV) as (W&_).
      assert (SY : says (cut resp d') v) by (rewrite VE; destruct W; constructor; auto).
      assert (VM : v_msg v = MsgComplete) by (rewrite VE; reflexivity).
      assert (V2 : v_stream v = http_bytes (cut resp d')) by (rewrite VS, E1; reflexivity).
      rewrite VM. split; [reflexivity|]. exists d'. split; [auto|]. eapply gives_of; eauto.
      left. rewrite ST. unfold final_status. cbn [errno_of]. fold v. rewrite PE, VM. discriminate.
Qed.

(** ** Every fragmentation *)
Lemma skipn_nth (ps : list bytes) i : (i < length ps)%nat -> concat (skipn i ps) = nth i ps [] ++ concat (skipn (S i) ps).
Proof.
  revert i. induction ps as [|p ps IH]; intros i H; [cbn in H; lia|]. destruct i; [reflexivity|]. cbn in H. cbn [skipn nth]. rewrite IH by lia. reflexivity.
Qed.
Lemma u32_sub a b : u32 (u32 a - u32 b) = u32 (a - b).
Proof. unfold u32. rewrite Zminus_mod_idemp_l, Zminus_mod_idemp_r. reflexivity. Qed.
Lemma rrun_fed cfg E k n0 nt0 ps : feeds E n0 ps -> prompt cfg E (k_tf k) nt0 ps -> recv_faithful E ->
  forall last nr nt v tr o v', rrun E (recv_timeout cfg (k_tf k)) k last nr nt v tr o v' ->
  forall i i0, nr = (n0 + i)%nat -> (k_tf k = TUser -> nt = (nt0 + 1 + i)%nat /\ last = u32 (e_time E (nt0 + i0)%nat)) -> (i0 <= i)%nat -> (forall m, (i0 <= m < i)%nat -> nth m ps [] = []) ->
  zlen (v_stream v) + zlen (concat (skipn i ps)) <= k_L k ->
  (exists tr1 tr2 v1, tr = tr1 ++ tr2 /\ rrun E (recv_timeout cfg (k_tf k)) k last nr nt v tr1 OMore v1 /\ data_received tr1 = concat (skipn i ps)) \/
  (prefix_of (data_received tr) (concat (skipn i ps)) /\ match o with OFail | OStall _ => False | _ => True end /\ recvs tr <= Z.of_nat (length ps) - Z.of_nat i).
Proof.
  intros FE PR F last nr nt v tr o v' H.
  induction H as [last nr nt v|last nr nt v n d H1 H2|last nr nt v n d b e blk tr o v' H1 H2 H3 H4 H5 H6 H7 H8 IH|last nr nt v n d b e blk H1 H2 H3 H4 H5 H6 H7|last nr nt v d e blk H1 H2 H3|last nr nt v d tr o v' H1 H2 H3 IH];
    intros i i0 NR NT I0 EM SZE;
    (destruct (Nat.lt_ge_cases i (length ps)) as [LI|LI];
     [|left; exists []; eexists; exists v; split; [reflexivity|]; split; [constructor|]; rewrite skipn_all2 by lia; reflexivity]).
  all: rewrite (skipn_nth ps i LI), zlen_app in *; set (p := nth i ps []) in *; pose proof (zlen_nonneg p) as Z1; pose proof (zlen_nonneg (concat (skipn (S i) ps))) as Z2.
  all: try (pose proof (FE i (k_L k - zlen (v_stream v)) LI ltac:(fold p; lia)) as H0; fold p in H0; rewrite <- NR, H1 in H0; injection H0 as H0 H0').
  - right. split; [eexists; reflexivity|]. split; [exact Logic.I|]. cbn [recvs]. lia.
  - lia.
  - assert (b = p) by (rewrite <- H0'; apply H4; congruence). subst b d. rewrite (pblock_stream _ _ _ _ _ _ H6), zlen_app in IH.
    destruct (IH (S i) (S i)) as [(tr1&tr2&v1&E1&E2&E3)|(X1&X2&X3)].
    + lia.
    + intros TU. destruct (NT TU) as (A&B). rewrite TU. cbn [clk clk_next]. split; [lia|]. do 2 f_equal. lia.
    + lia.
    + intros; lia.
    + lia.
    + left. eexists (TRecv _ _ n p :: tick (k_tf k) (clk E (k_tf k) nt) ++ blk ++ tr1), tr2, v1.
      split; [|split].
      2:{ eapply rr_data; eauto. }
      * rewrite E1. cbn [app]. rewrite <- !app_assoc. reflexivity.
      * cbn [data_received]. replace (0 <? n) with true by lia. rewrite data_received_app, data_received_norecv by apply tick_norecv. rewrite data_received_app, (data_received_norecv blk) by (eapply blk_norecv; eauto). rewrite E3. reflexivity.
    + right. split; [|split; [auto|]].
      * cbn [data_received]. replace (0 <? n) with true by lia. rewrite data_received_app, data_received_norecv by apply tick_norecv. rewrite data_received_app, (data_received_norecv blk) by (eapply blk_norecv; eauto).
        destruct X1 as (x&->). exists x. cbn [app]. rewrite app_assoc. reflexivity.
      * cbn [recvs]. rewrite recvs_tick_app, recvs_app, (recvs_norecv blk) by (eapply blk_norecv; eauto). lia.
  - right. subst d. split; [|split; [exact Logic.I|]].
    + cbn [data_received]. replace (0 <? n) with true by lia. rewrite data_received_app, data_received_norecv by apply tick_norecv. rewrite (data_received_norecv blk) by (eapply blk_norecv; eauto). rewrite app_nil_r. eexists; reflexivity.
    + cbn [recvs]. rewrite recvs_tick_app, (recvs_norecv blk) by (eapply blk_norecv; eauto). lia.
  - exfalso. assert (PE : p = []) by (apply zlen_zero; lia).
    destruct (PR i0 i) as (TU&LT); [lia| |].
    { intros m Hm. destruct (Nat.eq_dec m i) as [->|]; [exact PE|apply EM; lia]. }
    destruct (NT TU) as (A&B). rewrite TU in H2. cbn [clk recv_timeout] in H2. rewrite A, B, u32_sub in H2. rewrite elapsed_u32 in LT. lia.
  - assert (PE : p = []) by (apply zlen_zero; lia). rewrite PE in *. cbn [app] in *. change (zlen (@nil Z)) with 0 in *. subst d.
    destruct (IH (S i) i0) as [(tr1&tr2&v1&E1&E2&E3)|(X1&X2&X3)].
    + lia.
    + intros TU. destruct (NT TU) as (A&B). rewrite TU. cbn [clk_next]. split; [lia|auto].
    + lia.
    + intros m Hm. destruct (Nat.eq_dec m i) as [->|]; [exact PE|apply EM; lia].
    + lia.
    + left. eexists (TRecv _ _ 0 [] :: tick (k_tf k) (clk E (k_tf k) nt) ++ tr1), tr2, v1.
      split; [|split].
      2:{ eapply rr_wait; eauto. }
      * rewrite E1. cbn [app]. rewrite <- !app_assoc. reflexivity.
      * cbn [data_received]. change (0 <? 0) with false. rewrite data_received_app, data_received_norecv by apply tick_norecv. exact E3.
    + right. split; [|split; [auto|]].
      * cbn [data_received]. change (0 <? 0) with false. rewrite data_received_app, data_received_norecv by apply tick_norecv. exact X1.
      * cbn [recvs]. rewrite recvs_tick_app. lia.
Qed.

Lemma follows_prefix nb P A B : follows nb P (A ++ B) -> follows nb P A.
Proof. intros F X p b evs e C H IN. apply (F X p b evs e (C ++ B)); [|auto]. rewrite H, <- app_assoc. cbn [app]. rewrite <- app_assoc. reflexivity. Qed.
Lemma prefix_refl l : prefix_of l l.
Proof. exists []. rewrite app_nil_r. reflexivity. Qed.

(** However the transport cuts the response into pieces, and whatever it would do afterwards, the call returns it. *)
Theorem C43_every_fragmentation : forall fuel cfg E t r rh buf L req w resp ps,
  recv_setup cfg E refparser t r rh buf L req w -> recv_faithful E -> no_parse_body r = false ->
  http_ok (beqb (slice req 0 4) (B "HEAD")) resp -> (forall d, p_body resp <> ToClose d) -> zlen (http_bytes resp) <= L ->
  concat ps = http_bytes resp -> feeds E (w_nr w) ps -> prompt cfg E (r_time r) (w_nt w) ps -> (length ps < fuel)%nat ->
  exists r' w' tr, receives fuel cfg E refparser t r rh w HTTPSuccess r' w' tr /\
    data_received tr = http_bytes resp /\ gives cfg buf L resp r r' w' tr.
Proof.
  intros fuel cfg E t r rh buf L req w resp ps HS F ND HO NT LE CC FE PR FU.
  set (nb := beqb _ _) in *. destruct (http_runs nb resp HO) as (s'&(OK&SR)&AE&_).
  assert (MC : match p_body resp with ToClose _ => MsgBegun | _ => MsgComplete end = MsgComplete) by (destruct (p_body resp); auto; destruct (NT d eq_refl)).
  destruct (Receive_run fuel _ _ _ _ _ _ _ _ _ _ HS) as (tr&o&v'&RR&HX). set (k := kof r buf L req (w_mem w)) in *. set (t0 := clk E (r_time r) (w_nt w)) in *.
  assert (FO : follows nb refparser (tick (r_time r) t0 ++ tr)).
  { destruct o.
    - destruct HX as (w'&H1&H2&_). eapply (more_follow fuel); eauto.
    - destruct HX as (r'&s1&H1&H2&_). eapply (receives_follow fuel); eauto. split; eauto.
    - destruct HX as (r'&s1&H1&H2&_). eapply (receives_follow fuel); eauto. split; eauto.
    - destruct HX as (r'&s1&H1&H2&_). eapply (receives_follow fuel); eauto. split; eauto. }
  pose proof (rrun_fed cfg E k (w_nr w) (w_nt w) ps FE PR F _ _ _ _ _ _ _ RR 0%nat 0%nat) as FD.
  destruct FD as [(tr1&tr2&v1&E1&E2&E3)|(X1&X2&X3)].
  - lia.
  - cbn [kof k_tf] in *. intros TU. unfold t0. change (k_tf k) with (r_time r) in TU. rewrite TU. cbn [clk clk_next]. split; [lia|]. do 2 f_equal. lia.
  - lia.
  - intros; lia.
  - cbn [view0 v_stream skipn]. change (zlen (@nil Z)) with 0. rewrite CC. exact LE.
  - exfalso. cbn [skipn] in E3. rewrite CC in E3. rewrite E1, app_assoc in FO. apply follows_prefix in FO.
    pose proof (rrun_data _ _ _ _ _ _ _ _ _ _ F E2) as RD. cbn [view0 v_stream app] in RD.
    assert (OC : outcome nb (k_L k) OMore v1).
    { apply (rrun_http _ _ _ nb (http_bytes resp) _ _ _ _ _ _ _ F E2 OK (tick (r_time r) t0)).
      + exact FO.
      + apply (view_tick _ _ view0).
      + apply (pst_tick nb rp []).
      + split; [split; [split; [reflexivity|]|]; cbn; [left; repeat split|discriminate]|reflexivity].
      + reflexivity.
      + rewrite E3. apply prefix_refl. }
    destruct OC as (SV&DN). destruct (whole_view nb resp v1 HO ltac:(congruence) SV) as (_&X). unfold done_msg in DN. rewrite X, MC in DN. discriminate.
  - cbn [skipn] in X1. rewrite CC in X1.
    assert (DR : data_received (tick (r_time r) t0 ++ tr) = data_received tr) by (rewrite data_received_app, data_received_norecv by apply tick_norecv; reflexivity).
    destruct o as [| |e|e]; [exfalso; destruct HX as (w'&_&_&RC&_); rewrite RC in X3; apply Nat2Z.inj_lt in FU; change (Z.of_nat 0) with 0 in X3; rewrite Z.sub_0_r in X3; exact (Zlt_not_le _ _ FU X3)|tauto| |tauto].
    destruct HX as (r'&s1&H1&H2&_).
    assert (HR : receives fuel cfg E refparser t r rh w (final_status k (OStop e) v') r' (s_w s1) (tick (r_time r) t0 ++ tr)) by (split; auto).
    assert (PX : exists rest, http_bytes resp = data_received (tick (r_time r) t0 ++ tr) ++ rest) by (rewrite DR; exact X1).
    destruct (C43_well_formed_response fuel _ _ _ _ _ _ _ _ _ _ _ _ _ _ HS F ND HR HO NT LE PX) as [(D1&D2&D3)|(D1&D2)].
    + rewrite D2 in HR. eauto 10.
    + exfalso. pose proof (rrun_data _ _ _ _ _ _ _ _ _ _ F RR) as RD. cbn [view0 v_stream app] in RD.
      assert (OC : outcome nb (k_L k) (OStop e) v').
      { apply (rrun_http _ _ _ nb (http_bytes resp) _ _ _ _ _ _ _ F RR OK (tick (r_time r) t0)).
        + exact FO.
        + apply (view_tick _ _ view0).
        + apply (pst_tick nb rp []).
        + split; [split; [split; [reflexivity|]|]; cbn; [left; repeat split|discriminate]|reflexivity].
        + reflexivity.
        + exact X1. }
      destruct OC as (_&SV&DD&NE). rewrite DR in D1. destruct X1 as (rest&X1). rewrite X1, zlen_app in D1, LE.
      destruct rest as [|c rest]; [change (zlen (@nil Z)) with 0 in D1; lia|].
      rewrite X1 in OK. change (k_L k) with L in DD. rewrite RD in DD, NE.
      destruct DD as [DD|DD]; [|lia]. unfold done_msg in DD.
      rewrite (prefix_msg nb _ _ v' OK ltac:(discriminate) RD SV) in DD. destruct (data_received tr); discriminate.
Qed.

(** A response that does not fit: never HTTPSuccess. *)
Theorem C43_too_large : forall fuel cfg E t r rh buf L req w st r' w' tr resp,
  recv_setup cfg E refparser t r rh buf L req w -> recv_faithful E -> no_parse_body r = false ->
  receives fuel cfg E refparser t r rh w st r' w' tr ->
  http_ok (beqb (slice req 0 4) (B "HEAD")) resp -> (forall d, p_body resp <> ToClose d) -> L < zlen (http_bytes resp) ->
  (exists rest, http_bytes resp = data_received tr ++ rest) ->
  (recv_failed tr /\ st = HTTPNetworkError) \/
  (last_recv tr 0 /\ st = (match data_received tr with [] => HTTPNoResponse | _ => HTTPPartialResponse end)) \/
  (zlen (data_received tr) = L /\ st = HTTPInsufficientMemory).
Proof.
  intros fuel cfg E t r rh buf L req w st r' w' tr resp HS F ND HR HO NT LE PR.
  set (nb := beqb _ _) in *. destruct (http_runs nb resp HO) as (s'&(OK&SR)&AE&_).
  destruct (receives_http _ _ _ _ _ _ _ _ _ _ _ _ _ _ _ HS F ND HR OK PR) as (o&NM&ST&OC&VS&DL&EN). fold nb in OC.
  assert (QS : q_st s' = Start) by (unfold at_end in AE; destruct (p_body resp); auto; destruct (NT d eq_refl)).
  set (v := view_of tr) in *. destruct PR as (rest&PR).
  assert (NBE : q_st (srun nb rinit (data_received tr)) <> BodyEof).
  { intros Q. rewrite PR, srun_app in SR. destruct (eof_stays nb rest _ Q) as (Q2&_). rewrite SR in Q2. congruence. }
  assert (DNP : dnp (kof r buf L req (w_mem w)) = false) by (unfold dnp, kof; cbn [k_opt]; rewrite dnp_bit; exact ND).
  assert (NR : rest <> []) by (intros ->; rewrite app_nil_r in PR; rewrite PR in LE; lia).
  rewrite PR in OK. pose proof (fun SV => prefix_msg nb _ _ v OK NR VS SV) as PM.
  rewrite ST. unfold final_status. rewrite DNP. destruct o as [| |e|e]; [congruence| | |]; cbn [outcome errno_of] in *.
  - left. auto.
  - right. right. destruct OC as (->&SV&DD&NE). unfold done_msg in DD. cbn [parse_error]. rewrite (PM SV) in *. rewrite VS in *.
    destruct (data_received tr); [congruence|]. destruct DD as [DD|DD]; [discriminate|]. split; [auto|]. cbn [kof k_L]. rewrite DD, Z.eqb_refl. reflexivity.
  - destruct OC as (EE&[(_&SV&DN)|(BE&_)]); [|rewrite VS in BE; destruct (NBE BE)].
    assert (PE : parse_error e = None) by (destruct EE as [-> | ->]; reflexivity). rewrite PE, (PM SV).
    destruct (data_received tr) eqn:ED; [right; left; auto|]. rewrite <- ED in *. cbn [kof k_L]. rewrite VS.
    destruct (zlen (data_received tr) =? L) eqn:EL; [right; right; split; [lia|auto]|right; left; auto].
Qed.

(** A body that lasts until the connection is closed, in pieces of any size; then the transport delivers nothing more. *)
Lemma prefix_len_eq a b : prefix_of a b -> zlen b <= zlen a -> a = b.
Proof. intros (x&->) H. rewrite zlen_app in H. rewrite (zlen_zero x), app_nil_r; [auto|]. pose proof (zlen_nonneg x). lia. Qed.
Theorem C43_until_close_every_fragmentation : forall fuel cfg E t r rh buf L req w st r' w' tr resp d ps,
  recv_setup cfg E refparser t r rh buf L req w -> recv_faithful E -> no_parse_body r = false ->
  receives fuel cfg E refparser t r rh w st r' w' tr ->
  http_ok (beqb (slice req 0 4) (B "HEAD")) resp -> p_body resp = ToClose d -> zlen (http_bytes resp) < L ->
  concat ps = http_bytes resp -> feeds E (w_nr w) ps -> prompt cfg E (r_time r) (w_nt w) ps ->
  (exists rest, http_bytes resp = data_received tr ++ rest) -> ~ recv_failed tr ->
  st = HTTPSuccess /\ gives cfg buf L resp r r' w' tr.
Proof.
  intros fuel cfg E t r rh buf L req w st r' w' tr resp d ps HS F ND HR HO HB LE CC FE PR PX NF.
  pose proof (C43_until_close fuel _ _ _ _ _ _ _ _ _ _ _ _ _ _ _ HS F ND HR HO HB PX) as CL.
  set (nb := beqb _ _) in *. destruct (http_runs nb resp HO) as (s0&(OK&SR)&_).
  pose proof (receives_follow fuel _ _ _ _ _ _ _ _ _ _ _ _ _ _ HS ND HR) as FO. fold nb in FO.
  destruct (receives_inv _ _ _ _ _ _ _ _ _ _ _ _ _ _ _ HS HR) as (trl&o&s'&ph&G&TR&RR&NM&ST&_).
  set (k := kof r buf L req (w_mem w)) in *. set (t0 := clk E (r_time r) (w_nt w)) in *.
  assert (DR : data_received tr = data_received trl) by (rewrite TR, data_received_app, (data_received_norecv (tick _ _)) by apply tick_norecv; reflexivity).
  assert (WH : data_received tr = http_bytes resp).
  { pose proof (rrun_fed cfg E k (w_nr w) (w_nt w) ps FE PR F _ _ _ _ _ _ _ RR 0%nat 0%nat) as FD.
    destruct FD as [(tr1&tr2&v1&E1&E2&E3)|(X1&X2&X3)].
    - lia.
    - intros TU. unfold t0. change (k_tf k) with (r_time r) in TU. rewrite TU. cbn [clk clk_next]. split; [lia|]. do 2 f_equal. lia.
    - lia.
    - intros; lia.
    - cbn [view0 v_stream skipn]. change (zlen (@nil Z)) with 0. rewrite CC. cbn [k kof k_L]. lia.
    - cbn [skipn] in E3. rewrite CC in E3. apply prefix_len_eq; [exact PX|]. rewrite DR, E1, data_received_app, E3, zlen_app. pose proof (zlen_nonneg (data_received tr2)). lia.
    - exfalso. destruct o as [| |e|e]; [congruence|tauto| |tauto].
      pose proof (rrun_data _ _ _ _ _ _ _ _ _ _ F RR) as RD. cbn [view0 v_stream app] in RD.
      assert (OC : outcome nb (k_L k) (OStop e) (view_of tr)).
      { apply (rrun_http _ _ _ nb (http_bytes resp) _ _ _ _ _ _ _ F RR OK (tick (r_time r) t0)).
        + rewrite <- TR. exact FO.
        + apply (view_tick _ _ view0).
        + apply (pst_tick nb rp []).
        + split; [split; [split; [reflexivity|]|]; cbn; [left; repeat split|discriminate]|reflexivity].
        + reflexivity.
        + rewrite <- DR. exact PX. }
      destruct OC as (_&SV&DD&NE). rewrite <- DR in RD. change (k_L k) with L in DD. destruct PX as (rest&PX).
      assert (LL : zlen (data_received tr) < L) by (rewrite PX, zlen_app in LE; pose proof (zlen_nonneg rest); lia).
      rewrite RD in *. destruct DD as [DD|DD]; [|lia]. unfold done_msg in DD.
      destruct rest as [|c rest].
      + rewrite app_nil_r in PX. destruct (whole_view nb resp (view_of tr) HO ltac:(congruence) SV) as (_&X). rewrite X, HB in DD. discriminate.
      + rewrite PX in OK. rewrite (prefix_msg nb _ _ (view_of tr) OK ltac:(discriminate) RD SV) in DD. destruct (data_received tr); discriminate. }
  assert (HH : http_bytes resp = head_bytes resp ++ d) by (unfold http_bytes; rewrite HB; reflexivity).
  destruct CL as [(X&_)|[(X&_)|[(_&X&_)|(_&X1&d'&X2&X3)]]]; [tauto|exfalso; rewrite WH in X; lia| |].
  - exfalso. rewrite WH, HH, zlen_app in X. pose proof (zlen_nonneg d). lia.
  - split; [auto|]. rewrite WH, HH in X2. apply app_inv_head in X2. subst d'.
    replace (cut resp d) with resp in X3; [auto|]. destruct resp; cbn in *; unfold cut; cbn; congruence.
Qed.

(** ** Concrete cases *)
Lemma env_of_feeds ps : feeds (env_of ps) 0 ps.
Proof.
  intros i room LI LE. cbn [env_of e_recv]. unfold give. pose proof (zlen_nonneg (nth i ps [])).
  cbn [plus]. rewrite Z.min_l, slice_all by lia. reflexivity.
Qed.
Lemma nonempty_prompt cfg E tf nt ps : Forall (fun p => p <> []) ps -> prompt cfg E tf nt ps.
Proof.
  intros FA i k H Q. exfalso. rewrite Forall_forall in FA. apply (FA (nth i ps [])); [apply nth_In; destruct H; eapply Nat.le_lt_trans; eauto|apply Q; split; [apply Nat.le_refl|apply H]].
Qed.
(** HTTP/1.1 200 OK / Content-Length: 5 / Connection: close / hello *)
Definition ex_sized : http :=
  mkhttp 49 (B "200") (B "OK") [mkhline (B "Content-Length") (B " ") (B "5"); mkhline (B "CONNECTION") (B "") (B "Close")] (Sized (B "hello")).
(** Two chunks, one with an extension; two trailers. *)
Definition ex_chunked : http :=
  mkhttp 49 (B "200") (B "OK") [mkhline (B "Transfer-Encoding") (B " ") (B "chunked"); mkhline (B "A") (B " ") (B "b")]
    (Chunked [mkchunk (B "4") [] (B "abcd"); mkchunk (B "00C") (B ";x=1") (B "efghijklmnop")] (B "0") [] [mkhline (B "T1") (B " ") (B "u"); mkhline (B "T2") (B " ") (B "v")]).
Definition ex_close : http := mkhttp 48 (B "404") (B "Not Found") [mkhline (B "Server") (B " ") (B "x")] (ToClose (B "gone")).
Definition ex_none : http := mkhttp 49 (B "204") (B "") [mkhline (B "Connection") (B " ") (B "keep-alive")] NoBody.
Lemma ex_sized_ok : http_ok false ex_sized.
Proof.
  assert (C : content_length (p_headers ex_sized) (Some 5)).
  { apply CLhere; [reflexivity|split; [discriminate|split; [repeat constructor; discriminate|cbn; lia]]|].
    apply CLskip; [discriminate|constructor]. }
  split; [split; [right; reflexivity|]|].
  - split; [reflexivity|]. split; [repeat constructor; discriminate|]. split; [vm_compute; discriminate|].
    split; [repeat constructor; discriminate|]. split; [|eauto].
    repeat apply Forall_cons; try apply Forall_nil; (split; [discriminate|]; split; [repeat constructor; discriminate|]; split; [repeat constructor; discriminate|]; split; [repeat constructor; discriminate|]);
      intros c x H; injection H as <- <-; intros [X|X]; discriminate.
  - cbn [p_body ex_sized]. split; [intros [X|[X|[X|X]]]; vm_compute in X; discriminate|]. split; [|exact C].
    intros (h&[<-|[<-|[]]]&X&_); vm_compute in X; discriminate.
Qed.
Lemma ex_chunked_ok : http_ok false ex_chunked.
Proof.
  assert (H : forall h, In h (p_headers ex_chunked ++ trailers (p_body ex_chunked)) -> hline_ok h).
  { intros h. cbn [ex_chunked p_headers p_body trailers app In]. intros [<-|[<-|[<-|[<-|[]]]]];
      (split; [discriminate|]; split; [repeat constructor; discriminate|]; split; [repeat constructor; discriminate|]; split; [repeat constructor; discriminate|]);
      intros c x Q; injection Q as <- <-; intros [X|X]; discriminate. }
  split; [split; [right; reflexivity|]|].
  - split; [reflexivity|]. split; [repeat constructor; discriminate|]. split; [vm_compute; discriminate|].
    split; [repeat constructor; discriminate|]. split; [apply Forall_forall; intros; apply H; apply in_or_app; auto|].
    exists None. apply CLskip; [discriminate|]. apply CLskip; [discriminate|]. constructor.
  - cbn [p_body ex_chunked]. split; [intros [X|[X|[X|X]]]; vm_compute in X; discriminate|].
    split; [eexists; split; [left; reflexivity|]; split; reflexivity|].
    split; [|split; [|apply Forall_forall; intros; apply H; apply in_or_app; auto]].
    + repeat apply Forall_cons; try apply Forall_nil; (split; [discriminate|]; split; [discriminate|]; split; [cbn; lia|]).
      * split; [|auto]. apply (HexMore 0 52 (52 - 48)); [constructor; lia|]. constructor.
      * split; [|right; eexists; split; [reflexivity|repeat constructor; discriminate]].
        apply (HexMore 0 48 (48 - 48)); [constructor; lia|]. apply (HexMore _ 48 (48 - 48)); [constructor; lia|]. apply (HexMore _ 67 (67 - 55)); [constructor; lia|]. constructor.
    + split; [discriminate|]. split; [cbn; lia|]. split; [|auto]. apply (HexMore 0 48 (48 - 48)); [constructor; lia|]. constructor.
Qed.
Lemma ex_close_ok : http_ok false ex_close.
Proof.
  assert (C : content_length (p_headers ex_close) None) by (apply CLskip; [discriminate|constructor]).
  split; [split; [left; reflexivity|]|].
  - split; [reflexivity|]. split; [repeat constructor; discriminate|]. split; [vm_compute; discriminate|].
    split; [repeat constructor; discriminate|]. split; [|eauto].
    repeat apply Forall_cons; try apply Forall_nil; (split; [discriminate|]; split; [repeat constructor; discriminate|]; split; [repeat constructor; discriminate|]; split; [repeat constructor; discriminate|]);
      intros c x H; injection H as <- <-; intros [X|X]; discriminate.
  - cbn [p_body ex_close]. split; [intros [X|[X|[X|X]]]; vm_compute in X; discriminate|]. split; [|exact C].
    intros (h&[<-|[]]&X&_); vm_compute in X; discriminate.
Qed.
Lemma ex_none_ok : http_ok false ex_none.
Proof.
  split; [split; [right; reflexivity|]|].
  - split; [reflexivity|]. split; [repeat constructor; discriminate|]. split; [vm_compute; discriminate|].
    split; [repeat constructor; discriminate|]. split; [|exists None; apply CLskip; [discriminate|constructor]].
    repeat apply Forall_cons; try apply Forall_nil; (split; [discriminate|]; split; [repeat constructor; discriminate|]; split; [repeat constructor; discriminate|]; split; [repeat constructor; discriminate|]);
      intros c x H; injection H as <- <-; intros [X|X]; discriminate.
  - right. right. left. reflexivity.
Qed.

(** Every cut of these two responses into non-empty pieces is received, whatever the buffer held before. *)
Example every_cut_sized : forall ps, Forall (fun p => p <> []) ps -> concat ps = http_bytes ex_sized ->
  exists r' w' tr, receives (S (length ps)) cfg0 (env_of ps) refparser trr (resp_old 100 0) h1 (wr 100) HTTPSuccess r' w' tr /\
    data_received tr = http_bytes ex_sized /\ gives cfg0 rbuf 100 ex_sized (resp_old 100 0) r' w' tr.
Proof.
  intros ps NE CC. destruct (setup0 ps 100 0) as (_&HS); [lia|cbn; lia|].
  apply (C43_every_fragmentation _ _ _ _ _ _ _ _ _ _ _ ps HS (env_of_faithful ps)); [reflexivity|exact ex_sized_ok|discriminate|vm_compute; discriminate|exact CC|apply env_of_feeds|apply nonempty_prompt; auto|lia].
Qed.
Example every_cut_chunked : forall ps, Forall (fun p => p <> []) ps -> concat ps = http_bytes ex_chunked ->
  exists r' w' tr, receives (S (length ps)) cfg0 (env_of ps) refparser trr (resp_old 200 0) h1 (wr 200) HTTPSuccess r' w' tr /\
    data_received tr = http_bytes ex_chunked /\ gives cfg0 rbuf 200 ex_chunked (resp_old 200 0) r' w' tr.
Proof.
  intros ps NE CC. destruct (setup0 ps 200 0) as (_&HS); [lia|cbn; lia|].
  apply (C43_every_fragmentation _ _ _ _ _ _ _ _ _ _ _ ps HS (env_of_faithful ps)); [reflexivity|exact ex_chunked_ok|discriminate|vm_compute; discriminate|exact CC|apply env_of_feeds|apply nonempty_prompt; auto|lia].
Qed.
(** Empty reads in between, the clock advancing by 400 ms: fine with a timeout of 1000 ms, but for at most one in a row. *)
Example slow_pieces : prompt cfg0 (env_of [B "HTTP/1.1 204 "; []; CRLF; []; CRLF]) TUser 0 [B "HTTP/1.1 204 "; []; CRLF; []; CRLF].
Proof.
  intros i k H Q. split; [reflexivity|]. cbn [length] in H.
  assert (i = k). { destruct (Nat.eq_dec i k) as [|D]; [auto|exfalso]. pose proof (Q i ltac:(lia)) as X. pose proof (Q (S i) ltac:(lia)) as Y.
    destruct i as [|[|[|[|i]]]]; cbn in X, Y; try discriminate. lia. }
  subst k. unfold elapsed. cbn [env_of e_time]. rewrite Z.mod_small; cbn [cfg0 RECV_TO]; lia.
Qed.
(** A call that is cut short, one that lasts until the connection is closed, one that does not fit. *)
Example cut_short : exists r' w' tr, receives 10 cfg0 (env_of [B "HTTP/1.1 20"]) refparser trr (resp_old 100 0) h1 (wr 100) HTTPPartialResponse r' w' tr /\
  (exists rest, http_bytes ex_sized = data_received tr ++ rest) /\ zlen (data_received tr) < zlen (http_bytes ex_sized).
Proof. eexists _, _, _. split; [demo|]. split; [eexists; reflexivity|vm_compute; reflexivity]. Qed.
Example until_close : let ps := [B "HTTP/1.0 404 Not F"; B "ound" ++ CRLF ++ B "Server: x" ++ CRLF ++ CRLF ++ B "go"; B "ne"] in
  concat ps = http_bytes ex_close /\
  exists r' w' tr, receives 10 cfg0 (env_of ps) refparser trr (resp_old 100 0) h1 (wr 100) HTTPSuccess r' w' tr /\
  (exists rest, http_bytes ex_close = data_received tr ++ rest) /\ gives cfg0 rbuf 100 ex_close (resp_old 100 0) r' w' tr.
Proof.
  intros ps. split; [reflexivity|]. eexists _, _, _. split; [demo|]. split; [exists []; reflexivity|].
  destruct (setup0 ps 100 0) as (_&HS); [lia|cbn; lia|].
  eapply (C43_until_close_every_fragmentation 10 cfg0 (env_of ps) trr (resp_old 100 0) h1 rbuf 100 req1 (wr 100) _ _ _ _ ex_close _ ps HS);
    [apply env_of_faithful|reflexivity|demo|exact ex_close_ok|reflexivity|vm_compute; reflexivity|reflexivity|apply env_of_feeds|apply nonempty_prompt; repeat constructor; discriminate|exists []; reflexivity|].
  intros (tr1&p&room&n&d&X&N). apply (f_equal (fun l => last l (TTime 0))) in X. rewrite last_last in X. vm_compute in X. discriminate.
Qed.
Example does_not_fit : exists r' w' tr, receives 10 cfg0 (env_of [http_bytes ex_sized]) refparser trr (resp_old 40 0) h1 (wr 40) HTTPInsufficientMemory r' w' tr /\
  (exists rest, http_bytes ex_sized = data_received tr ++ rest) /\ 40 < zlen (http_bytes ex_sized).
Proof. eexists _, _, _. split; [demo|]. split; [eexists; reflexivity|vm_compute; reflexivity]. Qed.
(** A response without a body; the same bytes as [ex_sized] without a body answer a HEAD request. *)
Example no_body : http_ok false ex_none /\ http_ok true (mkhttp 49 (B "200") (B "OK") (p_headers ex_sized) NoBody).
Proof.
  split; [exact ex_none_ok|]. destruct ex_sized_ok as (H&_). split; [exact H|]. left. reflexivity.
Qed.

Print Assumptions C43_well_formed_response.
Print Assumptions C43_every_fragmentation.
Print Assumptions C43_until_close.
Print Assumptions C43_until_close_every_fragmentation.
Print Assumptions C43_too_large.
