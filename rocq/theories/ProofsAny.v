(** ProofsAny.v — the receive loop with any parser that reads HTTP ([reads_http]); the reference parser is one. *)
From Verif Require Import Base Lib ModelRequest ModelSend ModelResponse SpecRequest SpecSend SpecResponse ProofsRequest ProofsSend ProofsSend2
  ProofsResponse ProofsResponse2 ProofsResponse3 ProofsResponse4 ProofsResponse5 RefParser RefRun SpecHttp SpecParser HttpRun ProofsFollow ProofsEnd Demo DemoResponse
  PropsResponse PropsHttp.

Lemma reading_texec nb {S} (t : ptree S) : forall v, reading nb t v = texec nb t v.
Proof. induction t as [e s|ev k IH]; intros v; cbn [reading texec]; [auto|]. rewrite IH. reflexivity. Qed.
Lemma fed_stream nb P ps s v : fed nb P ps s v -> v_stream v = concat ps.
Proof.
  assert (FI : forall u, v_stream (finish u) = v_stream u) by (intros u; unfold finish; destruct (v_name u), (v_value u); auto).
  assert (EV : forall u ev, v_stream (view_event u ev) = v_stream u) by (intros u []; cbn [view_event]; auto; rewrite ?FI; reflexivity).
  assert (RS : forall S (t : ptree S) u, v_stream (fst (fst (reading nb t u))) = v_stream u) by (intros S t; induction t as [e q|ev k IH]; intros u; cbn [reading]; [auto|]; rewrite IH; apply EV).
  induction 1 as [|ps d s v s' v' H IH ND R]; [reflexivity|].
  specialize (RS _ (p_exec P s d) (given v d)). rewrite R in RS. cbn [fst] in RS. rewrite RS, concat_app. cbn [given view_step v_stream concat]. rewrite IH, app_nil_r. reflexivity.
Qed.

(** ** The reference parser reads HTTP *)
Lemma fed_ref nb ps s v : fed nb refparser ps s v -> okrun nb rinit (concat ps) -> s = srun nb rinit (concat ps) /\ stands nb v.
Proof.
  induction 1 as [|ps d s v s' v' H IH ND R]; intros OK.
  - split; [reflexivity|]. split; [split; [split; [reflexivity|]|]; cbn; [left; repeat split|discriminate]|reflexivity].
  - rewrite concat_app in OK |- *. cbn [concat] in *. rewrite app_nil_r in *.
    destruct (IH (proj1 (proj1 (okrun_app _ _ _ _) OK))) as (->&SV). pose proof (fed_stream _ _ _ _ _ H) as VS.
    destruct (go_call nb v (mkptr 0 0) d ND ltac:(rewrite VS; exact OK) SV) as (v1&T&_&S1). rewrite VS in T.
    rewrite reading_texec in R. pose proof (eq_trans (eq_sym R) T) as Q. injection Q as -> ->. auto.
Qed.
Lemma refparser_reads : reads_http refparser.
Proof.
  assert (PX : forall nb resp a b, http_ok nb resp -> http_bytes resp = a ++ b -> okrun nb rinit a).
  { intros nb resp a b HO E. destruct (http_runs nb resp HO) as (s'&(OK&_)&_). rewrite E in OK. apply okrun_app in OK. tauto. }
  constructor.
  - apply refparser_ok.
  - intros nb resp ps d rest s v HO F ND E. rewrite app_assoc in E. pose proof (PX _ _ _ _ HO E) as OK.
    destruct (fed_ref _ _ _ _ F (proj1 (proj1 (okrun_app _ _ _ _) OK))) as (->&SV). pose proof (fed_stream _ _ _ _ _ F) as VS.
    destruct (go_call nb v (mkptr 0 0) d ND ltac:(rewrite VS; exact OK) SV) as (v1&T&_). rewrite VS in T. rewrite reading_texec. eauto.
  - intros nb resp ps s v HO F E. assert (OK : okrun nb rinit (concat ps)) by (apply (PX _ _ _ [] HO); rewrite app_nil_r; auto).
    destruct (fed_ref _ _ _ _ F OK) as (_&SV). pose proof (fed_stream _ _ _ _ _ F) as VS. apply (whole_view nb); auto. congruence.
  - intros nb resp ps rest s v HO F E NP NR. pose proof (PX _ _ _ _ HO E) as OK. destruct (fed_ref _ _ _ _ F OK) as (_&SV). pose proof (fed_stream _ _ _ _ _ F) as VS.
    destruct (http_runs nb resp HO) as (s'&(OK2&_)&_). rewrite E in OK2. rewrite (prefix_msg nb _ _ v OK2 NR VS SV).
    destruct F as [|ps d s0 v0 s2 v' F ND R]; [congruence|]. rewrite concat_app. cbn [concat]. rewrite app_nil_r. destruct (concat ps ++ d) eqn:Q; [apply app_eq_nil in Q; destruct Q; congruence|auto].
  - intros nb resp ps s v v' e s' HO F R. pose proof (fed_stream _ _ _ _ _ F) as VS.
    assert (EC : okrun nb rinit (concat ps) -> stands nb v /\ match q_st (srun nb rinit (concat ps)) with
      | Start => e = HPE_OK /\ stands nb v' /\ v_msg v' = v_msg v
      | BodyEof => e = HPE_OK /\ exists v0, stands nb v0 /\ v_stream v0 = v_stream v /\ v' = view_event v0 EvMessageComplete
      | _ => e = HPE_INVALID_EOF_STATE /\ stands nb v' /\ v_msg v' = v_msg v end).
    { intros OK. destruct (fed_ref _ _ _ _ F OK) as (->&SV). split; [auto|].
      destruct (end_call nb v (mkptr 0 0) ltac:(rewrite VS; exact OK) SV) as (v1&e1&s1&T&_&X). rewrite VS in T, X.
      rewrite reading_texec in R. pose proof (eq_trans (eq_sym R) T) as Q. injection Q as -> -> _. rewrite VS. exact X. }
    split.
    + intros d HB E. assert (OK : okrun nb rinit (concat ps)) by (apply (PX _ _ _ [] HO); rewrite app_nil_r; auto). destruct (EC OK) as (SV&X).
      destruct (http_runs nb resp HO) as (s1&(_&SR)&AE&_). rewrite HB in AE. cbn [at_end] in AE. rewrite E, SR, AE in X. destruct X as (->&v0&S0&V0&->).
      destruct (whole_view nb resp v0 HO ltac:(congruence) S0) as (W&_). split; [reflexivity|]. split; [reflexivity|]. destruct W; constructor; auto.
    + intros rest E NR NC. pose proof (PX _ _ _ _ HO E) as OK. destruct (EC OK) as (SV&X).
      assert (NB : q_st (srun nb rinit (concat ps)) <> BodyEof).
      { intros Q. destruct (http_runs nb resp HO) as (s1&(_&SR)&AE&_). rewrite E, srun_app in SR. destruct (eof_stays nb rest _ Q) as (Q2&Q3). rewrite SR in Q2, Q3.
        unfold at_end in AE. destruct (p_body resp) eqn:HB; try congruence. specialize (NC _ eq_refl).
        assert (HO2 : http_ok nb (cut resp [])) by (destruct HO as (H1&H2); split; [exact H1|]; rewrite HB in H2; exact H2).
        assert (EH : exists y, y <> [] /\ head_bytes resp = concat ps ++ y).
        { unfold http_bytes in E. apply app_eq_app in E. destruct E as (y&[(E1&E2)|(E1&E2)]).
          - exists y. split; [|auto]. intros ->. rewrite app_nil_r in E1. rewrite E1 in NC. lia.
          - rewrite E1, zlen_app in NC. pose proof (zlen_nonneg y). lia. }
        destruct EH as (y&NY&EH). destruct (http_runs nb _ HO2) as (s2&(_&SR2)&_&_&_&QB&_).
        change (http_bytes (cut resp [])) with (head_bytes resp ++ []) in SR2. rewrite app_nil_r, EH, srun_app in SR2.
        destruct (eof_stays nb y _ Q) as (_&QX). rewrite SR2, QB in QX. cbn [cut p_body content] in QX. symmetry in QX. apply app_eq_nil in QX. destruct QX; auto. }
      destruct (q_st (srun nb rinit (concat ps))); try congruence; destruct X as (->&_&X); auto.
Qed.

(** ** The loop *)
(** The data of the reads that were not empty. *)
Fixpoint pieces (tr : list tev) : list bytes :=
  match tr with
  | [] => []
  | TRecv _ _ n d :: tr' => if 0 <? n then d :: pieces tr' else pieces tr'
  | _ :: tr' => pieces tr'
  end.
Lemma pieces_app a b : pieces (a ++ b) = pieces a ++ pieces b.
Proof. induction a as [|x a IH]; [reflexivity|]. destruct x; cbn [pieces app]; rewrite ?IH; auto. match goal with |- context [0 <? ?n] => destruct (0 <? n); reflexivity end. Qed.
Lemma pieces_norecv tr : Forall norecv tr -> pieces tr = [].
Proof. induction 1 as [|x tr H _ IH]; [auto|]. destruct x; cbn in H; cbn [pieces]; auto; contradiction. Qed.
Lemma inner_norecv tr : Forall inner tr -> Forall norecv tr.
Proof. intros H. eapply Forall_impl; [|exact H]. intros []; cbn; tauto. Qed.
Section any.
Variables (P : parser) (nb : bool) (D : bytes).
Hypothesis goes : forall ps d s v, fed nb P ps s v -> d <> [] -> prefix_of (concat ps ++ d) D -> exists v' s', reading nb (p_exec P s d) (given v d) = (v', HPE_OK, s').

Definition aoutcomeP (L : Z) (ps : list bytes) (o : rout) (v : view) : Prop :=
  match o with
  | OMore | OFail => exists s, fed nb P ps s v /\ done_msg v = false
  | OStop e => e = HPE_OK /\ exists s, fed nb P ps s v /\ (done_msg v = true \/ zlen (v_stream v) = L) /\ v_stream v <> []
  | OStall e => exists s v0 s', fed nb P ps s v0 /\ done_msg v0 = false /\ reading nb (p_exec P s []) (given v0 []) = (v, e, s')
  end.
Definition aoutcome (L : Z) (o : rout) (v : view) : Prop :=
  match o with
  | OMore | OFail => exists ps s, fed nb P ps s v /\ done_msg v = false
  | OStop e => e = HPE_OK /\ exists ps s, fed nb P ps s v /\ (done_msg v = true \/ zlen (v_stream v) = L) /\ v_stream v <> []
  | OStall e => exists ps s v0 s', fed nb P ps s v0 /\ done_msg v0 = false /\ reading nb (p_exec P s []) (given v0 []) = (v, e, s')
  end.
Lemma rrun_anyP E T k last nr nt v tr o v' : recv_faithful E -> rrun E T k last nr nt v tr o v' ->
  forall A ps, follows nb P (A ++ tr) -> view_of A = v -> fed nb P ps (pst nb P A) v -> done_msg v = false ->
  prefix_of (v_stream v ++ data_received tr) D ->
  aoutcomeP (k_L k) (ps ++ pieces tr) o v'.
Proof.
  intros F H.
  induction H as [|last nr nt v n d H1 H2|last nr nt v n d b e blk tr o v' H1 H2 H3 H4 H5 H6 H7 H8 IH|last nr nt v n d b e blk H1 H2 H3 H4 H5 H6 H7|last nr nt v d e blk H1 H2 H3|last nr nt v d tr o v' H1 H2 H3 IH];
    intros A ps FO VA PA DN PR; cbn [data_received] in PR; cbn [pieces];
    [rewrite app_nil_r; cbn [aoutcomeP]; eauto|replace (0 <? n) with false by lia; rewrite app_nil_r; cbn [aoutcomeP]; eauto| | | |].
  1,2: specialize (F nr (k_L k - zlen (v_stream v))); rewrite H1 in F; cbn [fst snd] in F; specialize (F H2); specialize (H4 F); subst d;
    destruct H6 as (evs&EV&->&_); pose proof (events_inner _ _ EV) as IN;
    cbn [data_received] in PR; replace (0 <? n) with true in * by lia;
    set (rv := TRecv _ _ n b) in *; set (t := clk E (k_tf k) nt) in *;
    assert (BN : b <> []) by (intros ->; change (zlen (@nil Z)) with 0 in H3; lia);
    set (A1 := (A ++ [rv]) ++ tick (k_tf k) t);
    assert (V1 : view_of A1 = v) by (unfold A1; rewrite !view_of_app, VA; cbn [fold_left view_step]; apply view_tick);
    assert (P1 : pst nb P A1 = pst nb P A) by (unfold A1; rewrite pst_tick, pst_app; reflexivity);
    pose proof (fed_stream _ _ _ _ _ PA) as VS;
    assert (PB : prefix_of (concat ps ++ b) D) by (rewrite <- VS; destruct PR as (x&PR); rewrite PR, <- !app_assoc; eexists; rewrite <- app_assoc; reflexivity);
    destruct (goes _ _ _ _ PA BN PB) as (v1&s1&T1); pose proof (FedMore nb P ps b _ v s1 v1 PA BN T1) as FD1;
    rewrite reading_texec in T1; set (p := poff (k_buf k) (zlen (v_stream v))) in *;
    change (given v b) with (view_step v (TParse p b)) in T1.
  - assert (FQ : A ++ rv :: tick (k_tf k) t ++ (TParse p b :: evs ++ [TParsed e]) ++ tr = A1 ++ TParse p b :: evs ++ TParsed e :: tr).
    { unfold A1. rewrite <- !app_assoc. cbn [app]. rewrite <- app_assoc. reflexivity. }
    rewrite FQ in FO. pose proof (FO A1 p b evs e tr eq_refl IN) as X. rewrite P1, V1 in X. pose proof (eq_trans (eq_sym T1) X) as X0; injection X0 as X1 X2 X3.
    assert (VB : fold_left view_step (TParse p b :: evs ++ [TParsed e]) v = v1).
    { rewrite X1, view_of_app, V1. cbn [fold_left]. rewrite fold_left_app. reflexivity. }
    rewrite VB in *.
    match goal with |- aoutcomeP _ ?x _ _ => replace x with ((ps ++ [b]) ++ pieces tr) end;
      [|rewrite !pieces_app, (pieces_norecv (tick _ _)) by apply tick_norecv; cbn [app pieces]; rewrite pieces_app, (pieces_norecv evs) by (apply inner_norecv; auto); rewrite <- app_assoc; reflexivity].
    apply (IH (A1 ++ TParse p b :: evs ++ [TParsed e]) (ps ++ [b])).
    + rewrite <- app_assoc. cbn [app]. rewrite <- app_assoc. exact FO.
    + rewrite view_of_app, V1. exact VB.
    + rewrite pst_inner, <- X3 by auto. exact FD1.
    + destruct (done_msg v1); [rewrite andb_false_r in H7; discriminate|auto].
    + rewrite (fed_stream _ _ _ _ _ FD1), concat_app. cbn [concat]. rewrite app_nil_r, <- VS. rewrite data_received_app, (data_received_norecv (tick _ _)) in PR by apply tick_norecv.
      cbn [app data_received] in PR. rewrite <- app_assoc in PR. cbn [app] in PR. rewrite data_received_app in PR. rewrite (data_received_norecv evs) in PR by (eapply Forall_impl; [|exact IN]; intros []; cbn; tauto).
      cbn [app data_received] in PR. rewrite <- app_assoc. exact PR.
  - assert (FQ : A ++ rv :: tick (k_tf k) t ++ (TParse p b :: evs ++ [TParsed e]) = A1 ++ TParse p b :: evs ++ TParsed e :: []).
    { unfold A1. rewrite <- !app_assoc. reflexivity. }
    rewrite FQ in FO. pose proof (FO A1 p b evs e [] eq_refl IN) as X. rewrite P1, V1 in X. pose proof (eq_trans (eq_sym T1) X) as X0; injection X0 as X1 X2 X3.
    assert (VB : fold_left view_step (TParse p b :: evs ++ [TParsed e]) v = v1).
    { rewrite X1, view_of_app, V1. cbn [fold_left]. rewrite fold_left_app. reflexivity. }
    rewrite VB in *. subst e. split; [auto|].
    match goal with |- exists s, fed nb P ?x s _ /\ _ => replace x with (ps ++ [b]) end;
      [|rewrite !pieces_app, (pieces_norecv (tick _ _)) by apply tick_norecv; cbn [app pieces]; rewrite pieces_app, (pieces_norecv evs) by (apply inner_norecv; auto); reflexivity].
    exists s1. split; [exact FD1|]. cbn [goes_on andb] in H7.
    assert (S1 : v_stream v1 = v_stream v ++ b) by (rewrite (fed_stream _ _ _ _ _ FD1), concat_app, <- VS; cbn [concat]; rewrite app_nil_r; auto). split.
    + destruct (done_msg v1); [auto|]. right. cbn [negb andb] in H7. rewrite S1, zlen_app. lia.
    + rewrite S1. intros Q. apply app_eq_nil in Q. destruct Q; auto.
  - destruct H3 as (evs&EV&->&_); pose proof (events_inner _ _ EV) as IN.
    set (rv := TRecv _ _ 0 d) in *. set (t := clk E (k_tf k) nt) in *.
    set (A1 := (A ++ [rv]) ++ tick (k_tf k) t).
    assert (V1 : view_of A1 = v) by (unfold A1; rewrite !view_of_app, VA; cbn [fold_left view_step]; apply view_tick).
    assert (P1 : pst nb P A1 = pst nb P A) by (unfold A1; rewrite pst_tick, pst_app; reflexivity).
    set (p := poff (k_buf k) (zlen (v_stream v))) in *.
    assert (FQ : A ++ rv :: tick (k_tf k) t ++ (TParse p [] :: evs ++ [TParsed e]) = A1 ++ TParse p [] :: evs ++ TParsed e :: []).
    { unfold A1. rewrite <- !app_assoc. reflexivity. }
    rewrite FQ in FO. pose proof (FO A1 p [] evs e [] eq_refl IN) as X. rewrite P1, V1 in X.
    assert (VB : fold_left view_step (TParse p [] :: evs ++ [TParsed e]) v = view_of (A1 ++ TParse p [] :: evs)).
    { rewrite view_of_app, V1. cbn [fold_left]. rewrite fold_left_app. reflexivity. }
    rewrite VB in *. change (if 0 <? 0 then d :: pieces (tick (k_tf k) t ++ TParse p [] :: evs ++ [TParsed e]) else pieces (tick (k_tf k) t ++ TParse p [] :: evs ++ [TParsed e])) with (pieces (tick (k_tf k) t ++ TParse p [] :: evs ++ [TParsed e])).
    rewrite !pieces_app, (pieces_norecv (tick _ _)) by apply tick_norecv. cbn [app pieces]. rewrite pieces_app, (pieces_norecv evs) by (apply inner_norecv; auto). cbn [app pieces]. rewrite app_nil_r.
    cbn [aoutcomeP]. exists (pst nb P A), v. eexists. split; [exact PA|]. split; [exact DN|]. rewrite reading_texec. exact X.
  - set (rv := TRecv _ _ 0 d) in *. set (t := clk E (k_tf k) nt) in *.
    change (if 0 <? 0 then d :: pieces (tick (k_tf k) t ++ tr) else pieces (tick (k_tf k) t ++ tr)) with (pieces (tick (k_tf k) t ++ tr)).
    rewrite pieces_app, (pieces_norecv (tick _ _)) by apply tick_norecv. cbn [app].
    apply (IH ((A ++ [rv]) ++ tick (k_tf k) t) ps); auto.
    + rewrite <- !app_assoc. exact FO.
    + rewrite !view_of_app, VA. cbn [fold_left view_step]. apply view_tick.
    + rewrite pst_tick, pst_app. exact PA.
    + change (if 0 <? 0 then d else []) with (@nil Z) in PR. rewrite data_received_app, (data_received_norecv (tick _ _)) in PR by apply tick_norecv. exact PR.
Qed.

Lemma outcome_of_P L ps o v : aoutcomeP L ps o v -> aoutcome L o v.
Proof. destruct o; cbn [aoutcomeP aoutcome]; firstorder eauto 8. Qed.
Lemma rrun_any E T k last nr nt v tr o v' : recv_faithful E -> rrun E T k last nr nt v tr o v' ->
  forall A ps, follows nb P (A ++ tr) -> view_of A = v -> fed nb P ps (pst nb P A) v -> done_msg v = false ->
  prefix_of (v_stream v ++ data_received tr) D ->
  aoutcome (k_L k) o v'.
Proof. intros F H A ps H1 H2 H3 H4 H5. eapply outcome_of_P. eapply rrun_anyP; eauto. Qed.

(** ** The call *)
Lemma receives_anyP fuel cfg E t r rh buf L req w st r' w' tr : nb = beqb (slice req 0 4) (B "HEAD") ->
  recv_setup cfg E P t r rh buf L req w -> recv_faithful E -> no_parse_body r = false ->
  receives fuel cfg E P t r rh w st r' w' tr -> prefix_of (data_received tr) D ->
  exists o, o <> OMore /\ st = final_status (kof r buf L req (w_mem w)) o (view_of tr) /\ aoutcomeP L (pieces tr) o (view_of tr) /\
    v_stream (view_of tr) = data_received tr /\ zlen (data_received tr) <= L /\
    match o with OFail => recv_failed tr | OStall _ => last_recv tr 0 | _ => True end.
Proof.
  intros NB HS F ND HR PR. pose proof (receives_follow _ _ _ _ _ _ _ _ _ _ _ _ _ _ _ HS ND HR) as FO. rewrite <- NB in FO.
  destruct (receives_inv _ _ _ _ _ _ _ _ _ _ _ _ _ _ _ HS HR) as (trl&o&s'&ph&G&TR&RR&NM&ST&HW&_&I&_).
  set (t0 := clk E (r_time r) (w_nt w)) in *.
  assert (DR : data_received tr = data_received trl) by (rewrite TR, data_received_app, (data_received_norecv (tick _ _)) by apply tick_norecv; reflexivity).
  pose proof (rrun_data _ _ _ _ _ _ _ _ _ _ F RR) as RD. cbn [view0 v_stream app] in RD. rewrite <- DR in RD.
  exists o. split; [auto|]. split; [auto|]. split; [|split; [auto|split]].
  - change L with (k_L (kof r buf L req (w_mem w))).
    replace (pieces tr) with ([] ++ pieces trl) by (rewrite TR, pieces_app, (pieces_norecv (tick _ _)) by apply tick_norecv; reflexivity).
    apply (rrun_anyP _ _ _ _ _ _ _ _ _ _ F RR (tick (r_time r) t0) []).
    + rewrite <- TR. exact FO.
    + apply (view_tick _ _ view0).
    + assert (PT : pst nb P (tick (r_time r) t0) = p_init P) by apply (pst_tick nb P []). rewrite PT. constructor.
    + reflexivity.
    + rewrite <- DR. exact PR.
  - rewrite <- RD. pose proof (i_pos _ _ _ _ _ _ _ _ I) as X. cbn [kof k_L] in X. lia.
  - pose proof (rrun_end _ _ _ _ _ _ _ _ _ _ RR) as X. destruct o; auto.
    + destruct X as (x&p&room&n&d&X&Y). exists (tick (r_time r) t0 ++ x), p, room, n, d. rewrite TR, X, app_assoc. auto.
    + destruct (rrun_stalled _ _ _ _ _ _ _ _ _ _ RR _ eq_refl) as (x&p&room&d&y&X1&X2). exists (tick (r_time r) t0 ++ x), p, room, d, y. rewrite TR, X1, app_assoc. auto.
Qed.
Lemma receives_any fuel cfg E t r rh buf L req w st r' w' tr : nb = beqb (slice req 0 4) (B "HEAD") ->
  recv_setup cfg E P t r rh buf L req w -> recv_faithful E -> no_parse_body r = false ->
  receives fuel cfg E P t r rh w st r' w' tr -> prefix_of (data_received tr) D ->
  exists o, o <> OMore /\ st = final_status (kof r buf L req (w_mem w)) o (view_of tr) /\ aoutcome L o (view_of tr) /\
    v_stream (view_of tr) = data_received tr /\ zlen (data_received tr) <= L /\
    match o with OFail => recv_failed tr | OStall _ => last_recv tr 0 | _ => True end.
Proof.
  intros NB HS F ND HR PR. destruct (receives_anyP fuel _ _ _ _ _ _ _ _ _ _ _ _ _ NB HS F ND HR PR) as (o&X1&X2&X3&X4).
  exists o. split; [auto|]. split; [auto|]. split; [eapply outcome_of_P; eauto|auto].
Qed.
End any.
