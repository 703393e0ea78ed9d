(** ProofsCut.v — the receive loop with a parser that is [cut_free]. *)
From Verif Require Import Base Lib ModelRequest ModelSend ModelResponse SpecRequest SpecSend SpecResponse ProofsRequest ProofsSend ProofsSend2
  ProofsResponse ProofsResponse2 ProofsResponse3 ProofsResponse4 ProofsResponse5 RefParser RefRun SpecHttp SpecParser SpecCut HttpRun ProofsFollow ProofsEnd Demo DemoResponse
  PropsResponse PropsHttp ProofsAny.

Lemma reading_stream nb {S} (t : ptree S) u : v_stream (fst (fst (reading nb t u))) = v_stream u.
Proof.
  assert (FI : forall u, v_stream (finish u) = v_stream u) by (intros x; unfold finish; destruct (v_name x), (v_value x); auto).
  assert (EV : forall u ev, v_stream (view_event u ev) = v_stream u) by (intros x []; cbn [view_event]; auto; rewrite ?FI; reflexivity).
  revert u. induction t as [e q|ev k IH]; intros u; cbn [reading]; [auto|]. rewrite IH. apply EV.
Qed.
Lemma handled_stream nb P ps s v : handled nb P ps s v -> v_stream v = concat ps.
Proof.
  induction 1 as [|ps d s v e s' v' H IH ND R _]; [reflexivity|].
  pose proof (reading_stream nb (p_exec P s d) (given v d)) as RS. rewrite R in RS. cbn [fst] in RS. rewrite RS, concat_app. cbn [given view_step v_stream concat]. rewrite IH, app_nil_r. reflexivity.
Qed.

Section cut.
Variables (P : parser) (nb : bool).
Definition coutcome (L : Z) (o : rout) (v : view) : Prop :=
  match o with
  | OMore | OFail => exists ps s, handled nb P ps s v /\ done_msg v = false /\ zlen (v_stream v) < L
  | OStop e => exists ps s v0 d s', handled nb P ps s v0 /\ done_msg v0 = false /\ d <> [] /\ reading nb (p_exec P s d) (given v0 d) = (v, e, s') /\
      (goes_on e = false \/ done_msg v = true \/ L <= zlen (v_stream v))
  | OStall e => exists ps s v0 s', handled nb P ps s v0 /\ done_msg v0 = false /\ zlen (v_stream v0) < L /\ reading nb (p_exec P s []) (given v0 []) = (v, e, s')
  end.
Lemma rrun_cut E T k last nr nt v tr o v' : recv_faithful E -> rrun E T k last nr nt v tr o v' ->
  forall A ps, follows nb P (A ++ tr) -> view_of A = v -> handled nb P ps (pst nb P A) v -> done_msg v = false -> zlen (v_stream v) < k_L k ->
  coutcome (k_L k) o v'.
Proof.
  intros F H.
  induction H as [|last nr nt v n d H1 H2|last nr nt v n d b e blk tr o v' H1 H2 H3 H4 H5 H6 H7 H8 IH|last nr nt v n d b e blk H1 H2 H3 H4 H5 H6 H7|last nr nt v d e blk H1 H2 H3|last nr nt v d tr o v' H1 H2 H3 IH];
    intros A ps FO VA PA DN LT; [cbn [coutcome]; eauto|cbn [coutcome]; eauto| | | |].
  1,2: specialize (F nr (k_L k - zlen (v_stream v))); rewrite H1 in F; cbn [fst snd] in F; specialize (F H2); specialize (H4 F); subst d;
    destruct H6 as (evs&EV&->&_); pose proof (events_inner _ _ EV) as IN;
    set (rv := TRecv _ _ n b) in *; set (t := clk E (k_tf k) nt) in *;
    assert (BN : b <> []) by (intros ->; change (zlen (@nil Z)) with 0 in H3; lia);
    set (A1 := (A ++ [rv]) ++ tick (k_tf k) t);
    assert (V1 : view_of A1 = v) by (unfold A1; rewrite !view_of_app, VA; cbn [fold_left view_step]; apply view_tick);
    assert (P1 : pst nb P A1 = pst nb P A) by (unfold A1; rewrite pst_tick, pst_app; reflexivity);
    pose proof (handled_stream _ _ _ _ _ PA) as VS;
    set (p := poff (k_buf k) (zlen (v_stream v))) in *.
  - assert (FQ : A ++ rv :: tick (k_tf k) t ++ (TParse p b :: evs ++ [TParsed e]) ++ tr = A1 ++ TParse p b :: evs ++ TParsed e :: tr).
    { unfold A1. rewrite <- !app_assoc. cbn [app]. rewrite <- app_assoc. reflexivity. }
    rewrite FQ in FO. pose proof (FO A1 p b evs e tr eq_refl IN) as X. rewrite P1, V1 in X.
    set (v1 := view_of (A1 ++ TParse p b :: evs)) in *. set (s1 := pst nb P (A1 ++ [TParse p b])) in *.
    rewrite <- reading_texec in X. change (view_step v (TParse p b)) with (given v b) in X.
    assert (VB : fold_left view_step (TParse p b :: evs ++ [TParsed e]) v = v1).
    { unfold v1. rewrite view_of_app, V1. cbn [fold_left]. rewrite fold_left_app. reflexivity. }
    rewrite VB in *.
    assert (GE : goes_on e = true) by (destruct (goes_on e); [auto|discriminate H7]).
    pose proof (HandledMore nb P ps b _ v e s1 v1 PA BN X GE) as FD1.
    apply (IH (A1 ++ TParse p b :: evs ++ [TParsed e]) (ps ++ [b])).
    + rewrite <- app_assoc. cbn [app]. rewrite <- app_assoc. exact FO.
    + rewrite view_of_app, V1. exact VB.
    + rewrite pst_inner by auto. exact FD1.
    + destruct (done_msg v1); [rewrite andb_false_r in H7; discriminate|auto].
    + rewrite (handled_stream _ _ _ _ _ FD1), concat_app. cbn [concat]. rewrite app_nil_r, <- VS, zlen_app. apply andb_prop in H7. destruct H7. lia.
  - assert (FQ : A ++ rv :: tick (k_tf k) t ++ (TParse p b :: evs ++ [TParsed e]) = A1 ++ TParse p b :: evs ++ TParsed e :: []).
    { unfold A1. rewrite <- !app_assoc. reflexivity. }
    rewrite FQ in FO. pose proof (FO A1 p b evs e [] eq_refl IN) as X. rewrite P1, V1 in X.
    set (v1 := view_of (A1 ++ TParse p b :: evs)) in *. set (s1 := pst nb P (A1 ++ [TParse p b])) in *.
    rewrite <- reading_texec in X. change (view_step v (TParse p b)) with (given v b) in X.
    assert (VB : fold_left view_step (TParse p b :: evs ++ [TParsed e]) v = v1).
    { unfold v1. rewrite view_of_app, V1. cbn [fold_left]. rewrite fold_left_app. reflexivity. }
    rewrite VB in *. cbn [coutcome]. exists ps, (pst nb P A), v, b, s1. split; [auto|]. split; [auto|]. split; [auto|]. split; [exact X|].
    destruct (goes_on e); [|auto]. destruct (done_msg v1); [auto|]. right; right. cbn [negb andb] in H7.
    pose proof (reading_stream nb (p_exec P (pst nb P A) b) (given v b)) as RS. rewrite X in RS. cbn [fst] in RS. rewrite RS. cbn [given view_step v_stream]. rewrite zlen_app. lia.
  - destruct H3 as (evs&EV&->&_); pose proof (events_inner _ _ EV) as IN.
    set (rv := TRecv _ _ 0 d) in *. set (t := clk E (k_tf k) nt) in *.
    set (A1 := (A ++ [rv]) ++ tick (k_tf k) t).
    assert (V1 : view_of A1 = v) by (unfold A1; rewrite !view_of_app, VA; cbn [fold_left view_step]; apply view_tick).
    assert (P1 : pst nb P A1 = pst nb P A) by (unfold A1; rewrite pst_tick, pst_app; reflexivity).
    set (p := poff (k_buf k) (zlen (v_stream v))) in *.
    assert (FQ : A ++ rv :: tick (k_tf k) t ++ (TParse p [] :: evs ++ [TParsed e]) = A1 ++ TParse p [] :: evs ++ TParsed e :: []).
    { unfold A1. rewrite <- !app_assoc. reflexivity. }
    rewrite FQ in FO. pose proof (FO A1 p [] evs e [] eq_refl IN) as X. rewrite P1, V1 in X.
    assert (VB : fold_left view_step (TParse p [] :: evs ++ [TParsed e]) v = view_of (A1 ++ TParse p [] :: evs)).
    { rewrite view_of_app, V1. cbn [fold_left]. rewrite fold_left_app. reflexivity. }
    rewrite VB in *. cbn [coutcome]. exists ps, (pst nb P A), v. eexists. split; [exact PA|]. split; [exact DN|]. split; [exact LT|]. rewrite reading_texec. exact X.
  - set (rv := TRecv _ _ 0 d) in *. set (t := clk E (k_tf k) nt) in *.
    apply (IH ((A ++ [rv]) ++ tick (k_tf k) t) ps); auto.
    + rewrite <- !app_assoc. exact FO.
    + rewrite !view_of_app, VA. cbn [fold_left view_step]. apply view_tick.
    + rewrite pst_tick, pst_app. exact PA.
Qed.

Lemma receives_cut fuel cfg E t r rh buf L req w st r' w' tr : nb = beqb (slice req 0 4) (B "HEAD") ->
  recv_setup cfg E P t r rh buf L req w -> recv_faithful E -> no_parse_body r = false ->
  receives fuel cfg E P t r rh w st r' w' tr ->
  exists o, o <> OMore /\ st = final_status (kof r buf L req (w_mem w)) o (view_of tr) /\ coutcome L o (view_of tr) /\
    v_stream (view_of tr) = data_received tr /\
    match o with OFail => recv_failed tr | OStop e | OStall e => ended_with tr e | _ => True end /\ ~ paused o /\ received tr = zlen (data_received tr).
Proof.
  intros NB HS F ND HR. pose proof (receives_follow _ _ _ _ _ _ _ _ _ _ _ _ _ _ _ HS ND HR) as FO. rewrite <- NB in FO.
  destruct (receives_inv _ _ _ _ _ _ _ _ _ _ _ _ _ _ _ HS HR) as (trl&o&s'&ph&G&TR&RR&NM&ST&HW&_&I&_&F3&_).
  set (t0 := clk E (r_time r) (w_nt w)) in *.
  assert (DR : data_received tr = data_received trl) by (rewrite TR, data_received_app, (data_received_norecv (tick _ _)) by apply tick_norecv; reflexivity).
  pose proof (rrun_data _ _ _ _ _ _ _ _ _ _ F RR) as RD. cbn [view0 v_stream app] in RD. rewrite <- DR in RD.
  exists o. split; [auto|]. split; [auto|]. split; [|split; [auto|split; [|split]]].
  - change L with (k_L (kof r buf L req (w_mem w))).
    apply (rrun_cut _ _ _ _ _ _ _ _ _ _ F RR (tick (r_time r) t0) []).
    + rewrite <- TR. exact FO.
    + apply (view_tick _ _ view0).
    + assert (PT : pst nb P (tick (r_time r) t0) = p_init P) by apply (pst_tick nb P []). rewrite PT. constructor.
    + reflexivity.
    + cbn [view0 v_stream kof k_L]. change (zlen (@nil Z)) with 0. destruct HS as (_&_&_&_&_&_&_&Q&_). lia.
  - pose proof (rrun_end _ _ _ _ _ _ _ _ _ _ RR) as X. destruct o; auto; rewrite TR; [apply failed_app|apply ended_app|apply ended_app]; auto.
  - intros X. destruct (F3 X) as (D&_). unfold dnp, kof in D. cbn [k_opt] in D. rewrite dnp_bit in D. unfold no_parse_body in ND. congruence.
  - pose proof (rrun_received _ _ _ _ _ _ _ _ _ _ RR) as RL. cbn [view0 v_stream] in RL. change (zlen (@nil Z)) with 0 in RL. rewrite <- RD, RL, TR. unfold t0. rewrite received_tick. lia.
Qed.
End cut.

(** ** Two runs on the same data *)
Lemma report_so v1 v2 : same_report v1 v2 -> same_so_far v1 v2.
Proof.
  intros []. constructor; auto; unfold finish; rewrite <- sr_name, <- sr_value; destruct (v_name v1), (v_value v1); cbn [v_headers v_locs]; congruence.
Qed.
Lemma report_refl v : same_report v v.
Proof. constructor; reflexivity. Qed.
Lemma handled_last nb P ps s v : handled nb P ps s v -> (ps = [] /\ v = view0) \/
  exists ps0 d s0 v0 e, ps = ps0 ++ [d] /\ handled nb P ps0 s0 v0 /\ d <> [] /\ reading nb (p_exec P s0 d) (given v0 d) = (v, e, s) /\ goes_on e = true.
Proof. destruct 1; [auto|]. right. do 5 eexists. eauto. Qed.
Lemma handled_same nb P ps1 s1 v1 ps2 s2 v2 : cut_free P -> handled nb P ps1 s1 v1 -> handled nb P ps2 s2 v2 -> concat ps1 = concat ps2 -> same_report v1 v2.
Proof.
  intros CF H1 H2 E.
  destruct (handled_last _ _ _ _ _ H1) as [(->&->)|(p1&d1&t1&u1&e1&->&K1&N1&R1&G1)]; destruct (handled_last _ _ _ _ _ H2) as [(->&->)|(p2&d2&t2&u2&e2&->&K2&N2&R2&G2)].
  - apply report_refl.
  - exfalso. rewrite concat_app in E. symmetry in E. apply app_eq_nil in E. destruct E as (_&E). cbn [concat] in E. rewrite app_nil_r in E. auto.
  - exfalso. rewrite concat_app in E. apply app_eq_nil in E. destruct E as (_&E). cbn [concat] in E. rewrite app_nil_r in E. auto.
  - rewrite !concat_app in E. cbn [concat] in E. rewrite !app_nil_r in E. eapply CF; [exact K1|exact K2|exact E|tauto|exact R1|exact R2|auto].
Qed.
Definition rfail (o : rout) : bool := match o with OFail => true | _ => false end.
Lemma coutcome_same P nb L o1 v1 o2 v2 : cut_free P -> coutcome P nb L o1 v1 -> coutcome P nb L o2 v2 -> o1 <> OMore -> o2 <> OMore -> rfail o1 = rfail o2 -> v_stream v1 = v_stream v2 ->
  o1 = o2 /\ same_so_far v1 v2 /\ (match o1 with OStop e | OStall e => goes_on e = true | _ => True end -> same_report v1 v2).
Proof.
  intros CF.
  assert (NS : forall e e' v v', coutcome P nb L (OStop e) v -> coutcome P nb L (OStall e') v' -> v_stream v = v_stream v' -> False).
  { intros e e' v v' (ps&s&v0&d&s'&H1&D1&N&R&X) (ps2&s2&u0&s2'&H2&D2&LT&R2) E.
    pose proof (reading_stream nb (p_exec P s d) (given v0 d)) as RS. rewrite R in RS. cbn [fst given view_step v_stream] in RS. rewrite (handled_stream _ _ _ _ _ H1) in RS.
    pose proof (reading_stream nb (p_exec P s2 []) (given u0 [])) as RS2. rewrite R2 in RS2. cbn [fst given view_step v_stream] in RS2. rewrite app_nil_r in RS2.
    pose proof (handled_stream _ _ _ _ _ H2) as HS2.
    destruct (handled_last _ _ _ _ _ H2) as [(->&->)|(p2&d2&t2&w2&e2&->&K2&N2&Q2&G2)].
    { rewrite E, RS2 in RS. cbn in RS. symmetry in RS. apply app_eq_nil in RS. destruct RS; auto. }
    rewrite concat_app in HS2. cbn [concat] in HS2. rewrite app_nil_r in HS2.
    assert (EC : concat ps ++ d = concat p2 ++ d2) by congruence.
    destruct (CF nb _ _ _ _ _ _ _ _ _ _ _ _ _ _ H1 K2 EC ltac:(tauto) R Q2) as (->&_&SR). specialize (SR G2).
    destruct X as [X|[X|X]]; [congruence| |].
    - unfold done_msg in *. rewrite (sr_msg _ _ SR) in X. congruence.
    - rewrite E, RS2 in X. lia. }
  intros C1 C2 M1 M2 RF E. destruct o1 as [| |e1|e1], o2 as [| |e2|e2]; try congruence; cbn [rfail] in RF; try discriminate.
  - destruct C1 as (ps1&s1&H1&_), C2 as (ps2&s2&H2&_). rewrite (handled_stream _ _ _ _ _ H1), (handled_stream _ _ _ _ _ H2) in E.
    pose proof (handled_same _ _ _ _ _ _ _ _ CF H1 H2 E). split; [auto|]. split; [apply report_so; auto|auto].
  - destruct C1 as (ps&s&v0&d&s'&H1&D1&N&R&X), C2 as (ps2&s2&u0&d2&s2'&H2&D2&N2&R2&X2).
    pose proof (reading_stream nb (p_exec P s d) (given v0 d)) as RS. rewrite R in RS. cbn [fst given view_step v_stream] in RS. rewrite (handled_stream _ _ _ _ _ H1) in RS.
    pose proof (reading_stream nb (p_exec P s2 d2) (given u0 d2)) as RS2. rewrite R2 in RS2. cbn [fst given view_step v_stream] in RS2. rewrite (handled_stream _ _ _ _ _ H2) in RS2.
    assert (EC : concat ps ++ d = concat ps2 ++ d2) by congruence.
    destruct (CF nb _ _ _ _ _ _ _ _ _ _ _ _ _ _ H1 H2 EC ltac:(tauto) R R2) as (->&S1&S2). auto.
  - destruct (NS _ _ _ _ C1 C2 E).
  - destruct (NS _ _ _ _ C2 C1 (eq_sym E)).
  - destruct C1 as (ps&s&v0&s'&H1&D1&_&R), C2 as (ps2&s2&u0&s2'&H2&D2&_&R2).
    pose proof (reading_stream nb (p_exec P s []) (given v0 [])) as RS. rewrite R in RS. cbn [fst given view_step v_stream] in RS. rewrite (handled_stream _ _ _ _ _ H1) in RS.
    pose proof (reading_stream nb (p_exec P s2 []) (given u0 [])) as RS2. rewrite R2 in RS2. cbn [fst given view_step v_stream] in RS2. rewrite (handled_stream _ _ _ _ _ H2) in RS2.
    assert (EC : concat ps ++ [] = concat ps2 ++ []) by congruence.
    destruct (CF nb _ _ _ _ _ _ _ _ _ _ _ _ _ _ H1 H2 EC ltac:(tauto) R R2) as (->&S1&S2). auto.
Qed.
