(** RefRaw.v — the reference parser reads header sections, whatever follows them. *)
From Verif Require Import Base Lib ModelRequest ModelSend ModelResponse SpecRequest SpecSend SpecResponse ProofsRequest ProofsSend ProofsSend2
  ProofsResponse ProofsResponse2 ProofsResponse3 ProofsResponse4 ProofsResponse5 RefParser RefRun SpecHttp SpecParser HttpRun ProofsFollow ProofsEnd Demo DemoResponse
  PropsResponse PropsHttp ProofsAny SpecRaw ProofsRaw.

Definition nothc (e : pevent) : Prop := match e with EvHeadersComplete _ _ _ _ => False | _ => True end.
Lemma heading_emit (s0 : rst) evs t v : Forall nothc evs -> heading s0 (emit evs t) v = heading s0 t (fold_left view_event evs v).
Proof. intros H. revert v. induction H as [|e evs H1 H2 IH]; intros v; cbn [emit heading fold_left]; auto. destruct e; cbn in H1; try contradiction; apply IH. Qed.
Lemma flush_nothc s sp pos : Forall nothc (flush s sp pos).
Proof. unfold flush. destruct (sp <? pos); [destruct (q_st s)|]; repeat constructor. Qed.

(** Without the end of the headers there is no pause. *)
Lemma heading_go nb s0 d : forall s v sp pos, hfind nb s d = None -> heading s0 (go s d sp pos) v = texec nb (go s d sp pos) v.
Proof.
  induction d as [|c d IH]; intros s v sp pos H; cbn [go].
  - rewrite heading_emit by apply flush_nothc. rewrite texec_emit. reflexivity.
  - cbn [hfind] in H. assert (ST : step1 nb s c = match q_st (snd (step s c)) with HEnd => snd (after_hdrs nb (snd (step s c))) | _ => snd (step s c) end) by reflexivity.
    rewrite ST in H. destruct (step s c) as [ks s1]. cbn [snd] in H. rewrite heading_emit by apply kinds_h1. rewrite texec_emit.
    destruct (q_st s1) eqn:Q; try discriminate H; try reflexivity;
      (assert (HN : hfind nb s1 d = None) by (destruct (hfind nb s1 d); [discriminate|auto])); apply IH; exact HN.
Qed.

(** The call in which the headers end. *)
Lemma heading_end nb s0 x d : forall s v b sp pos pre, b = v_start v -> 0 <= b -> 0 <= sp <= pos ->
  v_stream v = pre ++ d ++ x -> zlen pre = b + pos -> okrun nb s d -> q_st s <> HEnd -> hfind nb s d = Some (zlen d) ->
  rel s v (b + sp) (b + pos) ->
  exists v1 s1 u a, heading s0 (go s (d ++ x) sp pos) v = (view_event v1 (EvHeadersComplete (pos + zlen d) (clen_field s1) (q_close s1) (q_ka s1)), HPE_PAUSED, s0) /\
    v_start v1 = v_start v /\ q_st s1 = HEnd /\ rel s1 v1 u a /\ srun nb s d = snd (after_hdrs nb s1).
Proof.
  induction d as [|c d IH]; intros s v b sp pos pre Eb Hb Hp HS HP OK NH HF R; [discriminate HF|].
  cbn [okrun] in OK. destruct OK as (O1&O2&O3&O4&O5).
  pose proof (zlen_nonneg d). pose proof (zlen_nonneg x).
  assert (HZ : b + pos < zlen (v_stream v)) by (rewrite HS, !zlen_app, zlen_cons; lia).
  assert (HC : slice (v_stream v) (b + pos) 1 = [c]).
  { rewrite HS, <- HP. cbn [app]. rewrite slice_of_app_r by (rewrite ?zlen_cons, ?zlen_app; lia). rewrite Z.sub_diag. reflexivity. }
  assert (ND : forall e, q_st (snd (step s c)) <> Dead e).
  { intros e Q. apply (O3 e). unfold step1. rewrite Q. exact Q. }
  assert (NC : q_st (snd (step s c)) = Start -> q_code (snd (step s c)) <> 0).
  { intros Q. unfold step1 in O4. rewrite Q in O4. auto. }
  pose proof (rel_step s v b sp pos c Eb Hb Hp HZ HC O1 O2 ND NC NH R) as R1. cbn zeta in R1.
  change (srun nb s (c :: d)) with (srun nb (step1 nb s c) d). cbn [hfind] in HF. rewrite zlen_cons in *.
  assert (S1 : step1 nb s c = match q_st (snd (step s c)) with HEnd => snd (after_hdrs nb (snd (step s c))) | _ => snd (step s c) end) by reflexivity.
  rewrite S1 in *. clear S1. cbn [app go]. destruct (step s c) as [ks s1] eqn:EST. cbn [fst snd] in *. rewrite heading_emit by apply kinds_h1.
  set (v1 := fold_left view_event (map (fun k => event s1 k sp pos) ks) v) in *.
  assert (VC : v_stream v1 = v_stream v /\ v_start v1 = v_start v) by apply view_events_const. destruct VC as (C1&C2).
  assert (HP1 : zlen (pre ++ [c]) = b + (pos + 1)) by (rewrite zlen_app, zlen_cons, zlen_nil; lia).
  assert (GO : q_st s1 <> HEnd -> okrun nb s1 d -> match hfind nb s1 d with Some k => Some (k + 1) | None => None end = Some (1 + zlen d) ->
    exists v2 s2 u a, heading s0 (go s1 (d ++ x) (next_sp s s1 ks sp pos) (pos + 1)) v1 = (view_event v2 (EvHeadersComplete (pos + (1 + zlen d)) (clen_field s2) (q_close s2) (q_ka s2)), HPE_PAUSED, s0) /\
    v_start v2 = v_start v /\ q_st s2 = HEnd /\ rel s2 v2 u a /\ srun nb s1 d = snd (after_hdrs nb s2)).
  { intros NH1 OK1 H1. assert (HF1 : hfind nb s1 d = Some (zlen d)) by (destruct (hfind nb s1 d) as [z|]; [assert (Q : z + 1 = 1 + zlen d) by congruence; f_equal; lia|discriminate]).
    destruct (IH s1 v1 b (next_sp s s1 ks sp pos) (pos + 1) (pre ++ [c])) as (v2&s2&u&a&X1&X2&X3&X4&X5);
        [congruence|exact Hb|apply next_sp_range; auto|rewrite C1, HS, <- app_assoc; reflexivity|exact HP1|exact OK1|exact NH1|exact HF1|exact R1|].
    exists v2, s2, u, a. rewrite X1. replace (pos + 1 + zlen d) with (pos + (1 + zlen d)) by lia. split; [reflexivity|]. split; [congruence|auto]. }
  destruct (q_st s1) eqn:E1; try (apply GO; auto; discriminate).
  - (* HEnd *)
    assert (HF1 : 1 = 1 + zlen d) by congruence. assert (DE : d = []) by (destruct d; [auto|rewrite zlen_cons in *; pose proof (zlen_nonneg d); lia]). subst d.
    change (zlen (@nil Z)) with 0. cbn [heading]. exists v1, s1. eexists _, _. split; [reflexivity|]. split; [exact C2|]. split; [exact E1|]. split; [exact R1|]. reflexivity.
  - exfalso. apply (ND e). auto.
Qed.

Lemma hfind_le nb d : forall s k, hfind nb s d = Some k -> k <= zlen d.
Proof.
  induction d as [|c d IH]; intros s k H; cbn [hfind] in H; [discriminate|]. rewrite zlen_cons. pose proof (zlen_nonneg d).
  assert (X : forall s2, match hfind nb s2 d with Some k => Some (k + 1) | None => None end = Some k -> k <= 1 + zlen d).
  { intros s2 Q. destruct (hfind nb s2 d) as [z|] eqn:Z; [|discriminate]. specialize (IH _ _ Z). assert (z + 1 = k) by congruence. lia. }
  destruct (q_st (snd (step s c))); try (eapply X; exact H). assert (1 = k) by congruence. lia.
Qed.
Lemma head_nonempty resp : head_bytes resp <> [].
Proof. unfold head_bytes, status_bytes. discriminate. Qed.
(** A part of a header section. *)
Lemma head_part nb resp a rest : head_ok resp -> head_bytes resp = a ++ rest -> rest <> [] ->
  okrun nb rinit a /\ hfind nb rinit a = None /\ hfind nb (srun nb rinit a) rest = Some (zlen rest) /\ okrun nb (srun nb rinit a) rest /\ q_st (srun nb rinit a) <> BodyEof.
Proof.
  intros HO E NR. destruct (run_head nb resp HO) as (s1&HE&(OK&SR)). pose proof (hfind_head nb resp [] HO) as HF. rewrite app_nil_r in HF. rewrite E in OK, SR, HF.
  pose proof OK as OK0. apply okrun_app in OK. destruct OK as (OK1&OK2). rewrite hfind_app in HF. rewrite zlen_app in HF.
  assert (ZR : 0 < zlen rest) by (destruct rest; [congruence|rewrite zlen_cons; pose proof (zlen_nonneg rest); lia]).
  assert (HN : hfind nb rinit a = None).
  { destruct (hfind nb rinit a) as [k|] eqn:Q; [|auto]. apply hfind_le in Q. assert (k = zlen a + zlen rest) by congruence. lia. }
  rewrite HN in HF. split; [auto|]. split; [auto|]. split; [|split; [auto|]].
  - destruct (hfind nb (srun nb rinit a) rest) as [z|]; [|discriminate]. assert (zlen a + z = zlen a + zlen rest) by congruence. f_equal. lia.
  - intros Q. destruct (eof_stays nb rest _ Q) as (_&QB). rewrite <- srun_app, SR in QB. destruct HE as (H1&_&_&_&H5&_).
    assert (BB : q_body (snd (after_hdrs nb s1)) = q_body s1).
    { unfold after_hdrs. destruct (nb || _); [reflexivity|]. destruct (q_chunked s1); [reflexivity|]. destruct (q_clen s1) as [n|]; [destruct (n =? 0)|]; reflexivity. }
    rewrite BB, H5 in QB. symmetry in QB. apply app_eq_nil in QB. destruct QB. auto.
Qed.
Lemma stands0 nb : stands nb view0.
Proof. split; [split; [split; [reflexivity|]|]; cbn; [left; repeat split|discriminate]|reflexivity]. Qed.
Lemma part_call nb s0 v d rest resp : head_ok resp -> head_bytes resp = v_stream v ++ d ++ rest -> d <> [] -> rest <> [] -> stands nb v ->
  exists v', heading s0 (rexec (srun nb rinit (v_stream v)) d) (given v d) = (v', HPE_OK, srun nb rinit (v_stream v ++ d)) /\ v_stream v' = v_stream v ++ d /\ stands nb v' /\ v_msg v' = MsgBegun.
Proof.
  intros HO E ND NR SV. rewrite app_assoc in E. destruct (head_part nb resp _ _ HO E NR) as (OK&HN&_&OKR&_).
  destruct (go_call nb v (mkptr 0 0) d ND OK SV) as (v'&T&VS&S1). exists v'. split; [|split; [exact VS|split; [exact S1|]]].
  - change (given v d) with (view_step v (TParse (mkptr 0 0) d)). rewrite <- T. apply okrun_app in OK. destruct OK as (OK1&_). destruct (okrun_live _ _ OK1) as (_&L2).
    rewrite hfind_app in HN. assert (HD : hfind nb (srun nb rinit (v_stream v)) d = None) by (destruct (hfind nb rinit (v_stream v)); [discriminate|]; destruct (hfind nb (srun nb rinit (v_stream v)) d); [discriminate|auto]).
    unfold rexec. destruct d as [|c d]; [congruence|]. destruct (q_st (srun nb rinit (v_stream v))) eqn:Q; try apply heading_go; auto.
  - rewrite (prefix_msg nb _ rest v' ltac:(apply okrun_app; split; [exact OK|exact OKR]) NR VS S1).
    destruct (v_stream v ++ d) eqn:Q; [|auto]. apply app_eq_nil in Q. destruct Q; congruence.
Qed.
Lemma heard_ref ps s v rest resp : head_ok resp -> heard refparser ps s v -> head_bytes resp = concat ps ++ rest -> rest <> [] ->
  s = srun false rinit (concat ps) /\ stands false v.
Proof.
  intros HO H. revert rest. induction H as [|ps d s v s' v' H IH ND R]; intros rest E NR; [split; [reflexivity|apply stands0]|].
  rewrite concat_app in E |- *. cbn [concat] in *. rewrite app_nil_r in *. rewrite <- app_assoc in E.
  destruct (IH (d ++ rest) E) as (->&SV); [intros Q; apply app_eq_nil in Q; destruct Q; auto|]. pose proof (heard_stream _ _ _ _ H) as VS. rewrite <- VS in E, R |- *.
  destruct (part_call false (srun false rinit (v_stream v)) v d rest resp HO E ND NR SV) as (v1&T&_&S1&_).
  pose proof (eq_trans (eq_sym R) T) as Q. injection Q as -> ->. auto.
Qed.
Lemma after_same nb s : let s2 := snd (after_hdrs nb s) in
  q_code s2 = q_code s /\ q_hdrs s2 = q_hdrs s /\ q_clen s2 = q_clen s /\ q_close s2 = q_close s /\ q_ka s2 = q_ka s.
Proof. cbn zeta. unfold after_hdrs. destruct (nb || _); [repeat split|]. destruct (q_chunked s); [repeat split|]. destruct (q_clen s) as [n|] eqn:Q; [destruct (n =? 0)|]; cbn; repeat split; auto. Qed.

Lemma refparser_heads : reads_heads refparser.
Proof.
  constructor.
  - apply refparser_ok.
  - intros resp ps d rest s v HO F ND E NR. destruct (heard_ref ps s v (d ++ rest) resp HO F E) as (->&SV); [intros Q; apply app_eq_nil in Q; destruct Q; auto|].
    pose proof (heard_stream _ _ _ _ F) as VS. rewrite <- VS in E |- *.
    destruct (part_call false (srun false rinit (v_stream v)) v d rest resp HO E ND NR SV) as (v1&T&_&_&M). eauto.
  - intros resp ps d x s v HO F ND E. destruct (heard_ref ps s v d resp HO F E ND) as (->&SV). pose proof (heard_stream _ _ _ _ F) as VS.
    destruct (head_part false resp _ _ HO E ND) as (OK1&_&HF&OK2&_). destruct (okrun_live _ _ OK1) as (L1&L2).
    destruct SV as (R&_). rewrite VS in R. set (s0 := srun false rinit (concat ps)) in *.
    assert (Z0 : zlen (concat ps) = zlen (v_stream v)) by (rewrite VS; auto). rewrite Z0 in R. apply (rel_parse s0 v (mkptr 0 0) (d ++ x) _ eq_refl) in R.
    destruct (heading_end false s0 x d s0 (given v (d ++ x)) (zlen (v_stream v)) 0 0 (v_stream v)) as (v1&s1&u&a&T&V1&Q&R1&SA); auto; try lia.
    { apply zlen_nonneg. } { rewrite !Z.add_0_r. exact R. }
    exists (view_event v1 (EvHeadersComplete (0 + zlen d) (clen_field s1) (q_close s1) (q_ka s1))).
    split.
    { refine (eq_trans _ T). cbn [p_exec refparser]. unfold rexec. destruct d as [|c d]; [congruence|]. cbn [app]. destruct (q_st s0) eqn:QS; auto. destruct (L2 _ eq_refl). }
    destruct (run_head false resp HO) as (s1'&HE&(_&SR)). rewrite E, srun_app in SR. fold s0 in SR. rewrite SA in SR.
    destruct (after_same false s1) as (B1&B2&B3&B4&B5). destruct (after_same false s1') as (C1&C2&C3&C4&C5). rewrite SR in *. cbn zeta in *.
    destruct HE as (_&_&E2&E3&_&E5&_&E7&E8). destruct R1 as ((AD&R1)&_). rewrite Q in R1. destruct R1 as (M1&M2&(N1&N2&N3&_)&(S1&S2&S3)&_).
    destruct (finish_const v1) as (F1&F2&F3&F4&F5&F6&F7&F8&F9&F10). destruct HO as (_&_&_&_&_&_&o&CL). pose proof (content_length_f _ _ CL) as (CE&_).
    constructor; cbn [view_event v_msg v_adj v_code v_headers v_hend v_clen v_close v_ka option_map snd]; try congruence.
    + rewrite S1. transitivity (q_hdrs s1'); [congruence|]. rewrite E3. reflexivity.
    + rewrite F2, V1. cbn [given view_step v_start]. rewrite E, zlen_app, VS. f_equal.
    + exists o. split; [auto|]. unfold clen_field. rewrite <- B3, C3, E5, <- CE. reflexivity.
    + rewrite F6, N2. cbn [orb]. rewrite <- B4, C4, E7. apply flag_iff. reflexivity.
    + rewrite F7, N3. cbn [orb]. rewrite <- B5, C5, E8. apply flag_iff. reflexivity.
  - intros resp ps rest s v v' e s' HO F E NR R. destruct (heard_ref ps s v rest resp HO F E NR) as (->&SV).
    destruct (head_part false resp _ _ HO E NR) as (OK1&_&_&_&NB). destruct (okrun_live _ _ OK1) as (_&L2). cbn [p_exec refparser] in R. unfold rexec in R.
    destruct (q_st (srun false rinit (concat ps))) eqn:Q; try congruence; cbn [heading] in R; pose proof R as R0; injection R0 as <- <- _; (split; [auto|split; [discriminate|auto]]).
Qed.
