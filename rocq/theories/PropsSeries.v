(** PropsSeries.v — C73: several responses received by one call. *)
From Verif Require Import Base Lib ModelRequest ModelSend ModelResponse SpecRequest SpecSend SpecResponse ProofsRequest ProofsSend ProofsSend2
  ProofsResponse ProofsResponse2 ProofsResponse3 ProofsResponse4 ProofsResponse5 RefParser RefRun SpecHttp SpecParser SpecCut HttpRun ProofsFollow ProofsEnd Demo DemoResponse
  PropsResponse PropsHttp ProofsAny PropsAny SpecExact2 PropsExact2 ProofsCut RefCut PropsCut SpecSeries RefSeries.

(** ** The reference parser *)
Lemma one_call nb m x y : http_ok nb m -> http_bytes m = x ++ y -> x <> [] -> exists v, fed nb refparser [x] (srun nb rinit x) v /\ crun nb rinit dig0 0 x = inl (srun nb rinit x, dig_of v) /\ okrun nb rinit x.
Proof.
  intros HO E NX. destruct (http_runs nb m HO) as (s'&(OK&_)&_). rewrite E in OK. apply okrun_app in OK. destruct OK as (OK&_).
  destruct (rd_goes_on _ refparser_reads nb m [] x y (p_init refparser) view0 HO (FedNil _ _) NX E) as (v&s&R).
  assert (F : fed nb refparser [x] s v) by (exact (FedMore nb refparser [] x _ _ _ _ (FedNil _ _) NX R)).
  assert (H : handled nb refparser [x] s v) by (exact (HandledMore nb refparser [] x _ _ _ _ _ (HandledNil _ _) NX R eq_refl)).
  destruct (fed_ref nb _ _ _ F) as (->&_); [cbn [concat]; rewrite app_nil_r; exact OK|]. destruct (handled_ref nb _ _ _ H) as (C&_). cbn [concat] in *. rewrite app_nil_r in *. eauto.
Qed.
(** A response read alone. *)
Lemma alone nb m : http_ok nb m -> ends m -> exists Y, crun nb rinit dig0 0 (http_bytes m) = inl (srun nb rinit (http_bytes m), Y) /\ okrun nb rinit (http_bytes m) /\ q_st (srun nb rinit (http_bytes m)) = Start /\
  placed (http_bytes m) Y /\ d_msg Y = MsgComplete /\ d_code Y = code_of m /\ d_headers Y = reported m /\ d_body Y = content (p_body m) /\ d_hend Y <> None /\ http_clen m (d_clen Y) /\
  (d_close Y = true <-> says_close m) /\ (d_ka Y = true <-> says_keep_alive m).
Proof.
  intros HO EN. assert (NN : http_bytes m <> []) by (unfold http_bytes, head_bytes, status_bytes; discriminate).
  destruct (one_call nb m (http_bytes m) [] HO ltac:(rewrite app_nil_r; reflexivity) NN) as (v&F&C&OK).
  destruct (rd_whole _ refparser_reads nb m _ _ _ HO F ltac:(cbn [concat]; apply app_nil_r)) as ([Y1 Y2 Y3 Y4 Y5 YH Y6 Y7 Y8]&M).
  assert (M' : v_msg v = MsgComplete) by (unfold ends in EN; destruct (p_body m); auto; contradiction).
  assert (Q : q_st (srun nb rinit (http_bytes m)) = Start).
  { destruct (http_runs nb m HO) as (s'&(_&->)&AE&_). unfold at_end in AE. unfold ends in EN. destruct (p_body m); auto; contradiction. }
  assert (T0 : tstate [] rinit dig0) by (split; [constructor; cbn; auto; discriminate|exact I]).
  destruct (text_run nb (http_bytes m) [] rinit dig0 T0 OK) as (Y'&C'&(PL&_)); [split; discriminate|]. change (zlen (@nil Z)) with 0 in C'. rewrite C in C'. assert (EY : Y' = dig_of v) by congruence. subst Y'.
  exists (dig_of v). cbn [dig_of d_msg d_code d_headers d_body d_hend d_clen d_close d_ka]. split; [exact C|]. split; [exact OK|]. split; [exact Q|]. split; [exact PL|]. split; [exact M'|]. split; [exact Y2|]. split; [exact Y3|]. split; [exact Y4|].
  split; [destruct (v_hend v); [discriminate|congruence]|auto].
Qed.
(** What is said of a series. *)
Record series_said (ms : list http) (X : dig) : Prop := mksaid {
  ss_headers : d_headers X = flat_map reported ms;
  ss_texts : map (text_at (series_bytes ms)) (d_locs X) = flat_map reported ms;
  ss_within : Forall (within (zlen (series_bytes ms))) (d_locs X);
  ss_body : d_body X = flat_map (fun r => content (p_body r)) ms;
  ss_close : d_close X = true <-> Exists says_close ms;
  ss_ka : d_ka X = true <-> Exists says_keep_alive ms
}.
Record last_said (m : http) (X : dig) : Prop := mklast {
  ls_msg : d_msg X = MsgComplete; ls_code : d_code X = code_of m; ls_hend : d_hend X <> None; ls_clen : http_clen m (d_clen X)
}.
Lemma exists_snoc {A} (P : A -> Prop) l x : Exists P (l ++ [x]) <-> Exists P l \/ P x.
Proof. rewrite Exists_app. split; intros [H|H]; auto. right. inversion H as [? ? H0|? ? H0]; subst; auto. inversion H0. Qed.
Lemma flat_snoc {A C} (f : A -> list C) l x : flat_map f (l ++ [x]) = flat_map f l ++ f x.
Proof. rewrite flat_map_app. cbn. rewrite app_nil_r. reflexivity. Qed.
Lemma within_shift a b h : within b h -> 0 <= a -> within (a + b) (shift a h).
Proof. destruct h as [[[n nl] [x xl]] c]. cbn. lia. Qed.
Lemma series_step nb ms m s X : q_st s = Start -> series_said ms X -> http_ok nb m -> ends m ->
  exists s' X', crun nb s X (zlen (series_bytes ms)) (http_bytes m) = inl (s', X') /\ q_st s' = Start /\ series_said (ms ++ [m]) X' /\ last_said m X'.
Proof.
  intros Q [S1 S2 S3 S4 S5 S6] HO EN. destruct (alone nb m HO EN) as (Y&CY&OK&QE&PL&Y1&Y2&Y3&Y4&Y5&Y6&Y7&Y8).
  assert (NN : http_bytes m <> []) by (unfold http_bytes, head_bytes, status_bytes; discriminate).
  destruct (message_joint nb (zlen (series_bytes ms)) s X (http_bytes m) Q OK NN) as (s'&X'&Y'&C1&C2&P&(HJ&HN)).
  rewrite CY in C2. assert (EY : Y' = Y) by congruence. subst Y'. rewrite QE in HN. specialize (HN eq_refl). exists s', X'. split; [exact C1|].
  split. { destruct P as (?&?&?&->&_). exact QE. }
  destruct HJ as [J1 J2 J3 J4 J5 J6 J7 J8], HN as [N1 _ _ _ _], PL as [T1 T2 _ _].
  pose proof (zlen_nonneg (series_bytes ms)). assert (EB : series_bytes (ms ++ [m]) = series_bytes ms ++ http_bytes m) by (unfold series_bytes; apply flat_snoc).
  split; constructor.
  - rewrite flat_snoc, J2, S1, Y3. reflexivity.
  - rewrite EB, J3, map_app, flat_snoc. f_equal; [rewrite texts_keep; auto|]. rewrite map_map, <- Y3, <- T1. apply map_ext_in. intros h IN. rewrite Forall_forall in T2. apply text_shift. auto.
  - rewrite EB, J3, zlen_app. apply Forall_app. split.
    + eapply Forall_impl; [|exact S3]. intros h. apply within_le. pose proof (zlen_nonneg (http_bytes m)). lia.
    + apply Forall_map. eapply Forall_impl; [|exact T2]. intros h W. apply within_shift; auto.
  - rewrite flat_snoc, J8, S4, Y4. reflexivity.
  - rewrite exists_snoc, J6, orb_true_iff, S5, Y7. reflexivity.
  - rewrite exists_snoc, J7, orb_true_iff, S6, Y8. reflexivity.
  - congruence.
  - congruence.
  - rewrite J4. destruct (d_hend Y); congruence.
  - rewrite J5. destruct (d_hend Y); [exact Y6|congruence].
Qed.
Lemma series_run nb ms : series_ok nb ms -> exists s X, crun nb rinit dig0 0 (series_bytes ms) = inl (s, X) /\ q_st s = Start /\ series_said ms X /\
  match rev ms with [] => True | m :: _ => last_said m X end.
Proof.
  induction ms as [|m ms IH] using rev_ind; intros HO.
  - exists rinit, dig0. split; [reflexivity|]. split; [reflexivity|]. split; [|exact I]. constructor; cbn; auto; (split; [discriminate|intros Q; inversion Q]).
  - apply Forall_app in HO. destruct HO as (HO&HM). inversion HM as [|? ? (M1&M2&_) _]; subst. destruct (IH HO) as (s&X&C&Q&SS&_).
    destruct (series_step nb ms m s X Q SS M1 M2) as (s'&X'&C'&Q'&SS'&LS). exists s', X'. rewrite rev_app_distr. cbn [rev app]. split; [|auto].
    unfold series_bytes. rewrite flat_snoc. fold (series_bytes ms). rewrite crun_app, C. exact C'.
Qed.
Theorem C73_reference_parser_reads_series : reads_series refparser.
Proof.
  constructor.
  - intros nb ms m ps d s v v' e s' HO H ND EC R. left.
    destruct (handled_ref _ _ _ _ H) as (C1&J1&K1&V1). pose proof (call_crun nb s v d v' e s' ND K1 J1 R) as CC.
    destruct (series_run nb (ms ++ [m]) HO) as (s2&X&C&Q&[S1 S2 S3 S4 S5 S6]&LS). rewrite rev_app_distr in LS. cbn in LS. destruct LS as [L1 L2 L3 L4].
    rewrite <- EC, crun_app in C. fold dig0 in C1. rewrite C1, Z.add_0_l, <- V1 in C. rewrite C in CC. destruct CC as (->&->&D&_). split; [reflexivity|].
    subst X. cbn [dig_of d_headers d_locs d_body d_close d_ka d_msg d_code d_hend d_clen] in *. constructor; auto. destruct (v_hend v'); [discriminate|]. cbn in L3. congruence.
  - intros nb ms m ps d x y s v v' e s' HO H ND EC EM NX NY R. left. apply Forall_app in HO. destruct HO as (HO&HM). inversion HM as [|? ? (M1&M2&_) _]; subst.
    destruct (handled_ref _ _ _ _ H) as (C1&J1&K1&V1). pose proof (call_crun nb s v d v' e s' ND K1 J1 R) as CC.
    destruct (series_run nb ms HO) as (s2&X&C&Q&_). destruct (one_call nb m x y M1 EM NX) as (u&F&CU&OK).
    destruct (message_joint nb (zlen (series_bytes ms)) s2 X x Q OK NX) as (s3&X'&Y&G1&G2&_&(HJ&_)).
    rewrite CU in G2. assert (EY : Y = dig_of u) by congruence. subst Y.
    assert (MB : v_msg u = MsgBegun).
    { apply (rd_part _ refparser_reads nb m [x] y _ _ M1 F); auto; [cbn [concat]; rewrite app_nil_r; exact EM|discriminate]. }
    assert (CW : crun nb rinit dig0 0 (concat ps ++ d) = inl (s3, X')) by (rewrite EC, crun_app, C; exact G1).
    rewrite crun_app in CW. fold dig0 in C1. rewrite C1, Z.add_0_l, <- V1 in CW. rewrite CW in CC. destruct CC as (->&_&D&_). split; [reflexivity|].
    destruct HJ as [J _ _ _ _ _ _ _]. rewrite <- D in J. cbn [dig_of d_msg] in J. congruence.
  - intros nb ms m ps x y s v v' e s' HO H EC EM NX NY R. apply Forall_app in HO. destruct HO as (HO&HM). inversion HM as [|? ? (M1&M2&_) _]; subst.
    destruct (handled_ref _ _ _ _ H) as (C1&J1&K1&V1).
    destruct (series_run nb ms HO) as (s2&X&C&Q&_). destruct (one_call nb m x y M1 EM NX) as (u&F&CU&OK).
    destruct (message_joint nb (zlen (series_bytes ms)) s2 X x Q OK NX) as (s3&X'&Y&G1&G2&PE&_).
    assert (CW : crun nb rinit dig0 0 (concat ps) = inl (s3, X')) by (rewrite EC, crun_app, C; exact G1).
    fold dig0 in C1. rewrite C1 in CW. assert (ES : s = s3) by congruence. subst s3.
    destruct (reading nb (p_exec refparser (srun nb rinit x) []) (given u [])) as ((u'&e2)&t') eqn:RU.
    assert (NT : forall d, p_body m <> ToClose d) by (intros d B; unfold ends in M2; rewrite B in M2; exact M2).
    destruct (rd_end _ refparser_reads nb m [x] _ _ _ _ _ M1 F RU) as (_&RE).
    destruct (RE y ltac:(cbn [concat]; rewrite app_nil_r; exact EM) NY ltac:(intros d B; destruct (NT d B))) as (PE2&VM). clear RE.
    assert (MB : v_msg u = MsgBegun).
    { apply (rd_part _ refparser_reads nb m [x] y _ _ M1 F); auto; [cbn [concat]; rewrite app_nil_r; exact EM|discriminate]. }
    assert (EQ : q_st s = q_st (srun nb rinit x)) by (destruct PE as (?&?&?&->&_); reflexivity).
    cbn [refparser p_exec] in R, RU. unfold rexec in R, RU. rewrite <- EQ in RU.
    destruct (q_st s) eqn:QS; cbn [reading] in R, RU; injection R as <- <- <-; injection RU as <- <- <-; try (split; [reflexivity|reflexivity]).
    + exfalso. cbn in VM. congruence.
    + split; [exact PE2|reflexivity].
  - intros nb v' e s' R. cbn in R. injection R as <- <- _. split; reflexivity.
Qed.
Print Assumptions C73_reference_parser_reads_series.

(** ** The call *)
Lemma gives_series_of fuel cfg E P t r rh buf L req w st r' w' tr ms m :
  recv_setup cfg E P t r rh buf L req w -> recv_faithful E -> no_parse_body r = false ->
  receives fuel cfg E P t r rh w st r' w' tr -> answered st tr -> v_stream (view_of tr) = series_bytes (ms ++ [m]) -> says_series ms m (view_of tr) -> gives_series cfg buf L ms m r r' w' tr.
Proof.
  intros HS F ND HR AN VS [Z1 Z2 Z3 Z4 Z5 Z6 Z7 Z8 Z9].
  destruct (outputs _ _ _ _ _ _ _ _ _ _ _ _ _ _ _ HS HR AN) as ((O1&O2&O3&O4&O5)&_&O6&_). set (v := view_of tr) in *.
  specialize (O6 Z6). destruct O6 as (O6&O7).
  pose proof (C27_body _ _ _ _ _ _ _ _ _ _ _ _ _ _ _ HS HR AN ND) as BD. fold v in BD. cbn zeta in BD.
  destruct (C19_parser_reads_what_was_received _ _ _ _ _ _ _ _ _ _ _ _ _ _ _ HS F HR) as (RV&RW&RL). fold v in RV.
  constructor; auto; try congruence.
  - intros CB. rewrite (delivered_exact _ _ _ _ _ _ _ _ _ _ _ _ _ _ _ HS HR CB). fold v. rewrite VS. exact Z4.
  - exists (v_clen v). split; [auto|]. rewrite O7. unfold ProofsResponse.clen_of. destruct Z7 as (o&CL&VE). pose proof (clen_range _ _ CL).
    replace (v_clen v =? UINT64_MAX) with false by (rewrite VE; lia). reflexivity.
  - rewrite O3, <- Z8. destruct (v_close v), (v_ka v); cbn; tauto.
  - rewrite O3, <- Z9. destruct (v_close v), (v_ka v); cbn; tauto.
  - destruct (v_bstart v); destruct BD as (_&->&BD); [congruence|]. destruct BD as (BD&_). rewrite <- Z5, BD. reflexivity.
  - intros p Hp. destruct (v_bstart v) as [bo|]; destruct BD as (B1&B2&B3&B4); [|congruence].
    rewrite Hp in B1. injection B1 as ->. rewrite B2. destruct B4 as (B4&B5&_). split; [exists bo; pose proof (zlen_nonneg (v_body v)); repeat (split; [auto; lia|]); lia|]. congruence.
  - intros Hp. destruct (v_bstart v) as [bo|]; destruct BD as (B1&B2&B3&B4); congruence.
Qed.
Lemma app_split_ge (a : bytes) : forall b c d, a ++ b = c ++ d -> zlen a <= zlen c -> exists c', c = a ++ c' /\ b = c' ++ d.
Proof.
  induction a as [|x a IH]; intros b c d H LE; [exists c; auto|]. destruct c as [|y c]; [rewrite zlen_cons in LE; pose proof (zlen_nonneg a); change (zlen (@nil Z)) with 0 in LE; lia|].
  cbn [app] in H. assert (Q : x = y /\ a ++ b = c ++ d) by (split; congruence). destruct Q as (->&Q). rewrite !zlen_cons in LE. destruct (IH b c d Q ltac:(lia)) as (c'&->&->). exists c'. auto.
Qed.
(** Where a prefix of a series ends. *)
Lemma series_cut ms : forall D rest, series_bytes ms = D ++ rest ->
  D = [] \/ (exists ms1 m ms2, ms = ms1 ++ m :: ms2 /\ D = series_bytes (ms1 ++ [m])) \/
  (exists ms1 m ms2 x y, ms = ms1 ++ m :: ms2 /\ D = series_bytes ms1 ++ x /\ http_bytes m = x ++ y /\ x <> [] /\ y <> []).
Proof.
  induction ms as [|m ms IH]; intros D rest H.
  - left. cbn in H. destruct D; [reflexivity|discriminate].
  - cbn [series_bytes flat_map] in H. destruct (Z.le_gt_cases (zlen (http_bytes m)) (zlen D)) as [LE|GT].
    + destruct (app_split_ge (http_bytes m) (flat_map http_bytes ms) D rest H LE) as (D'&->&H').
      destruct (IH D' rest H') as [->|[(ms1&m'&ms2&->&->)|(ms1&m'&ms2&x&y&->&->&Q1&Q2&Q3)]].
      * right. left. exists [], m, ms. split; [reflexivity|]. cbn. reflexivity.
      * right. left. exists (m :: ms1), m', ms2. split; [reflexivity|]. reflexivity.
      * right. right. exists (m :: ms1), m', ms2, x, y. split; [reflexivity|]. split; [cbn [series_bytes flat_map]; rewrite <- app_assoc; reflexivity|auto].
    + destruct D as [|c D]; [auto|]. right. right. symmetry in H. destruct (app_split_ge (c :: D) rest (http_bytes m) (flat_map http_bytes ms) H ltac:(lia)) as (y&E&_).
      exists [], m, ms, (c :: D), y. split; [reflexivity|]. split; [reflexivity|]. split; [exact E|]. split; [discriminate|]. intros ->. rewrite app_nil_r in E. rewrite E in GT. lia.
Qed.

Lemma error_rejects e : goes_on e = false -> e <> HPE_PAUSED -> exists st, parse_error e = Some st /\ rejected st.
Proof. intros G N. unfold rejected. destruct e; try discriminate G; try congruence; cbn [parse_error]; eexists; (split; [reflexivity|cbn; tauto]). Qed.
Lemma on_no_error e : goes_on e = true -> parse_error e = None.
Proof. destruct e; try discriminate; reflexivity. Qed.
Lemma handled_end nb P ps s v : handled nb P ps s v -> ps = [] /\ s = p_init P /\ v = view0 \/ exists ps0 d s0 v0 e, ps = ps0 ++ [d] /\ handled nb P ps0 s0 v0 /\ d <> [] /\ reading nb (p_exec P s0 d) (given v0 d) = (v, e, s) /\ goes_on e = true.
Proof. intros H. inversion H as [|ps0 d s0 v0 e s' v' H0 H1 H2 H3]; subst; [left; auto|right; exists ps0, d, s0, v0, e; auto]. Qed.
Lemma series_ok_part nb ms1 m ms2 : series_ok nb (ms1 ++ m :: ms2) -> series_ok nb (ms1 ++ [m]).
Proof. unfold series_ok. rewrite !Forall_app. intros (A&B). split; [exact A|]. inversion B; subst. constructor; auto. Qed.

Theorem C73_series : forall fuel cfg E P t r rh buf L req w st r' w' tr ms,
  reads_series P -> recv_setup cfg E P t r rh buf L req w -> recv_faithful E -> no_parse_body r = false ->
  receives fuel cfg E P t r rh w st r' w' tr ->
  series_ok (beqb (slice req 0 4) (B "HEAD")) ms -> (exists rest, series_bytes ms = data_received tr ++ rest) ->
  (exists ms1 m ms2, ms = ms1 ++ m :: ms2 /\ data_received tr = series_bytes (ms1 ++ [m]) /\
     (st = HTTPSuccess /\ gives_series cfg buf L ms1 m r r' w' tr \/ rejected st /\ Exists may_close ms1)) \/
  (exists ms1 m ms2 x y, ms = ms1 ++ m :: ms2 /\ data_received tr = series_bytes ms1 ++ x /\ http_bytes m = x ++ y /\ x <> [] /\ y <> [] /\
     (recv_failed tr /\ st = HTTPNetworkError \/
      ~ recv_failed tr /\ st = (if zlen (data_received tr) =? L then HTTPInsufficientMemory else HTTPPartialResponse) \/
      rejected st /\ Exists may_close ms1)) \/
  (data_received tr = [] /\ (recv_failed tr /\ st = HTTPNetworkError \/ ~ recv_failed tr /\ st = HTTPNoResponse)).
Proof.
  intros fuel cfg E P t r rh buf L req w st r' w' tr ms RS HS F ND HR HO (rest&PR). set (nb := beqb _ _) in *.
  destruct (receives_cut P nb _ _ _ _ _ _ _ _ _ _ _ _ _ _ eq_refl HS F ND HR) as (o&NM&ST&OC&VS&EN&NP&_). set (v := view_of tr) in *.
  assert (DNP : dnp (kof r buf L req (w_mem w)) = false) by (unfold dnp, kof; cbn [k_opt]; rewrite dnp_bit; exact ND).
  assert (KL : k_L (kof r buf L req (w_mem w)) = L) by reflexivity.
  assert (NE : forall e, o = OStop e \/ o = OStall e -> e <> HPE_PAUSED) by (intros e Q X; subst e; apply NP; exact Q).
  (* the pieces before the last one do not end at the end of a response *)
  assert (STOP : forall ps s u ms1 m ms2, ms = ms1 ++ m :: ms2 -> handled nb P ps s u -> done_msg u = false -> concat ps = series_bytes (ms1 ++ [m]) -> False).
  { intros ps s u ms1 m ms2 EM H DN EC. pose proof (series_ok_part nb ms1 m ms2 ltac:(rewrite <- EM; exact HO)) as HO1.
    destruct (handled_end _ _ _ _ _ H) as [(->&_)|(ps0&d&s0&v0&e&->&H0&NDD&R&G)].
    - cbn [concat] in EC. unfold series_bytes in EC. rewrite flat_map_app in EC. symmetry in EC. apply app_eq_nil in EC. destruct EC as (_&EC). cbn [flat_map] in EC. rewrite app_nil_r in EC. exact (nonempty_http m EC).
    - rewrite concat_app in EC. cbn [concat] in EC. rewrite app_nil_r in EC.
      destruct (rs_whole P RS nb ms1 m ps0 d s0 v0 u e s HO1 H0 NDD EC R) as [(_&[Z1 _ _ _ _ _ _ _ _])|(Q&_)]; [|congruence]. unfold done_msg in DN. rewrite Z1 in DN. discriminate. }
  assert (MID : forall ps s u ms1 m ms2 x y, ms = ms1 ++ m :: ms2 -> handled nb P ps s u -> concat ps = series_bytes ms1 ++ x -> http_bytes m = x ++ y -> x <> [] -> y <> [] -> v_msg u = MsgBegun).
  { intros ps s u ms1 m ms2 x y EM H EC EX NX NY. pose proof (series_ok_part nb ms1 m ms2 ltac:(rewrite <- EM; exact HO)) as HO1.
    destruct (handled_end _ _ _ _ _ H) as [(->&_)|(ps0&d&s0&v0&e&->&H0&NDD&R&G)].
    - cbn [concat] in EC. symmetry in EC. apply app_eq_nil in EC. destruct EC as (_&EC). congruence.
    - rewrite concat_app in EC. cbn [concat] in EC. rewrite app_nil_r in EC. destruct (rs_part P RS nb ms1 m ps0 d x y s0 v0 u e s HO1 H0 NDD EC EX NX NY R) as [(_&Q)|(Q&_)]; [exact Q|congruence]. }
  assert (LASTP : forall ps s v0 d e s', handled nb P ps s v0 -> reading nb (p_exec P s d) (given v0 d) = (v, e, s') -> concat ps ++ d = data_received tr).
  { intros ps s v0 d e s' H R. rewrite <- VS. pose proof (reading_stream nb (p_exec P s d) (given v0 d)) as RSS. rewrite R in RSS. cbn [fst given view_step v_stream] in RSS.
    rewrite RSS, (handled_stream _ _ _ _ _ H). reflexivity. }
  destruct (series_cut ms _ _ PR) as [D0|[(ms1&m&ms2&EM&DE)|(ms1&m&ms2&x&y&EM&DE&EX&NX&NY)]].
  - right. right. split; [exact D0|]. destruct o as [| |e|e]; [congruence| | |]; cbn [coutcome] in *.
    + left. split; [exact EN|]. rewrite ST. reflexivity.
    + exfalso. destruct OC as (ps&s&v0&d&s'&H&_&NDD&R&_). pose proof (LASTP _ _ _ _ _ _ H R) as LP. rewrite D0 in LP. apply app_eq_nil in LP. destruct LP. congruence.
    + right. split; [exact (ended_not_failed _ _ EN)|]. destruct OC as (ps&s&v0&s'&H&_&_&R). pose proof (LASTP _ _ _ _ _ _ H R) as LP. rewrite app_nil_r, D0 in LP.
      destruct (handled_end _ _ _ _ _ H) as [(->&->&->)|(ps0&d&s0&v0'&e'&->&_&NDD&_)].
      * destruct (rs_none P RS nb v e s' R) as (PE&VM). rewrite ST. unfold final_status. cbn [errno_of]. rewrite PE. fold v. rewrite VM. reflexivity.
      * exfalso. rewrite concat_app in LP. apply app_eq_nil in LP. destruct LP as (_&LP). cbn [concat] in LP. rewrite app_nil_r in LP. congruence.
  - left. exists ms1, m, ms2. split; [exact EM|]. split; [exact DE|]. pose proof (series_ok_part nb ms1 m ms2 ltac:(rewrite <- EM; exact HO)) as HO1.
    destruct o as [| |e|e]; [congruence| | |]; cbn [coutcome] in *.
    + exfalso. destruct OC as (ps&s&H&DN&_). eapply STOP; [exact EM|exact H|exact DN|]. rewrite <- DE, <- VS. symmetry. eapply handled_stream; eauto.
    + destruct OC as (ps&s&v0&d&s'&H&_&NDD&R&_). pose proof (LASTP _ _ _ _ _ _ H R) as LP. rewrite DE in LP.
      destruct (rs_whole P RS nb ms1 m ps d s v0 v e s' HO1 H NDD LP R) as [(G&SS)|(G&MC)].
      * left. assert (ES : st = HTTPSuccess). { rewrite ST. unfold final_status. cbn [errno_of]. rewrite (on_no_error e G). fold v. rewrite (z_msg _ _ _ SS). reflexivity. }
        split; [exact ES|]. eapply gives_series_of; eauto; [left; rewrite ES; discriminate|]. fold v. congruence.
      * right. destruct (error_rejects e G (NE e (or_introl eq_refl))) as (st0&PE&RJ). split; [|exact MC]. rewrite ST. unfold final_status. cbn [errno_of]. rewrite PE. exact RJ.
    + exfalso. destruct OC as (ps&s&v0&s'&H&DN&_&R). pose proof (LASTP _ _ _ _ _ _ H R) as LP. rewrite app_nil_r, DE in LP. eapply STOP; [exact EM|exact H|exact DN|exact LP].
  - right. left. exists ms1, m, ms2, x, y. do 5 (split; [assumption|]). pose proof (series_ok_part nb ms1 m ms2 ltac:(rewrite <- EM; exact HO)) as HO1.
    destruct o as [| |e|e]; [congruence| | |]; cbn [coutcome] in *.
    + left. split; [exact EN|]. rewrite ST. reflexivity.
    + right. destruct OC as (ps&s&v0&d&s'&H&_&NDD&R&_). pose proof (LASTP _ _ _ _ _ _ H R) as LP. rewrite DE in LP.
      destruct (rs_part P RS nb ms1 m ps d x y s v0 v e s' HO1 H NDD LP EX NX NY R) as [(G&VM)|(G&MC)].
      * left. split; [exact (ended_not_failed _ _ EN)|]. rewrite ST. unfold final_status. cbn [errno_of]. rewrite (on_no_error e G). fold v. rewrite VM, DNP, KL, VS. reflexivity.
      * right. destruct (error_rejects e G (NE e (or_introl eq_refl))) as (st0&PE&RJ). split; [|exact MC]. rewrite ST. unfold final_status. cbn [errno_of]. rewrite PE. exact RJ.
    + right. left. split; [exact (ended_not_failed _ _ EN)|]. destruct OC as (ps&s&v0&s'&H&DN&_&R). pose proof (LASTP _ _ _ _ _ _ H R) as LP. rewrite app_nil_r, DE in LP.
      destruct (rs_end P RS nb ms1 m ps x y s v0 v e s' HO1 H LP EX NX NY R) as (PE&VM). pose proof (MID _ _ _ _ _ _ _ _ EM H LP EX NX NY) as MB.
      rewrite ST. unfold final_status. cbn [errno_of]. rewrite PE. fold v. rewrite VM, MB, DNP, KL, VS. reflexivity.
Qed.
Print Assumptions C73_series.

(** Before every read the data received so far are pieces the parser went on after. *)
Lemma rrun_reads P nb E T k last nr nt v tr o v' : recv_faithful E -> rrun E T k last nr nt v tr o v' ->
  forall A ps, follows nb P (A ++ tr) -> view_of A = v -> handled nb P ps (pst nb P A) v -> done_msg v = false ->
  forall X p room n d Y, tr = X ++ TRecv p room n d :: Y -> exists ps1 s1 u, handled nb P ps1 s1 u /\ done_msg u = false /\ concat ps1 = concat ps ++ data_received X.
Proof.
  intros F H.
  induction H as [|last nr nt v n d H1 H2|last nr nt v n d b e blk tr o v' H1 H2 H3 H4 H5 H6 H7 H8 IH|last nr nt v n d b e blk H1 H2 H3 H4 H5 H6 H7|last nr nt v d e blk H1 H2 H3|last nr nt v d tr o v' H1 H2 H3 IH];
    intros A ps FO VA PA DN X p0 room0 n0 d0 Y XE.
  1: destruct X; discriminate.
  all: destruct X as [|x X]; [exists ps, (pst nb P A), v; split; [exact PA|]; split; [exact DN|]; cbn [data_received]; rewrite app_nil_r; reflexivity|].
  all: assert (HX : forall (a : tev) l x0 X0 y Y0, a :: l = (x0 :: X0) ++ y :: Y0 -> x0 = a /\ l = X0 ++ y :: Y0) by (intros a l x0 X0 y Y0 Q; cbn [app] in Q; split; congruence);
    destruct (HX _ _ _ _ _ _ XE) as (->&XE'); clear HX XE.
  1: destruct X; discriminate.
  2,3: exfalso; rewrite app_nil_r in XE' || idtac.
  2,3: match type of XE' with tick ?a ?b ++ ?bl = _ => assert (NB : Forall norecv (tick a b ++ bl)) by (apply Forall_app; split; [apply tick_norecv|eapply blk_norecv; eauto]) end;
    rewrite XE' in NB; apply Forall_app in NB; destruct NB as (_&NB); inversion NB as [|? ? NR _]; exact NR.
  - specialize (F nr (k_L k - zlen (v_stream v))) as F1; rewrite H1 in F1; cbn [fst snd] in F1; specialize (F1 H2); specialize (H4 F1); subst d.
    pose proof (blk_norecv _ _ _ _ _ H6) as BQ.
    destruct H6 as (evs&EV&EBL&_); pose proof (events_inner _ _ EV) as IN. subst blk.
    destruct (skip norecv _ (tick_norecv (k_tf k) (clk E (k_tf k) nt)) _ _ _ _ (isrecv _ _ _ _) XE') as (X1&->&X1E).
    destruct (skip norecv _ BQ _ _ _ _ (isrecv _ _ _ _) X1E) as (X2&->&X2E).
    set (rv := TRecv _ _ n b) in *; set (t := clk E (k_tf k) nt) in *.
    assert (BN : b <> []) by (intros ->; change (zlen (@nil Z)) with 0 in H3; lia).
    set (A1 := (A ++ [rv]) ++ tick (k_tf k) t).
    assert (V1 : view_of A1 = v) by (unfold A1; rewrite !view_of_app, VA; cbn [fold_left view_step]; apply view_tick).
    assert (P1 : pst nb P A1 = pst nb P A) by (unfold A1; rewrite pst_tick, pst_app; reflexivity).
    set (p := poff (k_buf k) (zlen (v_stream v))) in *.
    assert (FQ : A ++ rv :: tick (k_tf k) t ++ (TParse p b :: evs ++ [TParsed e]) ++ tr = A1 ++ TParse p b :: evs ++ TParsed e :: tr).
    { unfold A1. rewrite <- !app_assoc. cbn [app]. rewrite <- app_assoc. reflexivity. }
    rewrite FQ in FO. pose proof (FO A1 p b evs e tr eq_refl IN) as XX. rewrite P1, V1 in XX.
    set (v1 := view_of (A1 ++ TParse p b :: evs)) in *. set (s1 := pst nb P (A1 ++ [TParse p b])) in *.
    rewrite <- reading_texec in XX. change (view_step v (TParse p b)) with (given v b) in XX.
    assert (VB : fold_left view_step (TParse p b :: evs ++ [TParsed e]) v = v1).
    { unfold v1. rewrite view_of_app, V1. cbn [fold_left]. rewrite fold_left_app. reflexivity. }
    rewrite VB in *.
    assert (GE : goes_on e = true) by (destruct (goes_on e); [auto|discriminate H7]).
    pose proof (HandledMore nb P ps b _ v e s1 v1 PA BN XX GE) as FD1.
    assert (FO' : follows nb P ((A1 ++ TParse p b :: evs ++ [TParsed e]) ++ tr)) by (rewrite <- app_assoc; cbn [app]; rewrite <- app_assoc; exact FO).
    assert (PA' : handled nb P (ps ++ [b]) (pst nb P (A1 ++ TParse p b :: evs ++ [TParsed e])) v1) by (rewrite pst_inner by auto; exact FD1).
    destruct (IH (A1 ++ TParse p b :: evs ++ [TParsed e]) (ps ++ [b]) FO' ltac:(rewrite view_of_app, V1; exact VB) PA') with (X := X2) (p := p0) (room := room0) (n := n0) (d := d0) (Y := Y) as (ps1&s2&u&Q1&Q2&Q3).
    + destruct (done_msg v1); [rewrite andb_false_r in H7; discriminate|auto].
    + exact X2E.
    + exists ps1, s2, u. split; [exact Q1|]. split; [exact Q2|]. unfold rv. rewrite Q3, concat_app. cbn [concat data_received app]. rewrite app_nil_r. change (TParse p b :: (evs ++ [TParsed e]) ++ X2) with ((TParse p b :: evs ++ [TParsed e]) ++ X2). rewrite !data_received_app, (data_received_norecv (tick _ _)) by apply tick_norecv.
      rewrite (data_received_norecv _ BQ). replace (0 <? n) with true by lia. cbn [app]. rewrite <- app_assoc. reflexivity.
  - destruct (skip norecv _ (tick_norecv (k_tf k) (clk E (k_tf k) nt)) _ _ _ _ (isrecv _ _ _ _) XE') as (X1&->&X1E).
    set (rv := TRecv _ _ 0 d) in *. set (t := clk E (k_tf k) nt) in *.
    destruct (IH ((A ++ [rv]) ++ tick (k_tf k) t) ps) with (X := X1) (p := p0) (room := room0) (n := n0) (d := d0) (Y := Y) as (ps1&s2&u&Q1&Q2&Q3); auto.
    + rewrite <- !app_assoc. exact FO.
    + rewrite !view_of_app, VA. cbn [fold_left view_step]. apply view_tick.
    + rewrite pst_tick, pst_app. exact PA.
    + exists ps1, s2, u. split; [exact Q1|]. split; [exact Q2|]. unfold rv. rewrite Q3. cbn [data_received]. rewrite data_received_app, (data_received_norecv (tick _ _)) by apply tick_norecv. reflexivity.
Qed.
(** Nothing is read any more after a read that ended exactly at the end of a response: what follows stays in the connection. *)
Theorem C73_ends_there : forall fuel cfg E P t r rh buf L req w st r' w' tr ms tr1 p room n d tr2 ms1 m ms2,
  reads_series P -> recv_setup cfg E P t r rh buf L req w -> recv_faithful E -> no_parse_body r = false ->
  receives fuel cfg E P t r rh w st r' w' tr -> series_ok (beqb (slice req 0 4) (B "HEAD")) ms ->
  tr = tr1 ++ TRecv p room n d :: tr2 -> ms = ms1 ++ m :: ms2 -> data_received tr1 <> series_bytes (ms1 ++ [m]).
Proof.
  intros fuel cfg E P t r rh buf L req w st r' w' tr ms tr1 p room n d tr2 ms1 m ms2 RS HS F ND HR HO TE EM DE. set (nb := beqb _ _) in *.
  pose proof (receives_follow _ _ _ _ _ _ _ _ _ _ _ _ _ _ _ HS ND HR) as FO. fold nb in FO.
  destruct (receives_inv _ _ _ _ _ _ _ _ _ _ _ _ _ _ _ HS HR) as (trl&o&s'&ph&G&TR&RR&_).
  set (t0 := clk E (r_time r) (w_nt w)) in *. rewrite TR in TE. destruct (skip norecv _ (tick_norecv (r_time r) t0) _ _ _ _ (isrecv _ _ _ _) TE) as (X&->&XE).
  rewrite data_received_app, (data_received_norecv (tick _ _)) in DE by apply tick_norecv. cbn [app] in DE.
  destruct (rrun_reads P nb _ _ _ _ _ _ _ _ _ _ F RR (tick (r_time r) t0) []) with (X := X) (p := p) (room := room) (n := n) (d := d) (Y := tr2) as (ps&s&u&H&DN&EC); auto.
  - rewrite <- TR. exact FO.
  - apply (view_tick _ _ view0).
  - assert (PT : pst nb P (tick (r_time r) t0) = p_init P) by apply (pst_tick nb P []). rewrite PT. constructor.
  - cbn [concat app] in EC. rewrite DE in EC. pose proof (series_ok_part nb ms1 m ms2 ltac:(rewrite <- EM; exact HO)) as HO1.
    destruct (handled_end _ _ _ _ _ H) as [(->&_)|(ps0&d0&s0&v0&e&->&H0&NDD&R&GO)].
    + cbn [concat] in EC. unfold series_bytes in EC. rewrite flat_map_app in EC. symmetry in EC. apply app_eq_nil in EC. destruct EC as (_&EC). cbn [flat_map] in EC. rewrite app_nil_r in EC. exact (nonempty_http m EC).
    + rewrite concat_app in EC. cbn [concat] in EC. rewrite app_nil_r in EC.
      destruct (rs_whole P RS nb ms1 m ps0 d0 s0 v0 u e s HO1 H0 NDD EC R) as [(_&[Z1 _ _ _ _ _ _ _ _])|(Q&_)]; [|congruence]. unfold done_msg in DN. rewrite Z1 in DN. discriminate.
Qed.
Print Assumptions C73_ends_there.

(** ** Concrete cases *)
(** HTTP/1.1 100 Continue, and then the answer proper. *)
Definition ex_continue : http := mkhttp 49 (B "100") (B "Continue") [mkhline (B "A") (B " ") (B "b")] NoBody.
Lemma ex_continue_ok : http_ok false ex_continue.
Proof.
  split; [split; [right; reflexivity|]|].
  - split; [reflexivity|]. split; [repeat constructor; discriminate|]. split; [vm_compute; discriminate|].
    split; [repeat constructor; discriminate|]. split; [|exists None; apply CLskip; [discriminate|constructor]].
    repeat apply Forall_cons; try apply Forall_nil; (split; [discriminate|]; split; [repeat constructor; discriminate|]; split; [repeat constructor; discriminate|]; split; [repeat constructor; discriminate|]);
      intros c x H; injection H as <- <-; intros [X|X]; discriminate.
  - cbn [p_body ex_continue]. right. left. vm_compute. reflexivity.
Qed.
Definition ex_series : list http := [ex_continue; ex_sized].
(** The first read ends inside the second response. *)
Definition straddling : list bytes := [firstn 60 (series_bytes ex_series); skipn 60 (series_bytes ex_series)].
Example C73_case :
  reads_series refparser /\ series_ok (beqb (slice req1 0 4) (B "HEAD")) ex_series /\ Forall (fun m => ~ may_close m) [ex_continue] /\
  recv_faithful (env_of straddling) /\ no_parse_body (resp0 200 0) = false /\
  (* the end of the first response comes together with the beginning of the second *)
  (exists r' w' tr, demo_receives straddling (resp0 200 0) 200 HTTPSuccess r' w' tr /\ series_bytes ex_series = data_received tr ++ [] /\
     r_status r' = 200 /\ map fst (delivered tr) = [(B "A", B "b"); (B "Content-Length", B "5"); (B "CONNECTION", B "Close")]) /\
  (* the first response comes by itself: the call ends, and the second one is left in the connection *)
  (exists r' w' tr, demo_receives (map http_bytes ex_series) (resp0 200 0) 200 HTTPSuccess r' w' tr /\ series_bytes ex_series = data_received tr ++ http_bytes ex_sized /\
     r_status r' = 100 /\ r_bodyLen r' = 0).
Proof.
  split; [exact C73_reference_parser_reads_series|].
  split; [repeat apply Forall_cons; try apply Forall_nil; (split; [first [exact ex_continue_ok|exact ex_sized_ok]|]; split; [exact I|vm_compute; discriminate])|].
  split; [apply Forall_cons; [|apply Forall_nil]; intros [(h&HI&X&_)|X]; [destruct HI as [<-|[]]; vm_compute in X; discriminate|discriminate]|].
  split; [apply env_of_faithful|]. split; [reflexivity|].
  split; do 3 eexists; (split; [demo|]; conj; vm_compute; reflexivity).
Qed.
