(** ProofsReadHttp.v — one call of the reference parser on a whole header section, and HTTPClient_ReadHeader with it. *)
From Verif Require Import Base Lib ModelRequest ModelSend ModelResponse ModelReadHeader SpecRequest SpecSend SpecResponse SpecReadHeader
  ProofsRequest ProofsReadHeader RefParser RefRun SpecHttp HttpRun.

Definition plain (s : rst) : Prop := match q_st s with Dead _ | HEnd => False | _ => True end.
Lemma go_one s c d sp pos ks s1 : step s c = (ks, s1) -> plain s1 ->
  go s (c :: d) sp pos = emit (map (fun k => event s1 k sp pos) ks) (go s1 d (next_sp s s1 ks sp pos) (pos + 1)).
Proof. intros H P. cbn [go]. rewrite H. unfold plain in P. destruct (q_st s1); try contradiction; reflexivity. Qed.

(** ** A header line *)
Lemma go_field s n l d sp : Forall token_char l -> forall pos,
  go (upd s Field n []) (l ++ d) sp pos = go (upd s Field (n ++ l) []) d sp (pos + zlen l).
Proof.
  intros H. revert n. induction H as [|c l T H IH]; intros n pos; [rewrite app_nil_r, Z.add_0_r; reflexivity|].
  cbn [app]. rewrite (go_one _ c _ _ _ [] (upd s Field (n ++ [c]) [])); [|step1; cbn; destruct (token_ncolon c T) as (->&_); rewrite (token_t c T); reflexivity|exact I].
  cbn [map emit next_sp upd to q_st set_name in_piece]. change (go (upd s Field (n ++ [c]) []) (l ++ d) sp (pos + 1) = go (upd s Field (n ++ c :: l) []) d sp (pos + zlen (c :: l))).
  rewrite IH, <- app_assoc, zlen_cons. cbn [app]. f_equal. lia.
Qed.
Lemma go_ws s n l d : Forall blank l -> forall pos,
  go (upd s VWs n []) (l ++ d) pos pos = go (upd s VWs n []) d (pos + zlen l) (pos + zlen l).
Proof.
  induction 1 as [|c l T H IH]; intros pos; [rewrite Z.add_0_r; reflexivity|].
  cbn [app]. rewrite (go_one _ c _ _ _ [] (upd s VWs n [])); [|step1; cbn; rewrite (blank_ws c T); reflexivity|exact I].
  cbn [map emit next_sp upd to q_st set_name in_piece]. change (go (upd s VWs n []) (l ++ d) (pos + 1) (pos + 1) = go (upd s VWs n []) d (pos + zlen (c :: l)) (pos + zlen (c :: l))).
  rewrite IH, zlen_cons. f_equal; lia.
Qed.
Lemma go_val s n v l d sp : Forall text_char l -> forall pos,
  go (upd s Val n v) (l ++ d) sp pos = go (upd s Val n (v ++ l)) d sp (pos + zlen l).
Proof.
  intros H. revert v. induction H as [|c l (T1&T2)%text_n H IH]; intros v pos; [rewrite app_nil_r, Z.add_0_r; reflexivity|].
  cbn [app]. rewrite (go_one _ c _ _ _ [] (upd s Val n (v ++ [c]))); [|step1; cbn; rewrite T1, T2; reflexivity|exact I].
  cbn [map emit next_sp upd to q_st set_name in_piece]. change (go (upd s Val n (v ++ [c])) (l ++ d) sp (pos + 1) = go (upd s Val n (v ++ c :: l)) d sp (pos + zlen (c :: l))).
  rewrite IH, <- app_assoc, zlen_cons. cbn [app]. f_equal. lia.
Qed.

(** Where the value of the header begins in its line. *)
Definition value_off (h : hline) : Z := zlen (h_name h) + 1 + zlen (h_ws h).
Lemma go_line s h d pos : hline_ok h -> at_line s ->
  go s (hline_bytes h ++ d) pos pos =
  PEmit (EvField pos (zlen (h_name h))) (fun _ => PEmit (EvValue (pos + value_off h) (zlen (h_value h)))
    (fun _ => go (upd (settle s) VFold (h_name h) (h_value h)) d (pos + zlen (hline_bytes h)) (pos + zlen (hline_bytes h)))).
Proof.
  intros (H1&H2&H3&H4&H5) A. unfold hline_bytes, value_off. rewrite !zlen_app, <- !app_assoc. change (zlen [COLON]) with 1. change (zlen CRLF) with 2.
  destruct (h_name h) as [|c n]; [congruence|]. inversion H2 as [|? ? T H2']; subst. destruct (token_ncolon c T) as (N1&N2&N3&N4).
  cbn [app]. rewrite (go_one _ c _ _ _ [] (upd (settle s) Field [c] []));
    [|rewrite (step_line s c A N4); unfold hstart; rewrite N2, N3, (token_t c T); reflexivity|exact I].
  assert (NI : in_piece (q_st s) = false) by (destruct A as [X|(X&_)]; rewrite X; reflexivity).
  unfold next_sp. rewrite NI. cbn [map emit upd to q_st set_name]. fold (set_name (settle s) [c] []). fold (to (set_name (settle s) [c] []) Field). fold (upd (settle s) Field [c] []).
  rewrite (go_field (settle s) [c] n _ pos H2'). cbn [app].
  rewrite (go_one _ COLON _ _ _ [KField] (upd (settle s) VWs (c :: n) [])); [|reflexivity|exact I].
  cbn [map emit event next_sp]. rewrite (go_ws _ _ _ _ H3).
  assert (E1 : pos + 1 + zlen n - pos = zlen (c :: n)) by (rewrite zlen_cons; lia). rewrite E1.
  destruct (h_value h) as [|x v]; cbn [app].
  - unfold CRLF. cbn [app]. rewrite (go_one _ 13 _ _ _ [KEmptyValue] (upd (settle s) ValLF (c :: n) [])); [|reflexivity|exact I].
    cbn [map emit event next_sp]. rewrite (go_one _ 10 _ _ _ [] (upd (settle s) VFold (c :: n) [])); [|reflexivity|exact I].
    cbn [map emit next_sp upd to q_st set_name in_piece]. fold (set_name (settle s) (c :: n) []). fold (to (set_name (settle s) (c :: n) []) VFold). fold (upd (settle s) VFold (c :: n) []).
    change (zlen (@nil Z)) with 0.
    replace (pos + 1 + zlen n + 1 + zlen (h_ws h)) with (pos + (zlen (c :: n) + 1 + zlen (h_ws h))) by (rewrite zlen_cons; lia).
    replace (pos + (zlen (c :: n) + 1 + zlen (h_ws h)) + 1 + 1) with (pos + (zlen (c :: n) + (1 + (zlen (h_ws h) + (0 + 2))))) by lia. reflexivity.
  - inversion H4 as [|? ? T' H4']; subst. destruct (text_n x T') as (T1&T2).
    rewrite (go_one _ x _ _ _ [] (upd (settle s) Val (c :: n) [x])); [|step1; cbn; rewrite (nblank_ws x (H5 x v eq_refl)), T1, T2; reflexivity|exact I].
    cbn [map emit next_sp upd to q_st set_name in_piece]. fold (set_name (settle s) (c :: n) [x]). fold (to (set_name (settle s) (c :: n) [x]) Val). fold (upd (settle s) Val (c :: n) [x]).
    rewrite (go_val _ _ [x] _ _ _ H4'). cbn [app]. unfold CRLF. cbn [app].
    rewrite (go_one _ 13 _ _ _ [KValue] (upd (settle s) ValLF (c :: n) (x :: v))); [|reflexivity|exact I].
    cbn [map emit event next_sp]. rewrite (go_one _ 10 _ _ _ [] (upd (settle s) VFold (c :: n) (x :: v))); [|reflexivity|exact I].
    cbn [map emit next_sp upd to q_st set_name in_piece]. fold (set_name (settle s) (c :: n) (x :: v)). fold (to (set_name (settle s) (c :: n) (x :: v)) VFold). fold (upd (settle s) VFold (c :: n) (x :: v)).
    replace (pos + 1 + zlen n + 1 + zlen (h_ws h)) with (pos + (zlen (c :: n) + 1 + zlen (h_ws h))) by (rewrite zlen_cons; lia).
    set (vp := pos + (zlen (c :: n) + 1 + zlen (h_ws h))).
    replace (vp + 1 + zlen v - vp) with (zlen (x :: v)) by (rewrite zlen_cons; lia).
    replace (vp + 1 + zlen v + 1 + 1) with (pos + (zlen (c :: n) + (1 + (zlen (h_ws h) + (zlen (x :: v) + 2))))) by (rewrite (zlen_cons x); unfold vp; lia). reflexivity.
Qed.

(** ** The status line *)
Lemma go_reason code l d sp : Forall text_char l -> forall pos,
  go (base Reason code) (l ++ d) sp pos = go (base Reason code) d sp (pos + zlen l).
Proof.
  induction 1 as [|c l (T1&T2)%text_n H IH]; intros pos; [rewrite Z.add_0_r; reflexivity|].
  cbn [app]. rewrite (go_one _ c _ _ _ [] (base Reason code)); [|step1; cbn; rewrite T1, T2; reflexivity|exact I].
  cbn [map emit next_sp base q_st in_piece]. fold (base Reason code). rewrite IH, zlen_cons. f_equal. lia.
Qed.
Definition status_events (r : http) : list pevent :=
  [EvMessageBegin; EvStatus 13 (zlen (p_reason r)) (code_of r); EvStatusComplete (code_of r)].
Lemma go_status r d : head_ok r ->
  go rinit (status_bytes r ++ d) 0 0 = emit (status_events r) (go (base HStart (code_of r)) d (zlen (status_bytes r)) (zlen (status_bytes r))).
Proof.
  intros (H1&H2&H3&_&H4&_). unfold status_bytes, status_events, code_of.
  destruct (p_code r) as [|c1 [|c2 [|c3 [|]]]]; try discriminate.
  inversion H3 as [|? ? D1 H3a]; subst. inversion H3a as [|? ? D2 H3b]; subst. inversion H3b as [|? ? D3 _]; subst. clear H2 H3 H3a H3b.
  apply digit_d in D1, D2, D3.
  assert (E : forall x, zlen (B "HTTP/1." ++ [p_minor r; SPACE] ++ [c1; c2; c3] ++ [SPACE] ++ x) = 13 + zlen x) by (intros; rewrite !zlen_app, Z.add_assoc, Z.add_assoc, Z.add_assoc; reflexivity).
  rewrite E, zlen_app. change (zlen CRLF) with 2. rewrite <- !app_assoc. set (tl := p_reason r ++ CRLF ++ d).
  change (B "HTTP/1." ++ [p_minor r; SPACE] ++ [c1; c2; c3] ++ [SPACE] ++ tl) with (72 :: 84 :: 84 :: 80 :: 47 :: 49 :: 46 :: p_minor r :: SPACE :: c1 :: c2 :: c3 :: SPACE :: tl).
  rewrite (go_one _ 72 _ _ _ [KBegin] (base (Ver 1) 0)); [|reflexivity|exact I].
  rewrite (go_one _ 84 _ _ _ [] (base (Ver 2) 0)); [|reflexivity|exact I].
  rewrite (go_one _ 84 _ _ _ [] (base (Ver 3) 0)); [|reflexivity|exact I].
  rewrite (go_one _ 80 _ _ _ [] (base (Ver 4) 0)); [|reflexivity|exact I].
  rewrite (go_one _ 47 _ _ _ [] (base (Ver 5) 0)); [|reflexivity|exact I].
  rewrite (go_one _ 49 _ _ _ [] (base (Ver 6) 0)); [|reflexivity|exact I].
  rewrite (go_one _ 46 _ _ _ [] (base Minor 0)); [|reflexivity|exact I].
  rewrite (go_one _ (p_minor r) _ _ _ [] (base VSp 0)); [|destruct H1 as [-> | ->]; reflexivity|exact I].
  rewrite (go_one _ SPACE _ _ _ [] (base (Code 0 0) 0)); [|reflexivity|exact I].
  rewrite (go_one _ c1 _ _ _ [] (base (Code 1 (c1 - 48)) 0)); [|step1; cbn; rewrite D1; reflexivity|exact I].
  rewrite (go_one _ c2 _ _ _ [] (base (Code 2 ((c1 - 48) * 10 + (c2 - 48))) 0)); [|step1; cbn; rewrite D2; reflexivity|exact I].
  rewrite (go_one _ c3 _ _ _ [] (base CodeEnd (dec_value [c1; c2; c3]))); [|step1; cbn; rewrite D3; reflexivity|exact I].
  rewrite (go_one _ SPACE _ _ _ [] (base Reason (dec_value [c1; c2; c3]))); [|reflexivity|exact I].
  set (code := dec_value [c1; c2; c3]). cbn [map emit event next_sp base q_st in_piece]. cbn [Z.add Pos.add Pos.succ]. fold (base Reason code). unfold tl.
  rewrite (go_reason _ _ _ _ H4). unfold CRLF. cbn [app].
  rewrite (go_one _ 13 _ _ _ [KStatus] (base ReasonLF code)); [|reflexivity|exact I].
  cbn [map emit event next_sp]. rewrite (go_one _ 10 _ _ _ [KStatusDone] (base HStart code)); [|reflexivity|exact I].
  cbn [map emit event next_sp base q_code]. replace (13 + zlen (p_reason r) - 13) with (zlen (p_reason r)) by lia.
  replace (13 + zlen (p_reason r) + 1 + 1) with (13 + (zlen (p_reason r) + 2)) by lia. reflexivity.
Qed.

(** ** The blank line *)
Lemma go_blank s d pos : at_line s -> q_tr (settle s) = false ->
  go s (CRLF ++ d) pos pos =
  let s1 := to (settle s) HEnd in
  PEmit (EvHeadersComplete (pos + 2) (clen_field s1) (q_close s1) (q_ka s1))
    (fun r => let '(ks2, s2) := after_hdrs (match r with CbNoBody => true | _ => false end) s1 in
              emit (map (fun k => event s2 k (pos + 2) (pos + 2)) ks2) (go s2 d (pos + 2) (pos + 2))).
Proof.
  intros A T. unfold CRLF. cbn [app].
  rewrite (go_one _ 13 _ _ _ [] (to (settle s) EndLF)); [|rewrite step_line by auto; reflexivity|exact I].
  assert (NI : in_piece (q_st s) = false) by (destruct A as [X|(X&_)]; rewrite X; reflexivity).
  unfold next_sp. rewrite NI. cbn [map emit]. change (q_st (to (settle s) EndLF)) with EndLF. cbv iota.
  cbn [go]. assert (S1 : step (to (settle s) EndLF) LF = ([], to (settle s) HEnd)).
  { unfold step. cbn [q_st to]. change (LF =? LF) with true. cbn. unfold end_of_headers. cbn [q_tr to]. rewrite T. reflexivity. }
  rewrite S1. cbn [map emit]. change (q_st (to (settle s) HEnd)) with HEnd. cbv iota. replace (pos + 1 + 1) with (pos + 2) by lia. reflexivity.
Qed.

(** ** The search *)
Definition fc0 (field : src) (n : Z) : fctx := mkfctx field n false false None.
Definition differs (name : bytes) (h : hline) : Prop := ~ same_name name (h_name h).
Lemma find_line m buf field n name {S} (k : cbret -> ptree S) o l vo vl :
  src_bytes m field n = Ret name -> 0 < n -> 0 < l -> object m (poff buf o) l ->
  find_tree m buf (PEmit (EvField o l) (fun _ => PEmit (EvValue vo vl) k)) (fc0 field n) =
    Ret (HPE_USER, mkfctx field n true true (Some (value_at buf vo vl))) /\ same_name name (bytes_at m (poff buf o) l) \/
  find_tree m buf (PEmit (EvField o l) (fun _ => PEmit (EvValue vo vl) k)) (fc0 field n) = find_tree m buf (k CbContinue) (fc0 field n) /\
    ~ same_name name (bytes_at m (poff buf o) l).
Proof.
  intros HA Hn Hl HO. cbn [find_tree find_callback]. change {| pb := pb buf; po := po buf + o |} with (poff buf o).
  destruct (field_ok m field n name (fc0 field n) (poff buf o) l eq_refl eq_refl HA Hn eq_refl eq_refl Hl HO) as (b&E&Hb).
  rewrite E. cbn [bind]. unfold findHeaderValue. cbn [f_field f_fieldLen f_valueFound f_fieldFound fc0 f_out].
  assert (NN : is_null field = false) by (destruct field; [discriminate| |]; reflexivity). rewrite NN. replace (0 <? n) with true by lia. cbn [negb assert_at bind].
  destruct b; cbn [bind].
  - left. split; [reflexivity|]. apply Hb. auto.
  - right. split; [reflexivity|]. intros X. apply Hb in X. discriminate.
Qed.
Lemma bytes_sub m buf L d o l : object m buf L -> bytes_at m buf L = d -> 0 <= o -> 0 <= l -> o + l <= L -> object m (poff buf o) l /\ bytes_at m (poff buf o) l = slice d o l.
Proof.
  intros HO <- H1 H2 H3. unfold object in *. split; [cbn [poff pb po]; lia|]. unfold bytes_at. cbn [poff pb po]. rewrite slice_slice by lia. reflexivity.
Qed.
Lemma slice_mid (a b c : bytes) : slice (a ++ b ++ c) (zlen a) (zlen b) = b.
Proof. pose proof (zlen_nonneg a). pose proof (zlen_nonneg b). pose proof (zlen_nonneg c). rewrite slice_of_app_r by (rewrite ?zlen_app; lia). rewrite Z.sub_diag. rewrite slice_of_app_l by (pose proof (zlen_nonneg b); lia). apply slice_all. Qed.

(** [s] is a state of the parser at the beginning of a header line, after the headers [done]. *)
Lemma HI_next code done s h hs : cl_valid (done ++ h :: hs) -> HI code done s -> HI code (done ++ [h]) (upd (settle s) VFold (h_name h) (h_value h)).
Proof.
  intros V (A&T1&T2&T3&T4&T5&T6&T7&T8).
  assert (C : is_cl h = true -> q_clen (settle s) = None /\ clen_header (h_value h)).
  { intros Q. destruct (V done h hs eq_refl Q) as (V1&V2). rewrite T5. unfold clen_opt. rewrite V1. auto. }
  destruct (interpret_line (settle s) h T1 ltac:(destruct (q_st (settle s)); auto; left; discriminate) C) as (U1&U2&U3&U4&U5&U6&U7&U8&U9&_).
  split; [right; split; [reflexivity|]; intros e; rewrite U1; discriminate|].
  change (settle (upd (settle s) VFold (h_name h) (h_value h))) with (interpret (upd (settle s) VFold (h_name h) (h_value h))). cbn zeta.
  rewrite U2, U3, U4, U5, U6, U7, U8, U9, T2, T3, T4, T5, T6, T7, T8. rewrite map_app, !existsb_app. cbn [map existsb]. rewrite !orb_false_r.
  do 4 (split; [solve [auto]|]). split; [|split; [auto|split; [auto|auto]]]. unfold clen_opt. rewrite filter_app. cbn [filter].
  destruct (is_cl h) eqn:Q; [|rewrite app_nil_r; auto].
  destruct (V done h hs eq_refl Q) as (->&_). reflexivity.
Qed.
Lemma find_lines m buf L field n name code hs : object m buf L -> src_bytes m field n = Ret name -> 0 < n -> Forall hline_ok hs -> Forall (differs name) hs ->
  forall done pre d s, bytes_at m buf L = pre ++ hlines_bytes hs ++ d -> cl_valid (done ++ hs) -> HI code done s ->
  exists s', find_tree m buf (go s (hlines_bytes hs ++ d) (zlen pre) (zlen pre)) (fc0 field n) =
      find_tree m buf (go s' d (zlen pre + zlen (hlines_bytes hs)) (zlen pre + zlen (hlines_bytes hs))) (fc0 field n) /\ HI code (done ++ hs) s'.
Proof.
  intros HO HA Hn. induction 1 as [|h hs OK _ IH]; intros DF done pre d s HB V J; inversion DF as [|? ? D1 D2]; subst; cbn [hlines_bytes flat_map].
  - exists s. rewrite app_nil_r. cbn [app]. change (zlen (@nil Z)) with 0. rewrite Z.add_0_r. auto.
  - fold (hlines_bytes hs) in *. rewrite <- app_assoc. rewrite (go_line s h _ _ OK) by apply J.
    assert (HB' : bytes_at m buf L = pre ++ h_name h ++ ([COLON] ++ h_ws h ++ h_value h ++ CRLF) ++ hlines_bytes hs ++ d).
    { rewrite HB. cbn [hlines_bytes flat_map]. fold (hlines_bytes hs). unfold hline_bytes at 1. rewrite <- !app_assoc. reflexivity. }
    pose proof (bytes_at_len _ _ _ HO) as LL. rewrite HB', !zlen_app in LL.
    pose proof (zlen_nonneg pre). pose proof (zlen_nonneg (h_name h)). pose proof (zlen_nonneg d). pose proof (zlen_nonneg (hlines_bytes hs)).
    pose proof (zlen_nonneg (h_ws h)). pose proof (zlen_nonneg (h_value h)). change (zlen [COLON]) with 1 in LL. change (zlen CRLF) with 2 in LL.
    assert (NZ : 0 < zlen (h_name h)) by (destruct OK as (NE&_); destruct (h_name h) as [|x y]; [congruence|rewrite zlen_cons; pose proof (zlen_nonneg y); lia]).
    destruct (bytes_sub m buf L _ (zlen pre) (zlen (h_name h)) HO HB' ltac:(lia) ltac:(lia) ltac:(lia)) as (O1&O2). rewrite slice_mid in O2.
    match goal with |- context [PEmit (EvField ?o ?l) (fun _ => PEmit (EvValue ?vo ?vl) ?k)] =>
      destruct (find_line m buf field n name k o l vo vl HA Hn NZ O1) as [(_&X)|(EQ&_)]; [rewrite O2 in X; destruct (D1 X)|rewrite EQ] end.
    destruct (IH D2 (done ++ [h]) (pre ++ hline_bytes h) d (upd (settle s) VFold (h_name h) (h_value h))) as (s'&E1&E2).
    + rewrite HB. cbn [hlines_bytes flat_map]. fold (hlines_bytes hs). rewrite <- !app_assoc. reflexivity.
    + rewrite <- app_assoc. exact V.
    + eapply HI_next; eauto.
    + exists s'. rewrite <- app_assoc in E2. split; [|exact E2]. rewrite !zlen_app in E1. rewrite E1, zlen_app. do 2 f_equal; lia.
Qed.
Lemma find_emit m buf evs : forall (t : ptree rst) x, Forall (fun e => match e with EvField _ _ | EvValue _ _ | EvHeadersComplete _ _ _ _ => False | _ => True end) evs ->
  find_tree m buf (emit evs t) x = find_tree m buf t x.
Proof. induction evs as [|e evs IH]; intros t x H; [auto|]. inversion H; subst. cbn [emit find_tree]. destruct e; cbn [find_callback bind]; try contradiction; auto. Qed.

(** ** Names in one piece *)
Definition nofield (e : pevent) : Prop := match e with EvField _ _ => False | _ => True end.
Lemma whole_app a : forall b, Forall nofield a -> whole_evs b -> whole_evs (a ++ b).
Proof.
  induction a as [|e a IH]; intros b H W; [exact W|]. inversion H; subst. intros x o l y Q. cbn [app] in Q.
  destruct x as [|e' x]; cbn [app] in Q; injection Q as -> Q; [contradiction|]. eapply (IH b); eauto.
Qed.
Lemma reports_emit evs (t : ptree rst) : fst (reports (emit evs t)) = evs ++ fst (reports t).
Proof. induction evs as [|e evs IH]; [reflexivity|]. cbn [emit reports]. destruct (reports (emit evs t)) as [a b]. cbn in *. rewrite IH. reflexivity. Qed.
Definition value_next (evs : list pevent) : Prop := evs = [] \/ exists vo vl b, evs = EvValue vo vl :: b.
Lemma whole_go d : forall s sp pos, (q_st s = Field -> sp < pos) ->
  let evs := fst (reports (go s d sp pos)) in whole_evs evs /\ ((q_st s = VWs \/ q_st s = Val) -> value_next evs).
Proof.
  assert (NIL : whole_evs []) by (intros a o l b Q; destruct a; discriminate).
  assert (ONE : forall e, nofield e -> whole_evs [e]) by (intros e N; apply (whole_app [e] []); auto).
  induction d as [|c d IH]; intros s sp pos H; cbn zeta; cbn [go].
  - rewrite reports_emit. cbn [reports fst]. rewrite app_nil_r. unfold flush. destruct (sp <? pos) eqn:E; [|split; [auto|left; auto]].
    destruct (q_st s) eqn:Q; (split; [|intros [X|X]; try discriminate]); auto; try (apply ONE; exact Logic.I).
    + intros a o l b Q2. destruct a as [|x [|]]; try discriminate. injection Q2 as <- <- <-. split; [lia|auto].
    + left. auto.
    + right. eauto.
  - destruct (step s c) as [ks s1] eqn:ES. rewrite reports_emit.
    set (rest := match q_st s1 with Dead e => _ | HEnd => _ | _ => _ end).
    assert (RW : whole_evs (fst (reports rest)) /\ ((q_st s1 = VWs \/ q_st s1 = Val) -> value_next (fst (reports rest)))).
    { assert (IN : whole_evs (fst (reports (go s1 d (next_sp s s1 ks sp pos) (pos + 1)))) /\ ((q_st s1 = VWs \/ q_st s1 = Val) -> value_next (fst (reports (go s1 d (next_sp s s1 ks sp pos) (pos + 1)))))).
      { apply IH. intros Q. unfold next_sp. assert (K : ks = []).
        { unfold step in ES. destruct (q_st s); repeat match type of ES with context [if ?b then _ else _] => destruct b end; try (injection ES as <- <-; auto; discriminate).
          all: try (destruct (hexval c); repeat match type of ES with context [if ?b then _ else _] => destruct b end; injection ES as <- <-; auto; fail).
          - unfold hstart, end_of_headers in ES. repeat match type of ES with context [if ?b then _ else _] => destruct b end; injection ES as <- <-; auto; discriminate.
          - cbn zeta in ES. destruct (q_st (interpret s)); unfold hstart, end_of_headers in ES; repeat match type of ES with context [if ?b then _ else _] => destruct b end; injection ES as <- <-; auto; discriminate.
          - unfold end_of_headers in ES. destruct (q_tr s); injection ES as <- <-; discriminate. }
        subst ks. rewrite Q. destruct (in_piece (q_st s)) eqn:IP; [|lia].
        assert (q_st s = Field); [|specialize (H H0); lia].
        unfold step in ES. destruct (q_st s) eqn:QS; try discriminate; try reflexivity;
          repeat match type of ES with context [if ?b then _ else _] => destruct b end; try discriminate; injection ES as <-; cbn in Q; rewrite ?QS in Q; discriminate. }
      unfold rest. destruct (q_st s1) eqn:Q; try exact IN.
      - split; [|intros [X|X]; discriminate]. cbn [reports]. destruct (after_hdrs true s1) as [ks2 s2] eqn:EA.
        destruct (reports (emit _ _)) as [a b] eqn:ER. cbn [fst]. apply (whole_app [_] a); [repeat constructor|].
        apply (f_equal fst) in ER. rewrite reports_emit in ER. cbn [fst] in ER. rewrite <- ER. apply whole_app.
        + unfold after_hdrs in EA. cbn [orb] in EA. injection EA as <- <-. repeat constructor.
        + apply IH. unfold after_hdrs in EA. cbn [orb] in EA. injection EA as <- <-. discriminate.
      - split; [exact NIL|left; reflexivity]. }
    destruct RW as (RW&RV).
    (* the names *)
    destruct (match ks with [KField] => true | _ => false end) eqn:KF.
    + destruct ks as [|[] [|]]; try discriminate. clear KF.
      assert (X : q_st s = Field /\ q_st s1 = VWs).
      { unfold step in ES. destruct (q_st s); repeat match type of ES with context [if ?b then _ else _] => destruct b end; try discriminate.
        all: try (destruct (hexval c); repeat match type of ES with context [if ?b then _ else _] => destruct b end; discriminate).
        - unfold hstart, end_of_headers in ES. repeat match type of ES with context [if ?b then _ else _] => destruct b end; discriminate.
        - injection ES as <-. auto.
        - cbn zeta in ES. destruct (q_st (interpret s)); unfold hstart, end_of_headers in ES; repeat match type of ES with context [if ?b then _ else _] => destruct b end; discriminate.
        - unfold end_of_headers in ES. destruct (q_tr s); discriminate. }
      destruct X as (X1&X2). specialize (H X1). specialize (RV (or_introl X2)). split; [|rewrite X1; intros [|]; discriminate].
      cbn [map event app]. intros a o l b Q. destruct a as [|e a]; cbn [app] in Q.
      * injection Q as <- <- <-. split; [lia|exact RV].
      * injection Q as _ Q. eapply RW; eauto.
    + assert (NF : Forall nofield (map (fun k => event s1 k sp pos) ks) /\ ((q_st s = VWs \/ q_st s = Val) -> (ks = [] /\ (q_st s1 = VWs \/ q_st s1 = Val)) \/ exists k, ks = [k] /\ (k = KValue \/ k = KEmptyValue))).
      { assert (HS : forall t, hstart t c = (ks, s1) -> Forall nofield (map (fun k => event s1 k sp pos) ks)).
        { intros t E. unfold hstart, end_of_headers in E. repeat match type of E with context [if ?b then _ else _] => destruct b end; injection E as <- <-; repeat constructor. }
        unfold step in ES. destruct (q_st s) eqn:QS; (split; [|intros [X|X]; try discriminate]);
          try (repeat match type of ES with context [if ?b then _ else _] => destruct b end; injection ES as <- <-; repeat constructor; try discriminate; fail).
        all: try (destruct (hexval c); repeat match type of ES with context [if ?b then _ else _] => destruct b end; injection ES as <- <-; repeat constructor; fail).
        - eapply HS; exact ES.
        - repeat match type of ES with context [if ?b then _ else _] => destruct b end; injection ES as <- <-; rewrite ?QS; eauto; left; auto.
        - repeat match type of ES with context [if ?b then _ else _] => destruct b end; injection ES as <- <-; cbn [set_name q_st]; rewrite ?QS; eauto; left; auto.
        - cbn zeta in ES. destruct (is_ws c); [injection ES as <- <-; constructor|]. destruct (q_st (interpret s)); try (eapply HS; exact ES). injection ES as <- <-; constructor.
        - unfold end_of_headers in ES. destruct (c =? LF); [destruct (q_tr s)|]; injection ES as <- <-; repeat constructor. }
      destruct NF as (NF&NV). split; [apply whole_app; auto|]. intros X. destruct (NV X) as [(->&Y)|(k&->&Y)].
      * apply RV. exact Y.
      * right. destruct Y as [-> | ->]; cbn [map event app]; eauto.
Qed.
Lemma refparser_whole : whole_names refparser.
Proof.
  intros d a o l b H. change (p_exec refparser (p_init refparser) d) with (rexec rinit d) in H.
  unfold rexec in H. destruct d as [|c d]; [destruct a; discriminate|]. change (q_st rinit) with Start in H. cbv iota in H.
  destruct (whole_go (c :: d) rinit 0 0) as (W&_); [discriminate|]. exact (W a o l b H).
Qed.

(** ** Reading a well-formed head *)
Lemma cl_valid_pre a b : cl_valid (a ++ b) -> cl_valid a.
Proof. intros V x h y E Q. apply (V x h (y ++ b)); [rewrite E, <- app_assoc; reflexivity|auto]. Qed.
Lemma find_head m buf L field n name resp hs d : object m buf L -> src_bytes m field n = Ret name -> 0 < n -> head_ok resp ->
  Forall hline_ok hs -> Forall (differs name) hs -> cl_valid hs -> bytes_at m buf L = status_bytes resp ++ hlines_bytes hs ++ d ->
  let p := zlen (status_bytes resp) + zlen (hlines_bytes hs) in
  exists s', find_tree m buf (p_exec refparser (p_init refparser) (bytes_at m buf L)) (fc0 field n) = find_tree m buf (go s' d p p) (fc0 field n) /\ HI (code_of resp) hs s'.
Proof.
  intros HO HA Hn OK FO FD V HB p.
  assert (EX : p_exec refparser (p_init refparser) (bytes_at m buf L) = go rinit (bytes_at m buf L) 0 0) by (rewrite HB; reflexivity).
  rewrite EX, HB, (go_status _ _ OK), find_emit by (repeat constructor).
  destruct (find_lines m buf L field n name (code_of resp) hs HO HA Hn FO FD [] (status_bytes resp) d (base HStart (code_of resp)) HB V) as (s'&E&J).
  - split; [left; reflexivity|]. cbn. repeat (split; [reflexivity|]). reflexivity.
  - exists s'. split; [exact E|exact J].
Qed.
Lemma find_here m buf L field n name code done s pre h d : object m buf L -> src_bytes m field n = Ret name -> 0 < n -> hline_ok h -> same_name name (h_name h) ->
  HI code done s -> bytes_at m buf L = pre ++ hline_bytes h ++ d ->
  find_tree m buf (go s (hline_bytes h ++ d) (zlen pre) (zlen pre)) (fc0 field n) =
    Ret (HPE_USER, mkfctx field n true true (Some (value_at buf (zlen pre + value_off h) (zlen (h_value h))))) /\
  bytes_at m (poff buf (zlen pre + value_off h)) (zlen (h_value h)) = h_value h.
Proof.
  intros HO HA Hn OK SN J HB.
  assert (HB' : bytes_at m buf L = pre ++ h_name h ++ ([COLON] ++ h_ws h ++ h_value h ++ CRLF) ++ d).
  { rewrite HB. unfold hline_bytes. rewrite <- !app_assoc. reflexivity. }
  assert (HB2 : bytes_at m buf L = (pre ++ h_name h ++ [COLON] ++ h_ws h) ++ h_value h ++ CRLF ++ d).
  { rewrite HB'. rewrite <- !app_assoc. reflexivity. }
  pose proof (bytes_at_len _ _ _ HO) as LL. pose proof LL as LL2. rewrite HB', !zlen_app in LL. 
  pose proof (zlen_nonneg pre). pose proof (zlen_nonneg (h_name h)). pose proof (zlen_nonneg d).
  pose proof (zlen_nonneg (h_ws h)). pose proof (zlen_nonneg (h_value h)). change (zlen [COLON]) with 1 in LL. change (zlen CRLF) with 2 in LL.
  assert (NZ : 0 < zlen (h_name h)) by (destruct OK as (NE&_); destruct (h_name h) as [|x y]; [congruence|rewrite zlen_cons; pose proof (zlen_nonneg y); lia]).
  destruct (bytes_sub m buf L _ (zlen pre) (zlen (h_name h)) HO HB' ltac:(lia) ltac:(lia) ltac:(lia)) as (O1&O2). rewrite slice_mid in O2.
  split.
  - rewrite (go_line s h _ _ OK) by apply J.
    match goal with |- context [PEmit (EvField ?o ?l) (fun _ => PEmit (EvValue ?vo ?vl) ?k)] =>
      destruct (find_line m buf field n name k o l vo vl HA Hn NZ O1) as [(X&_)|(_&X)]; [exact X|rewrite O2 in X; destruct (X SN)] end.
  - unfold value_off. destruct (bytes_sub m buf L _ (zlen pre + (zlen (h_name h) + 1 + zlen (h_ws h))) (zlen (h_value h)) HO HB2 ltac:(lia) ltac:(lia) ltac:(lia)) as (_&->).
    replace (zlen pre + (zlen (h_name h) + 1 + zlen (h_ws h))) with (zlen (pre ++ h_name h ++ [COLON] ++ h_ws h)) by (rewrite !zlen_app; change (zlen [COLON]) with 1; lia).
    apply slice_mid.
Qed.
(** The call itself, when its arguments are valid. *)
Lemma read_valid P m r buf L field n name : r_buf r = Some buf -> r_bufLen r = L -> object m buf L -> 0 < L -> src_bytes m field n = Ret name -> 0 < n ->
  ReadHeader P m (Some r) field n true true =
  ' (e, x) <- find_tree m buf (p_exec P (p_init P) (bytes_at m buf L)) (fc0 field n) ;;
  st <- (if negb (f_fieldFound x) then _ <- assert_at (negb (f_valueFound x)) 2488 ;; Ret HTTPHeaderNotFound
         else if negb (f_valueFound x) then Ret HTTPInvalidResponse else Ret HTTPSuccess) ;;
  Ret (match st, e with
    | HTTPSuccess, HPE_USER => HTTPSuccess
    | HTTPSuccess, _ => HTTPParserInternalError
    | HTTPHeaderNotFound, HPE_OK => HTTPHeaderNotFound
    | HTTPHeaderNotFound, _ => HTTPInvalidResponse
    | _, _ => st
    end, f_out x).
Proof.
  intros HB1 HB2 HB HL HA Hn. unfold ReadHeader. rewrite HB1, HB2.
  assert (NN : is_null field = false) by (destruct field; [discriminate| |]; reflexivity).
  replace (L =? 0) with false by lia. rewrite NN. replace (n =? 0) with false by lia. cbn [negb].
  unfold findHeaderInResponse. rewrite (loadn_ok _ _ _ HB). reflexivity.
Qed.
(** Nothing matches before a piece of text at which the parser stops without another event. *)
Lemma find_no_more m buf field n s d p : at_line s -> q_tr (settle s) = false ->
  (forall s2, q_st s2 = Start -> exists e s3, go s2 d (p + 2) (p + 2) = PDone e s3 /\ e = match d with [] => HPE_OK | _ => HPE_INVALID_CONSTANT end) ->
  find_tree m buf (go s (CRLF ++ d) p p) (fc0 field n) = Ret (match d with [] => HPE_OK | _ => HPE_INVALID_CONSTANT end, fc0 field n).
Proof.
  intros A T H. rewrite (go_blank s d p A T). cbn zeta. cbn [find_tree find_callback bind]. unfold after_hdrs. cbn [orb].
  cbn [map emit find_tree find_callback bind event]. destruct (H (to (to (settle s) HEnd) Start) eq_refl) as (e&s3&E&->). rewrite E. reflexivity.
Qed.
