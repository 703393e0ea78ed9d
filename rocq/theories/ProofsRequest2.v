(** ProofsRequest2.v — the public request-building functions. *)
From Verif Require Import Base Lib ModelRequest SpecRequest ProofsRequest ProofsDecimal.
From Coq Require Import Arith.

Lemma decimal_nat_legal n d : decimal_nat n d -> legal_value d.
Proof.
  intros (_&F&_). rewrite Forall_forall in F.
  split; intros I; specialize (F _ I); unfold CR, LF in F; lia.
Qed.
Lemma legal_app a b : legal_value a -> legal_value b -> legal_value (a ++ b).
Proof. intros (A1&A2) (B1&B2). split; intros I; apply in_app_or in I; tauto. Qed.
Lemma legal_lit d : all_legal false d = true -> legal_value d.
Proof. apply all_legal_value. Qed.
Lemma decimal_legal n d : decimal n d -> legal_value d.
Proof.
  unfold decimal. destruct (n <? 0).
  - intros (d'&->&H). apply (legal_app [45]); [apply legal_lit; reflexivity|].
    eapply decimal_nat_legal; eauto.
  - apply decimal_nat_legal.
Qed.
Lemma range_value_legal s e t : range_value s e t -> legal_value t /\ t <> [].
Proof.
  unfold range_value. destruct (e =? -1); [destruct (s <? 0)|].
  - intros (a&D&->). split; [|discriminate]. apply legal_app; [apply legal_lit; reflexivity|].
    eapply decimal_legal; eauto.
  - intros (a&D&->). split; [|discriminate]. apply legal_app; [apply legal_lit; reflexivity|].
    apply legal_app; [eapply decimal_legal; eauto|apply legal_lit; reflexivity].
  - intros (a&b&D&D'&->). split; [|discriminate]. apply legal_app; [apply legal_lit; reflexivity|].
    apply legal_app; [eapply decimal_legal; eauto|]. apply legal_app; [apply legal_lit; reflexivity|].
    eapply decimal_legal; eauto.
Qed.

Lemma arg_array m (a d : bytes) :
  zlen d <= zlen a -> arg m (SLit (splice a 0 d)) (zlen d) d.
Proof.
  intros H. pose proof (zlen_nonneg d). split; auto. rewrite splice_len by lia.
  split; auto. rewrite slice_splice_same; auto; lia.
Qed.

Lemma splice0_app (a d e : bytes) n : n = zlen d -> zlen d + zlen e <= zlen a ->
  splice (splice a 0 d) n e = splice a 0 (d ++ e).
Proof.
  intros -> H. replace (zlen d) with (0 + zlen d) by lia. apply splice_adj; lia.
Qed.

(** The value text AddRangeHeader builds. *)
Definition range_text (start rend : Z) : bytes :=
  if rend =? -1 then
    if start <? 0 then B "bytes=" ++ to_dec start
    else B "bytes=" ++ to_dec start ++ B "-"
  else B "bytes=" ++ to_dec start ++ B "-" ++ to_dec rend.

Lemma range_text_value start rend :
  INT32_MIN < start <= INT32_MAX -> -1 <= rend <= INT32_MAX -> range_value start rend (range_text start rend).
Proof.
  unfold INT32_MIN, INT32_MAX. intros H1 H2. unfold range_value, range_text.
  assert (D1 : decimal start (to_dec start)) by (apply to_dec_decimal; unfold is_int32, INT32_MIN, INT32_MAX; lia).
  assert (D2 : decimal rend (to_dec rend)) by (apply to_dec_decimal; unfold is_int32, INT32_MIN, INT32_MAX; lia).
  destruct (Z.eqb_spec rend (-1)); [destruct (Z.ltb_spec start 0)|].
  - exists (rev (rdig 11 (- start))). split.
    + unfold decimal. replace (- start <? 0) with false by lia.
      apply rdig_decimal. change (10 ^ Z.of_nat 11) with 100000000000. lia.
    + unfold to_dec. replace (start <? 0) with true by lia. reflexivity.
  - eexists; split; [exact D1|reflexivity].
  - eexists _, _; split; [exact D1|]. split; [exact D2|reflexivity].
Qed.

Lemma range_text_len start rend :
  INT32_MIN < start <= INT32_MAX -> -1 <= rend <= INT32_MAX -> (start < 0 -> rend = -1) ->
  1 <= zlen (range_text start rend) <= 27.
Proof.
  intros H1 H2 H3. unfold range_text.
  assert (LB : zlen (B "bytes=") = 6) by reflexivity. assert (LD : zlen (B "-") = 1) by reflexivity.
  assert (1 <= zlen (to_dec start) <= 11) by (apply to_dec_len; unfold is_int32, INT32_MIN, INT32_MAX in *; lia).
  destruct (Z.eqb_spec rend (-1)); [destruct (Z.ltb_spec start 0)|]; rewrite ?zlen_app, ?LB, ?LD.
  - lia.
  - lia.
  - pose proof (to_dec_len_nonneg start). pose proof (to_dec_len_nonneg rend). lia.
Qed.

Lemma addRangeHeader_at cfg m h start rend :
  INT32_MIN < start <= INT32_MAX -> -1 <= rend <= INT32_MAX -> (start < 0 -> rend = -1) ->
  let a := splice (repeat 0 27) 0 (range_text start rend) in arg m (SLit a) (zlen (range_text start rend)) (range_text start rend) /\
    addRangeHeader cfg m h start rend
    = addHeader cfg m h (SLit HTTP_RANGE_REQUEST_HEADER_FIELD) (zlen HTTP_RANGE_REQUEST_HEADER_FIELD)
                (SLit a) (zlen (range_text start rend)).
Proof.
  intros H1 H2 H3.
  cbv zeta.
  pose proof (range_text_len _ _ H1 H2 H3) as HL.
  assert (LA : zlen (repeat 0 27) = 27) by reflexivity.
  split; [apply arg_array; lia|].
  unfold addRangeHeader. change (Z.to_nat HTTP_MAX_RANGE_REQUEST_VALUE_LEN) with 27%nat.
  set (A := repeat 0 27) in *.
  change HTTP_RANGE_REQUEST_HEADER_VALUE_PREFIX with (B "bytes=").
  assert (LB : zlen (B "bytes=") = 6) by reflexivity.
  assert (LD : zlen [DASH] = 1) by reflexivity.
  assert (LS : 1 <= zlen (to_dec start) <= 11) by (apply to_dec_len; unfold is_int32, INT32_MIN, INT32_MAX in *; lia).
  rewrite conv_ok; [|lia|lia|rewrite splice_len; lia|rewrite splice_len; lia].
  cbn [bind]. rewrite splice0_app by lia.
  set (d1 := B "bytes=" ++ to_dec start).
  assert (L1 : zlen (B "bytes=") + zlen (to_dec start) = zlen d1) by (unfold d1; rewrite zlen_app; lia).
  rewrite L1. unfold HTTP_RANGE_REQUEST_END_OF_FILE.
  assert (LSA : forall d, zlen d <= 27 -> zlen (splice A 0 d) = 27) by (intros; rewrite splice_len; lia).
  assert (Ld1 : zlen d1 <= 17) by lia.
  destruct (Z.eqb_spec rend (-1)) as [Er|Nr]; cbn [negb].
  - destruct (Z.leb_spec 0 start).
    + rewrite aset_ok by (rewrite LSA; lia). cbn [bind].
      rewrite splice0_app by lia. cbn [bind].
      assert (RT : range_text start rend = d1 ++ [DASH]).
      { unfold range_text, d1. subst rend. simpl (-1 =? -1). replace (start <? 0) with false by lia.
        rewrite <- app_assoc. reflexivity. }
      rewrite RT, zlen_app, LD. reflexivity.
    + cbn [bind].
      assert (RT : range_text start rend = d1).
      { unfold range_text, d1. subst rend. simpl (-1 =? -1). replace (start <? 0) with true by lia. reflexivity. }
      rewrite RT. reflexivity.
  - assert (0 <= start) by lia. assert (0 <= rend) by lia.
    pose proof (to_dec_len_nonneg start ltac:(lia)). pose proof (to_dec_len_nonneg rend ltac:(lia)).
    rewrite aset_ok by (rewrite LSA; lia). cbn [bind].
    rewrite splice0_app by lia.
    assert (L2 : zlen (d1 ++ [DASH]) = zlen d1 + 1) by (rewrite zlen_app; lia).
    rewrite conv_ok; [|unfold INT32_MIN; lia|lia|rewrite LSA; lia|rewrite LSA; lia].
    cbn [bind]. rewrite splice0_app by lia. cbn [bind].
    assert (RT : range_text start rend = (d1 ++ [DASH]) ++ to_dec rend).
    { unfold range_text, d1. replace (rend =? -1) with false by lia. rewrite <- !app_assoc. reflexivity. }
    rewrite RT, zlen_app, L2. reflexivity.
Qed.
Lemma addRangeHeader_ok cfg m h start rend :
  INT32_MIN < start <= INT32_MAX -> -1 <= rend <= INT32_MAX -> (start < 0 -> rend = -1) ->
  exists a, arg m (SLit a) (zlen (range_text start rend)) (range_text start rend) /\
    addRangeHeader cfg m h start rend
    = addHeader cfg m h (SLit HTTP_RANGE_REQUEST_HEADER_FIELD) (zlen HTTP_RANGE_REQUEST_HEADER_FIELD)
                (SLit a) (zlen (range_text start rend)).
Proof. intros. eexists. apply addRangeHeader_at; auto. Qed.

(** ** HTTPClient_AddHeader *)
Lemma AddHeader_unfold cfg m h buf field fl value vl :
  rh_buf h = Some buf -> is_null field = false -> is_null value = false -> fl <> 0 -> vl <> 0 ->
  rh_len h <= rh_bufLen h ->
  AddHeader cfg m (Some h) field fl value vl =
  (' (st, h', m') <- addHeader cfg m h field fl value vl ;; Ret (st, Some h', m')).
Proof.
  intros Hb N1 N2 Z1 Z2 L. unfold AddHeader. rewrite Hb, N1, N2.
  replace (fl =? 0) with false by lia. replace (vl =? 0) with false by lia.
  replace (rh_bufLen h <? rh_len h) with false by lia. reflexivity.
Qed.

Definition add_outcome (m : mem) (h : reqHeaders) (buf : ptr) (bufLen : Z) (req f v : bytes)
           (st : status) (h' : reqHeaders) (m' : mem) : Prop :=
  exists o, opened req o /\ zlen o <= zlen req /\
    ((st = HTTPInsufficientMemory /\ bufLen < zlen o + zlen f + zlen v + 6 /\ h' = h /\ m' = m) \/
     (st = HTTPSecurityAlertInvalidCharacter /\ zlen o + zlen f + zlen v + 6 <= bufLen /\
      ~ (legal_field f /\ legal_value v) /\ h' = h /\
      same_outside m m' (poff buf (zlen o)) (zlen f + zlen v + 2)) \/
     (st = HTTPSuccess /\ zlen o + zlen f + zlen v + 6 <= bufLen /\ legal_field f /\ legal_value v /\
      holds m' h' buf bufLen (o ++ header_line f v ++ CRLF) /\
      same_outside m m' (poff buf (zlen o)) (zlen f + zlen v + 6))).

Lemma addHeader_outcome cfg m h buf bufLen req field fl value vl f v :
  holds m h buf bufLen req ->
  arg_for m buf bufLen field fl f -> arg_for m buf bufLen value vl v -> 0 < fl -> 0 < vl ->
  bufLen + fl + vl + 6 < SZ cfg ->
  exists st h' m', addHeader cfg m h field fl value vl = Ret (st, h', m') /\
    add_outcome m h buf bufLen req f v st h' m'.
Proof.
  intros H Af Av Pf Pv W.
  pose proof Af as ((Lf&_)&_). pose proof Av as ((Lv&_)&_).
  destruct (addHeader_holds cfg m h buf bufLen req field fl value vl f v H Af Av Pf Pv W)
    as (o&OP&LO&[(C&E)|[(C&N&m'&E&S)|(C&L1&L2&h'&m'&E&Hh&S)]]).
  - exists HTTPInsufficientMemory, h, m. split; auto. exists o. split; auto. split; auto.
    left. split; auto. split; [lia|auto].
  - exists HTTPSecurityAlertInvalidCharacter, h, m'. split; auto. exists o. split; auto. split; auto.
    right; left. split; auto. split; [lia|]. split; auto. split; auto. rewrite Lf, Lv. auto.
  - exists HTTPSuccess, h', m'. split; auto. exists o. split; auto. split; auto.
    right; right. split; auto. split; [lia|]. split; auto. split; auto. split; auto. rewrite Lf, Lv. auto.
Qed.

Lemma AddHeader_outcome cfg m h buf bufLen req field fl value vl f v :
  holds m h buf bufLen req ->
  arg_for m buf bufLen field fl f -> arg_for m buf bufLen value vl v -> 0 < fl -> 0 < vl ->
  bufLen + fl + vl + 6 < SZ cfg ->
  exists st h' m', AddHeader cfg m (Some h) field fl value vl = Ret (st, Some h', m') /\
    add_outcome m h buf bufLen req f v st h' m'.
Proof.
  intros H Af Av Pf Pv W.
  destruct (addHeader_outcome cfg m h buf bufLen req field fl value vl f v H Af Av Pf Pv W)
    as (st&h'&m'&E&O).
  destruct H as (Hb&HB&_&Hl&_). destruct Af as (Af&_). destruct Av as (Av&_).
  exists st, h', m'. split; auto.
  rewrite (AddHeader_unfold cfg m h buf); auto; try lia.
  - rewrite E. reflexivity.
  - eapply arg_not_null; eauto.
  - eapply arg_not_null; eauto.
Qed.

Lemma arg_for_lit m buf n l : arg_for m buf n (SLit l) (zlen l) l.
Proof. split; [apply arg_lit|exact I]. Qed.

(** ** HTTPClient_AddRangeHeader *)
Lemma AddRangeHeader_outcome cfg m h buf bufLen req start rend :
  holds m h buf bufLen req -> is_int32 start -> is_int32 rend ->
  bufLen + 38 < SZ cfg ->
  (range_rejected start rend /\
   AddRangeHeader cfg m (Some h) start rend = Ret (HTTPInvalidParameter, Some h, m)) \/
  (~ range_rejected start rend /\
   exists t st h' m', range_value start rend t /\ zlen t <= 27 /\
     AddRangeHeader cfg m (Some h) start rend = Ret (st, Some h', m') /\
     add_outcome m h buf bufLen req (B "Range") t st h' m').
Proof.
  intros H I1 I2 W. pose proof H as (Hb&HB&_&Hl&_).
  unfold AddRangeHeader. rewrite Hb. unfold HTTP_RANGE_REQUEST_END_OF_FILE.
  replace (rh_bufLen h <? rh_len h) with false by lia.
  unfold range_rejected. unfold is_int32 in *.
  destruct (Z.ltb_spec rend (-1)); [left; split; [lia|auto]|].
  destruct (Z.ltb_spec start 0); destruct (Z.eqb_spec rend (-1)); cbn [negb andb];
    try (left; split; [lia|reflexivity]).
  - destruct (Z.eqb_spec start INT32_MIN); [left; split; [lia|auto]|]. right. split; [lia|].
    destruct (addRangeHeader_ok cfg m h start rend) as (a&A&E); try lia.
    pose proof (range_text_len start rend ltac:(lia) ltac:(lia) ltac:(lia)).
    destruct (addHeader_outcome cfg m h buf bufLen req (SLit HTTP_RANGE_REQUEST_HEADER_FIELD)
      (zlen HTTP_RANGE_REQUEST_HEADER_FIELD) (SLit a) (zlen (range_text start rend)) (B "Range")
      (range_text start rend)) as (st&h'&m'&E'&O); auto.
    + apply arg_for_lit. + split; auto. exact I. + reflexivity. + lia.
    + change (zlen HTTP_RANGE_REQUEST_HEADER_FIELD) with 5. lia.
    + exists (range_text start rend), st, h', m'. split; [apply range_text_value; lia|].
      split; [lia|]. split; auto. rewrite E, E'. reflexivity.
  - destruct (Z.eqb_spec start INT32_MIN); [unfold INT32_MIN in *; lia|]. right. split; [lia|].
    destruct (addRangeHeader_ok cfg m h start rend) as (a&A&E); try lia.
    pose proof (range_text_len start rend ltac:(lia) ltac:(lia) ltac:(lia)).
    destruct (addHeader_outcome cfg m h buf bufLen req (SLit HTTP_RANGE_REQUEST_HEADER_FIELD)
      (zlen HTTP_RANGE_REQUEST_HEADER_FIELD) (SLit a) (zlen (range_text start rend)) (B "Range")
      (range_text start rend)) as (st&h'&m'&E'&O); auto.
    + apply arg_for_lit. + split; auto. exact I. + reflexivity. + lia.
    + change (zlen HTTP_RANGE_REQUEST_HEADER_FIELD) with 5. lia.
    + exists (range_text start rend), st, h', m'. split; [apply range_text_value; lia|].
      split; [lia|]. split; auto. rewrite E, E'. reflexivity.
  - destruct (Z.ltb_spec rend start); [left; split; [lia|reflexivity]|].
    destruct (Z.eqb_spec start INT32_MIN); [unfold INT32_MIN in *; lia|]. right. split; [lia|].
    destruct (addRangeHeader_ok cfg m h start rend) as (a&A&E); try lia.
    pose proof (range_text_len start rend ltac:(lia) ltac:(lia) ltac:(lia)).
    destruct (addHeader_outcome cfg m h buf bufLen req (SLit HTTP_RANGE_REQUEST_HEADER_FIELD)
      (zlen HTTP_RANGE_REQUEST_HEADER_FIELD) (SLit a) (zlen (range_text start rend)) (B "Range")
      (range_text start rend)) as (st&h'&m'&E'&O); auto.
    + apply arg_for_lit. + split; auto. exact I. + reflexivity. + lia.
    + change (zlen HTTP_RANGE_REQUEST_HEADER_FIELD) with 5. lia.
    + exists (range_text start rend), st, h', m'. split; [apply range_text_value; lia|].
      split; [lia|]. split; auto. rewrite E, E'. reflexivity.
Qed.

(** ** HTTPClient_InitializeRequestHeaders *)
Lemma not_end4 x : ~ ends_with (x ++ B "1" ++ CRLF) (CRLF ++ CRLF).
Proof.
  intros (pre&E). apply (f_equal (@rev Z)) in E. rewrite !rev_app_distr in E. simpl in E. discriminate.
Qed.
Lemma opened_request_line me p o : opened (request_line me p) o -> o = request_line me p.
Proof.
  intros H. eapply opened_fun; eauto. right. split; auto. unfold request_line.
  replace (me ++ B " " ++ p ++ B " HTTP/1.1" ++ CRLF)
    with ((me ++ B " " ++ p ++ B " HTTP/1.") ++ B "1" ++ CRLF).
  apply not_end4. rewrite <- !app_assoc. reflexivity.
Qed.

Lemma land1 f : Z.land 1 f = 0 <-> Z.testbit f 0 = false.
Proof.
  rewrite Z.land_comm. split; intros H.
  - apply (f_equal (fun x => Z.testbit x 0)) in H. rewrite Z.land_spec in H.
    change (Z.testbit 1 0) with true in H. rewrite andb_true_r in H. rewrite H. reflexivity.
  - apply Z.bits_inj'. intros n Hn. rewrite Z.land_spec, Z.bits_0.
    destruct (Z.eq_dec n 0) as [->|]; [rewrite H; auto|].
    change 1 with (2 ^ 0). rewrite Z.pow2_bits_false by lia. apply andb_false_r.
Qed.
Lemma land2 f : Z.land 2 f = 0 <-> Z.testbit f 1 = false.
Proof.
  rewrite Z.land_comm. split; intros H.
  - apply (f_equal (fun x => Z.testbit x 1)) in H. rewrite Z.land_spec in H.
    change (Z.testbit 2 1) with true in H. rewrite andb_true_r in H. rewrite H. reflexivity.
  - apply Z.bits_inj'. intros n Hn. rewrite Z.land_spec, Z.bits_0.
    destruct (Z.eq_dec n 1) as [->|]; [rewrite H; auto|].
    change 2 with (2 ^ 1). rewrite Z.pow2_bits_false by lia. apply andb_false_r.
Qed.

Lemma header_line_len f v : zlen (header_line f v) = zlen f + zlen v + 4.
Proof. unfold header_line. rewrite !zlen_app. change (zlen (B ": ")) with 2. change (zlen CRLF) with 2. lia. Qed.

(** One internal header on top of a request that is open or already terminated. *)
Lemma add_step cfg m h buf bufLen req field value vl f v o :
  holds m h buf bufLen req -> opened req o ->
  field = SLit f -> f <> [] -> legal_field f ->
  arg_for m buf bufLen value vl v -> 0 < vl -> bufLen + zlen f + vl + 6 < SZ cfg ->
  exists st h' m', addHeader cfg m h field (zlen f) value vl = Ret (st, h', m') /\
    same_outside m m' buf bufLen /\ rh_buf h' = Some buf /\ rh_bufLen h' = bufLen /\ 0 <= rh_len h' <= bufLen /\
    st = (if bufLen <? zlen (o ++ header_line f v ++ CRLF) then HTTPInsufficientMemory
          else if all_legal false v then HTTPSuccess else HTTPSecurityAlertInvalidCharacter) /\
    (st = HTTPSuccess -> holds m' h' buf bufLen (o ++ header_line f v ++ CRLF) /\
                         same_outside m m' buf (zlen (o ++ header_line f v ++ CRLF))).
Proof.
  intros H OP -> Nf Lgf Av Pv W.
  assert (0 < zlen f) by (destruct f; [congruence|zlia]).
  destruct (addHeader_outcome cfg m h buf bufLen req (SLit f) (zlen f) value vl f v)
    as (st&h'&m'&E&o'&OP'&LO&D); auto; [apply arg_for_lit|].
  pose proof (opened_fun _ _ _ OP OP'). subst o'.
  pose proof Av as ((Lv&_)&_). pose proof H as (Hb&HB&O&Hl&_).
  exists st, h', m'. split; auto.
  assert (LT : zlen (o ++ header_line f v ++ CRLF) = zlen o + zlen f + vl + 6).
  { rewrite !zlen_app, header_line_len. change (zlen CRLF) with 2. lia. }
  rewrite LT.
  destruct D as [(->&C&->&->)|[(->&C&N&->&S)|(->&C&L1&L2&Hh&S)]].
  - split; [apply same_outside_refl|]. split; auto. split; auto. split; auto. split.
    + replace (_ <? _) with true by lia. auto.
    + discriminate.
  - split; [eapply same_outside_weaken; eauto; cbn [poff po]; zlia|].
    split; auto. split; auto. split; auto. split; [|discriminate].
    replace (bufLen <? _) with false by lia.
    destruct (all_legal false v) eqn:Ev; auto. exfalso. apply N. split; auto. apply all_legal_value; auto.
  - split; [eapply same_outside_weaken; eauto; cbn [poff po]; zlia|].
    pose proof Hh as (Hb'&HB'&_&Hl'&_). split; auto. split; auto. split; auto. split; auto.
    replace (bufLen <? _) with false by lia. apply all_legal_value in L2. rewrite L2. split; auto.
    intros _. split; auto. eapply same_outside_weaken; eauto; cbn [poff po]; zlia.
Qed.

Lemma is_success_eq st : is_success st = true <-> st = HTTPSuccess.
Proof. destruct st; simpl; split; congruence. Qed.

Lemma Init_outcome cfg m h buf ri me p ho :
  config_ok cfg ->
  rh_buf h = Some buf -> object m buf (rh_bufLen h) ->
  init_args cfg m buf (rh_bufLen h) ri me p ho ->
  let n := rh_bufLen h in
  exists st h' m', InitializeRequestHeaders cfg m (Some h) (Some ri) = Ret (st, Some h', m') /\
    same_outside m m' buf n /\ rh_buf h' = Some buf /\ rh_bufLen h' = n /\ 0 <= rh_len h' <= n /\
    st = (if n <? zlen (host_part (UA cfg) (ri_flags ri) me p ho ++ CRLF) then HTTPInsufficientMemory
          else if negb (all_legal false ho) then HTTPSecurityAlertInvalidCharacter
          else if n <? zlen (init_request (UA cfg) (ri_flags ri) me p ho) then HTTPInsufficientMemory
          else HTTPSuccess) /\
    (st = HTTPSuccess -> holds m' h' buf n (init_request (UA cfg) (ri_flags ri) me p ho) /\
                         same_outside m m' buf (zlen (init_request (UA cfg) (ri_flags ri) me p ho))).
Proof.
  intros (_&UAn&UAl&UAs&_&_) Hb O ((Am&Dm)&Pm&Pp&Hpl&Dp&Ah&Ph&W) n.
  unfold InitializeRequestHeaders. rewrite Hb.
  pose proof Ah as (Ah1&Dh).
  rewrite (arg_not_null _ _ _ _ Am), (arg_not_null _ _ _ _ Ah1).
  replace (ri_methodLen ri =? 0) with false by lia. replace (ri_hostLen ri =? 0) with false by lia.
  assert (0 < zlen (UA cfg)) by (destruct (UA cfg); [congruence|zlia]).
  unfold andThen.
  rewrite (writeRequestLine_ok cfg m (set_rh_len h 0) buf _ _ _ _ me p); auto; try (unfold set_rh_len; cbn [rh_len rh_bufLen]; auto; lia).
  cbn [set_rh_len rh_len rh_bufLen rh_buf]. rewrite Z.add_0_r.
  assert (En : rh_bufLen h = n) by reflexivity. clearbody n. rewrite En in *.
  set (rl := request_line me p).
  set (ual := if Z.testbit (ri_flags ri) 1 then [] else header_line (B "User-Agent") (UA cfg)).
  set (hl := header_line (B "Host") ho).
  set (kal := if Z.testbit (ri_flags ri) 0 then header_line (B "Connection") (B "keep-alive") else []).
  assert (EH : host_part (UA cfg) (ri_flags ri) me p ho = rl ++ ual ++ hl) by reflexivity.
  assert (EI : init_request (UA cfg) (ri_flags ri) me p ho = (rl ++ ual ++ hl) ++ kal ++ CRLF) by reflexivity.
  rewrite EH, EI. assert (LC : zlen CRLF = 2) by reflexivity.
  pose proof O as (On&Op&Ob).
  destruct (Z.ltb_spec n (zlen rl)) as [Small|Fit]; cbn [bind is_success].
  { do 3 eexists. split; [reflexivity|]. split; [apply same_outside_refl|]. cbn [rh_buf rh_bufLen rh_len].
    split; [auto|]. split; [auto|]. split; [unfold set_rh_len; cbn [rh_len]; lia|]. split; [|discriminate].
    replace (_ <? _) with true by zlia. reflexivity. }
  set (m1 := write m buf rl). set (h1 := mkrh (rh_buf h) (rh_bufLen h) (zlen rl)).
  change (set_rh_len (set_rh_len h 0) (zlen rl)) with h1.
  assert (Orl : object m buf (zlen rl)) by obj.
  assert (S1 : same_outside m m1 buf n).
  { eapply same_outside_weaken; [apply same_outside_write; exact Orl|auto|lia|zlia]. }
  assert (H1 : holds m1 h1 buf n rl).
  { split; auto. split; auto. split; [apply object_write; auto|]. split; [unfold h1; cbn [rh_len]; zlia|].
    symmetry. apply bytes_at_write_same; auto. }
  (* User-Agent *)
  assert (STEP : exists st2 h2 m2,
    (if Z.land HTTP_REQUEST_NO_USER_AGENT_FLAG (ri_flags ri) =? 0
     then addHeader cfg m1 h1 (SLit HTTP_USER_AGENT_FIELD) (zlen HTTP_USER_AGENT_FIELD)
                    (SLit (UA cfg)) (zlen (UA cfg))
     else Ret (HTTPSuccess, h1, m1)) = Ret (st2, h2, m2) /\
    same_outside m m2 buf n /\ rh_buf h2 = Some buf /\ rh_bufLen h2 = n /\ 0 <= rh_len h2 <= n /\
    ((st2 = HTTPInsufficientMemory /\ n < zlen (rl ++ ual ++ CRLF) /\ ual <> []) \/
     (st2 = HTTPSuccess /\ exists r2, holds m2 h2 buf n r2 /\ opened r2 (rl ++ ual) /\
        same_outside m m2 buf (zlen (rl ++ ual ++ CRLF))))).
  { unfold HTTP_REQUEST_NO_USER_AGENT_FLAG. unfold ual.
    destruct (Z.testbit (ri_flags ri) 1) eqn:F1.
    - replace (Z.land 2 (ri_flags ri) =? 0) with false.
      2:{ symmetry. apply Z.eqb_neq. intros X. apply land2 in X. congruence. }
      do 3 eexists. split; [reflexivity|]. split; auto. split; auto. split; auto. split; [unfold h1; cbn; zlia|].
      right. split; auto. exists rl. split; auto. rewrite app_nil_r.
      split; [|eapply same_outside_weaken; [apply same_outside_write; exact Orl|auto|lia|zlia]].
      right. split; auto.
      unfold rl, request_line.
      replace (me ++ B " " ++ p ++ B " HTTP/1.1" ++ CRLF)
        with ((me ++ B " " ++ p ++ B " HTTP/1.") ++ B "1" ++ CRLF) by (rewrite <- !app_assoc; reflexivity).
      apply not_end4.
    - replace (Z.land 2 (ri_flags ri) =? 0) with true.
      2:{ symmetry. apply Z.eqb_eq. apply land2. auto. }
      destruct (add_step cfg m1 h1 buf n rl (SLit (B "User-Agent")) (SLit (UA cfg)) (zlen (UA cfg))
                 (B "User-Agent") (UA cfg) rl) as (st2&h2&m2&E2&S2&B1&B2&B3&St&Ho2); auto.
      { right. split; auto. unfold rl, request_line.
        replace (me ++ B " " ++ p ++ B " HTTP/1.1" ++ CRLF)
          with ((me ++ B " " ++ p ++ B " HTTP/1.") ++ B "1" ++ CRLF) by (rewrite <- !app_assoc; reflexivity).
        apply not_end4. }
      { discriminate. }
      { apply all_legal_field. reflexivity. }
      { apply arg_for_lit. }
      { change (zlen (B "User-Agent")) with 10. lia. }
      exists st2, h2, m2. split; [exact E2|]. split; [eapply same_outside_trans; eauto|].
      split; auto. split; auto. split; auto.
      apply all_legal_value in UAl. rewrite UAl in St.
      destruct (Z.ltb_spec n (zlen (rl ++ header_line (B "User-Agent") (UA cfg) ++ CRLF))); subst st2.
      + left. split; auto. split; [auto|discriminate].
      + right. split; auto. destruct (Ho2 eq_refl) as (Ho2'&Ho2s). eexists; split; [exact Ho2'|].
        split.
        2:{ eapply same_outside_trans; [|exact Ho2s].
            eapply same_outside_weaken; [apply same_outside_write; exact Orl|auto|lia|zlia]. }
        left. exists (rl ++ B "User-Agent" ++ B ": " ++ UA cfg). unfold header_line.
        rewrite <- !app_assoc. auto. }
  destruct STEP as (st2&h2&m2&->&S2&B1&B2&B3&[(->&C&NN)|(->&r2&H2&OP2&SR2)]); cbn [bind is_success].
  { do 3 eexists. split; [reflexivity|]. split; auto. split; auto. split; auto. split; auto.
    split; [|discriminate].
    replace (n <? zlen ((rl ++ ual ++ hl) ++ CRLF)) with true; auto.
    rewrite !zlen_app in *. zlia. }
  (* Host *)
  destruct (add_step cfg m2 h2 buf n r2 (SLit (B "Host")) (ri_host ri) (ri_hostLen ri)
             (B "Host") ho (rl ++ ual)) as (st3&h3&m3&E3&S3&C1&C2&C3&St&Ho3); auto.
  { discriminate. }
  { apply all_legal_field. reflexivity. }
  { split; auto. exact (arg_same _ _ _ _ _ _ _ Ah1 S2 Dh). }
  { change (zlen (B "Host")) with 4. zlia. }
  change HTTP_HOST_FIELD with (B "Host"). rewrite E3. cbn [bind].
  assert (S3' : same_outside m m3 buf n) by (eapply same_outside_trans; eauto).
  replace ((rl ++ ual) ++ header_line (B "Host") ho ++ CRLF) with ((rl ++ ual ++ hl) ++ CRLF) in *
    by (unfold hl; rewrite <- !app_assoc; reflexivity).
  destruct (Z.ltb_spec n (zlen ((rl ++ ual ++ hl) ++ CRLF))) as [Small3|Fit3].
  { subst st3. cbn [is_success]. cbn [bind]. do 3 eexists. split; [reflexivity|]. do 5 (split; [auto|]). discriminate. }
  destruct (all_legal false ho) eqn:Lho; subst st3; cbn [is_success negb bind].
  2:{ do 3 eexists. split; [reflexivity|]. do 5 (split; [auto|]). discriminate. }
  destruct (Ho3 eq_refl) as (Ho3'&SR3).
  assert (SR : same_outside m m3 buf (zlen ((rl ++ ual ++ hl) ++ CRLF))).
  { eapply same_outside_trans; [|exact SR3].
    eapply same_outside_weaken; [exact SR2|auto|lia|rewrite !zlen_app; zlia]. }
  (* Connection *)
  unfold HTTP_REQUEST_KEEP_ALIVE_FLAG. unfold kal.
  destruct (Z.testbit (ri_flags ri) 0) eqn:F0.
  - replace (Z.land 1 (ri_flags ri) =? 0) with false.
    2:{ symmetry. apply Z.eqb_neq. intros X. apply land1 in X. congruence. }
    cbn [negb].
    destruct (add_step cfg m3 h3 buf n ((rl ++ ual ++ hl) ++ CRLF) (SLit (B "Connection")) (SLit (B "keep-alive"))
               (zlen (B "keep-alive")) (B "Connection") (B "keep-alive") (rl ++ ual ++ hl))
      as (st4&h4&m4&E4&S4&D1&D2&D3&St&Ho4); auto.
    { left. exists (rl ++ ual ++ B "Host" ++ B ": " ++ ho). unfold hl, header_line.
      rewrite <- !app_assoc. auto. }
    { discriminate. }
    { apply all_legal_field. reflexivity. }
    { apply arg_for_lit. }
    { reflexivity. }
    { change (zlen (B "Connection")) with 10. change (zlen (B "keep-alive")) with 10. zlia. }
    change HTTP_CONNECTION_FIELD with (B "Connection").
    change HTTP_CONNECTION_KEEP_ALIVE_VALUE with (B "keep-alive").
    rewrite E4. cbn [bind]. change (all_legal false (B "keep-alive")) with true in St. cbv iota in St.
    exists st4, h4, m4. split; auto. split; [eapply same_outside_trans; eauto|].
    do 4 (split; [auto|]). intros X. destruct (Ho4 X) as (Q1&Q2). split; [exact Q1|].
    eapply same_outside_trans; [|exact Q2].
    eapply same_outside_weaken; [exact SR|auto|lia|rewrite !zlen_app; zlia].
  - replace (Z.land 1 (ri_flags ri) =? 0) with true.
    2:{ symmetry. apply Z.eqb_eq. apply land1. auto. }
    cbn [negb bind]. do 3 eexists. split; [reflexivity|].
    do 4 (split; [auto|]). simpl app.
    replace (n <? zlen ((rl ++ ual ++ hl) ++ CRLF)) with false by lia. auto.
  - unfold set_rh_len. cbn [rh_len]. pose proof (zlen_nonneg (UA cfg)). destruct O. lia.
Qed.
