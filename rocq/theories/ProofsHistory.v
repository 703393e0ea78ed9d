(** ProofsHistory.v — sequences of request-building calls; the line-splitting reader. *)
From Verif Require Import Base Lib ModelRequest SpecRequest ProofsRequest ProofsDecimal ProofsRequest2.
From Coq Require Import Arith.

Lemma is_null_spec s : is_null s = true <-> s = SNull.
Proof. destruct s; simpl; split; congruence. Qed.

(** ** Invalid parameters *)
Lemma Init_invalid cfg m prh pri : init_invalid prh pri ->
  InitializeRequestHeaders cfg m prh pri = Ret (HTTPInvalidParameter, prh, m).
Proof.
  unfold InitializeRequestHeaders. intros H. destruct prh as [h|]; auto.
  destruct (rh_buf h) eqn:Eb; auto. destruct pri as [ri|]; auto.
  destruct H as [H|[(h'&X&Y)|[H|(ri'&X&H)]]]; try congruence. injection X as <-.
  destruct (is_null (ri_method ri)) eqn:E1; auto.
  destruct (is_null (ri_host ri)) eqn:E2; auto.
  destruct (Z.eqb_spec (ri_methodLen ri) 0); auto. destruct (Z.eqb_spec (ri_hostLen ri) 0); auto.
  destruct H as [H|[H|[H|H]]]; try congruence; rewrite H in *; discriminate.
Qed.
Lemma AddHeader_invalid cfg m prh f fl v vl : add_invalid prh f fl v vl ->
  AddHeader cfg m prh f fl v vl = Ret (HTTPInvalidParameter, prh, m).
Proof.
  unfold AddHeader. intros H. destruct prh as [h|]; auto.
  destruct (rh_buf h) eqn:Eb; auto.
  destruct (is_null f) eqn:E1; auto. destruct (is_null v) eqn:E2; auto.
  destruct (Z.eqb_spec fl 0); auto. destruct (Z.eqb_spec vl 0); auto.
  destruct (Z.ltb_spec (rh_bufLen h) (rh_len h)); auto.
  destruct H as [H|[(h'&X&[Y|Y])|[H|[H|[H|H]]]]]; try congruence; subst; try discriminate.
  injection X as <-. lia.
Qed.
Lemma AddRangeHeader_invalid cfg m prh s e : is_int32 s -> range_invalid prh s e ->
  AddRangeHeader cfg m prh s e = Ret (HTTPInvalidParameter, prh, m).
Proof.
  unfold AddRangeHeader, HTTP_RANGE_REQUEST_END_OF_FILE, is_int32, range_invalid, range_rejected.
  intros Is H. destruct prh as [h|]; auto.
  destruct (rh_buf h) eqn:Eb; auto.
  destruct (Z.ltb_spec (rh_bufLen h) (rh_len h)); auto.
  destruct (Z.ltb_spec e (-1)); auto.
  destruct (Z.ltb_spec s 0); destruct (Z.eqb_spec e (-1)); cbn [negb andb]; auto;
  try destruct (Z.ltb_spec e s); auto; destruct (Z.eqb_spec s INT32_MIN); auto;
  (destruct H as [H|[(h'&X&[Y|Y])|H]]; [congruence|congruence|injection X as <-; lia|
     unfold INT32_MIN in *; lia]).
Qed.

(** ** One call *)
Lemma usable_arg m buf n s k : usable m buf n s k -> s <> SNull -> exists d, arg_for m buf n s k d.
Proof.
  intros (K&U) N. destruct s as [|l|q]; [congruence| |].
  - exists (slice l 0 k). split; [|exact I]. split; [apply slice_len; lia|]. split; [lia|auto].
  - destruct U as (O&D). exists (bytes_at m q k). split; [|exact D]. split; [apply bytes_at_len; auto|]. auto.
Qed.
Lemma usable_same m m' buf n s k : same_outside m m' buf n -> usable m buf n s k -> usable m' buf n s k.
Proof.
  intros S (K&U). split; auto. destruct s; auto. destruct U as (O&D). split; auto.
  eapply same_outside_object; [|exact O]. apply same_outside_sym; eauto.
Qed.
Lemma call_ok_same cfg m m' buf n c : same_outside m m' buf n -> call_ok cfg m buf n c -> call_ok cfg m' buf n c.
Proof.
  intros S. destruct c; simpl; intuition eauto using usable_same.
Qed.
Lemma src_dec (s : src) : {s = SNull} + {s <> SNull}.
Proof. destruct s; [left; auto|right; discriminate|right; discriminate]. Qed.

Definition stays (m m' : mem) (h h' : reqHeaders) (buf : ptr) (n : Z) : Prop :=
  same_outside m m' buf n /\ rh_buf h' = Some buf /\ rh_bufLen h' = n /\ 0 <= rh_len h' <= n /\ object m' buf n.

Lemma same_object m m' buf n p k : same_outside m m' buf n -> object m p k -> object m' p k.
Proof. intros S O. eapply same_outside_object; [|exact O]. apply same_outside_sym; eauto. Qed.

Lemma stays_refl m h buf n : rh_buf h = Some buf -> rh_bufLen h = n -> object m buf n ->
  0 <= rh_len h <= n -> stays m m h h buf n.
Proof. intros. split; [apply same_outside_refl|]. auto. Qed.

Lemma add_outcome_stays m h buf n req f v st h' m' :
  holds m h buf n req -> add_outcome m h buf n req f v st h' m' -> stays m m' h h' buf n.
Proof.
  intros H (o&OP&LO&D). pose proof H as (Hb&HB&O&Hl&Er).
  assert (zlen req = rh_len h) by (subst req; apply bytes_at_len; obj).
  destruct D as [(->&C&->&->)|[(->&C&N&->&S)|(->&C&L1&L2&Hh&S)]].
  - apply stays_refl; auto.
  - assert (S' : same_outside m m' buf n).
    { eapply same_outside_weaken; [exact S|auto|cbn [poff po]; zlia|cbn [poff po]; zlia]. }
    split; auto. do 3 (split; [auto|]). eapply same_object; eauto.
  - assert (S' : same_outside m m' buf n).
    { eapply same_outside_weaken; [exact S|auto|cbn [poff po]; zlia|cbn [poff po]; zlia]. }
    destruct Hh as (?&?&?&?&?). split; auto.
Qed.

Lemma holds_any m h buf n : rh_buf h = Some buf -> rh_bufLen h = n -> object m buf n -> 0 <= rh_len h <= n ->
  holds m h buf n (bytes_at m buf (rh_len h)).
Proof. intros. split; [auto|]. split; [auto|]. split; [auto|]. split; auto. Qed.

Lemma do_call_stays cfg m h buf n c :
  config_ok cfg -> rh_buf h = Some buf -> rh_bufLen h = n -> object m buf n -> 0 <= rh_len h <= n ->
  call_ok cfg m buf n c ->
  exists st h' m', do_call cfg m h c = Ret (st, Some h', m') /\ stays m m' h h' buf n.
Proof.
  intros CO Hb Hn O Hl OK. pose proof (stays_refl m h buf n Hb Hn O Hl) as R.
  pose proof (holds_any _ _ _ _ Hb Hn O Hl) as HH.
  destruct c as [ri|f fl v vl|s e]; cbn [do_call call_ok] in *.
  - destruct OK as (U1&U2&U3&W).
    assert (D : init_invalid (Some h) (Some ri) \/
      (ri_method ri <> SNull /\ ri_host ri <> SNull /\ ri_methodLen ri <> 0 /\ ri_hostLen ri <> 0)).
    { unfold init_invalid. destruct (src_dec (ri_method ri)); [left; right; right; right; eauto|].
      destruct (src_dec (ri_host ri)); [left; right; right; right; eauto 6|].
      destruct (Z.eq_dec (ri_methodLen ri) 0); [left; right; right; right; eauto 7|].
      destruct (Z.eq_dec (ri_hostLen ri) 0); [left; right; right; right; eauto 8|auto]. }
    destruct D as [D|(N1&N2&N3&N4)]; [rewrite Init_invalid by auto; eauto 6|].
    destruct (usable_arg _ _ _ _ _ U1 N1) as (me&A1). destruct (usable_arg _ _ _ _ _ U3 N2) as (ho&A3).
    assert (A2 : exists p, path_arg m (ri_path ri) (ri_pathLen ri) p /\ arg_apart buf n (ri_path ri) (ri_pathLen ri)).
    { destruct (src_dec (ri_path ri)) as [E|N].
      - exists (B "/"). split; [left; auto|]. rewrite E. exact I.
      - destruct (usable_arg _ _ _ _ _ U2 N) as (p&A&D). 
        destruct (Z.eq_dec (ri_pathLen ri) 0); [exists (B "/")|exists p]; (split; [|auto]).
        + left; auto. + right; auto. }
    destruct A2 as (p&A2&D2). pose proof U1 as (?&_). pose proof U2 as (?&_). pose proof U3 as (?&_).
    destruct (Init_outcome cfg m h buf ri me p ho) as (st&h'&m'&E&S&B1&B2&B3&_); auto.
    { rewrite Hn; auto. }
    { rewrite Hn. repeat (split; [auto; lia|]). auto. }
    exists st, h', m'. split; auto. rewrite Hn in *. split; auto. do 3 (split; [auto|]). eapply same_object; eauto.
  - destruct OK as (U1&U2&W).
    assert (D : add_invalid (Some h) f fl v vl \/ (f <> SNull /\ v <> SNull /\ fl <> 0 /\ vl <> 0)).
    { unfold add_invalid. destruct (src_dec f); [left; eauto 6|]. destruct (src_dec v); [left; eauto 7|].
      destruct (Z.eq_dec fl 0); [left; eauto 8|]. destruct (Z.eq_dec vl 0); [left; eauto 9|auto]. }
    destruct D as [D|(N1&N2&N3&N4)]; [rewrite AddHeader_invalid by auto; eauto 6|].
    destruct (usable_arg _ _ _ _ _ U1 N1) as (fb&A1). destruct (usable_arg _ _ _ _ _ U2 N2) as (vb&A2).
    pose proof U1 as (?&_). pose proof U2 as (?&_).
    destruct (AddHeader_outcome cfg m h buf n _ f fl v vl fb vb HH A1 A2) as (st&h'&m'&E&OC); try lia.
    exists st, h', m'. split; auto. eapply add_outcome_stays; eauto.
  - destruct OK as (I1&I2&W).
    destruct (AddRangeHeader_outcome cfg m h buf n _ s e HH I1 I2 W) as [(RR&E)|(NR&t&st&h'&m'&RV&LT&E&OC)].
    + eauto 6.
    + exists st, h', m'. split; auto. eapply add_outcome_stays; eauto.
Qed.

Lemma history_stays cfg buf n : config_ok cfg -> forall cs m h,
  rh_buf h = Some buf -> rh_bufLen h = n -> object m buf n -> 0 <= rh_len h <= n ->
  Forall (call_ok cfg m buf n) cs ->
  exists sts h' m', history cfg m h cs = Ret (sts, h', m') /\ stays m m' h h' buf n.
Proof.
  intros CO. induction cs as [|c cs IH]; intros m h Hb Hn O Hl OK.
  - exists [], h, m. split; auto. apply stays_refl; auto.
  - inversion OK as [|? ? O1 O2]; subst.
    destruct (do_call_stays cfg m h buf _ c CO Hb eq_refl O Hl O1) as (st&h1&m1&E1&S1&B1&B2&B3&B4).
    destruct (IH m1 h1) as (sts&h2&m2&E2&S2&B5&B6&B7&B8); auto.
    { eapply Forall_impl; [|exact O2]. intros; eapply call_ok_same; eauto. }
    cbn [history]. rewrite E1. cbn [bind]. rewrite E2. cbn [bind].
    do 3 eexists. split; [reflexivity|]. split; auto. eapply same_outside_trans; eauto.
Qed.

(** ** The reader *)
Lemma read_line_ok l rest : legal_value l -> read_line (l ++ CRLF ++ rest) = Some (l, rest).
Proof.
  induction l as [|c l IH]; intros (H1&H2); [reflexivity|]. cbn [app read_line].
  destruct (Z.eqb_spec c CR) as [->|_]; [exfalso; apply H1; left; auto|].
  destruct (Z.eqb_spec c LF) as [->|_]; [exfalso; apply H2; left; auto|].
  rewrite IH; auto. split; intros I; [apply H1|apply H2]; right; auto.
Qed.
Lemma read_header_ok f v : ~ In COLON f -> read_header (f ++ B ": " ++ v) = Some (f, v).
Proof.
  induction f as [|c f IH]; intros H; [reflexivity|]. cbn [app read_header].
  destruct (Z.eqb_spec c COLON) as [->|_]; [exfalso; apply H; left; auto|].
  change (f ++ B ": " ++ v) with (f ++ B ": " ++ v) in IH. rewrite IH; auto. intros I; apply H; right; auto.
Qed.
Definition hlines (hs : list (bytes * bytes)) : bytes := concat (map (fun h => header_line (fst h) (snd h)) hs).
Definition legal_headers (hs : list (bytes * bytes)) : Prop :=
  Forall (fun h => legal_field (fst h) /\ legal_value (snd h)) hs.

Lemma hlines_app a b : hlines (a ++ b) = hlines a ++ hlines b.
Proof. unfold hlines. rewrite map_app, concat_app. auto. Qed.

Lemma read_headers_ok hs : legal_headers hs -> forall fuel, (length hs < fuel)%nat ->
  read_headers fuel (hlines hs ++ CRLF) = Some hs.
Proof.
  induction 1 as [|(f,v) hs (Hf&Hv) _ IH]; intros fuel Hfu.
  - destruct fuel; [simpl in Hfu; lia|]. reflexivity.
  - destruct fuel; [simpl in Hfu; lia|]. cbn [read_headers].
    cbn [fst snd] in *.
    assert (E : hlines ((f, v) :: hs) ++ CRLF = (f ++ B ": " ++ v) ++ CRLF ++ (hlines hs ++ CRLF)).
    { unfold hlines. cbn [map concat fst snd]. unfold header_line. rewrite <- !app_assoc. reflexivity. }
    rewrite E, read_line_ok.
    2:{ apply legal_app; [apply Hf|]. apply legal_app; [apply legal_lit; reflexivity|auto]. }
    rewrite read_header_ok by apply Hf. rewrite IH by (simpl in Hfu; lia).
    destruct (f ++ B ": " ++ v) eqn:X; auto. destruct f; discriminate.
Qed.
Lemma hlines_length hs : (length hs <= length (hlines hs))%nat.
Proof.
  induction hs as [|(f,v) hs IH]; [simpl; auto|].
  change (hlines ((f, v) :: hs)) with (header_line f v ++ hlines hs). unfold header_line.
  rewrite !app_length. cbn [length B CRLF]. lia.
Qed.

Lemma read_request_ok me p hs : legal_value me -> legal_value p -> legal_headers hs ->
  read_request (request_line me p ++ hlines hs ++ CRLF) = Some (me ++ B " " ++ p ++ B " HTTP/1.1", hs).
Proof.
  intros H1 H2 H3. unfold read_request.
  assert (E : request_line me p ++ hlines hs ++ CRLF =
              (me ++ B " " ++ p ++ B " HTTP/1.1") ++ CRLF ++ (hlines hs ++ CRLF)).
  { unfold request_line. rewrite <- !app_assoc. reflexivity. }
  rewrite E, read_line_ok.
  2:{ apply legal_app; auto. apply legal_app; [apply legal_lit; reflexivity|].
      apply legal_app; auto. apply legal_lit; reflexivity. }
  rewrite read_headers_ok; auto.
  pose proof (hlines_length hs). rewrite app_length. simpl. lia.
Qed.

Lemma hlines_end hs : hs = [] \/ exists x, hlines hs = x ++ CRLF.
Proof.
  destruct (rev hs) as [|(f,v) r] eqn:E.
  - left. apply (f_equal (@rev _)) in E. rewrite rev_involutive in E. auto.
  - right. apply (f_equal (@rev _)) in E. rewrite rev_involutive in E. subst hs.
    cbn [rev]. rewrite hlines_app. exists (hlines (rev r) ++ f ++ B ": " ++ v).
    unfold hlines at 2. cbn [map concat fst snd]. unfold header_line. rewrite app_nil_r, <- !app_assoc. auto.
Qed.
Lemma opened_request me p hs o :
  opened (request_line me p ++ hlines hs ++ CRLF) o -> o = request_line me p ++ hlines hs.
Proof.
  intros H. eapply opened_fun; [exact H|]. left.
  destruct (hlines_end hs) as [->|(x&E)].
  - exists (me ++ B " " ++ p ++ B " HTTP/1.1"). unfold request_line, hlines. cbn [map concat].
    rewrite ?app_nil_r, <- !app_assoc. auto.
  - rewrite E. exists (request_line me p ++ x). rewrite <- !app_assoc. auto.
Qed.

Lemma hlines_1 f v : hlines [(f, v)] = header_line f v.
Proof. unfold hlines. cbn [map concat fst snd]. apply app_nil_r. Qed.
Lemma init_request_hlines ua fl me p ho :
  init_request ua fl me p ho = request_line me p ++ hlines (init_headers ua fl ho) ++ CRLF.
Proof.
  unfold init_request, host_part, init_headers. rewrite !hlines_app, hlines_1.
  destruct (Z.testbit fl 1), (Z.testbit fl 0); rewrite ?hlines_1; unfold hlines; cbn [map concat];
    rewrite <- ?app_assoc; reflexivity.
Qed.

Lemma add_outcome_reader m h buf n me p hs f v st h' m' :
  let req := request_line me p ++ hlines hs ++ CRLF in
  holds m h buf n req -> add_outcome m h buf n req f v st h' m' ->
  st <> HTTPSecurityAlertInvalidCharacter -> legal_headers hs ->
  exists hs', holds m' h' buf n (request_line me p ++ hlines (hs ++ hs') ++ CRLF) /\ legal_headers (hs ++ hs') /\
    ((st = HTTPSuccess /\ hs' = [(f, v)]) \/ (st = HTTPInsufficientMemory /\ hs' = [])).
Proof.
  intros req H (o&OP&LO&D) NI LH. apply opened_request in OP. subst o.
  destruct D as [(->&C&->&->)|[(->&C&N&->&S)|(->&C&L1&L2&Hh&S)]]; [|congruence|].
  - exists []. rewrite app_nil_r. auto.
  - exists [(f, v)]. split; [|split; auto].
    + rewrite hlines_app, hlines_1. rewrite <- !app_assoc. rewrite <- !app_assoc in Hh. auto.
    + apply Forall_app. split; auto.
Qed.

Definition is_init (c : call) : Prop := match c with CInit _ => True | _ => False end.

Lemma arg_same_back m0 m buf n s k d :
  same_outside m0 m buf n -> usable m0 buf n s k -> arg m s k d -> arg m0 s k d.
Proof.
  intros S (K&U) (L&A). split; auto. destruct s as [|l|q]; auto. destruct U as (O&D). destruct A as (_&->).
  split; auto. eapply bytes_at_same; eauto. 
Qed.

Lemma history_reader cfg buf n me p m0 : config_ok cfg -> forall cs m h hs sts h' m',
  holds m h buf n (request_line me p ++ hlines hs ++ CRLF) -> legal_headers hs ->
  same_outside m0 m buf n ->
  Forall (call_ok cfg m0 buf n) cs -> Forall (fun c => ~ is_init c) cs ->
  history cfg m h cs = Ret (sts, h', m') -> ~ In HTTPSecurityAlertInvalidCharacter sts ->
  exists hs', contribute m0 cs sts hs' /\ legal_headers (hs ++ hs') /\
    holds m' h' buf n (request_line me p ++ hlines (hs ++ hs') ++ CRLF).
Proof.
  intros CO. induction cs as [|c cs IH]; intros m h hs sts h' m' H LH S0 OK NI E NS.
  - cbn [history] in E. injection E as <- <- <-. exists []. rewrite app_nil_r. split; [constructor|auto].
  - inversion OK as [|? ? O1 O2]; subst. inversion NI as [|? ? N1 N2]; subst.
    assert (O1' : call_ok cfg m buf n c) by (eapply call_ok_same; eauto).
    pose proof H as (Hb&HB&O&Hl&Er).
    destruct (do_call_stays cfg m h buf n c CO Hb HB O Hl O1') as (st&h1&m1&E1&S1&B1&B2&B3&B4).
    cbn [history] in E. rewrite E1 in E. cbn [bind] in E.
    destruct (history cfg m1 h1 cs) as [((sts1,h2),m2)| | |] eqn:E2; try discriminate.
    cbn [bind] in E. injection E as <- <- <-.
    assert (STEP : exists hs1, contributes m0 c st hs1 /\ legal_headers (hs ++ hs1) /\
              holds m1 h1 buf n (request_line me p ++ hlines (hs ++ hs1) ++ CRLF)).
    { assert (NS1 : st <> HTTPSecurityAlertInvalidCharacter) by (intros ->; apply NS; left; auto).
      destruct c as [ri|f fl v vl|s e]; [exfalso; apply N1; exact I| |]; cbn [do_call call_ok] in E1, O1, O1'.
      - destruct O1' as (U1&U2&W). destruct O1 as (U1'&U2'&_).
        assert (D : add_invalid (Some h) f fl v vl \/ (f <> SNull /\ v <> SNull /\ fl <> 0 /\ vl <> 0)).
        { unfold add_invalid. destruct (src_dec f); [left; eauto 6|]. destruct (src_dec v); [left; eauto 7|].
          destruct (Z.eq_dec fl 0); [left; eauto 8|]. destruct (Z.eq_dec vl 0); [left; eauto 9|auto]. }
        destruct D as [D|(M1&M2&M3&M4)].
        + rewrite AddHeader_invalid in E1 by auto. injection E1 as <- <- <-.
          exists []. rewrite app_nil_r. split; [reflexivity|auto].
        + destruct (usable_arg _ _ _ _ _ U1 M1) as (fb&A1). destruct (usable_arg _ _ _ _ _ U2 M2) as (vb&A2).
          pose proof U1 as (?&_). pose proof U2 as (?&_).
          destruct (AddHeader_outcome cfg m h buf n _ f fl v vl fb vb H A1 A2) as (st'&h1'&m1'&E'&OC); try lia.
          rewrite E1 in E'. injection E' as <- <- <-.
          destruct (add_outcome_reader _ _ _ _ _ _ _ _ _ _ _ _ H OC NS1 LH) as (hs1&Hh&LH1&[(->&->)|(->&->)]).
          * exists [(fb, vb)]. split; [|auto]. exists fb, vb. split; [|split; auto].
            -- eapply arg_same_back; eauto. apply A1.
            -- eapply arg_same_back; eauto. apply A2.
          * exists []. split; [reflexivity|auto].
      - destruct O1' as (I1&I2&W).
        destruct (AddRangeHeader_outcome cfg m h buf n _ s e H I1 I2 W)
          as [(RR&E')|(NR&t&st'&h1'&m1'&RV&LT&E'&OC)]; rewrite E1 in E'.
        + injection E' as -> -> ->. exists []. rewrite app_nil_r. split; [reflexivity|auto].
        + injection E' as <- <- <-.
          destruct (add_outcome_reader _ _ _ _ _ _ _ _ _ _ _ _ H OC NS1 LH) as (hs1&Hh&LH1&[(->&->)|(->&->)]).
          * exists [(B "Range", t)]. split; [|auto]. exists t. auto.
          * exists []. split; [reflexivity|auto]. }
    destruct STEP as (hs1&C1&LH1&H1).
    destruct (IH m1 h1 (hs ++ hs1) sts1 h2 m2) as (hs2&C2&LH2&H2); auto.
    { eapply same_outside_trans; eauto. }
    { intros I; apply NS; right; auto. }
    exists (hs1 ++ hs2). rewrite <- app_assoc in LH2, H2. split; auto. constructor; auto.
Qed.

Lemma init_headers_legal ua fl ho : legal_value ua -> legal_value ho -> legal_headers (init_headers ua fl ho).
Proof.
  intros H1 H2.
  assert (F : forall f v, all_legal true f = true -> legal_value v -> legal_headers [(f, v)]).
  { intros f v A V. apply Forall_cons; [|apply Forall_nil]. split; [apply all_legal_field; auto|auto]. }
  unfold init_headers. apply Forall_app. split; [|apply Forall_app; split].
  - destruct (Z.testbit fl 1); [apply Forall_nil|]. apply F; auto.
  - apply F; auto.
  - destruct (Z.testbit fl 0); [|apply Forall_nil]. apply F; auto. apply legal_lit. reflexivity.
Qed.
