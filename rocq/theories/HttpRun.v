(** HttpRun.v — the reference parser reads every well-formed response as what it says. *)
From Verif Require Import Base Lib ModelRequest ModelSend ModelResponse SpecRequest SpecSend SpecResponse RefParser RefRun SpecHttp.

Definition runs (nb : bool) (s : rst) (d : bytes) (s' : rst) : Prop := okrun nb s d /\ srun nb s d = s'.
Lemma runs_nil nb s : runs nb s [] s.
Proof. split; [exact I|auto]. Qed.
Lemma runs_app nb s a s1 b s2 : runs nb s a s1 -> runs nb s1 b s2 -> runs nb s (a ++ b) s2.
Proof.
  intros (A&<-) (B&<-). split; [apply okrun_app; auto|]. unfold srun. rewrite fold_left_app. auto.
Qed.
Ltac dis := solve [discriminate | left; discriminate | right; auto].
Lemma runs_one nb s c s1 : step1 nb s c = s1 -> q_st s <> Start -> (q_st s = VFold -> is_ws c = false) -> (forall e, q_st s1 <> Dead e) ->
  q_st s1 <> Start \/ q_code s1 <> 0 -> runs nb s [c] s1.
Proof. intros <- H1 H2 H3 H4. split; [|auto]. cbn. split; [tauto|]. split; [auto|]. split; [auto|]. split; [tauto|auto]. Qed.
Lemma runs_cons nb s c s1 d s2 : step1 nb s c = s1 -> q_st s <> Start -> (q_st s = VFold -> is_ws c = false) -> (forall e, q_st s1 <> Dead e) ->
  q_st s1 <> Start \/ q_code s1 <> 0 -> runs nb s1 d s2 -> runs nb s (c :: d) s2.
Proof. intros. apply (runs_app _ _ [c] s1); auto. apply runs_one; auto. Qed.

Lemma token_t c : token_char c -> is_tchar c = true.
Proof. unfold token_char, is_tchar, COLON. lia. Qed.
Lemma token_ncolon c : token_char c -> (c =? COLON) = false /\ (c =? CR) = false /\ (c =? LF) = false /\ is_ws c = false.
Proof. unfold token_char, COLON, CR, LF, is_ws, SPACE. lia. Qed.
Lemma blank_ws c : blank c -> is_ws c = true.
Proof. unfold blank, is_ws, SPACE. lia. Qed.
Lemma nblank_ws c : ~ blank c -> is_ws c = false.
Proof. unfold blank, is_ws, SPACE. lia. Qed.
Lemma text_n c : text_char c -> (c =? CR) = false /\ (c =? LF) = false.
Proof. unfold text_char, CR, LF. lia. Qed.
Lemma digit_d c : digit c -> is_digit c = true.
Proof. unfold digit, is_digit. lia. Qed.
Lemma beq_eq a b : beq a b = true <-> a = b.
Proof.
  revert b. induction a as [|x a IH]; intros [|y b]; cbn; try (split; congruence).
  rewrite andb_true_iff, Z.eqb_eq, IH. split; [intros (->&->); auto|intros E; injection E; auto].
Qed.
Lemma ieq_ci a b : ieq a b = true <-> ci_eq a b.
Proof. unfold ieq, ci_eq. rewrite beq_eq. reflexivity. Qed.

Ltac step1 := unfold step1, step; cbn [q_st].
(** ** The status line *)
Definition nodead s := forall e, q_st s <> Dead e.
Definition base (x : rstate) (code : Z) : rst := mkrst x false code [] [] None false false false [] [].
Lemma run_reason nb code reason : Forall text_char reason -> runs nb (base Reason code) reason (base Reason code).
Proof.
  induction 1 as [|c l (H1&H2)%text_n H IH]; [apply runs_nil|]. apply (runs_cons _ _ _ (base Reason code)); auto; try dis.
  step1. cbn. rewrite H1, H2. reflexivity.
Qed.
Lemma run_status nb r : head_ok r -> runs nb rinit (status_bytes r) (base HStart (code_of r)).
Proof.
  intros (H1&H2&H3&_&H4&_). unfold status_bytes, code_of.
  destruct (p_code r) as [|c1 [|c2 [|c3 [|]]]]; try dis.
  inversion H3 as [|? ? D1 H3a]; subst. inversion H3a as [|? ? D2 H3b]; subst. inversion H3b as [|? ? D3 _]; subst. clear H2 H3 H3a H3b.
  apply digit_d in D1, D2, D3.
  apply (runs_app _ _ _ (base Minor 0)).
  { split; [|reflexivity]. cbn. repeat match goal with |- _ /\ _ => split | |- _ => intros; try congruence; auto end. }
  apply (runs_app _ _ _ (base (Code 0 0) 0)).
  { destruct H1 as [-> | ->]; (split; [|reflexivity]); cbn; repeat match goal with |- _ /\ _ => split | |- _ => intros; try congruence; auto end. }
  apply (runs_app _ _ _ (base CodeEnd (dec_value [c1; c2; c3]))).
  { apply (runs_cons _ _ _ (base (Code 1 (c1 - 48)) 0)); try dis; [step1; cbn; rewrite D1; reflexivity|].
    apply (runs_cons _ _ _ (base (Code 2 ((c1 - 48) * 10 + (c2 - 48))) 0)); try dis; [step1; cbn; rewrite D2; reflexivity|].
    apply runs_one; try dis. step1. cbn. rewrite D3. reflexivity. }
  apply (runs_app _ _ _ (base Reason (dec_value [c1; c2; c3]))); [apply runs_one; (reflexivity || dis)|].
  apply (runs_app _ _ _ (base Reason (dec_value [c1; c2; c3]))); [apply run_reason; auto|].
  apply (runs_cons _ _ _ (base ReasonLF (dec_value [c1; c2; c3]))); try dis; [reflexivity|].
  apply runs_one; (reflexivity || dis).
Qed.

(** ** A header line *)
Definition settle (s : rst) : rst := match q_st s with VFold => interpret s | _ => s end.
Definition upd (s : rst) (x : rstate) (n v : bytes) : rst := to (set_name s n v) x.
Definition at_line (s : rst) : Prop := q_st s = HStart \/ q_st s = VFold /\ nodead (interpret s).

Lemma run_field nb s n l : Forall token_char l -> runs nb (upd s Field n []) l (upd s Field (n ++ l) []).
Proof.
  intros H. revert n. induction H as [|c l T H IH]; intros n; [rewrite app_nil_r; apply runs_nil|].
  apply (runs_cons _ _ _ (upd s Field (n ++ [c]) [])); try dis.
  - step1. cbn. destruct (token_ncolon c T) as (->&_). rewrite (token_t c T). reflexivity.
  - specialize (IH (n ++ [c])). rewrite <- app_assoc in IH. exact IH.
Qed.
Lemma run_ws nb s n l : Forall blank l -> runs nb (upd s VWs n []) l (upd s VWs n []).
Proof.
  induction 1 as [|c l T H IH]; [apply runs_nil|]. apply (runs_cons _ _ _ (upd s VWs n [])); try dis; auto.
  step1. cbn. rewrite (blank_ws c T). reflexivity.
Qed.
Lemma run_val nb s n v l : Forall text_char l -> runs nb (upd s Val n v) l (upd s Val n (v ++ l)).
Proof.
  intros H. revert v. induction H as [|c l (T1&T2)%text_n H IH]; intros v; [rewrite app_nil_r; apply runs_nil|].
  apply (runs_cons _ _ _ (upd s Val n (v ++ [c]))); try dis.
  - step1. cbn. rewrite T1, T2. reflexivity.
  - specialize (IH (v ++ [c])). rewrite <- app_assoc in IH. exact IH.
Qed.
Lemma settle_st s : at_line s -> q_st (settle s) = q_st s /\ nodead (settle s).
Proof.
  intros [H|(H&N)]; unfold settle; rewrite H.
  - split; [auto|]. intros e. congruence.
  - split; [rewrite interp_st; auto|auto].
Qed.
Lemma step_line s c : at_line s -> is_ws c = false -> step s c = hstart (settle s) c.
Proof.
  intros A W. destruct (settle_st s A) as (E&N). destruct A as [H|(H&N')].
  - unfold step, settle. rewrite H. auto.
  - unfold step. rewrite H, W. unfold settle in *. rewrite H in *. rewrite (interp_st s N'), H. reflexivity.
Qed.
Lemma run_line nb s h : hline_ok h -> at_line s -> runs nb s (hline_bytes h) (upd (settle s) VFold (h_name h) (h_value h)).
Proof.
  intros (H1&H2&H3&H4&H5) A. destruct (settle_st s A) as (E&N). unfold hline_bytes.
  assert (NS : q_st s <> Start) by (destruct A as [X|(X&_)]; rewrite X; discriminate).
  apply (runs_app _ _ _ (upd (settle s) Field (h_name h) [])).
  { destruct (h_name h) as [|c n]; [congruence|]. inversion H2 as [|? ? T H2']; subst. destruct (token_ncolon c T) as (N1&N2&N3&N4).
    apply (runs_cons _ _ _ (upd (settle s) Field [c] [])); auto; try dis.
    - unfold step1. rewrite (step_line s c A N4). unfold hstart. rewrite N2, N3, (token_t c T). reflexivity.
    - apply (run_field nb (settle s) [c]). auto. }
  apply (runs_app _ _ _ (upd (settle s) VWs (h_name h) [])); [apply runs_one; (reflexivity || dis)|].
  apply (runs_app _ _ _ (upd (settle s) VWs (h_name h) [])); [apply run_ws; auto|].
  destruct (h_value h) as [|c v].
  - apply (runs_cons _ _ _ (upd (settle s) ValLF (h_name h) [])); try dis; [reflexivity|].
    apply runs_one; (reflexivity || dis).
  - inversion H4 as [|? ? T H4']; subst. destruct (text_n c T) as (T1&T2).
    apply (runs_app _ _ _ (upd (settle s) Val (h_name h) (c :: v))).
    + apply (runs_cons _ _ _ (upd (settle s) Val (h_name h) [c])); try dis.
      * step1. cbn. rewrite (nblank_ws c (H5 c v eq_refl)), T1, T2. reflexivity.
      * apply (run_val nb (settle s) (h_name h) [c]). auto.
    + apply (runs_cons _ _ _ (upd (settle s) ValLF (h_name h) (c :: v))); try dis; [reflexivity|].
      apply runs_one; (reflexivity || dis).
Qed.

(** ** All the header lines *)
Definition is_cl (h : hline) : bool := ieq (h_name h) (B "content-length").
Definition is_te (h : hline) : bool := ieq (h_name h) (B "transfer-encoding") && ieq (h_value h) (B "chunked").
Definition is_close (h : hline) : bool := ieq (h_name h) (B "connection") && ieq (h_value h) (B "close").
Definition is_ka (h : hline) : bool := ieq (h_name h) (B "connection") && ieq (h_value h) (B "keep-alive").
Definition clen_opt (hs : list hline) : option Z := match filter is_cl hs with [] => None | h :: _ => Some (dec_value (h_value h)) end.
Definition cl_valid (hs : list hline) : Prop := forall a h b, hs = a ++ h :: b -> is_cl h = true -> filter is_cl a = [] /\ clen_header (h_value h).

Lemma content_length_f hs o : content_length hs o -> o = clen_opt hs /\ cl_valid hs.
Proof.
  induction 1 as [|h hs o N C (IH1&IH2)|h hs E V C (IH1&IH2)].
  - split; [reflexivity|]. intros [|] ? ? Q; discriminate Q.
  - assert (Z : is_cl h = false) by (unfold is_cl; destruct (ieq _ _) eqn:Q; auto; apply ieq_ci in Q; contradiction).
    unfold clen_opt. cbn [filter]. rewrite Z. split; [exact IH1|].
    intros [|x a] h' b Q Hc; injection Q as <- Q; [congruence|]. cbn [filter]. rewrite Z. eapply IH2; eauto.
  - assert (Z : is_cl h = true) by (apply ieq_ci; auto).
    unfold clen_opt in *. cbn [filter]. rewrite Z. split; [auto|].
    intros [|x a] h' b Q Hc; injection Q as <- Q; [split; auto; subst; auto|].
    exfalso. assert (Y : In h' (filter is_cl hs)) by (apply filter_In; split; auto; rewrite Q; apply in_or_app; right; left; auto).
    destruct (filter is_cl hs); [destruct Y|discriminate].
Qed.

Lemma digits_all v : Forall digit v -> forallb is_digit v = true.
Proof. induction 1; cbn; auto. rewrite (digit_d x) by auto. auto. Qed.
Lemma clen_header_b v : clen_header v -> forallb is_digit v && (0 <? zlen v) && (zlen v <=? 19) = true.
Proof.
  intros (H1&H2&H3). rewrite (digits_all v H2). unfold zlen. assert (length v <> 0)%nat by (destruct v; cbn; congruence). cbn [andb]. lia.
Qed.

Lemma ieq_trans_false a b c : ieq a b = true -> ieq b c = false -> ieq a c = false.
Proof.
  unfold ieq. intros H1 H2. apply beq_eq in H1. rewrite H1. auto.
Qed.
Definition hdr_of (code : Z) (h : hline) : bytes * bytes * Z := (h_name h, h_value h, code).
Ltac fields := cbn [q_st q_tr q_code q_name q_val q_clen q_chunked q_close q_ka q_hdrs q_body to andb].
Lemma interpret_line t h : q_tr t = false -> q_st t <> VFold \/ q_st t = VFold ->
  (is_cl h = true -> q_clen t = None /\ clen_header (h_value h)) ->
  let u := interpret (upd t VFold (h_name h) (h_value h)) in
  q_st u = VFold /\ q_tr u = false /\ q_code u = q_code t /\ q_hdrs u = q_hdrs t ++ [hdr_of (q_code t) h] /\ q_body u = q_body t /\
  q_clen u = (if is_cl h then Some (dec_value (h_value h)) else q_clen t) /\
  q_chunked u = q_chunked t || is_te h /\ q_close u = q_close t || is_close h /\ q_ka u = q_ka t || is_ka h /\ q_name u = h_name h /\ q_val u = h_value h.
Proof.
  intros T _ C. unfold interpret, upd, set_name, to, hdr_of. cbn [q_st q_tr q_code q_name q_val q_clen q_chunked q_close q_ka q_hdrs q_body].
  rewrite T. unfold is_cl, is_te, is_close, is_ka in *.
  destruct (ieq (h_name h) (B "content-length")) eqn:E1.
  - destruct (C eq_refl) as (->&V). rewrite (clen_header_b _ V). fields.
    rewrite (ieq_trans_false _ _ (B "transfer-encoding") E1 eq_refl), (ieq_trans_false _ _ (B "connection") E1 eq_refl). fields.
    rewrite !orb_false_r. repeat split.
  - destruct (ieq (h_name h) (B "transfer-encoding") && ieq (h_value h) (B "chunked")) eqn:E2.
    + apply andb_true_iff in E2. destruct E2 as (E2&_). fields. rewrite (ieq_trans_false _ _ (B "connection") E2 eq_refl). fields.
      rewrite !orb_false_r, orb_true_r. repeat split.
    + destruct (ieq (h_name h) (B "connection") && ieq (h_value h) (B "close")) eqn:E3.
      * apply andb_true_iff in E3. destruct E3 as (E3&E3'). rewrite E3, (ieq_trans_false _ _ (B "keep-alive") E3' eq_refl). fields.
        rewrite !orb_false_r, orb_true_r. repeat split.
      * destruct (ieq (h_name h) (B "connection") && ieq (h_value h) (B "keep-alive")) eqn:E4; fields;
        rewrite ?orb_false_r, ?orb_true_r; repeat split.
Qed.

Definition HI (code : Z) (done : list hline) (s : rst) : Prop :=
  at_line s /\ let t := settle s in
  q_tr t = false /\ q_code t = code /\ q_hdrs t = map (hdr_of code) done /\ q_body t = [] /\ q_clen t = clen_opt done /\
  q_chunked t = existsb is_te done /\ q_close t = existsb is_close done /\ q_ka t = existsb is_ka done.
Lemma run_lines nb code hs : Forall hline_ok hs -> forall done s, cl_valid (done ++ hs) -> HI code done s ->
  exists s', runs nb s (hlines_bytes hs) s' /\ HI code (done ++ hs) s'.
Proof.
  induction 1 as [|h hs OK _ IH]; intros done s V (A&T1&T2&T3&T4&T5&T6&T7&T8); cbn [hlines_bytes flat_map].
  - exists s. rewrite app_nil_r. split; [apply runs_nil|]. split; [auto|]. repeat split; auto.
  - set (s1 := upd (settle s) VFold (h_name h) (h_value h)).
    assert (C : is_cl h = true -> q_clen (settle s) = None /\ clen_header (h_value h)).
    { intros Q. destruct (V done h hs eq_refl Q) as (V1&V2). rewrite T5. unfold clen_opt. rewrite V1. auto. }
    destruct (interpret_line (settle s) h T1 ltac:(destruct (q_st (settle s)); auto; left; discriminate) C) as (U1&U2&U3&U4&U5&U6&U7&U8&U9&_).
    assert (J : HI code (done ++ [h]) s1).
    { split; [right; split; [reflexivity|]; intros e; unfold s1; rewrite U1; discriminate|].
      change (settle s1) with (interpret (upd (settle s) VFold (h_name h) (h_value h))). cbn zeta.
      rewrite U2, U3, U4, U5, U6, U7, U8, U9, T2, T3, T4, T5, T6, T7, T8. rewrite map_app, !existsb_app. cbn [map existsb]. rewrite !orb_false_r.
      do 4 (split; [solve [auto]|]). split; [|split; [auto|split; [auto|auto]]]. unfold clen_opt. rewrite filter_app. cbn [filter].
      destruct (is_cl h) eqn:Q; [|rewrite app_nil_r; auto].
      destruct (V done h hs eq_refl Q) as (->&_). reflexivity. }
    destruct (IH (done ++ [h]) s1) as (s'&R&J'); auto; [rewrite <- app_assoc; auto|].
    exists s'. rewrite <- app_assoc in J'. split; [|auto]. eapply runs_app; [|exact R]. apply run_line; auto.
Qed.
(** The blank line. *)
Definition hend (code : Z) (hs : list hline) (s : rst) : Prop :=
  q_st s = HEnd /\ q_tr s = false /\ q_code s = code /\ q_hdrs s = map (hdr_of code) hs /\ q_body s = [] /\ q_clen s = clen_opt hs /\
  q_chunked s = existsb is_te hs /\ q_close s = existsb is_close hs /\ q_ka s = existsb is_ka hs.
Lemma run_blank nb code hs s : code <> 0 -> HI code hs s -> exists s1, hend code hs s1 /\ runs nb s CRLF (snd (after_hdrs nb s1)).
Proof.
  intros CN (A&T1&T2&T3&T4&T5&T6&T7&T8). exists (to (settle s) HEnd). split.
  - unfold hend. cbn. repeat (split; [auto|]). auto.
  - assert (S1 : step1 nb s CR = to (settle s) EndLF).
    { unfold step1. rewrite step_line by auto. reflexivity. }
    assert (NS : q_st s <> Start) by (destruct A as [X|(X&_)]; rewrite X; discriminate).
    apply (runs_cons _ _ _ (to (settle s) EndLF)); auto; try dis.
    apply runs_one; try dis.
    + unfold step1, step. cbn [q_st to]. change (LF =? LF) with true. cbn. unfold end_of_headers. cbn [q_tr to]. rewrite T1. reflexivity.
    + unfold after_hdrs. destruct (nb || _); [dis|]. destruct (q_chunked _); [dis|]. destruct (q_clen _) as [n|]; [destruct (n =? 0)|]; discriminate.
    + right. assert (Q : q_code (snd (after_hdrs nb (to (settle s) HEnd))) = code).
      { unfold after_hdrs. destruct (nb || _); [exact T2|]. destruct (q_chunked _); [exact T2|]. destruct (q_clen _) as [n|]; [destruct (n =? 0)|]; exact T2. }
      rewrite Q. auto.
Qed.
Lemma run_head nb r : head_ok r -> exists s1, hend (code_of r) (p_headers r) s1 /\ runs nb rinit (head_bytes r) (snd (after_hdrs nb s1)).
Proof.
  intros H. pose proof (run_status nb r H) as R1. destruct H as (_&_&_&HC&_&H5&o&H6). apply content_length_f in H6. destruct H6 as (_&V).
  destruct (run_lines nb (code_of r) (p_headers r) H5 [] (base HStart (code_of r)) V) as (s'&R2&J).
  { split; [left; reflexivity|]. cbn. repeat (split; [reflexivity|]). reflexivity. }
  destruct (run_blank nb (code_of r) _ _ ltac:(lia) J) as (s1&E&R3). exists s1. split; [auto|]. unfold head_bytes. eapply runs_app; [exact R1|]. eapply runs_app; eauto.
Qed.

(** ** Bodies *)
Definition bst (s : rst) (x : rstate) (b : bytes) : rst :=
  mkrst x (q_tr s) (q_code s) (q_name s) (q_val s) (q_clen s) (q_chunked s) (q_close s) (q_ka s) (q_hdrs s) b.
Lemma run_sized nb s d : q_code s <> 0 -> d <> [] -> forall b, runs nb (bst s (BodyN (zlen d)) b) d (bst s Start (b ++ d)).
Proof.
  intros CN. induction d as [|c d IH]; [congruence|]. intros _ b. rewrite zlen_cons. pose proof (zlen_nonneg d).
  destruct d as [|c' d].
  - apply runs_one; (reflexivity || dis).
  - apply (runs_cons _ _ _ (bst s (BodyN (zlen (c' :: d))) (b ++ [c]))); try dis.
    + rewrite zlen_cons in *. pose proof (zlen_nonneg d). step1. cbn [bst q_st]. replace (1 + (1 + zlen d) <=? 1) with false by lia. cbn [snd to add_body q_st]. replace (1 + (1 + zlen d) - 1) with (1 + zlen d) by lia. reflexivity.
    + specialize (IH ltac:(discriminate) (b ++ [c])). rewrite <- app_assoc in IH. exact IH.
Qed.
Lemma run_toclose nb s d : forall b, runs nb (bst s BodyEof b) d (bst s BodyEof (b ++ d)).
Proof.
  induction d as [|c d IH]; intros b; [rewrite app_nil_r; apply runs_nil|].
  apply (runs_cons _ _ _ (bst s BodyEof (b ++ [c]))); try dis; [reflexivity|].
  specialize (IH (b ++ [c])). rewrite <- app_assoc in IH. exact IH.
Qed.
Lemma hex_val c x : hexdigit c x -> hexval c = Some x /\ 0 <= x < 16.
Proof.
  intros H. unfold hexval, is_digit. inversion H; subst.
  - replace ((48 <=? c) && (c <=? 57)) with true by lia. split; [auto|lia].
  - replace ((48 <=? c) && (c <=? 57)) with false by lia. replace ((97 <=? c) && (c <=? 102)) with true by lia. split; [auto|lia].
  - replace ((48 <=? c) && (c <=? 57)) with false by lia. replace ((97 <=? c) && (c <=? 102)) with false by lia.
    replace ((65 <=? c) && (c <=? 70)) with true by lia. split; [auto|lia].
Qed.
Lemma run_hex nb s b t : forall acc n k, hexnum acc t n -> (length t <= k)%nat -> (k <= 14)%nat -> 0 <= acc < 16 ^ (Z.of_nat (15 - k)) ->
  runs nb (bst s (CkSize acc) b) t (bst s (CkSize n) b).
Proof.
  induction t as [|c t IH]; intros acc n k H Hl Hk Ha; inversion H; subst; [apply runs_nil|].
  destruct (hex_val _ _ H3) as (E&X). destruct k as [|k]; [cbn in Hl; lia|].
  assert (PW : 16 ^ Z.of_nat (15 - k) = 16 * 16 ^ Z.of_nat (15 - S k)).
  { replace (Z.of_nat (15 - k)) with (Z.of_nat (15 - S k) + 1) by lia. rewrite Z.pow_add_r by lia. lia. }
  assert (PB : 16 ^ Z.of_nat (15 - S k) <= 16 ^ 14) by (apply Z.pow_le_mono_r; lia).
  apply (runs_cons _ _ _ (bst s (CkSize (acc * 16 + x)) b)); try dis.
  - step1. cbn [bst q_st]. rewrite E. replace (acc <? 2 ^ 59) with true; [reflexivity|]. symmetry. apply Z.ltb_lt. change (2 ^ 59) with (8 * 16 ^ 14). lia.
  - apply (IH _ _ k); auto; cbn in Hl; lia.
Qed.
Lemma run_ext nb s b n x : Forall text_char x -> runs nb (bst s (CkExt n) b) x (bst s (CkExt n) b).
Proof.
  induction 1 as [|c l (T1&T2)%text_n H IH]; [apply runs_nil|]. apply (runs_cons _ _ _ (bst s (CkExt n) b)); auto; try dis.
  step1. cbn. rewrite T1, T2. reflexivity.
Qed.
Lemma run_chunk_head nb s b size ext n : chunk_head_ok size ext n ->
  runs nb (bst s CkStart b) (size ++ ext ++ [CR]) (bst s (CkLF n) b).
Proof.
  intros (H1&H2&H3&H4).
  apply (runs_app _ _ _ (bst s (CkSize n) b)).
  - destruct size as [|c t]; [congruence|]. inversion H3 as [|? ? x ? ? HX HN]; subst. destruct (hex_val _ _ HX) as (E&X).
    apply (runs_cons _ _ _ (bst s (CkSize x) b)); try dis; [step1; cbn [bst q_st]; rewrite E; reflexivity|].
    cbn in H2, HN. apply (run_hex _ _ _ _ _ _ 14%nat); [exact HN|lia|lia|cbn; lia].
  - destruct H4 as [->|(x&->&F)].
    + apply runs_one; try dis. reflexivity.
    + apply (runs_app _ _ _ (bst s (CkExt n) b)).
      * apply (runs_cons _ _ _ (bst s (CkExt n) b)); try dis; [reflexivity|apply run_ext; auto].
      * apply runs_one; try dis. reflexivity.
Qed.
Lemma run_ckdata nb s d : d <> [] -> forall b, runs nb (bst s (CkData (zlen d)) b) d (bst s CkCR (b ++ d)).
Proof.
  induction d as [|c d IH]; [congruence|]. intros _ b. rewrite zlen_cons. pose proof (zlen_nonneg d).
  destruct d as [|c' d].
  - apply runs_one; (reflexivity || dis).
  - apply (runs_cons _ _ _ (bst s (CkData (zlen (c' :: d))) (b ++ [c]))); try dis.
    + rewrite zlen_cons in *. pose proof (zlen_nonneg d). step1. cbn [bst q_st]. replace (1 + (1 + zlen d) <=? 1) with false by lia. cbn [snd to add_body q_st]. replace (1 + (1 + zlen d) - 1) with (1 + zlen d) by lia. reflexivity.
    + specialize (IH ltac:(discriminate) (b ++ [c])). rewrite <- app_assoc in IH. exact IH.
Qed.
Lemma run_chunk nb s b k : chunk_ok k -> runs nb (bst s CkStart b) (chunk_bytes k) (bst s CkStart (b ++ k_data k)).
Proof.
  intros (H1&H2). unfold chunk_bytes, chunk_head, CRLF.
  replace ((k_size k ++ k_ext k ++ [CR; LF]) ++ k_data k ++ [CR; LF]) with ((k_size k ++ k_ext k ++ [CR]) ++ [LF] ++ k_data k ++ [CR; LF])
    by (rewrite <- !app_assoc; reflexivity).
  eapply runs_app; [apply run_chunk_head; eauto|].
  assert (zlen (k_data k) <> 0) by (intros Q; apply zlen_zero in Q; auto).
  apply (runs_app _ _ _ (bst s (CkData (zlen (k_data k))) b)).
  { apply runs_one; try dis. step1. cbn. replace (zlen (k_data k) =? 0) with false by lia. reflexivity. }
  eapply runs_app; [apply run_ckdata; auto|].
  apply (runs_cons _ _ _ (bst s CkDLF (b ++ k_data k))); try dis; [reflexivity|]. apply runs_one; (reflexivity || dis).
Qed.
Lemma run_chunks nb s ks : Forall chunk_ok ks -> forall b, runs nb (bst s CkStart b) (flat_map chunk_bytes ks) (bst s CkStart (b ++ flat_map k_data ks)).
Proof.
  induction 1 as [|k ks H _ IH]; intros b; cbn [flat_map]; [rewrite app_nil_r; apply runs_nil|].
  eapply runs_app; [apply run_chunk; auto|]. rewrite app_assoc. apply IH.
Qed.
(** Trailers. *)
Definition TI (s0 : rst) (done : list hline) (s : rst) : Prop :=
  at_line s /\ let t := settle s in
  q_tr t = true /\ q_code t = q_code s0 /\ q_hdrs t = q_hdrs s0 ++ map (hdr_of (q_code s0)) done /\ q_body t = q_body s0 /\ q_clen t = q_clen s0 /\
  q_close t = q_close s0 /\ q_ka t = q_ka s0 /\ (q_name t = [] <-> done = []).
Lemma run_trailers nb s0 hs : Forall hline_ok hs -> forall done s, TI s0 done s ->
  exists s', runs nb s (hlines_bytes hs) s' /\ TI s0 (done ++ hs) s'.
Proof.
  induction 1 as [|h hs OK _ IH]; intros done s (A&T1&T2&T3&T4&T5&T6&T7&T8); cbn [hlines_bytes flat_map].
  - exists s. rewrite app_nil_r. split; [apply runs_nil|]. split; [auto|]. cbn zeta. repeat (split; [solve [auto]|]). auto.
  - set (s1 := upd (settle s) VFold (h_name h) (h_value h)).
    assert (J : TI s0 (done ++ [h]) s1).
    { assert (Q : interpret s1 = mkrst VFold true (q_code s0) (h_name h) (h_value h) (q_clen s0) (q_chunked (settle s)) (q_close s0) (q_ka s0)
                     (q_hdrs s0 ++ map (hdr_of (q_code s0)) (done ++ [h])) (q_body s0)).
      { unfold interpret, s1, upd, set_name, to. fields. rewrite T1, T2, T3, T4, T5, T6, T7, map_app, app_assoc. reflexivity. }
      split; [right; split; [reflexivity|]; intros e; rewrite Q; discriminate|].
      change (settle s1) with (interpret s1). cbn zeta. rewrite Q. fields. repeat (split; [reflexivity|]). destruct OK as (OK&_). split; intros X; [contradiction|destruct done; discriminate]. }
    destruct (IH (done ++ [h]) s1 J) as (s'&R&J').
    exists s'. rewrite <- app_assoc in J'. split; [|auto]. eapply runs_app; [|exact R]. apply run_line; auto.
Qed.
Lemma run_chunked nb s ks size ext tl : q_code s <> 0 -> q_tr s = false -> Forall chunk_ok ks -> chunk_head_ok size ext 0 -> Forall hline_ok tl ->
  exists s', runs nb (bst s CkStart []) (body_bytes (Chunked ks size ext tl)) s' /\ q_st s' = Start /\
    q_code s' = q_code s /\ q_hdrs s' = q_hdrs s ++ map (hdr_of (q_code s)) tl /\ q_body s' = flat_map k_data ks /\
    q_clen s' = q_clen s /\ q_close s' = q_close s /\ q_ka s' = q_ka s /\ q_tr s' = true /\ (q_name s' = [] <-> tl = []).
Proof.
  intros CN T H1 H2 H3. cbn [body_bytes]. unfold chunk_head, CRLF.
  replace (flat_map chunk_bytes ks ++ (size ++ ext ++ [CR; LF]) ++ hlines_bytes tl ++ [CR; LF])
    with (flat_map chunk_bytes ks ++ (size ++ ext ++ [CR]) ++ [LF] ++ hlines_bytes tl ++ [CR; LF]) by (rewrite <- !app_assoc; reflexivity).
  set (s2 := set_tr (bst s HStart (flat_map k_data ks)) true).
  destruct (run_trailers nb s2 tl H3 [] s2) as (s'&R&A&T1&T2&T3&T4&T5&T6&T7&T8).
  { split; [left; reflexivity|]. cbn. rewrite app_nil_r. repeat (split; [reflexivity|]). tauto. }
  exists (to (settle s') Start). split.
  - eapply runs_app; [apply run_chunks; auto|]. cbn [app].
    eapply runs_app; [apply run_chunk_head; eauto|].
    apply (runs_app _ _ [LF] s2); [apply runs_one; (reflexivity || dis)|].
    eapply runs_app; [exact R|].
    assert (NS : q_st s' <> Start) by (destruct A as [X|(X&_)]; rewrite X; discriminate).
    apply (runs_cons _ _ _ (to (settle s') EndLF)); auto; try dis.
    + unfold step1. rewrite step_line by auto. reflexivity.
    + apply runs_one; try dis; [|right; fields; rewrite T2; exact CN]. unfold step1, step. cbn [q_st to]. change (LF =? LF) with true. cbn. unfold end_of_headers. cbn [q_tr to]. rewrite T1. reflexivity.
  - fields. rewrite T1, T2, T3, T4, T5, T6, T7. cbn. repeat (split; [reflexivity|]). exact T8.
Qed.

(** ** A whole response *)
Definition at_end (b : body) (x : rstate) : Prop := match b with ToClose _ => x = BodyEof | _ => x = Start end.
Lemma bodiless_b nb code : bodiless nb code <-> nb || no_content code = true.
Proof. unfold bodiless, no_content. destruct nb; cbn; [tauto|]. split; intros H; [lia|right; lia]. Qed.
Lemma chunked_b hs : is_chunked hs <-> existsb is_te hs = true.
Proof.
  unfold is_chunked, has_header. rewrite existsb_exists. split; intros (h&H1&H2); exists h; (split; [auto|]); unfold is_te in *.
  - destruct H2 as (A&B). apply andb_true_iff. split; apply ieq_ci; auto.
  - apply andb_true_iff in H2. destruct H2 as (A&B). split; apply ieq_ci; auto.
Qed.
Theorem http_runs nb r : http_ok nb r -> exists s', runs nb rinit (http_bytes r) s' /\ at_end (p_body r) (q_st s') /\
  q_code s' = code_of r /\ q_hdrs s' = headers_of r /\ q_body s' = content (p_body r) /\ q_clen s' = clen_opt (p_headers r) /\
  q_close s' = existsb is_close (p_headers r) /\ q_ka s' = existsb is_ka (p_headers r) /\
  (q_tr s' = false \/ q_name s' = [] <-> trailers (p_body r) = []).
Proof.
  intros (H&HB). destruct (run_head nb r H) as (s1&(E0&E1&E2&E3&E4&E5&E6&E7&E8)&R).
  assert (CN : q_code s1 <> 0) by (rewrite E2; destruct H as (_&_&_&HC&_); lia).
  assert (HH : map (hdr_of (code_of r)) (p_headers r ++ trailers (p_body r)) = headers_of r) by reflexivity.
  unfold http_bytes. destruct (p_body r) as [|d|ks size ext tl|d] eqn:EB; cbn [body_bytes content trailers at_end] in *.
  - exists (to s1 Start). split.
    + rewrite app_nil_r. unfold after_hdrs in R. rewrite E2 in R. apply bodiless_b in HB. rewrite HB in R. exact R.
    + fields. rewrite app_nil_r in HH. rewrite <- HH. repeat (split; [solve [auto]|]). auto.
  - destruct HB as (B1&B2&B3). apply content_length_f in B3. destruct B3 as (B3&_).
    assert (NB : nb || no_content (code_of r) = false) by (destruct (nb || no_content (code_of r)) eqn:Q; auto; apply bodiless_b in Q; contradiction).
    assert (NC : existsb is_te (p_headers r) = false) by (destruct (existsb _ _) eqn:Q; auto; apply chunked_b in Q; contradiction).
    unfold after_hdrs in R. rewrite E2, NB, E6, NC, E5, <- B3 in R.
    exists (bst s1 Start d). split.
    + destruct (Z.eqb_spec (zlen d) 0) as [Q|Q].
      * apply zlen_zero in Q. subst d. rewrite app_nil_r. cbn [snd] in R. replace (bst s1 Start []) with (to s1 Start); [exact R|]. unfold to, bst. rewrite E4. reflexivity.
      * eapply runs_app; [exact R|]. cbn [snd].
        replace (to s1 (BodyN (zlen d))) with (bst s1 (BodyN (zlen d)) []) by (unfold to, bst; rewrite E4; reflexivity).
        apply (run_sized nb s1 d); auto. intros ->. apply Q. reflexivity.
    + cbn [bst q_st q_code q_hdrs q_body q_clen q_close q_ka]. rewrite app_nil_r in HH. rewrite <- HH. repeat (split; [solve [auto]|]). auto.
  - destruct HB as (B1&B2&B3&B4&B5).
    assert (NB : nb || no_content (code_of r) = false) by (destruct (nb || no_content (code_of r)) eqn:Q; auto; apply bodiless_b in Q; contradiction).
    apply chunked_b in B2.
    unfold after_hdrs in R. rewrite E2, NB, E6, B2 in R.
    destruct (run_chunked nb s1 ks size ext tl CN E1 B3 B4 B5) as (s'&R'&F1&F2&F3&F4&F5&F6&F7&F8&F9).
    exists s'. split.
    + eapply runs_app; [exact R|]. cbn [snd]. replace (to s1 CkStart) with (bst s1 CkStart []) by (unfold to, bst; rewrite E4; reflexivity). exact R'.
    + rewrite F1, F2, F3, F4, F5, F6, F7, F8, E3, E2. rewrite <- HH, map_app. repeat (split; [solve [auto]|]). rewrite <- F9. split; [intros [X|X]; [discriminate|auto]|auto].
  - destruct HB as (B1&B2&B3). apply content_length_f in B3. destruct B3 as (B3&_).
    assert (NB : nb || no_content (code_of r) = false) by (destruct (nb || no_content (code_of r)) eqn:Q; auto; apply bodiless_b in Q; contradiction).
    assert (NC : existsb is_te (p_headers r) = false) by (destruct (existsb _ _) eqn:Q; auto; apply chunked_b in Q; contradiction).
    unfold after_hdrs in R. rewrite E2, NB, E6, NC, E5, <- B3 in R.
    exists (bst s1 BodyEof d). split.
    + eapply runs_app; [exact R|]. cbn [snd]. replace (to s1 BodyEof) with (bst s1 BodyEof []) by (unfold to, bst; rewrite E4; reflexivity).
      apply (run_toclose nb s1 d []).
    + cbn [bst q_st q_code q_hdrs q_body q_clen q_close q_ka]. rewrite app_nil_r in HH. rewrite <- HH. repeat (split; [solve [auto]|]). auto.
Qed.
