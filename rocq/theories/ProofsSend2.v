(** ProofsSend2.v — SendHttpData, SendHttpHeaders, sendHttpRequest and HTTPClient_Send up to receiving. *)
From Verif Require Import Base Lib ModelRequest ModelSend ModelResponse SpecRequest SpecSend ProofsRequest ProofsDecimal ProofsRequest2 ProofsHistory ProofsSend.

Definition retry_of (tf : timefn) (T : Z) : Z := match tf with TZero => 0 | _ => T end.

Lemma SendHttpData_run fuel cfg E tf t p len w :
  send_contract E -> tf <> TNull -> t_send t = true -> object (w_mem w) p len ->
  exists o w' t0 tr, wout (SendHttpData fuel cfg E (Some t) tf (Some p) len w) = Some (o, w') /\
    w_mem w' = w_mem w /\ w_tr w' = w_tr w ++ tick tf t0 ++ tr /\ w_nr w' = w_nr w /\
    (tf = TZero -> t0 = 0) /\
    srun (retry_of tf (SEND_TO cfg)) tf t0 (bytes_at (w_mem w) p len) tr o.
Proof.
  intros SC TN Ht O. unfold SendHttpData. rewrite Ht. cbn [assert_at bind].
  fold (retry_of tf (SEND_TO cfg)).
  destruct (get_time_ok E tf w TN) as (t0&w1&Et&Em&Etr&_&Enr&Ez&_). rewrite Et. cbn [bind].
  destruct (send_loop_run E tf (retry_of tf (SEND_TO cfg)) SC TN fuel p len t0 w1) as (o&w'&tr&E1&E2&E3&E4&R).
  { rewrite Em; auto. }
  exists o, w', t0, tr. rewrite Em in R. split; auto. split; [congruence|].
  split; [rewrite E3, Etr, <- app_assoc; auto|]. split; [congruence|]. auto.
Qed.

Lemma to_int32_small n : 0 <= n <= INT32_MAX -> to_int32 n = n.
Proof.
  unfold to_int32, INT32_MAX. intros. rewrite Z.mod_small by (unfold two32; lia).
  replace (n <=? 2147483647) with true by lia. auto.
Qed.

(** The Content-Length line. *)
Lemma addContentLength_outcome cfg m h buf n req len :
  holds m h buf n req -> 0 < len <= INT32_MAX -> n + 30 < SZ cfg ->
  exists o st h' m', opened req o /\
    addContentLengthHeader cfg m h len = Ret (st, h', m') /\
    let block := o ++ header_line (B "Content-Length") (to_dec len) ++ CRLF in
    (n < zlen block /\ st = HTTPInsufficientMemory /\ h' = h /\ m' = m \/
     zlen block <= n /\ st = HTTPSuccess /\ holds m' h' buf n block /\
     same_outside m m' (poff buf (zlen o)) (zlen (header_line (B "Content-Length") (to_dec len) ++ CRLF))).
Proof.
  intros H Hl W. unfold addContentLengthHeader.
  replace (0 <? len) with true by lia. cbn [assert_at bind]. rewrite to_int32_small by lia.
  pose proof (to_dec_len_nonneg len ltac:(lia)) as LD.
  rewrite conv_ok; [|unfold INT32_MIN; lia|lia|vm_compute; discriminate|].
  2:{ change (zlen (repeat 0 (Z.to_nat MAX_INT32_NO_OF_DECIMAL_DIGITS))) with 10. lia. }
  cbn [bind].
  set (a := repeat 0 (Z.to_nat MAX_INT32_NO_OF_DECIMAL_DIGITS)).
  assert (La : zlen a = 10) by reflexivity.
  destruct (addHeader_holds cfg m h buf n req (SLit HTTP_CONTENT_LENGTH_FIELD) (zlen HTTP_CONTENT_LENGTH_FIELD)
     (SLit (splice a 0 (to_dec len))) (zlen (to_dec len)) (B "Content-Length") (to_dec len) H) as (o&OP&LO&D).
  - apply arg_for_lit.
  - split; [apply arg_array; lia|exact I].
  - vm_compute; auto.
  - lia.
  - change (zlen HTTP_CONTENT_LENGTH_FIELD) with 14. lia.
  - assert (EF : zlen (o ++ header_line (B "Content-Length") (to_dec len) ++ CRLF) = zlen o + zlen HTTP_CONTENT_LENGTH_FIELD + zlen (to_dec len) + 6).
    { rewrite !zlen_app, header_line_len. change (zlen CRLF) with 2. change (zlen (B "Content-Length")) with (zlen HTTP_CONTENT_LENGTH_FIELD). lia. }
    assert (EF2 : zlen (header_line (B "Content-Length") (to_dec len) ++ CRLF) = zlen HTTP_CONTENT_LENGTH_FIELD + zlen (to_dec len) + 6).
    { rewrite zlen_app, header_line_len. change (zlen CRLF) with 2. change (zlen (B "Content-Length")) with (zlen HTTP_CONTENT_LENGTH_FIELD). lia. }
    destruct D as [(C&Eq)|[(C&N&_)|(C&_&_&h'&m'&Eq&Hh&S)]].
    + exists o, HTTPInsufficientMemory, h, m. split; auto. split; auto. cbv zeta. rewrite EF. left. auto.
    + exfalso. apply N. split; [apply all_legal_field; reflexivity|].
      eapply decimal_legal. apply to_dec_decimal. unfold is_int32, INT32_MIN; lia.
    + exists o, HTTPSuccess, h', m'. split; auto. split; auto. cbv zeta. rewrite EF, EF2. right. auto.
Qed.

Lemma landf1 f : (Z.land f HTTP_SEND_DISABLE_CONTENT_LENGTH_FLAG =? 0) = negb (Z.testbit f 0).
Proof.
  unfold HTTP_SEND_DISABLE_CONTENT_LENGTH_FLAG. pose proof (land1 f). rewrite Z.land_comm.
  destruct (Z.testbit f 0); destruct (Z.eqb_spec (Z.land 1 f) 0); intuition congruence.
Qed.

(** What the header block is: [block] with the buffer as it then is. *)
Lemma SendHttpHeaders_run fuel cfg E tf t h buf n req len flags w :
  send_contract E -> tf <> TNull -> t_send t = true -> holds (w_mem w) h buf n req ->
  0 <= len <= INT32_MAX -> n + 30 < SZ cfg ->
  exists block h1 m1, wire_headers flags len req block /\
    ((n < zlen block /\
      SendHttpHeaders fuel cfg E (Some t) tf (Some h) len flags w = Ret (HTTPInsufficientMemory, Some h, w)) \/
     (zlen block <= n /\ holds m1 h1 buf n block /\ same_outside (w_mem w) m1 buf n /\
      (block = req -> h1 = h /\ m1 = w_mem w) /\
      exists o w' t0 tr,
        wout (SendHttpHeaders fuel cfg E (Some t) tf (Some h) len flags w)
          = Some (match o with Some st => Some (st, Some h1) | None => None end, w') /\
        w_mem w' = m1 /\ w_tr w' = w_tr w ++ tick tf t0 ++ tr /\ w_nr w' = w_nr w /\
        (tf = TZero -> t0 = 0) /\
        srun (retry_of tf (SEND_TO cfg)) tf t0 block tr o)).
Proof.
  intros SC TN Ht H Hl W. unfold SendHttpHeaders. rewrite Ht. cbn [assert_at bind].
  rewrite landf1.
  assert (K : forall block h1 m1, holds m1 h1 buf n block ->
     exists o w' t0 tr,
        wout (' (st2, w2) <- SendHttpData fuel cfg E (Some t) tf (rh_buf h1) (rh_len h1) (set_mem w m1) ;;
              Ret (st2, Some h1, w2))
          = Some (match o with Some st => Some (st, Some h1) | None => None end, w') /\
        w_mem w' = m1 /\ w_tr w' = w_tr w ++ tick tf t0 ++ tr /\ w_nr w' = w_nr w /\
        (tf = TZero -> t0 = 0) /\
        srun (retry_of tf (SEND_TO cfg)) tf t0 block tr o).
  { intros block h1 m1 (Hb&Hn&HO&HL&->). rewrite Hb.
    destruct (SendHttpData_run fuel cfg E tf t buf (rh_len h1) (set_mem w m1) SC TN Ht) as (o&w'&t0&tr&E1&E2&E3&E4&E5&R).
    { cbn [set_mem w_mem]. destruct HO as (?&?&?). unfold object. lia. }
    cbn [set_mem w_mem w_tr w_nr] in *.
    exists o, w', t0, tr. split; [|auto].
    destruct (SendHttpData _ _ _ _ _ _ _ _) as [[st w2]| | |]; cbn [wout bind] in *; try discriminate; injection E1 as <- <-; auto. }
  unfold wire_headers. pose proof H as (Hb&Hn&HO&HL&HE).
  assert (zlen req = rh_len h). { rewrite HE. apply bytes_at_len. destruct HO as (?&?&?). unfold object. lia. }
  destruct (Z.testbit flags 0) eqn:Ef; cbn [negb andb orb].
  - cbn [bind is_success]. exists req, h, (w_mem w). split; auto. right. split; [lia|].
    split; auto. split; [apply same_outside_refl|]. split; auto.
  - destruct (Z.ltb_spec 0 len).
    + replace (len =? 0) with false by lia.
      destruct (addContentLength_outcome cfg (w_mem w) h buf n req len H) as (o&st&h'&m'&OP&EQ&D); [lia|lia|].
      rewrite EQ. cbn [bind]. cbv zeta in D.
      assert (DL : decimal len (to_dec len)) by (apply to_dec_decimal; unfold is_int32, INT32_MIN; lia).
      destruct D as [(C&->&->&->)|(C&->&Hh&S)].
      * eexists _, h, (w_mem w). split; [exists o, (to_dec len); auto|]. left. split; auto.
        cbn [is_success]. destruct w; reflexivity.
      * eexists _, h', m'. split; [exists o, (to_dec len); auto|]. right. split; auto. split; auto.
        split. { eapply same_outside_weaken; [exact S| | |]; cbn [poff pb po]; auto.
                 - pose proof (zlen_nonneg o); lia.
                 - rewrite zlen_app in C. lia. }
        split. { intros X. exfalso. apply (f_equal (@zlen Z)) in X. revert X.
                 destruct OP as [(pre&->&->)|(_&->)]; rewrite !zlen_app, header_line_len; change (zlen CRLF) with 2;
                 change (zlen (B "Content-Length")) with 14; pose proof (zlen_nonneg (to_dec len)); lia. }
        cbn [is_success]. apply K; auto.
    + replace len with 0 by lia. rewrite Z.eqb_refl. cbn [orb bind is_success].
      exists req, h, (w_mem w). split; auto. right. split; [lia|].
      split; auto. split; [apply same_outside_refl|]. split; auto.
Qed.

(** Several [srun]s. *)
Lemma srun_facts T tf t0 d tr o : srun T tf t0 d tr o ->
  send_only (tick tf t0 ++ tr) /\ prefix (accepted (tick tf t0 ++ tr)) d /\
  (o = Some HTTPSuccess -> accepted (tick tf t0 ++ tr) = d) /\
  (o = Some HTTPNetworkError -> zlen (accepted (tick tf t0 ++ tr)) < zlen d) /\
  (o = None \/ o = Some HTTPSuccess \/ o = Some HTTPNetworkError).
Proof.
  intros R. rewrite accepted_app, accepted_tick. cbn [app].
  pose proof (srun_accepted _ _ _ _ _ _ R) as (A&C&D&F).
  split; [apply Forall_app; split; [apply send_only_tick|eapply srun_only; eauto]|]. auto.
Qed.

(** sendHttpRequest: what has been accepted is a prefix of header block ++ body. *)
Lemma sendHttpRequest_run fuel cfg E tf t h buf n req body len bd flags w :
  send_contract E -> tf <> TNull -> t_send t = true -> holds (w_mem w) h buf n req ->
  0 <= len <= INT32_MAX -> n + 30 < SZ cfg -> body_arg (w_mem w) buf n body len bd ->
  exists block h1 m1 o w' tr, wire_headers flags len req block /\
    same_outside (w_mem w) m1 buf n /\ w_mem w' = m1 /\
    wout (sendHttpRequest fuel cfg E (Some t) tf (Some h) body len flags w)
      = Some (match o with Some st => Some (st, Some h1) | None => None end, w') /\
    w_tr w' = w_tr w ++ tr /\ w_nr w' = w_nr w /\ send_only tr /\
    prefix (accepted tr) (block ++ bd) /\
    (zlen block <= n -> holds m1 h1 buf n block) /\
    (block = req -> h1 = h /\ m1 = w_mem w) /\
    (n < zlen block -> o = Some HTTPInsufficientMemory /\ tr = [] /\ h1 = h /\ w' = w) /\
    (o = Some HTTPInsufficientMemory -> n < zlen block) /\
    (o = Some HTTPSuccess -> accepted tr = block ++ bd) /\
    (o = Some HTTPNetworkError -> zlen (accepted tr) < zlen (block ++ bd)) /\
    (o = None \/ o = Some HTTPSuccess \/ o = Some HTTPNetworkError \/ o = Some HTTPInsufficientMemory).
Proof.
  intros SC TN Ht H Hl W HB. unfold sendHttpRequest. cbn [assert_at bind].
  replace (match body with Some _ => true | None => len =? 0 end) with true
    by (destruct body; auto; destruct HB as (->&_); auto).
  replace (match tf with TNull => false | _ => true end) with true by (destruct tf; congruence).
  cbn [assert_at bind].
  destruct (SendHttpHeaders_run fuel cfg E tf t h buf n req len flags w SC TN Ht H Hl W)
    as (block&h1&m1&WH&[(C&EQ)|(C&Hh&S&Sq&o&w'&t0&tr&E1&Em&Etr&Enr&_&R)]).
  - rewrite EQ. cbn [bind is_success]. exists block, h, (w_mem w), (Some HTTPInsufficientMemory), w, [].
    rewrite app_nil_r. do 2 (split; [auto using same_outside_refl|]). split; auto. split; auto.
    do 2 (split; auto). split; [constructor|]. split; [exists (block ++ bd); auto|].
    split; [lia|]. split; auto. split; auto. split; auto. repeat split; auto; discriminate.
  - destruct (srun_facts _ _ _ _ _ _ R) as (F1&F2&F3&F4&F5).
    assert (FIN : o <> Some HTTPSuccess \/ body = None ->
      exists block0 h2 m2 o' w'' tr0, wire_headers flags len req block0 /\
    same_outside (w_mem w) m2 buf n /\ w_mem w'' = m2 /\
    Some (match o with Some st => Some (st, Some h1) | None => None end, w')
      = Some (match o' with Some st => Some (st, Some h2) | None => None end, w'') /\
    w_tr w'' = w_tr w ++ tr0 /\ w_nr w'' = w_nr w /\ send_only tr0 /\
    prefix (accepted tr0) (block0 ++ bd) /\
    (zlen block0 <= n -> holds m2 h2 buf n block0) /\
    (block0 = req -> h2 = h /\ m2 = w_mem w) /\
    (n < zlen block0 -> o' = Some HTTPInsufficientMemory /\ tr0 = [] /\ h2 = h /\ w'' = w) /\
    (o' = Some HTTPInsufficientMemory -> n < zlen block0) /\
    (o' = Some HTTPSuccess -> accepted tr0 = block0 ++ bd) /\
    (o' = Some HTTPNetworkError -> zlen (accepted tr0) < zlen (block0 ++ bd)) /\
    (o' = None \/ o' = Some HTTPSuccess \/ o' = Some HTTPNetworkError \/ o' = Some HTTPInsufficientMemory)).
    { intros D. exists block, h1, m1, o, w', (tick tf t0 ++ tr). do 7 (split; [auto|]).
      split. { destruct F2 as (c&->). exists (c ++ bd). rewrite app_assoc. auto. }
      split; auto. split; auto. split; [lia|].
      split. { intros X. destruct F5 as [F5|[F5|F5]]; congruence. }
      split. { intros X. rewrite F3 by auto. destruct D as [D|D]; [congruence|]. subst body. destruct HB as (_&->). rewrite app_nil_r. auto. }
      split. { intros X. rewrite zlen_app. pose proof (zlen_nonneg bd). specialize (F4 X). lia. }
      tauto. }
    destruct (SendHttpHeaders _ _ _ _ _ _ _ _ _) as [[[st oh] wx]| | |]; cbn [wout] in E1; try discriminate.
    2:{ injection E1 as E1 E2. subst w0. destruct o; [discriminate|]. cbn [bind wout]. apply FIN. left; discriminate. }
    injection E1 as E1 E2. subst wx. destruct o as [st'|]; [|discriminate]; rename st into stx. injection E1 as -> ->. cbn [bind]. rename st' into st.
    destruct (is_success st) eqn:Es.
    2:{ cbn [wout]. apply FIN. left. intros X. injection X as ->. discriminate. }
    apply is_success_eq in Es. subst st. specialize (F3 eq_refl).
    destruct body as [p|]; [|cbn [wout]; apply FIN; auto].
    destruct HB as (OB&DB&->).
    unfold sendHttpBody. rewrite Ht. cbn [assert_at bind].
    assert (OB' : object (w_mem w') p len). { rewrite Em. apply (same_outside_object _ _ _ _ _ _ S). auto. }
    destruct (SendHttpData_run fuel cfg E tf t p len w' SC TN Ht OB') as (o2&w2&t2&tr2&X1&X2&X3&X4&_&R2).
    assert (BB : bytes_at (w_mem w') p len = bytes_at (w_mem w) p len) by (rewrite Em; eapply bytes_at_same; eauto).
    rewrite BB in R2. destruct (srun_facts _ _ _ _ _ _ R2) as (G1&G2&G3&G4&G5).
    exists block, h1, m1, o2, w2, ((tick tf t0 ++ tr) ++ (tick tf t2 ++ tr2)).
    split; auto. split; auto. split; [congruence|].
    split. { destruct (SendHttpData _ _ _ _ _ _ _ _) as [[st w3]| | |]; cbn [wout bind] in *; try discriminate; injection X1 as <- <-; auto. }
    split; [rewrite X3, Etr; rewrite <- !app_assoc; auto|]. split; [congruence|].
    split; [apply Forall_app; split; auto|].
    rewrite !(accepted_app (tick tf t0 ++ tr)), F3.
    split. { destruct G2 as (c&->). exists c. rewrite app_assoc. auto. }
    split; auto. split; auto. split; [lia|].
    split. { intros X. destruct G5 as [G5|[G5|G5]]; congruence. }
    split. { intros X. rewrite G3; auto. }
    split. { intros X. rewrite !zlen_app. specialize (G4 X). lia. }
    tauto.
Qed.

(** ** Receiving sends nothing *)
Lemma no_send_app a b : no_send (a ++ b) <-> no_send a /\ no_send b.
Proof. apply Forall_app. Qed.
Definition ext (w w' : world) : Prop := exists tr, w_tr w' = w_tr w ++ tr /\ no_send tr.
Lemma ext_refl w : ext w w.
Proof. exists []. rewrite app_nil_r. split; auto. constructor. Qed.
Lemma ext_trans w1 w2 w3 : ext w1 w2 -> ext w2 w3 -> ext w1 w3.
Proof.
  intros (a&A1&A2) (b&B1&B2). exists (a ++ b). rewrite B1, A1, app_assoc. split; auto.
  apply no_send_app; auto.
Qed.
Lemma ext_one w w' e : w_tr w' = w_tr w ++ [e] -> match e with TSend _ _ => False | _ => True end -> ext w w'.
Proof. intros E H. exists [e]. split; auto. repeat constructor; auto. Qed.
Lemma ext_same w w' : w_tr w' = w_tr w -> ext w w'.
Proof. intros E. exists []. rewrite app_nil_r. split; auto. constructor. Qed.

Ltac inv_bind H :=
  match type of H with
  | bind ?x _ = _ =>
      let E := fresh "E" in destruct x as [?| | |] eqn:E; cbn [bind] in H; try discriminate H
  end.

Lemma pch_ext cfg s s' : processCompleteHeader cfg s = Ret s' -> ext (s_w s) (s_w s').
Proof.
  unfold processCompleteHeader. intros H. inv_bind H.
  destruct (c_lf (s_ctx s)), (c_lv (s_ctx s)); try (injection H as <-; apply ext_refl).
  inv_bind H. destruct (r_cb (s_resp s)); [|injection H as <-; apply ext_refl].
  inv_bind H. inv_bind H. injection H as <-. eapply ext_one; [reflexivity|exact I].
Qed.
Lemma callback_ext cfg start ev s r s' : callback cfg start ev s = Ret (r, s') -> ext (s_w s) (s_w s').
Proof.
  destruct ev; cbn [callback]; intros H.
  - injection H as <- <-. apply ext_refl.
  - unfold onStatus in H. inv_bind H. inv_bind H. injection H as <- <-. apply ext_refl.
  - unfold onStatusComplete in H. inv_bind H. injection H as <- <-. apply ext_refl.
  - unfold onHeaderField in H. inv_bind H. inv_bind H. inv_bind H. apply pch_ext in E1. cbn [s_w] in E1.
    destruct (c_lf (s_ctx a1)); [inv_bind H|]; injection H as <- <-; auto.
  - unfold onHeaderValue in H. inv_bind H. inv_bind H. injection H as <- <-. apply ext_refl.
  - unfold onHeadersComplete in H. inv_bind H. destruct (c_cur (s_ctx s)); [|discriminate].
    destruct (r_buf (s_resp s)); [|discriminate]. inv_bind H. inv_bind H. inv_bind H. inv_bind H. inv_bind H. inv_bind H.
    inv_bind H. apply pch_ext in E6. injection H as <- <-. auto.
  - unfold onBody in H. inv_bind H. destruct (r_buf (s_resp s)); [|discriminate]. inv_bind H. inv_bind H. inv_bind H. inv_bind H. inv_bind H.
    destruct (match r_body (s_resp s) with Some b => _ | None => _ end). inv_bind H. inv_bind H. inv_bind H. inv_bind H.
    injection H as <- <-. apply ext_same. reflexivity.
  - injection H as <- <-. apply ext_refl.
Qed.
Lemma run_tree_ext cfg start {S} (s0 : S) t : forall s e pos s1 s', run_tree cfg start s0 t s = Ret (e, pos, s1, s') -> ext (s_w s) (s_w s').
Proof.
  induction t as [e0 sd|ev k IH]; intros s e pos s1 s' H; cbn [run_tree] in H.
  - injection H as <- <- <- <-. apply ext_refl.
  - inv_bind H. destruct a as [r s2]. apply callback_ext in E. cbn [s_w log] in E.
    assert (X : ext (s_w s) (s_w s2)) by (eapply ext_trans; [|exact E]; eapply ext_one; [reflexivity|exact I]).
    set (s3 := mkst (s_ctx s2) (s_resp s2) (log (s_w s2) (TReply r))) in H.
    assert (Y : ext (s_w s) (s_w s3)) by (eapply ext_trans; [exact X|]; eapply ext_one; [reflexivity|exact I]).
    clearbody s3. destruct r; try (injection H as <- <- <- <-; auto); eapply ext_trans; eauto.
Qed.
Lemma run_tree_not_more cfg start {S} (s0 : S) t : forall s w, run_tree cfg start s0 t s <> More w.
Proof.
  assert (L : forall m p n w, loadn m p n <> More w) by (intros; unfold loadn; destruct (in_range _ _ _); discriminate).
  assert (ST : forall m p n w, storen m p n <> More w) by (intros; unfold storen; destruct (in_range _ _ _); discriminate).
  assert (PA : forall m p n w, padd m p n <> More w) by (intros; unfold padd; destruct (_ && _); discriminate).
  assert (PB : forall p n w, psub p n <> More w) by (intros; unfold psub; destruct (Nat.eqb _ _); discriminate).
  assert (AA : forall b n w, assert_at b n <> More w) by (intros [|]; discriminate).
  assert (BM : forall A C (x : res A) (f : A -> res C) w, (forall w, x <> More w) -> (forall a w, f a <> More w) -> bind x f <> More w).
  { intros A C [a| | |w0] f w H1 H2; cbn [bind]; try discriminate; auto. exfalso. eapply H1; eauto. }
  assert (PC : forall s w, processCompleteHeader cfg s <> More w).
  { intros s w. unfold processCompleteHeader. apply BM; auto. intros _ w'.
    destruct (c_lf (s_ctx s)); [destruct (c_lv (s_ctx s))|]; try discriminate. apply BM; auto. intros _ w2.
    destruct (r_cb _); [|discriminate]. apply BM; auto. intros ? w3. apply BM; auto. discriminate. }
  assert (CM : forall ev s w, callback cfg start ev s <> More w).
  { intros ev s w. destruct ev; cbn [callback]; try discriminate.
    - unfold onStatus. apply BM; auto. intros. apply BM; auto. discriminate.
    - unfold onStatusComplete. apply BM; auto. discriminate.
    - unfold onHeaderField. apply BM; auto. intros. apply BM; auto. intros. apply BM; auto. intros.
      destruct (c_lf _); [apply BM; auto|]; discriminate.
    - unfold onHeaderValue. apply BM; auto. intros. apply BM; auto. discriminate.
    - unfold onHeadersComplete. apply BM; auto. intros _ w1. destruct (c_cur _); [|discriminate]. destruct (r_buf _); [|discriminate].
      repeat (apply BM; auto; intros).
      + destruct (r_headers _); [|discriminate]. repeat (apply BM; auto; intros). discriminate.
      + discriminate.
    - unfold onBody. apply BM; auto. intros _ w1. destruct (r_buf _); [|discriminate].
      do 5 (apply BM; auto; intros). destruct (match r_body _ with Some _ => _ | None => _ end).
      repeat (apply BM; auto; intros).
      + destruct (0 <? _); [|discriminate]. unfold memmove. apply BM; auto.
      + discriminate. }
  induction t as [e0 sd|ev k IH]; intros s w; cbn [run_tree]; [discriminate|].
  apply BM; auto. intros [r s1] w'. destruct r; try discriminate; auto.
Qed.

Lemma parse_ext cfg P ps s n st ps' s' : parseHttpResponse cfg P ps s n = Ret (st, ps', s') -> ext (s_w s) (s_w s').
Proof.
  unfold parseHttpResponse. intros H.
  set (s1 := if c_resp (s_ctx s) then s else _) in H.
  assert (W : s_w s1 = s_w s) by (unfold s1; destruct (c_resp (s_ctx s)); auto).
  destruct (c_cur (s_ctx s1)); [|discriminate]. inv_bind H. inv_bind H. destruct a0 as [[[e pos] ps1] s2].
  apply run_tree_ext in E0. cbn [s_w log] in E0. inv_bind H. injection H as <- <- <-. cbn [s_w].
  rewrite W in E0. eapply ext_trans; [|eapply ext_trans; [exact E0|]]; eapply ext_one; try reflexivity; exact I.
Qed.
Lemma parse_not_more cfg P ps s n w : parseHttpResponse cfg P ps s n <> More w.
Proof.
  unfold parseHttpResponse. destruct (c_cur _); [|discriminate].
  destruct (loadn _ _ _) eqn:E; cbn [bind]; try discriminate.
  2:{ unfold loadn in E. destruct (in_range _ _ _); discriminate. }
  destruct (run_tree _ _ _ _ _) as [[[[e pos] ps1] s2]| | |] eqn:E2; cbn [bind]; try discriminate.
  2:{ apply run_tree_not_more in E2. tauto. }
  destruct e; unfold padd; destruct (_ && _); discriminate.
Qed.
Lemma get_time_ext E tf w t w' : get_time E tf w = Ret (t, w') -> ext w w'.
Proof.
  destruct tf; cbn [get_time]; intros H; [discriminate| |]; injection H as <- <-; [apply ext_refl|].
  eapply ext_one; [reflexivity|exact I].
Qed.

Lemma recv_loop_ext cfg E P T : forall fuel total last ps s,
  match recv_loop fuel cfg E P T total last ps s with
  | Ret (_, _, s') => ext (s_w s) (s_w s')
  | More w => ext (s_w s) w
  | _ => True end.
Proof.
  induction fuel as [|fuel IH]; intros total last ps s; cbn [recv_loop]; [apply ext_refl|].
  destruct (r_buf (s_resp s)); [|exact I].
  destruct (padd _ _ _) eqn:X; cbn [bind]; auto. 2:{ unfold padd in X; destruct (_ && _); discriminate. }
  destruct (e_recv _ _ _) as [n d].
  destruct (storen _ _ _) eqn:X2; cbn [bind]; auto. 2:{ unfold storen in X2; destruct (in_range _ _ _); discriminate. }
  set (w1 := w_after_recv _ _ _ _ _ _).
  assert (E1 : ext (s_w s) w1) by (eapply ext_one; [reflexivity|exact I]).
  destruct (n <? 0); [exact E1|]. cbn [s_w].
  destruct (get_time E (r_time (s_resp s)) w1) as [[t w2]| | |] eqn:Et; cbn [bind]; auto.
  2:{ destruct (r_time (s_resp s)); discriminate. }
  apply get_time_ext in Et. pose proof (ext_trans _ _ _ E1 Et) as E2.
  destruct (0 <? n).
  - match goal with |- context [parseHttpResponse cfg P ps ?S n] => destruct (parseHttpResponse cfg P ps S n) as [[[st ps'] s3]| | |] eqn:EP end; cbn [bind]; auto.
    2:{ apply parse_not_more in EP. tauto. }
    apply parse_ext in EP. cbn [s_w] in EP. pose proof (ext_trans _ _ _ E2 EP) as E3.
    destruct (_ && _ && _); [|exact E3].
    specialize (IH ((total + n) mod SZ cfg) t ps' s3).
    destruct (recv_loop _ _ _ _ _ _ _ _ _) as [[[? ?] ?]| | |]; auto; eapply ext_trans; eauto.
  - destruct (T <=? _).
    + match goal with |- context [parseHttpResponse cfg P ps ?S 0] => destruct (parseHttpResponse cfg P ps S 0) as [[[st ps'] s3]| | |] eqn:EP end; cbn [bind]; auto.
      2:{ apply parse_not_more in EP. tauto. }
      apply parse_ext in EP. cbn [s_w] in EP. eapply ext_trans; eauto.
    + destruct (_ && _); [|exact E2].
      specialize (IH total last ps (mkst (s_ctx s) (s_resp s) w2)).
      destruct (recv_loop _ _ _ _ _ _ _ _ _) as [[[? ?] ?]| | |]; auto; eapply ext_trans; eauto.
Qed.

Lemma Receive_ext fuel cfg E P tr r rh w x w' :
  wout (ReceiveAndParseHttpResponse fuel cfg E P tr r rh w) = Some (x, w') -> ext w w'.
Proof.
  unfold ReceiveAndParseHttpResponse. destruct tr as [t|]; [|discriminate].
  destruct (t_recv t); [|discriminate]. cbn [assert_at bind]. destruct r as [r|]; [|discriminate]. destruct rh as [rh|]; [|discriminate].
  unfold initializeParsingContextForFirstResponse. destruct (_ <=? _); [|discriminate]. cbn [assert_at bind].
  destruct (rh_buf rh); [|discriminate]. destruct (strncmp_eq _ _ _) eqn:X; cbn [bind]; try discriminate.
  2:{ exfalso. revert X. generalize (w_mem w) p HTTP_METHOD_HEAD. intros m q l. revert q.
      induction l as [|c l IH]; intros q; cbn [strncmp_eq]; [discriminate|].
      unfold load1. destruct (in_range _ _ _); [|discriminate]. cbn [bind]. destruct (_ =? _); [apply IH|discriminate]. }
  destruct (get_time _ _ _) as [[t0 w1]| | |] eqn:Et; cbn [bind]; try discriminate.
  2:{ destruct (r_time r); discriminate. }
  apply get_time_ext in Et.
  match goal with |- context [recv_loop fuel cfg E P ?T 0 t0 _ ?S] => pose proof (recv_loop_ext cfg E P T fuel 0 t0 (p_init P) S) as RL;
    destruct (recv_loop fuel cfg E P T 0 t0 (p_init P) S) as [[[st total] s]| | |] end; cbn [bind]; try discriminate.
  2:{ intros H. injection H as <- <-. eapply ext_trans; eauto. }
  cbn [s_w] in RL. assert (EW : ext w (s_w s)) by (eapply ext_trans; eauto).
  set (Y := match st with HTTPParserPaused => _ | _ => _ end).
  assert (NM : forall w, Y <> More w).
  { intros w0. unfold Y. destruct st; try discriminate. destruct (negb _); [|discriminate].
    destruct (c_cur (s_ctx s)); [destruct (r_buf (s_resp s))|]; try discriminate. unfold psub. destruct (Nat.eqb _ _); discriminate. }
  destruct Y as [[st2 r2]| | |] eqn:EY; cbn [bind]; try discriminate; [|exfalso; eapply NM; eauto].
  destruct (is_success st2).
  - destruct (getFinalResponseStatus _ _ _) eqn:G; cbn [bind]; try discriminate.
    + intros H. injection H as <- <-. auto.
    + exfalso. unfold getFinalResponseStatus in G. destruct (total <=? r_bufLen r2); [|discriminate]. cbn [assert_at bind] in G.
      destruct (c_state (s_ctx s)); try discriminate. destruct (_ =? 0) in G; [destruct (_ =? _) in G|]; discriminate.
  - intros H. injection H as <- <-. auto.
Qed.

(** ** HTTPClient_Send *)
Lemma int32max_mod cfg n : size_ok cfg -> 0 <= n < SZ cfg -> (INT32_MAX mod SZ cfg <? n) = (INT32_MAX <? n).
Proof.
  intros (k&Hk&E) Hn. rewrite E in *. unfold INT32_MAX.
  destruct (Z.le_gt_cases k 31).
  - assert (P : 2 ^ k <= 2 ^ 31) by (apply Z.pow_le_mono_r; lia). change (2 ^ 31) with 2147483648 in P.
    assert (M : 2147483647 mod 2 ^ k = 2 ^ k - 1).
    { replace 2147483647 with (2 ^ k - 1 + (2 ^ (31 - k) - 1) * 2 ^ k).
      - rewrite Z_mod_plus_full. apply Z.mod_small. lia.
      - rewrite Z.mul_sub_distr_r, <- Z.pow_add_r by lia. replace (31 - k + k) with 31 by lia.
        change (2 ^ 31) with 2147483648. lia. }
    rewrite M. destruct (Z.ltb_spec (2 ^ k - 1) n), (Z.ltb_spec 2147483647 n); auto; lia.
  - rewrite Z.mod_small; auto. split; [lia|].
    assert (2 ^ 31 < 2 ^ k) by (apply Z.pow_lt_mono_r; lia). change (2 ^ 31) with 2147483648 in *. lia.
Qed.

(** The clock the library uses. *)
Definition eff_time (r : response) : response := match r_time r with TNull => set_r_time r TZero | _ => r end.
Lemma eff_time_ok r : r_time (eff_time r) <> TNull.
Proof. unfold eff_time. destruct (r_time r) eqn:E; [discriminate| |]; rewrite E; discriminate. Qed.

Lemma Send_invalid fuel cfg E P tr prh body bodyLen pr flags w :
  size_ok cfg -> 0 <= bodyLen < SZ cfg -> (forall r, pr = Some r -> 0 <= r_bufLen r) ->
  send_invalid tr prh body bodyLen pr ->
  Send fuel cfg E P tr prh body bodyLen pr flags w = Ret (HTTPInvalidParameter, prh, pr, w).
Proof.
  intros SO HB HR H. unfold Send. rewrite (int32max_mod cfg bodyLen) by auto. unfold HTTP_MINIMUM_REQUEST_LINE_LENGTH.
  destruct tr as [t|]; auto. destruct (t_send t) eqn:E1; cbn [negb]; auto. destruct (t_recv t) eqn:E2; cbn [negb]; auto.
  destruct prh as [h|]; auto. destruct (rh_buf h) eqn:E3; auto.
  destruct (Z.ltb_spec (rh_len h) 16); auto. destruct (Z.ltb_spec (rh_bufLen h) (rh_len h)); auto.
  destruct pr as [r|]; auto. destruct (r_buf r) eqn:E4; auto. destruct (Z.eqb_spec (r_bufLen r) 0); auto.
  destruct body as [p'|].
  - destruct (Z.ltb_spec INT32_MAX bodyLen); auto. exfalso. unfold send_invalid in H.
    destruct H as [H|[(t'&H&H')|[H|[(h'&H&H')|[H|[(r'&H&H')|[(H&H')|H]]]]]]]; try discriminate; try lia; injection H as <-.
    + destruct H'; congruence.
    + destruct H' as [H'|[H'|H']]; [congruence|lia|lia].
    + destruct H'; congruence.
  - destruct (Z.ltb_spec 0 bodyLen); auto. destruct (Z.ltb_spec INT32_MAX bodyLen); auto. exfalso. unfold send_invalid in H.
    destruct H as [H|[(t'&H&H')|[H|[(h'&H&H')|[H|[(r'&H&H')|[(H&H')|H]]]]]]]; try discriminate; try lia; injection H as <-.
    + destruct H'; congruence.
    + destruct H' as [H'|[H'|H']]; [congruence|lia|lia].
    + destruct H'; congruence.
Qed.

Lemma Send_valid fuel cfg E P tr prh body bodyLen pr flags w :
  size_ok cfg -> 0 <= bodyLen < SZ cfg -> ~ send_invalid tr prh body bodyLen pr ->
  exists t h r, tr = Some t /\ t_send t = true /\ t_recv t = true /\ prh = Some h /\ pr = Some r /\
    (exists b, rh_buf h = Some b) /\ 16 <= rh_len h <= rh_bufLen h /\ (exists b, r_buf r = Some b) /\ r_bufLen r <> 0 /\
    bodyLen <= INT32_MAX /\ (body = None -> bodyLen = 0) /\
    Send fuel cfg E P tr prh body bodyLen pr flags w =
      (' (st, prh1, w1) <- sendHttpRequest fuel cfg E tr (r_time (eff_time r)) prh body bodyLen flags w ;;
       if is_success st
       then ' (st2, pr2, w2) <- ReceiveAndParseHttpResponse fuel cfg E P tr (Some (eff_time r)) prh1 w1 ;;
            Ret (st2, prh1, pr2, w2)
       else Ret (st, prh1, Some (eff_time r), w1)).
Proof.
  intros SO HB H. unfold send_invalid in H.
  destruct tr as [t|]; [|exfalso; apply H; tauto].
  destruct prh as [h|]; [|exfalso; apply H; tauto].
  destruct pr as [r|]; [|exfalso; apply H; tauto].
  exists t, h, r. split; auto.
  destruct (t_send t) eqn:E1; [|exfalso; apply H; right; left; eauto].
  destruct (t_recv t) eqn:E2; [|exfalso; apply H; right; left; eauto].
  do 4 (split; auto).
  destruct (rh_buf h) as [b|] eqn:E3; [|exfalso; apply H; do 3 right; left; eauto].
  split; [eauto|].
  assert (L1 : 16 <= rh_len h). { destruct (Z.lt_ge_cases (rh_len h) 16); auto. exfalso. apply H. do 3 right; left; eauto. }
  assert (L2 : rh_len h <= rh_bufLen h). { destruct (Z.lt_ge_cases (rh_bufLen h) (rh_len h)); auto. exfalso. apply H. do 3 right; left; eauto 6. }
  split; [lia|].
  destruct (r_buf r) as [rb|] eqn:E4; [|exfalso; apply H; do 5 right; left; eauto].
  split; [eauto|].
  assert (L3 : r_bufLen r <> 0). { intros X. apply H. do 5 right; left; eauto. }
  split; auto.
  assert (L4 : bodyLen <= INT32_MAX). { destruct (Z.lt_ge_cases INT32_MAX bodyLen); auto. exfalso. apply H. tauto. }
  split; auto.
  assert (L5 : body = None -> bodyLen = 0). { intros X. destruct (Z.lt_ge_cases 0 bodyLen); [|lia]. exfalso. apply H. tauto. }
  split; auto.
  unfold Send. rewrite E1, E2, E3, E4. cbn [negb]. unfold HTTP_MINIMUM_REQUEST_LINE_LENGTH.
  replace (rh_len h <? 16) with false by lia. replace (rh_bufLen h <? rh_len h) with false by lia.
  replace (r_bufLen r =? 0) with false by lia. rewrite int32max_mod by auto.
  replace (INT32_MAX <? bodyLen) with false by lia.
  replace (match body with Some _ => false | None => 0 <? bodyLen end) with false
    by (destruct body; auto; symmetry; apply Z.ltb_ge; rewrite L5; auto; lia).
  reflexivity.
Qed.

Lemma only_no_send_app a b : send_only a -> no_send b -> accepted (a ++ b) = accepted a.
Proof.
  intros _ N. rewrite accepted_app. replace (accepted b) with (@nil Z); [apply app_nil_r|].
  induction b as [|[] b IH]; auto; inversion N; subst; cbn [accepted]; auto. tauto.
Qed.

(** The statuses receiving can return. *)
Lemma receive_status fuel cfg E P tr r rh w st pr w' :
  ReceiveAndParseHttpResponse fuel cfg E P tr r rh w = Ret (st, pr, w') ->
  st <> HTTPInvalidParameter /\ st <> HTTPHeaderNotFound /\ st <> HTTPInvalidResponse.
Proof.
  assert (PS : forall e, processLlhttpError e <> HTTPInvalidParameter /\ processLlhttpError e <> HTTPHeaderNotFound /\ processLlhttpError e <> HTTPInvalidResponse)
    by (intros []; cbn; repeat split; discriminate).
  assert (PP : forall ps s n st ps' s', parseHttpResponse cfg P ps s n = Ret (st, ps', s') ->
     st <> HTTPInvalidParameter /\ st <> HTTPHeaderNotFound /\ st <> HTTPInvalidResponse).
  { intros ps s n st0 ps' s' H. unfold parseHttpResponse in H. destruct (c_cur _); [|discriminate].
    inv_bind H. inv_bind H. destruct a0 as [[[e pos] ps1] s2]. inv_bind H. injection H as <- _ _. apply PS. }
  assert (RL : forall fuel T total last ps s st n s', recv_loop fuel cfg E P T total last ps s = Ret (st, n, s') ->
     st <> HTTPInvalidParameter /\ st <> HTTPHeaderNotFound /\ st <> HTTPInvalidResponse).
  { clear fuel. induction fuel as [|fuel IH]; intros T total last ps s st0 n s' H; [discriminate|]. cbn [recv_loop] in H.
    destruct (r_buf (s_resp s)); [|discriminate]. inv_bind H. destruct (e_recv _ _ _). inv_bind H.
    destruct (_ <? 0); [injection H as <- _ _; repeat split; discriminate|].
    inv_bind H. destruct a1 as [t w2]. destruct (0 <? _).
    - inv_bind H. destruct a1 as [[st1 ps'] s3]. apply PP in E3. destruct (_ && _ && _); [eapply IH; eauto|injection H as <- _ _; auto].
    - destruct (T <=? _).
      + inv_bind H. destruct a1 as [[st1 ps'] s3]. apply PP in E3. injection H as <- _ _; auto.
      + destruct (_ && _); [eapply IH; eauto|injection H as <- _ _; repeat split; discriminate]. }
  unfold ReceiveAndParseHttpResponse. destruct tr as [t|]; [|discriminate].
  intros H. inv_bind H. destruct r as [r|]; [|discriminate]. destruct rh as [rh|]; [|discriminate].
  inv_bind H. inv_bind H. destruct a1 as [t0 w1]. inv_bind H. destruct a1 as [[st1 total] s].
  apply RL in E3. inv_bind H. destruct a1 as [st2 r2].
  assert (S2 : st2 <> HTTPInvalidParameter /\ st2 <> HTTPHeaderNotFound /\ st2 <> HTTPInvalidResponse).
  { destruct st1; try (injection E4 as <- <-; repeat split; discriminate); try (exfalso; tauto).
    destruct (negb _) in E4; [|injection E4 as <- <-; repeat split; discriminate].
    destruct (c_cur (s_ctx s)); [|discriminate]. destruct (r_buf (s_resp s)); [|discriminate].
    inv_bind E4. injection E4 as <- <-. repeat split; discriminate. }
  destruct (is_success st2).
  - inv_bind H. injection H as <- _ _. unfold getFinalResponseStatus in E5. inv_bind E5.
    destruct (c_state (s_ctx s)); try (injection E5 as <-; repeat split; discriminate).
    destruct (_ =? 0) in E5; [destruct (_ =? _) in E5|]; injection E5 as <-; repeat split; discriminate.
  - injection H as <- _ _. auto.
Qed.

(** Decimal notation is unique. *)
Lemma dec_value_nonneg d : Forall (fun c => 48 <= c <= 57) d -> 0 <= dec_value d.
Proof.
  induction d as [|c d IH] using rev_ind; intros F; [unfold dec_value; simpl; lia|].
  apply Forall_app in F as (F1&F2). inversion F2; subst. rewrite dec_value_app. specialize (IH F1). lia.
Qed.
Lemma dec_value_pos d : Forall (fun c => 48 <= c <= 57) d -> d <> [] -> hd 0 d <> 48 -> 0 < dec_value d.
Proof.
  induction d as [|c d IH] using rev_ind; intros F N H; [congruence|].
  apply Forall_app in F as (F1&F2). inversion F2; subst. rewrite dec_value_app.
  destruct d as [|x d].
  - simpl in H. unfold dec_value. simpl. lia.
  - assert (0 < dec_value (x :: d)) by (apply IH; auto; discriminate). lia.
Qed.
Lemma dec_value_inj d : forall d', Forall (fun c => 48 <= c <= 57) d -> Forall (fun c => 48 <= c <= 57) d' ->
  hd 0 d <> 48 -> hd 0 d' <> 48 -> dec_value d = dec_value d' -> d = d'.
Proof.
  induction d as [|c d IH] using rev_ind; intros d' F F' H H' E.
  - destruct d' as [|x d']; auto. pose proof (dec_value_pos (x :: d') F' ltac:(discriminate) H').
    change (dec_value []) with 0 in E. lia.
  - destruct d' as [|c' d' _] using rev_ind.
    { pose proof (dec_value_pos (d ++ [c]) F ltac:(destruct d; discriminate) H). change (dec_value []) with 0 in E. lia. }
    apply Forall_app in F as (F1&F2). inversion F2; subst. apply Forall_app in F' as (F1'&F2'). inversion F2'; subst.
    rewrite !dec_value_app in E.
    pose proof (dec_value_nonneg d F1). pose proof (dec_value_nonneg d' F1').
    assert (c = c') by lia. subst c'. f_equal. apply IH; auto; try lia.
    + destruct d; [simpl; lia|exact H].
    + destruct d'; [simpl; lia|exact H'].
Qed.
Lemma decimal_nat_unique n d d' : decimal_nat n d -> decimal_nat n d' -> d = d'.
Proof.
  intros (N&F&H&V) (N'&F'&H'&V').
  destruct (Z.eq_dec (hd 0 d) 48) as [X|X], (Z.eq_dec (hd 0 d') 48) as [X'|X'].
  - rewrite (H X), (H' X'). auto.
  - rewrite (H X) in V. change (dec_value [48]) with 0 in V. pose proof (dec_value_pos d' F' N' X'). lia.
  - rewrite (H' X') in V'. change (dec_value [48]) with 0 in V'. pose proof (dec_value_pos d F N X). lia.
  - apply dec_value_inj; auto. congruence.
Qed.
