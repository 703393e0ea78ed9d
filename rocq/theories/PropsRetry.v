(** PropsRetry.v — C97: sending a request again after a failure (SpecRetry.v). *)
From Verif Require Import Base Lib ModelRequest ModelSend ModelResponse SpecRequest SpecSend SpecResponse SpecHttp SpecParser SpecExchange SpecExact SpecSession SpecDownload SpecRetry
  ProofsDecimal ProofsRequest ProofsRequest2 ProofsHistory ProofsSend ProofsSend2 ProofsResponse ProofsResponse2 ProofsResponse3 ProofsResponse4 ProofsResponse5 ProofsTwin ProofsExchange RefParser RefRun HttpRun ProofsFollow ProofsEnd Demo DemoResponse
  PropsSend PropsResponse PropsHttp PropsExchange ProofsAny PropsAny PropsAnyExchange PropsExact PropsApi ProofsCount PropsSession PropsDownload.

(** ** The setup stays *)
Lemma usable_same2 m m' a n c k buf nn s j : same_outside2 m m' a n c k -> usable m buf nn s j -> usable m' buf nn s j.
Proof. intros S (U0&U1). split; [exact U0|]. destruct s; auto. destruct U1 as (U1&U2). split; [eapply same2_object; eauto|exact U2]. Qed.
Lemma retry_keeps cfg P t ri me p ho cs hs h h' buf n body len bd r rbuf L m m' : retry_setup cfg P t ri me p ho cs hs h buf n body len bd r rbuf L m ->
  same_outside2 m m' buf n rbuf L -> rh_buf h' = Some buf -> rh_bufLen h' = n -> 0 <= rh_len h' <= n -> retry_setup cfg P t ri me p ho cs hs h' buf n body len bd r rbuf L m'.
Proof.
  intros (C1&C2&C3&C4&C5&C6&C7&C8&C9&C10&C11&C12&C13&C14&C15&C16&C17&C18&C19&C20&C21&C22&C23&C24&C25&C26&C27&C28&C29&C30&C31) S B1 B2 B3.
  destruct C11 as ((I1&I1')&I2&I3&I4&I5&(I6&I6')&I7&I8).
  assert (O : object m' buf n) by (eapply same2_object; eauto).
  assert (IA : init_args cfg m' buf n ri me p ho).
  { split; [split; [eapply arg_same2; eauto|exact I1']|]. split; [exact I2|]. split; [|split; [exact I4|split; [exact I5|split; [split; [eapply arg_same2; eauto|exact I6']|split; [exact I7|exact I8]]]]].
    destruct I3 as [I3|(X1&X2&X3)]; [left; exact I3|]. right. split; [exact X1|]. split; [exact X2|]. eapply arg_same2; eauto. }
  assert (CO : Forall (call_ok cfg m' buf n) cs).
  { eapply Forall_impl; [|exact C19]. intros [ri'|f fl v vl|a b]; cbn [call_ok]; intros K; [|destruct K as (K1&K2&K3); split; [eapply usable_same2; eauto|split; [eapply usable_same2; eauto|exact K3]]|exact K].
    destruct K as (K1&K2&K3&K4). split; [eapply usable_same2; eauto|]. split; [eapply usable_same2; eauto|]. split; [eapply usable_same2; eauto|exact K4]. }
  assert (AS : Forall2 (asks m') cs hs).
  { clear - C19 C20 C21 S. induction C20 as [|c x cs hs A F IH]; [constructor|]. inversion C19; inversion C21; subst. constructor; [|apply IH; auto].
    destruct c as [ri'|f fl v vl|a b]; cbn [asks] in *; auto. destruct A as (A1&A2&A3&A4&A5&A6). match goal with H : call_ok _ _ _ _ (CAdd _ _ _ _) |- _ => destruct H as (U1&U2&_) end. match goal with H : call_apart _ _ (CAdd _ _ _ _) |- _ => destruct H as (P1&P2) end.
    assert (AA : forall s j, usable m buf n s j -> arg_apart buf n s j) by (intros s j (_&U); destruct s; cbn; tauto).
    split; [eapply arg_same2; eauto|]. split; [eapply arg_same2; eauto|]. auto. }
  assert (BA : body_arg m' buf n body len bd).
  { unfold body_arg in *. destruct body as [q|]; auto. destruct C25 as (Q1&Q2&Q3). split; [eapply same2_object; eauto|]. split; [exact Q2|]. rewrite Q3. symmetry. eapply bytes_at_same2; eauto. }
  assert (OR : object m' rbuf L) by (eapply same2_object; eauto). assert (U' : usable m' buf n (ri_path ri) (ri_pathLen ri)) by (eapply usable_same2; eauto).
  unfold retry_setup. repeat (split; [assumption|]). assumption.
Qed.

(** ** Building the request *)
Definition text_at_rest cfg ri me p ho hs : bytes := request_text me p (init_headers (UA cfg) (ri_flags ri) ho ++ hs).
Lemma at_rest_len cfg ri me p ho hs : 1 <= zlen me -> 16 <= zlen (text_at_rest cfg ri me p ho hs).
Proof.
  intros M. unfold text_at_rest. rewrite request_text_hlines. unfold request_line. rewrite !zlen_app. change (zlen (B " ")) with 1. change (zlen (B " HTTP/1.1")) with 9. change (zlen CRLF) with 2.
  assert (K : 8 <= zlen (hlines (init_headers (UA cfg) (ri_flags ri) ho ++ hs))).
  { unfold init_headers. rewrite !ProofsHistory.hlines_app, !zlen_app.
    assert (Q : 8 <= zlen (hlines [(B "Host", ho)])).
    { unfold hlines. cbn [map concat fst snd]. rewrite app_nil_r. unfold header_line. rewrite !zlen_app. change (zlen (B "Host")) with 4. change (zlen (B ": ")) with 2. change (zlen CRLF) with 2. pose proof (zlen_nonneg ho). lia. }
    pose proof (fun x => zlen_nonneg (hlines x)) as N. pose proof (N (if Z.testbit (ri_flags ri) 1 then [] else [(B "User-Agent", UA cfg)])). pose proof (N (if Z.testbit (ri_flags ri) 0 then [(B "Connection", B "keep-alive")] else [])). pose proof (N hs). lia. }
  pose proof (zlen_nonneg p). lia.
Qed.
Lemma arg_zlen m s k d : arg m s k d -> 0 <= k -> zlen d = k.
Proof.
  intros (L&A) K. destruct s as [|l|q]; [contradiction| |]; destruct A as (A&->); [apply slice_len; lia|apply bytes_at_len; exact A].
Qed.
Lemma built_again cfg P t ri me p ho cs hs h buf n body len bd r rbuf L m : retry_setup cfg P t ri me p ho cs hs h buf n body len bd r rbuf L m ->
  exists sts h1 m1, history cfg m h (CInit ri :: cs) = Ret (sts, h1, m1) /\ same_outside m m1 buf n /\
    rh_buf h1 = Some buf /\ rh_bufLen h1 = n /\ 0 <= rh_len h1 <= n /\
    (forallb is_success sts = true <-> zlen (text_at_rest cfg ri me p ho hs) <= n) /\
    (forallb is_success sts = true -> holds m1 h1 buf n (text_at_rest cfg ri me p ho hs)).
Proof.
  intros (C1&C2&C3&C4&C5&C6&C7&C8&C9&C10&C11&C12&C13&C14&C15&C16&C17&C18&C19&C20&C21&C22&C23&C24&C25&C26&C27&C28&C29&C30&C31).
  destruct (C53_every_request_that_fits_is_built cfg m h buf n ri me p ho cs hs C1 C6 C7 C9 C11 C15 C19 C20) as (sts&h1&m1&X1&_&X2&X3).
  fold (text_at_rest cfg ri me p ho hs) in X2, X3.
  destruct (history_stays cfg buf n C1 (CInit ri :: cs) m h C6 C7 C9 C8) as (sts'&h1'&m1'&Y1&(Y2&Y3&Y4&Y5&_)).
  { constructor; [|exact C19]. destruct C11 as ((I1&I1')&I2&I3&I4&I5&(I6&I6')&I7&I8). cbn [call_ok].
    assert (U : forall s k d, 0 <= k -> arg m s k d -> arg_apart buf n s k -> usable m buf n s k).
    { intros s k d K0 (L0&Ar) Ap. split; [auto|]. destruct s; auto; [lia|]. split; [tauto|exact Ap]. }
    split; [eapply U; eauto; lia|]. split; [exact C12|]. split; [eapply U; eauto; lia|exact I8]. }
  rewrite X1 in Y1. injection Y1 as <- <- <-. exists sts, h1, m1. split; [auto|]. split; [auto|]. split; [auto|]. split; [auto|]. split; [auto|].
  assert (FS : forallb is_success sts = true <-> Forall (eq HTTPSuccess) sts).
  { rewrite forallb_forall, Forall_forall. split; intros Q x I; specialize (Q x I); [destruct x; try discriminate; reflexivity|subst x; reflexivity]. }
  rewrite FS. split; [exact X2|]. intros Q. apply X3, X2, Q.
Qed.
Lemma again_setup cfg P t ri me p ho cs hs h buf n body len bd r rbuf L m E h1 m1 : retry_setup cfg P t ri me p ho cs hs h buf n body len bd r rbuf L m -> send_contract E -> recv_contract E ->
  same_outside m m1 buf n -> holds m1 h1 buf n (text_at_rest cfg ri me p ho hs) ->
  send_setup cfg E P t h1 buf n (text_at_rest cfg ri me p ho hs) body len bd r rbuf L (mkw m1 0 0 0 []).
Proof.
  intros (C1&C2&C3&C4&C5&C6&C7&C8&C9&C10&C11&C12&C13&C14&C15&C16&C17&C18&C19&C20&C21&C22&C23&C24&C25&C26&C27&C28&C29&C30&C31) SC RC S H. unfold send_setup. cbn [w_mem].
  assert (ML : 1 <= zlen me) by (destruct C11 as ((I1&_)&I2&_); rewrite (arg_zlen _ _ _ _ I1) by lia; lia).
  pose proof (at_rest_len cfg ri me p ho hs ML). repeat (split; [first [assumption|lia]|]). split; [|split; [exact C27|split; [exact C28|split; [eapply same_object; eauto|exact C30]]]].
  unfold body_arg in *. destruct body as [q|]; auto. destruct C25 as (Q1&Q2&Q3). split; [eapply same_object; eauto|]. split; [exact Q2|]. rewrite Q3. symmetry. eapply bytes_at_same; eauto.
Qed.

(** ** What a server reads *)
Lemma length_header_unique flags len a b : length_header flags len a -> length_header flags len b -> a = b.
Proof.
  unfold length_header. destruct (_ || _); [congruence|]. intros (d&D&->) (d'&D'&->). rewrite (decimal_unique _ _ _ D D'). reflexivity.
Qed.
Definition all_headers cfg ri ho (hs cl : list (bytes * bytes)) : list (bytes * bytes) := init_headers (UA cfg) (ri_flags ri) ho ++ hs ++ cl.
Lemma whole_text me p hs bd : whole_request me p hs bd = request_text me p hs ++ bd.
Proof. rewrite request_text_hlines. unfold whole_request, line_of, request_line, hlines. rewrite <- !app_assoc. reflexivity. Qed.
Lemma at_rest_cl cfg ri me p ho hs flags len block : wire_headers flags len (text_at_rest cfg ri me p ho hs) block -> exists cl, length_header flags len cl /\ block = request_text me p (all_headers cfg ri ho hs cl).
Proof. intros WH. destruct (wire_text _ _ _ _ _ _ WH) as (cl&LH&->). exists cl. split; [exact LH|]. unfold all_headers. rewrite <- app_assoc. reflexivity. Qed.
Lemma legal_asks m cs hs : Forall2 (asks m) cs hs -> legal_headers hs.
Proof.
  induction 1 as [|c [f v] cs hs A F IH]; [constructor|]. constructor; [|exact IH]. destruct c as [ri|x xl y yl|a b]; cbn [asks fst snd] in *; [contradiction|tauto|]. destruct A as (_&->&RV). split; [apply all_legal_field; reflexivity|eapply range_value_legal; eauto].
Qed.
Theorem C97_server_reads_the_request : forall cfg P t ri me p ho cs hs h buf n body len bd r rbuf L m flags cl rest,
  retry_setup cfg P t ri me p ho cs hs h buf n body len bd r rbuf L m -> Z.testbit flags 0 = false -> length_header flags len cl ->
  server_reads (whole_request me p (all_headers cfg ri ho hs cl) bd ++ rest) = Some (line_of me p, all_headers cfg ri ho hs cl, bd, rest).
Proof.
  intros cfg P t ri me p ho cs hs h buf n body len bd r rbuf L m flags cl rest D Ff LH.
  pose proof D as (C1&C2&C3&C4&C5&C6&C7&C8&C9&C10&C11&C12&C13&C14&C15&C16&C17&C18&C19&C20&C21&C22&C23&C24&C25&C26&C27&C28&C29&C30&C31).
  assert (LB : zlen bd = len).
  { unfold body_arg in C25. destruct body as [q|]; [|destruct C25 as (->&->); reflexivity]. destruct C25 as (BO&_&->). apply bytes_at_len; auto. }
  assert (LL : legal_headers (all_headers cfg ri ho hs cl)).
  { unfold all_headers. apply Forall_app. split; [apply legal_init; auto|]. apply Forall_app. split; [eapply legal_asks; eauto|]. unfold length_header in LH. destruct (_ || _); [subst; constructor|].
    destruct LH as (d&DD&->). constructor; [|constructor]. cbn [fst snd]. split; [apply all_legal_field; reflexivity|eapply decimal_legal; eauto]. }
  rewrite whole_text, <- app_assoc, server_reads_ok by auto.
  assert (AN : announced (all_headers cfg ri ho hs cl) = Some len).
  { unfold all_headers. rewrite app_assoc. apply (announced_cl flags); auto; [|lia]. apply Forall_app. split; [|exact C22]. unfold init_headers. destruct (Z.testbit (ri_flags ri) 1), (Z.testbit (ri_flags ri) 0); repeat constructor. }
  rewrite AN, zlen_app, LB. pose proof (zlen_nonneg rest). replace (len <=? len + zlen rest) with true by lia. unfold line_of.
  replace (slice (bd ++ rest) 0 len) with bd; [replace (slice (bd ++ rest) len (len + zlen rest - len)) with rest; [reflexivity|]|].
  - unfold slice. rewrite skipn_app. unfold zlen in LB. rewrite skipn_all2 by lia. replace (Z.to_nat len - length bd)%nat with 0%nat by lia. cbn [skipn app]. symmetry. apply firstn_all2. unfold zlen. lia.
  - unfold slice. cbn [Z.to_nat skipn]. unfold zlen in LB. rewrite firstn_app. rewrite firstn_all2 by lia. replace (Z.to_nat len - length bd)%nat with 0%nat by lia. cbn [firstn]. rewrite app_nil_r. reflexivity.
Qed.
Print Assumptions C97_server_reads_the_request.

(** ** One attempt *)
Lemma line_start me p hs : 1 <= zlen me -> slice (request_text me p hs) 0 4 = slice (line_of me p) 0 4.
Proof.
  intros M. rewrite request_text_hlines. unfold request_line, line_of. assert (E : (me ++ B " " ++ p ++ B " HTTP/1.1" ++ CRLF) ++ hlines hs ++ CRLF = (me ++ B " " ++ p ++ B " HTTP/1.1") ++ CRLF ++ hlines hs ++ CRLF) by (rewrite <- !app_assoc; reflexivity).
  try rewrite E. set (l := me ++ B " " ++ p ++ B " HTTP/1.1"). assert (LL : 4 <= zlen l) by (unfold l; rewrite !zlen_app; change (zlen (B " ")) with 1; change (zlen (B " HTTP/1.1")) with 9; pose proof (zlen_nonneg p); lia).
  unfold slice. change (Z.to_nat 4) with 4%nat. change (Z.to_nat 0) with 0%nat. rewrite !skipn_O. unfold zlen in LL. rewrite firstn_app. replace (4 - length l)%nat with 0%nat by lia. rewrite firstn_O, app_nil_r. reflexivity.
Qed.
Lemma me_pos cfg P t ri me p ho cs hs h buf n body len bd r rbuf L m : retry_setup cfg P t ri me p ho cs hs h buf n body len bd r rbuf L m -> 1 <= zlen me.
Proof. intros (C1&C2&C3&C4&C5&C6&C7&C8&C9&C10&((I1&_)&I2&_)&_). rewrite (arg_zlen _ _ _ _ I1) by lia. lia. Qed.
Lemma attempt fuel cfg P t ri me p ho cs hs h buf n body len bd r rbuf L m E flags : retry_setup cfg P t ri me p ho cs hs h buf n body len bd r rbuf L m -> send_contract E -> recv_contract E ->
  exists sts h1 m1, history cfg m h (CInit ri :: cs) = Ret (sts, h1, m1) /\ same_outside2 m m1 buf n rbuf L /\
    (forallb is_success sts = true <-> zlen (text_at_rest cfg ri me p ho hs) <= n) /\
    (forallb is_success sts = true ->
      send_setup cfg E P t h1 buf n (text_at_rest cfg ri me p ho hs) body len bd r rbuf L (mkw m1 0 0 0 []) /\
      ((exists w1, Send fuel cfg E P (Some t) (Some h1) body len (Some r) flags (mkw m1 0 0 0 []) = More w1 /\ same_outside2 m (w_mem w1) buf n rbuf L) \/
       (exists st h2 r1 w1, exchanges fuel cfg E P t h1 body len r flags (mkw m1 0 0 0 []) st h2 r1 w1 (w_tr w1) /\ same_outside2 m (w_mem w1) buf n rbuf L /\
          retry_setup cfg P t ri me p ho cs hs h2 buf n body len bd r rbuf L (w_mem w1)))).
Proof.
  intros D SC RC. destruct (built_again _ _ _ _ _ _ _ _ _ _ _ _ _ _ _ _ _ _ _ D) as (sts&h1&m1&X1&X2&X3&X4&X5&X6&X7).
  exists sts, h1, m1. split; [auto|]. split; [apply same2_of1; auto|]. split; [auto|]. intros Q. specialize (X7 Q).
  pose proof (again_setup _ _ _ _ _ _ _ _ _ _ _ _ _ _ _ _ _ _ _ _ _ _ D SC RC X2 X7) as SS.
  split; [exact SS|]. destruct (C48_send_is_safe fuel _ _ _ _ _ _ _ _ _ _ _ _ _ _ _ flags SS) as (o&w1&tr&Y1&Y2&Y3&Y4&_). cbn [w_mem w_tr app] in Y2, Y3. subst tr.
  assert (SM : same_outside2 m (w_mem w1) buf n rbuf L) by (eapply same2_trans; [apply same2_of1; exact X2|exact Y3]).
  destruct (Send fuel cfg E P (Some t) (Some h1) body len (Some r) flags (mkw m1 0 0 0 [])) as [[x wx]| | |wx] eqn:Z0; cbn [wout] in Y1; try discriminate; injection Y1 as <- <-.
  - right. destruct (Y4 _ eq_refl) as (st&h2&r1&->&Q1&Q2&Q3). exists st, h2, r1, wx. split; [split; [exact Z0|reflexivity]|]. split; [exact SM|]. eapply retry_keeps; eauto. lia.
  - left. exists wx. auto.
Qed.

(** ** C97 *)
(** Whatever the connections do within their contracts, the application gets to an end (or a call is still running when the fuel ends), nothing but the two buffers
    has changed, and no connection is used twice. *)
Theorem C97_retry_is_safe : forall fuel cfg P t ri me p ho cs hs buf n body len bd r rbuf L flags Es h m,
  retry_setup cfg P t ri me p ho cs hs h buf n body len bd r rbuf L m -> Forall (fun E => send_contract E /\ recv_contract E) Es ->
  (exists w, retry fuel cfg P t ri cs body len flags r h Es m = More w /\ same_outside2 m (w_mem w) buf n rbuf L) \/
  (exists logs o m', retry fuel cfg P t ri cs body len flags r h Es m = Ret (logs, o, m') /\ same_outside2 m m' buf n rbuf L /\ (length logs <= length Es)%nat).
Proof.
  intros fuel cfg P t ri me p ho cs hs buf n body len bd r rbuf L flags Es. induction Es as [|E Es IH]; intros h m D FE.
  - right. exists [], None, m. split; [reflexivity|]. split; [apply same2_refl|cbn; lia].
  - inversion FE as [|x l (SC&RC) FE']; subst. destruct (attempt fuel _ _ _ _ _ _ _ _ _ _ _ _ _ _ _ _ _ _ _ E flags D SC RC) as (sts&h1&m1&X1&X2&_&X4). cbn [retry]. rewrite X1. cbn [bind].
    destruct (forallb is_success sts); cbn [negb]; [|right; exists [], None, m1; split; [reflexivity|split; [exact X2|cbn; lia]]].
    destruct (X4 eq_refl) as (_&[(w1&Y1&Y2)|(st&h2&r1&w1&(Y1&_)&Y2&Y3)]); rewrite Y1; cbn [bind]; [left; eauto|].
    assert (K : (exists w, (' (logs, o, m2) <- retry fuel cfg P t ri cs body len flags r h2 Es (w_mem w1) ;; Ret (w_tr w1 :: logs, o, m2)) = More w /\ same_outside2 m (w_mem w) buf n rbuf L) \/
      (exists logs o m', (' (logs, o, m2) <- retry fuel cfg P t ri cs body len flags r h2 Es (w_mem w1) ;; Ret (w_tr w1 :: logs, o, m2)) = Ret (logs, o, m') /\ same_outside2 m m' buf n rbuf L /\ (length logs <= length (E :: Es))%nat)).
    { destruct (IH h2 (w_mem w1) Y3 FE') as [(w&Z1&Z2)|(logs&o&m'&Z1&Z2&Z3)]; rewrite Z1; cbn [bind]; [left; exists w|right; exists (w_tr w1 :: logs), o, m'].
      - split; [reflexivity|eapply same2_trans; eauto].
      - split; [reflexivity|]. split; [eapply same2_trans; eauto|cbn [length]; lia]. }
    destruct st; try exact K. right. exists [w_tr w1], (Some (h2, r1, w1)), (w_mem w1). split; [reflexivity|]. split; [exact Y2|cbn; lia].
Qed.
Print Assumptions C97_retry_is_safe.

(** Whatever the servers do, each connection gets the request, or a beginning of it, and nothing else, and the last one all of it if a call succeeds. *)
Theorem C97_only_the_request_is_sent : forall fuel cfg P t ri me p ho cs hs buf n body len bd r rbuf L flags cl Es h m logs o m',
  retry_setup cfg P t ri me p ho cs hs h buf n body len bd r rbuf L m -> Forall (fun E => send_contract E /\ recv_contract E) Es -> length_header flags len cl ->
  retry fuel cfg P t ri cs body len flags r h Es m = Ret (logs, o, m') -> let T := whole_request me p (all_headers cfg ri ho hs cl) bd in
  Forall (fun log => prefix (accepted log) T) logs /\ (o <> None -> exists before log, logs = before ++ [log] /\ accepted log = T).
Proof.
  intros fuel cfg P t ri me p ho cs hs buf n body len bd r rbuf L flags cl Es h m logs o m' D FE LH X T. revert h m logs o m' D FE X.
  induction Es as [|E Es IH]; intros h m logs o m' D FE X; cbn [retry] in X.
  - injection X as <- <- <-. split; [constructor|congruence].
  - inversion FE as [|x l (SC&RC) FE']; subst. destruct (attempt fuel _ _ _ _ _ _ _ _ _ _ _ _ _ _ _ _ _ _ _ E flags D SC RC) as (sts&h1&m1&X1&X2&_&X4). rewrite X1 in X. cbn [bind] in X.
    destruct (forallb is_success sts); cbn [negb] in X; [|injection X as <- <- <-; split; [constructor|congruence]].
    destruct (X4 eq_refl) as (SS&[(w1&Y1&_)|(st&h2&r1&w1&Y0&Y2&Y3)]); [rewrite Y1 in X; discriminate|]. pose proof Y0 as (Y1&_). rewrite Y1 in X. cbn [bind] in X.
    assert (PX : prefix (accepted (w_tr w1)) T /\ (st = HTTPSuccess -> accepted (w_tr w1) = T)).
    { destruct (C50_send_then_receive _ _ _ _ _ _ _ _ _ _ _ _ _ _ _ _ _ _ _ _ _ _ SS Y0) as (block&WH&Z). destruct (at_rest_cl _ _ _ _ _ _ _ _ _ WH) as (cl'&LH'&BE). rewrite (length_header_unique _ _ _ _ LH' LH) in BE.
      assert (TE : T = block ++ bd) by (unfold T; rewrite whole_text, BE; reflexivity). rewrite TE.
      destruct Z as [(Z1&Z2&_)|[(_&Z2&_&Z3&_)|(sent&rtr&w2&_&_&_&_&Z3&_)]]; [rewrite Z1; split; [exists (block ++ bd); reflexivity|congruence]|split; [exact Z3|congruence]|rewrite Z3; split; [exists []; rewrite app_nil_r; reflexivity|auto]]. }
    assert (K : (' (logs, o, m2) <- retry fuel cfg P t ri cs body len flags r h2 Es (w_mem w1) ;; Ret (w_tr w1 :: logs, o, m2)) = Ret (logs, o, m') ->
      Forall (fun log => prefix (accepted log) T) logs /\ (o <> None -> exists before log, logs = before ++ [log] /\ accepted log = T)).
    { intros Q. destruct (retry fuel cfg P t ri cs body len flags r h2 Es (w_mem w1)) as [((lo&oo)&mo)| | |] eqn:RE; cbn [bind] in Q; try discriminate. injection Q as <- <- <-.
      destruct (IH _ _ _ _ _ Y3 FE' RE) as (K1&K2). split; [constructor; [apply PX|exact K1]|]. intros N. destruct (K2 N) as (b&lg&->&K3). exists (w_tr w1 :: b), lg. split; [reflexivity|exact K3]. }
    destruct st; try exact (K X). injection X as <- <- <-. split; [constructor; [apply PX|constructor]|]. intros _. exists [], (w_tr w1). split; [reflexivity|]. destruct PX as (_&PX). exact (PX eq_refl).
Qed.
Print Assumptions C97_only_the_request_is_sent.

(** No connection gets anything but the request, at most once; and if the servers are honest - each connection delivers only (the beginning of) the answer to what was
    sent on it - a success is the whole answer to the whole request, on the last connection used. *)
Theorem C97_retry_is_right : forall fuel cfg P t ri me p ho cs hs buf n body len bd r rbuf L flags cl srv Es h m logs o m',
  reads_http P -> retry_setup cfg P t ri me p ho cs hs h buf n body len bd r rbuf L m -> Forall connection_ok Es -> Z.testbit flags 0 = false -> length_header flags len cl ->
  well_behaved srv -> (forall d, p_body (srv (line_of me p) (all_headers cfg ri ho hs cl) bd) <> ToClose d) ->
  retry fuel cfg P t ri cs body len flags r h Es m = Ret (logs, o, m') -> Forall (honest srv) logs ->
  let T := whole_request me p (all_headers cfg ri ho hs cl) bd in let resp := srv (line_of me p) (all_headers cfg ri ho hs cl) bd in
  Forall (fun log => prefix (accepted log) T) logs /\
  match o with
  | None => True
  | Some (h', r', w') => m' = w_mem w' /\ exists before, logs = before ++ [w_tr w'] /\
      accepted (w_tr w') = T /\ data_received (w_tr w') = http_bytes resp /\ gives cfg rbuf L resp r r' w' (w_tr w')
  end.
Proof.
  intros fuel cfg P t ri me p ho cs hs buf n body len bd r rbuf L flags cl srv Es h m logs o m' RH D FE Ff LH WB NC X HN T resp. revert h m logs o m' D FE X HN.
  induction Es as [|E Es IH]; intros h m logs o m' D FE X HN; cbn [retry] in X.
  - injection X as <- <- <-. split; [constructor|exact I].
  - inversion FE as [|x l (SC&RC&RF) FE']; subst. destruct (attempt fuel _ _ _ _ _ _ _ _ _ _ _ _ _ _ _ _ _ _ _ E flags D SC RC) as (sts&h1&m1&X1&X2&_&X4). rewrite X1 in X. cbn [bind] in X.
    destruct (forallb is_success sts); cbn [negb] in X; [|injection X as <- <- <-; split; [constructor|exact I]].
    destruct (X4 eq_refl) as (SS&[(w1&Y1&_)|(st&h2&r1&w1&Y0&Y2&Y3)]); [rewrite Y1 in X; discriminate|]. pose proof Y0 as (Y1&_). rewrite Y1 in X. cbn [bind] in X.
    assert (PX : prefix (accepted (w_tr w1)) T /\ (st = HTTPSuccess -> accepted (w_tr w1) = T)).
    { destruct (C50_send_then_receive _ _ _ _ _ _ _ _ _ _ _ _ _ _ _ _ _ _ _ _ _ _ SS Y0) as (block&WH&Z). destruct (at_rest_cl _ _ _ _ _ _ _ _ _ WH) as (cl'&LH'&BE). rewrite (length_header_unique _ _ _ _ LH' LH) in BE.
      assert (TE : T = block ++ bd) by (unfold T; rewrite whole_text, BE; reflexivity). rewrite TE.
      destruct Z as [(Z1&Z2&_)|[(_&Z2&_&Z3&_)|(sent&rtr&w2&_&_&_&_&Z3&_)]]; [rewrite Z1; split; [exists (block ++ bd); reflexivity|congruence]|split; [exact Z3|congruence]|rewrite Z3; split; [exists []; rewrite app_nil_r; reflexivity|auto]]. }
    assert (K : forall logs0 o0 m0, retry fuel cfg P t ri cs body len flags r h2 Es (w_mem w1) = Ret (logs0, o0, m0) -> Forall (honest srv) (w_tr w1 :: logs0) ->
      Forall (fun log => prefix (accepted log) T) (w_tr w1 :: logs0) /\
      match o0 with None => True | Some (h', r', w') => m0 = w_mem w' /\ exists before, w_tr w1 :: logs0 = before ++ [w_tr w'] /\
      accepted (w_tr w') = T /\ data_received (w_tr w') = http_bytes resp /\ gives cfg rbuf L resp r r' w' (w_tr w') end).
    { intros logs0 o0 m0 Q H. inversion H; subst. destruct (IH h2 (w_mem w1) logs0 o0 m0 Y3 FE' Q ltac:(assumption)) as (K1&K2). split; [constructor; [apply PX|exact K1]|].
      destruct o0 as [((h'&r')&w')|]; [|exact I]. destruct K2 as (E1&before&E2&E3). split; [exact E1|]. exists (w_tr w1 :: before). split; [rewrite E2; reflexivity|exact E3]. }
    assert (K' : (' (logs, o, m2) <- retry fuel cfg P t ri cs body len flags r h2 Es (w_mem w1) ;; Ret (w_tr w1 :: logs, o, m2)) = Ret (logs, o, m') -> Forall (fun log => prefix (accepted log) T) logs /\
      match o with None => True | Some (h', r', w') => m' = w_mem w' /\ exists before, logs = before ++ [w_tr w'] /\
      accepted (w_tr w') = T /\ data_received (w_tr w') = http_bytes resp /\ gives cfg rbuf L resp r r' w' (w_tr w') end).
    { intros Q. destruct (retry fuel cfg P t ri cs body len flags r h2 Es (w_mem w1)) as [((lo&oo)&mo)| | |] eqn:RE; cbn [bind] in Q; try discriminate. injection Q as <- <- <-. exact (K _ _ _ eq_refl HN). }
    destruct st; try exact (K' X). injection X as <- <- <-. split; [constructor; [apply PX|constructor]|]. split; [reflexivity|]. exists []. split; [reflexivity|]. destruct PX as (_&PX). specialize (PX eq_refl). split; [exact PX|].
    inversion HN as [|x l HN1 _]; subst. destruct (HN1 (w_tr w1) [] ltac:(rewrite app_nil_r; reflexivity)) as (x0&HA&HP). rewrite PX in HA.
    pose proof (C97_server_reads_the_request _ _ _ _ _ _ _ _ _ _ _ _ _ _ _ _ _ _ _ flags cl [] D Ff LH) as SR. rewrite app_nil_r in SR. fold T in SR.
    assert (PF : exists rest, http_bytes resp = data_received (w_tr w1) ++ rest).
    { inversion HA as [d|d line hh b rest y R A']; subst; [destruct HP as (z&Q); destruct (data_received (w_tr w1)); [|discriminate]; exists (http_bytes resp); reflexivity|].
      rewrite SR in R. injection R as <- <- <- <-. apply answers_nil in A'. subst y. rewrite app_nil_r in HP. destruct HP as (z&Q). exists z. exact Q. }
    assert (HO : http_ok (beqb (slice (text_at_rest cfg ri me p ho hs) 0 4) (B "HEAD")) resp).
    { unfold text_at_rest. rewrite line_start by (eapply me_pos; eauto). apply WB. }
    pose proof D as (C1&C2&C3&C4&C5&C6&C7&C8&C9&C10&C11&C12&C13&C14&C15&C16&C17&C18&C19&C20&C21&C22&C23&C24&C25&C26&C27&C28&C29&C30&C31).
    assert (NS : forall block, not_sent n block bd HTTPSuccess (w_tr w1) -> False) by (intros block (_&[(Q&_)|(Q&_)]); discriminate).
    destruct (Z.le_gt_cases (zlen (http_bytes resp)) L) as [LE|LE].
    + destruct (C50_any_parser_exchange _ _ _ _ _ _ _ _ _ _ _ _ _ _ _ _ _ _ _ _ _ _ resp RH SS RF C31 Y0 HO NC LE PF) as (block&_&_&[Q|(_&[(DR&_&G)|(_&[(_&Q)|(_&Q)])])]); [exfalso; eauto|split; [exact DR|exact G]|discriminate|destruct (data_received (w_tr w1)); discriminate].
    + destruct (C50_any_parser_exchange_too_large _ _ _ _ _ _ _ _ _ _ _ _ _ _ _ _ _ _ _ _ _ _ resp RH SS RF C31 Y0 HO NC ltac:(lia) PF) as (block&_&_&[Q|(_&[(_&Q)|[(_&Q)|(_&Q)]])]);
        [exfalso; eauto|discriminate|destruct (data_received (w_tr w1)); discriminate|discriminate].
Qed.
Print Assumptions C97_retry_is_right.

(** With one connection that does its part, and room for the request and for the answer, the application does not give up. *)
Theorem C97_retry_succeeds : forall fuel cfg P t ri me p ho cs hs buf n body len bd r rbuf L flags cl resp Es h m logs o m',
  reads_http P -> retry_setup cfg P t ri me p ho cs hs h buf n body len bd r rbuf L m -> Forall connection_ok Es -> length_header flags len cl ->
  http_ok (beqb (slice (line_of me p) 0 4) (B "HEAD")) resp -> (forall d, p_body resp <> ToClose d) -> zlen (http_bytes resp) <= L ->
  zlen (whole_request me p (all_headers cfg ri ho hs cl) []) <= n -> n + len < Z.of_nat fuel -> Exists (works cfg r fuel resp) Es ->
  retry fuel cfg P t ri cs body len flags r h Es m = Ret (logs, o, m') -> o <> None.
Proof.
  intros fuel cfg P t ri me p ho cs hs buf n body len bd r rbuf L flags cl resp Es h m logs o m' RH D FE LH HO NC LE FT FU EX X. revert h m logs o m' D FE EX X.
  induction Es as [|E Es IH]; intros h m logs o m' D FE EX X; [inversion EX|]. cbn [retry] in X. inversion FE as [|x l (SC&RC&RF) FE']; subst.
  destruct (attempt fuel _ _ _ _ _ _ _ _ _ _ _ _ _ _ _ _ _ _ _ E flags D SC RC) as (sts&h1&m1&X1&X2&X3&X4). rewrite X1 in X. cbn [bind] in X.
  rewrite whole_text, app_nil_r in FT.
  assert (FB : zlen (text_at_rest cfg ri me p ho hs) <= n).
  { unfold text_at_rest, all_headers in *. rewrite request_text_hlines in *. rewrite !ProofsHistory.hlines_app, !zlen_app in *. pose proof (zlen_nonneg (hlines cl)). lia. }
  apply X3 in FB. rewrite FB in X. cbn [negb] in X. destruct (X4 FB) as (SS&[(w1&Y1&_)|(st&h2&r1&w1&Y0&Y2&Y3)]); [rewrite Y1 in X; discriminate|]. pose proof Y0 as (Y1&_). rewrite Y1 in X. cbn [bind] in X.
  inversion EX as [x l (WI&ps&CC&FD&PR&LP) | x l EX']; subst.
  - destruct (Send_split fuel _ _ _ _ _ _ _ _ _ _ _ _ _ _ _ flags SS) as (block&_&_&_&WH&_). destruct (at_rest_cl _ _ _ _ _ _ _ _ _ WH) as (cl'&LH'&BE). rewrite (length_header_unique _ _ _ _ LH' LH) in BE.
    pose proof D as (C1&C2&C3&C4&C5&C6&C7&C8&C9&C10&C11&C12&C13&C14&C15&C16&C17&C18&C19&C20&C21&C22&C23&C24&C25&C26&C27&C28&C29&C30&C31).
    destruct (C50_any_parser_successful_exchange fuel cfg E P t _ _ _ _ _ _ _ _ _ _ _ flags block resp ps RH SS RF C31 WI WH ltac:(rewrite BE; exact FT)
      ltac:(unfold text_at_rest; rewrite line_start by (eapply me_pos; eauto); exact HO) NC LE CC FD PR FU LP) as (h3&r3&w3&tr3&(Q1&_)&_).
    rewrite Q1 in Y1. injection Y1 as <- <- <- <-. injection X as <- <- <-. discriminate.
  - assert (K : (' (logs, o, m2) <- retry fuel cfg P t ri cs body len flags r h2 Es (w_mem w1) ;; Ret (w_tr w1 :: logs, o, m2)) = Ret (logs, o, m') -> o <> None).
    { intros Q. destruct (retry fuel cfg P t ri cs body len flags r h2 Es (w_mem w1)) as [((lo&oo)&mo)| | |] eqn:RE; cbn [bind] in Q; try discriminate. injection Q as <- <- <-. exact (IH _ _ _ _ _ Y3 FE' EX' RE). }
    destruct st; try exact (K X). injection X as <- <- <-. discriminate.
Qed.
Print Assumptions C97_retry_succeeds.

(** ** Case: a POST request with two added headers and a body; the first connection is cut after 20 bytes of the answer, the second delivers it in two pieces. *)
Definition ri_r : reqInfo := mkri (SLit (B "POST")) 4 (SLit (B "/f")) 2 (SLit (B "h")) 1 0.
Definition cs_r : list call := [CAdd (SLit (B "A")) 1 (SLit (B "b")) 1; CRange 0 4].
Definition hs_r : list (bytes * bytes) := [(B "A", B "b"); (B "Range", B "bytes=0-4")].
Definition m_r : mem := [repeat 0 300; repeat 0 300; B "data"].
Definition cl_r : list (bytes * bytes) := [(B "Content-Length", B "4")].
Definition answer_r : http := file_server file_d (line_of (B "POST") (B "/f")) (all_headers cfg0 ri_r (B "h") hs_r cl_r) (B "data").
Definition E_cut : env := mkenv (fun _ k => Z.min k 50) (fun i room => match i with O => give (firstn 20 (http_bytes answer_r)) room | _ => (-1, []) end) (fun n => 100 * Z.of_nat n).
Definition E_good : env := env_ex (cut_d (http_bytes answer_r)).
Lemma setup_r : retry_setup cfg0 refparser trr ri_r (B "POST") (B "/f") (B "h") cs_r hs_r h_d buf0 300 (Some (mkptr 2 0)) 4 (B "data") rsep rbuf 300 m_r.
Proof.
  assert (RV : range_value 0 4 (B "bytes=0-4")).
  { unfold range_value. change (4 =? -1) with false. exists (B "0"), (B "4"). split; [|split; [|reflexivity]]; (split; [discriminate|]); (split; [repeat constructor; discriminate|]); (split; [try reflexivity; discriminate|reflexivity]). }
  split; [exact cfg0_ok|]. split; [exists 32; split; [lia|reflexivity]|]. split; [exact refparser_ok|]. do 4 (split; [reflexivity|]). split; [vm_compute; split; discriminate|]. split; [vm_compute; repeat split; discriminate|]. split; [reflexivity|].
  split; [vm_compute; repeat split; try discriminate; auto; right; repeat split; discriminate|]. split; [split; vm_compute; discriminate|].
  do 3 (split; [split; intros X; vm_compute in X; intuition discriminate|]). do 3 (split; [exact I|]).
  split; [constructor; [vm_compute; repeat split; discriminate|constructor; [vm_compute; repeat split; discriminate|constructor]]|].
  split.
  { constructor; [|constructor; [|constructor]].
    - cbn [asks fst snd]. do 2 (split; [vm_compute; repeat split; try discriminate; try reflexivity|]). split; [lia|]. split; [lia|]. split; [apply all_legal_field; reflexivity|apply all_legal_value; reflexivity].
    - cbn [asks fst snd]. split; [unfold range_rejected, INT32_MIN; lia|]. split; [reflexivity|exact RV]. }
  split; [constructor; [split; exact I|constructor; [exact I|constructor]]|]. split; [repeat constructor|]. split; [vm_compute; split; discriminate|]. split; [reflexivity|].
  split; [split; [vm_compute; repeat split; discriminate|split; [left; discriminate|reflexivity]]|]. split; [left; discriminate|]. split; [reflexivity|]. split; [reflexivity|]. split; [vm_compute; repeat split; discriminate|]. split; [vm_compute; split; [reflexivity|reflexivity]|reflexivity].
Qed.
Example C97_case : let srv := file_server file_d in
  retry_setup cfg0 refparser trr ri_r (B "POST") (B "/f") (B "h") cs_r hs_r h_d buf0 300 (Some (mkptr 2 0)) 4 (B "data") rsep rbuf 300 m_r /\
  connection_ok E_cut /\ connection_ok E_good /\ works cfg0 rsep 400 answer_r E_good /\ length_header 0 4 cl_r /\ well_behaved srv /\ (forall d, p_body answer_r <> ToClose d) /\
  exists log1 log2 h' r' w' m', retry 400 cfg0 refparser trr ri_r cs_r (Some (mkptr 2 0)) 4 0 rsep h_d [E_cut; E_good] m_r = Ret ([log1; log2], Some (h', r', w'), m') /\
    honest srv log1 /\ honest srv log2 /\ zlen (data_received log1) = 20 /\ (exists q, r_body r' = Some q /\ bytes_at m' q (r_bodyLen r') = B "the q").
Proof.
  intros srv. destruct (file_server_ok file_d (B "/f") ltac:(vm_compute; discriminate)) as (A1&_&_).
  split; [exact setup_r|]. split.
  { split; [intros i k H; cbn [E_cut e_send]; lia|]. split.
    - intros i k H. destruct i; cbn [E_cut e_recv]; [exact (env_of_contract [firstn 20 (http_bytes answer_r)] O k H)|cbn; change (zlen (@nil Z)) with 0; lia].
    - intros i k. destruct i; cbn [E_cut e_recv]; [exact (env_of_faithful [firstn 20 (http_bytes answer_r)] O k)|cbn; intros; lia]. }
  split; [destruct (env_ex_ok (cut_d (http_bytes answer_r))) as (X1&X2&X3&_); split; [exact X1|split; [exact X2|exact X3]]|].
  split.
  { split; [apply env_ex_ok|]. exists (cut_d (http_bytes answer_r)). split; [unfold cut_d; cbn [concat]; rewrite app_nil_r; apply firstn_skipn|]. split; [exact (env_of_feeds (cut_d (http_bytes answer_r)))|].
    split; [intros nt; apply nonempty_prompt; repeat constructor; vm_compute; discriminate|cbn; lia]. }
  split; [exists (B "4"); split; [split; [discriminate|split; [repeat constructor; discriminate|split; [discriminate|reflexivity]]]|reflexivity]|]. split; [exact A1|]. split; [intros d Q; vm_compute in Q; discriminate|].
  set (X := retry 400 cfg0 refparser trr ri_r cs_r (Some (mkptr 2 0)) 4 0 rsep h_d [E_cut; E_good] m_r).
  assert (Q : match X with Ret ([log1; log2], Some (h', r', w'), m') => honest_b srv log1 && honest_b srv log2 && (zlen (data_received log1) =? 20) &&
    match r_body r' with Some q => beqb (bytes_at m' q (r_bodyLen r')) (B "the q") | None => false end | _ => false end = true) by (vm_compute; reflexivity).
  destruct X as [[[[|log1 [|log2 [|]]] [[[h' r'] w']|]] m']| | |]; try discriminate. apply andb_true_iff in Q. destruct Q as (Q&Q4). apply andb_true_iff in Q. destruct Q as (Q&Q3). apply andb_true_iff in Q. destruct Q as (Q1&Q2).
  exists log1, log2, h', r', w', m'. split; [reflexivity|]. split; [apply honest_ok, Q1|]. split; [apply honest_ok, Q2|]. split; [lia|]. destruct (r_body r') as [q|]; [|discriminate]. exists q. split; [reflexivity|apply beqb_eq, Q4].
Qed.
