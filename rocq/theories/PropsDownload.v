(** PropsDownload.v — C96: downloading a file in ranges (SpecDownload.v). *)
From Verif Require Import Base Lib ModelRequest ModelSend ModelResponse SpecRequest SpecSend SpecResponse SpecHttp SpecParser SpecExchange SpecExact SpecSession SpecDownload
  ProofsDecimal ProofsRequest ProofsRequest2 ProofsHistory ProofsSend ProofsSend2 ProofsResponse ProofsResponse2 ProofsResponse3 ProofsResponse4 ProofsResponse5 ProofsTwin ProofsExchange RefParser RefRun HttpRun ProofsFollow ProofsEnd Demo DemoResponse
  PropsSend PropsResponse PropsHttp PropsExchange ProofsAny PropsAny PropsAnyExchange PropsExact PropsApi ProofsCount PropsSession.

(** ** The setup stays *)
Lemma same2_trans m1 m2 m3 a n c k : same_outside2 m1 m2 a n c k -> same_outside2 m2 m3 a n c k -> same_outside2 m1 m3 a n c k.
Proof. intros (A&C&D) (A'&C'&D'). split; [congruence|]. split; [intros b; congruence|]. intros b i I N1 N2. rewrite D by auto. apply D'; auto. Qed.
Lemma bytes_at_same2 m m' a n c k q j : same_outside2 m m' a n c k -> object m q j -> disjoint a n q j -> disjoint c k q j -> bytes_at m' q j = bytes_at m q j.
Proof.
  intros (A&C&D) (O1&O2&O3) D1 D2. unfold bytes_at. apply list_ext.
  - rewrite !slice_len; rewrite <- ?C; lia.
  - intros i Hi. rewrite slice_len in Hi by (rewrite <- ?C; lia). rewrite !zn_slice by lia. symmetry. apply D; [lia| |]; intros (B1&B2); [destruct D1 as [D1|D1]; [congruence|]|destruct D2 as [D2|D2]; [congruence|]]; lia.
Qed.
Lemma arg_same2 m m' a n c k s j d : same_outside2 m m' a n c k -> arg_apart a n s j -> arg_apart c k s j -> arg m s j d -> arg m' s j d.
Proof.
  intros S A1 A2 (L&H). split; auto. destruct s as [| |q]; auto. cbn in A1, A2. destruct H as (O&->). split; [eapply same2_object; eauto|]. symmetry. eapply bytes_at_same2; eauto.
Qed.
Lemma setup_keeps cfg E P t ri p ho h h' buf n r rbuf L m m' : download_setup cfg E P t ri p ho h buf n r rbuf L m ->
  same_outside2 m m' buf n rbuf L -> rh_buf h' = Some buf -> rh_bufLen h' = n -> 0 <= rh_len h' <= n -> download_setup cfg E P t ri p ho h' buf n r rbuf L m'.
Proof.
  intros (C1&C2&C3&C4&C5&C6&C7&C8&C9&CL&C10&C11&C12&CU&C13&C14&C15&C16&C17&C18&C19&C20&C21&C22) S B1 B2 B3.
  destruct C12 as ((I1&I1')&I2&I3&I4&I5&(I6&I6')&I7&I8).
  assert (CU' : usable m' buf n (ri_path ri) (ri_pathLen ri)).
  { destruct CU as (U0&U1). split; [exact U0|]. destruct (ri_path ri); auto. destruct U1 as (U1&U2). split; [eapply same2_object; eauto|exact U2]. }
  split; [exact C1|]. split; [exact C2|]. split; [exact C3|]. split; [exact C4|]. split; [exact C5|]. split; [exact C6|]. split; [exact C7|]. split; [exact B1|]. split; [exact B2|]. split; [exact B3|].
  split; [eapply same2_object; eauto|]. split; [exact C11|]. split; [|repeat (split; [assumption|]); split; [eapply same2_object; eauto|split; assumption]].
  split; [split; [eapply arg_same2; eauto|exact I1']|]. split; [exact I2|]. split; [|split; [exact I4|split; [exact I5|split; [split; [eapply arg_same2; eauto|exact I6']|split; [exact I7|exact I8]]]]].
  destruct I3 as [I3|(X1&X2&X3)]; [left; exact I3|]. right. split; [exact X1|]. split; [exact X2|]. eapply arg_same2; eauto.
Qed.

(** ** One piece: the request *)
Definition piece_request cfg ri p ho v : bytes := request_text (B "GET") p (init_headers (UA cfg) (ri_flags ri) ho ++ [(B "Range", v)]).
Lemma range_text a c : 0 <= a -> 0 < c -> a + c <= INT32_MAX + 1 -> exists v, range_value a (a + c - 1) v.
Proof.
  intros A C S. unfold range_value. replace (a + c - 1 =? -1) with false by lia. exists (B "bytes=" ++ to_dec a ++ B "-" ++ to_dec (a + c - 1)), (to_dec a), (to_dec (a + c - 1)).
  split; [apply to_dec_decimal; unfold is_int32, INT32_MIN, INT32_MAX in *; lia|]. split; [apply to_dec_decimal; unfold is_int32, INT32_MIN, INT32_MAX in *; lia|reflexivity].
Qed.
Lemma piece_built cfg E P t ri p ho h buf n r rbuf L m a c v : download_setup cfg E P t ri p ho h buf n r rbuf L m -> 0 <= a -> 0 < c -> a + c <= INT32_MAX + 1 ->
  range_value a (a + c - 1) v ->
  exists sts h1 m1, history cfg m h [CInit ri; CRange a (a + c - 1)] = Ret (sts, h1, m1) /\ same_outside m m1 buf n /\
    rh_buf h1 = Some buf /\ rh_bufLen h1 = n /\ 0 <= rh_len h1 <= n /\
    (forallb is_success sts = true <-> zlen (piece_request cfg ri p ho v) <= n) /\
    (forallb is_success sts = true -> holds m1 h1 buf n (piece_request cfg ri p ho v)).
Proof.
  intros (C1&C2&C3&C4&C5&C6&C7&C8&C9&CL&C10&C11&C12&CU&C13&C14&C15&C16&C17&C18&C19&C20&C21&C22) A C S RV.
  assert (OK : call_ok cfg m buf n (CRange a (a + c - 1))) by (cbn [call_ok]; unfold is_int32, INT32_MIN, INT32_MAX in *; lia).
  assert (AS : asks m (CRange a (a + c - 1)) (B "Range", v)) by (cbn [asks fst snd]; split; [unfold range_rejected, INT32_MIN in *; lia|split; [reflexivity|exact RV]]).
  destruct (C53_every_request_that_fits_is_built cfg m h buf n ri (B "GET") p ho [CRange a (a + c - 1)] [(B "Range", v)] C1 C8 C9 C10 C12 C14 (Forall_cons _ OK (Forall_nil _))
    (Forall2_cons _ _ AS (Forall2_nil _))) as (sts&h1&m1&X1&_&X2&X3).
  fold (piece_request cfg ri p ho v) in X2, X3.
  destruct (history_stays cfg buf n C1 [CInit ri; CRange a (a + c - 1)] m h C8 C9 C10 CL) as (sts'&h1'&m1'&Y1&(Y2&Y3&Y4&Y5&_)).
  { constructor; [|constructor; [exact OK|constructor]]. destruct C12 as ((I1&I1')&I2&I3&I4&I5&(I6&I6')&I7&I8). cbn [call_ok].
    assert (U : forall s k d, 0 <= k -> arg m s k d -> arg_apart buf n s k -> usable m buf n s k).
    { intros s k d K0 (L0&Ar) Ap. split; [auto|]. destruct s; auto; [lia|]. split; [tauto|exact Ap]. }
    split; [eapply U; eauto; lia|]. split; [exact CU|]. split; [eapply U; eauto; lia|exact I8]. }
  rewrite X1 in Y1. injection Y1 as <- <- <-. exists sts, h1, m1. split; [auto|]. split; [auto|]. split; [auto|]. split; [auto|]. split; [auto|].
  assert (FS : forallb is_success sts = true <-> Forall (eq HTTPSuccess) sts).
  { rewrite forallb_forall, Forall_forall. split; intros Q x I; specialize (Q x I); [destruct x; try discriminate; reflexivity|subst x; reflexivity]. }
  rewrite FS. split; [exact X2|]. intros Q. apply X3, X2, Q.
Qed.
Lemma piece_length cfg ri p ho v : 16 <= zlen (piece_request cfg ri p ho v).
Proof.
  unfold piece_request. rewrite request_text_hlines. unfold request_line. rewrite !zlen_app. change (zlen (B "GET")) with 3. change (zlen (B " ")) with 1. change (zlen (B " HTTP/1.1")) with 9. change (zlen CRLF) with 2.
  pose proof (zlen_nonneg p). match goal with |- context[zlen (hlines ?x)] => pose proof (zlen_nonneg (hlines x)) end. lia.
Qed.
Lemma piece_setup cfg E P t ri p ho h buf n r rbuf L m w v h1 m1 : download_setup cfg E P t ri p ho h buf n r rbuf L m -> same_outside m m1 buf n ->
  holds m1 h1 buf n (piece_request cfg ri p ho v) -> w_mem w = m1 ->
  send_setup cfg E P t h1 buf n (piece_request cfg ri p ho v) None 0 [] r rbuf L w.
Proof.
  intros (C1&C2&C3&C4&C5&C6&C7&C8&C9&CL&C10&C11&C12&CU&C13&C14&C15&C16&C17&C18&C19&C20&C21&C22) S H W. unfold send_setup. rewrite W.
  pose proof (piece_length cfg ri p ho v). repeat (split; [first [assumption|lia|unfold INT32_MAX; lia]|]). split; [split; reflexivity|]. split; [exact C18|]. split; [exact C19|].
  split; [|exact C21]. eapply same_object; eauto.
Qed.

(** ** One piece: the body is in the response buffer *)
Lemma body_there cfg E P t r rh buf L req w fuel r' w' tr p : recv_setup cfg E P t r rh buf L req w -> no_parse_body r = false ->
  receives fuel cfg E P t r rh w HTTPSuccess r' w' tr -> r_body r' = Some p -> object (w_mem w') p (r_bodyLen r').
Proof.
  intros H ND HR RB.
  assert (A : answered HTTPSuccess tr) by (left; discriminate). pose proof (C27_body _ _ _ _ _ _ _ _ _ _ _ _ _ _ _ H HR A ND) as X. cbv zeta in X.
  destruct (C19_receive_stays_in_buffer fuel _ _ _ _ _ _ _ _ _ _ H) as (o&wx&tx&W1&_&_&S). destruct HR as (HR&HT). pose proof HR as HR0. rewrite HR in W1. cbn [wout] in W1. injection W1 as _ <-.
  destruct (receives_inv _ _ _ _ _ _ _ _ _ _ _ _ _ _ _ H (conj HR HT)) as (trl&oo&s'&ph&G&->&RR&NM&ST&HW&F1&I&F2&F3&F4).
  pose proof (rrun_received _ _ _ _ _ _ _ _ _ _ RR) as Y. cbn [view0 v_stream app] in Y. change (zlen (@nil Z)) with 0 in Y. rewrite received_tick in X.
  pose proof (i_pos _ _ _ _ _ _ _ _ I) as IP. change (k_L (kof r buf L req (w_mem w))) with L in IP.
  pose proof H as (_&_&_&_&_&_&O&_). assert (O' : object (w_mem w') buf L) by (eapply same_object; eauto).
  destruct (v_bstart _) as [bo|]; [|destruct X as (X&_); congruence]. destruct X as (X1&X2&_&X3&X4&_). rewrite RB in X1. injection X1 as ->. rewrite X2.
  destruct O' as (O1&O2&O3). match goal with |- object _ _ (zlen ?b) => pose proof (zlen_nonneg b) end. unfold object, poff. cbn [pb po]. lia.
Qed.
(** ** One piece: what can happen *)
Lemma piece fuel cfg E P t ri p ho h buf n r rbuf L a c v w : download_setup cfg E P t ri p ho h buf n r rbuf L (w_mem w) -> 0 <= a -> 0 < c -> a + c <= INT32_MAX + 1 ->
  range_value a (a + c - 1) v ->
  exists sts h1 m1, history cfg (w_mem w) h [CInit ri; CRange a (a + c - 1)] = Ret (sts, h1, m1) /\ same_outside2 (w_mem w) m1 buf n rbuf L /\
    (forallb is_success sts = true <-> zlen (piece_request cfg ri p ho v) <= n) /\
    (forallb is_success sts = true ->
      send_setup cfg E P t h1 buf n (piece_request cfg ri p ho v) None 0 [] r rbuf L (with_mem w m1) /\
      ((exists w1 tr, Send fuel cfg E P (Some t) (Some h1) None 0 (Some r) 0 (with_mem w m1) = More w1 /\ w_tr w1 = w_tr w ++ tr /\ same_outside2 (w_mem w) (w_mem w1) buf n rbuf L) \/
       (exists st h2 r1 w1 tr, exchanges fuel cfg E P t h1 None 0 r 0 (with_mem w m1) st h2 r1 w1 tr /\ same_outside2 (w_mem w) (w_mem w1) buf n rbuf L /\
          rh_buf h2 = Some buf /\ rh_bufLen h2 = n /\ 0 <= rh_len h2 <= n /\
          (st = HTTPSuccess -> forall q, r_body r1 = Some q -> object (w_mem w1) q (r_bodyLen r1))))).
Proof.
  intros D A C S RV. destruct (piece_built _ _ _ _ _ _ _ _ _ _ _ _ _ _ _ _ _ D A C S RV) as (sts&h1&m1&X1&X2&X3&X4&X5&X6&X7).
  exists sts, h1, m1. split; [auto|]. split; [apply same2_of1; auto|]. split; [auto|]. intros Q. specialize (X7 Q).
  assert (SS : send_setup cfg E P t h1 buf n (piece_request cfg ri p ho v) None 0 [] r rbuf L (with_mem w m1)) by (eapply piece_setup; eauto).
  split; [exact SS|]. destruct (C48_send_is_safe fuel _ _ _ _ _ _ _ _ _ _ _ _ _ _ _ 0 SS) as (o&w1&tr&Y1&Y2&Y3&Y4&_). cbn [with_mem w_mem w_tr] in Y2, Y3.
  assert (SM : same_outside2 (w_mem w) (w_mem w1) buf n rbuf L) by (eapply same2_trans; [apply same2_of1; exact X2|exact Y3]).
  destruct (Send fuel cfg E P (Some t) (Some h1) None 0 (Some r) 0 (with_mem w m1)) as [[x wx]| | |wx] eqn:Z0; cbn [wout] in Y1; try discriminate; injection Y1 as <- <-.
  - right. destruct (Y4 _ eq_refl) as (st&h2&r1&->&Q1&Q2&Q3). exists st, h2, r1, wx, tr. split; [split; [exact Z0|exact Y2]|]. split; [exact SM|]. split; [exact Q1|]. split; [exact Q2|].
    split; [lia|]. intros -> q RB. pose proof D as (_&_&_&_&_&_&_&_&_&_&_&_&_&_&_&_&_&_&_&_&_&_&_&ND).
    destruct (C50_send_then_receive _ _ _ _ _ _ _ _ _ _ _ _ _ _ _ _ _ _ _ _ _ _ SS (conj Z0 Y2)) as (block&WH&[(_&BAD&_)|[(_&BAD&_)|(sent&rtr&w2&_&_&_&_&_&RS&RV')]]); try discriminate.
    eapply body_there; eauto. unfold no_parse_body in *. rewrite (proj2 (with_clock_same r)). exact ND.
  - left. exists wx, tr. auto.
Qed.

Lemma total_nonneg cs : Forall (fun c => 0 < c) cs -> 0 <= total cs.
Proof. induction 1 as [|c cs H F IH]; cbn [total fold_right]; [lia|]. fold (total cs). lia. Qed.
(** ** C96 *)
(** Whatever the network does and whatever arrives, the download touches only the two buffers and ends with one of its answers. *)
Theorem C96_download_is_safe : forall fuel cfg E P t ri p ho h buf n r rbuf L cs a w,
  download_setup cfg E P t ri p ho h buf n r rbuf L (w_mem w) -> 0 <= a -> Forall (fun c => 0 < c) cs -> a + total cs <= INT32_MAX + 1 ->
  exists o w' tr, wout (download fuel cfg E P t ri r h a cs w) = Some (o, w') /\ w_tr w' = w_tr w ++ tr /\ same_outside2 (w_mem w) (w_mem w') buf n rbuf L.
Proof.
  intros fuel cfg E P t ri p ho h buf n r rbuf L cs. revert h. induction cs as [|c cs IH]; intros h a w D A F S.
  - exists (Some (Some [])), w, []. rewrite app_nil_r. split; [reflexivity|]. split; [auto|]. apply same2_refl.
  - inversion F as [|x l C F']; subst. cbn [total fold_right] in S. fold (total cs) in S. assert (T0 : 0 <= total cs) by (apply total_nonneg; auto).
    destruct (range_text a c A C ltac:(lia)) as (v&RV). destruct (piece fuel _ _ _ _ _ _ _ _ _ _ _ _ _ a c v w D A C ltac:(lia) RV) as (sts&h1&m1&X1&X2&_&X4).
    cbn [download]. rewrite X1. cbn [bind]. destruct (forallb is_success sts); cbn [negb].
    2:{ exists (Some None), (with_mem w m1), []. rewrite app_nil_r. split; [reflexivity|]. split; [auto|exact X2]. }
    destruct (X4 eq_refl) as (_&[(w1&tr&Y1&Y2&Y3)|(st&h2&r1&w1&tr&(Y1&Y2)&Y3&Y4&Y5&Y6&Y7)]); rewrite Y1; cbn [bind].
    { exists None, w1, tr. split; [reflexivity|]. auto. }
    cbn [with_mem w_tr] in Y2.
    assert (GU : exists o w' tr0, wout (Ret (@None bytes, w1)) = Some (o, w') /\ w_tr w' = w_tr w ++ tr0 /\ same_outside2 (w_mem w) (w_mem w') buf n rbuf L).
    { exists (Some None), w1, tr. split; [reflexivity|]. auto. }
    destruct st; try exact GU. destruct (r_body r1) as [q|]; [|exact GU]. destruct ((r_status r1 =? 206) && (r_bodyLen r1 =? c)) eqn:Q; [|exact GU].
    apply andb_true_iff in Q. destruct Q as (_&Q). rewrite loadn_ok by (replace c with (r_bodyLen r1) by lia; auto). cbn [bind].
    destruct (IH h2 (a + c) w1 (setup_keeps _ _ _ _ _ _ _ _ _ _ _ _ _ _ _ _ D Y3 Y4 Y5 Y6) ltac:(lia) F' ltac:(lia)) as (o&w'&tr2&Z1&Z2&Z3).
    destruct (download fuel cfg E P t ri r h2 (a + c) cs w1) as [[x wx]| | |wx]; cbn [wout] in Z1; try discriminate; injection Z1 as <- <-; cbn [bind wout].
    + do 2 eexists. exists (tr ++ tr2). split; [reflexivity|]. split; [rewrite Z2, Y2, app_assoc; auto|]. eapply same2_trans; eauto.
    + do 2 eexists. exists (tr ++ tr2). split; [reflexivity|]. split; [rewrite Z2, Y2, app_assoc; auto|]. eapply same2_trans; eauto.
Qed.
Print Assumptions C96_download_is_safe.

(** ** What the server reads *)
Lemma legal_init cfg flags ho : config_ok cfg -> legal_value ho -> Forall (fun h => legal_field (fst h) /\ legal_value (snd h)) (init_headers (UA cfg) flags ho).
Proof.
  intros (_&_&U&_) H. unfold init_headers. apply Forall_app. split; [|apply Forall_app; split].
  - destruct (Z.testbit flags 1); repeat constructor; cbn [fst snd]; auto; try (apply all_legal_field; reflexivity); apply U.
  - repeat constructor; cbn [fst snd]; auto; try (apply all_legal_field; reflexivity); apply H.
  - destruct (Z.testbit flags 0); repeat constructor; cbn [fst snd]; try (apply all_legal_field; reflexivity); apply all_legal_value; reflexivity.
Qed.
(** However much follows, a server reads each request as it was meant: request line, headers, no body, and the rest; the only Range header is the piece's. *)
Theorem C96_server_reads_each_request : forall cfg flags p ho v a b rest, config_ok cfg -> legal_value p -> legal_value ho -> range_value a b v ->
  let line := B "GET " ++ p ++ B " HTTP/1.1" in let hs := init_headers (UA cfg) flags ho ++ [(B "Range", v)] in
  server_reads (text_of (line, hs) ++ rest) = Some (line, hs, [], rest) /\ filter is_range hs = [(B "Range", v)].
Proof.
  intros cfg flags p ho v a b rest CO LP LH RV line hs.
  assert (LV : legal_value v) by (eapply range_value_legal; eauto).
  assert (LHS : legal_headers hs).
  { apply Forall_app. split; [apply legal_init; auto|]. constructor; [|constructor]. cbn [fst snd]. split; [apply all_legal_field; reflexivity|exact LV]. }
  split.
  - assert (TE : text_of (line, hs) = request_text (B "GET") p hs).
    { unfold text_of, request_text, request_line, line. cbn [fst snd]. rewrite <- !app_assoc. reflexivity. }
    rewrite TE, server_reads_ok; auto; [|apply all_legal_value; reflexivity].
    assert (AN : announced hs = Some 0).
    { unfold announced, hs, init_headers. destruct (Z.testbit flags 1), (Z.testbit flags 0); reflexivity. }
    rewrite AN. pose proof (zlen_nonneg rest). replace (0 <=? zlen rest) with true by lia. rewrite slice_0, Z.sub_0_r, slice_full by reflexivity.
    unfold line. do 2 f_equal.
  - unfold hs, init_headers. destruct (Z.testbit flags 1), (Z.testbit flags 0); reflexivity.
Qed.
Print Assumptions C96_server_reads_each_request.

Lemma answers_nil srv x : answers srv [] x -> x = [].
Proof. intros H. inversion H as [|d line hs b rest y R]; subst; auto. discriminate. Qed.
(** A server that got some requests has answered some of them. *)
Lemma answers_prefix srv qs : Forall (fun q => forall rest, server_reads (text_of q ++ rest) = Some (fst q, snd q, [], rest)) qs ->
  forall x, answers srv (flat_map text_of qs) x -> prefix x (flat_map (fun q => http_bytes (answer_to srv q)) qs).
Proof.
  induction 1 as [|q qs H F IH]; intros x A; cbn [flat_map] in *.
  - apply answers_nil in A. subst. exists []. reflexivity.
  - inversion A as [|d line hs b rest y R A']; subst; [eexists; reflexivity|]. rewrite H in R. injection R as <- <- <- <-. destruct (IH _ A') as (z&->). exists z. unfold answer_to. rewrite <- app_assoc. reflexivity.
Qed.
(** What the [c] bytes of [F] from [a] on are, in one call. *)
Lemma piece_text cfg ri p ho v : piece_request cfg ri p ho v = text_of (B "GET " ++ p ++ B " HTTP/1.1", init_headers (UA cfg) (ri_flags ri) ho ++ [(B "Range", v)]).
Proof. unfold piece_request, text_of, request_text, request_line. cbn [fst snd]. rewrite <- !app_assoc. reflexivity. Qed.
Lemma piece_head cfg ri p ho v : beqb (slice (piece_request cfg ri p ho v) 0 4) (B "HEAD") = false.
Proof. reflexivity. Qed.
Lemma line_head p : beqb (slice (B "GET " ++ p) 0 4) (B "HEAD") = false.
Proof. reflexivity. Qed.
Lemma prefix_cancel (a b c : bytes) : prefix (a ++ b) (a ++ c) -> prefix b c.
Proof. intros (z&Q). rewrite <- app_assoc in Q. apply app_inv_head in Q. exists z. exact Q. Qed.
Lemma prefix_full (a b : bytes) : prefix a b -> zlen a = zlen b -> a = b.
Proof. intros (z&->) L. rewrite zlen_app in L. assert (z = []) by (apply zlen_zero; lia). subst. rewrite app_nil_r. reflexivity. Qed.

(** A successful call that gives the application [c] bytes with status 206 has given it the [c] bytes of [F] from [a] on, and has taken the whole answer. *)
Lemma piece_right fuel cfg E P t ri p ho h1 buf n r rbuf L a c v w h2 r1 w1 tr srv F q :
  reads_http P -> recv_faithful E -> no_parse_body r = false -> well_behaved srv -> serves srv p F -> config_ok cfg -> legal_value p -> legal_value ho ->
  0 <= a -> 0 < c -> a + c <= zlen F -> range_value a (a + c - 1) v ->
  send_setup cfg E P t h1 buf n (piece_request cfg ri p ho v) None 0 [] r rbuf L w ->
  exchanges fuel cfg E P t h1 None 0 r 0 w HTTPSuccess h2 r1 w1 tr ->
  let rq := (B "GET " ++ p ++ B " HTTP/1.1", init_headers (UA cfg) (ri_flags ri) ho ++ [(B "Range", v)]) in
  prefix (data_received tr) (http_bytes (answer_to srv rq)) -> r_body r1 = Some q -> r_status r1 = 206 -> r_bodyLen r1 = c ->
  bytes_at (w_mem w1) q c = slice F a c /\ data_received tr = http_bytes (answer_to srv rq).
Proof.
  intros RH RF ND WB SV CO LP LH A C AF RV SS X rq PF RB ST BL.
  set (resp := answer_to srv rq) in *.
  assert (HO : http_ok (beqb (slice (piece_request cfg ri p ho v) 0 4) (B "HEAD")) resp).
  { rewrite piece_head. unfold resp, answer_to. cbn [rq fst snd]. rewrite <- (line_head (p ++ B " HTTP/1.1")). apply WB. }
  assert (CT : code_of resp = 206 -> content (p_body resp) = slice F a c).
  { intros Q. unfold resp, answer_to in *. cbn [rq fst snd] in *.
    destruct (C96_server_reads_each_request cfg (ri_flags ri) p ho v a (a + c - 1) [] CO LP LH RV) as (_&FR).
    rewrite (SV _ [] v a (a + c - 1) FR RV ltac:(lia) ltac:(lia) Q). f_equal. lia. }
  assert (PF' : exists rest, http_bytes resp = data_received tr ++ rest) by exact PF.
  assert (SL : zlen (slice F a c) = c) by (apply slice_len; lia).
  assert (NS : forall block, not_sent n block [] HTTPSuccess tr -> False) by (intros block (_&[(Q&_)|(Q&_)]); discriminate).
  destruct (p_body resp) as [|d|ks sz ex tl|d] eqn:PB.
  4:{ destruct (C50_any_parser_exchange_until_close _ _ _ _ _ _ _ _ _ _ _ _ _ _ _ _ _ _ _ _ _ _ resp d RH SS RF ND X HO PB PF') as (block&_&_&[Q|(_&[(_&Q)|[(_&Q)|[(_&_&Q)|(_&_&d'&DR&G)]]])]);
        try discriminate; try (destruct (data_received tr); discriminate); [exfalso; eauto|].
      pose proof (g_code _ _ _ _ _ _ _ _ G) as GC. pose proof (g_bodyLen _ _ _ _ _ _ _ _ G) as GL. pose proof (g_body _ _ _ _ _ _ _ _ G q RB) as (_&GB). cbn [cut p_body content] in GL, GB.
      change (code_of (cut resp d')) with (code_of resp) in GC. specialize (CT ltac:(congruence)). cbn [content] in CT. subst d. rewrite BL in *.
      assert (DE : d' = slice F a c).
      { apply prefix_full; [|lia]. destruct PF' as (z&Q). unfold http_bytes in Q. rewrite PB in Q. cbn [body_bytes] in Q. rewrite DR, <- app_assoc in Q. apply app_inv_head in Q. exists z. exact Q. }
      rewrite GB. split; [exact DE|]. rewrite DR, DE. unfold http_bytes. rewrite PB. reflexivity. }
  all: assert (NC : forall d, p_body resp <> ToClose d) by (intros d0 Q; rewrite PB in Q; discriminate).
  all: destruct (Z.le_gt_cases (zlen (http_bytes resp)) L) as [LE|LE];
    [destruct (C50_any_parser_exchange _ _ _ _ _ _ _ _ _ _ _ _ _ _ _ _ _ _ _ _ _ _ resp RH SS RF ND X HO NC LE PF') as (block&_&_&[Q|(_&[(DR&_&G)|(_&[(_&Q)|(_&Q)])])])
    |destruct (C50_any_parser_exchange_too_large _ _ _ _ _ _ _ _ _ _ _ _ _ _ _ _ _ _ _ _ _ _ resp RH SS RF ND X HO NC ltac:(lia) PF') as (block&_&_&[Q|(_&[(_&Q)|[(_&Q)|(_&Q)]])])];
    try discriminate; try (destruct (data_received tr); discriminate); try (exfalso; eauto; fail).
  all: pose proof (g_code _ _ _ _ _ _ _ _ G) as GC; pose proof (g_body _ _ _ _ _ _ _ _ G q RB) as (_&GB); rewrite PB, BL in GB; split; [|exact DR]; rewrite GB; apply CT; congruence.
Qed.

(** The network may lose, delay, cut or refuse whatever it likes, as long as what it delivers is what the server sent: the application gets the
    file or gives up, and never has wrong data. *)
Lemma never_wrong fuel cfg E P t ri p ho buf n r rbuf L srv F : reads_http P -> recv_faithful E -> well_behaved srv -> serves srv p F -> zlen F <= INT32_MAX + 1 ->
  forall cs h a w past qs o w' tr, download_setup cfg E P t ri p ho h buf n r rbuf L (w_mem w) -> 0 <= a -> Forall (fun c => 0 < c) cs -> a + total cs = zlen F ->
  Forall (fun q => forall rest, server_reads (text_of q ++ rest) = Some (fst q, snd q, [], rest)) qs ->
  accepted past = flat_map text_of qs -> data_received past = flat_map (fun q => http_bytes (answer_to srv q)) qs ->
  download fuel cfg E P t ri r h a cs w = Ret (o, w') -> w_tr w' = w_tr w ++ tr -> honest srv (past ++ tr) -> o = None \/ o = Some (slice F a (zlen F - a)).
Proof.
  intros RH RF WB SV SZF cs. induction cs as [|c cs IH]; intros h a w past qs o w' tr D A FC TT QS AP DP X XT HN.
  - cbn [download] in X. injection X as <- <-. right. cbn in TT. replace (zlen F - a) with 0 by lia. rewrite slice_0. reflexivity.
  - inversion FC as [|x l C F']; subst. cbn [total fold_right] in TT. fold (total cs) in TT. pose proof (total_nonneg cs F') as T0.
    destruct (range_text a c A C ltac:(lia)) as (v&RV). destruct (piece fuel _ _ _ _ _ _ _ _ _ _ _ _ _ a c v w D A C ltac:(lia) RV) as (sts&h1&m1&X1&X2&_&X4).
    cbn [download] in X. rewrite X1 in X. cbn [bind] in X. destruct (forallb is_success sts); cbn [negb] in X; [|injection X as <- _; auto].
    destruct (X4 eq_refl) as (SS&[(w1&tr1&Y1&_)|(st&h2&r1&w1&tr1&Y1&Y3&Y4&Y5&Y6&Y7)]); [rewrite Y1 in X; discriminate|]. pose proof Y1 as (Y1'&Y2). rewrite Y1' in X. cbn [bind] in X. cbn [with_mem w_tr] in Y2.
    destruct st; try (injection X as <- _; auto; fail). destruct (r_body r1) as [q|] eqn:RB; [|injection X as <- _; auto].
    destruct ((r_status r1 =? 206) && (r_bodyLen r1 =? c)) eqn:Q; [|injection X as <- _; auto]. apply andb_true_iff in Q. destruct Q as (Q1&Q2).
    rewrite loadn_ok in X by (replace c with (r_bodyLen r1) by lia; auto). cbn [bind].
    destruct (C96_download_is_safe fuel _ _ _ _ _ _ _ _ _ _ _ _ _ cs (a + c) w1 (setup_keeps _ _ _ _ _ _ _ _ _ _ _ _ _ _ _ _ D Y3 Y4 Y5 Y6) ltac:(lia) F' ltac:(lia)) as (o2&w2&tr2&Z1&Z2&_).
    cbn [bind] in X. destruct (download fuel cfg E P t ri r h2 (a + c) cs w1) as [[x wx]| | |wx] eqn:DL; cbn [wout] in Z1; try discriminate; cbn [bind] in X; try discriminate. injection Z1 as <- <-. injection X as <- <-.
    rewrite Z2, Y2, <- app_assoc in XT. apply app_inv_head in XT. subst tr.
    pose proof D as (D1&_&_&_&_&_&_&_&_&_&_&_&_&_&DP1&DH1&_&_&_&_&_&_&_&ND).
    set (rq := (B "GET " ++ p ++ B " HTTP/1.1", init_headers (UA cfg) (ri_flags ri) ho ++ [(B "Range", v)])).
    assert (AC : accepted tr1 = text_of rq).
    { destruct (C50_send_then_receive _ _ _ _ _ _ _ _ _ _ _ _ _ _ _ _ _ _ _ _ _ _ SS Y1) as (block&WH&[(_&BAD&_)|[(_&BAD&_)|(sent&rtr&w3&_&_&_&_&AC&_)]]); try discriminate.
      rewrite AC, app_nil_r. unfold wire_headers in WH. cbn in WH. subst block. apply piece_text. }
    assert (QS' : Forall (fun q => forall rest, server_reads (text_of q ++ rest) = Some (fst q, snd q, [], rest)) (qs ++ [rq])).
    { apply Forall_app. split; [exact QS|]. constructor; [|constructor]. intros rest. apply (C96_server_reads_each_request cfg (ri_flags ri) p ho v a (a + c - 1) rest D1 DP1 DH1 RV). }
    assert (AP' : accepted (past ++ tr1) = flat_map text_of (qs ++ [rq])) by (rewrite accepted_app, AP, AC, flat_map_app; cbn [flat_map]; rewrite app_nil_r; reflexivity).
    destruct (HN (past ++ tr1) tr2 ltac:(rewrite app_assoc; reflexivity)) as (x0&HA&HP). rewrite AP' in HA. apply (answers_prefix srv _ QS') in HA.
    assert (PF : prefix (data_received tr1) (http_bytes (answer_to srv rq))).
    { destruct HP as (z1&->). destruct HA as (z2&HA). rewrite flat_map_app, data_received_app, DP in HA. cbn [flat_map] in HA. rewrite app_nil_r, <- !app_assoc in HA. apply app_inv_head in HA.
      exists (z1 ++ z2). exact HA. }
    destruct (piece_right _ _ _ _ _ _ _ _ _ _ _ _ _ _ _ _ _ _ _ _ _ _ srv F q RH RF ND WB SV D1 DP1 DH1 A C ltac:(lia) RV SS Y1 PF RB ltac:(lia) ltac:(lia)) as (PR1&PR2).
    destruct (IH h2 (a + c) w1 (past ++ tr1) (qs ++ [rq]) x wx tr2 (setup_keeps _ _ _ _ _ _ _ _ _ _ _ _ _ _ _ _ D Y3 Y4 Y5 Y6) ltac:(lia) F' ltac:(lia) QS' AP'
       ltac:(rewrite data_received_app, DP, PR2, flat_map_app; cbn [flat_map]; rewrite app_nil_r; reflexivity) DL Z2 ltac:(rewrite <- app_assoc; exact HN)) as [->| ->]; [left; reflexivity|].
    right. f_equal. rewrite PR1. replace (zlen F - a) with (c + (zlen F - (a + c))) by lia. rewrite slice_app by lia. reflexivity.
Qed.
Theorem C96_download_is_never_wrong : forall fuel cfg E P t ri p ho h buf n r rbuf L srv F cs w o w' tr,
  reads_http P -> recv_faithful E -> download_setup cfg E P t ri p ho h buf n r rbuf L (w_mem w) -> well_behaved srv -> serves srv p F ->
  Forall (fun c => 0 < c) cs -> total cs = zlen F -> zlen F <= INT32_MAX + 1 ->
  download fuel cfg E P t ri r h 0 cs w = Ret (o, w') -> w_tr w' = w_tr w ++ tr -> honest srv tr -> o = None \/ o = Some F.
Proof.
  intros fuel cfg E P t ri p ho h buf n r rbuf L srv F cs w o w' tr RH RF D WB SV FC TT SZF X XT HN.
  destruct (never_wrong fuel cfg E P t ri p ho buf n r rbuf L srv F RH RF WB SV SZF cs h 0 w [] [] o w' tr D ltac:(lia) FC ltac:(lia) (Forall_nil _) eq_refl eq_refl X XT HN) as [Q|Q]; [auto|].
  right. rewrite Q, Z.sub_0_r, slice_full by reflexivity. reflexivity.
Qed.
Print Assumptions C96_download_is_never_wrong.

(** ** With a network that does its part (the transport takes at least one byte of what it is offered; the answers come one after the other,
    each cut as the network likes, with pauses shorter than the timeout) and buffers that are large enough, the download succeeds: the application gets the
    file, and what went over the network are exactly the requests for its pieces and the answers to them. *)
Definition arrives (cfg : config) (E : env) (r : response) (fuel : nat) (srv : server) (q : bytes * list (bytes * bytes)) (ps : list bytes) : Prop :=
  concat ps = http_bytes (answer_to srv q) /\ last ps [] <> [] /\ (forall nt, prompt cfg E (r_time (with_clock r)) nt ps) /\ (length ps < fuel)%nat.
Lemma completes fuel cfg E P t ri p ho buf n r rbuf L srv F K :
  reads_http P -> recv_faithful E -> (forall i k, 0 < k -> 0 < e_send E i k) -> well_behaved srv -> serves srv p F -> serves_all srv p F K -> zlen F <= INT32_MAX + 1 -> n < Z.of_nat fuel ->
  forall cs h a w reqs pss, download_setup cfg E P t ri p ho h buf n r rbuf L (w_mem w) -> 0 <= a -> Forall (fun c => 0 < c /\ c + K <= L) cs -> a + total cs = zlen F ->
  range_requests cfg (ri_flags ri) p ho a cs reqs -> Forall (fun q => zlen (text_of q) <= n) reqs -> Forall2 (arrives cfg E r fuel srv) reqs pss -> feeds E (w_nr w) (concat pss) ->
  exists w' tr, download fuel cfg E P t ri r h a cs w = Ret (Some (slice F a (zlen F - a)), w') /\ w_tr w' = w_tr w ++ tr /\
    accepted tr = flat_map text_of reqs /\ data_received tr = flat_map (fun q => http_bytes (answer_to srv q)) reqs.
Proof.
  intros RH RF WI WB SV SA SZF FU cs. induction cs as [|c cs IH]; intros h a w reqs pss D A FC TT RR FN FA FE.
  - inversion RR; subst. exists w, []. cbn [download]. cbn in TT. replace (zlen F - a) with 0 by lia. rewrite slice_0, app_nil_r. auto.
  - inversion FC as [|x l (C&CK) F']; subst. cbn [total fold_right] in TT. fold (total cs) in TT. assert (FP : Forall (fun c => 0 < c) cs) by (eapply Forall_impl; [|exact F']; intros ? (?&_); auto). pose proof (total_nonneg cs FP) as T0.
    inversion RR as [|a0 c0 cs0 v reqs' RV RR']; subst. inversion FN as [|x l FN1 FN']; subst. inversion FA as [|x ps l pss' (A1&A2&A3&A4) FA']; subst. cbn [concat] in FE. apply feeds_app in FE. destruct FE as (FE1&FE2).
    set (rq := (B "GET " ++ p ++ B " HTTP/1.1", init_headers (UA cfg) (ri_flags ri) ho ++ [(B "Range", v)])) in *.
    destruct (piece fuel _ _ _ _ _ _ _ _ _ _ _ _ _ a c v w D A C ltac:(lia) RV) as (sts&h1&m1&X1&X2&X3&X4).
    cbn [download]. rewrite X1. cbn [bind]. rewrite piece_text in X3. fold rq in X3. assert (OKS : forallb is_success sts = true) by (apply X3; exact FN1). rewrite OKS in *. cbn [negb].
    destruct (X4 eq_refl) as (SS&SO). clear X3 X4.
    pose proof D as (D1&_&_&_&_&_&_&_&_&_&_&_&_&_&DP1&DH1&_&_&_&_&_&_&LS&ND).
    destruct (C96_server_reads_each_request cfg (ri_flags ri) p ho v a (a + c - 1) [] D1 DP1 DH1 RV) as (_&FR).
    destruct (SA _ [] v a (a + c - 1) FR RV ltac:(lia) ltac:(lia)) as (S1&S2&S3). cbv zeta in S1, S2, S3. change (srv (B "GET " ++ p ++ B " HTTP/1.1") (init_headers (UA cfg) (ri_flags ri) ho ++ [(B "Range", v)]) []) with (answer_to srv rq) in *.
    assert (CT : content (p_body (answer_to srv rq)) = slice F a c).
    { unfold answer_to. cbn [rq fst snd]. rewrite (SV _ [] v a (a + c - 1) FR RV ltac:(lia) ltac:(lia) S1). f_equal. lia. }
    assert (HO : http_ok (beqb (slice (piece_request cfg ri p ho v) 0 4) (B "HEAD")) (answer_to srv rq)).
    { rewrite piece_head. unfold answer_to. cbn [rq fst snd]. rewrite <- (line_head (p ++ B " HTTP/1.1")). apply WB. }
    destruct (C50_any_parser_successful_exchange fuel cfg E P t _ _ _ _ _ _ _ _ _ _ _ 0 (piece_request cfg ri p ho v) (answer_to srv rq) ps RH SS RF ND WI ltac:(unfold wire_headers; reflexivity)
       ltac:(rewrite piece_text; exact FN1) HO S2 ltac:(lia) A1 FE1 A3 ltac:(lia) A4) as (h2&r1&w1&tr1&Y1&Y2&Y3&Y4&G).
    assert (NR : w_nr w1 = (w_nr w + length ps)%nat).
    { change (w_nr w) with (w_nr (with_mem w m1)). eapply (exchange_takes fuel); eauto; [rewrite A1; change (zlen (http_bytes (answer_to srv rq)) <= L); lia|rewrite Y3; symmetry; exact A1]. }
    destruct SO as [(wz&trz&Z1&_)|(st&h2'&r1'&w1'&tr1'&(Z1&Z2)&Z3&Z4&Z5&Z6&Z7)]; destruct Y1 as (Y1&Y1'); rewrite Y1 in Z1; [discriminate|]. injection Z1 as <- <- <- <-. clear Z2. specialize (Z7 eq_refl).
    cbn [with_mem w_tr] in Y1'. rewrite Y1. cbn [bind].
    assert (SL : zlen (slice F a c) = c) by (apply slice_len; lia).
    destruct (r_body r1) as [q|] eqn:RB; [|exfalso; pose proof (g_nobody _ _ _ _ _ _ _ _ G RB) as Q; rewrite CT in Q; rewrite Q in SL; change (zlen (@nil Z)) with 0 in SL; lia].
    pose proof (g_code _ _ _ _ _ _ _ _ G) as GC. pose proof (g_bodyLen _ _ _ _ _ _ _ _ G) as GL. rewrite CT, SL in GL. pose proof (g_body _ _ _ _ _ _ _ _ G q RB) as (_&GB). rewrite CT, GL in GB.
    replace (r_status r1 =? 206) with true by lia. replace (r_bodyLen r1 =? c) with true by lia. cbn [andb]. rewrite loadn_ok by (rewrite <- GL; auto). cbn [bind].
    destruct (IH h2 (a + c) w1 reqs' pss' (setup_keeps _ _ _ _ _ _ _ _ _ _ _ _ _ _ _ _ D Z3 Z4 Z5 Z6) ltac:(lia) F' ltac:(lia) RR' FN' FA' ltac:(rewrite NR; exact FE2)) as (w'&tr2&W1&W2&W3&W4).
    rewrite W1. cbn [bind]. exists w', (tr1 ++ tr2). split; [|split; [rewrite W2, Y1', app_assoc; reflexivity|]].
    + do 3 f_equal. rewrite GB. replace (zlen F - a) with (c + (zlen F - (a + c))) by lia. rewrite slice_app by lia. reflexivity.
    + rewrite accepted_app, data_received_app, Y2, Y3, W3, W4, app_nil_r, piece_text. split; reflexivity.
Qed.
Theorem C96_download_completes : forall fuel cfg E P t ri p ho h buf n r rbuf L srv F K cs w reqs pss,
  reads_http P -> recv_faithful E -> (forall i k, 0 < k -> 0 < e_send E i k) -> download_setup cfg E P t ri p ho h buf n r rbuf L (w_mem w) ->
  well_behaved srv -> serves srv p F -> serves_all srv p F K ->
  Forall (fun c => 0 < c /\ c + K <= L) cs -> total cs = zlen F -> zlen F <= INT32_MAX + 1 ->
  range_requests cfg (ri_flags ri) p ho 0 cs reqs -> Forall (fun q => zlen (text_of q) <= n) reqs -> n < Z.of_nat fuel ->
  Forall2 (arrives cfg E r fuel srv) reqs pss -> feeds E (w_nr w) (concat pss) ->
  exists w' tr, download fuel cfg E P t ri r h 0 cs w = Ret (Some F, w') /\ w_tr w' = w_tr w ++ tr /\
    accepted tr = flat_map text_of reqs /\ data_received tr = flat_map (fun q => http_bytes (answer_to srv q)) reqs.
Proof.
  intros fuel cfg E P t ri p ho h buf n r rbuf L srv F K cs w reqs pss RH RF WI D WB SV SA FC TT SZF RR FN FU FA FE.
  destruct (completes fuel cfg E P t ri p ho buf n r rbuf L srv F K RH RF WI WB SV SA SZF FU cs h 0 w reqs pss D ltac:(lia) FC ltac:(lia) RR FN FA FE) as (w'&tr&X1&X2&X3&X4).
  exists w', tr. rewrite Z.sub_0_r, slice_full in X1 by reflexivity. auto.
Qed.
Print Assumptions C96_download_completes.
(** The requests exist. *)
Theorem C96_requests_exist : forall cfg flags p ho cs a, 0 <= a -> Forall (fun c => 0 < c) cs -> a + total cs <= INT32_MAX + 1 -> exists reqs, range_requests cfg flags p ho a cs reqs /\ length reqs = length cs.
Proof.
  intros cfg flags p ho cs. induction cs as [|c cs IH]; intros a A F S; [exists []; split; [constructor|reflexivity]|]. inversion F as [|x l C F']; subst. cbn [total fold_right] in S. fold (total cs) in S. pose proof (total_nonneg cs F').
  destruct (range_text a c A C ltac:(lia)) as (v&RV). destruct (IH (a + c) ltac:(lia) F' ltac:(lia)) as (reqs&RR&RL). eexists. split; [econstructor; eauto|]. cbn [length]. f_equal. exact RL.
Qed.
Print Assumptions C96_requests_exist.

(** ** Such servers exist: a file server, which answers a range request with 206 and the range, one for anything else with a 404 without content. *)
Fixpoint before_dash (t : bytes) : bytes := match t with [] => [] | c :: t' => if c =? 45 then [] else c :: before_dash t' end.
Definition ranges (v : bytes) : Z * Z :=
  let t := skipn 6 v in let a := before_dash t in (SpecRequest.dec_value a, SpecRequest.dec_value (skipn (S (length a)) t)).
Definition r206 (d : bytes) : http := mkhttp 49 (B "206") (B "Partial Content") [mkhline (B "Content-Length") (B " ") (to_dec (zlen d))] (Sized d).
Definition r404 (head : bool) : http := mkhttp 49 (B "404") (B "Not Found") [mkhline (B "Content-Length") (B " ") (B "0")] (if head then NoBody else Sized []).
Definition file_server (F : bytes) : server := fun line hs _ =>
  if beqb (slice line 0 4) (B "HEAD") then r404 true
  else match filter is_range hs with
       | [(_, v)] => let (a, b) := ranges v in if (0 <=? a) && (a <=? b) && (b <? zlen F) then r206 (slice F a (b - a + 1)) else r404 false
       | _ => r404 false
       end.
Lemma dec_values d : SpecHttp.dec_value d = SpecRequest.dec_value d.
Proof. unfold SpecHttp.dec_value, SpecRequest.dec_value. generalize 0. induction d as [|c d IH]; intros z; cbn [fold_left]; [reflexivity|]. rewrite IH. f_equal. lia. Qed.
Lemma before_dash_app d y : Forall (fun c => 48 <= c <= 57) d -> before_dash (d ++ 45 :: y) = d.
Proof. induction 1 as [|c d H F IH]; cbn [app before_dash]; [reflexivity|]. replace (c =? 45) with false by lia. rewrite IH. reflexivity. Qed.
Lemma ranges_value a b v : 0 <= a <= b -> range_value a b v -> ranges v = (a, b).
Proof.
  intros AB. unfold range_value. replace (b =? -1) with false by lia. intros (x&y&DX&DY&->). unfold decimal in DX, DY. replace (a <? 0) with false in DX by lia. replace (b <? 0) with false in DY by lia.
  destruct DX as (_&FX&_&VX), DY as (_&_&_&VY). unfold ranges. assert (SK : skipn 6 (B "bytes=" ++ x ++ B "-" ++ y) = x ++ 45 :: y) by reflexivity. rewrite SK. cbv zeta. rewrite before_dash_app by exact FX.
  rewrite VX. replace (skipn (S (length x)) (x ++ 45 :: y)) with y; [rewrite VY; reflexivity|]. rewrite skipn_app, skipn_all2 by lia. replace (S (length x) - length x)%nat with 1%nat by lia. reflexivity.
Qed.
Lemma digits_clen n : 0 <= n <= INT32_MAX -> clen_header (to_dec n) /\ SpecHttp.dec_value (to_dec n) = n /\ Forall digit (to_dec n).
Proof.
  intros N. pose proof (to_dec_len_nonneg n N) as LN. pose proof (to_dec_decimal n ltac:(unfold is_int32, INT32_MIN, INT32_MAX in *; lia)) as D. unfold decimal in D. replace (n <? 0) with false in D by lia. destruct D as (D1&D2&_&D4).
  rewrite dec_values. unfold clen_header. split; [split; [exact D1|split; [exact D2|unfold zlen in LN; lia]]|]. split; [exact D4|exact D2].
Qed.
Lemma r206_ok d : zlen d <= INT32_MAX -> http_ok false (r206 d).
Proof.
  intros N. pose proof (zlen_nonneg d). destruct (digits_clen (zlen d) ltac:(lia)) as (D1&D2&D3).
  assert (C : content_length (p_headers (r206 d)) (Some (zlen d))).
  { pose proof (CLhere (mkhline (B "Content-Length") (B " ") (to_dec (zlen d))) [] eq_refl D1 CLnil) as C. cbn [h_value] in C. rewrite D2 in C. exact C. }
  split; [split; [right; reflexivity|]|].
  - split; [reflexivity|]. split; [repeat constructor; discriminate|]. split; [vm_compute; discriminate|]. split; [repeat constructor; discriminate|]. split; [|eauto].
    apply Forall_cons; [|apply Forall_nil]. split; [discriminate|]. split; [repeat constructor; discriminate|]. split; [constructor; [left; reflexivity|constructor]|]. cbn [h_value]. rewrite Forall_forall in D3. split.
    + rewrite Forall_forall. intros c I. specialize (D3 c I). unfold digit in D3. unfold text_char, CR, LF. lia.
    + intros c x E. assert (I : In c (to_dec (zlen d))) by (rewrite E; left; reflexivity). specialize (D3 c I). unfold digit in D3. unfold blank, SPACE. lia.
  - cbn [p_body r206]. split; [intros [X|[X|[X|X]]]; vm_compute in X; discriminate|]. split; [|exact C].
    intros (h&[<-|[]]&X&_). vm_compute in X. discriminate.
Qed.
Lemma r404_ok head : http_ok head (r404 head).
Proof.
  assert (C : content_length (p_headers (r404 head)) (Some 0)).
  { apply (CLhere (mkhline (B "Content-Length") (B " ") (B "0"))); [reflexivity|split; [discriminate|split; [repeat constructor; discriminate|cbn; lia]]|constructor]. }
  split; [split; [right; reflexivity|]|].
  - split; [reflexivity|]. split; [repeat constructor; discriminate|]. split; [vm_compute; discriminate|]. split; [repeat constructor; discriminate|]. split; [|eauto].
    apply Forall_cons; [|apply Forall_nil]. split; [discriminate|]. split; [repeat constructor; discriminate|]. split; [constructor; [left; reflexivity|constructor]|]. split; [repeat constructor; discriminate|].
    intros c x E. injection E as <- <-. intros [X|X]; discriminate.
  - destruct head; cbn [p_body r404]; [left; reflexivity|]. split; [intros [X|[X|[X|X]]]; vm_compute in X; discriminate|]. split; [|exact C].
    intros (h&[<-|[]]&X&_). vm_compute in X. discriminate.
Qed.
Lemma file_server_ok F p : zlen F <= INT32_MAX -> well_behaved (file_server F) /\ serves (file_server F) p F /\ serves_all (file_server F) p F 60.
Proof.
  intros N.
  assert (KEY : forall hs bd v a b, filter is_range hs = [(B "Range", v)] -> range_value a b v -> 0 <= a <= b -> b < zlen F ->
    file_server F (B "GET " ++ p ++ B " HTTP/1.1") hs bd = r206 (slice F a (b - a + 1))).
  { intros hs bd v a b FI RV AB BF. unfold file_server. change (beqb (slice (B "GET " ++ p ++ B " HTTP/1.1") 0 4) (B "HEAD")) with false. cbn iota. rewrite FI, (ranges_value a b v AB RV).
    replace ((0 <=? a) && (a <=? b) && (b <? zlen F)) with true by lia. reflexivity. }
  split; [|split].
  - intros line hs b. unfold file_server. destruct (beqb (slice line 0 4) (B "HEAD")); [apply r404_ok|]. destruct (filter is_range hs) as [|(x&v) [|]]; try apply r404_ok. destruct (ranges v) as (a&e).
    destruct ((0 <=? a) && (a <=? e) && (e <? zlen F)) eqn:Q; [|apply r404_ok]. apply r206_ok. rewrite slice_len by lia. lia.
  - intros hs bd v a b FI RV AB BF _. rewrite (KEY hs bd v a b FI RV AB BF). reflexivity.
  - intros hs bd v a b FI RV AB BF. cbv zeta. rewrite (KEY hs bd v a b FI RV AB BF). split; [reflexivity|]. split; [discriminate|].
    assert (SL : zlen (slice F a (b - a + 1)) = b - a + 1) by (apply slice_len; lia).
    unfold http_bytes, head_bytes, status_bytes, hlines_bytes, hline_bytes, r206. cbn [p_minor p_code p_reason p_headers p_body body_bytes flat_map h_name h_ws h_value]. rewrite SL.
    pose proof (to_dec_len_nonneg (b - a + 1) ltac:(lia)) as TL. rewrite !zlen_app, SL. change (zlen (B "HTTP/1.")) with 7. change (zlen [49; SPACE]) with 2. change (zlen (B "206")) with 3. change (zlen [SPACE]) with 1.
    change (zlen (B "Partial Content")) with 15. change (zlen CRLF) with 2. change (zlen (B "Content-Length")) with 14. change (zlen [COLON]) with 1. change (zlen (B " ")) with 1. change (zlen (@nil Z)) with 0. lia.
Qed.
Theorem C96_such_servers_exist : forall F p, zlen F <= INT32_MAX -> exists srv, well_behaved srv /\ serves srv p F /\ serves_all srv p F 60.
Proof. intros F p N. exists (file_server F). apply file_server_ok; auto. Qed.
Print Assumptions C96_such_servers_exist.

(** ** Case: a file of 43 bytes in two pieces, 20 and 23 bytes; every answer arrives in two pieces; the transport takes at most 50 bytes at a time. *)
Definition file_d : bytes := B "the quick brown fox jumps over the lazy dog".
Definition ri_d : reqInfo := mkri (SLit (B "GET")) 3 (SLit (B "/f")) 2 (SLit (B "h")) 1 0.
Definition h_d : reqHeaders := mkrh (Some buf0) 300 0.
Definition w_d : world := mkw [repeat 0 300; repeat 0 300] 0 0 0 [].
Definition cut_d (x : bytes) : list bytes := [firstn 20 x; skipn 20 x].
Definition pieces_d : list (list bytes) := [cut_d (http_bytes (r206 (slice file_d 0 20))); cut_d (http_bytes (r206 (slice file_d 20 23)))].
Definition requests_d : list (bytes * list (bytes * bytes)) :=
  [(B "GET /f HTTP/1.1", [(B "User-Agent", B "my-platform-name"); (B "Host", B "h"); (B "Range", B "bytes=0-19")]);
   (B "GET /f HTTP/1.1", [(B "User-Agent", B "my-platform-name"); (B "Host", B "h"); (B "Range", B "bytes=20-42")])].
Lemma setup_d : download_setup cfg0 (env_ex (concat pieces_d)) refparser trr ri_d (B "/f") (B "h") h_d buf0 300 rsep rbuf 300 (w_mem w_d).
Proof.
  destruct (env_ex_ok (concat pieces_d)) as (A&C&_).
  split; [exact cfg0_ok|]. split; [exists 32; split; [lia|reflexivity]|]. split; [exact A|]. split; [exact C|]. split; [exact refparser_ok|].
  do 4 (split; [reflexivity|]). split; [vm_compute; split; discriminate|]. split; [vm_compute; repeat split; discriminate|]. split; [reflexivity|].
  split; [vm_compute; repeat split; try discriminate; auto; right; repeat split; discriminate|]. split; [split; vm_compute; discriminate|].
  split; [split; intros X; vm_compute in X; intuition discriminate|]. split; [split; intros X; vm_compute in X; intuition discriminate|].
  do 5 (split; [exact I || reflexivity|]). split; [vm_compute; repeat split; discriminate|]. split; [vm_compute; split; [reflexivity|discriminate] || (split; reflexivity)|reflexivity].
Qed.
(** Checking a log: *)
Fixpoint answers_of (srv : server) (fuel : nat) (d : bytes) : bytes :=
  match fuel with
  | O => []
  | S f => match server_reads d with Some (line, hs, b, rest) => http_bytes (srv line hs b) ++ answers_of srv f rest | None => [] end
  end.
Definition honest_b (srv : server) (log : list tev) : bool :=
  forallb (fun k => let x := answers_of srv 9 (accepted (firstn k log)) in let d := data_received (firstn k log) in beqb d (firstn (length d) x)) (seq 0 (S (length log))).
Lemma answers_of_ok srv fuel : forall d, answers srv d (answers_of srv fuel d).
Proof. induction fuel as [|f IH]; intros d; cbn [answers_of]; [constructor|]. destruct (server_reads d) as [[[[l hs] b] rest]|] eqn:Q; [econstructor; eauto|constructor]. Qed.
Lemma honest_ok srv log : honest_b srv log = true -> honest srv log.
Proof.
  intros H log1 log2 ->. unfold honest_b in H. rewrite forallb_forall in H. specialize (H (length log1)). rewrite app_length, in_seq in H. specialize (H ltac:(lia)). cbv zeta in H.
  rewrite firstn_app, Nat.sub_diag, firstn_all, firstn_O, app_nil_r in H. apply beqb_eq in H. exists (answers_of srv 9 (accepted log1)). split; [apply answers_of_ok|]. unfold prefix. exists (skipn (length (data_received log1)) (answers_of srv 9 (accepted log1))).
  pose proof (firstn_skipn (length (data_received log1)) (answers_of srv 9 (accepted log1))) as FS. rewrite <- H in FS. first [exact FS|symmetry; exact FS].
Qed.
Example C96_case : exists srv w', well_behaved srv /\ serves srv (B "/f") file_d /\ serves_all srv (B "/f") file_d 60 /\
  download 400 cfg0 (env_ex (concat pieces_d)) refparser trr ri_d rsep h_d 0 [20; 23] w_d = Ret (Some file_d, w') /\
  accepted (w_tr w') = flat_map text_of requests_d /\ honest srv (w_tr w').
Proof.
  exists (file_server file_d). destruct (file_server_ok file_d (B "/f") ltac:(vm_compute; discriminate)) as (A1&A2&A3).
  set (X := download 400 cfg0 (env_ex (concat pieces_d)) refparser trr ri_d rsep h_d 0 [20; 23] w_d).
  assert (Q : match X with Ret (Some d, w') => beqb d file_d && beqb (accepted (w_tr w')) (flat_map text_of requests_d) && honest_b (file_server file_d) (w_tr w') | _ => false end = true) by (vm_compute; reflexivity).
  destruct X as [[[d|] w']| | |]; try discriminate. apply andb_true_iff in Q. destruct Q as (Q&Q3). apply andb_true_iff in Q. destruct Q as (Q1&Q2). apply beqb_eq in Q1, Q2. subst d.
  exists w'. split; [exact A1|]. split; [exact A2|]. split; [exact A3|]. split; [reflexivity|]. split; [exact Q2|]. apply honest_ok, Q3.
Qed.
(** The other hypotheses of [C96_download_completes] hold as well. *)
Example C96_case_completes : exists w' tr, download 400 cfg0 (env_ex (concat pieces_d)) refparser trr ri_d rsep h_d 0 [20; 23] w_d = Ret (Some file_d, w') /\ w_tr w' = w_tr w_d ++ tr /\
  accepted tr = flat_map text_of requests_d /\ data_received tr = flat_map (fun q => http_bytes (answer_to (file_server file_d) q)) requests_d.
Proof.
  destruct (file_server_ok file_d (B "/f") ltac:(vm_compute; discriminate)) as (A1&A2&A3). destruct (env_ex_ok (concat pieces_d)) as (_&_&RF&WI).
  apply (C96_download_completes 400 cfg0 (env_ex (concat pieces_d)) refparser trr ri_d (B "/f") (B "h") h_d buf0 300 rsep rbuf 300 (file_server file_d) file_d 60 [20; 23] w_d requests_d pieces_d);
    [exact refparser_reads|exact RF|exact WI|exact setup_d|exact A1|exact A2|exact A3|repeat constructor; vm_compute; discriminate|reflexivity|vm_compute; discriminate| | |lia| |].
  - unfold requests_d. change (B "GET /f HTTP/1.1") with (B "GET " ++ B "/f" ++ B " HTTP/1.1").
    assert (RV : forall a b, 0 <= a <= b -> b <= INT32_MAX -> range_value a b (B "bytes=" ++ to_dec a ++ B "-" ++ to_dec b)).
    { intros a b AB BM. unfold range_value. replace (b =? -1) with false by lia. exists (to_dec a), (to_dec b). split; [apply to_dec_decimal; unfold is_int32, INT32_MIN, INT32_MAX in *; lia|].
      split; [apply to_dec_decimal; unfold is_int32, INT32_MIN, INT32_MAX in *; lia|reflexivity]. }
    exact (RRcons cfg0 0 (B "/f") (B "h") 0 20 [23] _ _ (RV 0 19 ltac:(lia) ltac:(unfold INT32_MAX; lia)) (RRcons cfg0 0 (B "/f") (B "h") 20 23 [] _ _ (RV 20 42 ltac:(lia) ltac:(unfold INT32_MAX; lia)) (RRnil _ _ _ _ _))).
  - repeat constructor; vm_compute; discriminate.
  - constructor; [|constructor; [|constructor]].
    all: split; [vm_compute; reflexivity|]; split; [vm_compute; discriminate|]; split; [intros nt; apply nonempty_prompt; repeat constructor; vm_compute; discriminate|cbn; lia].
  - exact (env_of_feeds (concat pieces_d)).
Qed.
