(** PropsResponse2.v — further receiving properties (C28-C30, C32, C33, C40-C42, C44, C45). *)
From Verif Require Import Base Lib ModelRequest ModelSend ModelResponse SpecRequest SpecSend SpecResponse ProofsRequest
  ProofsSend ProofsSend2 ProofsResponse ProofsResponse2 ProofsResponse3 ProofsResponse4 ProofsResponse5 RefParser Demo DemoResponse PropsResponse ProofsIndep.

(** ** C28 *)
(** The method of a request: what stands before the first space. *)
Definition has_method (req M : bytes) : Prop := ~ In SPACE M /\ exists rest, req = M ++ SPACE :: rest.
(** Every time the parser reported the end of the headers it was answered [a]. *)
Definition headers_answered (tr : list tev) (a : cbret) : Prop :=
  forall tr1 p clen close ka tr2, tr = tr1 ++ TEvent (EvHeadersComplete p clen close ka) :: tr2 ->
    exists hs tr3, only_headers hs /\ tr2 = hs ++ TReply a :: tr3.

Lemma hdr_only hs buf L : Forall (hdr_in buf L) hs -> only_headers hs.
Proof. intros H. eapply Forall_impl; [|exact H]. intros []; cbn; tauto. Qed.
Lemma slice4 M rest : ~ In SPACE M -> slice (M ++ SPACE :: rest) 0 4 = B "HEAD" -> exists x, M = B "HEAD" ++ x.
Proof.
  intros N. unfold slice. change (Z.to_nat 4) with 4%nat. change (Z.to_nat 0) with 0%nat. cbn [skipn].
  destruct M as [|a [|b [|c [|d M]]]]; cbn; intros H; try discriminate. injection H as -> -> -> ->. eauto.
Qed.
Lemma headers_answered_as fuel cfg E P t r rh buf L req w st r' w' tr :
  recv_setup cfg E P t r rh buf L req w -> receives fuel cfg E P t r rh w st r' w' tr -> no_parse_body r = false ->
  headers_answered tr (if beqb (slice req 0 4) (B "HEAD") then CbNoBody else CbContinue).
Proof.
  intros H HR ND tr1 p clen close ka tr2 X.
  destruct (receives_inv _ _ _ _ _ _ _ _ _ _ _ _ _ _ _ H HR) as (trl&o&s'&ph&G&TR&RR&_). rewrite TR in X.
  destruct (skip notquiet _ (tick_notquiet _ _) _ _ _ _ (fun f => f (I : quiet (TEvent (EvHeadersComplete p clen close ka)))) X) as (tr3&->&Y).
  destruct (rrun_reply _ _ _ _ _ _ _ _ _ _ RR _ _ _ Y) as (hs&tr4&Z1&Z2). exists hs, tr4. split; [eapply hdr_only; eauto|].
  rewrite Z2. cbn [reply_of kof k_opt k_head]. rewrite dnp_bit. unfold no_parse_body in ND. rewrite ND. reflexivity.
Qed.

(** A request with method "HEADX" is taken for a HEAD request. *)
Definition reqX : bytes := request_line (B "HEADX") (B "/") ++ header_line (B "Host") (B "h") ++ CRLF.
Definition hX : reqHeaders := mkrh (Some buf0) (zlen reqX + 100) (zlen reqX).
Definition wX (L : nat) : world := mkw [reqX ++ repeat 0 100; repeat 0 L] 0 0 0 [].
Lemma setupX ps L opt : (0 < L)%nat -> Z.of_nat L < 4294967296 ->
  recv_setup cfg0 (env_of ps) refparser trr (resp0 L opt) hX rbuf (Z.of_nat L) reqX (wX L).
Proof.
  intros H1 H2.
  split; [reflexivity|]; split; [apply env_of_contract|]; split; [apply refparser_ok|]; split; [discriminate|];
    split; [reflexivity|]; split; [reflexivity|]; split.
  - unfold object, wX, rbuf, blk. cbn [w_mem pb po nth]. rewrite zlen_repeat. lia.
  - split; [cbn [cfg0 SZ]; lia|]. split; [|vm_compute; discriminate].
    exists buf0, (zlen reqX + 100). split; [reflexivity|]. split; [reflexivity|].
    split; [vm_compute; repeat split; discriminate|]. split; [vm_compute; repeat split; discriminate|reflexivity].
Qed.
Theorem C28_method_decides_refuted :
  ~ (forall fuel cfg E P t r rh buf L req M w st r' w' tr,
       recv_setup cfg E P t r rh buf L req w -> has_method req M -> no_parse_body r = false ->
       receives fuel cfg E P t r rh w st r' w' tr ->
       (M = B "HEAD" -> headers_answered tr CbNoBody) /\ (M <> B "HEAD" -> headers_answered tr CbContinue)).
Proof.
  intros H.
  assert (X : exists st r' w' tr, receives 20 cfg0 (env_of resp_ok) refparser trr (resp0 200 0) hX (wX 200) st r' w' tr /\
     exists tr1 p clen close ka tr2 tr3, tr = tr1 ++ TEvent (EvHeadersComplete p clen close ka) :: tr2 /\
       tr2 = [THeader (mkptr 1 36) 1 (mkptr 1 39) 1 (B "A") (B "b") 200; TReply CbNoBody] ++ tr3 /\ r_body r' = None).
  { do 4 eexists. split; [demo|].
    match goal with |- context [?tr = _ ++ _] => let t := eval vm_compute in tr in change tr with t end.
    match goal with |- context [?t = _ ++ _] => 
      let rec f l acc := lazymatch l with
        | TEvent (EvHeadersComplete ?p ?c ?a ?b) :: ?l' => exists (rev acc), p, c, a, b, l'
        | ?x :: ?l' => f l' constr:(x :: acc) end in f t (@nil tev) end.
    eexists. split; [reflexivity|]. split; [reflexivity|vm_compute; reflexivity]. }
  destruct X as (st&r'&w'&tr&X1&tr1&p&clen&close&ka&tr2&tr3&X2&X3&X4).
  specialize (H 20%nat cfg0 (env_of resp_ok) refparser trr (resp0 200 0) hX rbuf 200 reqX (B "HEADX") (wX 200) st r' w' tr).
  specialize (H (setupX resp_ok 200 0 ltac:(lia) ltac:(lia))).
  assert (HM : has_method reqX (B "HEADX")).
  { split; [intros F; vm_compute in F; repeat (destruct F as [F|F]; [discriminate|]); exact F|]. eexists. reflexivity. }
  destruct (H HM eq_refl X1) as (_&Y). specialize (Y ltac:(discriminate)).
  destruct (Y _ _ _ _ _ _ X2) as (hs&tr4&Z1&Z2). rewrite X3 in Z2. cbn [app] in Z2.
  destruct hs as [|h1 [|h2 hs]]; injection Z2; try discriminate.
  intros Z3 Z4 Z5. apply Forall_inv_tail in Z1. apply Forall_inv in Z1. rewrite <- Z4 in Z1. exact Z1.
Qed.
(** What is missing: methods other than HEAD that begin with "HEAD" are treated as HEAD. *)
Theorem C28_method_decides_partial : forall fuel cfg E P t r rh buf L req M w st r' w' tr,
  recv_setup cfg E P t r rh buf L req w -> has_method req M -> no_parse_body r = false ->
  receives fuel cfg E P t r rh w st r' w' tr -> answered st tr ->
  (M = B "HEAD" -> headers_answered tr CbNoBody /\ v_bstart (view_of tr) = None /\ r_body r' = None /\ r_bodyLen r' = 0) /\
  ((forall x, M <> B "HEAD" ++ x) -> headers_answered tr CbContinue).
Proof.
  intros fuel cfg E P t r rh buf L req M w st r' w' tr H (N&rest&HM) ND HR A.
  pose proof (headers_answered_as _ _ _ _ _ _ _ _ _ _ _ _ _ _ _ H HR ND) as HA. split.
  - intros ->. assert (X : beqb (slice req 0 4) (B "HEAD") = true) by (rewrite HM; reflexivity). rewrite X in HA.
    split; [auto|].
    pose proof (C27_body _ _ _ _ _ _ _ _ _ _ _ _ _ _ _ H HR A ND) as C27. cbn zeta in C27.
    destruct (receives_inv _ _ _ _ _ _ _ _ _ _ _ _ _ _ _ H HR) as (trl&o&s'&ph&G&TR&RR&NM&ST&HW&F1&I&_).
    destruct (i_nobody _ _ _ _ _ _ _ _ I (or_introl X)) as (Y&_). rewrite Y in C27. tauto.
  - intros NX. destruct (beqb (slice req 0 4) (B "HEAD")) eqn:X; [|auto].
    exfalso. apply beqb_eq in X. rewrite HM in X. destruct (slice4 _ _ N X) as (x&->). exact (NX x eq_refl).
Qed.
Example C28_case : exists r' w' tr, demo_receives resp_ok (resp0 200 0) 200 HTTPSuccess r' w' tr /\ has_method req1 (B "GET") /\
  r_bodyLen r' = 5.
Proof.
  do 3 eexists. split; [demo|]. split; [|vm_compute; reflexivity].
  split; [intros F; vm_compute in F; repeat (destruct F as [F|F]; [discriminate|]); exact F|]. eexists. reflexivity.
Qed.
Print Assumptions C28_method_decides_refuted.
Print Assumptions C28_method_decides_partial.

(** ** C29 *)
Lemma inert_view A v : Forall (fun x => match x with TParse _ _ | TEvent _ => False | _ => True end) A -> fold_left view_step A v = v.
Proof. induction 1 as [|x A H]; cbn [fold_left]; auto. destruct x; cbn in H; try contradiction; auto. Qed.
Lemma finish_parts v : v_stream (finish v) = v_stream v /\ v_start (finish v) = v_start v /\ v_hstart (finish v) = v_hstart v /\
  v_last (finish v) = v_last v.
Proof. unfold finish. destruct (v_name v), (v_value v); auto. Qed.


Lemma pause_ends fuel cfg E P t r rh buf L req w st r' w' tr :
  recv_setup cfg E P t r rh buf L req w -> no_parse_body r = true -> receives fuel cfg E P t r rh w st r' w' tr ->
  forall tr1 p clen close ka tr2, tr = tr1 ++ TEvent (EvHeadersComplete p clen close ka) :: tr2 ->
  exists hs, only_headers hs /\ tr2 = hs ++ [TReply CbPause; TParsed HPE_PAUSED].
Proof.
  intros H ND HR tr1 p clen close ka tr2 X.
  destruct (receives_inv _ _ _ _ _ _ _ _ _ _ _ _ _ _ _ H HR) as (trl&o&s'&ph&G&TR&RR&_).
  rewrite TR in X.
  destruct (skip notquiet _ (tick_notquiet _ _) _ _ _ _ (fun f => f (Logic.I : quiet (TEvent (EvHeadersComplete p clen close ka)))) X) as (tr3&TR1&Y).
  destruct (rrun_block _ _ _ _ _ _ _ _ _ _ RR _ (TEvent _) _ (Logic.I : quiet (TEvent _)) Y) as (A&a&room&n&d&t1&B1&B2&C&b&e&TR3&TR2&(evs&Z1&ZE&Z0)&Z2&Z3&Z4&Z5).
  destruct B1 as [|y B1]; [discriminate|]. injection ZE as -> ZE.
  assert (RP : reply_of (kof r buf L req (w_mem w)) (EvHeadersComplete p clen close ka) = CbPause).
  { cbn [reply_of kof k_opt]. rewrite dnp_bit. unfold no_parse_body in ND. rewrite ND. reflexivity. }
  destruct (split_at _ _ _ _ _ (eq_sym ZE)) as [(A2&Y1&Y2)|(X2&Y1&Y2)]; [|destruct X2 as [|? [|]]; discriminate].
  destruct (events_at _ _ Z1 _ _ _ Y1) as (hs&tr4&G1&G2&G3). rewrite RP in *. specialize (G3 eq_refl). subst tr4.
  assert (EP : e = HPE_PAUSED).
  { apply Z0. rewrite Y1, G2. apply in_or_app. right. right. apply in_or_app. right. left. auto. }
  subst e. destruct Z5 as [-> |Z5]; [|discriminate].
  exists hs. split; [eapply hdr_only; eauto|]. rewrite TR2, Y2, G2, app_nil_r, <- app_assoc. reflexivity.
Qed.
Lemma h1_none A : forall v, (forall p c a b, ~ In (TEvent (EvHeadersComplete p c a b)) A) -> v_h1 v = None -> v_h1 (fold_left view_step A v) = None.
Proof.
  induction A as [|x A IH]; intros v N V; [auto|]. cbn [fold_left]. apply IH; [intros p c a b X; exact (N p c a b (or_intror X))|].
  destruct x; cbn [view_step]; auto.
  assert (F : v_h1 (finish v) = v_h1 v) by (unfold finish; destruct (v_name v), (v_value v); auto).
  destruct ev; cbn [view_event]; rewrite ?F; auto. exfalso. apply (N pos clen close keepalive). left. auto.
Qed.

Theorem C29_raw_body : forall fuel cfg E P t r rh buf L req w st r' w' tr,
  recv_setup cfg E P t r rh buf L req w -> no_parse_body r = true -> receives fuel cfg E P t r rh w st r' w' tr ->
  forall tr1 p clen close ka tr2, tr = tr1 ++ TEvent (EvHeadersComplete p clen close ka) :: tr2 ->
  (exists hs, only_headers hs /\ tr2 = hs ++ [TReply CbPause; TParsed HPE_PAUSED]) /\
  st = HTTPSuccess /\
  let q := v_start (view_of tr1) + p in
  0 < q <= received tr /\ r_body r' = Some (poff buf q) /\ r_bodyLen r' = received tr - q /\
  bytes_at (w_mem w') (poff buf q) (received tr - q) = slice (v_stream (view_of tr)) q (received tr - q) /\
  bytes_at (w_mem w') buf (received tr) = v_stream (view_of tr) /\
  zlen (v_stream (view_of tr)) = received tr.
Proof.
  intros fuel cfg E P t r rh buf L req w st r' w' tr H ND HR tr1 p clen close ka tr2 X.
  destruct (receives_inv _ _ _ _ _ _ _ _ _ _ _ _ _ _ _ H HR) as (trl&o&s'&ph&G&TR&RR&NM&ST&HW&F1&I&F2&F3&F4).
  pose proof X as XX. rewrite TR in X.
  destruct (skip notquiet _ (tick_notquiet _ _) _ _ _ _ (fun f => f (Logic.I : quiet (TEvent (EvHeadersComplete p clen close ka)))) X) as (tr3&TR1&Y).
  assert (SH := pause_ends _ _ _ _ _ _ _ _ _ _ _ _ _ _ _ H ND HR _ _ _ _ _ _ XX).
  split; [exact SH|]. destruct SH as (hs&OH&T2).
  assert (EO : errno_of o = Some HPE_PAUSED).
  { assert (W : trl = (tr3 ++ TEvent (EvHeadersComplete p clen close ka) :: hs ++ [TReply CbPause]) ++ TParsed HPE_PAUSED :: []).
    { rewrite Y, T2, <- app_assoc. cbn [app]. rewrite <- app_assoc. reflexivity. }
    destruct (rrun_errors _ _ _ _ _ _ _ _ _ _ RR _ _ _ W) as [(_&Q)|(Q&_)]; [auto|discriminate]. }
  assert (PO : paused o) by (destruct o; cbn in EO; try discriminate; injection EO as ->; [left|right]; auto).
  destruct (F3 PO) as (DK&MB&hl&HE&R').
  split. { rewrite ST. unfold final_status. rewrite EO. cbn [parse_error]. rewrite MB, DK. reflexivity. }
  assert (VW : view_of tr = view_event (view_of tr1) (EvHeadersComplete p clen close ka)).
  { unfold view_of. rewrite XX, T2, fold_left_app. cbn [fold_left]. rewrite inert_view; [reflexivity|].
    apply Forall_app. split; [|repeat constructor]. eapply Forall_impl; [|exact OH]. intros []; cbn; tauto. }
  assert (GQ : G = v_start (view_of tr1) + p).
  { destruct (finish_parts (view_of tr1)) as (_&FS&_&_).
    rewrite VW in HE. cbn [view_event v_hend] in HE. injection HE as _ HE. rewrite FS in HE. auto. }
  cbn zeta. rewrite <- GQ.
  assert (CR : c_resp (s_ctx s') = true).
  { destruct (c_resp (s_ctx s')); auto. destruct (F1 eq_refl) as (_&_&_&O). rewrite O in EO. discriminate. }
  rewrite (reset_true _ CR) in I.
  pose proof (rrun_received _ _ _ _ _ _ _ _ _ _ RR) as RL. cbn [view0 v_stream] in RL. change (zlen (@nil Z)) with 0 in RL. rewrite Z.add_0_l in RL.
  assert (RT : received tr = received trl) by (rewrite TR; apply received_tick). rewrite RT, <- RL.
  pose proof (i_pos _ _ _ _ _ _ _ _ I) as (P1&P2&_). pose proof (i_h1 _ _ _ _ _ _ _ _ I) as IH1. pose proof (i_hend _ _ _ _ _ _ _ _ I) as IH. rewrite HE in IH.
  split; [lia|]. split; [rewrite R'; reflexivity|]. split; [rewrite R'; reflexivity|].
  pose proof (i_tail _ _ _ _ _ _ _ _ I) as IT. cbn [kof k_buf] in IT. rewrite HW. split; [exact IT|]. split; [|reflexivity].
  assert (H1 : v_h1 (view_of tr) = Some G).
  { rewrite VW. cbn [view_event v_h1]. destruct (finish_parts (view_of tr1)) as (_&FS&_&_). rewrite FS, <- GQ.
    assert (N1 : v_h1 (view_of tr1) = None).
    { apply h1_none; [|reflexivity]. intros p1 c1 a1 b1 HI. apply in_split in HI. destruct HI as (u1&u2&U).
      rewrite XX, U in HR. rewrite <- app_assoc in HR. cbn [app] in HR.
      destruct (pause_ends _ _ _ _ _ _ _ _ _ _ _ _ _ _ _ H ND HR _ _ _ _ _ _ eq_refl) as (hs1&OH1&U1).
      destruct (skip (fun x => ~ exists ev, x = TEvent ev) (hs1 ++ [TReply CbPause; TParsed HPE_PAUSED])) with (B := @nil tev) (X := u2) (x := TEvent (EvHeadersComplete p clen close ka)) (Y := tr2) as (z&_&Z).
      - apply Forall_app. split; [|constructor; [intros (?&?); discriminate|constructor; [intros (?&?); discriminate|constructor]]].
        eapply Forall_impl; [|exact OH1]. intros []; cbn; try tauto; intros _ (?&?); discriminate.
      - intros Q. apply Q. eauto.
      - rewrite app_nil_r. auto.
      - destruct z; discriminate. }
    assert (FH : v_h1 (finish (view_of tr1)) = v_h1 (view_of tr1)) by (unfold finish; destruct (v_name (view_of tr1)), (v_value (view_of tr1)); auto).
    rewrite FH.
    rewrite N1. reflexivity. }
  assert (IL : bytes_at (w_mem (s_w s')) buf G = slice (v_stream (view_of tr)) 0 G).
  { apply (i_low _ _ _ _ _ _ _ _ I). pose proof (i_body _ _ _ _ _ _ _ _ I) as IB. destruct (v_bstart (view_of tr)) as [bo|]; [|auto].
    destruct IB as (_&_&IB1&IB2&_&q&Q1&Q2). rewrite H1 in Q1. injection Q1 as <-. pose proof (zlen_nonneg (v_body (view_of tr))). lia. }
  assert (PB : 0 <= po buf) by (destruct H as (_&_&_&_&_&_&(?&?&?)&_); auto).
  set (n := zlen (v_stream (view_of tr))) in *. replace n with (G + (n - G)) at 1 by lia. rewrite bytes_at_app by lia.
  rewrite IL, IT. transitivity (slice (v_stream (view_of tr)) 0 (G + (n - G))); [rewrite slice_app by lia; reflexivity|].
  apply slice_full. unfold n. lia.
Qed.
Example C29_case : exists r' w' tr, demo_receives resp_ok (resp0 200 1) 200 HTTPSuccess r' w' tr /\
  r_body r' = Some (poff rbuf 44) /\ bytes_at (w_mem w') (poff rbuf 44) (r_bodyLen r') = B "hel" /\
  In (TEvent (EvHeadersComplete 22 5 false false)) tr.
Proof. do 3 eexists. split; [demo|]. split; [vm_compute; reflexivity|]. split; [vm_compute; reflexivity|]. vm_compute. tauto. Qed.
Print Assumptions C29_raw_body.

(** ** C30 *)
Definition resp_cut : list bytes := [line (B "HTTP/1.1 200 OK") ++ line (B "A: b")].
Theorem C30_success_means_headers_refuted :
  ~ (forall fuel cfg E P t r rh buf L req w st r' w' tr,
       recv_setup cfg E P t r rh buf L req w -> receives fuel cfg E P t r rh w st r' w' tr -> st = HTTPSuccess ->
       v_hend (view_of tr) <> None).
Proof.
  intros H.
  assert (X : exists st r' w' tr, demo_receives resp_cut (resp0 200 1) 200 st r' w' tr /\ st = HTTPSuccess /\ v_hend (view_of tr) = None /\ r_hdone r' = 0).
  { do 4 eexists. split; [demo|]. conj; vm_compute; reflexivity. }
  destruct X as (st&r'&w'&tr&X1&X2&X3&X4).
  exact (H 20%nat cfg0 (env_of resp_cut) refparser trr (resp0 200 1) h1 rbuf 200 req1 (wr 200) st r' w' tr
    (proj1 (setup0 resp_cut 200 1 ltac:(lia) ltac:(lia))) X1 X2 X3).
Qed.
(** What is missing: with HTTP_RESPONSE_DO_NOT_PARSE_BODY_FLAG a call that timed out inside the headers also succeeds; then
    areHeadersComplete is not set. *)
Theorem C30_success_means_headers_partial : forall fuel cfg E P t r rh buf L req w st r' w' tr,
  recv_setup cfg E P t r rh buf L req w -> receives fuel cfg E P t r rh w st r' w' tr -> st = HTTPSuccess ->
  (no_parse_body r = false -> v_hend (view_of tr) <> None) /\
  (v_hend (view_of tr) = None -> no_error tr /\ v_msg (view_of tr) = MsgBegun /\ r_hdone r' = r_hdone r) /\
  (v_hend (view_of tr) <> None -> r_hdone r' = 1).
Proof.
  intros fuel cfg E P t r rh buf L req w st r' w' tr H HR S.
  assert (A : answered st tr) by (left; rewrite S; discriminate).
  destruct (outputs _ _ _ _ _ _ _ _ _ _ _ _ _ _ _ H HR A) as (_&_&O1&O2).
  destruct (receives_inv _ _ _ _ _ _ _ _ _ _ _ _ _ _ _ H HR) as (trl&o&s'&ph&G&TR&RR&NM&ST&HW&F1&I&F2&F3&F4).
  pose proof (i_after _ _ _ _ _ _ _ _ I) as IA. pose proof (i_hend _ _ _ _ _ _ _ _ I) as IH.
  assert (CM : v_msg (view_of tr) = MsgComplete -> v_hend (view_of tr) <> None).
  { intros C. specialize (IA (or_intror C)). destruct (v_hend (view_of tr)) as [[]|]; [discriminate|tauto]. }
  rewrite ST in S. unfold final_status in S. destruct (errno_of o) as [e|] eqn:EO; [|discriminate].
  destruct (parse_error e) eqn:PE; [exfalso; destruct e; cbn in PE; try discriminate; congruence|].
  split.
  - intros ND. destruct (C21_final_status _ _ _ _ _ _ _ _ _ _ _ _ _ _ _ H ND HR) as ((C21&_)&_).
    apply CM. apply C21. rewrite ST. unfold final_status. rewrite EO, PE. exact S.
  - split; [|intros X; apply O1; auto]. intros X. split.
    + exists e. split; [|auto]. rewrite TR. apply ended_app. pose proof (rrun_end _ _ _ _ _ _ _ _ _ _ RR) as RE.
      destruct o; cbn in EO; try discriminate; injection EO as <-; auto.
    + split; [|apply O2; auto]. destruct (v_msg (view_of tr)) eqn:EM; [discriminate|auto|]. exfalso. apply CM; auto.
Qed.
Example C30_case : exists r' w' tr, demo_receives resp_ok (resp0 200 0) 200 HTTPSuccess r' w' tr /\ no_parse_body (resp0 200 0) = false /\ r_hdone r' = 1.
Proof. do 3 eexists. split; [demo|]. split; vm_compute; reflexivity. Qed.
Print Assumptions C30_success_means_headers_refuted.
Print Assumptions C30_success_means_headers_partial.

(** ** C32 *)
Definition resp_long : list bytes := [line (B "HTTP/1.1 200 OK") ++ line (B "Content-Length: 4294967301") ++ [13; 10] ++ B "hello"].
Theorem C32_content_length_refuted :
  ~ (forall fuel cfg E P t r rh buf L req w st r' w' tr,
       recv_setup cfg E P t r rh buf L req w -> receives fuel cfg E P t r rh w st r' w' tr -> v_hend (view_of tr) <> None ->
       r_clen r' = v_clen (view_of tr)).
Proof.
  intros H.
  assert (X : exists st r' w' tr, demo_receives resp_long (resp0 200 0) 200 st r' w' tr /\ v_hend (view_of tr) = Some (26, 47) /\
     r_clen r' = 5 /\ v_clen (view_of tr) = 4294967301).
  { do 4 eexists. split; [demo|]. conj; vm_compute; reflexivity. }
  destruct X as (st&r'&w'&tr&X1&X2&X3&X4).
  specialize (H 20%nat cfg0 (env_of resp_long) refparser trr (resp0 200 0) h1 rbuf 200 req1 (wr 200) st r' w' tr
    (proj1 (setup0 resp_long 200 0 ltac:(lia) ltac:(lia))) X1). rewrite X2, X3, X4 in H. specialize (H ltac:(discriminate)). lia.
Qed.
(** The status code and the flags are always right, contentLength unless size_t is too narrow for it (or it is
    UINT64_MAX, which the library takes for absent). *)
Theorem C32_metadata_partial : forall fuel cfg E P t r rh buf L req w st r' w' tr,
  recv_setup cfg E P t r rh buf L req w -> receives fuel cfg E P t r rh w st r' w' tr -> v_hend (view_of tr) <> None ->
  let v := view_of tr in
  r_status r' = v_code v /\ r_flags r' = conn_flags (v_close v) (v_ka v) /\ r_hdone r' = 1 /\
  (v_clen v < SZ cfg -> v_clen v < UINT64_MAX -> 0 <= v_clen v -> r_clen r' = v_clen v) /\
  (v_clen v = UINT64_MAX -> r_clen r' = 0).
Proof.
  intros fuel cfg E P t r rh buf L req w st r' w' tr H HR HE v.
  assert (A : answered st tr).
  { destruct (receives_inv _ _ _ _ _ _ _ _ _ _ _ _ _ _ _ H HR) as (trl&o&s'&ph&G&TR&RR&NM&ST&HW&F1&I&F2&F3&F4).
    right. pose proof (rrun_received _ _ _ _ _ _ _ _ _ _ RR) as RL. cbn [view0 v_stream] in RL. change (zlen (@nil Z)) with 0 in RL.
    assert (RT : received tr = received trl) by (rewrite TR; apply received_tick).
    pose proof (i_hend _ _ _ _ _ _ _ _ I) as IH. pose proof (i_pos _ _ _ _ _ _ _ _ I) as IP. destruct (v_hend (view_of tr)) as [[]|]; [lia|congruence]. }
  destruct (outputs _ _ _ _ _ _ _ _ _ _ _ _ _ _ _ H HR A) as ((O1&_&O2&_)&_&O3&_). destruct (O3 HE) as (O4&O5).
  fold v in O1, O2, O5. split; [auto|]. split; [auto|]. split; [auto|]. rewrite O5. unfold clen_of. split.
  - intros X1 X2 X3. destruct (Z.eqb_spec (v_clen v) UINT64_MAX); [lia|]. apply Z.mod_small. lia.
  - intros ->. reflexivity.
Qed.
Example C32_case : exists r' w' tr, demo_receives [line (B "HTTP/1.1 404 Not Found") ++ line (B "Content-Length: 3") ++ line (B "Connection: close") ++ [13; 10] ++ B "abc"] (resp_old 200 0) 200 HTTPSuccess r' w' tr /\
  r_status r' = 404 /\ r_clen r' = 3 /\ r_flags r' = 1.
Proof. do 3 eexists. split; [demo|]. conj; vm_compute; reflexivity. Qed.
Print Assumptions C32_content_length_refuted.
Print Assumptions C32_metadata_partial.

(** ** C33 *)
Theorem C33_error_stops : forall fuel cfg E P t r rh buf L req w st r' w' tr,
  recv_setup cfg E P t r rh buf L req w -> receives fuel cfg E P t r rh w st r' w' tr ->
  forall tr1 e tr2 x, tr = tr1 ++ TParsed e :: tr2 -> parse_error e = Some x ->
    tr2 = [] /\ st = x /\ st <> HTTPSuccess.
Proof.
  intros fuel cfg E P t r rh buf L req w st r' w' tr H HR tr1 e tr2 x X PE.
  destruct (receives_inv _ _ _ _ _ _ _ _ _ _ _ _ _ _ _ H HR) as (trl&o&s'&ph&G&TR&RR&NM&ST&_).
  rewrite TR in X. destruct (skip notparsed _ (tick_notparsed _ _) _ _ _ _ (isparsed _) X) as (tr3&->&Y).
  destruct (rrun_errors _ _ _ _ _ _ _ _ _ _ RR _ _ _ Y) as [(->&EO)|(GO&_)].
  - split; [auto|]. rewrite ST. unfold final_status. rewrite EO, PE. split; [auto|].
    destruct e; cbn in PE; try discriminate; injection PE as <-; discriminate.
  - destruct (goes_on_ok _ GO). congruence.
Qed.
(** The table of statuses, error by error. *)
Theorem C33_status_table : forall e,
  processLlhttpError e = match parse_error e with Some x => x | None => match e with HPE_PAUSED => HTTPParserPaused | _ => HTTPSuccess end end.
Proof. destruct e; reflexivity. Qed.
Example C33_case : exists r' w' tr, demo_receives [line (B "HTTP/1.1 200 OK") ++ B "Bad Header"; line (B ": x")] (resp0 200 0) 200 HTTPSecurityAlertInvalidCharacter r' w' tr /\
  In (TParsed HPE_INVALID_HEADER_TOKEN) tr /\ recvs tr = 1.
Proof. do 3 eexists. split; [demo|]. split; [vm_compute; tauto|vm_compute; reflexivity]. Qed.
Print Assumptions C33_error_stops.
Print Assumptions C33_status_table.

(** ** C40 *)
(** HTTPClient_ReceiveAndParseHttpResponse calls getTime without checking it for NULL. *)
Theorem C40_null_clock_refuted :
  ~ (forall fuel cfg E P t r rh buf L req w,
       recv_setup cfg E P t (set_r_time r TZero) rh buf L req w -> r_time r = TNull ->
       (exists st r' w', ReceiveAndParseHttpResponse fuel cfg E P (Some t) (Some r) (Some rh) w = Ret (st, Some r', w')) \/
       (exists w', ReceiveAndParseHttpResponse fuel cfg E P (Some t) (Some r) (Some rh) w = More w')).
Proof.
  intros H. pose (r := set_r_time (resp0 200 0) TNull).
  assert (X : ReceiveAndParseHttpResponse 20 cfg0 (env_of resp_ok) refparser (Some trr) (Some r) (Some h1) (wr 200) = Ub UbNull) by (vm_compute; reflexivity).
  specialize (H 20%nat cfg0 (env_of resp_ok) refparser trr r h1 rbuf 200 req1 (wr 200)).
  assert (S : recv_setup cfg0 (env_of resp_ok) refparser trr (set_r_time r TZero) h1 rbuf 200 req1 (wr 200)).
  { destruct (setup0 resp_ok 200 0 ltac:(lia) ltac:(lia)) as ((S1&S2&S3&S4&S5)&_). unfold recv_setup. split; [auto|]. split; [auto|]. split; [auto|]. split; [discriminate|]. exact S5. }
  rewrite X in H. destruct (H S eq_refl) as [(?&?&?&?)|(?&?)]; discriminate.
Qed.
Print Assumptions C40_null_clock_refuted.
(** HTTPClient_Send does support it: it replaces NULL by a clock that stands still. *)
Theorem C40_send_null_clock_partial : forall fuel cfg E P t prh body bodyLen r flags w,
  r_time r = TNull -> r_buf r <> None -> r_bufLen r <> 0 ->
  (forall a, Send fuel cfg E P t prh body bodyLen (Some r) flags w = Ret a ->
     (fst (fst (fst a)) = HTTPInvalidParameter /\ snd a = w) \/
     Send fuel cfg E P t prh body bodyLen (Some (set_r_time r TZero)) flags w = Ret a) /\
  (forall k, Send fuel cfg E P t prh body bodyLen (Some r) flags w = Ub k ->
     Send fuel cfg E P t prh body bodyLen (Some (set_r_time r TZero)) flags w = Ub k).
Proof.
  intros fuel cfg E P t prh body bodyLen r flags w TN NB NL.
  assert (EQ : (exists p q, Send fuel cfg E P t prh body bodyLen (Some r) flags w = Ret (HTTPInvalidParameter, p, q, w)) \/
     Send fuel cfg E P t prh body bodyLen (Some r) flags w = Send fuel cfg E P t prh body bodyLen (Some (set_r_time r TZero)) flags w).
  { unfold Send. destruct t as [t|]; [|left; eauto]. destruct (negb (t_send t)); [left; eauto|]. destruct (negb (t_recv t)); [left; eauto|].
    destruct prh as [rh|]; [|left; eauto]. destruct (match rh_buf rh with None => true | _ => false end); [left; eauto|].
    destruct (rh_len rh <? _); [left; eauto|]. destruct (rh_bufLen rh <? rh_len rh); [left; eauto|].
    cbn [set_r_time r_buf r_bufLen r_time]. destruct (match r_buf r with None => true | _ => false end); [left; eauto|].
    destruct (r_bufLen r =? 0); [left; eauto|]. destruct (match body with None => 0 <? bodyLen | _ => false end); [left; eauto|].
    destruct (INT32_MAX mod SZ cfg <? bodyLen); [left; eauto|]. right. rewrite TN. cbn [set_r_time r_buf r_bufLen r_time]. reflexivity. }
  destruct EQ as [(p&q&EQ)|EQ]; rewrite EQ; split; intros; auto; [left; injection H as <-; auto|discriminate].
Qed.
Print Assumptions C40_send_null_clock_partial.

(** ** C41 *)
Definition resp_two : list bytes := [line (B "HTTP/1.1 200 OK") ++ line (B "Content-Length: 0") ++ [13; 10] ++ line (B "HTTP/1.1 500 Error") ++ line (B "Content-Length: 0") ++ [13; 10]].
(** The status code reported with the first end of headers. *)
Fixpoint first_code (tr : list tev) (code : Z) : Z :=
  match tr with
  | [] => code
  | TEvent (EvStatus _ _ c) :: tr' | TEvent (EvStatusComplete c) :: tr' => first_code tr' c
  | TEvent (EvHeadersComplete _ _ _ _) :: _ => code
  | _ :: tr' => first_code tr' code
  end.
Theorem C41_first_message_refuted :
  ~ (forall fuel cfg E P t r rh buf L req w st r' w' tr,
       recv_setup cfg E P t r rh buf L req w -> receives fuel cfg E P t r rh w st r' w' tr -> st = HTTPSuccess ->
       r_status r' = first_code tr 0).
Proof.
  intros H.
  assert (X : exists st r' w' tr, demo_receives resp_two (resp0 200 0) 200 st r' w' tr /\ st = HTTPSuccess /\ r_status r' = 500 /\ first_code tr 0 = 200).
  { do 4 eexists. split; [demo|]. conj; vm_compute; reflexivity. }
  destruct X as (st&r'&w'&tr&X1&X2&X3&X4).
  specialize (H 20%nat cfg0 (env_of resp_two) refparser trr (resp0 200 0) h1 rbuf 200 req1 (wr 200) st r' w' tr
    (proj1 (setup0 resp_two 200 0 ltac:(lia) ltac:(lia))) X1 X2). lia.
Qed.
(** What holds: no data are read, and the parser is not called again, after a call of it that ended with the message
    complete; so a second message is only ever seen if it begins in the same read as the end of the first. *)
Theorem C41_stops_after_message_partial : forall fuel cfg E P t r rh buf L req w st r' w' tr,
  recv_setup cfg E P t r rh buf L req w -> receives fuel cfg E P t r rh w st r' w' tr ->
  forall tr1 e tr2, tr = tr1 ++ TParsed e :: tr2 -> v_msg (view_of tr1) = MsgComplete -> tr2 = [].
Proof.
  intros fuel cfg E P t r rh buf L req w st r' w' tr H HR tr1 e tr2 X M.
  destruct (receives_inv _ _ _ _ _ _ _ _ _ _ _ _ _ _ _ H HR) as (trl&o&s'&ph&G&TR&RR&NM&ST&_).
  rewrite TR in X. destruct (skip notparsed _ (tick_notparsed _ _) _ _ _ _ (isparsed _) X) as (tr3&->&Y).
  rewrite view_of_tick in M.
  destruct (rrun_errors _ _ _ _ _ _ _ _ _ _ RR _ _ _ Y) as [(->&EO)|(GO&N)]; [auto|]. exfalso. exact (N M).
Qed.
Print Assumptions C41_first_message_refuted.
Print Assumptions C41_stops_after_message_partial.

(** ** C42 *)
Theorem C42_no_response_means_no_data_refuted :
  ~ (forall fuel cfg E P t r rh buf L req w st r' w' tr,
       recv_setup cfg E P t r rh buf L req w -> receives fuel cfg E P t r rh w st r' w' tr -> st = HTTPNoResponse -> received tr = 0).
Proof.
  intros H.
  assert (X : exists st r' w' tr, demo_receives [[13; 10]] (resp0 200 0) 200 st r' w' tr /\ st = HTTPNoResponse /\ received tr = 2).
  { do 4 eexists. split; [demo|]. conj; vm_compute; reflexivity. }
  destruct X as (st&r'&w'&tr&X1&X2&X3).
  specialize (H 20%nat cfg0 (env_of [[13; 10]]) refparser trr (resp0 200 0) h1 rbuf 200 req1 (wr 200) st r' w' tr
    (proj1 (setup0 [[13; 10]] 200 0 ltac:(lia) ltac:(lia))) X1 X2). lia.
Qed.
Lemma msg_mono A : forall v, v_msg (fold_left view_step A v) = MsgNone -> v_msg v = MsgNone /\ ~ In (TEvent EvMessageBegin) A /\ ~ In (TEvent EvMessageComplete) A.
Proof.
  induction A as [|x A IH]; intros v V; [auto|]. cbn [fold_left] in V. destruct (IH _ V) as (V1&N1&N2).
  assert (F : v_msg (finish v) = v_msg v) by (unfold finish; destruct (v_name v), (v_value v); auto).
  destruct x; cbn [view_step] in V1; try (split; [exact V1|]; split; intros [X|X]; [discriminate|auto|discriminate|auto]).
  destruct ev; cbn [view_event v_msg] in V1; rewrite ?F in V1; try discriminate; split; auto; split; intros [X|X]; auto; discriminate.
Qed.
(** What holds: the parser recognised no message in the data, if there were any. *)
Theorem C42_no_response_partial : forall fuel cfg E P t r rh buf L req w st r' w' tr,
  recv_setup cfg E P t r rh buf L req w -> receives fuel cfg E P t r rh w st r' w' tr -> st = HTTPNoResponse ->
  no_error tr /\ ~ In (TEvent EvMessageBegin) tr /\ ~ In (TEvent EvMessageComplete) tr.
Proof.
  intros fuel cfg E P t r rh buf L req w st r' w' tr H HR S.
  destruct (receives_inv _ _ _ _ _ _ _ _ _ _ _ _ _ _ _ H HR) as (trl&o&s'&ph&G&TR&RR&NM&ST&HW&F1&I&F2&F3&F4).
  rewrite ST in S. unfold final_status in S. destruct (errno_of o) as [e|] eqn:EO; [|discriminate].
  destruct (parse_error e) eqn:PE; [exfalso; destruct e; cbn in PE; try discriminate; congruence|].
  destruct (v_msg (view_of tr)) eqn:EM; [|destruct (dnp _); [discriminate|destruct (_ =? _); discriminate]|discriminate].
  destruct (msg_mono tr view0 EM) as (_&N1&N2).
  split; [|auto].
  exists e. split; [|auto]. rewrite TR. apply ended_app. pose proof (rrun_end _ _ _ _ _ _ _ _ _ _ RR) as RE.
  destruct o; cbn in EO; try discriminate; injection EO as <-; auto.
Qed.
Print Assumptions C42_no_response_means_no_data_refuted.
Print Assumptions C42_no_response_partial.

(** ** C44 *)
Theorem C44_receive_terminates : forall fuel cfg E P t r rh buf L req w,
  recv_setup cfg E P t r rh buf L req w -> config_ok cfg -> r_time r = TUser -> advancing E (RECV_TO cfg) ->
  L * (RECV_TO cfg + 1) + RECV_TO cfg + 1 < Z.of_nat fuel ->
  exists st r' w' tr, receives fuel cfg E P t r rh w st r' w' tr /\ recvs tr <= L * (RECV_TO cfg + 1) + RECV_TO cfg + 1.
Proof.
  intros fuel cfg E P t r rh buf L req w H CO TU AD FU.
  destruct (Receive_run fuel _ _ _ _ _ _ _ _ _ _ H) as (tr&o&v'&RR&HO).
  assert (BD : recvs tr <= L * (RECV_TO cfg + 1) + RECV_TO cfg + 1).
  { pose proof RR as R2. rewrite TU in R2. cbn [recv_timeout clk clk_next] in R2.
    destruct CO as (_&_&_&_&_&CO). destruct H as (_&_&_&_&_&_&_&LL&_).
    pose proof (rrun_count E (RECV_TO cfg) _ (w_nt w) _ _ _ _ _ _ _ CO AD (eq_trans eq_refl TU : k_tf (kof r buf L req (w_mem w)) = TUser) R2 eq_refl ltac:(lia)) as X.
    replace (S (w_nt w) - 1)%nat with (w_nt w) in X by lia.
    specialize (X ltac:(left; lia)). cbn [view0 v_stream kof k_L] in X. change (zlen (@nil Z)) with 0 in X. specialize (X ltac:(lia)). lia. }
  assert (BD2 : recvs (tick (r_time r) (clk E (r_time r) (w_nt w)) ++ tr) <= L * (RECV_TO cfg + 1) + RECV_TO cfg + 1) by (rewrite recvs_app, recvs_tick; lia).
  destruct o; [destruct HO as (w'&_&_&X&_); lia| | |]; destruct HO as (r'&s'&X1&X2&_); do 3 eexists; eexists; (split; [split; [exact X1|exact X2]|exact BD2]).
Qed.
Theorem C44_receive_terminates_without_clock : forall fuel cfg E P t r rh buf L req w,
  recv_setup cfg E P t r rh buf L req w -> r_time r = TZero -> L + 1 < Z.of_nat fuel ->
  exists st r' w' tr, receives fuel cfg E P t r rh w st r' w' tr /\ recvs tr <= L + 1.
Proof.
  intros fuel cfg E P t r rh buf L req w H TU FU.
  destruct (Receive_run fuel _ _ _ _ _ _ _ _ _ _ H) as (tr&o&v'&RR&HO).
  assert (BD : recvs tr <= L + 1).
  { pose proof RR as R2. rewrite TU in R2. cbn [recv_timeout clk clk_next] in R2. destruct H as (_&_&_&_&_&_&_&LL&_).
    pose proof (rrun_count_zero E _ _ _ _ _ _ _ _ (eq_trans eq_refl TU : k_tf (kof r buf L req (w_mem w)) = TZero) eq_refl R2) as X.
    cbn [view0 v_stream kof k_L] in X. change (zlen (@nil Z)) with 0 in X. specialize (X ltac:(lia)). lia. }
  assert (BD2 : recvs (tick (r_time r) (clk E (r_time r) (w_nt w)) ++ tr) <= L + 1) by (rewrite recvs_app, recvs_tick; lia).
  destruct o; [destruct HO as (w'&_&_&X&_); lia| | |]; destruct HO as (r'&s'&X1&X2&_); do 3 eexists; eexists; (split; [split; [exact X1|exact X2]|exact BD2]).
Qed.
Example C44_case : advancing (env_of resp_ok) (RECV_TO cfg0) /\ config_ok cfg0 /\ r_time (resp0 200 0) = TUser.
Proof. split; [|split; [apply cfg0_ok|reflexivity]]. unfold advancing. cbn [env_of e_time cfg0 RECV_TO]. intros. lia. Qed.
Print Assumptions C44_receive_terminates.
Print Assumptions C44_receive_terminates_without_clock.

(** ** C45 *)
Definition resp_trailer : list bytes :=
  [line (B "HTTP/1.1 200 OK") ++ line (B "Transfer-Encoding: chunked") ++ [13; 10] ++ line (B "1") ++ line (B "x") ++ line (B "0") ++ line (B "T1: a") ++ line (B "T2: b") ++ [13; 10]].
(** All headers and trailers the parser reported completely. *)
Definition all_headers (tr : list tev) : list (bytes * bytes * Z) := v_headers (finish (view_of tr)).
Theorem C45_trailers_refuted :
  ~ (forall fuel cfg E P t r rh buf L req w st r' w' tr,
       recv_setup cfg E P t r rh buf L req w -> receives fuel cfg E P t r rh w st r' w' tr -> r_cb r = true -> v_adj (view_of tr) = true ->
       st = HTTPSuccess -> delivered tr = all_headers tr).
Proof.
  intros H.
  assert (X : exists st r' w' tr, demo_receives resp_trailer (resp0 200 0) 200 st r' w' tr /\ st = HTTPSuccess /\ v_adj (view_of tr) = true /\
     delivered tr = [(B "Transfer-Encoding", B "chunked", 200); (B "T1", B "a", 200)] /\
     all_headers tr = [(B "Transfer-Encoding", B "chunked", 200); (B "T1", B "a", 200); (B "T2", B "b", 200)]).
  { do 4 eexists. split; [demo|]. conj; vm_compute; reflexivity. }
  destruct X as (st&r'&w'&tr&X1&X2&X3&X4&X5).
  specialize (H 20%nat cfg0 (env_of resp_trailer) refparser trr (resp0 200 0) h1 rbuf 200 req1 (wr 200) st r' w' tr
    (proj1 (setup0 resp_trailer 200 0 ltac:(lia) ltac:(lia))) X1 eq_refl X3 X2). rewrite X4, X5 in H. discriminate.
Qed.
(** What holds: everything but the last trailer is delivered; without trailers nothing is missing. *)
Theorem C45_trailers_partial : forall fuel cfg E P t r rh buf L req w st r' w' tr,
  recv_setup cfg E P t r rh buf L req w -> receives fuel cfg E P t r rh w st r' w' tr -> r_cb r = true -> v_adj (view_of tr) = true ->
  (exists pending, all_headers tr = delivered tr ++ pending /\ zlen pending <= 1) /\
  (v_name (view_of tr) = None -> delivered tr = all_headers tr).
Proof.
  intros fuel cfg E P t r rh buf L req w st r' w' tr H HR CB AD.
  destruct (C25_lengths_partial _ _ _ _ _ _ _ _ _ _ _ _ _ _ _ H HR CB) as (_&D). rewrite (D AD). unfold all_headers, finish.
  destruct (v_name (view_of tr)), (v_value (view_of tr)); cbn [v_headers]; (split; [|intros X; congruence || reflexivity]);
    try (exists []; rewrite app_nil_r; split; [reflexivity|vm_compute; discriminate]).
  eexists. split; [reflexivity|]. vm_compute. discriminate.
Qed.
Print Assumptions C45_trailers_refuted.
Print Assumptions C45_trailers_partial.

(** ** C31 *)
Definition same_outputs (r r' : response) : Prop :=
  r_headers r = r_headers r' /\ r_headersLen r = r_headersLen r' /\ r_body r = r_body r' /\ r_bodyLen r = r_bodyLen r' /\
  r_status r = r_status r' /\ r_hcount r = r_hcount r' /\ r_flags r = r_flags r'.
Theorem C31_independent_of_old_content_refuted :
  ~ (forall fuel cfg E P t r1 r2 rh buf L req w st1 r1' w1 tr1 st2 r2' w2 tr2,
       recv_setup cfg E P t r1 rh buf L req w -> recv_setup cfg E P t r2 rh buf L req w -> same_inputs r1 r2 ->
       receives fuel cfg E P t r1 rh w st1 r1' w1 tr1 -> receives fuel cfg E P t r2 rh w st2 r2' w2 tr2 -> 0 < received tr1 ->
       r_hdone r1' = r_hdone r2' /\ r_clen r1' = r_clen r2').
Proof.
  intros H.
  assert (X : exists st r' w' tr, demo_receives resp_cut (resp0 200 0) 200 st r' w' tr /\ st = HTTPPartialResponse /\ r_hdone r' = 0 /\ received tr = 23).
  { do 4 eexists. split; [demo|]. conj; vm_compute; reflexivity. }
  assert (Y : exists st r' w' tr, demo_receives resp_cut (resp_old 200 0) 200 st r' w' tr /\ st = HTTPPartialResponse /\ r_hdone r' = 1 /\ r_clen r' = 77).
  { do 4 eexists. split; [demo|]. conj; vm_compute; reflexivity. }
  destruct X as (st1&r1&w1&tr1&X1&X2&X3&X4). destruct Y as (st2&r2&w2&tr2&Y1&Y2&Y3&Y4).
  specialize (H 20%nat cfg0 (env_of resp_cut) refparser trr (resp0 200 0) (resp_old 200 0) h1 rbuf 200 req1 (wr 200) st1 r1 w1 tr1 st2 r2 w2 tr2).
  destruct (setup0 resp_cut 200 0 ltac:(lia) ltac:(lia)) as (S1&S2).
  assert (SI : same_inputs (resp0 200 0) (resp_old 200 0)) by (unfold same_inputs; conj; reflexivity).
  destruct (H S1 S2 SI X1 Y1 ltac:(lia)) as (Z&_). lia.
Qed.
(** The call takes the same course whatever the structure held before: the same status, memory, transport and clock calls,
    parser calls and header callbacks; if the parser was called, all output fields agree, except that areHeadersComplete and
    contentLength keep their old values if the headers were not complete.  *)
Theorem C31_independent_of_old_content_partial : forall fuel cfg E P t r1 r2 rh buf L req w st r1' w' tr,
  recv_setup cfg E P t r1 rh buf L req w -> same_inputs r1 r2 -> receives fuel cfg E P t r1 rh w st r1' w' tr ->
  exists r2', receives fuel cfg E P t r2 rh w st r2' w' tr /\
    (answered st tr -> same_outputs r1' r2') /\
    (v_hend (view_of tr) <> None -> r1' = r2').
Proof.
  intros fuel cfg E P t r1 r2 rh buf L req w st r1' w' tr H S (HR&HT).
  assert (LL : 0 < r_bufLen r1) by (destruct H as (_&_&_&_&_&->&_&LL&_); lia).
  destruct (receive_two fuel cfg E P t r1 r2 rh w st r1' w' S LL HR) as (r2'&HR2&D).
  assert (H2 : recv_setup cfg E P t r2 rh buf L req w).
  { destruct S as (S1&S2&S3&S4&S5). destruct H as (A1&A2&A3&A4&A5&A6&A7). unfold recv_setup. rewrite S1, S2, S4. auto 8. }
  pose proof (conj HR HT : receives fuel cfg E P t r1 rh w st r1' w' tr) as R1.
  pose proof (conj HR2 HT : receives fuel cfg E P t r2 rh w st r2' w' tr) as R2.
  exists r2'. split; [auto|].
  destruct D as [(x&y&D)|(D1&D2&D3&a&D4&D5)].
  - split; [intros _; rewrite D; repeat split|].
      intros HE.
      assert (A : answered st tr).
      { right. destruct (receives_inv _ _ _ _ _ _ _ _ _ _ _ _ _ _ _ H R1) as (trl&o&s'&ph&G&TR&RR&NM&ST&HW&F1&I&F2&F3&F4).
        pose proof (rrun_received _ _ _ _ _ _ _ _ _ _ RR) as RL. cbn [view0 v_stream] in RL. change (zlen (@nil Z)) with 0 in RL.
        assert (RT : received tr = received trl) by (rewrite TR; apply received_tick).
        pose proof (i_hend _ _ _ _ _ _ _ _ I) as IH. pose proof (i_pos _ _ _ _ _ _ _ _ I) as IP. destruct (v_hend (view_of tr)) as [[]|]; [lia|congruence]. }
      destruct (outputs _ _ _ _ _ _ _ _ _ _ _ _ _ _ _ H R1 A) as (_&_&O1&_). destruct (O1 HE) as (P1&P2).
      destruct (outputs _ _ _ _ _ _ _ _ _ _ _ _ _ _ _ H2 R2 A) as (_&_&Q1&_). destruct (Q1 HE) as (P3&P4).
      rewrite D in P3, P4 |- *. cbn in P3, P4. subst x y. rewrite <- P1, <- P2. destruct r1'; reflexivity.
  - rewrite HT in D4. apply app_inv_head in D4. subst a.
    assert (NA : ~ answered st tr) by (unfold answered; intros [A|A]; [congruence|lia]).
    split; [contradiction|].
    intros HE. exfalso.
    destruct (receives_inv _ _ _ _ _ _ _ _ _ _ _ _ _ _ _ H R1) as (trl&o&s'&ph&G&TR&RR&NM&ST&HW&F1&I&F2&F3&F4).
    pose proof (rrun_received _ _ _ _ _ _ _ _ _ _ RR) as RL. cbn [view0 v_stream] in RL. change (zlen (@nil Z)) with 0 in RL.
    assert (RT : received tr = received trl) by (rewrite TR; apply received_tick).
    pose proof (i_hend _ _ _ _ _ _ _ _ I) as IH. pose proof (i_pos _ _ _ _ _ _ _ _ I) as IP. destruct (v_hend (view_of tr)) as [[]|]; [lia|congruence].
Qed.
Example C31_case : exists r' w' tr, demo_receives resp_ok (resp_old 200 0) 200 HTTPSuccess r' w' tr /\ demo_receives resp_ok (resp0 200 0) 200 HTTPSuccess r' w' tr.
Proof. do 3 eexists. split; [demo|]. split; [vm_compute; reflexivity|reflexivity]. Qed.
Print Assumptions C31_independent_of_old_content_refuted.
Print Assumptions C31_independent_of_old_content_partial.
