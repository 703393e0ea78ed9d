(** PropsResponse.v — the receiving properties (C19-C33, C40-C42, C44, C45). *)
From Verif Require Import Base Lib ModelRequest ModelSend ModelResponse SpecRequest SpecSend SpecResponse ProofsRequest
  ProofsSend ProofsSend2 ProofsResponse ProofsResponse2 ProofsResponse3 ProofsResponse4 ProofsResponse5 RefParser Demo DemoResponse.

(** The concrete receptions used below: the pieces [ps] into [r] with a buffer of [L] bytes. *)
Definition demo (ps : list bytes) (r : response) (L : nat) : res (status * option response * world) :=
  ReceiveAndParseHttpResponse 20 cfg0 (env_of ps) refparser (Some trr) (Some r) (Some h1) (wr L).
Definition demo_receives ps r L st r' w' tr := receives 20 cfg0 (env_of ps) refparser trr r h1 (wr L) st r' w' tr.
Ltac conj := repeat match goal with |- _ /\ _ => split end.
Ltac demo := split; [vm_compute; reflexivity|reflexivity].

Ltac iffs := repeat split; intros; repeat match goal with H : _ /\ _ |- _ => destruct H end; try congruence; try lia; try tauto.

(** ** C19 *)
Theorem C19_receive_stays_in_buffer : forall fuel cfg E P t r rh buf L req w,
  recv_setup cfg E P t r rh buf L req w ->
  exists o w' tr, wout (ReceiveAndParseHttpResponse fuel cfg E P (Some t) (Some r) (Some rh) w) = Some (o, w') /\
    w_tr w' = w_tr w ++ tr /\ offers_tail buf L tr /\ same_outside (w_mem w) (w_mem w') buf L.
Proof.
  intros fuel cfg E P t r rh buf L req w H.
  destruct (receive_outcome fuel _ _ _ _ _ _ _ _ _ _ H) as (o&w'&tr&oc&E1&E2&E3&RR&_).
  exists o, w', (tick (r_time r) (clk E (r_time r) (w_nt w)) ++ tr). split; [auto|]. split; [auto|]. split; [|auto].
  destruct H as (_&RC&_&_&_&_&_&LL&_).
  intros tr1 p room n d tr2 X.
  destruct (skip norecv _ (tick_norecv _ _) _ _ _ _ (isrecv _ _ _ _) X) as (tr3&->&Y).
  rewrite received_tick.
  assert (LT : zlen (v_stream view0) < k_L (kof r buf L req (w_mem w))) by (change (0 < L); lia).
  exact (rrun_offers _ _ _ _ _ _ _ _ _ _ RC LT RR _ _ _ _ _ _ Y).
Qed.
Print Assumptions C19_receive_stays_in_buffer.

(** The parser is given exactly the received data, in order: nothing is lost, repeated or altered on the way. *)
Theorem C19_parser_reads_what_was_received : forall fuel cfg E P t r rh buf L req w st r' w' tr,
  recv_setup cfg E P t r rh buf L req w -> recv_faithful E -> receives fuel cfg E P t r rh w st r' w' tr ->
  v_stream (view_of tr) = data_received tr /\ zlen (data_received tr) = received tr /\ received tr <= L.
Proof.
  intros fuel cfg E P t r rh buf L req w st r' w' tr H F HR.
  destruct (receives_inv _ _ _ _ _ _ _ _ _ _ _ _ _ _ _ H HR) as (trl&o&s'&ph&G&->&RR&NM&ST&HW&F1&I&F2&F3&F4).
  pose proof (rrun_data _ _ _ _ _ _ _ _ _ _ F RR) as X. pose proof (rrun_received _ _ _ _ _ _ _ _ _ _ RR) as Y.
  cbn [view0 v_stream app] in X, Y. change (zlen (@nil Z)) with 0 in Y.
  rewrite data_received_tick, received_tick. rewrite X in *. split; [auto|]. split; [lia|].
  pose proof (i_pos _ _ _ _ _ _ _ _ I) as IP. rewrite X in IP. change (k_L (kof r buf L req (w_mem w))) with L in IP. lia.
Qed.
Example C19_case : exists r' w' tr, demo_receives resp_ok (resp0 200 0) 200 HTTPSuccess r' w' tr /\ recvs tr = 4 /\
  data_received tr = concat resp_ok.
Proof. do 3 eexists. split; [demo|]. split; vm_compute; reflexivity. Qed.
Print Assumptions C19_parser_reads_what_was_received.

(** ** C20 *)
Theorem C20_receive_is_safe : forall fuel cfg E P t r rh buf L req w,
  recv_setup cfg E P t r rh buf L req w ->
  (exists st r' w', ReceiveAndParseHttpResponse fuel cfg E P (Some t) (Some r) (Some rh) w = Ret (st, Some r', w')) \/
  (exists w', ReceiveAndParseHttpResponse fuel cfg E P (Some t) (Some r) (Some rh) w = More w').
Proof.
  intros fuel cfg E P t r rh buf L req w H.
  destruct (receive_outcome fuel _ _ _ _ _ _ _ _ _ _ H) as (o&w'&tr&oc&E1&E2&E3&RR&E5&E6&E7).
  destruct (ReceiveAndParseHttpResponse _ _ _ _ _ _ _ _) as [[x wx]| | |wx]; cbn [wout] in E1; try discriminate; [left|right; eauto].
  injection E1 as <- <-. destruct (E7 _ eq_refl) as (r'&->). eauto.
Qed.
Print Assumptions C20_receive_is_safe.
(** What the application's header callback is given lies in the response buffer. *)
Theorem C20_headers_in_buffer : forall fuel cfg E P t r rh buf L req w st r' w' tr,
  recv_setup cfg E P t r rh buf L req w -> receives fuel cfg E P t r rh w st r' w' tr ->
  forall f fl x xl fb xb c, In (THeader f fl x xl fb xb c) tr -> inside buf L f fl /\ inside buf L x xl.
Proof.
  intros fuel cfg E P t r rh buf L req w st r' w' tr H HR f fl x xl fb xb c HI.
  destruct (receives_inv _ _ _ _ _ _ _ _ _ _ _ _ _ _ _ H HR) as (trl&o&s'&ph&G&->&RR&_).
  apply in_app_or in HI. destruct HI as [HI|HI]; [destruct (r_time r); cbn in HI; try contradiction; destruct HI as [HI|[]]; discriminate|].
  destruct (rrun_hdr _ _ _ _ _ _ _ _ _ _ RR _ _ _ _ _ _ _ HI) as ((a&A1&A2&A3)&A4&(b&B1&B2&B3)&B4).
  pose proof (zlen_nonneg fb). pose proof (zlen_nonneg xb).
  split; [exists a|exists b]; repeat split; auto; lia.
Qed.
Example C20_case : recv_setup cfg0 (env_of resp_ok) refparser trr (resp0 200 0) h1 rbuf 200 req1 (wr 200).
Proof. exact (proj1 (setup0 resp_ok 200 0 ltac:(lia) ltac:(lia))). Qed.
Print Assumptions C20_headers_in_buffer.

(** ** C21 *)
Theorem C21_final_status : forall fuel cfg E P t r rh buf L req w st r' w' tr,
  recv_setup cfg E P t r rh buf L req w -> no_parse_body r = false -> receives fuel cfg E P t r rh w st r' w' tr ->
  (st = HTTPSuccess <-> no_error tr /\ v_msg (view_of tr) = MsgComplete) /\
  (st = HTTPNoResponse <-> no_error tr /\ v_msg (view_of tr) = MsgNone) /\
  (st = HTTPInsufficientMemory <-> no_error tr /\ v_msg (view_of tr) = MsgBegun /\ received tr = L) /\
  (st = HTTPPartialResponse <-> no_error tr /\ v_msg (view_of tr) = MsgBegun /\ received tr < L) /\
  (st = HTTPNetworkError <-> recv_failed tr).
Proof.
  intros fuel cfg E P t r rh buf L req w st r' w' tr H ND HR.
  destruct (receives_inv _ _ _ _ _ _ _ _ _ _ _ _ _ _ _ H HR) as (trl&o&s'&ph&G&TR&RR&NM&ST&HW&F1&I&F2&F3&F4).
  pose proof (rrun_received _ _ _ _ _ _ _ _ _ _ RR) as RL. cbn [view0 v_stream] in RL. change (zlen (@nil Z)) with 0 in RL.
  rewrite <- (received_tick (r_time r) (clk E (r_time r) (w_nt w))), <- TR, Z.add_0_l in RL.
  pose proof (i_pos _ _ _ _ _ _ _ _ I) as IP. change (k_L (kof r buf L req (w_mem w))) with L in IP.
  assert (DN : dnp (kof r buf L req (w_mem w)) = false) by (unfold dnp, kof; cbn [k_opt]; rewrite dnp_bit; exact ND).
  pose proof (rrun_end _ _ _ _ _ _ _ _ _ _ RR) as RE.
  assert (NEE : forall e, errno_of o = Some e -> ended_with tr e).
  { intros e X. rewrite TR. apply ended_app. destruct o; cbn in X; try discriminate; injection X as <-; auto. }
  assert (NF : forall e, errno_of o = Some e -> ~ recv_failed tr) by (intros e X; eapply ended_not_failed; eauto).
  assert (NO : forall e, errno_of o = Some e -> no_error tr <-> parse_error e = None).
  { intros e X. split; [|intros Y; exists e; auto]. intros (e'&Y1&Y2). rewrite (ended_fun _ _ _ (NEE e X) Y1). auto. }
  rewrite ST. unfold final_status. destruct (errno_of o) as [e|] eqn:EO.
  - specialize (NO e eq_refl). specialize (NF e eq_refl). rewrite NO. rewrite DN, RL. change (k_L (kof r buf L req (w_mem w))) with L.
    destruct (parse_error e) as [x|] eqn:PE.
    + assert (X : x <> HTTPSuccess /\ x <> HTTPNoResponse /\ x <> HTTPInsufficientMemory /\ x <> HTTPPartialResponse /\ x <> HTTPNetworkError)
        by (destruct e; cbn in PE; try discriminate; injection PE as <-; repeat split; discriminate).
      destruct X as (X1&X2&X3&X4&X5). iffs.
    + destruct (v_msg (view_of tr)); [| |].
      * iffs.
      * destruct (Z.eqb_spec (received tr) L); iffs.
      * iffs.
  - assert (RF : recv_failed tr) by (rewrite TR; apply failed_app; destruct o; cbn in EO; try discriminate; [congruence|auto]).
    assert (NN : ~ no_error tr) by (intros (e&Y&_); exact (ended_not_failed _ _ Y RF)).
    iffs.
Qed.
Example C21_cases :
  (exists r' w' tr, demo_receives resp_ok (resp0 200 0) 200 HTTPSuccess r' w' tr) /\
  (exists r' w' tr, demo_receives resp_ok (resp0 40 0) 40 HTTPInsufficientMemory r' w' tr) /\
  (exists r' w' tr, demo_receives (firstn 3 resp_ok) (resp0 200 0) 200 HTTPPartialResponse r' w' tr) /\
  (exists r' w' tr, demo_receives [] (resp0 200 0) 200 HTTPNoResponse r' w' tr).
Proof. repeat split; do 3 eexists; demo. Qed.
Print Assumptions C21_final_status.

(** ** C22 *)
Theorem C22_gives_up_exactly_on_stall : forall fuel cfg E P t r rh buf L req w,
  recv_setup cfg E P t r rh buf L req w -> r_time r = TUser ->
  exists o w' t0 tr, wout (ReceiveAndParseHttpResponse fuel cfg E P (Some t) (Some r) (Some rh) w) = Some (o, w') /\
    w_tr w' = w_tr w ++ TTime t0 :: tr /\
    forall tr1 p room d tr2, tr = tr1 ++ TRecv p room 0 d :: tr2 ->
      exists now tr3, tr2 = TTime now :: tr3 /\
        (RECV_TO cfg <= elapsed now (data_time t0 tr1) -> o <> None /\ exists e, parser_call [] e tr3) /\
        (elapsed now (data_time t0 tr1) < RECV_TO cfg ->
           (tr3 = [] /\ o = None) \/ (exists p' room' n' d' tr4, tr3 = TRecv p' room' n' d' :: tr4)).
Proof.
  intros fuel cfg E P t r rh buf L req w H TU.
  destruct (receive_outcome fuel _ _ _ _ _ _ _ _ _ _ H) as (o&w'&tr&oc&E1&E2&E3&RR&E5&E6&E7).
  rewrite TU in *. exists o, w', (clk E TUser (w_nt w)), tr. split; [auto|]. split; [exact E2|].
  intros tr1 p room d tr2 X.
  destruct (rrun_stall _ _ _ _ _ _ _ _ _ _ (eq_trans eq_refl TU : k_tf (kof r buf L req (w_mem w)) = TUser) RR _ _ _ _ _ X) as (now&tr3&Y1&Y2&Y3).
  exists now, tr3. split; [auto|]. split.
  - intros Y. destruct (Y2 Y) as (e&Z1&Z2). split; [|eauto]. rewrite E5. intros ->. discriminate.
  - intros Y. destruct (Y3 Y) as [(Z1&Z2)|Z]; [left; split; [auto|apply E5; auto]|right; auto].
Qed.
Theorem C22_no_clock_no_retry : forall fuel cfg E P t r rh buf L req w,
  recv_setup cfg E P t r rh buf L req w -> r_time r = TZero ->
  exists o w' tr, wout (ReceiveAndParseHttpResponse fuel cfg E P (Some t) (Some r) (Some rh) w) = Some (o, w') /\
    w_tr w' = w_tr w ++ tr /\
    forall tr1 p room d tr2, tr = tr1 ++ TRecv p room 0 d :: tr2 -> o <> None /\ exists e, parser_call [] e tr2.
Proof.
  intros fuel cfg E P t r rh buf L req w H TU.
  destruct (receive_outcome fuel _ _ _ _ _ _ _ _ _ _ H) as (o&w'&tr&oc&E1&E2&E3&RR&E5&E6&E7).
  rewrite TU in *. exists o, w', tr. split; [auto|]. split; [exact E2|].
  intros tr1 p room d tr2 X.
  destruct (rrun_stall_zero _ _ _ _ _ _ _ _ _ (eq_trans eq_refl TU : k_tf (kof r buf L req (w_mem w)) = TZero) eq_refl RR _ _ _ _ _ X) as (e&Y1&Y2).
  split; [|eauto]. rewrite E5. intros ->. discriminate.
Qed.
(** A zero-length call to the parser is made only after an empty recv, and ends the call. *)
Theorem C22_parser_calls : forall fuel cfg E P t r rh buf L req w st r' w' tr,
  recv_setup cfg E P t r rh buf L req w -> receives fuel cfg E P t r rh w st r' w' tr ->
  forall tr1 p b tr2, tr = tr1 ++ TParse p b :: tr2 ->
    exists tr0 room n d tk, tr1 = tr0 ++ TRecv p room n d :: tk /\ (tk = [] \/ exists now, tk = [TTime now]) /\
      zlen b = n /\ (zlen d = n -> b = d) /\ (n = 0 -> recvs tr2 = 0).
Proof.
  intros fuel cfg E P t r rh buf L req w st r' w' tr H HR tr1 p b tr2 X.
  destruct (receives_inv _ _ _ _ _ _ _ _ _ _ _ _ _ _ _ H HR) as (trl&o&s'&ph&G&TR&RR&_).
  rewrite TR in X.
  destruct (skip notquiet _ (tick_notquiet _ _) _ _ _ _ (fun f => f (I : quiet (TParse p b))) X) as (tr3&->&Y).
  destruct (rrun_block _ _ _ _ _ _ _ _ _ _ RR tr3 (TParse p b) tr2 I Y) as (A&q&room&n&d&t1&B1&B2&C&b1&e&->&->&(evs&Z1&Z&_)&Z2&Z3&Z4&_).
  destruct B1 as [|y B1].
  - injection Z as -> -> ->. exists (tick (r_time r) (clk E (r_time r) (w_nt w)) ++ A), room, n, d, (tick (r_time r) t1).
    rewrite app_nil_r. split; [rewrite <- app_assoc; reflexivity|]. split; [destruct (r_time r); cbn [tick]; eauto|].
    split; [auto|]. split; [auto|]. intros N0. rewrite (Z4 N0), app_nil_r. rewrite recvs_app, (events_recvs _ _ Z1). reflexivity.
  - exfalso. injection Z as -> Z. assert (HI : In (TParse p b) (evs ++ [TParsed e])) by (rewrite <- Z; apply in_or_app; right; left; auto).
    apply in_app_or in HI. destruct HI as [HI|[HI|[]]]; [|discriminate].
    pose proof (events_inner _ _ Z1) as FI. rewrite Forall_forall in FI. exact (FI _ HI).
Qed.
Example C22_case : exists r' w' tr, demo_receives [B "HTTP/1.1 2"; []; B "00"; []; []; []; []] (resp0 200 0) 200 HTTPPartialResponse r' w' tr /\
  recvs tr = 6 /\ r_status r' = 0.
Proof. do 3 eexists. split; [demo|]. split; vm_compute; reflexivity. Qed.
Print Assumptions C22_gives_up_exactly_on_stall.
Print Assumptions C22_no_clock_no_retry.
Print Assumptions C22_parser_calls.

(** ** C23 *)
(** The documentation of HTTP_RECV_RETRY_TIMEOUT_MS (core_http_config_defaults.h) says HTTPNetworkError is returned. *)
Theorem C23_timeout_is_network_error_refuted :
  ~ (forall fuel cfg E P t r rh buf L req w st r' w' tr,
       recv_setup cfg E P t r rh buf L req w -> receives fuel cfg E P t r rh w st r' w' tr ->
       last_recv tr 0 -> st = HTTPNetworkError).
Proof.
  intros H.
  assert (X : exists st r' w' tr, demo_receives [B "HTTP/1.1 200 O"] (resp0 200 0) 200 st r' w' tr /\ last_recv tr 0 /\ st = HTTPPartialResponse).
  { do 4 eexists. split; [demo|]. split; [|reflexivity].
    match goal with |- last_recv ?tr 0 => let t := eval vm_compute in tr in change (last_recv t 0) end.
    match goal with |- last_recv ?t 0 => 
      let rec f l acc := lazymatch l with
        | ?x :: ?l' => lazymatch l' with context [TRecv] => f l' constr:(x :: acc) | _ => lazymatch x with TRecv ?p ?room ?n ?d => exists (rev acc), p, room, d, l' end end end in f t (@nil tev) end.
    split; reflexivity. }
  destruct X as (st&r'&w'&tr&X1&X2&X3).
  specialize (H _ _ _ _ _ _ _ _ _ _ _ _ _ _ _ (proj1 (setup0 [B "HTTP/1.1 200 O"] 200 0 ltac:(lia) ltac:(lia))) X1 X2). congruence.
Qed.
Theorem C23_timeout_never_network_error_partial : forall fuel cfg E P t r rh buf L req w st r' w' tr,
  recv_setup cfg E P t r rh buf L req w -> receives fuel cfg E P t r rh w st r' w' tr ->
  last_recv tr 0 -> st <> HTTPNetworkError.
Proof.
  intros fuel cfg E P t r rh buf L req w st r' w' tr H HR (tr1&p&room&d&tr2&X&N) ES.
  destruct (receives_inv _ _ _ _ _ _ _ _ _ _ _ _ _ _ _ H HR) as (trl&o&s'&ph&G&TR&RR&NM&ST&_).
  rewrite ST in ES. apply final_status_net in ES; auto. subst o.
  pose proof (rrun_end _ _ _ _ _ _ _ _ _ _ RR) as RE. apply (failed_app (tick (r_time r) (clk E (r_time r) (w_nt w)))) in RE.
  rewrite <- TR in RE. destruct RE as (tr3&p3&room3&n3&d3&Y&LT). rewrite X in Y.
  destruct (exists_last (l := TRecv p room 0 d :: tr2) ltac:(discriminate)) as (t2&y&Z). rewrite Z, app_assoc in Y.
  apply app_inj_tail in Y. destruct Y as (_&->). destruct t2 as [|z t2]; injection Z as Z1 Z2.
  - lia.
  - rewrite Z2, recvs_app in N. cbn [recvs] in N. assert (R : forall a, 0 <= recvs a) by (induction a as [|[] a IH]; cbn [recvs]; lia).
    specialize (R t2). lia.
Qed.
Print Assumptions C23_timeout_is_network_error_refuted.
Print Assumptions C23_timeout_never_network_error_partial.

(** What the output fields are, whatever the structure held before. *)
Lemma outputs fuel cfg E P t r rh buf L req w st r' w' tr :
  recv_setup cfg E P t r rh buf L req w -> receives fuel cfg E P t r rh w st r' w' tr -> answered st tr ->
  describes buf (view_of tr) r' /\ same_inputs r r' /\
  (v_hend (view_of tr) <> None -> r_hdone r' = 1 /\ r_clen r' = clen_of cfg (v_clen (view_of tr))) /\
  (v_hend (view_of tr) = None -> r_hdone r' = r_hdone r /\ r_clen r' = r_clen r).
Proof.
  intros H HR A.
  destruct (receives_inv _ _ _ _ _ _ _ _ _ _ _ _ _ _ _ H HR) as (trl&o&s'&ph&G&TR&RR&NM&ST&HW&F1&I&F2&F3&F4).
  pose proof (answered_resp _ _ _ _ _ _ _ _ _ _ _ _ _ _ _ RR NM TR ST A F1) as CR. rewrite (reset_true _ CR) in I.
  assert (X : exists p n, r' = set_r_body (s_resp s') p n \/ r' = s_resp s').
  { assert (D : paused o \/ ~ paused o) by (unfold paused; destruct o as [| |e|e]; try (right; intros [X|X]; discriminate); destruct e; auto; right; intros [X|X]; discriminate).
    destruct D as [D|D]; [destruct (F3 D) as (_&_&hl&_&->); eauto|destruct (F2 D) as (_&->); exists None, 0; auto]. }
  assert (Y : r_status r' = r_status (s_resp s') /\ r_hcount r' = r_hcount (s_resp s') /\ r_flags r' = r_flags (s_resp s') /\
     r_headers r' = r_headers (s_resp s') /\ r_headersLen r' = r_headersLen (s_resp s') /\ r_buf r' = r_buf (s_resp s') /\ r_bufLen r' = r_bufLen (s_resp s') /\
     r_cb r' = r_cb (s_resp s') /\ r_time r' = r_time (s_resp s') /\ r_opt r' = r_opt (s_resp s') /\ r_hdone r' = r_hdone (s_resp s') /\ r_clen r' = r_clen (s_resp s')).
  { destruct X as (p&n&[-> | ->]); cbn; repeat split. }
  destruct Y as (Y1&Y2&Y3&Y4&Y5&Y6&Y7&Y8&Y9&Y10&Y11&Y12).
  destruct H as (_&_&_&_&HB&HL&_).
  unfold describes, same_inputs. rewrite Y1, Y2, Y3, Y4, Y5, Y6, Y7, Y8, Y9, Y10, Y11, Y12, HB, HL. destruct I as [I _]; destruct I. cbn in *.
  split; [split; [auto|]; split; [auto|]; split; [auto|]; split; [auto|]; destruct (v_hend (view_of tr)) as [[hl p]|]; tauto|].
  split; [auto|]. destruct (v_hend (view_of tr)) as [[hl p]|]; split; intros Z; try congruence; tauto.
Qed.

(** ** C24 *)
Theorem C24_headers_delivered : forall fuel cfg E P t r rh buf L req w st r' w' tr,
  recv_setup cfg E P t r rh buf L req w -> receives fuel cfg E P t r rh w st r' w' tr ->
  r_cb r = true -> v_adj (view_of tr) = true -> answered st tr ->
  delivered tr = v_headers (view_of tr) /\ r_hcount r' = zlen (v_headers (view_of tr)).
Proof.
  intros fuel cfg E P t r rh buf L req w st r' w' tr H HR CB AD A.
  destruct (outputs _ _ _ _ _ _ _ _ _ _ _ _ _ _ _ H HR A) as ((_&X&_)&_). split; [|auto].
  destruct (receives_inv _ _ _ _ _ _ _ _ _ _ _ _ _ _ _ H HR) as (trl&o&s'&ph&G&TR&RR&NM&ST&HW&F1&I&_).
  pose proof (i_D _ _ _ _ _ _ _ _ I) as D. cbn [kof k_cb] in D. rewrite CB in D. apply D. auto.
Qed.
Example C24_case : exists r' w' tr, demo_receives resp_ok (resp0 200 0) 200 HTTPSuccess r' w' tr /\
  delivered tr = [(B "Content-Length", B "5", 200); (B "A", B "b", 200)] /\ v_adj (view_of tr) = true /\ r_hcount r' = 2.
Proof. do 3 eexists. split; [demo|]. conj; vm_compute; reflexivity. Qed.
Print Assumptions C24_headers_delivered.

(** ** C25 *)
Definition resp_fold : list bytes := [line (B "HTTP/1.1 200 OK") ++ line (B "A: x") ++ line (B "  y") ++ line (B "Content-Length: 0") ++ [13; 10]].
Theorem C25_pieces_delivered_refuted :
  ~ (forall fuel cfg E P t r rh buf L req w st r' w' tr,
       recv_setup cfg E P t r rh buf L req w -> receives fuel cfg E P t r rh w st r' w' tr -> r_cb r = true -> answered st tr ->
       delivered tr = v_headers (view_of tr)).
Proof.
  intros H.
  assert (X : exists st r' w' tr, demo_receives resp_fold (resp0 200 0) 200 st r' w' tr /\ st = HTTPSuccess /\
    hd_error (delivered tr) = Some (B "A", B "x" ++ [13; 10] ++ B " ", 200) /\ hd_error (v_headers (view_of tr)) = Some (B "A", B "x  y", 200)).
  { do 4 eexists. split; [demo|]. conj; vm_compute; reflexivity. }
  destruct X as (st&r'&w'&tr&X1&X2&X3&X4).
  assert (A : answered st tr) by (left; rewrite X2; discriminate).
  specialize (H 20%nat cfg0 (env_of resp_fold) refparser trr (resp0 200 0) h1 rbuf 200 req1 (wr 200) st r' w' tr).
  specialize (H (proj1 (setup0 resp_fold 200 0 ltac:(lia) ltac:(lia))) X1 eq_refl A).
  rewrite H, X4 in X3. discriminate.
Qed.
(** In general only the number of headers, their lengths and the status code are right. *)
Theorem C25_lengths_partial : forall fuel cfg E P t r rh buf L req w st r' w' tr,
  recv_setup cfg E P t r rh buf L req w -> receives fuel cfg E P t r rh w st r' w' tr -> r_cb r = true ->
  map sizes (delivered tr) = map sizes (v_headers (view_of tr)) /\
  (v_adj (view_of tr) = true -> delivered tr = v_headers (view_of tr)).
Proof.
  intros fuel cfg E P t r rh buf L req w st r' w' tr H HR CB.
  destruct (receives_inv _ _ _ _ _ _ _ _ _ _ _ _ _ _ _ H HR) as (trl&o&s'&ph&G&TR&RR&NM&ST&HW&F1&I&_).
  pose proof (i_D _ _ _ _ _ _ _ _ I) as D. cbn [kof k_cb] in D. rewrite CB in D. exact D.
Qed.
Print Assumptions C25_pieces_delivered_refuted.
Print Assumptions C25_lengths_partial.

(** ** C26 *)
Definition resp_h1 : list bytes := [line (B "HTTP/1.1 200 OK") ++ line (B "Content-Length: 0") ++ [13; 10]].
Definition resp_h2 : list bytes := [line (B "HTTP/1.1 200 OK") ++ line (B "Content-Length: 0") ++ [13]; [10]].
Theorem C26_headersLen_independent_of_fragmentation_refuted :
  ~ (forall fuel cfg E1 E2 P t r rh buf L req w st1 r1 w1 tr1 st2 r2 w2 tr2,
       recv_setup cfg E1 P t r rh buf L req w -> recv_setup cfg E2 P t r rh buf L req w -> recv_faithful E1 -> recv_faithful E2 ->
       receives fuel cfg E1 P t r rh w st1 r1 w1 tr1 -> receives fuel cfg E2 P t r rh w st2 r2 w2 tr2 ->
       st1 = HTTPSuccess -> st2 = HTTPSuccess -> data_received tr1 = data_received tr2 ->
       r_headersLen r1 = r_headersLen r2).
Proof.
  intros H.
  assert (X : exists st r' w' tr, demo_receives resp_h1 (resp0 200 0) 200 st r' w' tr /\ st = HTTPSuccess /\ data_received tr = concat resp_h1 /\ r_headersLen r' = 17).
  { do 4 eexists. split; [demo|]. conj; vm_compute; reflexivity. }
  assert (Y : exists st r' w' tr, demo_receives resp_h2 (resp0 200 0) 200 st r' w' tr /\ st = HTTPSuccess /\ data_received tr = concat resp_h1 /\ r_headersLen r' = 20).
  { do 4 eexists. split; [demo|]. conj; vm_compute; reflexivity. }
  destruct X as (st1&r1&w1&tr1&X1&X2&X3&X4). destruct Y as (st2&r2&w2&tr2&Y1&Y2&Y3&Y4).
  specialize (H 20%nat cfg0 (env_of resp_h1) (env_of resp_h2) refparser trr (resp0 200 0) h1 rbuf 200 req1 (wr 200) st1 r1 w1 tr1 st2 r2 w2 tr2).
  specialize (H (proj1 (setup0 resp_h1 200 0 ltac:(lia) ltac:(lia))) (proj1 (setup0 resp_h2 200 0 ltac:(lia) ltac:(lia)))
    (env_of_faithful _) (env_of_faithful _) X1 Y1 X2 Y2 (eq_trans X3 (eq_sym Y3))). lia.
Qed.
(** What pHeaders and headersLen are; the header block they describe lies before the end of the received data. *)
Theorem C26_headers_location_partial : forall fuel cfg E P t r rh buf L req w st r' w' tr,
  recv_setup cfg E P t r rh buf L req w -> receives fuel cfg E P t r rh w st r' w' tr -> answered st tr ->
  let v := view_of tr in
  r_headers r' = option_map (poff buf) (v_hstart v) /\
  r_headersLen r' = match v_hend v with Some (hl, _) => hl | None => 0 end /\
  forall h, v_hstart v = Some h -> 0 <= h /\ 0 <= r_headersLen r' /\ h + r_headersLen r' <= received tr.
Proof.
  intros fuel cfg E P t r rh buf L req w st r' w' tr H HR A v.
  destruct (outputs _ _ _ _ _ _ _ _ _ _ _ _ _ _ _ H HR A) as ((_&_&_&X1&X2)&_). split; [auto|]. split; [auto|].
  intros h Hh. rewrite X2.
  destruct (receives_inv _ _ _ _ _ _ _ _ _ _ _ _ _ _ _ H HR) as (trl&o&s'&ph&G&TR&RR&NM&ST&HW&F1&I&_).
  pose proof (rrun_received _ _ _ _ _ _ _ _ _ _ RR) as RL. cbn [view0 v_stream] in RL. change (zlen (@nil Z)) with 0 in RL.
  assert (RT : received tr = received trl) by (rewrite TR; apply received_tick). rewrite RT. fold v. pose proof (i_hs2 _ _ _ _ _ _ _ _ I h Hh) as (Y1&_).
  pose proof (i_hend _ _ _ _ _ _ _ _ I) as IH. pose proof (i_pos _ _ _ _ _ _ _ _ I) as IP. pose proof (i_C _ _ _ _ _ _ _ _ I) as IC. fold v in RL, IH, IP, IC.
  destruct (v_hend v) as [[hl p]|]; [rewrite Hh in IH|]; lia.
Qed.
Example C26_case : exists r' w' tr, demo_receives resp_ok (resp0 200 0) 200 HTTPSuccess r' w' tr /\
  r_headers r' = Some (poff rbuf 17) /\ r_headersLen r' = 23 /\ bytes_at (w_mem w') (poff rbuf 17) 23 = line (B "Content-Length: 5") ++ B "A: b".
Proof. do 3 eexists. split; [demo|]. conj; vm_compute; reflexivity. Qed.
Print Assumptions C26_headersLen_independent_of_fragmentation_refuted.
Print Assumptions C26_headers_location_partial.

(** ** C27 *)
Theorem C27_body : forall fuel cfg E P t r rh buf L req w st r' w' tr,
  recv_setup cfg E P t r rh buf L req w -> receives fuel cfg E P t r rh w st r' w' tr -> answered st tr -> no_parse_body r = false ->
  let v := view_of tr in
  match v_bstart v with
  | None => r_body r' = None /\ r_bodyLen r' = 0 /\ v_body v = [] /\
            bytes_at (w_mem w') buf (received tr) = v_stream v
  | Some bo => r_body r' = Some (poff buf bo) /\ r_bodyLen r' = zlen (v_body v) /\
            bytes_at (w_mem w') (poff buf bo) (zlen (v_body v)) = v_body v /\
            0 <= bo /\ bo + zlen (v_body v) <= received tr /\
            bytes_at (w_mem w') buf bo = slice (v_stream v) 0 bo /\
            exists p, v_h1 v = Some p /\ p <= bo
  end.
Proof.
  intros fuel cfg E P t r rh buf L req w st r' w' tr H HR A ND v.
  destruct (receives_inv _ _ _ _ _ _ _ _ _ _ _ _ _ _ _ H HR) as (trl&o&s'&ph&G&TR&RR&NM&ST&HW&F1&I&F2&F3&F4).
  pose proof (answered_resp _ _ _ _ _ _ _ _ _ _ _ _ _ _ _ RR NM TR ST A F1) as CR. rewrite (reset_true _ CR) in I.
  pose proof (rrun_received _ _ _ _ _ _ _ _ _ _ RR) as RL. cbn [view0 v_stream] in RL. change (zlen (@nil Z)) with 0 in RL.
  assert (RT : received tr = received trl) by (rewrite TR; apply received_tick). rewrite RT. fold v in RL, I, F2, F3.
  assert (NP : ~ paused o). { intros X. destruct (F3 X) as (D&_). unfold dnp, kof in D. cbn [k_opt] in D. rewrite dnp_bit in D. unfold no_parse_body in ND. congruence. }
  destruct (F2 NP) as (-> & ->). rewrite HW.
  pose proof (i_body _ _ _ _ _ _ _ _ I) as IB. pose proof (i_low _ _ _ _ _ _ _ _ I) as IL. cbn [kof k_buf] in *. destruct (v_bstart v) as [bo|].
  - destruct IB as (B1&B2&B3&B4&B5&B6). do 3 (split; [auto|]). split; [auto|]. split; [lia|]. split; [apply IL; auto|auto].
  - destruct IB as (B1&B2&B3). do 3 (split; [auto|]). rewrite Z.add_0_l in RL. rewrite <- RL.
    rewrite (IL _ eq_refl). apply slice_full. auto.
Qed.
Example C27_case : exists r' w' tr, demo_receives resp_chunked (resp0 200 0) 200 HTTPSuccess r' w' tr /\
  r_body r' = Some (poff rbuf 50) /\ r_bodyLen r' = 7 /\ bytes_at (w_mem w') (poff rbuf 50) 7 = B "abcdefg" /\ v_body (view_of tr) = B "abcdefg".
Proof. do 3 eexists. split; [demo|]. conj; vm_compute; reflexivity. Qed.
Print Assumptions C27_body.
