(** PropsSend.v — the sending properties (C11-C18, C46). *)
From Verif Require Import Base Lib ModelRequest ModelSend ModelResponse SpecRequest SpecSend ProofsRequest ProofsDecimal
  ProofsRequest2 ProofsHistory ProofsSend ProofsSend2 Demo.

(** A transport that takes 5 bytes per call, nothing on every third call, and a clock in 10 ms steps. *)
Definition env5 : env :=
  mkenv (fun n k => if Nat.eqb (Nat.modulo n 3) 2 then 0 else Z.min 5 k) (fun _ _ => (0, [])) (fun n => 10 * Z.of_nat n).
Lemma env5_ok : send_contract env5.
Proof. intros n k H. cbn [env5 e_send]. destruct (Nat.eqb _ _); lia. Qed.
Definition w1 : world := mkw m1 0 0 0 [].
Definition tr1 : transport := mktransport true true.

(** ** C14 *)
Theorem C14_sent_exactly_once_in_order : forall fuel cfg E tf t p len w,
  send_contract E -> tf <> TNull -> t_send t = true -> object (w_mem w) p len ->
  exists o w' tr, wout (SendHttpData fuel cfg E (Some t) tf (Some p) len w) = Some (o, w') /\
    w_mem w' = w_mem w /\ w_tr w' = w_tr w ++ tr /\ send_only tr /\
    let data := bytes_at (w_mem w) p len in
    offers_rest data tr /\ prefix (accepted tr) data /\
    (o = Some HTTPSuccess -> accepted tr = data) /\
    (o = Some HTTPNetworkError -> zlen (accepted tr) < zlen data) /\
    (o = None \/ o = Some HTTPSuccess \/ o = Some HTTPNetworkError).
Proof.
  intros fuel cfg E tf t p len w SC TN Ht O.
  destruct (SendHttpData_run fuel cfg E tf t p len w SC TN Ht O) as (o&w'&t0&tr&E1&E2&E3&_&_&R).
  exists o, w', (tick tf t0 ++ tr). do 3 (split; [auto|]).
  destruct (srun_facts _ _ _ _ _ _ R) as (F1&F2&F3&F4&F5). split; auto. cbv zeta.
  split; auto. pose proof (srun_offers _ _ _ _ _ _ R) as SO.
  destruct tf; cbn [tick app]; auto.
  intros [|x a] d r b Eq; [discriminate|]. injection Eq as <- Eq. cbn [accepted]. eapply SO; eauto.
Qed.
Example C14_case : exists w',
  SendHttpData 100 cfg0 env5 (Some tr1) TUser (Some buf0) (zlen req1) w1 = Ret (HTTPSuccess, w') /\
  accepted (w_tr w') = req1 /\ sends (w_tr w') = 8.
Proof. eexists. split; [vm_compute; reflexivity|]. split; vm_compute; reflexivity. Qed.
Print Assumptions C14_sent_exactly_once_in_order.

(** ** C15 *)
Theorem C15_gives_up_iff_failed_or_stalled : forall fuel cfg E t p len w,
  send_contract E -> t_send t = true -> object (w_mem w) p len ->
  exists o w' t0 tr, wout (SendHttpData fuel cfg E (Some t) TUser (Some p) len w) = Some (o, w') /\
    w_tr w' = w_tr w ++ TTime t0 :: tr /\
    (o = Some HTTPNetworkError <-> send_failed tr \/ send_stalled (SEND_TO cfg) t0 tr) /\
    patient (SEND_TO cfg) t0 tr.
Proof.
  intros fuel cfg E t p len w SC Ht O.
  destruct (SendHttpData_run fuel cfg E TUser t p len w SC ltac:(discriminate) Ht O) as (o&w'&t0&tr&E1&E2&E3&_&_&R).
  exists o, w', t0, tr. split; auto. split; auto. apply (srun_user _ _ _ _ _ R).
Qed.
Print Assumptions C15_gives_up_iff_failed_or_stalled.

Theorem C15_no_clock : forall fuel cfg E t p len w,
  send_contract E -> t_send t = true -> object (w_mem w) p len ->
  exists o w' tr, wout (SendHttpData fuel cfg E (Some t) TZero (Some p) len w) = Some (o, w') /\
    w_tr w' = w_tr w ++ tr /\
    (o = Some HTTPNetworkError <-> last_send_nonpos tr) /\ early_sends_pos tr.
Proof.
  intros fuel cfg E t p len w SC Ht O.
  destruct (SendHttpData_run fuel cfg E TZero t p len w SC ltac:(discriminate) Ht O) as (o&w'&t0&tr&E1&E2&E3&_&_&R).
  exists o, w', tr. split; auto. split; auto. apply (srun_zero _ _ _ _ R).
Qed.
Print Assumptions C15_no_clock.

(** The elapsed time is right across the wrap-around of the 32-bit clock. *)
Theorem C15_elapsed_across_wraparound : forall now past,
  0 <= now - past < 2 ^ 32 -> elapsed (u32 now) (u32 past) = now - past.
Proof.
  intros now past H. rewrite elapsed_u32, u32_diff. apply u32_small. exact H.
Qed.
Print Assumptions C15_elapsed_across_wraparound.

(** A transport that accepts 3 bytes and then nothing; the clock wraps around. *)
Definition env_stall : env :=
  mkenv (fun n k => if Nat.eqb n 0 then Z.min 3 k else 0) (fun _ _ => (0, [])) (fun n => 4294967000 + 400 * Z.of_nat n).
Example C15_case : exists w',
  SendHttpData 100 cfg0 env_stall (Some tr1) TUser (Some buf0) (zlen req1) w1 = Ret (HTTPNetworkError, w') /\
  accepted (w_tr w') = B "GET" /\ sends (w_tr w') = 4 /\
  exists t0 tr, w_tr w' = TTime t0 :: tr /\ send_stalled (SEND_TO cfg0) t0 tr.
Proof.
  eexists. split; [vm_compute; reflexivity|]. do 2 (split; [vm_compute; reflexivity|]).
  do 2 eexists. split; [vm_compute; reflexivity|].
  eexists [_; _; _; _; _; _], _, _. split; [reflexivity|]. vm_compute. discriminate.
Qed.

(** ** C16 *)
Theorem C16_send_terminates : forall fuel cfg E t p len w,
  send_contract E -> t_send t = true -> object (w_mem w) p len ->
  0 <= SEND_TO cfg < 2 ^ 32 -> advancing E (SEND_TO cfg) ->
  let bound := len * (SEND_TO cfg + 1) + SEND_TO cfg + 1 in
  bound <= Z.of_nat fuel ->
  exists st w' tr, SendHttpData fuel cfg E (Some t) TUser (Some p) len w = Ret (st, w') /\
    w_tr w' = w_tr w ++ tr /\ sends tr <= bound.
Proof.
  intros fuel cfg E t p len w SC Ht O HT AD bound Hf.
  unfold SendHttpData. rewrite Ht. cbn [assert_at bind get_time].
  set (w2 := mkw _ _ _ _ _). set (t0 := u32 _).
  assert (O2 : object (w_mem w2) p len) by exact O.
  assert (Bp : 0 <= bound) by (destruct O as (?&_); unfold bound; nia).
  destruct (send_loop (Z.to_nat bound) E TUser (SEND_TO cfg) p len t0 w2) as [[st w']| | |wm] eqn:EQ.
  - rewrite (send_loop_fuel _ _ _ _ _ _ _ _ _ EQ fuel) by lia.
    destruct (send_loop_count E TUser (SEND_TO cfg) ltac:(discriminate) _ _ _ _ _ _ _ EQ) as (tr&E1&E2).
    exists st, w', (TTime t0 :: tr). split; auto. split.
    + rewrite E1. unfold w2. cbn [w_tr]. rewrite <- app_assoc. reflexivity.
    + cbn [sends]. lia.
  - destruct (send_loop_run E TUser (SEND_TO cfg) SC ltac:(discriminate) (Z.to_nat bound) p len t0 w2 O2) as (?&?&?&X&_).
    rewrite EQ in X. discriminate.
  - destruct (send_loop_run E TUser (SEND_TO cfg) SC ltac:(discriminate) (Z.to_nat bound) p len t0 w2 O2) as (?&?&?&X&_).
    rewrite EQ in X. discriminate.
  - exfalso. eapply (send_loop_terminates E (SEND_TO cfg) SC HT AD); [exact O2| | |exact EQ].
    + unfold w2. cbn [w_nt]. lia.
    + unfold w2. cbn [w_nt]. replace (S (w_nt w) - 1)%nat with (w_nt w) by lia.
      rewrite Z.sub_diag. unfold bound in *. lia.
Qed.
Print Assumptions C16_send_terminates.
Example C16_case : send_contract env5 /\ advancing env5 (SEND_TO cfg0) /\ object (w_mem w1) buf0 (zlen req1).
Proof.
  split; [exact env5_ok|]. split; [intros n; cbn [env5 e_time cfg0 SEND_TO]; change (2 ^ 32) with 4294967296; lia|].
  vm_compute. repeat split; discriminate.
Qed.

Theorem C16_send_terminates_no_clock : forall fuel cfg E t p len w,
  send_contract E -> t_send t = true -> object (w_mem w) p len ->
  len + 1 <= Z.of_nat fuel ->
  exists st w' tr, SendHttpData fuel cfg E (Some t) TZero (Some p) len w = Ret (st, w') /\
    w_tr w' = w_tr w ++ tr /\ sends tr <= len + 1.
Proof.
  intros fuel cfg E t p len w SC Ht O Hf.
  unfold SendHttpData. rewrite Ht. cbn [assert_at bind get_time].
  assert (Bp : 0 <= len) by (destruct O as (?&_); lia).
  destruct (send_loop (Z.to_nat (len + 1)) E TZero 0 p len 0 w) as [[st w']| | |wm] eqn:EQ.
  - rewrite (send_loop_fuel _ _ _ _ _ _ _ _ _ EQ fuel) by lia.
    destruct (send_loop_count E TZero 0 ltac:(discriminate) _ _ _ _ _ _ _ EQ) as (tr&E1&E2).
    exists st, w', tr. split; auto. split; auto. lia.
  - destruct (send_loop_run E TZero 0 SC ltac:(discriminate) (Z.to_nat (len + 1)) p len 0 w O) as (?&?&?&X&_).
    rewrite EQ in X. discriminate.
  - destruct (send_loop_run E TZero 0 SC ltac:(discriminate) (Z.to_nat (len + 1)) p len 0 w O) as (?&?&?&X&_).
    rewrite EQ in X. discriminate.
  - exfalso. eapply (send_loop_terminates_zero E SC); [exact O| |exact EQ]. lia.
Qed.
Print Assumptions C16_send_terminates_no_clock.

(** ** C11 *)
Theorem C11_content_length_on_the_wire : forall fuel cfg E tf t h buf n req len flags w,
  send_contract E -> tf <> TNull -> t_send t = true -> holds (w_mem w) h buf n req ->
  0 <= len <= INT32_MAX -> n + 30 < SZ cfg ->
  exists block, wire_headers flags len req block /\
    (n < zlen block ->
       SendHttpHeaders fuel cfg E (Some t) tf (Some h) len flags w = Ret (HTTPInsufficientMemory, Some h, w)) /\
    (zlen block <= n ->
       exists o w' tr, wout (SendHttpHeaders fuel cfg E (Some t) tf (Some h) len flags w) = Some (o, w') /\
         w_tr w' = w_tr w ++ tr /\ send_only tr /\ prefix (accepted tr) block /\
         same_outside (w_mem w) (w_mem w') buf n /\
         (forall st oh, o = Some (st, oh) ->
            (exists h', oh = Some h' /\ holds (w_mem w') h' buf n block) /\
            (st = HTTPSuccess /\ accepted tr = block \/ st = HTTPNetworkError /\ zlen (accepted tr) < zlen block))).
Proof.
  intros fuel cfg E tf t h buf n req len flags w SC TN Ht H Hl W.
  destruct (SendHttpHeaders_run fuel cfg E tf t h buf n req len flags w SC TN Ht H Hl W)
    as (block&h1&m1&WH&[(C&EQ)|(C&Hh&S&Sq&o&w'&t0&tr&E1&Em&Etr&Enr&_&R)]);
  exists block; (split; [exact WH|]).
  - split; [auto|lia].
  - split; [lia|]. intros _. destruct (srun_facts _ _ _ _ _ _ R) as (F1&F2&F3&F4&F5).
    exists (match o with Some st => Some (st, Some h1) | None => None end), w', (tick tf t0 ++ tr).
    do 4 (split; [auto|]). split; [rewrite Em; auto|]. intros st oh X.
    destruct o as [st'|]; [|discriminate]. injection X as <- <-. split; [exists h1; rewrite Em; auto|].
    destruct F5 as [F5|[F5|F5]]; [discriminate| |]; injection F5 as ->; auto.
Qed.
Example C11_case : exists h' w',
  SendHttpHeaders 100 cfg0 env5 (Some tr1) TUser (Some h1) 2147483647 0 w1 = Ret (HTTPSuccess, Some h', w') /\
  accepted (w_tr w') = B "GET / HTTP/1.1" ++ CRLF ++ B "Host: h" ++ CRLF ++ B "Content-Length: 2147483647" ++ CRLF ++ CRLF.
Proof. do 2 eexists. split; vm_compute; reflexivity. Qed.
Print Assumptions C11_content_length_on_the_wire.

(** ** C17 *)
Theorem C17_request_sent_before_receiving : forall fuel cfg E P tr h buf n req body len bd pr flags w,
  size_ok cfg -> send_contract E -> holds (w_mem w) h buf n req -> n + 30 < SZ cfg ->
  0 <= len < SZ cfg -> body_arg (w_mem w) buf n body len bd ->
  ~ send_invalid tr (Some h) body len pr ->
  forall o w', wout (Send fuel cfg E P tr (Some h) body len pr flags w) = Some (o, w') ->
  exists block sent received, wire_headers flags len req block /\
    w_tr w' = w_tr w ++ sent ++ received /\
    send_only sent /\ no_send received /\ prefix (accepted sent) (block ++ bd) /\
    (received <> [] -> accepted sent = block ++ bd) /\
    (forall st oh or, o = Some (st, oh, or) ->
       accepted sent = block ++ bd \/
       received = [] /\ (st = HTTPNetworkError \/ st = HTTPInsufficientMemory /\ n < zlen block /\ sent = [])).
Proof.
  intros fuel cfg E P tr h buf n req body len bd pr flags w SO SC H W HB BA NI o w' X.
  destruct (Send_valid fuel cfg E P tr (Some h) body len pr flags w SO HB NI)
    as (t&h'&r&->&Ht&Hr&Eh&->&_&_&_&_&HL&_&ES).
  injection Eh as <-. rewrite ES in X. clear ES.
  destruct (sendHttpRequest_run fuel cfg E (r_time (eff_time r)) t h buf n req body len bd flags w SC (eff_time_ok r) Ht H ltac:(lia) W BA)
    as (block&h1&m1&so&w1&sent&WH&S&Em&E1&Etr&Enr&On&Pre&Hh&Hq&Hn&Hi&Hs&Hne&Ho).
  exists block, sent.
  destruct (sendHttpRequest _ _ _ _ _ _ _ _ _ _) as [[[st oh] wx]| | |] eqn:EQ; cbn [wout] in E1; try discriminate.
  2:{ injection E1 as E1 <-. destruct so; [discriminate|]. cbn [bind wout] in X. injection X as <- <-.
      exists []. rewrite app_nil_r. do 3 (split; [auto|]). split; [constructor|]. split; auto. split; [congruence|]. discriminate. }
  injection E1 as E1 <-. destruct so as [st'|]; [|discriminate]. injection E1 as <- ->. cbn [bind] in X.
  destruct (is_success st) eqn:Es.
  - apply is_success_eq in Es. subst st. specialize (Hs eq_refl).
    destruct (wout (ReceiveAndParseHttpResponse fuel cfg E P (Some t) (Some (eff_time r)) (Some h1) wx)) as [[ro wr]|] eqn:ER.
    2:{ exfalso. destruct (ReceiveAndParseHttpResponse _ _ _ _ _ _ _ _) as [[[? ?] ?]| | |]; cbn in *; discriminate. }
    pose proof (Receive_ext _ _ _ _ _ _ _ _ _ _ ER) as (rec&R1&R2).
    assert (w' = wr).
    { destruct (ReceiveAndParseHttpResponse _ _ _ _ _ _ _ _) as [[[? ?] ?]| | |]; cbn in *; try discriminate; congruence. }
    subst w'. exists rec. split; auto. split; [rewrite R1, Etr, <- app_assoc; auto|].
    do 3 (split; [auto|]). split; auto.
  - cbn [wout] in X. injection X as <- <-. exists []. rewrite app_nil_r. do 3 (split; [auto|]).
    split; [constructor|]. split; auto. split; [congruence|]. intros st0 oh or E0. injection E0 as <- _ _. right. split; auto.
    destruct Ho as [Ho|[Ho|[Ho|Ho]]]; try discriminate; injection Ho as ->; auto; [discriminate|].
    right. split; auto. specialize (Hi eq_refl). split; auto. apply Hn; auto.
Qed.
Print Assumptions C17_request_sent_before_receiving.

(** ** C18 (HTTPClient_Send) *)
Theorem C18_send_invalid_parameter_iff : forall fuel cfg E P tr prh body bodyLen pr flags w st oh or w',
  size_ok cfg -> 0 <= bodyLen < SZ cfg -> send_contract E ->
  (forall h, prh = Some h -> forall buf, rh_buf h = Some buf -> exists n req, holds (w_mem w) h buf n req /\ n + 30 < SZ cfg /\
      exists bd, body_arg (w_mem w) buf n body bodyLen bd) ->
  Send fuel cfg E P tr prh body bodyLen pr flags w = Ret (st, oh, or, w') ->
  (st = HTTPInvalidParameter <-> send_invalid tr prh body bodyLen pr) /\
  (st = HTTPInvalidParameter -> oh = prh /\ or = pr /\ w' = w).
Proof.
  intros fuel cfg E P tr prh body bodyLen pr flags w st oh or w' SO HB SC HH X.
  assert (D : send_invalid tr prh body bodyLen pr \/ ~ send_invalid tr prh body bodyLen pr).
  { unfold send_invalid. destruct tr as [t|]; [|left; auto].
    destruct (t_send t) eqn:?; [|left; right; left; eauto]. destruct (t_recv t) eqn:?; [|left; right; left; eauto].
    destruct prh as [h|]; [|left; auto].
    destruct (rh_buf h) eqn:?; [|left; do 3 right; left; eauto].
    destruct (Z_lt_dec (rh_len h) 16); [left; do 3 right; left; eauto|].
    destruct (Z_lt_dec (rh_bufLen h) (rh_len h)); [left; do 3 right; left; eauto 6|].
    destruct pr as [r|]; [|left; auto 8].
    destruct (r_buf r) eqn:?; [|left; do 5 right; left; eauto].
    destruct (Z.eq_dec (r_bufLen r) 0); [left; do 5 right; left; eauto|].
    destruct (Z_lt_dec INT32_MAX bodyLen); [left; tauto|].
    assert (DB : (body = None /\ 0 < bodyLen) \/ ~ (body = None /\ 0 < bodyLen)).
    { destruct body; [right; intros (?&_); discriminate|]. destruct (Z_lt_dec 0 bodyLen); [left; auto|right; lia]. }
    destruct DB as [DB|DB]; [left; tauto|]. right.
    intros [H|[(t'&H&H')|[H|[(h'&H&H')|[H|[(r'&H&H')|[H|H]]]]]]]; try discriminate; try tauto; injection H as <-.
    + destruct H'; congruence.
    + destruct H' as [H'|[H'|H']]; [congruence|lia|lia].
    + destruct H'; congruence. }
  destruct D as [D|D].
  - assert (Z : Send fuel cfg E P tr prh body bodyLen pr flags w = Ret (HTTPInvalidParameter, prh, pr, w)).
    { unfold send_invalid in D. unfold Send in *. rewrite (int32max_mod cfg bodyLen) in * by auto. unfold HTTP_MINIMUM_REQUEST_LINE_LENGTH in *.
      destruct tr as [t|]; auto. destruct (t_send t) eqn:E1; cbn [negb] in *; auto. destruct (t_recv t) eqn:E2; cbn [negb] in *; auto.
      destruct prh as [h|]; auto. destruct (rh_buf h) eqn:E3; auto.
      destruct (Z.ltb_spec (rh_len h) 16); auto. destruct (Z.ltb_spec (rh_bufLen h) (rh_len h)); auto.
      destruct pr as [r|]; auto. destruct (r_buf r) eqn:E4; auto. destruct (Z.eqb_spec (r_bufLen r) 0); auto.
      destruct (match body with Some _ => false | None => 0 <? bodyLen end) eqn:E5; auto.
      destruct (Z.ltb_spec INT32_MAX bodyLen); auto. exfalso.
      destruct D as [H'|[(t'&H'&H'')|[H'|[(h'&H'&H'')|[H'|[(r'&H'&H'')|[(H'&H'')|H']]]]]]]; try discriminate; try lia.
      - injection H' as <-. destruct H''; congruence.
      - injection H' as <-. destruct H'' as [H''|[H''|H'']]; [congruence|lia|lia].
      - injection H' as <-. destruct H''; congruence.
      - subst body. apply Z.ltb_ge in E5. lia. }
    rewrite X in Z. injection Z as -> -> -> ->. tauto.
  - destruct (Send_valid fuel cfg E P tr prh body bodyLen pr flags w SO HB D)
      as (t&h&r&->&Ht&Hr&->&->&(buf&Hb)&_&_&_&HL&_&ES).
    destruct (HH h eq_refl buf Hb) as (n&req&H&W&bd&BA).
    rewrite ES in X. clear ES.
    destruct (sendHttpRequest_run fuel cfg E (r_time (eff_time r)) t h buf n req body bodyLen bd flags w SC (eff_time_ok r) Ht H ltac:(lia) W BA)
      as (block&h1&m1&so&w1&sent&WH&S&Em&E1&Etr&Enr&On&Pre&Hh&Hq&Hn&Hi&Hs&Hne&Ho).
    assert (N : st <> HTTPInvalidParameter).
    { destruct (sendHttpRequest _ _ _ _ _ _ _ _ _ _) as [[[st1 oh1] wx]| | |] eqn:EQ; cbn [wout] in E1; try discriminate.
      injection E1 as E1 <-. destruct so as [st'|]; [|discriminate]. injection E1 as <- ->. cbn [bind] in X.
      destruct (is_success st1) eqn:Es.
      - destruct (ReceiveAndParseHttpResponse _ _ _ _ _ _ _ _) as [[[? ?] ?]| | |] eqn:ER; cbn [bind] in X; try discriminate.
        injection X as <- _ _ _. apply receive_status in ER. tauto.
      - injection X as <- _ _ _. destruct Ho as [Ho|[Ho|[Ho|Ho]]]; try discriminate; injection Ho as ->; discriminate. }
    tauto.
Qed.
Print Assumptions C18_send_invalid_parameter_iff.

Theorem C18_send_invalid_no_effect : forall fuel cfg E P tr prh body bodyLen pr flags w,
  size_ok cfg -> 0 <= bodyLen < SZ cfg -> (forall r, pr = Some r -> 0 <= r_bufLen r) ->
  send_invalid tr prh body bodyLen pr ->
  Send fuel cfg E P tr prh body bodyLen pr flags w = Ret (HTTPInvalidParameter, prh, pr, w).
Proof. exact Send_invalid. Qed.
Print Assumptions C18_send_invalid_no_effect.

(** ** C12 *)
(** False for lengths above INT32_MAX where size_t is 64 bits wide: undefined behaviour, or a wrong
    number. *)
Definition cfg64 : config := mkconfig 18446744073709551616 (B "my-platform-name") 1000 1000.
Theorem C12_any_body_length_refuted :
  holds (w_mem w1) h1 buf0 (zlen req1 + 100) req1 /\ send_contract env5 /\
  SendHttpHeaders 100 cfg64 env5 (Some tr1) TUser (Some h1) (2 ^ 31) 0 w1 = Ub UbOverflow /\
  SendHttpHeaders 100 cfg64 env5 (Some tr1) TUser (Some h1) (2 ^ 31 + 1) 0 w1 = Ub UbOob /\
  exists h' w', SendHttpHeaders 100 cfg64 env5 (Some tr1) TUser (Some h1) (2 ^ 32 + 5) 0 w1 = Ret (HTTPSuccess, Some h', w') /\
    accepted (w_tr w') = B "GET / HTTP/1.1" ++ CRLF ++ B "Host: h" ++ CRLF ++ B "Content-Length: 5" ++ CRLF ++ CRLF.
Proof.
  split; [exact h1_holds|]. split; [exact env5_ok|]. split; [vm_compute; reflexivity|]. split; [vm_compute; reflexivity|].
  do 2 eexists. split; vm_compute; reflexivity.
Qed.
Print Assumptions C12_any_body_length_refuted.

(** True up to INT32_MAX. *)
Theorem C12_body_length_up_to_int32_max_partial : forall fuel cfg E tf t h buf n req len flags w,
  send_contract E -> tf <> TNull -> t_send t = true -> holds (w_mem w) h buf n req ->
  0 <= len <= INT32_MAX -> n + 30 < SZ cfg ->
  exists block o w', wire_headers flags len req block /\
    wout (SendHttpHeaders fuel cfg E (Some t) tf (Some h) len flags w) = Some (o, w') /\
    (forall st oh, o = Some (st, oh) ->
       st = HTTPInsufficientMemory /\ n < zlen block /\ w' = w /\ oh = Some h \/
       st = HTTPNetworkError \/
       st = HTTPSuccess /\ zlen block <= n /\ exists tr, w_tr w' = w_tr w ++ tr /\ accepted tr = block).
Proof.
  intros fuel cfg E tf t h buf n req len flags w SC TN Ht H Hl W.
  destruct (C11_content_length_on_the_wire fuel cfg E tf t h buf n req len flags w SC TN Ht H Hl W) as (block&WH&A&C).
  exists block. destruct (Z_lt_dec n (zlen block)) as [L|L].
  - rewrite A by auto. eexists _, w. split; auto. split; [reflexivity|]. intros st oh X. injection X as <- <-. auto.
  - destruct C as (o&w'&tr&E1&E2&_&_&_&K); [lia|]. exists o, w'. split; auto. split; auto.
    intros st oh X. destruct (K _ _ X) as (_&[(->&Y)|(->&_)]); auto. right; right. split; auto. split; [lia|]. eauto.
Qed.
Print Assumptions C12_body_length_up_to_int32_max_partial.

(** ** C13 *)
(** False: the Content-Length line is appended to the request each time. *)
Theorem C13_sending_twice_refuted : exists cfg E h w h' w' h'' w'',
  send_contract E /\ holds (w_mem w) h buf0 (zlen req1 + 100) req1 /\
  SendHttpHeaders 100 cfg E (Some tr1) TUser (Some h) 7 0 w = Ret (HTTPSuccess, Some h', w') /\
  SendHttpHeaders 100 cfg E (Some tr1) TUser (Some h') 7 0 w' = Ret (HTTPSuccess, Some h'', w'') /\
  accepted (w_tr w') = B "GET / HTTP/1.1" ++ CRLF ++ B "Host: h" ++ CRLF ++ B "Content-Length: 7" ++ CRLF ++ CRLF /\
  accepted (w_tr w'') = accepted (w_tr w') ++
    B "GET / HTTP/1.1" ++ CRLF ++ B "Host: h" ++ CRLF ++ B "Content-Length: 7" ++ CRLF ++ B "Content-Length: 7" ++ CRLF ++ CRLF.
Proof.
  exists cfg0, env5, h1, w1. do 4 eexists. split; [exact env5_ok|]. split; [exact h1_holds|].
  split; [vm_compute; reflexivity|]. split; [vm_compute; reflexivity|]. split; vm_compute; reflexivity.
Qed.
Print Assumptions C13_sending_twice_refuted.

(** Without a body, or with the disable flag, the request is left as it was, so it can be sent again. *)
Theorem C13_request_unchanged_partial : forall fuel cfg E tf t h buf n req len flags w o w',
  send_contract E -> tf <> TNull -> t_send t = true -> holds (w_mem w) h buf n req ->
  0 <= len <= INT32_MAX -> n + 30 < SZ cfg -> Z.testbit flags 0 = true \/ len = 0 ->
  wout (SendHttpHeaders fuel cfg E (Some t) tf (Some h) len flags w) = Some (o, w') ->
  w_mem w' = w_mem w /\ holds (w_mem w') h buf n req /\
  (forall st oh, o = Some (st, oh) -> oh = Some h) /\
  exists tr, w_tr w' = w_tr w ++ tr /\ prefix (accepted tr) req /\
    (forall oh, o = Some (HTTPSuccess, oh) -> accepted tr = req).
Proof.
  intros fuel cfg E tf t h buf n req len flags w o w' SC TN Ht H Hl W D X.
  destruct (SendHttpHeaders_run fuel cfg E tf t h buf n req len flags w SC TN Ht H Hl W)
    as (block&h1&m1&WH&K).
  assert (EB : block = req).
  { unfold wire_headers in WH. destruct D as [D|D]; rewrite D in WH; rewrite ?orb_true_r in WH; auto. }
  subst block.
  assert (L : zlen req <= n).
  { destruct H as (_&_&HO&HL&->). rewrite bytes_at_len; [lia|]. destruct HO as (?&?&?). unfold object. lia. }
  destruct K as [(C&EQ)|(C&Hh&S&Sq&o'&w''&t0&tr&E1&Em&Etr&Enr&_&R)]; [lia|].
  rewrite E1 in X. injection X as <- <-. destruct (Sq eq_refl) as (->&->).
  split; auto. split; [rewrite Em; auto|].
  destruct (srun_facts _ _ _ _ _ _ R) as (F1&F2&F3&F4&F5).
  split. { intros st oh X. destruct o'; [|discriminate]. injection X as _ <-. auto. }
  exists (tick tf t0 ++ tr). split; auto. split; auto.
  intros oh X. destruct o'; [|discriminate]. injection X as -> _. auto.
Qed.
Print Assumptions C13_request_unchanged_partial.

(** ** C46 *)
(** HTTP_MAX_CONTENT_LENGTH_HEADER_LENGTH (core_http_client.h l.73) is documented as the space needed
    for the Content-Length header, but does not count the CRLF. *)
Definition HTTP_MAX_CONTENT_LENGTH_HEADER_LENGTH : Z := zlen (B "Content-Length: 4294967295").
Theorem C46_content_length_reserve_refuted : exists m h n,
  holds m h buf0 n req1 /\ n = zlen req1 + HTTP_MAX_CONTENT_LENGTH_HEADER_LENGTH /\
  SendHttpHeaders 100 cfg0 env5 (Some tr1) TUser (Some h) 100000000 0 (mkw m 0 0 0 [])
  = Ret (HTTPInsufficientMemory, Some h, mkw m 0 0 0 []).
Proof.
  exists [req1 ++ repeat 0 26], (mkrh (Some buf0) (zlen req1 + 26) (zlen req1)), (zlen req1 + 26).
  split.
  - split; [reflexivity|]. split; [reflexivity|]. split; [vm_compute; repeat split; discriminate|].
    split; [vm_compute; repeat split; discriminate|reflexivity].
  - split; [reflexivity|]. vm_compute. reflexivity.
Qed.
Print Assumptions C46_content_length_reserve_refuted.

(** Two more bytes are enough for every body, when the request ends with its blank line. *)
Theorem C46_content_length_reserve_partial : forall fuel cfg E tf t h buf n req pre len flags w st oh w',
  send_contract E -> tf <> TNull -> t_send t = true -> holds (w_mem w) h buf n req ->
  req = pre ++ CRLF ++ CRLF ->
  0 <= len <= INT32_MAX -> n + 30 < SZ cfg ->
  zlen req + HTTP_MAX_CONTENT_LENGTH_HEADER_LENGTH + 2 <= n ->
  SendHttpHeaders fuel cfg E (Some t) tf (Some h) len flags w = Ret (st, oh, w') ->
  st <> HTTPInsufficientMemory.
Proof.
  intros fuel cfg E tf t h buf n req pre len flags w st oh w' SC TN Ht H Er Hl W Hn X.
  change HTTP_MAX_CONTENT_LENGTH_HEADER_LENGTH with 26 in Hn.
  destruct (SendHttpHeaders_run fuel cfg E tf t h buf n req len flags w SC TN Ht H Hl W)
    as (block&h1&m1&WH&K).
  assert (L : zlen block <= zlen req + 28).
  { unfold wire_headers in WH. destruct (_ || _) eqn:D; [subst; lia|].
    destruct WH as (o&d&OP&DD&->). subst req. rewrite (opened_blank _ _ OP).
    assert (d = to_dec len).
    { clear -DD Hl.
      assert (D2 : decimal len (to_dec len)) by (apply to_dec_decimal; unfold is_int32, INT32_MIN; lia).
      unfold decimal in *. replace (len <? 0) with false in * by lia. eapply decimal_nat_unique; eauto. }
    subst d. pose proof (to_dec_len_nonneg len Hl).
    rewrite !zlen_app, header_line_len. change (zlen CRLF) with 2. change (zlen (B "Content-Length")) with 14. lia. }
  destruct K as [(C&EQ)|(C&Hh&S&Sq&o'&w''&t0&tr&E1&Em&Etr&Enr&_&R)]; [lia|].
  rewrite X in E1. cbn [wout] in E1. injection E1 as E1 <-.
  destruct (srun_facts _ _ _ _ _ _ R) as (F1&F2&F3&F4&F5). destruct o'; [|discriminate]. injection E1 as <- _.
  destruct F5 as [F5|[F5|F5]]; [discriminate| |]; injection F5 as ->; discriminate.
Qed.
Print Assumptions C46_content_length_reserve_partial.
