(** PropsCallback.v — C93: functions of the application that write memory of their own do not disturb the library. *)
From Verif Require Import Base Lib RefParser DemoResponse ModelRequest ModelSend ModelResponse SpecRequest SpecSend SpecResponse SpecExchange
  ProofsRequest ProofsSend ProofsSend2 ProofsResponse ProofsExchange Demo PropsExchange ModelCallback SpecCallback ProofsCallback.

(** Sending data: whatever the transport and the clock write elsewhere, the same calls, the same outcome; and memory is changed by them alone. *)
Theorem C93_send_data : forall K fuel cfg E t tf p len w,
  send_contract E -> tf <> TNull -> t_send t = true -> object (w_mem w) p len -> keeps K (within p len) ->
  match SendHttpData fuel cfg E (Some t) tf (Some p) len w, SendHttpData_k K fuel cfg E (Some t) tf (Some p) len w with
  | Ret (st, w'), Ret (st2, w2) => st2 = st /\ same_run (within p len) w' w2 /\ doing K (fun _ _ => False) (w_tr w) (w_mem w) (w_tr w2) (w_mem w2)
  | More w', More w2 => same_run (within p len) w' w2 /\ doing K (fun _ _ => False) (w_tr w) (w_mem w) (w_tr w2) (w_mem w2)
  | _, _ => False
  end.
Proof.
  intros K fuel cfg E t tf p len w SC TN Ht O KS.
  destruct (SendHttpData_run fuel cfg E tf t p len w SC TN Ht O) as (o&w'&t0&tr&E1&_).
  assert (S0 : wsim K (fun _ _ => False) (within p len) (w_tr w) (w_mem w) w w) by (split; [split; auto; apply same_on_refl|apply doing_none]).
  pose proof (data_sim cfg K _ _ _ _ KS fuel E t tf p len _ _ ltac:(intros i Hi; split; [auto|lia]) S0) as DS.
  destruct (SendHttpData fuel cfg E (Some t) tf (Some p) len w) as [[st w3]| | |w3]; cbn [wout] in E1; try discriminate; specialize (DS Logic.I);
    destruct (SendHttpData_k K fuel cfg E (Some t) tf (Some p) len w) as [[st' v3]| | |v3]; cbn [sout] in DS; try contradiction.
  - destruct DS as (->&[A C]). auto.
  - destruct DS as [A C]. auto.
Qed.

(** Receiving: the transport, the clock and the header callback may write anywhere but in the response buffer - also into the request.  The same
    calls are made of them, the same status and response come out, the response buffer holds the same; and outside it memory is what they
    made of it. *)
Theorem C93_receive : forall K fuel cfg E P t r rh buf L req w,
  recv_setup cfg E P t r rh buf L req w -> keeps K (within buf L) ->
  match ReceiveAndParseHttpResponse fuel cfg E P (Some t) (Some r) (Some rh) w, ReceiveAndParseHttpResponse_k K fuel cfg E P (Some t) (Some r) (Some rh) w with
  | Ret (st, r', w'), Ret (st2, r2, w2) =>
      st2 = st /\ r2 = r' /\ same_run (within buf L) w' w2 /\ doing K (within buf L) (w_tr w) (w_mem w) (w_tr w2) (w_mem w2)
  | More w', More w2 => same_run (within buf L) w' w2 /\ doing K (within buf L) (w_tr w) (w_mem w) (w_tr w2) (w_mem w2)
  | _, _ => False
  end.
Proof.
  intros K fuel cfg E P t r rh buf L req w SU KS.
  assert (S0 : wsim K (within buf L) (within buf L) (w_tr w) (w_mem w) w w) by (split; [split; auto; apply same_on_refl|apply doing_none]).
  pose proof SU as (_&_&_&_&_&_&_&HL&(rb&n&(RB&_))&_).
  pose proof (receive_sim cfg K buf L _ _ (w_tr w) KS ltac:(lia) fuel E P t r rh rb _ req w w SU RB eq_refl eq_refl eq_refl S0) as RS. unfold rout in RS.
  destruct (ReceiveAndParseHttpResponse fuel cfg E P (Some t) (Some r) (Some rh) w) as [[[st r'] w']| | |w'],
    (ReceiveAndParseHttpResponse_k K fuel cfg E P (Some t) (Some r) (Some rh) w) as [[[st2 r2] w2]| | |w2]; try contradiction.
  - destruct RS as (->&->&[A C]). auto.
  - destruct RS as [A C]. auto.
Qed.

(** A whole exchange: while the request goes out, the transport and the clock leave the request buffer, the body and the response buffer alone;
    while the response comes in, they and the header callback leave the response buffer alone. *)
Theorem C93_exchange : forall Ks K fuel cfg E P t h hbuf n req body len bd r rbuf L w flags,
  send_setup cfg E P t h hbuf n req body len bd r rbuf L w ->
  keeps Ks (within hbuf n) -> keeps Ks (within rbuf L) -> (forall p, body = Some p -> keeps Ks (within p len)) -> keeps K (within rbuf L) ->
  match Send fuel cfg E P (Some t) (Some h) body len (Some r) flags w, Send_k Ks K fuel cfg E P (Some t) (Some h) body len (Some r) flags w with
  | Ret (st, h', r', w'), Ret (st2, h2, r2, w2) =>
      st2 = st /\ h2 = h' /\ r2 = r' /\ same_run (within rbuf L) w' w2 /\
      exists sent m, doing Ks (within hbuf n) (w_tr w) (w_mem w) sent m /\ doing K (within rbuf L) sent m (w_tr w2) (w_mem w2)
  | More w', More w2 =>
      same_run (within rbuf L) w' w2 /\
      exists sent m, doing Ks (within hbuf n) (w_tr w) (w_mem w) sent m /\ doing K (within rbuf L) sent m (w_tr w2) (w_mem w2)
  | _, _ => False
  end.
Proof.
  intros Ks K fuel cfg E P t h hbuf n req body len bd r rbuf L w flags S K1 K2 K3 KR.
  pose proof (setup_valid _ _ _ _ _ _ _ _ _ _ _ _ _ _ _ S) as NI. pose proof S as (SO&SC&RC&PO&T1&T2&H&LR&W&HL&HI&BA&RB&RL&OB&LL).
  destruct (Send_valid fuel cfg E P _ _ _ _ _ flags w SO HL NI) as (t'&h'&r'&Q1&_&_&Q2&Q3&_&_&_&_&_&_&ES). injection Q1 as <-. injection Q2 as <-. injection Q3 as <-.
  destruct (Send_k_valid Ks K fuel cfg E P _ _ _ _ _ flags w SO HL NI) as (r'&Q3&EK). injection Q3 as <-. rewrite ES, EK. clear ES EK.
  set (SS := fun b i => within hbuf n b i \/ within rbuf L b i \/ exists p, body = Some p /\ within p len b i).
  assert (KS : keeps Ks SS).
  { intros past m. destruct (K1 past m) as (A&C&D). split; [auto|split; [auto|]]. intros b i Hi [X|[X|(p&X&Y)]]; [apply D; auto|apply K2; auto|apply (K3 p X); auto]. }
  assert (PH : prot SS hbuf n) by (intros i Hi; left; split; [auto|lia]).
  assert (PB : forall p, body = Some p -> prot SS p len) by (intros p X i Hi; right; right; exists p; split; [auto|split; [auto|lia]]).
  pose proof (request_sim fuel cfg E (r_time (eff_time r)) t h hbuf n req body len bd flags w Ks SS SC (eff_time_ok r) T1 H ltac:(lia) W BA KS PH PB) as RQ.
  destruct (sendHttpRequest_run fuel cfg E (r_time (eff_time r)) t h hbuf n req body len bd flags w SC (eff_time_ok r) T1 H ltac:(lia) W BA)
    as (block&h1&m1&so&w1&sent&WH&SM&Em&E1&Etr&Enr&On&Pre&Hh&Hq&Hn&Hi&Hs&Hne&Ho). subst m1.
  destruct (sendHttpRequest fuel cfg E (Some t) (r_time (eff_time r)) (Some h) body len flags w) as [[[st1 oh] wx]| | |wx]; cbn [wout] in E1; try discriminate;
    destruct (sendHttpRequest_k Ks fuel cfg E (Some t) (r_time (eff_time r)) (Some h) body len flags w) as [[[st2 oh2] vx]| | |vx]; cbn [qout] in RQ; try contradiction; cbn [bind].
  2:{ injection E1 as _ <-. destruct RQ as [[A1 A2 A3 A4 A5] D]. split; [split; auto; eapply same_on_less; [|exact A5]; intros b i X; right; left; auto|].
      eexists _, _. split; [exact D|apply doing_none]. }
  injection E1 as E1 <-. destruct so as [st'|]; [|discriminate]. injection E1 as <- ->. destruct RQ as (->&->&RQ). pose proof RQ as [[A1 A2 A3 A4 A5] D].
  assert (SRB : same_run (within rbuf L) wx vx) by (split; auto; eapply same_on_less; [|exact A5]; intros b i X; right; left; auto).
  destruct (is_success st1) eqn:IS.
  2:{ do 3 (split; auto). split; [exact SRB|]. eexists _, _. split; [exact D|apply doing_none]. }
  assert (C : zlen block <= n) by (destruct (Z.lt_ge_cases n (zlen block)) as [C|C]; [destruct (Hn C) as (X&_); injection X as ->; discriminate|auto]).
  specialize (Hh C). pose proof (setup_recv _ _ _ _ _ _ _ _ _ _ _ _ _ _ _ _ _ _ _ S SM WH Hh) as RSU. rewrite with_clock_eff in RSU.
  assert (S0 : wsim K (within rbuf L) (within rbuf L) (w_tr vx) (w_mem vx) wx vx) by (split; [exact SRB|apply doing_none]).
  pose proof (wire_len _ _ _ _ WH) as WL. pose proof (holds_len _ _ _ _ _ Hh) as HHL. destruct Hh as (HB&_&_&HL4&_).
  assert (IN : initializeParsingContextForFirstResponse (w_mem vx) h1 = initializeParsingContextForFirstResponse (w_mem wx) h1).
  { unfold initializeParsingContextForFirstResponse. rewrite HB. destruct (assert_at _ _); cbn [bind]; auto. rewrite (strncmp_on _ _ _ HTTP_METHOD_HEAD A5); auto.
    change (zlen HTTP_METHOD_HEAD) with 4. intros i Hi0. left. split; [auto|lia]. }
  pose proof (receive_sim cfg K rbuf L _ _ (w_tr wx) KR ltac:(lia) fuel E P t (eff_time r) h1 hbuf _ block wx vx RSU HB IN eq_refl eq_refl S0) as RS. unfold rout in RS.
  destruct (ReceiveAndParseHttpResponse fuel cfg E P (Some t) (Some (eff_time r)) (Some h1) wx) as [[[st r'] w']| | |w'],
    (ReceiveAndParseHttpResponse_k K fuel cfg E P (Some t) (Some (eff_time r)) (Some h1) vx) as [[[st2 r2] w2]| | |w2]; try contradiction; cbn [bind].
  - destruct RS as (->&->&[A C']). do 3 (split; auto). split; [exact A|]. eexists _, _. split; [exact D|exact C'].
  - destruct RS as [A C']. split; [exact A|]. eexists _, _. split; [exact D|exact C'].
Qed.

(** What neither the library's own buffers nor the writes of the application's functions reach stays as it was. *)
Lemma doing_same K R T past m past' m' : keeps K T -> (forall b i, T b i -> ~ R b i) -> doing K R past m past' m' -> same_on T m m'.
Proof.
  intros KT N D. induction D as [|past1 m1 m2 D IH SO|past1 m1 e D IH A|past1 m1 e D IH A]; auto.
  - apply same_on_refl.
  - eapply same_on_trans; [exact IH|]. eapply same_on_less; [|exact SO]. exact N.
  - eapply same_on_trans; [exact IH|]. apply KT.
Qed.
Theorem C93_elsewhere : forall Ks K fuel cfg E P t h hbuf n req body len bd r rbuf L w flags (T : place),
  send_setup cfg E P t h hbuf n req body len bd r rbuf L w ->
  keeps Ks (within hbuf n) -> keeps Ks (within rbuf L) -> (forall p, body = Some p -> keeps Ks (within p len)) -> keeps K (within rbuf L) ->
  keeps Ks T -> keeps K T -> (forall b i, T b i -> ~ within hbuf n b i /\ ~ within rbuf L b i) ->
  match Send_k Ks K fuel cfg E P (Some t) (Some h) body len (Some r) flags w with
  | Ret (_, _, _, w2) | More w2 => same_on T (w_mem w) (w_mem w2)
  | _ => False
  end.
Proof.
  intros Ks K fuel cfg E P t h hbuf n req body len bd r rbuf L w flags T S K1 K2 K3 KR KT1 KT2 N.
  pose proof (C93_exchange Ks K fuel _ _ _ _ _ _ _ _ _ _ _ _ _ _ _ flags S K1 K2 K3 KR) as X.
  destruct (Send fuel cfg E P (Some t) (Some h) body len (Some r) flags w) as [[[[st h'] r'] w']| | |w'],
    (Send_k Ks K fuel cfg E P (Some t) (Some h) body len (Some r) flags w) as [[[[st2 h2] r2] w2]| | |w2]; try contradiction.
  - destruct X as (_&_&_&_&sent&m&D1&D2). eapply same_on_trans; [eapply doing_same; [exact KT1| |exact D1]; intros b i Q; apply (N b i Q)|].
    eapply doing_same; [exact KT2| |exact D2]; intros b i Q; apply (N b i Q).
  - destruct X as (_&sent&m&D1&D2). eapply same_on_trans; [eapply doing_same; [exact KT1| |exact D1]; intros b i Q; apply (N b i Q)|].
    eapply doing_same; [exact KT2| |exact D2]; intros b i Q; apply (N b i Q).
Qed.

(** ** A case *)
(** Writes one byte, where there is one. *)
Definition poke (p : ptr) (x : Z) (m : mem) : mem := if in_range m p 1 then write m p [x] else m.
Lemma poke_keeps p x m (S : place) : ~ S (pb p) (po p) -> same_on S m (poke p x m).
Proof.
  intros N. unfold poke. destruct (in_range m p 1) eqn:I; [|apply same_on_refl]. apply in_range_iff in I.
  assert (SO : same_outside m (write m p [x]) p 1) by (apply (same_outside_write m p [x]); exact I). destruct SO as (A&C&D). split; [auto|split; [auto|]].
  intros b i Hi HS. apply D; auto. intros (->&Q). assert (i = po p) by lia. subst i. auto.
Qed.
Definition count (f : tev -> bool) (tr : list tev) : Z := zlen (filter f tr).
Definition is_header (e : tev) : bool := match e with THeader _ _ _ _ _ _ _ => true | _ => false end.
Definition is_send (e : tev) : bool := match e with TSend _ _ => true | _ => false end.
(** A header callback (or transport) that counts the headers in the first byte of a block of its own, and writes over the request; a transport
    that counts its calls in the second byte. *)
Definition note_headers : effect := fun past m => poke (mkptr 3 0) (count is_header past) (poke (mkptr 0 0) 255 m).
Definition note_sends : effect := fun past m => poke (mkptr 3 1) (count is_send past) m.
Definition wcb : world := mkw (w_mem wsep ++ [[0; 0]]) 0 0 0 [].
Example C93_case :
  send_setup cfg0 (env_ex resp_ok) refparser trr hx buf0 300 req1 (Some (mkptr 2 0)) 4 (B "data") rsep rbuf 300 wcb /\
  keeps note_sends (within buf0 300) /\ keeps note_sends (within rbuf 300) /\ keeps note_sends (within (mkptr 2 0) 4) /\ keeps note_headers (within rbuf 300) /\
  exists h' r' w', Send_k note_sends note_headers 400 cfg0 (env_ex resp_ok) refparser (Some trr) (Some hx) (Some (mkptr 2 0)) 4 (Some rsep) 0 wcb = Ret (HTTPSuccess, Some h', Some r', w') /\
    blk (w_mem w') 3 = [2; 2] /\ bytes_at (w_mem w') buf0 4 = 255 :: B "ET " /\
    (exists q, r_body r' = Some q /\ bytes_at (w_mem w') q (r_bodyLen r') = B "hello") /\ r_hcount r' = 2.
Proof.
  destruct (env_ex_ok resp_ok) as (A&C&_). assert (SZO : size_ok cfg0) by (exists 32; split; [lia|reflexivity]).
  split.
  { split; [exact SZO|]; split; [exact A|]; split; [exact C|]; split; [apply refparser_ok|]; split; [reflexivity|]; split; [reflexivity|].
    split; [split; [reflexivity|]; split; [reflexivity|]; split; [vm_compute; repeat split; discriminate|]; split; [vm_compute; repeat split; discriminate|reflexivity]|].
    split; [vm_compute; discriminate|]; split; [reflexivity|]; split; [split; [discriminate|reflexivity]|]; split; [vm_compute; discriminate|].
    split; [split; [vm_compute; repeat split; discriminate|]; split; [left; discriminate|reflexivity]|].
    split; [reflexivity|]; split; [reflexivity|]; split; [vm_compute; repeat split; discriminate|]; split; reflexivity. }
  assert (NS : forall p n, pb p <> 3%nat -> keeps note_sends (within p n)).
  { intros p n Hp past m. apply poke_keeps. intros (X&_). apply Hp. symmetry. exact X. }
  split; [apply NS; discriminate|]. split; [apply NS; discriminate|]. split; [apply NS; discriminate|].
  split. { intros past m. unfold note_headers. eapply same_on_trans; apply poke_keeps; intros (X&_); discriminate. }
  assert (X : match Send_k note_sends note_headers 400 cfg0 (env_ex resp_ok) refparser (Some trr) (Some hx) (Some (mkptr 2 0)) 4 (Some rsep) 0 wcb with
              | Ret (HTTPSuccess, Some h', Some r', w') => blk (w_mem w') 3 = [2; 2] /\ bytes_at (w_mem w') buf0 4 = 255 :: B "ET " /\
                  (exists q, r_body r' = Some q /\ bytes_at (w_mem w') q (r_bodyLen r') = B "hello") /\ r_hcount r' = 2
              | _ => False end).
  { vm_compute. split; [reflexivity|]. split; [reflexivity|]. split; [eexists; split; reflexivity|reflexivity]. }
  destruct (Send_k _ _ _ _ _ _ _ _ _ _ _ _ _) as [[[[st [h'|]] [r'|]] w']| | |]; try contradiction; destruct st; try contradiction. eauto 8.
Qed.
Print Assumptions C93_send_data.
Print Assumptions C93_receive.
Print Assumptions C93_exchange.
Print Assumptions C93_elsewhere.
(** Invalid parameters are refused as ever, before any function of the application is called. *)
Theorem C93_invalid_parameters : forall Ks K fuel cfg E P tr prh body bodyLen pr flags w,
  size_ok cfg -> 0 <= bodyLen < SZ cfg -> (forall r, pr = Some r -> 0 <= r_bufLen r) ->
  send_invalid tr prh body bodyLen pr ->
  Send_k Ks K fuel cfg E P tr prh body bodyLen pr flags w = Ret (HTTPInvalidParameter, prh, pr, w).
Proof.
  intros Ks K fuel cfg E P tr prh body bodyLen pr flags w SO HB HR H. unfold Send_k. rewrite (int32max_mod cfg bodyLen) by auto. unfold HTTP_MINIMUM_REQUEST_LINE_LENGTH.
  destruct tr as [t|]; auto. destruct (t_send t) eqn:E1; cbn [negb]; auto. destruct (t_recv t) eqn:E2; cbn [negb]; auto.
  destruct prh as [h|]; auto. destruct (rh_buf h) eqn:E3; auto.
  destruct (Z.ltb_spec (rh_len h) 16); auto. destruct (Z.ltb_spec (rh_bufLen h) (rh_len h)); auto.
  destruct pr as [r|]; auto. destruct (r_buf r) eqn:E4; auto. destruct (Z.eqb_spec (r_bufLen r) 0); auto.
  destruct body as [p'|].
  - destruct (Z.ltb_spec INT32_MAX bodyLen); auto. exfalso. unfold send_invalid in H.
    destruct H as [H|[(t'&H&H')|[H|[(h'&H&H')|[H|[(r'&H&H')|[(H&H')|H]]]]]]]; try discriminate; try lia; injection H as <-.
    + destruct H'; congruence.
    + destruct H' as [H'|[H'|H']]; [congruence|lia|lia].
    + destruct H'; congruence.
  - destruct (Z.ltb_spec 0 bodyLen); auto. destruct (Z.ltb_spec INT32_MAX bodyLen); auto. exfalso. unfold send_invalid in H.
    destruct H as [H|[(t'&H&H')|[H|[(h'&H&H')|[H|[(r'&H&H')|[(H&H')|H]]]]]]]; try discriminate; try lia; injection H as <-.
    + destruct H'; congruence.
    + destruct H' as [H'|[H'|H']]; [congruence|lia|lia].
    + destruct H'; congruence.
Qed.
Print Assumptions C93_invalid_parameters.
