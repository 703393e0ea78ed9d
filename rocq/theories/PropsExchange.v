(** PropsExchange.v — properties of whole HTTPClient_Send calls: C38, C48-C50. *)
From Verif Require Import Base Lib ModelRequest ModelSend ModelResponse SpecRequest SpecSend SpecResponse SpecHttp SpecParser SpecExchange ProofsRequest ProofsSend ProofsSend2
  ProofsResponse ProofsResponse2 ProofsResponse5 ProofsTwin ProofsExchange RefParser Demo DemoResponse PropsSend PropsResponse PropsResponse2 PropsHttp.

(** ** C38: the place of the buffers does not matter.  Two calls with the same request, body, options, transport and clock
    but with their buffers anywhere - the response buffer may be the request buffer - end alike: same status, same bytes
    sent, received, parsed and passed to the header callback, and the same response at the same place of the response
    buffer.  (If nothing was received the response structure is as it was in both.) *)
Theorem C38_shared_buffer : forall fuel cfg E P t n req len bd L flags h1 hb1 body1 r1 rb1 w1 h2 hb2 body2 r2 rb2 w2 st h1' r1' w1' tr1,
  send_setup cfg E P t h1 hb1 n req body1 len bd r1 rb1 L w1 -> send_setup cfg E P t h2 hb2 n req body2 len bd r2 rb2 L w2 ->
  recv_faithful E -> same_wishes r1 r2 -> same_point w1 w2 -> (body1 = None <-> body2 = None) ->
  exchanges fuel cfg E P t h1 body1 len r1 flags w1 st h1' r1' w1' tr1 ->
  exists h2' r2' w2' tr2, exchanges fuel cfg E P t h2 body2 len r2 flags w2 st h2' r2' w2' tr2 /\
    Forall2 (same_entry rb1 rb2) tr1 tr2 /\ accepted tr1 = accepted tr2 /\ data_received tr1 = data_received tr2 /\
    delivered tr1 = delivered tr2 /\ rh_len h1' = rh_len h2' /\
    (same_response rb1 rb2 (w_mem w1') (w_mem w2') r1' r2' \/ received tr1 = 0 /\ r1' = with_clock r1 /\ r2' = with_clock r2).
Proof.
  intros fuel cfg E P t n req len bd L flags h1 hb1 body1 r1 rb1 w1 h2 hb2 body2 r2 rb2 w2 st h1' r1' w1' tr1 S1 S2 RF V N BN (X1&X2).
  pose proof (Send_twin fuel cfg E P t n req len bd L flags h1 hb1 body1 r1 rb1 w1 h2 hb2 body2 r2 rb2 w2 S1 S2 RF V N BN) as T. rewrite X1 in T. unfold twin_sends in T.
  destruct (Send fuel cfg E P (Some t) (Some h2) body2 len (Some r2) flags w2) as [[[[st2 oh2] or2] w2']| | |] eqn:Y; try contradiction. cbn zeta in T.
  destruct T as (<-&g1&h2'&q1&r2'&t1&tr2&Q1&->&Q2&->&LH&(L1&L2&F)&K). injection Q1 as <-. injection Q2 as <-. rewrite X2 in L1. apply app_inv_head in L1. subst t1.
  exists h2', r2', w2', tr2. split; [split; auto|]. split; auto.
  assert (G : accepted tr1 = accepted tr2 /\ data_received tr1 = data_received tr2 /\ delivered tr1 = delivered tr2).
  { clear - F. induction F as [|x y l1 l2 XY F IH]; auto. destruct IH as (A&C&D). destruct x, y; cbn [same_entry] in XY; try contradiction; cbn [accepted data_received delivered];
    repeat match goal with H : _ /\ _ |- _ => destruct H end; subst; rewrite ?A, ?C, ?D; auto. }
  destruct G as (G1&G2&G3). auto.
Qed.
(** A call still running when the fuel runs out is still running, and has done the same, with the other buffers. *)
Theorem C38_shared_buffer_running : forall fuel cfg E P t n req len bd L flags h1 hb1 body1 r1 rb1 w1 h2 hb2 body2 r2 rb2 w2 w1',
  send_setup cfg E P t h1 hb1 n req body1 len bd r1 rb1 L w1 -> send_setup cfg E P t h2 hb2 n req body2 len bd r2 rb2 L w2 ->
  recv_faithful E -> same_wishes r1 r2 -> same_point w1 w2 -> (body1 = None <-> body2 = None) ->
  Send fuel cfg E P (Some t) (Some h1) body1 len (Some r1) flags w1 = More w1' ->
  exists w2' tr1 tr2, Send fuel cfg E P (Some t) (Some h2) body2 len (Some r2) flags w2 = More w2' /\
    w_tr w1' = w_tr w1 ++ tr1 /\ w_tr w2' = w_tr w2 ++ tr2 /\ Forall2 (same_entry rb1 rb2) tr1 tr2.
Proof.
  intros fuel cfg E P t n req len bd L flags h1 hb1 body1 r1 rb1 w1 h2 hb2 body2 r2 rb2 w2 w1' S1 S2 RF V N BN X1.
  pose proof (Send_twin fuel cfg E P t n req len bd L flags h1 hb1 body1 r1 rb1 w1 h2 hb2 body2 r2 rb2 w2 S1 S2 RF V N BN) as T. rewrite X1 in T. unfold twin_sends in T.
  destruct (Send fuel cfg E P (Some t) (Some h2) body2 len (Some r2) flags w2) as [[[[st2 oh2] or2] w2']| | |w2'] eqn:Y; try contradiction. cbn zeta in T.
  destruct T as (t1&t2&L1&L2&F). exists w2', t1, t2. auto.
Qed.

(** ** C48: a call with valid arguments never reads or writes outside the two buffers and the body, and fails no assertion. *)
Theorem C48_send_is_safe : forall fuel cfg E P t h hbuf n req body len bd r rbuf L w flags,
  send_setup cfg E P t h hbuf n req body len bd r rbuf L w ->
  exists o w' tr, wout (Send fuel cfg E P (Some t) (Some h) body len (Some r) flags w) = Some (o, w') /\ w_tr w' = w_tr w ++ tr /\
    same_outside2 (w_mem w) (w_mem w') hbuf n rbuf L /\
    (forall x, o = Some x -> exists st h' r', x = (st, Some h', Some r') /\ rh_buf h' = Some hbuf /\ rh_bufLen h' = n /\ rh_len h <= rh_len h' <= n) /\
    (forall tr1 p room k d tr2, tr = tr1 ++ TRecv p room k d :: tr2 -> inside rbuf L p room /\ 0 < room).
Proof.
  intros fuel cfg E P t h hbuf n req body len bd r rbuf L w flags S.
  destruct (Send_split fuel _ _ _ _ _ _ _ _ _ _ _ _ _ _ _ flags S) as (block&sent&h1&w1&WH&SN&TR&_&SM&_&HO&HR&X). cbn zeta in X.
  pose proof S as (SO&SC&RC&PO&T1&T2&H&LR&W&HL&HI&BA&RB&RL&OB&LL). pose proof (wire_len _ _ _ _ WH) as WL. pose proof (holds_len _ _ _ _ _ H) as HH.
  assert (NR : forall tr1 p room k d tr2, sent = tr1 ++ TRecv p room k d :: tr2 -> inside rbuf L p room /\ 0 < room).
  { intros tr1 p room k d tr2 Q. exfalso. subst sent. apply Forall_app in SN. destruct SN as (_&SN). inversion SN; subst; auto. }
  assert (SM2 : same_outside2 (w_mem w) (w_mem w1) hbuf n rbuf L).
  { destruct SM as (A&C&D). split; [auto|]. split; [auto|]. intros b i I N1 N2. apply D; auto. }
  assert (HB : zlen block <= n -> rh_buf h1 = Some hbuf /\ rh_bufLen h1 = n /\ rh_len h <= rh_len h1 <= n).
  { intros C. specialize (HO C). pose proof (holds_len _ _ _ _ _ HO). destruct HO as (Q1&Q2&_&Q3&_). repeat split; auto; lia. }
  destruct X as [X|[(X&X1&X2)|[(X&X1&X2&X3&X4)|(X1&X2&X3&X4)]]]; try rewrite X; cbn [wout].
  - exists None, w1, sent. split; [auto|]. split; [auto|]. split; [auto|]. split; [discriminate|auto].
  - do 2 eexists. exists sent. split; [reflexivity|]. split; [auto|]. split; [auto|]. split; [|auto].
    intros x Q. injection Q as <-. do 3 eexists. split; [reflexivity|]. apply HB. auto.
  - do 2 eexists. exists sent. split; [reflexivity|]. split; [auto|]. split; [auto|]. split; [|auto].
    intros x Q. injection Q as <-. do 3 eexists. split; [reflexivity|]. subst h1. destruct H as (Q1&Q2&_&Q3&_). repeat split; auto; lia.
  - destruct (C19_receive_stays_in_buffer fuel _ _ _ _ _ _ _ _ _ _ X3) as (o&w2&tr&R1&R2&R3&(A&C&D)).
    assert (SM3 : same_outside2 (w_mem w) (w_mem w2) hbuf n rbuf L).
    { destruct SM2 as (A'&C'&D'). split; [congruence|]. split; [intros b; congruence|]. intros b i I N1 N2. rewrite D' by auto. apply D; auto. }
    assert (NR2 : forall tr1 p room k d tr2, sent ++ tr = tr1 ++ TRecv p room k d :: tr2 -> inside rbuf L p room /\ 0 < room).
    { intros tr1 p room k d tr2 Q. assert (exists tr0, tr = tr0 ++ TRecv p room k d :: tr2) as (tr0&Q0).
      { clear - SN Q. revert tr1 Q. induction SN as [|x sent XX SN IH]; intros tr1 Q; [exists tr1; auto|]. destruct tr1 as [|y tr1]; [injection Q as -> _; contradiction|]. injection Q as _ Q. eapply IH; eauto. }
      assert (RP : forall l, 0 <= received l) by (induction l as [|[] l IH]; cbn [received]; lia).
      destruct (R3 _ _ _ _ _ _ Q0) as (->&->&RR&_). split; [|auto]. exists (received tr0). split; [auto|]. pose proof (RP tr0). lia. }
    rewrite X4. pose proof (C20_receive_is_safe fuel _ _ _ _ _ _ _ _ _ _ X3) as C20.
    destruct C20 as [(st&r'&w'&Q)|(w'&Q)]; rewrite Q in *; cbn [bind wout] in *; injection R1 as <- <-.
    + do 2 eexists. exists (sent ++ tr). split; [reflexivity|]. split; [rewrite R2, TR, app_assoc; auto|]. split; [auto|]. split; [|auto].
      intros x Q1. injection Q1 as <-. do 3 eexists. split; [reflexivity|]. apply HB. auto.
    + do 2 eexists. exists (sent ++ tr). split; [reflexivity|]. split; [rewrite R2, TR, app_assoc; auto|]. split; [auto|]. split; [discriminate|auto].
Qed.

(** ** C49: every call ends, whatever the transport does *)
(** With a clock that advances: the number of calls to send and recv is bounded by the sizes and timeouts. *)
Theorem C49_send_terminates : forall fuel cfg E P t h hbuf n req body len bd r rbuf L w flags,
  send_setup cfg E P t h hbuf n req body len bd r rbuf L w -> config_ok cfg -> r_time r = TUser -> advancing E (SEND_TO cfg) -> advancing E (RECV_TO cfg) ->
  let S1 := SEND_TO cfg + 1 in let R1 := RECV_TO cfg + 1 in
  (n + len + 1) * S1 < Z.of_nat fuel -> (L + 1) * R1 < Z.of_nat fuel ->
  exists st h' r' w' tr, exchanges fuel cfg E P t h body len r flags w st h' r' w' tr /\ sends tr <= (n + len + 2) * S1 /\ recvs tr <= (L + 1) * R1.
Proof.
  intros fuel cfg E P t h hbuf n req body len bd r rbuf L w flags S CO TU A1 A2 S1 R1 F1 F2.
  pose proof S as (SO&SC&RC&PO&T1&T2&H&LR&W&HL&HI&BA&RB&RL&OB&LL). pose proof CO as (_&_&_&_&TS&TR). unfold two32 in TS, TR.
  assert (WC : with_clock r = r) by (unfold with_clock; rewrite TU; auto).
  assert (N0 : 0 <= n) by (destruct H as (_&_&(Q&_)&_); lia).
  assert (S0 : 0 <= S1) by (unfold S1; lia). assert (R0 : 0 <= R1) by (unfold R1; lia).
  destruct (Send_ends fuel cfg E P t h hbuf n req body len bd r rbuf L w flags S1 S1 ((L + 1) * R1) S S0 S0 ltac:(nia)) as (st&h'&r'&w'&tr&X1&X2&X3).
  - rewrite WC, TU. intros p k w0 O K.
    assert (B : k * (SEND_TO cfg + 1) + SEND_TO cfg + 1 <= Z.of_nat fuel) by (fold S1; destruct O as (?&_); assert (k * S1 <= (n + len) * S1) by (apply Z.mul_le_mono_nonneg_r; lia); unfold S1 in *; lia).
    destruct (C16_send_terminates fuel cfg E t p k w0 SC T1 O ltac:(lia) A1 B) as (st&w'&tr&Q1&Q2&Q3). exists st, w', tr. split; [auto|]. split; [auto|]. unfold S1. lia.
  - rewrite WC. intros rh blk w1 RS. destruct (C44_receive_terminates fuel cfg E P t r rh rbuf L blk w1 RS CO TU A2 ltac:(unfold R1 in *; lia)) as (st&r'&w'&tr&Q1&Q2).
    exists st, r', w', tr. split; [auto|]. unfold R1. lia.
  - exists st, h', r', w', tr. split; [auto|]. split; lia.
Qed.
(** Without a clock: one call for each byte, and one more for each of headers, body and response. *)
Theorem C49_send_terminates_without_clock : forall fuel cfg E P t h hbuf n req body len bd r rbuf L w flags,
  send_setup cfg E P t h hbuf n req body len bd r rbuf L w -> r_time r <> TUser ->
  n + len + 1 < Z.of_nat fuel -> L + 1 < Z.of_nat fuel ->
  exists st h' r' w' tr, exchanges fuel cfg E P t h body len r flags w st h' r' w' tr /\ sends tr <= n + len + 2 /\ recvs tr <= L + 1.
Proof.
  intros fuel cfg E P t h hbuf n req body len bd r rbuf L w flags S TU F1 F2.
  pose proof S as (SO&SC&RC&PO&T1&T2&H&LR&W&HL&HI&BA&RB&RL&OB&LL).
  assert (WC : r_time (with_clock r) = TZero) by (unfold with_clock; destruct (r_time r) eqn:Q; auto; contradiction).
  assert (N0 : 0 <= n) by (destruct H as (_&_&(Q&_)&_); lia).
  destruct (Send_ends fuel cfg E P t h hbuf n req body len bd r rbuf L w flags 1 1 (L + 1) S ltac:(lia) ltac:(lia) ltac:(lia)) as (st&h'&r'&w'&tr&X1&X2&X3).
  - rewrite WC. intros p k w0 O K.
    destruct (C16_send_terminates_no_clock fuel cfg E t p k w0 SC T1 O ltac:(lia)) as (st&w'&tr&Q1&Q2&Q3). exists st, w', tr. split; [auto|]. split; [auto|]. lia.
  - intros rh blk w1 RS. apply (C44_receive_terminates_without_clock fuel cfg E P t _ rh rbuf L blk w1 RS WC F2).
  - exists st, h', r', w', tr. split; [auto|]. split; lia.
Qed.
(** The fuel is only a device of the model: with more of it a completed call does the same. *)
Theorem C49_fuel_does_not_matter : forall fuel fuel' cfg E P tr h body len r flags w x,
  Send fuel cfg E P tr h body len r flags w = Ret x -> (fuel <= fuel')%nat -> Send fuel' cfg E P tr h body len r flags w = Ret x.
Proof. intros. eapply Send_fuel; eauto. Qed.

(** ** C50: a whole exchange with a server that answers with a well-formed response *)
Lemma opened_head req o : opened req o -> 16 <= zlen req -> slice o 0 4 = slice req 0 4 /\ 14 <= zlen o.
Proof.
  intros [(pre&->&->)|(_&->)] L; [|split; [auto|lia]]. rewrite !zlen_app in L. change (zlen CRLF) with 2 in L.
  rewrite zlen_app. change (zlen CRLF) with 2. split; [|lia]. rewrite !slice_of_app_l by (rewrite ?zlen_app; lia). reflexivity.
Qed.
Lemma wire_method flags len req block : wire_headers flags len req block -> 16 <= zlen req -> slice block 0 4 = slice req 0 4.
Proof.
  unfold wire_headers. destruct (_ || _); [intros ->; auto|]. intros (o&d&OP&_&->) L. destruct (opened_head _ _ OP L) as (E&G).
  rewrite slice_of_app_l by lia. exact E.
Qed.
Lemma accepted_only sent tr : no_send tr -> accepted (sent ++ tr) = accepted sent.
Proof. intros H. rewrite accepted_app. replace (accepted tr) with ([] : bytes); [apply app_nil_r|]. induction H as [|x tr X F IH]; auto. destruct x; cbn in *; tauto. Qed.
Lemma send_only_data sent tr : send_only sent -> data_received (sent ++ tr) = data_received tr /\ delivered (sent ++ tr) = delivered tr /\ recvs (sent ++ tr) = recvs tr.
Proof. induction 1 as [|x sent X F IH]; auto. destruct x; cbn in *; tauto. Qed.
Lemma recv_failed_pre sent tr : recv_failed tr -> recv_failed (sent ++ tr).
Proof. intros (a&p&room&n&d&->&N). exists (sent ++ a), p, room, n, d. rewrite app_assoc. auto. Qed.
Lemma last_recv_pre sent tr n : last_recv tr n -> last_recv (sent ++ tr) n.
Proof. intros (a&p&room&d&b&->&N). exists (sent ++ a), p, room, d, b. rewrite <- app_assoc. auto. Qed.
Lemma gives_pre cfg buf L resp r r' w' sent tr : send_only sent -> gives cfg buf L resp r r' w' tr -> gives cfg buf L resp r r' w' (sent ++ tr).
Proof. intros S []. constructor; auto. intros C. destruct (send_only_data sent tr S) as (_&->&_). auto. Qed.
Lemma with_clock_same r : r_cb (with_clock r) = r_cb r /\ r_opt (with_clock r) = r_opt r.
Proof. unfold with_clock. destruct (r_time r); auto. Qed.
Lemma gives_clock cfg buf L resp r r' w' tr : gives cfg buf L resp (with_clock r) r' w' tr -> gives cfg buf L resp r r' w' tr.
Proof. intros []. constructor; auto. rewrite (proj1 (with_clock_same r)) in *. auto. Qed.

(** After the request was sent HTTPClient_Send is HTTPClient_ReceiveAndParseHttpResponse, so C19-C36 and C40-C45 hold for what it
    reports; before, it touches neither the response nor the receiving side of the transport. *)
Theorem C50_send_then_receive : forall fuel cfg E P t h hbuf n req body len bd r rbuf L w flags st h' r' w' tr,
  send_setup cfg E P t h hbuf n req body len bd r rbuf L w -> exchanges fuel cfg E P t h body len r flags w st h' r' w' tr ->
  exists block, wire_headers flags len req block /\
    ((tr = [] /\ st = HTTPInsufficientMemory /\ n < zlen block /\ h' = h /\ r' = with_clock r /\ w' = w) \/
     (send_only tr /\ st = HTTPNetworkError /\ zlen block <= n /\ prefix (accepted tr) (block ++ bd) /\ zlen (accepted tr) < zlen (block ++ bd) /\ r' = with_clock r) \/
     (exists sent rtr w1, tr = sent ++ rtr /\ zlen block <= n /\ send_only sent /\ no_send rtr /\ accepted tr = block ++ bd /\
        recv_setup cfg E P t (with_clock r) h' rbuf L block w1 /\ receives fuel cfg E P t (with_clock r) h' w1 st r' w' rtr)).
Proof.
  intros fuel cfg E P t h hbuf n req body len bd r rbuf L w flags st h' r' w' tr S (X0&XT). destruct (Send_split fuel _ _ _ _ _ _ _ _ _ _ _ _ _ _ _ flags S) as (block&sent&h1&w1&WH&SN&TR&_&SM&PF&HO&HR&X). cbn zeta in X.
  exists block. split; [auto|]. destruct X as [X|[(X&X1&X2)|[(X&X1&X2&X3&X4)|(X1&X2&X3&X4)]]]; try (rewrite X in X0; try discriminate).
  - injection X0 as <- <- <- <-. rewrite TR in XT. apply app_inv_head in XT. subst sent. right. left. auto 10.
  - injection X0 as <- <- <- <-. subst. rewrite <- (app_nil_r (w_tr w)) in XT at 1. apply app_inv_head in XT. subst. left. auto 10.
  - rewrite X4 in X0. right. right. unfold receives.
    destruct (ReceiveAndParseHttpResponse fuel cfg E P (Some t) (Some (with_clock r)) (Some h1) w1) as [[[s2 p2] w2]| | |] eqn:Q; try discriminate. cbn [bind] in X0. injection X0 as -> <- -> ->.
    destruct (Receive_ext _ _ _ _ _ _ _ _ (Some (st, Some r')) w' ltac:(rewrite Q; reflexivity)) as (tq&Q1&Q2).
    rewrite Q1, TR, <- app_assoc in XT. apply app_inv_head in XT. subst tr.
    exists sent, tq, w1. split; [auto|]. split; [auto|]. split; [auto|]. split; [auto|]. split; [|split; [auto|split; auto]]. rewrite accepted_only by auto. auto.
Qed.
(** What was transmitted, and whether anything was asked of the transport before the request was out. *)
Definition not_sent (n : Z) (block bd : bytes) (st : status) (tr : list tev) : Prop :=
  recvs tr = 0 /\ (st = HTTPInsufficientMemory /\ n < zlen block /\ sends tr = 0 \/ st = HTTPNetworkError /\ zlen (accepted tr) < zlen (block ++ bd)).

Theorem C50_well_formed_exchange : forall fuel cfg E t h hbuf n req body len bd r rbuf L w flags st h' r' w' tr resp,
  send_setup cfg E refparser t h hbuf n req body len bd r rbuf L w -> recv_faithful E -> no_parse_body r = false ->
  exchanges fuel cfg E refparser t h body len r flags w st h' r' w' tr ->
  http_ok (beqb (slice req 0 4) (B "HEAD")) resp -> (forall d, p_body resp <> ToClose d) -> zlen (http_bytes resp) <= L ->
  (exists rest, http_bytes resp = data_received tr ++ rest) ->
  exists block, wire_headers flags len req block /\ prefix (accepted tr) (block ++ bd) /\
    (not_sent n block bd st tr \/
     accepted tr = block ++ bd /\
     ((data_received tr = http_bytes resp /\ st = HTTPSuccess /\ gives cfg rbuf L resp r r' w' tr) \/
      (zlen (data_received tr) < zlen (http_bytes resp) /\
       (recv_failed tr /\ st = HTTPNetworkError \/
        last_recv tr 0 /\ st = (match data_received tr with [] => HTTPNoResponse | _ => HTTPPartialResponse end))))).
Proof.
  intros fuel cfg E t h hbuf n req body len bd r rbuf L w flags st h' r' w' tr resp S RF ND X OK NC LE PF.
  destruct (C50_send_then_receive _ _ _ _ _ _ _ _ _ _ _ _ _ _ _ _ _ _ _ _ _ _ S X) as (block&WH&D). exists block. split; [auto|].
  pose proof S as (_&_&_&_&_&_&_&LR&_).
  destruct D as [(->&->&BN&->&->&->)|[(SN&->&BN&PX&LT&->)|(sent&rtr&w1&->&BN&SN&NS&AC&RS&RV)]].
  - split; [exists (block ++ bd); reflexivity|]. left. split; [reflexivity|]. left. auto.
  - split; [auto|]. left. split; [apply send_only_recvs; auto|]. right. auto.
  - rewrite AC. split; [exists []; rewrite app_nil_r; reflexivity|]. right. split; [auto|].
    destruct (send_only_data sent rtr SN) as (D1&D2&D3). rewrite D1 in *.
    rewrite <- (wire_method _ _ _ _ WH LR) in OK.
    assert (ND' : no_parse_body (with_clock r) = false) by (unfold no_parse_body; rewrite (proj2 (with_clock_same r)); auto).
    destruct (C43_well_formed_response _ _ _ _ _ _ _ _ _ _ _ _ _ _ resp RS RF ND' RV OK NC LE PF) as [(A1&A2&A3)|(A1&A2)].
    + left. split; [auto|]. split; [auto|]. apply gives_clock, gives_pre; auto.
    + right. split; [auto|]. destruct A2 as [(A2&A3)|(A2&A3)]; [left; split; [apply recv_failed_pre|]; auto|right; split; [apply last_recv_pre|]; auto].
Qed.
(** The transport takes at least one byte of whatever it is offered; the server's response comes in any pieces, with pauses shorter
    than the timeout: the call succeeds, the server got the whole request, the application gets the whole response. *)
Theorem C50_successful_exchange : forall fuel cfg E t h hbuf n req body len bd r rbuf L w flags block resp ps,
  send_setup cfg E refparser t h hbuf n req body len bd r rbuf L w -> recv_faithful E -> no_parse_body r = false ->
  (forall i k, 0 < k -> 0 < e_send E i k) -> wire_headers flags len req block -> zlen block <= n ->
  http_ok (beqb (slice req 0 4) (B "HEAD")) resp -> (forall d, p_body resp <> ToClose d) -> zlen (http_bytes resp) <= L ->
  concat ps = http_bytes resp -> feeds E (w_nr w) ps -> (forall nt, prompt cfg E (r_time (with_clock r)) nt ps) ->
  n + len < Z.of_nat fuel -> (length ps < fuel)%nat ->
  exists h' r' w' tr, exchanges fuel cfg E refparser t h body len r flags w HTTPSuccess h' r' w' tr /\
    accepted tr = block ++ bd /\ data_received tr = http_bytes resp /\ gives cfg rbuf L resp r r' w' tr.
Proof.
  intros fuel cfg E t h hbuf n req body len bd r rbuf L w flags block resp ps S RF ND WI WH C OK NC LE CC FE PR F1 F2.
  destruct (Send_willing _ _ _ _ _ _ _ _ _ _ _ _ _ _ _ _ flags block S WI F1 WH C) as (sent&h1&w1&SN&TR&NR&AC&RS&ES). pose proof S as (_&_&_&_&_&_&_&LR&_).
  rewrite <- (wire_method _ _ _ _ WH LR) in OK. rewrite <- NR in FE.
  assert (ND' : no_parse_body (with_clock r) = false) by (unfold no_parse_body; rewrite (proj2 (with_clock_same r)); auto).
  destruct (C43_every_fragmentation fuel _ _ _ _ _ _ _ _ _ resp ps RS RF ND' OK NC LE CC FE (PR _) F2) as (r'&w'&tr&(R1&R2)&R3&R4).
  unfold exchanges. rewrite ES, R1. cbn [bind]. exists h1, r', w', (sent ++ tr). split; [split; [auto|rewrite R2, TR, app_assoc; auto]|].
  destruct (Receive_ext _ _ _ _ _ _ _ _ (Some (HTTPSuccess, Some r')) w' ltac:(rewrite R1; reflexivity)) as (tq&Q1&Q2). rewrite Q1 in R2. apply app_inv_head in R2. subst tq.
  split; [rewrite accepted_only by auto; auto|]. destruct (send_only_data sent tr SN) as (D1&_&_). rewrite D1. split; [auto|]. apply gives_clock, gives_pre; auto.
Qed.

(** * Cases: the hypotheses above are met by concrete calls. *)
(** Separate buffers of 300 bytes each, in two blocks; one buffer of 300 bytes for both. *)
Definition hx : reqHeaders := mkrh (Some buf0) 300 (zlen req1).
Definition wsep : world := mkw [req1 ++ repeat 0 (300 - length req1); repeat 0 300; B "data"] 0 0 0 [].
Definition wshared : world := mkw [req1 ++ repeat 0 (300 - length req1); B "data"] 0 0 0 [].
Definition rsep : response := mkresp (Some rbuf) 300 true TUser None 0 None 0 0 0 0 0 0 0.
Definition rshared : response := mkresp (Some buf0) 300 true TUser None 0 None 0 0 0 0 0 0 0.
Definition env_ex (ps : list bytes) : env := mkenv (fun _ k => Z.min k 50) (fun i room => give (nth i ps []) room) (fun n => 100 * Z.of_nat n).
Lemma env_ex_ok ps : send_contract (env_ex ps) /\ recv_contract (env_ex ps) /\ recv_faithful (env_ex ps) /\ (forall i k, 0 < k -> 0 < e_send (env_ex ps) i k).
Proof.
  split; [intros i k H; cbn [env_ex e_send]; lia|]. split; [exact (env_of_contract ps)|]. split; [exact (env_of_faithful ps)|]. intros i k H; cbn [env_ex e_send]; lia.
Qed.
Lemma setup_ex ps : send_setup cfg0 (env_ex ps) refparser trr hx buf0 300 req1 (Some (mkptr 2 0)) 4 (B "data") rsep rbuf 300 wsep /\
  send_setup cfg0 (env_ex ps) refparser trr hx buf0 300 req1 (Some (mkptr 1 0)) 4 (B "data") rshared buf0 300 wshared.
Proof.
  destruct (env_ex_ok ps) as (A&C&_). assert (SZO : size_ok cfg0) by (exists 32; split; [lia|reflexivity]).
  split.
  all: split; [exact SZO|]; split; [exact A|]; split; [exact C|]; split; [apply refparser_ok|]; split; [reflexivity|]; split; [reflexivity|].
  all: split; [split; [reflexivity|]; split; [reflexivity|]; split; [vm_compute; repeat split; discriminate|]; split; [vm_compute; repeat split; discriminate|reflexivity]|].
  all: split; [vm_compute; discriminate|]; split; [reflexivity|]; split; [split; [discriminate|reflexivity]|]; split; [vm_compute; discriminate|].
  all: split; [split; [vm_compute; repeat split; discriminate|]; split; [left; discriminate|reflexivity]|].
  all: split; [reflexivity|]; split; [reflexivity|]; split; [vm_compute; repeat split; discriminate|]; split; reflexivity.
Qed.
Example C38_case : exists h1' r1' w1' tr1 h2' r2' w2' tr2,
  exchanges 100 cfg0 (env_ex resp_ok) refparser trr hx (Some (mkptr 2 0)) 4 rsep 0 wsep HTTPSuccess h1' r1' w1' tr1 /\
  exchanges 100 cfg0 (env_ex resp_ok) refparser trr hx (Some (mkptr 1 0)) 4 rshared 0 wshared HTTPSuccess h2' r2' w2' tr2 /\
  same_wishes rsep rshared /\ same_point wsep wshared /\
  accepted tr2 = B "GET / HTTP/1.1" ++ CRLF ++ B "Host: h" ++ CRLF ++ B "Content-Length: 4" ++ CRLF ++ CRLF ++ B "data" /\
  delivered tr2 = [(B "Content-Length", B "5", 200); (B "A", B "b", 200)] /\
  (exists q, r_body r2' = Some q /\ bytes_at (w_mem w2') q (r_bodyLen r2') = B "hello") /\
  same_response rbuf buf0 (w_mem w1') (w_mem w2') r1' r2'.
Proof.
  destruct (setup_ex resp_ok) as (S1&S2). destruct (env_ex_ok resp_ok) as (_&_&RF&_).
  assert (V : same_wishes rsep rshared) by (repeat split; reflexivity). assert (N : same_point wsep wshared) by (repeat split; reflexivity).
  assert (X : exists st h1' r1' w1', Send 100 cfg0 (env_ex resp_ok) refparser (Some trr) (Some hx) (Some (mkptr 2 0)) 4 (Some rsep) 0 wsep = Ret (st, Some h1', Some r1', w1') /\ st = HTTPSuccess /\ received (w_tr w1') = 49).
  { vm_compute. do 4 eexists. split; [reflexivity|]. split; reflexivity. }
  destruct X as (st&h1'&r1'&w1'&X&->&XR).
  assert (X' : exchanges 100 cfg0 (env_ex resp_ok) refparser trr hx (Some (mkptr 2 0)) 4 rsep 0 wsep HTTPSuccess h1' r1' w1' (w_tr w1')) by (split; [exact X|reflexivity]).
  destruct (C38_shared_buffer _ _ _ _ _ _ _ _ _ _ _ _ _ _ _ _ _ _ _ _ _ _ _ _ _ _ _ _ S1 S2 RF V N ltac:(split; discriminate) X') as (h2'&r2'&w2'&tr2&Y1&F&A1&A2&A3&A4&A5).
  exists h1', r1', w1', (w_tr w1'), h2', r2', w2', tr2. split; [auto|]. split; [auto|]. split; [auto|]. split; [auto|].
  rewrite <- A1, <- A3. destruct A5 as [A5|(A5&_)]; [|lia].
  destruct Y1 as (Y1&Y2). clear - X Y1 A5. split; [|split; [|split; [|auto]]].
  - revert X. clear. vm_compute. intros X. injection X as <- <- <-. reflexivity.
  - revert X. clear. vm_compute. intros X. injection X as <- <- <-. reflexivity.
  - revert Y1. clear. vm_compute. intros X. injection X as <- <- <-. eexists. split; reflexivity.
Qed.
Example C48_case : send_setup cfg0 (env_ex resp_ok) refparser trr hx buf0 300 req1 (Some (mkptr 1 0)) 4 (B "data") rshared buf0 300 wshared.
Proof. apply setup_ex. Qed.
Example C49_case : advancing (env_ex resp_ok) (SEND_TO cfg0) /\ advancing (env_ex resp_ok) (RECV_TO cfg0) /\ config_ok cfg0 /\ r_time rshared = TUser.
Proof.
  assert (A : forall T, T = 1000 -> advancing (env_ex resp_ok) T) by (intros T -> n; cbn [env_ex e_time]; lia).
  split; [apply A; reflexivity|]. split; [apply A; reflexivity|]. split; [apply cfg0_ok|reflexivity].
Qed.
(** One buffer for request and response: any cut of the response into non-empty pieces. *)
Example C50_case : forall ps, Forall (fun p => p <> []) ps -> concat ps = http_bytes ex_sized ->
  exists h' r' w' tr, exchanges (305 + length ps) cfg0 (env_ex ps) refparser trr hx (Some (mkptr 1 0)) 4 rshared 0 wshared HTTPSuccess h' r' w' tr /\
    accepted tr = B "GET / HTTP/1.1" ++ CRLF ++ B "Host: h" ++ CRLF ++ B "Content-Length: 4" ++ CRLF ++ CRLF ++ B "data" /\
    data_received tr = http_bytes ex_sized /\ gives cfg0 buf0 300 ex_sized rshared r' w' tr.
Proof.
  intros ps NE CC. destruct (setup_ex ps) as (_&S). destruct (env_ex_ok ps) as (_&_&RF&WI).
  assert (WH : wire_headers 0 4 req1 (B "GET / HTTP/1.1" ++ CRLF ++ B "Host: h" ++ CRLF ++ B "Content-Length: 4" ++ CRLF ++ CRLF)).
  { cbn [wire_headers]. exists (B "GET / HTTP/1.1" ++ CRLF ++ B "Host: h" ++ CRLF), (B "4"). split; [left; exists (B "GET / HTTP/1.1" ++ CRLF ++ B "Host: h"); split; reflexivity|].
    split; [|reflexivity]. cbn. split; [discriminate|]. split; [repeat constructor; discriminate|]. split; [discriminate|reflexivity]. }
  destruct (C50_successful_exchange (305 + length ps) cfg0 (env_ex ps) trr hx buf0 300 req1 (Some (mkptr 1 0)) 4 (B "data") rshared buf0 300 wshared 0 _ ex_sized ps S RF eq_refl WI WH)
    as (h'&r'&w'&tr&X1&X2&X3&X4); [vm_compute; discriminate|exact ex_sized_ok|discriminate|vm_compute; discriminate|exact CC|exact (env_of_feeds ps)|intros; apply nonempty_prompt; auto|lia|lia|].
  exists h', r', w', tr. split; [exact X1|]. split; [exact X2|]. split; auto.
Qed.

Print Assumptions C38_shared_buffer.
Print Assumptions C38_shared_buffer_running.
Print Assumptions C48_send_is_safe.
Print Assumptions C49_send_terminates.
Print Assumptions C49_send_terminates_without_clock.
Print Assumptions C49_fuel_does_not_matter.
Print Assumptions C50_send_then_receive.
Print Assumptions C50_well_formed_exchange.
Print Assumptions C50_successful_exchange.
