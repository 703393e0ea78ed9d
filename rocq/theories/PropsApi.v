(** PropsApi.v — any use of the interface (SpecApi.v). *)
From Verif Require Import Base Lib ModelRequest ModelSend ModelResponse ModelReadHeader SpecRequest SpecSend SpecResponse SpecReadHeader SpecHttp SpecParser SpecExchange SpecExact2 SpecApi
  ProofsRequest ProofsRequest2 ProofsHistory ProofsSend ProofsSend2 ProofsResponse ProofsResponse2 ProofsResponse3 ProofsResponse4 ProofsResponse5 ProofsReadHeader ProofsTwin ProofsExchange
  RefParser ProofsReadHttp Demo DemoResponse PropsRequest PropsSend PropsResponse PropsResponse2 PropsReadHeader PropsExchange PropsExact2.
Local Notation reports := SpecReadHeader.reports.

(** ** ReadHeader *)
(** Every event of one call lies in the data. *)
Lemma reports_in {S} R n (t : ptree S) : forall ph pos, 0 <= pos -> conforms R n ph pos t ->
  forall off len, In (EvValue off len) (fst (reports t)) -> 0 <= off /\ 0 <= len /\ off + len <= n.
Proof.
  induction t as [e q|ev k IH]; intros ph pos Z0 C off len I; cbn [reports] in I; [destruct I|].
  cbn [conforms] in C. destruct C as (OK&C).
  set (a := match ev with EvHeadersComplete _ _ _ _ => CbNoBody | _ => CbContinue end) in *.
  destruct (C a) as (ph'&_&C'); [unfold a; destruct ev; auto|].
  destruct (reports (k a)) as [evs e] eqn:E. cbn [fst] in I. destruct I as [->|I].
  - cbn [ev_ok] in OK. lia.
  - apply (IH a ph' (ev_end pos ev)); auto; [|rewrite E; exact I]. destruct ev; cbn [ev_ok ev_end] in *; lia.
Qed.
(** ** C61: HTTPClient_ReadHeader is safe on any buffer *)
Theorem C61_read_header_is_safe : forall P m r buf L field n name,
  parser_ok P -> whole_names P -> r_buf r = Some buf -> r_bufLen r = L -> object m buf L -> 0 < L ->
  src_bytes m field n = Ret name -> 0 < n ->
  exists st out, ReadHeader P m (Some r) field n true true = Ret (st, out) /\
    (st = HTTPSuccess /\ (exists p len, out = Some (Some p, len) /\ inside buf L p len /\ 0 < len) \/
     st = HTTPSuccess /\ out = Some (None, 0) \/
     (st = HTTPHeaderNotFound \/ st = HTTPInvalidResponse) /\ out = None).
Proof.
  intros P m r buf L field n name PO WN HB1 HB2 HO HL HA Hn.
  destruct (reports (p_exec P (p_init P) (bytes_at m buf L))) as [evs e] eqn:RP.
  destruct (C34_first_match_partial P m r buf L field n name evs e PO WN HB1 HB2 HO HL HA Hn RP) as (st&out&E&D).
  exists st, out. split; [auto|].
  destruct D as [(->&a&o&l&vo&vl&b&E1&_&_&->)|[(->&_&[(_&->)|(_&->)])|(->&->&_)]]; [|auto|auto|auto].
  destruct PO as (R&R0&PO). pose proof (PO _ _ (bytes_at m buf L) R0) as C. rewrite (bytes_at_len _ _ _ HO) in C.
  destruct (reports_in R L _ _ 0 ltac:(lia) C vo vl) as (V1&V2&V3).
  { rewrite RP. cbn [fst]. rewrite E1. apply in_or_app. right. right. left. reflexivity. }
  unfold value_at. destruct (Z.ltb_spec 0 vl); [left|right; left; auto]. split; [auto|]. exists (poff buf vo), vl. split; [auto|]. split; [|auto].
  exists vo. auto.
Qed.
Print Assumptions C61_read_header_is_safe.

(** ** C62: any use of the interface *)
Record good (hbuf : ptr) (n : Z) (rbuf : ptr) (L : Z) (s : app) : Prop := mkgood {
  gd_hbuf : rh_buf (a_h s) = Some hbuf;  gd_n : rh_bufLen (a_h s) = n;  gd_len : 0 <= rh_len (a_h s) <= n;  gd_ho : object (w_mem (a_w s)) hbuf n;
  gd_rbuf : r_buf (a_r s) = Some rbuf;  gd_L : r_bufLen (a_r s) = L;  gd_ro : object (w_mem (a_w s)) rbuf L
}.
Lemma receive_keeps fuel cfg E P t r rh buf L req w st r' w' tr :
  recv_setup cfg E P t r rh buf L req w -> receives fuel cfg E P t r rh w st r' w' tr -> r_buf r' = r_buf r /\ r_bufLen r' = r_bufLen r.
Proof.
  intros H HR. destruct (C59_response_exact _ _ _ _ _ _ _ _ _ _ _ _ _ _ _ H HR) as (A&N).
  assert (D : answered st tr \/ ~ answered st tr).
  { destruct (Z_lt_le_dec 0 (received tr)) as [Q|Q]; [left; right; auto|]. destruct st; try (left; left; discriminate). right. intros [X|X]; [congruence|lia]. }
  destruct D as [D|D]; [rewrite (A D)|destruct (N D) as (->&_); auto].
  unfold response_after. destruct (match no_parse_body r with true => _ | false => _ end). split; reflexivity.
Qed.
Lemma same2_of1 m m' a n c k : same_outside m m' a n -> same_outside2 m m' a n c k.
Proof. intros (A&C&D). split; [auto|]. split; [auto|]. intros b i I N1 N2. apply D; auto. Qed.
Lemma same2_of2 m m' a n c k : same_outside m m' c k -> same_outside2 m m' a n c k.
Proof. intros (A&C&D). split; [auto|]. split; [auto|]. intros b i I N1 N2. apply D; auto. Qed.
Lemma same2_object m m' a n c k p j : same_outside2 m m' a n c k -> object m p j -> object m' p j.
Proof. intros (_&S&_) (A&C&D). split; [auto|]. split; [auto|]. rewrite <- S. auto. Qed.
Lemma same2_refl m a n c k : same_outside2 m m a n c k.
Proof. split; [auto|]. split; auto. Qed.

Section api.
Variables (cfg : config) (E : env) (P : parser) (t : transport) (hbuf : ptr) (n : Z) (rbuf : ptr) (L : Z).
Hypothesis CO : config_ok cfg.
Hypothesis SO : size_ok cfg.
Hypothesis SC : send_contract E.
Hypothesis RC : recv_contract E.
Hypothesis PO : parser_ok P.
Hypothesis WN : whole_names P.
Hypothesis T1 : t_send t = true.
Hypothesis T2 : t_recv t = true.
Hypothesis NS : n + 38 < SZ cfg.
Hypothesis LS : 0 < L < SZ cfg.

Definition outcome_ok (a : act) (s : app) (x : res (status * app)) : Prop :=
  (exists st s', x = Ret (st, s') /\ good hbuf n rbuf L s' /\ ((forall m, a <> AOwn m) -> same_outside2 (w_mem (a_w s)) (w_mem (a_w s')) hbuf n rbuf L)) \/
  (exists w', x = More w' /\ same_outside2 (w_mem (a_w s)) (w_mem w') hbuf n rbuf L).

Lemma setup_of s body len : good hbuf n rbuf L s -> 16 <= rh_len (a_h s) -> 0 <= len < SZ cfg -> len <= INT32_MAX ->
  (match body with None => len = 0 | Some p => object (w_mem (a_w s)) p len /\ disjoint hbuf n p len end) ->
  exists bd, send_setup cfg E P t (a_h s) hbuf n (bytes_at (w_mem (a_w s)) hbuf (rh_len (a_h s))) body len bd (a_r s) rbuf L (a_w s).
Proof.
  intros [G1 G2 G3 G4 G5 G6 G7] H16 HL HI BA.
  assert (ZB : zlen (bytes_at (w_mem (a_w s)) hbuf (rh_len (a_h s))) = rh_len (a_h s)) by (apply bytes_at_len; destruct G4 as (?&?&?); unfold object; repeat split; lia).
  exists (match body with None => [] | Some p => bytes_at (w_mem (a_w s)) p len end).
  unfold send_setup. rewrite ZB.
  split; [auto|]. split; [auto|]. split; [auto|]. split; [auto|]. split; [auto|]. split; [auto|]. split; [apply holds_any; auto|]. split; [auto|].
  split; [lia|]. split; [auto|]. split; [auto|]. split; [|auto]. unfold body_arg. destruct body; [destruct BA; auto|auto].
Qed.

Lemma read_ends field k s : good hbuf n rbuf L s -> act_ok cfg hbuf n s (ARead field k) -> exists st out, ReadHeader P (w_mem (a_w s)) (Some (a_r s)) field k true true = Ret (st, out).
Proof.
  intros [G1 G2 G3 G4 G5 G6 G7] (K0&OK).
  destruct (Z.eq_dec k 0) as [->|NZ]; [destruct (proj2 (C18_read_invalid_parameter_iff P (w_mem (a_w s)) (Some (a_r s)) field 0 true true)) as (out&X); [unfold read_invalid; tauto|eauto]|].
      destruct field as [|l|q].
      - destruct (proj2 (C18_read_invalid_parameter_iff P (w_mem (a_w s)) (Some (a_r s)) SNull k true true)) as (out&X); [unfold read_invalid; tauto|eauto].
      - destruct (C61_read_header_is_safe P (w_mem (a_w s)) (a_r s) rbuf L (SLit l) k (slice l 0 k) PO WN G5 G6 G7 ltac:(lia)) as (st&out&X&_); eauto; [|lia].
        cbn [src_bytes]. replace (0 <=? k) with true by lia. replace (k <=? zlen l) with true by lia. reflexivity.
      - destruct (C61_read_header_is_safe P (w_mem (a_w s)) (a_r s) rbuf L (SAt q) k (bytes_at (w_mem (a_w s)) q k) PO WN G5 G6 G7 ltac:(lia)) as (st&out&X&_); eauto; [|lia].
        cbn [src_bytes]. apply loadn_ok. auto.
Qed.
Lemma act_step fuel a s : good hbuf n rbuf L s -> act_ok cfg hbuf n s a -> outcome_ok a s (do_act fuel cfg E P t a s).
Proof.
  intros G OK. pose proof G as [G1 G2 G3 G4 G5 G6 G7]. destruct a as [c|body len flags|tf len flags|tf p len| |field k|m]; cbn [do_act act_ok] in *.
  - destruct (do_call_stays cfg _ _ hbuf n c CO G1 G2 G4 G3 OK) as (st&h'&m'&X&S1&S2&S3&S4&S5). rewrite X. cbn [bind]. left.
    eexists _, _. split; [reflexivity|]. cbn [a_w a_h a_r w_mem]. assert (S6 := same2_of1 _ _ _ _ rbuf L S1). split; [constructor; cbn [a_w a_h a_r w_mem]; auto; eapply same2_object; eauto|auto].
  - destruct OK as (HL&BA).
    assert (D : send_invalid (Some t) (Some (a_h s)) body len (Some (a_r s)) \/ (16 <= rh_len (a_h s) /\ len <= INT32_MAX /\ match body with None => len = 0 | Some p => object (w_mem (a_w s)) p len /\ disjoint hbuf n p len end)).
    { unfold send_invalid. destruct (Z_lt_le_dec (rh_len (a_h s)) 16) as [Q|Q]; [left; right; right; right; left; exists (a_h s); split; [auto|right; left; auto]|].
      destruct (Z_lt_le_dec INT32_MAX len) as [Q2|Q2]; [left; tauto|]. destruct body as [p|]; [right; auto|].
      destruct (Z.eq_dec len 0); [right; auto|]. left. do 6 right. left. split; [auto|lia]. }
    destruct D as [D|(H16&HI&BB)].
    + rewrite Send_invalid by (auto; intros r Q; injection Q as <-; lia). cbn [bind]. left. eexists _, _. split; [reflexivity|]. destruct s. split; [auto|]. intros. apply same2_refl.
    + destruct (setup_of s body len G H16 HL HI BB) as (bd&S).
      destruct (C48_send_is_safe fuel _ _ _ _ _ _ _ _ _ _ _ _ _ _ _ flags S) as (o&w'&tr&X1&X2&X3&X4&X5).
      destruct (Send fuel cfg E P (Some t) (Some (a_h s)) body len (Some (a_r s)) flags (a_w s)) as [[x wx]| | |wx] eqn:Q; cbn [wout] in X1; try discriminate.
      * injection X1 as <- <-. destruct (X4 _ eq_refl) as (st&h'&r'&->&H1&H2&H3). cbn [bind]. left. eexists _, _. split; [reflexivity|]. split; [|intros; exact X3].
        assert (RR : r_buf r' = Some rbuf /\ r_bufLen r' = L).
        { assert (WC : r_buf (with_clock (a_r s)) = r_buf (a_r s) /\ r_bufLen (with_clock (a_r s)) = r_bufLen (a_r s)) by (unfold with_clock; destruct (r_time (a_r s)); auto).
          rewrite <- G5, <- G6. destruct WC as (<-&<-).
          destruct (C50_send_then_receive _ _ _ _ _ _ _ _ _ _ _ _ _ _ _ _ _ _ _ _ _ _ S (conj Q X2)) as (block&_&[(_&_&_&_&->&_)|[(_&_&_&_&_&->)|(sent&rtr&w1&_&_&_&_&_&RS&RV)]]); auto.
          eapply receive_keeps; eauto. }
        destruct RR as (R1&R2). constructor; cbn [a_w a_h a_r]; auto; try (eapply same2_object; eauto). lia.
      * injection X1 as <- <-. cbn [bind]. right. eauto.
  - destruct OK as (TN&HL). pose proof (holds_any _ _ _ _ G1 G2 G4 G3) as HH.
    destruct (C11_content_length_on_the_wire fuel cfg E tf t (a_h s) hbuf n _ len flags (a_w s) SC TN T1 HH HL ltac:(lia)) as (block&WH&X1&X2).
    destruct (Z_lt_le_dec n (zlen block)) as [Q|Q].
    + rewrite (X1 Q). cbn [bind]. left. eexists _, _. split; [reflexivity|]. destruct s. split; [auto|]. intros; apply same2_refl.
    + destruct (X2 Q) as (o&w'&tr&Y1&Y2&_&_&Y3&Y4). pose proof (same2_of1 _ _ _ _ rbuf L Y3) as Y5.
      destruct (SendHttpHeaders _ _ _ _ _ _ _ _ _) as [[[st oh] wx]| | |wx]; cbn [wout] in Y1; try discriminate; injection Y1 as <- <-; cbn [bind]; [left|right; eauto].
      destruct (Y4 _ _ eq_refl) as ((h'&->&(Z1&Z2&Z3&Z4&Z5))&_). eexists _, _. split; [reflexivity|]. split; [|auto].
      constructor; cbn [a_w a_h a_r]; auto. eapply same2_object; eauto.
  - destruct OK as (TN&O). destruct (SendHttpData_run fuel cfg E tf t p len (a_w s) SC TN T1 O) as (o&w'&t0&tr&X1&X2&_).
    destruct (SendHttpData _ _ _ _ _ _ _ _) as [[st wx]| | |wx]; cbn [wout] in X1; try discriminate; injection X1 as <- <-; cbn [bind]; [left|right].
    + eexists _, _. split; [reflexivity|]. split; [constructor; cbn [a_w a_h a_r]; rewrite ?X2; auto|]. intros. cbn [a_w]. rewrite X2. apply same2_refl.
    + eexists. split; [reflexivity|]. rewrite X2. apply same2_refl.
  - destruct OK as (TN&H16). pose proof (holds_any _ _ _ _ G1 G2 G4 G3) as HH.
    assert (ZB : zlen (bytes_at (w_mem (a_w s)) hbuf (rh_len (a_h s))) = rh_len (a_h s)) by (apply bytes_at_len; destruct G4 as (?&?&?); unfold object; repeat split; lia).
    assert (RS : recv_setup cfg E P t (a_r s) (a_h s) rbuf L (bytes_at (w_mem (a_w s)) hbuf (rh_len (a_h s))) (a_w s)).
    { split; [auto|]. split; [auto|]. split; [auto|]. split; [auto|]. split; [auto|]. split; [auto|]. split; [auto|]. split; [auto|]. split; [eauto|lia]. }
    destruct (C19_receive_stays_in_buffer fuel _ _ _ _ _ _ _ _ _ _ RS) as (o&w'&tr&X1&X2&_&X3). pose proof (same2_of2 _ _ hbuf n _ _ X3) as X4.
    destruct (C20_receive_is_safe fuel _ _ _ _ _ _ _ _ _ _ RS) as [(st&r'&w2&Q)|(w2&Q)]; rewrite Q in *; cbn [wout] in X1; injection X1 as <- <-; cbn [bind]; [left|right; eauto].
    eexists _, _. split; [reflexivity|]. destruct (receive_keeps _ _ _ _ _ _ _ _ _ _ _ _ _ _ _ RS (conj Q X2)) as (R1&R2).
    split; [|auto]. constructor; cbn [a_w a_h a_r]; auto; try congruence; eapply same2_object; eauto.
  - destruct (read_ends field k s G OK) as (st&out&X). rewrite X. cbn [bind]. left. eexists _, _. split; [reflexivity|]. split; [auto|]. intros; apply same2_refl.
  - destruct OK as (LE&ZE). left. eexists _, _. split; [reflexivity|]. split; [|intros Q; destruct (Q m eq_refl)].
    assert (OB : forall p k, object (w_mem (a_w s)) p k -> object m p k) by (intros p k (A&C&D); split; [auto|]; split; [auto|]; rewrite ZE; auto).
    constructor; cbn [a_w a_h a_r w_mem]; auto.
Qed.
Lemma reach_good s : reachable cfg E P t hbuf n rbuf L s -> good hbuf n rbuf L s.
Proof.
  induction 1 as [s B|s a fuel st s' R IH OK X].
  - destruct B as (B1&B2&B3&B4&B5&B6&B7&B8&B9). constructor; auto. destruct B4 as (?&_). lia.
  - destruct (act_step fuel a s IH OK) as [(st1&s1&Y&G&_)|(w'&Y&_)]; rewrite X in Y; [injection Y as -> ->; auto|discriminate].
Qed.
End api.

(** After any history of calls and of the application's own writes, in any order, with any results, transports, clocks and parsers: the next call
    with valid arguments has no undefined behaviour and violates no assertion ([Ret], or [More] when it is still running), and it changes no
    byte of memory outside the two buffers. *)
Theorem C62_any_use_is_safe : forall cfg E P t hbuf n rbuf L s a fuel,
  config_ok cfg -> size_ok cfg -> send_contract E -> recv_contract E -> parser_ok P -> whole_names P -> t_send t = true -> t_recv t = true ->
  n + 38 < SZ cfg -> 0 < L < SZ cfg ->
  reachable cfg E P t hbuf n rbuf L s -> act_ok cfg hbuf n s a ->
  ((exists st s', do_act fuel cfg E P t a s = Ret (st, s') /\ ((forall m, a <> AOwn m) -> same_outside2 (w_mem (a_w s)) (w_mem (a_w s')) hbuf n rbuf L)) \/
   (exists w', do_act fuel cfg E P t a s = More w' /\ same_outside2 (w_mem (a_w s)) (w_mem w') hbuf n rbuf L)) /\
  rh_buf (a_h s) = Some hbuf /\ rh_bufLen (a_h s) = n /\ 0 <= rh_len (a_h s) <= n /\ r_buf (a_r s) = Some rbuf /\ r_bufLen (a_r s) = L.
Proof.
  intros cfg E P t hbuf n rbuf L s a fuel CO SO SC RC PO WN T1 T2 NS LS R OK.
  pose proof (reach_good cfg E P t hbuf n rbuf L CO SO SC RC PO WN T1 T2 NS LS s R) as G.
  split; [|destruct G; auto].
  destruct (act_step cfg E P t hbuf n rbuf L CO SO SC RC PO WN T1 T2 NS LS fuel a s G OK) as [(st&s'&X&_&Y)|X]; [left; eauto|right; exact X].
Qed.
Print Assumptions C62_any_use_is_safe.

Lemma fuel_enough x fuel : (Z.to_nat x <= fuel)%nat -> x <= Z.of_nat fuel.
Proof. lia. Qed.
Lemma mul_ge x y : 0 <= x -> 0 <= y -> x <= x * (y + 1).
Proof. intros. rewrite <- (Z.mul_1_r x) at 1. apply Z.mul_le_mono_nonneg_l; lia. Qed.
(** And when the clock advances, it returns: every call, at every point of every history. *)
Theorem C62_any_use_terminates : forall cfg E P t hbuf n rbuf L s a,
  config_ok cfg -> size_ok cfg -> send_contract E -> recv_contract E -> parser_ok P -> whole_names P -> t_send t = true -> t_recv t = true ->
  n + 38 < SZ cfg -> 0 < L < SZ cfg -> advancing E (SEND_TO cfg) -> advancing E (RECV_TO cfg) ->
  reachable cfg E P t hbuf n rbuf L s -> act_ok cfg hbuf n s a ->
  exists fuel0, forall fuel, (fuel0 <= fuel)%nat -> exists st s', do_act fuel cfg E P t a s = Ret (st, s') /\ reachable cfg E P t hbuf n rbuf L s'.
Proof.
  intros cfg E P t hbuf n rbuf L s a CO SO SC RC PO WN T1 T2 NS LS A1 A2 R OK.
  pose proof (reach_good cfg E P t hbuf n rbuf L CO SO SC RC PO WN T1 T2 NS LS s R) as G.
  assert (STEP : forall fuel, outcome_ok hbuf n rbuf L a s (do_act fuel cfg E P t a s)) by (intros; apply act_step; auto).
  assert (FIN : (exists fuel0, forall fuel, (fuel0 <= fuel)%nat -> forall w', do_act fuel cfg E P t a s <> More w') ->
    exists fuel0, forall fuel, (fuel0 <= fuel)%nat -> exists st s', do_act fuel cfg E P t a s = Ret (st, s') /\ reachable cfg E P t hbuf n rbuf L s').
  { intros (f0&F). exists f0. intros fuel Hf. destruct (STEP fuel) as [(st&s'&X&_)|(w'&X&_)]; [|destruct (F fuel Hf w' X)].
    exists st, s'. split; [auto|]. eapply RStep; eauto. }
  apply FIN. clear FIN STEP. pose proof G as [G1 G2 G3 G4 G5 G6 G7].
  assert (ST : 0 <= SEND_TO cfg < 2 ^ 32) by (destruct CO as (_&_&_&_&Q&_); exact Q).
  assert (RT : 0 <= RECV_TO cfg < 2 ^ 32) by (destruct CO as (_&_&_&_&_&Q); exact Q).
  destruct a as [c|body len flags|tf len flags|tf p len| |field k|m]; cbn [do_act act_ok] in *.
  - exists 0%nat. intros fuel _ w'. destruct (do_call_stays cfg _ _ hbuf n c CO G1 G2 G4 G3 OK) as (st&h'&m'&X&_). rewrite X. cbn [bind]. discriminate.
  - destruct OK as (HL&BA).
    set (B := Z.max ((n + len + 1) * (SEND_TO cfg + 1)) ((L + 1) * (RECV_TO cfg + 1)) + 1).
    exists (Z.to_nat B). intros fuel Hf w'.
    assert (F1 : (n + len + 1) * (SEND_TO cfg + 1) < Z.of_nat fuel) by (apply fuel_enough in Hf; unfold B in Hf; lia).
    assert (F2 : (L + 1) * (RECV_TO cfg + 1) < Z.of_nat fuel) by (apply fuel_enough in Hf; unfold B in Hf; lia).
    assert (D : send_invalid (Some t) (Some (a_h s)) body len (Some (a_r s)) \/ (16 <= rh_len (a_h s) /\ len <= INT32_MAX /\ match body with None => len = 0 | Some p => object (w_mem (a_w s)) p len /\ disjoint hbuf n p len end)).
    { unfold send_invalid. destruct (Z_lt_le_dec (rh_len (a_h s)) 16) as [Q|Q]; [left; right; right; right; left; exists (a_h s); split; [auto|right; left; auto]|].
      destruct (Z_lt_le_dec INT32_MAX len) as [Q2|Q2]; [left; tauto|]. destruct body as [p|]; [right; auto|].
      destruct (Z.eq_dec len 0); [right; auto|]. left. do 6 right. left. split; [auto|lia]. }
    destruct D as [D|(H16&HI&BB)].
    + rewrite Send_invalid by (auto; intros r Q; injection Q as <-; lia). cbn [bind]. discriminate.
    + destruct (setup_of cfg E P t hbuf n rbuf L SO SC RC PO T1 T2 NS LS s body len G H16 HL HI BB) as (bd&S).
      assert (X : exists st h' r' w' tr, exchanges fuel cfg E P t (a_h s) body len (a_r s) flags (a_w s) st h' r' w' tr).
      { destruct (r_time (a_r s)) eqn:TM.
        - destruct (C49_send_terminates_without_clock fuel _ _ _ _ _ _ _ _ _ _ _ _ _ _ _ flags S) as (st&h'&r'&w1&tr&X&_); [congruence|pose proof (mul_ge (n + len + 1) (SEND_TO cfg)); lia|pose proof (mul_ge (L + 1) (RECV_TO cfg)); lia|eauto 8].
        - destruct (C49_send_terminates_without_clock fuel _ _ _ _ _ _ _ _ _ _ _ _ _ _ _ flags S) as (st&h'&r'&w1&tr&X&_); [congruence|pose proof (mul_ge (n + len + 1) (SEND_TO cfg)); lia|pose proof (mul_ge (L + 1) (RECV_TO cfg)); lia|eauto 8].
        - destruct (C49_send_terminates fuel _ _ _ _ _ _ _ _ _ _ _ _ _ _ _ flags S CO TM A1 A2) as (st&h'&r'&w1&tr&X&_); [auto|auto|eauto 8]. }
      destruct X as (st&h'&r'&w1&tr&X&_). rewrite X. cbn [bind]. discriminate.
  - destruct OK as (TN&HL). pose proof (holds_any _ _ _ _ G1 G2 G4 G3) as HH.
    exists (Z.to_nat (n * (SEND_TO cfg + 1) + SEND_TO cfg + 1)). intros fuel Hf w'.
    assert (F1 : n * (SEND_TO cfg + 1) + SEND_TO cfg + 1 <= Z.of_nat fuel) by (apply fuel_enough; auto).
    assert (D : data_ends fuel cfg E t tf n (SEND_TO cfg + 1) (SEND_TO cfg + 1) (fun _ => True)).
    { intros p k w O K. assert (K0 : 0 <= k) by (destruct O as (?&?&?); lia). destruct tf; [congruence| |].
      - destruct (C16_send_terminates_no_clock fuel cfg E t p k w SC T1 O ltac:(pose proof (mul_ge n (SEND_TO cfg)); lia)) as (st&w1&tr&X1&X2&X3). exists st, w1, tr. split; [auto|]. split; [auto|]. split; [|auto]. pose proof (mul_ge k (SEND_TO cfg)); lia.
      - destruct (C16_send_terminates fuel cfg E t p k w SC T1 O ST A1 ltac:(pose proof (Z.mul_le_mono_nonneg_r k n (SEND_TO cfg + 1)); lia)) as (st&w1&tr&X1&X2&X3). exists st, w1, tr. split; [auto|]. split; [auto|]. split; [lia|auto]. }
    destruct (SendHttpHeaders_ends fuel cfg E tf t (a_h s) hbuf n _ len flags (a_w s) (SEND_TO cfg + 1) (SEND_TO cfg + 1) (fun _ => True) SC TN T1 HH HL ltac:(lia) ltac:(lia) ltac:(lia) D) as (st&oh&w1&tr&_&X&_).
    rewrite X. cbn [bind]. destruct oh; discriminate.
  - destruct OK as (TN&O). assert (K0 : 0 <= len) by (destruct O as (?&?&?); lia).
    exists (Z.to_nat (len * (SEND_TO cfg + 1) + SEND_TO cfg + 1)). intros fuel Hf w'.
    assert (F1 : len * (SEND_TO cfg + 1) + SEND_TO cfg + 1 <= Z.of_nat fuel) by (apply fuel_enough; auto).
    destruct tf; [congruence| |].
    + destruct (C16_send_terminates_no_clock fuel cfg E t p len _ SC T1 O ltac:(pose proof (mul_ge len (SEND_TO cfg)); lia)) as (st&w1&tr&X1&_). rewrite X1. cbn [bind]. discriminate.
    + destruct (C16_send_terminates fuel cfg E t p len _ SC T1 O ST A1 F1) as (st&w1&tr&X1&_). rewrite X1. cbn [bind]. discriminate.
  - destruct OK as (TN&H16). pose proof (holds_any _ _ _ _ G1 G2 G4 G3) as HH.
    assert (ZB : zlen (bytes_at (w_mem (a_w s)) hbuf (rh_len (a_h s))) = rh_len (a_h s)) by (apply bytes_at_len; destruct G4 as (?&?&?); unfold object; repeat split; lia).
    assert (RS : recv_setup cfg E P t (a_r s) (a_h s) rbuf L (bytes_at (w_mem (a_w s)) hbuf (rh_len (a_h s))) (a_w s)).
    { split; [auto|]. split; [auto|]. split; [auto|]. split; [auto|]. split; [auto|]. split; [auto|]. split; [auto|]. split; [auto|]. split; [eauto|lia]. }
    exists (Z.to_nat (L * (RECV_TO cfg + 1) + RECV_TO cfg + 2)). intros fuel Hf w'.
    assert (F1 : L * (RECV_TO cfg + 1) + RECV_TO cfg + 1 < Z.of_nat fuel) by (apply fuel_enough in Hf; lia).
    destruct (r_time (a_r s)) eqn:TM; [congruence| |].
    + destruct (C44_receive_terminates_without_clock fuel _ _ _ _ _ _ _ _ _ _ RS TM ltac:(pose proof (mul_ge L (RECV_TO cfg)); lia)) as (st&r'&w1&tr&(X&_)&_). rewrite X. cbn [bind]. discriminate.
    + destruct (C44_receive_terminates fuel _ _ _ _ _ _ _ _ _ _ RS CO TM A2 F1) as (st&r'&w1&tr&(X&_)&_). rewrite X. cbn [bind]. discriminate.
  - exists 0%nat. intros fuel _ w'.
    destruct (read_ends cfg P hbuf n rbuf L PO WN LS field k s G OK) as (st&out&X). rewrite X. cbn [bind]. discriminate.
  - exists 0%nat. intros fuel _ w'. discriminate.
Qed.
Print Assumptions C62_any_use_terminates.

(** ** The hypotheses can be met *)
Definition ex_app : app := mkapp (mkw [repeat 0 300; repeat 0 300; B "data"] 0 0 0 []) (mkrh (Some buf0) 300 0) rsep.
Definition ex_acts : list act :=
  [ ARequest (CInit (mkri (SLit (B "PUT")) 3 SNull 0 (SLit (B "h")) 1 0));
    ARequest (CRange 0 9);
    ASend (Some (mkptr 2 0)) 4 0;
    ARead (SLit (B "a")) 1;
    AReceive ].
Fixpoint do_acts (fuel : nat) (E : env) (l : list act) (s : app) : res (list status * app) :=
  match l with
  | [] => Ret ([], s)
  | a :: l => ' (st, s1) <- do_act fuel cfg0 E refparser trr a s ;; ' (sts, s2) <- do_acts fuel E l s1 ;; Ret (st :: sts, s2)
  end.
Fixpoint acts_ok (fuel : nat) (E : env) (l : list act) (s : app) : Prop :=
  match l with
  | [] => True
  | a :: l => act_ok cfg0 buf0 300 s a /\ match do_act fuel cfg0 E refparser trr a s with Ret (_, s1) => acts_ok fuel E l s1 | _ => False end
  end.
Lemma acts_reach fuel E l : forall s sts s', reachable cfg0 E refparser trr buf0 300 rbuf 300 s -> acts_ok fuel E l s -> do_acts fuel E l s = Ret (sts, s') ->
  reachable cfg0 E refparser trr buf0 300 rbuf 300 s'.
Proof.
  induction l as [|a l IH]; intros s sts s' R OK X; cbn [do_acts acts_ok] in *; [injection X as <- <-; auto|].
  destruct OK as (O1&O2). destruct (do_act fuel cfg0 E refparser trr a s) as [[st s1]| | |] eqn:Q; try contradiction. cbn [bind] in X.
  destruct (do_acts fuel E l s1) as [[sts1 s2]| | |] eqn:Q2; try discriminate. cbn [bind] in X. injection X as <- <-.
  eapply IH; [eapply RStep; eauto|exact O2|exact Q2].
Qed.
(** Five calls that succeed or find nothing, and after them one more that may be made. *)
Example C62_case : exists s, reachable cfg0 (env_ex resp_ok) refparser trr buf0 300 rbuf 300 s /\
  do_acts 100 (env_ex resp_ok) ex_acts ex_app = Ret ([HTTPSuccess; HTTPSuccess; HTTPSuccess; HTTPSuccess; HTTPNoResponse], s) /\ rh_len (a_h s) = 94 /\
  act_ok cfg0 buf0 300 s (ASend (Some (mkptr 2 0)) 4 0) /\
  config_ok cfg0 /\ size_ok cfg0 /\ send_contract (env_ex resp_ok) /\ recv_contract (env_ex resp_ok) /\ parser_ok refparser /\ whole_names refparser /\
  advancing (env_ex resp_ok) (SEND_TO cfg0) /\ advancing (env_ex resp_ok) (RECV_TO cfg0) /\ 300 + 38 < SZ cfg0.
Proof.
  assert (X : exists s, do_acts 100 (env_ex resp_ok) ex_acts ex_app = Ret ([HTTPSuccess; HTTPSuccess; HTTPSuccess; HTTPSuccess; HTTPNoResponse], s) /\ rh_len (a_h s) = 94 /\
    zlen (blk (w_mem (a_w s)) 2) = 4)
    by (eexists; split; [vm_compute; reflexivity|split; reflexivity]).
  destruct X as (s&X&X2&X3). exists s. destruct (env_ex_ok resp_ok) as (SC&RC&_). destruct C49_case as (A1&A2&_).
  split.
  { eapply (acts_reach 100 (env_ex resp_ok) ex_acts ex_app _ s); [| |exact X].
    - apply RBegin. unfold begins_app. vm_compute. repeat split; discriminate.
    - vm_compute. intuition discriminate. }
  split; [exact X|]. split; [exact X2|].
  split; [split; [split; [lia|reflexivity]|split; [split; [lia|split; [cbn [po]; lia|change (pb (mkptr 2 0)) with 2%nat; rewrite X3; cbn [po]; lia]]|left; discriminate]]|].
  split; [apply cfg0_ok|]. split; [exists 32; split; [lia|reflexivity]|]. split; [exact SC|]. split; [exact RC|]. split; [apply refparser_ok|]. split; [apply refparser_whole|].
  split; [exact A1|]. split; [exact A2|reflexivity].
Qed.
Example C61_case : exists r st v, r_buf r = Some rbuf /\ r_bufLen r = 300 /\ object (w_mem (a_w ex_app)) rbuf 300 /\
  ReadHeader refparser (w_mem (a_w ex_app)) (Some r) (SLit (B "Host")) 4 true true = Ret (st, v) /\ src_bytes (w_mem (a_w ex_app)) (SLit (B "Host")) 4 = Ret (B "Host").
Proof. exists rsep. do 2 eexists. split; [reflexivity|]. split; [reflexivity|]. split; [vm_compute; repeat split; discriminate|]. split; vm_compute; reflexivity. Qed.
