(** ProofsExchange.v — whole HTTPClient_Send calls. *)
From Verif Require Import Base Lib ModelRequest ModelSend ModelResponse SpecRequest SpecSend SpecResponse SpecExchange ProofsRequest ProofsDecimal
  ProofsRequest2 ProofsHistory ProofsSend ProofsSend2 ProofsResponse ProofsResponse2 ProofsResponse3 ProofsResponse4 ProofsResponse5 ProofsFollow ProofsIndep ProofsTwin.

(** ** Sending the same bytes from two places *)
Definition wstep (w1 w2 w1' w2' : world) : Prop :=
  w_mem w1' = w_mem w1 /\ w_mem w2' = w_mem w2 /\ w_ns w1' = w_ns w2' /\ w_nt w1' = w_nt w2' /\ w_nr w1' = w_nr w1 /\ w_nr w2' = w_nr w2 /\
  exists tr, send_only tr /\ w_tr w1' = w_tr w1 ++ tr /\ w_tr w2' = w_tr w2 ++ tr.
Definition same_send (w1 w2 : world) (x y : res (status * world)) : Prop :=
  match x, y with Ret (st1, w1'), Ret (st2, w2') => st1 = st2 /\ wstep w1 w2 w1' w2' | More w1', More w2' => wstep w1 w2 w1' w2' | _, _ => False end.
Lemma wstep_refl w1 w2 : w_ns w1 = w_ns w2 -> w_nt w1 = w_nt w2 -> wstep w1 w2 w1 w2.
Proof. intros. unfold wstep. conj; auto. exists []. rewrite !app_nil_r. conj; auto. constructor. Qed.
Lemma wstep_trans w1 w2 x1 x2 y1 y2 : wstep w1 w2 x1 x2 -> wstep x1 x2 y1 y2 -> wstep w1 w2 y1 y2.
Proof.
  intros (A1&A2&A3&A4&A5&A6&t1&A7&A8&A9) (B1&B2&B3&B4&B5&B6&t2&B7&B8&B9). unfold wstep. conj; try congruence.
  exists (t1 ++ t2). split; [apply Forall_app; auto|]. rewrite B8, B9, A8, A9, <- !app_assoc. auto.
Qed.
Lemma same_send_trans w1 w2 x1 x2 a b : wstep w1 w2 x1 x2 -> same_send x1 x2 a b -> same_send w1 w2 a b.
Proof.
  unfold same_send. destruct a as [[s1 y1]| | |y1], b as [[s2 y2]| | |y2]; auto; [intros A (->&B); split; auto|intros A B]; eapply wstep_trans; eauto.
Qed.
Lemma get_time_same E tf w1 w2 : tf <> TNull -> w_ns w1 = w_ns w2 -> w_nt w1 = w_nt w2 ->
  exists t v1 v2, get_time E tf w1 = Ret (t, v1) /\ get_time E tf w2 = Ret (t, v2) /\ wstep w1 w2 v1 v2.
Proof.
  intros TN NS NT. destruct tf; [congruence| |]; cbn [get_time].
  - do 3 eexists. split; [reflexivity|]. split; [reflexivity|]. apply wstep_refl; auto.
  - rewrite NT. do 3 eexists. split; [reflexivity|]. split; [reflexivity|]. unfold wstep. cbn [w_mem w_ns w_nt w_nr w_tr]. conj; auto.
    eexists. split; [|split; reflexivity]. repeat constructor.
Qed.
Lemma send_loop_same E tf T : send_contract E -> tf <> TNull -> forall fuel p1 p2 rem last w1 w2,
  object (w_mem w1) p1 rem -> object (w_mem w2) p2 rem -> bytes_at (w_mem w1) p1 rem = bytes_at (w_mem w2) p2 rem ->
  w_ns w1 = w_ns w2 -> w_nt w1 = w_nt w2 ->
  same_send w1 w2 (send_loop fuel E tf T p1 rem last w1) (send_loop fuel E tf T p2 rem last w2).
Proof.
  intros SC TN. induction fuel as [|fuel IH]; intros p1 p2 rem last w1 w2 O1 O2 EQ NS NT; cbn [send_loop].
  { cbn [same_send]. apply wstep_refl; auto. }
  destruct (Z.leb_spec rem 0). { cbn [same_send]. split; auto. apply wstep_refl; auto. }
  rewrite !loadn_ok by auto. cbn [bind]. rewrite <- EQ, <- NS. set (d := bytes_at (w_mem w1) p1 rem).
  pose proof (SC (w_ns w1) rem ltac:(lia)) as SR. set (r := e_send E (w_ns w1) rem) in *.
  assert (W1 : wstep w1 w2 (w_after_send w1 d r) (w_after_send w2 d r)).
  { unfold wstep. cbn [w_after_send w_mem w_ns w_nt w_nr w_tr]. conj; auto. exists [TSend d r]. conj; auto. repeat constructor. }
  destruct (Z.ltb_spec r 0). { cbn [same_send]. split; auto. }
  destruct (get_time_same E tf (w_after_send w1 d r) (w_after_send w2 d r) TN) as (t&v1&v2&G1&G2&WT); [cbn; congruence|auto|].
  pose proof (wstep_trans _ _ _ _ _ _ W1 WT) as W2. pose proof W2 as (M1&M2&N1&N2&_).
  destruct (Z.ltb_spec 0 r).
  - replace (r <=? rem) with true by lia. cbn [assert_at bind]. rewrite G1, G2. cbn [bind].
    rewrite !padd_ok by (rewrite ?M1, ?M2; destruct O1 as (?&?&?), O2 as (?&?&?); lia). cbn [bind].
    eapply same_send_trans; [exact W2|]. apply IH; auto.
    + rewrite M1. destruct O1 as (?&?&?). unfold object, poff. cbn [po pb]. lia.
    + rewrite M2. destruct O2 as (?&?&?). unfold object, poff. cbn [po pb]. lia.
    + rewrite M1, M2. assert (S : forall m p, object m p rem -> bytes_at m (poff p r) (rem - r) = slice (bytes_at m p rem) r (rem - r)).
      { intros m p (?&?&?). unfold bytes_at, poff. cbn [po pb]. rewrite slice_slice by lia. reflexivity. }
      rewrite !S, EQ by auto. auto.
  - rewrite G1, G2. cbn [bind]. destruct (T <=? u32 (t - last)); [cbn [same_send]; split; auto|].
    eapply same_send_trans; [exact W2|]. apply IH; rewrite ?M1, ?M2; auto.
Qed.
Lemma SendHttpData_same fuel cfg E tf t p1 p2 len w1 w2 : send_contract E -> tf <> TNull -> t_send t = true ->
  object (w_mem w1) p1 len -> object (w_mem w2) p2 len -> bytes_at (w_mem w1) p1 len = bytes_at (w_mem w2) p2 len -> w_ns w1 = w_ns w2 -> w_nt w1 = w_nt w2 ->
  same_send w1 w2 (SendHttpData fuel cfg E (Some t) tf (Some p1) len w1) (SendHttpData fuel cfg E (Some t) tf (Some p2) len w2).
Proof.
  intros SC TN ST O1 O2 EQ NS NT. unfold SendHttpData. rewrite ST. cbn [assert_at bind].
  destruct (get_time_same E tf w1 w2 TN NS NT) as (t0&v1&v2&G1&G2&W). rewrite G1, G2. cbn [bind].
  eapply same_send_trans; [exact W|]. destruct W as (M1&M2&N1&N2&_). apply send_loop_same; rewrite ?M1, ?M2; auto.
Qed.

(** Sending a request held in two different places. *)
Definition same_req (w1 w2 : world) (b1 b2 : ptr) (n : Z) (h1 h2 : reqHeaders) (x y : res (status * option reqHeaders * world)) : Prop :=
  let ok h1' h2' w1' w2' := (exists block, holds (w_mem w1') h1' b1 n block /\ holds (w_mem w2') h2' b2 n block) /\
     same_outside (w_mem w1) (w_mem w1') b1 n /\ same_outside (w_mem w2) (w_mem w2') b2 n /\ w_ns w1' = w_ns w2' /\ w_nt w1' = w_nt w2' /\ w_nr w1' = w_nr w1 /\ w_nr w2' = w_nr w2 /\
     exists tr, send_only tr /\ w_tr w1' = w_tr w1 ++ tr /\ w_tr w2' = w_tr w2 ++ tr in
  match x, y with
  | Ret (st1, Some h1', w1'), Ret (st2, Some h2', w2') => st1 = st2 /\ ok h1' h2' w1' w2'
  | More w1', More w2' => exists h1' h2', ok h1' h2' w1' w2'
  | _, _ => False
  end.
Lemma holds_len m h buf n req : holds m h buf n req -> zlen req = rh_len h.
Proof. intros (_&_&O&H&->). apply bytes_at_len. destruct O as (?&?&?). unfold object. lia. Qed.
Lemma holds_sub m h buf n req : holds m h buf n req -> object m buf (rh_len h) /\ bytes_at m buf (rh_len h) = req /\ rh_buf h = Some buf.
Proof. intros (A&_&O&H&->). split; [|auto]. destruct O as (?&?&?). unfold object. lia. Qed.

Lemma SendHttpHeaders_same fuel cfg E tf t h1 h2 b1 b2 n req len flags w1 w2 :
  send_contract E -> tf <> TNull -> t_send t = true -> holds (w_mem w1) h1 b1 n req -> holds (w_mem w2) h2 b2 n req ->
  0 <= len <= INT32_MAX -> n + 30 < SZ cfg -> w_ns w1 = w_ns w2 -> w_nt w1 = w_nt w2 ->
  same_req w1 w2 b1 b2 n h1 h2 (SendHttpHeaders fuel cfg E (Some t) tf (Some h1) len flags w1) (SendHttpHeaders fuel cfg E (Some t) tf (Some h2) len flags w2).
Proof.
  intros SC TN ST H1 H2 Hl W NS NT. unfold SendHttpHeaders. rewrite ST. cbn [assert_at bind].
  assert (K : forall block g1 g2 m1 m2, holds m1 g1 b1 n block -> holds m2 g2 b2 n block -> same_outside (w_mem w1) m1 b1 n -> same_outside (w_mem w2) m2 b2 n ->
    same_req w1 w2 b1 b2 n h1 h2 (' (st2, w3) <- SendHttpData fuel cfg E (Some t) tf (rh_buf g1) (rh_len g1) (set_mem w1 m1) ;; Ret (st2, Some g1, w3))
      (' (st2, w3) <- SendHttpData fuel cfg E (Some t) tf (rh_buf g2) (rh_len g2) (set_mem w2 m2) ;; Ret (st2, Some g2, w3))).
  { intros block g1 g2 m1 m2 G1 G2 S1 S2. destruct (holds_sub _ _ _ _ _ G1) as (O1&B1&P1). destruct (holds_sub _ _ _ _ _ G2) as (O2&B2&P2).
    assert (LL : rh_len g2 = rh_len g1) by (rewrite <- (holds_len _ _ _ _ _ G1), <- (holds_len _ _ _ _ _ G2); auto).
    rewrite P1, P2, LL. rewrite LL in O2, B2.
    pose proof (SendHttpData_same fuel cfg E tf t b1 b2 (rh_len g1) (set_mem w1 m1) (set_mem w2 m2) SC TN ST O1 O2 ltac:(cbn [set_mem w_mem]; congruence) NS NT) as SS.
    unfold same_send in SS.
    assert (FIN : forall x1 x2, wstep (set_mem w1 m1) (set_mem w2 m2) x1 x2 -> (exists block, holds (w_mem x1) g1 b1 n block /\ holds (w_mem x2) g2 b2 n block) /\
     same_outside (w_mem w1) (w_mem x1) b1 n /\ same_outside (w_mem w2) (w_mem x2) b2 n /\ w_ns x1 = w_ns x2 /\ w_nt x1 = w_nt x2 /\ w_nr x1 = w_nr w1 /\ w_nr x2 = w_nr w2 /\
     exists tr, send_only tr /\ w_tr x1 = w_tr w1 ++ tr /\ w_tr x2 = w_tr w2 ++ tr).
    { intros x1 x2 (Q1&Q2&Q3&Q4&Q5&Q6&Q7). cbn [set_mem w_mem w_nr w_tr] in *. rewrite Q1, Q2. conj; auto. exists block. auto. }
    destruct (SendHttpData _ _ _ _ _ (Some b1) _ _) as [[s1 x1]| | |x1], (SendHttpData _ _ _ _ _ (Some b2) _ _) as [[s2 x2]| | |x2]; cbn [bind same_req]; auto.
    - destruct SS as (->&SS). split; auto.
    - exists g1, g2. auto. }
  destruct (_ && _) eqn:C.
  - apply andb_prop in C. destruct C as (_&C).
    destruct (addContentLength_outcome cfg (w_mem w1) h1 b1 n req len H1 ltac:(lia) W) as (o1&st1&g1&m1&OP1&EQ1&D1). rewrite EQ1. cbn [bind].
    destruct (addContentLength_outcome cfg (w_mem w2) h2 b2 n req len H2 ltac:(lia) W) as (o2&st2&g2&m2&OP2&EQ2&D2). rewrite EQ2. cbn [bind].
    rewrite (opened_fun _ _ _ OP2 OP1) in D2. cbn zeta in D1, D2.
    set (x := header_line (B "Content-Length") (to_dec len) ++ CRLF) in *. set (block := o1 ++ x) in *.
    destruct D1 as [(A1&->&->&->)|(A1&->&G1&S1)], D2 as [(A2&->&->&->)|(A2&->&G2&S2)]; try lia; cbn [is_success].
    + cbn [same_req]. split; auto. cbn [set_mem w_mem w_ns w_nt w_nr w_tr]. conj; auto; try apply same_outside_refl. { exists req. auto. }
      exists []. rewrite !app_nil_r. conj; auto. constructor.
    + assert (LB : zlen o1 + zlen x <= n) by (unfold block in A1; rewrite zlen_app in A1; lia). pose proof (zlen_nonneg o1).
      apply (K block); auto; (eapply same_outside_weaken; [eassumption| | |]); unfold poff; cbn [pb po]; rewrite ?(opened_fun _ _ _ OP2 OP1); try reflexivity; lia.
  - cbn [bind is_success]. apply (K req); auto; apply same_outside_refl.
Qed.

Lemma sendHttpRequest_same fuel cfg E tf t h1 h2 b1 b2 n req p1 p2 len bd flags w1 w2 :
  send_contract E -> tf <> TNull -> t_send t = true -> holds (w_mem w1) h1 b1 n req -> holds (w_mem w2) h2 b2 n req ->
  0 <= len <= INT32_MAX -> n + 30 < SZ cfg -> body_arg (w_mem w1) b1 n p1 len bd -> body_arg (w_mem w2) b2 n p2 len bd -> (p1 = None <-> p2 = None) ->
  w_ns w1 = w_ns w2 -> w_nt w1 = w_nt w2 ->
  same_req w1 w2 b1 b2 n h1 h2 (sendHttpRequest fuel cfg E (Some t) tf (Some h1) p1 len flags w1) (sendHttpRequest fuel cfg E (Some t) tf (Some h2) p2 len flags w2).
Proof.
  intros SC TN ST H1 H2 Hl W BA1 BA2 PP NS NT. unfold sendHttpRequest. cbn [assert_at bind].
  replace (match p1 with Some _ => true | None => len =? 0 end) with true by (destruct p1; auto; destruct BA1 as (->&_); auto).
  replace (match p2 with Some _ => true | None => len =? 0 end) with true by (destruct p2; auto; destruct BA2 as (->&_); auto).
  replace (match tf with TNull => false | _ => true end) with true by (destruct tf; congruence). cbn [assert_at bind].
  pose proof (SendHttpHeaders_same fuel cfg E tf t h1 h2 b1 b2 n req len flags w1 w2 SC TN ST H1 H2 Hl W NS NT) as SH. unfold same_req in SH. cbn zeta in SH.
  destruct (SendHttpHeaders _ _ _ _ _ (Some h1) _ _ _) as [[[s1 [g1|]] x1]| | |x1], (SendHttpHeaders _ _ _ _ _ (Some h2) _ _ _) as [[[s2 [g2|]] x2]| | |x2]; try contradiction; [|exact SH].
  destruct SH as (->&OK). cbn [bind]. destruct (is_success s2); [|cbn [same_req]; split; auto].
  destruct p1 as [p1|], p2 as [p2|]; try (exfalso; destruct PP as (PP1&PP2); try specialize (PP1 eq_refl); try specialize (PP2 eq_refl); discriminate); [|cbn [same_req]; split; auto].
  destruct OK as ((block&G1&G2)&S1&S2&N1&N2&N3&N4&tr&OT&T1&T2).
  unfold sendHttpBody. rewrite ST. cbn [assert_at bind]. destruct BA1 as (O1&D1&B1). destruct BA2 as (O2&D2&B2).
  assert (O1' : object (w_mem x1) p1 len) by (apply (same_outside_object _ _ _ _ _ _ S1); auto).
  assert (O2' : object (w_mem x2) p2 len) by (apply (same_outside_object _ _ _ _ _ _ S2); auto).
  assert (Q1 : bytes_at (w_mem x1) p1 len = bytes_at (w_mem w1) p1 len) by (eapply bytes_at_same; eauto).
  assert (Q2 : bytes_at (w_mem x2) p2 len = bytes_at (w_mem w2) p2 len) by (eapply bytes_at_same; eauto).
  pose proof (SendHttpData_same fuel cfg E tf t p1 p2 len x1 x2 SC TN ST O1' O2' ltac:(congruence) N1 N2) as SS. unfold same_send in SS.
  assert (FIN : forall y1 y2, wstep x1 x2 y1 y2 -> (exists block, holds (w_mem y1) g1 b1 n block /\ holds (w_mem y2) g2 b2 n block) /\
     same_outside (w_mem w1) (w_mem y1) b1 n /\ same_outside (w_mem w2) (w_mem y2) b2 n /\ w_ns y1 = w_ns y2 /\ w_nt y1 = w_nt y2 /\ w_nr y1 = w_nr w1 /\ w_nr y2 = w_nr w2 /\
     exists tr, send_only tr /\ w_tr y1 = w_tr w1 ++ tr /\ w_tr y2 = w_tr w2 ++ tr).
  { intros y1 y2 (R1&R2&R3&R4&R5&R6&u&U1&U2&U3). rewrite R1, R2. conj; auto; try congruence. { exists block. auto. }
    exists (tr ++ u). split; [apply Forall_app; auto|]. rewrite U2, U3, T1, T2, <- !app_assoc. auto. }
  destruct (SendHttpData _ _ _ _ _ (Some p1) _ _) as [[s1' y1]| | |y1], (SendHttpData _ _ _ _ _ (Some p2) _ _) as [[s2' y2]| | |y2]; cbn [bind same_req]; auto.
  - destruct SS as (->&SS). split; auto.
  - exists g1, g2. auto.
Qed.

(** ** The two halves of HTTPClient_Send *)
Lemma with_clock_eff r : with_clock r = eff_time r.
Proof. unfold with_clock, eff_time. destruct (r_time r) eqn:Q; auto; destruct r; cbn in *; subst; reflexivity. Qed.
Lemma setup_valid cfg E P t h hbuf n req body len bd r rbuf L w : send_setup cfg E P t h hbuf n req body len bd r rbuf L w ->
  ~ send_invalid (Some t) (Some h) body len (Some r).
Proof.
  intros (SO&SC&RC&PO&T1&T2&H&LR&W&HL&HI&BA&RB&RL&OB&LL) I. pose proof (holds_len _ _ _ _ _ H) as HH. destruct H as (H1&H2&H3&H4&H5).
  destruct I as [I|[(t'&I&I')|[I|[(h'&I&I')|[I|[(r'&I&I')|[(I&I')|I]]]]]]]; try discriminate; try lia; try (injection I as <-).
  - destruct I'; congruence.
  - destruct I' as [I'|[I'|I']]; [congruence|lia|lia].
  - destruct I' as [I'|I']; [congruence|lia].
  - subst body. destruct BA as (->&_). lia.
Qed.
Lemma wire_len flags len req block : wire_headers flags len req block -> zlen req <= zlen block.
Proof.
  unfold wire_headers. destruct (_ || _); [intros ->; lia|]. intros (o&d&OP&_&->). pose proof (zlen_nonneg d).
  rewrite !zlen_app, header_line_len. change (zlen CRLF) with 2. change (zlen (B "Content-Length")) with 14.
  destruct OP as [(pre&->&->)|(_&->)]; rewrite ?zlen_app; change (zlen CRLF) with 2; lia.
Qed.
(** Receiving starts from the state sending leaves. *)
Lemma setup_recv cfg E P t h hbuf n req body len bd r rbuf L w h1 w1 flags block :
  send_setup cfg E P t h hbuf n req body len bd r rbuf L w -> same_outside (w_mem w) (w_mem w1) hbuf n -> wire_headers flags len req block ->
  holds (w_mem w1) h1 hbuf n block -> recv_setup cfg E P t (with_clock r) h1 rbuf L block w1.
Proof.
  intros (SO&SC&RC&PO&T1&T2&H&LR&W&HL&HI&BA&RB&RL&OB&LL) S WH HO. pose proof (wire_len _ _ _ _ WH).
  rewrite with_clock_eff. unfold recv_setup.
  assert (Q : r_buf (eff_time r) = r_buf r /\ r_bufLen (eff_time r) = r_bufLen r) by (unfold eff_time; destruct (r_time r); auto). destruct Q as (Q1&Q2).
  rewrite Q1, Q2. conj; auto; try lia.
  - apply eff_time_ok.
  - apply (same_outside_object _ _ _ _ _ _ S). auto.
  - exists hbuf, n. auto.
Qed.

Lemma Send_split fuel cfg E P t h hbuf n req body len bd r rbuf L w flags :
  send_setup cfg E P t h hbuf n req body len bd r rbuf L w ->
  exists block sent h1 w1, wire_headers flags len req block /\ send_only sent /\ w_tr w1 = w_tr w ++ sent /\ w_nr w1 = w_nr w /\
    same_outside (w_mem w) (w_mem w1) hbuf n /\ prefix (accepted sent) (block ++ bd) /\ (zlen block <= n -> holds (w_mem w1) h1 hbuf n block) /\ (block = req -> h1 = h) /\
    let X := Send fuel cfg E P (Some t) (Some h) body len (Some r) flags w in
    (X = More w1 \/
     X = Ret (HTTPNetworkError, Some h1, Some (with_clock r), w1) /\ zlen block <= n /\ zlen (accepted sent) < zlen (block ++ bd) \/
     X = Ret (HTTPInsufficientMemory, Some h1, Some (with_clock r), w1) /\ n < zlen block /\ sent = [] /\ h1 = h /\ w1 = w \/
     zlen block <= n /\ accepted sent = block ++ bd /\ recv_setup cfg E P t (with_clock r) h1 rbuf L block w1 /\
     X = (' (st2, pr2, w2) <- ReceiveAndParseHttpResponse fuel cfg E P (Some t) (Some (with_clock r)) (Some h1) w1 ;; Ret (st2, Some h1, pr2, w2))).
Proof.
  intros S. pose proof (setup_valid _ _ _ _ _ _ _ _ _ _ _ _ _ _ _ S) as NI. pose proof S as (SO&SC&RC&PO&T1&T2&H&LR&W&HL&HI&BA&RB&RL&OB&LL).
  destruct (Send_valid fuel cfg E P _ _ _ _ _ flags w SO HL NI) as (t'&h'&r'&Q1&_&_&Q2&Q3&_&_&_&_&_&_&ES). injection Q1 as <-. injection Q2 as <-. injection Q3 as <-.
  cbn zeta. rewrite ES. rewrite (with_clock_eff r). clear ES.
  destruct (sendHttpRequest_run fuel cfg E (r_time (eff_time r)) t h hbuf n req body len bd flags w SC (eff_time_ok r) T1 H ltac:(lia) W BA)
    as (block&h1&m1&so&w1&sent&WH&SS&Em&E1&Etr&Enr&On&Pre&Hh&Hq&Hn&Hi&Hs&Hne&Ho). subst m1.
  exists block, sent, h1, w1. conj; auto. { intros; apply Hq; auto. }
  destruct (sendHttpRequest _ _ _ _ _ _ _ _ _ _) as [[[st oh] wx]| | |wx]; cbn [wout] in E1; try discriminate.
  2:{ injection E1 as _ <-. left. reflexivity. }
  injection E1 as E1 <-. destruct so as [st'|]; [|discriminate]. injection E1 as <- ->. cbn [bind]. right.
  destruct Ho as [Ho|[Ho|[Ho|Ho]]]; try discriminate; injection Ho as ->; cbn [is_success].
  - right. right. assert (C : zlen block <= n) by (destruct (Z.lt_ge_cases n (zlen block)) as [C|C]; [destruct (Hn C); discriminate|auto]).
    conj; auto. rewrite <- with_clock_eff. eapply setup_recv; eauto.
  - left. assert (C : zlen block <= n) by (destruct (Z.lt_ge_cases n (zlen block)) as [C|C]; [destruct (Hn C); discriminate|auto]). auto.
  - right. left. specialize (Hi eq_refl). destruct (Hn Hi) as (_&->&->&->). auto.
Qed.

(** ** Two whole calls that differ in where their buffers lie *)
Lemma holds_fun m h b n x y : holds m h b n x -> holds m h b n y -> x = y.
Proof. intros (_&_&_&_&->) (_&_&_&_&->). reflexivity. Qed.
Definition twin_sends (rb1 rb2 : ptr) (L : Z) (r1 r2 : response) (w1 w2 : world) (x y : res (status * option reqHeaders * option response * world)) : Prop :=
  let logs w1' w2' t1 t2 := w_tr w1' = w_tr w1 ++ t1 /\ w_tr w2' = w_tr w2 ++ t2 /\ Forall2 (same_entry rb1 rb2) t1 t2 in
  match x, y with
  | Ret (st1, oh1, or1, w1'), Ret (st2, oh2, or2, w2') =>
      st1 = st2 /\ exists h1' h2' r1' r2' t1 t2, oh1 = Some h1' /\ oh2 = Some h2' /\ or1 = Some r1' /\ or2 = Some r2' /\ rh_len h1' = rh_len h2' /\ logs w1' w2' t1 t2 /\
        (same_response rb1 rb2 (w_mem w1') (w_mem w2') r1' r2' \/ received t1 = 0 /\ r1' = with_clock r1 /\ r2' = with_clock r2)
  | More w1', More w2' => exists t1 t2, logs w1' w2' t1 t2
  | _, _ => False
  end.
Lemma send_entries b1 b2 tr : send_only tr -> Forall2 (same_entry b1 b2) tr tr.
Proof. induction 1 as [|x tr X F IH]; constructor; auto. destruct x; cbn in *; tauto. Qed.
Lemma send_received tr : send_only tr -> received tr = 0.
Proof. induction 1 as [|x tr X F IH]; auto. destruct x; cbn in *; tauto. Qed.
Lemma received_app a b : received (a ++ b) = received a + received b.
Proof. induction a as [|x a IH]; auto. destruct x; cbn [received app]; rewrite ?IH; lia. Qed.
Lemma clr_eq cfg x y : clr cfg cfg x y -> x = y.
Proof. intros [H|(c&->&->)]; auto. Qed.
Lemma tresp_same cfg b1 b2 L base1 base2 T w1 w2 r1 r2 : tworld b1 b2 L base1 base2 T w1 w2 -> tresp cfg cfg b1 b2 L T r1 r2 -> same_response b1 b2 (w_mem w1) (w_mem w2) r1 r2.
Proof.
  intros W R. pose proof (tr_headers _ _ _ _ _ _ _ _ R) as H. pose proof (tr_body _ _ _ _ _ _ _ _ R) as H'. pose proof (tr_headersLen _ _ _ _ _ _ _ _ R) as HL. pose proof (tr_bodyLen _ _ _ _ _ _ _ _ R) as BL.
  unfold same_response. conj; try (apply R); auto.
  - apply (clr_eq cfg), R.
  - unfold osh in H. unfold same_place_opt, same_place. destruct (r_headers r1), (r_headers r2); auto. destruct H as (o&?&?&_). exists o; auto.
  - intros p q P Q. rewrite P, Q in H. destruct H as (o&->&->&A&C&D). rewrite <- HL. apply (tw_load _ _ _ _ _ _ _ _ _ _ W); auto.
  - unfold osh in H'. unfold same_place_opt, same_place. destruct (r_body r1), (r_body r2); auto. destruct H' as (o&?&?&_). exists o; auto.
  - intros p q P Q. rewrite P, Q in H'. destruct H' as (o&->&->&A&C&D). rewrite <- BL. apply (tw_load _ _ _ _ _ _ _ _ _ _ W); auto.
Qed.
Lemma receive_defd fuel cfg E P t r rh buf L req w : recv_setup cfg E P t r rh buf L req w -> defd (ReceiveAndParseHttpResponse fuel cfg E P (Some t) (Some r) (Some rh) w).
Proof.
  intros S. destruct (receive_outcome fuel _ _ _ _ _ _ _ _ _ _ S) as (o&w'&tr&oc&W&_). unfold defd. destruct (ReceiveAndParseHttpResponse _ _ _ _ _ _ _ _) as [(x&y)| | |]; auto; discriminate.
Qed.
Lemma Send_twin fuel cfg E P t n req len bd L flags h1 hb1 body1 r1 rb1 w1 h2 hb2 body2 r2 rb2 w2 :
  send_setup cfg E P t h1 hb1 n req body1 len bd r1 rb1 L w1 -> send_setup cfg E P t h2 hb2 n req body2 len bd r2 rb2 L w2 ->
  recv_faithful E -> same_wishes r1 r2 -> same_point w1 w2 -> (body1 = None <-> body2 = None) ->
  twin_sends rb1 rb2 L r1 r2 w1 w2 (Send fuel cfg E P (Some t) (Some h1) body1 len (Some r1) flags w1) (Send fuel cfg E P (Some t) (Some h2) body2 len (Some r2) flags w2).
Proof.
  intros S1 S2 RF (V1&V2&V3&V4&V5) (N1&N2&N3) BN.
  pose proof (setup_valid _ _ _ _ _ _ _ _ _ _ _ _ _ _ _ S1) as I1. pose proof (setup_valid _ _ _ _ _ _ _ _ _ _ _ _ _ _ _ S2) as I2.
  pose proof S1 as (SO&SC&RC&PO&T1&T2&H1&LR&WW&HL&HI&BA1&RB1&RL1&OB1&LL). pose proof S2 as (_&_&_&_&_&_&H2&_&_&_&_&BA2&RB2&RL2&OB2&_).
  destruct (Send_valid fuel cfg E P _ _ _ _ _ flags w1 SO HL I1) as (t'&h'&r'&Q1&_&_&Q2&Q3&_&_&_&_&_&_&ES1). injection Q1 as <-. injection Q2 as <-. injection Q3 as <-.
  destruct (Send_valid fuel cfg E P _ _ _ _ _ flags w2 SO HL I2) as (t'&h'&r'&Q1&_&_&Q2&Q3&_&_&_&_&_&_&ES2). injection Q1 as <-. injection Q2 as <-. injection Q3 as <-.
  rewrite ES1, ES2. clear ES1 ES2.
  assert (TE : r_time (eff_time r2) = r_time (eff_time r1)) by (unfold eff_time; rewrite <- V2; destruct (r_time r1) eqn:TQ; cbn [set_r_time r_time]; congruence).
  rewrite TE.
  pose proof (sendHttpRequest_same fuel cfg E (r_time (eff_time r1)) t h1 h2 hb1 hb2 n req body1 body2 len bd flags w1 w2 SC (eff_time_ok r1) T1 H1 H2 ltac:(lia) WW BA1 BA2 BN N1 N3) as SS.
  destruct (sendHttpRequest_run fuel cfg E (r_time (eff_time r1)) t h1 hb1 n req body1 len bd flags w1 SC (eff_time_ok r1) T1 H1 ltac:(lia) WW BA1)
    as (block&g1&m1&so&x1&sent&WH&_&Em&E1&_&_&_&_&Hh&_&Hn&_). subst m1.
  destruct (sendHttpRequest fuel cfg E (Some t) (r_time (eff_time r1)) (Some h1) body1 len flags w1) as [[[st1 [h1'|]] w1']| | |w1'],
           (sendHttpRequest fuel cfg E (Some t) (r_time (eff_time r1)) (Some h2) body2 len flags w2) as [[[st2 [h2'|]] w2']| | |w2']; cbn [same_req] in SS; try contradiction.
  - destruct SS as (<-&(bl&G1&G2)&SM1&SM2&M1&M2&M3&M4&tr&SN&X1&X2). cbn [bind wout] in *. destruct so as [so|]; [|discriminate]. injection E1 as <- <- <-.
    assert (HLL : rh_len h1' = rh_len h2') by (transitivity (zlen bl); [symmetry; eapply holds_len; eauto|eapply holds_len; eauto]).
    destruct (is_success st1) eqn:IS.
    2:{ cbn. split; auto. exists h1', h2', (eff_time r1), (eff_time r2), tr, tr. rewrite (with_clock_eff r1), (with_clock_eff r2). conj; auto. apply send_entries; auto. right. conj; auto. apply send_received; auto. }
    assert (C : zlen block <= n). { destruct (Z.lt_ge_cases n (zlen block)) as [C|C]; auto. destruct (Hn C) as (Q&_). injection Q as ->. discriminate. }
    pose proof (holds_fun _ _ _ _ _ _ (Hh C) G1) as BE. subst bl.
    pose proof (setup_recv _ _ _ _ _ _ _ _ _ _ _ _ _ _ _ _ _ _ _ S1 SM1 WH G1) as R1. pose proof (setup_recv _ _ _ _ _ _ _ _ _ _ _ _ _ _ _ _ _ _ _ S2 SM2 WH G2) as R2.
    rewrite (with_clock_eff r1) in R1. rewrite (with_clock_eff r2) in R2.
    assert (FR : fresh rb1 rb2 L (eff_time r1) (eff_time r2)).
    { unfold fresh. clear - V1 V2 V3 V4 V5 RB1 RB2 RL1 RL2. unfold eff_time. rewrite <- V2. destruct (r_time r1) eqn:TQ; cbn; conj; auto; congruence. }
    assert (TW : tworld rb1 rb2 L (w_tr w1') (w_tr w2') 0 w1' w2').
    { constructor; auto; try lia; try congruence.
      - apply (same_outside_object _ _ _ _ _ _ SM1). auto.
      - apply (same_outside_object _ _ _ _ _ _ SM2). auto.
      - exists [], []. rewrite !app_nil_r. conj; auto. }
    pose proof (receive_twin cfg cfg rb1 rb2 L (w_tr w1') (w_tr w2') ltac:(lia) ltac:(lia) eq_refl fuel E P t _ _ h1' h2' block w1' w2' R1 R2 RF FR TW eq_refl (receive_defd _ _ _ _ _ _ _ _ _ _ _ R1) (receive_defd _ _ _ _ _ _ _ _ _ _ _ R2)) as RT.
    destruct (ReceiveAndParseHttpResponse fuel cfg E P (Some t) (Some (eff_time r1)) (Some h1') w1') as [[[sa oa] wa]| | |wa],
             (ReceiveAndParseHttpResponse fuel cfg E P (Some t) (Some (eff_time r2)) (Some h2') w2') as [[[sb ob] wb]| | |wb]; try contradiction.
    + destruct RT as (<-&T&ra&rb&->&->&TX&K). cbn. split; auto. destruct (tw_tr _ _ _ _ _ _ _ _ TX) as (ta&tb&Y1&Y2&F).
      exists h1', h2', ra, rb, (tr ++ ta), (tr ++ tb). conj; auto.
      * rewrite Y1, X1, app_assoc. auto.
      * rewrite Y2, X2, app_assoc. auto.
      * apply Forall2_app; auto. apply send_entries; auto.
      * destruct K as [K|((tq&Z1&Z2)&->&->)]; [left; eapply tresp_same; eauto|right]. rewrite (with_clock_eff r1), (with_clock_eff r2). conj; auto.
        rewrite Z1 in Y1. apply app_inv_head in Y1. subst tq. rewrite received_app, (send_received _ SN), Z2. reflexivity.
    + destruct RT as (T&TX). cbn. destruct (tw_tr _ _ _ _ _ _ _ _ TX) as (ta&tb&Y1&Y2&F). exists (tr ++ ta), (tr ++ tb). conj.
      * rewrite Y1, X1, app_assoc. auto.
      * rewrite Y2, X2, app_assoc. auto.
      * apply Forall2_app; auto. apply send_entries; auto.
  - destruct SS as (h1'&h2'&(bl&G1&G2)&SM1&SM2&M1&M2&M3&M4&tr&SN&X1&X2). cbn. exists tr, tr. conj; auto. apply send_entries; auto.
Qed.

(** ** Ending *)
(** Every SendHttpData of at most [n] bytes ends, after at most [a] send calls for each byte and [b] more. *)
Definition data_ends (fuel : nat) (cfg : config) (E : env) (t : transport) (tf : timefn) (n a b : Z) (QS : status -> Prop) : Prop :=
  forall p k w, object (w_mem w) p k -> k <= n ->
    exists st w' tr, SendHttpData fuel cfg E (Some t) tf (Some p) k w = Ret (st, w') /\ w_tr w' = w_tr w ++ tr /\ sends tr <= k * a + b /\ QS st.
Lemma data_ends_mono fuel cfg E t tf n n' a b QS : n' <= n -> data_ends fuel cfg E t tf n a b QS -> data_ends fuel cfg E t tf n' a b QS.
Proof. intros H D p k w O K. apply D; auto. lia. Qed.
Lemma SendHttpData_mem fuel cfg E tf t p k w st w' : send_contract E -> tf <> TNull -> t_send t = true -> object (w_mem w) p k ->
  SendHttpData fuel cfg E (Some t) tf (Some p) k w = Ret (st, w') -> w_mem w' = w_mem w.
Proof.
  intros SC TN ST O H. destruct (SendHttpData_run fuel cfg E tf t p k w SC TN ST O) as (o&w2&t0&tr&W&M&_). rewrite H in W. cbn [wout] in W. injection W as <- <-. exact M.
Qed.
Lemma SendHttpHeaders_ends fuel cfg E tf t h buf n req len flags w a b QS :
  send_contract E -> tf <> TNull -> t_send t = true -> holds (w_mem w) h buf n req -> 0 <= len <= INT32_MAX -> n + 30 < SZ cfg ->
  0 <= a -> 0 <= b -> data_ends fuel cfg E t tf n a b QS ->
  exists st oh w' tr, (QS st \/ st = HTTPInsufficientMemory) /\ SendHttpHeaders fuel cfg E (Some t) tf (Some h) len flags w = Ret (st, oh, w') /\ w_tr w' = w_tr w ++ tr /\ sends tr <= n * a + b /\
    same_outside (w_mem w) (w_mem w') buf n.
Proof.
  intros SC TN ST H Hl W A0 B0 D. unfold SendHttpHeaders. rewrite ST. cbn [assert_at bind].
  assert (N0 : 0 <= n) by (destruct H as (_&_&(Q&_)&_); lia).
  assert (K : forall block g m, holds m g buf n block -> same_outside (w_mem w) m buf n ->
    exists st oh w' tr, QS st /\ (' (st2, w3) <- SendHttpData fuel cfg E (Some t) tf (rh_buf g) (rh_len g) (set_mem w m) ;; Ret (st2, Some g, w3)) = Ret (st, oh, w') /\
      w_tr w' = w_tr w ++ tr /\ sends tr <= n * a + b /\ same_outside (w_mem w) (w_mem w') buf n).
  { intros block g m G S. destruct (holds_sub _ _ _ _ _ G) as (O&_&P). rewrite P. destruct G as (_&_&_&G&_).
    destruct (D buf (rh_len g) (set_mem w m) O ltac:(lia)) as (st&w'&tr&E1&E2&E3&E4). rewrite E1. cbn [bind].
    apply (SendHttpData_mem _ _ _ _ _ _ _ (set_mem w m) _ _ SC TN ST O) in E1. cbn [set_mem w_mem w_tr] in *.
    exists st, (Some g), w', tr. conj; auto; [nia|]. rewrite E1. auto. }
  destruct (_ && _) eqn:C.
  - apply andb_prop in C. destruct C as (_&C).
    destruct (addContentLength_outcome cfg (w_mem w) h buf n req len H ltac:(lia) W) as (o1&st1&g1&m1&OP1&EQ1&D1). rewrite EQ1. cbn [bind]. cbn zeta in D1.
    set (x := header_line (B "Content-Length") (to_dec len) ++ CRLF) in *. set (block := o1 ++ x) in *.
    destruct D1 as [(A1&->&->&->)|(A1&->&G1&S1)]; cbn [is_success].
    + exists HTTPInsufficientMemory, (Some h), (set_mem w (w_mem w)), []. rewrite app_nil_r. cbn [sends set_mem w_mem w_tr]. conj; auto; [nia|apply same_outside_refl].
    + assert (LB : zlen o1 + zlen x <= n) by (unfold block in A1; rewrite zlen_app in A1; lia). pose proof (zlen_nonneg o1).
      destruct (K block g1 m1 G1) as (st&oh&w'&tr&K1&K2); [(eapply same_outside_weaken; [eassumption| | |]); unfold poff; cbn [pb po]; try reflexivity; lia|]. exists st, oh, w', tr. split; auto.
  - cbn [bind is_success]. destruct (K req h (w_mem w) H (same_outside_refl _ _ _)) as (st&oh&w'&tr&K1&K2). exists st, oh, w', tr. split; auto.
Qed.
Lemma sendHttpRequest_ends fuel cfg E tf t h buf n req body len bd flags w a b QS :
  send_contract E -> tf <> TNull -> t_send t = true -> holds (w_mem w) h buf n req -> 0 <= len <= INT32_MAX -> n + 30 < SZ cfg -> body_arg (w_mem w) buf n body len bd ->
  0 <= a -> 0 <= b -> data_ends fuel cfg E t tf (Z.max n len) a b QS ->
  exists x w' tr, (QS (fst x) \/ fst x = HTTPInsufficientMemory) /\ sendHttpRequest fuel cfg E (Some t) tf (Some h) body len flags w = Ret (x, w') /\ w_tr w' = w_tr w ++ tr /\ sends tr <= (n + len) * a + 2 * b.
Proof.
  intros SC TN ST H Hl W BA A0 B0 D. unfold sendHttpRequest. cbn [assert_at bind].
  replace (match body with Some _ => true | None => len =? 0 end) with true by (destruct body; auto; destruct BA as (->&_); auto).
  replace (match tf with TNull => false | _ => true end) with true by (destruct tf; congruence). cbn [assert_at bind].
  destruct (SendHttpHeaders_ends fuel cfg E tf t h buf n req len flags w a b QS SC TN ST H Hl W A0 B0 (data_ends_mono _ _ _ _ _ _ _ _ _ _ (Z.le_max_l n len) D)) as (st&oh&w1&tr&E0&E1&E2&E3&E4).
  assert (SB : 0 <= len * a) by nia.
  rewrite E1. cbn [bind]. destruct (is_success st); [|exists (st, oh), w1, tr; conj; auto; rewrite Z.mul_add_distr_r; lia].
  destruct body as [p|]; [|exists (st, oh), w1, tr; conj; auto; rewrite Z.mul_add_distr_r; lia].
  unfold sendHttpBody. rewrite ST. cbn [assert_at bind]. destruct BA as (O&DJ&_).
  assert (O' : object (w_mem w1) p len) by (apply (same_outside_object _ _ _ _ _ _ E4); auto).
  destruct (D p len w1 O' ltac:(lia)) as (s2&w2&tr2&F1&F2&F3&F4). rewrite F1. cbn [bind].
  exists (s2, oh), w2, (tr ++ tr2). conj; auto; [rewrite F2, E2, <- app_assoc; auto|]. rewrite sends_app, Z.mul_add_distr_r. lia.
Qed.
Lemma no_send_sends tr : no_send tr -> sends tr = 0.
Proof. induction 1 as [|x tr X F IH]; auto. destruct x; cbn in *; tauto. Qed.
Lemma recvs_app a b : recvs (a ++ b) = recvs a + recvs b.
Proof. induction a as [|x a IH]; auto. destruct x; cbn [recvs app]; rewrite ?IH; lia. Qed.
Lemma send_only_recvs tr : send_only tr -> recvs tr = 0.
Proof. induction 1 as [|x tr X F IH]; auto. destruct x; cbn in *; tauto. Qed.
Lemma Send_ends fuel cfg E P t h hbuf n req body len bd r rbuf L w flags a b c :
  send_setup cfg E P t h hbuf n req body len bd r rbuf L w -> 0 <= a -> 0 <= b -> 0 <= c -> data_ends fuel cfg E t (r_time (with_clock r)) (Z.max n len) a b (fun _ => True) ->
  (forall rh blk w1, recv_setup cfg E P t (with_clock r) rh rbuf L blk w1 -> exists st r' w' tr, receives fuel cfg E P t (with_clock r) rh w1 st r' w' tr /\ recvs tr <= c) ->
  exists st h' r' w' tr, exchanges fuel cfg E P t h body len r flags w st h' r' w' tr /\ sends tr <= (n + len) * a + 2 * b /\ recvs tr <= c.
Proof.
  intros S A0 B0 C0 D RE. pose proof S as (SO&SC&RC&PO&T1&T2&H&LR&W&HL&HI&BA&RB&RL&OB&LL).
  assert (TN : r_time (with_clock r) <> TNull) by (rewrite with_clock_eff; apply eff_time_ok).
  destruct (sendHttpRequest_ends fuel cfg E (r_time (with_clock r)) t h hbuf n req body len bd flags w a b (fun _ => True) SC TN T1 H ltac:(lia) W BA A0 B0 D) as (y&w2&tr2&_&E1&E2&E3).
  destruct (sendHttpRequest_run fuel cfg E (r_time (with_clock r)) t h hbuf n req body len bd flags w SC TN T1 H ltac:(lia) W BA)
    as (block&h1&m1&so&w1&sent&WH&SS&Em&E1'&Etr&Enr&On&Pre&Hh&Hq&Hn&Hi&Hs&Hne&Ho). subst m1.
  assert (NI := setup_valid _ _ _ _ _ _ _ _ _ _ _ _ _ _ _ S).
  destruct (Send_valid fuel cfg E P _ _ _ _ _ flags w SO HL NI) as (t'&h'&r'&Q1&_&_&Q2&Q3&_&_&_&_&_&_&ES). injection Q1 as <-. injection Q2 as <-. injection Q3 as <-.
  rewrite <- (with_clock_eff r) in ES. unfold exchanges. rewrite ES. clear ES. rewrite E1 in *. cbn [bind wout] in *. injection E1' as E1' <-.
  destruct so as [st|]; [|discriminate]. injection E1' as ->. cbn [bind].
  rewrite Etr in E2. apply app_inv_head in E2. subst tr2.
  destruct (is_success st) eqn:IS.
  - assert (C : zlen block <= n). { destruct (Z.lt_ge_cases n (zlen block)) as [C|C]; auto. destruct (Hn C) as (Q&_). injection Q as ->. discriminate. }
    pose proof (setup_recv _ _ _ _ _ _ _ _ _ _ _ _ _ _ _ _ _ _ _ S SS WH (Hh C)) as RS.
    destruct (RE _ _ _ RS) as (st2&r'&w'&tr&(R1&R2)&R3). rewrite R1. cbn [bind].
    exists st2, h1, r', w', (sent ++ tr). conj; auto.
    + rewrite R2, Etr, <- app_assoc. auto.
    + destruct (Receive_ext _ _ _ _ _ _ _ _ (Some (st2, Some r')) w' ltac:(rewrite R1; reflexivity)) as (tq&Q1&Q2). rewrite Q1 in R2. apply app_inv_head in R2. subst tq.
      rewrite sends_app, (no_send_sends _ Q2). lia.
    + rewrite recvs_app, (send_only_recvs _ On). lia.
  - exists st, h1, (with_clock r), w2, sent. conj; auto. rewrite (send_only_recvs _ On). lia.
Qed.
(** More fuel does not change a result. *)
Lemma recv_loop_fuel cfg E P T : forall fuel total last ps s x, recv_loop fuel cfg E P T total last ps s = Ret x ->
  forall fuel', (fuel <= fuel')%nat -> recv_loop fuel' cfg E P T total last ps s = Ret x.
Proof.
  induction fuel as [|fuel IH]; intros total last ps s x X fuel' Hf; [discriminate|].
  destruct fuel' as [|fuel']; [lia|]. cbn [recv_loop] in *.
  destruct (r_buf (s_resp s)); auto. destruct (padd _ _ _); auto. cbn [bind] in *.
  destruct (e_recv _ _ _) as [n d]. destruct (storen _ _ _); auto. cbn [bind] in *.
  destruct (n <? 0); auto. destruct (get_time _ _ _) as [[t w2]| | |]; auto. cbn [bind] in *.
  destruct (0 <? n).
  - destruct (parseHttpResponse _ _ _ _ _) as [[[st ps'] s3]| | |]; auto. cbn [bind] in *. destruct (_ && _ && _); auto. apply IH; auto. lia.
  - destruct (T <=? _); auto. destruct (_ && _); auto. apply IH; auto. lia.
Qed.
Lemma Receive_fuel cfg E P tr pr prh w fuel x : ReceiveAndParseHttpResponse fuel cfg E P tr pr prh w = Ret x ->
  forall fuel', (fuel <= fuel')%nat -> ReceiveAndParseHttpResponse fuel' cfg E P tr pr prh w = Ret x.
Proof.
  intros H fuel' F. unfold ReceiveAndParseHttpResponse in *. destruct tr; auto. destruct (assert_at _ _); auto. cbn [bind] in *.
  destruct pr; auto. destruct prh; auto. destruct (initializeParsingContextForFirstResponse _ _); auto. cbn [bind] in *.
  destruct (get_time _ _ _) as [[t0 w1]| | |]; auto. cbn [bind] in *.
  destruct (recv_loop fuel _ _ _ _ _ _ _ _) as [?| | |] eqn:Q; try discriminate. rewrite (recv_loop_fuel _ _ _ _ _ _ _ _ _ _ Q _ F). exact H.
Qed.
Lemma SendHttpData_fuel cfg E tr tf p k w fuel x : SendHttpData fuel cfg E tr tf p k w = Ret x ->
  forall fuel', (fuel <= fuel')%nat -> SendHttpData fuel' cfg E tr tf p k w = Ret x.
Proof.
  intros H fuel' F. unfold SendHttpData in *. destruct tr; auto. destruct (assert_at _ _); auto. cbn [bind] in *. destruct p; auto.
  destruct (get_time _ _ _) as [[t0 w1]| | |]; auto. cbn [bind] in *. eapply send_loop_fuel; eauto.
Qed.
Lemma SendHttpHeaders_fuel cfg E tr tf h len flags w fuel x : SendHttpHeaders fuel cfg E tr tf h len flags w = Ret x ->
  forall fuel', (fuel <= fuel')%nat -> SendHttpHeaders fuel' cfg E tr tf h len flags w = Ret x.
Proof.
  intros H fuel' F. unfold SendHttpHeaders in *. destruct tr; auto. destruct (assert_at _ _); auto. cbn [bind] in *. destruct h; auto.
  destruct (if _ : bool then _ else _) as [[[st h1] m1]| | |]; auto. cbn [bind] in *. destruct (is_success st); auto.
  destruct (SendHttpData fuel _ _ _ _ _ _ _) as [?| | |] eqn:Q; try discriminate. rewrite (SendHttpData_fuel _ _ _ _ _ _ _ _ _ Q _ F). exact H.
Qed.
Lemma sendHttpRequest_fuel cfg E tr tf h body len flags w fuel x : sendHttpRequest fuel cfg E tr tf h body len flags w = Ret x ->
  forall fuel', (fuel <= fuel')%nat -> sendHttpRequest fuel' cfg E tr tf h body len flags w = Ret x.
Proof.
  intros H fuel' F. unfold sendHttpRequest in *. destruct (assert_at _ _); auto. cbn [bind] in *. destruct (assert_at _ 2181); auto. cbn [bind] in *.
  destruct (assert_at _ 2182); auto. cbn [bind] in *. destruct (assert_at _ 2184); auto. cbn [bind] in *.
  destruct (SendHttpHeaders fuel _ _ _ _ _ _ _ _) as [[[st h1] w1]| | |] eqn:Q; try discriminate. rewrite (SendHttpHeaders_fuel _ _ _ _ _ _ _ _ _ _ Q _ F). cbn [bind] in *.
  destruct (is_success st); auto. destruct body; auto. unfold sendHttpBody in *. destruct tr; auto. destruct (assert_at _ _); auto. cbn [bind] in *.
  destruct (assert_at _ _); auto. cbn [bind] in *.
  destruct (SendHttpData fuel _ _ _ _ _ _ _) as [?| | |] eqn:Q2; try discriminate. rewrite (SendHttpData_fuel _ _ _ _ _ _ _ _ _ Q2 _ F). exact H.
Qed.
Lemma Send_fuel cfg E P tr h body len r flags w fuel x : Send fuel cfg E P tr h body len r flags w = Ret x ->
  forall fuel', (fuel <= fuel')%nat -> Send fuel' cfg E P tr h body len r flags w = Ret x.
Proof.
  intros H fuel' F. unfold Send in *. destruct tr as [t|]; auto. destruct (negb _); auto. destruct (negb _); auto. destruct h as [h|]; auto. destruct (match rh_buf h with None => _ | _ => _ end); auto.
  destruct (_ <? _); auto. destruct (_ <? _); auto. destruct r as [r|]; auto. destruct (match r_buf r with None => _ | _ => _ end); auto. destruct (_ =? _); auto.
  destruct (match body with None => _ | _ => _ end); auto. destruct (_ <? _); auto.
  destruct (sendHttpRequest fuel _ _ _ _ _ _ _ _ _) as [[[st h1] w1]| | |] eqn:Q; try discriminate. cbn zeta in *. rewrite (sendHttpRequest_fuel _ _ _ _ _ _ _ _ _ _ _ Q _ F). cbn [bind] in *.
  destruct (is_success st); auto.
  destruct (ReceiveAndParseHttpResponse fuel _ _ _ _ _ _ _) as [?| | |] eqn:Q2; try discriminate. rewrite (Receive_fuel _ _ _ _ _ _ _ _ _ Q2 _ F). exact H.
Qed.

(** ** A transport that always takes something *)
Lemma send_loop_willing E tf T : send_contract E -> (forall i k, 0 < k -> 0 < e_send E i k) -> tf <> TNull -> forall fuel p rem last w,
  object (w_mem w) p rem -> rem < Z.of_nat fuel -> exists w' tr, send_loop fuel E tf T p rem last w = Ret (HTTPSuccess, w') /\ w_tr w' = w_tr w ++ tr.
Proof.
  intros SC WI TN. induction fuel as [|fuel IH]; intros p rem last w O F; [pose proof (proj1 O); lia|]. cbn [send_loop].
  destruct (Z.leb_spec rem 0). { exists w, []. rewrite app_nil_r. auto. }
  rewrite loadn_ok by auto. cbn [bind]. set (d := bytes_at (w_mem w) p rem). pose proof (SC (w_ns w) rem ltac:(lia)). pose proof (WI (w_ns w) rem ltac:(lia)). set (r := e_send E (w_ns w) rem) in *.
  replace (r <? 0) with false by lia. replace (0 <? r) with true by lia. replace (r <=? rem) with true by lia. cbn [assert_at bind].
  destruct (get_time_same E tf (w_after_send w d r) (w_after_send w d r) TN eq_refl eq_refl) as (t&v&v'&G1&G2&(M&_&_&_&_&_&tq&_&TQ&_)). rewrite G1. cbn [bind].
  cbn [w_after_send w_mem w_tr] in *. assert (O' : object (w_mem v) p rem) by (rewrite M; auto).
  rewrite padd_ok by (destruct O' as (?&?&?); unfold object in *; auto; lia). cbn [bind].
  destruct (IH (poff p r) (rem - r) t v) as (w'&tr&E1&E2); [|lia|].
  { destruct O' as (?&?&?). unfold object, poff in *. cbn [pb po]. lia. }
  exists w', ([TSend d r] ++ tq ++ tr). split; [auto|]. rewrite E2, TQ, <- !app_assoc. auto.
Qed.
Lemma send_time_sends E tf w t w' : get_time E tf w = Ret (t, w') -> exists tr, w_tr w' = w_tr w ++ tr /\ sends tr = 0 /\ w_mem w' = w_mem w.
Proof.
  destruct tf; cbn [get_time]; intros H; try discriminate; injection H as <- <-; cbn [w_tr w_mem].
  - exists []. rewrite app_nil_r. auto.
  - eexists. split; [reflexivity|]. auto.
Qed.
Lemma data_willing fuel cfg E t tf n : send_contract E -> (forall i k, 0 < k -> 0 < e_send E i k) -> tf <> TNull -> t_send t = true -> n < Z.of_nat fuel ->
  data_ends fuel cfg E t tf n 0 (Z.of_nat fuel) (fun st => st = HTTPSuccess).
Proof.
  intros SC WI TN ST F p k w O K. unfold SendHttpData. rewrite ST. cbn [assert_at bind].
  destruct (get_time E tf w) as [[t0 v]| | |] eqn:G; try (destruct tf; cbn in G; congruence). cbn [bind].
  destruct (send_time_sends _ _ _ _ _ G) as (tq&TQ&SQ&M).
  destruct (send_loop_willing E tf (match tf with TZero => 0 | _ => SEND_TO cfg end) SC WI TN fuel p k t0 v) as (w'&tr&E1&E2); [rewrite M; auto|lia|].
  destruct (send_loop_count _ _ _ TN _ _ _ _ _ _ _ E1) as (tr'&E3&E4). rewrite E3 in E2. apply app_inv_head in E2. subst tr'.
  exists HTTPSuccess, w', (tq ++ tr). conj; auto. rewrite E3, TQ, <- app_assoc. auto. rewrite sends_app. lia.
Qed.
Lemma decimal_unique n d d' : decimal n d -> decimal n d' -> d = d'.
Proof.
  unfold decimal. destruct (n <? 0); [|apply decimal_nat_unique]. intros (x&->&A) (y&->&C). rewrite (decimal_nat_unique _ _ _ A C). reflexivity.
Qed.
Lemma Send_willing fuel cfg E P t h hbuf n req body len bd r rbuf L w flags block :
  send_setup cfg E P t h hbuf n req body len bd r rbuf L w -> (forall i k, 0 < k -> 0 < e_send E i k) -> n + len < Z.of_nat fuel ->
  wire_headers flags len req block -> zlen block <= n ->
  exists sent h1 w1, send_only sent /\ w_tr w1 = w_tr w ++ sent /\ w_nr w1 = w_nr w /\ accepted sent = block ++ bd /\
    recv_setup cfg E P t (with_clock r) h1 rbuf L block w1 /\
    Send fuel cfg E P (Some t) (Some h) body len (Some r) flags w =
      (' (st2, pr2, w2) <- ReceiveAndParseHttpResponse fuel cfg E P (Some t) (Some (with_clock r)) (Some h1) w1 ;; Ret (st2, Some h1, pr2, w2)).
Proof.
  intros S WI F WH C. pose proof S as (SO&SC&RC&PO&T1&T2&H&LR&W&HL&HI&BA&RB&RL&OB&LL).
  assert (TN : r_time (with_clock r) <> TNull) by (rewrite with_clock_eff; apply eff_time_ok).
  assert (N0 : 0 <= n) by (destruct H as (_&_&(Q&_)&_); lia).
  assert (D : data_ends fuel cfg E t (r_time (with_clock r)) (Z.max n len) 0 (Z.of_nat fuel) (fun st => st = HTTPSuccess)) by (apply data_willing; auto; lia).
  destruct (sendHttpRequest_ends fuel cfg E (r_time (with_clock r)) t h hbuf n req body len bd flags w 0 (Z.of_nat fuel) _ SC TN T1 H ltac:(lia) W BA (Z.le_refl 0) ltac:(lia) D) as (y&w2&tr2&Y&E1&E2&E3).
  destruct (sendHttpRequest_run fuel cfg E (r_time (with_clock r)) t h hbuf n req body len bd flags w SC TN T1 H ltac:(lia) W BA)
    as (block'&h1&m1&so&w1&sent&WH'&SS&Em&E1'&Etr&Enr&On&Pre&Hh&Hq&Hn&Hi&Hs&Hne&Ho). subst m1.
  assert (block' = block).
  { clear - WH WH'. unfold wire_headers in *. destruct (_ || _); [congruence|]. destruct WH as (o&d&A1&A2&->), WH' as (o'&d'&B1&B2&->).
    rewrite (opened_fun _ _ _ A1 B1), (decimal_unique _ _ _ A2 B2). reflexivity. }
  subst block'.
  assert (NI := setup_valid _ _ _ _ _ _ _ _ _ _ _ _ _ _ _ S).
  destruct (Send_valid fuel cfg E P _ _ _ _ _ flags w SO HL NI) as (t'&h'&r'&Q1&_&_&Q2&Q3&_&_&_&_&_&_&ES). injection Q1 as <-. injection Q2 as <-. injection Q3 as <-.
  rewrite <- (with_clock_eff r) in ES. rewrite ES. clear ES. rewrite E1 in *. cbn [bind wout] in *. injection E1' as E1' <-.
  destruct so as [st|]; [|discriminate]. injection E1' as ->. cbn [bind fst] in *.
  assert (st = HTTPSuccess) as -> by (destruct Y as [Y|Y]; [auto|subst st; specialize (Hi eq_refl); lia]). cbn [is_success].
  exists sent, h1, w2. conj; auto. eapply setup_recv; eauto.
Qed.
