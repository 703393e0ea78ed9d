(** PropsBody.v — C89: where the body of a request may lie. *)
From Verif Require Import Base Lib ModelRequest ModelSend ModelResponse SpecRequest SpecSend SpecResponse SpecHttp SpecParser SpecExchange ProofsRequest ProofsDecimal ProofsRequest2 ProofsHistory ProofsSend ProofsSend2
  ProofsResponse ProofsResponse2 ProofsResponse5 ProofsTwin ProofsExchange RefParser Demo DemoResponse PropsSend PropsResponse PropsResponse2 PropsHttp PropsExchange PropsMemory PropsPieces.

(** ** The specification *)
(** What is sent for a body of [len] bytes at [p], wherever that is: what stands there when the header block [block] (with the Content-Length
    line) is in the request buffer. *)
Definition body_sent (m : mem) (hbuf : ptr) (block : bytes) (p : ptr) (len : Z) : bytes := bytes_at (write m hbuf block) p len.
(** All that is asked of the body: it is memory of the application's. *)
Definition send_setup_any (cfg : config) (E : env) (P : parser) (t : transport) (h : reqHeaders) (hbuf : ptr) (n : Z) (req : bytes) (p : ptr) (len : Z) (r : response) (rbuf : ptr) (L : Z) (w : world) : Prop :=
  send_setup cfg E P t h hbuf n req None 0 [] r rbuf L w /\ 0 <= len < SZ cfg /\ len <= INT32_MAX /\ object (w_mem w) p len.

(** ** Proofs *)
Lemma sendHttpRequest_any fuel cfg E tf t h buf n req p len flags w :
  send_contract E -> tf <> TNull -> t_send t = true -> holds (w_mem w) h buf n req ->
  0 <= len <= INT32_MAX -> n + 30 < SZ cfg -> object (w_mem w) p len ->
  exists block h1 o w' tr, wire_headers flags len req block /\
    let bd := body_sent (w_mem w) buf block p len in
    same_outside (w_mem w) (w_mem w') buf n /\
    wout (sendHttpRequest fuel cfg E (Some t) tf (Some h) (Some p) len flags w) = Some (match o with Some st => Some (st, Some h1) | None => None end, w') /\
    w_tr w' = w_tr w ++ tr /\ w_nr w' = w_nr w /\ send_only tr /\
    prefix (accepted tr) (block ++ bd) /\
    (zlen block <= n -> holds (w_mem w') h1 buf n block) /\
    (n < zlen block -> o = Some HTTPInsufficientMemory /\ tr = [] /\ h1 = h /\ w' = w) /\
    (o = Some HTTPInsufficientMemory -> n < zlen block) /\
    (o = Some HTTPSuccess -> accepted tr = block ++ bd) /\
    (o = Some HTTPNetworkError -> zlen (accepted tr) < zlen (block ++ bd)) /\
    (o = None \/ o = Some HTTPSuccess \/ o = Some HTTPNetworkError \/ o = Some HTTPInsufficientMemory) /\
    (o = Some HTTPSuccess -> w_mem w' = write (w_mem w) buf block).
Proof.
  intros SC TN Ht H Hl W OB. unfold sendHttpRequest. cbn [assert_at bind].
  replace (match tf with TNull => false | _ => true end) with true by (destruct tf; congruence). cbn [assert_at bind].
  destruct (SendHttpHeaders_run fuel cfg E tf t h buf n req len flags w SC TN Ht H Hl W) as (block&h1&m1&WH&[(C&EQ)|(C&Hh&S&Sq&o&w'&t0&tr&E1&Em&Etr&Enr&_&R)]).
  - rewrite EQ. cbn [bind is_success]. exists block, h, (Some HTTPInsufficientMemory), w, []. cbn zeta.
    rewrite app_nil_r. split; [auto|]. split; [apply same_outside_refl|]. split; [auto|]. split; [auto|]. split; [auto|]. split; [constructor|]. split; [eexists; reflexivity|].
    split; [lia|]. split; [auto|]. split; [auto|]. split; [discriminate|]. split; [discriminate|]. split; [auto|discriminate].
  - destruct (srun_facts _ _ _ _ _ _ R) as (F1&F2&F3&F4&F5). exists block, h1. cbn zeta.
    assert (FIN : o <> Some HTTPSuccess -> exists o' w'' tr0, wire_headers flags len req block /\ same_outside (w_mem w) (w_mem w'') buf n /\
       Some (match o with Some st => Some (st, Some h1) | None => None end, w') = Some (match o' with Some st => Some (st, Some h1) | None => None end, w'') /\
       w_tr w'' = w_tr w ++ tr0 /\ w_nr w'' = w_nr w /\ send_only tr0 /\ prefix (accepted tr0) (block ++ body_sent (w_mem w) buf block p len) /\
       (zlen block <= n -> holds (w_mem w'') h1 buf n block) /\ (n < zlen block -> o' = Some HTTPInsufficientMemory /\ tr0 = [] /\ h1 = h /\ w'' = w) /\
       (o' = Some HTTPInsufficientMemory -> n < zlen block) /\ (o' = Some HTTPSuccess -> accepted tr0 = block ++ body_sent (w_mem w) buf block p len) /\
       (o' = Some HTTPNetworkError -> zlen (accepted tr0) < zlen (block ++ body_sent (w_mem w) buf block p len)) /\
       (o' = None \/ o' = Some HTTPSuccess \/ o' = Some HTTPNetworkError \/ o' = Some HTTPInsufficientMemory) /\ (o' = Some HTTPSuccess -> w_mem w'' = write (w_mem w) buf block)).
    { intros D. exists o, w', (tick tf t0 ++ tr). rewrite Em. split; [auto|]. split; [auto|]. split; [auto|]. split; [auto|]. split; [auto|]. split; [auto|].
      split; [destruct F2 as (c&->); eexists; rewrite <- app_assoc; reflexivity|]. split; [auto|]. split; [lia|].
      split; [intros X; destruct F5 as [F5|[F5|F5]]; congruence|]. split; [congruence|]. split; [intros X; rewrite zlen_app; pose proof (zlen_nonneg (body_sent (w_mem w) buf block p len)); specialize (F4 X); lia|].
      split; [tauto|congruence]. }
    destruct (SendHttpHeaders fuel cfg E (Some t) tf (Some h) len flags w) as [[[st oh] wx]| | |] eqn:Q; cbn [wout] in E1; try discriminate.
    2:{ injection E1 as E1 E2. subst w0. destruct o; [discriminate|]. cbn [bind wout]. apply FIN. discriminate. }
    injection E1 as E1 E2. subst wx. destruct o as [st'|]; [|discriminate]. injection E1 as -> ->. cbn [bind].
    destruct (is_success st') eqn:Es.
    2:{ cbn [wout]. apply FIN. intros X. injection X as ->. discriminate. }
    apply is_success_eq in Es. subst st'. specialize (F3 eq_refl). clear FIN.
    assert (MW : w_mem w' = write (w_mem w) buf block).
    { destruct (headers_mem _ _ _ _ _ _ _ _ _ _ _ _ _ _ _ SC TN Ht H Hl W Q) as (b2&WH2&M). rewrite <- (wire_fun _ _ _ _ _ WH WH2) in M. rewrite M. destruct (Z.leb_spec (zlen block) n); [reflexivity|lia]. }
    unfold sendHttpBody. rewrite Ht. cbn [assert_at bind].
    assert (OB' : object (w_mem w') p len) by (rewrite Em; apply (same_outside_object _ _ _ _ _ _ S); auto).
    destruct (SendHttpData_run fuel cfg E tf t p len w' SC TN Ht OB') as (o2&w2&t2&tr2&X1&X2&X3&X4&_&R2).
    assert (BB : bytes_at (w_mem w') p len = body_sent (w_mem w) buf block p len) by (unfold body_sent; rewrite MW; reflexivity).
    rewrite BB in R2. destruct (srun_facts _ _ _ _ _ _ R2) as (G1&G2&G3&G4&G5).
    exists o2, w2, ((tick tf t0 ++ tr) ++ (tick tf t2 ++ tr2)).
    split; [auto|]. split; [rewrite X2, Em; auto|].
    split. { destruct (SendHttpData _ _ _ _ _ _ _ _) as [[st w3]| | |]; cbn [wout bind] in *; try discriminate; injection X1 as <- <-; auto. }
    split; [rewrite X3, Etr; rewrite <- !app_assoc; auto|]. split; [congruence|].
    split; [apply Forall_app; split; auto|].
    rewrite !(accepted_app (tick tf t0 ++ tr)), F3.
    split. { destruct G2 as (c&->). exists c. rewrite app_assoc. auto. }
    split; [rewrite X2, Em; auto|]. split; [lia|].
    split. { intros X. destruct G5 as [G5|[G5|G5]]; congruence. }
    split. { intros X. rewrite G3; auto. }
    split. { intros X. rewrite !zlen_app. specialize (G4 X). lia. }
    split; [tauto|]. intros _. rewrite X2. exact MW.
Qed.
Lemma any_valid cfg E P t h hbuf n req p len r rbuf L w : send_setup_any cfg E P t h hbuf n req p len r rbuf L w -> ~ send_invalid (Some t) (Some h) (Some p) len (Some r).
Proof.
  intros (S&HL&HI&OB) I. pose proof (setup_valid _ _ _ _ _ _ _ _ _ _ _ _ _ _ _ S) as NI. apply NI. unfold send_invalid in *.
  destruct I as [I|[I|[I|[I|[I|[I|[(I&_)|I]]]]]]]; try discriminate; auto 10. lia.
Qed.

(** ** C89: a body anywhere in memory: in the request buffer, in the response buffer, anywhere. *)
Theorem C89_body_anywhere : forall fuel cfg E P t h hbuf n req p len r rbuf L w flags,
  send_setup_any cfg E P t h hbuf n req p len r rbuf L w ->
  exists block, wire_headers flags len req block /\
  let bd := body_sent (w_mem w) hbuf block p len in
  let X := Send fuel cfg E P (Some t) (Some h) (Some p) len (Some r) flags w in
  exists sent h1 w1, send_only sent /\ w_tr w1 = w_tr w ++ sent /\ same_outside (w_mem w) (w_mem w1) hbuf n /\ prefix (accepted sent) (block ++ bd) /\
   (X = More w1 \/
    X = Ret (HTTPNetworkError, Some h1, Some (with_clock r), w1) /\ zlen block <= n /\ zlen (accepted sent) < zlen (block ++ bd) \/
    X = Ret (HTTPInsufficientMemory, Some h, Some (with_clock r), w) /\ n < zlen block /\ sent = [] \/
    zlen block <= n /\ accepted sent = block ++ bd /\ w_mem w1 = write (w_mem w) hbuf block /\ recv_setup cfg E P t (with_clock r) h1 rbuf L block w1 /\
    X = (' (st2, pr2, w2) <- ReceiveAndParseHttpResponse fuel cfg E P (Some t) (Some (with_clock r)) (Some h1) w1 ;; Ret (st2, Some h1, pr2, w2))).
Proof.
  intros fuel cfg E P t h hbuf n req p len r rbuf L w flags SA. pose proof (any_valid _ _ _ _ _ _ _ _ _ _ _ _ _ _ SA) as NI. destruct SA as (S&HL&HI&OB).
  pose proof S as (SO&SC&RC&PO&T1&T2&H&LR&W&_&_&_&RB&RL&OR&LL).
  destruct (Send_valid fuel cfg E P _ _ _ _ _ flags w SO HL NI) as (t'&h'&r'&Q1&_&_&Q2&Q3&_&_&_&_&_&_&ES). injection Q1 as <-. injection Q2 as <-. injection Q3 as <-.
  rewrite ES. rewrite (with_clock_eff r). clear ES.
  destruct (sendHttpRequest_any fuel cfg E (r_time (eff_time r)) t h hbuf n req p len flags w SC (eff_time_ok r) T1 H ltac:(lia) W OB)
    as (block&h1&so&w1&sent&WH&SS&E1&Etr&Enr&On&Pre&Hh&Hn&Hi&Hs&Hne&Ho&HM).
  exists block. split; [auto|]. cbn zeta in *. exists sent, h1, w1. split; [auto|]. split; [auto|]. split; [auto|]. split; [auto|].
  destruct (sendHttpRequest _ _ _ _ _ _ _ _ _ _) as [[[st oh] wx]| | |wx]; cbn [wout] in E1; try discriminate.
  2:{ injection E1 as _ <-. left. reflexivity. }
  injection E1 as E1 <-. destruct so as [st'|]; [|discriminate]. injection E1 as <- ->. cbn [bind]. right.
  destruct Ho as [Ho|[Ho|[Ho|Ho]]]; try discriminate; injection Ho as ->; cbn [is_success].
  - right. right. assert (C : zlen block <= n) by (destruct (Z.lt_ge_cases n (zlen block)) as [C|C]; [destruct (Hn C); discriminate|auto]).
    split; [auto|]. split; [auto|]. split; [auto|]. split; [|reflexivity]. pose proof (wire_len _ _ _ _ WH). unfold recv_setup.
    assert (Q : r_buf (eff_time r) = r_buf r /\ r_bufLen (eff_time r) = r_bufLen r) by (unfold eff_time; destruct (r_time r); auto). destruct Q as (Q1&Q2). rewrite Q1, Q2.
    split; [auto|]. split; [auto|]. split; [auto|]. split; [apply eff_time_ok|]. split; [auto|]. split; [auto|]. split; [apply (same_outside_object _ _ _ _ _ _ SS); auto|]. split; [auto|]. split; [exists hbuf, n; auto|lia].
  - left. assert (C : zlen block <= n) by (destruct (Z.lt_ge_cases n (zlen block)) as [C|C]; [destruct (Hn C); discriminate|auto]). auto.
  - right. left. specialize (Hi eq_refl). destruct (Hn Hi) as (_&->&->&->). auto.
Qed.
Print Assumptions C89_body_anywhere.

Lemma same_world x y1 y2 : wstep x x y1 y2 -> y1 = y2.
Proof. intros (A1&A2&A3&A4&A5&A6&tr&_&A7&A8). destruct y1, y2. cbn in *. congruence. Qed.
Lemma SendHttpData_equal fuel cfg E tf t p1 p2 len w : send_contract E -> tf <> TNull -> t_send t = true ->
  object (w_mem w) p1 len -> object (w_mem w) p2 len -> bytes_at (w_mem w) p1 len = bytes_at (w_mem w) p2 len ->
  SendHttpData fuel cfg E (Some t) tf (Some p1) len w = SendHttpData fuel cfg E (Some t) tf (Some p2) len w.
Proof.
  intros SC TN ST O1 O2 EQ. pose proof (SendHttpData_same fuel cfg E tf t p1 p2 len w w SC TN ST O1 O2 EQ eq_refl eq_refl) as SS. unfold same_send in SS.
  destruct (SendHttpData _ _ _ _ _ (Some p1) _ _) as [[s1 y1]| | |y1], (SendHttpData _ _ _ _ _ (Some p2) _ _) as [[s2 y2]| | |y2]; try contradiction.
  - destruct SS as (->&SS). rewrite (same_world _ _ _ SS). reflexivity.
  - rewrite (same_world _ _ _ SS). reflexivity.
Qed.

(** The call is exactly the one with a body [p2] that holds this text and lies apart from the request buffer: same status, structures, memory, calls. *)
Theorem C89_as_elsewhere : forall fuel cfg E P t h hbuf n req p p2 len r rbuf L w flags block,
  send_setup_any cfg E P t h hbuf n req p len r rbuf L w -> wire_headers flags len req block ->
  send_setup cfg E P t h hbuf n req (Some p2) len (body_sent (w_mem w) hbuf block p len) r rbuf L w ->
  Send fuel cfg E P (Some t) (Some h) (Some p) len (Some r) flags w = Send fuel cfg E P (Some t) (Some h) (Some p2) len (Some r) flags w.
Proof.
  intros fuel cfg E P t h hbuf n req p p2 len r rbuf L w flags block SA WH S2. pose proof (any_valid _ _ _ _ _ _ _ _ _ _ _ _ _ _ SA) as NI.
  pose proof (setup_valid _ _ _ _ _ _ _ _ _ _ _ _ _ _ _ S2) as NI2. destruct SA as (S&HL&HI&OB).
  pose proof S2 as (SO&SC&RC&PO&T1&T2&H&LR&W&_&_&(O2&D2&B2)&RB&RL&OR&LL).
  destruct (Send_valid fuel cfg E P _ _ _ _ _ flags w SO HL NI) as (t'&h'&r'&Q1&_&_&Q2&Q3&_&_&_&_&_&_&ES). injection Q1 as <-. injection Q2 as <-. injection Q3 as <-.
  destruct (Send_valid fuel cfg E P _ _ _ _ _ flags w SO HL NI2) as (t'&h'&r'&Q1&_&_&Q2&Q3&_&_&_&_&_&_&ES2). injection Q1 as <-. injection Q2 as <-. injection Q3 as <-.
  rewrite ES, ES2. clear ES ES2. set (tf := r_time (eff_time r)) in *. assert (TN : tf <> TNull) by apply eff_time_ok.
  assert (Q : sendHttpRequest fuel cfg E (Some t) tf (Some h) (Some p) len flags w = sendHttpRequest fuel cfg E (Some t) tf (Some h) (Some p2) len flags w).
  { unfold sendHttpRequest. cbn [assert_at bind]. destruct (assert_at _ 2184); cbn [bind]; try reflexivity.
    destruct (SendHttpHeaders_run fuel cfg E tf t h hbuf n req len flags w SC TN T1 H ltac:(lia) W) as (b1&h1&m1&WH1&[(C&EQ)|(C&Hh&SO1&Sq&o&w'&t0&tr&E1&Em&Etr&Enr&_&R)]); rewrite <- (wire_fun _ _ _ _ _ WH WH1) in *.
    { rewrite EQ. reflexivity. }
    destruct (SendHttpHeaders fuel cfg E (Some t) tf (Some h) len flags w) as [[[st oh] wx]| | |] eqn:Q; cbn [bind wout] in *; try reflexivity.
    injection E1 as _ <-. destruct (is_success st); [|reflexivity].
    destruct (headers_mem _ _ _ _ _ _ _ _ _ _ _ _ _ _ _ SC TN T1 H (conj (proj1 HL) HI) W Q) as (b2&WH2&M). rewrite <- (wire_fun _ _ _ _ _ WH WH2) in M.
    destruct (Z.leb_spec (zlen block) n); [|lia].
    unfold sendHttpBody. rewrite T1. cbn [assert_at bind]. rewrite (SendHttpData_equal fuel cfg E tf t p p2 len wx SC TN T1); [reflexivity| | |].
    - rewrite Em. apply (same_outside_object _ _ _ _ _ _ SO1); auto.
    - rewrite Em. apply (same_outside_object _ _ _ _ _ _ SO1); auto.
    - rewrite Em. rewrite (bytes_at_same _ _ _ _ _ _ SO1 O2 D2), <- B2. unfold body_sent. rewrite <- M, Em. reflexivity. }
  rewrite Q. reflexivity.
Qed.
Print Assumptions C89_as_elsewhere.

(** Which byte each byte of the body is: one of the header block where the two overlap, the application's elsewhere. *)
Lemma sent_byte m hbuf n block p len i : object m hbuf n -> zlen block <= n -> object m p len -> 0 <= i < len ->
  zn (body_sent m hbuf block p len) i =
    if (Nat.eqb (pb p) (pb hbuf)) && (0 <=? po p + i - po hbuf) && (po p + i - po hbuf <? zlen block) then zn block (po p + i - po hbuf) else zn (bytes_at m p len) i.
Proof.
  intros (O1&O2&O3) C (P1&P2&P3) Hi. assert (OB : object m hbuf (zlen block)) by (pose proof (zlen_nonneg block); split; [|split]; lia).
  unfold body_sent, bytes_at. rewrite !zn_slice by lia. rewrite blk_write by exact OB. rewrite (Nat.eqb_sym (pb hbuf)).
  destruct (Nat.eqb_spec (pb p) (pb hbuf)) as [E|N]; cbn [andb]; [|reflexivity]. rewrite zn_splice by (rewrite ?E; lia).
  replace (po hbuf <=? po p + i) with (0 <=? po p + i - po hbuf) by lia. replace (po p + i <? po hbuf + zlen block) with (po p + i - po hbuf <? zlen block) by lia. reflexivity.
Qed.
Lemma sent_len m hbuf n block p len : object m hbuf n -> zlen block <= n -> object m p len -> zlen (body_sent m hbuf block p len) = len.
Proof.
  intros (O1&O2&O3) C O. apply bytes_at_len. apply object_write; auto. pose proof (zlen_nonneg block). split; [|split]; lia.
Qed.
Theorem C89_which_bytes : forall cfg E P t h hbuf n req p len r rbuf L w flags block i,
  send_setup_any cfg E P t h hbuf n req p len r rbuf L w -> wire_headers flags len req block -> zlen block <= n -> 0 <= i < len ->
  let sent := body_sent (w_mem w) hbuf block p len in
  let at_i := po p + i - po hbuf in
  zlen sent = len /\ zn sent i = if (Nat.eqb (pb p) (pb hbuf)) && (0 <=? at_i) && (at_i <? zlen block) then zn block at_i else zn (bytes_at (w_mem w) p len) i.
Proof.
  intros cfg E P t h hbuf n req p len r rbuf L w flags block i (S&HL&HI&OB) WH C Hi. destruct S as (_&_&_&_&_&_&(_&_&O&_&_)&_).
  split; [eapply sent_len; eauto|eapply sent_byte; eauto].
Qed.
Print Assumptions C89_which_bytes.

(** The body is sent as the application wrote it if it keeps clear of the place where the Content-Length line goes (from the end of the last header
    line, [o], to the end of the header block), and always if no such line is added. *)
Lemma ext_zn (a b : bytes) : zlen a = zlen b -> (forall i, 0 <= i < zlen a -> zn a i = zn b i) -> a = b.
Proof. intros L H. apply list_ext; auto. Qed.
Theorem C89_clear_of_the_line : forall cfg E P t h hbuf n req p len r rbuf L w flags block o,
  send_setup_any cfg E P t h hbuf n req p len r rbuf L w -> wire_headers flags len req block -> zlen block <= n -> opened req o ->
  Z.testbit flags 0 = true \/ disjoint (poff hbuf (zlen o)) (zlen block - zlen o) p len ->
  body_sent (w_mem w) hbuf block p len = bytes_at (w_mem w) p len.
Proof.
  intros cfg E P t h hbuf n req p len r rbuf L w flags block o (S&HL&HI&OB) WH C OP D. destruct S as (_&_&_&_&_&_&H&_). pose proof H as (H1&H2&O&H4&H5).
  assert (SAME : block = req -> body_sent (w_mem w) hbuf block p len = bytes_at (w_mem w) p len) by (intros ->; unfold body_sent; rewrite (write_same _ _ _ _ _ H); reflexivity).
  unfold wire_headers in WH. destruct (Z.testbit flags 0 || (len =? 0)) eqn:F; [auto|]. destruct D as [D|D]; [rewrite D in F; discriminate|].
  destruct WH as (o2&d&OP2&DL&BQ). rewrite (opened_fun _ _ _ OP2 OP) in BQ. clear o2 OP2.
  assert (LO : zlen o <= zlen req) by (destruct OP as [(pre&->&->)|(_&->)]; rewrite ?zlen_app; change (zlen CRLF) with 2; lia). pose proof (zlen_nonneg o) as LO0.
  assert (PR : exists x y, block = o ++ x /\ req = o ++ y) by (destruct OP as [(pre&->&->)|(_&->)]; [eexists; exists CRLF; split; [exact BQ|rewrite <- app_assoc; reflexivity]|eexists; exists []; split; [exact BQ|rewrite app_nil_r; reflexivity]]).
  assert (RO : forall j, 0 <= j < zlen o -> zn block j = zn req j).
  { intros j Hj. destruct PR as (x&y&->&->). rewrite !zn_app by lia. destruct (Z.ltb_spec j (zlen o)); [reflexivity|lia]. }
  pose proof (holds_len _ _ _ _ _ H) as HQ. destruct O as (O1&O2&O3). destruct OB as (P1&P2&P3).
  apply ext_zn; [rewrite (sent_len _ _ n) by (try (split; [|split]; lia); auto); rewrite bytes_at_len by (split; [|split]; lia); reflexivity|].
  intros i Hi. rewrite (sent_len _ _ n) in Hi by (try (split; [|split]; lia); auto). rewrite (sent_byte _ _ n) by (try (split; [|split]; lia); auto).
  destruct (Nat.eqb_spec (pb p) (pb hbuf)) as [E1|E1]; cbn [andb]; [|reflexivity].
  destruct (Z.leb_spec 0 (po p + i - po hbuf)); cbn [andb]; [|reflexivity]. destruct (Z.ltb_spec (po p + i - po hbuf) (zlen block)); [|reflexivity].
  assert (J : po p + i - po hbuf < zlen o) by (unfold disjoint, poff in D; cbn [pb po] in D; destruct D as [D|[D|D]]; [congruence|lia|lia]).
  rewrite RO by lia. rewrite H5. unfold bytes_at. rewrite !zn_slice by lia. rewrite E1. f_equal. lia.
Qed.
Print Assumptions C89_clear_of_the_line.

(** Cases: the body "data" right behind the request in its own buffer, and 40 bytes further on. *)
Definition near : ptr := mkptr 0 (zlen req1).
Definition far : ptr := mkptr 0 (zlen req1 + 40).
Definition w_own : world := mkw [req1 ++ B "data" ++ repeat 0 36 ++ B "data" ++ repeat 0 (256 - length req1); repeat 0 300] 0 0 0 [].
Definition r_own : response := mkresp (Some (mkptr 1 0)) 300 true TUser None 0 None 0 0 0 0 0 0 0.
Definition the_block : bytes := firstn (length req1 - 2) req1 ++ header_line (B "Content-Length") (B "4") ++ CRLF.
Lemma own_setup p : object (w_mem w_own) p 4 -> send_setup_any cfg0 (env_ex resp_ok) refparser trr hx buf0 300 req1 p 4 r_own (mkptr 1 0) 300 w_own.
Proof.
  intros O. destruct (env_ex_ok resp_ok) as (A&C&_). split; [|split; [split; [discriminate|reflexivity]|split; [vm_compute; discriminate|exact O]]].
  split; [exists 32; split; [lia|reflexivity]|]. split; [exact A|]. split; [exact C|]. split; [apply refparser_ok|]. split; [reflexivity|]. split; [reflexivity|].
  split; [split; [reflexivity|split; [reflexivity|split; [vm_compute; repeat split; discriminate|split; [vm_compute; split; discriminate|vm_compute; reflexivity]]]]|].
  split; [vm_compute; discriminate|]. split; [reflexivity|]. split; [split; [discriminate|reflexivity]|]. split; [vm_compute; discriminate|]. split; [split; reflexivity|]. split; [reflexivity|]. split; [reflexivity|].
  split; [vm_compute; repeat split; discriminate|split; reflexivity].
Qed.
Lemma the_block_ok : wire_headers 0 4 req1 the_block.
Proof.
  unfold wire_headers. cbn [Z.testbit orb Z.eqb]. exists (firstn (length req1 - 2) req1), (B "4"). split; [left; exists (firstn (length req1 - 4) req1); split; vm_compute; reflexivity|].
  split; [|reflexivity]. change (B "4") with (to_dec 4). apply to_dec_decimal. unfold is_int32. vm_compute. split; discriminate.
Qed.
Example C89_case :
  send_setup_any cfg0 (env_ex resp_ok) refparser trr hx buf0 300 req1 near 4 r_own (mkptr 1 0) 300 w_own /\
  send_setup_any cfg0 (env_ex resp_ok) refparser trr hx buf0 300 req1 far 4 r_own (mkptr 1 0) 300 w_own /\
  bytes_at (w_mem w_own) near 4 = B "data" /\ bytes_at (w_mem w_own) far 4 = B "data" /\ wire_headers 0 4 req1 the_block /\
  body_sent (w_mem w_own) buf0 the_block near 4 = B "nten" /\ body_sent (w_mem w_own) buf0 the_block far 4 = B "data" /\
  (exists h' r' w' tr, exchanges 100 cfg0 (env_ex resp_ok) refparser trr hx (Some near) 4 r_own 0 w_own HTTPSuccess h' r' w' tr /\ accepted tr = the_block ++ B "nten") /\
  (exists h' r' w' tr, exchanges 100 cfg0 (env_ex resp_ok) refparser trr hx (Some far) 4 r_own 0 w_own HTTPSuccess h' r' w' tr /\ accepted tr = the_block ++ B "data") /\
  (exists h' r' w' tr, exchanges 100 cfg0 (env_ex resp_ok) refparser trr hx (Some near) 4 r_own 1 w_own HTTPSuccess h' r' w' tr /\ accepted tr = req1 ++ B "data").
Proof.
  split; [apply own_setup; vm_compute; repeat split; discriminate|]. split; [apply own_setup; vm_compute; repeat split; discriminate|].
  split; [vm_compute; reflexivity|]. split; [vm_compute; reflexivity|]. split; [apply the_block_ok|]. split; [vm_compute; reflexivity|]. split; [vm_compute; reflexivity|].
  split; [|split]; (do 4 eexists; split; [split; [vm_compute; reflexivity|reflexivity]|vm_compute; reflexivity]).
Qed.
(** The hypotheses of [C89_as_elsewhere]: a copy of what is sent, in another block. *)
Definition w_copy : world := mkw [blk (w_mem w_own) 0; repeat 0 300; B "nten"] 0 0 0 [].
Example C89_copy_case : send_setup_any cfg0 (env_ex resp_ok) refparser trr hx buf0 300 req1 near 4 r_own (mkptr 1 0) 300 w_copy /\
  send_setup cfg0 (env_ex resp_ok) refparser trr hx buf0 300 req1 (Some (mkptr 2 0)) 4 (body_sent (w_mem w_copy) buf0 the_block near 4) r_own (mkptr 1 0) 300 w_copy.
Proof.
  assert (A : send_setup_any cfg0 (env_ex resp_ok) refparser trr hx buf0 300 req1 near 4 r_own (mkptr 1 0) 300 w_copy).
  { destruct (env_ex_ok resp_ok) as (A&C&_). split; [|split; [split; [discriminate|reflexivity]|split; [vm_compute; discriminate|vm_compute; repeat split; discriminate]]].
    split; [exists 32; split; [lia|reflexivity]|]. split; [exact A|]. split; [exact C|]. split; [apply refparser_ok|]. split; [reflexivity|]. split; [reflexivity|].
    split; [split; [reflexivity|split; [reflexivity|split; [vm_compute; repeat split; discriminate|split; [vm_compute; split; discriminate|vm_compute; reflexivity]]]]|].
    split; [vm_compute; discriminate|]. split; [reflexivity|]. split; [split; [discriminate|reflexivity]|]. split; [vm_compute; discriminate|]. split; [split; reflexivity|]. split; [reflexivity|]. split; [reflexivity|].
    split; [vm_compute; repeat split; discriminate|split; reflexivity]. }
  split; [exact A|]. destruct A as ((B1&B2&B3&B4&B5&B6&B7&B8&B9&_&_&_&B10)&C1&C2&_). split; [exact B1|]. split; [exact B2|]. split; [exact B3|]. split; [exact B4|]. split; [exact B5|]. split; [exact B6|].
  split; [exact B7|]. split; [exact B8|]. split; [exact B9|]. split; [exact C1|]. split; [exact C2|]. split; [|exact B10].
  split; [vm_compute; repeat split; discriminate|]. split; [left; discriminate|vm_compute; reflexivity].
Qed.
