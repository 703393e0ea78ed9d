(** PropsLive.v — C90: a slow network that does its part is enough. *)
From Verif Require Import Base Lib ModelRequest ModelSend ModelResponse SpecRequest SpecSend SpecResponse SpecHttp SpecParser SpecExchange SpecTime SpecLive ProofsRequest ProofsDecimal ProofsRequest2 ProofsHistory ProofsSend ProofsSend2
  ProofsResponse ProofsResponse2 ProofsResponse5 ProofsTwin ProofsExchange RefParser Demo DemoResponse PropsSend PropsResponse PropsResponse2 PropsHttp ProofsAny PropsAny PropsExchange PropsAnyExchange PropsMemory PropsTime.

Lemma paced_span E D i j : paced E D -> (i <= j)%nat -> 0 <= e_time E j - e_time E i <= Z.of_nat (j - i) * D.
Proof.
  intros PD. induction j as [|j IH]; intros L. { replace i with O by lia. replace (0 - 0)%nat with O by lia. lia. }
  destruct (Nat.eq_dec i (S j)) as [->|N]. { replace (S j - S j)%nat with O by lia. lia. }
  specialize (IH ltac:(lia)). pose proof (PD j). replace (S j - i)%nat with (S (j - i)) by lia. lia.
Qed.
Lemma send_loop_live E D T z : send_contract E -> paced E D -> live_send E z -> Z.of_nat z * D < T <= 2 ^ 32 ->
  forall fuel p rem last w i c, object (w_mem w) p rem -> last = u32 (e_time E i) -> (i < w_nt w)%nat -> e_time E (w_nt w - 1) - e_time E i <= c * D -> 0 <= c ->
  (0 < rem -> exists j, c + Z.of_nat j <= Z.of_nat z /\ 0 < e_send E (w_ns w + j)%nat rem) ->
  (0 < rem -> rem * (Z.of_nat z + 1) - c + 1 <= Z.of_nat fuel) -> (1 <= fuel)%nat ->
  exists w' tr, send_loop fuel E TUser T p rem last w = Ret (HTTPSuccess, w') /\ w_tr w' = w_tr w ++ tr /\ (rem = 0 \/ sends tr <= rem * (Z.of_nat z + 1) - c).
Proof.
  intros SC PD (LV1&LV2) HT. pose proof (PD O) as D0.
  induction fuel as [|fuel IH]; intros p rem last w i c O L0 LI HE C0 HJ F1 F2; [lia|]. cbn [send_loop].
  destruct (Z.leb_spec rem 0). { exists w, []. rewrite app_nil_r. split; [auto|]. split; [auto|]. left. destruct O. lia. }
  rewrite loadn_ok by auto. cbn [bind]. set (d := bytes_at (w_mem w) p rem). pose proof (SC (w_ns w) rem ltac:(lia)) as SR. pose proof (LV1 (w_ns w) rem ltac:(lia)) as S0.
  destruct (HJ ltac:(lia)) as (j&J1&J2). specialize (F1 ltac:(lia)).
  remember (e_send E (w_ns w) rem) as r eqn:RQ. replace (r <? 0) with false by lia.
  destruct (Z.ltb_spec 0 r).
  - replace (r <=? rem) with true by lia. cbn [assert_at bind get_time w_after_send w_mem w_ns w_nt w_nr w_tr].
    rewrite padd_ok by (destruct O as (?&?&?); unfold object; lia). cbn [bind].
    match goal with |- exists w' tr, send_loop _ _ _ _ _ _ _ ?v = _ /\ _ => set (w1 := v) end.
    destruct (IH (poff p r) (rem - r) (u32 (e_time E (w_nt w))) w1 (w_nt w) 0) as (w'&tr&E1&E2&E3); subst w1; cbn [w_mem w_ns w_nt w_nr w_tr] in *.
    + destruct O as (?&?&?). unfold object, poff. cbn [pb po]. lia.
    + reflexivity.
    + lia.
    + replace (S (w_nt w) - 1)%nat with (w_nt w) by lia. lia.
    + lia.
    + intros R1. destruct (LV2 (S (w_ns w)) (rem - r) R1) as (j'&K1&K2). exists j'. split; [lia|exact K2].
    + intros R1. nia.
    + nia.
    + exists w', ([TSend d r] ++ [TTime (u32 (e_time E (w_nt w)))] ++ tr). split; [exact E1|]. split; [rewrite E2, <- !app_assoc; reflexivity|]. right. cbn [app sends]. destruct E3 as [E3|E3]; [|nia].
      assert (sends tr = 0).
      { replace (rem - r) with 0 in E1 by lia. destruct fuel as [|fuel]; [discriminate|]. cbn [send_loop] in E1. change (0 <=? 0) with true in E1. cbv iota in E1. injection E1 as <-. cbn [w_tr] in E2.
        rewrite <- (app_nil_r (_ ++ _)) in E2 at 1. apply app_inv_head in E2. subst tr. reflexivity. }
      nia.
  - assert (r = 0) as -> by lia. destruct j as [|j]; [rewrite Nat.add_0_r, <- RQ in J2; lia|].
    cbn [get_time bind w_after_send w_mem w_ns w_nt w_nr w_tr]. pose proof (PD (w_nt w - 1)%nat) as PN. replace (S (w_nt w - 1)) with (w_nt w) in PN by lia.
    pose proof (paced_mono E D PD i (w_nt w) ltac:(lia)) as PM.
    rewrite L0, u32_diff, u32_small by (unfold two32; nia). destruct (Z.leb_spec T (e_time E (w_nt w) - e_time E i)); [nia|].
    match goal with |- exists w' tr, send_loop _ _ _ _ _ _ _ ?v = _ /\ _ => set (w1 := v) end.
    destruct (IH p rem (u32 (e_time E i)) w1 i (c + 1)) as (w'&tr&E1&E2&E3); subst w1; cbn [w_mem w_ns w_nt w_nr w_tr] in *.
    + exact O.
    + reflexivity.
    + lia.
    + replace (S (w_nt w) - 1)%nat with (w_nt w) by lia. lia.
    + lia.
    + intros _. exists j. split; [lia|]. replace (S (w_ns w) + j)%nat with (w_ns w + S j)%nat by lia. exact J2.
    + intros _. lia.
    + nia.
    + exists w', ([TSend d 0] ++ [TTime (u32 (e_time E (w_nt w)))] ++ tr). split; [exact E1|]. split; [rewrite E2, <- !app_assoc; reflexivity|]. right. cbn [app sends]. destruct E3; lia.
Qed.
Lemma data_live fuel cfg E D t n z : send_contract E -> paced E D -> live_send E z -> t_send t = true -> Z.of_nat z * D < SEND_TO cfg <= 2 ^ 32 -> 0 <= n ->
  n * (Z.of_nat z + 1) + 1 <= Z.of_nat fuel -> data_ends fuel cfg E t TUser n (Z.of_nat z + 1) 0 (fun st => st = HTTPSuccess).
Proof.
  intros SC PD LV ST HT N0 F p k w O K. pose proof (PD 0%nat) as D0. unfold SendHttpData. rewrite ST. cbn [assert_at bind get_time].
  assert (F1 : 0 <= n * (Z.of_nat z + 1)) by nia. assert (F2 : k * (Z.of_nat z + 1) <= n * (Z.of_nat z + 1)) by nia.
  match goal with |- exists st w' tr, send_loop _ _ _ _ _ _ _ ?v = _ /\ _ => set (w1 := v) end.
  destruct (send_loop_live E D (SEND_TO cfg) z SC PD LV HT fuel p k (u32 (e_time E (w_nt w))) w1 (w_nt w) 0) as (w'&tr&E1&E2&E3); subst w1; cbn [w_mem w_ns w_nt w_nr w_tr] in *; auto; try lia.
  - replace (S (w_nt w) - 1)%nat with (w_nt w) by lia. lia.
  - intros K0. destruct LV as (_&LV). destruct (LV (w_ns w) k K0) as (j&J1&J2). exists j. split; [lia|exact J2].
  - exists HTTPSuccess, w', ([TTime (u32 (e_time E (w_nt w)))] ++ tr). split; [exact E1|]. split; [rewrite E2, <- !app_assoc; reflexivity|]. split; [|reflexivity]. cbn [app sends].
    destruct E3 as [->|E3]; [|lia]. destruct fuel as [|fuel]; [discriminate|]. cbn [send_loop] in E1. change (0 <=? 0) with true in E1. cbv iota in E1. injection E1 as <-. cbn [w_tr] in E2.
    rewrite <- (app_nil_r (_ ++ _)) in E2 at 1. apply app_inv_head in E2. subst tr. cbn [sends]. lia.
Qed.
Lemma live_prompt cfg E D z ps : paced E D -> live_pieces ps z -> Z.of_nat z * D < RECV_TO cfg <= 2 ^ 32 -> forall nt, prompt cfg E TUser nt ps.
Proof.
  intros PD LP HT nt i k (I1&I2) NE. split; [reflexivity|]. pose proof (PD O) as D0.
  assert (PS : ps = firstn i ps ++ repeat [] (k - i + 1) ++ skipn (k + 1) ps).
  { apply nth_ext with (d := []) (d' := []).
    { rewrite !app_length, repeat_length, firstn_length, skipn_length. lia. }
    intros m Hm. destruct (Nat.lt_ge_cases m i).
    - rewrite app_nth1 by (rewrite firstn_length; lia). rewrite <- (firstn_skipn i ps) at 1. rewrite app_nth1 by (rewrite firstn_length; lia). reflexivity.
    - rewrite app_nth2 by (rewrite firstn_length; lia). rewrite firstn_length, Nat.min_l by lia. destruct (Nat.le_gt_cases m k).
      + rewrite NE by lia. rewrite app_nth1 by (rewrite repeat_length; lia). rewrite nth_repeat. reflexivity.
      + rewrite app_nth2 by (rewrite repeat_length; lia). rewrite repeat_length. rewrite <- (firstn_skipn (k + 1) ps) at 1. rewrite app_nth2 by (rewrite firstn_length; lia). rewrite firstn_length. f_equal. lia. }
  pose proof (LP _ _ _ PS) as L. pose proof (paced_span E D (nt + i) (nt + 1 + k) PD ltac:(lia)) as SP.
  replace (nt + 1 + k - (nt + i))%nat with (k - i + 1)%nat in SP by lia.
  unfold elapsed. replace (nt + 1 + k)%nat with (nt + 1 + k)%nat in SP by lia. assert (Z.of_nat (k - i + 1) * D <= Z.of_nat z * D) by nia. rewrite Z.mod_small; lia.
Qed.
Lemma Send_live fuel cfg E P t h hbuf n req body len bd r rbuf L w flags block D z :
  send_setup cfg E P t h hbuf n req body len bd r rbuf L w -> r_time r = TUser -> paced E D -> live_send E z -> Z.of_nat z * D < SEND_TO cfg <= 2 ^ 32 ->
  (n + len) * (Z.of_nat z + 1) + 1 <= Z.of_nat fuel -> wire_headers flags len req block -> zlen block <= n ->
  exists sent h1 w1, send_only sent /\ w_tr w1 = w_tr w ++ sent /\ w_nr w1 = w_nr w /\ accepted sent = block ++ bd /\ sends sent <= (n + len) * (Z.of_nat z + 1) /\
    recv_setup cfg E P t (with_clock r) h1 rbuf L block w1 /\
    Send fuel cfg E P (Some t) (Some h) body len (Some r) flags w =
      (' (st2, pr2, w2) <- ReceiveAndParseHttpResponse fuel cfg E P (Some t) (Some (with_clock r)) (Some h1) w1 ;; Ret (st2, Some h1, pr2, w2)).
Proof.
  intros S TU PD LV HT F WH C. pose proof S as (SO&SC&RC&PO&T1&T2&H&LR&W&HL&HI&BA&RB&RL&OB&LL).
  assert (TE : r_time (with_clock r) = TUser) by (rewrite with_clock_eff; unfold eff_time; rewrite TU; exact TU).
  assert (TN : r_time (with_clock r) <> TNull) by (rewrite TE; discriminate).
  assert (N0 : 0 <= n) by (destruct H as (_&_&(Q&_)&_); lia).
  assert (DE : data_ends fuel cfg E t (r_time (with_clock r)) (Z.max n len) (Z.of_nat z + 1) 0 (fun st => st = HTTPSuccess)).
  { rewrite TE. apply (data_live fuel cfg E D t (Z.max n len) z); auto; [lia|]. assert (Z.max n len * (Z.of_nat z + 1) <= (n + len) * (Z.of_nat z + 1)) by nia. lia. }
  destruct (sendHttpRequest_ends fuel cfg E (r_time (with_clock r)) t h hbuf n req body len bd flags w (Z.of_nat z + 1) 0 _ SC TN T1 H ltac:(lia) W BA ltac:(lia) (Z.le_refl 0) DE) as (y&w2&tr2&Y&E1&E2&E3).
  destruct (sendHttpRequest_run fuel cfg E (r_time (with_clock r)) t h hbuf n req body len bd flags w SC TN T1 H ltac:(lia) W BA)
    as (block'&h1&m1&so&w1&sent&WH'&SS&Em&E1'&Etr&Enr&On&Pre&Hh&Hq&Hn&Hi&Hs&Hne&Ho). subst m1.
  assert (block' = block).
  { clear - WH WH'. unfold wire_headers in *. destruct (_ || _); [congruence|]. destruct WH as (o&d&A1&A2&->), WH' as (o'&d'&B1&B2&->).
    rewrite (opened_fun _ _ _ A1 B1), (decimal_unique _ _ _ A2 B2). reflexivity. }
  subst block'.
  assert (NI := setup_valid _ _ _ _ _ _ _ _ _ _ _ _ _ _ _ S).
  destruct (Send_valid fuel cfg E P _ _ _ _ _ flags w SO HL NI) as (t'&h'&r'&Q1&_&_&Q2&Q3&_&_&_&_&_&_&ES). injection Q1 as <-. injection Q2 as <-. injection Q3 as <-.
  rewrite <- (with_clock_eff r) in ES. rewrite ES. clear ES. rewrite E1 in *. cbn [bind wout] in *. injection E1' as E1' <-.
  destruct so as [st|]; [|discriminate]. injection E1' as ->. cbn [bind fst] in *.
  assert (st = HTTPSuccess) as -> by (destruct Y as [Y|Y]; [auto|subst st; specialize (Hi eq_refl); lia]). cbn [is_success].
  assert (sent = tr2) as -> by (rewrite Etr in E2; apply app_inv_head in E2; exact E2).
  exists tr2, h1, w2. conj; auto; [lia|]. eapply setup_recv; eauto.
Qed.
Theorem C90_slow_network : forall fuel cfg E P t h hbuf n req body len bd r rbuf L w flags block resp ps D z,
  reads_http P -> send_setup cfg E P t h hbuf n req body len bd r rbuf L w -> recv_faithful E -> no_parse_body r = false ->
  r_time r = TUser -> paced E D -> live_send E z -> live_pieces ps z -> Z.of_nat z * D < SEND_TO cfg <= 2 ^ 32 -> Z.of_nat z * D < RECV_TO cfg <= 2 ^ 32 ->
  wire_headers flags len req block -> zlen block <= n ->
  http_ok (beqb (slice req 0 4) (B "HEAD")) resp -> (forall d, p_body resp <> ToClose d) -> zlen (http_bytes resp) <= L ->
  concat ps = http_bytes resp -> feeds E (w_nr w) ps ->
  (n + len) * (Z.of_nat z + 1) + 1 <= Z.of_nat fuel -> (length ps < fuel)%nat ->
  exists h' r' w' tr, exchanges fuel cfg E P t h body len r flags w HTTPSuccess h' r' w' tr /\
    accepted tr = block ++ bd /\ data_received tr = http_bytes resp /\
    sends tr <= (n + len) * (Z.of_nat z + 1) /\ recvs tr <= Z.of_nat (length ps) /\ gives cfg rbuf L resp r r' w' tr.
Proof.
  intros fuel cfg E P t h hbuf n req body len bd r rbuf L w flags block resp ps D z RH S RF ND TU PD LV LP HT1 HT2 WH C OK NC LE CC FE F1 F2.
  destruct (Send_live _ _ _ _ _ _ _ _ _ _ _ _ _ _ _ _ flags block D z S TU PD LV HT1 F1 WH C) as (sent&h1&w1&SN&TR&NR&AC&NS&RS&ES). pose proof S as (_&_&_&_&_&_&_&LR&_).
  rewrite <- (wire_method _ _ _ _ WH LR) in OK. rewrite <- NR in FE.
  assert (ND' : no_parse_body (with_clock r) = false) by (unfold no_parse_body; rewrite (proj2 (with_clock_same r)); auto).
  assert (PR : forall nt, prompt cfg E (r_time (with_clock r)) nt ps).
  { intros nt. replace (r_time (with_clock r)) with TUser by (rewrite with_clock_eff; unfold eff_time; rewrite TU; symmetry; exact TU). eapply live_prompt; eauto. }
  destruct (C43_any_parser_every_fragmentation fuel _ _ _ _ _ _ _ _ _ _ resp ps RH RS RF ND' OK NC LE CC FE (PR _) F2) as (r'&w'&tr&(R1&R2)&R3&R5&R4).
  unfold exchanges. rewrite ES, R1. cbn [bind]. exists h1, r', w', (sent ++ tr). split; [split; [auto|rewrite R2, TR, app_assoc; auto]|].
  destruct (Receive_ext _ _ _ _ _ _ _ _ (Some (HTTPSuccess, Some r')) w' ltac:(rewrite R1; reflexivity)) as (tq&Q1&Q2). rewrite Q1 in R2. apply app_inv_head in R2. subst tq.
  split; [rewrite accepted_only by auto; auto|]. destruct (send_only_data sent tr SN) as (D1&_&D3). rewrite D1, D3. split; [auto|].
  split; [rewrite sends_app; pose proof (no_send_sends _ Q2); lia|]. split; [auto|]. apply gives_clock, gives_pre; auto.
Qed.
(** The same for data alone: it is sent completely. *)
Theorem C90_send_data : forall fuel cfg E t p k w D z, send_contract E -> paced E D -> live_send E z -> t_send t = true -> Z.of_nat z * D < SEND_TO cfg <= 2 ^ 32 ->
  object (w_mem w) p k -> k * (Z.of_nat z + 1) + 1 <= Z.of_nat fuel ->
  exists w' tr, SendHttpData fuel cfg E (Some t) TUser (Some p) k w = Ret (HTTPSuccess, w') /\ w_tr w' = w_tr w ++ tr /\
    accepted tr = bytes_at (w_mem w) p k /\ sends tr <= k * (Z.of_nat z + 1).
Proof.
  intros fuel cfg E t p k w D z SC PD LV ST HT O F. assert (K0 : 0 <= k) by (destruct O; lia).
  destruct (data_live fuel cfg E D t k z SC PD LV ST HT K0 F p k w O (Z.le_refl k)) as (st&w'&tr&X1&X2&X3&->).
  exists w', tr. split; [exact X1|]. split; [exact X2|]. split; [|lia].
  destruct (SendHttpData_run fuel cfg E TUser t p k w SC ltac:(discriminate) ST O) as (o&w2&t0&tr2&W&M&TR&NR&R). rewrite X1 in W. cbn [wout] in W. injection W as W1 W2. subst o w2.
  rewrite TR in X2. apply app_inv_head in X2. subst tr. exact (proj1 (proj2 (proj2 (srun_facts _ _ _ _ _ _ (proj2 R)))) eq_refl).
Qed.
(** The hypotheses are met: a transport that takes at most 50 bytes, and these only every third time, a clock that moves 100 ms
    from reading to reading, a response in pieces of which at most nine in a row are empty, and timeouts of a second. *)
Definition env_slow (ps : list bytes) : env :=
  mkenv (fun i k => if (i mod 3 =? 2)%nat then Z.min k 50 else 0) (fun i room => give (nth i ps []) room) (fun n => 100 * Z.of_nat n).
Lemma env_slow_ok ps : send_contract (env_slow ps) /\ paced (env_slow ps) 100 /\ live_send (env_slow ps) 9.
Proof.
  split; [intros i k H; cbn [env_slow e_send]; destruct (Nat.eqb _ _); lia|]. split; [intros n; cbn [env_slow e_time]; lia|].
  split; [intros i k H; cbn [env_slow e_send]; destruct (Nat.eqb _ _); lia|]. intros i k H.
  pose proof (Nat.mod_upper_bound i 3 ltac:(lia)) as B. pose proof (Nat.div_mod i 3 ltac:(lia)) as Q.
  exists (2 - i mod 3)%nat. split; [lia|]. cbn [env_slow e_send].
  replace (i + (2 - i mod 3))%nat with (2 + (i / 3) * 3)%nat by lia. rewrite Nat.mod_add by lia. change (2 mod 3 =? 2)%nat with true. cbv iota. lia.
Qed.
Lemma setup_slow ps : send_setup cfg0 (env_slow ps) refparser trr hx buf0 300 req1 (Some (mkptr 1 0)) 4 (B "data") rshared buf0 300 wshared.
Proof.
  destruct (setup_ex ps) as (_&(A1&_&A3&A4)). split; [exact A1|]. split; [apply env_slow_ok|]. split; [exact A3|exact A4].
Qed.
Example C90_case : forall ps, live_pieces ps 9 -> concat ps = http_bytes ex_sized ->
  exists h' r' w' tr, exchanges (3041 + length ps) cfg0 (env_slow ps) refparser trr hx (Some (mkptr 1 0)) 4 rshared 0 wshared HTTPSuccess h' r' w' tr /\
    accepted tr = B "GET / HTTP/1.1" ++ CRLF ++ B "Host: h" ++ CRLF ++ B "Content-Length: 4" ++ CRLF ++ CRLF ++ B "data" /\
    data_received tr = http_bytes ex_sized /\ gives cfg0 buf0 300 ex_sized rshared r' w' tr.
Proof.
  intros ps LP CC. destruct (env_slow_ok ps) as (SC&PD&LV).
  assert (WH : wire_headers 0 4 req1 (B "GET / HTTP/1.1" ++ CRLF ++ B "Host: h" ++ CRLF ++ B "Content-Length: 4" ++ CRLF ++ CRLF)).
  { cbn [wire_headers]. exists (B "GET / HTTP/1.1" ++ CRLF ++ B "Host: h" ++ CRLF), (B "4"). split; [left; exists (B "GET / HTTP/1.1" ++ CRLF ++ B "Host: h"); split; reflexivity|].
    split; [|reflexivity]. cbn. split; [discriminate|]. split; [repeat constructor; discriminate|]. split; [discriminate|reflexivity]. }
  destruct (C90_slow_network (3041 + length ps) cfg0 (env_slow ps) refparser trr hx buf0 300 req1 (Some (mkptr 1 0)) 4 (B "data") rshared buf0 300 wshared 0 _ ex_sized ps 100 9
      refparser_reads (setup_slow ps) (env_of_faithful ps) eq_refl eq_refl PD LV LP ltac:(cbn [cfg0 SEND_TO]; lia) ltac:(cbn [cfg0 RECV_TO]; lia) WH)
    as (h'&r'&w'&tr&X1&X2&X3&X4&X5&X6); [vm_compute; discriminate|exact ex_sized_ok|discriminate|vm_compute; discriminate|exact CC|exact (env_of_feeds ps)|lia|lia|].
  exists h', r', w', tr. split; [exact X1|]. split; [exact X2|]. split; auto.
Qed.
Example C90_pieces : exists ps, live_pieces ps 9 /\ concat ps = http_bytes ex_sized /\ In [] ps.
Proof.
  exists [slice (http_bytes ex_sized) 0 1; []; slice (http_bytes ex_sized) 1 (zlen (http_bytes ex_sized) - 1)]. split; [|split; [vm_compute; reflexivity|right; left; reflexivity]].
  intros a e b H. apply (f_equal (@length bytes)) in H. rewrite !app_length, repeat_length in H. cbn [length] in H. lia.
Qed.
Print Assumptions C90_slow_network.
Print Assumptions C90_send_data.
