(** PropsAgain.v — C92 (SpecAgain.v). *)
From Verif Require Import Base Lib ModelRequest ModelSend ModelResponse SpecRequest SpecSend SpecResponse SpecHttp SpecParser SpecExchange SpecSeries SpecSession SpecAgain ProofsRequest ProofsSend ProofsSend2
  ProofsResponse ProofsResponse2 ProofsResponse3 ProofsResponse4 ProofsResponse5 ProofsTwin ProofsExchange RefParser RefRun HttpRun ProofsFollow ProofsEnd Demo DemoResponse
  PropsSend PropsResponse PropsHttp PropsExchange ProofsAny PropsAny PropsAnyExchange ProofsCount PropsSession PropsExact PropsMemory.

(** A receive that has had all of [ps] took exactly those pieces from the transport (as [exchange_takes]). *)
Lemma receive_takes fuel cfg E P t r rh buf L req w st r' w' tr ps :
  recv_setup cfg E P t r rh buf L req w -> receives fuel cfg E P t r rh w st r' w' tr ->
  feeds E (w_nr w) ps -> zlen (concat ps) <= L -> last ps [] <> [] -> data_received tr = concat ps -> recvs tr <= Z.of_nat (length ps) ->
  w_nr w' = (w_nr w + length ps)%nat.
Proof.
  intros RS (RV&RT) FE ZL LS DR RC.
  destruct (Receive_cext _ _ _ _ _ _ _ _ (Some (st, Some r')) w' ltac:(rewrite RV; reflexivity)) as (tq&Q1&Q2).
  rewrite Q1 in RT. apply app_inv_head in RT. subst tq.
  cut (recvs tr = Z.of_nat (length ps)); [lia|]. apply Z.le_antisymm; [auto|].
  destruct (Receive_run fuel _ _ _ _ _ _ _ _ _ _ RS) as (tl&o&v'&RR&HX). set (k := kof _ buf L req (w_mem w)) in *. set (t0 := clk E _ (w_nt w)) in *.
  assert (ET : tr = tick (r_time r) t0 ++ tl).
  { rewrite RV in HX. destruct o; [destruct HX as (?&?&_); discriminate|..]; destruct HX as (r2&s2&H1&H2&_); injection H1 as -> -> ->; rewrite Q1 in H2; apply app_inv_head in H2; auto. }
  rewrite ET, recvs_tick_app in *. rewrite data_received_app, (data_received_norecv (tick _ _)) in DR by apply tick_norecv. cbn [app] in DR.
  pose proof (rrun_firstn E k _ (w_nr w) ps FE _ _ _ _ _ _ _ RR 0%nat ltac:(lia)) as FN.
  cbn [skipn] in FN. rewrite FN in DR.
  + apply concat_firstn_last in DR; auto. pose proof (recvs_nonneg tl). apply Nat2Z.inj_le in DR. rewrite Z2Nat.id in DR by auto. exact DR.
  + cbn [view0 v_stream]. change (zlen (@nil Z)) with 0. exact ZL.
  + change (Z.of_nat 0) with 0. rewrite Z.sub_0_r. exact RC.
Qed.

(** The call leaves the response structure and the buffer fit for another one, provided the request's text still says as much about
    HEAD as before. *)
Lemma again_setup fuel cfg E P t r rh buf L req w r' w' tr :
  recv_setup cfg E P t r rh buf L req w -> receives fuel cfg E P t r rh w HTTPSuccess r' w' tr ->
  forall req' rb n, holds (w_mem w') rh rb n req' -> 16 <= zlen req' -> recv_setup cfg E P t r' rh buf L req' w'.
Proof.
  intros RS RV req' rb n H LR.
  destruct (outputs _ _ _ _ _ _ _ _ _ _ _ _ _ _ _ RS RV ltac:(left; discriminate)) as (_&(S1&S2&S3&S4&S5)&_).
  destruct (C19_receive_stays_in_buffer fuel _ _ _ _ _ _ _ _ _ _ RS) as (o&w2&tr2&R1&R2&R3&SO2). destruct RV as (RV&RT). rewrite RV in R1. cbn [wout] in R1. injection R1 as _ <-.
  destruct RS as (A1&A2&A3&A4&A5&A6&A7&A8&A9&A10). unfold recv_setup. rewrite S1, S2, S4. conj; auto; try lia.
  - apply (same_outside_object _ _ _ _ _ _ SO2). auto.
  - eauto.
Qed.
Lemma again_mem fuel cfg E P t r rh buf L req w st r' w' tr :
  recv_setup cfg E P t r rh buf L req w -> receives fuel cfg E P t r rh w st r' w' tr -> same_outside (w_mem w) (w_mem w') buf L.
Proof.
  intros RS (RV&RT). destruct (C19_receive_stays_in_buffer fuel _ _ _ _ _ _ _ _ _ _ RS) as (o&w2&tr2&R1&R2&R3&SO2). rewrite RV in R1. cbn [wout] in R1. injection R1 as _ <-. auto.
Qed.

(** The request lies apart from the response buffer; or it lay at its beginning and was not a HEAD request. *)
Definition method_safe (m : mem) (rh : reqHeaders) (buf : ptr) (L : Z) (req : bytes) : Prop :=
  exists rb n, holds m rh rb n req /\ (disjoint buf L rb n \/ rb = buf /\ beqb (slice req 0 4) (B "HEAD") = false).

Lemma head_bytes_http x : exists y, head_bytes x = B "HTTP" ++ y.
Proof. unfold head_bytes, status_bytes. eexists. cbn. reflexivity. Qed.

Lemma method_stays fuel cfg E P t r rh buf L req w r' w' tr resp :
  recv_setup cfg E P t r rh buf L req w -> receives fuel cfg E P t r rh w HTTPSuccess r' w' tr -> bytes_at (w_mem w') buf (zlen (head_bytes resp)) = head_bytes resp -> zlen (http_bytes resp) <= L ->
  method_safe (w_mem w) rh buf L req ->
  exists req', recv_setup cfg E P t r' rh buf L req' w' /\ method_safe (w_mem w') rh buf L req' /\ beqb (slice req' 0 4) (B "HEAD") = beqb (slice req 0 4) (B "HEAD").
Proof.
  intros RS RV GH ZL (rb&n&H&DD). pose proof (again_mem _ _ _ _ _ _ _ _ _ _ _ _ _ _ _ RS RV) as SO.
  pose proof RS as (_&_&_&_&_&_&OB&LL&_&LR). destruct DD as [DJ|(->&NH)].
  - assert (H' : holds (w_mem w') rh rb n req) by (eapply holds_apart; eauto).
    exists req. split; [eapply again_setup; eauto|]. split; [exists rb, n; auto|auto].
  - pose proof (holds_len _ _ _ _ _ H) as ZR. destruct H as (H1&H2&H3&H4&H5). set (req' := bytes_at (w_mem w') buf (rh_len rh)).
    assert (O2 : object (w_mem w') buf n) by (apply (same_outside_object _ _ _ _ _ _ SO); auto).
    assert (H' : holds (w_mem w') rh buf n req') by (unfold holds; conj; auto; lia).
    pose proof (holds_len _ _ _ _ _ H') as ZR'.
    assert (OL : object (w_mem w') buf L) by (apply (same_outside_object _ _ _ _ _ _ SO); auto).
    assert (PB : 0 <= po buf) by (destruct OL as (_&X&_); exact X).
    assert (NH' : beqb (slice req' 0 4) (B "HEAD") = false).
    { destruct (head_bytes_http resp) as (y&HY).
      assert (LH : 4 <= zlen (head_bytes resp)) by (rewrite HY, zlen_app; pose proof (zlen_nonneg y); change (zlen (B "HTTP")) with 4; lia).
      assert (S1 : slice req' 0 4 = slice (head_bytes resp) 0 4).
      { assert (ZH : zlen (head_bytes resp) <= L) by (unfold http_bytes in ZL; rewrite zlen_app in ZL; match type of ZL with _ + zlen ?y <= _ => pose proof (zlen_nonneg y) end; lia).
        destruct OL as (_&_&OL). destruct O2 as (_&_&O2). rewrite <- GH. unfold req', bytes_at. rewrite !slice_slice by lia. reflexivity. }
      rewrite S1, HY. reflexivity. }
    exists req'. split; [eapply again_setup; eauto; lia|]. split; [exists buf, n; auto|congruence].
Qed.

(** ** C92: further responses to the same request *)
(** The request structure not written in between, the same response structure used again: every further call fetches the next response,
    whatever the earlier ones were.  Request and response buffer are apart, or the request begins where the response buffer does and is
    no HEAD request. *)
Theorem C92_receive_again : forall fuel cfg E P t rh buf L l r req w,
  reads_http P -> recv_setup cfg E P t r rh buf L req w -> recv_faithful E -> no_parse_body r = false ->
  (exists rb n, holds (w_mem w) rh rb n req /\ (disjoint buf L rb n \/ rb = buf /\ beqb (slice req 0 4) (B "HEAD") = false)) ->
  Forall (answer_ok cfg E (r_time r) (beqb (slice req 0 4) (B "HEAD")) L) l -> feeds E (w_nr w) (flat_map a_ps l) ->
  Forall (fun a => (length (a_ps a) < fuel)%nat) l ->
  exists r' w' tr, reads_on fuel cfg E P t rh buf L r w l r' w' tr /\ data_received tr = flat_map (fun a => http_bytes (a_resp a)) l.
Proof.
  intros fuel cfg E P t rh buf L l. induction l as [|a l IH]; intros r req w RH RS RF ND MS OK FE FU.
  - exists r, w, []. split; [constructor|reflexivity].
  - inversion OK as [|a' l' (HO&EN&LE&CC&LS&PR) OK']; subst. inversion FU as [|a' l' F1 FU']; subst.
    cbn [flat_map] in FE. apply feeds_app in FE. destruct FE as (FE1&FE2).
    assert (NT : forall d, p_body (a_resp a) <> ToClose d) by (intros d Q; unfold ends in EN; rewrite Q in EN; exact EN).
    destruct (C43_any_parser_every_fragmentation fuel cfg E P t r rh buf L req w (a_resp a) (a_ps a) RH RS RF ND HO NT LE CC FE1 (PR _) F1) as (r1&w1&tr1&R1&R2&R3&R4).
    assert (NR : w_nr w1 = (w_nr w + length (a_ps a))%nat) by (eapply receive_takes; eauto; congruence).
    destruct (method_stays _ _ _ _ _ _ _ _ _ _ _ _ _ _ _ RS R1 (g_head _ _ _ _ _ _ _ _ R4) LE MS) as (req'&S1&MS1&HM).
    destruct (outputs _ _ _ _ _ _ _ _ _ _ _ _ _ _ _ RS R1 ltac:(left; discriminate)) as (_&(I1&I2&I3&I4&I5)&_).
    destruct (IH r1 req' w1 RH S1 RF) as (r'&w'&trs&Y1&Y2); auto.
    + unfold no_parse_body in *. rewrite I5. auto.
    + rewrite HM, I4. auto.
    + rewrite NR. auto.
    + exists r', w', (tr1 ++ trs). split; [econstructor; eauto|]. rewrite data_received_app, R2, Y2. reflexivity.
Qed.

(** HTTPClient_Send sends the request and gives the first response; calls of HTTPClient_ReceiveAndParseHttpResponse give the others. *)
Theorem C92_send_then_again : forall fuel cfg E P t h hbuf n req body len bd r rbuf L w flags block a l,
  reads_http P -> send_setup cfg E P t h hbuf n req body len bd r rbuf L w -> recv_faithful E -> no_parse_body r = false ->
  (forall i k, 0 < k -> 0 < e_send E i k) -> wire_headers flags len req block -> zlen block <= n ->
  disjoint rbuf L hbuf n \/ hbuf = rbuf /\ beqb (slice req 0 4) (B "HEAD") = false ->
  Forall (answer_ok cfg E (r_time (with_clock r)) (beqb (slice req 0 4) (B "HEAD")) L) (a :: l) -> feeds E (w_nr w) (flat_map a_ps (a :: l)) ->
  n + len < Z.of_nat fuel -> Forall (fun a => (length (a_ps a) < fuel)%nat) (a :: l) ->
  exists h' r1 w1 tr1 r' w' tr, exchanges fuel cfg E P t h body len r flags w HTTPSuccess h' r1 w1 tr1 /\
    accepted tr1 = block ++ bd /\ data_received tr1 = http_bytes (a_resp a) /\ gives cfg rbuf L (a_resp a) r r1 w1 tr1 /\
    reads_on fuel cfg E P t h' rbuf L r1 w1 l r' w' tr /\ data_received tr = flat_map (fun a => http_bytes (a_resp a)) l.
Proof.
  intros fuel cfg E P t h hbuf n req body len bd r rbuf L w flags block a l RH S RF ND WI WH C DD OK FE F1 F2.
  inversion OK as [|a' l' (HO&EN&LE&CC&LS&PR) OK']; subst. inversion F2 as [|a' l' F3 F4]; subst.
  cbn [flat_map] in FE. apply feeds_app in FE. destruct FE as (FE1&FE2).
  assert (NT : forall d, p_body (a_resp a) <> ToClose d) by (intros d Q; unfold ends in EN; rewrite Q in EN; exact EN).
  destruct (C50_any_parser_successful_exchange fuel cfg E P t _ _ _ _ _ _ _ _ _ _ _ flags block (a_resp a) (a_ps a) RH S RF ND WI WH C HO NT LE CC FE1 PR F1 F3)
    as (h'&r1&w1&tr1&X1&X2&X3&X4&X5).
  assert (NR : w_nr w1 = (w_nr w + length (a_ps a))%nat) by (eapply exchange_takes; eauto; congruence).
  pose proof S as (_&_&_&_&_&_&_&LR&_). pose proof (wire_method _ _ _ _ WH LR) as WM.
  assert (Z : exists wm rtr, recv_setup cfg E P t (with_clock r) h' rbuf L block wm /\ receives fuel cfg E P t (with_clock r) h' wm HTTPSuccess r1 w1 rtr /\ holds (w_mem wm) h' hbuf n block).
  { destruct X1 as (X0&XT). destruct (Send_split fuel _ _ _ _ _ _ _ _ _ _ _ _ _ _ _ flags S) as (block'&sent&h1&wm&WH'&SN&TR&NR'&SM&PF&HOL&HR&Y). cbn zeta in Y.
    pose proof (wire_fun _ _ _ _ _ WH' WH) as Q; subst block'; clear WH'.
    destruct Y as [Y|[(Y&_)|[(Y&_)|(Y1&Y2&Y3&Y4)]]]; try (rewrite Y in X0; discriminate).
    rewrite Y4 in X0.
    destruct (ReceiveAndParseHttpResponse fuel cfg E P (Some t) (Some (with_clock r)) (Some h1) wm) as [[[s2 p2] w2]| | |] eqn:Q; try discriminate. cbn [bind] in X0. injection X0 as -> <- -> ->.
    destruct (Receive_ext _ _ _ _ _ _ _ _ (Some (HTTPSuccess, Some r1)) w1 ltac:(rewrite Q; reflexivity)) as (tq&Q1&Q2).
    exists wm, tq. split; [auto|]. split; [split; auto|auto]. }
  destruct Z as (wm&rtr&RS&RV&HB).
  assert (MS : method_safe (w_mem wm) h' rbuf L block).
  { exists hbuf, n. split; [auto|]. rewrite WM. destruct DD as [DD|(DD&DH)]; auto. }
  destruct (method_stays _ _ _ _ _ _ _ _ _ _ _ _ _ _ _ RS RV (g_head _ _ _ _ _ _ _ _ X5) LE MS) as (req'&S1&MS1&HM).
  destruct (outputs _ _ _ _ _ _ _ _ _ _ _ _ _ _ _ RS RV ltac:(left; discriminate)) as (_&(I1&I2&I3&I4&I5)&_).
  destruct (C92_receive_again fuel cfg E P t h' rbuf L l r1 req' w1 RH S1 RF) as (r'&w'&trs&Y1&Y2).
  - unfold no_parse_body in *. rewrite I5, (proj2 (with_clock_same r)). auto.
  - exact MS1.
  - rewrite HM, WM, I4. auto.
  - rewrite NR. auto.
  - auto.
  - exists h', r1, w1, tr1, r', w', trs. auto 10.
Qed.

(** 103 Early Hints, then the answer, each cut in two; one buffer for both the request and the responses, or two. *)
Definition ex_hints : http := mkhttp 49 (B "103") (B "Early Hints") [mkhline (B "Link") (B " ") (B "x")] NoBody.
Lemma ex_hints_ok head : http_ok head ex_hints.
Proof.
  split; [split; [right; reflexivity|]|].
  - split; [reflexivity|]. split; [repeat constructor; discriminate|]. split; [vm_compute; discriminate|].
    split; [repeat constructor; discriminate|]. split; [|exists None; apply CLskip; [discriminate|constructor]].
    repeat apply Forall_cons; try apply Forall_nil; (split; [discriminate|]; split; [repeat constructor; discriminate|]; split; [repeat constructor; discriminate|]; split; [repeat constructor; discriminate|]);
      intros c x H; injection H as <- <-; intros [X|X]; discriminate.
  - right. left. reflexivity.
Qed.
Definition halves (m : http) : list bytes := [firstn 20 (http_bytes m); skipn 20 (http_bytes m)].
Definition ans_h : answer := mkanswer ex_hints (halves ex_hints).
Definition ans_a : answer := mkanswer ex_sized (halves ex_sized).
Lemma ans_ok E tf : Forall (answer_ok cfg0 E tf false 300) [ans_h; ans_a].
Proof.
  repeat apply Forall_cons; try apply Forall_nil; (split; [first [apply ex_hints_ok|exact ex_sized_ok]|]); (split; [exact I|]); (split; [vm_compute; discriminate|]);
    (split; [reflexivity|]); (split; [vm_compute; discriminate|]); intros nt; apply nonempty_prompt; repeat constructor; vm_compute; discriminate.
Qed.
Example C92_case : let E := env_ex (flat_map a_ps [ans_h; ans_a]) in
  (exists h' r1 w1 tr1 r' w' tr, exchanges 400 cfg0 E refparser trr hx (Some (mkptr 2 0)) 4 rsep 0 wsep HTTPSuccess h' r1 w1 tr1 /\ accepted tr1 = block_ab ++ B "data" /\
     data_received tr1 = http_bytes ex_hints /\ reads_on 400 cfg0 E refparser trr h' rbuf 300 r1 w1 [ans_a] r' w' tr /\ data_received tr = http_bytes ex_sized) /\
  (exists h' r1 w1 tr1 r' w' tr, exchanges 400 cfg0 E refparser trr hx (Some (mkptr 1 0)) 4 rshared 0 wshared HTTPSuccess h' r1 w1 tr1 /\ accepted tr1 = block_ab ++ B "data" /\
     data_received tr1 = http_bytes ex_hints /\ reads_on 400 cfg0 E refparser trr h' buf0 300 r1 w1 [ans_a] r' w' tr /\ data_received tr = http_bytes ex_sized).
Proof.
  set (E := env_ex _). destruct (setup_ex (flat_map a_ps [ans_h; ans_a])) as (SA&SB). destruct (env_ex_ok (flat_map a_ps [ans_h; ans_a])) as (_&_&RF&WI).
  assert (WH : wire_headers 0 4 req1 block_ab).
  { cbn [wire_headers]. exists (B "GET / HTTP/1.1" ++ CRLF ++ B "Host: h" ++ CRLF), (B "4"). split; [left; exists (B "GET / HTTP/1.1" ++ CRLF ++ B "Host: h"); split; reflexivity|].
    split; [|reflexivity]. cbn. split; [discriminate|]. split; [repeat constructor; discriminate|]. split; [discriminate|reflexivity]. }
  split.
  - destruct (C92_send_then_again 400 cfg0 E refparser trr _ _ _ _ _ _ _ _ _ _ _ 0 block_ab ans_h [ans_a] refparser_reads SA RF eq_refl WI WH) as (h'&r1&w1&tr1&r'&w'&tr&X1&X2&X3&X4&X5&X6);
      [vm_compute; discriminate|left; left; discriminate|apply ans_ok|apply env_of_feeds|lia|repeat constructor; vm_compute; lia|].
    exists h', r1, w1, tr1, r', w', tr. split; [exact X1|]. split; [exact X2|]. split; [exact X3|]. split; [exact X5|]. rewrite X6. cbn [flat_map]. apply app_nil_r.
  - destruct (C92_send_then_again 400 cfg0 E refparser trr _ _ _ _ _ _ _ _ _ _ _ 0 block_ab ans_h [ans_a] refparser_reads SB RF eq_refl WI WH) as (h'&r1&w1&tr1&r'&w'&tr&X1&X2&X3&X4&X5&X6);
      [vm_compute; discriminate|right; split; reflexivity|apply ans_ok|apply env_of_feeds|lia|repeat constructor; vm_compute; lia|].
    exists h', r1, w1, tr1, r', w', tr. split; [exact X1|]. split; [exact X2|]. split; [exact X3|]. split; [exact X5|]. rewrite X6. cbn [flat_map]. apply app_nil_r.
Qed.

(** What goes wrong with a HEAD request that shares its buffer with the responses: the first response has overwritten the method, and
    the library waits for a body of the second. *)
Definition reqH : bytes := B "HEAD / HTTP/1.1" ++ CRLF ++ B "Host: h" ++ CRLF ++ CRLF.
Definition hH : reqHeaders := mkrh (Some buf0) 300 (zlen reqH).
Definition wH : world := mkw [reqH ++ repeat 0 (300 - length reqH)] 0 0 0 [].
Definition ex_headed : http := mkhttp 49 (B "200") (B "OK") (p_headers ex_sized) NoBody.
Definition ans_n : answer := mkanswer ex_headed (halves ex_headed).
Definition envH : env := env_ex (flat_map a_ps [ans_h; ans_n]).
Lemma setupH : recv_setup cfg0 envH refparser trr rshared hH buf0 300 reqH wH /\ holds (w_mem wH) hH buf0 300 reqH.
Proof.
  assert (H : holds (w_mem wH) hH buf0 300 reqH) by (split; [reflexivity|]; split; [reflexivity|]; split; [split; [lia|split; [vm_compute; discriminate|vm_compute; discriminate]]|split; [vm_compute; split; discriminate|reflexivity]]).
  split; [|exact H]. destruct (env_ex_ok (flat_map a_ps [ans_h; ans_n])) as (_&A&_). split; [reflexivity|]. split; [exact A|]. split; [apply refparser_ok|]. split; [discriminate|]. split; [reflexivity|]. split; [reflexivity|].
  split; [split; [lia|split; vm_compute; discriminate]|]. split; [split; [lia|reflexivity]|]. split; [exists buf0, 300; exact H|vm_compute; discriminate].
Qed.
Theorem C92_false_for_head_in_one_buffer :
  ~ (forall fuel cfg E P t rh buf L l r req w,
       reads_http P -> recv_setup cfg E P t r rh buf L req w -> recv_faithful E -> no_parse_body r = false ->
       (exists n, holds (w_mem w) rh buf n req) ->
       Forall (answer_ok cfg E (r_time r) (beqb (slice req 0 4) (B "HEAD")) L) l -> feeds E (w_nr w) (flat_map a_ps l) ->
       Forall (fun a => (length (a_ps a) < fuel)%nat) l ->
       exists r' w' tr, reads_on fuel cfg E P t rh buf L r w l r' w' tr).
Proof.
  intros H. destruct setupH as (S&HH).
  destruct (H 400%nat cfg0 envH refparser trr hH buf0 300 [ans_h; ans_n] rshared reqH wH refparser_reads S) as (r'&w'&tr&R).
  - exact (proj1 (proj2 (proj2 (env_ex_ok _)))).
  - reflexivity.
  - eauto.
  - replace (beqb (slice reqH 0 4) (B "HEAD")) with true by reflexivity.
    repeat apply Forall_cons; try apply Forall_nil.
    + split; [apply ex_hints_ok|]. split; [exact I|]. split; [vm_compute; discriminate|]. split; [reflexivity|]. split; [vm_compute; discriminate|].
      intros nt; apply nonempty_prompt; repeat constructor; vm_compute; discriminate.
    + split; [exact (proj2 no_body)|]. split; [exact I|]. split; [vm_compute; discriminate|]. split; [reflexivity|]. split; [vm_compute; discriminate|].
      intros nt; apply nonempty_prompt; repeat constructor; vm_compute; discriminate.
  - apply env_of_feeds.
  - repeat constructor; vm_compute; lia.
  - inversion R as [|r w a l r1 w1 tr1 r2 w2 trs R1 D1 G1 R2]; subst. inversion R2 as [|r w a l r2 w2 tr2 r3 w3 trs2 R3 D3 G3 R4]; subst.
    destruct R1 as (R1&_). destruct R3 as (R3&_).
    assert (X : match ReceiveAndParseHttpResponse 400 cfg0 envH refparser (Some trr) (Some rshared) (Some hH) wH with
                | Ret (_, Some r1, w1) => match ReceiveAndParseHttpResponse 400 cfg0 envH refparser (Some trr) (Some r1) (Some hH) w1 with
                                          | Ret (HTTPPartialResponse, _, _) => True | _ => False end
                | _ => False end) by (vm_compute; exact I).
    rewrite R1 in X. rewrite R3 in X. exact X.
Qed.
Print Assumptions C92_receive_again.
Print Assumptions C92_send_then_again.
Print Assumptions C92_false_for_head_in_one_buffer.
