(** PropsSession.v — several requests on one connection (SpecSession.v). *)
From Verif Require Import Base Lib ModelRequest ModelSend ModelResponse SpecRequest SpecSend SpecResponse SpecHttp SpecParser SpecExchange SpecSession ProofsRequest ProofsSend ProofsSend2
  ProofsResponse ProofsResponse2 ProofsResponse3 ProofsResponse4 ProofsResponse5 ProofsTwin ProofsExchange RefParser RefRun HttpRun ProofsFollow ProofsEnd Demo DemoResponse
  PropsSend PropsResponse PropsHttp PropsExchange ProofsAny PropsAny PropsAnyExchange ProofsCount.

Lemma recvs_nonneg tr : 0 <= recvs tr.
Proof. induction tr as [|[] tr IH]; cbn [recvs]; lia. Qed.
Lemma skipn_cons (ps : list bytes) : forall i, (i < length ps)%nat -> skipn i ps = nth i ps [] :: skipn (S i) ps.
Proof. induction ps as [|p ps IH]; intros [|i] H; cbn in *; try lia; auto. apply IH. lia. Qed.
(** The reads that were made delivered the first pieces. *)
Lemma rrun_firstn E k T n0 ps : feeds E n0 ps ->
  forall last nr nt v tr o v', rrun E T k last nr nt v tr o v' ->
  forall i, nr = (n0 + i)%nat -> zlen (v_stream v) + zlen (concat (skipn i ps)) <= k_L k -> recvs tr <= Z.of_nat (length ps) - Z.of_nat i ->
  data_received tr = concat (firstn (Z.to_nat (recvs tr)) (skipn i ps)).
Proof.
  intros FE last nr nt v tr o v' H.
  induction H as [last nr nt v|last nr nt v n d H1 H2|last nr nt v n d b e blk tr o v' H1 H2 H3 H4 H5 H6 H7 H8 IH|last nr nt v n d b e blk H1 H2 H3 H4 H5 H6 H7|last nr nt v d e blk H1 H2 H3|last nr nt v d tr o v' H1 H2 H3 IH];
    intros i NR SZE RC; [reflexivity|..].
  all: cbn [recvs data_received] in *; rewrite ?recvs_tick_app, ?data_received_app, ?(data_received_norecv (tick _ _)) in * by apply tick_norecv.
  all: rewrite ?recvs_app, ?data_received_app in *.
  all: try rewrite (data_received_norecv blk) in * by (eapply blk_norecv; eauto). all: try rewrite (recvs_norecv blk) in * by (eapply blk_norecv; eauto).
  all: try (pose proof (recvs_nonneg tr) as RN).
  all: assert (LI : (i < length ps)%nat) by lia.
  all: rewrite (skipn_nth ps i LI), zlen_app in SZE; rewrite (skipn_cons ps i LI); set (p := nth i ps []) in *; pose proof (zlen_nonneg p) as Z1; pose proof (zlen_nonneg (concat (skipn (S i) ps))) as Z2.
  all: pose proof (FE i (k_L k - zlen (v_stream v)) LI ltac:(fold p; lia)) as H0; fold p in H0; rewrite <- NR, H1 in H0; injection H0 as H0 H0'.
  - lia.
  - assert (b = p) by (rewrite <- H0'; apply H4; congruence). subst b d. rewrite (pblock_stream _ _ _ _ _ _ H6), zlen_app in IH.
    replace (0 <? n) with true by lia. replace (Z.to_nat (1 + (0 + recvs tr))) with (S (Z.to_nat (recvs tr))) by lia. cbn [firstn concat]. cbn [app]. f_equal. apply IH; lia.
  - subst d. replace (0 <? n) with true by lia. change (Z.to_nat (1 + 0)) with 1%nat. cbn [firstn concat]. rewrite !app_nil_r. reflexivity.
  - assert (PE : p = []) by (apply zlen_zero; lia). rewrite PE. change (Z.to_nat (1 + 0)) with 1%nat. reflexivity.
  - assert (PE : p = []) by (apply zlen_zero; lia). rewrite PE in *. cbn [app] in *. change (zlen (@nil Z)) with 0 in *. subst d.
    replace (Z.to_nat (1 + recvs tr)) with (S (Z.to_nat (recvs tr))) by lia. cbn [firstn concat app]. apply IH; lia.
Qed.

Lemma concat_firstn_last (ps : list bytes) n : last ps [] <> [] -> concat (firstn n ps) = concat ps -> (length ps <= n)%nat.
Proof.
  intros L E. destruct (Nat.le_gt_cases (length ps) n) as [|G]; auto. exfalso.
  assert (E2 : concat ps = concat (firstn n ps) ++ concat (skipn n ps)) by (rewrite <- concat_app, firstn_skipn; reflexivity).
  rewrite E in E2. rewrite <- (app_nil_r (concat ps)) in E2 at 1. apply app_inv_head in E2.
  assert (NN : skipn n ps <> []) by (intros Q; apply (f_equal (@length bytes)) in Q; rewrite skipn_length in Q; cbn in Q; lia).
  assert (LL : last (skipn n ps) [] = last ps []).
  { rewrite <- (firstn_skipn n ps) at 2. destruct (skipn n ps) as [|a l]; [congruence|]. clear. induction (firstn n ps) as [|x f IH]; [auto|].
    cbn [app]. cbn [last]. destruct (f ++ a :: l) eqn:Q; [destruct f; discriminate|]. exact IH. }
  rewrite <- LL in L. destruct (exists_last NN) as (l&a&Q). rewrite Q in *. rewrite last_last in L. rewrite concat_app in E2. cbn in E2. rewrite app_nil_r in E2.
  symmetry in E2. apply app_eq_nil in E2. tauto.
Qed.
Lemma feeds_app E n a b : feeds E n (a ++ b) -> feeds E n a /\ feeds E (n + length a)%nat b.
Proof.
  intros F. split; intros i room LI Z.
  - pose proof (F i room ltac:(rewrite app_length; lia)) as X. rewrite app_nth1 in X by lia. auto.
  - pose proof (F (length a + i)%nat room ltac:(rewrite app_length; lia)) as X. rewrite app_nth2 in X by lia. replace (length a + i - length a)%nat with i in X by lia.
    rewrite <- Nat.add_assoc. auto.
Qed.

(** A successful exchange takes exactly its own pieces from the transport. *)
Lemma exchange_takes fuel cfg E P t h hbuf n req body len bd r rbuf L w flags st h' r' w' tr ps :
  send_setup cfg E P t h hbuf n req body len bd r rbuf L w -> exchanges fuel cfg E P t h body len r flags w st h' r' w' tr ->
  feeds E (w_nr w) ps -> zlen (concat ps) <= L -> last ps [] <> [] -> data_received tr = concat ps -> recvs tr <= Z.of_nat (length ps) ->
  w_nr w' = (w_nr w + length ps)%nat.
Proof.
  intros S X FE ZL LS DR RC.
  assert (SP : exists block, wire_headers flags len req block /\
    ((send_only tr) \/ (exists sent rtr w1, tr = sent ++ rtr /\ send_only sent /\ w_nr w1 = w_nr w /\
        recv_setup cfg E P t (with_clock r) h' rbuf L block w1 /\ receives fuel cfg E P t (with_clock r) h' w1 st r' w' rtr))).
  { pose proof X as (X0&XT). destruct (Send_split fuel _ _ _ _ _ _ _ _ _ _ _ _ _ _ _ flags S) as (block&sent&h1&w1&WH&SN&TR&NR&SM&PF&HO&HR&Y). cbn zeta in Y.
    exists block. split; [auto|]. destruct Y as [Y|[(Y&Y1&Y2)|[(Y&Y1&Y2&Y3&Y4)|(Y1&Y2&Y3&Y4)]]]; try (rewrite Y in X0; try discriminate).
    - injection X0 as <- <- <- <-. rewrite TR in XT. apply app_inv_head in XT. subst sent. left. auto.
    - injection X0 as <- <- <- <-. subst. rewrite <- (app_nil_r (w_tr w)) in XT at 1. apply app_inv_head in XT. subst. left. constructor.
    - rewrite Y4 in X0. right. unfold receives.
      destruct (ReceiveAndParseHttpResponse fuel cfg E P (Some t) (Some (with_clock r)) (Some h1) w1) as [[[s2 p2] w2]| | |] eqn:Q; try discriminate. cbn [bind] in X0. injection X0 as -> <- -> ->.
      destruct (Receive_ext _ _ _ _ _ _ _ _ (Some (st, Some r')) w' ltac:(rewrite Q; reflexivity)) as (tq&Q1&Q2).
      rewrite Q1, TR, <- app_assoc in XT. apply app_inv_head in XT. subst tr. exists sent, tq, w1. auto 10. }
  destruct SP as (block&WH&[SN|(sent&rtr&w1&->&SN&NR&RS&RV)]).
  - exfalso. destruct (send_only_data tr [] SN) as (D&_). rewrite app_nil_r in D. rewrite D in DR. cbn in DR.
    destruct ps as [|p ps] using rev_ind; [auto|]. rewrite last_last in LS. rewrite concat_app in DR. cbn in DR. rewrite app_nil_r in DR. symmetry in DR. apply app_eq_nil in DR. tauto.
  - destruct (send_only_data sent rtr SN) as (D1&_&D3). rewrite D1 in DR. rewrite D3 in RC. clear D1 D3.
    destruct RV as (RV&RT). destruct (Receive_cext _ _ _ _ _ _ _ _ (Some (st, Some r')) w' ltac:(rewrite RV; reflexivity)) as (tq&Q1&Q2).
    rewrite Q1 in RT. apply app_inv_head in RT. subst tq. rewrite NR in Q2.
    cut (recvs rtr = Z.of_nat (length ps)); [lia|]. apply Z.le_antisymm; [auto|].
    destruct (Receive_run fuel _ _ _ _ _ _ _ _ _ _ RS) as (tr&o&v'&RR&HX). set (k := kof _ rbuf L block (w_mem w1)) in *. set (t0 := clk E _ (w_nt w1)) in *.
    assert (ET : rtr = tick (r_time (with_clock r)) t0 ++ tr).
    { rewrite RV in HX. destruct o; [destruct HX as (?&?&_); discriminate|..]; destruct HX as (r2&s2&H1&H2&_); injection H1 as -> -> ->; rewrite Q1 in H2; apply app_inv_head in H2; auto. }
    rewrite ET, recvs_tick_app in *. rewrite data_received_app, (data_received_norecv (tick _ _)) in DR by apply tick_norecv. cbn [app] in DR.
    pose proof (rrun_firstn E k _ (w_nr w1) ps ltac:(rewrite NR; exact FE) _ _ _ _ _ _ _ RR 0%nat ltac:(lia)) as FN.
    cbn [skipn] in FN. rewrite FN in DR.
    + apply concat_firstn_last in DR; auto. pose proof (recvs_nonneg tr). apply Nat2Z.inj_le in DR. rewrite Z2Nat.id in DR by auto. exact DR.
    + cbn [view0 v_stream]. change (zlen (@nil Z)) with 0. exact ZL.
    + change (Z.of_nat 0) with 0. rewrite Z.sub_0_r. exact RC.
Qed.

(** ** C60: keep-alive *)
(** Any number of requests on one connection: the transport delivers the responses one after the other, each cut as it likes; every call
    succeeds, the server gets exactly the requests in order, and every call gives exactly its own response. *)
Theorem C60_requests_on_one_connection : forall fuel cfg E P t qs w,
  reads_http P -> recv_faithful E -> (forall i k, 0 < k -> 0 < e_send E i k) ->
  Forall (turn_ok cfg E P t) qs -> feeds E (w_nr w) (flat_map q_ps qs) ->
  Forall (fun q => q_n q + q_len q < Z.of_nat fuel /\ (length (q_ps q) < fuel)%nat) qs ->
  exists tr, session fuel cfg E P t w qs tr /\
    accepted tr = flat_map (fun q => q_block q ++ q_bd q) qs /\
    data_received tr = flat_map (fun q => http_bytes (q_resp q)) qs.
Proof.
  intros fuel cfg E P t qs. induction qs as [|q qs IH]; intros w RH RF WI OK FE FU.
  - exists []. split; [constructor|]. auto.
  - inversion OK as [|q' l TO OK']; subst. inversion FU as [|q' l (F1&F2) FU']; subst. destruct TO as (S&ND&WH&C&HO&NC&LE&CC&LS&PR).
    cbn [flat_map] in FE. apply feeds_app in FE. destruct FE as (FE1&FE2).
    specialize (S (with_mem w (q_mem q)) eq_refl).
    destruct (C50_any_parser_successful_exchange fuel cfg E P t _ _ _ _ _ _ _ _ _ _ _ (q_flags q) (q_block q) (q_resp q) (q_ps q) RH S RF ND WI WH C HO NC LE CC FE1 PR F1 F2)
      as (h'&r'&w'&tr&X1&X2&X3&X4&X5).
    assert (NR : w_nr w' = (w_nr w + length (q_ps q))%nat).
    { eapply (exchange_takes fuel _ _ _ _ _ _ _ _ _ _ _ _ _ _ (with_mem w (q_mem q))); eauto; congruence. }
    destruct (IH w' RH RF WI OK' ltac:(rewrite NR; exact FE2) FU') as (trs&Y1&Y2&Y3).
    exists (tr ++ trs). split; [econstructor; eauto|]. rewrite accepted_app, data_received_app, X2, X3, Y2, Y3. split; reflexivity.
Qed.
Print Assumptions C60_requests_on_one_connection.

(** Two requests: the first with a buffer of its own for the response (a sized one, cut into two pieces), the second with one buffer for both (a chunked one). *)
Lemma setup_mem cfg E P t h hbuf n req body len bd r rbuf L w w' : w_mem w' = w_mem w ->
  send_setup cfg E P t h hbuf n req body len bd r rbuf L w -> send_setup cfg E P t h hbuf n req body len bd r rbuf L w'.
Proof. intros EQ S. unfold send_setup in *. rewrite EQ. exact S. Qed.
Definition ps_a : list bytes := [firstn 20 (http_bytes ex_sized); skipn 20 (http_bytes ex_sized)].
Definition ps_b : list bytes := [http_bytes ex_chunked].
Definition block_ab : bytes := B "GET / HTTP/1.1" ++ CRLF ++ B "Host: h" ++ CRLF ++ B "Content-Length: 4" ++ CRLF ++ CRLF.
Definition turn_a : turn := mkturn (w_mem wsep) hx buf0 300 req1 (Some (mkptr 2 0)) 4 (B "data") rsep rbuf 300 0 block_ab ex_sized ps_a.
Definition turn_b : turn := mkturn (w_mem wshared) hx buf0 300 req1 (Some (mkptr 1 0)) 4 (B "data") rshared buf0 300 0 block_ab ex_chunked ps_b.
Example C60_case : exists tr, session 400 cfg0 (env_ex (ps_a ++ ps_b)) refparser trr wsep [turn_a; turn_b] tr /\
  accepted tr = (block_ab ++ B "data") ++ block_ab ++ B "data" /\ data_received tr = http_bytes ex_sized ++ http_bytes ex_chunked.
Proof.
  set (E := env_ex (ps_a ++ ps_b)). destruct (setup_ex (ps_a ++ ps_b)) as (SA&SB). destruct (env_ex_ok (ps_a ++ ps_b)) as (_&_&RF&WI).
  assert (WH : wire_headers 0 4 req1 block_ab).
  { cbn [wire_headers]. exists (B "GET / HTTP/1.1" ++ CRLF ++ B "Host: h" ++ CRLF), (B "4"). split; [left; exists (B "GET / HTTP/1.1" ++ CRLF ++ B "Host: h"); split; reflexivity|].
    split; [|reflexivity]. cbn. split; [discriminate|]. split; [repeat constructor; discriminate|]. split; [discriminate|reflexivity]. }
  destruct (C60_requests_on_one_connection 400 cfg0 E refparser trr [turn_a; turn_b] wsep refparser_reads RF WI) as (tr&X1&X2&X3).
  - constructor; [|constructor; [|constructor]].
    + split; [intros w Q; exact (setup_mem _ _ _ _ _ _ _ _ _ _ _ _ _ _ _ _ Q SA)|]. split; [reflexivity|]. split; [exact WH|]. split; [vm_compute; discriminate|].
      split; [exact ex_sized_ok|]. split; [discriminate|]. split; [vm_compute; discriminate|]. split; [reflexivity|]. split; [vm_compute; discriminate|].
      intros nt. apply nonempty_prompt. repeat constructor; vm_compute; discriminate.
    + split; [intros w Q; exact (setup_mem _ _ _ _ _ _ _ _ _ _ _ _ _ _ _ _ Q SB)|]. split; [reflexivity|]. split; [exact WH|]. split; [vm_compute; discriminate|].
      split; [exact ex_chunked_ok|]. split; [discriminate|]. split; [vm_compute; discriminate|]. split; [reflexivity|]. split; [vm_compute; discriminate|].
      intros nt. apply nonempty_prompt. repeat constructor; vm_compute; discriminate.
  - exact (env_of_feeds (ps_a ++ ps_b)).
  - repeat constructor.
  - exists tr. split; [exact X1|]. cbn [flat_map turn_a turn_b q_block q_bd q_resp] in X2, X3. rewrite app_nil_r in X2, X3. split; assumption.
Qed.
