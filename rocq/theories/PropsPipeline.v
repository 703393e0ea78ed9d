(** PropsPipeline.v — C94 (SpecPipeline.v). *)
From Verif Require Import Base Lib ModelRequest ModelSend ModelResponse SpecRequest SpecSend SpecResponse SpecHttp SpecParser SpecExchange SpecSeries SpecSession SpecAgain SpecPipeline ProofsRequest ProofsSend ProofsSend2
  ProofsResponse ProofsResponse2 ProofsResponse3 ProofsResponse4 ProofsResponse5 ProofsTwin ProofsExchange RefParser RefRun HttpRun ProofsFollow ProofsEnd Demo DemoResponse
  PropsSend PropsResponse PropsHttp PropsExchange ProofsAny PropsAny PropsAnyExchange ProofsCount PropsSession PropsExact PropsMemory PropsAgain.

(** One request: its two calls. *)
Lemma ask_ok fuel cfg E t tf h hbuf n req body len bd flags block w :
  send_contract E -> (forall i k, 0 < k -> 0 < e_send E i k) -> t_send t = true -> tf <> TNull -> holds (w_mem w) h hbuf n req -> 0 <= len <= INT32_MAX -> n + 30 < SZ cfg ->
  body_arg (w_mem w) hbuf n body len bd -> wire_headers flags len req block -> zlen block <= n -> n + len < Z.of_nat fuel ->
  exists h1 w1 w2 tr, SendHttpHeaders fuel cfg E (Some t) tf (Some h) len flags w = Ret (HTTPSuccess, Some h1, w1) /\
    match body with Some p => SendHttpData fuel cfg E (Some t) tf (Some p) len w1 = Ret (HTTPSuccess, w2) | None => w2 = w1 end /\
    w_tr w2 = w_tr w ++ tr /\ accepted tr = block ++ bd /\ send_only tr /\ w_nr w2 = w_nr w /\ holds (w_mem w2) h1 hbuf n block.
Proof.
  intros SC WI ST TN H Hl W BA WH C F.
  assert (N0 : 0 <= n) by (destruct H as (_&_&(Q&_)&_); lia).
  pose proof (data_willing fuel cfg E t tf (Z.max n len) SC WI TN ST ltac:(lia)) as DE.
  destruct (sendHttpRequest_ends fuel cfg E tf t h hbuf n req body len bd flags w 0 (Z.of_nat fuel) _ SC TN ST H Hl W BA (Z.le_refl 0) ltac:(lia) DE) as (y&w2&tr2&Y&E1&E2&E3).
  destruct (sendHttpRequest_run fuel cfg E tf t h hbuf n req body len bd flags w SC TN ST H Hl W BA)
    as (block'&h1&m1&so&w1&sent&WH'&SS&Em&E1'&Etr&Enr&On&Pre&Hh&Hq&Hn&Hi&Hs&Hne&Ho). subst m1.
  pose proof (wire_fun _ _ _ _ _ WH' WH). subst block'.
  rewrite E1 in E1'. cbn [wout] in E1'. injection E1' as E1' <-. destruct so as [st|]; [|discriminate]. injection E1' as ->. cbn [fst] in Y.
  assert (st = HTTPSuccess) as -> by (destruct Y as [Y|Y]; [auto|subst st; specialize (Hi eq_refl); lia]).
  assert (sent = tr2) as -> by (rewrite Etr in E2; apply app_inv_head in E2; exact E2).
  unfold sendHttpRequest in E1. cbn [assert_at bind] in E1.
  replace (match body with Some _ => true | None => len =? 0 end) with true in E1 by (destruct body; auto; destruct BA as (->&_); auto).
  replace (match tf with TNull => false | _ => true end) with true in E1 by (destruct tf; congruence). cbn [assert_at bind] in E1.
  destruct (SendHttpHeaders fuel cfg E (Some t) tf (Some h) len flags w) as [[[st1 oh] wm]| | |] eqn:Q; cbn [bind] in E1; try discriminate.
  destruct st1; cbn [is_success] in E1; try discriminate.
  destruct body as [p|].
  - unfold sendHttpBody in E1. rewrite ST in E1. cbn [assert_at bind] in E1.
    destruct (SendHttpData fuel cfg E (Some t) tf (Some p) len wm) as [[st2 wn]| | |] eqn:D; cbn [bind] in E1; try discriminate. injection E1 as -> -> ->.
    exists h1, wm, w2, tr2. conj; auto.
  - injection E1 as -> ->. exists h1, w2, w2, tr2. conj; auto.
Qed.

Lemma recv_no_send fuel cfg E P t r rh w st r' w' tr : receives fuel cfg E P t r rh w st r' w' tr -> no_send tr.
Proof.
  intros (RV&RT). destruct (Receive_ext _ _ _ _ _ _ _ _ (Some (st, Some r')) w' ltac:(rewrite RV; reflexivity)) as (tq&Q1&Q2).
  rewrite Q1 in RT. apply app_inv_head in RT. subst tq. exact Q2.
Qed.

(** Requests and responses in any interleaving: the requests go out in their order, each complete, and each response is the one whose turn it
    is, complete and given exactly, however many requests are still unanswered. *)
Theorem C94_pipeline : forall fuel cfg E P t l w,
  reads_http P -> send_contract E -> recv_faithful E -> t_send t = true -> (forall i k, 0 < k -> 0 < e_send E i k) ->
  Forall (act_ok cfg E P t fuel) l -> feeds E (w_nr w) (flat_map fetched l) ->
  exists tr, pipeline fuel cfg E P t w l tr /\ accepted tr = flat_map asked l /\ data_received tr = flat_map answered_with l.
Proof.
  intros fuel cfg E P t l. induction l as [|x l IH]; intros w RH SC RF ST WI OK FE.
  - exists []. split; [constructor|auto].
  - inversion OK as [|x' l' OX OL]; subst. cbn [flat_map] in *. apply feeds_app in FE. destruct FE as (FE1&FE2). destruct x as [k|f]; cbn [act_ok asked fetched answered_with app] in *.
    + destruct OX as (TN&H&Hl&W&BA&WH&C&F).
      destruct (ask_ok fuel cfg E t (k_time k) (k_h k) (k_hbuf k) (k_n k) (k_req k) (k_body k) (k_len k) (k_bd k) (k_flags k) (k_block k) (with_mem w (k_mem k)) SC WI ST TN H Hl W BA WH C F)
        as (h1&w1&w2&tr&E1&E2&E3&E4&E5&E6&E7).
      destruct (IH w2 RH SC RF ST WI OL) as (trs&Y1&Y2&Y3).
      { rewrite E6. cbn [with_mem w_nr]. rewrite Nat.add_0_r in FE2. exact FE2. }
      exists (tr ++ trs). split; [eapply PAsk; eauto; apply send_only_recvs; auto|]. rewrite accepted_app, data_received_app, E4, Y2, Y3.
      split; [reflexivity|]. rewrite <- (app_nil_r tr). rewrite (proj1 (send_only_data tr [] E5)). reflexivity.
    + destruct OX as (RS&ND&(HO&EN&LE&CC&LS&PR)&F). specialize (RS (with_mem w (f_mem f)) eq_refl).
      assert (NT : forall d, p_body (a_resp (f_answer f)) <> ToClose d) by (intros d Q; unfold ends in EN; rewrite Q in EN; exact EN).
      destruct (C43_any_parser_every_fragmentation fuel cfg E P t _ _ _ _ _ _ (a_resp (f_answer f)) (a_ps (f_answer f)) RH RS RF ND HO NT LE CC FE1 (PR _) F) as (r1&w1&tr1&R1&R2&R3&R4).
      assert (NR : w_nr w1 = (w_nr w + length (a_ps (f_answer f)))%nat) by (eapply (receive_takes fuel _ _ _ _ _ _ _ _ _ (with_mem w (f_mem f))); eauto; congruence).
      destruct (IH w1 RH SC RF ST WI OL) as (trs&Y1&Y2&Y3); [rewrite NR; exact FE2|].
      pose proof (recv_no_send _ _ _ _ _ _ _ _ _ _ _ _ R1) as NS.
      exists (tr1 ++ trs). split; [eapply PFetch; eauto|]. rewrite accepted_app, data_received_app, R2, Y2, Y3. split; [|reflexivity].
      rewrite <- (app_nil_l (flat_map asked l)) at 2. f_equal. rewrite <- (app_nil_l tr1). rewrite accepted_only by exact NS. reflexivity.
Qed.
Print Assumptions C94_pipeline.

(** A GET request with a body and a HEAD request sent one behind the other, then the two responses, each cut in two. *)
Definition envP : env := env_ex (flat_map a_ps [ans_a; ans_n]).
Definition ask_a : asking := mkasking (w_mem wsep) TUser hx buf0 300 req1 (Some (mkptr 2 0)) 4 (B "data") 0 block_ab.
Definition ask_h : asking := mkasking (w_mem wH) TUser hH buf0 300 reqH None 0 [] 0 reqH.
Definition fetch_a : fetching := mkfetching (w_mem wshared) hx req1 rshared buf0 300 ans_a.
Definition fetch_h : fetching := mkfetching (w_mem wH) hH reqH rshared buf0 300 ans_n.
Example C94_case : exists tr, pipeline 400 cfg0 envP refparser trr wsep [Ask ask_a; Ask ask_h; Fetch fetch_a; Fetch fetch_h] tr /\
  accepted tr = block_ab ++ B "data" ++ reqH /\ data_received tr = http_bytes ex_sized ++ http_bytes ex_headed.
Proof.
  destruct (setup_ex (flat_map a_ps [ans_a; ans_n])) as (SA&SB). destruct (env_ex_ok (flat_map a_ps [ans_a; ans_n])) as (SC&RC&RF&WI).
  assert (WH : wire_headers 0 4 req1 block_ab).
  { cbn [wire_headers]. exists (B "GET / HTTP/1.1" ++ CRLF ++ B "Host: h" ++ CRLF), (B "4"). split; [left; exists (B "GET / HTTP/1.1" ++ CRLF ++ B "Host: h"); split; reflexivity|].
    split; [|reflexivity]. cbn. split; [discriminate|]. split; [repeat constructor; discriminate|]. split; [discriminate|reflexivity]. }
  assert (PB : forall h req m, holds m h buf0 300 req -> 16 <= zlen req -> object m buf0 300 -> forall w, w_mem w = m -> recv_setup cfg0 envP refparser trr rshared h buf0 300 req w).
  { intros h req m H LR O w Q. subst m. split; [reflexivity|]. split; [exact RC|]. split; [apply refparser_ok|]. split; [discriminate|]. split; [reflexivity|]. split; [reflexivity|].
    split; [exact O|]. split; [split; [lia|reflexivity]|]. split; [exists buf0, 300; exact H|exact LR]. }
  destruct (C94_pipeline 400 cfg0 envP refparser trr [Ask ask_a; Ask ask_h; Fetch fetch_a; Fetch fetch_h] wsep refparser_reads SC RF eq_refl WI) as (tr&X1&X2&X3).
  - destruct SA as (_&_&_&_&_&_&HA&_&_&_&_&BA&_). destruct SB as (_&_&_&_&_&_&HB&LB&_&_&_&_&_&_&OB&_). destruct setupH as (SH&HH).
    repeat apply Forall_cons; try apply Forall_nil; cbn [act_ok ask_a ask_h fetch_a fetch_h k_mem k_time k_h k_hbuf k_n k_req k_body k_len k_bd k_flags k_block f_mem f_h f_req f_r f_buf f_L f_answer].
    + split; [discriminate|]. split; [exact HA|]. split; [split; [lia|vm_compute; discriminate]|]. split; [reflexivity|]. split; [exact BA|]. split; [exact WH|]. split; [vm_compute; discriminate|lia].
    + split; [discriminate|]. split; [exact HH|]. split; [split; [lia|vm_compute; discriminate]|]. split; [reflexivity|]. split; [split; reflexivity|]. split; [reflexivity|]. split; [vm_compute; discriminate|lia].
    + split; [apply (PB hx req1 _ HB LB OB)|]. split; [reflexivity|]. split; [|vm_compute; lia].
      split; [exact ex_sized_ok|]. split; [exact I|]. split; [vm_compute; discriminate|]. split; [reflexivity|]. split; [vm_compute; discriminate|].
      intros nt; apply nonempty_prompt; repeat constructor; vm_compute; discriminate.
    + split; [apply (PB hH reqH (w_mem wH) HH ltac:(vm_compute; discriminate)); destruct HH as (_&_&O&_); exact O|]. split; [reflexivity|]. split; [|vm_compute; lia].
      split; [exact (proj2 no_body)|]. split; [exact I|]. split; [vm_compute; discriminate|]. split; [reflexivity|]. split; [vm_compute; discriminate|].
      intros nt; apply nonempty_prompt; repeat constructor; vm_compute; discriminate.
  - apply env_of_feeds.
  - exists tr. split; [exact X1|]. rewrite X2, X3. split; reflexivity.
Qed.
