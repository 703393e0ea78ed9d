(** PropsExact2.v — the response side, exactly (C56 on): what happens where the hoped-for property fails. *)
From Verif Require Import Base Lib ModelRequest ModelSend ModelResponse SpecRequest SpecSend SpecExact SpecExact2 ProofsRequest ProofsDecimal
  ProofsRequest2 ProofsHistory ProofsSend ProofsSend2 ProofsResponse ProofsResponse2 ProofsResponse3 ProofsResponse4 ProofsResponse5 ProofsTwin ProofsExchange
  SpecResponse SpecHttp SpecParser SpecExchange RefParser Demo DemoResponse PropsSend PropsResponse PropsResponse2 PropsHttp PropsExchange.

(** ** C56: the status, from the log *)
Lemma ended_or_failed fuel cfg E P t r rh buf L req w st r' w' tr :
  recv_setup cfg E P t r rh buf L req w -> receives fuel cfg E P t r rh w st r' w' tr -> reports (no_parse_body r) L tr st.
Proof.
  intros H HR.
  destruct (receives_inv _ _ _ _ _ _ _ _ _ _ _ _ _ _ _ H HR) as (trl&o&s'&ph&G&TR&RR&NM&ST&_).
  pose proof (rrun_received _ _ _ _ _ _ _ _ _ _ RR) as RL. cbn [view0 v_stream] in RL. change (zlen (@nil Z)) with 0 in RL.
  rewrite <- (received_tick (r_time r) (clk E (r_time r) (w_nt w))), <- TR, Z.add_0_l in RL.
  pose proof (rrun_end _ _ _ _ _ _ _ _ _ _ RR) as RE. unfold final_status in ST.
  assert (DN : dnp (kof r buf L req (w_mem w)) = no_parse_body r) by (unfold dnp, kof; cbn [k_opt]; rewrite dnp_bit; auto).
  rewrite DN, RL in ST. change (k_L (kof r buf L req (w_mem w))) with L in ST.
  destruct (errno_of o) as [e|] eqn:EO.
  - right. exists e. split; [|exact ST]. rewrite TR. apply ended_app. destruct o; cbn in EO; try discriminate; injection EO as <-; auto.
  - left. split; [|exact ST]. rewrite TR. apply failed_app. destruct o; cbn in EO; try discriminate; [congruence|auto].
Qed.
Theorem C56_status_exact : forall fuel cfg E P t r rh buf L req w st r' w' tr,
  recv_setup cfg E P t r rh buf L req w -> receives fuel cfg E P t r rh w st r' w' tr -> reports (no_parse_body r) L tr st.
Proof. exact ended_or_failed. Qed.
Print Assumptions C56_status_exact.
(** The log decides the status: no two statuses are possible. *)
Theorem C56_status_unique : forall raw L tr a b, reports raw L tr a -> reports raw L tr b -> a = b.
Proof.
  intros raw L tr a b [(A1&A2)|(e&A1&A2)] [(B1&B2)|(e'&B1&B2)]; [congruence| | |].
  - destruct (ended_not_failed _ _ B1 A1).
  - destruct (ended_not_failed _ _ A1 B1).
  - rewrite (ended_fun _ _ _ A1 B1) in A2. congruence.
Qed.
Print Assumptions C56_status_unique.
(** With the do-not-parse-body flag: success exactly when some message began; an application that set areHeadersComplete to 0
    can tell by it whether the headers were complete, and then the parser was stopped at the end of the headers. *)
Theorem C56_raw_success : forall fuel cfg E P t r rh buf L req w st r' w' tr,
  recv_setup cfg E P t r rh buf L req w -> no_parse_body r = true -> receives fuel cfg E P t r rh w st r' w' tr ->
  (st = HTTPSuccess <-> no_error tr /\ v_msg (view_of tr) = MsgBegun) /\
  (st = HTTPNoResponse <-> no_error tr /\ v_msg (view_of tr) = MsgNone) /\
  st <> HTTPInsufficientMemory /\ st <> HTTPPartialResponse /\
  (v_hend (view_of tr) <> None <-> ended_with tr HPE_PAUSED) /\
  (r_hdone r = 0 -> (r_hdone r' = 1 <-> v_hend (view_of tr) <> None) /\ (r_hdone r' = 0 <-> v_hend (view_of tr) = None)).
Proof.
  intros fuel cfg E P t r rh buf L req w st r' w' tr H ND HR.
  pose proof (ended_or_failed _ _ _ _ _ _ _ _ _ _ _ _ _ _ _ H HR) as RP. rewrite ND in RP.
  destruct (receives_inv _ _ _ _ _ _ _ _ _ _ _ _ _ _ _ H HR) as (trl&o&s'&ph&G&TR&RR&NM&ST&HW&F1&I&F2&F3&F4).
  assert (DN : dnp (kof r buf L req (w_mem w)) = true) by (unfold dnp, kof; cbn [k_opt]; rewrite dnp_bit; auto).
  pose proof (rrun_end _ _ _ _ _ _ _ _ _ _ RR) as RE.
  assert (D : paused o \/ ~ paused o) by (unfold paused; destruct o as [| |e|e]; try (right; intros [X|X]; discriminate); destruct e; auto; right; intros [X|X]; discriminate).
  assert (HP : paused o <-> ended_with tr HPE_PAUSED).
  { split.
    - intros [X|X]; rewrite TR; apply ended_app; subst o; auto.
    - intros X. destruct o as [| |e|e]; [congruence|..].
      + assert (RF : recv_failed tr) by (rewrite TR; apply failed_app; auto). destruct (ended_not_failed _ _ X RF).
      + assert (Y : ended_with tr e) by (rewrite TR; apply ended_app; auto). rewrite <- (ended_fun _ _ _ X Y). left. auto.
      + assert (Y : ended_with tr e) by (rewrite TR; apply ended_app; auto). rewrite <- (ended_fun _ _ _ X Y). right. auto. }
  assert (HE : v_hend (view_of tr) <> None <-> ended_with tr HPE_PAUSED).
  { rewrite <- HP. destruct D as [D|D].
    - destruct (F3 D) as (_&_&hl&X&_). rewrite X. split; [auto|discriminate].
    - rewrite (F4 DN D). split; [congruence|contradiction]. }
  assert (CM : v_msg (view_of tr) <> MsgComplete).
  { intros C. pose proof (i_after _ _ _ _ _ _ _ _ I (or_intror C)) as IA. pose proof (i_hend _ _ _ _ _ _ _ _ I) as IH.
    destruct D as [D|D]; [destruct (F3 D) as (_&X&_); congruence|]. rewrite (F4 DN D) in IH. tauto. }
  assert (NN : forall e, ended_with tr e -> (no_error tr <-> parse_error e = None)).
  { intros e X. split; [|intros Y; exists e; auto]. intros (e'&Y1&Y2). rewrite (ended_fun _ _ _ X Y1). auto. }
  assert (HD : (v_hend (view_of tr) <> None -> r_hdone r' = 1) /\ (v_hend (view_of tr) = None -> r_hdone r' = r_hdone r)).
  { pose proof (i_hend _ _ _ _ _ _ _ _ I) as IH. destruct D as [D|D].
    - destruct (F3 D) as (_&_&hl&X&R'). rewrite X in IH. split; [|congruence]. intros _. rewrite R'. cbn [set_r_body r_hdone].
      assert (CR : c_resp (s_ctx s') = true) by (destruct (c_resp (s_ctx s')) eqn:Q; auto; destruct (F1 eq_refl) as (_&_&_&->); destruct D; discriminate).
      rewrite (reset_true _ CR) in IH. tauto.
    - rewrite (F4 DN D) in IH. split; [rewrite (F4 DN D); congruence|]. intros _. destruct (F2 D) as (_&->).
      destruct (c_resp (s_ctx s')) eqn:Q; [rewrite (reset_true _ Q) in IH; apply IH|destruct (F1 eq_refl) as (->&_); auto]. }
  split; [|split; [|split; [|split; [|split; [exact HE|]]]]].
  5:{ intros Z0. destruct HD as (D1&D2). destruct (v_hend (view_of tr)) as [x|]; [rewrite (D1 ltac:(discriminate))|rewrite (D2 eq_refl), Z0]; split; split; congruence. }
  all: destruct RP as [(RF&->)|(e&X&->)].
  all: try (assert (NE : ~ no_error tr) by (intros (e&Y&_); exact (ended_not_failed _ _ Y RF)); try discriminate; split; [discriminate|tauto]).
  all: try discriminate.
  all: try rewrite (NN e X); destruct (parse_error e) as [y|] eqn:PE; destruct (v_msg (view_of tr)) eqn:MM; try congruence.
  all: try (intros Q; destruct e; cbn in PE; congruence).
  all: split; [intros Q|intros (Q&Q2)]; auto; try congruence; destruct e; cbn in PE; congruence.
Qed.
Example C56_case :
  (exists r' w' tr, demo_receives resp_ok (resp0 200 0) 200 HTTPSuccess r' w' tr) /\
  (exists r' w' tr, demo_receives resp_cut (resp0 200 1) 200 HTTPSuccess r' w' tr /\ no_parse_body (resp0 200 1) = true /\ r_hdone r' = 0) /\
  (exists r' w' tr, demo_receives resp_ok (resp0 200 1) 200 HTTPSuccess r' w' tr /\ no_parse_body (resp0 200 1) = true /\ r_hdone r' = 1) /\
  (exists r' w' tr, demo_receives resp_ok (resp0 40 0) 40 HTTPInsufficientMemory r' w' tr).
Proof.
  split; [do 3 eexists; demo|]. split; [do 3 eexists; split; [demo|split; reflexivity]|].
  split; [do 3 eexists; split; [demo|split; reflexivity]|]. do 3 eexists. demo.
Qed.
Print Assumptions C56_raw_success.

(** ** C57: a receive timeout, exactly *)
Theorem C57_timeout_exact : forall fuel cfg E P t r rh buf L req w st r' w' tr,
  recv_setup cfg E P t r rh buf L req w -> receives fuel cfg E P t r rh w st r' w' tr -> last_recv tr 0 ->
  received tr < L /\
  (exists tr1 p room d tk call e, tr = tr1 ++ TRecv p room 0 d :: tk ++ call /\ parser_call [] e call /\
     (r_time r = TZero /\ tk = [] \/
      r_time r = TUser /\ exists t0 tr0 now, tr1 = TTime t0 :: tr0 /\ tk = [TTime now] /\ RECV_TO cfg <= elapsed now (data_time t0 tr0)) /\
     st = match parse_error e with
          | Some x => x
          | None => match v_msg (view_of tr) with
                    | MsgNone => HTTPNoResponse
                    | MsgComplete => HTTPSuccess
                    | MsgBegun => if no_parse_body r then HTTPSuccess else HTTPPartialResponse
                    end
          end).
Proof.
  intros fuel cfg E P t r rh buf L req w st r' w' tr H HR (tr1&p&room&d&tr2&X&N).
  assert (RL : received tr < L).
  { destruct (C19_receive_stays_in_buffer fuel _ _ _ _ _ _ _ _ _ _ H) as (o&w2&trx&R1&R2&R3&_).
    destruct HR as (HR&HT). rewrite HR in R1. injection R1 as <- <-. rewrite HT in R2. apply app_inv_head in R2. subst trx.
    destruct (R3 _ _ _ _ _ _ X) as (_&->&Q&_). rewrite X, received_app. cbn [received].
    assert (Z0 : forall l, recvs l = 0 -> received l = 0).
    { assert (RP : forall l, 0 <= recvs l) by (induction l as [|[] l IH]; cbn [recvs]; lia).
      induction l as [|[] l IH]; cbn [recvs received]; auto. specialize (RP l). lia. }
    rewrite (Z0 _ N). lia. }
  split; [exact RL|].
  pose proof (C56_status_exact _ _ _ _ _ _ _ _ _ _ _ _ _ _ _ H HR) as RP.
  assert (KK : exists tk call e, tr2 = tk ++ call /\ parser_call [] e call /\
     (r_time r = TZero /\ tk = [] \/ r_time r = TUser /\ exists t0 tr0 now, tr1 = TTime t0 :: tr0 /\ tk = [TTime now] /\ RECV_TO cfg <= elapsed now (data_time t0 tr0))).
  { destruct HR as (HR&HT). destruct (r_time r) eqn:TM.
    - destruct H as (_&_&_&TN&_). congruence.
    - destruct (C22_no_clock_no_retry fuel _ _ _ _ _ _ _ _ _ _ H TM) as (o&w2&trx&R1&R2&R3).
      rewrite HR in R1. injection R1 as <- <-. rewrite HT in R2. apply app_inv_head in R2. subst trx.
      destruct (R3 _ _ _ _ _ X) as (_&e&Q). exists [], tr2, e. auto.
    - destruct (C22_gives_up_exactly_on_stall fuel _ _ _ _ _ _ _ _ _ _ H TM) as (o&w2&t0&trx&R1&R2&R3).
      rewrite HR in R1. injection R1 as <- <-. rewrite HT in R2. apply app_inv_head in R2. rewrite X in R2.
      destruct tr1 as [|y tr1]; [discriminate|]. injection R2 as -> R2.
      destruct (R3 _ _ _ _ _ (eq_sym R2)) as (now&tr3&->&Q1&Q2).
      destruct (Z.lt_ge_cases (elapsed now (data_time t0 tr1)) (RECV_TO cfg)) as [C|C].
      + exfalso. destruct (Q2 C) as [(_&?)|(p'&room'&n'&d'&tr4&->)]; [discriminate|]. cbn [recvs] in N.
        assert (RP0 : forall l, 0 <= recvs l) by (induction l as [|[] l IH]; cbn [recvs]; lia). specialize (RP0 tr4). lia.
      + destruct (Q1 C) as (_&e&Q). exists [TTime now], tr3, e. split; [auto|]. split; [auto|]. right. split; [auto|]. eauto 10. }
  destruct KK as (tk&call&e&->&PC&TK). exists tr1, p, room, d, tk, call, e. split; [auto|]. split; [auto|]. split; [auto|].
  assert (EW : ended_with tr e).
  { destruct PC as (q&evs&->&_). exists (tr1 ++ TRecv p room 0 d :: tk ++ TParse q [] :: evs). rewrite X, <- app_assoc. cbn [app]. rewrite <- app_assoc. cbn [app]. auto. }
  destruct RP as [(RF&_)|(e'&EW'&RP)]; [destruct (ended_not_failed _ _ EW RF)|].
  rewrite <- (ended_fun _ _ _ EW EW') in RP. replace (received tr =? L) with false in RP by lia. exact RP.
Qed.
Example C57_case : exists st r' w' tr, demo_receives [B "HTTP/1.1 200 O"] (resp0 200 0) 200 st r' w' tr /\ last_recv tr 0 /\ st = HTTPPartialResponse.
Proof.
  do 4 eexists. split; [demo|]. split; [|reflexivity].
  match goal with |- last_recv ?tr 0 => let t := eval vm_compute in tr in change (last_recv t 0) end.
  match goal with |- last_recv ?t 0 =>
    let rec f l acc := lazymatch l with
      | ?x :: ?l' => lazymatch l' with context [TRecv] => f l' constr:(x :: acc) | _ => lazymatch x with TRecv ?p ?room ?n ?d => exists (rev acc), p, room, d, l' end end end in f t (@nil tev) end.
  split; reflexivity.
Qed.
Print Assumptions C57_timeout_exact.

(** ** C58: which requests are taken for HEAD requests, exactly *)
Lemma begins_beqb req : begins req (B "HEAD") <-> beqb (slice req 0 4) (B "HEAD") = true.
Proof.
  rewrite beqb_eq. split.
  - intros (rest&->). reflexivity.
  - unfold slice. change (Z.to_nat 4) with 4%nat. change (Z.to_nat 0) with 0%nat. cbn [skipn]. intros H.
    exists (skipn 4 req). rewrite <- H. symmetry. apply firstn_skipn.
Qed.
Theorem C58_head_exact : forall fuel cfg E P t r rh buf L req w st r' w' tr,
  recv_setup cfg E P t r rh buf L req w -> no_parse_body r = false -> receives fuel cfg E P t r rh w st r' w' tr ->
  (begins req (B "HEAD") -> headers_answered tr CbNoBody /\ v_bstart (view_of tr) = None /\ (answered st tr -> r_body r' = None /\ r_bodyLen r' = 0)) /\
  (~ begins req (B "HEAD") -> headers_answered tr CbContinue).
Proof.
  intros fuel cfg E P t r rh buf L req w st r' w' tr H ND HR.
  pose proof (headers_answered_as _ _ _ _ _ _ _ _ _ _ _ _ _ _ _ H HR ND) as HA. split; intros X.
  - apply begins_beqb in X. rewrite X in HA. split; [auto|].
    destruct (receives_inv _ _ _ _ _ _ _ _ _ _ _ _ _ _ _ H HR) as (trl&o&s'&ph&G&TR&RR&NM&ST&HW&F1&I&_).
    destruct (i_nobody _ _ _ _ _ _ _ _ I (or_introl X)) as (Y&_). split; [auto|]. intros A.
    pose proof (C27_body _ _ _ _ _ _ _ _ _ _ _ _ _ _ _ H HR A ND) as C27. cbn zeta in C27. rewrite Y in C27. tauto.
  - rewrite begins_beqb in X. destruct (beqb (slice req 0 4) (B "HEAD")); [congruence|auto].
Qed.
(** Both kinds of request occur; HEADER is taken for HEAD. *)
Definition req_head : bytes := line (B "HEADER / HTTP/1.1") ++ line (B "Host: h") ++ [13; 10].
Definition w_head : world := mkw [req_head ++ repeat 0 100; repeat 0 200] 0 0 0 [].
Definition h_head : reqHeaders := mkrh (Some buf0) (zlen req_head + 100) (zlen req_head).
Definition resp_head : list bytes := [line (B "HTTP/1.1 200 OK") ++ line (B "Content-Length: 5") ++ [13; 10]].
Example C58_case :
  (exists r' w' tr, demo_receives resp_ok (resp0 200 0) 200 HTTPSuccess r' w' tr /\ ~ begins req1 (B "HEAD")) /\
  recv_setup cfg0 (env_of resp_head) refparser trr (resp0 200 0) h_head rbuf 200 req_head w_head /\ begins req_head (B "HEAD") /\
  (exists r' w' tr, receives 20 cfg0 (env_of resp_head) refparser trr (resp0 200 0) h_head w_head HTTPSuccess r' w' tr /\ r_bodyLen r' = 0 /\ r_clen r' = 5).
Proof.
  split; [do 3 eexists; split; [demo|rewrite begins_beqb; discriminate]|].
  split; [|split; [eexists; reflexivity|do 3 eexists; split; [demo|split; reflexivity]]].
  split; [reflexivity|]. split; [apply env_of_contract|]. split; [apply refparser_ok|]. split; [discriminate|].
  split; [reflexivity|]. split; [reflexivity|]. split; [vm_compute; repeat split; discriminate|]. split; [cbn [cfg0 SZ]; lia|].
  split; [|vm_compute; discriminate]. exists buf0, (zlen req_head + 100).
  split; [reflexivity|]. split; [reflexivity|]. split; [vm_compute; repeat split; discriminate|]. split; [vm_compute; repeat split; discriminate|reflexivity].
Qed.
Print Assumptions C58_head_exact.

(** A failed recv before any data: the structure is as it was. *)
Lemma net_untouched cfg E P T : forall fuel total last ps s tot s',
  recv_loop fuel cfg E P T total last ps s = Ret (HTTPNetworkError, tot, s') ->
  s_resp s' = s_resp s \/ exists a b p room n d, w_tr (s_w s') = w_tr (s_w s) ++ a ++ TRecv p room n d :: b /\ 0 < n.
Proof.
  assert (PN : forall e, processLlhttpError e <> HTTPNetworkError) by (intros []; discriminate).
  assert (PQ : forall ps s n st ps' s3, parseHttpResponse cfg P ps s n = Ret (st, ps', s3) -> st <> HTTPNetworkError).
  { intros ps s n st ps' s3 H. unfold parseHttpResponse in H. destruct (c_cur _); [|discriminate]. inv_bind H. inv_bind H.
    destruct a0 as [[[e pos] p1] s2]. inv_bind H. injection H as <- <- <-. auto. }
  induction fuel as [|fuel IH]; intros total last ps s tot s' H; cbn [recv_loop] in H; [discriminate|].
  destruct (r_buf (s_resp s)) as [bf|]; [|discriminate]. inv_bind H. destruct (e_recv _ _ _) as [n d]. inv_bind H.
  set (w1 := w_after_recv _ _ _ _ _ _) in H. destruct (n <? 0); [injection H as <- <-; left; reflexivity|].
  assert (W1 : w_tr w1 = w_tr (s_w s) ++ [TRecv a ((r_bufLen (s_resp s) - total) mod SZ cfg) n d]) by reflexivity.
  inv_bind H. destruct a1 as [t w2]. apply get_time_ext in E2. cbn [s_w] in E2. destruct E2 as (x2&E2&_).
  assert (RD : forall wz, ext w2 wz -> 0 < n -> exists a b p room n0 d0, w_tr wz = w_tr (s_w s) ++ a ++ TRecv p room n0 d0 :: b /\ 0 < n0).
  { intros wz (x3&E3&_) N. exists []. eexists. eexists. eexists. exists n. exists d. split; [|exact N]. rewrite E3, E2, W1, <- !app_assoc. cbn [app]. reflexivity. }
  destruct (Z.ltb_spec 0 n) as [N|N].
  - inv_bind H. destruct a1 as [[st p3] s3]. pose proof (parse_ext _ _ _ _ _ _ _ _ E3) as X. cbn [s_w] in X. right.
    destruct (_ && _ && _) in H.
    + match type of H with recv_loop ?f ?c ?e ?p ?t ?tt ?l ?ps ?s = _ => pose proof (recv_loop_ext c e p t f tt l ps s) as Y end.
      rewrite H in Y. apply RD; [|auto]. eapply ext_trans; eauto.
    + injection H as -> <- <-. apply RD; auto.
  - destruct (T <=? _).
    + inv_bind H. destruct a1 as [[st p3] s3]. apply PQ in E3. injection H as -> _ _. congruence.
    + destruct (_ && _); [|discriminate]. apply IH in H. cbn [s_resp s_w] in H. destruct H as [H|(u&v&p&room&n0&d0&H&N0)]; [left; auto|right].
      exists ([TRecv a ((r_bufLen (s_resp s) - total) mod SZ cfg) n d] ++ x2 ++ u), v, p, room, n0, d0. split; [|exact N0]. rewrite H, E2, W1. rewrite <- !app_assoc. reflexivity.
Qed.

(** ** C59: every field of the response structure *)
Theorem C59_response_exact : forall fuel cfg E P t r rh buf L req w st r' w' tr,
  recv_setup cfg E P t r rh buf L req w -> receives fuel cfg E P t r rh w st r' w' tr ->
  (answered st tr -> r' = response_after cfg buf r (view_of tr)) /\
  (~ answered st tr -> r' = r /\ st = HTTPNetworkError /\ received tr = 0).
Proof.
  intros fuel cfg E P t r rh buf L req w st r' w' tr H HR.
  destruct (receives_inv _ _ _ _ _ _ _ _ _ _ _ _ _ _ _ H HR) as (trl&o&s'&ph&G&TR&RR&NM&ST&HW&F1&I&F2&F3&F4). split.
  - intros A. destruct (outputs _ _ _ _ _ _ _ _ _ _ _ _ _ _ _ H HR A) as ((O1&O2&O3&O4&O5)&(S1&S2&S3&S4&S5)&D1&D2).
    assert (BB : (r_body r', r_bodyLen r') = match no_parse_body r, v_hend (view_of tr) with
        | true, Some (_, q) => (Some (poff buf q), zlen (v_stream (view_of tr)) - q)
        | _, _ => (option_map (poff buf) (v_bstart (view_of tr)), zlen (v_body (view_of tr))) end).
    { pose proof (answered_resp _ _ _ _ _ _ _ _ _ _ _ _ _ _ _ RR NM TR ST A F1) as CR. rewrite (reset_true _ CR) in I.
      assert (D : paused o \/ ~ paused o) by (unfold paused; destruct o as [| |e|e]; try (right; intros [X|X]; discriminate); destruct e; auto; right; intros [X|X]; discriminate).
      assert (DN : dnp (kof r buf L req (w_mem w)) = no_parse_body r) by (unfold dnp, kof; cbn [k_opt]; rewrite dnp_bit; auto). rewrite DN in F3, F4.
      destruct D as [D|D].
      - destruct (F3 D) as (N1&_&hl&HE&->). rewrite N1, HE. reflexivity.
      - destruct (F2 D) as (_&->). pose proof (i_body _ _ _ _ _ _ _ _ I) as IB. cbn [kof k_buf] in IB.
        assert (Q : (r_body (s_resp s'), r_bodyLen (s_resp s')) = (option_map (poff buf) (v_bstart (view_of tr)), zlen (v_body (view_of tr)))).
        { destruct (v_bstart (view_of tr)) as [bo|]; [destruct IB as (->&->&_); auto|destruct IB as (->&->&->); auto]. }
        rewrite Q. destruct (no_parse_body r); [rewrite (F4 eq_refl D)|]; auto. }
    unfold response_after. rewrite <- BB, <- O1, <- O2, <- O3, <- O4, <- O5, <- S1, <- S2, <- S3, <- S4, <- S5.
    assert (E1 : r_clen r' = match v_hend (view_of tr) with Some _ => clen_reported cfg (v_clen (view_of tr)) | None => r_clen r end)
      by (destruct (v_hend (view_of tr)); [destruct (D1 ltac:(discriminate)) as (_&->)|destruct (D2 eq_refl) as (_&->)]; auto).
    assert (E2 : r_hdone r' = match v_hend (view_of tr) with Some _ => 1 | None => r_hdone r end)
      by (destruct (v_hend (view_of tr)); [destruct (D1 ltac:(discriminate)) as (->&_)|destruct (D2 eq_refl) as (->&_)]; auto).
    rewrite <- E1, <- E2. destruct r'; reflexivity.
  - intros A. assert (S : st = HTTPNetworkError /\ received tr <= 0).
    { unfold answered in A. split; [|destruct (Z.lt_ge_cases 0 (received tr)); [exfalso; auto|lia]].
      destruct st; try reflexivity; exfalso; apply A; left; discriminate. }
    destruct S as (S1&S2). assert (RP : forall l, 0 <= received l) by (induction l as [|[] l IH]; cbn [received]; lia). specialize (RP tr).
    split; [|split; [auto|lia]].
    clear RR F1 I F2 F3 F4 ST HW. subst st. destruct HR as (HR&HT). unfold ReceiveAndParseHttpResponse in HR.
    destruct (t_recv t); [|discriminate]. cbn [assert_at bind] in HR. inv_bind HR. inv_bind HR. destruct a0 as [t1 w1].
    inv_bind HR. destruct a0 as [[st2 tot] s2]. inv_bind HR. destruct a0 as [st3 r2].
    assert (Q : st3 = HTTPNetworkError /\ r' = r2 /\ w' = s_w s2).
    { destruct (is_success st3) eqn:IS; [|injection HR as -> -> ->; auto]. inv_bind HR. injection HR as -> -> ->.
      unfold getFinalResponseStatus in E4. inv_bind E4. destruct (c_state (s_ctx s2)); try discriminate. destruct (_ =? 0) in E4; [destruct (_ =? _) in E4|]; discriminate. }
    destruct Q as (->&->&->).
    assert (Q : st2 = HTTPNetworkError /\ r2 = s_resp s2).
    { destruct st2; try discriminate; [injection E3 as <-; auto|]. destruct (negb _) in E3; [|discriminate].
      destruct (c_cur (s_ctx s2)), (r_buf (s_resp s2)); try discriminate; inv_bind E3. }
    destruct Q as (->&->). apply net_untouched in E2. cbn [s_resp s_w] in E2. destruct E2 as [E2|(u&v&p&room&n&d&E2&N)]; [auto|].
    exfalso. apply get_time_ext in E1. destruct E1 as (x&E1&_). rewrite HT, E1, <- app_assoc in E2. apply app_inv_head in E2. rewrite E2 in S2.
    rewrite !received_app in S2. cbn [received] in S2.
    assert (RQ : forall l, 0 <= received l) by (induction l as [|[] l IH]; cbn [received]; lia).
    pose proof (RQ x). pose proof (RQ u). pose proof (RQ v). lia.
Qed.
(** One call that is answered and one that fails before anything is received. *)
Definition env_dead : env := mkenv (fun _ k => k) (fun _ _ => (-1, [])) (fun n => 400 * Z.of_nat n).
Example C59_case :
  (exists r' w' tr, demo_receives resp_ok (resp_old 200 0) 200 HTTPSuccess r' w' tr /\ answered HTTPSuccess tr /\ r_bodyLen r' = 5) /\
  (recv_contract env_dead /\ exists w' tr, receives 20 cfg0 env_dead refparser trr (resp_old 200 0) h1 (wr 200) HTTPNetworkError (resp_old 200 0) w' tr /\ ~ answered HTTPNetworkError tr).
Proof.
  split; [do 3 eexists; split; [demo|split; [left; discriminate|reflexivity]]|].
  split; [intros i k H; split; [change (-1 <= k)|change (0 <= k)]; lia|]. do 2 eexists. split; [demo|]. intros [X|X]; [congruence|]. vm_compute in X. discriminate.
Qed.
Print Assumptions C59_response_exact.

