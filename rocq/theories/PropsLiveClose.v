(** PropsLiveClose.v — C43 and C90 for a response whose end is the end of the data: it comes in pieces of any size, then the transport is
    silent. *)
From Verif Require Import Base Lib ModelRequest ModelSend ModelResponse SpecRequest SpecSend SpecResponse SpecHttp SpecParser SpecExchange SpecTime SpecLive ProofsRequest ProofsDecimal ProofsRequest2 ProofsHistory ProofsSend ProofsSend2
  ProofsResponse ProofsResponse2 ProofsResponse3 ProofsResponse4 ProofsResponse5 ProofsFollow ProofsEnd RefRun HttpRun ProofsTwin ProofsExchange RefParser Demo DemoResponse PropsSend PropsResponse PropsResponse2 PropsHttp ProofsAny PropsAny PropsExchange PropsAnyExchange PropsMemory PropsTime PropsLive.

Definition gave (e : tev) : Prop := match e with TRecv _ _ n _ => 0 <= n | _ => True end.
Lemma norecv_gave tr : Forall (fun e => match e with TRecv _ _ _ _ => False | _ => True end) tr -> Forall gave tr.
Proof. apply Forall_impl. intros []; cbn; tauto. Qed.

Lemma rrun_fed_close cfg E k n0 nt0 ps : feeds E n0 ps -> silent_from E (n0 + length ps) -> prompt cfg E (k_tf k) nt0 ps -> recv_faithful E ->
  forall last nr nt v tr o v', rrun E (recv_timeout cfg (k_tf k)) k last nr nt v tr o v' ->
  forall i i0, nr = (n0 + i)%nat -> (k_tf k = TUser -> nt = (nt0 + 1 + i)%nat /\ last = u32 (e_time E (nt0 + i0)%nat)) -> (i0 <= i)%nat -> (forall m, (i0 <= m < i)%nat -> nth m ps [] = []) ->
  zlen (v_stream v) + zlen (concat (skipn i ps)) < k_L k ->
  prefix_of (data_received tr) (concat (skipn i ps)) /\ match o with OFail => False | OStall _ => data_received tr = concat (skipn i ps) | _ => True end.
Proof.
  intros FE SI PR F last nr nt v tr o v' H.
  induction H as [last nr nt v|last nr nt v n d H1 H2|last nr nt v n d b e blk tr o v' H1 H2 H3 H4 H5 H6 H7 H8 IH|last nr nt v n d b e blk H1 H2 H3 H4 H5 H6 H7|last nr nt v d e blk H1 H2 H3|last nr nt v d tr o v' H1 H2 H3 IH];
    intros i i0 NR NT I0 EM SZE;
    (destruct (Nat.lt_ge_cases i (length ps)) as [LI|LI];
     [rewrite (skipn_nth ps i LI) in *; cbn [concat] in *; rewrite zlen_app in *; set (p := nth i ps []) in *; pose proof (zlen_nonneg p) as Z1; pose proof (zlen_nonneg (concat (skipn (S i) ps))) as Z2
     |assert (SK : skipn i ps = []) by (apply skipn_all2; lia); rewrite SK in *; cbn [concat] in *]).
  all: try (pose proof (FE i (k_L k - zlen (v_stream v)) LI ltac:(fold p; lia)) as H0; fold p in H0; rewrite <- NR, H1 in H0; injection H0 as H0 H0').
  all: try (pose proof (SI nr (k_L k - zlen (v_stream v)) ltac:(lia)) as H0; rewrite H1 in H0; injection H0 as H0 H0'; try lia).
  - split; [eexists; reflexivity|exact Logic.I].
  - split; [exists []; reflexivity|exact Logic.I].
  - lia.
  - assert (b = p) by (rewrite <- H0'; apply H4; congruence). subst b d. rewrite (pblock_stream _ _ _ _ _ _ H6), zlen_app in IH.
    assert (X : data_received (TRecv (poff (k_buf k) (zlen (v_stream v))) (k_L k - zlen (v_stream v)) n p :: tick (k_tf k) (clk E (k_tf k) nt) ++ blk ++ tr) = p ++ data_received tr).
    { cbn [data_received]. replace (0 <? n) with true by lia. rewrite data_received_app, data_received_norecv by apply tick_norecv.
      rewrite data_received_app, (data_received_norecv blk) by (eapply blk_norecv; eauto). reflexivity. }
    rewrite X. destruct (IH (S i) (S i)) as ((x&X1)&X2); [lia| |lia|intros; lia|lia|].
    + intros TU. destruct (NT TU) as (A&B). rewrite TU. cbn [clk clk_next]. split; [lia|]. do 2 f_equal. lia.
    + split; [exists x; rewrite X1, app_assoc; reflexivity|]. destruct o; auto. rewrite X2. reflexivity.
  - subst d. split; [|exact Logic.I].
    cbn [data_received]. replace (0 <? n) with true by lia. rewrite data_received_app, data_received_norecv by apply tick_norecv. rewrite (data_received_norecv blk) by (eapply blk_norecv; eauto). rewrite app_nil_r. eexists; reflexivity.
  - exfalso. assert (PE : p = []) by (apply zlen_zero; lia).
    destruct (PR i0 i) as (TU&LT); [lia| |].
    { intros m Hm. destruct (Nat.eq_dec m i) as [->|]; [exact PE|apply EM; lia]. }
    destruct (NT TU) as (A&B). rewrite TU in H2. cbn [clk recv_timeout] in H2. rewrite A, B, u32_sub in H2. rewrite elapsed_u32 in LT. lia.
  - assert (DR : data_received (TRecv (poff (k_buf k) (zlen (v_stream v))) (k_L k - zlen (v_stream v)) 0 d :: tick (k_tf k) (clk E (k_tf k) nt) ++ blk) = []).
    { cbn [data_received]. change (0 <? 0) with false. rewrite data_received_app, data_received_norecv by apply tick_norecv. apply data_received_norecv. eapply blk_norecv; eauto. }
    rewrite DR. split; [exists []; reflexivity|reflexivity].
  - assert (PE : p = []) by (apply zlen_zero; lia). rewrite PE in *. cbn [app] in *. change (zlen (@nil Z)) with 0 in *. subst d.
    cbn [data_received]. change (0 <? 0) with false. rewrite data_received_app, data_received_norecv by apply tick_norecv.
    apply (IH (S i) i0); [lia| |lia| |lia].
    + intros TU. destruct (NT TU) as (A&B). rewrite TU. cbn [clk_next]. split; [lia|auto].
    + intros m Hm. destruct (Nat.eq_dec m i) as [->|]; [exact PE|apply EM; lia].
  - cbn [data_received]. change (0 <? 0) with false. rewrite data_received_app, data_received_norecv by apply tick_norecv.
    assert (SK2 : skipn (S i) ps = []) by (apply skipn_all2; lia).
    assert (Y : prefix_of (data_received tr) (concat (skipn (S i) ps)) /\ match o with OFail => False | OStall _ => data_received tr = concat (skipn (S i) ps) | _ => True end).
    { apply (IH (S i) i0); [lia| |lia| |].
      + intros TU. destruct (NT TU) as (A&B). rewrite TU. cbn [clk_next]. split; [lia|auto].
      + intros m Hm. destruct (Nat.eq_dec m i) as [->|]; [apply nth_overflow; lia|apply EM; lia].
      + rewrite SK2. cbn [concat]. exact SZE. }
    rewrite SK2 in Y. exact Y.
Qed.

(** A call that returns has read the whole response and given it, whatever the parser that reads HTTP. *)
Theorem C43_any_parser_until_close_every_fragmentation : forall fuel cfg E P t r rh buf L req w st r' w' tr resp d ps,
  reads_http P -> recv_setup cfg E P t r rh buf L req w -> recv_faithful E -> no_parse_body r = false ->
  receives fuel cfg E P t r rh w st r' w' tr ->
  http_ok (beqb (slice req 0 4) (B "HEAD")) resp -> p_body resp = ToClose d -> zlen (http_bytes resp) < L ->
  concat ps = http_bytes resp -> feeds E (w_nr w) ps -> prompt cfg E (r_time r) (w_nt w) ps -> silent_from E (w_nr w + length ps) ->
  st = HTTPSuccess /\ data_received tr = http_bytes resp /\ gives cfg buf L resp r r' w' tr.
Proof.
  intros fuel cfg E P t r rh buf L req w st r' w' tr resp d ps RH HS F ND HR HO HB LE CC FE PR SI.
  pose proof (C43_any_parser_until_close fuel _ _ _ _ _ _ _ _ _ _ _ _ _ _ _ _ RH HS F ND HR HO HB) as CL.
  set (nb := beqb _ _) in *.
  pose proof (receives_follow fuel _ _ _ _ _ _ _ _ _ _ _ _ _ _ HS ND HR) as FO. fold nb in FO.
  destruct (receives_inv _ _ _ _ _ _ _ _ _ _ _ _ _ _ _ HS HR) as (trl&o&s'&ph&G&TR&RR&NM&ST&_).
  set (k := kof r buf L req (w_mem w)) in *. set (t0 := clk E (r_time r) (w_nt w)) in *.
  assert (DR : data_received tr = data_received trl) by (rewrite TR, data_received_app, (data_received_norecv (tick _ _)) by apply tick_norecv; reflexivity).
  destruct (rrun_fed_close cfg E k (w_nr w) (w_nt w) ps FE SI PR F _ _ _ _ _ _ _ RR 0%nat 0%nat) as (X1&X2).
  - lia.
  - intros TU. unfold t0. change (k_tf k) with (r_time r) in TU. rewrite TU. cbn [clk clk_next]. split; [lia|]. do 2 f_equal. lia.
  - lia.
  - intros; lia.
  - cbn [view0 v_stream skipn]. change (zlen (@nil Z)) with 0. rewrite CC. cbn [k kof k_L]. lia.
  - cbn [skipn] in X1, X2. rewrite CC in X1, X2. rewrite <- DR in X1, X2.
    assert (PT : pst nb P (tick (r_time r) t0) = p_init P) by apply (pst_tick nb P []).
    assert (OC : aoutcome P nb (k_L k) o (view_of tr)).
    { apply (rrun_any P nb (http_bytes resp) (goes_resp P nb resp RH HO) _ _ _ _ _ _ _ _ _ _ F RR (tick (r_time r) t0) []).
      + rewrite <- TR. exact FO.
      + apply (view_tick _ _ view0).
      + rewrite PT. constructor.
      + reflexivity.
      + cbn [view0 v_stream app]. rewrite <- DR. exact X1. }
    pose proof (rrun_data _ _ _ _ _ _ _ _ _ _ F RR) as RD. cbn [view0 v_stream app] in RD. rewrite <- DR in RD.
    destruct o as [| |e|e]; [congruence|contradiction| |].
    + exfalso. destruct OC as (->&qs&s&FD&DD&NE). pose proof (fed_stream _ _ _ _ _ FD) as CP. rewrite RD in CP, DD, NE.
      destruct X1 as (x&X1).
      assert (zlen (data_received tr) <= zlen (http_bytes resp)) by (rewrite X1, zlen_app; pose proof (zlen_nonneg x); lia).
      destruct DD as [DD|DD]; [|cbn [k kof k_L] in DD; lia]. unfold done_msg in DD.
      destruct x as [|c x].
      * rewrite app_nil_r in X1. destruct (rd_whole P RH nb resp qs s _ HO FD ltac:(congruence)) as (_&W). rewrite HB in W. rewrite W in DD. discriminate.
      * rewrite (part_msg P nb resp RH HO qs s _ (c :: x) FD ltac:(rewrite <- CP; exact X1) ltac:(discriminate)) in DD. destruct (concat qs); discriminate.
    + assert (WH : data_received tr = http_bytes resp) by exact X2.
      destruct CL as [(A1&A2)|[(A1&A2)|[(A1&A2&A3)|(A1&A2&d'&A3&A4)]]].
      * exists []. rewrite app_nil_r. auto.
      * exfalso. destruct OC as (qs&s&v0&s2&FD&DN&R). rewrite ST in A2. unfold final_status in A2. cbn [errno_of] in A2. 
        destruct (rd_end P RH nb resp qs s v0 _ e s2 HO FD R) as (X&_). destruct (X d HB) as (PE&VM&_).
        { pose proof (fed_stream _ _ _ _ _ FD) as CP. rewrite <- (end_stream _ _ _ _ _ _ _ R) in CP. rewrite <- CP, RD, WH. reflexivity. }
        rewrite PE, VM in A2. discriminate.
      * rewrite WH in A1. lia.
      * exfalso. rewrite WH in A2. unfold http_bytes in A2. rewrite zlen_app in A2. match type of A2 with _ + zlen ?b < _ => pose proof (zlen_nonneg b) end. lia.
      * split; [auto|]. split; [auto|]. rewrite WH in A3. unfold http_bytes in A3. apply app_inv_head in A3. rewrite HB in A3. cbn [body_bytes] in A3.
        replace (cut resp d') with resp in A4; auto. destruct resp; cbn in *; unfold cut; cbn; congruence.
Qed.
Print Assumptions C43_any_parser_until_close_every_fragmentation.

(** C90 for such a response: the slow network gives the response completely and then falls silent; the call gives up waiting and returns
    HTTPSuccess with the whole body.  (The clock must advance, or it would wait for ever.) *)
Theorem C90_slow_network_until_close : forall fuel cfg E P t h hbuf n req body len bd r rbuf L w flags block resp d ps D z,
  reads_http P -> send_setup cfg E P t h hbuf n req body len bd r rbuf L w -> config_ok cfg -> recv_faithful E -> no_parse_body r = false ->
  r_time r = TUser -> paced E D -> advancing E (RECV_TO cfg) -> live_send E z -> live_pieces ps z ->
  Z.of_nat z * D < SEND_TO cfg <= 2 ^ 32 -> Z.of_nat z * D < RECV_TO cfg <= 2 ^ 32 ->
  wire_headers flags len req block -> zlen block <= n ->
  http_ok (beqb (slice req 0 4) (B "HEAD")) resp -> p_body resp = ToClose d -> zlen (http_bytes resp) < L ->
  concat ps = http_bytes resp -> feeds E (w_nr w) ps -> silent_from E (w_nr w + length ps) ->
  (n + len) * (Z.of_nat z + 1) + 1 <= Z.of_nat fuel -> L * (RECV_TO cfg + 1) + RECV_TO cfg + 1 < Z.of_nat fuel ->
  exists h' r' w' tr, exchanges fuel cfg E P t h body len r flags w HTTPSuccess h' r' w' tr /\
    accepted tr = block ++ bd /\ data_received tr = http_bytes resp /\
    sends tr <= (n + len) * (Z.of_nat z + 1) /\ gives cfg rbuf L resp r r' w' tr.
Proof.
  intros fuel cfg E P t h hbuf n req body len bd r rbuf L w flags block resp d ps D z RH S CO RF ND TU PD AD LV LP HT1 HT2 WH C OK BD LE CC FE SI F1 F2.
  destruct (Send_live _ _ _ _ _ _ _ _ _ _ _ _ _ _ _ _ flags block D z S TU PD LV HT1 F1 WH C) as (sent&h1&w1&SN&TR&NR&AC&NS&RS&ES). pose proof S as (_&_&_&_&_&_&_&LR&_).
  rewrite <- (wire_method _ _ _ _ WH LR) in OK. rewrite <- NR in FE, SI.
  assert (ND' : no_parse_body (with_clock r) = false) by (unfold no_parse_body; rewrite (proj2 (with_clock_same r)); auto).
  assert (TE : r_time (with_clock r) = TUser) by (rewrite with_clock_eff; unfold eff_time; rewrite TU; exact TU).
  assert (PR : forall nt, prompt cfg E (r_time (with_clock r)) nt ps) by (intros nt; rewrite TE; eapply live_prompt; eauto).
  destruct (C44_receive_terminates fuel _ _ _ _ _ _ _ _ _ _ RS CO TE AD F2) as (st&r'&w'&tr&HR&_).
  destruct (C43_any_parser_until_close_every_fragmentation fuel _ _ _ _ _ _ _ _ _ _ _ _ _ _ resp d ps RH RS RF ND' HR OK BD LE CC FE (PR _) SI) as (->&R3&R4).
  destruct HR as (R1&R2).
  unfold exchanges. rewrite ES, R1. cbn [bind]. exists h1, r', w', (sent ++ tr). split; [split; [auto|rewrite R2, TR, app_assoc; auto]|].
  destruct (Receive_ext _ _ _ _ _ _ _ _ (Some (HTTPSuccess, Some r')) w' ltac:(rewrite R1; reflexivity)) as (tq&Q1&Q2). rewrite Q1 in R2. apply app_inv_head in R2. subst tq.
  split; [rewrite accepted_only by auto; auto|]. destruct (send_only_data sent tr SN) as (D1&_&D3). rewrite D1. split; [auto|].
  split; [rewrite sends_app; pose proof (no_send_sends _ Q2); lia|]. apply gives_clock, gives_pre; auto.
Qed.
Print Assumptions C90_slow_network_until_close.
Example C90_until_close_case : forall ps, live_pieces ps 9 -> concat ps = http_bytes ex_close ->
  exists fuel h' r' w' tr, exchanges fuel cfg0 (env_slow ps) refparser trr hx (Some (mkptr 1 0)) 4 rshared 0 wshared HTTPSuccess h' r' w' tr /\
    data_received tr = http_bytes ex_close /\ gives cfg0 buf0 300 ex_close rshared r' w' tr.
Proof.
  intros ps LP CC. destruct (env_slow_ok ps) as (SC&PD&LV).
  assert (WH : wire_headers 0 4 req1 (B "GET / HTTP/1.1" ++ CRLF ++ B "Host: h" ++ CRLF ++ B "Content-Length: 4" ++ CRLF ++ CRLF)).
  { cbn [wire_headers]. exists (B "GET / HTTP/1.1" ++ CRLF ++ B "Host: h" ++ CRLF), (B "4"). split; [left; exists (B "GET / HTTP/1.1" ++ CRLF ++ B "Host: h"); split; reflexivity|].
    split; [|reflexivity]. cbn. split; [discriminate|]. split; [repeat constructor; discriminate|]. split; [discriminate|reflexivity]. }
  assert (AD : advancing (env_slow ps) (RECV_TO cfg0)) by (intros q; cbn [env_slow e_time cfg0 RECV_TO]; lia).
  assert (SI : silent_from (env_slow ps) (w_nr wshared + length ps)).
  { intros i room HI. cbn [env_slow e_recv]. rewrite nth_overflow by (cbn [wshared w_nr] in HI; lia). unfold give, slice. cbn [skipn]. rewrite skipn_nil, firstn_nil. reflexivity. }
  exists (Z.to_nat (3041 + 300 * (RECV_TO cfg0 + 1) + RECV_TO cfg0 + 2)).
  destruct (C90_slow_network_until_close (Z.to_nat (3041 + 300 * (RECV_TO cfg0 + 1) + RECV_TO cfg0 + 2)) cfg0 (env_slow ps) refparser trr hx buf0 300 req1 (Some (mkptr 1 0)) 4 (B "data") rshared buf0 300 wshared 0 _ ex_close (B "gone") ps 100 9
      refparser_reads (setup_slow ps) cfg0_ok (env_of_faithful ps) eq_refl eq_refl PD AD LV LP ltac:(cbn [cfg0 SEND_TO]; lia) ltac:(cbn [cfg0 RECV_TO]; lia) WH)
    as (h'&r'&w'&tr&X1&X2&X3&X4&X5); [vm_compute; discriminate|exact ex_close_ok|reflexivity|vm_compute; reflexivity|exact CC|exact (env_of_feeds ps)|exact SI|cbn [cfg0 RECV_TO]; lia|cbn [cfg0 RECV_TO]; lia|].
  exists h', r', w', tr. split; [exact X1|]. split; auto.
Qed.
