(** PropsWhole.v — C86: the answer HTTPClient_Send returns, exactly.  When HTTPClient_Send has asked the transport for an answer, what
    C56, C58, C59 and C67-C75 say of HTTPClient_ReceiveAndParseHttpResponse holds of it. *)
From Verif Require Import Base Lib ModelRequest ModelSend ModelResponse ModelReadHeader RefParser SpecReadHeader SpecParser ProofsReadHeader PropsReadHeader SpecRequest SpecSend SpecResponse SpecHttp SpecCut SpecRaw SpecBuffer SpecExact2 SpecExchange SpecPlaces SpecSeries
  ProofsRequest ProofsSend ProofsSend2 ProofsResponse ProofsResponse2 ProofsResponse3 ProofsResponse4 ProofsResponse5 ProofsAny PropsResponse PropsResponse2 PropsSession SpecSections SpecBlank ProofsExchange PropsExchange PropsExact2 PropsMemory PropsPieces PropsCut PropsRaw PropsPlaces PropsBlank PropsSections PropsSeries PropsBuffer Demo DemoResponse PropsHttp PropsAny.

(** The part of a call that received. *)
Lemma whole fuel cfg E P t h hbuf n req body len bd r rbuf L w flags st h' r' w' tr :
  send_setup cfg E P t h hbuf n req body len bd r rbuf L w -> exchanges fuel cfg E P t h body len r flags w st h' r' w' tr -> 0 < recvs tr ->
  exists block sent rtr w1, tr = sent ++ rtr /\ send_only sent /\ slice block 0 4 = slice req 0 4 /\
    recv_setup cfg E P t (with_clock r) h' rbuf L block w1 /\ receives fuel cfg E P t (with_clock r) h' w1 st r' w' rtr.
Proof.
  intros S X N. destruct (C50_send_then_receive _ _ _ _ _ _ _ _ _ _ _ _ _ _ _ _ _ _ _ _ _ _ S X) as (block&WH&D). pose proof S as (_&_&_&_&_&_&_&LR&_).
  destruct D as [(->&_)|[(SN&_)|(sent&rtr&w1&->&BN&SN&NS&AC&RS&RV)]]; [cbn in N; lia|rewrite send_only_recvs in N by auto; lia|].
  exists block, sent, rtr, w1. split; [auto|]. split; [auto|]. split; [eapply wire_method; eauto|]. auto.
Qed.
Lemma clock_flags r : no_parse_body (with_clock r) = no_parse_body r /\ r_cb (with_clock r) = r_cb r /\ r_hdone (with_clock r) = r_hdone r /\ r_clen (with_clock r) = r_clen r.
Proof. unfold no_parse_body, with_clock. destruct (r_time r); auto. Qed.
Lemma last_behind sent tr n : send_only sent -> last_recv (sent ++ tr) n <-> last_recv tr n.
Proof.
  intros SN. split; [|apply last_recv_pre]. intros (a&p&room&d&b&Q&N).
  induction SN as [|x sent X F IH] in a, Q |- *; [exists a, p, room, d, b; auto|]. destruct a as [|y a]; cbn [app] in Q.
  - injection Q as -> _. destruct X.
  - injection Q as -> Q. eapply IH. exact Q.
Qed.
Lemma ended_behind sent tr e : ended_with tr e -> ended_with (sent ++ tr) e.
Proof. intros (a&->). exists (sent ++ a). rewrite app_assoc. reflexivity. Qed.

Theorem C86_status : forall fuel cfg E P t h hbuf n req body len bd r rbuf L w flags st h' r' w' tr,
  send_setup cfg E P t h hbuf n req body len bd r rbuf L w -> exchanges fuel cfg E P t h body len r flags w st h' r' w' tr -> 0 < recvs tr ->
  reports (no_parse_body r) L tr st.
Proof.
  intros fuel cfg E P t h hbuf n req body len bd r rbuf L w flags st h' r' w' tr S X N.
  destruct (whole _ _ _ _ _ _ _ _ _ _ _ _ _ _ _ _ _ _ _ _ _ _ S X N) as (block&sent&rtr&w1&->&SN&HD&RS&RV). destruct (view_after sent rtr SN) as (V&_).
  pose proof (C56_status_exact _ _ _ _ _ _ _ _ _ _ _ _ _ _ _ RS RV) as K. rewrite (proj1 (clock_flags r)) in K. unfold reports in *. rewrite V, received_behind, failed_behind by auto.
  destruct K as [K|(e&Q&K)]; [left; auto|right; exists e; split; [apply ended_behind; auto|auto]].
Qed.
Print Assumptions C86_status.

Theorem C86_structure : forall fuel cfg E P t h hbuf n req body len bd r rbuf L w flags st h' r' w' tr,
  send_setup cfg E P t h hbuf n req body len bd r rbuf L w -> exchanges fuel cfg E P t h body len r flags w st h' r' w' tr ->
  (0 < recvs tr -> answered st tr -> r' = response_after cfg rbuf (with_clock r) (view_of tr)) /\
  (recvs tr = 0 \/ ~ answered st tr -> r' = with_clock r).
Proof.
  intros fuel cfg E P t h hbuf n req body len bd r rbuf L w flags st h' r' w' tr S X.
  destruct (C50_send_then_receive _ _ _ _ _ _ _ _ _ _ _ _ _ _ _ _ _ _ _ _ _ _ S X) as (block&WH&D).
  destruct D as [(->&_&_&_&->&_)|[(SN&_&_&_&_&->)|(sent&rtr&w1&->&BN&SN&NS&AC&RS&RV)]]; [split; [cbn; lia|auto]|rewrite send_only_recvs by auto; split; [lia|auto]|].
  destruct (view_after sent rtr SN) as (V&_). destruct (send_only_data sent rtr SN) as (_&_&D3). rewrite V, D3. unfold answered. rewrite received_behind by auto.
  destruct (C59_response_exact _ _ _ _ _ _ _ _ _ _ _ _ _ _ _ RS RV) as (A&B). split; [auto|]. intros [Q|Q]; [|apply B; auto].
  assert (NA : ~ answered st rtr \/ answered st rtr) by (unfold answered; destruct (Z_lt_le_dec 0 (received rtr)) as [Q1|Q1]; [right; right; auto|]; destruct st; try (right; left; discriminate); left; intros [Z|Z]; [congruence|lia]).
  destruct NA as [NA|NA]; [apply B; auto|]. exfalso.
  destruct (receives_inv _ _ _ _ _ _ _ _ _ _ _ _ _ _ _ RS RV) as (trl&o&s'&ph&G&TR&RR&NM&_).
  rewrite TR, recvs_app, recvs_tick in Q. destruct RR; try contradiction; cbn [recvs] in Q; rewrite ?recvs_app in Q;
    repeat match goal with Q : context [recvs ?x] |- _ => lazymatch goal with K : 0 <= recvs x |- _ => fail | _ => pose proof (recvs_nonneg x) end end; lia.
Qed.
Print Assumptions C86_structure.

Theorem C86_head : forall fuel cfg E P t h hbuf n req body len bd r rbuf L w flags st h' r' w' tr,
  send_setup cfg E P t h hbuf n req body len bd r rbuf L w -> no_parse_body r = false -> exchanges fuel cfg E P t h body len r flags w st h' r' w' tr -> 0 < recvs tr ->
  (begins req (B "HEAD") -> headers_answered tr CbNoBody /\ v_bstart (view_of tr) = None /\ (answered st tr -> r_body r' = None /\ r_bodyLen r' = 0)) /\
  (~ begins req (B "HEAD") -> headers_answered tr CbContinue).
Proof.
  intros fuel cfg E P t h hbuf n req body len bd r rbuf L w flags st h' r' w' tr S NP X N.
  destruct (whole _ _ _ _ _ _ _ _ _ _ _ _ _ _ _ _ _ _ _ _ _ _ S X N) as (block&sent&rtr&w1&->&SN&HD&RS&RV). destruct (view_after sent rtr SN) as (V&_). destruct (clock_flags r) as (CF&_).
  pose proof (C58_head_exact _ _ _ _ _ _ _ _ _ _ _ _ _ _ _ RS ltac:(congruence) RV) as (K1&K2).
  assert (HA : forall c, headers_answered rtr c -> headers_answered (sent ++ rtr) c).
  { intros c. clear - SN. intros HA. induction SN as [|x sent X F IH]; [exact HA|]. intros tr1 p clen close ka tr2 Q. destruct tr1 as [|y tr1]; cbn [app] in Q; [injection Q as -> _; destruct X|].
    injection Q as _ Q. exact (IH _ _ _ _ _ _ Q). }
  rewrite begins_beqb, HD, <- begins_beqb in K1, K2. unfold answered in *. rewrite V, received_behind by auto.
  split; [intros Q; destruct (K1 Q) as (A&B'&C); auto|auto].
Qed.
Print Assumptions C86_head.

Theorem C86_callbacks : forall fuel cfg E P t h hbuf n req body len bd r rbuf L w flags st h' r' w' tr,
  send_setup cfg E P t h hbuf n req body len bd r rbuf L w -> recv_faithful E -> exchanges fuel cfg E P t h body len r flags w st h' r' w' tr -> r_cb r = true ->
  delivered tr = map (text_at (data_received tr)) (v_locs (view_of tr)) /\ map loc_sizes (v_locs (view_of tr)) = map sizes (v_headers (view_of tr)).
Proof.
  intros fuel cfg E P t h hbuf n req body len bd r rbuf L w flags st h' r' w' tr S RF X CB.
  destruct (C50_send_then_receive _ _ _ _ _ _ _ _ _ _ _ _ _ _ _ _ _ _ _ _ _ _ S X) as (block&WH&D).
  destruct D as [(->&_)|[(SN&_)|(sent&rtr&w1&->&BN&SN&NS&AC&RS&RV)]]; [split; reflexivity| |].
  - destruct (view_after tr [] SN) as (V&_). rewrite app_nil_r in V. destruct (send_only_data tr [] SN) as (_&D&_). rewrite app_nil_r in D. rewrite V, D. split; reflexivity.
  - destruct (view_after sent rtr SN) as (V&_). destruct (send_only_data sent rtr SN) as (D1&D2&_). rewrite V, D1, D2.
    destruct (C68_callbacks_exact _ _ _ _ _ _ _ _ _ _ _ _ _ _ _ RS RF RV) as (A&B&_); [rewrite <- CB; apply clock_flags|]. auto.
Qed.
Print Assumptions C86_callbacks.

Theorem C86_raw : forall fuel cfg E P t h hbuf n req body len bd r rbuf L w flags st h' r' w' tr resp,
  reads_heads P -> send_setup cfg E P t h hbuf n req body len bd r rbuf L w -> recv_faithful E -> no_parse_body r = true ->
  exchanges fuel cfg E P t h body len r flags w st h' r' w' tr -> 0 < recvs tr -> head_ok resp ->
  ((exists rest, data_received tr = head_bytes resp ++ rest) \/ (exists rest, head_bytes resp = data_received tr ++ rest)) ->
  (exists rest k, data_received tr = head_bytes resp ++ rest /\ last_recv tr k /\ zlen rest < k /\ st = HTTPSuccess /\ gives_raw cfg rbuf L resp rest r r' w' tr) \/
  (zlen (data_received tr) < zlen (head_bytes resp) /\
   (recv_failed tr /\ st = HTTPNetworkError \/
    (last_recv tr 0 \/ zlen (data_received tr) = L) /\ st = (match data_received tr with [] => HTTPNoResponse | _ => HTTPSuccess end) /\ r_hdone r' = r_hdone r)).
Proof.
  intros fuel cfg E P t h hbuf n req body len bd r rbuf L w flags st h' r' w' tr resp RH S RF NP X N HO DR.
  destruct (whole _ _ _ _ _ _ _ _ _ _ _ _ _ _ _ _ _ _ _ _ _ _ S X N) as (block&sent&rtr&w1&->&SN&HD&RS&RV). destruct (send_only_data sent rtr SN) as (D1&D2&_). destruct (clock_flags r) as (CF&CB&CD&_).
  rewrite D1, failed_behind, last_behind in * by auto.
  destruct (C69_raw_response _ _ _ _ _ _ _ _ _ _ _ _ _ _ _ _ RH RS RF ltac:(congruence) RV HO DR) as [(rest&k&Q1&Q2&Q3&Q4&Q5)|Q].
  - left. exists rest, k. rewrite last_behind by auto. split; [auto|]. split; [auto|]. split; [auto|]. split; [auto|]. destruct Q5. constructor; auto. rewrite D2, <- CB. auto.
  - right. rewrite CD in Q. exact Q.
Qed.
Print Assumptions C86_raw.

Theorem C86_no_response : forall fuel cfg E P t h hbuf n req body len bd r rbuf L w flags st h' r' w' tr,
  skips_line_ends P -> send_setup cfg E P t h hbuf n req body len bd r rbuf L w -> recv_faithful E -> no_parse_body r = false ->
  exchanges fuel cfg E P t h body len r flags w st h' r' w' tr ->
  (st = HTTPNoResponse <-> 0 < recvs tr /\ ~ recv_failed tr /\ only_line_ends (data_received tr)).
Proof.
  intros fuel cfg E P t h hbuf n req body len bd r rbuf L w flags st h' r' w' tr SL S RF NP X.
  destruct (Z_lt_le_dec 0 (recvs tr)) as [N|N].
  - destruct (whole _ _ _ _ _ _ _ _ _ _ _ _ _ _ _ _ _ _ _ _ _ _ S X N) as (block&sent&rtr&w1&->&SN&HD&RS&RV). destruct (send_only_data sent rtr SN) as (D1&_). destruct (clock_flags r) as (CF&_).
    rewrite (C71_no_response_exact _ _ _ _ _ _ _ _ _ _ _ _ _ _ _ SL RS RF ltac:(congruence) RV), D1, failed_behind by auto. tauto.
  - split; [|lia]. intros ->. destruct (C50_send_then_receive _ _ _ _ _ _ _ _ _ _ _ _ _ _ _ _ _ _ _ _ _ _ S X) as (block&WH&D).
    destruct D as [(_&D&_)|[(_&D&_)|(sent&rtr&w1&->&BN&SN&NS&AC&RS&RV)]]; try discriminate. destruct (send_only_data sent rtr SN) as (_&_&D3). rewrite D3 in N. exfalso.
    destruct (receives_inv _ _ _ _ _ _ _ _ _ _ _ _ _ _ _ RS RV) as (trl&o&s'&ph&G&TR&RR&NM&_).
    rewrite TR, recvs_app, recvs_tick in N. destruct RR; try contradiction; cbn [recvs] in N; rewrite ?recvs_app in N;
    repeat match goal with N : context [recvs ?x] |- _ => lazymatch goal with K : 0 <= recvs x |- _ => fail | _ => pose proof (recvs_nonneg x) end end; lia.
Qed.
Print Assumptions C86_no_response.

Theorem C86_read_header : forall fuel cfg E P t h hbuf n req body len bd r rbuf L w flags h' r' w' tr resp field k name pre hd post,
  reads_http P -> reads_sections P -> send_setup cfg E P t h hbuf n req body len bd r rbuf L w -> recv_faithful E -> no_parse_body r = false ->
  exchanges fuel cfg E P t h body len r flags w HTTPSuccess h' r' w' tr ->
  http_ok (beqb (slice req 0 4) (B "HEAD")) resp -> data_received tr = http_bytes resp ->
  src_bytes (w_mem w') field k = Ret name -> 0 < k ->
  p_headers resp = pre ++ hd :: post -> same_name name (h_name hd) -> Forall (fun x => ~ same_name name (h_name x)) pre ->
  exists vo, ReadHeader P (w_mem w') (Some r') field k true true = Ret (HTTPSuccess, Some (value_at rbuf vo (zlen (h_value hd)))) /\
    bytes_at (w_mem w') (poff rbuf vo) (zlen (h_value hd)) = h_value hd /\
    (r_cb r = true -> exists rest, delivered tr = map (fun x => (h_name x, h_value x, code_of resp)) pre ++ (h_name hd, h_value hd, code_of resp) :: rest).
Proof.
  intros fuel cfg E P t h hbuf n req body len bd r rbuf L w flags h' r' w' tr resp field k name pre hd post RH RX S RF NP X HO DR SB K0 PH SM NB.
  destruct (C50_send_then_receive _ _ _ _ _ _ _ _ _ _ _ _ _ _ _ _ _ _ _ _ _ _ S X) as (block&WH&D). pose proof S as (_&_&_&_&_&_&_&LR&_).
  destruct D as [(_&D&_)|[(_&D&_)|(sent&rtr&w1&->&BN&SN&NS&AC&RS&RV)]]; try discriminate. destruct (send_only_data sent rtr SN) as (D1&D2&_). destruct (clock_flags r) as (CF&CB&_).
  rewrite D1 in DR. rewrite <- (wire_method _ _ _ _ WH LR) in HO.
  destruct (C72_after_receive _ _ _ _ _ _ _ _ _ _ _ _ _ _ _ _ _ _ _ _ _ RH RX RS RF ltac:(congruence) RV HO DR SB K0 PH SM NB) as (vo&A1&A2&A3).
  exists vo. rewrite D2, <- CB. auto.
Qed.
Print Assumptions C86_read_header.

Theorem C86_series : forall fuel cfg E P t h hbuf n req body len bd r rbuf L w flags st h' r' w' tr ms,
  reads_series P -> send_setup cfg E P t h hbuf n req body len bd r rbuf L w -> recv_faithful E -> no_parse_body r = false ->
  exchanges fuel cfg E P t h body len r flags w st h' r' w' tr -> 0 < recvs tr ->
  series_ok (beqb (slice req 0 4) (B "HEAD")) ms -> (exists rest, series_bytes ms = data_received tr ++ rest) ->
  (exists ms1 m ms2, ms = ms1 ++ m :: ms2 /\ data_received tr = series_bytes (ms1 ++ [m]) /\
     (st = HTTPSuccess /\ gives_series cfg rbuf L ms1 m r r' w' tr \/ rejected st /\ Exists may_close ms1)) \/
  (exists ms1 m ms2 x y, ms = ms1 ++ m :: ms2 /\ data_received tr = series_bytes ms1 ++ x /\ http_bytes m = x ++ y /\ x <> [] /\ y <> [] /\
     (recv_failed tr /\ st = HTTPNetworkError \/
      ~ recv_failed tr /\ st = (if zlen (data_received tr) =? L then HTTPInsufficientMemory else HTTPPartialResponse) \/
      rejected st /\ Exists may_close ms1)) \/
  (data_received tr = [] /\ (recv_failed tr /\ st = HTTPNetworkError \/ ~ recv_failed tr /\ st = HTTPNoResponse)).
Proof.
  intros fuel cfg E P t h hbuf n req body len bd r rbuf L w flags st h' r' w' tr ms RH S RF NP X N SO PF.
  destruct (whole _ _ _ _ _ _ _ _ _ _ _ _ _ _ _ _ _ _ _ _ _ _ S X N) as (block&sent&rtr&w1&->&SN&HD&RS&RV). destruct (send_only_data sent rtr SN) as (D1&D2&_). destruct (clock_flags r) as (CF&CB&CD&_).
  rewrite <- HD in SO. rewrite D1 in *. rewrite (failed_behind _ _ SN).
  destruct (C73_series _ _ _ _ _ _ _ _ _ _ _ _ _ _ _ _ RH RS RF ltac:(congruence) RV SO PF) as [(ms1&m&ms2&Q1&Q2&[(Q3&G)|Q])|[Q|Q]].
  - left. exists ms1, m, ms2. split; [auto|]. split; [auto|]. left. split; [auto|]. destruct G. constructor; auto. rewrite D2, <- CB. auto.
  - left. exists ms1, m, ms2. auto.
  - right. left. destruct Q as (ms1&m&ms2&x&y&Q). exists ms1, m, ms2, x, y. rewrite (failed_behind _ _ SN). exact Q.
  - right. right. exact Q.
Qed.
Print Assumptions C86_series.

Theorem C86_buffer : forall fuel cfg E P t h hbuf n req body len bd r rbuf L w flags st h' r' w' tr,
  send_setup cfg E P t h hbuf n req body len bd r rbuf L w -> recv_faithful E -> exchanges fuel cfg E P t h body len r flags w st h' r' w' tr ->
  (forall a k, 0 <= a -> 0 <= k -> a + k <= zlen (data_received tr) -> apart rbuf r r' a k -> bytes_at (w_mem w') (poff rbuf a) k = slice (data_received tr) a k) /\
  (forall f fl x xl name value c, In (THeader f fl x xl name value c) tr ->
   exists a b, f = poff rbuf a /\ x = poff rbuf b /\ 0 <= a /\ 0 <= b /\ 0 <= fl /\ 0 <= xl /\ a + fl <= zlen (data_received tr) /\ b + xl <= zlen (data_received tr) /\
     name = slice (data_received tr) a fl /\ value = slice (data_received tr) b xl /\
     (apart rbuf r r' a fl -> bytes_at (w_mem w') f fl = name) /\ (apart rbuf r r' b xl -> bytes_at (w_mem w') x xl = value)).
Proof.
  intros fuel cfg E P t h hbuf n req body len bd r rbuf L w flags st h' r' w' tr S RF X.
  destruct (C50_send_then_receive _ _ _ _ _ _ _ _ _ _ _ _ _ _ _ _ _ _ _ _ _ _ S X) as (block&WH&D).
  assert (QU : send_only tr -> data_received tr = [] -> (forall a k, 0 <= a -> 0 <= k -> a + k <= zlen (data_received tr) -> apart rbuf r r' a k -> bytes_at (w_mem w') (poff rbuf a) k = slice (data_received tr) a k) /\
    (forall f fl x xl name value c, ~ In (THeader f fl x xl name value c) tr)).
  { intros SN ->. split; [|intros f fl x xl name value c I; eapply Forall_forall in SN; [|exact I]; exact SN].
    intros a k A K LE _. change (zlen (@nil Z)) with 0 in LE. assert (k = 0) by lia. subst k. assert (a = 0) by lia. subst a. reflexivity. }
  destruct D as [(->&_)|[(SN&_)|(sent&rtr&w1&->&BN&SN&NS&AC&RS&RV)]].
  - destruct (QU ltac:(constructor) eq_refl) as (A&B). split; [exact A|]. intros f fl x xl name value c I. destruct (B _ _ _ _ _ _ _ I).
  - destruct (send_only_quiet _ SN) as (_&D). destruct (QU SN D) as (A&B). split; [exact A|]. intros f fl x xl name value c I. destruct (B _ _ _ _ _ _ _ I).
  - destruct (send_only_data sent rtr SN) as (D1&_). rewrite D1. destruct (clock_flags r) as (CF&_).
    assert (AP : forall a k, apart rbuf r r' a k -> apart rbuf (with_clock r) r' a k) by (unfold apart; rewrite CF; auto). split.
    + intros a k A K LE Q. apply (C74_buffer_exact _ _ _ _ _ _ _ _ _ _ _ _ _ _ _ RS RF RV); auto.
    + intros f fl x xl name value c I. apply in_app_or in I as [I|I]; [eapply Forall_forall in SN; [|exact I]; destruct SN|].
      destruct (C75_pointers _ _ _ _ _ _ _ _ _ _ _ _ _ _ _ RS RF RV _ _ _ _ _ _ _ I) as (a&b&Q1&Q2&Q3&Q4&Q5&Q6&Q7&Q8&Q9&Q10&Q11&Q12).
      exists a, b. do 10 (split; [assumption|]). auto.
Qed.
Print Assumptions C86_buffer.

Theorem C86_places : forall fuel cfg E P t h hbuf n req body len bd r rbuf L w flags h' r' w' tr resp,
  reads_places P -> send_setup cfg E P t h hbuf n req body len bd r rbuf L w -> recv_faithful E -> no_parse_body r = false ->
  exchanges fuel cfg E P t h body len r flags w HTTPSuccess h' r' w' tr ->
  http_ok (beqb (slice req 0 4) (B "HEAD")) resp -> data_received tr = http_bytes resp ->
  exists tr1 p room k d tr2, tr = tr1 ++ TRecv p room k d :: tr2 /\
    zlen (data_received tr1) < zlen (head_bytes resp) <= zlen (data_received (tr1 ++ [TRecv p room k d])) /\
    r_headers r' = option_map (poff rbuf) (first_header resp) /\
    r_headersLen r' = seen_len resp (zlen (data_received tr1)) /\
    (forall q, r_headers r' = Some q -> exists j, j = Z.max 0 (zlen (data_received tr1) - (zlen (head_bytes resp) - 4)) /\ j <= 3 /\
       bytes_at (w_mem w') q (r_headersLen r') = header_lines resp ++ slice header_end 0 j).
Proof.
  intros fuel cfg E P t h hbuf n req body len bd r rbuf L w flags h' r' w' tr resp RP S RF NP X HO DR.
  destruct (C50_send_then_receive _ _ _ _ _ _ _ _ _ _ _ _ _ _ _ _ _ _ _ _ _ _ S X) as (block&WH&D). pose proof S as (_&_&_&_&_&_&_&LR&_).
  destruct D as [(_&D&_)|[(_&D&_)|(sent&rtr&w1&->&BN&SN&NS&AC&RS&RV)]]; try discriminate. destruct (send_only_data sent rtr SN) as (D1&D2&_). destruct (clock_flags r) as (CF&CB&_).
  rewrite D1 in DR. rewrite <- (wire_method _ _ _ _ WH LR) in HO.
  destruct (C70_headers_exact _ _ _ _ _ _ _ _ _ _ _ _ _ _ _ RP RS RF ltac:(congruence) RV HO DR) as (tr1&p&room&k&d&tr2&->&A).
  exists (sent ++ tr1), p, room, k, d, tr2. rewrite <- !app_assoc. rewrite !(proj1 (send_only_data sent _ SN)). auto.
Qed.
Print Assumptions C86_places.

Theorem C86_any_cut : forall P cfg fuel1 E1 t1 h1 hbuf1 n1 req1 body1 len1 bd1 r1 buf1 L1 w1 flags1 st1 h1' r1' w1' tr1 fuel2 E2 t2 h2 hbuf2 n2 req2 body2 len2 bd2 r2 buf2 L2 w2 flags2 st2 h2' r2' w2' tr2,
  cut_free P ->
  send_setup cfg E1 P t1 h1 hbuf1 n1 req1 body1 len1 bd1 r1 buf1 L1 w1 -> recv_faithful E1 -> no_parse_body r1 = false ->
  send_setup cfg E2 P t2 h2 hbuf2 n2 req2 body2 len2 bd2 r2 buf2 L2 w2 -> recv_faithful E2 -> no_parse_body r2 = false ->
  (begins req1 (B "HEAD") <-> begins req2 (B "HEAD")) ->
  exchanges fuel1 cfg E1 P t1 h1 body1 len1 r1 flags1 w1 st1 h1' r1' w1' tr1 -> exchanges fuel2 cfg E2 P t2 h2 body2 len2 r2 flags2 w2 st2 h2' r2' w2' tr2 ->
  0 < recvs tr1 -> 0 < recvs tr2 ->
  data_received tr1 = data_received tr2 -> (L1 = L2 \/ zlen (data_received tr1) < L1 /\ zlen (data_received tr1) < L2) -> (recv_failed tr1 <-> recv_failed tr2) ->
  st1 = st2 /\
  (answered st1 tr1 ->
   SpecCut.same_response r1 r1' buf1 (w_mem w1') r2 r2' buf2 (w_mem w2') /\
   (~ rejected st1 -> same_headers r1 r1' buf1 tr1 r2 r2' buf2 tr2) /\
   (r_cb r1 = true -> r_cb r2 = true -> nearly (delivered tr1) (delivered tr2))).
Proof.
  intros P cfg fuel1 E1 t1 h1 hbuf1 n1 req1 body1 len1 bd1 r1 buf1 L1 w1 flags1 st1 h1' r1' w1' tr1 fuel2 E2 t2 h2 hbuf2 n2 req2 body2 len2 bd2 r2 buf2 L2 w2 flags2 st2 h2' r2' w2' tr2 CF S1 F1 NP1 S2 F2 NP2 HB X1 X2 N1 N2 DR LL RF.
  destruct (whole _ _ _ _ _ _ _ _ _ _ _ _ _ _ _ _ _ _ _ _ _ _ S1 X1 N1) as (b1&s1&q1&v1&->&SO1&HD1&RS1&RV1). destruct (whole _ _ _ _ _ _ _ _ _ _ _ _ _ _ _ _ _ _ _ _ _ _ S2 X2 N2) as (b2&s2&q2&v2&->&SO2&HD2&RS2&RV2).
  destruct (send_only_data s1 q1 SO1) as (D1&G1&_). destruct (send_only_data s2 q2 SO2) as (D2&G2&_). rewrite D1, D2 in *. rewrite !failed_behind in RF by auto.
  destruct (clock_flags r1) as (C1&B1&O1&K1). destruct (clock_flags r2) as (C2&B2&O2&K2).
  rewrite !begins_beqb, <- HD1, <- HD2, <- !begins_beqb in HB.
  destruct (C67_any_cut P cfg L1 L2 _ _ _ _ _ _ _ _ _ _ _ _ _ _ _ _ _ _ _ _ _ _ _ _ CF RS1 F1 ltac:(congruence) RS2 F2 ltac:(congruence) HB RV1 RV2 DR LL RF) as (A&C). split; [exact A|].
  unfold answered. rewrite received_behind by auto. intros AN. destruct (C AN) as (A1&A2&A3). rewrite B1, B2 in A3. split; [|split].
  - destruct A1. rewrite O1, O2, K1, K2 in *. constructor; auto.
  - intros NR. destruct (A2 NR). constructor; auto. rewrite G1, G2, <- B1, <- B2. auto.
  - rewrite G1, G2. auto.
Qed.
Print Assumptions C86_any_cut.

(** ** Cases: complete calls of HTTPClient_Send with the reference parser, answered by various servers. *)
Definition rraw : response := mkresp (Some rbuf) 300 true TUser None 0 None 0 0 0 0 0 1 0.
Definition demo_exchange ps r st h' r' w' tr := exchanges 100 cfg0 (env_ex ps) refparser trr hx (Some (mkptr 2 0)) 4 r 0 wsep st h' r' w' tr.
Lemma setup_raw ps : send_setup cfg0 (env_ex ps) refparser trr hx buf0 300 req1 (Some (mkptr 2 0)) 4 (B "data") rraw rbuf 300 wsep.
Proof. destruct (setup_ex ps) as (S&_). exact S. Qed.
Example C86_case : forall ps, send_setup cfg0 (env_ex ps) refparser trr hx buf0 300 req1 (Some (mkptr 2 0)) 4 (B "data") rsep rbuf 300 wsep /\
  recv_faithful (env_ex ps) /\ no_parse_body rsep = false /\ no_parse_body rraw = true /\ r_cb rsep = true /\
  reads_heads refparser /\ skips_line_ends refparser /\ reads_http refparser /\ reads_sections refparser /\ reads_series refparser /\ reads_places refparser /\ cut_free refparser.
Proof.
  intros ps. destruct (setup_ex ps) as (S&_). destruct (env_ex_ok ps) as (_&_&RF&_). split; [exact S|]. split; [exact RF|]. do 3 (split; [reflexivity|]).
  split; [exact C69_reference_parser|]. split; [exact C71_reference_parser_skips_line_ends|]. split; [exact refparser_reads|]. split; [exact C72_reference_parser_reads_sections|].
  split; [exact C73_reference_parser_reads_series|]. split; [exact C70_reference_parser_reads_places|exact C67_reference_parser].
Qed.
(** A well-formed answer in two pieces: two recv calls after the two send calls, every header given to the callback. *)
Example C86_answered_case : exists h' r' w' tr, demo_exchange [firstn 20 (http_bytes ex_sized); skipn 20 (http_bytes ex_sized)] rsep HTTPSuccess h' r' w' tr /\
  recvs tr = 2 /\ sends tr = 2 /\ answered HTTPSuccess tr /\ data_received tr = http_bytes ex_sized /\ http_ok (beqb (slice req1 0 4) (B "HEAD")) ex_sized /\
  map fst (delivered tr) = [(B "Content-Length", B "5"); (B "CONNECTION", B "Close")] /\ r_status r' = 200.
Proof. do 4 eexists. split; [split; vm_compute; reflexivity|]. do 2 (split; [vm_compute; reflexivity|]). split; [left; discriminate|]. split; [vm_compute; reflexivity|]. split; [apply ex_sized_ok|]. split; vm_compute; reflexivity. Qed.
(** The same with the do-not-parse-body flag, a server that says nothing, and two responses one behind the other. *)
Example C86_other_cases :
  (exists h' r' w' tr, demo_exchange [firstn 20 (http_bytes ex_sized); skipn 20 (http_bytes ex_sized)] rraw HTTPSuccess h' r' w' tr /\ data_received tr = head_bytes ex_sized ++ body_bytes (p_body ex_sized) /\ 0 < recvs tr /\ r_bodyLen r' = 5) /\
  (exists h' r' w' tr, demo_exchange [[13]; [10; 10]] rsep HTTPNoResponse h' r' w' tr /\ data_received tr = [13; 10; 10] /\ 0 < recvs tr) /\
  (exists h' r' w' tr, demo_exchange straddling rsep HTTPSuccess h' r' w' tr /\ data_received tr = series_bytes ex_series /\ 0 < recvs tr /\ r_status r' = 200) /\
  (* the header block does not fit *)
  (exists h' r' w' tr, exchanges 100 cfg0 (env_ex []) refparser trr (mkrh (Some buf0) 30 (zlen req1)) (Some (mkptr 2 0)) 4 rsep 0 wsep HTTPInsufficientMemory h' r' w' tr /\ tr = [] /\ r' = rsep).
Proof.
  split; [do 4 eexists; split; [split; vm_compute; reflexivity|]; vm_compute; auto|]. split; [do 4 eexists; split; [split; vm_compute; reflexivity|]; vm_compute; auto|].
  split; [do 4 eexists; split; [split; vm_compute; reflexivity|]; vm_compute; auto|]. do 4 eexists; split; [split; vm_compute; reflexivity|]; vm_compute; auto.
Qed.
