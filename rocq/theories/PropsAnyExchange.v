(** PropsAnyExchange.v — whole calls of HTTPClient_Send with any parser that reads HTTP/1.1 responses ([reads_http], SpecParser.v). *)
From Verif Require Import Base Lib ModelRequest ModelSend ModelResponse SpecRequest SpecSend SpecResponse SpecHttp SpecParser SpecExchange ProofsRequest ProofsSend ProofsSend2
  ProofsResponse ProofsResponse2 ProofsResponse3 ProofsResponse4 ProofsResponse5 ProofsTwin ProofsExchange RefParser RefRun HttpRun ProofsFollow ProofsEnd Demo DemoResponse
  PropsSend PropsResponse PropsHttp PropsExchange ProofsAny PropsAny.

Theorem C50_any_parser_exchange : forall fuel cfg E P t h hbuf n req body len bd r rbuf L w flags st h' r' w' tr resp,
  reads_http P -> send_setup cfg E P t h hbuf n req body len bd r rbuf L w -> recv_faithful E -> no_parse_body r = false ->
  exchanges fuel cfg E P t h body len r flags w st h' r' w' tr ->
  http_ok (beqb (slice req 0 4) (B "HEAD")) resp -> (forall d, p_body resp <> ToClose d) -> zlen (http_bytes resp) <= L ->
  (exists rest, http_bytes resp = data_received tr ++ rest) ->
  exists block, wire_headers flags len req block /\ prefix (accepted tr) (block ++ bd) /\
    (not_sent n block bd st tr \/
     accepted tr = block ++ bd /\
     ((data_received tr = http_bytes resp /\ st = HTTPSuccess /\ gives cfg rbuf L resp r r' w' tr) \/
      (zlen (data_received tr) < zlen (http_bytes resp) /\
       (recv_failed tr /\ st = HTTPNetworkError \/
        last_recv tr 0 /\ st = (match data_received tr with [] => HTTPNoResponse | _ => HTTPPartialResponse end))))).
Proof.
  intros fuel cfg E P t h hbuf n req body len bd r rbuf L w flags st h' r' w' tr resp RH S RF ND X OK NC LE PF.
  destruct (C50_send_then_receive _ _ _ _ _ _ _ _ _ _ _ _ _ _ _ _ _ _ _ _ _ _ S X) as (block&WH&D). exists block. split; [auto|].
  pose proof S as (_&_&_&_&_&_&_&LR&_).
  destruct D as [(->&->&BN&->&->&->)|[(SN&->&BN&PX&LT&->)|(sent&rtr&w1&->&BN&SN&NS&AC&RS&RV)]].
  - split; [exists (block ++ bd); reflexivity|]. left. split; [reflexivity|]. left. auto.
  - split; [auto|]. left. split; [apply send_only_recvs; auto|]. right. auto.
  - rewrite AC. split; [exists []; rewrite app_nil_r; reflexivity|]. right. split; [auto|].
    destruct (send_only_data sent rtr SN) as (D1&D2&D3). rewrite D1 in *.
    rewrite <- (wire_method _ _ _ _ WH LR) in OK.
    assert (ND' : no_parse_body (with_clock r) = false) by (unfold no_parse_body; rewrite (proj2 (with_clock_same r)); auto).
    destruct (C43_any_parser_well_formed_response _ _ _ _ _ _ _ _ _ _ _ _ _ _ _ resp RH RS RF ND' RV OK NC LE PF) as [(A1&A2&A3)|(A1&A2)].
    + left. split; [auto|]. split; [auto|]. apply gives_clock, gives_pre; auto.
    + right. split; [auto|]. destruct A2 as [(A2&A3)|(A2&A3)]; [left; split; [apply recv_failed_pre|]; auto|right; split; [apply last_recv_pre|]; auto].
Qed.
(** A response larger than the buffer is never reported as a success. *)
Theorem C50_any_parser_exchange_too_large : forall fuel cfg E P t h hbuf n req body len bd r rbuf L w flags st h' r' w' tr resp,
  reads_http P -> send_setup cfg E P t h hbuf n req body len bd r rbuf L w -> recv_faithful E -> no_parse_body r = false ->
  exchanges fuel cfg E P t h body len r flags w st h' r' w' tr ->
  http_ok (beqb (slice req 0 4) (B "HEAD")) resp -> (forall d, p_body resp <> ToClose d) -> L < zlen (http_bytes resp) ->
  (exists rest, http_bytes resp = data_received tr ++ rest) ->
  exists block, wire_headers flags len req block /\ prefix (accepted tr) (block ++ bd) /\
    (not_sent n block bd st tr \/
     accepted tr = block ++ bd /\
     ((recv_failed tr /\ st = HTTPNetworkError) \/
      (last_recv tr 0 /\ st = (match data_received tr with [] => HTTPNoResponse | _ => HTTPPartialResponse end)) \/
      (zlen (data_received tr) = L /\ st = HTTPInsufficientMemory))).
Proof.
  intros fuel cfg E P t h hbuf n req body len bd r rbuf L w flags st h' r' w' tr resp RH S RF ND X OK NC LE PF.
  destruct (C50_send_then_receive _ _ _ _ _ _ _ _ _ _ _ _ _ _ _ _ _ _ _ _ _ _ S X) as (block&WH&D). exists block. split; [auto|].
  pose proof S as (_&_&_&_&_&_&_&LR&_).
  destruct D as [(->&->&BN&->&->&->)|[(SN&->&BN&PX&LT&->)|(sent&rtr&w1&->&BN&SN&NS&AC&RS&RV)]].
  - split; [exists (block ++ bd); reflexivity|]. left. split; [reflexivity|]. left. auto.
  - split; [auto|]. left. split; [apply send_only_recvs; auto|]. right. auto.
  - rewrite AC. split; [exists []; rewrite app_nil_r; reflexivity|]. right. split; [auto|].
    destruct (send_only_data sent rtr SN) as (D1&D2&D3). rewrite D1 in *.
    rewrite <- (wire_method _ _ _ _ WH LR) in OK.
    assert (ND' : no_parse_body (with_clock r) = false) by (unfold no_parse_body; rewrite (proj2 (with_clock_same r)); auto).
    destruct (C43_any_parser_too_large _ _ _ _ _ _ _ _ _ _ _ _ _ _ _ resp RH RS RF ND' RV OK NC LE PF) as [(A1&A2)|[(A1&A2)|(A1&A2)]].
    + left. split; [apply recv_failed_pre|]; auto.
    + right. left. split; [apply last_recv_pre|]; auto.
    + right. right. auto.
Qed.
(** A response that lasts until the connection is closed. *)
Theorem C50_any_parser_exchange_until_close : forall fuel cfg E P t h hbuf n req body len bd r rbuf L w flags st h' r' w' tr resp d,
  reads_http P -> send_setup cfg E P t h hbuf n req body len bd r rbuf L w -> recv_faithful E -> no_parse_body r = false ->
  exchanges fuel cfg E P t h body len r flags w st h' r' w' tr ->
  http_ok (beqb (slice req 0 4) (B "HEAD")) resp -> p_body resp = ToClose d ->
  (exists rest, http_bytes resp = data_received tr ++ rest) ->
  exists block, wire_headers flags len req block /\ prefix (accepted tr) (block ++ bd) /\
    (not_sent n block bd st tr \/
     accepted tr = block ++ bd /\
     ((recv_failed tr /\ st = HTTPNetworkError) \/
      (zlen (data_received tr) = L /\ st = HTTPInsufficientMemory) \/
      (last_recv tr 0 /\ zlen (data_received tr) < zlen (head_bytes resp) /\
       st = (match data_received tr with [] => HTTPNoResponse | _ => HTTPPartialResponse end)) \/
      (last_recv tr 0 /\ st = HTTPSuccess /\
       exists d', data_received tr = head_bytes resp ++ d' /\ gives cfg rbuf L (cut resp d') r r' w' tr))).
Proof.
  intros fuel cfg E P t h hbuf n req body len bd r rbuf L w flags st h' r' w' tr resp d RH S RF ND X OK TC PF.
  destruct (C50_send_then_receive _ _ _ _ _ _ _ _ _ _ _ _ _ _ _ _ _ _ _ _ _ _ S X) as (block&WH&D). exists block. split; [auto|].
  pose proof S as (_&_&_&_&_&_&_&LR&_).
  destruct D as [(->&->&BN&->&->&->)|[(SN&->&BN&PX&LT&->)|(sent&rtr&w1&->&BN&SN&NS&AC&RS&RV)]].
  - split; [exists (block ++ bd); reflexivity|]. left. split; [reflexivity|]. left. auto.
  - split; [auto|]. left. split; [apply send_only_recvs; auto|]. right. auto.
  - rewrite AC. split; [exists []; rewrite app_nil_r; reflexivity|]. right. split; [auto|].
    destruct (send_only_data sent rtr SN) as (D1&D2&D3). rewrite D1 in *.
    rewrite <- (wire_method _ _ _ _ WH LR) in OK.
    assert (ND' : no_parse_body (with_clock r) = false) by (unfold no_parse_body; rewrite (proj2 (with_clock_same r)); auto).
    destruct (C43_any_parser_until_close _ _ _ _ _ _ _ _ _ _ _ _ _ _ _ resp d RH RS RF ND' RV OK TC PF) as [(A1&A2)|[(A1&A2)|[(A1&A2&A3)|(A1&A2&d'&A3&A4)]]].
    + left. split; [apply recv_failed_pre|]; auto.
    + right. left. auto.
    + right. right. left. split; [apply last_recv_pre|]; auto.
    + right. right. right. split; [apply last_recv_pre; auto|]. split; [auto|]. exists d'. split; [auto|]. apply gives_clock, gives_pre; auto.
Qed.
Theorem C50_any_parser_successful_exchange : forall fuel cfg E P t h hbuf n req body len bd r rbuf L w flags block resp ps,
  reads_http P -> send_setup cfg E P t h hbuf n req body len bd r rbuf L w -> recv_faithful E -> no_parse_body r = false ->
  (forall i k, 0 < k -> 0 < e_send E i k) -> wire_headers flags len req block -> zlen block <= n ->
  http_ok (beqb (slice req 0 4) (B "HEAD")) resp -> (forall d, p_body resp <> ToClose d) -> zlen (http_bytes resp) <= L ->
  concat ps = http_bytes resp -> feeds E (w_nr w) ps -> (forall nt, prompt cfg E (r_time (with_clock r)) nt ps) ->
  n + len < Z.of_nat fuel -> (length ps < fuel)%nat ->
  exists h' r' w' tr, exchanges fuel cfg E P t h body len r flags w HTTPSuccess h' r' w' tr /\
    accepted tr = block ++ bd /\ data_received tr = http_bytes resp /\ recvs tr <= Z.of_nat (length ps) /\ gives cfg rbuf L resp r r' w' tr.
Proof.
  intros fuel cfg E P t h hbuf n req body len bd r rbuf L w flags block resp ps RH S RF ND WI WH C OK NC LE CC FE PR F1 F2.
  destruct (Send_willing _ _ _ _ _ _ _ _ _ _ _ _ _ _ _ _ flags block S WI F1 WH C) as (sent&h1&w1&SN&TR&NR&AC&RS&ES). pose proof S as (_&_&_&_&_&_&_&LR&_).
  rewrite <- (wire_method _ _ _ _ WH LR) in OK. rewrite <- NR in FE.
  assert (ND' : no_parse_body (with_clock r) = false) by (unfold no_parse_body; rewrite (proj2 (with_clock_same r)); auto).
  destruct (C43_any_parser_every_fragmentation fuel _ _ _ _ _ _ _ _ _ _ resp ps RH RS RF ND' OK NC LE CC FE (PR _) F2) as (r'&w'&tr&(R1&R2)&R3&R5&R4).
  unfold exchanges. rewrite ES, R1. cbn [bind]. exists h1, r', w', (sent ++ tr). split; [split; [auto|rewrite R2, TR, app_assoc; auto]|].
  destruct (Receive_ext _ _ _ _ _ _ _ _ (Some (HTTPSuccess, Some r')) w' ltac:(rewrite R1; reflexivity)) as (tq&Q1&Q2). rewrite Q1 in R2. apply app_inv_head in R2. subst tq.
  split; [rewrite accepted_only by auto; auto|]. destruct (send_only_data sent tr SN) as (D1&_&D3). rewrite D1, D3. split; [auto|]. split; [auto|]. apply gives_clock, gives_pre; auto.
Qed.

(** The hypotheses are met: the reference parser and one buffer for request and response, any cut of the response. *)
Example C50_any_parser_case : forall ps, Forall (fun p => p <> []) ps -> concat ps = http_bytes ex_sized ->
  reads_http refparser /\ send_setup cfg0 (env_ex ps) refparser trr hx buf0 300 req1 (Some (mkptr 1 0)) 4 (B "data") rshared buf0 300 wshared /\
  recv_faithful (env_ex ps) /\ no_parse_body rshared = false /\ http_ok (beqb (slice req1 0 4) (B "HEAD")) ex_sized /\ zlen (http_bytes ex_sized) <= 300 /\
  feeds (env_ex ps) 0 ps /\ (forall nt, prompt cfg0 (env_ex ps) (r_time (with_clock rshared)) nt ps).
Proof.
  intros ps NE CC. destruct (setup_ex ps) as (_&S). destruct (env_ex_ok ps) as (_&_&RF&_). split; [exact refparser_reads|]. split; [exact S|]. split; [exact RF|]. split; [reflexivity|].
  split; [exact ex_sized_ok|]. split; [vm_compute; discriminate|]. split; [exact (env_of_feeds ps)|]. intros; apply nonempty_prompt; auto.
Qed.
Print Assumptions C50_any_parser_exchange.
Print Assumptions C50_any_parser_exchange_too_large.
Print Assumptions C50_any_parser_exchange_until_close.
Print Assumptions C50_any_parser_successful_exchange.
