(** PropsLog.v — C95: builds with logging. *)
From Verif Require Import Base Lib ModelRequest ModelSend ModelResponse ModelReadHeader SpecRequest SpecSend SpecResponse SpecReadHeader SpecExchange ProofsRequest ProofsSend ProofsSend2
  RefParser Demo DemoResponse PropsRequest PropsSend PropsResponse PropsExchange ModelLog SpecLog ProofsLog.

(** ** Building requests.  The texts a caller passes may be logged; nothing else has to be. *)
Theorem C95_initialize : forall G cfg m prh pri, config_ok cfg -> (forall ri, pri = Some ri -> may_log G m (ri_host ri) (ri_hostLen ri)) ->
  InitializeRequestHeaders_l G cfg m prh pri = InitializeRequestHeaders cfg m prh pri.
Proof. intros G cfg m prh pri C H. apply Init_log; [|exact H]. destruct C as (_&_&_&U&_). unfold INT32_MAX. lia. Qed.
Print Assumptions C95_initialize.
Theorem C95_add_header : forall G cfg m prh field fl value vl, may_log G m field fl -> may_log G m value vl ->
  AddHeader_l G cfg m prh field fl value vl = AddHeader cfg m prh field fl value vl.
Proof. intros. apply AddHeader_log; assumption. Qed.
Print Assumptions C95_add_header.
(** What it would log are its own texts. *)
Theorem C95_add_range_header : forall G cfg m prh start rend, AddRangeHeader_l G cfg m prh start rend = AddRangeHeader cfg m prh start rend.
Proof. intros. apply AddRange_log. Qed.
Print Assumptions C95_add_range_header.

(** ** HTTPClient_Send.  Whatever arrives, whatever the parser reports and however the transport cuts it, for every argument: of all memory only
    the response buffer needs to be the logger's to read. *)
Theorem C95_send : forall G fuel cfg E P tr prh body len pr flags w, parser_ok P -> recv_contract E -> has_reasons G ->
  (forall r buf, pr = Some r -> r_buf r = Some buf -> may_log G (w_mem w) (SAt buf) (r_bufLen r) /\ r_bufLen r < SZ cfg) ->
  Send_l G fuel cfg E P tr prh body len pr flags w = Send fuel cfg E P tr prh body len pr flags w.
Proof.
  intros G fuel cfg E P tr prh body len pr flags w PO RC RE H. destruct pr as [r|].
  - destruct (r_buf r) as [buf|] eqn:RB.
    + destruct (H r buf eq_refl RB) as (((L0&L1)&O&M)&LS). destruct (r_bufLen r =? 0) eqn:Z0.
      * unfold Send_l, Send. cbv zeta. rewrite RB, Z0. destruct tr; [|reflexivity]. repeat (match goal with |- (if ?b then _ else _) = _ => destruct b; [reflexivity|] end).
        destruct prh; [|reflexivity]. repeat (match goal with |- (if ?b then _ else _) = _ => destruct b; [reflexivity|] end). reflexivity.
      * apply (Send_log G fuel cfg E P tr prh body len r buf (r_bufLen r)); auto. lia.
    + unfold Send_l, Send. cbv zeta. rewrite RB. destruct tr; [|reflexivity]. repeat (match goal with |- (if ?b then _ else _) = _ => destruct b; [reflexivity|] end).
      destruct prh; [|reflexivity]. repeat (match goal with |- (if ?b then _ else _) = _ => destruct b; [reflexivity|] end). reflexivity.
  - unfold Send_l, Send. cbv zeta. destruct tr; [|reflexivity]. repeat (match goal with |- (if ?b then _ else _) = _ => destruct b; [reflexivity|] end).
    destruct prh; [|reflexivity]. repeat (match goal with |- (if ?b then _ else _) = _ => destruct b; [reflexivity|] end). reflexivity.
Qed.
Print Assumptions C95_send.
Theorem C95_receive : forall G fuel cfg E P t r rh buf L req w, recv_setup cfg E P t r rh buf L req w -> has_reasons G -> may_log G (w_mem w) (SAt buf) L ->
  ReceiveAndParseHttpResponse_l G fuel cfg E P (Some t) (Some r) (Some rh) w = ReceiveAndParseHttpResponse fuel cfg E P (Some t) (Some r) (Some rh) w.
Proof.
  intros G fuel cfg E P t r rh buf L req w (_&RC&(R&R0&CF)&_&RB&RL&O&(L0&L1)&_) RE ((M0&M1)&_&M). eapply (Receive_log G cfg buf L); eauto; lia.
Qed.
Print Assumptions C95_receive.

(** ** HTTPClient_ReadHeader, unless it reports an empty value. *)
Theorem C95_read_header : forall G P m r buf field fl a b, parser_ok P -> has_reasons G -> r_buf r = Some buf -> may_log G m (SAt buf) (r_bufLen r) -> may_log G m field fl ->
  (forall st, ReadHeader P m (Some r) field fl a b <> Ret (st, Some (None, 0))) ->
  ReadHeader_l G P m (Some r) field fl a b = ReadHeader P m (Some r) field fl a b.
Proof. intros G P m r buf field fl a b PO RE RB ((L0&L1)&O&M) MF NE. eapply (ReadHeader_log G P m r buf (r_bufLen r)); eauto. Qed.
Print Assumptions C95_read_header.
(** A call that succeeds, or that finds no such header, asks for no reason, so the parser need not have one. *)
Theorem C95_read_header_without_reasons : forall G P m r buf field fl a b st o, parser_ok P -> r_buf r = Some buf -> may_log G m (SAt buf) (r_bufLen r) -> may_log G m field fl ->
  ReadHeader P m (Some r) field fl a b = Ret (st, o) -> st = HTTPSuccess \/ st = HTTPHeaderNotFound -> o <> Some (None, 0) ->
  ReadHeader_l G P m (Some r) field fl a b = Ret (st, o).
Proof. intros G P m r buf field fl a b st o PO RB ((L0&L1)&O&M) MF X ST NE. eapply (ReadHeader_log_ok G P m r buf (r_bufLen r)); eauto. Qed.
Print Assumptions C95_read_header_without_reasons.

(** ** Each condition is needed *)
(** Every byte may be logged, every way to end a call has a reason. *)
Definition any_log : logging := mklogging (fun _ _ => true) (fun _ => true).
(** The response "HTTP/1.1 200 OK", "A:", "B: c". *)
Definition empty_value : bytes := B "HTTP/1.1 200 OK" ++ CRLF ++ B "A:" ++ CRLF ++ B "B: c" ++ CRLF ++ CRLF.
Definition r_empty : response := mkresp (Some (mkptr 0 0)) (zlen empty_value) false TUser None 0 None 0 0 0 0 0 0 0.
Theorem C95_empty_value_is_logged_as_NULL : parser_ok refparser /\ has_reasons any_log /\ may_log any_log [empty_value; B "A"] (SAt (mkptr 0 0)) (zlen empty_value) /\
  ReadHeader refparser [empty_value; B "A"] (Some r_empty) (SAt (mkptr 1 0)) 1 true true = Ret (HTTPSuccess, Some (None, 0)) /\
  ReadHeader_l any_log refparser [empty_value; B "A"] (Some r_empty) (SAt (mkptr 1 0)) 1 true true = Ub UbNull.
Proof.
  split; [apply refparser_ok|]. split; [intros e; reflexivity|]. split; [split; [split; vm_compute; discriminate|split; [vm_compute; repeat split; discriminate|reflexivity]]|]. split; vm_compute; reflexivity.
Qed.
Print Assumptions C95_empty_value_is_logged_as_NULL.
(** llhttp_init sets no error reason: if there is none as long as there is no error, the first call that parses anything prints NULL. *)
Definition no_reason : logging := mklogging (fun _ _ => true) (fun e => match e with HPE_OK => false | _ => true end).
Theorem C95_missing_reason_is_logged_as_NULL : recv_setup cfg0 (env_of resp_ok) refparser trr (resp0 300 0) h1 rbuf 300 req1 (wr 300) /\
  (exists r' w', ReceiveAndParseHttpResponse 20 cfg0 (env_of resp_ok) refparser (Some trr) (Some (resp0 300 0)) (Some h1) (wr 300) = Ret (HTTPSuccess, Some r', w')) /\
  ReceiveAndParseHttpResponse_l no_reason 20 cfg0 (env_of resp_ok) refparser (Some trr) (Some (resp0 300 0)) (Some h1) (wr 300) = Ub UbNull.
Proof. split; [exact (proj1 (setup0 resp_ok 300 0 ltac:(lia) ltac:(vm_compute; reflexivity)))|]. split; [eexists; eexists; vm_compute; reflexivity|vm_compute; reflexivity]. Qed.
Print Assumptions C95_missing_reason_is_logged_as_NULL.
(** A text of 2^31 bytes or more: the length becomes negative, and the logger reads on to the next NUL byte, here past the end of the memory that holds the
    text.  Without logging HTTPClient_AddHeader rejects it. *)
Lemma log_over m p : 0 <= po p -> (forall o, 0 <= o < zlen (blk m (pb p)) -> zn (blk m (pb p)) o <> 0) ->
  forall n i, 0 <= i -> po p + i <= zlen (blk m (pb p)) -> zlen (blk m (pb p)) < po p + i + Z.of_nat n -> log_bytes any_log m p n i = Ub UbOob.
Proof.
  intros P0 NZ. induction n as [|n IH]; intros i I0 H1 H2; cbn [log_bytes]; [lia|]. cbn [lg_may any_log]. unfold load1, in_range. cbn [pb po].
  destruct (Z.eq_dec (po p + i) (zlen (blk m (pb p)))) as [Q|Q].
  - replace (po p + i + 1 <=? zlen (blk m (pb p))) with false by lia. rewrite !andb_false_r. reflexivity.
  - replace (po p + i + 1 <=? zlen (blk m (pb p))) with true by lia. replace (0 <=? po p + i) with true by lia. cbn [Z.leb andb bind].
    change (0 <=? 1) with true. cbn [andb bind]. destruct (nth _ _ 0 =? 0) eqn:Z0; [exfalso; apply (NZ (po p + i)); [lia|unfold zn; lia]|]. apply IH; lia.
Qed.
Definition cfg64 : config := mkconfig 18446744073709551616 (B "my-platform-name") 1000 1000.
Lemma long_text (big room : bytes) n : 2147483648 <= n < 4294967296 -> zlen big = n -> (forall o, 0 <= o < n -> zn big o = CR) -> zlen room = n + 100 ->
  let h := mkrh (Some (mkptr 1 0)) (n + 100) 0 in
  AddHeader cfg64 [big; room] (Some h) (SAt (mkptr 0 0)) n (SLit (B "v")) 1 = Ret (HTTPSecurityAlertInvalidCharacter, Some h, [big; room]) /\
  AddHeader_l any_log cfg64 [big; room] (Some h) (SAt (mkptr 0 0)) n (SLit (B "v")) 1 = Ub UbOob.
Proof.
  intros NR LB CRS LR h. assert (B0 : blk [big; room] 0 = big) by reflexivity. assert (B1 : blk [big; room] 1 = room) by reflexivity.
  unfold AddHeader, AddHeader_l, addHeader, addHeader_l. cbn [rh_buf rh_bufLen rh_len h is_null negb assert_at bind].
  replace (n =? 0) with false by lia. change (1 =? 0) with false. cbn [negb assert_at bind]. replace (n + 100 <? 0) with false by lia.
  unfold padd. cbn [pb po]. rewrite B1. change (0 <=? 0 + 0) with true. replace (0 + 0 <=? zlen room) with true by lia. cbn [andb bind]. change (4 <=? 0) with false. cbn [bind]. cbv zeta.
  replace ((0 + (n + 2 + 1 + 2 + 2) mod SZ cfg64) mod SZ cfg64) with (n + 7) by (cbn [SZ cfg64]; rewrite (Z.mod_small (n + 2 + 1 + 2 + 2)) by lia; rewrite Z.mod_small by lia; lia).
  replace (n + 7 <=? n + 100) with true by lia. unfold httpHeaderStrncpy, httpHeaderStrncpy_l. cbn [is_null negb assert_at bind].
  assert (ST : forall d, strncpy_loop [big; room] d (SAt (mkptr 0 0)) true (Z.to_nat n) 0 = Ret (false, [big; room])).
  { intros d. destruct (Z.to_nat n) as [|k] eqn:K; [lia|]. cbn [strncpy_loop src_byte]. unfold load1, in_range. cbn [pb po]. rewrite B0, LB. change (0 <=? 1) with true. change (0 <=? 0 + 0) with true.
    replace (0 + 0 + 1 <=? n) with true by lia. cbn [andb bind]. change (nth (Z.to_nat (0 + 0)) big 0) with (zn big 0). rewrite (CRS 0) by lia. reflexivity. }
  rewrite ST. cbn [bind negb]. split; [reflexivity|].
  assert (LT : log_text any_log [big; room] (SAt (mkptr 0 0)) n = Ub UbOob).
  { unfold log_text. cbv zeta. cbn [pb]. rewrite B0, LB. unfold to_int32, two32, INT32_MAX. rewrite (Z.mod_small n) by lia. cbv zeta. replace (n <=? 2147483647) with false by lia. replace (n - 4294967296 <? 0) with true by lia.
    apply log_over; cbn [pb po]; rewrite ?B0, ?LB; try lia. intros o Ho. rewrite (CRS o Ho). discriminate. }
  rewrite LT. reflexivity.
Qed.
Theorem C95_long_text_is_read_beyond_its_end : exists m h field fl value vl, config_ok cfg64 /\ object m (mkptr 0 0) fl /\ field = SAt (mkptr 0 0) /\
  AddHeader cfg64 m (Some h) field fl value vl = Ret (HTTPSecurityAlertInvalidCharacter, Some h, m) /\
  AddHeader_l any_log cfg64 m (Some h) field fl value vl = Ub UbOob.
Proof.
  destruct (long_text (repeat CR (Z.to_nat 2147483648)) (repeat 0 (Z.to_nat (2147483648 + 100))) 2147483648 ltac:(lia)) as (X1&X2).
  - rewrite zlen_repeat. lia.
  - intros o Ho. unfold zn. apply nth_repeat_in. lia.
  - rewrite zlen_repeat. lia.
  - eexists. eexists. eexists. eexists. eexists. eexists. split; [|split; [|split; [reflexivity|split; [exact X1|exact X2]]]].
    + pose proof cfg0_ok as (C1&C2&C3&C4&C5&C6). unfold config_ok, cfg64. cbn [SZ UA SEND_TO RECV_TO cfg0] in *. split; [lia|]. split; [exact C2|]. split; [exact C3|]. split; [exact C4|]. split; [exact C5|exact C6].
    + unfold object. cbn [pb po blk nth]. rewrite zlen_repeat. lia.
Qed.
Print Assumptions C95_long_text_is_read_beyond_its_end.

(** ** The hypotheses are met *)
(** Only the response buffer may be logged; the whole exchange of PropsExchange.v goes through. *)
Definition only_buffer : logging := mklogging (fun b o => Nat.eqb b 1 && (0 <=? o) && (o <? 300)) (fun _ => true).
Example C95_send_case : exists h' r' w', Send_l only_buffer 100 cfg0 (env_ex resp_ok) refparser (Some trr) (Some hx) (Some (mkptr 2 0)) 4 (Some rsep) 0 wsep = Ret (HTTPSuccess, Some h', Some r', w').
Proof.
  rewrite C95_send.
  - eexists. eexists. eexists. vm_compute. reflexivity.
  - apply refparser_ok.
  - apply (env_ex_ok resp_ok).
  - intros e. reflexivity.
  - intros r buf X Y. injection X as <-. injection Y as <-. split; [|vm_compute; reflexivity]. split; [cbn; unfold INT32_MAX; lia|]. split; [vm_compute; repeat split; discriminate|].
    intros o H. cbn in *. apply andb_true_intro. lia.
Qed.
Definition own_texts : logging := mklogging (fun b o => Nat.eqb b 1 && (0 <=? o) && (o <? 3)) (fun _ => true).
(** A header name with a line feed in it is logged, and refused as without logging. *)
Example C95_add_header_case : AddHeader_l own_texts cfg0 [repeat 0 100; [65; 10; 66]] (Some (mkrh (Some buf0) 100 0)) (SAt (mkptr 1 0)) 3 (SLit (B "v")) 1 =
    AddHeader cfg0 [repeat 0 100; [65; 10; 66]] (Some (mkrh (Some buf0) 100 0)) (SAt (mkptr 1 0)) 3 (SLit (B "v")) 1 /\
  exists h' m', AddHeader_l own_texts cfg0 [repeat 0 100; [65; 10; 66]] (Some (mkrh (Some buf0) 100 0)) (SAt (mkptr 1 0)) 3 (SLit (B "v")) 1 = Ret (HTTPSecurityAlertInvalidCharacter, Some h', m').
Proof.
  split; [|eexists; eexists; vm_compute; reflexivity]. apply C95_add_header.
  - split; [unfold INT32_MAX; lia|]. split; [vm_compute; repeat split; discriminate|]. intros o H. cbn in *. apply andb_true_intro. lia.
  - split; [unfold INT32_MAX; lia|]. vm_compute. discriminate.
Qed.
(** A header that is there, one that is not. *)
Example C95_read_header_case : (exists p, ReadHeader_l any_log refparser [empty_value; B "B"] (Some r_empty) (SAt (mkptr 1 0)) 1 true true = Ret (HTTPSuccess, Some (Some p, 1))) /\
  ReadHeader_l any_log refparser [empty_value; B "C"] (Some r_empty) (SAt (mkptr 1 0)) 1 true true = Ret (HTTPHeaderNotFound, None) /\
  (forall st, ReadHeader refparser [empty_value; B "C"] (Some r_empty) (SAt (mkptr 1 0)) 1 true true <> Ret (st, Some (None, 0))).
Proof. split; [eexists; vm_compute; reflexivity|]. split; [vm_compute; reflexivity|]. intros st. vm_compute. discriminate. Qed.
(** The same with a parser that has no reasons at all. *)
Example C95_read_header_without_reasons_case : let G := mklogging (fun _ _ => true) (fun _ => false) in
  (exists p, ReadHeader_l G refparser [empty_value; B "B"] (Some r_empty) (SAt (mkptr 1 0)) 1 true true = Ret (HTTPSuccess, Some (Some p, 1))) /\
  ReadHeader_l G refparser [empty_value; B "C"] (Some r_empty) (SAt (mkptr 1 0)) 1 true true = Ret (HTTPHeaderNotFound, None).
Proof. split; [eexists; vm_compute; reflexivity|vm_compute; reflexivity]. Qed.
