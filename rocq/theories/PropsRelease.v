(** PropsRelease.v — C91: builds without assertions. *)
From Verif Require Import Base Lib ModelRequest ModelSend ModelResponse ModelReadHeader ModelRelease SpecRequest SpecSend SpecResponse SpecExchange SpecRelease SpecReadHeader ProofsRequest ProofsSend ProofsSend2
  ProofsResponse ProofsResponse2 RefParser Demo DemoResponse PropsRequest PropsSend PropsResponse PropsExchange PropsApi PropsOver.

Definition agrees {A} (x y : res A) : Prop := match x with Ret a => y = Ret a | More w => y = More w | _ => True end.
Lemma agrees_spec {A} (x y : res A) : agrees x y -> as_asserted x y.
Proof. unfold agrees, as_asserted. destruct x; intros H; split; intros ? X; try discriminate; injection X as <-; exact H. Qed.
Lemma agrees_refl {A} (x : res A) : agrees x x. Proof. destruct x; cbn; auto. Qed.
Lemma agrees_bind {A C} (x y : res A) (f g : A -> res C) : agrees x y -> (forall a, agrees (f a) (g a)) -> agrees (bind x f) (bind y g).
Proof. intros H K. destruct x; cbn [agrees] in *; cbn [bind]; try exact I; subst y; cbn [bind]; auto. apply agrees_refl. Qed.
Lemma agrees_assert {C} c l (x y : res C) : (c = true -> agrees x y) -> agrees (_ <- assert_at c l ;; x) y.
Proof. destruct c; cbn [assert_at bind]; auto. intros _. exact I. Qed.
Ltac ag := repeat first
  [ apply agrees_refl | exact I
  | match goal with
    | |- agrees (bind (assert_at _ _) _) _ => apply agrees_assert; intros ?
    | |- agrees (bind _ _) (bind _ _) => apply agrees_bind; [|intros ?]
    | |- agrees (let '(_,_) := ?x in _) _ => destruct x
    | |- agrees (if ?b then _ else _) (if ?b then _ else _) => destruct b
    | |- agrees (match ?x with _ => _ end) (match ?x with _ => _ end) => destruct x
    end ].

Lemma convert_agrees v a b : agrees (convertInt32ToAscii v a b) (convertInt32ToAscii_r v a b).
Proof. unfold convertInt32ToAscii, convertInt32ToAscii_r. ag. Qed.
Lemma strncpy_agrees m d s n f : agrees (httpHeaderStrncpy m d s n f) (httpHeaderStrncpy_r m d s n f).
Proof. unfold httpHeaderStrncpy, httpHeaderStrncpy_r. ag. Qed.
Lemma addHeader_agrees cfg m h f fl v vl : agrees (addHeader cfg m h f fl v vl) (addHeader_r cfg m h f fl v vl).
Proof. unfold addHeader, addHeader_r. ag; apply strncpy_agrees. Qed.
Lemma addRange_agrees cfg m h a b : agrees (addRangeHeader cfg m h a b) (addRangeHeader_r cfg m h a b).
Proof. unfold addRangeHeader, addRangeHeader_r. cbv zeta. ag; try apply convert_agrees; apply addHeader_agrees. Qed.
Lemma requestLine_agrees cfg m h me ml pa pl : agrees (writeRequestLine cfg m h me ml pa pl) (writeRequestLine_r cfg m h me ml pa pl).
Proof. unfold writeRequestLine, writeRequestLine_r. cbv zeta. destruct (rh_buf h); [|exact I]. ag. Qed.
Lemma andThen_agrees x y f g : agrees x y -> (forall h m, agrees (f h m) (g h m)) -> agrees (andThen x f) (andThen y g).
Proof. intros H K. unfold andThen. ag; auto. Qed.
Lemma Init_agrees cfg m prh pri : agrees (InitializeRequestHeaders cfg m prh pri) (InitializeRequestHeaders_r cfg m prh pri).
Proof.
  unfold InitializeRequestHeaders, InitializeRequestHeaders_r. destruct prh as [h|]; [|apply agrees_refl]. destruct (rh_buf h); [|apply agrees_refl]. destruct pri as [ri|]; [|apply agrees_refl].
  repeat (match goal with |- agrees (if ?b then _ else _) _ => destruct b; [apply agrees_refl|] end). apply agrees_bind; [|intros [[? ?] ?]; apply agrees_refl].
  apply andThen_agrees; [|intros; ag; apply addHeader_agrees]. apply andThen_agrees; [|intros; ag; apply addHeader_agrees]. apply andThen_agrees; [|intros; ag; apply addHeader_agrees]. apply requestLine_agrees.
Qed.
Lemma AddHeader_agrees cfg m prh f fl v vl : agrees (AddHeader cfg m prh f fl v vl) (AddHeader_r cfg m prh f fl v vl).
Proof. unfold AddHeader, AddHeader_r. destruct prh as [h|]; [|apply agrees_refl]. ag. apply addHeader_agrees. Qed.
Lemma AddRange_agrees cfg m prh a b : agrees (AddRangeHeader cfg m prh a b) (AddRangeHeader_r cfg m prh a b).
Proof. unfold AddRangeHeader, AddRangeHeader_r. destruct prh as [h|]; [|apply agrees_refl]. ag. apply addRange_agrees. Qed.

Lemma send_loop_agrees cfg E t tf T : t_send t = true -> forall fuel p rem last w,
  agrees (send_loop fuel E tf T p rem last w) (send_loop_r fuel cfg E (Some t) tf T (Some p) rem last w).
Proof.
  intros ST. induction fuel as [|fuel IH]; intros p rem last w; [reflexivity|]. cbn [send_loop send_loop_r]. rewrite ST. cbn [negb]. cbv zeta.
  destruct (rem <=? 0); [reflexivity|]. apply agrees_bind; [apply agrees_refl|]. intros d. destruct (_ <? 0); [reflexivity|]. destruct (0 <? _).
  - apply agrees_assert. intros Q. replace (rem <? e_send E (w_ns w) rem) with false by lia. ag. apply IH.
  - ag. apply IH.
Qed.
Lemma SendHttpData_agrees fuel cfg E tr tf p k w : agrees (SendHttpData fuel cfg E tr tf p k w) (SendHttpData_r fuel cfg E tr tf p k w).
Proof.
  unfold SendHttpData, SendHttpData_r. destruct tr as [t|]; [|exact I]. apply agrees_assert. intros ST. destruct p as [p|]; [|exact I]. cbv zeta. ag. apply send_loop_agrees, ST.
Qed.
Lemma SendHttpHeaders_agrees fuel cfg E tr tf prh n fl w : agrees (SendHttpHeaders fuel cfg E tr tf prh n fl w) (SendHttpHeaders_r fuel cfg E tr tf prh n fl w).
Proof.
  unfold SendHttpHeaders, SendHttpHeaders_r. destruct tr as [t|]; [|exact I]. apply agrees_assert. intros _. destruct prh as [h|]; [|exact I]. ag; try apply SendHttpData_agrees.
  unfold addContentLengthHeader, addContentLengthHeader_r. cbv zeta. ag.
  all: first [apply convert_agrees|apply addHeader_agrees].
Qed.
Lemma sendHttpRequest_agrees fuel cfg E tr tf prh b n fl w : agrees (sendHttpRequest fuel cfg E tr tf prh b n fl w) (sendHttpRequest_r fuel cfg E tr tf prh b n fl w).
Proof.
  unfold sendHttpRequest, sendHttpRequest_r. do 4 (apply agrees_assert; intros _). ag; [apply SendHttpHeaders_agrees|]. unfold sendHttpBody, sendHttpBody_r. destruct tr as [t|]; [|exact I].
  do 2 (apply agrees_assert; intros _). apply SendHttpData_agrees.
Qed.
Lemma pch_agrees cfg s : agrees (processCompleteHeader cfg s) (processCompleteHeader_r cfg s).
Proof.
  unfold processCompleteHeader, processCompleteHeader_r. cbv zeta. apply agrees_assert. intros ->. cbn [negb]. destruct (c_lf (s_ctx s)); [|apply agrees_refl]. destruct (c_lv (s_ctx s)); [|apply agrees_refl].
  apply agrees_assert. intros Q. replace (r_hcount (s_resp s) =? SZ cfg - 1) with false by lia. apply agrees_refl.
Qed.
Lemma field_agrees cfg s loc n : agrees (onHeaderField cfg s loc n) (onHeaderField_r cfg s loc n).
Proof.
  unfold onHeaderField, onHeaderField_r. cbv zeta. apply agrees_assert. intros ->. cbn [negb]. apply agrees_bind; [apply agrees_refl|]. intros q. apply agrees_bind; [apply pch_agrees|]. intros s1.
  destruct (c_lf (s_ctx s1)); [|apply agrees_refl]. apply agrees_assert. intros _. apply agrees_refl.
Qed.
Lemma value_agrees cfg s loc n : agrees (onHeaderValue cfg s loc n) (onHeaderValue_r cfg s loc n).
Proof. unfold onHeaderValue, onHeaderValue_r. cbv zeta. apply agrees_bind; [apply agrees_refl|]. intros q. apply agrees_assert. intros _. apply agrees_refl. Qed.
Lemma agrees_skip {A C} (e : res A) (f : A -> res C) y : (match e with More _ => False | _ => True end) -> (forall a, agrees (f a) y) -> agrees (bind e f) y.
Proof. destruct e; cbn [bind]; intros H K; [apply K|exact I|exact I|contradiction]. Qed.
Lemma padd_more m p n : match padd m p n with More _ => False | _ => True end.
Proof. unfold padd. repeat match goal with |- context [if ?b then _ else _] => destruct b | |- context [match ?x with _ => _ end] => destruct x end; exact I. Qed.
Lemma psub_more p q : match psub p q with More _ => False | _ => True end.
Proof. unfold psub. destruct (_ =? _)%nat; exact I. Qed.
Lemma complete_agrees cfg s n cl ka : agrees (onHeadersComplete cfg s n cl ka) (onHeadersComplete_r cfg s n cl ka).
Proof.
  unfold onHeadersComplete, onHeadersComplete_r. cbv zeta. apply agrees_assert. intros ->. cbn [negb]. destruct (c_cur (s_ctx s)) as [cur|]; [|exact I]. destruct (r_buf (s_resp s)) as [buf|]; [|exact I].
  apply agrees_skip; [apply psub_more|]. intros d. apply agrees_assert. intros _. apply agrees_skip; [apply padd_more|]. intros e. apply agrees_skip; [apply psub_more|]. intros d2. apply agrees_assert. intros _.
  apply agrees_bind.
  - destruct (r_headers _); [|apply agrees_refl]. apply agrees_bind; [apply agrees_refl|]. intros d3. apply agrees_assert. intros Q. replace (d3 <? 0) with false by lia. apply agrees_refl.
  - intros r2. apply agrees_bind; [apply pch_agrees|]. intros s1. apply agrees_refl.
Qed.
Lemma body_agrees cfg s loc n : agrees (onBody cfg s loc n) (onBody_r cfg s loc n).
Proof.
  unfold onBody, onBody_r. cbv zeta. apply agrees_assert. intros ->. cbn [negb]. destruct (r_buf (s_resp s)) as [buf|]; [|exact I].
  apply agrees_skip; [apply psub_more|]. intros d. apply agrees_assert. intros _. apply agrees_skip; [apply padd_more|]. intros e. apply agrees_skip; [apply psub_more|]. intros d2. apply agrees_assert. intros _.
  apply agrees_refl.
Qed.
Lemma callback_agrees cfg st ev s : agrees (callback cfg st ev s) (callback_r cfg st ev s).
Proof.
  unfold callback, callback_r. cbv zeta. destruct ev; try apply agrees_refl.
  - unfold onStatus, onStatus_r. apply agrees_assert. intros ->. apply agrees_refl.
  - unfold onStatusComplete, onStatusComplete_r. apply agrees_assert. intros ->. apply agrees_refl.
  - apply field_agrees.
  - apply value_agrees.
  - apply complete_agrees.
  - apply body_agrees.
Qed.
Lemma run_tree_agrees cfg st {T} (s0 : T) t : forall s, agrees (run_tree cfg st s0 t s) (run_tree_r cfg st s0 t s).
Proof.
  induction t as [e s1|ev k IH]; intros s; cbn [run_tree run_tree_r]; [reflexivity|]. apply agrees_bind; [apply callback_agrees|]. intros [r s1]. cbv zeta. destruct r; try apply agrees_refl; apply IH.
Qed.
Lemma parse_agrees cfg P ps s n : agrees (parseHttpResponse cfg P ps s n) (parseHttpResponse_r cfg P ps s n).
Proof.
  unfold parseHttpResponse, parseHttpResponse_r. cbv zeta. destruct (c_cur _); [|exact I]. apply agrees_bind; [apply agrees_refl|]. intros d. apply agrees_bind; [apply run_tree_agrees|]. intros [[[e ep] ps'] s2].
  apply agrees_refl.
Qed.
Lemma recv_loop_agrees cfg E P T : forall fuel total last ps s, agrees (recv_loop fuel cfg E P T total last ps s) (recv_loop_r fuel cfg E P T total last ps s).
Proof.
  induction fuel as [|fuel IH]; intros total last ps s; [reflexivity|]. cbn [recv_loop recv_loop_r]. cbv zeta. destruct (r_buf (s_resp s)); [|exact I].
  apply agrees_bind; [apply agrees_refl|]. intros dst. destruct (e_recv _ _ _) as [n d]. apply agrees_bind; [apply agrees_refl|]. intros m1. destruct (n <? 0); [apply agrees_refl|].
  apply agrees_bind; [apply agrees_refl|]. intros [t w2]. destruct (0 <? n).
  - apply agrees_bind; [apply parse_agrees|]. intros [[st ps'] s3]. destruct (_ && _); [apply IH|apply agrees_refl].
  - destruct (T <=? _).
    + apply agrees_bind; [apply parse_agrees|]. intros [[st ps'] s3]. apply agrees_refl.
    + destruct (_ && _); [apply IH|apply agrees_refl].
Qed.
Lemma Receive_agrees fuel cfg E P tr pr prh w : agrees (ReceiveAndParseHttpResponse fuel cfg E P tr pr prh w) (ReceiveAndParseHttpResponse_r fuel cfg E P tr pr prh w).
Proof.
  unfold ReceiveAndParseHttpResponse, ReceiveAndParseHttpResponse_r. destruct tr as [t|]; [|exact I]. apply agrees_assert. intros ->. cbn [negb]. destruct pr as [r|]; [|exact I]. destruct prh as [h|]; [|exact I].
  apply agrees_bind. { unfold initializeParsingContextForFirstResponse, initializeParsingContextForFirstResponse_r. apply agrees_assert. intros _. apply agrees_refl. }
  intros c. cbv zeta. apply agrees_bind; [apply agrees_refl|]. intros [t0 w1]. apply agrees_bind; [apply recv_loop_agrees|]. intros [[st total] s]. apply agrees_bind; [apply agrees_refl|]. intros [st2 r2].
  destruct (is_success st2); [|apply agrees_refl]. apply agrees_bind; [|intros; apply agrees_refl]. unfold getFinalResponseStatus, getFinalResponseStatus_r. apply agrees_assert. intros _. apply agrees_refl.
Qed.
Lemma Send_agrees fuel cfg E P tr prh b n pr fl w : agrees (Send fuel cfg E P tr prh b n pr fl w) (Send_r fuel cfg E P tr prh b n pr fl w).
Proof.
  unfold Send, Send_r. cbv zeta. destruct tr as [t|]; [|apply agrees_refl]. destruct (negb (t_send t)); [apply agrees_refl|]. destruct (negb (t_recv t)); [apply agrees_refl|]. destruct prh as [h|]; [|apply agrees_refl].
  destruct (match rh_buf h with None => true | _ => false end); [apply agrees_refl|]. destruct (rh_len h <? _); [apply agrees_refl|]. destruct (rh_bufLen h <? _); [apply agrees_refl|]. destruct pr as [r|]; [|apply agrees_refl].
  repeat (match goal with |- agrees (if ?b then Ret _ else _) _ => destruct b; [apply agrees_refl|] end).
  apply agrees_bind; [apply sendHttpRequest_agrees|]. intros [[st h1] w1]. destruct (is_success st); [|apply agrees_refl]. apply agrees_bind; [apply Receive_agrees|]. intros [[st2 p2] w2]. apply agrees_refl.
Qed.
Lemma find_tree_agrees m st {T} (t : ptree T) : forall x, agrees (find_tree m st t x) (find_tree_r m st t x).
Proof.
  induction t as [e s1|ev k IH]; intros x; cbn [find_tree find_tree_r]; [reflexivity|]. apply agrees_bind.
  - unfold find_callback, find_callback_r. cbv zeta. destruct ev; try apply agrees_refl.
    + unfold findHeaderField, findHeaderField_r. do 5 (apply agrees_assert; intros _). apply agrees_refl.
    + unfold findHeaderValue, findHeaderValue_r. do 3 (apply agrees_assert; intros _). apply agrees_refl.
  - intros [r x1]. destruct r; try apply agrees_refl; apply IH.
Qed.
Lemma ReadHeader_agrees P m pr f fl a b : agrees (ReadHeader P m pr f fl a b) (ReadHeader_r P m pr f fl a b).
Proof.
  unfold ReadHeader, ReadHeader_r. cbv zeta. destruct pr as [r|]; [|apply agrees_refl]. destruct (r_buf r) as [buf|]; [|apply agrees_refl].
  repeat (match goal with |- agrees (if ?b then Ret _ else _) _ => destruct b; [apply agrees_refl|] end).
  unfold findHeaderInResponse, findHeaderInResponse_r. apply agrees_bind; [apply agrees_refl|]. intros d. apply agrees_bind; [apply find_tree_agrees|]. intros [e x]. apply agrees_bind; [|intros; apply agrees_refl].
  destruct (negb (f_fieldFound x)); [|apply agrees_refl]. apply agrees_assert. intros _. apply agrees_refl.
Qed.

(** * The theorems *)
(** Every call that returns (or runs) in a build with assertions does the same in one without. *)
Theorem C91_building : forall cfg m prh pri f fl v vl a b,
  as_asserted (InitializeRequestHeaders cfg m prh pri) (InitializeRequestHeaders_r cfg m prh pri) /\
  as_asserted (AddHeader cfg m prh f fl v vl) (AddHeader_r cfg m prh f fl v vl) /\
  as_asserted (AddRangeHeader cfg m prh a b) (AddRangeHeader_r cfg m prh a b).
Proof. intros. split; [|split]; apply agrees_spec; [apply Init_agrees|apply AddHeader_agrees|apply AddRange_agrees]. Qed.
Theorem C91_sending : forall fuel cfg E tr tf p k prh n fl w,
  as_asserted (SendHttpData fuel cfg E tr tf p k w) (SendHttpData_r fuel cfg E tr tf p k w) /\
  as_asserted (SendHttpHeaders fuel cfg E tr tf prh n fl w) (SendHttpHeaders_r fuel cfg E tr tf prh n fl w).
Proof. intros. split; apply agrees_spec; [apply SendHttpData_agrees|apply SendHttpHeaders_agrees]. Qed.
Theorem C91_receiving : forall fuel cfg E P tr pr prh w,
  as_asserted (ReceiveAndParseHttpResponse fuel cfg E P tr pr prh w) (ReceiveAndParseHttpResponse_r fuel cfg E P tr pr prh w).
Proof. intros. apply agrees_spec, Receive_agrees. Qed.
Theorem C91_exchanges : forall fuel cfg E P tr prh body len pr fl w,
  as_asserted (Send fuel cfg E P tr prh body len pr fl w) (Send_r fuel cfg E P tr prh body len pr fl w).
Proof. intros. apply agrees_spec, Send_agrees. Qed.
Theorem C91_reading : forall P m pr f fl a b, as_asserted (ReadHeader P m pr f fl a b) (ReadHeader_r P m pr f fl a b).
Proof. intros. apply agrees_spec, ReadHeader_agrees. Qed.

(** With arguments, transport, clock and parser that keep their contracts there is no difference at all; so everything proved of
    HTTPClient_Send, HTTPClient_ReceiveAndParseHttpResponse and HTTPClient_ReadHeader holds of builds without assertions. *)
Lemma history_agrees cfg : forall cs m h, agrees (history cfg m h cs) (history_r cfg m h cs).
Proof.
  induction cs as [|c cs IH]; intros m h; cbn [history history_r]; [reflexivity|]. apply agrees_bind; [destruct c; cbn [do_call]; [apply Init_agrees|apply AddHeader_agrees|apply AddRange_agrees]|].
  intros [[st oh] m1]. destruct oh as [h1|]; [|exact I]. apply agrees_bind; [apply IH|]. intros [[sts h2] m2]. apply agrees_refl.
Qed.
Theorem C91_same_building : forall cfg m h buf n cs, config_ok cfg -> rh_buf h = Some buf -> rh_bufLen h = n -> object m buf n -> 0 <= rh_len h <= n -> Forall (call_ok cfg m buf n) cs ->
  history_r cfg m h cs = history cfg m h cs.
Proof.
  intros cfg m h buf n cs H1 H2 H3 H4 H5 H6. pose proof (history_agrees cfg cs m h) as A. destruct (C05_request_building_memory_safe cfg m h buf n cs H1 H2 H3 H4 H5 H6) as (sts&h'&m'&X&_). rewrite X in *. exact A.
Qed.
Theorem C91_same_exchange : forall fuel cfg E P t h hbuf n req body len bd r rbuf L w flags,
  send_setup cfg E P t h hbuf n req body len bd r rbuf L w ->
  Send_r fuel cfg E P (Some t) (Some h) body len (Some r) flags w = Send fuel cfg E P (Some t) (Some h) body len (Some r) flags w.
Proof.
  intros fuel cfg E P t h hbuf n req body len bd r rbuf L w flags S. destruct (C48_send_is_safe fuel cfg E P t h hbuf n req body len bd r rbuf L w flags S) as (o&w'&tr&X&_).
  pose proof (Send_agrees fuel cfg E P (Some t) (Some h) body len (Some r) flags w) as A. destruct (Send fuel _ _ _ _ _ _ _ _ _ _); try discriminate; exact A.
Qed.
Theorem C91_same_receive : forall fuel cfg E P t r rh buf L req w, recv_setup cfg E P t r rh buf L req w ->
  ReceiveAndParseHttpResponse_r fuel cfg E P (Some t) (Some r) (Some rh) w = ReceiveAndParseHttpResponse fuel cfg E P (Some t) (Some r) (Some rh) w.
Proof.
  intros fuel cfg E P t r rh buf L req w S. pose proof (Receive_agrees fuel cfg E P (Some t) (Some r) (Some rh) w) as A.
  destruct (C20_receive_is_safe fuel cfg E P t r rh buf L req w S) as [(st&r'&w'&X)|(w'&X)]; rewrite X in *; exact A.
Qed.
Theorem C91_same_read_header : forall P m r buf L field n name,
  parser_ok P -> whole_names P -> r_buf r = Some buf -> r_bufLen r = L -> object m buf L -> 0 < L -> src_bytes m field n = Ret name -> 0 < n ->
  ReadHeader_r P m (Some r) field n true true = ReadHeader P m (Some r) field n true true.
Proof.
  intros P m r buf L field n name H1 H2 H3 H4 H5 H6 H7 H8. pose proof (ReadHeader_agrees P m (Some r) field n true true) as A.
  destruct (C61_read_header_is_safe P m r buf L field n name H1 H2 H3 H4 H5 H6 H7 H8) as (st&out&X&_). rewrite X in *. exact A.
Qed.

(** A send that claims more than it was offered: no call during which that happens returns.  (A memory object is not larger than a size_t can say.) *)
Lemma send_loop_back cfg E t tf T : t_send t = true -> forall fuel p rem last w x, object (w_mem w) p rem -> zlen (blk (w_mem w) (pb p)) <= SZ cfg ->
  send_loop_r fuel cfg E (Some t) tf T (Some p) rem last w = Ret x -> send_loop fuel E tf T p rem last w = Ret x.
Proof.
  intros ST. induction fuel as [|fuel IH]; intros p rem last w x O B H; [discriminate|]. cbn [send_loop send_loop_r] in *. rewrite ST in H. cbn [negb] in H.
  destruct (Z.leb_spec rem 0); [exact H|]. rewrite loadn_ok in * by exact O. cbn [bind] in *. set (d := bytes_at (w_mem w) p rem) in *. cbv zeta in *. set (r := e_send E (w_ns w) rem) in *.
  destruct (r <? 0); [exact H|]. destruct (Z.ltb_spec 0 r).
  - destruct (get_time E tf (w_after_send w d r)) as [[t' w2]| | |] eqn:G; try discriminate. cbn [bind] in H. destruct (padd (w_mem w2) p r) as [p'| | |] eqn:PA; try discriminate. cbn [bind] in H.
    assert (M : w_mem w2 = w_mem w) by (destruct tf; cbn in G; try discriminate; injection G as _ <-; reflexivity). rewrite M in PA.
    assert (PP : p' = poff p r /\ po p + r <= zlen (blk (w_mem w) (pb p))).
    { unfold padd in PA. destruct (_ && _) eqn:Q; [|discriminate]. injection PA as <-. split; [reflexivity|]. lia. }
    destruct PP as (->&PL). destruct O as (O1&O2&O3).
    destruct (Z.ltb_spec rem r).
    + exfalso. destruct fuel as [|fuel]; [discriminate|]. cbn [send_loop_r] in H. rewrite ST in H. cbn [negb] in H. replace (rem - r + SZ cfg <=? 0) with false in H by lia.
      unfold loadn, in_range in H. rewrite M in H. unfold poff in H. cbn [pb po] in H.
      match type of H with context [if ?b then Ret _ else _] => replace b with false in H by (symmetry; apply not_true_is_false; intros Q; lia) end. discriminate.
    + replace (r <=? rem) with true by lia. cbn [assert_at bind]. rewrite M. unfold padd. replace (_ && _) with true by lia. cbn [bind].
      apply IH; [|unfold poff; cbn [pb]; rewrite M; exact B|exact H]. rewrite M. unfold object, poff. cbn [pb po]. lia.
  - destruct (get_time E tf (w_after_send w d r)) as [[t' w2]| | |] eqn:G; try discriminate. cbn [bind] in *. destruct (T <=? _); [exact H|].
    assert (M : w_mem w2 = w_mem w) by (destruct tf; cbn in G; try discriminate; injection G as _ <-; reflexivity). apply IH; try rewrite M; auto.
Qed.
Theorem C91_false_send_never_returns : forall fuel cfg E t tf p k w st w', t_send t = true -> object (w_mem w) p k -> zlen (blk (w_mem w) (pb p)) <= SZ cfg ->
  SendHttpData_r fuel cfg E (Some t) tf (Some p) k w = Ret (st, w') <-> SendHttpData fuel cfg E (Some t) tf (Some p) k w = Ret (st, w').
Proof.
  intros fuel cfg E t tf p k w st w' ST O B. split; [|apply (proj1 (agrees_spec _ _ (SendHttpData_agrees fuel cfg E (Some t) tf (Some p) k w)))].
  unfold SendHttpData, SendHttpData_r. rewrite ST. cbn [assert_at bind]. destruct (get_time E tf w) as [[t0 w1]| | |] eqn:G; try discriminate. cbn [bind].
  assert (M : w_mem w1 = w_mem w) by (destruct tf; cbn in G; try discriminate; injection G as _ <-; reflexivity). apply send_loop_back; [exact ST|rewrite M; exact O|rewrite M; exact B].
Qed.
(** A recv that claims more than there was room for is believed: here the call returns HTTPSuccess and a body that includes a byte behind the
    response buffer which was never received.  With assertions it does not return (C82). *)
Definition behind : world := mkw [req1 ++ repeat 0 100; repeat 0 48 ++ B "o"] 0 0 0 [].
Definition inner48 : response := mkresp (Some rbuf) 48 true TUser None 0 None 0 0 0 0 0 0 0.
Theorem C91_false_recv_is_believed : exists cfg E P t r rh buf L req w r' w' b,
  recv_setup_any cfg E P t r rh buf L req w /\
  ReceiveAndParseHttpResponse 10 cfg E P (Some t) (Some r) (Some rh) w = AssertFail 1993 /\
  ReceiveAndParseHttpResponse_r 10 cfg E P (Some t) (Some r) (Some rh) w = Ret (HTTPSuccess, Some r', w') /\
  r_body r' = Some b /\ pb b = pb buf /\ po buf + L < po b + r_bodyLen r'.
Proof.
  exists cfg0, env_boaster, refparser, trr, inner48, h1, rbuf, 48, req1, behind.
  assert (X : exists r' w' b, ReceiveAndParseHttpResponse_r 10 cfg0 env_boaster refparser (Some trr) (Some inner48) (Some h1) behind = Ret (HTTPSuccess, Some r', w') /\
    r_body r' = Some b /\ pb b = pb rbuf /\ po rbuf + 48 < po b + r_bodyLen r').
  { vm_compute. do 3 eexists. split; [reflexivity|]. cbn [r_body]. split; [reflexivity|]. split; reflexivity. }
  destruct X as (r'&w'&b&X1&X2&X3&X4). exists r', w', b. split.
  - destruct (boaster_setup 48 ltac:(lia)) as (A1&A2&A3&A4). split; [exact A1|]. split; [exact A2|]. split; [exact A3|].
    intros E' RC. destruct (A4 E' RC) as (B1&B2&B3&B4&B5&B6&B7&B8&B9). split; [exact B1|]. split; [exact B2|]. split; [exact B3|]. split; [exact B4|]. split; [exact B5|]. split; [reflexivity|].
    split; [vm_compute; repeat split; discriminate|]. split; [exact B8|]. split; [|exact (proj2 B9)].
    exists buf0, (zlen req1 + 100). split; [reflexivity|]. split; [reflexivity|]. split; [vm_compute; repeat split; discriminate|]. split; [vm_compute; repeat split; discriminate|reflexivity].
  - split; [vm_compute; reflexivity|]. split; [exact X1|]. auto.
Qed.
(** A send that claims four bytes of three: the assertion fails, and without it the call is undefined behaviour. *)
Definition env_liar : env := mkenv (fun _ k => k + 1) (fun _ _ => (0, [])) (fun n => 100 * Z.of_nat n).
Example C91_liar_case : SendHttpData 10 cfg0 env_liar (Some trr) TUser (Some rbuf) 3 behind = AssertFail 1861 /\ SendHttpData_r 10 cfg0 env_liar (Some trr) TUser (Some rbuf) 3 behind = Ub UbOob.
Proof. split; vm_compute; reflexivity. Qed.
(** An exchange to which [C91_same_exchange] applies: see [C48_case]; it goes well in both builds. *)
Example C91_case : exists h' r' w', Send_r 100 cfg0 (env_ex resp_ok) refparser (Some trr) (Some hx) (Some (mkptr 1 0)) 4 (Some rshared) 0 wshared = Ret (HTTPSuccess, Some h', Some r', w') /\ r_status r' = 200.
Proof.
  rewrite (C91_same_exchange _ _ _ _ _ _ _ _ _ _ _ _ _ _ _ _ 0 C48_case). vm_compute. do 3 eexists. split; reflexivity.
Qed.
Print Assumptions C91_building.
Print Assumptions C91_sending.
Print Assumptions C91_receiving.
Print Assumptions C91_exchanges.
Print Assumptions C91_reading.
Print Assumptions C91_same_building.
Print Assumptions C91_same_exchange.
Print Assumptions C91_same_receive.
Print Assumptions C91_same_read_header.
Print Assumptions C91_false_send_never_returns.
Print Assumptions C91_false_recv_is_believed.
