(** ProofsIndep.v — a call to HTTPClient_ReceiveAndParseHttpResponse does not depend on the output fields the response
    structure held before, except that areHeadersComplete and contentLength keep their old values until the headers are
    complete. *)
From Verif Require Import Base Lib ModelRequest ModelSend ModelResponse SpecRequest SpecSend SpecResponse.

Definition up (x y : Z) (r : response) : response := set_r_clen (set_r_hdone r y) x.
Definition sup (x y : Z) (s : cbst) : cbst := mkst (s_ctx s) (up x y (s_resp s)) (s_w s).
Definition rmap {A C} (f : A -> C) (a : res A) : res C := match a with Ret x => Ret (f x) | Ub k => Ub k | AssertFail l => AssertFail l | More w => More w end.
Lemma bind_rmap {A C D} (f : A -> C) (a : res A) (k : C -> res D) : bind (rmap f a) k = bind a (fun x => k (f x)).
Proof. destruct a; reflexivity. Qed.
Lemma rmap_bind {A C D} (f : C -> D) (a : res A) (k : A -> res C) : rmap f (bind a k) = bind a (fun x => rmap f (k x)).
Proof. destruct a; reflexivity. Qed.
Lemma bind_ext {A C} (a : res A) (k k' : A -> res C) : (forall x, k x = k' x) -> bind a k = bind a k'.
Proof. intros H. destruct a; cbn; auto. Qed.

Ltac stepb := repeat match goal with
  | |- bind ?a _ = bind ?a _ => apply bind_ext; intros
  | |- context [rmap _ (bind _ _)] => rewrite rmap_bind
  | |- context [bind (rmap _ _) _] => rewrite bind_rmap
  end.

Lemma pch_sup cfg x y s : processCompleteHeader cfg (sup x y s) = rmap (sup x y) (processCompleteHeader cfg s).
Proof.
  destruct s as [c r w]. unfold processCompleteHeader, sup. cbn [s_ctx s_resp s_w up set_r_clen set_r_hdone r_hcount r_cb]. stepb.
  destruct (c_lf c), (c_lv c); cbn [rmap]; auto. stepb. destruct (r_cb r); stepb; reflexivity.
Qed.
Definition sup2 {A} (x y : Z) (a : A * cbst) : A * cbst := (fst a, sup x y (snd a)).

Lemma callback_sup cfg start ev x y s : exists x' y', callback cfg start ev (sup x y s) = rmap (sup2 x' y') (callback cfg start ev s).
Proof.
  destruct ev; cbn [callback].
  - exists x, y. reflexivity.
  - exists x, y. unfold onStatus, sup. cbn [s_ctx s_resp s_w]. stepb. reflexivity.
  - exists x, y. unfold onStatusComplete, sup. cbn [s_ctx s_resp s_w]. stepb. reflexivity.
  - exists x, y. unfold onHeaderField. cbn [sup s_ctx s_resp s_w]. stepb.
    set (r1 := match r_headers (s_resp s) with None => _ | Some _ => _ end).
    match goal with |- bind (processCompleteHeader cfg ?a) _ = _ => replace a with (sup x y (mkst (set_cur (s_ctx s) (Some x1)) r1 (s_w s))) end.
    2:{ unfold sup, r1. cbn [s_ctx s_resp s_w up set_r_clen set_r_hdone r_headers]. destruct (r_headers (s_resp s)); reflexivity. }
    rewrite pch_sup. stepb. cbn [sup s_ctx s_resp s_w]. destruct (c_lf (s_ctx _)); stepb; reflexivity.
  - exists x, y. unfold onHeaderValue. cbn [sup s_ctx s_resp s_w]. stepb. reflexivity.
  - unfold onHeadersComplete. cbn [sup s_ctx s_resp s_w up set_r_clen set_r_hdone r_buf r_bufLen r_headers r_flags r_status r_hcount r_opt r_body r_bodyLen].
    exists (if clen =? UINT64_MAX then 0 else clen mod SZ cfg), 1.
    stepb. destruct (c_cur (s_ctx s)); [|reflexivity]. destruct (r_buf (s_resp s)) as [buf|]; [|reflexivity]. stepb.
    destruct (r_headers (s_resp s)) as [h|]; cbn [bind];
      [destruct (psub p h) as [d3| | |]; cbn [bind]; try reflexivity; destruct (assert_at (0 <? d3) 842); cbn [bind]; try reflexivity|]; stepb;
    match goal with |- bind (processCompleteHeader cfg ?a) _ = bind (processCompleteHeader cfg ?b) _ =>
       replace a with (sup (if clen =? UINT64_MAX then 0 else clen mod SZ cfg) 1 b) by (destruct close, keepalive; reflexivity) end;
    rewrite pch_sup; stepb; reflexivity.
  - exists x, y. unfold onBody. cbn [sup s_ctx s_resp s_w up set_r_clen set_r_hdone r_buf r_bufLen r_body r_bodyLen]. stepb.
    destruct (r_buf (s_resp s)); [|reflexivity]. stepb. destruct (r_body (s_resp s)); stepb; reflexivity.
  - exists x, y. reflexivity.
Qed.

Definition sup4 {A C D} (x y : Z) (a : A * C * D * cbst) : A * C * D * cbst := (fst a, sup x y (snd a)).
Lemma run_tree_sup cfg start {S} (s0 : S) t : forall x y s, exists x' y', run_tree cfg start s0 t (sup x y s) = rmap (sup4 x' y') (run_tree cfg start s0 t s).
Proof.
  induction t as [e s1|ev k IH]; intros x y s; cbn [run_tree].
  - exists x, y. reflexivity.
  - set (sl := mkst (s_ctx s) (s_resp s) (log (s_w s) (TEvent ev))).
    change (mkst (s_ctx (sup x y s)) (s_resp (sup x y s)) (log (s_w (sup x y s)) (TEvent ev))) with (sup x y sl).
    destruct (callback_sup cfg start ev x y sl) as (x1&y1&->). rewrite bind_rmap.
    destruct (callback cfg start ev sl) as [[r s1]| | |]; cbn [bind rmap sup2 fst snd]; try (exists x, y; reflexivity).
    destruct r.
    + apply (IH _ x1 y1 (mkst (s_ctx s1) (s_resp s1) (log (s_w s1) (TReply CbContinue)))).
    + apply (IH _ x1 y1 (mkst (s_ctx s1) (s_resp s1) (log (s_w s1) (TReply CbNoBody)))).
    + exists x1, y1. reflexivity.
    + exists x1, y1. reflexivity.
Qed.
Lemma parse_sup cfg P ps x y s n : exists x' y', parseHttpResponse cfg P ps (sup x y s) n = rmap (sup2 x' y') (parseHttpResponse cfg P ps s n).
Proof.
  unfold parseHttpResponse.
  set (s1 := if c_resp (s_ctx s) then s else mkst _ _ _).
  match goal with |- context [c_cur (s_ctx ?a)] => replace a with (sup x y s1) end.
  2:{ unfold s1. destruct s as [c r w]. cbn [sup s_ctx s_resp s_w]. destruct (c_resp c); reflexivity. }
  cbn [sup s_ctx s_w s_resp]. destruct (c_cur (s_ctx s1)) as [start|]; [|exists x, y; reflexivity].
  destruct (loadn (w_mem (s_w s1)) start n) as [d| | |]; cbn [bind rmap]; try (exists x, y; reflexivity).
  set (sl := mkst (s_ctx s1) (s_resp s1) (log (s_w s1) (TParse start d))).
  change (mkst (s_ctx s1) (up x y (s_resp s1)) (log (s_w s1) (TParse start d))) with (sup x y sl).
  destruct (run_tree_sup cfg start ps (p_exec P ps d) x y sl) as (x1&y1&->). exists x1, y1. rewrite bind_rmap.
  destruct (run_tree cfg start ps (p_exec P ps d) sl) as [[[[e pos] ps'] s2]| | |]; cbn [bind rmap]; try reflexivity.
  cbn [sup2 sup4 fst snd sup s_w]. destruct e; stepb; reflexivity.
Qed.

Lemma loop_sup cfg E P retry fuel : forall total last ps x y s,
  exists x' y', recv_loop fuel cfg E P retry total last ps (sup x y s) = rmap (sup2 x' y') (recv_loop fuel cfg E P retry total last ps s).
Proof.
  induction fuel as [|f IH]; intros total last ps x y s; [exists x, y; reflexivity|]. cbn [recv_loop].
  cbn [sup s_ctx s_resp s_w up set_r_clen set_r_hdone r_buf r_bufLen r_time].
  destruct (r_buf (s_resp s)) as [buf|]; [|exists x, y; reflexivity].
  destruct (padd _ buf total) as [dst| | |]; cbn [bind]; try (exists x, y; reflexivity).
  destruct (e_recv E (w_nr (s_w s)) _) as [n d].
  destruct (storen _ dst d) as [m1| | |]; cbn [bind]; try (exists x, y; reflexivity).
  destruct (n <? 0); [exists x, y; reflexivity|].
  destruct (get_time E (r_time (s_resp s)) _) as [[t w2]| | |]; cbn [bind]; try (exists x, y; reflexivity).
  set (s2 := mkst (s_ctx s) (s_resp s) w2).
  match goal with |- context [parseHttpResponse cfg P ps ?a n] => change a with (sup x y s2) end.
  destruct (0 <? n).
  - destruct (parse_sup cfg P ps x y s2 n) as (x1&y1&->). rewrite bind_rmap.
    destruct (parseHttpResponse cfg P ps s2 n) as [[[st ps'] s3]| | |]; cbn [bind]; try (exists x, y; reflexivity).
    cbn [sup2 sup4 fst snd]. cbn [sup s_ctx s_resp up set_r_clen set_r_hdone r_bufLen].
    destruct (is_success st && _ && _).
    + apply IH.
    + exists x1, y1. reflexivity.
  - destruct (retry <=? _).
    + match goal with |- context [parseHttpResponse cfg P ps ?a 0] => change a with (sup x y s2) end.
      destruct (parse_sup cfg P ps x y s2 0) as (x1&y1&->). rewrite bind_rmap.
      destruct (parseHttpResponse cfg P ps s2 0) as [[[st ps'] s3]| | |]; cbn [bind]; exists x1, y1; reflexivity.
    + destruct (_ && _); [apply (IH _ _ _ _ _ s2)|exists x, y; reflexivity].
Qed.

(** The first parser call resets every other output field. *)
Definition inputs (r : response) : response :=
  mkresp (r_buf r) (r_bufLen r) (r_cb r) (r_time r) None 0 None 0 0 (r_clen r) 0 (r_hdone r) (r_opt r) 0.
Lemma parse_inputs cfg P ps c r w n : c_resp c = false ->
  parseHttpResponse cfg P ps (mkst c r w) n = parseHttpResponse cfg P ps (mkst c (inputs r) w) n.
Proof. intros H. unfold parseHttpResponse. cbn [s_ctx s_resp s_w]. rewrite H. reflexivity. Qed.

Lemma inputs_sup r1 r2 c w : same_inputs r1 r2 -> mkst c (inputs r2) w = sup (r_clen r2) (r_hdone r2) (mkst c (inputs r1) w).
Proof. intros (H1&H2&H3&H4&H5). unfold sup, inputs, up. cbn. rewrite H1, H2, H3, H4, H5. reflexivity. Qed.
Lemma parse_two cfg P ps c r1 r2 w n : same_inputs r1 r2 -> c_resp c = false ->
  exists x y, parseHttpResponse cfg P ps (mkst c r2 w) n = rmap (sup2 x y) (parseHttpResponse cfg P ps (mkst c r1 w) n).
Proof.
  intros S C. rewrite (parse_inputs _ _ _ _ r2 _ _ C), (parse_inputs _ _ _ _ r1 _ _ C), (inputs_sup _ _ _ _ S). apply parse_sup.
Qed.
Lemma get_time_tr E tf w t w2 : get_time E tf w = Ret (t, w2) -> exists a, w_tr w2 = w_tr w ++ a /\ received a = 0.
Proof.
  destruct tf; cbn; intros H; try discriminate; injection H as <- <-; [exists []; rewrite app_nil_r; auto|].
  eexists. split; [reflexivity|reflexivity].
Qed.
Lemma received_app0 a b : received (a ++ b) = received a + received b.
Proof. induction a as [|[]]; cbn [received app]; lia. Qed.

(** Two structures with the same input fields: the same course of the loop; either the parser was called and the outputs
    agree up to areHeadersComplete and contentLength, or the transport failed before any data came. *)
Lemma loop_two cfg E P retry fuel : forall total last ps c r1 r2 w, same_inputs r1 r2 -> c_resp c = false ->
  c_state c = HTTP_PARSING_NONE -> total < r_bufLen r1 ->
  (exists x y, recv_loop fuel cfg E P retry total last ps (mkst c r2 w) = rmap (sup2 x y) (recv_loop fuel cfg E P retry total last ps (mkst c r1 w))) \/
  (exists n c' w' tr, recv_loop fuel cfg E P retry total last ps (mkst c r1 w) = Ret (HTTPNetworkError, n, mkst c' r1 w') /\
     recv_loop fuel cfg E P retry total last ps (mkst c r2 w) = Ret (HTTPNetworkError, n, mkst c' r2 w') /\
     w_tr w' = w_tr w ++ tr /\ received tr = 0).
Proof.
  intros total last ps c r1 r2 w S. revert total last ps c w. pose proof S as (S1&S2&S3&S4&S5).
  induction fuel as [|f IH]; intros total last ps c w CR CS TL; [left; exists 0, 0; reflexivity|]. cbn [recv_loop].
  cbn [s_ctx s_resp s_w]. rewrite S1, S2, S4.
  destruct (r_buf r1) as [buf|]; [|left; exists 0, 0; reflexivity].
  destruct (padd _ buf total) as [dst| | |]; cbn [bind]; try (left; exists 0, 0; reflexivity).
  destruct (e_recv E (w_nr w) _) as [n d].
  destruct (storen _ dst d) as [m1| | |]; cbn [bind]; try (left; exists 0, 0; reflexivity).
  destruct (Z.ltb_spec n 0).
  { right. do 4 eexists. split; [reflexivity|]. split; [reflexivity|]. split; [reflexivity|]. cbn [received]. lia. }
  set (w1 := w_after_recv w m1 dst _ n d).
  destruct (get_time E (r_time r1) w1) as [[t w2]| | |] eqn:GT; cbn [bind]; try (left; exists 0, 0; reflexivity).
  destruct (Z.ltb_spec 0 n).
  - left. destruct (parse_two cfg P ps c r1 r2 w2 n S CR) as (x1&y1&->). rewrite bind_rmap.
    destruct (parseHttpResponse cfg P ps (mkst c r1 w2) n) as [[[st ps'] s3]| | |]; cbn [bind]; try (exists 0, 0; reflexivity).
    cbn [sup2 fst snd]. cbn [sup s_ctx s_resp up set_r_clen set_r_hdone r_bufLen].
    destruct (is_success st && _ && _); [apply loop_sup|exists x1, y1; reflexivity].
  - destruct (retry <=? _).
    + left. destruct (parse_two cfg P ps c r1 r2 w2 0 S CR) as (x1&y1&->). rewrite bind_rmap.
      destruct (parseHttpResponse cfg P ps (mkst c r1 w2) 0) as [[[st ps'] s3]| | |]; cbn [bind]; exists x1, y1; reflexivity.
    + rewrite CS. replace (total <? r_bufLen r1) with true by lia. cbn [andb].
      destruct (IH total last ps c w2 CR CS TL) as [L|(n'&c'&w'&tr&L1&L2&L3&L4)]; [left; exact L|].
      right. destruct (get_time_tr _ _ _ _ _ GT) as (a&A1&A2).
      exists n', c', w', ([TRecv dst ((r_bufLen r1 - total) mod SZ cfg) n d] ++ a ++ tr). split; [auto|]. split; [auto|].
      split; [rewrite L3, A1; unfold w1, w_after_recv; cbn [w_tr]; rewrite <- !app_assoc; reflexivity|].
      rewrite !received_app0, A2, L4. cbn [received]. lia.
Qed.

Lemma receive_two fuel cfg E P t r1 r2 rh w st r1' w' : same_inputs r1 r2 -> 0 < r_bufLen r1 ->
  ReceiveAndParseHttpResponse fuel cfg E P (Some t) (Some r1) (Some rh) w = Ret (st, Some r1', w') ->
  exists r2', ReceiveAndParseHttpResponse fuel cfg E P (Some t) (Some r2) (Some rh) w = Ret (st, Some r2', w') /\
    ((exists x y, r2' = up x y r1') \/
     (r1' = r1 /\ r2' = r2 /\ st = HTTPNetworkError /\ exists tr, w_tr w' = w_tr w ++ tr /\ received tr = 0)).
Proof.
  intros S LL. pose proof S as (S1&S2&S3&S4&S5). unfold ReceiveAndParseHttpResponse.
  destruct (assert_at (t_recv t) 2050); cbn [bind]; try discriminate.
  destruct (initializeParsingContextForFirstResponse (w_mem w) rh) as [c| | |] eqn:IC; cbn [bind]; try discriminate.
  assert (C : c_resp c = false /\ c_state c = HTTP_PARSING_NONE).
  { unfold initializeParsingContextForFirstResponse in IC. destruct (assert_at _ _); cbn [bind] in IC; try discriminate.
    destruct (rh_buf rh); try discriminate. destruct (strncmp_eq _ _ _); cbn [bind] in IC; try discriminate. injection IC as <-. auto. }
  destruct C as (C1&C2). rewrite S4. destruct (get_time E (r_time r1) w) as [[t0 w1]| | |] eqn:GT; cbn [bind]; try discriminate.
  set (retry := match r_time r1 with TZero => 0 | _ => RECV_TO cfg end).
  destruct (loop_two cfg E P retry fuel 0 t0 (p_init P) c r1 r2 w1 S C1 C2 LL) as [(x&y&->)|(n&c'&w2&tr&L1&L2&L3&L4)].
  - destruct (recv_loop fuel cfg E P retry 0 t0 (p_init P) (mkst c r1 w1)) as [[[st1 total] s]| | |]; cbn [rmap bind]; try discriminate.
    cbn [sup2 fst snd sup s_ctx s_resp s_w].
    change (r_opt (up x y (s_resp s))) with (r_opt (s_resp s)). change (r_buf (up x y (s_resp s))) with (r_buf (s_resp s)).
    destruct st1; cbn [bind is_success]; intros H;
      try (injection H as <- <- <-; eexists; split; [reflexivity|]; left; exists x, y; reflexivity).
    + change (getFinalResponseStatus (c_state (s_ctx s)) total (up x y (s_resp s))) with (getFinalResponseStatus (c_state (s_ctx s)) total (s_resp s)).
      destruct (getFinalResponseStatus _ _ _); cbn [bind] in *; try discriminate. injection H as <- <- <-. eexists. split; [reflexivity|]. left. exists x, y. reflexivity.
    + destruct (negb _); cbn [bind is_success] in *.
      * destruct (c_cur (s_ctx s)) as [cur|]; cbn [bind] in *; try discriminate. destruct (r_buf (s_resp s)) as [b|]; cbn [bind] in *; try discriminate.
        destruct (psub cur b) as [d| | |]; cbn [bind is_success] in *; try discriminate.
        change (getFinalResponseStatus (c_state (s_ctx s)) total (set_r_body (up x y (s_resp s)) (Some cur) ((total - d) mod SZ cfg)))
          with (getFinalResponseStatus (c_state (s_ctx s)) total (set_r_body (s_resp s) (Some cur) ((total - d) mod SZ cfg))).
        destruct (getFinalResponseStatus _ _ _); cbn [bind] in *; try discriminate. injection H as <- <- <-. eexists. split; [reflexivity|]. left. exists x, y. reflexivity.
      * injection H as <- <- <-. eexists. split; [reflexivity|]. left. exists x, y. reflexivity.
  - rewrite L1, L2. cbn [bind is_success s_resp s_w s_ctx]. intros H. injection H as <- <- <-. exists r2. split; [reflexivity|]. right.
    split; [auto|]. split; [auto|]. split; [auto|]. destruct (get_time_tr _ _ _ _ _ GT) as (tk&A1&A2). exists (tk ++ tr).
    split; [rewrite L3, A1, app_assoc; reflexivity|]. rewrite received_app0. lia.
Qed.
