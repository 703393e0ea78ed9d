(** PropsClock.v — C76: only differences of clock readings matter. *)
From Verif Require Import Base Lib ModelRequest ModelSend ModelResponse SpecRequest SpecSend SpecResponse SpecClock RefParser Demo DemoResponse PropsResponse PropsExchange.

Section clock.
Variables (c : Z) (T : list tev).
Notation wrel := (same_but_clock c T).
Record srel (s s' : cbst) : Prop := mksrel { sl_ctx : s_ctx s' = s_ctx s; sl_resp : s_resp s' = s_resp s; sl_w : wrel (s_w s) (s_w s') }.
(** Outcomes that agree. *)
Definition rrel {A} (R : A -> A -> Prop) (x y : res A) : Prop :=
  match x, y with
  | Ret a, Ret b => R a b
  | Ub k, Ub k' => k = k'
  | AssertFail l, AssertFail l' => l = l'
  | More w, More w' => w = w' \/ wrel w w'
  | _, _ => False
  end.
Lemma rrel_bind {A C} (R : A -> A -> Prop) (Q : C -> C -> Prop) x y f g : rrel R x y -> (forall a b, x = Ret a -> R a b -> rrel Q (f a) (g b)) -> rrel Q (bind x f) (bind y g).
Proof. destruct x, y; cbn [rrel bind]; intros H K; try contradiction; auto. Qed.
Lemma rrel_same {A C} (Q : C -> C -> Prop) (x : res A) f g : (forall a, x = Ret a -> rrel Q (f a) (g a)) -> rrel Q (bind x f) (bind x g).
Proof. destruct x; cbn [rrel bind]; auto. Qed.

Lemma wrel_log w w' e : wrel w w' -> reclock c e = e -> wrel (log w e) (log w' e).
Proof.
  intros [M1 M2 M3 M4 (tr&A&B)] Q. constructor; cbn [log w_mem w_ns w_nr w_nt w_tr]; auto. exists (tr ++ [e]). rewrite A, B, map_app. cbn [map]. rewrite Q, <- !app_assoc. auto.
Qed.
Lemma wrel_mem w w' m : wrel w w' -> wrel (set_mem w m) (set_mem w' m).
Proof. intros [M1 M2 M3 M4 X]. constructor; cbn [set_mem w_mem w_ns w_nr w_nt w_tr]; auto. Qed.

Definition cbrel (x : cbst) (a b : cbret * cbst) : Prop := fst b = fst a /\ srel (snd a) (snd b) /\ r_time (s_resp (snd a)) = r_time (s_resp x).
Ltac rstep := match goal with
  | |- rrel _ (bind ?x _) (bind ?x _) => apply rrel_same; intros ? ?
  | |- rrel _ (match ?x with _ => _ end) (match ?x with _ => _ end) => destruct x eqn:?
  end.
Lemma pch_rel cfg s s' : srel s s' -> rrel (fun a b => srel a b /\ r_time (s_resp a) = r_time (s_resp s)) (processCompleteHeader cfg s) (processCompleteHeader cfg s').
Proof.
  destruct s as [x r w], s' as [x' r' w']. intros [A B W]. cbn [s_ctx s_resp s_w] in *. subst x' r'. unfold processCompleteHeader. cbn [s_ctx s_resp s_w]. rewrite (sc_mem _ _ _ _ W).
  repeat rstep; cbn [rrel]; (split; [constructor; cbn [s_ctx s_resp s_w]; auto|reflexivity]). apply wrel_log; auto.
Qed.
Lemma callback_rel cfg start ev s s' : srel s s' -> rrel (cbrel s) (callback cfg start ev s) (callback cfg start ev s').
Proof.
  destruct s as [x r w], s' as [x' r' w']. intros [A B W]. cbn [s_ctx s_resp s_w] in *. subst x' r'.
  destruct ev; cbn [callback]; unfold onMessageBegin, onStatus, onStatusComplete, onHeaderField, onHeaderValue, onHeadersComplete, onBody, onMessageComplete; cbn [s_ctx s_resp s_w]; rewrite ?(sc_mem _ _ _ _ W).
  all: cbv zeta; try solve [repeat rstep; cbn [rrel]; first [reflexivity|split; [reflexivity|split; [constructor; cbn [snd s_ctx s_resp s_w]; auto using wrel_mem|reflexivity]]]].
  - do 2 rstep. eapply rrel_bind; [apply pch_rel; constructor; cbn [s_ctx s_resp s_w]; auto|]. intros [x1 r1 w1] [x2 r2 w2] _ ([C1 C2 C3]&C4). cbn [s_ctx s_resp s_w] in *. subst x2 r2.
    assert (RT : r_time r1 = r_time r) by (rewrite C4; destruct (r_headers r); auto).
    repeat rstep; cbn [rrel]; (split; [reflexivity|split; [constructor; cbn [snd s_ctx s_resp s_w]; auto|exact RT]]).
  - rstep. destruct (c_cur x) as [cur|]; [|reflexivity]. destruct (r_buf r) as [buf|]; [|reflexivity]. do 5 rstep. apply rrel_same. intros r2 HQ.
    assert (RT : r_time r2 = r_time r).
    { cbn [set_r_hdone r_headers] in HQ. destruct (r_headers r) as [h|].
      - destruct (psub cur h); [|discriminate HQ..]. cbn [bind] in HQ. destruct (assert_at _ 842); [|discriminate HQ..]. cbn [bind] in HQ. injection HQ as <-. reflexivity.
      - injection HQ as <-. reflexivity. }
    eapply rrel_bind; [apply pch_rel; constructor; cbn [s_ctx s_resp s_w]; auto|]. intros [x1 r1 w1] [x2 r3 w2] _ ([C1 C2 C3]&C4). cbn [s_ctx s_resp s_w] in *. subst x2 r3.
    cbn [rrel]. split; [reflexivity|]. split; [constructor; auto|]. cbn [snd s_resp]. rewrite C4, <- RT. destruct keepalive, close; reflexivity.
Qed.

Lemma run_tree_rel cfg start {S} (s0 : S) t : forall s s', srel s s' ->
  rrel (fun a b => fst b = fst a /\ srel (snd a) (snd b) /\ r_time (s_resp (snd a)) = r_time (s_resp s)) (run_tree cfg start s0 t s) (run_tree cfg start s0 t s').
Proof.
  induction t as [e q|ev k IH]; intros s s' H; cbn [run_tree]; [cbn [rrel]; auto|].
  assert (H1 : srel (mkst (s_ctx s) (s_resp s) (log (s_w s) (TEvent ev))) (mkst (s_ctx s') (s_resp s') (log (s_w s') (TEvent ev)))).
  { destruct H as [A B W]. rewrite A, B. constructor; cbn [s_ctx s_resp s_w]; auto. apply wrel_log; auto. }
  eapply rrel_bind; [apply callback_rel; exact H1|]. intros (r,s1) (r',s1') _ (C1&[C2 C3 C4]&C5). cbn [fst snd] in *. subst r'.
  assert (H2 : srel (mkst (s_ctx s1) (s_resp s1) (log (s_w s1) (TReply r))) (mkst (s_ctx s1') (s_resp s1') (log (s_w s1') (TReply r)))).
  { rewrite C2, C3. constructor; cbn [s_ctx s_resp s_w]; auto. apply wrel_log; auto. }
  destruct r; try (cbn [rrel fst snd]; auto; fail).
  - specialize (IH CbContinue _ _ H2). cbn [s_resp] in IH, C5. rewrite C5 in IH. exact IH.
  - specialize (IH CbNoBody _ _ H2). cbn [s_resp] in IH, C5. rewrite C5 in IH. exact IH.
Qed.
Lemma parse_rel cfg P ps s s' n : srel s s' ->
  rrel (fun a b => fst b = fst a /\ srel (snd a) (snd b) /\ r_time (s_resp (snd a)) = r_time (s_resp s)) (parseHttpResponse cfg P ps s n) (parseHttpResponse cfg P ps s' n).
Proof.
  destruct s as [x r w], s' as [x' r' w']. intros [A B W]. cbn [s_ctx s_resp s_w] in *. subst x' r'. unfold parseHttpResponse. cbn [s_ctx s_resp s_w]. cbv zeta.
  assert (K : forall x r, rrel (fun a b => fst b = fst a /\ srel (snd a) (snd b) /\ r_time (s_resp (snd a)) = r_time r)
    (match c_cur x with None => Ub UbNull | Some start => d <- loadn (w_mem w) start n ;;
       ' (e, epos, ps', s2) <- run_tree cfg start ps (p_exec P ps d) (mkst x r (log w (TParse start d))) ;;
       cur' <- match e with HPE_PAUSED => padd (w_mem (s_w s2)) start epos | _ => padd (w_mem (s_w s2)) start n end ;;
       Ret (processLlhttpError e, ps', mkst (set_cur (s_ctx s2) (Some cur')) (s_resp s2) (log (s_w s2) (TParsed e))) end)
    (match c_cur x with None => Ub UbNull | Some start => d <- loadn (w_mem w') start n ;;
       ' (e, epos, ps', s2) <- run_tree cfg start ps (p_exec P ps d) (mkst x r (log w' (TParse start d))) ;;
       cur' <- match e with HPE_PAUSED => padd (w_mem (s_w s2)) start epos | _ => padd (w_mem (s_w s2)) start n end ;;
       Ret (processLlhttpError e, ps', mkst (set_cur (s_ctx s2) (Some cur')) (s_resp s2) (log (s_w s2) (TParsed e))) end)).
  { clear x r. intros x r. destruct (c_cur x) as [start|]; [|reflexivity]. rewrite (sc_mem _ _ _ _ W). apply rrel_same. intros d _.
    eapply rrel_bind; [apply run_tree_rel; constructor; cbn [s_ctx s_resp s_w]; [reflexivity|reflexivity|apply wrel_log; auto]|].
    intros [[[e epos] ps'] s2] [[[e' epos'] ps2'] s2'] _ (C1&[C2 C3 C4]&C5). cbn [fst snd s_resp] in *. assert (e' = e /\ epos' = epos /\ ps2' = ps') as (->&->&->) by (repeat split; congruence).
    rewrite (sc_mem _ _ _ _ C4), C2, C3. apply rrel_same. intros cur' _. cbn [rrel fst snd]. split; [auto|]. split; [|exact C5].
    constructor; cbn [s_ctx s_resp s_w]; auto. apply wrel_log; auto. }
  destruct (c_resp x); cbn [s_ctx s_resp s_w].
  - apply (K x r).
  - apply (K (mkctx (c_state x) true (c_head x) (r_buf r) (c_lf x) (c_lfl x) (c_lv x) (c_lvl x)) (set_r_flags (set_r_hcount (set_r_headers (set_r_body (set_r_status r 0) None 0) None 0) 0) 0)).
Qed.

(** The shifted clock. *)
Definition shift (tf : timefn) (v : Z) : Z := match tf with TUser => (v + c) mod 4294967296 | _ => v end.
Lemma shift_diff tf a b : u32 (shift tf a - shift tf b) = u32 (a - b).
Proof. unfold u32, two32, shift. destruct tf; auto. change (2 ^ 32) with 4294967296. rewrite <- Zminus_mod. f_equal. lia. Qed.
Lemma time_rel E tf w w' : wrel w w' -> rrel (fun a b => fst b = shift tf (fst a) /\ wrel (snd a) (snd b)) (get_time E tf w) (get_time (shifted c E) tf w').
Proof.
  intros W. unfold get_time. destruct tf; cbn [rrel]; auto. cbn [fst snd shift]. rewrite (sc_nt _ _ _ _ W). cbn [shifted e_time].
  assert (Q : u32 (e_time E (w_nt w) + c) = (u32 (e_time E (w_nt w)) + c) mod 4294967296) by (unfold u32, two32; change (2 ^ 32) with 4294967296; rewrite Zplus_mod_idemp_l; reflexivity).
  rewrite Q. split; [auto|]. destruct W as [M1 M2 M3 M4 (tr&A&B)]. constructor; cbn [w_mem w_ns w_nr w_nt w_tr]; auto.
  exists (tr ++ [TTime (u32 (e_time E (w_nt w)))]). rewrite A, B, map_app, <- !app_assoc. auto.
Qed.

Lemma recv_loop_rel cfg E P retry fuel : forall total last ps s s', srel s s' ->
  rrel (fun a b => fst b = fst a /\ srel (snd a) (snd b)) (recv_loop fuel cfg E P retry total last ps s)
       (recv_loop fuel cfg (shifted c E) P retry total (shift (r_time (s_resp s)) last) ps s').
Proof.
  induction fuel as [|fuel IH]; intros total last ps s s' H; cbn [recv_loop]; [cbn [rrel]; right; apply H|].
  destruct s as [x r w], s' as [x' r' w']. destruct H as [A B W]. cbn [s_ctx s_resp s_w] in *. subst x' r'.
  destruct (r_buf r) as [buf|]; [|reflexivity]. rewrite (sc_mem _ _ _ _ W), (sc_nr _ _ _ _ W). apply rrel_same. intros dst _. cbn [shifted e_recv].
  destruct (e_recv E (w_nr w) _) as [n d]. apply rrel_same. intros m1 _.
  set (w1 := w_after_recv w m1 dst _ n d). set (w1' := w_after_recv w' m1 dst _ n d).
  assert (W1 : wrel w1 w1').
  { destruct W as [M1 M2 M3 M4 (tr&A&B)]. constructor; cbn [w1 w1' w_after_recv w_mem w_ns w_nr w_nt w_tr]; auto.
    eexists (tr ++ [_]). rewrite A, B, map_app, <- !app_assoc. auto. }
  clearbody w1 w1'. destruct (n <? 0); [cbn [rrel fst snd]; split; [auto|constructor; auto]|]. cbn [s_w].
  eapply rrel_bind; [apply time_rel; exact W1|]. intros [t w2] [t' w2'] _ (QT&W2). cbn [fst snd] in QT, W2. subst t'.
  assert (S2 : srel (mkst x r w2) (mkst x r w2')) by (constructor; auto).
  destruct (0 <? n).
  - eapply rrel_bind; [apply parse_rel; exact S2|]. intros [[st ps'] s3] [[st' ps2'] s3'] _ (C1&C2&C3). cbn [fst snd s_resp] in *. assert (st' = st /\ ps2' = ps') as (->&->) by (split; congruence).
    rewrite (sl_ctx _ _ C2), (sl_resp _ _ C2). destruct (is_success st && _ && _).
    + rewrite <- C3. apply IH. exact C2.
    + cbn [rrel fst snd]. auto.
  - rewrite shift_diff. destruct (retry <=? u32 (t - last)).
    + eapply rrel_bind; [apply parse_rel; exact S2|]. intros [[st ps'] s3] [[st' ps2'] s3'] _ (C1&C2&C3). cbn [fst snd s_resp] in *. assert (st' = st) as -> by congruence. cbn [rrel fst snd]. auto.
    + cbn [s_ctx]. destruct ((match c_state x with HTTP_PARSING_COMPLETE => false | _ => true end) && (total <? r_bufLen r)).
      * apply (IH total last ps (mkst x r w2) (mkst x r w2')). exact S2.
      * cbn [rrel fst snd]. auto.
Qed.
Lemma receive_rel fuel cfg E P t r rh w w' : wrel w w' ->
  rrel (fun a b => fst b = fst a /\ wrel (snd a) (snd b)) (ReceiveAndParseHttpResponse fuel cfg E P t r rh w) (ReceiveAndParseHttpResponse fuel cfg (shifted c E) P t r rh w').
Proof.
  intros W. unfold ReceiveAndParseHttpResponse. destruct t as [t|]; [|reflexivity]. apply rrel_same. intros _ _. destruct r as [r|]; [|reflexivity]. destruct rh as [rh|]; [|reflexivity].
  rewrite (sc_mem _ _ _ _ W). apply rrel_same. intros x _. cbv zeta. eapply rrel_bind; [apply time_rel; exact W|]. intros [t0 w1] [t0' w1'] _ (QT&W1). cbn [fst snd] in QT, W1. subst t0'.
  eapply rrel_bind; [apply (recv_loop_rel cfg E P _ fuel 0 t0 (p_init P) (mkst x r w1) (mkst x r w1')); constructor; auto|].
  intros [[st total] s] [[st' total'] s'] _ (C1&C2). cbn [fst snd] in *. assert (st' = st /\ total' = total) as (->&->) by (split; congruence).
  rewrite (sl_ctx _ _ C2), (sl_resp _ _ C2). apply rrel_same. intros [st2 r2] _. destruct (is_success st2).
  - apply rrel_same. intros st3 _. cbn [rrel fst snd]. split; [auto|apply C2].
  - cbn [rrel fst snd]. split; [auto|apply C2].
Qed.

(** The sending half. *)
Lemma send_loop_rel E tf retry fuel : forall p rem last w w', wrel w w' ->
  rrel (fun a b => fst b = fst a /\ wrel (snd a) (snd b)) (send_loop fuel E tf retry p rem last w) (send_loop fuel (shifted c E) tf retry p rem (shift tf last) w').
Proof.
  induction fuel as [|fuel IH]; intros p rem last w w' W; cbn [send_loop]; [cbn [rrel]; auto|]. destruct (rem <=? 0); [cbn [rrel fst snd]; auto|].
  rewrite (sc_mem _ _ _ _ W), (sc_ns _ _ _ _ W). apply rrel_same. intros d _. cbn [shifted e_send]. set (r := e_send E (w_ns w) rem).
  assert (W1 : wrel (w_after_send w d r) (w_after_send w' d r)).
  { destruct W as [M1 M2 M3 M4 (tr&A&B)]. constructor; cbn [w_after_send w_mem w_ns w_nr w_nt w_tr]; auto. exists (tr ++ [TSend d r]). rewrite A, B, map_app, <- !app_assoc. auto. }
  destruct (r <? 0); [cbn [rrel fst snd]; auto|]. destruct (0 <? r).
  - apply rrel_same. intros _ _. eapply rrel_bind; [apply time_rel; exact W1|]. intros [t w2] [t' w2'] _ (QT&W2). cbn [fst snd] in QT, W2. subst t'. rewrite (sc_mem _ _ _ _ W2). apply rrel_same. intros p' _. apply IH. exact W2.
  - eapply rrel_bind; [apply time_rel; exact W1|]. intros [t w2] [t' w2'] _ (QT&W2). cbn [fst snd] in QT, W2. subst t'. rewrite shift_diff. destruct (retry <=? u32 (t - last)); [cbn [rrel fst snd]; auto|]. apply IH. exact W2.
Qed.
Lemma data_rel fuel cfg E t tf p n w w' : wrel w w' ->
  rrel (fun a b => fst b = fst a /\ wrel (snd a) (snd b)) (SendHttpData fuel cfg E t tf p n w) (SendHttpData fuel cfg (shifted c E) t tf p n w').
Proof.
  intros W. unfold SendHttpData. destruct t as [t|]; [|reflexivity]. apply rrel_same. intros _ _. destruct p as [p|]; [|reflexivity]. cbv zeta.
  eapply rrel_bind; [apply time_rel; exact W|]. intros [t0 w1] [t0' w1'] _ (QT&W1). cbn [fst snd] in QT, W1. subst t0'. apply send_loop_rel. exact W1.
Qed.
Lemma headers_rel fuel cfg E t tf h n fl w w' : wrel w w' ->
  rrel (fun a b => fst b = fst a /\ wrel (snd a) (snd b)) (SendHttpHeaders fuel cfg E t tf h n fl w) (SendHttpHeaders fuel cfg (shifted c E) t tf h n fl w').
Proof.
  intros W. unfold SendHttpHeaders. destruct t as [t|]; [|reflexivity]. apply rrel_same. intros _ _. destruct h as [h|]; [|reflexivity]. rewrite (sc_mem _ _ _ _ W).
  apply rrel_same. intros [[st h1] m1] _. destruct (is_success st); [|cbn [rrel fst snd]; split; [auto|apply wrel_mem; auto]].
  eapply rrel_bind; [apply data_rel; apply wrel_mem; exact W|]. intros [st2 w2] [st2' w2'] _ (C1&C2). cbn [fst snd rrel] in *. subst st2'. auto.
Qed.
Lemma request_rel fuel cfg E t tf h b n fl w w' : wrel w w' ->
  rrel (fun a b => fst b = fst a /\ wrel (snd a) (snd b)) (sendHttpRequest fuel cfg E t tf h b n fl w) (sendHttpRequest fuel cfg (shifted c E) t tf h b n fl w').
Proof.
  intros W. unfold sendHttpRequest. do 4 (apply rrel_same; intros _ _). eapply rrel_bind; [apply headers_rel; exact W|]. intros [[st h1] w1] [[st' h1'] w1'] _ (C1&C2). cbn [fst snd] in *.
  assert (st' = st /\ h1' = h1) as (->&->) by (split; congruence). destruct (is_success st); [|cbn [rrel fst snd]; auto]. destruct b as [b|]; [|cbn [rrel fst snd]; auto].
  unfold sendHttpBody. destruct t as [t|]; [|reflexivity]. apply (rrel_bind (fun a b => fst b = fst a /\ wrel (snd a) (snd b))).
  - do 2 (apply rrel_same; intros _ _). apply data_rel. exact C2.
  - intros [st2 w2] [st2' w2'] _ (D1&D2). cbn [fst snd rrel] in *. subst st2'. auto.
Qed.
Lemma Send_rel fuel cfg E P t h b n r fl w w' : wrel w w' ->
  rrel (fun a b => fst b = fst a /\ wrel (snd a) (snd b)) (Send fuel cfg E P t h b n r fl w) (Send fuel cfg (shifted c E) P t h b n r fl w').
Proof.
  intros W. unfold Send. cbv zeta. assert (INV : rrel (fun a b : status * option reqHeaders * option response * world => fst b = fst a /\ wrel (snd a) (snd b)) (Ret (HTTPInvalidParameter, h, r, w)) (Ret (HTTPInvalidParameter, h, r, w'))) by (cbn [rrel fst snd]; auto).
  destruct t as [t|]; [|exact INV]. destruct (negb (t_send t)); [exact INV|]. destruct (negb (t_recv t)); [exact INV|]. destruct h as [rh|]; [|exact INV].
  destruct (match rh_buf rh with None => true | _ => false end); [exact INV|]. destruct (rh_len rh <? HTTP_MINIMUM_REQUEST_LINE_LENGTH); [exact INV|]. destruct (rh_bufLen rh <? rh_len rh); [exact INV|].
  destruct r as [r|]; [|exact INV]. destruct (match r_buf r with None => true | _ => false end); [exact INV|]. destruct (r_bufLen r =? 0); [exact INV|].
  destruct (match b with None => 0 <? n | _ => false end); [exact INV|]. destruct (INT32_MAX mod SZ cfg <? n); [exact INV|]. clear INV.
  eapply rrel_bind; [apply request_rel; exact W|]. intros [[st h1] w1] [[st' h1'] w1'] _ (C1&C2). cbn [fst snd] in *.
  assert (st' = st /\ h1' = h1) as (->&->) by (split; congruence). destruct (is_success st); [|cbn [rrel fst snd]; auto].
  eapply rrel_bind; [apply receive_rel; exact C2|]. intros [[st2 r2] w2] [[st2' r2'] w2'] _ (D1&D2). cbn [fst snd rrel] in *. assert (st2' = st2 /\ r2' = r2) as (->&->) by (split; congruence). auto.
Qed.
End clock.

Lemma sbc_refl c w : same_but_clock c (w_tr w) w w.
Proof. constructor; auto. exists []. cbn [map]. rewrite app_nil_r. auto. Qed.
Lemma rrel_agree c T {A} (x y : res (A * world)) : rrel c T (fun a b => fst b = fst a /\ same_but_clock c T (snd a) (snd b)) x y -> agree c T x y.
Proof. destruct x as [[a w]| | |], y as [[b w']| | |]; cbn [rrel agree fst snd]; auto. Qed.
(** ** C76 *)
Theorem C76_send : forall c fuel cfg E P t h body bodyLen r flags w,
  agree c (w_tr w) (Send fuel cfg E P t h body bodyLen r flags w) (Send fuel cfg (shifted c E) P t h body bodyLen r flags w).
Proof. intros. apply rrel_agree, Send_rel, sbc_refl. Qed.
Theorem C76_receive : forall c fuel cfg E P t r h w,
  agree c (w_tr w) (ReceiveAndParseHttpResponse fuel cfg E P t r h w) (ReceiveAndParseHttpResponse fuel cfg (shifted c E) P t r h w).
Proof. intros. apply rrel_agree, receive_rel, sbc_refl. Qed.
Theorem C76_send_headers : forall c fuel cfg E t tf h bodyLen flags w,
  agree c (w_tr w) (SendHttpHeaders fuel cfg E t tf h bodyLen flags w) (SendHttpHeaders fuel cfg (shifted c E) t tf h bodyLen flags w).
Proof. intros. apply rrel_agree, headers_rel, sbc_refl. Qed.
Theorem C76_send_data : forall c fuel cfg E t tf p n w,
  agree c (w_tr w) (SendHttpData fuel cfg E t tf p n w) (SendHttpData fuel cfg (shifted c E) t tf p n w).
Proof. intros. apply rrel_agree, data_rel, sbc_refl. Qed.
(** The response stops coming: the last data are read at 500 ms, and the call ends when the clock says 1500 ms.  With the clock shifted by
    -1000 ms it wraps around between these readings, which are 4294966796 and 500; the call ends after as many reads. *)
Example C76_case :
  (exists h' r' w1, Send 100 cfg0 (env_ex [B "HTTP/1.1 200 OK"]) refparser (Some trr) (Some hx) (Some (mkptr 2 0)) 4 (Some rsep) 0 wsep = Ret (HTTPPartialResponse, h', r', w1) /\
     nth 8 (w_tr w1) (TTime 0) = TTime 500 /\ nth 34 (w_tr w1) (TTime 0) = TTime 1500 /\ w_nr w1 = 11%nat) /\
  (exists h' r' w1, Send 100 cfg0 (shifted (-1000) (env_ex [B "HTTP/1.1 200 OK"])) refparser (Some trr) (Some hx) (Some (mkptr 2 0)) 4 (Some rsep) 0 wsep
       = Ret (HTTPPartialResponse, h', r', w1) /\ nth 8 (w_tr w1) (TTime 0) = TTime 4294966796 /\ nth 34 (w_tr w1) (TTime 0) = TTime 500 /\ w_nr w1 = 11%nat).
Proof. split; do 3 eexists; (split; [vm_compute; reflexivity|]); (split; [vm_compute; reflexivity|]); split; vm_compute; reflexivity. Qed.
Print Assumptions C76_send.
Print Assumptions C76_receive.
Print Assumptions C76_send_headers.
Print Assumptions C76_send_data.
