(** ProofsRaw.v — the receive loop with HTTP_RESPONSE_DO_NOT_PARSE_BODY_FLAG and any parser that reads header sections. *)
From Verif Require Import Base Lib ModelRequest ModelSend ModelResponse SpecRequest SpecSend SpecResponse ProofsRequest ProofsSend ProofsSend2
  ProofsResponse ProofsResponse2 ProofsResponse3 ProofsResponse4 ProofsResponse5 RefParser RefRun SpecHttp SpecParser HttpRun ProofsFollow ProofsEnd Demo DemoResponse
  PropsResponse PropsHttp ProofsAny SpecRaw.

(** The parser's state after the calls in a log. *)
Definition rst_after (P : parser) (ps : PS P) (x : tev) : PS P :=
  match x with TParse _ b => snd (heading ps (p_exec P ps b) view0) | _ => ps end.
Definition rpst (P : parser) (tr : list tev) : PS P := fold_left (rst_after P) tr (p_init P).
Definition rfollows (P : parser) (tr : list tev) : Prop :=
  forall A p b evs e C, tr = A ++ TParse p b :: evs ++ TParsed e :: C -> Forall inner evs ->
    heading (rpst P A) (p_exec P (rpst P A) b) (view_step (view_of A) (TParse p b)) = (view_of (A ++ TParse p b :: evs), e, rpst P (A ++ [TParse p b])).

Definition rrep (ev : pevent) : cbret := match ev with EvHeadersComplete _ _ _ _ => CbPause | _ => CbContinue end.
Lemma callback_raw cfg start ev s r s' : callback cfg start ev s = Ret (r, s') -> Z.testbit (r_opt (s_resp s)) 0 = true -> r = rrep ev.
Proof.
  destruct ev; cbn [callback]; intros H.
  - injection H as <- <-. reflexivity.
  - unfold onStatus in H. inv_bind H. inv_bind H. injection H as <- <-. reflexivity.
  - unfold onStatusComplete in H. inv_bind H. injection H as <- <-. reflexivity.
  - unfold onHeaderField in H. inv_bind H. inv_bind H. inv_bind H. destruct (c_lf (s_ctx a1)); [inv_bind H|]; injection H as <- <-; reflexivity.
  - unfold onHeaderValue in H. inv_bind H. inv_bind H. injection H as <- <-. reflexivity.
  - unfold onHeadersComplete in H. inv_bind H. destruct (c_cur (s_ctx s)); [|discriminate].
    destruct (r_buf (s_resp s)); [|discriminate]. inv_bind H. inv_bind H. inv_bind H. inv_bind H. inv_bind H. inv_bind H.
    assert (OP : r_opt a5 = r_opt (s_resp s)).
    { destruct (r_headers (set_r_hdone (s_resp s) 1)); [inv_bind E5; inv_bind E5|]; injection E5 as <-; reflexivity. }
    inv_bind H. apply pch_kept in E6. injection H as <- <-.
    match type of E6 with kept ?x _ => assert (K0 : kept s x) end.
    { apply kept_same; try reflexivity. cbn [s_resp]. rewrite <- OP. destruct close, keepalive; reflexivity. }
    pose proof (kept_trans _ _ _ K0 E6) as [K1 K2 K3]. intros TB. rewrite K2, dnp_bit, TB. reflexivity.
  - unfold onBody in H. inv_bind H. destruct (r_buf (s_resp s)); [|discriminate]. inv_bind H. inv_bind H. inv_bind H. inv_bind H. inv_bind H.
    destruct (match r_body (s_resp s) with Some b => _ | None => _ end). inv_bind H. inv_bind H. inv_bind H. inv_bind H.
    injection H as <- <-. reflexivity.
  - injection H as <- <-. reflexivity.
Qed.
Lemma run_tree_raw cfg start {S} (s0 : S) t : forall s e pos s1 s', run_tree cfg start s0 t s = Ret (e, pos, s1, s') ->
  Z.testbit (r_opt (s_resp s)) 0 = true ->
  exists evs, keeps s s' evs /\ Forall inner evs /\ forall v, heading s0 t v = (fold_left view_step evs v, e, s1).
Proof.
  induction t as [e0 sd|ev k IH]; intros s e pos s1 s' H TB; cbn [run_tree] in H.
  - injection H as <- <- <- <-. exists []. split; [constructor; auto; rewrite app_nil_r; auto|]. split; [constructor|]. reflexivity.
  - inv_bind H. destruct a as [r s2]. pose proof (callback_raw _ _ _ _ _ _ E TB) as RP. apply callback_kept in E. cbn [s_ctx s_resp s_w] in E. destruct E as ([K1 K2 (hs&K3&K4)]&_).
    cbn [s_ctx s_resp s_w log w_tr] in K1, K2, K3.
    set (s3 := mkst (s_ctx s2) (s_resp s2) (log (s_w s2) (TReply r))) in H.
    assert (T3 : w_tr (s_w s3) = w_tr (s_w s) ++ TEvent ev :: hs ++ [TReply r]).
    { unfold s3. cbn [s_w log w_tr]. rewrite K3, <- !app_assoc. reflexivity. }
    change (r_opt (s_resp s2)) with (r_opt (s_resp s3)) in K2. change (c_head (s_ctx s2)) with (c_head (s_ctx s3)) in K1. clearbody s3.
    assert (IH1 : Forall inner (TEvent ev :: hs ++ [TReply r])).
    { constructor; [exact I|]. apply Forall_app. split; [|constructor; [exact I|constructor]]. eapply Forall_impl; [|exact K4]. intros []; cbn; tauto. }
    assert (FV : forall v, fold_left view_step (TEvent ev :: hs ++ [TReply r]) v = view_event v ev).
    { intros v. cbn [fold_left view_step]. rewrite fold_left_app, (only_hdr_view _ _ K4). reflexivity. }
    destruct (match ev with EvHeadersComplete _ _ _ _ => true | _ => false end) eqn:EH.
    + destruct ev; try discriminate EH. cbn [rrep] in RP. subst r. injection H as <- <- <- <-.
      exists (TEvent (EvHeadersComplete pos0 clen close keepalive) :: hs ++ [TReply CbPause]). split; [|split; [exact IH1|]].
      * constructor; auto.
      * intros v. rewrite FV. reflexivity.
    + assert (RC : r = CbContinue) by (rewrite RP; destruct ev; try reflexivity; discriminate EH). rewrite RC in H.
      destruct (IH CbContinue s3 e pos s1 s' H) as (evs&[G1 G2 G3]&IN&TX); [rewrite K2; auto|].
      exists ((TEvent ev :: hs ++ [TReply r]) ++ evs). split; [|split].
      * constructor; [congruence|congruence|]. rewrite G3, T3, <- app_assoc. reflexivity.
      * apply Forall_app. auto.
      * intros v. rewrite fold_left_app, FV, <- TX. destruct ev; try reflexivity; discriminate EH.
Qed.
Lemma rparse_follow cfg P ps s n st ps' s' : parseHttpResponse cfg P ps s n = Ret (st, ps', s') -> Z.testbit (r_opt (s_resp s)) 0 = true ->
  exists p b evs e, keeps s s' (TParse p b :: evs ++ [TParsed e]) /\ Forall inner evs /\
    forall v, heading ps (p_exec P ps b) v = (fold_left view_step evs v, e, ps').
Proof.
  rewrite parse_reset. intros H TB. destruct (reset_same s) as (_&_&_&_&RW&RO).
  assert (RH : c_head (s_ctx (reset s)) = c_head (s_ctx s)) by (unfold reset; destruct (c_resp (s_ctx s)); reflexivity).
  assert (RR : c_resp (s_ctx (reset s)) = true) by (unfold reset; destruct (c_resp (s_ctx s)) eqn:Q; auto).
  rewrite <- RO in TB.
  assert (KX : forall evs, keeps (reset s) s' evs -> keeps s s' evs) by (intros evs [A B C]; constructor; congruence).
  set (s0 := reset s) in *. clearbody s0. clear RH RO RW.
  unfold parseHttpResponse in H. rewrite RR in H. destruct (c_cur (s_ctx s0)) as [start|]; [|discriminate].
  inv_bind H. inv_bind H. destruct a0 as (((e&epos)&ps1)&s2). inv_bind H. injection H as <- <- <-.
  apply run_tree_raw in E0; [|exact TB]. destruct E0 as (evs&[K1 K2 K3]&IN&TX). cbn [s_ctx s_resp s_w log w_tr] in *.
  exists start, a, evs, e. split; [apply KX|split; auto]. constructor; cbn [s_ctx s_resp s_w set_cur c_head log w_tr]; auto.
  rewrite K3, <- !app_assoc. reflexivity.
Qed.

(** ** Logs *)
Lemma rfollows_nil P : rfollows P [].
Proof. intros A p b evs e C H. destruct A; discriminate. Qed.
Lemma rpst_app P A B : rpst P (A ++ B) = fold_left (rst_after P) B (rpst P A).
Proof. unfold rpst. apply fold_left_app. Qed.
(** A log of other things does no harm. *)
Lemma rfollows_other P T x : rfollows P T -> match x with TParse _ _ | TParsed _ => False | _ => True end -> rfollows P (T ++ [x]).
Proof.
  intros F NX A p b evs e C H IN.
  destruct (exists_last (l := TParse p b :: evs ++ TParsed e :: C)) as (l&y&HL); [discriminate|].
  rewrite HL, app_assoc in H. apply app_inj_tail in H. destruct H as (H&<-).
  destruct C as [|c C] using rev_ind.
  - exfalso. change (TParse p b :: evs ++ [TParsed e]) with ((TParse p b :: evs) ++ [TParsed e]) in HL. apply app_inj_tail in HL. destruct HL as (_&<-). exact NX.
  - clear IHC. replace (TParse p b :: evs ++ TParsed e :: C ++ [c]) with ((TParse p b :: evs ++ TParsed e :: C) ++ [c]) in HL by (cbn [app]; rewrite <- app_assoc; reflexivity).
    apply app_inj_tail in HL. destruct HL as (<-&_). exact (F _ _ _ _ _ _ H IN).
Qed.
(** One more call of the parser. *)
Lemma rfollows_block P T p b evs e ps' : rfollows P T -> Forall inner evs ->
  (forall v, heading (rpst P T) (p_exec P (rpst P T) b) v = (fold_left view_step evs v, e, ps')) ->
  rfollows P (T ++ TParse p b :: evs ++ [TParsed e]) /\ rpst P (T ++ TParse p b :: evs ++ [TParsed e]) = ps'.
Proof.
  intros F IN TX.
  assert (PS1 : rpst P (T ++ [TParse p b]) = ps') by (rewrite rpst_app; cbn [fold_left rst_after]; rewrite TX; reflexivity).
  assert (NP : forall l q, Forall inner l -> fold_left (rst_after P) l q = q).
  { induction l as [|x l IH]; intros q H; [auto|]. inversion H; subst. cbn [fold_left]. rewrite IH by auto. destruct x; cbn in *; tauto. }
  split.
  - intros A p0 b0 evs0 e0 C H IN0.
    destruct (split_at _ _ _ _ _ H) as [(A2&H1&H2)|(X2&H1&H2)].
    + (* the parser call lies in T *)
      destruct (split_at (evs0) (TParsed e0 :: C) (TParsed e0) evs0 C eq_refl) as [(?&Q&_)|_].
      { apply (f_equal (@length _)) in Q. rewrite app_length in Q. cbn in Q. lia. }
      destruct (split_at A2 (TParse p b :: evs ++ [TParsed e]) (TParsed e0) evs0 C) as [(A3&Q1&Q2)|(X3&Q1&Q2)]; [congruence| |].
      * apply (F A p0 b0 evs0 e0 A3); [rewrite H1, Q1; reflexivity|auto].
      * exfalso. destruct X3 as [|x X3]; [discriminate|]. injection Q2 as <- Q2. rewrite Q1 in IN0. apply Forall_app in IN0. destruct IN0 as (_&IN0). inversion IN0 as [|? ? Q3]; subst. exact Q3.
    + destruct X2 as [|x X2].
      * injection H2 as -> -> H2. rewrite app_nil_r in H1. subst A.
        destruct (split_at evs [TParsed e] (TParsed e0) evs0 C H2) as [(A3&Q1&Q2)|(X3&Q1&Q2)].
        { exfalso. rewrite Q1 in IN. apply Forall_app in IN. destruct IN as (_&IN). inversion IN as [|? ? Q3]; subst. exact Q3. }
        destruct X3 as [|x X3]; [|destruct X3; discriminate]. injection Q2 as <- _. rewrite app_nil_r in Q1. subst evs0.
        rewrite TX, PS1, view_of_app. reflexivity.
      * exfalso. injection H2 as <- H2.
        assert (HI : In (TParse p0 b0) (evs ++ [TParsed e])) by (rewrite H2; apply in_or_app; right; left; auto).
        apply in_app_or in HI. destruct HI as [HI|[HI|[]]]; [|discriminate]. rewrite Forall_forall in IN. exact (IN _ HI).
  - rewrite <- PS1. rewrite (rpst_app P T [TParse p b]), rpst_app. cbn [fold_left]. rewrite fold_left_app, (NP evs) by auto. reflexivity.
Qed.

(** ** The loop *)
Lemma rfollows_tick P T tf t : rfollows P T -> rfollows P (T ++ tick tf t).
Proof. intros F. destruct tf; cbn [tick]; rewrite ?app_nil_r; auto. apply rfollows_other; cbn; auto. Qed.
Lemma rpst_tick P T tf t : rpst P (T ++ tick tf t) = rpst P T.
Proof. destruct tf; cbn [tick]; rewrite ?app_nil_r; auto. rewrite rpst_app. reflexivity. Qed.

Lemma rloop_follow cfg E P retry fuel T0 : forall total last ps s T st tot s',
  recv_loop fuel cfg E P retry total last ps s = Ret (st, tot, s') -> Z.testbit (r_opt (s_resp s)) 0 = true ->
  w_tr (s_w s) = T0 ++ T -> rfollows P T -> rpst P T = ps ->
  exists T', w_tr (s_w s') = T0 ++ T' /\ rfollows P T'.
Proof.
  induction fuel as [|fuel IH]; intros total last ps s T st tot s' H TB HT F PQ; cbn [recv_loop] in H; [discriminate|].
  destruct (r_buf (s_resp s)) as [buf|]; [|discriminate]. inv_bind H.
  destruct (e_recv E (w_nr (s_w s)) ((r_bufLen (s_resp s) - total) mod SZ cfg)) as [n d]. inv_bind H. cbn [s_ctx s_w] in H.
  set (rv := TRecv a ((r_bufLen (s_resp s) - total) mod SZ cfg) n d) in *.
  assert (F1 : rfollows P (T ++ [rv])) by (apply rfollows_other; [auto|exact I]).
  assert (P1 : rpst P (T ++ [rv]) = ps) by (rewrite rpst_app; exact PQ).
  assert (W1 : forall m, w_tr (w_after_recv (s_w s) m a ((r_bufLen (s_resp s) - total) mod SZ cfg) n d) = T0 ++ T ++ [rv]) by (intros; cbn [w_after_recv w_tr]; rewrite HT, app_assoc; reflexivity).
  destruct (n <? 0). { injection H as <- <- <-. exists (T ++ [rv]). split; [apply W1|auto]. }
  inv_bind H. destruct a1 as [t w2]. pose proof (get_time_keeps _ _ _ _ _ E2) as W2. rewrite W1, <- app_assoc in W2.
  pose proof (rfollows_tick P _ (r_time (s_resp s)) t F1) as F2. pose proof (rpst_tick P (T ++ [rv]) (r_time (s_resp s)) t) as P2. rewrite P1 in P2.
  set (T2 := (T ++ [rv]) ++ tick (r_time (s_resp s)) t) in *.
  assert (PF : forall k st ps' s3, parseHttpResponse cfg P ps (mkst (s_ctx s) (s_resp s) w2) k = Ret (st, ps', s3) ->
    exists T3, w_tr (s_w s3) = T0 ++ T3 /\ rfollows P T3 /\ rpst P T3 = ps' /\ r_opt (s_resp s3) = r_opt (s_resp s)).
  { intros k st0 ps' s3 HP. apply rparse_follow in HP; [|exact TB]. destruct HP as (p&b&evs&e&[K1 K2 K3]&IN&TX). cbn [s_ctx s_resp s_w] in *.
    rewrite <- P2 in TX. destruct (rfollows_block P T2 p b evs e ps' F2 IN TX) as (F3&P3).
    eexists. split; [rewrite K3, W2, <- app_assoc; reflexivity|]. auto. }
  destruct (0 <? n).
  - inv_bind H. destruct a1 as ((st1&ps')&s3). destruct (PF _ _ _ _ E3) as (T3&A1&A2&A3&A5).
    destruct (is_success st1 && _ && _).
    + eapply IH; eauto. rewrite A5. auto.
    + injection H as <- <- <-. eauto.
  - destruct (retry <=? u32 (t - last)).
    + inv_bind H. destruct a1 as ((st1&ps')&s3). destruct (PF _ _ _ _ E3) as (T3&A1&A2&A3&A5). injection H as <- <- <-. eauto.
    + destruct (_ && _).
      * eapply (IH total last ps (mkst (s_ctx s) (s_resp s) w2) T2); eauto.
      * injection H as <- <- <-. exists T2. split; auto.
Qed.

Lemma rreceives_follow fuel cfg E P t r rh buf L req w st r' w' tr :
  recv_setup cfg E P t r rh buf L req w -> no_parse_body r = true -> receives fuel cfg E P t r rh w st r' w' tr -> rfollows P tr.
Proof.
  intros HS ND (HR&HT). unfold ReceiveAndParseHttpResponse in HR. inv_bind HR. inv_bind HR.
  inv_bind HR. destruct a1 as [t0 w1]. pose proof (get_time_keeps _ _ _ _ _ E2) as W1.
  inv_bind HR. destruct a1 as ((st1&tot)&s).
  destruct (rloop_follow cfg E P _ fuel (w_tr w) _ _ _ _ (tick (r_time r) t0) _ _ _ E3 ND) as (T'&A1&A2).
  - exact W1.
  - apply (rfollows_tick _ []). apply rfollows_nil.
  - apply (rpst_tick _ []).
  - inv_bind HR. destruct a1 as [st2 r2].
    assert (W : s_w s = w') by (destruct (is_success st2); [inv_bind HR|]; injection HR; auto).
    rewrite <- W, A1 in HT. apply app_inv_head in HT. subst T'. exact A2.
Qed.

(** ** A loop that is still running *)
Lemma rloop_follow_more cfg E P retry fuel T0 : forall total last ps s T w',
  recv_loop fuel cfg E P retry total last ps s = More w' -> Z.testbit (r_opt (s_resp s)) 0 = true ->
  w_tr (s_w s) = T0 ++ T -> rfollows P T -> rpst P T = ps ->
  exists T', w_tr w' = T0 ++ T' /\ rfollows P T'.
Proof.
  induction fuel as [|fuel IH]; intros total last ps s T w' H TB HT F PQ; cbn [recv_loop] in H; [injection H as <-; eauto|].
  destruct (r_buf (s_resp s)) as [buf|]; [|discriminate]. inv_more H.
  destruct (e_recv E (w_nr (s_w s)) ((r_bufLen (s_resp s) - total) mod SZ cfg)) as [n d]. inv_more H. cbn [s_ctx s_w] in H.
  set (rv := TRecv a ((r_bufLen (s_resp s) - total) mod SZ cfg) n d) in *.
  assert (F1 : rfollows P (T ++ [rv])) by (apply rfollows_other; [auto|exact I]).
  assert (P1 : rpst P (T ++ [rv]) = ps) by (rewrite rpst_app; exact PQ).
  assert (W1 : forall m, w_tr (w_after_recv (s_w s) m a ((r_bufLen (s_resp s) - total) mod SZ cfg) n d) = T0 ++ T ++ [rv]) by (intros; cbn [w_after_recv w_tr]; rewrite HT, app_assoc; reflexivity).
  destruct (n <? 0). { discriminate H. }
  inv_more H. destruct a1 as [t w2]. pose proof (get_time_keeps _ _ _ _ _ E2) as W2. rewrite W1, <- app_assoc in W2.
  pose proof (rfollows_tick P _ (r_time (s_resp s)) t F1) as F2. pose proof (rpst_tick P (T ++ [rv]) (r_time (s_resp s)) t) as P2. rewrite P1 in P2.
  set (T2 := (T ++ [rv]) ++ tick (r_time (s_resp s)) t) in *.
  assert (PF : forall k st ps' s3, parseHttpResponse cfg P ps (mkst (s_ctx s) (s_resp s) w2) k = Ret (st, ps', s3) ->
    exists T3, w_tr (s_w s3) = T0 ++ T3 /\ rfollows P T3 /\ rpst P T3 = ps' /\ r_opt (s_resp s3) = r_opt (s_resp s)).
  { intros k st0 ps' s3 HP. apply rparse_follow in HP; [|exact TB]. destruct HP as (p&b&evs&e&[K1 K2 K3]&IN&TX). cbn [s_ctx s_resp s_w] in *.
    rewrite <- P2 in TX. destruct (rfollows_block P T2 p b evs e ps' F2 IN TX) as (F3&P3).
    eexists. split; [rewrite K3, W2, <- app_assoc; reflexivity|]. auto. }
  destruct (0 <? n).
  - inv_more H. destruct a1 as ((st1&ps')&s3). destruct (PF _ _ _ _ E3) as (T3&A1&A2&A3&A5).
    destruct (is_success st1 && _ && _).
    + eapply IH; eauto. rewrite A5. auto.
    + discriminate H.
  - destruct (retry <=? u32 (t - last)).
    + inv_more H. destruct a1 as ((st1&ps')&s3). destruct (PF _ _ _ _ E3) as (T3&A1&A2&A3&A5). discriminate H.
    + destruct (_ && _).
      * eapply (IH total last ps (mkst (s_ctx s) (s_resp s) w2) T2); eauto.
      * discriminate H.
Qed.

Lemma rmore_follow fuel cfg E P t r rh buf L req w w' tr :
  recv_setup cfg E P t r rh buf L req w -> no_parse_body r = true -> ReceiveAndParseHttpResponse fuel cfg E P (Some t) (Some r) (Some rh) w = More w' -> w_tr w' = w_tr w ++ tr ->
  rfollows P tr.
Proof.
  intros HS ND HR HT. unfold ReceiveAndParseHttpResponse in HR. inv_more HR. inv_more HR.
  inv_more HR. destruct a1 as [t0 w1]. pose proof (get_time_keeps _ _ _ _ _ E2) as W1.
  assert (HL : recv_loop fuel cfg E P (match r_time r with TZero => 0 | _ => RECV_TO cfg end) 0 t0 (p_init P) (mkst a0 r w1) = More w').
  { match type of HR with bind ?x _ = _ => destruct x as [((st1&tot)&s)| | |] eqn:E3 end; cbn [bind] in HR; try discriminate HR; [|injection HR as ->; reflexivity].
    exfalso. inv_more HR. destruct a1 as [st2 r2]. destruct (is_success st2); [inv_more HR|]; discriminate HR. }
  destruct (rloop_follow_more cfg E P _ fuel (w_tr w) _ _ _ _ (tick (r_time r) t0) _ HL ND) as (T'&A1&A2).
  - exact W1.
  - apply (rfollows_tick _ []). apply rfollows_nil.
  - apply (rpst_tick _ []).
  - rewrite A1 in HT. apply app_inv_head in HT. subst T'. exact A2.
Qed.

(** ** The loop *)
Lemma rpst_inner P A p b evs e : Forall inner evs -> rpst P (A ++ TParse p b :: evs ++ [TParsed e]) = rpst P (A ++ [TParse p b]).
Proof.
  intros IN. assert (NP : forall l q, Forall inner l -> fold_left (rst_after P) l q = q).
  { induction l as [|x l IH]; intros q H; [auto|]. inversion H; subst. cbn [fold_left]. rewrite IH by auto. destruct x; cbn in *; tauto. }
  rewrite !rpst_app. cbn [fold_left]. rewrite fold_left_app, (NP evs) by auto. reflexivity.
Qed.
Lemma event_stream u ev : v_stream (view_event u ev) = v_stream u.
Proof.
  assert (FI : forall u, v_stream (finish u) = v_stream u) by (intros x; unfold finish; destruct (v_name x), (v_value x); auto).
  destruct ev; cbn [view_event]; auto; rewrite ?FI; reflexivity.
Qed.
Lemma heading_stream {S} (s0 : S) t : forall u, v_stream (fst (fst (heading s0 t u))) = v_stream u.
Proof. induction t as [e q|ev k IH]; intros u; cbn [heading]; [auto|]. destruct ev; rewrite ?IH; apply event_stream. Qed.
Lemma heard_stream P ps s v : heard P ps s v -> v_stream v = concat ps.
Proof.
  induction 1 as [|ps d s v s' v' H IH ND R]; [reflexivity|].
  pose proof (heading_stream s (p_exec P s d) (given v d)) as RS. rewrite R in RS. cbn [fst] in RS. rewrite RS, concat_app. cbn [given view_step v_stream concat]. rewrite IH, app_nil_r. reflexivity.
Qed.
Section raw.
Variables (P : parser) (resp : http).
Hypothesis RH : reads_heads P.
Hypothesis HO : head_ok resp.

Definition partly (v : view) : Prop := exists ps s rest, heard P ps s v /\ head_bytes resp = concat ps ++ rest /\ rest <> [] /\ v_msg v = (match ps with [] => MsgNone | _ => MsgBegun end).
Definition routcome (L : Z) (o : rout) (tr : list tev) (v : view) : Prop :=
  match o with
  | OMore | OFail => partly v
  | OStop e => (e = HPE_OK /\ partly v /\ zlen (v_stream v) = L /\ v_stream v <> []) \/ (e = HPE_PAUSED /\ says_head resp v /\ exists l n, v_stream v = head_bytes resp ++ l /\ last_recv tr n /\ zlen l < n)
  | OStall e => exists ps s v0 s' rest, heard P ps s v0 /\ head_bytes resp = concat ps ++ rest /\ rest <> [] /\ v_msg v0 = (match ps with [] => MsgNone | _ => MsgBegun end) /\
      heading s (p_exec P s []) (given v0 []) = (v, e, s')
  end.
Lemma routcome_app L o a tr v : routcome L o tr v -> routcome L o (a ++ tr) v.
Proof.
  destruct o; cbn [routcome]; auto. intros [H|(H1&H2&l&n&H3&H4&H5)]; [auto|]. right. split; [auto|]. split; [auto|]. exists l, n. split; [auto|]. split; [|auto].
  destruct H4 as (x&p&room&d&y&H4&H6). exists (a ++ x), p, room, d, y. rewrite H4, app_assoc. auto.
Qed.
(** The next piece. *)
Lemma next_piece ps s v b x y rest : heard P ps s v -> b <> [] -> head_bytes resp = concat ps ++ rest -> rest <> [] -> b ++ x = rest ++ y ->
  (exists v' s' rest', heading s (p_exec P s b) (given v b) = (v', HPE_OK, s') /\ heard P (ps ++ [b]) s' v' /\ head_bytes resp = concat (ps ++ [b]) ++ rest' /\ rest' <> [] /\ v_msg v' = MsgBegun /\ x = rest' ++ y) \/
  (exists v' l, heading s (p_exec P s b) (given v b) = (v', HPE_PAUSED, s) /\ says_head resp v' /\ b = rest ++ l).
Proof.
  intros HE BN EQ RN E. apply app_eq_app in E. destruct E as (l&[(E1&E2)|(E1&E2)]).
  - right. subst b. destruct (hd_whole _ RH resp ps rest l s v HO HE RN EQ) as (v'&X1&X2). eauto.
  - destruct l as [|c l].
    + right. rewrite app_nil_r in E1. subst b. destruct (hd_whole _ RH resp ps rest [] s v HO HE RN EQ) as (v'&X1&X2). rewrite app_nil_r in X1. exists v', []. rewrite app_nil_r. auto.
    + left. subst rest. destruct (hd_part _ RH resp ps b (c :: l) s v HO HE BN EQ ltac:(discriminate)) as (v'&s'&X1&X2).
      exists v', s', (c :: l). split; [exact X1|]. split; [econstructor; eauto|]. split; [rewrite concat_app; cbn [concat]; rewrite app_nil_r, <- app_assoc; exact EQ|]. split; [discriminate|]. auto.
Qed.

Lemma rrun_raw E T k last nr nt v tr o v' : recv_faithful E -> rrun E T k last nr nt v tr o v' ->
  forall A ps rest x y, rfollows P (A ++ tr) -> view_of A = v -> heard P ps (rpst P A) v -> head_bytes resp = concat ps ++ rest -> rest <> [] ->
  v_msg v = (match ps with [] => MsgNone | _ => MsgBegun end) -> data_received tr ++ x = rest ++ y ->
  routcome (k_L k) o tr v'.
Proof.
  intros F H.
  induction H as [|last nr nt v n d H1 H2|last nr nt v n d b e blk tr o v' H1 H2 H3 H4 H5 H6 H7 H8 IH|last nr nt v n d b e blk H1 H2 H3 H4 H5 H6 H7|last nr nt v d e blk H1 H2 H3|last nr nt v d tr o v' H1 H2 H3 IH];
    intros A ps rest x y FO VA PA EQ RN VM PR; cbn [data_received] in PR; [cbn [routcome]; unfold partly; eauto 10|cbn [routcome]; unfold partly; eauto 10| | | |].
  1,2: specialize (F nr (k_L k - zlen (v_stream v))); rewrite H1 in F; cbn [fst snd] in F; specialize (F H2); specialize (H4 F); subst d;
    destruct H6 as (evs&EV&->&_); pose proof (events_inner _ _ EV) as IN;
    cbn [data_received] in PR; replace (0 <? n) with true in PR by lia;
    set (rv := TRecv _ _ n b) in *; set (t := clk E (k_tf k) nt) in *;
    assert (BN : b <> []) by (intros ->; change (zlen (@nil Z)) with 0 in H3; lia);
    set (A1 := (A ++ [rv]) ++ tick (k_tf k) t);
    assert (V1 : view_of A1 = v) by (unfold A1; rewrite !view_of_app, VA; cbn [fold_left view_step]; apply view_tick);
    assert (P1 : rpst P A1 = rpst P A) by (unfold A1; rewrite rpst_tick, rpst_app; reflexivity);
    pose proof (heard_stream _ _ _ _ PA) as VS; rewrite <- app_assoc in PR;
    pose proof (next_piece _ _ _ _ _ _ _ PA BN EQ RN PR) as NP; set (p := poff (k_buf k) (zlen (v_stream v))) in *;
    change (given v b) with (view_step v (TParse p b)) in NP.
  - assert (FQ : A ++ rv :: tick (k_tf k) t ++ (TParse p b :: evs ++ [TParsed e]) ++ tr = A1 ++ TParse p b :: evs ++ TParsed e :: tr).
    { unfold A1. rewrite <- !app_assoc. cbn [app]. rewrite <- app_assoc. reflexivity. }
    rewrite FQ in FO. pose proof (FO A1 p b evs e tr eq_refl IN) as X. rewrite P1, V1 in X.
    assert (VB : fold_left view_step (TParse p b :: evs ++ [TParsed e]) v = view_of (A1 ++ TParse p b :: evs)).
    { rewrite view_of_app, V1. cbn [fold_left]. rewrite fold_left_app. reflexivity. }
    destruct NP as [(v1&s1&rest'&T1&FD1&EQ1&RN1&VM1&NX)|(v1&l&T1&_)]; pose proof (eq_trans (eq_sym T1) X) as X0; injection X0 as X1 X2 X3.
    2:{ exfalso. subst e. cbn [goes_on andb] in H7. discriminate. }
    rewrite VB, <- X1 in *. rewrite data_received_app, (data_received_norecv (tick _ _)) in NX by apply tick_norecv.
    cbn [app data_received] in NX. rewrite <- app_assoc in NX. cbn [app] in NX. rewrite data_received_app, (data_received_norecv evs) in NX by (eapply Forall_impl; [|exact IN]; intros []; cbn; tauto).
    cbn [app data_received] in NX.
    rewrite app_comm_cons, !app_assoc. apply routcome_app.
    apply (IH (A1 ++ TParse p b :: evs ++ [TParsed e]) (ps ++ [b]) rest' x y); auto.
    + rewrite <- app_assoc. cbn [app]. rewrite <- app_assoc. exact FO.
    + rewrite view_of_app, V1. exact VB.
    + rewrite rpst_inner, <- X3 by auto. exact FD1.
    + rewrite VM1. destruct ps; reflexivity.
  - assert (FQ : A ++ rv :: tick (k_tf k) t ++ (TParse p b :: evs ++ [TParsed e]) = A1 ++ TParse p b :: evs ++ TParsed e :: []).
    { unfold A1. rewrite <- !app_assoc. reflexivity. }
    rewrite FQ in FO. pose proof (FO A1 p b evs e [] eq_refl IN) as X. rewrite P1, V1 in X.
    assert (VB : fold_left view_step (TParse p b :: evs ++ [TParsed e]) v = view_of (A1 ++ TParse p b :: evs)).
    { rewrite view_of_app, V1. cbn [fold_left]. rewrite fold_left_app. reflexivity. }
    assert (SV : v_stream (view_of (A1 ++ TParse p b :: evs)) = v_stream v ++ b).
    { pose proof (heading_stream (rpst P A) (p_exec P (rpst P A) b) (view_step v (TParse p b))) as Q. rewrite X in Q. exact Q. }
    destruct NP as [(v1&s1&rest'&T1&FD1&EQ1&RN1&VM1&NX)|(v1&l&T1&SH&BL)]; pose proof (eq_trans (eq_sym T1) X) as X0; injection X0 as X1 X2 X3;
      rewrite VB, <- X1 in *; rewrite X1 in SV; rewrite <- X1 in SV; cbn [routcome].
    + left. subst e. split; [auto|]. split; [unfold partly; exists (ps ++ [b]), s1, rest'; repeat (split; [solve [auto]|]); rewrite VM1; destruct ps; reflexivity|].
      unfold done_msg in H7. rewrite VM1 in H7. cbn [goes_on andb negb] in H7. rewrite SV, zlen_app. split; [lia|]. intros Q. apply app_eq_nil in Q. destruct Q; auto.
    + right. split; [auto|]. split; [exact SH|]. exists l, n. split; [rewrite SV, VS, BL, EQ, <- app_assoc; reflexivity|]. split.
      * exists [], (poff (k_buf k) (zlen (v_stream v))), (k_L k - zlen (v_stream v)), b. eexists. split; [reflexivity|]. rewrite recvs_app, recvs_tick. cbn [recvs]. rewrite recvs_app, (events_recvs _ _ EV). reflexivity.
      * rewrite <- H3, BL, zlen_app. destruct rest; [congruence|]. rewrite zlen_cons. pose proof (zlen_nonneg rest). lia.
  - destruct H3 as (evs&EV&->&_); pose proof (events_inner _ _ EV) as IN.
    set (rv := TRecv _ _ 0 d) in *. set (t := clk E (k_tf k) nt) in *.
    set (A1 := (A ++ [rv]) ++ tick (k_tf k) t).
    assert (V1 : view_of A1 = v) by (unfold A1; rewrite !view_of_app, VA; cbn [fold_left view_step]; apply view_tick).
    assert (P1 : rpst P A1 = rpst P A) by (unfold A1; rewrite rpst_tick, rpst_app; reflexivity).
    set (p := poff (k_buf k) (zlen (v_stream v))) in *.
    assert (FQ : A ++ rv :: tick (k_tf k) t ++ (TParse p [] :: evs ++ [TParsed e]) = A1 ++ TParse p [] :: evs ++ TParsed e :: []).
    { unfold A1. rewrite <- !app_assoc. reflexivity. }
    rewrite FQ in FO. pose proof (FO A1 p [] evs e [] eq_refl IN) as X. rewrite P1, V1 in X.
    assert (VB : fold_left view_step (TParse p [] :: evs ++ [TParsed e]) v = view_of (A1 ++ TParse p [] :: evs)).
    { rewrite view_of_app, V1. cbn [fold_left]. rewrite fold_left_app. reflexivity. }
    rewrite VB in *. cbn [routcome]. exists ps, (rpst P A), v. eexists _, rest. split; [exact PA|]. split; [exact EQ|]. split; [exact RN|]. split; [exact VM|]. exact X.
  - set (rv := TRecv _ _ 0 d) in *. set (t := clk E (k_tf k) nt) in *.
    rewrite app_comm_cons. apply routcome_app. apply (IH ((A ++ [rv]) ++ tick (k_tf k) t) ps rest x y); auto.
    + rewrite <- !app_assoc. exact FO.
    + rewrite !view_of_app, VA. cbn [fold_left view_step]. apply view_tick.
    + rewrite rpst_tick, rpst_app. exact PA.
    + change (if 0 <? 0 then d else []) with (@nil Z) in PR. rewrite data_received_app, (data_received_norecv (tick _ _)) in PR by apply tick_norecv. exact PR.
Qed.

(** ** The call *)
Lemma receives_raw fuel cfg E t r rh buf L req w st r' w' tr x y :
  recv_setup cfg E P t r rh buf L req w -> recv_faithful E -> no_parse_body r = true ->
  receives fuel cfg E P t r rh w st r' w' tr -> data_received tr ++ x = head_bytes resp ++ y ->
  exists o, o <> OMore /\ st = final_status (kof r buf L req (w_mem w)) o (view_of tr) /\ routcome L o tr (view_of tr) /\
    v_stream (view_of tr) = data_received tr /\ zlen (data_received tr) <= L /\
    match o with OFail => recv_failed tr | OStall _ => last_recv tr 0 | _ => True end /\
    (~ paused o -> v_hend (view_of tr) = None).
Proof.
  intros HS F ND HR PR. pose proof (rreceives_follow _ _ _ _ _ _ _ _ _ _ _ _ _ _ _ HS ND HR) as FO.
  destruct (receives_inv _ _ _ _ _ _ _ _ _ _ _ _ _ _ _ HS HR) as (trl&o&s'&ph&G&TR&RR&NM&ST&HW&_&I&_&_&F4).
  set (t0 := clk E (r_time r) (w_nt w)) in *.
  assert (DR : data_received tr = data_received trl) by (rewrite TR, data_received_app, (data_received_norecv (tick _ _)) by apply tick_norecv; reflexivity).
  pose proof (rrun_data _ _ _ _ _ _ _ _ _ _ F RR) as RD. cbn [view0 v_stream app] in RD. rewrite <- DR in RD.
  exists o. split; [auto|]. split; [auto|]. split; [|split; [auto|split; [|split]]].
  - change L with (k_L (kof r buf L req (w_mem w))). rewrite TR at 1. apply routcome_app.
    apply (rrun_raw _ _ _ _ _ _ _ _ _ _ F RR (tick (r_time r) t0) [] (head_bytes resp) x y).
    + rewrite <- TR. exact FO.
    + apply (view_tick _ _ view0).
    + assert (PT : rpst P (tick (r_time r) t0) = p_init P) by apply (rpst_tick P []). rewrite PT. constructor.
    + reflexivity.
    + unfold head_bytes, status_bytes. discriminate.
    + reflexivity.
    + rewrite <- DR. exact PR.
  - rewrite <- RD. pose proof (i_pos _ _ _ _ _ _ _ _ I) as X. cbn [kof k_L] in X. lia.
  - pose proof (rrun_end _ _ _ _ _ _ _ _ _ _ RR) as X. destruct o; auto.
    + destruct X as (x0&p&room&n&d&X&Y). exists (tick (r_time r) t0 ++ x0), p, room, n, d. rewrite TR, X, app_assoc. auto.
    + destruct (rrun_stalled _ _ _ _ _ _ _ _ _ _ RR _ eq_refl) as (x0&p&room&d&y0&X1&X2). exists (tick (r_time r) t0 ++ x0), p, room, d, y0. rewrite TR, X1, app_assoc. auto.
  - apply F4. unfold dnp, kof. cbn [k_opt]. rewrite dnp_bit. exact ND.
Qed.
End raw.
