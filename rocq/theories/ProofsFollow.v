(** ProofsFollow.v — the log of a call follows the parser: each block of it is one call of the parser in the state its previous
    calls left (without HTTP_RESPONSE_DO_NOT_PARSE_BODY_FLAG). *)
From Verif Require Import Base Lib ModelRequest ModelSend ModelResponse SpecRequest SpecSend SpecResponse ProofsRequest
  ProofsSend ProofsSend2 ProofsResponse ProofsResponse2 ProofsResponse3 ProofsResponse4 ProofsResponse5 RefParser RefRun.

(** The parser's state after the calls in a log. *)
Definition st_after (nb : bool) (P : parser) (ps : PS P) (x : tev) : PS P :=
  match x with TParse _ b => snd (texec nb (p_exec P ps b) view0) | _ => ps end.
Definition pst (nb : bool) (P : parser) (tr : list tev) : PS P := fold_left (st_after nb P) tr (p_init P).
Definition follows (nb : bool) (P : parser) (tr : list tev) : Prop :=
  forall A p b evs e C, tr = A ++ TParse p b :: evs ++ TParsed e :: C -> Forall inner evs ->
    texec nb (p_exec P (pst nb P A) b) (view_step (view_of A) (TParse p b)) = (view_of (A ++ TParse p b :: evs), e, pst nb P (A ++ [TParse p b])).

Lemma texec_indep nb {S} (t : ptree S) : forall v v', snd (texec nb t v) = snd (texec nb t v').
Proof. induction t as [e s|ev k IH]; intros v v'; cbn [texec]; auto. Qed.

(** ** What callbacks keep *)
Definition only_hdr (x : tev) : Prop := match x with THeader _ _ _ _ _ _ _ => True | _ => False end.
Record kept (s s' : cbst) : Prop := mkkept {
  kp_head : c_head (s_ctx s') = c_head (s_ctx s);
  kp_opt : r_opt (s_resp s') = r_opt (s_resp s);
  kp_tr : exists hs, w_tr (s_w s') = w_tr (s_w s) ++ hs /\ Forall only_hdr hs
}.
Lemma kept_same s s' : c_head (s_ctx s') = c_head (s_ctx s) -> r_opt (s_resp s') = r_opt (s_resp s) -> w_tr (s_w s') = w_tr (s_w s) -> kept s s'.
Proof. intros A B C. constructor; auto. exists []. rewrite app_nil_r. auto. Qed.
Lemma kept_trans a b c : kept a b -> kept b c -> kept a c.
Proof.
  intros [H1 H2 (x&H3&H4)] [G1 G2 (y&G3&G4)]. constructor; [congruence|congruence|]. exists (x ++ y).
  rewrite G3, H3, app_assoc. split; [auto|]. apply Forall_app. auto.
Qed.
Lemma pch_kept cfg s s' : processCompleteHeader cfg s = Ret s' -> kept s s'.
Proof.
  unfold processCompleteHeader. intros H. inv_bind H.
  destruct (c_lf (s_ctx s)), (c_lv (s_ctx s)); try (injection H as <-; apply kept_same; reflexivity).
  inv_bind H. destruct (r_cb (s_resp s)); [|injection H as <-; apply kept_same; reflexivity].
  inv_bind H. inv_bind H. injection H as <-. constructor; [reflexivity|reflexivity|]. eexists. split; [reflexivity|]. constructor; [exact I|constructor].
Qed.
Lemma callback_kept cfg start ev s r s' : callback cfg start ev s = Ret (r, s') ->
  kept s s' /\ (Z.testbit (r_opt (s_resp s)) 0 = false -> r = rep (c_head (s_ctx s)) ev).
Proof.
  destruct ev; cbn [callback]; intros H.
  - injection H as <- <-. split; [apply kept_same|]; reflexivity.
  - unfold onStatus in H. inv_bind H. inv_bind H. injection H as <- <-. split; [apply kept_same|]; reflexivity.
  - unfold onStatusComplete in H. inv_bind H. injection H as <- <-. split; [apply kept_same|]; reflexivity.
  - unfold onHeaderField in H. inv_bind H. inv_bind H. inv_bind H. apply pch_kept in E1.
    assert (K0 : kept s (mkst (set_cur (s_ctx s) (Some a0)) (match r_headers (s_resp s) with None => set_r_headers (s_resp s) (Some (mkptr (pb start) (po start + off))) (r_headersLen (s_resp s)) | Some _ => s_resp s end) (s_w s))).
    { apply kept_same; try reflexivity. cbn [s_resp]. destruct (r_headers (s_resp s)); reflexivity. }
    pose proof (kept_trans _ _ _ K0 E1) as K1.
    destruct (c_lf (s_ctx a1)); [inv_bind H|]; injection H as <- <-; (split; [|reflexivity]); destruct K1 as [K1 K2 K3]; constructor; auto.
  - unfold onHeaderValue in H. inv_bind H. inv_bind H. injection H as <- <-. split; [|reflexivity]. apply kept_same; try reflexivity.
    cbn [s_ctx set_cur c_lv]. destruct (c_lv (s_ctx s)); reflexivity.
  - unfold onHeadersComplete in H. inv_bind H. destruct (c_cur (s_ctx s)); [|discriminate].
    destruct (r_buf (s_resp s)); [|discriminate]. inv_bind H. inv_bind H. inv_bind H. inv_bind H. inv_bind H. inv_bind H.
    assert (OP : r_opt a5 = r_opt (s_resp s)).
    { destruct (r_headers (set_r_hdone (s_resp s) 1)); [inv_bind E5; inv_bind E5|]; injection E5 as <-; reflexivity. }
    inv_bind H. apply pch_kept in E6. injection H as <- <-.
    match type of E6 with kept ?x _ => assert (K0 : kept s x) end.
    { apply kept_same; try reflexivity. cbn [s_resp]. rewrite <- OP. destruct close, keepalive; reflexivity. }
    pose proof (kept_trans _ _ _ K0 E6) as [K1 K2 K3]. split; [constructor; auto|].
    intros TB. rewrite K2, dnp_bit, TB. reflexivity.
  - unfold onBody in H. inv_bind H. destruct (r_buf (s_resp s)); [|discriminate]. inv_bind H. inv_bind H. inv_bind H. inv_bind H. inv_bind H.
    destruct (match r_body (s_resp s) with Some b => _ | None => _ end). inv_bind H. inv_bind H. inv_bind H. inv_bind H.
    injection H as <- <-. split; [apply kept_same|]; reflexivity.
  - injection H as <- <-. split; [apply kept_same|]; reflexivity.
Qed.

Record keeps (s s' : cbst) (evs : list tev) : Prop := mkkeeps {
  ks_head : c_head (s_ctx s') = c_head (s_ctx s);
  ks_opt : r_opt (s_resp s') = r_opt (s_resp s);
  ks_tr : w_tr (s_w s') = w_tr (s_w s) ++ evs
}.
Lemma only_hdr_view hs v : Forall only_hdr hs -> fold_left view_step hs v = v.
Proof. induction 1 as [|e hs H]; cbn [fold_left]; auto. destruct e; cbn in H; try contradiction. auto. Qed.
Lemma run_tree_follow cfg start {S} (s0 : S) t : forall s e pos s1 s', run_tree cfg start s0 t s = Ret (e, pos, s1, s') ->
  Z.testbit (r_opt (s_resp s)) 0 = false ->
  exists evs, keeps s s' evs /\ Forall inner evs /\ forall v, texec (c_head (s_ctx s)) t v = (fold_left view_step evs v, e, s1).
Proof.
  induction t as [e0 sd|ev k IH]; intros s e pos s1 s' H TB; cbn [run_tree] in H.
  - injection H as <- <- <- <-. exists []. split; [constructor; auto; rewrite app_nil_r; auto|]. split; [constructor|]. reflexivity.
  - inv_bind H. destruct a as [r s2]. apply callback_kept in E. cbn [s_ctx s_resp s_w] in E. destruct E as ([K1 K2 (hs&K3&K4)]&RP).
    cbn [s_ctx s_resp s_w log w_tr] in K1, K2, K3. specialize (RP TB).
    set (s3 := mkst (s_ctx s2) (s_resp s2) (log (s_w s2) (TReply r))) in H.
    assert (T3 : w_tr (s_w s3) = w_tr (s_w s) ++ TEvent ev :: hs ++ [TReply r]).
    { unfold s3. cbn [s_w log w_tr]. rewrite K3, <- !app_assoc. reflexivity. }
    assert (RN : run_tree cfg start s0 (k r) s3 = Ret (e, pos, s1, s')).
    { rewrite RP in H |- *. unfold rep in *. destruct ev; auto. destruct (c_head (s_ctx s)); auto. }
    change (r_opt (s_resp s2)) with (r_opt (s_resp s3)) in K2. change (c_head (s_ctx s2)) with (c_head (s_ctx s3)) in K1. clearbody s3.
    destruct (IH r s3 e pos s1 s' RN) as (evs&[G1 G2 G3]&IN&TX); [rewrite K2; auto|].
    exists (TEvent ev :: hs ++ TReply r :: evs). split; [|split].
    + constructor; [congruence|congruence|]. rewrite G3, T3, <- app_assoc. cbn [app]. rewrite <- app_assoc. reflexivity.
    + constructor; [exact I|]. apply Forall_app. split; [|constructor; [exact I|auto]]. eapply Forall_impl; [|exact K4]. intros []; cbn; tauto.
    + intros v. cbn [texec fold_left view_step]. rewrite <- RP, <- K1, TX, fold_left_app, (only_hdr_view _ _ K4). reflexivity.
Qed.

Lemma parse_follow cfg P ps s n st ps' s' : parseHttpResponse cfg P ps s n = Ret (st, ps', s') -> Z.testbit (r_opt (s_resp s)) 0 = false ->
  exists p b evs e, keeps s s' (TParse p b :: evs ++ [TParsed e]) /\ Forall inner evs /\
    forall v, texec (c_head (s_ctx s)) (p_exec P ps b) v = (fold_left view_step evs v, e, ps').
Proof.
  rewrite parse_reset. intros H TB. destruct (reset_same s) as (_&_&_&_&RW&RO).
  assert (RH : c_head (s_ctx (reset s)) = c_head (s_ctx s)) by (unfold reset; destruct (c_resp (s_ctx s)); reflexivity).
  assert (RR : c_resp (s_ctx (reset s)) = true) by (unfold reset; destruct (c_resp (s_ctx s)) eqn:Q; auto).
  rewrite <- RO in TB. rewrite <- RH.
  assert (KX : forall evs, keeps (reset s) s' evs -> keeps s s' evs) by (intros evs [A B C]; constructor; congruence).
  set (s0 := reset s) in *. clearbody s0. clear RH RO RW.
  unfold parseHttpResponse in H. rewrite RR in H. destruct (c_cur (s_ctx s0)) as [start|]; [|discriminate].
  inv_bind H. inv_bind H. destruct a0 as (((e&epos)&ps1)&s2). inv_bind H. injection H as <- <- <-.
  apply run_tree_follow in E0; [|exact TB]. destruct E0 as (evs&[K1 K2 K3]&IN&TX). cbn [s_ctx s_resp s_w log w_tr] in *.
  exists start, a, evs, e. split; [apply KX|split; auto]. constructor; cbn [s_ctx s_resp s_w set_cur c_head log w_tr]; auto.
  rewrite K3, <- !app_assoc. reflexivity.
Qed.

(** ** Logs *)
Lemma follows_nil nb P : follows nb P [].
Proof. intros A p b evs e C H. destruct A; discriminate. Qed.
Lemma pst_app nb P A B : pst nb P (A ++ B) = fold_left (st_after nb P) B (pst nb P A).
Proof. unfold pst. apply fold_left_app. Qed.
Lemma view_of_app A B : view_of (A ++ B) = fold_left view_step B (view_of A).
Proof. unfold view_of. apply fold_left_app. Qed.
(** A log of other things does no harm. *)
Lemma follows_other nb P T x : follows nb P T -> match x with TParse _ _ | TParsed _ => False | _ => True end -> follows nb P (T ++ [x]).
Proof.
  intros F NX A p b evs e C H IN.
  destruct (exists_last (l := TParse p b :: evs ++ TParsed e :: C)) as (l&y&HL); [discriminate|].
  rewrite HL, app_assoc in H. apply app_inj_tail in H. destruct H as (H&<-).
  destruct C as [|c C] using rev_ind.
  - exfalso. change (TParse p b :: evs ++ [TParsed e]) with ((TParse p b :: evs) ++ [TParsed e]) in HL. apply app_inj_tail in HL. destruct HL as (_&<-). exact NX.
  - clear IHC. replace (TParse p b :: evs ++ TParsed e :: C ++ [c]) with ((TParse p b :: evs ++ TParsed e :: C) ++ [c]) in HL by (cbn [app]; rewrite <- app_assoc; reflexivity).
    apply app_inj_tail in HL. destruct HL as (<-&_). exact (F _ _ _ _ _ _ H IN).
Qed.
Definition notparse (x : tev) : Prop := match x with TParse _ _ => False | _ => True end.
(** One more call of the parser. *)
Lemma follows_block nb P T p b evs e ps' : follows nb P T -> Forall inner evs ->
  (forall v, texec nb (p_exec P (pst nb P T) b) v = (fold_left view_step evs v, e, ps')) ->
  follows nb P (T ++ TParse p b :: evs ++ [TParsed e]) /\ pst nb P (T ++ TParse p b :: evs ++ [TParsed e]) = ps'.
Proof.
  intros F IN TX.
  assert (PS1 : pst nb P (T ++ [TParse p b]) = ps') by (rewrite pst_app; cbn [fold_left st_after]; rewrite TX; reflexivity).
  assert (NP : forall l q, Forall inner l -> fold_left (st_after nb P) l q = q).
  { induction l as [|x l IH]; intros q H; [auto|]. inversion H; subst. cbn [fold_left]. rewrite IH by auto. destruct x; cbn in *; tauto. }
  split.
  - intros A p0 b0 evs0 e0 C H IN0.
    destruct (split_at _ _ _ _ _ H) as [(A2&H1&H2)|(X2&H1&H2)].
    + (* the parser call lies in T *)
      destruct (split_at (evs0) (TParsed e0 :: C) (TParsed e0) evs0 C eq_refl) as [(?&Q&_)|_].
      { apply (f_equal (@length _)) in Q. rewrite app_length in Q. cbn in Q. lia. }
      destruct (split_at A2 (TParse p b :: evs ++ [TParsed e]) (TParsed e0) evs0 C) as [(A3&Q1&Q2)|(X3&Q1&Q2)]; [congruence| |].
      * apply (F A p0 b0 evs0 e0 A3); [rewrite H1, Q1; reflexivity|auto].
      * exfalso. destruct X3 as [|x X3]; [discriminate|]. injection Q2 as <- Q2. rewrite Q1 in IN0. apply Forall_app in IN0. destruct IN0 as (_&IN0). inversion IN0 as [|? ? Q3]; subst. exact Q3.
    + destruct X2 as [|x X2].
      * injection H2 as -> -> H2. rewrite app_nil_r in H1. subst A.
        destruct (split_at evs [TParsed e] (TParsed e0) evs0 C H2) as [(A3&Q1&Q2)|(X3&Q1&Q2)].
        { exfalso. rewrite Q1 in IN. apply Forall_app in IN. destruct IN as (_&IN). inversion IN as [|? ? Q3]; subst. exact Q3. }
        destruct X3 as [|x X3]; [|destruct X3; discriminate]. injection Q2 as <- _. rewrite app_nil_r in Q1. subst evs0.
        rewrite TX, PS1, view_of_app. reflexivity.
      * exfalso. injection H2 as <- H2.
        assert (HI : In (TParse p0 b0) (evs ++ [TParsed e])) by (rewrite H2; apply in_or_app; right; left; auto).
        apply in_app_or in HI. destruct HI as [HI|[HI|[]]]; [|discriminate]. rewrite Forall_forall in IN. exact (IN _ HI).
  - rewrite <- PS1. rewrite (pst_app nb P T [TParse p b]), pst_app. cbn [fold_left]. rewrite fold_left_app, (NP evs) by auto. reflexivity.
Qed.

(** ** The loop *)
Lemma get_time_keeps E tf w t w2 : get_time E tf w = Ret (t, w2) -> w_tr w2 = w_tr w ++ tick tf t.
Proof. destruct tf; cbn [get_time tick]; intros H; [discriminate| |]; injection H as <- <-; [rewrite app_nil_r|]; reflexivity. Qed.
Lemma follows_tick nb P T tf t : follows nb P T -> follows nb P (T ++ tick tf t).
Proof. intros F. destruct tf; cbn [tick]; rewrite ?app_nil_r; auto. apply follows_other; cbn; auto. Qed.
Lemma pst_tick nb P T tf t : pst nb P (T ++ tick tf t) = pst nb P T.
Proof. destruct tf; cbn [tick]; rewrite ?app_nil_r; auto. rewrite pst_app. reflexivity. Qed.

Lemma loop_follow cfg E P retry fuel T0 : forall total last ps s T st tot s',
  recv_loop fuel cfg E P retry total last ps s = Ret (st, tot, s') -> Z.testbit (r_opt (s_resp s)) 0 = false ->
  let nb := c_head (s_ctx s) in
  w_tr (s_w s) = T0 ++ T -> follows nb P T -> pst nb P T = ps ->
  exists T', w_tr (s_w s') = T0 ++ T' /\ follows nb P T'.
Proof.
  induction fuel as [|fuel IH]; intros total last ps s T st tot s' H TB nb HT F PQ; cbn [recv_loop] in H; [discriminate|].
  destruct (r_buf (s_resp s)) as [buf|]; [|discriminate]. inv_bind H.
  destruct (e_recv E (w_nr (s_w s)) ((r_bufLen (s_resp s) - total) mod SZ cfg)) as [n d]. inv_bind H. cbn [s_ctx s_w] in H.
  set (rv := TRecv a ((r_bufLen (s_resp s) - total) mod SZ cfg) n d) in *.
  assert (F1 : follows nb P (T ++ [rv])) by (apply follows_other; [auto|exact I]).
  assert (P1 : pst nb P (T ++ [rv]) = ps) by (rewrite pst_app; exact PQ).
  assert (W1 : forall m, w_tr (w_after_recv (s_w s) m a ((r_bufLen (s_resp s) - total) mod SZ cfg) n d) = T0 ++ T ++ [rv]) by (intros; cbn [w_after_recv w_tr]; rewrite HT, app_assoc; reflexivity).
  destruct (n <? 0). { injection H as <- <- <-. exists (T ++ [rv]). split; [apply W1|auto]. }
  inv_bind H. destruct a1 as [t w2]. pose proof (get_time_keeps _ _ _ _ _ E2) as W2. rewrite W1, <- app_assoc in W2.
  pose proof (follows_tick nb P _ (r_time (s_resp s)) t F1) as F2. pose proof (pst_tick nb P (T ++ [rv]) (r_time (s_resp s)) t) as P2. rewrite P1 in P2.
  set (T2 := (T ++ [rv]) ++ tick (r_time (s_resp s)) t) in *.
  assert (PF : forall k st ps' s3, parseHttpResponse cfg P ps (mkst (s_ctx s) (s_resp s) w2) k = Ret (st, ps', s3) ->
    exists T3, w_tr (s_w s3) = T0 ++ T3 /\ follows nb P T3 /\ pst nb P T3 = ps' /\ c_head (s_ctx s3) = nb /\ r_opt (s_resp s3) = r_opt (s_resp s)).
  { intros k st0 ps' s3 HP. apply parse_follow in HP; [|exact TB]. destruct HP as (p&b&evs&e&[K1 K2 K3]&IN&TX). cbn [s_ctx s_resp s_w] in *.
    rewrite <- P2 in TX. fold nb in TX. destruct (follows_block nb P T2 p b evs e ps' F2 IN TX) as (F3&P3).
    eexists. split; [rewrite K3, W2, <- app_assoc; reflexivity|]. auto. }
  destruct (0 <? n).
  - inv_bind H. destruct a1 as ((st1&ps')&s3). destruct (PF _ _ _ _ E3) as (T3&A1&A2&A3&A4&A5).
    destruct (is_success st1 && _ && _).
    + rewrite <- A4 in A2, A3 |- *. eapply IH; eauto. rewrite A5. auto.
    + injection H as <- <- <-. eauto.
  - destruct (retry <=? u32 (t - last)).
    + inv_bind H. destruct a1 as ((st1&ps')&s3). destruct (PF _ _ _ _ E3) as (T3&A1&A2&A3&A4&A5). injection H as <- <- <-. eauto.
    + destruct (_ && _).
      * eapply (IH total last ps (mkst (s_ctx s) (s_resp s) w2) T2); eauto.
      * injection H as <- <- <-. exists T2. split; auto.
Qed.

Lemma receives_follow fuel cfg E P t r rh buf L req w st r' w' tr :
  recv_setup cfg E P t r rh buf L req w -> no_parse_body r = false -> receives fuel cfg E P t r rh w st r' w' tr ->
  follows (beqb (slice req 0 4) (B "HEAD")) P tr.
Proof.
  intros HS ND (HR&HT). unfold ReceiveAndParseHttpResponse in HR. inv_bind HR. inv_bind HR.
  assert (CH : c_head a0 = beqb (slice req 0 4) (B "HEAD")).
  { destruct HS as (_&_&_&_&_&_&_&_&(rb&n&HO)&LQ). unfold initializeParsingContextForFirstResponse in E1.
    destruct HO as (H1&H2&H3&H4&H5). rewrite H1 in E1.
    assert (LR : zlen req = rh_len rh) by (rewrite H5; apply bytes_at_len; destruct H3 as (?&?&?); repeat split; lia).
    replace (HTTP_MINIMUM_REQUEST_LINE_LENGTH <=? rh_len rh) with true in E1 by (unfold HTTP_MINIMUM_REQUEST_LINE_LENGTH; lia).
    cbn [assert_at bind] in E1. change HTTP_METHOD_HEAD with (B "HEAD") in *.
    rewrite strncmp_eq_ok in E1 by (destruct H3 as (?&?&?); change (zlen (B "HEAD")) with 4; repeat split; lia).
    cbn [bind] in E1. injection E1 as <-. cbn [c_head]. change (zlen (B "HEAD")) with 4. f_equal.
    rewrite H5. unfold bytes_at. rewrite slice_slice by (destruct H3 as (?&?&?); lia). f_equal; lia. }
  inv_bind HR. destruct a1 as [t0 w1]. pose proof (get_time_keeps _ _ _ _ _ E2) as W1.
  inv_bind HR. destruct a1 as ((st1&tot)&s).
  destruct (loop_follow cfg E P _ fuel (w_tr w) _ _ _ _ (tick (r_time r) t0) _ _ _ E3 ND) as (T'&A1&A2).
  - exact W1.
  - apply (follows_tick _ _ []). apply follows_nil.
  - apply (pst_tick _ _ []).
  - cbn [s_ctx] in A2. rewrite CH in A2. inv_bind HR. destruct a1 as [st2 r2].
    assert (W : s_w s = w') by (destruct (is_success st2); [inv_bind HR|]; injection HR; auto).
    rewrite <- W, A1 in HT. apply app_inv_head in HT. subst T'. exact A2.
Qed.

(** ** A loop that is still running *)
Definition nomore {A} (x : res A) : Prop := forall w, x <> More w.
Lemma nomore_bind {A C} (x : res A) (f : A -> res C) : nomore x -> (forall a, nomore (f a)) -> nomore (bind x f).
Proof. intros H1 H2 w. destruct x; cbn [bind]; try discriminate; [apply H2|exact (fun _ => H1 _ eq_refl)]. Qed.
Lemma nomore_ret {A} (a : A) : nomore (Ret a). Proof. discriminate. Qed.
Lemma nomore_ub {A} k : nomore (@Ub A k). Proof. discriminate. Qed.
Lemma nomore_assert {A} l : nomore (@AssertFail A l). Proof. discriminate. Qed.
Lemma bind_more {A C} (x : res A) (f : A -> res C) w : nomore x -> bind x f = More w -> exists a, x = Ret a /\ f a = More w.
Proof. intros N H. destruct x; cbn [bind] in H; try discriminate; [eauto|destruct (N _ eq_refl)]. Qed.
Ltac nomore :=
  repeat first [apply nomore_ret|apply nomore_ub|apply nomore_assert|apply nomore_bind; [|intros ?]
    |match goal with |- nomore (match ?x with _ => _ end) => destruct x end
    |progress unfold assert_at, padd, psub, storen, loadn, get_time, memmove, load1
    |progress cbn zeta].
Lemma nomore_callback cfg start ev s : nomore (callback cfg start ev s).
Proof.
  destruct ev; unfold callback; nomore;
    unfold onMessageBegin, onStatus, onStatusComplete, onHeaderField, onHeaderValue, onHeadersComplete, onBody, onMessageComplete, processCompleteHeader; nomore.
Qed.
Lemma nomore_tree cfg start {S} (s0 : S) t : forall s, nomore (run_tree cfg start s0 t s).
Proof.
  induction t as [e s1|ev k IH]; intros s; cbn [run_tree]; [apply nomore_ret|].
  apply nomore_bind; [apply nomore_callback|]. intros [r s1]. destruct r; try apply nomore_ret; apply IH.
Qed.
Lemma nomore_parse cfg P ps s n : nomore (parseHttpResponse cfg P ps s n).
Proof.
  unfold parseHttpResponse. destruct (c_cur _); [|apply nomore_ub]. apply nomore_bind; [nomore|]. intros d.
  apply nomore_bind; [apply nomore_tree|]. intros (((e&epos)&ps')&s2). nomore.
Qed.
Ltac inv_more H :=
  match type of H with bind ?x ?f = More ?w =>
    let N := fresh "N" in assert (N : nomore x) by (first [apply nomore_parse | nomore]);
    apply (bind_more x f w N) in H; clear N;
    let a := fresh "a" in let E := fresh "E" in destruct H as (a&E&H)
  end.
Lemma loop_follow_more cfg E P retry fuel T0 : forall total last ps s T w',
  recv_loop fuel cfg E P retry total last ps s = More w' -> Z.testbit (r_opt (s_resp s)) 0 = false ->
  let nb := c_head (s_ctx s) in
  w_tr (s_w s) = T0 ++ T -> follows nb P T -> pst nb P T = ps ->
  exists T', w_tr w' = T0 ++ T' /\ follows nb P T'.
Proof.
  induction fuel as [|fuel IH]; intros total last ps s T w' H TB nb HT F PQ; cbn [recv_loop] in H; [injection H as <-; eauto|].
  destruct (r_buf (s_resp s)) as [buf|]; [|discriminate]. inv_more H.
  destruct (e_recv E (w_nr (s_w s)) ((r_bufLen (s_resp s) - total) mod SZ cfg)) as [n d]. inv_more H. cbn [s_ctx s_w] in H.
  set (rv := TRecv a ((r_bufLen (s_resp s) - total) mod SZ cfg) n d) in *.
  assert (F1 : follows nb P (T ++ [rv])) by (apply follows_other; [auto|exact I]).
  assert (P1 : pst nb P (T ++ [rv]) = ps) by (rewrite pst_app; exact PQ).
  assert (W1 : forall m, w_tr (w_after_recv (s_w s) m a ((r_bufLen (s_resp s) - total) mod SZ cfg) n d) = T0 ++ T ++ [rv]) by (intros; cbn [w_after_recv w_tr]; rewrite HT, app_assoc; reflexivity).
  destruct (n <? 0). { discriminate H. }
  inv_more H. destruct a1 as [t w2]. pose proof (get_time_keeps _ _ _ _ _ E2) as W2. rewrite W1, <- app_assoc in W2.
  pose proof (follows_tick nb P _ (r_time (s_resp s)) t F1) as F2. pose proof (pst_tick nb P (T ++ [rv]) (r_time (s_resp s)) t) as P2. rewrite P1 in P2.
  set (T2 := (T ++ [rv]) ++ tick (r_time (s_resp s)) t) in *.
  assert (PF : forall k st ps' s3, parseHttpResponse cfg P ps (mkst (s_ctx s) (s_resp s) w2) k = Ret (st, ps', s3) ->
    exists T3, w_tr (s_w s3) = T0 ++ T3 /\ follows nb P T3 /\ pst nb P T3 = ps' /\ c_head (s_ctx s3) = nb /\ r_opt (s_resp s3) = r_opt (s_resp s)).
  { intros k st0 ps' s3 HP. apply parse_follow in HP; [|exact TB]. destruct HP as (p&b&evs&e&[K1 K2 K3]&IN&TX). cbn [s_ctx s_resp s_w] in *.
    rewrite <- P2 in TX. fold nb in TX. destruct (follows_block nb P T2 p b evs e ps' F2 IN TX) as (F3&P3).
    eexists. split; [rewrite K3, W2, <- app_assoc; reflexivity|]. auto. }
  destruct (0 <? n).
  - inv_more H. destruct a1 as ((st1&ps')&s3). destruct (PF _ _ _ _ E3) as (T3&A1&A2&A3&A4&A5).
    destruct (is_success st1 && _ && _).
    + rewrite <- A4 in A2, A3 |- *. eapply IH; eauto. rewrite A5. auto.
    + discriminate H.
  - destruct (retry <=? u32 (t - last)).
    + inv_more H. destruct a1 as ((st1&ps')&s3). destruct (PF _ _ _ _ E3) as (T3&A1&A2&A3&A4&A5). discriminate H.
    + destruct (_ && _).
      * eapply (IH total last ps (mkst (s_ctx s) (s_resp s) w2) T2); eauto.
      * discriminate H.
Qed.

Lemma more_follow fuel cfg E P t r rh buf L req w w' tr :
  recv_setup cfg E P t r rh buf L req w -> no_parse_body r = false -> ReceiveAndParseHttpResponse fuel cfg E P (Some t) (Some r) (Some rh) w = More w' -> w_tr w' = w_tr w ++ tr ->
  follows (beqb (slice req 0 4) (B "HEAD")) P tr.
Proof.
  intros HS ND HR HT. unfold ReceiveAndParseHttpResponse in HR. inv_more HR. inv_more HR.
  assert (CH : c_head a0 = beqb (slice req 0 4) (B "HEAD")).
  { destruct HS as (_&_&_&_&_&_&_&_&(rb&n&HO)&LQ). unfold initializeParsingContextForFirstResponse in E1.
    destruct HO as (H1&H2&H3&H4&H5). rewrite H1 in E1.
    assert (LR : zlen req = rh_len rh) by (rewrite H5; apply bytes_at_len; destruct H3 as (?&?&?); repeat split; lia).
    replace (HTTP_MINIMUM_REQUEST_LINE_LENGTH <=? rh_len rh) with true in E1 by (unfold HTTP_MINIMUM_REQUEST_LINE_LENGTH; lia).
    cbn [assert_at bind] in E1. change HTTP_METHOD_HEAD with (B "HEAD") in *.
    rewrite strncmp_eq_ok in E1 by (destruct H3 as (?&?&?); change (zlen (B "HEAD")) with 4; repeat split; lia).
    cbn [bind] in E1. injection E1 as <-. cbn [c_head]. change (zlen (B "HEAD")) with 4. f_equal.
    rewrite H5. unfold bytes_at. rewrite slice_slice by (destruct H3 as (?&?&?); lia). f_equal; lia. }
  inv_more HR. destruct a1 as [t0 w1]. pose proof (get_time_keeps _ _ _ _ _ E2) as W1.
  assert (HL : recv_loop fuel cfg E P (match r_time r with TZero => 0 | _ => RECV_TO cfg end) 0 t0 (p_init P) (mkst a0 r w1) = More w').
  { match type of HR with bind ?x _ = _ => destruct x as [((st1&tot)&s)| | |] eqn:E3 end; cbn [bind] in HR; try discriminate HR; [|injection HR as ->; reflexivity].
    exfalso. inv_more HR. destruct a1 as [st2 r2]. destruct (is_success st2); [inv_more HR|]; discriminate HR. }
  destruct (loop_follow_more cfg E P _ fuel (w_tr w) _ _ _ _ (tick (r_time r) t0) _ HL ND) as (T'&A1&A2).
  - exact W1.
  - apply (follows_tick _ _ []). apply follows_nil.
  - apply (pst_tick _ _ []).
  - cbn [s_ctx] in A2. rewrite CH in A2. rewrite A1 in HT. apply app_inv_head in HT. subst T'. exact A2.
Qed.
