(** ProofsResponse5.v — a completed call, in terms of its log. *)
From Verif Require Import Base Lib ModelRequest ModelSend ModelResponse SpecRequest SpecSend SpecResponse ProofsRequest ProofsSend ProofsSend2 ProofsResponse ProofsResponse2 ProofsResponse3 ProofsResponse4.

Lemma ended_app a tr e : ended_with tr e -> ended_with (a ++ tr) e.
Proof. intros (t&->). exists (a ++ t). apply app_assoc. Qed.
Lemma failed_app a tr : recv_failed tr -> recv_failed (a ++ tr).
Proof. intros (t&p&room&n&d&->&H). exists (a ++ t), p, room, n, d. split; [apply app_assoc|auto]. Qed.
Lemma ended_fun tr e e' : ended_with tr e -> ended_with tr e' -> e = e'.
Proof. intros (t&->) (t'&X). apply app_inj_tail in X. destruct X as (_&X). congruence. Qed.
Lemma ended_not_failed tr e : ended_with tr e -> ~ recv_failed tr.
Proof. intros (t&->) (t'&p&room&n&d&X&_). apply app_inj_tail in X. destruct X as (_&X). congruence. Qed.
Lemma received_tick tf t tr : received (tick tf t ++ tr) = received tr.
Proof. destruct tf; reflexivity. Qed.
Lemma recvs_tick_app tf t tr : recvs (tick tf t ++ tr) = recvs tr.
Proof. destruct tf; reflexivity. Qed.
Lemma data_received_tick tf t tr : data_received (tick tf t ++ tr) = data_received tr.
Proof. destruct tf; reflexivity. Qed.
Lemma delivered_tick_app tf t tr : delivered (tick tf t ++ tr) = delivered tr.
Proof. destruct tf; reflexivity. Qed.
Lemma view_of_tick tf t tr : view_of (tick tf t ++ tr) = view_of tr.
Proof. destruct tf; reflexivity. Qed.

(** Every call returns or is still receiving when the fuel ends. *)
Lemma receive_outcome fuel cfg E P t r rh buf L req w : recv_setup cfg E P t r rh buf L req w ->
  let k := kof r buf L req (w_mem w) in
  let t0 := clk E (r_time r) (w_nt w) in
  exists o w' tr oc, wout (ReceiveAndParseHttpResponse fuel cfg E P (Some t) (Some r) (Some rh) w) = Some (o, w') /\
    w_tr w' = w_tr w ++ tick (r_time r) t0 ++ tr /\ same_outside (w_mem w) (w_mem w') buf L /\
    rrun E (recv_timeout cfg (r_time r)) k t0 (w_nr w) (clk_next (r_time r) (w_nt w)) view0 tr oc (view_of tr) /\
    (o = None <-> oc = OMore) /\ (o = None -> recvs tr = Z.of_nat fuel) /\
    (forall x, o = Some x -> exists r', x = (final_status k oc (view_of tr), Some r')).
Proof.
  intros H k t0. destruct (Receive_run fuel _ _ _ _ _ _ _ _ _ _ H) as (tr&oc&v'&RR&HO). fold k t0 in RR, HO.
  pose proof (rrun_view _ _ _ _ _ _ _ _ _ _ RR) as V. fold (view_of tr) in V. rewrite V in *.
  assert (D : oc = OMore \/ oc <> OMore) by (destruct oc; (left; reflexivity) || (right; discriminate)).
  destruct D as [->|NM].
  - destruct HO as (w'&E1&E2&E3&E4). exists None, w', tr, OMore. rewrite E1. cbn [wout].
    split; [auto|]. split; [auto|]. split; [auto|]. split; [auto|]. split; [tauto|]. split; [auto|]. discriminate.
  - assert (FX : exists r' s', ReceiveAndParseHttpResponse fuel cfg E P (Some t) (Some r) (Some rh) w = Ret (final_status k oc (view_of tr), Some r', s_w s') /\
        w_tr (s_w s') = w_tr w ++ tick (r_time r) t0 ++ tr /\ final cfg k r (view_of tr) (delivered tr) s' oc).
    { destruct oc; [congruence| | |]; destruct HO as (r'&s'&X1&X2&X3&_); exists r', s'; auto. }
    destruct FX as (r'&s'&E1&E2&F). exists (Some (final_status k oc (view_of tr), Some r')), (s_w s'), tr, oc. rewrite E1. cbn [wout].
    split; [auto|]. split; [auto|].
    split. { destruct F as (ph&G&I&_). pose proof (i_mem _ _ _ _ _ _ _ _ I) as X. destruct (reset_same s') as (_&_&_&_&<-&_). exact X. }
    split; [auto|]. split; [split; [discriminate|congruence]|]. split; [discriminate|]. intros x X. injection X as <-. eauto.
Qed.

Lemma receives_inv fuel cfg E P t r rh buf L req w st r' w' tr : recv_setup cfg E P t r rh buf L req w ->
  receives fuel cfg E P t r rh w st r' w' tr ->
  let k := kof r buf L req (w_mem w) in
  let t0 := clk E (r_time r) (w_nt w) in
  let v := view_of tr in
  exists trl o s' ph G, tr = tick (r_time r) t0 ++ trl /\
    rrun E (recv_timeout cfg (r_time r)) k t0 (w_nr w) (clk_next (r_time r) (w_nt w)) view0 trl o v /\
    o <> OMore /\ st = final_status k o v /\ w' = s_w s' /\
    (c_resp (s_ctx s') = false -> s_resp s' = r /\ v = view0 /\ delivered tr = [] /\ o = OFail) /\
    inv cfg k ph G G v (delivered tr) (reset s') /\
    (~ paused o -> G = zlen (v_stream v) /\ r' = s_resp s') /\
    (paused o -> dnp k = true /\ v_msg v = MsgBegun /\ exists hl, v_hend v = Some (hl, G) /\
       r' = set_r_body (s_resp s') (Some (poff buf G)) (zlen (v_stream v) - G)) /\
    (dnp k = true -> ~ paused o -> v_hend v = None).
Proof.
  intros H (HR&HT) k t0 v. destruct (Receive_run fuel _ _ _ _ _ _ _ _ _ _ H) as (trl&o&v'&RR&HO). fold k t0 in RR, HO.
  assert (FX : exists s', o <> OMore /\ ReceiveAndParseHttpResponse fuel cfg E P (Some t) (Some r) (Some rh) w = Ret (final_status k o v', Some r', s_w s') /\
        w_tr (s_w s') = w_tr w ++ tick (r_time r) t0 ++ trl /\ final cfg k r v' (delivered trl) s' o /\
        (~ paused o -> r' = s_resp s') /\
        (paused o -> exists hl G, v_hend v' = Some (hl, G) /\ r' = set_r_body (s_resp s') (Some (poff buf G)) (zlen (v_stream v') - G))).
  { destruct o; [destruct HO as (w1&X&_); rewrite X in HR; discriminate| | |]; destruct HO as (r1&s'&X1&X2&X3&X4&X5); exists s';
      rewrite X1 in HR; injection HR as HR1 HR2 HR3; subst r1; (split; [discriminate|]); auto. }
  destruct FX as (s'&NM&E1&E2&F&F5&F6). rewrite E1 in HR. injection HR as HR1 HR3.
  rewrite <- HR3 in HT. rewrite E2 in HT. apply app_inv_head in HT.
  pose proof (rrun_view _ _ _ _ _ _ _ _ _ _ RR) as V. fold (view_of trl) in V.
  assert (V2 : v' = v) by (unfold v; rewrite <- HT, view_of_tick; auto). rewrite V2 in *. clear V2 v'.
  destruct F as (ph&G&I&F1&F2&F3&F4).
  exists trl, o, s', ph, G. rewrite <- HT, delivered_tick_app.
  split; [auto|]. split; [auto|]. split; [auto|]. split; [auto|]. split; [auto|]. split; [auto|]. split; [auto|].
  split; [auto|]. split; [|auto].
  intros X. destruct (F3 X) as (A1&A2&hl&A3). split; [auto|]. split; [auto|]. exists hl. split; [auto|].
  destruct (F6 X) as (hl2&G2&B1&B2). rewrite A3 in B1. injection B1 as <- <-. auto.
Qed.

Lemma final_status_net k o v : o <> OMore -> final_status k o v = HTTPNetworkError <-> o = OFail.
Proof.
  intros NM. split; [|intros ->; reflexivity].
  destruct o; try congruence; unfold final_status; cbn [errno_of]; destruct e; cbn [parse_error]; try discriminate;
    destruct (v_msg v); try discriminate; destruct (dnp k); try discriminate; destruct (_ =? _); discriminate.
Qed.
Lemma answered_resp E T k a nr nt trl o v st tr s' r tf t0 : rrun E T k a nr nt view0 trl o v -> o <> OMore -> tr = tick tf t0 ++ trl ->
  st = final_status k o v -> answered st tr ->
  (c_resp (s_ctx s') = false -> s_resp s' = r /\ v = view0 /\ delivered tr = [] /\ o = OFail) -> c_resp (s_ctx s') = true.
Proof.
  intros RR NM -> -> A F. destruct (c_resp (s_ctx s')); auto. destruct (F eq_refl) as (_&V&_&O). exfalso.
  pose proof (rrun_received _ _ _ _ _ _ _ _ _ _ RR) as X. rewrite V in X.
  destruct A as [A|A]; [apply A; apply final_status_net; auto|].
  rewrite received_tick in A. lia.
Qed.

(** ** Every parser activity lies in the block after a recv *)
Lemma split_at {T} (A B : list T) x : forall X Y, A ++ B = X ++ x :: Y ->
  (exists A2, A = X ++ x :: A2 /\ Y = A2 ++ B) \/ (exists X2, X = A ++ X2 /\ B = X2 ++ x :: Y).
Proof.
  induction A as [|a A IH]; intros X Y E; [right; exists X; auto|].
  destruct X as [|y X]; injection E as -> E; [left; exists A; subst; auto|].
  destruct (IH _ _ E) as [(A2&->&->)|(X2&->&->)]; [left; exists A2; auto|right; exists X2; auto].
Qed.
Definition notquiet (x : tev) : Prop := ~ quiet x.
Lemma tick_notquiet tf t : Forall notquiet (tick tf t).
Proof. destruct tf; repeat constructor; exact (fun x => x). Qed.

Lemma rrun_block E T k last nr nt v tr o v' : rrun E T k last nr nt v tr o v' ->
  forall tr1 x tr2, quiet x -> tr = tr1 ++ x :: tr2 ->
  exists A p room n d t B1 B2 C b e, tr1 = A ++ TRecv p room n d :: tick (k_tf k) t ++ B1 /\ tr2 = B2 ++ C /\
    pblock k p b e (B1 ++ x :: B2) /\ zlen b = n /\ (zlen d = n -> b = d) /\ (n = 0 -> C = []) /\ (C = [] \/ goes_on e = true).
Proof.
  induction 1 as [|last nr nt v n d H1 H2|last nr nt v n d b e blk tr o v' H1 H2 H3 H4 H5 H6 H7 H8 IH|last nr nt v n d b e blk H1 H2 H3 H4 H5 H6 H7|last nr nt v d e blk H1 H2 H3|last nr nt v d tr o v' H1 H2 H3 IH];
    intros tr1 x tr2 Q X.
  - destruct tr1; discriminate.
  - destruct tr1 as [|y [|z tr1]]; try discriminate. injection X as <- _. destruct Q.
  - destruct tr1 as [|y tr1]; [injection X as <- _; destruct Q|]. injection X as <- X.
    destruct (skip notquiet _ (tick_notquiet _ _) _ _ _ _ (fun f => f Q) X) as (tr3&->&Y).
    destruct (split_at _ _ _ _ _ Y) as [(A2&->&->)|(X2&->&->)].
    + exists [], (poff (k_buf k) (zlen (v_stream v))), (k_L k - zlen (v_stream v)), n, d, (clk E (k_tf k) nt), tr3, A2, tr, b, e.
      split; [reflexivity|]. split; [auto|]. split; [auto|]. split; [auto|]. split; [auto|]. split; [lia|].
      right. rewrite !andb_true_iff in H7. tauto.
    + destruct (IH X2 x tr2 Q eq_refl) as (A&p&room&n'&d'&t&B1&B2&C&b'&e'&->&->&Z1&Z2&Z3&Z4).
      exists (TRecv (poff (k_buf k) (zlen (v_stream v))) (k_L k - zlen (v_stream v)) n d :: tick (k_tf k) (clk E (k_tf k) nt) ++ blk ++ A), p, room, n', d', t, B1, B2, C, b', e'.
      split; [cbn [app]; rewrite <- !app_assoc; reflexivity|]. auto.
  - destruct tr1 as [|y tr1]; [injection X as <- _; destruct Q|]. injection X as <- X.
    destruct (skip notquiet _ (tick_notquiet _ _) _ _ _ _ (fun f => f Q) X) as (tr3&->&Y).
    exists [], (poff (k_buf k) (zlen (v_stream v))), (k_L k - zlen (v_stream v)), n, d, (clk E (k_tf k) nt), tr3, tr2, [], b, e.
    rewrite app_nil_r. subst blk. split; [reflexivity|]. do 4 (split; [auto|]). split; [auto|left; reflexivity].
  - destruct tr1 as [|y tr1]; [injection X as <- _; destruct Q|]. injection X as <- X.
    destruct (skip notquiet _ (tick_notquiet _ _) _ _ _ _ (fun f => f Q) X) as (tr3&->&Y).
    exists [], (poff (k_buf k) (zlen (v_stream v))), (k_L k - zlen (v_stream v)), 0, d, (clk E (k_tf k) nt), tr3, tr2, [], [], e.
    rewrite app_nil_r. subst blk. split; [reflexivity|]. split; [auto|]. split; [auto|]. split; [auto|].
    split; [|split; [auto|left; reflexivity]]. intros Z. destruct d; [auto|rewrite zlen_cons in Z; pose proof (zlen_nonneg d); lia].
  - destruct tr1 as [|y tr1]; [injection X as <- _; destruct Q|]. injection X as <- X.
    destruct (skip notquiet _ (tick_notquiet _ _) _ _ _ _ (fun f => f Q) X) as (tr3&->&Y).
    destruct (IH tr3 x tr2 Q Y) as (A&p&room&n'&d'&t&B1&B2&C&b'&e'&->&->&Z1&Z2&Z3&Z4).
    exists (TRecv (poff (k_buf k) (zlen (v_stream v))) (k_L k - zlen (v_stream v)) 0 d :: tick (k_tf k) (clk E (k_tf k) nt) ++ A), p, room, n', d', t, B1, B2, C, b', e'.
    split; [cbn [app]; rewrite <- !app_assoc; reflexivity|]. auto.
Qed.

Definition noevent (e : tev) : Prop := match e with TEvent _ => False | _ => True end.
Lemma events_at k evs : events k evs -> forall tr1 ev tr2, evs = tr1 ++ TEvent ev :: tr2 ->
  exists hs tr3, Forall (hdr_in (k_buf k) (k_L k)) hs /\ tr2 = hs ++ TReply (reply_of k ev) :: tr3 /\ (reply_of k ev = CbPause -> tr3 = []).
Proof.
  induction 1 as [|ev0 hs tr H1 H2 IH H3]; intros tr1 ev tr2 X; [destruct tr1; discriminate|].
  destruct tr1 as [|y tr1]; [injection X as <- <-; exists hs, tr; auto|]. injection X as <- X.
  assert (NE : ~ noevent (TEvent ev)) by exact (fun f => f).
  assert (N : Forall noevent (hs ++ [TReply (reply_of k ev0)])).
  { apply Forall_app. split; [|repeat constructor]. eapply Forall_impl; [|exact H1]. intros []; cbn; auto. }
  replace (hs ++ TReply (reply_of k ev0) :: tr) with ((hs ++ [TReply (reply_of k ev0)]) ++ tr) in X by (rewrite <- app_assoc; reflexivity).
  destruct (skip _ _ N _ _ _ _ NE X) as (tr4&->&Y). eapply IH; eauto.
Qed.
(** What the library answers to each event. *)
Lemma rrun_reply E T k last nr nt v tr o v' : rrun E T k last nr nt v tr o v' ->
  forall tr1 ev tr2, tr = tr1 ++ TEvent ev :: tr2 ->
  exists hs tr3, Forall (hdr_in (k_buf k) (k_L k)) hs /\ tr2 = hs ++ TReply (reply_of k ev) :: tr3.
Proof.
  intros RR tr1 ev tr2 X. destruct (rrun_block _ _ _ _ _ _ _ _ _ _ RR tr1 (TEvent ev) tr2 (I : quiet (TEvent ev)) X) as (A&p&room&n&d&t&B1&B2&C&b&e&->&->&(evs&Z1&Z&_)&_).
  destruct B1 as [|y B1]; [discriminate|]. injection Z as -> Z.
  destruct (split_at _ _ _ _ _ (eq_sym Z)) as [(A2&Y1&Y2)|(X2&Y1&Y2)].
  - destruct (events_at _ _ Z1 _ _ _ Y1) as (hs&tr3&F1&->&_). exists hs, (tr3 ++ [TParsed e] ++ C). split; [auto|].
    rewrite Y2, <- !app_assoc. reflexivity.
  - destruct X2 as [|? [|]]; discriminate.
Qed.
(** Every header given to the application lies in the response buffer. *)
Lemma events_hdr k evs : events k evs -> forall x, In x evs -> match x with THeader _ _ _ _ _ _ _ => hdr_in (k_buf k) (k_L k) x | _ => True end.
Proof.
  induction 1 as [|ev0 hs tr H1 H2 IH H3]; intros x HI; [destruct HI|].
  destruct HI as [<-|HI]; [auto|]. apply in_app_or in HI. destruct HI as [HI|[<-|HI]]; [|exact I|apply IH; auto].
  rewrite Forall_forall in H1. specialize (H1 _ HI). destruct x; auto.
Qed.
Lemma rrun_hdr E T k last nr nt v tr o v' : rrun E T k last nr nt v tr o v' ->
  forall f fl x xl fb xb c, In (THeader f fl x xl fb xb c) tr -> hdr_in (k_buf k) (k_L k) (THeader f fl x xl fb xb c).
Proof.
  intros RR f fl x xl fb xb c HI. apply in_split in HI. destruct HI as (tr1&tr2&X).
  destruct (rrun_block _ _ _ _ _ _ _ _ _ _ RR tr1 _ tr2 (I : quiet (THeader f fl x xl fb xb c)) X) as (A&p&room&n&d&t&B1&B2&C&b&e&->&->&(evs&Z1&Z&_)&_).
  assert (HI : In (THeader f fl x xl fb xb c) (TParse p b :: evs ++ [TParsed e])) by (rewrite <- Z; apply in_or_app; right; left; auto).
  destruct HI as [HI|HI]; [discriminate|]. apply in_app_or in HI. destruct HI as [HI|[HI|[]]]; [|discriminate].
  exact (events_hdr _ _ Z1 _ HI).
Qed.
