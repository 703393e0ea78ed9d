(** ProofsResponse4.v — what the log of a receive looks like. *)
From Verif Require Import Base Lib ModelRequest ModelSend ModelResponse SpecRequest SpecSend SpecResponse ProofsRequest ProofsSend ProofsSend2 ProofsResponse ProofsResponse2 ProofsResponse3.

Lemma skip {T} (Q : T -> Prop) A : Forall Q A -> forall B X x Y, ~ Q x -> A ++ B = X ++ x :: Y ->
  exists X', X = A ++ X' /\ B = X' ++ x :: Y.
Proof.
  induction 1 as [|a A Ha HA IH]; intros B X x Y N E; [exists X; auto|].
  destruct X as [|y X]; injection E as -> E; [contradiction|].
  destruct (IH _ _ _ _ N E) as (X'&->&->). exists X'. auto.
Qed.

(** Nothing but parser activity. *)
Definition quiet (x : tev) : Prop := match x with TParse _ _ | TEvent _ | TReply _ | THeader _ _ _ _ _ _ _ | TParsed _ => True | _ => False end.
Definition inner (x : tev) : Prop := match x with TEvent _ | TReply _ | THeader _ _ _ _ _ _ _ => True | _ => False end.
Lemma events_inner k evs : events k evs -> Forall inner evs.
Proof.
  induction 1 as [|ev hs tr H1 H2 IH H3]; constructor; [exact I|].
  apply Forall_app. split; [|constructor; auto; exact I].
  eapply Forall_impl; [|exact H1]. intros [] H; cbn in *; tauto.
Qed.
Lemma pblock_quiet k p b e blk : pblock k p b e blk -> Forall quiet blk.
Proof.
  intros (evs&H&->&_). constructor; [exact I|]. apply Forall_app. split; [|constructor; auto; exact I].
  eapply Forall_impl; [|eapply events_inner; eauto]. intros [] X; cbn in *; tauto.
Qed.
Lemma pblock_call k p b e blk : pblock k p b e blk -> parser_call b e blk.
Proof. intros (evs&H&->&_). exists p, evs. split; [auto|]. exact (events_inner _ _ H). Qed.
Lemma view_quiet_not v x : ~ quiet x -> view_step v x = v.
Proof. destruct x; cbn; tauto. Qed.
Lemma view_tick tf t v : fold_left view_step (tick tf t) v = v.
Proof. destruct tf; reflexivity. Qed.
Definition norecv (x : tev) : Prop := match x with TRecv _ _ _ _ => False | _ => True end.
Lemma isrecv p room n d : ~ norecv (TRecv p room n d).
Proof. exact (fun x => x). Qed.
Lemma quiet_norecv x : quiet x -> norecv x.
Proof. destruct x; cbn; tauto. Qed.
Lemma tick_norecv tf t : Forall norecv (tick tf t).
Proof. destruct tf; repeat constructor. Qed.
Lemma blk_norecv k p b e blk : pblock k p b e blk -> Forall norecv blk.
Proof. intros H. eapply Forall_impl; [exact quiet_norecv|]. eapply pblock_quiet; eauto. Qed.

Lemma received_app a b : received (a ++ b) = received a + received b.
Proof. induction a as [|[]]; cbn [received app]; lia. Qed.
Lemma received_norecv a : Forall norecv a -> received a = 0.
Proof. induction 1 as [|[] a H]; cbn in *; auto; tauto. Qed.
Lemma data_received_app a b : data_received (a ++ b) = data_received a ++ data_received b.
Proof. induction a as [|[]]; cbn [data_received app]; rewrite ?IHa; auto. apply app_assoc. Qed.
Lemma data_received_norecv a : Forall norecv a -> data_received a = [].
Proof. induction 1 as [|[] a H]; cbn in *; auto; tauto. Qed.
Lemma recvs_norecv a : Forall norecv a -> recvs a = 0.
Proof. induction 1 as [|[] a H]; cbn in *; auto; tauto. Qed.

Lemma pblock_stream k p b e blk v : pblock k p b e blk -> v_stream (fold_left view_step blk v) = v_stream v ++ b.
Proof.
  intros (evs&H&->&_). cbn [fold_left]. rewrite fold_left_app. cbn [fold_left view_step].
  set (v1 := mkview _ _ _ _ _ _ _ _ _ _ _ _ _ _ _ _ _ _ _ _ _). change (v_stream v ++ b) with (v_stream v1). clearbody v1.
  revert v1. induction H as [|ev hs tr H1 H2 IH H3]; intros v1; auto. cbn [fold_left]. rewrite fold_left_app. cbn [fold_left].
  rewrite (hdrs_view _ _ _ _ H1). cbn [view_step]. rewrite IH. apply view_event_const.
Qed.

Lemma rrun_view E T k last nr nt v tr o v' : rrun E T k last nr nt v tr o v' -> v' = fold_left view_step tr v.
Proof.
  induction 1; auto; cbn [fold_left view_step]; rewrite ?fold_left_app, ?view_tick; auto.
Qed.

Lemma rrun_received E T k last nr nt v tr o v' : rrun E T k last nr nt v tr o v' ->
  zlen (v_stream v') = zlen (v_stream v) + received tr.
Proof.
  induction 1 as [|last nr nt v n d H1 H2|last nr nt v n d b e blk tr o v' H1 H2 H3 H4 H5 H6 H7 H8 IH|last nr nt v n d b e blk H1 H2 H3 H4 H5 H6 H7|last nr nt v d e blk H1 H2 H3|last nr nt v d tr o v' H1 H2 H3 IH]; cbn [received]; rewrite ?received_app, ?(received_norecv (tick _ _)) by apply tick_norecv; try lia.
  - rewrite IH, (pblock_stream _ _ _ _ _ _ H6), zlen_app, (received_norecv blk) by (eapply blk_norecv; eauto). lia.
  - rewrite (pblock_stream _ _ _ _ _ _ H6), zlen_app, (received_norecv blk) by (eapply blk_norecv; eauto). lia.
  - rewrite (pblock_stream _ _ _ _ _ _ H3), zlen_app, (received_norecv blk) by (eapply blk_norecv; eauto). change (zlen (@nil Z)) with 0. lia.
Qed.

Lemma rrun_data E T k last nr nt v tr o v' : recv_faithful E -> rrun E T k last nr nt v tr o v' ->
  v_stream v' = v_stream v ++ data_received tr.
Proof.
  intros F. induction 1 as [|last nr nt v n d H1 H2|last nr nt v n d b e blk tr o v' H1 H2 H3 H4 H5 H6 H7 H8 IH|last nr nt v n d b e blk H1 H2 H3 H4 H5 H6 H7|last nr nt v d e blk H1 H2 H3|last nr nt v d tr o v' H1 H2 H3 IH]; cbn [data_received]; rewrite ?data_received_app, ?(data_received_norecv (tick _ _)) by apply tick_norecv.
  - rewrite app_nil_r. auto.
  - replace (0 <? n) with false by lia. rewrite app_nil_r. auto.
  - specialize (F nr (k_L k - zlen (v_stream v))). rewrite H1 in F. cbn [fst snd] in F.
    rewrite IH, (pblock_stream _ _ _ _ _ _ H6), (data_received_norecv blk) by (eapply blk_norecv; eauto).
    replace (0 <? n) with true by lia. rewrite H4 by auto. rewrite <- app_assoc. reflexivity.
  - specialize (F nr (k_L k - zlen (v_stream v))). rewrite H1 in F. cbn [fst snd] in F.
    rewrite (pblock_stream _ _ _ _ _ _ H6), (data_received_norecv blk) by (eapply blk_norecv; eauto).
    replace (0 <? n) with true by lia. rewrite H4 by auto. rewrite app_nil_r. reflexivity.
  - rewrite (pblock_stream _ _ _ _ _ _ H3), (data_received_norecv blk) by (eapply blk_norecv; eauto). reflexivity.
  - exact IH.
Qed.

Lemma rrun_offers E T k last nr nt v tr o v' : recv_contract E -> zlen (v_stream v) < k_L k -> rrun E T k last nr nt v tr o v' ->
  forall tr1 p room n d tr2, tr = tr1 ++ TRecv p room n d :: tr2 ->
    p = poff (k_buf k) (zlen (v_stream v) + received tr1) /\ room = k_L k - (zlen (v_stream v) + received tr1) /\ 0 < room /\ n <= room.
Proof.
  intros RC LT. induction 1 as [|last nr nt v n d H1 H2|last nr nt v n d b e blk tr o v' H1 H2 H3 H4 H5 H6 H7 H8 IH|last nr nt v n d b e blk H1 H2 H3 H4 H5 H6 H7|last nr nt v d e blk H1 H2 H3|last nr nt v d tr o v' H1 H2 H3 IH];
    intros tr1 p room n' d' tr2 X.
  { destruct tr1; discriminate. }
  all: assert (HC : p = poff (k_buf k) (zlen (v_stream v)) -> room = k_L k - zlen (v_stream v) -> (n', d') = e_recv E nr (k_L k - zlen (v_stream v)) -> tr1 = [] ->
     p = poff (k_buf k) (zlen (v_stream v) + received tr1) /\ room = k_L k - (zlen (v_stream v) + received tr1) /\ 0 < room /\ n' <= room).
  1,3,5,7,9: (intros -> -> Y ->; cbn [received]; rewrite Z.add_0_r; split; [auto|]; split; [auto|]; split; [lia|];
    specialize (RC nr (k_L k - zlen (v_stream v)) ltac:(lia)); rewrite <- Y in RC; cbn [fst] in RC; lia).
  - destruct tr1 as [|x tr1]; [|destruct tr1; discriminate]. injection X as <- <- <- <- <-. auto.
  - destruct tr1 as [|x tr1]; [injection X as <- <- <- <- _; auto|injection X as X1 X2].
    subst x. destruct (skip norecv (tick (k_tf k) (clk E (k_tf k) nt)) (tick_norecv _ _) _ _ _ _ (isrecv _ _ _ _) X2) as (tr3&->&X3).
    destruct (skip norecv blk (blk_norecv _ _ _ _ _ H6) _ _ _ _ (isrecv _ _ _ _) X3) as (tr4&->&X4).
    rewrite !andb_true_iff in H7. destruct H7 as (_&H7).
    assert (LS : zlen (v_stream (fold_left view_step blk v)) = zlen (v_stream v) + n) by (rewrite (pblock_stream _ _ _ _ _ _ H6), zlen_app; lia).
    specialize (IH ltac:(lia) tr4 p room n' d' tr2 X4).
    cbn [received]. rewrite !received_app, (received_norecv (tick _ _)), (received_norecv blk) by (apply tick_norecv || eapply blk_norecv; eauto).
    replace (zlen (v_stream v) + (Z.max n 0 + (0 + (0 + received tr4)))) with (zlen (v_stream v) + n + received tr4) by lia. rewrite <- LS. exact IH.
  - destruct tr1 as [|x tr1]; [injection X as <- <- <- <- _; auto|injection X as X1 X2].
    exfalso. subst x. destruct (skip norecv (tick (k_tf k) (clk E (k_tf k) nt)) (tick_norecv _ _) _ _ _ _ (isrecv _ _ _ _) X2) as (tr3&->&X3).
    rewrite <- (app_nil_r blk) in X3.
    destruct (skip norecv blk (blk_norecv _ _ _ _ _ H6) _ _ _ _ (isrecv _ _ _ _) X3) as (tr4&->&X4). destruct tr4; discriminate.
  - destruct tr1 as [|x tr1]; [injection X as <- <- <- <- _; auto|injection X as X1 X2].
    exfalso. subst x. destruct (skip norecv (tick (k_tf k) (clk E (k_tf k) nt)) (tick_norecv _ _) _ _ _ _ (isrecv _ _ _ _) X2) as (tr3&->&X3).
    rewrite <- (app_nil_r blk) in X3.
    destruct (skip norecv blk (blk_norecv _ _ _ _ _ H3) _ _ _ _ (isrecv _ _ _ _) X3) as (tr4&->&X4). destruct tr4; discriminate.
  - destruct tr1 as [|x tr1]; [injection X as <- <- <- <- _; auto|injection X as X1 X2].
    subst x. destruct (skip norecv (tick (k_tf k) (clk E (k_tf k) nt)) (tick_norecv _ _) _ _ _ _ (isrecv _ _ _ _) X2) as (tr3&->&X3).
    specialize (IH LT tr3 p room n' d' tr2 X3).
    cbn [received]. rewrite !received_app, (received_norecv (tick _ _)) by (apply tick_norecv).
    replace (zlen (v_stream v) + (Z.max 0 0 + (0 + received tr3))) with (zlen (v_stream v) + received tr3) by lia. exact IH.
Qed.

(** ** How the log ends *)
Lemma rrun_end E T k last nr nt v tr o v' : rrun E T k last nr nt v tr o v' ->
  match o with
  | OMore => True
  | OFail => recv_failed tr
  | OStop e | OStall e => ended_with tr e
  end.
Proof.
  induction 1 as [|last nr nt v n d H1 H2|last nr nt v n d b e blk tr o v' H1 H2 H3 H4 H5 H6 H7 H8 IH|last nr nt v n d b e blk H1 H2 H3 H4 H5 H6 H7|last nr nt v d e blk H1 H2 H3|last nr nt v d tr o v' H1 H2 H3 IH]; auto.
  - exists [], (poff (k_buf k) (zlen (v_stream v))), (k_L k - zlen (v_stream v)), n, d. auto.
  - destruct o; auto.
    + destruct IH as (tr1&p&room&n'&d'&->&Hn). set (A := TRecv (poff _ _) _ n d). exists (A :: tick (k_tf k) (clk E (k_tf k) nt) ++ blk ++ tr1), p, room, n', d'.
      split; [|auto]. cbn [app]. rewrite <- !app_assoc. reflexivity.
    + destruct IH as (tr1&->). eexists (_ :: tick (k_tf k) (clk E (k_tf k) nt) ++ blk ++ tr1). cbn [app]. rewrite <- !app_assoc. reflexivity.
    + destruct IH as (tr1&->). eexists (_ :: tick (k_tf k) (clk E (k_tf k) nt) ++ blk ++ tr1). cbn [app]. rewrite <- !app_assoc. reflexivity.
  - destruct H6 as (evs&_&->&_). eexists (_ :: tick (k_tf k) (clk E (k_tf k) nt) ++ TParse _ _ :: evs). cbn [app]. rewrite <- !app_assoc. reflexivity.
  - destruct H3 as (evs&_&->&_). eexists (_ :: tick (k_tf k) (clk E (k_tf k) nt) ++ TParse _ _ :: evs). cbn [app]. rewrite <- !app_assoc. reflexivity.
  - destruct o; auto.
    + destruct IH as (tr1&p&room&n'&d'&->&Hn). set (A := TRecv (poff _ _) _ 0 d). exists (A :: tick (k_tf k) (clk E (k_tf k) nt) ++ tr1), p, room, n', d'.
      split; [|auto]. cbn [app]. rewrite <- !app_assoc. reflexivity.
    + destruct IH as (tr1&->). eexists (_ :: tick (k_tf k) (clk E (k_tf k) nt) ++ tr1). cbn [app]. rewrite <- !app_assoc. reflexivity.
    + destruct IH as (tr1&->). eexists (_ :: tick (k_tf k) (clk E (k_tf k) nt) ++ tr1). cbn [app]. rewrite <- !app_assoc. reflexivity.
Qed.

(** After an error of the parser nothing more happens. *)
Definition notparsed (x : tev) : Prop := match x with TParsed _ => False | _ => True end.
Lemma isparsed e : ~ notparsed (TParsed e).
Proof. exact (fun x => x). Qed.
Lemma tick_notparsed tf t : Forall notparsed (tick tf t).
Proof. destruct tf; repeat constructor. Qed.
Lemma pblock_parsed k p b e blk tr : pblock k p b e blk -> forall tr1 e' tr2, blk ++ tr = tr1 ++ TParsed e' :: tr2 ->
  (tr2 = tr /\ e' = e /\ blk = tr1 ++ [TParsed e]) \/ (exists tr3, tr1 = blk ++ tr3 /\ tr = tr3 ++ TParsed e' :: tr2).
Proof.
  intros (evs&H&->&_) tr1 e' tr2 X.
  assert (N : Forall notparsed (TParse p b :: evs)).
  { constructor; [exact I|]. eapply Forall_impl; [|eapply events_inner; eauto]. intros [] Y; cbn in *; tauto. }
  replace ((TParse p b :: evs ++ [TParsed e]) ++ tr) with ((TParse p b :: evs) ++ TParsed e :: tr) in X by (cbn [app]; rewrite <- app_assoc; reflexivity).
  destruct (skip notparsed _ N _ _ _ _ (isparsed _) X) as (tr3&->&Y).
  destruct tr3 as [|y tr3]; injection Y as Y1 Y2.
  - left. subst. repeat split. cbn [app]. rewrite app_nil_r. reflexivity.
  - right. exists tr3. subst. split; auto. cbn [app]. rewrite <- app_assoc. reflexivity.
Qed.
Lemma rrun_errors E T k last nr nt v tr o v' : rrun E T k last nr nt v tr o v' ->
  forall tr1 e tr2, tr = tr1 ++ TParsed e :: tr2 ->
    (tr2 = [] /\ errno_of o = Some e) \/
    (goes_on e = true /\ v_msg (fold_left view_step tr1 v) <> MsgComplete).
Proof.
  induction 1 as [|last nr nt v n d H1 H2|last nr nt v n d b e blk tr o v' H1 H2 H3 H4 H5 H6 H7 H8 IH|last nr nt v n d b e blk H1 H2 H3 H4 H5 H6 H7|last nr nt v d e blk H1 H2 H3|last nr nt v d tr o v' H1 H2 H3 IH];
    intros tr1 e' tr2 X.
  - destruct tr1; discriminate.
  - destruct tr1 as [|x [|y tr1]]; discriminate.
  - destruct tr1 as [|x tr1]; [discriminate|]. injection X as <- X.
    destruct (skip notparsed _ (tick_notparsed _ _) _ _ _ _ (isparsed _) X) as (tr3&->&Y).
    cbn [fold_left view_step]. rewrite fold_left_app, view_tick.
    destruct (pblock_parsed _ _ _ _ _ _ H6 _ _ _ Y) as [(->&->&->)|(tr4&->&->)].
    + right. rewrite !andb_true_iff in H7. destruct H7 as ((G&M)&_). split; [auto|].
      rewrite fold_left_app in M. cbn [fold_left view_step] in M. unfold done_msg in M. destruct (v_msg _); cbn in M; congruence.
    + rewrite fold_left_app. eapply IH; eauto.
  - destruct tr1 as [|x tr1]; [discriminate|]. injection X as <- X.
    destruct (skip notparsed _ (tick_notparsed _ _) _ _ _ _ (isparsed _) X) as (tr3&->&Y). rewrite <- (app_nil_r blk) in Y.
    destruct (pblock_parsed _ _ _ _ _ _ H6 _ _ _ Y) as [(->&->&->)|(tr4&->&Z)]; [left; auto|destruct tr4; discriminate].
  - destruct tr1 as [|x tr1]; [discriminate|]. injection X as <- X.
    destruct (skip notparsed _ (tick_notparsed _ _) _ _ _ _ (isparsed _) X) as (tr3&->&Y). rewrite <- (app_nil_r blk) in Y.
    destruct (pblock_parsed _ _ _ _ _ _ H3 _ _ _ Y) as [(->&->&->)|(tr4&->&Z)]; [left; auto|destruct tr4; discriminate].
  - destruct tr1 as [|x tr1]; [discriminate|]. injection X as <- X.
    destruct (skip notparsed _ (tick_notparsed _ _) _ _ _ _ (isparsed _) X) as (tr3&->&Y).
    cbn [fold_left view_step]. rewrite fold_left_app, view_tick. eapply IH; eauto.
Qed.
Lemma goes_on_ok e : goes_on e = true -> parse_error e = None /\ e <> HPE_PAUSED.
Proof. destruct e; cbn; intros; try discriminate; split; auto; discriminate. Qed.

(** ** Empty reads *)
Lemma data_time_app A B last : Forall norecv A -> data_time last (A ++ B) = data_time last B.
Proof. induction 1 as [|[] A H]; cbn [app data_time]; auto. cbn in H. tauto. Qed.
Lemma rrun_stall E T k last nr nt v tr o v' : k_tf k = TUser -> rrun E T k last nr nt v tr o v' ->
  forall tr1 p room d tr2, tr = tr1 ++ TRecv p room 0 d :: tr2 ->
    exists t tr3, tr2 = TTime t :: tr3 /\
      (T <= elapsed t (data_time last tr1) -> exists e, parser_call [] e tr3 /\ errno_of o = Some e) /\
      (elapsed t (data_time last tr1) < T ->
         (tr3 = [] /\ o = OMore) \/ (exists p' room' n' d' tr4, tr3 = TRecv p' room' n' d' :: tr4)).
Proof.
  intros TU. induction 1 as [|last nr nt v n d H1 H2|last nr nt v n d b e blk tr o v' H1 H2 H3 H4 H5 H6 H7 H8 IH|last nr nt v n d b e blk H1 H2 H3 H4 H5 H6 H7|last nr nt v d e blk H1 H2 H3|last nr nt v d tr o v' H1 H2 H3 IH];
    intros tr1 p room d' tr2 X; rewrite ?TU in *; cbn [tick app] in X.
  - destruct tr1; discriminate.
  - destruct tr1 as [|x [|y tr1]]; try discriminate. injection X as _ _ X _. lia.
  - destruct tr1 as [|x [|y tr1]]; [injection X as _ _ X _; lia|discriminate|]. injection X as <- <- X.
    destruct (skip norecv blk (blk_norecv _ _ _ _ _ H6) _ _ _ _ (isrecv _ _ _ _) X) as (tr4&->&X4).
    destruct (IH _ _ _ _ _ X4) as (t&tr3&->&Q1&Q2). exists t, tr3. split; [auto|].
    cbn [data_time]. rewrite !(data_time_app blk) by (eapply blk_norecv; eauto). replace (0 <? n) with true by lia. auto.
  - exfalso. destruct tr1 as [|x [|y tr1]]; [injection X as _ _ X _; lia|discriminate|]. injection X as <- <- X. rewrite <- (app_nil_r blk) in X.
    destruct (skip norecv blk (blk_norecv _ _ _ _ _ H6) _ _ _ _ (isrecv _ _ _ _) X) as (tr4&->&X4). destruct tr4; discriminate.
  - destruct tr1 as [|x [|y tr1]].
    + injection X as <- <- <- <-. eexists _, blk. split; [reflexivity|]. cbn [data_time]. rewrite elapsed_u32. split; [|intros Y; unfold clk in *; lia].
      intros _. exists e. split; [eapply pblock_call; eauto|auto].
    + discriminate.
    + exfalso. injection X as <- <- X. rewrite <- (app_nil_r blk) in X.
      destruct (skip norecv blk (blk_norecv _ _ _ _ _ H3) _ _ _ _ (isrecv _ _ _ _) X) as (tr4&->&X4). destruct tr4; discriminate.
  - destruct tr1 as [|x [|y tr1]].
    + injection X as <- <- <- <-. eexists _, tr. split; [reflexivity|]. cbn [data_time]. rewrite elapsed_u32. split; [intros Y; unfold clk in *; lia|].
      intros _. inversion H3; subst; [left; auto|right..]; cbn [app]; repeat eexists.
    + discriminate.
    + injection X as <- <- X. destruct (IH _ _ _ _ _ X) as (t&tr3&->&Q1&Q2). exists t, tr3. split; [auto|].
      cbn [data_time]. replace (0 <? 0) with false by lia. auto.
Qed.
Lemma rrun_stall_zero E k last nr nt v tr o v' : k_tf k = TZero -> last = 0 -> rrun E 0 k last nr nt v tr o v' ->
  forall tr1 p room d tr2, tr = tr1 ++ TRecv p room 0 d :: tr2 -> exists e, parser_call [] e tr2 /\ errno_of o = Some e.
Proof.
  intros TU L0. induction 1 as [|last nr nt v n d H1 H2|last nr nt v n d b e blk tr o v' H1 H2 H3 H4 H5 H6 H7 H8 IH|last nr nt v n d b e blk H1 H2 H3 H4 H5 H6 H7|last nr nt v d e blk H1 H2 H3|last nr nt v d tr o v' H1 H2 H3 IH];
    intros tr1 p room d' tr2 X; rewrite ?TU in *; cbn [tick app] in X.
  - destruct tr1; discriminate.
  - destruct tr1 as [|x [|y tr1]]; try discriminate. injection X as _ _ X _. lia.
  - destruct tr1 as [|x tr1]; [injection X as _ _ X _; lia|]. injection X as <- X.
    destruct (skip norecv blk (blk_norecv _ _ _ _ _ H6) _ _ _ _ (isrecv _ _ _ _) X) as (tr4&->&X4).
    apply (IH eq_refl _ _ _ _ _ X4).
  - exfalso. destruct tr1 as [|x tr1]; [injection X as _ _ X _; lia|]. injection X as <- X. rewrite <- (app_nil_r blk) in X.
    destruct (skip norecv blk (blk_norecv _ _ _ _ _ H6) _ _ _ _ (isrecv _ _ _ _) X) as (tr4&->&X4). destruct tr4; discriminate.
  - destruct tr1 as [|x tr1].
    + injection X as <- <- <- <-. exists e. split; [eapply pblock_call; eauto|auto].
    + exfalso. injection X as <- X. rewrite <- (app_nil_r blk) in X.
      destruct (skip norecv blk (blk_norecv _ _ _ _ _ H3) _ _ _ _ (isrecv _ _ _ _) X) as (tr4&->&X4). destruct tr4; discriminate.
  - exfalso. subst last. cbn [clk] in H2. change (u32 (0 - 0)) with 0 in H2. lia.
Qed.

(** ** Number of reads *)
Lemma adv_many E T : 0 <= T -> advancing E T -> forall a b, (a <= b)%nat -> Z.of_nat b - Z.of_nat a <= e_time E b - e_time E a.
Proof.
  intros HT AD a b H. induction H as [|b H IH]; [lia|]. specialize (AD b). lia.
Qed.
Lemma rrun_count E T k n0 nr nt v tr o v' last : 0 <= T < 2 ^ 32 -> advancing E T -> k_tf k = TUser ->
  rrun E T k last nr nt v tr o v' -> last = u32 (e_time E n0) -> (n0 < nt)%nat ->
  e_time E (nt - 1) - e_time E n0 = 0 \/ e_time E (nt - 1) - e_time E n0 < T ->
  zlen (v_stream v) < k_L k ->
  recvs tr <= (k_L k - zlen (v_stream v)) * (T + 1) + T + 1 - Z.of_nat (nt - 1 - n0).
Proof.
  intros HT AD TU H. revert n0. induction H as [|last nr nt v n d H1 H2|last nr nt v n d b e blk tr o v' H1 H2 H3 H4 H5 H6 H7 H8 IH|last nr nt v n d b e blk H1 H2 H3 H4 H5 H6 H7|last nr nt v d e blk H1 H2 H3|last nr nt v d tr o v' H1 H2 H3 IH];
    intros n0 L0 LN HE LT; assert (Z.of_nat (nt - 1 - n0) <= T) by (pose proof (adv_many E T ltac:(lia) AD n0 (nt - 1) ltac:(lia)); destruct HE; lia);
    cbn [recvs]; rewrite ?recvs_app, ?recvs_tick.
  - nia.
  - nia.
  - rewrite (recvs_norecv blk) by (eapply blk_norecv; eauto).
    assert (LS : zlen (v_stream (fold_left view_step blk v)) = zlen (v_stream v) + n) by (rewrite (pblock_stream _ _ _ _ _ _ H6), zlen_app; lia).
    rewrite !andb_true_iff in H7. destruct H7 as (_&H7). rewrite TU in *. cbn [clk clk_next] in *.
    specialize (IH nt eq_refl ltac:(lia)). replace (S nt - 1)%nat with nt in IH by lia. specialize (IH ltac:(left; lia) ltac:(lia)).
    replace (Z.of_nat (nt - nt)) with 0 in IH by lia. nia.
  - rewrite (recvs_norecv blk) by (eapply blk_norecv; eauto). nia.
  - rewrite (recvs_norecv blk) by (eapply blk_norecv; eauto). nia.
  - rewrite TU in *. cbn [clk clk_next] in *. rewrite L0, u32_diff in H2.
    pose proof (AD (nt - 1)%nat) as A1. replace (S (nt - 1)) with nt in A1 by lia.
    pose proof (adv_many E T ltac:(lia) AD n0 (nt - 1) ltac:(lia)) as A2.
    change (2 ^ 32) with two32 in *. unfold two32 in *.
    assert (TP : 0 < T) by (pose proof (Z.mod_pos_bound (e_time E nt - e_time E n0) two32 ltac:(reflexivity)); unfold u32 in H2; lia).
    assert (R : 0 <= e_time E nt - e_time E n0 < 4294967296) by lia.
    rewrite u32_small in H2 by (unfold two32; lia).
    specialize (IH n0 L0 ltac:(lia)). replace (S nt - 1)%nat with nt in IH by lia. specialize (IH ltac:(right; lia) LT).
    lia.
Qed.
Lemma rrun_count_zero E k nr nt v tr o v' last : k_tf k = TZero -> last = 0 -> rrun E 0 k last nr nt v tr o v' ->
  zlen (v_stream v) < k_L k -> recvs tr <= k_L k - zlen (v_stream v) + 1.
Proof.
  intros TU L0 H. revert L0. induction H as [|last nr nt v n d H1 H2|last nr nt v n d b e blk tr o v' H1 H2 H3 H4 H5 H6 H7 H8 IH|last nr nt v n d b e blk H1 H2 H3 H4 H5 H6 H7|last nr nt v d e blk H1 H2 H3|last nr nt v d tr o v' H1 H2 H3 IH];
    intros L0 LT; cbn [recvs]; rewrite ?recvs_app, ?recvs_tick.
  - lia.
  - lia.
  - rewrite (recvs_norecv blk) by (eapply blk_norecv; eauto).
    assert (LS : zlen (v_stream (fold_left view_step blk v)) = zlen (v_stream v) + n) by (rewrite (pblock_stream _ _ _ _ _ _ H6), zlen_app; lia).
    rewrite !andb_true_iff in H7. destruct H7 as (_&H7). rewrite TU in *. cbn [clk clk_next] in *.
    specialize (IH eq_refl ltac:(lia)). lia.
  - rewrite (recvs_norecv blk) by (eapply blk_norecv; eauto). lia.
  - rewrite (recvs_norecv blk) by (eapply blk_norecv; eauto). lia.
  - exfalso. subst last. rewrite TU in *. cbn [clk] in H2. change (u32 (0 - 0)) with 0 in H2. lia.
Qed.
