(** ProofsEnd.v — receiving a well-formed response with the reference parser. *)
From Verif Require Import Base Lib ModelRequest ModelSend ModelResponse SpecRequest SpecSend SpecResponse ProofsRequest
  ProofsSend ProofsSend2 ProofsResponse ProofsResponse2 ProofsResponse3 ProofsResponse4 ProofsResponse5 RefParser RefRun SpecHttp HttpRun ProofsFollow.

Lemma step1_nhend nb s c : q_st (step1 nb s c) <> HEnd.
Proof.
  unfold step1. destruct (q_st (snd (step s c))) eqn:Q; rewrite ?Q; try discriminate.
  unfold after_hdrs. destruct (_ || _); [discriminate|]. destruct (q_chunked _); [discriminate|].
  destruct (q_clen _) as [n|]; [destruct (n =? 0)|]; discriminate.
Qed.
Lemma srun_app nb s a b : srun nb s (a ++ b) = srun nb (srun nb s a) b.
Proof. apply fold_left_app. Qed.
Lemma okrun_live nb d : okrun nb rinit d -> q_st (srun nb rinit d) <> HEnd /\ forall e, q_st (srun nb rinit d) <> Dead e.
Proof.
  destruct d as [|c d] using rev_ind; [split; discriminate|]. intros H. apply okrun_app in H. destruct H as (_&H).
  rewrite srun_app. cbn [srun fold_left]. split; [apply step1_nhend|]. destruct H as (_&_&H&_). exact H.
Qed.
Lemma okrun_start nb a b : okrun nb rinit (a ++ b) -> a <> [] -> b <> [] -> q_st (srun nb rinit a) <> Start.
Proof.
  intros H HA HB Q. destruct a as [|c a _] using rev_ind; [auto|]. apply okrun_app in H. destruct H as (H1&H2).
  destruct b as [|x b]; [auto|]. destruct H2 as (H2&_). specialize (H2 Q). destruct H2 as (H2&_).
  apply okrun_app in H1. destruct H1 as (_&H1). rewrite srun_app in Q, H2. cbn [srun fold_left] in Q, H2. destruct H1 as (_&_&_&H1&_).
  specialize (H1 Q). fold (srun nb rinit a) in *. rewrite H2 in H1. apply H1. reflexivity.
Qed.
Lemma okrun_code nb a : okrun nb rinit a -> a <> [] -> q_st (srun nb rinit a) = Start -> q_code (srun nb rinit a) <> 0.
Proof.
  intros H HA Q. destruct a as [|c a _] using rev_ind; [congruence|]. apply okrun_app in H. destruct H as (_&_&_&_&H&_).
  rewrite srun_app in *. auto.
Qed.

Lemma finish_cong v v1 : v_name v1 = v_name v -> v_value v1 = v_value v -> v_headers v1 = v_headers v -> v_code v1 = v_code v ->
  v_name (finish v1) = v_name (finish v) /\ v_value (finish v1) = v_value (finish v) /\ v_headers (finish v1) = v_headers (finish v).
Proof. intros A B C D. unfold finish. rewrite A, B. destruct (v_name v) eqn:E1, (v_value v) eqn:E2; cbn; rewrite ?A, ?B, ?C, ?D, ?E1, ?E2; auto. Qed.
(** A new call does not change what has been said. *)
Lemma rel_parse s v p b z : z = zlen (v_stream v) -> rel s v z z -> rel s (view_step v (TParse p b)) z z.
Proof.
  intros ->. set (v1 := view_step v (TParse p b)).
  assert (U : forall z, unrep v1 z z = unrep v z z) by (intros; rewrite !unrep_nil; auto).
  assert (ST : forall H, settled v H -> settled v1 H) by (intros H; unfold settled; destruct (finish_cong v v1) as (->&->&->); auto).
  unfold rel, rel0. intros ((AD&R)&PE). split; [|exact PE]. clear PE. split; [exact AD|]. revert R. destruct (q_st s); intros R.
  all: rewrite ?unrep_nil in *; try exact R; try (destruct R as [R|R]; [left; exact R|right]).
  all: repeat match goal with H : _ /\ _ |- _ => destruct H end; repeat (split; [solve [auto]|]); auto.
  all: match goal with H : _ \/ _ |- _ => destruct H as [H|H]; [left|right] end; auto.
  destruct H3 as (H3&H4). auto.
Qed.

(** ** One call of the parser *)
Definition rp := refparser.
(** How the parser and the log stand after the stream of [v]. *)
(** Where the (first) headers of the text end. *)
Fixpoint hfind (nb : bool) (s : rst) (d : bytes) : option Z :=
  match d with
  | [] => None
  | c :: d' => match q_st (snd (step s c)) with HEnd => Some 1 | _ => match hfind nb (step1 nb s c) d' with Some k => Some (k + 1) | None => None end end
  end.
Lemma hfind_app nb a : forall s b, hfind nb s (a ++ b) = match hfind nb s a with Some k => Some k | None => match hfind nb (srun nb s a) b with Some k => Some (zlen a + k) | None => None end end.
Proof.
  induction a as [|c a IH]; intros s b; cbn [app hfind].
  - cbn [srun fold_left]. destruct (hfind nb s b); reflexivity.
  - cbn [srun fold_left]. rewrite IH. fold (srun nb (step1 nb s c) a).
    destruct (q_st (snd (step s c))); try reflexivity; destruct (hfind nb (step1 nb s c) a); try reflexivity; destruct (hfind nb (srun nb (step1 nb s c) a) b); try reflexivity; f_equal; rewrite zlen_cons; lia.
Qed.
Lemma hfind_dead nb s e d : q_st s = Dead e -> hfind nb s d = None.
Proof.
  intros Q. induction d as [|c d IH]; [auto|]. cbn [hfind]. assert (S : step s c = ([], s)) by (unfold step; rewrite Q; auto).
  assert (S1 : step1 nb s c = s) by (unfold step1; rewrite S; cbn [snd]; rewrite Q; auto). rewrite S, S1, IH. cbn [snd]. rewrite Q. auto.
Qed.
Definition h1_ok (nb : bool) (v : view) : Prop := v_h1 v = hfind nb rinit (v_stream v).
Definition stands (nb : bool) (v : view) : Prop :=
  rel (srun nb rinit (v_stream v)) v (zlen (v_stream v)) (zlen (v_stream v)) /\ h1_ok nb v.
Lemma events_h1 evs : forall v, Forall (fun e => match e with EvHeadersComplete _ _ _ _ => False | _ => True end) evs ->
  v_h1 (fold_left view_event evs v) = v_h1 v /\ v_start (fold_left view_event evs v) = v_start v.
Proof.
  induction evs as [|e evs IH]; intros v H; [auto|]. inversion H as [|? ? H1 H2]; subst. cbn [fold_left]. destruct (IH (view_event v e) H2) as (->&->).
  assert (FI : forall u, v_h1 (finish u) = v_h1 u /\ v_start (finish u) = v_start u) by (intros u; unfold finish; destruct (v_name u), (v_value u); auto).
  destruct e; try contradiction; cbn [view_event v_h1 v_start]; auto; apply FI.
Qed.
Lemma kinds_h1 s ks sp pos : Forall (fun e => match e with EvHeadersComplete _ _ _ _ => False | _ => True end) (map (fun k => event s k sp pos) ks).
Proof. apply Forall_forall. intros e H. apply in_map_iff in H. destruct H as (k&<-&_). destruct k; exact Logic.I. Qed.
Definition keep (o : option Z) (z : Z) (n : option Z) : option Z := match o with Some p => Some p | None => match n with Some k => Some (z + k) | None => None end end.
Lemma go_h1 nb d : forall s v sp pos v' e s', texec nb (go s d sp pos) v = (v', e, s') ->
  v_start v' = v_start v /\ v_h1 v' = keep (v_h1 v) (v_start v + pos) (hfind nb s d).
Proof.
  induction d as [|c d IH]; intros s v sp pos v' e s' H; cbn [go] in H; cbn [hfind].
  - rewrite texec_emit in H. cbn [texec] in H. injection H as <- _ _.
    assert (FL : Forall (fun e => match e with EvHeadersComplete _ _ _ _ => False | _ => True end) (flush s sp pos)) by (unfold flush; destruct (sp <? pos); [destruct (q_st s)|]; repeat constructor).
    destruct (events_h1 _ v FL) as (->&->). unfold keep. destruct (v_h1 v); auto.
  - destruct (step s c) as [ks s1] eqn:ES. cbn [snd]. rewrite texec_emit in H.
    pose proof (events_h1 _ v (kinds_h1 s1 ks sp pos)) as (E1&E2). set (v1 := fold_left view_event _ v) in *.
    assert (GO : q_st s1 <> HEnd -> forall sp1, texec nb (go s1 d sp1 (pos + 1)) v1 = (v', e, s') ->
      v_start v' = v_start v /\ v_h1 v' = keep (v_h1 v) (v_start v + pos) (match hfind nb (step1 nb s c) d with Some k => Some (k + 1) | None => None end)).
    { intros NH sp1 HG. destruct (IH _ _ _ _ _ _ _ HG) as (A&A2). rewrite E1, E2 in *. split; [exact A|].
      assert (S1 : step1 nb s c = s1) by (unfold step1; rewrite ES; cbn [snd]; destruct (q_st s1); congruence).
      rewrite S1, A2. unfold keep. destruct (v_h1 v); [auto|]. destruct (hfind nb s1 d); [f_equal; lia|auto]. }
    destruct (q_st s1) eqn:Q; try (eapply GO; [discriminate|exact H]); clear GO.
    + cbn [texec] in H. set (nbr := match rep nb _ with CbNoBody => true | _ => false end) in H. destruct (after_hdrs nbr s1) as [ks2 s2] eqn:EA. rewrite texec_emit in H.
      pose proof (events_h1 _ (view_event v1 (EvHeadersComplete (pos + 1) (clen_field s1) (q_close s1) (q_ka s1))) (kinds_h1 s2 ks2 (pos + 1) (pos + 1))) as (F1&F2).
      destruct (IH _ _ _ _ _ _ _ H) as (A&A2). rewrite F1, F2 in *.
      assert (V1 : v_start (view_event v1 (EvHeadersComplete (pos + 1) (clen_field s1) (q_close s1) (q_ka s1))) = v_start v) by (rewrite <- E2; unfold view_event, finish; destruct (v_name v1), (v_value v1); reflexivity).
      assert (V2 : v_h1 (view_event v1 (EvHeadersComplete (pos + 1) (clen_field s1) (q_close s1) (q_ka s1))) = or_new (v_h1 v) (v_start v + (pos + 1))) by (rewrite <- E1, <- E2; unfold view_event, finish; destruct (v_name v1), (v_value v1); reflexivity).
      rewrite V1, V2 in *. split; [exact A|]. rewrite A2. unfold keep, or_new. destruct (v_h1 v); [auto|]. f_equal; lia.
    + cbn [texec] in H. injection H as <- _ _. rewrite E1, E2. split; [auto|].
      assert (S1 : step1 nb s c = s1) by (unfold step1; rewrite ES; cbn [snd]; destruct (q_st s1); congruence).
      rewrite S1, (hfind_dead nb s1 _ d Q). unfold keep. destruct (v_h1 v); auto.
Qed.
Lemma go_call nb v p b : b <> [] -> okrun nb rinit (v_stream v ++ b) -> stands nb v ->
  exists v', texec nb (rexec (srun nb rinit (v_stream v)) b) (view_step v (TParse p b)) = (v', HPE_OK, srun nb rinit (v_stream v ++ b)) /\
    v_stream v' = v_stream v ++ b /\ stands nb v'.
Proof.
  intros NB OK R. apply okrun_app in OK. destruct OK as (OK1&OK2). destruct (okrun_live _ _ OK1) as (L1&L2).
  destruct R as (R&H1). set (s := srun nb rinit (v_stream v)) in *.
  assert (RX : rexec s b = go s b 0 0) by (unfold rexec; destruct b; [congruence|]; destruct (q_st s) eqn:Q; auto; destruct (L2 _ eq_refl)).
  rewrite RX. apply (rel_parse s v p b _ eq_refl) in R.
  destruct (go_texec nb b s (view_step v (TParse p b)) (zlen (v_stream v)) 0 0 (v_stream v)) as (v'&T&V1&V2&V3); auto; try lia.
  - apply zlen_nonneg.
  - rewrite !Z.add_0_r. exact R.
  - exists v'. rewrite srun_app. fold s. split; [exact T|]. split; [exact V1|]. unfold stands, h1_ok. rewrite V1. cbn [view_step v_stream]. rewrite srun_app. split; [exact V3|].
    destruct (go_h1 _ _ _ _ _ _ _ _ _ T) as (_&->). cbn [view_step v_h1 v_start]. unfold h1_ok in H1. rewrite H1, hfind_app. fold s.
    unfold keep. destruct (hfind nb rinit (v_stream v)); [auto|]. destruct (hfind nb s b); [f_equal; lia|auto].
Qed.
Lemma end_call nb v p : okrun nb rinit (v_stream v) -> stands nb v ->
  exists v' e s', texec nb (rexec (srun nb rinit (v_stream v)) []) (view_step v (TParse p [])) = (v', e, s') /\ v_stream v' = v_stream v /\
    match q_st (srun nb rinit (v_stream v)) with
    | Start => e = HPE_OK /\ stands nb v' /\ v_msg v' = v_msg v
    | BodyEof => e = HPE_OK /\ exists v0, stands nb v0 /\ v_stream v0 = v_stream v /\ v' = view_event v0 EvMessageComplete
    | _ => e = HPE_INVALID_EOF_STATE /\ stands nb v' /\ v_msg v' = v_msg v
    end.
Proof.
  intros OK R. destruct (okrun_live _ _ OK) as (L1&L2). destruct R as (R&H1). set (s := srun nb rinit (v_stream v)) in *.
  apply (rel_parse s v p [] _ eq_refl) in R. set (v1 := view_step v (TParse p [])) in *.
  assert (V1 : v_stream v1 = v_stream v) by (cbn; apply app_nil_r).
  assert (R1 : stands nb v1) by (unfold stands, h1_ok; rewrite V1; split; [exact R|exact H1]).
  unfold rexec. destruct (q_st s) eqn:Q; try (destruct (L2 _ eq_refl)); cbn [texec]; do 3 eexists; (split; [reflexivity|]); (split; [exact V1|]); try (split; [reflexivity|split; [exact R1|reflexivity]]).
  split; [reflexivity|]. exists v1. auto.
Qed.

(** ** The loop *)
Definition prefix_of (a d : bytes) : Prop := exists x, d = a ++ x.
Definition cut_off (nb : bool) (v : view) : Prop := stands nb v /\ done_msg v = false.
Definition outcome (nb : bool) (L : Z) (o : rout) (v : view) : Prop :=
  match o with
  | OMore | OFail => cut_off nb v
  | OStop e => e = HPE_OK /\ stands nb v /\ (done_msg v = true \/ zlen (v_stream v) = L) /\ v_stream v <> []
  | OStall e =>
      (e = HPE_OK \/ e = HPE_INVALID_EOF_STATE) /\
      (q_st (srun nb rinit (v_stream v)) <> BodyEof /\ cut_off nb v \/
       q_st (srun nb rinit (v_stream v)) = BodyEof /\ exists v0, stands nb v0 /\ v_stream v0 = v_stream v /\ v = view_event v0 EvMessageComplete)
  end.
Lemma pst_inner nb P A p b evs e : Forall inner evs -> pst nb P (A ++ TParse p b :: evs ++ [TParsed e]) = pst nb P (A ++ [TParse p b]).
Proof.
  intros IN. assert (NP : forall l q, Forall inner l -> fold_left (st_after nb P) l q = q).
  { induction l as [|x l IH]; intros q H; [auto|]. inversion H; subst. cbn [fold_left]. rewrite IH by auto. destruct x; cbn in *; tauto. }
  rewrite !pst_app. cbn [fold_left]. rewrite fold_left_app, (NP evs) by auto. reflexivity.
Qed.
Lemma rrun_http E T k nb D last nr nt v tr o v' : recv_faithful E -> rrun E T k last nr nt v tr o v' -> okrun nb rinit D ->
  forall A, follows nb rp (A ++ tr) -> view_of A = v -> pst nb rp A = srun nb rinit (v_stream v) -> stands nb v -> done_msg v = false ->
  prefix_of (v_stream v ++ data_received tr) D ->
  outcome nb (k_L k) o v'.
Proof.
  intros F H OK.
  induction H as [|last nr nt v n d H1 H2|last nr nt v n d b e blk tr o v' H1 H2 H3 H4 H5 H6 H7 H8 IH|last nr nt v n d b e blk H1 H2 H3 H4 H5 H6 H7|last nr nt v d e blk H1 H2 H3|last nr nt v d tr o v' H1 H2 H3 IH];
    intros A FO VA PA ST DN PR; cbn [data_received] in PR; [split; auto|split; auto| | | |].
  1,2: specialize (F nr (k_L k - zlen (v_stream v))); rewrite H1 in F; cbn [fst snd] in F; specialize (F H2); specialize (H4 F); subst d;
    destruct H6 as (evs&EV&->&_); pose proof (events_inner _ _ EV) as IN;
    cbn [data_received] in PR; replace (0 <? n) with true in PR by lia;
    set (rv := TRecv _ _ n b) in *; set (t := clk E (k_tf k) nt) in *;
    assert (BN : b <> []) by (intros ->; change (zlen (@nil Z)) with 0 in H3; lia);
    set (A1 := (A ++ [rv]) ++ tick (k_tf k) t);
    assert (V1 : view_of A1 = v) by (unfold A1; rewrite !view_of_app, VA; cbn [fold_left view_step]; apply view_tick);
    assert (P1 : pst nb rp A1 = srun nb rinit (v_stream v)) by (unfold A1; rewrite pst_tick, pst_app; exact PA).
  - assert (OB : okrun nb rinit (v_stream v ++ b)).
    { destruct PR as (x&PR). rewrite PR, <- !app_assoc, app_assoc in OK. apply okrun_app in OK. apply OK. }
    destruct (go_call nb v (poff (k_buf k) (zlen (v_stream v))) b BN OB ST) as (v1&T1&S1&ST1).
    set (p := poff (k_buf k) (zlen (v_stream v))) in *.
    assert (FQ : A ++ rv :: tick (k_tf k) t ++ (TParse p b :: evs ++ [TParsed e]) ++ tr = A1 ++ TParse p b :: evs ++ TParsed e :: tr).
    { unfold A1. rewrite <- !app_assoc. cbn [app]. rewrite <- app_assoc. reflexivity. }
    rewrite FQ in FO. pose proof (FO A1 p b evs e tr eq_refl IN) as X. rewrite P1, V1 in X. pose proof (eq_trans (eq_sym T1) X) as X0; injection X0 as X1 X2 X3.
    assert (VB : fold_left view_step (TParse p b :: evs ++ [TParsed e]) v = v1).
    { rewrite X1, view_of_app, V1. cbn [fold_left]. rewrite fold_left_app. reflexivity. }
    rewrite VB in *.
    apply (IH (A1 ++ TParse p b :: evs ++ [TParsed e])).
    + rewrite <- app_assoc. cbn [app]. rewrite <- app_assoc. exact FO.
    + rewrite view_of_app, V1. exact VB.
    + rewrite pst_inner, <- X3, S1 by auto. reflexivity.
    + exact ST1.
    + destruct (done_msg v1); [rewrite andb_false_r in H7; discriminate|auto].
    + rewrite S1. rewrite data_received_app, (data_received_norecv (tick _ _)) in PR by apply tick_norecv.
      cbn [app data_received] in PR. rewrite <- app_assoc in PR. cbn [app] in PR. rewrite data_received_app in PR. rewrite (data_received_norecv evs) in PR by (eapply Forall_impl; [|exact IN]; intros []; cbn; tauto).
      cbn [app data_received] in PR. rewrite <- app_assoc. exact PR.
  - assert (OB : okrun nb rinit (v_stream v ++ b)).
    { destruct PR as (x&PR). rewrite PR, <- !app_assoc, app_assoc in OK. apply okrun_app in OK. apply OK. }
    destruct (go_call nb v (poff (k_buf k) (zlen (v_stream v))) b BN OB ST) as (v1&T1&S1&ST1).
    set (p := poff (k_buf k) (zlen (v_stream v))) in *.
    assert (FQ : A ++ rv :: tick (k_tf k) t ++ (TParse p b :: evs ++ [TParsed e]) = A1 ++ TParse p b :: evs ++ TParsed e :: []).
    { unfold A1. rewrite <- !app_assoc. reflexivity. }
    rewrite FQ in FO. pose proof (FO A1 p b evs e [] eq_refl IN) as X. rewrite P1, V1 in X. pose proof (eq_trans (eq_sym T1) X) as X0; injection X0 as X1 X2 X3.
    assert (VB : fold_left view_step (TParse p b :: evs ++ [TParsed e]) v = v1).
    { rewrite X1, view_of_app, V1. cbn [fold_left]. rewrite fold_left_app. reflexivity. }
    rewrite VB in *. subst e. split; [auto|]. split; [exact ST1|]. cbn [goes_on andb] in H7. split.
    + destruct (done_msg v1); [auto|]. right. cbn [negb andb] in H7. rewrite S1, zlen_app. lia.
    + rewrite S1. intros Q. apply app_eq_nil in Q. destruct Q; auto.
  - destruct H3 as (evs&EV&->&_); pose proof (events_inner _ _ EV) as IN.
    set (rv := TRecv _ _ 0 d) in *. set (t := clk E (k_tf k) nt) in *.
    set (A1 := (A ++ [rv]) ++ tick (k_tf k) t).
    assert (V1 : view_of A1 = v) by (unfold A1; rewrite !view_of_app, VA; cbn [fold_left view_step]; apply view_tick).
    assert (P1 : pst nb rp A1 = srun nb rinit (v_stream v)) by (unfold A1; rewrite pst_tick, pst_app; exact PA).
    assert (OB : okrun nb rinit (v_stream v)).
    { destruct PR as (x&PR). rewrite PR, <- !app_assoc in OK. apply okrun_app in OK. apply OK. }
    destruct (end_call nb v (poff (k_buf k) (zlen (v_stream v))) OB ST) as (v1&e1&s1&T1&S1&ST1).
    set (p := poff (k_buf k) (zlen (v_stream v))) in *.
    assert (FQ : A ++ rv :: tick (k_tf k) t ++ (TParse p [] :: evs ++ [TParsed e]) = A1 ++ TParse p [] :: evs ++ TParsed e :: []).
    { unfold A1. rewrite <- !app_assoc. reflexivity. }
    rewrite FQ in FO. pose proof (FO A1 p [] evs e [] eq_refl IN) as X. rewrite P1, V1 in X. pose proof (eq_trans (eq_sym T1) X) as X0; injection X0 as X1 X2 X3.
    assert (VB : fold_left view_step (TParse p [] :: evs ++ [TParsed e]) v = v1).
    { rewrite X1, view_of_app, V1. cbn [fold_left]. rewrite fold_left_app. reflexivity. }
    rewrite VB in *. cbn [outcome]. rewrite S1. subst e1. unfold cut_off, done_msg in *.
    destruct (q_st (srun nb rinit (v_stream v))); destruct ST1 as (EE&ST1); (split; [auto|]);
      try (left; split; [discriminate|]; destruct ST1 as (ST1&->); auto; fail).
    right. split; [reflexivity|]. exact ST1.
  - set (rv := TRecv _ _ 0 d) in *. set (t := clk E (k_tf k) nt) in *.
    apply (IH ((A ++ [rv]) ++ tick (k_tf k) t)); auto.
    + rewrite <- !app_assoc. exact FO.
    + rewrite !view_of_app, VA. cbn [fold_left view_step]. apply view_tick.
    + rewrite pst_tick, pst_app. exact PA.
    + change (if 0 <? 0 then d else []) with (@nil Z) in PR. rewrite data_received_app, (data_received_norecv (tick _ _)) in PR by apply tick_norecv. exact PR.
Qed.

(** ** Where the headers of a well-formed response end *)
Definition past (s : rst) : Prop :=
  match q_st s with
  | Start => s <> rinit
  | BodyN _ | BodyEof | CkStart | CkSize _ | CkExt _ | CkLF _ | CkData _ | CkCR | CkDLF => q_tr s = false
  | Ver _ | Minor | VSp | Code _ _ | CodeEnd | Reason | ReasonLF => False
  | HEnd => False
  | Dead _ => True
  | _ => q_tr s = true
  end.
Lemma hstart_past s c : q_tr s = true -> q_code (snd (hstart s c)) <> 0 \/ q_st (snd (hstart s c)) <> Start -> past (snd (hstart s c)).
Proof.
  intros H C. unfold hstart, end_of_headers in *. rewrite H in *.
  destruct (c =? CR); [exact H|]. destruct (c =? LF); [cbn in *; destruct C as [C|C]; [|congruence]; intros X; rewrite (f_equal q_code X : q_code s = 0) in C; auto|].
  destruct (is_tchar c); [exact H|exact Logic.I].
Qed.
Lemma past_step nb s c : past s -> q_st s <> Start -> (q_st (step1 nb s c) = Start -> q_code (step1 nb s c) <> 0) ->
  past (step1 nb s c) /\ q_st (snd (step s c)) <> HEnd.
Proof.
  intros P NS C. assert (X : (q_st (snd (step s c)) = Start -> q_code (snd (step s c)) <> 0) -> past (snd (step s c))).
  { clear C. intros C. assert (D : q_code (snd (step s c)) <> 0 \/ q_st (snd (step s c)) <> Start) by (destruct (q_st (snd (step s c))); auto; right; discriminate). clear C.
    assert (NR : forall u, q_code u <> 0 \/ q_st u <> Start -> u <> rinit) by (intros u [U|U] ->; apply U; reflexivity).
    unfold step in *. destruct (q_st s) eqn:Q; unfold past in P; rewrite Q in P; try contradiction; try congruence.
    - apply hstart_past; auto.
    - destruct (c =? COLON); [exact P|]. destruct (is_tchar c); [unfold past; cbn; rewrite Q; exact P|exact Logic.I].
    - destruct (is_ws c); [unfold past; cbn; rewrite Q; exact P|]. destruct (c =? CR); [exact P|]. destruct (c =? LF); exact P.
    - destruct (c =? CR); [exact P|]. destruct (c =? LF); [exact P|unfold past; cbn; rewrite Q; exact P].
    - destruct (c =? LF); [exact P|exact Logic.I].
    - destruct (is_ws c); [exact P|]. cbn zeta in *. pose proof (interpret_tr s) as IT. rewrite P in IT. destruct (q_st (interpret s)) eqn:QI; try (apply hstart_past; auto; fail).
      cbn [snd]. unfold past. rewrite QI. exact Logic.I.
    - destruct (c =? LF); [|exact Logic.I]. unfold end_of_headers in *. rewrite P in *. cbn [snd] in *. unfold past. cbn [to q_st]. apply NR. exact D.
    - destruct (n <=? 1); [|exact P]. unfold past. cbn [snd to q_st]. apply NR. exact D.
    - unfold past. cbn. rewrite Q. exact P.
    - destruct (hexval c); [exact P|exact Logic.I].
    - destruct (hexval c); [destruct (v <? 2 ^ 59); [exact P|exact Logic.I]|]. destruct (c =? CR); [exact P|]. destruct (c =? 59); [exact P|exact Logic.I].
    - destruct (c =? CR); [exact P|]. destruct (c =? LF); [exact Logic.I|]. unfold past. cbn. rewrite Q. exact P.
    - destruct (c =? LF); [|exact Logic.I]. destruct (v =? 0); [reflexivity|exact P].
    - destruct (n <=? 1); exact P.
    - destruct (c =? CR); [exact P|exact Logic.I].
    - destruct (c =? LF); [exact P|exact Logic.I].
    - cbn [snd]. unfold past. rewrite Q. exact Logic.I. }
  revert C. unfold step1. destruct (q_st (snd (step s c))) eqn:Q; intros C; try (split; [apply X; rewrite ?Q in *; auto; discriminate|discriminate]; fail).
  exfalso. assert (Y : past (snd (step s c))) by (apply X; discriminate). unfold past in Y. rewrite Q in Y. exact Y.
Qed.
Lemma past_run nb d : forall s, past s -> okrun nb s d -> past (srun nb s d) /\ hfind nb s d = None.
Proof.
  induction d as [|c d IH]; intros s P OK; [auto|]. cbn [okrun] in OK. destruct OK as (O1&_&_&O3&O4).
  assert (NS : q_st s <> Start) by (intros Q; destruct (O1 Q) as (->&_); apply P; reflexivity).
  destruct (past_step nb s c P NS O3) as (P1&H1). destruct (IH _ P1 O4) as (A&B). split; [exact A|]. cbn [hfind]. rewrite B. destruct (q_st (snd (step s c))); congruence.
Qed.
Lemma after_past nb s : q_st s = HEnd -> q_tr s = false -> (q_st (snd (after_hdrs nb s)) = Start -> q_code (snd (after_hdrs nb s)) <> 0) -> past (snd (after_hdrs nb s)).
Proof.
  intros Q T. unfold after_hdrs. assert (NR : forall u, (q_st u = Start -> q_code u <> 0) -> q_st u = Start -> past u) by (intros u U V; unfold past; rewrite V; intros ->; apply U; auto).
  destruct (nb || _); [intros H; apply NR; auto|]. destruct (q_chunked s); [intros; exact T|]. destruct (q_clen s) as [n|]; [destruct (n =? 0)|]; intros H; [apply NR; auto|exact T|exact T].
Qed.
Lemma step_hend_tr s c : q_st (snd (step s c)) = HEnd -> q_tr (snd (step s c)) = false \/ q_st s = HEnd.
Proof.
  assert (HS : forall t, q_st (snd (hstart t c)) = HEnd -> q_tr (snd (hstart t c)) = false).
  { intros t. unfold hstart, end_of_headers. destruct (c =? CR); [discriminate|]. destruct (c =? LF); [destruct (q_tr t) eqn:Q; [discriminate|intros _; exact Q]|]. destruct (is_tchar c); discriminate. }
  unfold step. destruct (q_st s) eqn:Q; intros H; auto; left;
    repeat match type of H with context [if ?b then _ else _] => destruct b end; try discriminate; try (cbn in H; congruence).
  all: try (destruct (hexval c); [repeat match type of H with context [if ?b then _ else _] => destruct b end|]; discriminate).
  - cbn zeta in *. destruct (q_st (interpret s)) eqn:QI; try (apply HS; exact H). cbn in H. congruence.
  - unfold end_of_headers in *. destruct (q_tr s) eqn:T; [discriminate|exact T].
Qed.
(** Before the end of the headers there is none. *)
Lemma hfind_early nb d : forall s, q_st s <> HEnd -> okrun nb s d -> ~ past (srun nb s d) -> hfind nb s d = None.
Proof.
  induction d as [|c d IH]; intros s NH OK NP; [auto|]. cbn [okrun] in OK. destruct OK as (O1&_&_&O3&O4). cbn [hfind].
  change (srun nb s (c :: d)) with (srun nb (step1 nb s c) d) in NP.
  assert (X : q_st (snd (step s c)) <> HEnd).
  { intros Q. apply NP. destruct (step_hend_tr s c Q) as [T|T]; [|congruence].
    assert (S1 : step1 nb s c = snd (after_hdrs nb (snd (step s c)))) by (unfold step1; rewrite Q; reflexivity).
    rewrite S1 in *. apply past_run; [|exact O4]. apply after_past; auto. }
  rewrite (IH (step1 nb s c) (step1_nhend nb s c) O4 NP). destruct (q_st (snd (step s c))); congruence.
Qed.
Lemma hfind_head nb r rest : head_ok r -> hfind nb rinit (head_bytes r ++ rest) = Some (zlen (head_bytes r)).
Proof.
  intros H. pose proof (run_status nb r H) as R1. destruct H as (_&_&_&HC&_&H5&o&H6). apply content_length_f in H6. destruct H6 as (_&V).
  destruct (run_lines nb (code_of r) (p_headers r) H5 [] (base HStart (code_of r)) V) as (s'&R2&J).
  { split; [left; reflexivity|]. cbn. repeat (split; [reflexivity|]). reflexivity. }
  destruct J as (A&T1&_).
  assert (S1 : step1 nb s' CR = to (settle s') EndLF) by (unfold step1; rewrite step_line by auto; reflexivity).
  assert (R3 : runs nb s' [CR] (to (settle s') EndLF)).
  { destruct A as [X|(X&_)]; apply runs_one; auto; try discriminate; try (rewrite X; discriminate); left; discriminate. }
  pose proof (runs_app _ _ _ _ _ _ R1 (runs_app _ _ _ _ _ _ R2 R3)) as (OK&SR).
  set (d := status_bytes r ++ hlines_bytes (p_headers r) ++ [CR]) in *.
  assert (HB : head_bytes r ++ rest = d ++ LF :: rest) by (unfold head_bytes, d, CRLF; rewrite <- !app_assoc; reflexivity).
  assert (HL : zlen (head_bytes r) = zlen d + 1) by (unfold head_bytes, d; rewrite !zlen_app; change (zlen CRLF) with 2; change (zlen [CR]) with 1; lia).
  rewrite HB, hfind_app, (hfind_early nb d rinit ltac:(discriminate) OK); rewrite SR; [|unfold past; cbn [to q_st q_tr]; congruence].
  cbn [hfind]. assert (S2 : q_st (snd (step (to (settle s') EndLF) LF)) = HEnd) by (unfold step; cbn [q_st to]; change (LF =? LF) with true; cbn; unfold end_of_headers; cbn [q_tr to]; rewrite T1; reflexivity).
  rewrite S2. f_equal. lia.
Qed.
