(** PropsRaw.v — C69: responses received with HTTP_RESPONSE_DO_NOT_PARSE_BODY_FLAG, from the bytes of the response to what the
    application gets. *)
From Verif Require Import Base Lib ModelRequest ModelSend ModelResponse SpecRequest SpecSend SpecResponse ProofsRequest ProofsSend ProofsSend2
  ProofsResponse ProofsResponse2 ProofsResponse3 ProofsResponse4 ProofsResponse5 RefParser RefRun SpecHttp SpecParser HttpRun ProofsFollow ProofsEnd Demo DemoResponse
  PropsResponse PropsResponse2 PropsHttp ProofsAny PropsAny PropsExact2 PropsSession SpecRaw ProofsRaw RefRaw.

Lemma hend_event tr : forall v, v_hend v = None -> v_hend (fold_left view_step tr v) <> None ->
  exists tr1 p clen close ka tr2, tr = tr1 ++ TEvent (EvHeadersComplete p clen close ka) :: tr2.
Proof.
  induction tr as [|x tr IH]; intros v H0 H1; [contradiction|]. cbn [fold_left] in H1.
  assert (X : v_hend (view_step v x) = None \/ exists p clen close ka, x = TEvent (EvHeadersComplete p clen close ka)).
  { destruct x as [| | | | |ev| |]; cbn [view_step]; auto. assert (FI : v_hend (finish v) = v_hend v) by (unfold finish; destruct (v_name v), (v_value v); auto).
    destruct ev; cbn [view_event v_hend]; rewrite ?FI; auto. right. eauto. }
  destruct X as [X|(p&clen&close&ka&->)].
  - destruct (IH _ X H1) as (tr1&p&clen&close&ka&tr2&->). exists (x :: tr1), p, clen, close, ka, tr2. reflexivity.
  - exists [], p, clen, close, ka, tr. reflexivity.
Qed.

Lemma gives_raw_of fuel cfg E P t r rh buf L req w st r' w' tr resp rest :
  recv_setup cfg E P t r rh buf L req w -> recv_faithful E -> no_parse_body r = true -> receives fuel cfg E P t r rh w st r' w' tr ->
  st = HTTPSuccess -> zlen (data_received tr) <= L -> v_stream (view_of tr) = head_bytes resp ++ rest -> says_head resp (view_of tr) -> gives_raw cfg buf L resp rest r r' w' tr.
Proof.
  intros HS F ND HR -> DL VS [Y1 Y2 Y3 Y4 Y5 Y6 Y7 Y8].
  assert (AN : answered HTTPSuccess tr) by (left; discriminate).
  destruct (outputs _ _ _ _ _ _ _ _ _ _ _ _ _ _ _ HS HR AN) as ((O1&O2&O3&O4&O5)&_&O6&_). set (v := view_of tr) in *.
  assert (HN : v_hend v <> None) by (intros Q; rewrite Q in Y5; discriminate).
  specialize (O6 HN). destruct O6 as (O6&O7).
  destruct (hend_event tr view0 eq_refl HN) as (tr1&p&clen&close&ka&tr2&X).
  destruct (C29_raw_body _ _ _ _ _ _ _ _ _ _ _ _ _ _ _ HS ND HR _ _ _ _ _ _ X) as (_&_&Q0&Q1&Q2&Q3&Q4&Q5). cbn zeta in *. fold v in Q3, Q4, Q5.
  set (q := v_start (view_of tr1) + p) in *.
  assert (QE : q = zlen (head_bytes resp)).
  { destruct (receives_inv _ _ _ _ _ _ _ _ _ _ _ _ _ _ _ HS HR) as (trl&o&s'&ph&G&TR&RR&NM&ST&HW&F1&I&F2&F3&F4). fold v in F3, F4.
    assert (PA : paused o \/ ~ paused o) by (unfold paused; destruct o as [| |e|e]; try (right; intros [Z|Z]; discriminate); destruct e; auto; right; intros [Z|Z]; discriminate).
    destruct PA as [PA|PA].
    - destruct (F3 PA) as (_&_&hl&HE&HR2). rewrite HE in Y5. cbn [option_map snd] in Y5. assert (Y5' : G = zlen (head_bytes resp)) by congruence. rewrite HR2 in Q1. cbn [set_r_body r_body] in Q1. injection Q1 as Q1. lia.
    - exfalso. apply HN. apply F4; auto. unfold dnp, kof. cbn [k_opt]. rewrite dnp_bit. exact ND. }
  pose proof (zlen_nonneg rest) as ZR.
  assert (ZL : received tr = zlen (head_bytes resp) + zlen rest) by (rewrite <- Q5, VS, zlen_app; auto).
  assert (ZV : zlen (data_received tr) = received tr) by (rewrite <- Q5; destruct (C19_parser_reads_what_was_received _ _ _ _ _ _ _ _ _ _ _ _ _ _ _ HS F HR) as (Z&_); fold v in Z; rewrite Z; reflexivity).
  rewrite QE in *. constructor; auto; try congruence.
  - intros CB. rewrite <- Y4. apply (C24_headers_delivered _ _ _ _ _ _ _ _ _ _ _ _ _ _ _ HS HR CB Y2 AN).
  - rewrite O2. fold v. rewrite Y4. unfold zlen. rewrite map_length. reflexivity.
  - exists (v_clen v). split; [auto|]. rewrite O7. unfold ProofsResponse.clen_of. destruct Y6 as (o&CL&VE). pose proof (clen_range _ _ CL).
    replace (v_clen v =? UINT64_MAX) with false by (rewrite VE; lia). reflexivity.
  - rewrite O3, <- Y7. destruct (v_close v), (v_ka v); cbn; tauto.
  - rewrite O3, <- Y8. destruct (v_close v), (v_ka v); cbn; tauto.
  - lia.
  - rewrite Q2, Q3, VS, ZL. rewrite slice_of_app_r by lia. rewrite Z.sub_diag. apply slice_full. lia.
Qed.

(** With the flag, the application gets the header section and the data behind it as they came, however the data were cut; the library reads no more
    once the header section is there.  If the header section does not come, the result is HTTPSuccess all the same (when any data came and no recv
    failed), but areHeadersComplete has not been set. *)
Theorem C69_raw_response : forall fuel cfg E P t r rh buf L req w st r' w' tr resp,
  reads_heads P -> recv_setup cfg E P t r rh buf L req w -> recv_faithful E -> no_parse_body r = true ->
  receives fuel cfg E P t r rh w st r' w' tr -> head_ok resp ->
  ((exists rest, data_received tr = head_bytes resp ++ rest) \/ (exists rest, head_bytes resp = data_received tr ++ rest)) ->
  (exists rest n, data_received tr = head_bytes resp ++ rest /\ last_recv tr n /\ zlen rest < n /\ st = HTTPSuccess /\ gives_raw cfg buf L resp rest r r' w' tr) \/
  (zlen (data_received tr) < zlen (head_bytes resp) /\
   (recv_failed tr /\ st = HTTPNetworkError \/
    (last_recv tr 0 \/ zlen (data_received tr) = L) /\ st = (match data_received tr with [] => HTTPNoResponse | _ => HTTPSuccess end) /\ r_hdone r' = r_hdone r)).
Proof.
  intros fuel cfg E P t r rh buf L req w st r' w' tr resp RH HS F ND HR HO PR.
  assert (PX : exists x y, data_received tr ++ x = head_bytes resp ++ y) by (destruct PR as [(z&->)|(z&->)]; [exists [], z; apply app_nil_r|exists z, []; rewrite app_nil_r; auto]).
  destruct PX as (x&y&PX). clear PR.
  destruct (receives_raw P resp RH HO fuel _ _ _ _ _ _ _ _ _ _ _ _ _ _ _ HS F ND HR PX) as (o&NM&ST&OC&VS&DL&EN&HN).
  set (v := view_of tr) in *.
  assert (DNP : dnp (kof r buf L req (w_mem w)) = true) by (unfold dnp, kof; cbn [k_opt]; rewrite dnp_bit; exact ND).
  assert (PT : forall ps rest, head_bytes resp = concat ps ++ rest -> rest <> [] -> concat ps = data_received tr -> zlen (data_received tr) < zlen (head_bytes resp)).
  { intros ps rest E1 E2 E3. rewrite E1, E3, zlen_app. destruct rest; [congruence|]. rewrite zlen_cons. pose proof (zlen_nonneg rest). lia. }
  assert (HD : st <> HTTPNetworkError -> v_hend v = None -> r_hdone r' = r_hdone r).
  { intros S1 HE. destruct (outputs _ _ _ _ _ _ _ _ _ _ _ _ _ _ _ HS HR (or_introl S1)) as (_&_&_&X). apply X. exact HE. }
  assert (HM : forall ps s v0, heard P ps s v0 -> (match ps with [] => MsgNone | _ => MsgBegun end) = (match concat ps with [] => MsgNone | _ => MsgBegun end)).
  { intros ps s v0 HE. destruct HE as [|ps d s v0 s1 v1 HE NE R]; [reflexivity|]. rewrite concat_app. cbn [concat]. rewrite app_nil_r. destruct (concat ps ++ d) eqn:Q; [apply app_eq_nil in Q; destruct Q; congruence|]. destruct ps; reflexivity. }
  rewrite ST. unfold final_status in *. rewrite DNP in *.
  destruct o as [| |e|e]; [congruence| | |]; cbn [routcome errno_of] in *.
  - destruct OC as (ps&s&rest&HE&EQ&RN&_). right. split; [|left; auto]. apply (PT ps rest); auto. rewrite <- VS. symmetry. apply (heard_stream P ps s v HE).
  - destruct OC as [(->&(ps&s&rest&HE&EQ&RN&VM)&ZL&NE)|(->&SH&l&n&SV&LR&LL)].
    + right. pose proof (heard_stream _ _ _ _ HE) as CP. rewrite VS in CP, ZL, NE. split; [apply (PT ps rest); auto|]. right. split; [auto|].
      cbn [parse_error] in *. rewrite VM, (HM _ _ _ HE), <- CP in *. destruct (data_received tr) eqn:ED; [congruence|]. split; [reflexivity|].
      apply HD; [rewrite ST; discriminate|]. apply HN. intros [Q|Q]; discriminate.
    + left. cbn [parse_error] in *. rewrite (yh_msg _ _ SH) in *. exists l, n. rewrite <- VS. split; [auto|]. split; [auto|]. split; [auto|]. split; [auto|].
      rewrite VS in *. eapply gives_raw_of; eauto. fold v. congruence.
  - destruct OC as (ps&s&v0&s'&rest&HE&EQ&RN&VM&HX). pose proof (heard_stream _ _ _ _ HE) as CP.
    pose proof (heading_stream s (p_exec P s []) (given v0 [])) as SX. rewrite HX in SX. cbn [fst given view_step v_stream] in SX. rewrite app_nil_r, CP, VS in SX.
    destruct (hd_end P RH resp ps rest s v0 v e s' HO HE EQ RN HX) as (PE&NP&MV). right. split; [apply (PT ps rest); auto|]. right. split; [auto|].
    rewrite PE, MV, VM, (HM _ _ _ HE), <- SX in *. assert (HH : v_hend v = None) by (apply HN; intros [Q|Q]; [discriminate|congruence]).
    destruct (data_received tr); (split; [reflexivity|]); apply HD; auto; rewrite ST; discriminate.
Qed.
Print Assumptions C69_raw_response.

(** The reads of a log, and the pieces they delivered. *)
Fixpoint reads (tr : list tev) : list bytes :=
  match tr with
  | [] => []
  | TRecv _ _ n d :: tr' => (if 0 <? n then d else []) :: reads tr'
  | _ :: tr' => reads tr'
  end.
Lemma reads_app a b : reads (a ++ b) = reads a ++ reads b.
Proof. induction a as [|x a IH]; [reflexivity|]. destruct x; cbn [reads app]; rewrite ?IH; reflexivity. Qed.
Lemma reads_recvs tr : recvs tr = zlen (reads tr).
Proof. induction tr as [|x tr IH]; [reflexivity|]. destruct x; cbn [reads recvs]; rewrite ?zlen_cons, ?IH; auto. Qed.
Lemma reads_none tr : recvs tr = 0 -> reads tr = [].
Proof. rewrite reads_recvs. destruct (reads tr); [auto|]. rewrite zlen_cons. pose proof (zlen_nonneg l). lia. Qed.
Lemma reads_data tr : concat (reads tr) = data_received tr.
Proof. induction tr as [|x tr IH]; [reflexivity|]. destruct x; cbn [reads data_received concat]; rewrite ?IH; auto. Qed.
Lemma rrun_reads E k T n0 ps : feeds E n0 ps ->
  forall last nr nt v tr o v', rrun E T k last nr nt v tr o v' ->
  forall i, nr = (n0 + i)%nat -> zlen (v_stream v) + zlen (concat (skipn i ps)) <= k_L k -> recvs tr <= Z.of_nat (length ps) - Z.of_nat i ->
  exists z, skipn i ps = reads tr ++ z.
Proof.
  intros FE last nr nt v tr o v' H.
  induction H as [last nr nt v|last nr nt v n d H1 H2|last nr nt v n d b e blk tr o v' H1 H2 H3 H4 H5 H6 H7 H8 IH|last nr nt v n d b e blk H1 H2 H3 H4 H5 H6 H7|last nr nt v d e blk H1 H2 H3|last nr nt v d tr o v' H1 H2 H3 IH];
    intros i NR SZE RC; [eexists; reflexivity|..].
  all: cbn [recvs reads] in *; rewrite ?recvs_tick_app, ?reads_app, ?(reads_none (tick _ _)) in * by apply recvs_tick.
  all: rewrite ?recvs_app in *.
  all: try rewrite (reads_none blk) in * by (apply recvs_norecv; eapply blk_norecv; eauto). all: try rewrite (recvs_norecv blk) in * by (eapply blk_norecv; eauto).
  all: try (pose proof (recvs_nonneg tr) as RN).
  all: assert (LI : (i < length ps)%nat) by lia.
  all: rewrite (skipn_nth ps i LI), zlen_app in SZE; rewrite (skipn_cons ps i LI); set (p := nth i ps []) in *; pose proof (zlen_nonneg p) as Z1; pose proof (zlen_nonneg (concat (skipn (S i) ps))) as Z2.
  all: pose proof (FE i (k_L k - zlen (v_stream v)) LI ltac:(fold p; lia)) as H0; fold p in H0; rewrite <- NR, H1 in H0; injection H0 as H0 H0'.
  - lia.
  - assert (b = p) by (rewrite <- H0'; apply H4; congruence). subst b d. rewrite (pblock_stream _ _ _ _ _ _ H6), zlen_app in IH.
    replace (0 <? n) with true by lia. destruct (IH (S i)) as (z&IHz); [lia|lia|lia|]. exists z. cbn [app]. f_equal. exact IHz.
  - subst d. replace (0 <? n) with true by lia. eexists. reflexivity.
  - assert (PE : p = []) by (apply zlen_zero; lia). rewrite PE. eexists. reflexivity.
  - assert (PE : p = []) by (apply zlen_zero; lia). rewrite PE in *. cbn [app] in *. change (zlen (@nil Z)) with 0 in *. subst d.
    destruct (IH (S i)) as (z&IHz); [lia|lia|lia|]. exists z. cbn [app]. f_equal. exact IHz.
Qed.

Lemma rrun_lens E T k last nr nt v tr o v' : recv_faithful E -> rrun E T k last nr nt v tr o v' ->
  forall p room n d, In (TRecv p room n d) tr -> 0 < n -> zlen d = n.
Proof.
  intros F H.
  induction H as [last nr nt v|last nr nt v n d H1 H2|last nr nt v n d b e blk tr o v' H1 H2 H3 H4 H5 H6 H7 H8 IH|last nr nt v n d b e blk H1 H2 H3 H4 H5 H6 H7|last nr nt v d e blk H1 H2 H3|last nr nt v d tr o v' H1 H2 H3 IH];
    intros p0 room0 n0 d0 HI NP; [destruct HI|..].
  all: assert (NT : ~ In (TRecv p0 room0 n0 d0) (tick (k_tf k) (clk E (k_tf k) nt))) by (destruct (k_tf k); cbn; intros Q; intuition discriminate).
  all: assert (FB : forall k p b e blk, pblock k p b e blk -> ~ In (TRecv p0 room0 n0 d0) blk)
    by (intros k1 p1 b1 e1 blk1 HB Q; apply blk_norecv in HB; rewrite Forall_forall in HB; exact (HB _ Q)).
  all: pose proof (F nr (k_L k - zlen (v_stream v))) as F1; rewrite H1 in F1; cbn [fst snd] in F1.
  all: destruct HI as [HI|HI]; [injection HI as <- <- <- <-; auto; lia|].
  all: repeat (apply in_app_or in HI; destruct HI as [HI|HI]); try tauto; eauto.
  all: try (exfalso; eapply FB; eauto; fail). destruct HI.
Qed.
(** The transport delivers the header section and other data behind it in any pieces: the call returns the header section and the data behind it that
    came in the same pieces. *)
Theorem C69_every_fragmentation : forall fuel cfg E P t r rh buf L req w resp more ps,
  reads_heads P -> recv_setup cfg E P t r rh buf L req w -> recv_faithful E -> no_parse_body r = true -> head_ok resp ->
  concat ps = head_bytes resp ++ more -> zlen (concat ps) <= L ->
  feeds E (w_nr w) ps -> prompt cfg E (r_time r) (w_nt w) ps -> (length ps < fuel)%nat ->
  exists r' w' tr rest k, receives fuel cfg E P t r rh w HTTPSuccess r' w' tr /\ (S k <= length ps)%nat /\
    head_bytes resp ++ rest = concat (firstn (S k) ps) /\ zlen (concat (firstn k ps)) < zlen (head_bytes resp) /\
    data_received tr = head_bytes resp ++ rest /\ recvs tr = Z.of_nat (S k) /\ gives_raw cfg buf L resp rest r r' w' tr.
Proof.
  intros fuel cfg E P t r rh buf L req w resp more ps RH HS F ND HO CC LE FE PR FU.
  destruct (Receive_run fuel _ _ _ _ _ _ _ _ _ _ HS) as (tr&o&v'&RR&HX). set (k := kof r buf L req (w_mem w)) in *. set (t0 := clk E (r_time r) (w_nt w)) in *.
  assert (FO : rfollows P (tick (r_time r) t0 ++ tr)).
  { destruct o.
    - destruct HX as (w'&H1&H2&_). eapply (rmore_follow fuel); eauto.
    - destruct HX as (r'&s1&H1&H2&_). eapply (rreceives_follow fuel); eauto. split; eauto.
    - destruct HX as (r'&s1&H1&H2&_). eapply (rreceives_follow fuel); eauto. split; eauto.
    - destruct HX as (r'&s1&H1&H2&_). eapply (rreceives_follow fuel); eauto. split; eauto. }
  assert (PT : rpst P (tick (r_time r) t0) = p_init P) by apply (rpst_tick P []).
  pose proof (rrun_fed cfg E k (w_nr w) (w_nt w) ps FE PR F _ _ _ _ _ _ _ RR 0%nat 0%nat) as FD.
  destruct FD as [(tr1&tr2&v1&E1&E2&E3)|(X1&X2&X3)].
  - lia.
  - cbn [kof k_tf] in *. intros TU. unfold t0. change (k_tf k) with (r_time r) in TU. rewrite TU. cbn [clk clk_next]. split; [lia|]. do 2 f_equal. lia.
  - lia.
  - intros; lia.
  - cbn [view0 v_stream skipn]. change (zlen (@nil Z)) with 0. exact LE.
  - exfalso. cbn [skipn] in E3. rewrite CC in E3.
    assert (FO1 : rfollows P (tick (r_time r) t0 ++ tr1)).
    { intros X p b evs e C H IN. apply (FO X p b evs e (C ++ tr2)); [|auto]. rewrite E1, app_assoc, H, <- app_assoc. cbn [app]. rewrite <- app_assoc. reflexivity. }
    pose proof (rrun_data _ _ _ _ _ _ _ _ _ _ F E2) as RD. cbn [view0 v_stream app] in RD.
    assert (OC : routcome P resp (k_L k) OMore tr1 v1).
    { apply (rrun_raw P resp RH HO _ _ _ _ _ _ _ _ _ _ F E2 (tick (r_time r) t0) [] (head_bytes resp) [] more).
      + exact FO1.
      + apply (view_tick _ _ view0).
      + rewrite PT. constructor.
      + reflexivity.
      + apply head_nonempty.
      + reflexivity.
      + rewrite app_nil_r. exact E3. }
    destruct OC as (qs&s&rest&HE&EQ&RN&_). pose proof (heard_stream _ _ _ _ HE) as CP. rewrite RD, E3 in CP. rewrite <- CP, <- app_assoc in EQ.
    rewrite <- (app_nil_r (head_bytes resp)) in EQ at 1. apply app_inv_head in EQ. symmetry in EQ. apply app_eq_nil in EQ. destruct EQ. auto.
  - cbn [skipn] in X1. change (Z.of_nat 0) with 0 in X3. rewrite Z.sub_0_r in X3.
    assert (DR : data_received (tick (r_time r) t0 ++ tr) = data_received tr) by (rewrite data_received_app, data_received_norecv by apply tick_norecv; reflexivity).
    destruct o as [| |e|e]; [exfalso; destruct HX as (w'&_&_&RC&_); rewrite RC in X3; apply Nat2Z.inj_lt in FU; exact (Zlt_not_le _ _ FU X3)|tauto| |tauto].
    destruct HX as (r'&s1&H1&H2&_).
    assert (HR : receives fuel cfg E P t r rh w (final_status k (OStop e) v') r' (s_w s1) (tick (r_time r) t0 ++ tr)) by (split; auto).
    assert (PX : (exists rest, data_received (tick (r_time r) t0 ++ tr) = head_bytes resp ++ rest) \/ (exists rest, head_bytes resp = data_received (tick (r_time r) t0 ++ tr) ++ rest)).
    { rewrite DR. destruct X1 as (x&X1). rewrite CC in X1. apply app_eq_app in X1. destruct X1 as (l&[(Y1&_)|(Y1&_)]); [right|left]; eauto. }
    destruct (C69_raw_response fuel _ _ _ _ _ _ _ _ _ _ _ _ _ _ _ RH HS F ND HR HO PX) as [(rest&n&D1&D2&D3&D4&D5)|(D1&D2)].
    + destruct (rrun_reads E k _ (w_nr w) ps FE _ _ _ _ _ _ _ RR 0%nat ltac:(lia) ltac:(cbn [view0 v_stream skipn]; change (zlen (@nil Z)) with 0; exact LE) ltac:(change (Z.of_nat 0) with 0; rewrite Z.sub_0_r; exact X3)) as (z&RS).
      cbn [skipn] in RS. set (trr := tick (r_time r) t0 ++ tr) in *.
      assert (RT : reads trr = reads tr) by (unfold trr; rewrite reads_app, (reads_none (tick _ _)) by apply recvs_tick; reflexivity). rewrite <- RT in RS.
      destruct D2 as (a&p&room&d&b&TR&RB). assert (RD : reads trr = reads a ++ [d]).
      { rewrite TR, reads_app. cbn [reads]. rewrite (reads_none b RB). replace (0 <? n) with true; [reflexivity|]. pose proof (zlen_nonneg rest). lia. }
      assert (ZD : zlen d = n).
      { pose proof (zlen_nonneg rest). apply (rrun_lens _ _ _ _ _ _ _ _ _ _ F RR p room); [|lia].
        assert (Q : In (TRecv p room n d) trr) by (rewrite TR; apply in_or_app; right; left; reflexivity). unfold trr in Q. apply in_app_or in Q. destruct Q as [Q|Q]; [exfalso|exact Q].
        destruct (r_time r); cbn in Q; intuition discriminate. }
      assert (LA : length (reads trr) = S (length (reads a))) by (rewrite RD, app_length; cbn; lia).
      assert (F1 : firstn (S (length (reads a))) ps = reads trr) by (rewrite <- LA, RS at 1; rewrite firstn_app, firstn_all, Nat.sub_diag; apply app_nil_r).
      assert (F2 : firstn (length (reads a)) ps = reads a) by (rewrite RS, RD, <- app_assoc, firstn_app, firstn_all, Nat.sub_diag; apply app_nil_r).
      exists r', (s_w s1), trr, rest, (length (reads a)). rewrite <- D4. split; [exact HR|]. split; [rewrite RS, app_length; lia|]. rewrite F1, F2, !reads_data. split; [auto|]. split.
      * assert (Q : zlen (data_received trr) = zlen (data_received a) + n) by (rewrite <- !reads_data, RD, concat_app, zlen_app; cbn [concat]; rewrite app_nil_r, ZD; reflexivity).
        rewrite D1, zlen_app in Q. lia.
      * split; [auto|]. split; [rewrite reads_recvs; unfold zlen; rewrite LA; reflexivity|auto].
    + exfalso.
      assert (OC : routcome P resp (k_L k) (OStop e) tr v').
      { destruct X1 as (x&X1). rewrite CC in X1.
        apply (rrun_raw P resp RH HO _ _ _ _ _ _ _ _ _ _ F RR (tick (r_time r) t0) [] (head_bytes resp) x more).
        + exact FO.
        + apply (view_tick _ _ view0).
        + rewrite PT. constructor.
        + reflexivity.
        + apply head_nonempty.
        + reflexivity.
        + symmetry. exact X1. }
      pose proof (rrun_data _ _ _ _ _ _ _ _ _ _ F RR) as RD. cbn [view0 v_stream app] in RD. rewrite DR in D1.
      destruct OC as [(_&_&ZL&_)|(_&_&l&n&SV&_)].
      * rewrite RD in ZL. cbn [kof k_L k] in ZL. rewrite CC, zlen_app in LE. pose proof (zlen_nonneg more). lia.
      * rewrite <- RD, SV, zlen_app in D1. pose proof (zlen_nonneg l). lia.
Qed.
Print Assumptions C69_every_fragmentation.

(** The reference parser is such a parser. *)
Theorem C69_reference_parser : reads_heads refparser.
Proof. exact refparser_heads. Qed.
Print Assumptions C69_reference_parser.

(** However the response [ex_sized] is cut; and a header section that does not come to its end. *)
Example C69_case : forall ps, Forall (fun p => p <> []) ps -> concat ps = http_bytes ex_sized ->
  exists r' w' tr rest k, receives (S (length ps)) cfg0 (env_of ps) refparser trr (resp_old 100 1) h1 (wr 100) HTTPSuccess r' w' tr /\ (S k <= length ps)%nat /\
    head_bytes ex_sized ++ rest = concat (firstn (S k) ps) /\ zlen (concat (firstn k ps)) < zlen (head_bytes ex_sized) /\
    data_received tr = head_bytes ex_sized ++ rest /\ recvs tr = Z.of_nat (S k) /\ gives_raw cfg0 rbuf 100 ex_sized rest (resp_old 100 1) r' w' tr.
Proof.
  intros ps NE CC. destruct (setup0 ps 100 1) as (_&HS); [lia|cbn; lia|]. destruct ex_sized_ok as (HO&_).
  apply (C69_every_fragmentation _ cfg0 _ refparser _ _ _ _ _ _ _ ex_sized (body_bytes (p_body ex_sized)) ps refparser_heads HS (env_of_faithful ps)); [reflexivity|exact HO|rewrite CC; reflexivity|rewrite CC; vm_compute; discriminate|apply env_of_feeds|apply nonempty_prompt; auto|lia].
Qed.
Example C69_cut_off : exists r' w' tr, receives 20 cfg0 (env_of [B "HTTP/1.1 20"]) refparser trr (resp_old 100 1) h1 (wr 100) HTTPSuccess r' w' tr /\
  no_parse_body (resp_old 100 1) = true /\ head_ok ex_sized /\ (exists rest, head_bytes ex_sized = data_received tr ++ rest) /\
  zlen (data_received tr) < zlen (head_bytes ex_sized) /\ last_recv tr 0 /\ r_hdone r' = r_hdone (resp_old 100 1).
Proof.
  do 3 eexists. split; [demo|]. split; [reflexivity|]. split; [exact (proj1 ex_sized_ok)|]. split; [eexists; reflexivity|]. split; [vm_compute; reflexivity|]. split; [|vm_compute; reflexivity].
  match goal with |- last_recv ?tr 0 => let t := eval vm_compute in tr in change (last_recv t 0) end.
  match goal with |- last_recv ?t 0 =>
    let rec f l acc := lazymatch l with
      | ?x :: ?l' => lazymatch l' with context [TRecv] => f l' constr:(x :: acc) | _ => lazymatch x with TRecv ?p ?room ?n ?d => exists (rev acc), p, room, d, l' end end end in f t (@nil tev) end.
  split; reflexivity.
Qed.
