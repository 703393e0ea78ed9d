(** PropsResume.v — C98: going on with a download after a failure (SpecResume.v). *)
From Verif Require Import Base Lib ModelRequest ModelSend ModelResponse SpecRequest SpecSend SpecResponse SpecHttp SpecParser SpecExchange SpecExact SpecSession SpecDownload SpecResume
  ProofsDecimal ProofsRequest ProofsRequest2 ProofsHistory ProofsSend ProofsSend2 ProofsResponse ProofsResponse2 ProofsResponse3 ProofsResponse4 ProofsResponse5 ProofsTwin ProofsExchange RefParser RefRun HttpRun ProofsFollow ProofsEnd Demo DemoResponse
  PropsSend PropsResponse PropsHttp PropsExchange ProofsAny PropsAny PropsAnyExchange PropsExact PropsApi ProofsCount PropsSession PropsDownload SpecRetry PropsRetry PropsEnds.

Lemma total_app a b : total (a ++ b) = total a + total b.
Proof. induction a as [|x a IH]; [reflexivity|]. cbn [total fold_right app]. fold (total (a ++ b)). fold (total a). lia. Qed.

(** ** One connection *)
Lemma part_keeps fuel cfg E P t ri p ho buf n r rbuf L : forall cs h a w,
  download_setup cfg E P t ri p ho h buf n r rbuf L (w_mem w) -> 0 <= a -> Forall (fun c => 0 < c) cs -> a + total cs <= INT32_MAX + 1 ->
  (exists w', part fuel cfg E P t ri r h a cs w = More w' /\ same_outside2 (w_mem w) (w_mem w') buf n rbuf L) \/
  (exists d todo h' w' tr got, part fuel cfg E P t ri r h a cs w = Ret (d, todo, h', w') /\ w_tr w' = w_tr w ++ tr /\ same_outside2 (w_mem w) (w_mem w') buf n rbuf L /\
     rh_buf h' = Some buf /\ rh_bufLen h' = n /\ 0 <= rh_len h' <= n /\ cs = got ++ todo /\ zlen d = total got).
Proof.
  induction cs as [|c cs IH]; intros h a w D A F S.
  - right. exists [], [], h, w, [], []. rewrite app_nil_r. split; [reflexivity|]. split; [auto|]. split; [apply same2_refl|].
    destruct D as (_&_&_&_&_&_&_&D8&D9&D10&_). auto 8.
  - inversion F as [|x l C F']; subst. cbn [total fold_right] in S. fold (total cs) in S. assert (T0 : 0 <= total cs) by (apply total_nonneg; auto).
    destruct (range_text a c A C ltac:(lia)) as (v&RV). destruct (piece fuel _ _ _ _ _ _ _ _ _ _ _ _ _ a c v w D A C ltac:(lia) RV) as (sts&h1&m1&X1&X2&_&X4).
    destruct (piece_built _ _ _ _ _ _ _ _ _ _ _ _ _ _ _ _ _ D A C ltac:(lia) RV) as (sts'&h1'&m1'&X1'&_&B1&B2&B3&_). rewrite X1 in X1'. injection X1' as <- <- <-.
    cbn [part]. rewrite X1. cbn [bind]. destruct (forallb is_success sts); cbn [negb].
    2:{ right. exists [], (c :: cs), h1, (with_mem w m1), [], []. rewrite app_nil_r. split; [reflexivity|]. split; [auto|]. split; [exact X2|]. auto 8. }
    destruct (X4 eq_refl) as (_&[(w1&tr&Y1&Y2&Y3)|(st&h2&r1&w1&tr&(Y1&Y2)&Y3&Y4&Y5&Y6&Y7)]); rewrite Y1; cbn [bind].
    { left. exists w1. auto. }
    cbn [with_mem w_tr] in Y2.
    assert (GU : (exists w', Ret (@nil Z, c :: cs, h2, w1) = More w' /\ same_outside2 (w_mem w) (w_mem w') buf n rbuf L) \/
      exists d todo h' w' tr0 got, Ret (@nil Z, c :: cs, h2, w1) = Ret (d, todo, h', w') /\ w_tr w' = w_tr w ++ tr0 /\ same_outside2 (w_mem w) (w_mem w') buf n rbuf L /\
        rh_buf h' = Some buf /\ rh_bufLen h' = n /\ 0 <= rh_len h' <= n /\ c :: cs = got ++ todo /\ zlen d = total got).
    { right. exists [], (c :: cs), h2, w1, tr, []. split; [reflexivity|]. split; [exact Y2|]. split; [exact Y3|]. auto 8. }
    destruct st; try exact GU. destruct (r_body r1) as [q|]; [|exact GU]. destruct ((r_status r1 =? 206) && (r_bodyLen r1 =? c)) eqn:Q; [|exact GU].
    apply andb_true_iff in Q. destruct Q as (_&Q). rewrite loadn_ok by (replace c with (r_bodyLen r1) by lia; auto). cbn [bind].
    destruct (IH h2 (a + c) w1 (setup_keeps _ _ _ _ _ _ _ _ _ _ _ _ _ _ _ _ D Y3 Y4 Y5 Y6) ltac:(lia) F' ltac:(lia)) as [(w'&Z1&Z2)|(d&todo&h'&w'&tr2&got&Z1&Z2&Z3&Z4&Z5&Z6&Z7&Z8)]; rewrite Z1; cbn [bind].
    + left. exists w'. split; [reflexivity|]. eapply same2_trans; eauto.
    + right. do 4 eexists. exists (tr ++ tr2), (c :: got). split; [reflexivity|]. split; [rewrite Z2, Y2, app_assoc; auto|]. split; [eapply same2_trans; eauto|].
      split; [auto|]. split; [auto|]. split; [auto|]. split; [cbn [app]; congruence|]. rewrite zlen_app, bytes_at_len by (replace c with (r_bodyLen r1) by lia; apply Y7; auto). cbn [total fold_right]. fold (total got). lia.
Qed.

(** ** C98 *)
Theorem C98_resume_is_safe : forall fuel cfg P t ri p ho buf n r rbuf L Es h a cs m,
  Forall (fun E => download_setup cfg E P t ri p ho h buf n r rbuf L m) Es -> 0 <= a -> Forall (fun c => 0 < c) cs -> a + total cs <= INT32_MAX + 1 ->
  (exists w, resume fuel cfg P t ri r Es h a cs m = More w /\ same_outside2 m (w_mem w) buf n rbuf L) \/
  (exists logs d todo m' got, resume fuel cfg P t ri r Es h a cs m = Ret (logs, d, todo, m') /\ same_outside2 m m' buf n rbuf L /\ (length logs <= length Es)%nat /\
     cs = got ++ todo /\ zlen d = total got).
Proof.
  intros fuel cfg P t ri p ho buf n r rbuf L Es. induction Es as [|E Es IH]; intros h a cs m DF A F S.
  - right. destruct cs; exists [], []; do 2 eexists; exists []; (split; [reflexivity|]); (split; [apply same2_refl|]); auto.
  - destruct cs as [|c cs]; [right; exists [], [], [], m, []; split; [reflexivity|]; split; [apply same2_refl|]; split; [cbn; lia|auto]|]. cbn [resume].
    inversion DF as [|x l D DF']; subst. destruct (part_keeps fuel cfg E P t ri p ho buf n r rbuf L (c :: cs) h a (mkw m 0 0 0 []) D A F S)
      as [(w'&Z1&Z2)|(d&todo&h'&w'&tr2&got&Z1&Z2&Z3&Z4&Z5&Z6&Z7&Z8)]; rewrite Z1; cbn [bind]; [left; exists w'; auto|]. cbn [w_mem] in Z3.
    assert (TT : total (c :: cs) = total got + total todo) by (rewrite Z7; apply total_app). rewrite Z7 in F. apply Forall_app in F. destruct F as (F1&F2). pose proof (total_nonneg got F1).
    destruct (IH h' (a + zlen d) todo (w_mem w')) as [(w2&Q1&Q2)|(logs&d2&todo2&m2&got2&Q1&Q2&Q3&Q4&Q5)]; [|lia|exact F2|lia| |].
    { eapply Forall_impl; [|exact DF']. intros E' D'. cbn beta in *. eapply setup_keeps; eauto. }
    + rewrite Q1. cbn [bind]. left. exists w2. split; [reflexivity|]. eapply same2_trans; eauto.
    + rewrite Q1. cbn [bind]. right. exists (w_tr w' :: logs), (d ++ d2), todo2, m2, (got ++ got2). split; [reflexivity|]. split; [eapply same2_trans; eauto|]. split; [cbn [length]; lia|].
      split; [rewrite Z7, Q4, app_assoc; reflexivity|]. rewrite zlen_app, total_app. lia.
Qed.
Print Assumptions C98_resume_is_safe.

(** ** What is sent *)
Lemma prefix_of_app (a b c : bytes) : prefix a b -> prefix a (b ++ c).
Proof. intros (z&->). exists (z ++ c). rewrite app_assoc. reflexivity. Qed.
Lemma sent_prefix fuel cfg E P t ri p ho h1 buf n r rbuf L v w st h2 r1 w1 tr :
  send_setup cfg E P t h1 buf n (piece_request cfg ri p ho v) None 0 [] r rbuf L w -> exchanges fuel cfg E P t h1 None 0 r 0 w st h2 r1 w1 tr ->
  prefix (accepted tr) (piece_request cfg ri p ho v) /\ (st = HTTPSuccess -> accepted tr = piece_request cfg ri p ho v).
Proof.
  intros SS Y. destruct (C50_send_then_receive _ _ _ _ _ _ _ _ _ _ _ _ _ _ _ _ _ _ _ _ _ _ SS Y) as (block&WH&Z).
  assert (BE : block = piece_request cfg ri p ho v) by (unfold wire_headers in WH; cbn in WH; exact WH). rewrite BE in *.
  destruct Z as [(Z1&Z2&_)|[(_&Z2&_&Z3&_)|(sent&rtr&w2&_&_&_&_&Z3&_)]].
  - rewrite Z1. split; [eexists; reflexivity|congruence].
  - rewrite app_nil_r in Z3. split; [exact Z3|congruence].
  - rewrite app_nil_r in Z3. rewrite Z3. split; [exists []; rewrite app_nil_r; reflexivity|auto].
Qed.
Lemma part_sends fuel cfg E P t ri p ho buf n r rbuf L : forall cs h a w reqs d todo h' w' tr,
  download_setup cfg E P t ri p ho h buf n r rbuf L (w_mem w) -> 0 <= a -> Forall (fun c => 0 < c) cs -> a + total cs <= INT32_MAX + 1 ->
  range_requests cfg (ri_flags ri) p ho a cs reqs -> part fuel cfg E P t ri r h a cs w = Ret (d, todo, h', w') -> w_tr w' = w_tr w ++ tr ->
  prefix (accepted tr) (flat_map text_of reqs).
Proof.
  assert (NIL : forall (w : world) tr, w_tr w = w_tr w ++ tr -> tr = []) by (intros w tr Q; rewrite <- app_nil_r in Q at 1; apply app_inv_head in Q; auto).
  induction cs as [|c cs IH]; intros h a w reqs d todo h' w' tr D A F S RR X XT.
  - cbn [part] in X. injection X as <- <- <- <-. apply NIL in XT. subst tr. eexists. reflexivity.
  - inversion RR as [|a0 c0 cs0 v reqs' RV RR']; subst. cbn [flat_map]. set (rq := (B "GET " ++ p ++ B " HTTP/1.1", init_headers (UA cfg) (ri_flags ri) ho ++ [(B "Range", v)])) in *.
    inversion F as [|x l C F']; subst. cbn [total fold_right] in S. fold (total cs) in S. assert (T0 : 0 <= total cs) by (apply total_nonneg; auto).
    destruct (piece fuel _ _ _ _ _ _ _ _ _ _ _ _ _ a c v w D A C ltac:(lia) RV) as (sts&h1&m1&X1&X2&_&X4).
    cbn [part] in X. rewrite X1 in X. cbn [bind] in X. destruct (forallb is_success sts); cbn [negb] in X.
    2:{ injection X as <- <- <- <-. cbn [with_mem w_tr] in XT. apply NIL in XT. subst tr. eexists. reflexivity. }
    destruct (X4 eq_refl) as (SS&[(w1&tr1&Y1&_)|(st&h2&r1&w1&tr1&Y1&Y3&Y4&Y5&Y6&Y7)]); [rewrite Y1 in X; discriminate|]. pose proof Y1 as (Y1'&Y2). rewrite Y1' in X. cbn [bind] in X. cbn [with_mem w_tr] in Y2.
    destruct (sent_prefix _ _ _ _ _ _ _ _ _ _ _ _ _ _ _ _ _ _ _ _ _ SS Y1) as (SP1&SP2). rewrite piece_text in SP1, SP2. fold rq in SP1, SP2.
    assert (GU : Ret (@nil Z, c :: cs, h2, w1) = Ret (d, todo, h', w') -> prefix (accepted tr) (text_of rq ++ flat_map text_of reqs')).
    { intros Q. injection Q as _ _ _ <-. rewrite Y2 in XT. apply app_inv_head in XT. subst tr. apply prefix_of_app, SP1. }
    destruct st; try exact (GU X). destruct (r_body r1) as [q|]; [|exact (GU X)]. destruct ((r_status r1 =? 206) && (r_bodyLen r1 =? c)) eqn:Q; [|exact (GU X)]. clear GU.
    apply andb_true_iff in Q. destruct Q as (_&Q). rewrite loadn_ok in X by (replace c with (r_bodyLen r1) by lia; auto). cbn [bind] in X.
    pose proof (setup_keeps _ _ _ _ _ _ _ _ _ _ _ _ _ _ _ _ D Y3 Y4 Y5 Y6) as D'.
    destruct (part_keeps fuel cfg E P t ri p ho buf n r rbuf L cs h2 (a + c) w1 D' ltac:(lia) F' ltac:(lia)) as [(w2&Z1&Z2)|(d2&todo2&h3&w2&tr2&got&Z1&Z2&_)]; rewrite Z1 in X; cbn [bind] in X; [discriminate|].
    injection X as <- <- <- <-. rewrite Z2, Y2, <- app_assoc in XT. apply app_inv_head in XT. subst tr. rewrite accepted_app, (SP2 eq_refl).
    destruct (IH h2 (a + c) w1 reqs' d2 todo2 h3 w2 tr2 D' ltac:(lia) F' ltac:(lia) RR' Z1 Z2) as (z&->). exists z. rewrite app_assoc. reflexivity.
Qed.

(** ** What is received *)
Lemma part_right fuel cfg E P t ri p ho buf n r rbuf L srv F : reads_http P -> recv_faithful E -> well_behaved srv -> serves srv p F -> zlen F <= INT32_MAX + 1 ->
  forall cs h a w past qs d todo h' w' tr, download_setup cfg E P t ri p ho h buf n r rbuf L (w_mem w) -> 0 <= a -> Forall (fun c => 0 < c) cs -> a + total cs = zlen F ->
  Forall (fun q => forall rest, server_reads (text_of q ++ rest) = Some (fst q, snd q, [], rest)) qs ->
  accepted past = flat_map text_of qs -> data_received past = flat_map (fun q => http_bytes (answer_to srv q)) qs ->
  part fuel cfg E P t ri r h a cs w = Ret (d, todo, h', w') -> w_tr w' = w_tr w ++ tr -> honest srv (past ++ tr) -> d = slice F a (zlen d).
Proof.
  intros RH RF WB SV SZF cs. induction cs as [|c cs IH]; intros h a w past qs d todo h' w' tr D A FC TT QS AP DP X XT HN.
  - cbn [part] in X. injection X as <- <- <- <-. change (zlen (@nil Z)) with 0. rewrite slice_0. reflexivity.
  - inversion FC as [|x l C F']; subst. cbn [total fold_right] in TT. fold (total cs) in TT. pose proof (total_nonneg cs F') as T0.
    assert (GU : forall hh ww, Ret (@nil Z, c :: cs, hh, ww) = Ret (d, todo, h', w') -> d = slice F a (zlen d)).
    { intros hh ww Q. injection Q as <- _ _ _. change (zlen (@nil Z)) with 0. rewrite slice_0. reflexivity. }
    destruct (range_text a c A C ltac:(lia)) as (v&RV). destruct (piece fuel _ _ _ _ _ _ _ _ _ _ _ _ _ a c v w D A C ltac:(lia) RV) as (sts&h1&m1&X1&X2&_&X4).
    cbn [part] in X. rewrite X1 in X. cbn [bind] in X. destruct (forallb is_success sts); cbn [negb] in X; [|exact (GU _ _ X)].
    destruct (X4 eq_refl) as (SS&[(w1&tr1&Y1&_)|(st&h2&r1&w1&tr1&Y1&Y3&Y4&Y5&Y6&Y7)]); [rewrite Y1 in X; discriminate|]. pose proof Y1 as (Y1'&Y2). rewrite Y1' in X. cbn [bind] in X. cbn [with_mem w_tr] in Y2.
    destruct st; try exact (GU _ _ X). destruct (r_body r1) as [q|] eqn:RB; [|exact (GU _ _ X)].
    destruct ((r_status r1 =? 206) && (r_bodyLen r1 =? c)) eqn:Q; [|exact (GU _ _ X)]. apply andb_true_iff in Q. destruct Q as (Q1&Q2).
    rewrite loadn_ok in X by (replace c with (r_bodyLen r1) by lia; auto). cbn [bind] in X. clear GU.
    pose proof (setup_keeps _ _ _ _ _ _ _ _ _ _ _ _ _ _ _ _ D Y3 Y4 Y5 Y6) as D'.
    destruct (part_keeps fuel cfg E P t ri p ho buf n r rbuf L cs h2 (a + c) w1 D' ltac:(lia) F' ltac:(lia)) as [(w2&Z1&Z2)|(d2&todo2&h3&w2&tr2&got&Z1&Z2&_)]; rewrite Z1 in X; cbn [bind] in X; [discriminate|].
    injection X as <- <- <- <-. rewrite Z2, Y2, <- app_assoc in XT. apply app_inv_head in XT. subst tr.
    pose proof D as (D1&_&_&_&_&_&_&_&_&_&_&_&_&_&DP1&DH1&_&_&_&_&_&_&_&ND).
    set (rq := (B "GET " ++ p ++ B " HTTP/1.1", init_headers (UA cfg) (ri_flags ri) ho ++ [(B "Range", v)])).
    assert (AC : accepted tr1 = text_of rq) by (destruct (sent_prefix _ _ _ _ _ _ _ _ _ _ _ _ _ _ _ _ _ _ _ _ _ SS Y1) as (_&AC); rewrite (AC eq_refl); apply piece_text).
    assert (QS' : Forall (fun q => forall rest, server_reads (text_of q ++ rest) = Some (fst q, snd q, [], rest)) (qs ++ [rq])).
    { apply Forall_app. split; [exact QS|]. constructor; [|constructor]. intros rest. apply (C96_server_reads_each_request cfg (ri_flags ri) p ho v a (a + c - 1) rest D1 DP1 DH1 RV). }
    assert (AP' : accepted (past ++ tr1) = flat_map text_of (qs ++ [rq])) by (rewrite accepted_app, AP, AC, flat_map_app; cbn [flat_map]; rewrite app_nil_r; reflexivity).
    destruct (HN (past ++ tr1) tr2 ltac:(rewrite app_assoc; reflexivity)) as (x0&HA&HP). rewrite AP' in HA. apply (answers_prefix srv _ QS') in HA.
    assert (PF : prefix (data_received tr1) (http_bytes (answer_to srv rq))).
    { destruct HP as (z1&->). destruct HA as (z2&HA). rewrite flat_map_app, data_received_app, DP in HA. cbn [flat_map] in HA. rewrite app_nil_r, <- !app_assoc in HA. apply app_inv_head in HA.
      exists (z1 ++ z2). exact HA. }
    destruct (piece_right _ _ _ _ _ _ _ _ _ _ _ _ _ _ _ _ _ _ _ _ _ _ srv F q RH RF ND WB SV D1 DP1 DH1 A C ltac:(lia) RV SS Y1 PF RB ltac:(lia) ltac:(lia)) as (PR1&PR2).
    pose proof (IH h2 (a + c) w1 (past ++ tr1) (qs ++ [rq]) d2 todo2 h3 w2 tr2 D' ltac:(lia) F' ltac:(lia) QS' AP'
       ltac:(rewrite data_received_app, DP, PR2, flat_map_app; cbn [flat_map]; rewrite app_nil_r; reflexivity) Z1 Z2 ltac:(rewrite <- app_assoc; exact HN)) as HD.
    rewrite PR1. assert (SL : zlen (slice F a c) = c) by (apply slice_len; lia).
    rewrite zlen_app, SL. pose proof (zlen_nonneg d2). rewrite (slice_app F a c (zlen d2)) by lia. rewrite <- HD. reflexivity.
Qed.

(** With an honest server behind every connection, what the application has is always a beginning of the file — the part up to where it got — and when no piece is left, the file. *)
Lemma resume_right fuel cfg P t ri p ho buf n r rbuf L srv F : reads_http P -> well_behaved srv -> serves srv p F -> zlen F <= INT32_MAX + 1 ->
  forall Es h a cs m logs d todo m', Forall recv_faithful Es -> Forall (fun E => download_setup cfg E P t ri p ho h buf n r rbuf L m) Es -> 0 <= a -> Forall (fun c => 0 < c) cs -> a + total cs = zlen F ->
  resume fuel cfg P t ri r Es h a cs m = Ret (logs, d, todo, m') -> Forall (honest srv) logs -> d = slice F a (zlen d) /\ a + zlen d + total todo = zlen F.
Proof.
  intros RH WB SV SZF Es. induction Es as [|E Es IH]; intros h a cs m logs d todo m' RF DF A FC TT X HN.
  - destruct cs; cbn [resume] in X; injection X as <- <- <- <-; change (zlen (@nil Z)) with 0; rewrite slice_0, Z.add_0_r; auto.
  - destruct cs as [|c cs]; [cbn [resume] in X; injection X as <- <- <- <-; change (zlen (@nil Z)) with 0; rewrite slice_0, Z.add_0_r; auto|]. cbn [resume] in X.
    inversion DF as [|x l D DF']; subst. inversion RF as [|x l R1 RF']; subst.
    destruct (part_keeps fuel cfg E P t ri p ho buf n r rbuf L (c :: cs) h a (mkw m 0 0 0 []) D A FC ltac:(lia))
      as [(w'&Z1&Z2)|(d1&todo1&h'&w'&tr2&got&Z1&Z2&Z3&Z4&Z5&Z6&Z7&Z8)]; rewrite Z1 in X; cbn [bind] in X; [discriminate|]. cbn [w_mem w_tr app] in Z2, Z3.
    assert (TS : total (c :: cs) = total got + total todo1) by (rewrite Z7; apply total_app). rewrite Z7 in FC. apply Forall_app in FC. destruct FC as (F1&F2). pose proof (total_nonneg got F1).
    destruct (resume fuel cfg P t ri r Es h' (a + zlen d1) todo1 (w_mem w')) as [[[[lo d2] to2] m2]| | |] eqn:QR; cbn [bind] in X; try discriminate. injection X as <- <- <- <-.
    pose proof (Forall_inv HN) as H1. pose proof (Forall_inv_tail HN) as HN'. clear HN.
    assert (PR := part_right fuel cfg E P t ri p ho buf n r rbuf L srv F RH R1 WB SV SZF (c :: cs) h a (mkw m 0 0 0 []) [] [] d1 todo1 h' w' (w_tr w') D A ltac:(rewrite Z7; apply Forall_app; auto) TT
      (Forall_nil _) eq_refl eq_refl Z1 ltac:(reflexivity) H1).
    destruct (IH h' (a + zlen d1) todo1 (w_mem w') lo d2 to2 m2 RF' ltac:(eapply Forall_impl; [|exact DF']; intros E' D'; cbn beta in *; eapply setup_keeps; eauto) ltac:(lia) F2 ltac:(lia) QR HN') as (I1&I2).
    pose proof (zlen_nonneg d2). rewrite zlen_app. split; [|lia]. rewrite (slice_app F a (zlen d1) (zlen d2)) by lia. rewrite <- PR, <- I1. reflexivity.
Qed.
Theorem C98_resume_is_never_wrong : forall fuel cfg P t ri p ho h buf n r rbuf L srv F Es cs m logs d todo m',
  reads_http P -> well_behaved srv -> serves srv p F -> zlen F <= INT32_MAX + 1 ->
  Forall recv_faithful Es -> Forall (fun E => download_setup cfg E P t ri p ho h buf n r rbuf L m) Es -> Forall (fun c => 0 < c) cs -> total cs = zlen F ->
  resume fuel cfg P t ri r Es h 0 cs m = Ret (logs, d, todo, m') -> Forall (honest srv) logs ->
  prefix d F /\ (todo = [] -> d = F).
Proof.
  intros fuel cfg P t ri p ho h buf n r rbuf L srv F Es cs m logs d todo m' RH WB SV SZF RF DF FC TT X HN.
  destruct (resume_right fuel cfg P t ri p ho buf n r rbuf L srv F RH WB SV SZF Es h 0 cs m logs d todo m' RF DF ltac:(lia) FC ltac:(lia) X HN) as (Q1&Q2).
  split.
  - rewrite Q1. unfold slice. cbn [Z.to_nat skipn]. exists (skipn (Z.to_nat (zlen d)) F). rewrite firstn_skipn. reflexivity.
  - intros ->. cbn [total fold_right] in Q2. rewrite Q1. apply slice_full. lia.
Qed.
Print Assumptions C98_resume_is_never_wrong.

(** The application of C96 is this one, which gives up instead of going on. *)
Lemma download_part fuel cfg E P t ri r : forall cs h a w,
  download fuel cfg E P t ri r h a cs w = bind (part fuel cfg E P t ri r h a cs w) (fun '(d, todo, _, w') => Ret (match todo with [] => Some d | _ => None end, w')).
Proof.
  induction cs as [|c cs IH]; intros h a w; cbn [part download]; [reflexivity|].
  destruct (history cfg (w_mem w) h [CInit ri; CRange a (a + c - 1)]) as [((sts&h1)&m1)| | |]; cbn [bind]; try reflexivity. destruct (forallb is_success sts); cbn [negb]; [|reflexivity].
  destruct (Send fuel cfg E P (Some t) (Some h1) None 0 (Some r) 0 (with_mem w m1)) as [[[[st prh] pr] w1]| | |]; cbn [bind]; try reflexivity.
  destruct st; try reflexivity. destruct prh as [h2|]; [|reflexivity]. destruct pr as [r1|]; [|reflexivity]. destruct (r_body r1) as [q|]; [|reflexivity]. destruct ((r_status r1 =? 206) && (r_bodyLen r1 =? c)); [|reflexivity].
  destruct (loadn (w_mem w1) q c) as [d| | |]; cbn [bind]; try reflexivity. rewrite IH.
  destruct (part fuel cfg E P t ri r h2 (a + c) cs w1) as [[[[d2 todo2] h3] w2]| | |]; cbn [bind]; try reflexivity. destruct todo2; reflexivity.
Qed.

(** No piece is asked for again once the application has it: connection by connection, what is sent is a beginning of the requests for the pieces that are left. *)
Theorem C98_nothing_is_fetched_twice : forall fuel cfg P t ri p ho buf n r rbuf L Es h a cs m logs d todo m',
  Forall (fun E => download_setup cfg E P t ri p ho h buf n r rbuf L m) Es -> 0 <= a -> Forall (fun c => 0 < c) cs -> a + total cs <= INT32_MAX + 1 ->
  resume fuel cfg P t ri r Es h a cs m = Ret (logs, d, todo, m') -> asked cfg (ri_flags ri) p ho a cs logs d todo.
Proof.
  intros fuel cfg P t ri p ho buf n r rbuf L Es. induction Es as [|E Es IH]; intros h a cs m logs d todo m' DF A F S X.
  - destruct cs; cbn [resume] in X; injection X as <- <- <- <-; constructor.
  - destruct cs as [|c cs]; [cbn [resume] in X; injection X as <- <- <- <-; constructor|]. cbn [resume] in X. pose proof (Forall_inv DF) as D. pose proof (Forall_inv_tail DF) as DF'.
    destruct (part_keeps fuel cfg E P t ri p ho buf n r rbuf L (c :: cs) h a (mkw m 0 0 0 []) D A F S)
      as [(w'&Z1&Z2)|(d1&todo1&h'&w'&tr2&got&Z1&Z2&Z3&Z4&Z5&Z6&Z7&Z8)]; rewrite Z1 in X; cbn [bind] in X; [discriminate|]. cbn [w_mem w_tr app] in Z2, Z3.
    destruct (C96_requests_exist cfg (ri_flags ri) p ho (c :: cs) a A F S) as (reqs&RR&_).
    pose proof (part_sends fuel cfg E P t ri p ho buf n r rbuf L (c :: cs) h a (mkw m 0 0 0 []) reqs d1 todo1 h' w' (w_tr w') D A F S RR Z1 eq_refl) as PS.
    destruct (resume fuel cfg P t ri r Es h' (a + zlen d1) todo1 (w_mem w')) as [[[[lo d2] to2] m2]| | |] eqn:QR; cbn [bind] in X; try discriminate. injection X as <- <- <- <-.
    assert (TS : total (c :: cs) = total got + total todo1) by (rewrite Z7; apply total_app). pose proof F as F0. rewrite Z7 in F0. apply Forall_app in F0. destruct F0 as (F1&F2). pose proof (total_nonneg got F1).
    rewrite Z7. rewrite Z7 in RR. eapply AKcons; [exact RR|exact PS|exact Z8|]. eapply IH; [|lia|exact F2|lia|exact QR]. eapply Forall_impl; [|exact DF']. intros E' D'; cbn beta in *. eapply setup_keeps; eauto.
Qed.
Print Assumptions C98_nothing_is_fetched_twice.

(** One more connection on which the network does its part for the pieces that are left (as in [C96_download_completes]), and the application has the file. *)
Lemma last_completes fuel cfg P t ri p ho buf n r rbuf L srv F K E reqs pss :
  reads_http P -> recv_faithful E -> (forall i k, 0 < k -> 0 < e_send E i k) -> well_behaved srv -> serves srv p F -> serves_all srv p F K -> zlen F <= INT32_MAX + 1 -> n < Z.of_nat fuel ->
  Forall (fun q => zlen (text_of q) <= n) reqs -> Forall2 (arrives cfg E r fuel srv) reqs pss -> feeds E 0 (concat pss) ->
  forall Es h a cs m logs d todo m', Forall (fun E => download_setup cfg E P t ri p ho h buf n r rbuf L m) (Es ++ [E]) -> 0 <= a -> Forall (fun c => 0 < c /\ c + K <= L) cs -> a + total cs = zlen F ->
  resume fuel cfg P t ri r Es h a cs m = Ret (logs, d, todo, m') -> todo <> [] -> range_requests cfg (ri_flags ri) p ho (a + zlen d) todo reqs ->
  exists tr m2, resume fuel cfg P t ri r (Es ++ [E]) h a cs m = Ret (logs ++ [tr], d ++ slice F (a + zlen d) (zlen F - (a + zlen d)), [], m2) /\
    accepted tr = flat_map text_of reqs /\ data_received tr = flat_map (fun q => http_bytes (answer_to srv q)) reqs.
Proof.
  intros RH RF WI WB SV SA SZF FU FN FA FE Es. induction Es as [|E1 Es IH]; intros h a cs m logs d todo m' DF A FC TT X NE RR.
  - assert (Q : ([] : list (list tev), [] : bytes, cs, m) = (logs, d, todo, m')) by (destruct cs; cbn [resume] in X; injection X as <- <- <- <-; reflexivity). injection Q as <- <- <- <-.
    change (zlen (@nil Z)) with 0 in *. rewrite Z.add_0_r in *. cbn [app]. destruct cs as [|c cs]; [congruence|].
    destruct (completes fuel cfg E P t ri p ho buf n r rbuf L srv F K RH RF WI WB SV SA SZF FU (c :: cs) h a (mkw m 0 0 0 []) reqs pss (Forall_inv DF) A FC TT RR FN FA FE) as (w'&tr&X1&X2&X3&X4).
    rewrite download_part in X1. cbn [resume]. destruct (part fuel cfg E P t ri r h a (c :: cs) (mkw m 0 0 0 [])) as [[[[d2 todo2] h3] w2]| | |] eqn:PT; cbn [bind] in X1; try discriminate.
    destruct todo2; [|discriminate]. injection X1 as -> ->. cbn [bind resume]. cbn [w_tr app] in X2. exists tr, (w_mem w'). rewrite X2, app_nil_r. auto.
  - destruct cs as [|c cs]; [cbn [resume] in X; injection X as <- <- <- <-; congruence|]. cbn [app resume] in X, DF |- *. pose proof (Forall_inv DF) as D. pose proof (Forall_inv_tail DF) as DF'.
    assert (FP : Forall (fun c => 0 < c) (c :: cs)) by (eapply Forall_impl; [|exact FC]; intros ? (?&_); auto).
    destruct (part_keeps fuel cfg E1 P t ri p ho buf n r rbuf L (c :: cs) h a (mkw m 0 0 0 []) D A FP ltac:(lia))
      as [(w'&Z1&Z2)|(d1&todo1&h'&w'&tr2&got&Z1&Z2&Z3&Z4&Z5&Z6&Z7&Z8)]; rewrite Z1 in X |- *; cbn [bind] in X |- *; [discriminate|]. cbn [w_mem w_tr app] in Z2, Z3.
    assert (TS : total (c :: cs) = total got + total todo1) by (rewrite Z7; apply total_app). rewrite Z7 in FC, FP. apply Forall_app in FC. destruct FC as (_&F2). apply Forall_app in FP. destruct FP as (F1&_). pose proof (total_nonneg got F1).
    destruct (resume fuel cfg P t ri r Es h' (a + zlen d1) todo1 (w_mem w')) as [[[[lo d2] to2] m2]| | |] eqn:QR; cbn [bind] in X; try discriminate. injection X as <- <- <- <-.
    destruct (IH h' (a + zlen d1) todo1 (w_mem w') lo d2 to2 m2 ltac:(eapply Forall_impl; [|exact DF']; intros E' D'; cbn beta in *; eapply setup_keeps; eauto) ltac:(lia) F2 ltac:(lia) QR NE
      ltac:(rewrite zlen_app, Z.add_assoc in RR; exact RR)) as (tr&m3&I1&I2).
    rewrite I1. cbn [bind]. exists tr, m3. split; [|exact I2]. rewrite zlen_app, !Z.add_assoc, app_assoc. reflexivity.
Qed.
Theorem C98_resume_completes : forall fuel cfg P t ri p ho h buf n r rbuf L srv F K E reqs pss Es cs m logs d todo m',
  reads_http P -> Forall recv_faithful (Es ++ [E]) -> (forall i k, 0 < k -> 0 < e_send E i k) -> well_behaved srv -> serves srv p F -> serves_all srv p F K -> zlen F <= INT32_MAX + 1 -> n < Z.of_nat fuel ->
  Forall (fun E => download_setup cfg E P t ri p ho h buf n r rbuf L m) (Es ++ [E]) -> Forall (fun c => 0 < c /\ c + K <= L) cs -> total cs = zlen F ->
  resume fuel cfg P t ri r Es h 0 cs m = Ret (logs, d, todo, m') -> Forall (honest srv) logs -> todo <> [] ->
  range_requests cfg (ri_flags ri) p ho (zlen d) todo reqs -> Forall (fun q => zlen (text_of q) <= n) reqs -> Forall2 (arrives cfg E r fuel srv) reqs pss -> feeds E 0 (concat pss) ->
  exists tr m2, resume fuel cfg P t ri r (Es ++ [E]) h 0 cs m = Ret (logs ++ [tr], F, [], m2) /\
    accepted tr = flat_map text_of reqs /\ data_received tr = flat_map (fun q => http_bytes (answer_to srv q)) reqs.
Proof.
  intros fuel cfg P t ri p ho h buf n r rbuf L srv F K E reqs pss Es cs m logs d todo m' RH RF WI WB SV SA SZF FU DF FC TT X HN NE RR FN FA FE.
  apply Forall_app in RF. destruct RF as (RF1&RF2).
  destruct (last_completes fuel cfg P t ri p ho buf n r rbuf L srv F K E reqs pss RH (Forall_inv RF2) WI WB SV SA SZF FU FN FA FE Es h 0 cs m logs d todo m' DF ltac:(lia) FC ltac:(lia) X NE RR) as (tr&m2&Q1&Q2).
  exists tr, m2. split; [|exact Q2]. rewrite Q1. rewrite !Z.add_0_l. apply Forall_app in DF. destruct DF as (DF&_).
  destruct (C98_resume_is_never_wrong fuel cfg P t ri p ho h buf n r rbuf L srv F Es cs m logs d todo m' RH WB SV SZF RF1 DF ltac:(eapply Forall_impl; [|exact FC]; intros ? (?&_); auto) TT X HN) as ((z&Q)&_).
  assert (QS : slice F (zlen d) (zlen F - zlen d) = z) by (rewrite Q, zlen_app; replace (zlen d + zlen z - zlen d) with (zlen z) by lia; pose proof (zlen_nonneg z); pose proof (zlen_nonneg d); rewrite slice_of_app_r by lia; rewrite Z.sub_diag; apply slice_full; reflexivity). rewrite QS, <- Q. reflexivity.
Qed.
Print Assumptions C98_resume_completes.

(** And it ends, by the bounds of C49 for every piece, on every connection. *)
Theorem C98_resume_ends : forall fuel cfg P t ri p ho buf n r rbuf L Es h a cs m,
  Forall (fun E => download_setup cfg E P t ri p ho h buf n r rbuf L m) Es -> Forall (fun E => enough cfg E r n 0 L fuel) Es -> 0 <= a -> Forall (fun c => 0 < c) cs -> a + total cs <= INT32_MAX + 1 ->
  exists logs d todo m', resume fuel cfg P t ri r Es h a cs m = Ret (logs, d, todo, m').
Proof.
  intros fuel cfg P t ri p ho buf n r rbuf L Es. induction Es as [|E Es IH]; intros h a cs m DF EN A F S.
  - destruct cs; cbn [resume]; eauto.
  - destruct cs as [|c cs]; [cbn [resume]; eauto 6|]. cbn [resume]. pose proof (Forall_inv DF) as D. pose proof (Forall_inv_tail DF) as DF'.
    destruct (C96_download_ends fuel cfg E P t ri p ho h buf n r rbuf L (c :: cs) a (mkw m 0 0 0 []) D A F S (Forall_inv EN)) as (o&w'&tr&X1&_). rewrite download_part in X1.
    destruct (part_keeps fuel cfg E P t ri p ho buf n r rbuf L (c :: cs) h a (mkw m 0 0 0 []) D A F S)
      as [(w2&Z1&Z2)|(d1&todo1&h'&w2&tr2&got&Z1&Z2&Z3&Z4&Z5&Z6&Z7&Z8)]; rewrite Z1 in X1 |- *; cbn [bind] in X1 |- *; [discriminate|]. cbn [w_mem] in Z3. clear X1.
    assert (TS : total (c :: cs) = total got + total todo1) by (rewrite Z7; apply total_app). rewrite Z7 in F. apply Forall_app in F. destruct F as (F1&F2). pose proof (total_nonneg got F1).
    destruct (IH h' (a + zlen d1) todo1 (w_mem w2)) as (lo&d2&to2&m2&QR); [eapply Forall_impl; [|exact DF']; intros E' D'; cbn beta in *; eapply setup_keeps; eauto|exact (Forall_inv_tail EN)|lia|exact F2|lia|].
    rewrite QR. cbn [bind]. eauto 6.
Qed.
Print Assumptions C98_resume_ends.

(** ** Case: the file of C96_case in pieces of 20 and 23 bytes; the first connection delivers the first piece and 15 bytes of the answer with the second, and is cut; the second
    connection delivers the second piece. *)
Definition answer_2 : bytes := http_bytes (r206 (slice file_d 20 23)).
Definition E_half : env := mkenv (fun _ k => Z.min k 50)
  (fun i room => match i with O => give (http_bytes (r206 (slice file_d 0 20))) room | S O => give (firstn 15 answer_2) room | _ => (-1, []) end) (fun n => 100 * Z.of_nat n).
Definition E_rest : env := env_ex (cut_d answer_2).
Lemma setup_u E : send_contract E -> recv_contract E -> download_setup cfg0 E refparser trr ri_d (B "/f") (B "h") h_d buf0 300 rsep rbuf 300 (w_mem w_d).
Proof. intros A C. pose proof setup_d as (D1&D2&_&_&D5). split; [exact D1|]. split; [exact D2|]. split; [exact A|]. split; [exact C|exact D5]. Qed.
Lemma half_ok : send_contract E_half /\ recv_contract E_half /\ recv_faithful E_half.
Proof.
  split; [intros i k H; cbn [E_half e_send]; lia|]. set (ps := [http_bytes (r206 (slice file_d 0 20)); firstn 15 answer_2]). split.
  - intros i k H. destruct i as [|[|i]]; cbn [E_half e_recv]; [exact (env_of_contract ps 0%nat k H)|exact (env_of_contract ps 1%nat k H)|cbn; change (zlen (@nil Z)) with 0; lia].
  - intros i k. destruct i as [|[|i]]; cbn [E_half e_recv]; [exact (env_of_faithful ps 0%nat k)|exact (env_of_faithful ps 1%nat k)|cbn; intros; lia].
Qed.
Example C98_case : let srv := file_server file_d in
  well_behaved srv /\ serves srv (B "/f") file_d /\ serves_all srv (B "/f") file_d 60 /\
  Forall (fun E => download_setup cfg0 E refparser trr ri_d (B "/f") (B "h") h_d buf0 300 rsep rbuf 300 (w_mem w_d) /\ recv_faithful E) [E_half; E_rest] /\
  (exists log1 m1, resume 400 cfg0 refparser trr ri_d rsep [E_half] h_d 0 [20; 23] (w_mem w_d) = Ret ([log1], B "the quick brown fox ", [23], m1) /\ honest srv log1) /\
  exists log1 log2 m2, resume 400 cfg0 refparser trr ri_d rsep [E_half; E_rest] h_d 0 [20; 23] (w_mem w_d) = Ret ([log1; log2], file_d, [], m2) /\ honest srv log1 /\ honest srv log2 /\
    accepted log1 = flat_map text_of requests_d /\ accepted log2 = flat_map text_of (tl requests_d).
Proof.
  intros srv. destruct (file_server_ok file_d (B "/f") ltac:(vm_compute; discriminate)) as (A1&A2&A3). destruct half_ok as (H1&H2&H3). destruct (env_ex_ok (cut_d answer_2)) as (G1&G2&G3&_).
  split; [exact A1|]. split; [exact A2|]. split; [exact A3|]. split; [constructor; [split; [apply setup_u; auto|exact H3]|constructor; [split; [apply setup_u; auto|exact G3]|constructor]]|]. split.
  - set (X := resume 400 cfg0 refparser trr ri_d rsep [E_half] h_d 0 [20; 23] (w_mem w_d)).
    assert (Q : match X with Ret ([log1], d, [c], m1) => honest_b srv log1 && beqb d (B "the quick brown fox ") && (c =? 23) | _ => false end = true) by (vm_compute; reflexivity).
    destruct X as [[[[[|log1 [|]] d] [|c [|]]] m1]| | |]; try discriminate. apply andb_true_iff in Q. destruct Q as (Q&Q3). apply andb_true_iff in Q. destruct Q as (Q1&Q2). apply beqb_eq in Q2. apply Z.eqb_eq in Q3. subst.
    exists log1, m1. split; [reflexivity|apply honest_ok, Q1].
  - set (X := resume 400 cfg0 refparser trr ri_d rsep [E_half; E_rest] h_d 0 [20; 23] (w_mem w_d)).
    assert (Q : match X with Ret ([log1; log2], d, [], m1) => honest_b srv log1 && honest_b srv log2 && beqb d file_d && beqb (accepted log1) (flat_map text_of requests_d) && beqb (accepted log2) (flat_map text_of (tl requests_d)) | _ => false end = true) by (vm_compute; reflexivity).
    destruct X as [[[[[|log1 [|log2 [|]]] d] [|]] m2]| | |]; try discriminate. apply andb_true_iff in Q. destruct Q as (Q&Q5). apply andb_true_iff in Q. destruct Q as (Q&Q4). apply andb_true_iff in Q. destruct Q as (Q&Q3).
    apply andb_true_iff in Q. destruct Q as (Q1&Q2). apply beqb_eq in Q3, Q4, Q5. subst d.
    exists log1, log2, m2. split; [reflexivity|]. split; [apply honest_ok, Q1|]. split; [apply honest_ok, Q2|]. split; [exact Q4|exact Q5].
Qed.
(** The other hypotheses of [C98_resume_completes] hold as well: *)
Example C98_case_completes : exists log1 log2 m2, resume 400 cfg0 refparser trr ri_d rsep ([E_half] ++ [E_rest]) h_d 0 [20; 23] (w_mem w_d) = Ret ([log1] ++ [log2], file_d, [], m2) /\
  accepted log2 = flat_map text_of (tl requests_d).
Proof.
  destruct C98_case as (A1&A2&A3&A4&(log1&m1&X&HN)&_). destruct (env_ex_ok (cut_d answer_2)) as (_&_&_&WI).
  destruct (C98_resume_completes 400 cfg0 refparser trr ri_d (B "/f") (B "h") h_d buf0 300 rsep rbuf 300 (file_server file_d) file_d 60 E_rest (tl requests_d) [cut_d answer_2] [E_half] [20; 23] (w_mem w_d) [log1]
    (B "the quick brown fox ") [23] m1) as (tr&m2&Q1&Q2&_);
    [exact refparser_reads|eapply Forall_impl; [|exact A4]; intros E (_&?); auto|exact WI|exact A1|exact A2|exact A3|vm_compute; discriminate|lia|eapply Forall_impl; [|exact A4]; intros E (?&_); auto|
     repeat constructor; vm_compute; discriminate|reflexivity|exact X|constructor; [exact HN|constructor]|discriminate| | | | |].
  - cbn [tl requests_d]. change (B "GET /f HTTP/1.1") with (B "GET " ++ B "/f" ++ B " HTTP/1.1").
    assert (RV : range_value 20 42 (B "bytes=20-42")).
    { unfold range_value. change (42 =? -1) with false. exists (to_dec 20), (to_dec 42). split; [apply to_dec_decimal; unfold is_int32, INT32_MIN, INT32_MAX; lia|]. split; [apply to_dec_decimal; unfold is_int32, INT32_MIN, INT32_MAX; lia|reflexivity]. }
    exact (RRcons cfg0 0 (B "/f") (B "h") 20 23 [] _ _ RV (RRnil _ _ _ _ _)).
  - repeat constructor; vm_compute; discriminate.
  - constructor; [|constructor]. split; [vm_compute; reflexivity|]. split; [vm_compute; discriminate|]. split; [intros nt; apply nonempty_prompt; repeat constructor; vm_compute; discriminate|cbn; lia].
  - cbn [concat]. rewrite app_nil_r. exact (env_of_feeds (cut_d answer_2)).
  - exists log1, tr, m2. split; [exact Q1|exact Q2].
Qed.
Example C98_ends_case : exists fuel logs d todo m', Forall (fun E => enough cfg0 E rsep 300 0 300 fuel) [E_half; E_rest] /\
  resume fuel cfg0 refparser trr ri_d rsep [E_half; E_rest] h_d 0 [20; 23] (w_mem w_d) = Ret (logs, d, todo, m').
Proof.
  assert (A : forall E, (forall k, e_time E k = 100 * Z.of_nat k) -> enough cfg0 E rsep 300 0 300 (Z.to_nat 100000000)).
  { intros E Q. unfold enough. cbn [rsep r_time]. rewrite Z2Nat.id by lia. cbn [cfg0 SEND_TO RECV_TO]. split; [|split; [|lia]]; intros k; rewrite !Q; lia. }
  exists (Z.to_nat 100000000). assert (EN : Forall (fun E => enough cfg0 E rsep 300 0 300 (Z.to_nat 100000000)) [E_half; E_rest]) by (constructor; [apply A; reflexivity|constructor; [apply A; reflexivity|constructor]]).
  destruct C98_case as (_&_&_&A4&_).
  destruct (C98_resume_ends (Z.to_nat 100000000) cfg0 refparser trr ri_d (B "/f") (B "h") buf0 300 rsep rbuf 300 [E_half; E_rest] h_d 0 [20; 23] (w_mem w_d)
    ltac:(eapply Forall_impl; [|exact A4]; intros E (?&_); auto) EN ltac:(lia) ltac:(repeat constructor; lia) ltac:(vm_compute; discriminate)) as (lo&d&to&m'&Q). exists lo, d, to, m'. split; [exact EN|exact Q].
Qed.
