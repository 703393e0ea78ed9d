(** PropsCut.v — C67: the result of a call does not depend on how the network cuts the data, whatever the data are. *)
From Verif Require Import Base Lib ModelRequest ModelSend ModelResponse SpecRequest SpecSend SpecResponse ProofsRequest ProofsSend ProofsSend2
  ProofsResponse ProofsResponse2 ProofsResponse3 ProofsResponse4 ProofsResponse5 RefParser RefRun SpecHttp SpecParser SpecCut HttpRun ProofsFollow ProofsEnd Demo DemoResponse
  PropsResponse PropsHttp ProofsAny SpecExact2 PropsExact2 ProofsCut RefCut.

(** ** C68: what the header callback is given, exactly *)
Lemma delivered_exact fuel cfg E P t r rh buf L req w st r' w' tr :
  recv_setup cfg E P t r rh buf L req w -> receives fuel cfg E P t r rh w st r' w' tr -> r_cb r = true ->
  delivered tr = map (text_at (v_stream (view_of tr))) (v_locs (view_of tr)).
Proof.
  intros H HR CB. destruct (receives_inv _ _ _ _ _ _ _ _ _ _ _ _ _ _ _ H HR) as (trl&o&s'&ph&G&TR&RR&NM&ST&HW&F1&I&_).
  exact (i_seen _ _ _ _ _ _ _ _ I CB).
Qed.
(** The lengths are those of the headers. *)
Definition loc_sizes (h : hloc) : Z * Z * Z := let '((_, nl), (_, xl), c) := h in (nl, xl, c).
Lemma locs_sizes tr : map loc_sizes (v_locs (view_of tr)) = map sizes (v_headers (view_of tr)).
Proof.
  unfold view_of. set (v := view0). assert (H : map loc_sizes (v_locs v) = map sizes (v_headers v)) by reflexivity. clearbody v. revert v H.
  assert (FN : forall v, map loc_sizes (v_locs v) = map sizes (v_headers v) -> map loc_sizes (v_locs (finish v)) = map sizes (v_headers (finish v))).
  { intros v H. unfold finish. destruct (v_name v), (v_value v); cbn [v_locs v_headers]; auto. rewrite !map_app, H. reflexivity. }
  induction tr as [|e tr IH]; intros v H; cbn [fold_left]; [exact H|]. apply IH. destruct e as [| | | |ev| | |]; cbn [view_step]; auto. destruct ev; cbn [view_event v_locs v_headers]; auto.
Qed.
Theorem C68_callbacks_exact : forall fuel cfg E P t r rh buf L req w st r' w' tr,
  recv_setup cfg E P t r rh buf L req w -> recv_faithful E -> receives fuel cfg E P t r rh w st r' w' tr -> r_cb r = true ->
  delivered tr = map (text_at (data_received tr)) (v_locs (view_of tr)) /\
  map loc_sizes (v_locs (view_of tr)) = map sizes (v_headers (view_of tr)) /\
  (delivered tr = v_headers (view_of tr) <-> map (text_at (data_received tr)) (v_locs (view_of tr)) = v_headers (view_of tr)).
Proof.
  intros fuel cfg E P t r rh buf L req w st r' w' tr H F HR CB.
  assert (VS : v_stream (view_of tr) = data_received tr).
  { destruct (receives_inv _ _ _ _ _ _ _ _ _ _ _ _ _ _ _ H HR) as (trl&o&s'&ph&G&TR&RR&_).
    pose proof (rrun_data _ _ _ _ _ _ _ _ _ _ F RR) as RD. cbn [view0 v_stream app] in RD. rewrite RD, TR, data_received_app, (data_received_norecv (tick _ _)) by apply tick_norecv. reflexivity. }
  pose proof (delivered_exact _ _ _ _ _ _ _ _ _ _ _ _ _ _ _ H HR CB) as D. rewrite VS in D.
  split; [exact D|]. split; [apply locs_sizes|]. rewrite D. tauto.
Qed.
Print Assumptions C68_callbacks_exact.
(** A folded value: the callback gets its first line, the line end and one space, as many bytes as the value has; the following header is right. *)
Example C68_case : exists r' w' tr, demo_receives resp_fold (resp0 200 0) 200 HTTPSuccess r' w' tr /\ recv_faithful (env_of resp_fold) /\ r_cb (resp0 200 0) = true /\
  v_headers (view_of tr) = [(B "A", B "x  y", 200); (B "Content-Length", B "0", 200)] /\
  v_locs (view_of tr) = [((17, 1), (20, 4), 200); ((28, 14), (44, 1), 200)] /\
  delivered tr = [(B "A", [120; 13; 10; 32], 200); (B "Content-Length", B "0", 200)].
Proof. do 3 eexists. split; [demo|]. split; [apply env_of_faithful|]. split; [reflexivity|]. conj; vm_compute; reflexivity. Qed.

(** ** C67 *)

Lemma finish_last v : v_locs (finish v) = v_locs v \/ exists h, v_locs (finish v) = v_locs v ++ [h].
Proof. unfold finish. destruct (v_name v), (v_value v); cbn [v_locs]; eauto. Qed.
Lemma nearly_equal {A} (a b c : list A) : (c = a \/ exists h, c = a ++ [h]) -> (c = b \/ exists h, c = b ++ [h]) -> nearly a b.
Proof.
  unfold nearly. intros [->|(h&->)] [Q|(k&Q)].
  - left. auto.
  - right. left. eauto.
  - right. right. exists h. auto.
  - apply app_inj_tail in Q. destruct Q as (->&_). auto.
Qed.
Lemma nearly_map {A C} (f : A -> C) a b : nearly a b -> nearly (map f a) (map f b).
Proof. unfold nearly. intros [->|[(h&->)|(h&->)]]; rewrite ?map_app; cbn [map]; eauto. Qed.

(** With room for more data, the size of the buffer does not matter. *)
Lemma coutcome_room P nb L L' o v : zlen (v_stream v) < L -> zlen (v_stream v) < L' -> coutcome P nb L o v -> coutcome P nb L' o v.
Proof.
  intros A1 A2. destruct o as [| |e|e]; cbn [coutcome].
  - intros (ps&s&X1&X2&_). eauto.
  - intros (ps&s&X1&X2&_). eauto.
  - intros (ps&s&v0&d&s'&X1&X2&X3&X4&X5). exists ps, s, v0, d, s'. do 4 (split; [auto|]). destruct X5 as [X5|[X5|X5]]; auto. lia.
  - intros (ps&s&v0&s'&X1&X2&X3&X4). exists ps, s, v0, s'. split; [auto|]. split; [auto|]. split; [|auto].
    pose proof (reading_stream nb (p_exec P s []) (given v0 [])) as RS. rewrite X4 in RS. cbn [fst given view_step v_stream] in RS. rewrite app_nil_r in RS. congruence.
Qed.
Theorem C67_any_cut : forall P cfg L1 L2 fuel1 E1 t1 r1 rh1 buf1 req1 w1 st1 r1' w1' tr1 fuel2 E2 t2 r2 rh2 buf2 req2 w2 st2 r2' w2' tr2,
  cut_free P ->
  recv_setup cfg E1 P t1 r1 rh1 buf1 L1 req1 w1 -> recv_faithful E1 -> no_parse_body r1 = false ->
  recv_setup cfg E2 P t2 r2 rh2 buf2 L2 req2 w2 -> recv_faithful E2 -> no_parse_body r2 = false ->
  (begins req1 (B "HEAD") <-> begins req2 (B "HEAD")) ->
  receives fuel1 cfg E1 P t1 r1 rh1 w1 st1 r1' w1' tr1 -> receives fuel2 cfg E2 P t2 r2 rh2 w2 st2 r2' w2' tr2 ->
  data_received tr1 = data_received tr2 -> (L1 = L2 \/ zlen (data_received tr1) < L1 /\ zlen (data_received tr1) < L2) -> (recv_failed tr1 <-> recv_failed tr2) ->
  st1 = st2 /\
  (answered st1 tr1 ->
   same_response r1 r1' buf1 (w_mem w1') r2 r2' buf2 (w_mem w2') /\
   (~ rejected st1 -> same_headers r1 r1' buf1 tr1 r2 r2' buf2 tr2) /\
   (r_cb r1 = true -> r_cb r2 = true -> nearly (delivered tr1) (delivered tr2))).
Proof.
  intros P cfg L1 L2 fuel1 E1 t1 r1 rh1 buf1 rq1 w1 st1 r1' w1' tr1 fuel2 E2 t2 r2 rh2 buf2 rq2 w2 st2 r2' w2' tr2 CF S1 F1 N1 S2 F2 N2 HD R1 R2 DR LL RF.
  destruct (receives_cut P _ fuel1 _ _ _ _ _ _ _ _ _ _ _ _ _ eq_refl S1 F1 N1 R1) as (o1&M1&ST1&C1&VS1&EN1&P1&RC1).
  destruct (receives_cut P _ fuel2 _ _ _ _ _ _ _ _ _ _ _ _ _ eq_refl S2 F2 N2 R2) as (o2&M2&ST2&C2&VS2&EN2&P2&RC2).
  assert (HB : beqb (slice rq1 0 4) (B "HEAD") = beqb (slice rq2 0 4) (B "HEAD")).
  { rewrite !begins_beqb in HD. destruct (beqb (slice rq1 0 4) (B "HEAD")), (beqb (slice rq2 0 4) (B "HEAD")); auto; [symmetry; tauto|tauto]. }
  rewrite HB in C1.
  assert (RR : rfail o1 = rfail o2).
  { destruct o1, o2; cbn [rfail]; auto; try congruence; exfalso; cbn in EN1, EN2.
    - apply RF in EN1. eapply ended_not_failed; eauto.
    - apply RF in EN1. eapply ended_not_failed; eauto.
    - apply RF in EN2. eapply ended_not_failed; [exact EN1|auto].
    - apply RF in EN2. eapply ended_not_failed; [exact EN1|auto]. }
  assert (EV : v_stream (view_of tr1) = v_stream (view_of tr2)) by congruence.
  assert (C2' : coutcome P (beqb (slice rq2 0 4) (B "HEAD")) L1 o2 (view_of tr2)).
  { destruct LL as [<-|(LA&LB)]; [exact C2|]. apply (coutcome_room _ _ L2 L1); [| |exact C2]; rewrite VS2, <- DR; auto. }
  destruct (coutcome_same _ _ _ _ _ _ _ CF C1 C2' M1 M2 RR EV) as (EO&SO&SR).
  assert (EST : st1 = st2).
  { rewrite ST1, ST2, <- EO. unfold final_status. rewrite (so_msg _ _ SO), EV. unfold dnp, kof. cbn [k_opt k_L]. rewrite !dnp_bit. unfold no_parse_body in *. rewrite N1, N2.
    assert (LE : (zlen (v_stream (view_of tr2)) =? L1) = (zlen (v_stream (view_of tr2)) =? L2)).
    { destruct LL as [<-|(LA&LB)]; [reflexivity|]. rewrite VS2, <- DR. assert (Z1 : (zlen (data_received tr1) =? L1) = false) by lia. assert (Z2 : (zlen (data_received tr1) =? L2) = false) by lia. congruence. }
    rewrite LE. reflexivity. }
  split; [exact EST|]. intros A1. assert (A2 : answered st2 tr2) by (unfold answered in *; rewrite <- EST, RC2, <- DR, <- RC1; exact A1).
  destruct (C59_response_exact _ _ _ _ _ _ _ _ _ _ _ _ _ _ _ S1 R1) as (X1&_). specialize (X1 A1).
  destruct (C59_response_exact _ _ _ _ _ _ _ _ _ _ _ _ _ _ _ S2 R2) as (X2&_). specialize (X2 A2).
  pose proof (C27_body _ _ _ _ _ _ _ _ _ _ _ _ _ _ _ S1 R1 A1 N1) as B1. pose proof (C27_body _ _ _ _ _ _ _ _ _ _ _ _ _ _ _ S2 R2 A2 N2) as B2. cbn zeta in B1, B2.
  unfold response_after in X1, X2. rewrite N1 in X1. rewrite N2 in X2.
  set (v1 := view_of tr1) in *. set (v2 := view_of tr2) in *.
  assert (HE : match v_hend v1 with Some _ => true | None => false end = match v_hend v2 with Some _ => true | None => false end).
  { pose proof (so_hend _ _ SO) as Q. destruct (v_hend v1), (v_hend v2); cbn in Q; congruence. }
  split; [constructor|split].
  - rewrite X1, X2. cbn [r_status]. apply SO.
  - rewrite X1, X2. cbn [r_flags]. rewrite (so_close _ _ SO), (so_ka _ _ SO). reflexivity.
  - intros Q. rewrite X1, X2. cbn [r_hdone]. destruct (v_hend v1), (v_hend v2); auto; discriminate.
  - intros Q. rewrite X1, X2. cbn [r_clen]. rewrite (so_clen _ _ SO). destruct (v_hend v1), (v_hend v2); auto; discriminate.
  - rewrite X1, X2. cbn [r_bodyLen]. rewrite (so_body _ _ SO). reflexivity.
  - pose proof (so_bstart _ _ SO) as Q. rewrite <- Q in B2. destruct (v_bstart v1) as [bo|].
    + right. exists bo. destruct B1 as (U1&U2&U3&_), B2 as (W1&W2&W3&_). split; [auto|]. split; [auto|]. rewrite U2, W2, U3, W3. apply SO.
    + left. destruct B1 as (U1&_), B2 as (W1&_). auto.
  - intros NR.
    assert (G : match o1 with OStop e | OStall e => goes_on e = true | _ => True end).
    { assert (Z : forall e, (o1 = OStop e \/ o1 = OStall e) -> goes_on e = true).
      { intros e Q. destruct (goes_on e) eqn:GE; auto. exfalso. apply NR. rewrite ST1. unfold final_status.
        assert (EE : errno_of o1 = Some e) by (destruct Q as [-> | ->]; reflexivity). rewrite EE.
        unfold rejected. destruct e; try discriminate GE; cbn [parse_error]; try (cbn; tauto). destruct P1. exact Q. }
      destruct o1; auto. }
    specialize (SR G). constructor.
    + rewrite X1, X2. cbn [r_hcount]. rewrite (sr_headers _ _ SR). reflexivity.
    + rewrite X1, X2. cbn [r_headers]. rewrite (sr_hstart _ _ SR). destruct (v_hstart v2) as [h|]; [right; exists h; auto|left; auto].
    + intros K1 K2. rewrite (delivered_exact _ _ _ _ _ _ _ _ _ _ _ _ _ _ _ S1 R1 K1), (delivered_exact _ _ _ _ _ _ _ _ _ _ _ _ _ _ _ S2 R2 K2). fold v1 v2.
      rewrite EV, (sr_locs _ _ SR). reflexivity.
  - intros K1 K2. rewrite (delivered_exact _ _ _ _ _ _ _ _ _ _ _ _ _ _ _ S1 R1 K1), (delivered_exact _ _ _ _ _ _ _ _ _ _ _ _ _ _ _ S2 R2 K2). fold v1 v2.
    rewrite EV. apply nearly_map. apply (nearly_equal _ _ (v_locs (finish v1))); [apply finish_last|]. rewrite (so_locs _ _ SO). apply finish_last.
Qed.
(** The reference parser's answer to any data does not depend on the cuts, so [cut_free] is met by a parser that reads HTTP. *)
Theorem C67_reference_parser : cut_free refparser.
Proof. exact refparser_cut_free. Qed.
Print Assumptions C67_any_cut.
Print Assumptions C67_reference_parser.
(** The data are not HTTP (a space in a header name), cut before the wrong byte and not cut; what the two calls return is the same, but in the first
    the header before the error was reported. *)
Definition bad_cut1 : list bytes := [line (B "HTTP/1.1 200 OK") ++ line (B "A: b") ++ B "X"; B " "].
Definition bad_cut2 : list bytes := [line (B "HTTP/1.1 200 OK") ++ line (B "A: b") ++ B "X "].
Example C67_case :
  cut_free refparser /\ recv_faithful (env_of bad_cut1) /\ no_parse_body (resp0 200 0) = false /\
  (exists r' w' tr, demo_receives bad_cut1 (resp0 200 0) 200 HTTPSecurityAlertInvalidCharacter r' w' tr /\ data_received tr = concat bad_cut2 /\ ~ recv_failed tr /\
     delivered tr = [(B "A", B "b", 200)]) /\
  (exists r' w' tr, demo_receives bad_cut2 (resp0 200 0) 200 HTTPSecurityAlertInvalidCharacter r' w' tr /\ data_received tr = concat bad_cut2 /\ ~ recv_failed tr /\
     delivered tr = []) /\
  (exists r' w' tr, demo_receives resp_chunked (resp0 200 0) 200 HTTPSuccess r' w' tr /\ data_received tr = concat resp_chunked) /\
  (exists r' w' tr, demo_receives [concat resp_chunked] (resp0 300 0) 300 HTTPSuccess r' w' tr /\ data_received tr = concat resp_chunked).
Proof.
  assert (NF : forall l, (exists e, last l (TTime 0) = TParsed e) -> ~ recv_failed l).
  { intros l (e&Q) (tr1&p&room&n&d&X&N). rewrite X, last_last in Q. discriminate. }
  split; [exact refparser_cut_free|]. split; [apply env_of_faithful|]. split; [reflexivity|].
  split; [do 3 eexists; split; [demo|]; split; [vm_compute; reflexivity|]; split; [apply NF; eexists; vm_compute; reflexivity|vm_compute; reflexivity]|].
  split; [do 3 eexists; split; [demo|]; split; [vm_compute; reflexivity|]; split; [apply NF; eexists; vm_compute; reflexivity|vm_compute; reflexivity]|].
  split; do 3 eexists; (split; [demo|vm_compute; reflexivity]).
Qed.
