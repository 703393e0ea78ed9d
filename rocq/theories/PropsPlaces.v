(** PropsPlaces.v — C70: where the application finds the header lines of a well-formed response. *)
From Verif Require Import Base Lib ModelRequest ModelSend ModelResponse SpecRequest SpecSend SpecResponse ProofsRequest ProofsSend ProofsSend2
  ProofsResponse ProofsResponse2 ProofsResponse3 ProofsResponse4 ProofsResponse5 RefParser RefRun SpecHttp SpecParser HttpRun ProofsFollow ProofsEnd Demo DemoResponse
  PropsResponse PropsHttp ProofsAny PropsAny SpecRaw ProofsRaw RefRaw SpecPlaces RefPlaces.

(** The hypothesis can be met. *)
Theorem C70_reference_parser_reads_places : reads_places refparser.
Proof. exact refparser_places. Qed.
Print Assumptions C70_reference_parser_reads_places.

Lemma pieces_data tr : concat (pieces tr) = data_received tr.
Proof. induction tr as [|x tr IH]; [reflexivity|]. destruct x; cbn [pieces data_received]; auto. match goal with |- context [0 <? ?n] => destruct (0 <? n) end; cbn [concat app]; rewrite IH; reflexivity. Qed.
Lemma pieces_at tr : forall ps1 d ps2, pieces tr = ps1 ++ d :: ps2 -> exists tr1 p room n tr2, tr = tr1 ++ TRecv p room n d :: tr2 /\ 0 < n /\ pieces tr1 = ps1.
Proof.
  induction tr as [|x tr IH]; intros ps1 d ps2 H; [destruct ps1; discriminate|].
  assert (SK : pieces (x :: tr) = pieces tr -> (forall a, pieces (x :: a) = pieces a) -> exists tr1 p room n tr2, x :: tr = tr1 ++ TRecv p room n d :: tr2 /\ 0 < n /\ pieces tr1 = ps1).
  { intros Q1 Q2. rewrite Q1 in H. destruct (IH _ _ _ H) as (tr1&p&room&n&tr2&->&X1&X2). exists (x :: tr1), p, room, n, tr2. rewrite Q2. auto. }
  destruct x as [|p room n d0| | | | | |]; try (apply SK; intros; reflexivity). destruct (0 <? n) eqn:Q; [|apply SK; intros; cbn [pieces]; rewrite Q; reflexivity].
  cbn [pieces] in H. rewrite Q in H. destruct ps1 as [|q ps1].
  - injection H as -> _. exists [], p, room, n, tr. split; [reflexivity|]. split; [lia|reflexivity].
  - injection H as -> H. destruct (IH _ _ _ H) as (tr1&p'&room'&n'&tr2&->&X1&X2). exists (TRecv p room n q :: tr1), p', room', n', tr2. split; [reflexivity|]. split; [auto|]. cbn [pieces]. rewrite Q, X2. reflexivity.
Qed.
Lemma pick (ps : list bytes) : forall H, 0 < H <= zlen (concat ps) -> exists ps1 d ps2, ps = ps1 ++ d :: ps2 /\ zlen (concat ps1) < H <= zlen (concat ps1) + zlen d.
Proof.
  induction ps as [|d ps IH]; intros H HH; cbn [concat] in HH; [change (zlen (@nil Z)) with 0 in HH; lia|]. rewrite zlen_app in HH.
  destruct (Z_le_gt_dec H (zlen d)) as [C|C].
  - exists [], d, ps. split; [reflexivity|]. cbn [concat]. change (zlen (@nil Z)) with 0. lia.
  - destruct (IH (H - zlen d) ltac:(lia)) as (ps1&d1&ps2&->&X). exists (d :: ps1), d1, ps2. split; [reflexivity|]. cbn [concat]. rewrite zlen_app. lia.
Qed.

Lemma skipn_add (l : bytes) a : forall b, skipn (a + b) l = skipn b (skipn a l).
Proof. revert l. induction a as [|a IH]; intros [|x l] b; cbn [Nat.add skipn]; auto. destruct b; reflexivity. Qed.
Lemma slice_in (l : bytes) o h a m : 0 <= o -> 0 <= a -> 0 <= m -> a + m <= h -> slice l (o + a) m = slice (slice l o h) a m.
Proof.
  intros. unfold slice. rewrite skipn_firstn_comm, firstn_firstn, Z2Nat.inj_add by lia. rewrite skipn_add.
  f_equal. lia.
Qed.
Lemma says_view P head resp ps s v : reads_http P -> http_ok head resp -> fed head P ps s v -> concat ps = http_bytes resp -> says resp v.
Proof. intros R HO F E. apply (rd_whole P R head resp ps s v HO F E). Qed.

(** pHeaders is where the header lines begin; headersLen is their length, without the line end of the last one, plus the bytes of the final
    CR LF CR LF that came in an earlier read than the last of them. *)
Theorem C70_headers_exact : forall fuel cfg E P t r rh buf L req w r' w' tr resp,
  reads_places P -> recv_setup cfg E P t r rh buf L req w -> recv_faithful E -> no_parse_body r = false ->
  receives fuel cfg E P t r rh w HTTPSuccess r' w' tr ->
  http_ok (beqb (slice req 0 4) (B "HEAD")) resp -> data_received tr = http_bytes resp ->
  exists tr1 p room n d tr2, tr = tr1 ++ TRecv p room n d :: tr2 /\
    zlen (data_received tr1) < zlen (head_bytes resp) <= zlen (data_received (tr1 ++ [TRecv p room n d])) /\
    r_headers r' = option_map (poff buf) (first_header resp) /\
    r_headersLen r' = seen_len resp (zlen (data_received tr1)) /\
    (forall q, r_headers r' = Some q -> exists k, k = Z.max 0 (zlen (data_received tr1) - (zlen (head_bytes resp) - 4)) /\ k <= 3 /\
       bytes_at (w_mem w') q (r_headersLen r') = header_lines resp ++ slice header_end 0 k).
Proof.
  intros fuel cfg E P t r rh buf L req w r' w' tr resp RP HS F ND HR HO DE. pose proof (rp_http _ RP) as RH. set (nb := beqb _ _) in *.
  destruct (receives_anyP P nb (http_bytes resp) (goes_resp P nb resp RH HO) _ _ _ _ _ _ _ _ _ _ _ _ _ _ eq_refl HS F ND HR ltac:(exists []; rewrite DE, app_nil_r; reflexivity)) as (o&NM&ST&OC&VS&DL&EN).
  set (v := view_of tr) in *.
  assert (AN : answered HTTPSuccess tr) by (left; discriminate).
  destruct (outputs _ _ _ _ _ _ _ _ _ _ _ _ _ _ _ HS HR AN) as ((O1&O2&O3&O4&O5)&_). fold v in O1, O2, O3, O4, O5.
  assert (CP : concat (pieces tr) = http_bytes resp) by (rewrite pieces_data; exact DE).
  assert (SV : exists s v0, fed nb P (pieces tr) s v0 /\ v_hstart v = v_hstart v0 /\ v_hend v = v_hend v0 /\ says resp v).
  { destruct o as [| |e|e]; [congruence| | |]; cbn [aoutcomeP] in OC.
    - exfalso. unfold final_status in ST. discriminate.
    - destruct OC as (_&s&FD&_). exists s, v. split; [auto|]. split; [auto|]. split; [auto|]. eapply says_view; eauto.
    - destruct OC as (s&v0&s'&FD&DN&R). exists s, v0. split; [auto|]. destruct (rp_end P RP nb resp _ _ _ _ _ _ HO FD CP R) as (X1&X2). split; [auto|]. split; [auto|].
      destruct (rd_end P RH nb resp _ _ _ _ _ _ HO FD R) as (Y&_). destruct (rd_whole P RH nb resp _ _ _ HO FD CP) as (_&M). unfold done_msg in DN. rewrite M in DN.
      destruct (p_body resp) as [|? |? ? ? ?|b] eqn:PB; try discriminate. apply (Y b eq_refl CP). }
  destruct SV as (s&v0&FD&VH&VE&SY).
  assert (HB : 0 < zlen (head_bytes resp) <= zlen (concat (pieces tr))).
  { rewrite CP. unfold http_bytes. rewrite zlen_app. pose proof (zlen_nonneg (body_bytes (p_body resp))). pose proof (head_nonempty resp). destruct (head_bytes resp); [congruence|]. rewrite zlen_cons in *. pose proof (zlen_nonneg b). lia. }
  destruct (pick _ _ HB) as (ps1&d&ps2&PE&PZ). destruct (pieces_at _ _ _ _ PE) as (tr1&p&room&n&tr2&TR&NP&P1).
  rewrite PE in FD, CP. destruct (rp_place P RP nb resp ps1 d ps2 s v0 HO FD CP PZ) as (A1&A2).
  assert (D1 : data_received tr1 = concat ps1) by (rewrite <- P1; symmetry; apply pieces_data).
  exists tr1, p, room, n, d, tr2. split; [exact TR|].
  split. { rewrite data_received_app. cbn [data_received]. replace (0 <? n) with true by lia. rewrite app_nil_r, D1, zlen_app. exact PZ. }
  rewrite D1. assert (HH : r_headers r' = option_map (poff buf) (first_header resp)) by (rewrite O4, VH, A1; reflexivity). split; [exact HH|].
  assert (HL : r_headersLen r' = seen_len resp (zlen (concat ps1))).
  { rewrite O5, VE. destruct (v_hend v0) as [[hl pp]|]; cbn [option_map fst] in A2; [|discriminate]. injection A2 as ->. reflexivity. }
  split; [exact HL|]. intros q Q. eexists. split; [reflexivity|].
  assert (NE : p_headers resp <> []) by (intros Z; rewrite HH in Q; unfold first_header in Q; rewrite Z in Q; discriminate).
  pose proof (head_split resp NE) as HSP.
  assert (ZH : zlen (head_bytes resp) = zlen (status_bytes resp) + zlen (header_lines resp) + 4) by (rewrite HSP, !zlen_app; reflexivity).
  split; [lia|]. rewrite HH in Q. unfold first_header in Q. rewrite HL. unfold seen_len.
  destruct (p_headers resp) as [|h0 hs0] eqn:PH; [congruence|]. cbn [option_map] in Q. injection Q as <-.
  pose proof (gives_of _ _ _ _ _ _ _ _ _ _ _ _ _ _ _ resp HS F ND HR AN (eq_trans VS DE) SY) as G. apply g_head in G.
  unfold bytes_at in *. set (a := zlen (status_bytes resp)) in *. set (b := zlen (header_lines resp)) in *. set (c := zlen (concat ps1)) in *.
  assert (ZK : Z.max b (c - a) = b + Z.max 0 (c - (zlen (head_bytes resp) - 4))) by lia. rewrite ZK. set (k := Z.max 0 (c - (zlen (head_bytes resp) - 4))) in *.
  pose proof (zlen_nonneg (status_bytes resp)) as Z1. pose proof (zlen_nonneg (header_lines resp)) as Z2. fold a in Z1. fold b in Z2.
  assert (PO : 0 <= po buf) by (destruct HS as (_&_&_&_&_&_&(_&X&_)&_); exact X).
  refine (eq_trans (slice_in (blk (w_mem w') (pb buf)) (po buf) (zlen (head_bytes resp)) a (b + k) _ _ _ _) _); [lia|lia|lia|lia|]. rewrite G, HSP, <- app_assoc, slice_of_app_r by (rewrite ?zlen_app; change (zlen CRLF) with 2; fold a; fold b; lia).
  fold a. rewrite Z.sub_diag, slice_app by lia. rewrite slice_of_app_l by lia. rewrite slice_of_app_r by (rewrite ?zlen_app; change (zlen CRLF) with 2; fold b; lia). fold b. replace (0 + b - b) with 0 by lia.
  unfold b at 1. rewrite slice_all. reflexivity.
Qed.
Print Assumptions C70_headers_exact.

(** When no read ends inside the final CR LF CR LF, pHeaders and headersLen are exactly the header lines. *)
Theorem C70_headers_whole_ending : forall fuel cfg E P t r rh buf L req w r' w' tr resp,
  reads_places P -> recv_setup cfg E P t r rh buf L req w -> recv_faithful E -> no_parse_body r = false ->
  receives fuel cfg E P t r rh w HTTPSuccess r' w' tr ->
  http_ok (beqb (slice req 0 4) (B "HEAD")) resp -> data_received tr = http_bytes resp ->
  (forall tr1 tr2, tr = tr1 ++ tr2 -> ~ zlen (head_bytes resp) - 4 < zlen (data_received tr1) < zlen (head_bytes resp)) ->
  r_headers r' = option_map (poff buf) (first_header resp) /\ r_headersLen r' = zlen (header_lines resp) /\
  (forall q, r_headers r' = Some q -> bytes_at (w_mem w') q (r_headersLen r') = header_lines resp).
Proof.
  intros fuel cfg E P t r rh buf L req w r' w' tr resp RP HS F ND HR HO DE NC.
  destruct (C70_headers_exact _ _ _ _ _ _ _ _ _ _ _ _ _ _ _ RP HS F ND HR HO DE) as (tr1&p&room&n&d&tr2&TR&HZ&H1&H2&H3). specialize (NC _ _ TR).
  assert (K : Z.max 0 (zlen (data_received tr1) - (zlen (head_bytes resp) - 4)) = 0) by lia.
  split; [exact H1|]. split.
  - rewrite H2. unfold seen_len. destruct (p_headers resp) as [|h hs] eqn:PH; [unfold header_lines; rewrite PH; reflexivity|].
    pose proof (head_split resp ltac:(rewrite PH; discriminate)) as X. pose proof (f_equal zlen X) as ZX. rewrite !zlen_app in ZX. change (zlen CRLF) with 2 in ZX. lia.
  - intros q Q. destruct (H3 q Q) as (k&->&_&X). rewrite K in X. rewrite X. apply app_nil_r.
Qed.
Print Assumptions C70_headers_whole_ending.

(** How long the header lines can seem: at most three bytes too long. *)
Theorem C70_at_most_three_too_many : forall fuel cfg E P t r rh buf L req w r' w' tr resp,
  reads_places P -> recv_setup cfg E P t r rh buf L req w -> recv_faithful E -> no_parse_body r = false ->
  receives fuel cfg E P t r rh w HTTPSuccess r' w' tr ->
  http_ok (beqb (slice req 0 4) (B "HEAD")) resp -> data_received tr = http_bytes resp ->
  zlen (header_lines resp) <= r_headersLen r' <= zlen (header_lines resp) + 3.
Proof.
  intros fuel cfg E P t r rh buf L req w r' w' tr resp RP HS F ND HR HO DE.
  destruct (C70_headers_exact _ _ _ _ _ _ _ _ _ _ _ _ _ _ _ RP HS F ND HR HO DE) as (tr1&p&room&n&d&tr2&TR&HZ&H1&H2&H3). rewrite H2. unfold seen_len.
  destruct (p_headers resp) as [|h hs] eqn:PH; [unfold header_lines; rewrite PH; change (zlen (@nil Z)) with 0; lia|].
  pose proof (head_split resp ltac:(rewrite PH; discriminate)) as X. pose proof (f_equal zlen X) as ZX. rewrite !zlen_app in ZX. change (zlen CRLF) with 2 in ZX. lia.
Qed.
Print Assumptions C70_at_most_three_too_many.

(** The same response, once with its ending in one read and once cut before its last LF. *)
Example C70_case : exists r' w' tr, demo_receives [http_bytes ex_sized] (resp_old 100 0) 100 HTTPSuccess r' w' tr /\ data_received tr = http_bytes ex_sized /\
  http_ok (beqb (slice req1 0 4) (B "HEAD")) ex_sized /\
  r_headers r' = option_map (poff rbuf) (first_header ex_sized) /\ first_header ex_sized <> None /\ r_headersLen r' = zlen (header_lines ex_sized).
Proof. do 3 eexists. split; [demo|]. split; [vm_compute; reflexivity|]. split; [apply ex_sized_ok|]. conj; vm_compute; congruence. Qed.
Example C70_cut_case : exists r' w' tr, demo_receives [slice (http_bytes ex_sized) 0 (zlen (head_bytes ex_sized) - 1); slice (http_bytes ex_sized) (zlen (head_bytes ex_sized) - 1) 100] (resp_old 100 0) 100 HTTPSuccess r' w' tr /\
  data_received tr = http_bytes ex_sized /\ r_headersLen r' = zlen (header_lines ex_sized) + 3.
Proof. do 3 eexists. split; [demo|]. conj; vm_compute; congruence. Qed.
