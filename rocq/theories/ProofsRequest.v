(** ProofsRequest.v — proofs about the request-building functions. *)
From Verif Require Import Base Lib ModelRequest SpecRequest.
From Coq Require Import Arith.

(** ** Legal characters *)
Definition badc (isF : bool) (c : Z) : bool := (c =? CR) || (c =? LF) || (isF && (c =? COLON)).
Definition all_legal (isF : bool) (d : bytes) : bool := forallb (fun c => negb (badc isF c)) d.
Fixpoint lpre (isF : bool) (d : bytes) : bytes :=
  match d with
  | [] => []
  | c :: d' => if badc isF c then [] else c :: lpre isF d'
  end.
Lemma lpre_legal isF d : all_legal isF d = true -> lpre isF d = d.
Proof.
  induction d; simpl; auto. destruct (badc isF a); simpl; [discriminate|]. intros. f_equal; auto.
Qed.
Lemma lpre_len isF d : zlen (lpre isF d) <= zlen d.
Proof. induction d; simpl; [lia|]. destruct (badc isF a); zlia. Qed.

Lemma all_legal_value d : all_legal false d = true <-> legal_value d.
Proof.
  unfold all_legal, legal_value. rewrite forallb_forall. unfold badc. split.
  - intros H. split; intros I; specialize (H _ I); simpl in H; discriminate.
  - intros (H1&H2) x I. destruct (Z.eqb_spec x CR) as [->|]; [tauto|].
    destruct (Z.eqb_spec x LF) as [->|]; [tauto|]. reflexivity.
Qed.
Lemma all_legal_field d : all_legal true d = true <-> legal_field d.
Proof.
  unfold all_legal, legal_field, legal_value. rewrite forallb_forall. unfold badc. split.
  - intros H. repeat split; intros I; specialize (H _ I); simpl in H; discriminate.
  - intros ((H1&H2)&H3) x I. destruct (Z.eqb_spec x CR) as [->|]; [tauto|].
    destruct (Z.eqb_spec x LF) as [->|]; [tauto|]. destruct (Z.eqb_spec x COLON) as [->|]; [tauto|].
    reflexivity.
Qed.

(** ** Reading arguments *)
Definition src_reads (m : mem) (s : src) (i : Z) (d : bytes) : Prop :=
  forall j, 0 <= j < zlen d -> src_byte m s (i + j) = Ret (zn d j).

Lemma arg_reads m s n d : arg m s n d -> src_reads m s 0 d.
Proof.
  intros (L&H) j Hj. destruct s as [|l|p]; [tauto| |]; simpl.
  - destruct H as (H&->). replace (0 <=? j) with true by lia.
    replace (j <? zlen l) with true by lia. simpl. f_equal. rewrite zn_slice by lia. auto.
  - destruct H as (O&->). destruct O as (?&?&?). rewrite load1_ok.
    + unfold bytes_at. simpl. rewrite zn_slice by lia. do 2 f_equal.
    + obj.
Qed.

Lemma src_reads_write m s i d p e :
  src_reads m s i d -> object m p (zlen e) ->
  match s with SAt q => disjoint p (zlen e) (poff q i) (zlen d) | _ => True end ->
  src_reads (write m p e) s i d.
Proof.
  intros H O A j Hj. specialize (H j Hj). destruct s as [|l|q]; auto. simpl in *.
  unfold load1 in *. destruct (in_range m _ 1) eqn:R; [|discriminate].
  apply in_range_iff in R. rewrite in_range_t by (apply object_write; auto).
  simpl in *. inversion H. clear H. f_equal.
  pose proof (same_outside_write m p e O) as (_&_&S).
  destruct R as (R1&R2&R3). simpl in *. fold (zn (blk m (pb q)) (po q + (i + j))).
  fold (zn (blk (write m p e) (pb q)) (po q + (i + j))). symmetry. apply S; [lia|].
  unfold disjoint, poff in A. simpl in A. intros (E&?). destruct A; [congruence|lia].
Qed.

Lemma src_reads_tail m s i c d : src_reads m s i (c :: d) -> src_reads m s (i + 1) d.
Proof.
  intros H j Hj. specialize (H (j + 1)). rewrite zn_cons in H by lia.
  replace (i + 1 + j) with (i + (j + 1)) by lia. rewrite H by zlia. do 2 f_equal. lia.
Qed.

Lemma strncpy_loop_ok isF d : forall m dst s i,
  src_reads m s i d ->
  object m (poff dst i) (zlen d) ->
  match s with SAt q => disjoint (poff dst i) (zlen d) (poff q i) (zlen d) | _ => True end ->
  strncpy_loop m dst s isF (length d) i
  = Ret (all_legal isF d, write m (poff dst i) (lpre isF d)).
Proof.
  induction d as [|c d IH]; intros m dst s i R O A.
  - simpl. rewrite write_nil. auto.
  - simpl length. cbn [strncpy_loop].
    pose proof (R 0) as R0. rewrite zn_cons0, Z.add_0_r in R0. rewrite R0 by zlia. cbn [bind].
    fold (badc isF c). simpl all_legal. simpl lpre.
    destruct (badc isF c) eqn:Bc; cbn [negb andb].
    + rewrite write_nil. auto.
    + assert (O1 : object m (poff dst i) (zlen [c])).
      { obj. }
      fold (poff dst i). rewrite storen_ok by auto. cbn [bind].
      rewrite IH.
      * f_equal. f_equal.
        rewrite (write_adj m (poff dst i)).
        -- reflexivity.
        -- pose proof (lpre_len isF d). obj.
        -- unfold poff; cbn [pb po]; f_equal; zlia.
      * apply src_reads_tail in R. apply src_reads_write; auto.
        destruct s as [| |q]; auto. unfold disjoint, poff in *; cbn [pb po] in *. zlia.
      * apply object_write; auto. obj.
      * destruct s as [| |q]; auto. unfold disjoint, poff in *; cbn [pb po] in *. zlia.
Qed.

Lemma poff_0 p : poff p 0 = p.
Proof. destruct p; unfold poff; simpl. f_equal; lia. Qed.
Lemma poff_poff p a b : poff (poff p a) b = poff p (a + b).
Proof. unfold poff; simpl; f_equal; lia. Qed.

Lemma httpHeaderStrncpy_ok isF m dst s n d :
  arg m s n d -> object m dst n -> arg_apart dst n s n ->
  httpHeaderStrncpy m dst s n isF = Ret (all_legal isF d, write m dst (lpre isF d)).
Proof.
  intros A O Ap. unfold httpHeaderStrncpy.
  pose proof A as (L & A'). assert (is_null s = false) as -> by (destruct s; simpl; auto; tauto).
  cbn [negb assert_at bind].
  replace (Z.to_nat n) with (length d) by (unfold zlen in L; lia).
  rewrite strncpy_loop_ok; rewrite ?poff_0; auto.
  - eapply arg_reads; eauto.
  - rewrite L; auto.
  - destruct s as [| |q]; auto. simpl in Ap. rewrite poff_0, L. auto.
Qed.

(** ** strncmp *)
Fixpoint beqb (a b : bytes) : bool :=
  match a, b with
  | [], [] => true
  | x :: a', y :: b' => (x =? y) && beqb a' b'
  | _, _ => false
  end.
Lemma beqb_eq a b : beqb a b = true <-> a = b.
Proof.
  revert b; induction a; destruct b; simpl; split; intros H; try discriminate; auto.
  - apply andb_true_iff in H as (H1&H2). apply Z.eqb_eq in H1. apply IHa in H2. congruence.
  - inversion H; subst. rewrite Z.eqb_refl. simpl. apply IHa; auto.
Qed.

Lemma strncmp_eq_ok lit : forall m p, object m p (zlen lit) ->
  strncmp_eq m p lit = Ret (beqb (bytes_at m p (zlen lit)) lit).
Proof.
  induction lit as [|c lit IH]; intros m p O; [reflexivity|].
  cbn [strncmp_eq]. destruct O as (?&?&?). zl.
  rewrite load1_ok by (obj). cbn [bind].
  unfold bytes_at. rewrite slice_cons by lia.
  replace (1 + zlen lit - 1) with (zlen lit) by lia. cbn [beqb].
  destruct (_ =? c); cbn [andb]; auto.
  rewrite IH; [reflexivity|]. obj.
Qed.

(** ** addHeader *)
Definition ends4 (m : mem) (buf : ptr) (len : Z) : bool :=
  (4 <=? len) && beqb (bytes_at m (poff buf (len - 4)) 4) HTTP_HEADER_END_INDICATOR.
Definition back (m : mem) (buf : ptr) (len : Z) : Z := if ends4 m buf len then len - 2 else len.

Lemma back_bounds m buf len : 0 <= len -> 0 <= back m buf len <= len.
Proof.
  unfold back, ends4. intros. destruct (Z.leb_spec 4 len); simpl; [|lia].
  destruct (beqb _ _); lia.
Qed.

Lemma arg_not_null m s n d : arg m s n d -> is_null s = false.
Proof. intros (_&H). destruct s; simpl; auto; tauto. Qed.

Lemma arg_same m m' p n s k d :
  arg m s k d -> same_outside m m' p n -> arg_apart p n s k -> arg m' s k d.
Proof.
  intros (L&H) S A. split; auto. destruct s as [| |q]; auto. simpl in A.
  destruct H as (O&->). split.
  - eapply same_outside_object; [|apply O]. apply same_outside_sym; eauto.
  - symmetry. eapply bytes_at_same; eauto.
Qed.

Lemma arg_apart_sub p n q k s l :
  arg_apart p n s l -> pb q = pb p -> po p <= po q -> po q + k <= po p + n -> arg_apart q k s l.
Proof. destruct s as [| |x]; simpl; auto. unfold disjoint. intros. destruct H; [left; congruence|lia]. Qed.

(** The arguments may lie anywhere but in the part of the buffer the call may write: from the
    place where the new line goes to the end. *)
Definition add_ok (cfg : config) (m : mem) (h : reqHeaders) (buf : ptr)
           (field : src) (fl : Z) (value : src) (vl : Z) (f v : bytes) : Prop :=
  let b := back m buf (rh_len h) in
  rh_buf h = Some buf /\ object m buf (rh_bufLen h) /\ 0 <= rh_len h <= rh_bufLen h /\
  arg m field fl f /\ arg m value vl v /\ 0 < fl /\ 0 < vl /\
  arg_apart (poff buf b) (rh_bufLen h - b) field fl /\
  arg_apart (poff buf b) (rh_bufLen h - b) value vl /\
  rh_bufLen h + fl + vl + 6 < SZ cfg.

Lemma add_ok_apart cfg m h buf field fl value vl f v :
  rh_buf h = Some buf -> object m buf (rh_bufLen h) -> 0 <= rh_len h <= rh_bufLen h ->
  arg_for m buf (rh_bufLen h) field fl f -> arg_for m buf (rh_bufLen h) value vl v -> 0 < fl -> 0 < vl ->
  rh_bufLen h + fl + vl + 6 < SZ cfg -> add_ok cfg m h buf field fl value vl f v.
Proof.
  intros Hb O L (Af&Df) (Av&Dv) Pf Pv W. pose proof (back_bounds m buf (rh_len h) ltac:(lia)).
  unfold add_ok. cbv zeta. split; [exact Hb|]. split; [exact O|]. split; [exact L|]. split; [exact Af|]. split; [exact Av|].
  split; [lia|]. split; [lia|].
  split; [eapply arg_apart_sub; [exact Df| | |]; cbn [poff pb po]; lia|].
  split; [eapply arg_apart_sub; [exact Dv| | |]; cbn [poff pb po]; lia|lia].
Qed.

Lemma addHeader_ok cfg m h buf field fl value vl f v :
  add_ok cfg m h buf field fl value vl f v ->
  let b := back m buf (rh_len h) in
  addHeader cfg m h field fl value vl =
    if b + fl + vl + 6 <=? rh_bufLen h then
      if negb (all_legal true f) then
        Ret (HTTPSecurityAlertInvalidCharacter, h, write m (poff buf b) (lpre true f))
      else if negb (all_legal false v) then
        Ret (HTTPSecurityAlertInvalidCharacter, h,
             write m (poff buf b) (f ++ HTTP_HEADER_FIELD_SEPARATOR ++ lpre false v))
      else
        Ret (HTTPSuccess, set_rh_len h (b + fl + vl + 6),
             write m (poff buf b) (f ++ HTTP_HEADER_FIELD_SEPARATOR ++ v ++ HTTP_HEADER_END_INDICATOR))
    else Ret (HTTPInsufficientMemory, h, m).
Proof.
  intros (Hb & O & L & Af & Av & Pf & Pv & Df & Dv & W) b.
  assert (H2 : zlen HTTP_HEADER_FIELD_SEPARATOR = 2) by reflexivity.
  assert (H4 : zlen HTTP_HEADER_END_INDICATOR = 4) by reflexivity.
  unfold addHeader. rewrite Hb.
  rewrite (arg_not_null _ _ _ _ Af), (arg_not_null _ _ _ _ Av).
  replace (fl =? 0) with false by lia. replace (vl =? 0) with false by lia.
  cbn [negb assert_at bind].
  pose proof O as (O1&O2&O3).
  rewrite padd_ok by lia. cbn [bind].
  assert (E :
    (if 4 <=? rh_len h
     then
      q <- padd m (poff buf (rh_len h)) (-4);;
      b0 <- strncmp_eq m q HTTP_HEADER_END_INDICATOR;;
      (if b0 then c <- padd m (poff buf (rh_len h)) (-2);; Ret (c, rh_len h - 2)
             else Ret (poff buf (rh_len h), rh_len h))
     else Ret (poff buf (rh_len h), rh_len h)) = Ret (poff buf b, b)).
  { unfold b, back, ends4. destruct (Z.leb_spec 4 (rh_len h)); simpl andb.
    - rewrite padd_ok by (simpl; lia). cbn [bind]. rewrite poff_poff.
      rewrite strncmp_eq_ok by (obj). cbn [bind].
      change (zlen HTTP_HEADER_END_INDICATOR) with 4.
      replace (rh_len h + -4) with (rh_len h - 4) by lia.
      destruct (beqb _ _); auto.
      rewrite padd_ok by (simpl; lia). cbn [bind]. rewrite poff_poff. reflexivity.
    - reflexivity. }
  rewrite E. cbn [bind]. clear E.
  pose proof (back_bounds m buf (rh_len h) ltac:(lia)) as Hbk. fold b in Hbk.
  rewrite (Z.mod_small (fl + 2 + vl + 2 + 2)) by lia.
  rewrite (Z.mod_small (b + _)) by lia.
  replace (b + (fl + 2 + vl + 2 + 2)) with (b + fl + vl + 6) by lia.
  destruct (Z.leb_spec (b + fl + vl + 6) (rh_bufLen h)) as [Fit|]; [|reflexivity].
  pose proof Af as (Lf&_). pose proof Av as (Lv&_).
  rewrite (httpHeaderStrncpy_ok true m (poff buf b) field fl f); auto.
  2:{ obj. }
  2:{ eapply arg_apart_sub; eauto; simpl; lia. }
  cbn [bind]. destruct (all_legal true f) eqn:Lgf; cbn [negb]; [|reflexivity].
  rewrite lpre_legal by auto.
  assert (Of : object m (poff buf b) (zlen f)) by (obj).
  rewrite padd_ok by (rewrite zlen_blk_write by auto; cbn [poff pb po]; lia). cbn [bind].
  unfold memcpy at 1. cbn [overlaps src_bytes bind].
  change ((0 <=? 2) && (2 <=? zlen HTTP_HEADER_FIELD_SEPARATOR)) with true. cbv iota. cbn [bind].
  change (slice HTTP_HEADER_FIELD_SEPARATOR 0 2) with HTTP_HEADER_FIELD_SEPARATOR.
  rewrite storen_ok by (apply object_write; auto; obj).
  cbn [bind]. rewrite (write_adj m (poff buf b)).
  2:{ obj. }
  2:{ f_equal; lia. }
  set (f2 := f ++ HTTP_HEADER_FIELD_SEPARATOR).
  assert (Lf2 : zlen f2 = fl + 2) by (unfold f2; rewrite zlen_app; lia).
  assert (Of2 : object m (poff buf b) (zlen f2)) by (obj).
  rewrite padd_ok by (rewrite zlen_blk_write by auto; cbn [poff pb po]; lia). cbn [bind].
  rewrite !poff_poff.
  rewrite (httpHeaderStrncpy_ok false _ _ value vl v).
  2:{ eapply arg_same; [exact Av| |].
      - apply same_outside_write; exact Of2.
      - eapply arg_apart_sub; eauto; simpl; lia. }
  2:{ apply object_write; auto. obj. }
  2:{ eapply arg_apart_sub; eauto; simpl; lia. }
  cbn [bind].
  pose proof (lpre_len false v) as Lpv.
  rewrite (write_adj m (poff buf b)).
  2:{ obj. }
  2:{ rewrite poff_poff. f_equal. lia. }
  unfold f2. rewrite <- !app_assoc.
  destruct (all_legal false v) eqn:Lgv; cbn [negb]; [|reflexivity].
  rewrite lpre_legal by auto.
  set (f3 := f ++ HTTP_HEADER_FIELD_SEPARATOR ++ v).
  assert (Lf3 : zlen f3 = fl + 2 + vl) by (unfold f3; rewrite !zlen_app; lia).
  assert (Of3 : object m (poff buf b) (zlen f3)) by (obj).
  rewrite padd_ok by (rewrite zlen_blk_write by auto; cbn [poff pb po]; lia). cbn [bind].
  unfold memcpy. cbn [overlaps src_bytes bind].
  change ((0 <=? 4) && (4 <=? zlen HTTP_HEADER_END_INDICATOR)) with true. cbv iota. cbn [bind].
  change (slice HTTP_HEADER_END_INDICATOR 0 4) with HTTP_HEADER_END_INDICATOR.
  rewrite storen_ok by (apply object_write; auto; obj).
  cbn [bind]. rewrite (write_adj m (poff buf b)).
  2:{ obj. }
  2:{ rewrite !poff_poff. f_equal. lia. }
  unfold f3. rewrite <- !app_assoc. reflexivity.
Qed.

(** ** memcpy and the request line *)
Lemma memcpy_ok m dst s n d :
  arg m s n d -> object m dst n -> arg_apart dst n s n -> memcpy m dst s n = Ret (write m dst d).
Proof.
  intros (L&A) O Ap. unfold memcpy.
  assert (overlaps dst s n = false) as ->.
  { destruct s as [| |q]; auto. simpl in *. destruct (Nat.eqb_spec (pb dst) (pb q)); simpl; auto.
    destruct (Z.ltb_spec 0 n); simpl; auto. unfold disjoint in Ap.
    destruct (Z.ltb_spec (po dst) (po q + n)); simpl; auto.
    destruct (Z.ltb_spec (po q) (po dst + n)); simpl; auto. destruct Ap; [tauto|lia]. }
  assert (src_bytes m s n = Ret d) as ->.
  { destruct s as [|l|q]; [tauto| |]; simpl.
    - destruct A as (A&->). destruct O as (?&_&_). replace (0 <=? n) with true by lia.
      replace (n <=? zlen l) with true by lia. auto.
    - destruct A as (A&->). apply loadn_ok; auto. }
  cbn [bind]. apply storen_ok. rewrite L; auto.
Qed.

Lemma arg_lit m l : arg m (SLit l) (zlen l) l.
Proof. split; auto. split; [lia|]. rewrite slice_all; auto. Qed.

Lemma writeRequestLine_ok cfg m h buf method ml path pl me p :
  rh_buf h = Some buf -> object m buf (rh_bufLen h) -> 0 <= rh_len h ->
  arg m method ml me -> 0 < ml -> arg_apart buf (rh_bufLen h) method ml ->
  path_arg m path pl p -> 0 <= pl -> arg_apart buf (rh_bufLen h) path pl ->
  ml + pl + 13 + rh_len h < SZ cfg ->
  writeRequestLine cfg m h method ml path pl =
    if rh_bufLen h <? zlen (request_line me p) + rh_len h then Ret (HTTPInsufficientMemory, h, m)
    else Ret (HTTPSuccess, set_rh_len h (zlen (request_line me p)), write m buf (request_line me p)).
Proof.
  intros Hb O Hl Am Pm Dm Pp Hpl Dp W.
  unfold writeRequestLine. rewrite Hb. rewrite (arg_not_null _ _ _ _ Am).
  replace (ml =? 0) with false by lia. cbn [negb assert_at bind].
  set (noPath := is_null path || (pl =? 0)).
  pose proof Am as (Lm&_).
  assert (HP : exists ps pn, arg m ps pn p /\ arg_apart buf (rh_bufLen h) ps pn /\ 0 < pn <= pl + 1 /\
     (if noPath then zlen HTTP_EMPTY_PATH else pl) = pn /\
     (forall m2 c2, (if noPath
         then m3 <- memcpy m2 c2 (SLit HTTP_EMPTY_PATH) (zlen HTTP_EMPTY_PATH);;
              c3 <- padd m3 c2 (zlen HTTP_EMPTY_PATH);; Ret (m3, c3)
         else m3 <- memcpy m2 c2 path pl;; c3 <- padd m3 c2 pl;; Ret (m3, c3)) =
       (m3 <- memcpy m2 c2 ps pn ;; c3 <- padd m3 c2 pn ;; Ret (m3, c3)))).
  { destruct Pp as [(N&->)|(N1&N2&A)].
    - exists (SLit HTTP_EMPTY_PATH), (zlen HTTP_EMPTY_PATH).
      assert (noPath = true) as -> by
        (unfold noPath; destruct N as [->| ->]; simpl; auto; rewrite orb_true_r; auto).
      split; [apply arg_lit|]. split; [exact I|]. split; [change (zlen HTTP_EMPTY_PATH) with 1; lia|].
      split; auto.
    - exists path, pl. assert (noPath = false) as ->.
      { unfold noPath. destruct path; simpl; try congruence; lia. }
      split; [auto|]. split; [auto|]. split; [lia|]. split; auto. }
  destruct HP as (ps & pn & Ap & Dps & Hpn & -> & HP).
  pose proof Ap as (Lp&_).
  assert (LV : zlen HTTP_PROTOCOL_VERSION = 8) by reflexivity. rewrite LV.
  assert (LL : zlen HTTP_HEADER_LINE_SEPARATOR = 2) by reflexivity.
  assert (LR : zlen (request_line me p) = ml + pn + 12).
  { unfold request_line. rewrite !zlen_app. change (zlen (B " ")) with 1.
    change (zlen (B " HTTP/1.1")) with 9. change (zlen CRLF) with 2. lia. }
  rewrite (Z.mod_small (ml + 1 + 1 + 8 + 2 + pn)) by lia.
  rewrite Z.mod_small by lia. rewrite LR.
  replace (ml + 1 + 1 + 8 + 2 + pn) with (ml + pn + 12) by lia.
  destruct (Z.ltb_spec (rh_bufLen h) (ml + pn + 12 + rh_len h)) as [|Fit]; auto.
  assert (O1 : object m buf (ml + pn + 12)) by obj.
  rewrite (memcpy_ok m buf method ml me); auto; [|obj|eapply arg_apart_sub; eauto; lia].
  cbn [bind].
  assert (Om : object m buf (zlen me)) by obj.
  rewrite padd_ok by (rewrite zlen_blk_write by auto; obj). cbn [bind].
  rewrite storen_ok by (apply object_write; auto; change (zlen [SPACE]) with 1; obj). cbn [bind].
  rewrite (write_adj m buf); [|change (zlen [SPACE]) with 1; obj|f_equal; lia].
  set (d1 := me ++ [SPACE]).
  assert (L1 : zlen d1 = ml + 1) by (unfold d1; zlia).
  assert (Od1 : object m buf (zlen d1)) by obj.
  rewrite padd_ok by (rewrite zlen_blk_write by auto; obj). cbn [bind]. rewrite poff_poff.
  rewrite HP.
  rewrite (memcpy_ok _ _ ps pn p).
  2:{ eapply arg_same; [exact Ap|apply same_outside_write; exact Od1|].
      eapply arg_apart_sub; eauto; obj. }
  2:{ apply object_write; auto. obj. }
  2:{ eapply arg_apart_sub; eauto; obj. }
  cbn [bind].
  rewrite (write_adj m buf); [|obj|f_equal; lia].
  set (d2 := d1 ++ p). assert (L2 : zlen d2 = ml + 1 + pn) by (unfold d2; zlia).
  assert (Od2 : object m buf (zlen d2)) by obj.
  rewrite padd_ok by (rewrite zlen_blk_write by auto; obj). cbn [bind]. rewrite poff_poff.
  rewrite storen_ok by (apply object_write; auto; change (zlen [SPACE]) with 1; obj). cbn [bind].
  rewrite (write_adj m buf); [|change (zlen [SPACE]) with 1; obj|f_equal; lia].
  set (d3 := d2 ++ [SPACE]). assert (L3 : zlen d3 = ml + 1 + pn + 1) by (unfold d3; zlia).
  assert (Od3 : object m buf (zlen d3)) by obj.
  rewrite padd_ok by (rewrite zlen_blk_write by auto; obj). cbn [bind]. rewrite poff_poff.
  rewrite (memcpy_ok _ _ _ _ HTTP_PROTOCOL_VERSION).
  2:{ apply arg_lit. }
  2:{ apply object_write; auto. obj. }
  2:{ exact I. }
  cbn [bind]. rewrite (write_adj m buf); [|obj|f_equal; lia].
  set (d4 := d3 ++ HTTP_PROTOCOL_VERSION).
  assert (L4 : zlen d4 = ml + 1 + pn + 1 + 8) by (unfold d4; rewrite zlen_app; lia).
  assert (Od4 : object m buf (zlen d4)) by obj.
  rewrite padd_ok by (rewrite zlen_blk_write by auto; obj). cbn [bind]. rewrite poff_poff.
  rewrite (memcpy_ok _ _ _ _ HTTP_HEADER_LINE_SEPARATOR).
  2:{ apply arg_lit. }
  2:{ apply object_write; auto. obj. }
  2:{ exact I. }
  cbn [bind]. rewrite (write_adj m buf); [|obj|f_equal; lia].
  do 2 f_equal.
  unfold d4, d3, d2, d1, request_line. rewrite <- !app_assoc. reflexivity.
Qed.

(** ** Requests as byte strings *)
Lemma opened_blank x o : opened (x ++ CRLF ++ CRLF) o -> o = x ++ CRLF.
Proof.
  intros [(pre&E&->)|(N&_)].
  - apply app_inv_tail in E. congruence.
  - exfalso; apply N. exists x; auto.
Qed.
Lemma opened_fun r o o' : opened r o -> opened r o' -> o = o'.
Proof.
  intros [(pre&E&->)|(N&->)].
  - subst r. intros H. apply opened_blank in H. auto.
  - intros [(pre&E&_)|(_&->)]; auto. exfalso; apply N; exists pre; auto.
Qed.

Lemma opened_at m buf len : 0 <= po buf -> 0 <= len -> po buf + len <= zlen (blk m (pb buf)) ->
  opened (bytes_at m buf len) (bytes_at m buf (back m buf len)).
Proof.
  intros Hp Hl Hb. unfold back.
  destruct (ends4 m buf len) eqn:E4.
  - unfold ends4 in E4. apply andb_true_iff in E4 as (E1&E2). apply Z.leb_le in E1.
    apply beqb_eq in E2. left. exists (bytes_at m buf (len - 4)).
    assert (X2 : bytes_at m (poff buf (len - 4)) 2 = CRLF).
    { unfold bytes_at in *. cbn [poff pb po] in *.
      replace 4 with (2 + 2) in E2 at 2 by lia. rewrite slice_app in E2 by lia.
      change HTTP_HEADER_END_INDICATOR with (CRLF ++ CRLF) in E2.
      apply (f_equal (firstn 2)) in E2. rewrite firstn_app in E2.
      assert (L : length (slice (blk m (pb buf)) (po buf + (len - 4)) 2) = 2%nat).
      { pose proof (slice_len (blk m (pb buf)) (po buf + (len - 4)) 2). unfold zlen in *. lia. }
      rewrite L in E2. rewrite Nat.sub_diag in E2. simpl firstn at 2 in E2. rewrite app_nil_r in E2.
      rewrite firstn_all2 in E2 by lia. rewrite E2. reflexivity. }
    split.
    + replace len with ((len - 4) + 4) at 1 by lia. rewrite bytes_at_app by lia. rewrite E2. reflexivity.
    + replace (len - 2) with ((len - 4) + 2) by lia. rewrite bytes_at_app by lia. rewrite X2. reflexivity.
  - right. split; auto. intros (pre&E).
    assert (L : zlen (bytes_at m buf len) = len) by (apply slice_len; lia).
    rewrite E, !zlen_app in L. change (zlen CRLF) with 2 in L. zl.
    unfold ends4 in E4. replace (4 <=? len) with true in E4 by lia. simpl in E4.
    assert (beqb (bytes_at m (poff buf (len - 4)) 4) HTTP_HEADER_END_INDICATOR = true); [|congruence].
    apply beqb_eq. replace len with ((len - 4) + 4) in E by lia. rewrite bytes_at_app in E by lia.
    assert (L' : length (bytes_at m buf (len - 4)) = length pre).
    { assert (zlen (bytes_at m buf (len - 4)) = len - 4) by (apply slice_len; lia).
      unfold zlen in *. lia. }
    assert (X : forall (a b c d : bytes), length a = length c -> a ++ b = c ++ d -> b = d).
    { induction a as [|x a IHa]; intros b [|y c] d Hlen Heq; simpl in *; try discriminate; auto.
      injection Heq as _ Heq. eapply IHa; [|exact Heq]. lia. }
    eapply X in E; auto.
Qed.

Lemma same_outside_bytes m m' p n buf k :
  same_outside m m' (poff buf k) n -> 0 <= k -> object m buf k -> p = buf ->
  bytes_at m' p k = bytes_at m p k.
Proof.
  intros S Hk O ->. eapply bytes_at_same; eauto. right. right. cbn [poff po]. lia.
Qed.

Lemma addHeader_holds_at cfg m h buf bufLen req field fl value vl f v :
  holds m h buf bufLen req ->
  arg m field fl f -> arg m value vl v -> 0 < fl -> 0 < vl ->
  (let b := back m buf (rh_len h) in
   arg_apart (poff buf b) (bufLen - b) field fl /\ arg_apart (poff buf b) (bufLen - b) value vl) ->
  bufLen + fl + vl + 6 < SZ cfg ->
  exists o, opened req o /\ zlen o <= zlen req /\
    ((bufLen < zlen o + fl + vl + 6 /\
      addHeader cfg m h field fl value vl = Ret (HTTPInsufficientMemory, h, m)) \/
     (zlen o + fl + vl + 6 <= bufLen /\ ~ (legal_field f /\ legal_value v) /\
      exists m', addHeader cfg m h field fl value vl = Ret (HTTPSecurityAlertInvalidCharacter, h, m') /\
                 same_outside m m' (poff buf (zlen o)) (fl + vl + 2)) \/
     (zlen o + fl + vl + 6 <= bufLen /\ legal_field f /\ legal_value v /\
      exists h' m', addHeader cfg m h field fl value vl = Ret (HTTPSuccess, h', m') /\
        holds m' h' buf bufLen (o ++ header_line f v ++ CRLF) /\
        same_outside m m' (poff buf (zlen o)) (fl + vl + 6))).
Proof.
  intros (Hb&HB&O&Hl&->) Af Av Pf Pv (Df&Dv) W. subst bufLen.
  exists (bytes_at m buf (back m buf (rh_len h))).
  pose proof O as (O1&O2&O3).
  pose proof (back_bounds m buf (rh_len h) ltac:(lia)) as Hbk.
  assert (OP : opened (bytes_at m buf (rh_len h)) (bytes_at m buf (back m buf (rh_len h))))
    by (apply opened_at; lia).
  split; [exact OP|].
  set (b := back m buf (rh_len h)) in *.
  assert (Lb : zlen (bytes_at m buf b) = b) by (apply slice_len; lia). rewrite Lb.
  split. { rewrite bytes_at_len by obj. lia. }
  pose proof (addHeader_ok cfg m h buf field fl value vl f v) as H.
  cbv zeta in H. fold b in H. rewrite H by (repeat (split; auto)); clear H.
  pose proof Af as (Lf&_). pose proof Av as (Lv&_).
  pose proof (lpre_len true f). pose proof (lpre_len false v).
  destruct (Z.leb_spec (b + fl + vl + 6) (rh_bufLen h)) as [Fit|]; [|left; split; [lia|auto]].
  right.
  destruct (all_legal true f) eqn:Ef; cbn [negb].
  2:{ left. split; [lia|]. split.
      { intros (X&_). apply all_legal_field in X. congruence. }
      eexists; split; [reflexivity|].
      eapply same_outside_weaken; [apply same_outside_write; obj| | |]; cbn [poff pb po]; zlia. }
  destruct (all_legal false v) eqn:Ev; cbn [negb].
  2:{ left. split; [lia|]. split.
      { intros (_&X). apply all_legal_value in X. congruence. }
      assert (H2 : zlen HTTP_HEADER_FIELD_SEPARATOR = 2) by reflexivity.
      eexists; split; [reflexivity|].
      eapply same_outside_weaken; [apply same_outside_write; obj| | |]; cbn [poff pb po]; zlia. }
  right. split; [lia|]. split; [apply all_legal_field; auto|]. split; [apply all_legal_value; auto|].
  assert (E : f ++ HTTP_HEADER_FIELD_SEPARATOR ++ v ++ HTTP_HEADER_END_INDICATOR
              = header_line f v ++ CRLF).
  { unfold header_line. rewrite <- !app_assoc. reflexivity. }
  rewrite E. set (d := header_line f v ++ CRLF).
  assert (Ld : zlen d = fl + vl + 6).
  { unfold d, header_line. rewrite !zlen_app. change (zlen (B ": ")) with 2.
    change (zlen CRLF) with 2. lia. }
  assert (Od : object m (poff buf b) (zlen d)) by obj.
  eexists _, _; split; [reflexivity|]. split.
  - split; [auto|]. split; [auto|]. split; [apply object_write; auto|].
    cbn [set_rh_len rh_len]. split; [lia|].
    replace (b + fl + vl + 6) with (b + zlen d) by lia.
    rewrite bytes_at_app by lia. f_equal.
    + symmetry. eapply (same_outside_bytes m _ buf (zlen d) buf b); auto; [|lia|obj].
      apply same_outside_write; auto.
    + symmetry. apply bytes_at_write_same; auto.
  - rewrite <- Ld. apply same_outside_write; auto.
Qed.
Lemma addHeader_holds cfg m h buf bufLen req field fl value vl f v :
  holds m h buf bufLen req ->
  arg_for m buf bufLen field fl f -> arg_for m buf bufLen value vl v -> 0 < fl -> 0 < vl ->
  bufLen + fl + vl + 6 < SZ cfg ->
  exists o, opened req o /\ zlen o <= zlen req /\
    ((bufLen < zlen o + fl + vl + 6 /\
      addHeader cfg m h field fl value vl = Ret (HTTPInsufficientMemory, h, m)) \/
     (zlen o + fl + vl + 6 <= bufLen /\ ~ (legal_field f /\ legal_value v) /\
      exists m', addHeader cfg m h field fl value vl = Ret (HTTPSecurityAlertInvalidCharacter, h, m') /\
                 same_outside m m' (poff buf (zlen o)) (fl + vl + 2)) \/
     (zlen o + fl + vl + 6 <= bufLen /\ legal_field f /\ legal_value v /\
      exists h' m', addHeader cfg m h field fl value vl = Ret (HTTPSuccess, h', m') /\
        holds m' h' buf bufLen (o ++ header_line f v ++ CRLF) /\
        same_outside m m' (poff buf (zlen o)) (fl + vl + 6))).
Proof.
  intros H (Af&Df) (Av&Dv) Pf Pv W.
  apply addHeader_holds_at; auto. destruct H as (_&_&_&HL&_).
  pose proof (back_bounds m buf (rh_len h) ltac:(lia)). cbv zeta.
  split; (eapply arg_apart_sub; [eassumption| | |]; cbn [poff pb po]; lia).
Qed.
