(** ProofsReadHeader.v — the search of HTTPClient_ReadHeader, for any parser that keeps its contract. *)
From Verif Require Import Base Lib ModelRequest ModelSend ModelResponse ModelReadHeader SpecRequest SpecSend SpecResponse SpecReadHeader.

Lemma upper_fold c : upper c = fold_case c.
Proof. reflexivity. Qed.

(** ** Reading the two names *)
Definition name_at (m : mem) (s : src) (n : Z) (d : bytes) : Prop := src_bytes m s n = Ret d.
Lemma src_byte_ok m s n d i : src_bytes m s n = Ret d -> 0 <= i < n -> src_byte m s i = Ret (zn d i).
Proof.
  destruct s as [|l|p]; cbn [src_bytes src_byte]; intros H Hi; [discriminate| |].
  - destruct ((0 <=? n) && (n <=? zlen l)) eqn:E; [|discriminate]. injection H as <-.
    replace ((0 <=? i) && (i <? zlen l)) with true by lia. f_equal. rewrite zn_slice by lia. reflexivity.
  - unfold loadn in H. destruct (in_range m p n) eqn:E; [|discriminate]. injection H as <-. apply in_range_iff in E.
    unfold object in E. rewrite load1_ok by (unfold object; cbn; lia). cbn [pb po]. rewrite zn_slice by lia. reflexivity.
Qed.
Lemma src_len m s n d : src_bytes m s n = Ret d -> zlen d = n.
Proof.
  destruct s as [|l|p]; cbn [src_bytes]; intros H; [discriminate| |].
  - destruct ((0 <=? n) && (n <=? zlen l)) eqn:E; [|discriminate]. injection H as <-. apply slice_len; lia.
  - unfold loadn in H. destruct (in_range m p n) eqn:E; [|discriminate]. injection H as <-. apply in_range_iff in E.
    apply bytes_at_len. auto.
Qed.

Lemma fold_snoc_eq (a b : bytes) : map fold_case a = map fold_case b <-> zlen a = zlen b /\ forall i, 0 <= i < zlen a -> fold_case (zn a i) = fold_case (zn b i).
Proof.
  revert b. induction a as [|x a IH]; intros [|y b]; rewrite ?zlen_cons, ?zlen_nil; cbn [map].
  - split; intros; [split; [auto|lia]|auto].
  - pose proof (zlen_nonneg b). split; [discriminate|lia].
  - pose proof (zlen_nonneg a). split; [discriminate|lia].
  - pose proof (zlen_nonneg a). pose proof (zlen_nonneg b). split.
    + intros H'. injection H' as H1 H2. apply IH in H2. destruct H2 as (L&Q). split; [lia|].
      intros i Hi. destruct (Z.eq_dec i 0) as [->|]; [rewrite !zn_cons0; auto|]. rewrite !zn_cons by lia. apply Q. lia.
    + intros (L&Q). f_equal; [specialize (Q 0 ltac:(lia)); rewrite !zn_cons0 in Q; auto|]. apply IH. split; [lia|].
      intros i Hi. specialize (Q (i + 1) ltac:(lia)). rewrite !zn_cons in Q by lia. replace (i + 1 - 1) with i in Q by lia. auto.
Qed.

Lemma ci_loop_ok m s p n a b : src_bytes m s n = Ret a -> object m p n -> b = bytes_at m p n ->
  forall k i, 0 <= i -> i + Z.of_nat k = n ->
  exists r, ci_loop m s p k i = Ret r /\ (r = true <-> forall j, i <= j < n -> fold_case (zn a j) = fold_case (zn b j)).
Proof.
  intros HA HB ->. pose proof HB as HB'. unfold object in HB'.
  induction k as [|k IH]; intros i Hi Hk; cbn [ci_loop].
  - exists true. split; [auto|]. split; [lia|auto].
  - rewrite (src_byte_ok _ _ _ _ i HA) by lia. cbn [bind].
    rewrite load1_ok by (unfold object; cbn [pb po]; lia). cbn [bind pb po]. change upper with fold_case.
    assert (Q : zn (blk m (pb p)) (po p + i) = zn (bytes_at m p n) i) by (unfold bytes_at; rewrite zn_slice by lia; auto).
    rewrite Q. destruct (Z.eqb_spec (fold_case (zn a i)) (fold_case (zn (bytes_at m p n) i))) as [E|E].
    + destruct (IH (i + 1)) as (r&R1&R2); [lia|lia|]. exists r. split; [auto|]. rewrite R2. split; intros H j Hj.
      * destruct (Z.eq_dec j i) as [->|]; auto. apply H; lia.
      * apply H; lia.
    + exists false. split; [auto|]. split; [discriminate|]. intros H. exfalso. apply E, H. lia.
Qed.
Lemma compare_ok m s p n a : src_bytes m s n = Ret a -> object m p n ->
  exists r, caseInsensitiveStringCmp m s p n = Ret r /\ (r = true <-> same_name a (bytes_at m p n)).
Proof.
  intros HA HB. unfold caseInsensitiveStringCmp. pose proof (src_len _ _ _ _ HA) as LA. pose proof (bytes_at_len _ _ _ HB) as LB.
  unfold object in HB. pose proof (zlen_nonneg a).
  destruct (ci_loop_ok m s p n a _ HA HB eq_refl (Z.to_nat n) 0) as (r&R1&R2); [lia|lia|].
  exists r. split; [auto|]. rewrite R2. unfold same_name. rewrite fold_snoc_eq, LA, LB. intuition lia.
Qed.

(** The name callback (with the length comparison). *)
Lemma field_ok m field n name x loc len : f_field x = field -> f_fieldLen x = n -> src_bytes m field n = Ret name -> 0 < n ->
  f_fieldFound x = false -> f_valueFound x = false -> 0 < len -> object m loc len ->
  exists b, findHeaderField m x loc len = Ret (CbContinue, mkfctx field n b false (f_out x)) /\
    (b = true <-> same_name name (bytes_at m loc len)).
Proof.
  intros F1 F2 HA Hn F3 F4 Hl HB. unfold findHeaderField. rewrite F1, F2, F3, F4.
  replace (0 <? len) with true by lia. replace (0 <? n) with true by lia.
  assert (N : is_null field = false) by (destruct field; [discriminate| |]; reflexivity). rewrite N. cbn [assert_at bind negb].
  pose proof (src_len _ _ _ _ HA) as LA. pose proof (bytes_at_len _ _ _ HB) as LB.
  destruct (Z.eqb_spec len n) as [->|E].
  - destruct (compare_ok _ _ _ _ _ HA HB) as (r&R1&R2). rewrite R1. cbn [bind]. exists r. split; [|auto].
    destruct r; [auto|]. destruct x; cbn in *; subst; auto.
  - cbn [bind]. exists false. split; [destruct x; cbn in *; subst; auto|].
    split; [discriminate|]. unfold same_name. rewrite fold_snoc_eq. lia.
Qed.

(** ** The search *)
Definition answer (ev : pevent) : cbret := match ev with EvHeadersComplete _ _ _ _ => CbNoBody | _ => CbContinue end.

Definition found_first (d name : bytes) (buf : ptr) (evs : list pevent) (out : option (option ptr * Z)) : Prop :=
  exists a o l vo vl b, evs = a ++ EvField o l :: EvValue vo vl :: b /\ same_name name (slice d o l) /\ no_such d name a /\
    out = Some (value_at buf vo vl).
Definition found_half (d name : bytes) (evs : list pevent) : Prop :=
  exists a o l, evs = a ++ [EvField o l] /\ same_name name (slice d o l) /\ no_such d name a.

Definition whole_evs (evs : list pevent) : Prop := forall a o l b, evs = a ++ EvField o l :: b ->
    0 < l /\ (b = [] \/ exists vo vl b', b = EvValue vo vl :: b').
Lemma whole_tl e evs : whole_evs (e :: evs) -> whole_evs evs.
Proof. intros H a o l b E. apply (H (e :: a) o l b). rewrite E. auto. Qed.

Lemma no_such_cons d name e evs : (forall o l, e = EvField o l -> ~ same_name name (slice d o l)) -> no_such d name evs -> no_such d name (e :: evs).
Proof. intros H1 H2 o l [E|E]; [apply H1; auto|apply H2; auto]. Qed.
Lemma found_cons d name buf e evs out : (forall o l, e = EvField o l -> ~ same_name name (slice d o l)) ->
  found_first d name buf evs out -> found_first d name buf (e :: evs) out.
Proof.
  intros H (a&o&l&vo&vl&b&->&H1&H2&H3). exists (e :: a), o, l, vo, vl, b. split; [auto|]. split; [auto|]. split; [apply no_such_cons; auto|auto].
Qed.
Lemma half_cons d name e evs : (forall o l, e = EvField o l -> ~ same_name name (slice d o l)) ->
  found_half d name evs -> found_half d name (e :: evs).
Proof. intros H (a&o&l&->&H1&H2). exists (e :: a), o, l. split; [auto|]. split; [auto|]. apply no_such_cons; auto. Qed.

Definition outcome (d name : bytes) (buf : ptr) (evs : list pevent) (e e' : errno) (x : fctx) : Prop :=
  (f_fieldFound x = true /\ f_valueFound x = true /\ e' = HPE_USER /\ found_first d name buf evs (f_out x)) \/
  (f_fieldFound x = false /\ f_valueFound x = false /\ e' = e /\ f_out x = None /\ no_such d name evs) \/
  (f_fieldFound x = true /\ f_valueFound x = false /\ f_out x = None /\ found_half d name evs).
Lemma outcome_cons d name buf ev evs e e' x : (forall o l, ev = EvField o l -> ~ same_name name (slice d o l)) ->
  outcome d name buf evs e e' x -> outcome d name buf (ev :: evs) e e' x.
Proof.
  intros H [(A&B&C&D)|[(A&B&C&D&F)|(A&B&C&D)]].
  - left. repeat split; auto. apply found_cons; auto.
  - right. left. repeat split; auto. apply no_such_cons; auto.
  - right. right. repeat split; auto. apply half_cons; auto.
Qed.

Lemma find_ok {S} (R : S -> phase -> Prop) m buf L d field n name :
  object m buf L -> d = bytes_at m buf L -> src_bytes m field n = Ret name -> 0 < n ->
  forall (t : ptree S) ph pos evs e, 0 <= pos -> conforms R L ph pos t -> reports t = (evs, e) -> whole_evs evs ->
  exists e' x, find_tree m buf t (mkfctx field n false false None) = Ret (e', x) /\ outcome d name buf evs e e' x.
Proof.
  intros HB -> HA Hn.
  assert (NN : is_null field = false) by (destruct field; [discriminate| |]; reflexivity).
  assert (NL : 0 <? n = true) by lia.
  induction t as [e0 s0|ev k IH]; intros ph pos evs e Hp C RP W.
  - cbn in RP. injection RP as <- <-. exists e0, (mkfctx field n false false None). split; [auto|].
    right. left. cbn. repeat split; auto. intros o l [].
  - cbn [reports] in RP. destruct (reports (k (answer ev))) as [evs1 e1] eqn:RP1. unfold answer in RP1. rewrite RP1 in RP. injection RP as <- <-.
    destruct C as (EO&C). destruct (C (answer ev) ltac:(destruct ev; cbn; auto)) as (ph'&NP&CC).
    assert (P1 : 0 <= ev_end pos ev) by (destruct ev; cbn [ev_ok ev_end] in *; lia).
    assert (OTHER : (forall o l, ev <> EvField o l) -> (find_callback m buf ev (mkfctx field n false false None) = Ret (answer ev, mkfctx field n false false None)) ->
      exists e' x, find_tree m buf (PEmit ev k) (mkfctx field n false false None) = Ret (e', x) /\ outcome (bytes_at m buf L) name buf (ev :: evs1) e1 e' x).
    { intros NF FC. cbn [find_tree]. rewrite FC. cbn [bind].
      destruct (IH (answer ev) ph' _ evs1 e1 P1 CC RP1 (whole_tl _ _ W)) as (e'&x&F&O). exists e', x. split.
      - destruct ev; cbn [answer] in *; exact F.
      - apply outcome_cons; auto. intros o l Q. destruct (NF o l Q). }
    destruct ev as [|o l c|c|o l|o l|p cl cc ck|o l|]; try (apply OTHER; [discriminate|reflexivity]).
    + (* a name *)
      destruct (W [] o l evs1 eq_refl) as (LP&WN). cbn [ev_ok] in EO.
      assert (OB : object m (poff buf o) l) by (unfold object in *; cbn [poff pb po]; lia).
      assert (BA : bytes_at m (poff buf o) l = slice (bytes_at m buf L) o l).
      { unfold bytes_at, poff. cbn [pb po]. unfold object in HB. rewrite slice_slice by lia. auto. }
      cbn [find_tree find_callback].
      destruct (field_ok m field n name (mkfctx field n false false None) (poff buf o) l eq_refl eq_refl HA Hn eq_refl eq_refl LP OB) as (b&FO&B).
      unfold poff in FO. rewrite FO. cbn [bind]. rewrite BA in B. destruct b.
      * assert (SN : same_name name (slice (bytes_at m buf L) o l)) by (apply B; auto).
        destruct (k CbContinue) as [e0 s0|ev2 k2] eqn:EK.
        -- cbn in RP1. injection RP1 as <- <-. cbn [find_tree].
           exists e0, (mkfctx field n true false None). split; [auto|]. right. right. cbn. repeat split; auto.
           exists [], o, l. split; [auto|]. split; [auto|]. intros ? ? [].
        -- destruct WN as [->|(vo&vl&b'&->)].
           { cbn [reports] in RP1. destruct (reports _) in RP1. discriminate. }
           cbn [reports] in RP1. destruct (reports _) as [evs2 e2] in RP1. injection RP1 as -> -> ->.
           cbn [find_tree find_callback]. unfold findHeaderValue. cbn [f_field f_fieldLen f_valueFound f_fieldFound]. rewrite NN, NL. cbn [assert_at negb bind].
           eexists; eexists; split; [reflexivity|]. left. cbn [f_fieldFound f_valueFound f_out]. repeat split; auto.
           exists [], o, l, vo, vl, b'. split; [auto|]. split; [auto|]. split; [intros ? ? []|]. reflexivity.
      * destruct (IH CbContinue ph' _ evs1 e1 P1 CC RP1 (whole_tl _ _ W)) as (e'&x&F&O).
        exists e', x. split; [exact F|]. apply outcome_cons; auto. intros o' l' Q. injection Q as <- <-. intros Q. apply B in Q. discriminate.
    + (* a value *) apply OTHER; [discriminate|]. cbn [find_callback answer]. unfold findHeaderValue. cbn. rewrite NN, NL. reflexivity.
Qed.

Lemma read_ok P m r buf L field n name locOk lenOk :
  parser_ok P -> whole_names P -> r_buf r = Some buf -> r_bufLen r = L -> object m buf L -> 0 < L ->
  src_bytes m field n = Ret name -> 0 < n -> locOk = true -> lenOk = true ->
  forall evs e, reports (p_exec P (p_init P) (bytes_at m buf L)) = (evs, e) ->
  exists st out, ReadHeader P m (Some r) field n locOk lenOk = Ret (st, out) /\
  ((st = HTTPSuccess /\ found_first (bytes_at m buf L) name buf evs out) \/
   (out = None /\ no_such (bytes_at m buf L) name evs /\ ((e = HPE_OK /\ st = HTTPHeaderNotFound) \/ (e <> HPE_OK /\ st = HTTPInvalidResponse))) \/
   (out = None /\ st = HTTPInvalidResponse /\ found_half (bytes_at m buf L) name evs)).
Proof.
  intros (R&R0&PO) WN HB1 HB2 HB HL HA Hn -> -> evs e RP. unfold ReadHeader. rewrite HB1, HB2.
  assert (NN : is_null field = false) by (destruct field; [discriminate| |]; reflexivity).
  replace (L =? 0) with false by lia. rewrite NN. replace (n =? 0) with false by lia. cbn [negb].
  unfold findHeaderInResponse. rewrite (loadn_ok _ _ _ HB). cbn [bind].
  pose proof (PO _ _ (bytes_at m buf L) R0) as C. rewrite (bytes_at_len _ _ _ HB) in C.
  assert (W : whole_evs evs) by (intros a o l b E; apply (WN (bytes_at m buf L) a o l b); rewrite RP; auto).
  destruct (find_ok R m buf L _ field n name HB eq_refl HA Hn _ _ _ _ _ (Z.le_refl 0) C RP W) as (e'&x&F&O).
  rewrite F. cbn [bind].
  destruct O as [(O1&O2&O3&O4)|[(O1&O2&O3&O4&O5)|(O1&O2&O3&O4)]]; rewrite O1, O2; cbn [negb assert_at bind].
  - rewrite O3. eexists; eexists; split; [reflexivity|]. left. auto.
  - subst e'. eexists; eexists; split; [reflexivity|]. right. left. rewrite O4. split; [auto|]. split; [auto|]. destruct e; auto; right; (split; [discriminate|auto]).
  - eexists; eexists; split; [reflexivity|]. right. right. destruct e'; auto.
Qed.
