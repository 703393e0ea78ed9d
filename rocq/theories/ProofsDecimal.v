(** ProofsDecimal.v — convertInt32ToAscii. *)
From Verif Require Import Base Lib ModelRequest SpecRequest.
From Coq Require Import Arith.

(** Digits, least significant first. *)
Fixpoint rdig (fuel : nat) (v : Z) : bytes :=
  match fuel with
  | O => []
  | S f => (v mod 10 + 48) :: (if v / 10 =? 0 then [] else rdig f (v / 10))
  end.
Definition to_dec (v : Z) : bytes :=
  if v <? 0 then 45 :: rev (rdig 11 (- v)) else rev (rdig 11 v).

Lemma rdig_len_pos f v : 1 <= zlen (rdig (S f) v).
Proof. simpl. zlia. Qed.
Lemma rdig_len f v : zlen (rdig f v) <= Z.of_nat f.
Proof.
  revert v; induction f; intros; cbn [rdig]; [zlia|].
  destruct (v / 10 =? 0); zl; [lia|]. specialize (IHf (v / 10)). lia.
Qed.
Lemma rdig_len_bound k : forall f v, 0 <= v < 10 ^ Z.of_nat k -> (0 < k)%nat -> zlen (rdig f v) <= Z.of_nat k.
Proof.
  induction k as [|k IH]; intros f v Hv Hk; [lia|].
  destruct f; cbn [rdig]; [zlia|].
  destruct (Z.eqb_spec (v / 10) 0); zl; [lia|].
  assert (Hq : 0 <= v / 10 < 10 ^ Z.of_nat k).
  { split; [apply Z.div_pos; lia|]. apply Z.div_lt_upper_bound; [lia|].
    replace (10 * 10 ^ Z.of_nat k) with (10 ^ Z.of_nat (S k)); [lia|].
    rewrite Nat2Z.inj_succ, Z.pow_succ_r by lia. auto. }
  destruct k.
  - simpl in Hq. lia.
  - specialize (IH f (v / 10) Hq ltac:(lia)). lia.
Qed.

Lemma dec_value_app a c : dec_value (a ++ [c]) = 10 * dec_value a + (c - 48).
Proof. unfold dec_value. rewrite fold_left_app. reflexivity. Qed.

Lemma rdig_decimal : forall f v, 0 <= v < 10 ^ Z.of_nat (S f) -> decimal_nat v (rev (rdig (S f) v)).
Proof.
  induction f as [|f IH]; intros v Hv.
  - change (10 ^ Z.of_nat 1) with 10 in Hv. cbn [rdig].
    rewrite (Z.mod_small v 10) by lia.
    replace (if v / 10 =? 0 then [] else []) with (@nil Z) by (destruct (_ =? _); auto).
    simpl. split; [discriminate|]. split; [constructor; [lia|constructor]|].
    split; [simpl; congruence|]. unfold dec_value; simpl. lia.
  - assert (Hq : 0 <= v / 10 < 10 ^ Z.of_nat (S f)).
    { split; [apply Z.div_pos; lia|]. apply Z.div_lt_upper_bound; [lia|].
      rewrite (Nat2Z.inj_succ (S f)), Z.pow_succ_r in Hv by lia. lia. }
    pose proof (Z.mod_pos_bound v 10 ltac:(lia)) as Hm.
    pose proof (Z.div_mod v 10 ltac:(lia)) as Hdm.
    change (rdig (S (S f)) v) with ((v mod 10 + 48) :: (if v / 10 =? 0 then [] else rdig (S f) (v / 10))).
    destruct (Z.eqb_spec (v / 10) 0) as [E|N].
    + simpl rev. split; [discriminate|]. split; [constructor; [lia|constructor]|].
      split; [simpl; congruence|]. unfold dec_value; simpl. lia.
    + specialize (IH _ Hq) as (I1&I2&I3&I4). cbn [rev].
      split; [destruct (rev _); discriminate|].
      split; [apply Forall_app; split; auto; constructor; [lia|constructor]|].
      split.
      * intros H. exfalso. destruct (rev (rdig (S f) (v / 10))) as [|x r] eqn:R; [congruence|].
        simpl in H. subst x. specialize (I3 eq_refl). rewrite I3 in I4. unfold dec_value in I4; simpl in I4. lia.
      * rewrite dec_value_app, I4. lia.
Qed.

Lemma to_dec_decimal v : is_int32 v -> decimal v (to_dec v).
Proof.
  unfold is_int32, INT32_MIN, INT32_MAX, decimal, to_dec. intros H.
  destruct (Z.ltb_spec v 0).
  - eexists; split; [reflexivity|]. apply rdig_decimal. change (10 ^ Z.of_nat 11) with 100000000000. lia.
  - apply rdig_decimal. change (10 ^ Z.of_nat 11) with 100000000000. lia.
Qed.
Lemma to_dec_len_nonneg v : 0 <= v <= INT32_MAX -> 1 <= zlen (to_dec v) <= 10.
Proof.
  unfold to_dec, INT32_MAX. intros. replace (v <? 0) with false by lia. rewrite zlen_rev. split.
  - apply rdig_len_pos.
  - apply (rdig_len_bound 10); [|lia]. change (10 ^ Z.of_nat 10) with 10000000000. lia.
Qed.
Lemma to_dec_len v : is_int32 v -> 1 <= zlen (to_dec v) <= 11.
Proof.
  intros H. destruct (Z.ltb_spec v 0).
  - unfold is_int32, INT32_MIN in H. unfold to_dec. replace (v <? 0) with true by lia. rewrite zlen_cons, zlen_rev.
    assert (1 <= zlen (rdig 11 (- v))) by apply rdig_len_pos.
    pose proof (rdig_len_bound 10 11 (- v)). change (10 ^ Z.of_nat 10) with 10000000000 in *. lia.
  - pose proof (to_dec_len_nonneg v). unfold is_int32 in H. lia.
Qed.

(** Arrays *)
Lemma aset_ok a i v : 0 <= i < zlen a -> aset a i v = Ret (splice a i [v]).
Proof. intros. unfold aset. replace (0 <=? i) with true by lia. replace (i <? zlen a) with true by lia. auto. Qed.
Lemma aset_bad a i v : zlen a <= i -> aset a i v = Ub UbOob.
Proof. intros. unfold aset. replace (i <? zlen a) with false by lia. rewrite andb_false_r. auto. Qed.
Lemma aget_ok a i : 0 <= i < zlen a -> aget a i = Ret (zn a i).
Proof. intros. unfold aget. replace (0 <=? i) with true by lia. replace (i <? zlen a) with true by lia. auto. Qed.

Lemma conv_digits_ok : forall f a base neg nd av,
  0 <= base + neg + nd -> 0 <= av < 10 ^ Z.of_nat f -> (0 < f)%nat ->
  base + neg + nd + zlen (rdig f av) <= zlen a ->
  conv_digits f a base neg nd av
  = Ret (splice a (base + neg + nd) (rdig f av), nd + zlen (rdig f av)).
Proof.
  induction f as [|f IH]; intros a base neg nd av Ho Hv Hf Hfit; [lia|].
  cbn [conv_digits rdig] in *.
  rewrite Z.rem_mod_nonneg, Z.quot_div_nonneg by lia.
  rewrite aset_ok by zlia. cbn [bind].
  destruct (Z.eqb_spec (av / 10) 0) as [|N].
  - do 2 f_equal.
  - assert (Hq : 0 <= av / 10 < 10 ^ Z.of_nat f).
    { split; [apply Z.div_pos; lia|]. apply Z.div_lt_upper_bound; [lia|].
      rewrite Nat2Z.inj_succ, Z.pow_succ_r in Hv by lia. lia. }
    assert ((0 < f)%nat) by (destruct f; [simpl in Hq; lia|lia]).
    assert (zlen (splice a (base + neg + nd) [av mod 10 + 48]) = zlen a).
    { apply splice_len; zlia. }
    rewrite IH; try lia; [|zlia].
    rewrite zlen_cons. f_equal. f_equal; [|lia].
    replace (base + neg + (nd + 1)) with (base + neg + nd + zlen [av mod 10 + 48]) by zlia.
    rewrite splice_adj; zl; auto; lia.
Qed.

Lemma conv_digits_oob : forall f a base neg nd av,
  0 <= base + neg + nd -> 0 <= av -> zlen a < base + neg + nd + zlen (rdig f av) ->
  conv_digits f a base neg nd av = Ub UbOob.
Proof.
  induction f as [|f IH]; intros a base neg nd av Ho Hv Hfit; [reflexivity|].
  cbn [conv_digits rdig] in *.
  rewrite Z.rem_mod_nonneg, Z.quot_div_nonneg by lia.
  destruct (Z.lt_ge_cases (base + neg + nd) (zlen a)).
  2:{ rewrite aset_bad by lia. auto. }
  rewrite aset_ok by zlia. cbn [bind].
  destruct (Z.eqb_spec (av / 10) 0) as [|N]; [zlia|].
  apply IH; [lia|apply Z.div_pos; lia|].
  rewrite splice_len by zlia. zlia.
Qed.

Lemma conv_reverse_ok : forall n a base neg nd idx,
  0 <= base + neg -> 0 <= idx -> idx + Z.of_nat n = nd / 2 -> 0 <= nd -> base + neg + nd <= zlen a ->
  exists a', conv_reverse n a base neg nd idx = Ret a' /\ zlen a' = zlen a /\
    forall i, 0 <= i < zlen a ->
      zn a' i = if (base + neg + idx <=? i) && (i <? base + neg + nd - idx)
                then zn a (base + neg + nd - 1 - (i - (base + neg))) else zn a i.
Proof.
  induction n as [|n IH]; intros a base neg nd idx Ho Hi Hn Hnd Hfit.
  - exists a. split; [reflexivity|]. split; [auto|]. intros i Hi'.
    destruct (Z.leb_spec (base + neg + idx) i); destruct (Z.ltb_spec i (base + neg + nd - idx)); simpl; auto.
    f_equal. assert (nd = 2 * idx \/ nd = 2 * idx + 1) by (pose proof (Z.div_mod nd 2); pose proof (Z.mod_pos_bound nd 2); lia).
    lia.
  - assert (Hh : 2 * (idx + 1) <= nd) by (pose proof (Z.div_mod nd 2); pose proof (Z.mod_pos_bound nd 2); lia).
    cbn [conv_reverse].
    rewrite (aget_ok a (base + neg + idx)) by lia. cbn [bind].
    rewrite (aget_ok a (base + (neg + nd - idx - 1))) by lia. cbn [bind].
    rewrite aset_ok by lia. cbn [bind].
    set (x := zn a (base + (neg + nd - idx - 1))). set (y := zn a (base + neg + idx)).
    set (a1 := splice a (base + neg + idx) [x]).
    assert (L1 : zlen a1 = zlen a) by (apply splice_len; zlia).
    rewrite aset_ok by lia. cbn [bind].
    set (a2 := splice a1 (base + (neg + nd - idx - 1)) [y]).
    assert (L2 : zlen a2 = zlen a) by (unfold a2; rewrite splice_len; zlia).
    destruct (IH a2 base neg nd (idx + 1)) as (a'&E&L'&Z'); try lia.
    exists a'. split; [exact E|]. split; [lia|]. intros i Hi'. rewrite Z' by lia. clear Z' E.
    assert (ZA : forall j, 0 <= j < zlen a -> zn a2 j =
       if j =? base + (neg + nd - idx - 1) then y else if j =? base + neg + idx then x else zn a j).
    { intros j Hj. unfold a2. rewrite zn_splice by zlia. change (zlen [y]) with 1.
      destruct (Z.eqb_spec j (base + (neg + nd - idx - 1))) as [->|N1].
      - rewrite Z.leb_refl. replace (_ <? _) with true by lia. simpl. rewrite Z.sub_diag. reflexivity.
      - replace (_ && _) with false by lia. unfold a1. rewrite zn_splice by zlia. change (zlen [x]) with 1.
        destruct (Z.eqb_spec j (base + neg + idx)) as [->|N2].
        + rewrite Z.leb_refl. replace (_ <? _) with true by lia. simpl. rewrite Z.sub_diag. reflexivity.
        + replace (_ && _) with false by lia. auto. }
    destruct (Z.leb_spec (base + neg + (idx + 1)) i); destruct (Z.ltb_spec i (base + neg + nd - (idx + 1))); cbn [andb].
    + rewrite ZA by lia. replace (_ && _) with true by lia.
      replace (_ =? _) with false by lia. replace (_ =? _) with false by lia. auto.
    + rewrite ZA by lia. destruct (Z.ltb_spec i (base + neg + nd - idx)).
      * replace (_ && _) with true by lia. replace (_ =? _) with true by lia.
        unfold y. f_equal. lia.
      * replace (_ && _) with false by lia. replace (_ =? _) with false by lia.
        replace (_ =? _) with false by lia. auto.
    + rewrite ZA by lia. destruct (Z.leb_spec (base + neg + idx) i).
      * replace (_ && _) with true by lia. replace (i =? base + (neg + nd - idx - 1)) with false by lia.
        replace (_ =? _) with true by lia. unfold x. f_equal. lia.
      * replace (_ && _) with false by lia. replace (_ =? _) with false by lia.
        replace (_ =? _) with false by lia. auto.
    + lia.
Qed.

Lemma zn_rev (d : bytes) i : 0 <= i < zlen d -> zn (rev d) i = zn d (zlen d - 1 - i).
Proof.
  intros. unfold zn, zlen in *. rewrite rev_nth by lia. f_equal. lia.
Qed.

Lemma conv_rev_digits a base neg ds :
  0 <= base + neg -> base + neg + zlen ds <= zlen a ->
  conv_reverse (Z.to_nat (zlen ds / 2)) (splice a (base + neg) ds) base neg (zlen ds) 0
  = Ret (splice a (base + neg) (rev ds)).
Proof.
  intros Ho Hf. pose proof (zlen_nonneg ds).
  assert (L : zlen (splice a (base + neg) ds) = zlen a) by (apply splice_len; lia).
  destruct (conv_reverse_ok (Z.to_nat (zlen ds / 2)) (splice a (base + neg) ds) base neg (zlen ds) 0)
    as (a'&E&L'&Zn); try lia.
  { pose proof (Z.div_pos (zlen ds) 2). lia. }
  rewrite E. f_equal. apply list_ext.
  - rewrite L', splice_len; auto. rewrite splice_len; rewrite ?zlen_rev; lia.
  - intros i Hi. rewrite L', L in Hi. rewrite Zn by lia.
    rewrite (zn_splice a (base + neg) (rev ds)) by (rewrite ?zlen_rev; lia).
    rewrite zlen_rev.
    destruct (Z.leb_spec (base + neg + 0) i); destruct (Z.ltb_spec i (base + neg + zlen ds - 0)); cbn [andb].
    + replace (base + neg <=? i) with true by lia. replace (i <? base + neg + zlen ds) with true by lia.
      cbn [andb]. rewrite zn_rev by lia. rewrite zn_splice by lia. replace (_ && _) with true by lia.
      f_equal. lia.
    + replace (i <? base + neg + zlen ds) with false by lia. rewrite andb_false_r.
      rewrite zn_splice by lia. replace (_ && _) with false by lia. auto.
    + replace (base + neg <=? i) with false by lia. cbn [andb].
      rewrite zn_splice by lia. replace (_ && _) with false by lia. auto.
    + lia.
Qed.

Lemma conv_ok v a base :
  INT32_MIN < v <= INT32_MAX -> 0 <= base -> 10 <= zlen a - base -> base + zlen (to_dec v) <= zlen a ->
  convertInt32ToAscii v a base = Ret (splice a base (to_dec v), zlen (to_dec v)).
Proof.
  unfold INT32_MIN, INT32_MAX. intros Hv Hb H10 Hf. unfold convertInt32ToAscii, MAX_INT32_NO_OF_DECIMAL_DIGITS.
  replace (10 <=? zlen a - base) with true by lia. cbn [assert_at bind].
  assert (P : 10 ^ Z.of_nat 11 = 100000000000) by reflexivity.
  unfold to_dec in *. destruct (Z.ltb_spec v 0).
  - rewrite zlen_cons, zlen_rev in Hf.
    rewrite aset_ok by zlia. cbn [bind]. unfold INT32_MAX.
    replace (v * -1 <=? 2147483647) with true by lia. cbn [bind].
    replace (v * -1) with (- v) by lia.
    assert (L1 : zlen (splice a base [DASH]) = zlen a) by (apply splice_len; zlia).
    rewrite conv_digits_ok by (rewrite ?P; zlia). cbn [bind].
    rewrite Z.add_0_r, Z.add_0_l. rewrite conv_rev_digits by zlia. cbn [bind].
    f_equal. f_equal.
    + change 1 with (zlen [DASH]). rewrite splice_adj by (rewrite ?zlen_rev; zlia). reflexivity.
    + rewrite zlen_cons, zlen_rev. auto.
  - rewrite zlen_rev in Hf. cbn [bind].
    rewrite conv_digits_ok by (rewrite ?P; zlia). cbn [bind].
    rewrite Z.add_0_r, Z.add_0_l.
    replace (splice a (base + 0) (rdig 11 v)) with (splice a (base + 0) (rdig 11 v)) by auto.
    rewrite conv_rev_digits by zlia. cbn [bind]. rewrite Z.add_0_r, Z.add_0_l, zlen_rev. auto.
Qed.
