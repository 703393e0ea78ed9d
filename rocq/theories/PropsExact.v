(** PropsExact.v — what exactly happens where the hoped-for property fails, and completeness (C51-C55). *)
From Verif Require Import Base Lib ModelRequest ModelSend ModelResponse SpecRequest SpecSend SpecExact ProofsRequest ProofsDecimal
  ProofsRequest2 ProofsHistory ProofsSend ProofsSend2 ProofsResponse ProofsResponse2 ProofsResponse5 ProofsTwin ProofsExchange
  SpecResponse SpecHttp SpecParser SpecExchange RefParser Demo DemoResponse PropsSend PropsResponse PropsResponse2 PropsHttp PropsExchange.

(** ** C51 *)
Lemma lpre_cut_value d : all_legal false d = false -> cut_at_illegal legal_value d (lpre false d).
Proof.
  induction d as [|c d IH]; [discriminate|]. intros H. cbn [lpre]. unfold all_legal in *. cbn [forallb] in H.
  destruct (badc false c) eqn:Bc.
  - exists c, d. split; [reflexivity|]. split; [split; intros []|]. intros L. apply all_legal_value in L.
    unfold all_legal in L. cbn [forallb] in L. rewrite Bc in L. discriminate.
  - cbn [negb andb] in H. destruct (IH H) as (x&r&E&L&N). exists x, r. split; [cbn [app]; congruence|]. split; auto.
    apply all_legal_value in L. apply all_legal_value. unfold all_legal in *. cbn [forallb]. rewrite Bc. auto.
Qed.
Lemma lpre_cut_field d : all_legal true d = false -> cut_at_illegal legal_field d (lpre true d).
Proof.
  induction d as [|c d IH]; [discriminate|]. intros H. cbn [lpre]. unfold all_legal in *. cbn [forallb] in H.
  destruct (badc true c) eqn:Bc.
  - exists c, d. split; [reflexivity|]. split; [split; [split|]; intros []|]. intros L. apply all_legal_field in L.
    unfold all_legal in L. cbn [forallb] in L. rewrite Bc in L. discriminate.
  - cbn [negb andb] in H. destruct (IH H) as (x&r&E&L&N). exists x, r. split; [cbn [app]; congruence|]. split; auto.
    apply all_legal_field in L. apply all_legal_field. unfold all_legal in *. cbn [forallb]. rewrite Bc. auto.
Qed.

Theorem C51_rejected_header_leaves : forall cfg m h buf n req field fl value vl f v h' m',
  holds m h buf n req ->
  arg_for m buf n field fl f -> arg_for m buf n value vl v -> n + fl + vl + 6 < SZ cfg ->
  AddHeader cfg m (Some h) field fl value vl = Ret (HTTPSecurityAlertInvalidCharacter, Some h', m') ->
  h' = h /\
  exists o W, opened req o /\ leftover f v W /\ zlen o + zlen W <= n /\
    bytes_at m' (poff buf (zlen o)) (zlen W) = W /\
    same_outside m m' (poff buf (zlen o)) (zlen W).
Proof.
  intros cfg m h buf n req field fl value vl f v h' m' H Af Av W E.
  pose proof Af as ((Lf&_)&_). pose proof Av as ((Lv&_)&_).
  assert (D : add_invalid (Some h) field fl value vl \/ (fl <> 0 /\ vl <> 0)).
  { unfold add_invalid. destruct (Z.eq_dec fl 0); [left; auto 8|]. destruct (Z.eq_dec vl 0); [left; auto 8|auto]. }
  destruct D as [D|(N1&N2)]; [rewrite AddHeader_invalid in E by auto; discriminate|].
  pose proof H as (Hb&HB&O&Hl&Er). subst n.
  assert (E1 : AddHeader cfg m (Some h) field fl value vl =
     (' (st, h', m') <- addHeader cfg m h field fl value vl ;; Ret (st, Some h', m'))).
  { unfold AddHeader. rewrite Hb, (arg_not_null _ _ _ _ (proj1 Af)), (arg_not_null _ _ _ _ (proj1 Av)).
    replace (fl =? 0) with false by lia. replace (vl =? 0) with false by lia.
    replace (rh_bufLen h <? rh_len h) with false by lia. reflexivity. }
  rewrite E1 in E. clear E1.
  rewrite (addHeader_ok cfg m h buf field fl value vl f v) in E.
  2:{ apply add_ok_apart; first [assumption|zlia]. }
  pose proof O as (O1&O2&O3).
  pose proof (opened_at m buf (rh_len h) ltac:(lia) ltac:(lia) ltac:(lia)) as OP.
  pose proof (back_bounds m buf (rh_len h) ltac:(lia)) as Hbk.
  cbv zeta in E. set (b := back m buf (rh_len h)) in *.
  assert (Lb : zlen (bytes_at m buf b) = b) by (apply slice_len; lia).
  assert (K : forall W, zlen W <= fl + vl + 2 -> b + fl + vl + 6 <= rh_bufLen h -> leftover f v W -> m' = write m (poff buf b) W ->
     exists o W, opened req o /\ leftover f v W /\ zlen o + zlen W <= rh_bufLen h /\
       bytes_at m' (poff buf (zlen o)) (zlen W) = W /\ same_outside m m' (poff buf (zlen o)) (zlen W)).
  { intros W0 LW Fit LO ->. exists (bytes_at m buf b), W0. rewrite Lb. split; [rewrite Er; exact OP|]. split; auto.
    assert (Ow : object m (poff buf b) (zlen W0)) by (unfold object; unfold poff; cbn [pb po]; zlia).
    split; [clear -LW Fit Hbk; lia|]. split; [apply bytes_at_write_same; auto|apply same_outside_write; auto]. }
  destruct (Z.leb_spec (b + fl + vl + 6) (rh_bufLen h)) as [Fit|]; [|discriminate].
  pose proof (lpre_len true f). pose proof (lpre_len false v).
  destruct (all_legal true f) eqn:Ef; cbn [negb] in E.
  - destruct (all_legal false v) eqn:Ev; cbn [negb bind] in E; [discriminate|]. injection E as -> <-. split; auto.
    apply (K (f ++ HTTP_HEADER_FIELD_SEPARATOR ++ lpre false v)); auto.
    + assert (zlen HTTP_HEADER_FIELD_SEPARATOR = 2) by reflexivity. zlia.
    + right. split; [apply all_legal_field; auto|]. exists (lpre false v). split; [apply lpre_cut_value; auto|reflexivity].
  - cbn [bind] in E. injection E as -> <-. split; auto. apply (K (lpre true f)); auto; [zlia|]. left. apply lpre_cut_field; auto.
Qed.
Print Assumptions C51_rejected_header_leaves.

Lemma app_split_len (a : bytes) : forall b c d, length a = length c -> a ++ b = c ++ d -> a = c /\ b = d.
Proof.
  induction a as [|x a IHa]; intros b [|y c] d Hlen Heq; simpl in *; try discriminate; auto.
  injection Heq as -> Heq. destruct (IHa b c d) as (->&->); auto.
Qed.
Lemma not_blank x c : c <> LF -> ~ ends_with (x ++ [c] ++ CRLF) (CRLF ++ CRLF).
Proof.
  intros N (q&E). apply (f_equal (@rev Z)) in E. rewrite !rev_app_distr in E. cbn in E. injection E. intros; subst; auto.
Qed.
Lemma opened_open me p hs o : legal_headers hs -> opened (request_line me p ++ hlines hs) o -> o = request_line me p ++ hlines hs.
Proof.
  intros L [(q&E&_)|(_&->)]; auto. exfalso.
  assert (X : ends_with (request_line me p ++ hlines hs) (CRLF ++ CRLF)) by (exists q; auto). clear q E. revert X.
  destruct hs as [|hv hs] using rev_ind.
  - unfold hlines, request_line. cbn [map concat]. rewrite app_nil_r.
    change (me ++ B " " ++ p ++ B " HTTP/1.1" ++ CRLF) with (me ++ B " " ++ p ++ B " HTTP/1." ++ [49] ++ CRLF).
    rewrite !app_assoc. rewrite <- (app_assoc _ [49] CRLF). apply not_blank. discriminate.
  - apply Forall_app in L as (_&L). inversion L as [|? ? (_&Lv) _]; subst. clear L IHhs.
    rewrite hlines_app. unfold hlines at 2. cbn [map concat]. unfold header_line. rewrite app_nil_r.
    destruct hv as (f,v). cbn [fst snd] in *.
    destruct v as [|c v _] using rev_ind.
    + change (f ++ B ": " ++ [] ++ CRLF) with (f ++ [58] ++ [32] ++ CRLF).
      rewrite !app_assoc. rewrite <- (app_assoc _ [32] CRLF). apply not_blank. discriminate.
    + rewrite !app_assoc. rewrite <- (app_assoc _ [c] CRLF). apply not_blank. intros ->. destruct Lv as (_&X). apply X.
      apply in_or_app. right; left; auto.
Qed.
Lemma C03_like cfg m h buf n req field fl value vl f v h' m' :
  holds m h buf n req ->
  arg_for m buf n field fl f -> arg_for m buf n value vl v -> n + fl + vl + 6 < SZ cfg ->
  AddHeader cfg m (Some h) field fl value vl = Ret (HTTPSuccess, Some h', m') ->
  exists o, opened req o /\ holds m' h' buf n (o ++ header_line f v ++ CRLF).
Proof.
  intros H Af Av W E.
  assert (D : add_invalid (Some h) field fl value vl \/ (fl <> 0 /\ vl <> 0)).
  { unfold add_invalid. destruct (Z.eq_dec fl 0); [left; auto 8|]. destruct (Z.eq_dec vl 0); [left; auto 8|auto]. }
  destruct D as [D|(N1&N2)]; [rewrite AddHeader_invalid in E by auto; discriminate|].
  pose proof Af as ((Lf&_)&_). pose proof Av as ((Lv&_)&_).
  destruct (AddHeader_outcome cfg m h buf n req field fl value vl f v H Af Av) as (st&h2&m2&E2&OC); try zlia.
  rewrite E in E2. injection E2 as <- <- <-. destruct OC as (o&OP&_&D).
  destruct D as [(X&_)|[(X&_)|(_&_&_&_&Hh&S)]]; try discriminate. eauto.
Qed.

Lemma request_text_hlines me p hs : request_text me p hs = request_line me p ++ hlines hs ++ CRLF.
Proof. reflexivity. Qed.
Lemma request_text_blank me p hs : exists pre, request_text me p hs = pre ++ CRLF ++ CRLF /\ request_line me p ++ hlines hs = pre ++ CRLF.
Proof.
  rewrite request_text_hlines. destruct (hlines_end hs) as [->|(x&E)].
  - exists (me ++ B " " ++ p ++ B " HTTP/1.1"). unfold request_line, hlines. cbn [map concat].
    rewrite ?app_nil_r, <- !app_assoc. auto.
  - exists (request_line me p ++ x). rewrite E, <- !app_assoc. auto.
Qed.

(** The request as it then is: the blank line that ends it is (partly) overwritten. *)
Theorem C51_request_after_rejection : forall cfg m h buf n pre field fl value vl f v h' m',
  let req := pre ++ CRLF ++ CRLF in
  holds m h buf n req ->
  arg_for m buf n field fl f -> arg_for m buf n value vl v -> n + fl + vl + 6 < SZ cfg ->
  AddHeader cfg m (Some h) field fl value vl = Ret (HTTPSecurityAlertInvalidCharacter, Some h', m') ->
  exists W, leftover f v W /\ holds m' h' buf n (pre ++ CRLF ++ overwritten CRLF W).
Proof.
  intros cfg m h buf n pre field fl value vl f v h' m' req H Af Av Ws E.
  destruct (C51_rejected_header_leaves cfg m h buf n req field fl value vl f v h' m' H Af Av Ws E) as (->&o&W&OP&LO&LW&EW&S).
  exists W. split; auto. unfold req in OP. pose proof (opened_blank _ _ OP). subst o.
  pose proof H as (Hb&HB&O&Hl&Er).
  assert (LR : zlen req = rh_len h) by (rewrite Er; apply bytes_at_len; destruct O as (?&?&?); unfold object; lia).
  split; auto. split; auto.
  assert (O' : object m' buf n) by (apply (same_outside_object m m' (poff buf (zlen (pre ++ CRLF))) (zlen W)); auto).
  split; auto. split; [lia|].
  set (k := zlen (pre ++ CRLF)) in *.
  assert (Lk : rh_len h = k + 2). { rewrite <- LR. unfold req, k. rewrite !zlen_app. change (zlen CRLF) with 2. lia. }
  assert (K0 : 0 <= k) by (unfold k; zlia).
  pose proof O as (O1&O2&O3).
  assert (SP : forall mm, bytes_at mm buf (rh_len h) = bytes_at mm buf k ++ bytes_at mm (poff buf k) 2).
  { intros mm. rewrite Lk. apply bytes_at_app; lia. }
  assert (LO' : zlen (blk m' (pb buf)) = zlen (blk m (pb buf)) \/ True) by auto.
  assert (Ek : bytes_at m buf k = pre ++ CRLF /\ bytes_at m (poff buf k) 2 = CRLF).
  { rewrite SP in Er. unfold req in Er. rewrite app_assoc in Er.
    apply app_split_len in Er as (->&->); auto.
    assert (zlen (bytes_at m buf k) = k) by (apply bytes_at_len; unfold object; lia). unfold zlen, k, zlen in *. lia. }
  destruct Ek as (Ek1&Ek2).
  rewrite SP. rewrite (bytes_at_same m m' (poff buf k) (zlen W) buf k) by
    (auto; try (unfold object; lia); right; right; unfold poff; cbn [pb po]; lia).
  rewrite Ek1. rewrite (app_assoc pre). f_equal.
  assert (S1 : forall mm j, 0 <= j -> bytes_at mm (poff buf k) (1 + j) = bytes_at mm (poff buf k) 1 ++ bytes_at mm (poff buf (k + 1)) j).
  { intros mm j Hj. rewrite bytes_at_app by (unfold poff; cbn [pb po]; lia). rewrite poff_poff. auto. }
  destruct W as [|a [|b W]].
  - change (overwritten CRLF []) with CRLF. symmetry. rewrite <- Ek2. eapply bytes_at_same; eauto; [unfold object; unfold poff; cbn [pb po]; lia|].
    right; left. unfold poff; cbn [pb po]. change (zlen (@nil Z)) with 0. lia.
  - change (zlen [a]) with 1 in *. change 2 with (1 + 1). rewrite S1 by lia. rewrite EW. unfold CRLF. cbn [overwritten app]. f_equal.
    change 2 with (1 + 1) in Ek2. rewrite S1 in Ek2 by lia.
    assert (X : bytes_at m (poff buf (k + 1)) 1 = [LF]).
    { assert (L1 : zlen (bytes_at m (poff buf k) 1) = 1) by (apply bytes_at_len; unfold object; unfold poff; cbn [pb po]; lia).
      destruct (bytes_at m (poff buf k) 1) as [|c0 [|? ?]]; try discriminate; [|zlia]. injection Ek2 as -> E2. auto. }
    rewrite <- X. symmetry. eapply bytes_at_same; eauto; [unfold object; unfold poff; cbn [pb po]; lia|].
    right; left. unfold poff; cbn [pb po]. lia.
  - assert (E2 : zlen (a :: b :: W) = 2 + zlen W) by zlia. rewrite E2 in EW.
    rewrite bytes_at_app in EW by (unfold poff; cbn [pb po]; zlia).
    assert (L2 : zlen (bytes_at m' (poff buf k) 2) = 2).
    { apply bytes_at_len. destruct O' as (?&?&?). unfold object; unfold poff; cbn [pb po]; zlia. }
    destruct (bytes_at m' (poff buf k) 2) as [|c0 [|c1 [|? ?]]]; try discriminate; [|zlia].
    injection EW as -> -> _. reflexivity.
Qed.
Print Assumptions C51_request_after_rejection.

(** A later, legal header is glued to what is left of the rejected one. *)
Theorem C51_next_header_is_glued : forall cfg m h buf n me p hs field fl value vl a b f v h1 m1 field2 fl2 value2 vl2 f2 v2 h2 m2,
  holds m h buf n (request_text me p hs) ->
  arg_for m buf n field fl (a :: b :: f) -> arg_for m buf n value vl v -> n + fl + vl + 6 < SZ cfg -> legal_field [a; b] ->
  AddHeader cfg m (Some h) field fl value vl = Ret (HTTPSecurityAlertInvalidCharacter, Some h1, m1) ->
  arg_for m1 buf n field2 fl2 f2 -> arg_for m1 buf n value2 vl2 v2 -> n + fl2 + vl2 + 6 < SZ cfg ->
  AddHeader cfg m1 (Some h1) field2 fl2 value2 vl2 = Ret (HTTPSuccess, Some h2, m2) ->
  holds m2 h2 buf n (request_text me p (hs ++ [(a :: b :: f2, v2)])).
Proof.
  intros cfg m h buf n me p hs field fl value vl a b f v h1 m1 field2 fl2 value2 vl2 f2 v2 h2 m2 H Af Av Ws Lab E Af2 Av2 Ws2 E2.
  destruct (request_text_blank me p hs) as (pre&ER&EO). rewrite ER in H.
  destruct (C51_request_after_rejection cfg m h buf n pre field fl value vl (a :: b :: f) v h1 m1 H Af Av Ws E) as (W&LO&H1).
  assert (NB : forall c (legal : bytes -> Prop), ~ legal [c] -> forall x y, legal [x; y] -> (forall x y, legal [x; y] -> legal [x] /\ legal [y]) -> c <> x /\ c <> y).
  { intros c legal N x y L K. destruct (K _ _ L). split; intros ->; auto. }
  assert (K2 : forall x y, legal_field [x; y] -> legal_field [x] /\ legal_field [y]).
  { intros x y L. apply all_legal_field in L. unfold all_legal in L. cbn [forallb] in L.
    rewrite !andb_true_iff in L. destruct L as (L1&L2&_).
    split; apply all_legal_field; unfold all_legal; cbn [forallb]; rewrite ?L1, ?L2; auto. }
  assert (EW : exists W', W = a :: b :: W').
  { destruct LO as [(c&r&Ec&_&Nc)|(_&q&_&->)].
    - destruct (NB c legal_field Nc a b Lab K2) as (N1&N2).
      destruct W as [|x [|y W']]; cbn [app] in Ec; injection Ec; intros; subst; try congruence. eauto.
    - cbn [app]. eauto. }
  destruct EW as (W'&->). unfold CRLF at 2 in H1. cbn [overwritten] in H1.
  destruct (C03_like cfg m1 h1 buf n (pre ++ CRLF ++ [a; b]) field2 fl2 value2 vl2 f2 v2 h2 m2) as (o&OP&Hh); auto.
  assert (o = pre ++ CRLF ++ [a; b]).
  { destruct OP as [(q&Eq&_)|(_&->)]; auto. exfalso.
    assert (L : b = LF).
    { apply (f_equal (@rev Z)) in Eq. rewrite !rev_app_distr in Eq. cbn in Eq. injection Eq. intros; subst; auto. }
    destruct Lab as ((_&NL)&_). apply NL. right; left. auto. }
  subst o. rewrite request_text_hlines, hlines_app.
  change (hlines [(a :: b :: f2, v2)]) with (header_line (a :: b :: f2) v2 ++ []). rewrite app_nil_r.
  replace (request_line me p ++ (hlines hs ++ header_line (a :: b :: f2) v2) ++ CRLF)
    with ((request_line me p ++ hlines hs) ++ header_line (a :: b :: f2) v2 ++ CRLF) by (rewrite <- !app_assoc; auto).
  rewrite EO. unfold header_line in *. rewrite <- !app_assoc in *. cbn [app] in *. exact Hh.
Qed.
Example C51_case : exists h' m' h'' m'',
  AddHeader cfg0 m1 (Some h1) (SLit (B "X-A")) 3 (SLit [98; 10]) 2 = Ret (HTTPSecurityAlertInvalidCharacter, Some h', m') /\
  AddHeader cfg0 m' (Some h') (SLit (B "Accept")) 6 (SLit (B "*/*")) 3 = Ret (HTTPSuccess, Some h'', m'') /\
  bytes_at m'' buf0 (rh_len h'') = request_text (B "GET") (B "/") [(B "Host", B "h"); (B "X-Accept", B "*/*")].
Proof. do 4 eexists. split; [vm_compute; reflexivity|]. split; [vm_compute; reflexivity|]. vm_compute. reflexivity. Qed.
Print Assumptions C51_next_header_is_glued.

(** Recovery: with headersLen moved back to just before the destroyed blank line, the next header goes where
    it would have gone without the rejected call. *)
Theorem C51_recovery : forall cfg m h buf n me p hs field fl value vl f v h1 m1 field2 fl2 value2 vl2 f2 v2,
  holds m h buf n (request_text me p hs) ->
  arg_for m buf n field fl f -> arg_for m buf n value vl v -> n + fl + vl + 6 < SZ cfg ->
  AddHeader cfg m (Some h) field fl value vl = Ret (HTTPSecurityAlertInvalidCharacter, Some h1, m1) ->
  arg_for m1 buf n field2 fl2 f2 -> arg_for m1 buf n value2 vl2 v2 -> 0 < fl2 -> 0 < vl2 -> n + fl2 + vl2 + 6 < SZ cfg ->
  legal_field f2 -> legal_value v2 -> zlen (request_text me p (hs ++ [(f2, v2)])) <= n ->
  Forall (fun h => legal_field (fst h) /\ legal_value (snd h)) hs ->
  exists h2 m2, AddHeader cfg m1 (Some (set_rh_len h1 (rh_len h1 - 2))) field2 fl2 value2 vl2 = Ret (HTTPSuccess, Some h2, m2) /\
    holds m2 h2 buf n (request_text me p (hs ++ [(f2, v2)])).
Proof.
  intros cfg m h buf n me p hs field fl value vl f v h1 m1 field2 fl2 value2 vl2 f2 v2 H Af Av Ws E Af2 Av2 P1 P2 Ws2 Lf2 Lv2 Fit Lhs.
  destruct (request_text_blank me p hs) as (pre&ER&EO). rewrite ER in H.
  destruct (C51_request_after_rejection cfg m h buf n pre field fl value vl f v h1 m1 H Af Av Ws E) as (W&LO&H1).
  set (h1' := set_rh_len h1 (rh_len h1 - 2)).
  assert (H1' : holds m1 h1' buf n (request_line me p ++ hlines hs)).
  { rewrite EO. destruct H1 as (A1&A2&A3&A4&A5). pose proof A3 as (O1&O2&O3).
    assert (LL : rh_len h1 = zlen (pre ++ CRLF) + 2).
    { rewrite <- (bytes_at_len m1 buf (rh_len h1)) by (unfold object; lia). rewrite <- A5, app_assoc, (zlen_app (pre ++ CRLF)).
      f_equal. unfold CRLF. destruct W as [|? [|? ?]]; reflexivity. }
    split; auto. split; auto. split; auto. unfold h1'. cbn [set_rh_len rh_len]. pose proof (zlen_nonneg (pre ++ CRLF)).
    split; [lia|]. replace (rh_len h1 - 2) with (zlen (pre ++ CRLF)) by lia.
    rewrite LL in A5. rewrite bytes_at_app in A5 by lia. rewrite app_assoc in A5.
    apply app_split_len in A5 as (A5&_); auto.
    assert (zlen (bytes_at m1 buf (zlen (pre ++ CRLF))) = zlen (pre ++ CRLF)) by (apply bytes_at_len; unfold object; lia).
    unfold zlen in *. lia. }
  destruct (AddHeader_outcome cfg m1 h1' buf n _ field2 fl2 value2 vl2 f2 v2 H1' Af2 Av2 P1 P2 Ws2) as (st&h2&m2&E2&o&OP&_&D).
  apply opened_open in OP; auto. subst o.
  assert (ET : request_text me p (hs ++ [(f2, v2)]) = (request_line me p ++ hlines hs) ++ header_line f2 v2 ++ CRLF).
  { rewrite request_text_hlines, hlines_app. unfold hlines at 2. cbn [map concat fst snd]. rewrite app_nil_r, <- !app_assoc. auto. }
  rewrite ET in *. exists h2, m2.
  destruct D as [(->&C&_)|[(->&C&N&_)|(->&C&_&_&Hh&_)]]; [exfalso| |auto].
  - rewrite !zlen_app, header_line_len in *. change (zlen CRLF) with 2 in *. lia.
  - tauto.
Qed.
Example C51_recovery_case : exists h' m' h'' m'',
  AddHeader cfg0 m1 (Some h1) (SLit (B "X-A")) 3 (SLit [98; 10]) 2 = Ret (HTTPSecurityAlertInvalidCharacter, Some h', m') /\
  AddHeader cfg0 m' (Some (set_rh_len h' (rh_len h' - 2))) (SLit (B "Accept")) 6 (SLit (B "*/*")) 3 = Ret (HTTPSuccess, Some h'', m'') /\
  bytes_at m'' buf0 (rh_len h'') = request_text (B "GET") (B "/") [(B "Host", B "h"); (B "Accept", B "*/*")].
Proof. do 4 eexists. split; [vm_compute; reflexivity|]. split; [vm_compute; reflexivity|]. vm_compute. reflexivity. Qed.
Print Assumptions C51_recovery.

(** ** C53 *)
Lemma range_value_fun s e t t' : range_value s e t -> range_value s e t' -> t = t'.
Proof.
  unfold range_value. destruct (e =? -1); [destruct (s <? 0)|].
  - intros (a&D&->) (a'&D'&->). f_equal. eapply decimal_unique; eauto.
  - intros (a&D&->) (a'&D'&->). do 2 f_equal. eapply decimal_unique; eauto.
  - intros (a&b&D1&D2&->) (a'&b'&D1'&D2'&->).
    rewrite (decimal_unique _ _ _ D1 D1'), (decimal_unique _ _ _ D2 D2'). auto.
Qed.
Lemma asked_one cfg m0 m h buf n me p hs c f v :
  config_ok cfg -> holds m h buf n (request_text me p hs) -> same_outside m0 m buf n ->
  call_ok cfg m0 buf n c -> asks m0 c (f, v) ->
  exists st h' m', do_call cfg m h c = Ret (st, Some h', m') /\
    (n < zlen (request_text me p (hs ++ [(f, v)])) /\ st = HTTPInsufficientMemory /\ h' = h /\ m' = m \/
     zlen (request_text me p (hs ++ [(f, v)])) <= n /\ st = HTTPSuccess /\
     holds m' h' buf n (request_text me p (hs ++ [(f, v)])) /\
     same_outside m m' buf (zlen (request_text me p (hs ++ [(f, v)])))).
Proof.
  intros CO H S OK A.
  assert (K : forall st h' m', legal_field f -> legal_value v -> add_outcome m h buf n (request_text me p hs) f v st h' m' ->
    n < zlen (request_text me p (hs ++ [(f, v)])) /\ st = HTTPInsufficientMemory /\ h' = h /\ m' = m \/
     zlen (request_text me p (hs ++ [(f, v)])) <= n /\ st = HTTPSuccess /\
     holds m' h' buf n (request_text me p (hs ++ [(f, v)])) /\
     same_outside m m' buf (zlen (request_text me p (hs ++ [(f, v)])))).
  { intros st h' m' Lf Lv (o&OP&_&D). apply opened_request in OP. subst o.
    assert (ET : request_text me p (hs ++ [(f, v)]) = (request_line me p ++ hlines hs) ++ header_line f v ++ CRLF).
    { rewrite request_text_hlines, hlines_app. unfold hlines at 2. cbn [map concat fst snd]. rewrite app_nil_r, <- !app_assoc. auto. }
    rewrite ET.
    assert (EL : zlen ((request_line me p ++ hlines hs) ++ header_line f v ++ CRLF) = zlen (request_line me p ++ hlines hs) + zlen f + zlen v + 6).
    { rewrite (zlen_app (request_line me p ++ hlines hs)), (zlen_app (header_line f v) CRLF), header_line_len. change (zlen CRLF) with 2. lia. }
    destruct D as [(->&C&->&->)|[(->&C&N&_)|(->&C&_&_&Hh&S2)]]; [left; split; [lia|auto]|tauto|].
    right. split; [lia|]. split; auto. split; auto. rewrite EL.
    pose proof (zlen_nonneg (request_line me p ++ hlines hs)).
    eapply same_outside_weaken; [exact S2| | |]; unfold poff; cbn [pb po]; zlia. }
  destruct c as [ri|f0 fl v0 vl|s e]; cbn [asks call_ok do_call fst snd] in *; [contradiction| |].
  - destruct A as (Af&Av&P1&P2&Lf&Lv). destruct OK as (U1&U2&W).
    assert (AF : forall s k d, usable m0 buf n s k -> arg m0 s k d -> arg_for m buf n s k d).
    { intros s k d (K0&U) Ag. split.
      - eapply arg_same; eauto. destruct s; cbn; auto. destruct U; auto.
      - destruct s; cbn; auto. destruct U; auto. }
    destruct (AddHeader_outcome cfg m h buf n _ f0 fl v0 vl f v H (AF _ _ _ U1 Af) (AF _ _ _ U2 Av) P1 P2 W) as (st&h'&m'&E&OC).
    exists st, h', m'. auto.
  - destruct A as (NR&->&RV). destruct OK as (I1&I2&W).
    destruct (AddRangeHeader_outcome cfg m h buf n _ s e H I1 I2 W) as [(RR&_)|(_&t&st&h'&m'&RV'&LT&E&OC)]; [tauto|].
    pose proof (range_value_fun _ _ _ _ RV RV'); subst t. exists st, h', m'. split; auto.
    apply K; auto; [apply all_legal_field; reflexivity|]. eapply range_value_legal; eauto.
Qed.

Lemma request_text_le me p hs hs' : zlen (request_text me p hs) <= zlen (request_text me p (hs ++ hs')).
Proof. rewrite !request_text_hlines, hlines_app, !zlen_app. pose proof (zlen_nonneg (hlines hs')). lia. Qed.

Lemma history_len cfg : forall cs m h sts h2 m2, history cfg m h cs = Ret (sts, h2, m2) -> length sts = length cs.
Proof.
  induction cs as [|c cs IH]; intros m h sts h2 m2 E; cbn [history] in E; [injection E as <- _ _; auto|].
  destruct (do_call cfg m h c) as [((st,oh),m1)| | |]; cbn [bind] in E; try discriminate. destruct oh as [h1|]; [|discriminate].
  destruct (history cfg m1 h1 cs) as [((s0,h0),mm)| | |] eqn:E0; cbn [bind] in E; try discriminate.
  injection E as <- _ _. cbn [length]. f_equal. eauto.
Qed.
Lemma asked_all cfg buf n me p m0 : config_ok cfg -> forall cs hs, Forall2 (asks m0) cs hs ->
  Forall (call_ok cfg m0 buf n) cs -> forall m h hs0,
  holds m h buf n (request_text me p hs0) -> same_outside m0 m buf n ->
  exists sts h' m', history cfg m h cs = Ret (sts, h', m') /\ length sts = length cs /\
    (Forall (eq HTTPSuccess) sts <-> zlen (request_text me p (hs0 ++ hs)) <= n) /\
    (zlen (request_text me p (hs0 ++ hs)) <= n ->
       holds m' h' buf n (request_text me p (hs0 ++ hs)) /\ same_outside m m' buf (zlen (request_text me p (hs0 ++ hs)))).
Proof.
  intros CO cs hs F. induction F as [|c (f,v) cs hs A F IH]; intros OK m h hs0 H S.
  - exists [], h, m. rewrite app_nil_r. split; auto. split; auto. split; [|split; [auto|apply same_outside_refl]].
    split; [intros _|constructor]. destruct H as (_&_&O&Hl&->). rewrite bytes_at_len; [lia|]. destruct O as (?&?&?). unfold object; lia.
  - inversion OK as [|? ? OK1 OK2]; subst.
    destruct (asked_one cfg m0 m h buf n me p hs0 c f v CO H S OK1 A) as (st&h1&m1&E1&D).
    replace (hs0 ++ (f, v) :: hs) with ((hs0 ++ [(f, v)]) ++ hs) by (rewrite <- app_assoc; auto).
    pose proof (request_text_le me p (hs0 ++ [(f, v)]) hs) as LE.
    destruct D as [(C&->&->&->)|(C&->&H1&S1)].
    + destruct (history_stays cfg buf n CO cs m h) as (sts&h2&m2&E2&_).
      { apply H. } { apply H. } { apply H. } { apply H. }
      { eapply Forall_impl; [|exact OK2]. intros c'. apply call_ok_same; auto. }
      exists (HTTPInsufficientMemory :: sts), h2, m2. cbn [history]. rewrite E1. cbn [bind]. rewrite E2. split; [reflexivity|].
      split; [cbn [length]; f_equal; eapply history_len; eauto|].
      split; [|intros; lia]. split; [|lia]. intros X. inversion X. discriminate.
    + assert (S2 : same_outside m0 m1 buf n).
      { eapply same_outside_trans; [exact S|]. eapply same_outside_weaken; [exact S1| | |]; zlia. }
      destruct (IH OK2 m1 h1 (hs0 ++ [(f, v)]) H1 S2) as (sts&h2&m2&E2&LS&I1&I2).
      exists (HTTPSuccess :: sts), h2, m2. cbn [history]. rewrite E1. cbn [bind]. rewrite E2. split; [reflexivity|].
      split; [cbn [length]; auto|]. split.
      * rewrite <- I1. split; [intros X; inversion X; auto|constructor; auto].
      * intros X. destruct (I2 X) as (H2&S3). split; auto.
        eapply same_outside_trans; [|exact S3]. eapply same_outside_weaken; [exact S1| | |]; zlia.
Qed.

(** Every request made of legal headers is built exactly, if and only if it fits in the buffer. *)
Theorem C53_every_request_that_fits_is_built : forall cfg m h buf n ri me p ho cs hs,
  config_ok cfg -> rh_buf h = Some buf -> rh_bufLen h = n -> object m buf n ->
  init_args cfg m buf n ri me p ho -> legal_value ho ->
  Forall (call_ok cfg m buf n) cs -> Forall2 (asks m) cs hs ->
  let text := request_text me p (init_headers (UA cfg) (ri_flags ri) ho ++ hs) in
  exists sts h' m', history cfg m h (CInit ri :: cs) = Ret (sts, h', m') /\ length sts = S (length cs) /\
    (Forall (eq HTTPSuccess) sts <-> zlen text <= n) /\
    (zlen text <= n -> holds m' h' buf n text /\ same_outside m m' buf (zlen text)).
Proof.
  intros cfg m h buf n ri me p ho cs hs CO Hb Hn O A Lho OK F text. subst n.
  destruct (Init_outcome cfg m h buf ri me p ho CO Hb O A) as (st&h1&m1&E1&S1&B1&B2&B3&Est&K).
  rewrite init_request_hlines in *.
  change (request_line me p ++ hlines (init_headers (UA cfg) (ri_flags ri) ho) ++ CRLF)
    with (request_text me p (init_headers (UA cfg) (ri_flags ri) ho)) in *.
  set (n := rh_bufLen h) in *. set (ih := init_headers (UA cfg) (ri_flags ri) ho) in *.
  pose proof (request_text_le me p ih hs) as LE. fold text in LE.
  apply all_legal_value in Lho. rewrite Lho in Est. cbn [negb] in Est.
  cbn [history do_call]. rewrite E1. cbn [bind].
  destruct (Z.ltb_spec n (zlen (request_text me p ih))) as [C|C].
  - assert (NS : st <> HTTPSuccess) by (destruct (n <? _) in Est; subst st; discriminate).
    assert (O1 : object m1 buf n) by (apply (same_outside_object m m1 buf n); auto).
    destruct (history_stays cfg buf n CO cs m1 h1 B1 B2 O1 B3) as (sts&h2&m2&E2&_).
    { eapply Forall_impl; [|exact OK]. intros c'. apply call_ok_same; auto. }
    rewrite E2. exists (st :: sts), h2, m2. split; [reflexivity|]. split; [cbn [length]; f_equal; eapply history_len; eauto|].
    split; [|lia]. split; [|lia]. intros X. inversion X; congruence.
  - assert (st = HTTPSuccess).
    { destruct (Z.ltb_spec n (zlen (host_part (UA cfg) (ri_flags ri) me p ho ++ CRLF))) as [C2|C2]; auto.
      exfalso. unfold ih in C. rewrite request_text_hlines, <- init_request_hlines in C. unfold init_request in C.
      rewrite !zlen_app in *. destruct (Z.testbit (ri_flags ri) 0); zlia. }
    destruct (K H) as (H1&S2).
    destruct (asked_all cfg buf n me p m CO cs hs F OK m1 h1 ih H1 S1) as (sts&h2&m2&E2&LS&I1&I2). fold text in I1, I2.
    rewrite E2. clear Est K. subst st. exists (HTTPSuccess :: sts), h2, m2. split; [reflexivity|]. split; [cbn [length]; auto|]. split.
    + rewrite <- I1. split; [intros X; inversion X; auto|constructor; auto].
    + intros X. destruct (I2 X) as (H2&S3). split; auto.
      eapply same_outside_trans; [|exact S3]. eapply same_outside_weaken; [exact S2| | |]; zlia.
Qed.
Example C53_case :
  let cs := [CAdd (SLit (B "X-A")) 3 (SLit (B "1")) 1; CRange 5 10; CRange (-100) (-1)] in
  let hs := [(B "X-A", B "1"); (B "Range", B "bytes=5-10"); (B "Range", B "bytes=-100")] in
  Forall (call_ok cfg0 m0 buf0 200) cs /\ Forall2 (asks m0) cs hs /\
  zlen (request_text (B "GET") (B "/index.html") (init_headers (UA cfg0) 1 (B "example.com") ++ hs)) = 147.
Proof.
  cbv zeta. split; [repeat constructor; vm_compute; intros; discriminate|].
  split; [|vm_compute; reflexivity].
  constructor; [|constructor; [|constructor; [|constructor]]].
  - cbn [asks fst snd]. split; [split; [reflexivity|split; [vm_compute; discriminate|reflexivity]]|].
    split; [split; [reflexivity|split; [vm_compute; discriminate|reflexivity]]|].
    split; [lia|]. split; [lia|]. split; [apply all_legal_field; reflexivity|apply all_legal_value; reflexivity].
  - cbn [asks fst snd]. split; [unfold range_rejected, INT32_MIN; lia|]. split; [reflexivity|].
    exists (B "5"), (B "10"). split; [apply (to_dec_decimal 5); unfold is_int32, INT32_MIN, INT32_MAX; lia|].
    split; [apply (to_dec_decimal 10); unfold is_int32, INT32_MIN, INT32_MAX; lia|reflexivity].
  - cbn [asks fst snd]. split; [unfold range_rejected, INT32_MIN; lia|]. split; [reflexivity|].
    exists (B "100"). split; [apply (to_dec_decimal 100); unfold is_int32, INT32_MIN, INT32_MAX; lia|reflexivity].
Qed.
Print Assumptions C53_every_request_that_fits_is_built.

(** ** C52 *)
Lemma to_int32_spec len v q : is_int32 v -> len = v + q * 2 ^ 32 -> to_int32 len = v.
Proof.
  unfold is_int32, INT32_MIN, INT32_MAX, to_int32, two32, INT32_MAX. intros I ->. change (2 ^ 32) with 4294967296.
  rewrite Z_mod_plus_full. destruct (Z.lt_ge_cases v 0).
  - replace (v mod 4294967296) with (v + 4294967296).
    + replace (v + 4294967296 <=? 2147483647) with false by lia. lia.
    + rewrite <- (Z_mod_plus_full v 1 4294967296). rewrite Z.mod_small; lia.
  - rewrite Z.mod_small by lia. replace (v <=? 2147483647) with true by lia. auto.
Qed.
Lemma rdig_len_low k : forall f v, 10 ^ Z.of_nat k <= v -> (k < f)%nat -> Z.of_nat k < zlen (rdig f v).
Proof.
  induction k as [|k IH]; intros f v Hv Hk.
  - destruct f; [lia|]. pose proof (rdig_len_pos f v). lia.
  - destruct f as [|f]; [lia|]. cbn [rdig]. rewrite Nat2Z.inj_succ, Z.pow_succ_r in Hv by lia.
    assert (Hq : 10 ^ Z.of_nat k <= v / 10) by (apply Z.div_le_lower_bound; lia).
    assert (0 < 10 ^ Z.of_nat k) by (apply Z.pow_pos_nonneg; lia).
    replace (v / 10 =? 0) with false by lia. rewrite zlen_cons. specialize (IH f (v / 10) Hq ltac:(lia)). lia.
Qed.
Lemma to_dec_len10 v : -1000000000 < v <= INT32_MAX -> 1 <= zlen (to_dec v) <= 10.
Proof.
  intros H. destruct (Z.lt_ge_cases v 0); [|apply to_dec_len_nonneg; lia].
  unfold to_dec. replace (v <? 0) with true by lia. rewrite zlen_cons, zlen_rev.
  assert (1 <= zlen (rdig 11 (- v))) by apply rdig_len_pos.
  pose proof (rdig_len_bound 9 11 (- v)). change (10 ^ Z.of_nat 9) with 1000000000 in *. lia.
Qed.
Lemma addContentLength_any cfg m h buf n req len v :
  holds m h buf n req -> 0 < len -> to_int32 len = v -> -1000000000 < v <= INT32_MAX -> n + 30 < SZ cfg ->
  exists o st h' m', opened req o /\
    addContentLengthHeader cfg m h len = Ret (st, h', m') /\
    let block := o ++ header_line (B "Content-Length") (to_dec v) ++ CRLF in
    (n < zlen block /\ st = HTTPInsufficientMemory /\ h' = h /\ m' = m \/
     zlen block <= n /\ st = HTTPSuccess /\ holds m' h' buf n block /\ same_outside m m' buf n).
Proof.
  intros H Hl Ev Hv W. unfold addContentLengthHeader.
  replace (0 <? len) with true by lia. cbn [assert_at bind]. rewrite Ev.
  pose proof (to_dec_len10 v Hv) as LD.
  rewrite conv_ok; [|unfold INT32_MIN; lia|lia|vm_compute; discriminate|].
  2:{ change (zlen (repeat 0 (Z.to_nat MAX_INT32_NO_OF_DECIMAL_DIGITS))) with 10. lia. }
  cbn [bind].
  set (a := repeat 0 (Z.to_nat MAX_INT32_NO_OF_DECIMAL_DIGITS)).
  assert (La : zlen a = 10) by reflexivity.
  destruct (addHeader_holds cfg m h buf n req (SLit HTTP_CONTENT_LENGTH_FIELD) (zlen HTTP_CONTENT_LENGTH_FIELD)
     (SLit (splice a 0 (to_dec v))) (zlen (to_dec v)) (B "Content-Length") (to_dec v) H) as (o&OP&LO&D).
  - apply arg_for_lit.
  - split; [apply arg_array; lia|exact I].
  - vm_compute; auto.
  - lia.
  - change (zlen HTTP_CONTENT_LENGTH_FIELD) with 14. lia.
  - assert (EF : zlen (o ++ header_line (B "Content-Length") (to_dec v) ++ CRLF) = zlen o + zlen HTTP_CONTENT_LENGTH_FIELD + zlen (to_dec v) + 6).
    { rewrite !zlen_app, header_line_len. change (zlen CRLF) with 2. change (zlen (B "Content-Length")) with (zlen HTTP_CONTENT_LENGTH_FIELD). lia. }
    destruct D as [(C&Eq)|[(C&N&_)|(C&_&_&h'&m'&Eq&Hh&S)]].
    + exists o, HTTPInsufficientMemory, h, m. split; auto. split; auto. cbv zeta. rewrite EF. left. auto.
    + exfalso. apply N. split; [apply all_legal_field; reflexivity|].
      eapply decimal_legal. apply to_dec_decimal. unfold is_int32, INT32_MIN; lia.
    + exists o, HTTPSuccess, h', m'. split; auto. split; auto. cbv zeta. rewrite EF. right. split; auto. split; auto. split; auto.
      eapply same_outside_weaken; [exact S| | |]; unfold poff; cbn [pb po]; zlia.
Qed.

(** What happens for every body length that HTTPClient_SendHttpHeaders can be given: [v], its value as an int32_t, decides. *)
Theorem C52_any_body_length_exact : forall fuel cfg E tf t h buf n req len flags w v q,
  send_contract E -> tf <> TNull -> t_send t = true -> holds (w_mem w) h buf n req ->
  0 < len -> n + 30 < SZ cfg -> Z.testbit flags 0 = false ->
  is_int32 v -> len = v + q * 2 ^ 32 ->
  let r := SendHttpHeaders fuel cfg E (Some t) tf (Some h) len flags w in
  (v = INT32_MIN -> r = Ub UbOverflow) /\
  (INT32_MIN < v <= -1000000000 -> r = Ub UbOob) /\
  (-1000000000 < v ->
     exists o d, opened req o /\ decimal v d /\
       let block := o ++ header_line (B "Content-Length") d ++ CRLF in
       (n < zlen block -> r = Ret (HTTPInsufficientMemory, Some h, w)) /\
       (zlen block <= n ->
          exists out w' tr, wout r = Some (out, w') /\ w_tr w' = w_tr w ++ tr /\ send_only tr /\ prefix (accepted tr) block /\
            same_outside (w_mem w) (w_mem w') buf n /\
            (forall st oh, out = Some (st, oh) ->
               (exists h', oh = Some h' /\ holds (w_mem w') h' buf n block) /\
               (st = HTTPSuccess /\ accepted tr = block \/ st = HTTPNetworkError /\ zlen (accepted tr) < zlen block)))).
Proof.
  intros fuel cfg E tf t h buf n req len flags w v q SC TN Ht H Hl W Ef Iv Elen r.
  pose proof (to_int32_spec len v q Iv Elen) as Ev. unfold is_int32 in Iv.
  unfold r, SendHttpHeaders. rewrite Ht. cbn [assert_at bind]. rewrite landf1, Ef. replace (0 <? len) with true by lia. cbn [negb andb].
  split; [|split].
  - intros Em. unfold addContentLengthHeader. replace (0 <? len) with true by lia. cbn [assert_at bind]. rewrite Ev, Em.
    unfold convertInt32ToAscii. reflexivity.
  - intros Hv. unfold addContentLengthHeader. replace (0 <? len) with true by lia. cbn [assert_at bind]. rewrite Ev.
    unfold convertInt32ToAscii.
    change (MAX_INT32_NO_OF_DECIMAL_DIGITS <=? zlen (repeat 0 (Z.to_nat MAX_INT32_NO_OF_DECIMAL_DIGITS)) - 0) with true.
    cbn [assert_at bind]. replace (v <? 0) with true by lia.
    set (a := repeat 0 (Z.to_nat MAX_INT32_NO_OF_DECIMAL_DIGITS)). assert (La : zlen a = 10) by reflexivity.
    rewrite aset_ok by lia. cbn [bind]. unfold INT32_MIN, INT32_MAX in *. replace (v * -1 <=? 2147483647) with true by lia. cbn [bind].
    rewrite conv_digits_oob; [reflexivity|lia|lia|].
    assert (zlen (splice a 0 [DASH]) = 10) by (rewrite splice_len; auto; zlia).
    pose proof (rdig_len_low 9 11 (v * -1)). change (10 ^ Z.of_nat 9) with 1000000000 in *. lia.
  - intros Hv. destruct (addContentLength_any cfg (w_mem w) h buf n req len v H Hl Ev) as (o&st&h'&m'&OP&EQ&D); [lia|lia|].
    rewrite EQ. cbn [bind]. cbv zeta in D. exists o, (to_dec v). split; auto. split; [apply to_dec_decimal; unfold is_int32; lia|].
    cbv zeta. set (block := o ++ header_line (B "Content-Length") (to_dec v) ++ CRLF) in *.
    destruct D as [(C&->&->&->)|(C&->&Hh&S)].
    + cbn [is_success]. split; [intros _; destruct w; reflexivity|lia].
    + cbn [is_success]. split; [lia|]. intros _.
      pose proof Hh as (Hb&Hn&HO&HL&HE). rewrite Hb.
      destruct (SendHttpData_run fuel cfg E tf t buf (rh_len h') (set_mem w m') SC TN Ht) as (o'&w'&t0&tr&E1&E2&E3&E4&E5&R).
      { cbn [set_mem w_mem]. destruct HO as (?&?&?). unfold object. lia. }
      cbn [set_mem w_mem w_tr w_nr] in *. rewrite <- HE in R.
      destruct (srun_facts _ _ _ _ _ _ R) as (F1&F2&F3&F4&F5).
      exists (match o' with Some st => Some (st, Some h') | None => None end), w', (tick tf t0 ++ tr).
      split. { destruct (SendHttpData _ _ _ _ _ _ _ _) as [[st w2]| | |]; cbn [wout bind] in *; try discriminate; injection E1 as <- <-; auto. }
      split; auto. split; auto. split; auto. split; [rewrite E2; auto|].
      intros st oh X. destruct o' as [st'|]; [|discriminate]. injection X as <- <-. split; [exists h'; rewrite E2; auto|].
      destruct F5 as [F5|[F5|F5]]; [discriminate| |]; injection F5 as ->; auto.
Qed.
Example C52_case : exists h' w',
  SendHttpHeaders 100 cfg64 env5 (Some tr1) TUser (Some h1) (2 ^ 32 - 5) 0 w1 = Ret (HTTPSuccess, Some h', w') /\
  accepted (w_tr w') = request_text (B "GET") (B "/") [(B "Host", B "h"); (B "Content-Length", B "-5")].
Proof. do 2 eexists. split; vm_compute; reflexivity. Qed.
Print Assumptions C52_any_body_length_exact.

(** ** C54 *)
Lemma read_block_ok hs b : legal_headers hs -> forall fuel, (length hs < fuel)%nat ->
  read_block fuel (hlines hs ++ CRLF ++ b) = Some (hs, b).
Proof.
  induction 1 as [|(f,v) hs (Hf&Hv) _ IH]; intros fuel Hfu.
  - destruct fuel; [simpl in Hfu; lia|]. reflexivity.
  - destruct fuel; [simpl in Hfu; lia|]. cbn [read_block]. cbn [fst snd] in *.
    change (hlines ((f, v) :: hs)) with (header_line f v ++ hlines hs). unfold header_line.
    replace ((f ++ B ": " ++ v ++ CRLF) ++ hlines hs) with ((f ++ B ": " ++ v) ++ CRLF ++ hlines hs) by (rewrite <- !app_assoc; auto).
    rewrite <- !app_assoc. rewrite !(app_assoc f), (app_assoc (f ++ B ": ")).
    rewrite read_line_ok.
    2:{ destruct Hf as (Hf&_). apply legal_app; [apply legal_app|]; auto. apply legal_lit. reflexivity. }
    assert (NE : (f ++ B ": ") ++ v <> []) by (destruct f; discriminate).
    destruct ((f ++ B ": ") ++ v) as [|x l] eqn:El; [congruence|]. rewrite <- El, <- app_assoc.
    rewrite read_header_ok by apply Hf. rewrite IH by (cbn [length] in Hfu; lia). reflexivity.
Qed.
Lemma filter_none hs : Forall (fun h => is_content_length h = false) hs -> filter is_content_length hs = [].
Proof. induction 1 as [|h hs H _ IH]; auto. cbn [filter]. rewrite H. auto. Qed.
Lemma read_cons_line l rest : legal_value l -> l <> [] -> forall hs b,
  read_block (S (length rest)) rest = Some (hs, b) -> server_reads (l ++ CRLF ++ rest) =
   match announced hs with Some k => if k <=? zlen b then Some (l, hs, slice b 0 k, slice b k (zlen b - k)) else None | None => None end.
Proof. intros L N hs b E. unfold server_reads. rewrite read_line_ok by auto. rewrite E. reflexivity. Qed.
Lemma server_reads_ok me p hs b : legal_value me -> legal_value p -> legal_headers hs ->
  server_reads (request_text me p hs ++ b) =
   match announced hs with Some k => if k <=? zlen b then Some (me ++ B " " ++ p ++ B " HTTP/1.1", hs, slice b 0 k, slice b k (zlen b - k)) else None | None => None end.
Proof.
  intros L1 L2 L3.
  assert (E : request_text me p hs ++ b = (me ++ B " " ++ p ++ B " HTTP/1.1") ++ CRLF ++ (hlines hs ++ CRLF ++ b)).
  { rewrite request_text_hlines. unfold request_line. rewrite <- !app_assoc. reflexivity. }
  rewrite E. apply read_cons_line.
  - apply legal_app; auto. apply legal_app; [apply legal_lit; reflexivity|]. apply legal_app; auto. apply legal_lit; reflexivity.
  - destruct me; discriminate.
  - apply read_block_ok; auto. pose proof (hlines_length hs). rewrite app_length. lia.
Qed.
Lemma wire_text flags len me p hs block : wire_headers flags len (request_text me p hs) block ->
  exists cl, length_header flags len cl /\ block = request_text me p (hs ++ cl).
Proof.
  unfold wire_headers, length_header. destruct (_ || _).
  - intros ->. exists []. rewrite app_nil_r. auto.
  - intros (o&d&OP&D&->). apply opened_request in OP. subst o. exists [(B "Content-Length", d)]. split; eauto.
    rewrite request_text_hlines, hlines_app. unfold hlines at 3. cbn [map concat fst snd]. rewrite app_nil_r, <- !app_assoc. auto.
Qed.
Lemma decimal_digits n d : 0 <= n -> decimal n d -> negb (zlen d =? 0) && forallb (fun c => (48 <=? c) && (c <=? 57)) d = true /\ SpecRequest.dec_value d = n.
Proof.
  intros Hn. unfold decimal. replace (n <? 0) with false by lia. intros (N&F&_&V). split; [|exact V].
  assert (A : negb (zlen d =? 0) = true).
  { destruct d as [|x d]; [congruence|]. rewrite zlen_cons. pose proof (zlen_nonneg d). replace (1 + zlen d =? 0) with false by lia. reflexivity. }
  rewrite A. cbn [andb]. apply forallb_forall. rewrite Forall_forall in F. intros x I. apply F in I. lia.
Qed.
Lemma announced_cl flags len hs cl : Forall (fun h => is_content_length h = false) hs -> 0 <= len -> Z.testbit flags 0 = false ->
  length_header flags len cl -> announced (hs ++ cl) = Some len.
Proof.
  intros NC L0 Ff LH. unfold announced. rewrite filter_app, filter_none by auto. cbn [app]. unfold length_header in LH.
  rewrite Ff in LH. cbn [orb] in LH. destruct (Z.eqb_spec len 0) as [->|Nz]; [subst cl; reflexivity|].
  destruct LH as (d&D&->). cbn [filter]. change (is_content_length (B "Content-Length", d)) with true. cbv iota.
  destruct (decimal_digits len d L0 D) as (->&->). reflexivity.
Qed.

(** A request without its own Content-Length, sent by HTTPClient_Send: what a server reads is the request line, the
    headers, and exactly the body; nothing is left over. *)
Theorem C54_server_reads_the_request : forall fuel cfg E P tr h buf n me p hs body len bd pr flags w,
  size_ok cfg -> send_contract E -> holds (w_mem w) h buf n (request_text me p hs) -> n + 30 < SZ cfg ->
  0 <= len < SZ cfg -> body_arg (w_mem w) buf n body len bd -> Z.testbit flags 0 = false ->
  legal_value me -> legal_value p -> Forall (fun h => legal_field (fst h) /\ legal_value (snd h)) hs ->
  Forall (fun h => is_content_length h = false) hs ->
  ~ send_invalid tr (Some h) body len pr ->
  forall o w', wout (Send fuel cfg E P tr (Some h) body len pr flags w) = Some (o, w') ->
  exists log cl, w_tr w' = w_tr w ++ log /\ length_header flags len cl /\
    prefix (accepted log) (request_text me p (hs ++ cl) ++ bd) /\
    (accepted log = request_text me p (hs ++ cl) ++ bd ->
       server_reads (accepted log) = Some (me ++ B " " ++ p ++ B " HTTP/1.1", hs ++ cl, bd, [])) /\
    (forall st oh or, o = Some (st, oh, or) -> st <> HTTPNetworkError -> st <> HTTPInsufficientMemory ->
       accepted log = request_text me p (hs ++ cl) ++ bd).
Proof.
  intros fuel cfg E P tr h buf n me p hs body len bd pr flags w SO SC H W HB BA Ff Lm Lp Lh NC NI o w' X.
  destruct (C17_request_sent_before_receiving fuel cfg E P tr h buf n _ body len bd pr flags w SO SC H W HB BA NI o w' X)
    as (block&sent&rcv&WH&T&S1&S2&PF&_&K).
  destruct (wire_text _ _ _ _ _ _ WH) as (cl&LH&->).
  assert (AC : accepted (sent ++ rcv) = accepted sent) by (apply only_no_send_app; auto).
  exists (sent ++ rcv), cl. rewrite AC. split; auto. split; auto. split; auto.
  assert (LB : zlen bd = len).
  { unfold body_arg in BA. destruct body as [q|]; [|destruct BA as (->&->); reflexivity]. destruct BA as (BO&_&->). apply bytes_at_len; auto. }
  split.
  - intros ->. assert (Lcl : legal_headers (hs ++ cl)).
    { apply Forall_app. split; auto. unfold length_header in LH. destruct (_ || _); [subst; constructor|].
      destruct LH as (d&D&->). constructor; [|constructor]. cbn [fst snd]. split; [apply all_legal_field; reflexivity|eapply decimal_legal; eauto]. }
    rewrite server_reads_ok by auto. rewrite (announced_cl flags len hs cl) by (auto; lia).
    rewrite LB, Z.leb_refl, Z.sub_diag, slice_0. rewrite slice_full; auto.
  - intros st oh or Eo N1 N2. destruct (K _ _ _ Eo) as [Z0|(_&[Z0|(Z0&_)])]; auto; congruence.
Qed.
Example C54_case : exists h' r' w',
  Send 100 cfg0 (env_ex resp_ok) refparser (Some trr) (Some hx) (Some (mkptr 2 0)) 4 (Some rsep) 0 wsep = Ret (HTTPSuccess, Some h', Some r', w') /\
  server_reads (accepted (w_tr w')) = Some (B "GET / HTTP/1.1", [(B "Host", B "h"); (B "Content-Length", B "4")], B "data", []).
Proof.
  assert (X : exists st h' r' w', Send 100 cfg0 (env_ex resp_ok) refparser (Some trr) (Some hx) (Some (mkptr 2 0)) 4 (Some rsep) 0 wsep = Ret (st, Some h', Some r', w') /\ st = HTTPSuccess /\
     server_reads (accepted (w_tr w')) = Some (B "GET / HTTP/1.1", [(B "Host", B "h"); (B "Content-Length", B "4")], B "data", [])).
  { do 4 eexists. split; [vm_compute; reflexivity|]. split; vm_compute; reflexivity. }
  destruct X as (st&h'&r'&w'&X&->&Y). eauto 8.
Qed.
Print Assumptions C54_server_reads_the_request.

(** ** C55 *)
Lemma holds_apart m m' h buf n req a k :
  holds m h buf n req -> same_outside m m' a k -> disjoint a k buf n -> holds m' h buf n req.
Proof.
  intros (Hb&HB&O&Hl&Er) S D. split; auto. split; auto.
  split; [apply (same_outside_object m m' a k); auto|]. split; auto. rewrite Er. symmetry.
  eapply bytes_at_same; [exact S| |]; destruct O as (?&?&?); [unfold object; lia|].
  unfold disjoint in *. destruct D as [D|[D|D]]; [left; auto|right; left; lia|right; right; lia].
Qed.

(** After a call whose header block fitted, the request structure holds that block: with the Content-Length line. *)
Theorem C55_request_after_send : forall fuel cfg E P t h hbuf n me p hs body len bd r rbuf L w flags st h' r' w' tr,
  send_setup cfg E P t h hbuf n (request_text me p hs) body len bd r rbuf L w -> disjoint rbuf L hbuf n ->
  exchanges fuel cfg E P t h body len r flags w st h' r' w' tr ->
  exists cl, length_header flags len cl /\
    (zlen (request_text me p (hs ++ cl)) <= n -> holds (w_mem w') h' hbuf n (request_text me p (hs ++ cl))) /\
    (n < zlen (request_text me p (hs ++ cl)) -> st = HTTPInsufficientMemory /\ h' = h /\ w' = w).
Proof.
  intros fuel cfg E P t h hbuf n me p hs body len bd r rbuf L w flags st h' r' w' tr S DJ X.
  destruct (Send_split fuel _ _ _ _ _ _ _ _ _ _ _ _ _ _ _ flags S) as (block&sent&h1&w1&WH&SN&TR&_&SM&PF&HO&HR&Y). cbn zeta in Y.
  destruct (wire_text _ _ _ _ _ _ WH) as (cl&LH&->). exists cl. split; auto.
  destruct X as (X0&XT). pose proof S as (SO&SC&RC&PO&T1&T2&H&LR&W&HL&HI&BA&RB&RL&OB&LL).
  destruct Y as [Y|[(Y&Y1&Y2)|[(Y&Y1&Y2&Y3&Y4)|(Y1&Y2&Y3&Y4)]]]; try (rewrite Y in X0; try discriminate).
  - injection X0 as <- <- <- <-. split; [auto|]. lia.
  - injection X0 as <- <- <- <-. split; [lia|]. auto.
  - split; [|lia]. intros _. rewrite Y4 in X0.
    destruct (C19_receive_stays_in_buffer fuel _ _ _ _ _ _ _ _ _ _ Y3) as (o&w2&tr2&R1&R2&R3&SO2).
    destruct (C20_receive_is_safe fuel _ _ _ _ _ _ _ _ _ _ Y3) as [(st2&r2&w3&Q)|(w3&Q)]; rewrite Q in *; cbn [bind wout] in *; [|discriminate].
    injection R1 as <- <-. injection X0 as <- <- <- <-. eapply holds_apart; [apply HO; auto|exact SO2|auto].
Qed.
Print Assumptions C55_request_after_send.
Lemma length_header_fun flags len a b : 0 <= len -> length_header flags len a -> length_header flags len b -> a = b.
Proof.
  unfold length_header. intros P. destruct (_ || _); [congruence|]. intros (d&D&->) (d'&D'&->). rewrite (decimal_unique _ _ _ D D'). auto.
Qed.
(** Every call of a series: what it puts on the wire, and what the request structure holds in the end. *)
Theorem C55_calls_in_turn : forall cfg E P t hbuf n h w cs h' w' me p hs,
  in_turn cfg E P t hbuf n h w cs h' w' -> holds (w_mem w) h hbuf n (request_text me p hs) ->
  exists hs', wires n me p hs cs hs' /\ holds (w_mem w') h' hbuf n (request_text me p hs').
Proof.
  intros cfg E P t hbuf n h w cs h' w' me p hs T. revert hs.
  induction T as [h w|h w fuel req body len bd r rbuf L flags st h1 r1 w1 tr l h' w' S DJ X T IH]; intros hs H.
  - exists hs. split; [constructor|auto].
  - pose proof S as (SO&SC&RC&PO&T1&T2&H0&LR&W&HL&_). rewrite (holds_fun _ _ _ _ _ _ H0 H) in *. clear H0 req.
    destruct (C55_request_after_send _ _ _ _ _ _ _ _ _ _ _ _ _ _ _ _ _ _ _ _ _ _ _ _ S DJ X) as (cl&LH&A1&A2).
    destruct (C50_send_then_receive _ _ _ _ _ _ _ _ _ _ _ _ _ _ _ _ _ _ _ _ _ _ S X) as (block&WH&D).
    destruct (wire_text _ _ _ _ _ _ WH) as (cl'&LH'&->). rewrite (length_header_fun _ _ _ _ (proj1 HL) LH' LH) in *. clear cl' LH'.
    destruct D as [(->&->&BN&->&->&->)|[(SN&->&BN&PX&LT&->)|(sent&rtr&wm&->&BN&SN&NS&AC&RS&RV)]].
    + destruct (IH _ H) as (hs'&W1&W2). exists hs'. split; [|auto]. eapply wires_refused; eauto.
    + destruct (IH _ (A1 BN)) as (hs'&W1&W2). exists hs'. split; [|auto]. eapply wires_sent; eauto. cbn [sc_status]. intros []; auto.
    + destruct (IH _ (A1 BN)) as (hs'&W1&W2). exists hs'. split; [|auto]. eapply wires_sent; eauto; cbn [sc_wire sc_body]; rewrite ?AC; auto.
      exists []. rewrite app_nil_r. auto.
Qed.
Print Assumptions C55_calls_in_turn.
(** So a request sent twice with a body carries two Content-Length headers the second time, and a server has to refuse it. *)
Theorem C55_two_bodies : forall cfg E P t hbuf n h w c1 c2 h' w' me p hs,
  in_turn cfg E P t hbuf n h w [c1; c2] h' w' -> holds (w_mem w) h hbuf n (request_text me p hs) ->
  legal_value me -> legal_value p -> Forall (fun h => legal_field (fst h) /\ legal_value (snd h)) hs ->
  0 < sc_len c1 -> 0 < sc_len c2 -> Z.testbit (sc_flags c1) 0 = false -> Z.testbit (sc_flags c2) 0 = false ->
  sc_wire c1 <> [] -> sc_wire c2 <> [] -> sc_status c2 <> HTTPNetworkError ->
  (exists d1 d2, decimal (sc_len c1) d1 /\ decimal (sc_len c2) d2 /\
     sc_wire c2 = request_text me p (hs ++ [(B "Content-Length", d1); (B "Content-Length", d2)]) ++ sc_body c2) /\
  server_reads (sc_wire c2) = None.
Proof.
  intros cfg E P t hbuf n h w c1 c2 h' w' me p hs T H LM LP LH L1 L2 F1 F2 W1 W2 NN.
  destruct (C55_calls_in_turn _ _ _ _ _ _ _ _ _ _ _ _ _ _ T H) as (hs'&W&_).
  inversion W as [|? ? cl1 ? ? G1 G2 G3 G4 G5|? ? cl1 ? ? G1 G2 G3 G4 G5]; subst; [|contradiction].
  inversion G5 as [|? ? cl2 ? ? K1 K2 K3 K4 K5|? ? cl2 ? ? K1 K2 K3 K4 K5]; subst; [|contradiction].
  unfold length_header in *. rewrite F1 in G1. rewrite F2 in K1. replace (sc_len c1 =? 0) with false in G1 by lia. replace (sc_len c2 =? 0) with false in K1 by lia.
  cbn [orb] in *. destruct G1 as (d1&D1&->). destruct K1 as (d2&D2&->). specialize (K4 NN). rewrite <- app_assoc in K4. cbn [app] in K4. split; [eauto|].
  rewrite K4, server_reads_ok; auto.
  2:{ apply Forall_app. split; [auto|]. assert (LV : forall v d, decimal v d -> 0 < v -> legal_value d) by (intros v d Dv _; eapply decimal_legal; eauto).
      constructor; [|constructor; [|constructor]]; cbn [fst snd]; (split; [apply all_legal_field; reflexivity|eauto]). }
  unfold announced. rewrite filter_app. cbn [filter]. change (is_content_length (B "Content-Length", d1)) with true. change (is_content_length (B "Content-Length", d2)) with true. cbv iota.
  destruct (filter is_content_length hs) as [|(a1,a2) [|(b1,b2) l]]; reflexivity.
Qed.
Print Assumptions C55_two_bodies.
Definition out_h (x : res (status * option reqHeaders * option response * world)) : reqHeaders :=
  match x with Ret (_, Some h, _, _) => h | _ => hx end.
Definition out_r (x : res (status * option reqHeaders * option response * world)) : response :=
  match x with Ret (_, _, Some r, _) => r | _ => rsep end.
Definition out_w (x : res (status * option reqHeaders * option response * world)) : world :=
  match x with Ret (_, _, _, w) => w | _ => wsep end.
Definition send_a := Send 100 cfg0 (env_ex (resp_ok ++ resp_ok)) refparser (Some trr) (Some hx) (Some (mkptr 2 0)) 4 (Some rsep) 0 wsep.
Definition send_b := Send 100 cfg0 (env_ex (resp_ok ++ resp_ok)) refparser (Some trr) (Some (out_h send_a)) (Some (mkptr 2 0)) 2 (Some rsep) 0 (out_w send_a).
Example C55_case : exists c1 c2 h' w',
  in_turn cfg0 (env_ex (resp_ok ++ resp_ok)) refparser trr buf0 300 hx wsep [c1; c2] h' w' /\
  holds (w_mem wsep) hx buf0 300 (request_text (B "GET") (B "/") [(B "Host", B "h")]) /\
  sc_status c1 = HTTPSuccess /\ sc_status c2 = HTTPSuccess /\
  sc_wire c2 = request_text (B "GET") (B "/") [(B "Host", B "h"); (B "Content-Length", B "4"); (B "Content-Length", B "2")] ++ B "da" /\
  server_reads (sc_wire c2) = None.
Proof.
  destruct (setup_ex (resp_ok ++ resp_ok)) as (S1&_).
  assert (S2 : send_setup cfg0 (env_ex (resp_ok ++ resp_ok)) refparser trr (out_h send_a) buf0 300 (request_text (B "GET") (B "/") [(B "Host", B "h"); (B "Content-Length", B "4")])
                 (Some (mkptr 2 0)) 2 (B "da") rsep rbuf 300 (out_w send_a)).
  { destruct (env_ex_ok (resp_ok ++ resp_ok)) as (A&C&_). assert (SZO : size_ok cfg0) by (exists 32; split; [lia|reflexivity]).
    split; [exact SZO|]; split; [exact A|]; split; [exact C|]; split; [apply refparser_ok|]; split; [reflexivity|]; split; [reflexivity|].
    split; [split; [vm_compute; reflexivity|]; split; [vm_compute; reflexivity|]; split; [vm_compute; repeat split; discriminate|]; split; [vm_compute; repeat split; discriminate|vm_compute; reflexivity]|].
    split; [vm_compute; discriminate|]; split; [reflexivity|]; split; [split; [discriminate|reflexivity]|]; split; [vm_compute; discriminate|].
    split; [split; [vm_compute; repeat split; discriminate|]; split; [left; discriminate|vm_compute; reflexivity]|].
    split; [reflexivity|]; split; [reflexivity|]; split; [vm_compute; repeat split; discriminate|]; split; reflexivity. }
  assert (DJ : disjoint rbuf 300 buf0 300) by (left; discriminate).
  assert (X1 : exchanges 100 cfg0 (env_ex (resp_ok ++ resp_ok)) refparser trr hx (Some (mkptr 2 0)) 4 rsep 0 wsep HTTPSuccess (out_h send_a) (out_r send_a) (out_w send_a) (w_tr (out_w send_a))).
  { split; vm_compute; reflexivity. }
  assert (X2 : exchanges 100 cfg0 (env_ex (resp_ok ++ resp_ok)) refparser trr (out_h send_a) (Some (mkptr 2 0)) 2 rsep 0 (out_w send_a) HTTPSuccess (out_h send_b) (out_r send_b) (out_w send_b)
                (skipn (length (w_tr (out_w send_a))) (w_tr (out_w send_b)))).
  { split; vm_compute; reflexivity. }
  exists (mksent 0 4 (B "data") HTTPSuccess (accepted (w_tr (out_w send_a)))),
         (mksent 0 2 (B "da") HTTPSuccess (accepted (skipn (length (w_tr (out_w send_a))) (w_tr (out_w send_b))))), (out_h send_b), (out_w send_b).
  split.
  - eapply turns_next; [exact S1|exact DJ|exact X1|]. eapply turns_next; [exact S2|exact DJ|exact X2|]. apply turns_end.
  - clear X1 X2 S2. split; [destruct S1 as (_&_&_&_&_&_&H&_); exact H|]. split; [reflexivity|]. split; [reflexivity|]. split; vm_compute; reflexivity.
Qed.

(** ** C10 through HTTPClient_Send *)
(** The Content-Length value goes through a 10-byte scratch array: whatever the length of the body, the call neither overruns it nor overflows,
    and what is sent begins with the decimal text of the length. *)
Theorem C10_content_length_formatting_is_safe : forall fuel cfg E tf t h buf n req len w,
  send_contract E -> tf <> TNull -> t_send t = true -> holds (w_mem w) h buf n req ->
  0 < len <= INT32_MAX -> n + 30 < SZ cfg ->
  exists o d, opened req o /\ decimal_nat len d /\ zlen d <= 10 /\
    (n < zlen (o ++ header_line (B "Content-Length") d ++ CRLF) /\ SendHttpHeaders fuel cfg E (Some t) tf (Some h) len 0 w = Ret (HTTPInsufficientMemory, Some h, w) \/
     exists out w' tr, wout (SendHttpHeaders fuel cfg E (Some t) tf (Some h) len 0 w) = Some (out, w') /\ w_tr w' = w_tr w ++ tr /\
       prefix (accepted tr) (o ++ header_line (B "Content-Length") d ++ CRLF)).
Proof.
  intros fuel cfg E tf t h buf n req len w SC TN Ht H Hl W.
  destruct (C11_content_length_on_the_wire fuel cfg E tf t h buf n req len 0 w SC TN Ht H ltac:(lia) W) as (block&WH&X1&X2).
  unfold wire_headers in WH. change (Z.testbit 0 0) with false in WH. replace (len =? 0) with false in WH by lia. destruct WH as (o&d&OP&DE&->).
  exists o, d. split; [auto|].
  assert (DT : d = to_dec len) by (eapply decimal_unique; [exact DE|apply to_dec_decimal; unfold is_int32, INT32_MIN; lia]).
  split. { unfold decimal in DE. destruct (Z.ltb_spec len 0); [lia|auto]. }
  split. { rewrite DT. apply to_dec_len_nonneg; unfold is_int32, INT32_MIN; lia. }
  destruct (Z.lt_ge_cases n (zlen (o ++ header_line (B "Content-Length") d ++ CRLF))) as [C|C]; [left; auto|]. right.
  destruct (X2 C) as (out&w'&tr&Y1&Y2&_&Y3&_). eauto 8.
Qed.
Print Assumptions C10_content_length_formatting_is_safe.
