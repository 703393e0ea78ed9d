(** ProofsAbandon.v — what memory holds at every stop of a call that builds a request. *)
From Verif Require Import Base Lib ModelRequest ModelSend ModelResponse ModelReadHeader ModelTask SpecRequest SpecTask SpecAbandon ProofsTask ProofsRequest ProofsRequest2.

(** ** Programs that write at one place *)
Section Grow.
Variable ord : bytes -> bytes -> Prop.
Hypothesis ord_refl : forall X, ord X X.
Hypothesis ord_trans : forall X Y Z, ord X Y -> ord Y Z -> ord X Z.
Hypothesis ord_app : forall X d, ord X (X ++ d).
Variables (m0 : mem) (q : ptr).
(** At every stop memory is [m0] with some text at [q]; the texts go up in [ord]; at the end [Q]. *)
Fixpoint grows {A} (Q : A -> bytes -> Prop) (X : bytes) (t : tree A) : Prop :=
  match t with
  | TRet a m => exists X', ord X X' /\ object m0 q (zlen X') /\ m = write m0 q X' /\ Q a X'
  | TCall QPause m k => exists X', ord X X' /\ object m0 q (zlen X') /\ m = write m0 q X' /\ grows Q X' (k 0 [] m)
  | TCall _ _ _ => False
  | _ => True
  end.
Lemma grows_weaken {A} (Q : A -> bytes -> Prop) t : forall X Y, ord X Y -> grows Q Y t -> grows Q X t.
Proof.
  destruct t as [a m|k|l| |[]]; intros X Y O G; cbn [grows] in *; auto; destruct G as (X'&O1&G); exists X'; split; eauto.
Qed.
Lemma grows_imp {A} (Q Q' : A -> bytes -> Prop) t : forall X, grows Q X t -> (forall a Y, object m0 q (zlen Y) -> Q a Y -> Q' a Y) -> grows Q' X t.
Proof.
  induction t as [a m|k|l| |c m k IH]; intros X G H; cbn [grows] in *; auto.
  - destruct G as (X'&O1&F&E&G). exists X'. auto.
  - destruct c; auto. destruct G as (X'&O1&F&E&G). exists X'. eauto 10.
Qed.
Lemma grows_bind {A C} (Q1 : A -> bytes -> Prop) (Q : C -> bytes -> Prop) (f : A -> prog C) t : forall X, grows Q1 X t ->
  (forall a Y, Q1 a Y -> object m0 q (zlen Y) -> grows Q Y (f a (write m0 q Y))) -> grows Q X (tbind t f).
Proof.
  induction t as [a m|k|l| |c m k IH]; intros X G H; cbn [grows tbind] in *; auto.
  - destruct G as (X'&O1&F&->&G). eapply grows_weaken; [exact O1|]. auto.
  - destruct c; auto. destruct G as (X'&O1&F&E&G). exists X'. split; [auto|]. split; [auto|]. split; [auto|]. apply IH; auto.
Qed.
Lemma grows_ret {A} (Q : A -> bytes -> Prop) X a : object m0 q (zlen X) -> Q a X -> grows Q X (pret a (write m0 q X)).
Proof. intros O H. exists X. auto. Qed.
(** The result is what the program gives alone. *)
Lemma grows_exec {A} (E : env) (Q : A -> bytes -> Prop) t : forall X, grows Q X t -> grows (fun a Y => Q a Y /\ forall w, exec E t w = Ret (a, set_mem w (write m0 q Y))) X t.
Proof.
  induction t as [a m|k|l| |c m k IH]; intros X G; cbn [grows exec] in *; auto.
  - destruct G as (X'&O1&F&->&G). exists X'. auto 10.
  - destruct c; auto. destruct G as (X'&O1&F&->&G). exists X'. split; [auto|]. split; [auto|]. split; [auto|]. cbn [answer]. apply IH. exact G.
Qed.
Definition stays {A} (X : bytes) (p : prog A) : Prop := grows (fun _ Y => Y = X) X (p (write m0 q X)).
Lemma stays_reads {A} (E : env) X (p : prog A) f : stays X p -> samer E p f -> grows (fun a Y => Y = X /\ f (write m0 q X) = Ret a) X (p (write m0 q X)).
Proof.
  intros S R. apply (grows_exec E) in S. eapply grows_imp; [exact S|]. intros a Y O (->&H). split; [reflexivity|]. specialize (R (mkw (write m0 q X) 0 0 0 [])). unfold run in R. cbn [w_mem] in R. rewrite H in R.
  destruct (f (write m0 q X)); cbn [rr] in R; try contradiction. congruence.
Qed.
Lemma stays_reading {A} X (f : mem -> res A) : object m0 q (zlen X) -> stays X (reading f).
Proof. intros O. unfold stays, reading. destruct (f (write m0 q X)); cbn [grows]; auto. exists X. auto. Qed.
Lemma stays_ret {A} X (a : A) : object m0 q (zlen X) -> stays X (pret a).
Proof. intros O. exists X. auto. Qed.
Lemma stays_bind {A C} X (p : prog A) (f : A -> prog C) : object m0 q (zlen X) -> stays X p -> (forall a, stays X (f a)) -> stays X (pbind p f).
Proof. intros O H K. unfold stays, pbind. eapply grows_bind; [exact H|]. intros a Y -> _. apply K. Qed.
Lemma stays_load1 X p : object m0 q (zlen X) -> stays X (load1_p p).
Proof.
  intros O. unfold load1_p. apply stays_bind; [exact O|apply stays_reading; exact O|]. intros a. unfold stays, pbind, pause, stop, pret. cbn [pbind tbind grows]. exists X. split; [auto|]. split; [auto|]. split; [reflexivity|]. exists X. auto.
Qed.
Lemma stays_loads X n : object m0 q (zlen X) -> forall p, stays X (loads_p p n).
Proof.
  intros O. induction n as [|n IH]; intros p; cbn [loads_p]; [apply stays_ret; exact O|]. apply stays_bind; [exact O|apply stays_load1; exact O|]. intros a. apply stays_bind; [exact O|apply IH|]. intros d. apply stays_ret. exact O.
Qed.
Lemma stays_loadn X p n : object m0 q (zlen X) -> stays X (loadn_p p n).
Proof. intros O. apply stays_bind; [exact O|apply stays_reading; exact O|]. intros _. apply stays_loads. exact O. Qed.
Lemma stays_src_byte X s i : object m0 q (zlen X) -> stays X (src_byte_p s i).
Proof. intros O. destruct s; [apply stays_reading|apply stays_reading|apply stays_load1]; exact O. Qed.
Lemma stays_src_bytes X s n : object m0 q (zlen X) -> stays X (src_bytes_p s n).
Proof. intros O. destruct s; [apply stays_reading|apply stays_reading|apply stays_loadn]; exact O. Qed.
Lemma stays_strncmp X lit : object m0 q (zlen X) -> forall p, stays X (strncmp_p p lit).
Proof.
  intros O. induction lit as [|c lit IH]; intros p; cbn [strncmp_p]; [apply stays_ret; exact O|]. apply stays_bind; [exact O|apply stays_load1; exact O|]. intros x. destruct (x =? c); [apply IH|apply stays_ret; exact O].
Qed.
(** Writing behind what is there. *)
Lemma grows_stores d : forall X p, p = poff q (zlen X) -> object m0 q (zlen X + zlen d) -> grows (fun _ Y => Y = X ++ d) X (stores_p p d (write m0 q X)).
Proof.
  induction d as [|c d IH]; intros X p -> O.
  - cbn [stores_p]. rewrite app_nil_r. change (zlen []) with 0 in O. apply stays_ret. rewrite Z.add_0_r in O. exact O.
  - cbn [stores_p]. assert (OX : object m0 q (zlen X)) by (pose proof (zlen_nonneg X); unfold object in *; zlia).
    assert (OC : object m0 q (zlen X + zlen [c])) by (pose proof (zlen_nonneg X); pose proof (zlen_nonneg d); unfold object in *; zlia).
    assert (OY : object m0 q (zlen (X ++ [c]))) by (rewrite zlen_app; exact OC).
    unfold pbind at 1, writing. rewrite storen_ok; [|apply object_write; [exact OX|]; unfold object, poff in *; cbn [pb po]; change (zlen [c]) with 1 in *; pose proof (zlen_nonneg X); lia]. cbn [bind tbind].
    rewrite (write_adj m0 q _ X [c] OC eq_refl). unfold pbind, pause, stop, pret. cbn [pbind tbind grows]. exists (X ++ [c]). split; [apply ord_app|]. split; [exact OY|]. split; [reflexivity|].
    eapply grows_imp; [apply IH|].
    + unfold poff. cbn [pb po]. rewrite zlen_app. change (zlen [c]) with 1. f_equal. lia.
    + rewrite zlen_app. change (zlen (c :: d)) with (zlen ([c] ++ d)) in O. rewrite zlen_app in O. replace (zlen X + zlen [c] + zlen d) with (zlen X + (zlen [c] + zlen d)) by lia. exact O.
    + intros _ Y _ ->. rewrite <- app_assoc. reflexivity.
Qed.
Lemma grows_storen X p d : p = poff q (zlen X) -> object m0 q (zlen X) -> grows (fun _ Y => Y = X ++ d) X (storen_p p d (write m0 q X)).
Proof.
  intros -> O. unfold storen_p, pbind, range_p, reading. destruct (in_range _ _ _) eqn:R; cbn [tbind grows]; auto. apply in_range_iff in R. apply object_write in R; auto.
  apply grows_stores; auto. pose proof (zlen_nonneg X). unfold object, poff in *. cbn [pb po] in *. lia.
Qed.
Lemma grows_memcpy (E : env) X p s n d : p = poff q (zlen X) -> object m0 q (zlen X) -> arg (write m0 q X) s n d -> 0 <= n -> grows (fun _ Y => Y = X ++ d) X (memcpy_p p s n (write m0 q X)).
Proof.
  intros -> O A N. unfold memcpy_p. destruct (overlaps _ _ _); [exact I|]. unfold pbind. eapply grows_bind; [apply (stays_reads E); [apply stays_src_bytes; exact O|apply same_src_bytes]|].
  intros d' Y (->&R) _. cbn beta. assert (d' = d) as ->; [|apply grows_storen; auto]. destruct A as (L&A). destruct s as [|l|x]; [tauto| |]; cbn [src_bytes] in R.
  - destruct A as (A1&->). replace (0 <=? n) with true in R by lia. replace (n <=? zlen l) with true in R by lia. cbn [andb] in R. congruence.
  - destruct A as (A1&->). rewrite loadn_ok in R by exact A1. congruence.
Qed.
Lemma grows_strncpy (E : env) isF s d : forall X i dst, poff dst i = poff q (zlen X) -> object m0 q (zlen X) -> src_reads (write m0 q X) s i d ->
  match s with SAt x => disjoint (poff dst i) (zlen d) (poff x i) (zlen d) | _ => True end ->
  grows (fun b Y => Y = X ++ lpre isF d /\ b = all_legal isF d) X (strncpy_loop_p dst s isF (length d) i (write m0 q X)).
Proof.
  induction d as [|c d IH]; intros X i dst HP O R A; cbn [length strncpy_loop_p].
  - cbn [lpre all_legal]. apply grows_ret; [exact O|]. rewrite app_nil_r. auto.
  - unfold pbind. eapply grows_bind; [apply (stays_reads E); [apply stays_src_byte; exact O|apply same_src_byte]|].
    intros c' Y (->&RC) _. cbn beta. assert (c' = c) as ->. { pose proof (R 0) as R0. rewrite Z.add_0_r in R0. rewrite R0 in RC by zlia. injection RC as <-. reflexivity. }
    fold (badc isF c). unfold all_legal. cbn [lpre forallb]. fold (all_legal isF d). destruct (badc isF c) eqn:BC; cbn [negb andb]; [apply grows_ret; [exact O|rewrite app_nil_r; auto]|].
    eapply grows_bind; [apply grows_storen; [exact HP|exact O]|]. intros _ Y -> OY. cbn beta.
    assert (OA : object m0 q (zlen X + zlen [c])) by (rewrite <- zlen_app; exact OY).
    eapply grows_imp; [apply IH|].
    + unfold poff in *. rewrite zlen_app. change (zlen [c]) with 1. injection HP as H1 H2. f_equal; [exact H1|]. lia.
    + exact OY.
    + rewrite <- (write_adj m0 q (poff q (zlen X)) X [c] OA eq_refl). apply src_reads_write.
      * intros j Hj. specialize (R (j + 1)). replace (i + 1 + j) with (i + (j + 1)) by lia. rewrite R by zlia. f_equal. unfold zn. replace (Z.to_nat (j + 1)) with (S (Z.to_nat j)) by lia. reflexivity.
      * apply object_write; [exact O|]. unfold object, poff in *. cbn [pb po]. change (zlen [c]) with 1 in *. pose proof (zlen_nonneg X). lia.
      * destruct s; auto. rewrite <- HP. unfold disjoint, poff in *. cbn [pb po] in *. pose proof (zlen_nonneg d). zlia.
    + destruct s; auto. unfold disjoint, poff in *. cbn [pb po] in *. pose proof (zlen_nonneg d). zlia.
    + intros b Y _ (->&->). rewrite <- app_assoc. auto.
Qed.
Lemma grows_hstrncpy (E : env) isF s d X dst n : dst = poff q (zlen X) -> object m0 q (zlen X) -> arg (write m0 q X) s n d -> arg_apart dst n s n ->
  grows (fun b Y => Y = X ++ lpre isF d /\ b = all_legal isF d) X (httpHeaderStrncpy_p dst s n isF (write m0 q X)).
Proof.
  intros -> O A Ap. unfold httpHeaderStrncpy_p. unfold pbind, fixed, reading. destruct (assert_at _ _); cbn [tbind]; try exact I. pose proof A as (L&_).
  replace (Z.to_nat n) with (length d) by (unfold zlen in L; lia). apply (grows_strncpy E); [apply poff_0|exact O|apply arg_reads with n; exact A|]. destruct s; auto. cbn [arg_apart] in Ap. rewrite !poff_0, L. exact Ap.
Qed.
(** ** Adding a header *)
Lemma padd_inv m p n r : padd m p n = Ret r -> r = poff p n.
Proof. unfold padd. destruct (_ && _); [|discriminate]. intros H. injection H as <-. reflexivity. Qed.
Definition add_text (n b : Z) (f v : bytes) : bytes :=
  if b + zlen f + zlen v + 6 <=? n then
    if negb (all_legal true f) then lpre true f
    else if negb (all_legal false v) then f ++ HTTP_HEADER_FIELD_SEPARATOR ++ lpre false v
    else f ++ HTTP_HEADER_FIELD_SEPARATOR ++ v ++ HTTP_HEADER_END_INDICATOR
  else [].
Lemma reads_back (E : env) h buf : rh_buf h = Some buf -> object m0 buf (rh_bufLen h) -> 0 <= rh_len h <= rh_bufLen h -> object m0 q 0 ->
  grows (fun cb Y => Y = [] /\ cb = (poff buf (back m0 buf (rh_len h)), back m0 buf (rh_len h))) []
    (pbind (padd_p buf (rh_len h)) (fun cur0 =>
      if 4 <=? rh_len h
      then q <~ padd_p cur0 (-4) ;; b <~ strncmp_p q HTTP_HEADER_END_INDICATOR ;; if b then c <~ padd_p cur0 (-2) ;; pret (c, rh_len h - 2) else pret (cur0, rh_len h)
      else pret (cur0, rh_len h)) m0).
Proof.
  intros Hb O L OQ. pose proof O as (O1&O2&O3). set (p := pbind _ _).
  assert (S : stays [] p).
  { apply stays_bind; [exact OQ|apply stays_reading; exact OQ|]. intros cur0. destruct (4 <=? rh_len h); [|apply stays_ret; exact OQ].
    apply stays_bind; [exact OQ|apply stays_reading; exact OQ|]. intros r. apply stays_bind; [exact OQ|apply stays_strncmp; exact OQ|]. intros b. destruct b; [|apply stays_ret; exact OQ].
    apply stays_bind; [exact OQ|apply stays_reading; exact OQ|]. intros c. apply stays_ret. exact OQ. }
  pose proof (stays_reads E [] p (fun m => cur0 <- padd m buf (rh_len h) ;; if 4 <=? rh_len h
      then q <- padd m cur0 (-4) ;; b <- strncmp_eq m q HTTP_HEADER_END_INDICATOR ;; if b then c <- padd m cur0 (-2) ;; Ret (c, rh_len h - 2) else Ret (cur0, rh_len h)
      else Ret (cur0, rh_len h)) S) as K. rewrite write_nil in K. eapply grows_imp; [apply K|].
  - intros w. unfold p. next. destruct (4 <=? rh_len h); [|rewrite run_ret; reflexivity]. do 2 next. destruct a1; [|rewrite run_ret; reflexivity]. next. rewrite run_ret. reflexivity.
  - intros cb Y _ (->&H). split; [reflexivity|]. rewrite padd_ok in H by lia. cbn [bind] in H. unfold back, ends4. destruct (Z.leb_spec 4 (rh_len h)); cbn [andb]; [|congruence].
    rewrite padd_ok in H by (cbn [poff pb po]; lia). cbn [bind] in H. rewrite poff_poff in H. rewrite strncmp_eq_ok in H by (change (zlen HTTP_HEADER_END_INDICATOR) with 4; unfold object, poff; cbn [pb po]; lia). cbn [bind] in H.
    change (zlen HTTP_HEADER_END_INDICATOR) with 4 in H. replace (rh_len h + -4) with (rh_len h - 4) in H by lia. destruct (beqb _ _); [|congruence]. rewrite padd_ok in H by (cbn [poff pb po]; lia). cbn [bind] in H. rewrite poff_poff in H.
    injection H as <-. reflexivity.
Qed.
Lemma grows_addHeader (E : env) cfg h buf field fl value vl f v : add_ok cfg m0 h buf field fl value vl f v -> q = poff buf (back m0 buf (rh_len h)) ->
  grows (fun _ Y => Y = add_text (rh_bufLen h) (back m0 buf (rh_len h)) f v) [] (addHeader_p cfg h field fl value vl m0).
Proof.
  intros (Hb & O & L & Af & Av & Pf & Pv & Df & Dv & W) HQ. pose proof (back_bounds m0 buf (rh_len h) ltac:(lia)) as Bb. set (b := back m0 buf (rh_len h)) in *.
  pose proof O as (O1&O2&O3). pose proof Af as (Lf&_). pose proof Av as (Lv&_).
  assert (OB : forall X : bytes, zlen X <= rh_bufLen h - b -> object m0 q (zlen X)) by (intros X LX; pose proof (zlen_nonneg X); rewrite HQ; unfold object, poff; cbn [pb po]; lia).
  assert (OQ : object m0 q 0) by (apply (OB []); change (zlen []) with 0; lia).
  unfold addHeader_p. rewrite Hb. unfold fixed, reading. rewrite (arg_not_null _ _ _ _ Af), (arg_not_null _ _ _ _ Av). replace (fl =? 0) with false by lia. replace (vl =? 0) with false by lia. cbn [negb assert_at].
  unfold pbind at 1. cbn [tbind]. unfold pbind at 1. cbn [tbind]. unfold pbind at 1. cbn [tbind]. unfold pbind at 1. cbn [tbind].
  pose proof (reads_back E h buf Hb O L OQ) as RB.
  match type of RB with grows _ _ (pbind ?x ?k m0) => match goal with |- grows _ _ (pbind x ?g m0) => assert (ASS : pbind x g m0 = tbind (pbind x k m0) (fun cb => let (cur, back) := cb in
      let toAdd := (fl + 2 + vl + 2 + 2) mod SZ cfg in
      if (back + toAdd) mod SZ cfg <=? rh_bufLen h
      then
        ok <~ httpHeaderStrncpy_p cur field fl true ;;
        if negb ok then pret (HTTPSecurityAlertInvalidCharacter, h)
        else
          cur1 <~ padd_p cur fl ;;
          _ <~ memcpy_p cur1 (SLit HTTP_HEADER_FIELD_SEPARATOR) 2 ;;
          cur2 <~ padd_p cur1 2 ;;
          ok2 <~ httpHeaderStrncpy_p cur2 value vl false ;;
          if negb ok2 then pret (HTTPSecurityAlertInvalidCharacter, h)
          else
            cur3 <~ padd_p cur2 vl ;;
            _ <~ memcpy_p cur3 (SLit HTTP_HEADER_END_INDICATOR) 4 ;;
            pret (HTTPSuccess, set_rh_len h ((back + toAdd) mod SZ cfg))
      else pret (HTTPInsufficientMemory, h))) end end.
  { unfold pbind, padd_p, reading. destruct (padd m0 buf (rh_len h)); reflexivity. }
  rewrite ASS. clear ASS. eapply grows_bind; [exact RB|]. clear RB. intros [cur bk] Y (->&EQ) _. injection EQ as -> ->. fold b. rewrite write_nil. cbv zeta. fold b.
  rewrite (Z.mod_small (fl + 2 + vl + 2 + 2)) by lia. rewrite (Z.mod_small (b + _)) by lia. replace (b + (fl + 2 + vl + 2 + 2)) with (b + fl + vl + 6) by lia. unfold add_text. rewrite Lf, Lv.
  destruct (Z.leb_spec (b + fl + vl + 6) (rh_bufLen h)) as [Fit|]; [|rewrite <- (write_nil m0 q) at 1; apply grows_ret; auto].
  rewrite <- (write_nil m0 q) at 1. rewrite <- HQ.
  unfold pbind at 1. eapply grows_bind; [apply (grows_hstrncpy E); [change (zlen []) with 0; rewrite poff_0; reflexivity|exact OQ|rewrite write_nil; exact Af|rewrite HQ; eapply arg_apart_sub; [exact Df|reflexivity|lia|lia]]|].
  intros ok X1 (->&->) OX1. cbn [app]. destruct (all_legal true f) eqn:Lgf; cbn [negb]; [|apply grows_ret; auto; rewrite app_nil_l; auto].
  rewrite (lpre_legal true f Lgf). cbn [app] in OX1. rewrite (lpre_legal true f Lgf) in OX1.
  assert (KEEP : forall X s n d, object m0 q (zlen X) -> zlen X + n <= rh_bufLen h - b -> arg m0 s n d -> arg_apart (poff buf b) (rh_bufLen h - b) s n -> arg (write m0 q X) s n d).
  { intros X s n d OX LX A D. eapply arg_same; [exact A|apply same_outside_write; exact OX|]. rewrite HQ. eapply arg_apart_sub; [exact D|reflexivity|lia|]. pose proof A as (Ld&_). pose proof (zlen_nonneg d). lia. }
  unfold pbind at 1. eapply grows_bind; [apply (stays_reads E _ (padd_p q fl) (fun m => padd m q fl)); [apply stays_reading; exact OX1|apply same_padd]|]. intros c1 Y (->&P1) _. cbn beta. apply padd_inv in P1. subst c1.
  unfold pbind at 1. eapply grows_bind; [apply (grows_memcpy E) with (d := HTTP_HEADER_FIELD_SEPARATOR); [rewrite Lf; reflexivity|exact OX1|apply (arg_lit _ HTTP_HEADER_FIELD_SEPARATOR)|lia]|]. intros _ Y -> OX2. cbn beta.
  unfold pbind at 1. eapply grows_bind; [apply (stays_reads E _ (padd_p (poff q fl) 2) (fun m => padd m (poff q fl) 2)); [apply stays_reading; exact OX2|apply same_padd]|]. intros c2 Y (->&P2) _. cbn beta. apply padd_inv in P2. rewrite poff_poff in P2. subst c2.
  assert (L2 : zlen (f ++ HTTP_HEADER_FIELD_SEPARATOR) = fl + 2) by (rewrite zlen_app, Lf; reflexivity).
  unfold pbind at 1. eapply grows_bind; [apply (grows_hstrncpy E); [rewrite L2; reflexivity|exact OX2| |]|].
  { apply KEEP; [exact OX2|rewrite L2; lia|exact Av|exact Dv]. }
  { rewrite HQ. rewrite poff_poff. eapply arg_apart_sub; [exact Dv|reflexivity| |]; cbn [poff po]; lia. }
  intros ok X3 (->&->) OX3. cbn beta. destruct (all_legal false v) eqn:Lgv; cbn [negb]; [|apply grows_ret; auto; rewrite <- app_assoc; auto].
  rewrite (lpre_legal false v Lgv). rewrite (lpre_legal false v Lgv) in OX3.
  assert (L3 : zlen ((f ++ HTTP_HEADER_FIELD_SEPARATOR) ++ v) = fl + 2 + vl) by (rewrite zlen_app, L2, Lv; reflexivity).
  unfold pbind at 1. eapply grows_bind; [apply (stays_reads E _ (padd_p (poff q (fl + 2)) vl) (fun m => padd m (poff q (fl + 2)) vl)); [apply stays_reading; exact OX3|apply same_padd]|]. intros c3 Y (->&P3) _. cbn beta. apply padd_inv in P3. rewrite poff_poff in P3. subst c3.
  unfold pbind at 1. eapply grows_bind; [apply (grows_memcpy E) with (d := HTTP_HEADER_END_INDICATOR); [rewrite L3; reflexivity|exact OX3|apply (arg_lit _ HTTP_HEADER_END_INDICATOR)|lia]|]. intros _ Y -> OX4. cbn beta.
  apply grows_ret; [exact OX4|]. rewrite <- !app_assoc. reflexivity.
Qed.

(** ** The request line *)
Lemma grows_requestLine (E : env) cfg h buf method ml path pl me p : q = buf -> rh_buf h = Some buf -> object m0 buf (rh_bufLen h) -> 0 <= rh_len h ->
  arg m0 method ml me -> 0 < ml -> arg_apart buf (rh_bufLen h) method ml -> path_arg m0 path pl p -> 0 <= pl -> arg_apart buf (rh_bufLen h) path pl -> ml + pl + 13 + rh_len h < SZ cfg ->
  grows (fun _ Y => Y = if rh_bufLen h <? zlen (request_line me p) + rh_len h then [] else request_line me p) [] (writeRequestLine_p cfg h method ml path pl m0).
Proof.
  intros HQ Hb O Hl Am Pm Dm Pp Hpl Dp W. rewrite <- HQ in *. clear HQ. pose proof O as (O1&O2&O3). pose proof Am as (Lm&_).
  assert (OQ : object m0 q 0) by (unfold object; lia).
  unfold writeRequestLine_p. rewrite Hb. unfold fixed, reading. rewrite (arg_not_null _ _ _ _ Am). replace (ml =? 0) with false by lia. cbn [negb assert_at].
  unfold pbind at 1. cbn [tbind]. unfold pbind at 1. cbn [tbind]. set (noPath := is_null path || (pl =? 0)).
  assert (HP : exists ps pn, arg m0 ps pn p /\ arg_apart q (rh_bufLen h) ps pn /\ 0 < pn <= pl + 1 /\ (if noPath then zlen HTTP_EMPTY_PATH else pl) = pn /\
     (forall c2, (if noPath then _ <~ memcpy_p c2 (SLit HTTP_EMPTY_PATH) (zlen HTTP_EMPTY_PATH) ;; padd_p c2 (zlen HTTP_EMPTY_PATH) else _ <~ memcpy_p c2 path pl ;; padd_p c2 pl) = (_ <~ memcpy_p c2 ps pn ;; padd_p c2 pn))).
  { destruct Pp as [(N&->)|(N1&N2&A)].
    - exists (SLit HTTP_EMPTY_PATH), (zlen HTTP_EMPTY_PATH). assert (noPath = true) as -> by (unfold noPath; destruct N as [->| ->]; simpl; auto; rewrite orb_true_r; auto).
      split; [apply (arg_lit _ HTTP_EMPTY_PATH)|]. split; [exact I|]. split; [change (zlen HTTP_EMPTY_PATH) with 1; lia|]. split; auto.
    - exists path, pl. assert (noPath = false) as ->. { unfold noPath. destruct path; simpl; try congruence; lia. }
      split; [auto|]. split; [auto|]. split; [lia|]. split; auto. }
  destruct HP as (ps & pn & Ap & Dps & Hpn & -> & HP). pose proof Ap as (Lp&_).
  assert (LV : zlen HTTP_PROTOCOL_VERSION = 8) by reflexivity. rewrite LV. assert (LL : zlen HTTP_HEADER_LINE_SEPARATOR = 2) by reflexivity.
  assert (LR : zlen (request_line me p) = ml + pn + 12).
  { unfold request_line. rewrite !zlen_app. change (zlen (B " ")) with 1. change (zlen (B " HTTP/1.1")) with 9. change (zlen CRLF) with 2. lia. }
  rewrite (Z.mod_small (ml + 1 + 1 + 8 + 2 + pn)) by lia. rewrite Z.mod_small by lia. rewrite LR. replace (ml + 1 + 1 + 8 + 2 + pn) with (ml + pn + 12) by lia.
  destruct (Z.ltb_spec (rh_bufLen h) (ml + pn + 12 + rh_len h)) as [|Fit]; [rewrite <- (write_nil m0 q) at 1; apply grows_ret; auto|].
  assert (KEEP : forall X s n d, object m0 q (zlen X) -> zlen X + n <= rh_bufLen h -> arg m0 s n d -> arg_apart q (rh_bufLen h) s n -> arg (write m0 q X) s n d).
  { intros X s n d OX LX A D. eapply arg_same; [exact A|apply same_outside_write; exact OX|]. eapply arg_apart_sub; [exact D|reflexivity|lia|]. pose proof A as (Ld&_). pose proof (zlen_nonneg d). lia. }
  assert (PADD : forall X (r : ptr) n (C : Type) (k : ptr -> prog C) Q, object m0 q (zlen X) -> grows Q X (k (poff r n) (write m0 q X)) -> grows Q X (pbind (padd_p r n) k (write m0 q X))).
  { intros X r n C k Q OX G. unfold pbind. eapply grows_bind; [apply (stays_reads E _ (padd_p r n) (fun m => padd m r n)); [apply stays_reading; exact OX|apply same_padd]|]. intros c Y (->&P1) _. apply padd_inv in P1. subst c. exact G. }
  rewrite <- (write_nil m0 q) at 1.
  unfold pbind at 1. eapply grows_bind; [apply (grows_memcpy E) with (d := me); [change (zlen []) with 0; rewrite poff_0; reflexivity|exact OQ|rewrite write_nil; exact Am|lia]|]. intros _ Y -> OX1. cbn beta. cbn [app] in *.
  apply PADD; [exact OX1|]. unfold pbind at 1. eapply grows_bind; [apply grows_storen; [rewrite Lm; reflexivity|exact OX1]|]. intros _ Y -> OX2. cbn beta.
  assert (L2 : zlen (me ++ [SPACE]) = ml + 1) by (rewrite zlen_app, Lm; reflexivity).
  apply PADD; [exact OX2|]. rewrite poff_poff. rewrite HP.
  assert (A2 : arg (write m0 q (me ++ [SPACE])) ps pn p) by (apply KEEP; [exact OX2|rewrite L2; lia|exact Ap|exact Dps]).
  unfold pbind at 1. apply grows_bind with (Q1 := fun c Y => Y = (me ++ [SPACE]) ++ p /\ c = poff q (ml + 1 + pn)).
  { unfold pbind. eapply grows_bind; [apply (grows_memcpy E) with (d := p); [rewrite L2; reflexivity|exact OX2|exact A2|lia]|]. intros _ Y -> OY. cbn beta.
    eapply grows_imp; [apply (stays_reads E _ (padd_p (poff q (ml + 1)) pn) (fun m => padd m (poff q (ml + 1)) pn)); [apply stays_reading; exact OY|apply same_padd]|]. intros c Y _ (->&P1). apply padd_inv in P1. rewrite poff_poff in P1. auto. }
  intros c Y (->&->) OX3. cbn beta. assert (L3 : zlen ((me ++ [SPACE]) ++ p) = ml + 1 + pn) by (rewrite zlen_app, L2; lia).
  unfold pbind at 1. eapply grows_bind; [apply grows_storen; [rewrite L3; reflexivity|exact OX3]|]. intros _ Y -> OX4. cbn beta.
  assert (L4 : zlen (((me ++ [SPACE]) ++ p) ++ [SPACE]) = ml + 1 + pn + 1) by (rewrite zlen_app, L3; reflexivity).
  apply PADD; [exact OX4|]. rewrite poff_poff.
  unfold pbind at 1. eapply grows_bind; [apply (grows_memcpy E) with (d := HTTP_PROTOCOL_VERSION); [rewrite L4; reflexivity|exact OX4|apply (arg_lit _ HTTP_PROTOCOL_VERSION)|lia]|]. intros _ Y -> OX5. cbn beta.
  assert (L5 : zlen ((((me ++ [SPACE]) ++ p) ++ [SPACE]) ++ HTTP_PROTOCOL_VERSION) = ml + 1 + pn + 1 + 8) by (rewrite zlen_app, L4; reflexivity).
  apply PADD; [exact OX5|]. rewrite poff_poff.
  unfold pbind at 1. eapply grows_bind; [apply (grows_memcpy E) with (d := HTTP_HEADER_LINE_SEPARATOR); [rewrite L5; reflexivity|exact OX5|apply (arg_lit _ HTTP_HEADER_LINE_SEPARATOR)|lia]|]. intros _ Y -> OX6. cbn beta.
  apply grows_ret; [exact OX6|]. unfold request_line. rewrite <- !app_assoc. reflexivity.
Qed.

(** ** Moments *)
Lemma grows_end {A} (E : env) (Q : A -> bytes -> Prop) t : forall X w a w', grows Q X t -> exec E t w = Ret (a, w') -> exists Y, ord X Y /\ object m0 q (zlen Y) /\ w_mem w' = write m0 q Y /\ Q a Y.
Proof.
  induction t as [a0 m|k|l| |c m k IH]; intros X w a w' G H; cbn [grows exec] in *; try discriminate.
  - injection H as <- <-. destruct G as (Y&O1&F&->&G). exists Y. auto.
  - destruct c; try contradiction. destruct G as (X'&O1&F&E1&G). cbn [answer] in H. destruct (IH _ _ _ _ _ _ _ G H) as (Y&O2&R). exists Y. split; [eauto|exact R].
Qed.
Lemma moment_grows {A} (Q : A -> bytes -> Prop) X0 (p : prog A) m f a m' m1 : (forall E, samew E p f) -> f m = Ret (a, m') -> m = write m0 q X0 -> object m0 q (zlen X0) -> grows Q X0 (p m) -> moment p m m1 ->
  exists X Y, ord X0 X /\ ord X Y /\ object m0 q (zlen X) /\ object m0 q (zlen Y) /\ m1 = write m0 q X /\ m' = write m0 q Y /\ Q a Y.
Proof.
  intros S F M O G (E&w&k1&R).
  assert (X : exec E (p m) w = Ret (a, set_mem w m')).
  { pose proof (S E (set_mem w m)) as H. unfold run in H. cbn [w_mem set_mem] in H. rewrite F in H. pose proof (exec_mem E (p m) w m) as H2.
    destruct (exec E (p m) (set_mem w m)) as [[a1 w1]| | |]; cbn [rr] in H; try contradiction. destruct (exec E (p m) w) as [[a2 w2]| | |]; cbn [rr] in H2; try contradiction. injection H as -> ->. injection H2 as -> ->. reflexivity. }
  assert (INV : match k1 with
    | Going p1 w1 => exists X w2, ord X0 X /\ object m0 q (zlen X) /\ m1 = write m0 q X /\ grows Q X (p1 m1) /\ exec E (p1 m1) w1 = Ret (a, w2) /\ w_mem w2 = m'
    | Ended x => exists Y, ord X0 Y /\ object m0 q (zlen Y) /\ m1 = write m0 q Y /\ m' = write m0 q Y /\ Q a Y end).
  { induction R as [|m1 k1 m2 k2 R IH GO]; [exists X0, (set_mem w m'); auto 10|]. destruct k1 as [p1 w1|x]; cbn [go] in GO.
    - destruct IH as (X1&w2&OX&OB&->&G1&EX&MW). destruct (p1 (write m0 q X1)) as [b mb|k|l| |c mb k]; cbn [exec] in EX; try discriminate.
      + injection GO as <- <-. injection EX as -> <-. cbn [w_mem set_mem] in MW. destruct G1 as (Y&OY&OB2&->&HQ). exists Y. eauto 10.
      + cbn [grows] in G1. destruct c; try contradiction. cbn [answer] in *. injection GO as <- <-. destruct G1 as (X2&OX2&OB2&->&G2). exists X2, w2. eauto 10.
    - injection GO as <- <-. exact IH. }
  destruct k1 as [p1 w1|x].
  - destruct INV as (X1&w2&OX&OB&->&G1&EX&<-). destruct (grows_end E Q _ _ _ _ _ G1 EX) as (Y&OY&OB2&MY&HQ). exists X1, Y. auto 10.
  - destruct INV as (Y&OY&OB&->&->&HQ). exists Y, Y. auto 10.
Qed.
End Grow.

(** ** Writing over what is there *)
Lemma splice_over (l X Y : bytes) o b : 0 <= o -> 0 <= b <= zlen X -> o + zlen X <= zlen l -> splice (splice l o X) (o + b) Y = splice l o (splice X b Y).
Proof.
  intros Ho Hb L. unfold splice, zlen in *. rewrite Z2Nat.inj_add by lia. set (o' := Z.to_nat o). set (b' := Z.to_nat b).
  assert (L1 : length (firstn o' l) = o') by (rewrite firstn_length; lia). assert (B1 : (b' <= length X)%nat) by lia.
  rewrite firstn_app, L1. rewrite (firstn_all2 (firstn o' l)) by lia. replace (o' + b' - o')%nat with b' by lia. rewrite firstn_app. replace (b' - length X)%nat with O by lia. rewrite firstn_O, app_nil_r.
  rewrite skipn_app, L1. rewrite (skipn_all2 (firstn o' l)) by lia. replace (o' + b' + length Y - o')%nat with (b' + length Y)%nat by lia. rewrite skipn_app. cbn [app].
  rewrite <- !app_assoc. do 4 f_equal. rewrite skipn_skipn'. f_equal. rewrite !app_length, firstn_length, skipn_length. lia.
Qed.
Lemma splice_zl (X Y : bytes) b : 0 <= b <= zlen X -> zlen (splice X b Y) = Z.max (zlen X) (b + zlen Y).
Proof. intros H. unfold splice, zlen in *. rewrite !app_length, firstn_length, skipn_length. lia. Qed.
Lemma write_over m q X b Y : 0 <= b <= zlen X -> object m q (zlen (splice X b Y)) -> write (write m q X) (poff q b) Y = write m q (splice X b Y).
Proof.
  intros H O. rewrite splice_zl in O by exact H. pose proof (zlen_nonneg Y) as NY. pose proof O as (O1&O2&O3). assert (OX : object m q (zlen X)) by (unfold object; lia).
  assert (OS : object m q (zlen (splice X b Y))) by (rewrite splice_zl by exact H; exact O).
  apply mem_ext; [rewrite !write_length; auto|]. intros c. rewrite blk_write; [|apply object_write; auto; unfold object, poff; cbn [pb po]; lia]. rewrite !blk_write by assumption. cbn [poff pb po].
  destruct (Nat.eqb_spec (pb q) c) as [<-|]; auto. apply splice_over; lia.
Qed.
Lemma splice_0 (X Y : bytes) : zlen X <= zlen Y -> splice X 0 Y = Y.
Proof. intros H. unfold splice, zlen in *. change (Z.to_nat 0) with O. cbn [firstn app]. rewrite skipn_all2 by lia. apply app_nil_r. Qed.
Definition lenle (X Y : bytes) : Prop := zlen X <= zlen Y.
Lemma lenle_refl X : lenle X X. Proof. unfold lenle. lia. Qed.
Lemma lenle_trans X Y Z : lenle X Y -> lenle Y Z -> lenle X Z. Proof. unfold lenle. lia. Qed.
Lemma lenle_app X d : lenle X (X ++ d). Proof. unfold lenle. rewrite zlen_app. pose proof (zlen_nonneg d). lia. Qed.
Lemma beginning_refl X : beginning X X. Proof. exists []. rewrite app_nil_r. reflexivity. Qed.
Lemma beginning_trans X Y Z : beginning X Y -> beginning Y Z -> beginning X Z. Proof. intros (r&->) (r'&->). exists (r ++ r'). rewrite app_assoc. reflexivity. Qed.
Lemma beginning_app X d : beginning X (X ++ d). Proof. exists d. reflexivity. Qed.
Lemma grows_rebase {A} m q (Q : A -> bytes -> Prop) X b t : 0 <= b <= zlen X -> object m q (zlen X) -> forall Y0, grows lenle (write m q X) (poff q b) Q Y0 t ->
  grows lenle m q (fun a Z => exists Y, Z = splice X b Y /\ Q a Y) (splice X b Y0) t.
Proof.
  intros H O. assert (OS : forall Y, object (write m q X) (poff q b) (zlen Y) -> object m q (zlen (splice X b Y))).
  { intros Y OY. apply object_write in OY; [|exact O]. rewrite splice_zl by exact H. unfold object, poff in *. cbn [pb po] in *. lia. }
  induction t as [a m1|k|l| |c m1 k IH]; intros Y0 G; cbn [grows] in *; auto.
  - destruct G as (Y&L&OY&->&HQ). exists (splice X b Y). split; [unfold lenle in *; rewrite !splice_zl by exact H; lia|]. split; [apply OS; exact OY|]. split; [apply write_over; [exact H|apply OS; exact OY]|]. eauto.
  - destruct c; auto. destruct G as (Y&L&OY&->&G). exists (splice X b Y). split; [unfold lenle in *; rewrite !splice_zl by exact H; lia|]. split; [apply OS; exact OY|]. split; [apply write_over; [exact H|apply OS; exact OY]|].
    apply IH. exact G.
Qed.
Lemma grows_same {A} ord m q (Q : A -> bytes -> Prop) X (p : prog A) f m' : (forall E, samew E p f) -> grows ord m q Q X (p m') -> grows ord m q (fun a Y => Q a Y /\ f m' = Ret (a, write m q Y)) X (p m').
Proof.
  intros S G. apply (grows_exec ord m q (mkenv (fun _ _ => 0) (fun _ _ => (0, [])) (fun _ => 0))) in G. eapply grows_imp; [exact G|]. intros a Y O (H&K). split; [exact H|]. specialize (S (mkenv (fun _ _ => 0) (fun _ _ => (0, [])) (fun _ => 0)) (mkw m' 0 0 0 [])).
  unfold run in S. cbn [w_mem] in S. rewrite K in S. destruct (f m') as [[a' m2]| | |]; cbn [rr fst snd] in S; try contradiction. injection S as -> ->. reflexivity.
Qed.

(** ** HTTPClient_InitializeRequestHeaders *)
Section Init.
Variables (cfg : config) (m : mem) (buf : ptr) (n : Z).
Hypothesis OB : object m buf n.
Definition good_h (h : reqHeaders) (T : bytes) : Prop := rh_buf h = Some buf /\ rh_bufLen h = n /\ rh_len h = zlen T.
(** From the text [T], the call leads to [st], [h] and the text [T'], whatever the buffer held before. *)
Definition does (T : bytes) (F : mem -> res (status * reqHeaders * mem)) (p : prog (status * reqHeaders)) (st : status) (h : reqHeaders) (T' : bytes) : Prop :=
  (forall m', same_outside m m' buf n -> F (write m' buf T) = Ret (st, h, write m' buf T')) /\
  grows lenle m buf (fun a Y => a = (st, h) /\ Y = T') T (p (write m buf T)) /\ zlen T' <= n /\ (st = HTTPSuccess -> good_h h T').
Definition bk (T : bytes) : Z := if (4 <=? zlen T) && beqb (slice T (zlen T - 4) 4) HTTP_HEADER_END_INDICATOR then zlen T - 2 else zlen T.
Lemma back_text m' T : object m' buf (zlen T) -> back (write m' buf T) buf (zlen T) = bk T.
Proof.
  intros O. unfold back, bk, ends4. destruct (Z.leb_spec 4 (zlen T)); cbn [andb]; [|reflexivity].
  replace (bytes_at (write m' buf T) (poff buf (zlen T - 4)) 4) with (slice T (zlen T - 4) 4); [reflexivity|].
  pose proof (bytes_at_write_same m' buf T O) as H1. rewrite <- H1 at 1. unfold bytes_at. cbn [poff pb po]. pose proof (proj2 (object_write m' buf T buf (zlen T) O) O) as O2. unfold object in O2. rewrite slice_slice by lia. f_equal; lia.
Qed.
Lemma obj_sub m' k : same_outside m m' buf n -> 0 <= k <= n -> object m' buf k.
Proof. intros S H. pose proof OB as O. apply (same_outside_object _ _ _ _ buf n S) in O. unfold object in *. lia. Qed.
Lemma does_add h T field fl value vl f v : good_h h T -> zlen T <= n -> arg_for m buf n field fl f -> arg_for m buf n value vl v -> 0 < fl -> 0 < vl -> n + fl + vl + 6 < SZ cfg ->
  exists st h' T', does T (fun m => addHeader cfg m h field fl value vl) (addHeader_p cfg h field fl value vl) st h' T'.
Proof.
  intros (G1&G2&G3) L (Af&Df) (Av&Dv) Pf Pv W. pose proof (zlen_nonneg T) as NT. pose proof OB as (B1&B2&B3).
  assert (BK : 0 <= bk T <= zlen T) by (unfold bk; destruct (Z.leb_spec 4 (zlen T)); cbn [andb]; [destruct (beqb _ _)|]; lia).
  assert (AOK : forall m', same_outside m m' buf n -> add_ok cfg (write m' buf T) h buf field fl value vl f v).
  { intros m' S. assert (S2 : same_outside m (write m' buf T) buf n).
    { eapply same_outside_trans; [exact S|]. eapply same_outside_weaken; [apply same_outside_write; apply obj_sub; [exact S|lia]|reflexivity|lia|lia]. }
    apply add_ok_apart; auto; try lia.
    - rewrite G2. apply object_write; [apply obj_sub; [exact S|lia]|]. apply obj_sub; [exact S|lia].
    - rewrite G2. split; [|exact Df]. eapply arg_same; eauto.
    - rewrite G2. split; [|exact Dv]. eapply arg_same; eauto. }
  pose proof Af as (Lf&_). pose proof Av as (Lv&_). set (A := add_text n (bk T) f v).
  assert (LA : bk T + zlen A <= n).
  { unfold A, add_text. destruct (Z.leb_spec (bk T + zlen f + zlen v + 6) n); [|change (zlen []) with 0; lia]. pose proof (lpre_len true f). pose proof (lpre_len false v). destruct (all_legal true f); cbn [negb]; [|lia].
    destruct (all_legal false v); cbn [negb]; rewrite !zlen_app; change (zlen HTTP_HEADER_FIELD_SEPARATOR) with 2; change (zlen HTTP_HEADER_END_INDICATOR) with 4; lia. }
  assert (LT : zlen (splice T (bk T) A) = Z.max (zlen T) (bk T + zlen A)) by (apply splice_zl; exact BK). pose proof (zlen_nonneg A) as NA.
  set (st := if bk T + fl + vl + 6 <=? n then if negb (all_legal true f) then HTTPSecurityAlertInvalidCharacter else if negb (all_legal false v) then HTTPSecurityAlertInvalidCharacter else HTTPSuccess else HTTPInsufficientMemory).
  set (h' := if is_success st then set_rh_len h (bk T + fl + vl + 6) else h).
  assert (FUN : forall m', same_outside m m' buf n -> addHeader cfg (write m' buf T) h field fl value vl = Ret (st, h', write m' buf (splice T (bk T) A))).
  { intros m' S. rewrite (addHeader_ok cfg (write m' buf T) h buf field fl value vl f v (AOK m' S)). rewrite G3, back_text by (apply obj_sub; [exact S|lia]). rewrite G2. rewrite <- (write_over m' buf T (bk T) A BK) by (apply obj_sub; [exact S|lia]).
    unfold h', st, A, add_text. rewrite Lf, Lv. destruct (bk T + fl + vl + 6 <=? n); cbn [is_success]; [|rewrite write_nil; reflexivity]. destruct (all_legal true f); cbn [negb is_success]; [|reflexivity]. destruct (all_legal false v); cbn [negb is_success]; reflexivity. }
  exists st, h', (splice T (bk T) A). split; [exact FUN|]. pose proof (same_outside_refl m buf n) as SR. pose proof (AOK m SR) as AM.
  split; [|split; [lia|]].
  - pose proof (grows_addHeader lenle lenle_refl lenle_trans lenle_app (write m buf T) (poff buf (bk T)) (mkenv (fun _ _ => 0) (fun _ _ => (0, [])) (fun _ => 0)) cfg h buf field fl value vl f v AM) as G.
    rewrite G3, back_text in G by (apply obj_sub; [exact SR|lia]). rewrite G2 in G. specialize (G eq_refl). fold A in G. apply (grows_rebase m buf _ T (bk T)) in G; [|exact BK|apply obj_sub; [exact SR|lia]]. rewrite splice_nil in G.
    apply (grows_same _ _ _ _ _ _ (fun m => addHeader cfg m h field fl value vl)) in G; [|intros E; apply same_addHeader]. eapply grows_imp; [exact G|]. intros a Y OY ((Z0&->&->)&H). split; [|reflexivity]. rewrite (FUN m SR) in H. congruence.
  - intros ES. unfold h'. rewrite ES. cbn [is_success]. split; [exact G1|]. split; [exact G2|]. cbn [set_rh_len rh_len]. rewrite LT. unfold A, add_text. rewrite Lf, Lv. unfold st in ES.
    destruct (bk T + fl + vl + 6 <=? n); [|discriminate]. destruct (all_legal true f); cbn [negb] in *; [|discriminate]. destruct (all_legal false v); cbn [negb] in *; [|discriminate]. rewrite !zlen_app, Lf, Lv. change (zlen HTTP_HEADER_FIELD_SEPARATOR) with 2. change (zlen HTTP_HEADER_END_INDICATOR) with 4.
    assert (zlen T - 2 <= bk T) by (unfold bk; destruct (_ && _); lia). lia.
Qed.
Lemma does_nothing h T : good_h h T -> zlen T <= n -> does T (fun m => Ret (HTTPSuccess, h, m)) (pret (HTTPSuccess, h)) HTTPSuccess h T.
Proof. intros G L. pose proof (zlen_nonneg T). split; [reflexivity|]. split; [|auto]. apply grows_ret; auto using lenle_refl. apply obj_sub; [apply same_outside_refl|lia]. Qed.
Lemma does_then T F p st h T1 G g : does T F p st h T1 -> (st = HTTPSuccess -> exists st2 h2 T2, does T1 (G h) (g h) st2 h2 T2) -> exists st2 h2 T2, does T (fun m => andThen (F m) (fun h m => G h m)) (andThen_p p g) st2 h2 T2.
Proof.
  intros (D1&D2&D3&D4) K. destruct (is_success st) eqn:ES.
  - apply is_success_eq in ES. destruct (K ES) as (st2&h2&T2&(K1&K2&K3&K4)). exists st2, h2, T2. split; [|split; [|auto]].
    + intros m' S. unfold andThen. rewrite (D1 m' S). cbn [bind]. rewrite ES. cbn [is_success]. apply K1. exact S.
    + unfold andThen_p, pbind. eapply grows_bind; [exact lenle_trans|exact D2|]. intros a Y (->&->) _. rewrite ES. cbn [is_success]. exact K2.
  - exists st, h, T1. split; [|split; [|auto]].
    + intros m' S. unfold andThen. rewrite (D1 m' S). cbn [bind]. rewrite ES. reflexivity.
    + unfold andThen_p, pbind. eapply grows_bind; [exact lenle_trans|exact D2|]. intros a Y (->&->) O. rewrite ES. apply grows_ret; auto using lenle_refl.
Qed.
Lemma does_line h method ml path pl me p : rh_buf h = Some buf -> rh_bufLen h = n -> arg m method ml me -> 0 < ml -> arg_apart buf n method ml -> path_arg m path pl p -> 0 <= pl -> arg_apart buf n path pl -> ml + pl + 13 < SZ cfg ->
  exists st h' T', does [] (fun m => writeRequestLine cfg m (set_rh_len h 0) method ml path pl) (writeRequestLine_p cfg (set_rh_len h 0) method ml path pl) st h' T'.
Proof.
  intros G1 G2 Am Pm Dm Pp Hpl Dp W. set (h0 := set_rh_len h 0).
  assert (PA : forall m', same_outside m m' buf n -> path_arg m' path pl p) by (intros m' S; destruct Pp as [P|(N1&N2&A)]; [left; exact P|right; split; [auto|]; split; [auto|]; eapply arg_same; eauto]).
  assert (FUN : forall m', same_outside m m' buf n -> writeRequestLine cfg m' h0 method ml path pl = if n <? zlen (request_line me p) then Ret (HTTPInsufficientMemory, h0, m') else Ret (HTTPSuccess, set_rh_len h0 (zlen (request_line me p)), write m' buf (request_line me p))).
  { intros m' S. rewrite (writeRequestLine_ok cfg m' h0 buf method ml path pl me p); unfold h0; cbn [set_rh_len rh_buf rh_bufLen rh_len]; rewrite ?G2; auto; try lia; [rewrite Z.add_0_r; reflexivity|apply obj_sub; [exact S|destruct OB; lia]|eapply arg_same; eauto]. }
  pose proof (same_outside_refl m buf n) as SR.
  pose proof (grows_requestLine lenle lenle_refl lenle_trans lenle_app m buf (mkenv (fun _ _ => 0) (fun _ _ => (0, [])) (fun _ => 0)) cfg h0 buf method ml path pl me p eq_refl G1) as G. cbn [h0 set_rh_len rh_bufLen rh_len] in G. fold h0 in G. rewrite G2, Z.add_0_r in G.
  specialize (G OB ltac:(lia) Am Pm Dm Pp Hpl Dp ltac:(unfold h0; cbn [set_rh_len rh_len]; lia)). apply (grows_same _ _ _ _ _ _ (fun m => writeRequestLine cfg m h0 method ml path pl)) in G; [|intros E; apply same_requestLine]. rewrite (FUN m SR) in G.
  destruct (Z.ltb_spec n (zlen (request_line me p))).
  - exists HTTPInsufficientMemory, h0, []. split; [intros m' S; rewrite write_nil; apply FUN; exact S|]. split; [|split; [change (zlen []) with 0; destruct OB; lia|discriminate]]. rewrite write_nil. eapply grows_imp; [exact G|]. intros a Y _ (HY&K). rewrite Z.add_0_r in HY. replace (n <? zlen (request_line me p)) with true in HY by lia. split; [congruence|exact HY].
  - exists HTTPSuccess, (set_rh_len h0 (zlen (request_line me p))), (request_line me p). split; [intros m' S; rewrite write_nil; apply FUN; exact S|]. split; [|split; [lia|]]. 
    + rewrite write_nil. eapply grows_imp; [exact G|]. intros a Y _ (HY&K). rewrite Z.add_0_r in HY. replace (n <? zlen (request_line me p)) with false in HY by lia. split; [congruence|exact HY].
    + intros _. split; [exact G1|]. split; [exact G2|reflexivity].
Qed.
Lemma does_init h ri me p ho : config_ok cfg -> rh_buf h = Some buf -> rh_bufLen h = n -> init_args cfg m buf n ri me p ho ->
  exists st h' T, (forall m' len, same_outside m m' buf n -> InitializeRequestHeaders cfg m' (Some (set_rh_len h len)) (Some ri) = Ret (st, Some h', write m' buf T)) /\ zlen T <= n /\
    grows lenle m buf (fun _ Y => Y = T) [] (InitializeRequestHeaders_p cfg (Some h) (Some ri) m).
Proof.
  intros (_&UAn&UAl&UAs&_&_) G1 G2 ((Am&Dm)&Pm&Pp&Hpl&Dp&Ah&Ph&W). pose proof Ah as (Ah1&Dh).
  assert (UP : 0 < zlen (UA cfg)) by (destruct (UA cfg); [congruence|zlia]). pose proof OB as (O1&_).
  assert (LIT : forall l, arg_for m buf n (SLit l) (zlen l) l) by (intros l; split; [apply arg_lit|exact I]).
  destruct (does_line h _ _ _ _ me p G1 G2 Am Pm Dm Pp Hpl Dp ltac:(lia)) as (st1&h1&T1&D1).
  edestruct (does_then [] _ _ st1 h1 T1 (fun h m => if Z.land HTTP_REQUEST_NO_USER_AGENT_FLAG (ri_flags ri) =? 0
                   then addHeader cfg m h (SLit HTTP_USER_AGENT_FIELD) (zlen HTTP_USER_AGENT_FIELD) (SLit (UA cfg)) (zlen (UA cfg)) else Ret (HTTPSuccess, h, m))
    (fun h => if Z.land HTTP_REQUEST_NO_USER_AGENT_FLAG (ri_flags ri) =? 0 then addHeader_p cfg h (SLit HTTP_USER_AGENT_FIELD) (zlen HTTP_USER_AGENT_FIELD) (SLit (UA cfg)) (zlen (UA cfg)) else pret (HTTPSuccess, h)) D1) as (st2&h2&T2&D2).
  { intros ->. pose proof D1 as (_&_&L1&GH). specialize (GH eq_refl). destruct (_ =? 0); [apply (does_add h1 T1 _ _ _ _ HTTP_USER_AGENT_FIELD (UA cfg)); auto; [reflexivity|change (zlen HTTP_USER_AGENT_FIELD) with 10; lia]|]. do 3 eexists. apply does_nothing; auto. }
  edestruct (does_then [] _ _ st2 h2 T2 (fun h m => addHeader cfg m h (SLit HTTP_HOST_FIELD) (zlen HTTP_HOST_FIELD) (ri_host ri) (ri_hostLen ri)) (fun h => addHeader_p cfg h (SLit HTTP_HOST_FIELD) (zlen HTTP_HOST_FIELD) (ri_host ri) (ri_hostLen ri)) D2) as (st3&h3&T3&D3).
  { intros ->. pose proof D2 as (_&_&L1&GH). specialize (GH eq_refl). apply (does_add h2 T2 _ _ _ _ HTTP_HOST_FIELD ho); auto; [reflexivity|change (zlen HTTP_HOST_FIELD) with 4; lia]. }
  edestruct (does_then [] _ _ st3 h3 T3 (fun h m => if negb (Z.land HTTP_REQUEST_KEEP_ALIVE_FLAG (ri_flags ri) =? 0)
                   then addHeader cfg m h (SLit HTTP_CONNECTION_FIELD) (zlen HTTP_CONNECTION_FIELD) (SLit HTTP_CONNECTION_KEEP_ALIVE_VALUE) (zlen HTTP_CONNECTION_KEEP_ALIVE_VALUE) else Ret (HTTPSuccess, h, m))
    (fun h => if negb (Z.land HTTP_REQUEST_KEEP_ALIVE_FLAG (ri_flags ri) =? 0) then addHeader_p cfg h (SLit HTTP_CONNECTION_FIELD) (zlen HTTP_CONNECTION_FIELD) (SLit HTTP_CONNECTION_KEEP_ALIVE_VALUE) (zlen HTTP_CONNECTION_KEEP_ALIVE_VALUE) else pret (HTTPSuccess, h)) D3) as (st4&h4&T4&D4).
  { intros ->. pose proof D3 as (_&_&L1&GH). specialize (GH eq_refl). destruct (negb _); [apply (does_add h3 T3 _ _ _ _ HTTP_CONNECTION_FIELD HTTP_CONNECTION_KEEP_ALIVE_VALUE); auto; try reflexivity; change (zlen HTTP_CONNECTION_FIELD) with 10; change (zlen HTTP_CONNECTION_KEEP_ALIVE_VALUE) with 10; lia|]. do 3 eexists. apply does_nothing; auto. }
  destruct D4 as (F4&R4&L4&_). exists st4, h4, T4. split; [|split; [exact L4|]].
  - intros m' len S. unfold InitializeRequestHeaders. cbn [set_rh_len rh_buf]. rewrite G1, (arg_not_null _ _ _ _ Am), (arg_not_null _ _ _ _ Ah1). replace (ri_methodLen ri =? 0) with false by lia. replace (ri_hostLen ri =? 0) with false by lia.
    change (set_rh_len (set_rh_len h len) 0) with (set_rh_len h 0). pose proof (F4 m' S) as F. rewrite (write_nil m' buf) in F. rewrite F. reflexivity.
  - unfold InitializeRequestHeaders_p. rewrite G1, (arg_not_null _ _ _ _ Am), (arg_not_null _ _ _ _ Ah1). replace (ri_methodLen ri =? 0) with false by lia. replace (ri_hostLen ri =? 0) with false by lia.
    rewrite (write_nil m buf) in R4. unfold pbind. eapply grows_bind; [exact lenle_trans|exact R4|]. intros a Y (->&->) O. apply grows_ret; auto using lenle_refl.
Qed.
End Init.
