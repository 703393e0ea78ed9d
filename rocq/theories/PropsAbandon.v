(** PropsAbandon.v — C87: a call that is abandoned at any point. *)
From Verif Require Import Base Lib ModelRequest ModelSend ModelResponse ModelReadHeader RefParser DemoResponse ModelTask SpecRequest SpecSend SpecExact SpecTask SpecAbandon ProofsTask ProofsLocal ProofsLocal2 ProofsDecimal ProofsRequest ProofsRequest2 ProofsSend ProofsAbandon PropsSend PropsExchange PropsExact PropsTask Demo.

(** ** Adding a header *)
Lemma addRangeHeader_p_at cfg h start rend m : INT32_MIN < start <= INT32_MAX -> -1 <= rend <= INT32_MAX -> (start < 0 -> rend = -1) ->
  let a := splice (repeat 0 27) 0 (range_text start rend) in
  addRangeHeader_p cfg h start rend m = addHeader_p cfg h (SLit HTTP_RANGE_REQUEST_HEADER_FIELD) (zlen HTTP_RANGE_REQUEST_HEADER_FIELD) (SLit a) (zlen (range_text start rend)) m.
Proof.
  intros H1 H2 H3. cbv zeta. pose proof (range_text_len _ _ H1 H2 H3) as HL. assert (LA : zlen (repeat 0 27) = 27) by reflexivity.
  unfold addRangeHeader_p. unfold pbind, fixed, reading. change (Z.to_nat HTTP_MAX_RANGE_REQUEST_VALUE_LEN) with 27%nat. set (A := repeat 0 27) in *.
  change HTTP_RANGE_REQUEST_HEADER_VALUE_PREFIX with (B "bytes="). assert (LB : zlen (B "bytes=") = 6) by reflexivity. assert (LD : zlen [DASH] = 1) by reflexivity.
  assert (LS : 1 <= zlen (to_dec start) <= 11) by (apply to_dec_len; unfold is_int32, INT32_MIN, INT32_MAX in *; lia).
  rewrite conv_ok; [|lia|lia|rewrite splice_len; lia|rewrite splice_len; lia]. cbn [tbind]. rewrite splice0_app by lia. set (d1 := B "bytes=" ++ to_dec start).
  assert (L1 : zlen (B "bytes=") + zlen (to_dec start) = zlen d1) by (unfold d1; rewrite zlen_app; lia). rewrite L1. unfold HTTP_RANGE_REQUEST_END_OF_FILE.
  assert (LSA : forall d, zlen d <= 27 -> zlen (splice A 0 d) = 27) by (intros; rewrite splice_len; lia). assert (Ld1 : zlen d1 <= 17) by lia.
  destruct (Z.eqb_spec rend (-1)) as [Er|Nr]; cbn [negb].
  - destruct (Z.leb_spec 0 start).
    + rewrite aset_ok by (rewrite LSA; lia). cbn [bind tbind]. rewrite splice0_app by lia.
      assert (RT : range_text start rend = d1 ++ [DASH]). { unfold range_text, d1. subst rend. simpl (-1 =? -1). replace (start <? 0) with false by lia. rewrite <- app_assoc. reflexivity. }
      rewrite RT, zlen_app, LD. reflexivity.
    + cbn [tbind]. assert (RT : range_text start rend = d1). { unfold range_text, d1. subst rend. simpl (-1 =? -1). replace (start <? 0) with true by lia. reflexivity. }
      rewrite RT. reflexivity.
  - assert (0 <= start) by lia. assert (0 <= rend) by lia. pose proof (to_dec_len_nonneg start ltac:(lia)). pose proof (to_dec_len_nonneg rend ltac:(lia)).
    rewrite aset_ok by (rewrite LSA; lia). cbn [bind]. rewrite splice0_app by lia. assert (L2 : zlen (d1 ++ [DASH]) = zlen d1 + 1) by (rewrite zlen_app; lia).
    rewrite conv_ok; [|unfold INT32_MIN; lia|lia|rewrite LSA; lia|rewrite LSA; lia]. cbn [bind tbind]. rewrite splice0_app by lia. cbn [tbind].
    assert (RT : range_text start rend = (d1 ++ [DASH]) ++ to_dec rend). { unfold range_text, d1. replace (rend =? -1) with false by lia. rewrite <- !app_assoc. reflexivity. }
    rewrite RT, zlen_app, L2. reflexivity.
Qed.
(** A call that adds a header is addHeader. *)
Lemma adds_is cfg m buf n c f v : adds cfg m buf n c f v -> exists field fl value vl, arg_for m buf n field fl f /\ arg_for m buf n value vl v /\ 0 < fl /\ 0 < vl /\ n + fl + vl + 6 < SZ cfg /\
  forall m' h, rh_buf h = Some buf -> rh_len h <= rh_bufLen h ->
    do_call cfg m' h c = (' (st, h', m') <- addHeader cfg m' h field fl value vl ;; Ret (st, Some h', m')) /\ call_p cfg h c m' = pbind (addHeader_p cfg h field fl value vl) (fun x => let (st, h') := x in pret (st, Some h')) m'.
Proof.
  destruct c as [ri|field fl value vl|s e]; cbn [adds]; [contradiction| |].
  - intros (Af&Av&Pf&Pv&W). exists field, fl, value, vl. do 5 (split; [assumption|]). intros m' h Hb L. destruct Af as (Af&_), Av as (Av&_). cbn [do_call call_p]. split.
    + apply (AddHeader_unfold cfg m' h buf); auto; try lia; [exact (arg_not_null _ _ _ _ Af)|exact (arg_not_null _ _ _ _ Av)].
    + unfold AddHeader_p. rewrite Hb, (arg_not_null _ _ _ _ Af), (arg_not_null _ _ _ _ Av). replace (fl =? 0) with false by lia. replace (vl =? 0) with false by lia. replace (rh_bufLen h <? rh_len h) with false by lia. reflexivity.
  - intros (I1&I2&N&->&RV&W). unfold range_rejected, is_int32 in *. assert (R1 : INT32_MIN < s <= INT32_MAX) by lia. assert (R2 : -1 <= e <= INT32_MAX) by lia. assert (R3 : s < 0 -> e = -1) by lia.
    pose proof (range_text_len s e R1 R2 R3) as LT. assert (v = range_text s e) as -> by (eapply range_value_fun; [exact RV|apply range_text_value; lia]).
    exists (SLit HTTP_RANGE_REQUEST_HEADER_FIELD), (zlen HTTP_RANGE_REQUEST_HEADER_FIELD), (SLit (splice (repeat 0 27) 0 (range_text s e))), (zlen (range_text s e)).
    split; [split; [apply (arg_lit _ HTTP_RANGE_REQUEST_HEADER_FIELD)|exact I]|]. split; [split; [exact (proj1 (addRangeHeader_at cfg m (mkrh None 0 0) s e R1 R2 R3))|exact I]|].
    change (zlen HTTP_RANGE_REQUEST_HEADER_FIELD) with 5. split; [lia|]. split; [lia|]. split; [lia|]. intros m' h Hb L. cbn [do_call call_p]. split.
    + unfold AddRangeHeader. rewrite Hb. unfold HTTP_RANGE_REQUEST_END_OF_FILE. replace (rh_bufLen h <? rh_len h) with false by lia. replace (e <? -1) with false by lia. replace ((s <? 0) && negb (e =? -1)) with false by lia.
      replace (negb (e =? -1) && (e <? s)) with false by lia. replace (s =? INT32_MIN) with false by lia. rewrite (proj2 (addRangeHeader_at cfg m' h s e R1 R2 R3)). reflexivity.
    + unfold AddRangeHeader_p. rewrite Hb. unfold HTTP_RANGE_REQUEST_END_OF_FILE. replace (rh_bufLen h <? rh_len h) with false by lia. replace (e <? -1) with false by lia. replace ((s <? 0) && negb (e =? -1)) with false by lia.
      replace (negb (e =? -1) && (e <? s)) with false by lia. replace (s =? INT32_MIN) with false by lia. unfold pbind. rewrite (addRangeHeader_p_at cfg h s e m' R1 R2 R3). reflexivity.
Qed.
Lemma lpre_beginning isF d : beginning (lpre isF d) d.
Proof. induction d as [|c d (r&IH)]; cbn [lpre]; [exists []; reflexivity|]. destruct (badc isF c); [exists (c :: d); reflexivity|]. exists r. cbn [app]. congruence. Qed.
Lemma add_text_beginning n b f v : beginning (add_text n b f v) (header_line f v ++ CRLF).
Proof.
  unfold add_text, header_line. destruct (_ <=? n); [|exists (header_line f v ++ CRLF); reflexivity]. destruct (all_legal true f); cbn [negb].
  - destruct (all_legal false v); cbn [negb]; [exists []; rewrite app_nil_r, <- !app_assoc; reflexivity|]. destruct (lpre_beginning false v) as (r&E). exists (r ++ CRLF ++ CRLF). rewrite E at 1. rewrite <- !app_assoc. reflexivity.
  - destruct (lpre_beginning true f) as (r&E). exists (r ++ B ": " ++ v ++ CRLF ++ CRLF). rewrite E at 1. rewrite <- !app_assoc. reflexivity.
Qed.
(** The place where the new line goes. *)
Lemma holds_back m h buf n req o : holds m h buf n req -> opened req o -> zlen o = back m buf (rh_len h) /\ 0 <= zlen o <= rh_len h /\ rh_len h <= zlen o + 2.
Proof.
  intros (Hb&Hn&O&L&R) OP. pose proof O as (O1&O2&O3). pose proof (back_bounds m buf (rh_len h) ltac:(lia)) as BB. assert (o = bytes_at m buf (back m buf (rh_len h))) as ->.
  { eapply opened_fun; [exact OP|]. rewrite R. apply opened_at; lia. }
  rewrite bytes_at_len by (unfold object; lia). split; [reflexivity|]. split; [lia|]. unfold back. destruct (ends4 _ _ _); lia.
Qed.

Definition add_st (n b : Z) (f v : bytes) : status :=
  if b + zlen f + zlen v + 6 <=? n then if negb (all_legal true f) then HTTPSecurityAlertInvalidCharacter else if negb (all_legal false v) then HTTPSecurityAlertInvalidCharacter else HTTPSuccess else HTTPInsufficientMemory.
Definition add_h (n b : Z) (f v : bytes) (h : reqHeaders) : reqHeaders := if is_success (add_st n b f v) then set_rh_len h (b + zlen f + zlen v + 6) else h.
Lemma add_result cfg m h buf n req o c f v : holds m h buf n req -> opened req o -> adds cfg m buf n c f v ->
  do_call cfg m h c = Ret (add_st n (zlen o) f v, Some (add_h n (zlen o) f v h), write m (poff buf (zlen o)) (add_text n (zlen o) f v)).
Proof.
  intros H OP AD. destruct (holds_back _ _ _ _ _ _ H OP) as (LO&B1&_). destruct (adds_is _ _ _ _ _ _ _ AD) as (field&fl&value&vl&Af&Av&Pf&Pv&W&IS). pose proof H as (Hb&Hn&O&L&R).
  destruct (IS m h Hb ltac:(lia)) as (DC&_). assert (AOK : add_ok cfg m h buf field fl value vl f v) by (apply add_ok_apart; rewrite ?Hn; auto).
  rewrite DC, (addHeader_ok _ _ _ _ _ _ _ _ _ _ AOK). cbv zeta. rewrite <- LO, Hn. pose proof Af as ((Lf&_)&_). pose proof Av as ((Lv&_)&_). unfold add_h, add_st, add_text. rewrite Lf, Lv.
  destruct (_ <=? _); cbn [bind is_success]; [|rewrite write_nil; reflexivity]. destruct (all_legal true f); cbn [negb bind is_success]; [|reflexivity]. destruct (all_legal false v); cbn [negb bind is_success]; reflexivity.
Qed.
Lemma add_moment cfg m h buf n req o c f v m1 : holds m h buf n req -> opened req o -> adds cfg m buf n c f v -> moment (call_p cfg h c) m m1 ->
  exists X, beginning X (add_text n (zlen o) f v) /\ m1 = write m (poff buf (zlen o)) X.
Proof.
  intros H OP AD MO. destruct (holds_back _ _ _ _ _ _ H OP) as (LO&B1&_). pose proof (add_result _ _ _ _ _ _ _ _ _ _ H OP AD) as F. destruct (adds_is _ _ _ _ _ _ _ AD) as (field&fl&value&vl&Af&Av&Pf&Pv&W&IS). pose proof H as (Hb&Hn&O&L&R).
  destruct (IS m h Hb ltac:(lia)) as (DC&CP). assert (AOK : add_ok cfg m h buf field fl value vl f v) by (apply add_ok_apart; rewrite ?Hn; auto).
  set (T := add_text n (zlen o) f v) in *. set (q := poff buf (zlen o)) in *.
  assert (OQ : object m q 0) by (unfold object, q, poff in *; cbn [pb po]; lia).
  assert (G : grows beginning m q (fun _ Y => Y = T) [] (call_p cfg h c m)).
  { rewrite CP. unfold pbind. eapply grows_bind; [exact beginning_trans|apply (grows_addHeader beginning beginning_refl beginning_trans beginning_app m q (mkenv (fun _ _ => 0) (fun _ _ => (0, [])) (fun _ => 0)) cfg h buf field fl value vl f v AOK); unfold q; rewrite LO; reflexivity|].
    intros [st h'] Y -> OY. rewrite <- LO, Hn in *. apply grows_ret; auto using beginning_refl. }
  destruct (moment_grows beginning beginning_refl beginning_trans m q (fun _ Y => Y = T) [] (call_p cfg h c) m (fun m => do_call cfg m h c) _ _ m1 (fun E => same_call E cfg h c) F) as (X&Y&_&B2&OX&OY&->&_&->); auto.
  { rewrite write_nil. reflexivity. }
  exists X. auto.
Qed.
Lemma add_text_fits cfg m h buf n req o c f v : holds m h buf n req -> opened req o -> adds cfg m buf n c f v -> zlen o + zlen (add_text n (zlen o) f v) <= n.
Proof.
  intros H OP AD. destruct (holds_back _ _ _ _ _ _ H OP) as (LO&B1&_). pose proof H as (Hb&Hn&O&L&R). unfold add_text. destruct (Z.leb_spec (zlen o + zlen f + zlen v + 6) n); [|change (zlen []) with 0; lia].
  pose proof (lpre_len true f). pose proof (lpre_len false v). pose proof (zlen_nonneg v). destruct (all_legal true f); cbn [negb]; [|lia].
  destruct (all_legal false v); cbn [negb]; rewrite !zlen_app; change (zlen HTTP_HEADER_FIELD_SEPARATOR) with 2; change (zlen HTTP_HEADER_END_INDICATOR) with 4; lia.
Qed.
Lemma adds_same cfg m m1 buf n c f v : same_outside m m1 buf n -> adds cfg m buf n c f v -> adds cfg m1 buf n c f v.
Proof.
  intros S. destruct c as [ri|field fl value vl|s e]; cbn [adds]; auto. intros ((A1&A2)&(V1&V2)&R). split; [split; [eapply arg_same; eauto|exact A2]|]. split; [split; [eapply arg_same; eauto|exact V2]|exact R].
Qed.

(** ** C87 *)
(** At every moment of a call that adds a header, memory differs from what it was only in a beginning of the new line (and of what the whole call
    writes), at the place where the line goes. *)
Theorem C87_add : forall cfg m h buf n req o c f v m1,
  holds m h buf n req -> opened req o -> adds cfg m buf n c f v -> moment (call_p cfg h c) m m1 ->
  exists st h' W X, do_call cfg m h c = Ret (st, Some h', write m (poff buf (zlen o)) W) /\ beginning W (header_line f v ++ CRLF) /\ zlen o + zlen W <= n /\
    beginning X W /\ m1 = write m (poff buf (zlen o)) X.
Proof.
  intros cfg m h buf n req o c f v m1 H OP AD MO. destruct (add_moment _ _ _ _ _ _ _ _ _ _ _ H OP AD MO) as (X&BX&EM). do 2 eexists. exists (add_text n (zlen o) f v), X.
  split; [exact (add_result _ _ _ _ _ _ _ _ _ _ H OP AD)|]. split; [apply add_text_beginning|]. split; [exact (add_text_fits _ _ _ _ _ _ _ _ _ _ H OP AD)|auto].
Qed.
Print Assumptions C87_add.
(** So all of the request but its blank line is still there; with headersLen set to the end of it, it is a request that headers can be added to. *)
Theorem C87_request_kept : forall cfg m h buf n req o c f v m1,
  holds m h buf n req -> opened req o -> adds cfg m buf n c f v -> moment (call_p cfg h c) m m1 -> holds m1 (set_rh_len h (zlen o)) buf n o.
Proof.
  intros cfg m h buf n req o c f v m1 H OP AD MO. destruct (C87_add _ _ _ _ _ _ _ _ _ _ _ H OP AD MO) as (st&h'&W&X&_&_&LW&(r&->)&->). destruct (holds_back _ _ _ _ _ _ H OP) as (LO&B1&_). destruct H as (Hb&Hn&O&L&R).
  rewrite zlen_app in LW. pose proof (zlen_nonneg X). pose proof (zlen_nonneg r). pose proof O as (O1&O2&O3). assert (OX : object m (poff buf (zlen o)) (zlen X)) by (unfold object, poff; cbn [pb po]; lia).
  split; [exact Hb|]. split; [exact Hn|]. split; [apply object_write; auto|]. cbn [set_rh_len rh_len]. split; [lia|].
  assert (EO : o = bytes_at m buf (zlen o)) by (rewrite LO at 1; eapply opened_fun; [exact OP|]; rewrite R; apply opened_at; lia).
  rewrite EO at 1. symmetry. eapply bytes_at_same; [apply same_outside_write; exact OX|unfold object; lia|]. idtac. right. right. cbn [poff po]. unfold poff. cbn [po pb]. lia.
Qed.
Print Assumptions C87_request_kept.
(** The same call again, with headersLen set back: the same status, the same memory and, if it succeeds, the same structure as without the
    abandoned call. *)
Theorem C87_add_again : forall cfg m h buf n req o c f v m1 st h' m',
  holds m h buf n req -> opened req o -> ~ ends_with o (CRLF ++ CRLF) -> adds cfg m buf n c f v -> moment (call_p cfg h c) m m1 ->
  do_call cfg m h c = Ret (st, Some h', m') ->
  exists h2, do_call cfg m1 (set_rh_len h (zlen o)) c = Ret (st, Some h2, m') /\ (st = HTTPSuccess -> h2 = h').
Proof.
  intros cfg m h buf n req o c f v m1 st h' m' H OP NE AD MO D. pose proof (C87_request_kept _ _ _ _ _ _ _ _ _ _ _ H OP AD MO) as H1. destruct (add_moment _ _ _ _ _ _ _ _ _ _ _ H OP AD MO) as (X&(r&EW)&EM).
  rewrite (add_result _ _ _ _ _ _ _ _ _ _ H OP AD) in D. injection D as <- <- <-. pose proof (add_text_fits _ _ _ _ _ _ _ _ _ _ H OP AD) as FT. destruct (holds_back _ _ _ _ _ _ H OP) as (LO&B1&_). pose proof H as (Hb&Hn&O&L&R).
  set (W := add_text n (zlen o) f v) in *. assert (LW : zlen W = zlen X + zlen r) by (rewrite EW, zlen_app; reflexivity). pose proof (zlen_nonneg X) as NX. pose proof (zlen_nonneg r) as NR. pose proof O as (O1&O2&O3).
  assert (SO : same_outside m m1 buf n). { rewrite EM. eapply same_outside_weaken; [apply same_outside_write|reflexivity| |]; unfold object, poff; cbn [pb po]; lia. }
  eexists. split.
  - rewrite (add_result _ _ _ _ _ _ _ _ _ _ H1 (or_intror (conj NE eq_refl)) (adds_same _ _ _ _ _ _ _ _ SO AD)). fold W. rewrite EM. rewrite <- (poff_0 (poff buf (zlen o))) at 2.
    rewrite write_over; [rewrite splice_0 by lia; reflexivity|lia|]. rewrite splice_0 by lia. unfold object, poff. cbn [pb po]. lia.
  - intros ES. unfold add_h. rewrite ES. reflexivity.
Qed.
Print Assumptions C87_add_again.
(** HTTPClient_InitializeRequestHeaders again, after it was abandoned at any moment and whatever headersLen was left at: everything (status,
    structure, memory) as without the abandoned call. *)
Theorem C87_init_again : forall cfg m h buf n ri me p ho m1 len,
  config_ok cfg -> rh_buf h = Some buf -> rh_bufLen h = n -> object m buf n -> init_args cfg m buf n ri me p ho -> moment (call_p cfg h (CInit ri)) m m1 ->
  do_call cfg m1 (set_rh_len h len) (CInit ri) = do_call cfg m h (CInit ri) /\ exists st h' m', do_call cfg m h (CInit ri) = Ret (st, Some h', m').
Proof.
  intros cfg m h buf n ri me p ho m1 len C Hb Hn O IA MO. destruct (does_init cfg m buf n O h ri me p ho C Hb Hn IA) as (st&h'&T&F&LT&G). cbn [call_p do_call] in *.
  pose proof (F m (rh_len h) (same_outside_refl m buf n)) as F0. replace (set_rh_len h (rh_len h)) with h in F0 by (destruct h; reflexivity). pose proof O as (O1&O2&O3). pose proof (zlen_nonneg T) as NT.
  destruct (moment_grows lenle lenle_refl lenle_trans m buf (fun _ Y => Y = T) [] (InitializeRequestHeaders_p cfg (Some h) (Some ri)) m (fun m => InitializeRequestHeaders cfg m (Some h) (Some ri)) _ _ m1 (fun E => same_call E cfg h (CInit ri)) F0) as (X&Y&_&LX&OX&OY&->&_&->); auto.
  { rewrite write_nil. reflexivity. } { change (zlen []) with 0. unfold object. lia. }
  unfold lenle in LX. split; [|eauto]. rewrite F0. rewrite F; [|eapply same_outside_weaken; [apply same_outside_write; exact OX|reflexivity|lia|lia]].
  rewrite <- (poff_0 buf) at 2. rewrite write_over; [rewrite splice_0 by lia; reflexivity|pose proof (zlen_nonneg X); lia|]. rewrite splice_0 by lia. exact OY.
Qed.
Print Assumptions C87_init_again.

(** ** Any call *)
(** Whatever the task was doing: memory it may not change is as it was. *)
Theorem C87_bystanders : forall fuel cfg E P (sees own : nat -> Prop) t jobs s m w m1 k1,
  (forall b, own b -> sees b) -> structs_in own s -> Forall (deed_in sees own) jobs -> reaches E m (Going (deeds_p fuel cfg P t jobs s) w) m1 k1 ->
  forall b, ~ own b -> blk m1 b = blk m b.
Proof.
  intros fuel cfg E P sees own t jobs s m w m1 k1 WS OS OJ R.
  assert (K : krel sees own (fun _ => True) k1 k1 /\ forall b, ~ own b -> blk m1 b = blk m b).
  { induction R as [|m1 k1 m2 k2 R (K&IH) GO].
    - split; [|auto]. split; [auto|]. intros m1 m2 A. apply (tsim_imp sees own (fun a => structs_in own (snd a))); [auto|]. apply (deeds_local sees own WS); auto.
    - destruct (go_rel _ _ _ _ _ _ _ _ _ _ _ _ K (fun b _ => eq_refl) GO GO) as (K2&_&F). split; [exact K2|]. intros b N. rewrite F by exact N. apply IH. exact N. }
  apply K.
Qed.
Print Assumptions C87_bystanders.
Lemma exec_calls {A} E (t : tree A) : forall w a w', exec E t w = Ret (a, w') -> exists r, w_tr w' = w_tr w ++ r.
Proof.
  induction t as [a0 m|k|l| |q m k IH]; intros w a w' H; cbn [exec] in H; try discriminate.
  - injection H as <- <-. exists []. rewrite app_nil_r. reflexivity.
  - destruct (answer E q w) as [[n d] w1] eqn:AN. destruct (IH _ _ _ _ _ _ H) as (r&->). destruct q; cbn [answer] in AN.
    + injection AN as <- <- <-. cbn [w_tr]. rewrite <- app_assoc. eauto.
    + destruct (e_recv E (w_nr w) room). injection AN as <- <- <-. cbn [w_tr]. rewrite <- app_assoc. eauto.
    + injection AN as <- <- <-. cbn [w_tr]. rewrite <- app_assoc. eauto.
    + injection AN as <- <- <-. cbn [log w_tr]. rewrite <- app_assoc. eauto.
    + injection AN as <- <- <-. eauto.
Qed.
Lemma reaches_calls {A} E (p : prog A) m w m1 k1 a w' : exec E (p m) w = Ret (a, w') -> reaches E m (Going p w) m1 k1 -> exists so rest, calls_of k1 = w_tr w ++ so /\ w_tr w' = calls_of k1 ++ rest.
Proof.
  intros X R. assert (INV : (exists so, calls_of k1 = w_tr w ++ so) /\ match k1 with Going p1 w1 => exists w2, exec E (p1 m1) w1 = Ret (a, w2) /\ w_tr w2 = w_tr w' | Ended x => exists w2, x = Ret (a, w2) /\ w_tr w2 = w_tr w' end).
  { induction R as [|m1 k1 m2 k2 R ((so&IC)&IH) GO]; [split; [exists []; rewrite app_nil_r; reflexivity|eauto]|].
    assert (K : match k2 with Going p1 w1 => exists w2, exec E (p1 m2) w1 = Ret (a, w2) /\ w_tr w2 = w_tr w' | Ended x => exists w2, x = Ret (a, w2) /\ w_tr w2 = w_tr w' end).
    { destruct k1 as [p1 w1|x]; cbn [go] in GO; [|injection GO as <- <-; exact IH]. destruct IH as (w2&EX&EW). destruct (p1 m1) as [b mb|k|l| |q mb k]; cbn [exec] in EX; try discriminate.
      - injection GO as <- <-. injection EX as -> <-. eauto.
      - destruct (answer E q w1) as [[n d] w3]. injection GO as <- <-. eauto. }
    split; [|exact K]. pose proof (go_calls _ _ _ _ _ GO) as GC. destruct k2 as [p2 w2|[[b w2]| | |]]; try (destruct GC as (r&->); rewrite IC, <- app_assoc; eauto); destruct K as (w3&K&_); discriminate. }
  destruct INV as ((so&C)&K). exists so. destruct k1 as [p1 w1|x].
  - destruct K as (w2&EX&<-). destruct (exec_calls _ _ _ _ _ EX) as (r&->). exists r. auto.
  - destruct K as (w2&->&<-). exists []. rewrite app_nil_r. auto.
Qed.
(** And it has made a beginning of the calls of transport, clock, parser and header callback it would have made, with the same arguments and answers. *)
Theorem C87_calls_so_far : forall fuel cfg E P t jobs s w m1 k1 g s' w',
  do_deeds fuel cfg E P t jobs s w = Ret (g, s', w') -> reaches E (w_mem w) (Going (deeds_p fuel cfg P t jobs s) w) m1 k1 ->
  exists so rest, calls_of k1 = w_tr w ++ so /\ w_tr w' = w_tr w ++ so ++ rest.
Proof.
  intros fuel cfg E P t jobs s w m1 k1 g s' w' D R. pose proof (deeds_same E fuel cfg P t jobs s w) as S. rewrite D in S. unfold run in S. destruct (exec E _ w) as [[a w2]| | |] eqn:X; cbn [rr] in S; try contradiction. injection S as -> ->.
  destruct (reaches_calls _ _ _ _ _ _ _ _ X R) as (so&rest&C1&C2). exists so, rest. split; [exact C1|]. rewrite C2, C1, app_assoc. reflexivity.
Qed.
Print Assumptions C87_calls_so_far.
(** A request abandoned while it is sent: the server has got a beginning of it, and nothing of the response is asked for before all of it is out. *)
Theorem C87_sent : forall fuel cfg E P t h r buf n req body len bd flags w g s' w' m1 k1,
  size_ok cfg -> send_contract E -> holds (w_mem w) h buf n req -> n + 30 < SZ cfg -> 0 <= len < SZ cfg -> body_arg (w_mem w) buf n body len bd ->
  ~ send_invalid (Some t) (Some h) body len (Some r) ->
  do_deeds fuel cfg E P t [DSend body len flags] (h, r) w = Ret (g, s', w') ->
  reaches E (w_mem w) (Going (deeds_p fuel cfg P t [DSend body len flags] (h, r)) w) m1 k1 ->
  exists block so, wire_headers flags len req block /\ calls_of k1 = w_tr w ++ so /\ prefix (accepted so) (block ++ bd) /\ (~ send_only so -> accepted so = block ++ bd).
Proof.
  intros fuel cfg E P t h r buf n req body len bd flags w g s' w' m1 k1 SO SC H W HB BA NI D R.
  destruct (C87_calls_so_far _ _ _ _ _ _ _ _ _ _ _ _ _ D R) as (so&rest&C1&C2).
  cbn [do_deeds do_deed] in D. destruct (Send fuel cfg E P (Some t) (Some h) body len (Some r) flags w) as [[[[st oh] or] w2]| | |] eqn:SE; cbn [bind] in D; try discriminate.
  destruct oh as [h2|]; cbn [need] in D; [|discriminate]. destruct or as [r2|]; cbn [need bind] in D; [|discriminate]. injection D as _ _ <-.
  destruct (C17_request_sent_before_receiving fuel cfg E P (Some t) h buf n req body len bd (Some r) flags w SO SC H W HB BA NI (Some (st, Some h2, Some r2)) w2 ltac:(rewrite SE; reflexivity)) as (block&sent&received&WH&TR&ON&NS&PF&RE&_).
  exists block, so. split; [exact WH|]. split; [exact C1|]. rewrite TR in C2. apply app_inv_head in C2. symmetry in C2.
  assert (CASE : (exists x, sent = so ++ x) \/ exists y, y <> [] /\ so = sent ++ y /\ exists z, received = y ++ z).
  { clear -C2. revert sent C2. induction so as [|a so IH]; intros sent C; [left; exists sent; reflexivity|]. destruct sent as [|b sent].
    - right. exists (a :: so). split; [discriminate|]. split; [reflexivity|]. exists rest. symmetry. exact C.
    - cbn [app] in C. injection C as <- C. destruct (IH _ C) as [(x&->)|(y&Y&->&Z)]; [left; exists x; reflexivity|right; exists y; auto]. }
  destruct CASE as [(x&->)|(y&Y&->&(z&->))].
  - apply Forall_app in ON as (ON&_). rewrite accepted_app in PF. destruct PF as (c&PF). split; [exists (accepted x ++ c); rewrite PF, app_assoc; reflexivity|]. intros N. contradiction.
  - apply Forall_app in NS as (NS&_). rewrite accepted_only by exact NS. split; [exact PF|]. intros _. apply RE. destruct y; [congruence|discriminate].
Qed.
Print Assumptions C87_sent.

(** ** Cases *)
Definition add_y : call := CAdd (SLit (B "Accept")) 6 (SLit (B "*/*")) 3.
Lemma solo_reaches {A} E n : forall m (k : task A), reaches E m k (fst (solo E n m k)) (snd (solo E n m k)).
Proof. induction n as [|n IH]; intros m k; cbn [solo]; [constructor|]. specialize (IH m k). destruct (solo E n m k) as [m1 k1]. cbn [fst snd] in IH. eapply reaches_step; [exact IH|]. apply surjective_pairing. Qed.
Definition stopped (c : call) (h : reqHeaders) (m : mem) (k : nat) : mem := fst (solo (e6 0) k m (Going (call_p cfg0 h c) (mkw m 0 0 0 []))).
Lemma stopped_moment c h m k : moment (call_p cfg0 h c) m (stopped c h m k).
Proof. exists (e6 0), (mkw m 0 0 0 []). eexists. apply solo_reaches. Qed.
(** The request of Demo: [req1] without its blank line. *)
Definition open1 : bytes := request_line (B "GET") (B "/") ++ header_line (B "Host") (B "h").
Lemma open1_opened : opened req1 open1.
Proof. left. exists (request_line (B "GET") (B "/") ++ B "Host: h"). split; reflexivity. Qed.
Lemma open1_end : ~ ends_with open1 (CRLF ++ CRLF).
Proof. intros (pre&EP). apply (f_equal (@rev Z)) in EP. rewrite rev_app_distr in EP. vm_compute in EP. discriminate. Qed.
Lemma add_y_adds m : adds cfg0 m buf0 (zlen req1 + 100) add_y (B "Accept") (B "*/*").
Proof. cbn [adds add_y]. split; [litarg|]. split; [litarg|]. vm_compute. repeat split. Qed.

(** Twelve bytes of memory read or written into the call, "Ac" is in the buffer. The call made again with headersLen set back adds the header;
    made again without that, it glues the line onto the half-written one and reports success: headersLen has to be set back. *)
Example C87_add_case :
  holds m1 h1 buf0 (zlen req1 + 100) req1 /\ opened req1 open1 /\ ~ ends_with open1 (CRLF ++ CRLF) /\ adds cfg0 m1 buf0 (zlen req1 + 100) add_y (B "Accept") (B "*/*") /\
  moment (call_p cfg0 h1 add_y) m1 (stopped add_y h1 m1 12) /\
  bytes_at (stopped add_y h1 m1 12) buf0 (zlen open1 + 2) = open1 ++ B "Ac" /\
  (exists h2 m2, do_call cfg0 (stopped add_y h1 m1 12) (set_rh_len h1 (zlen open1)) add_y = Ret (HTTPSuccess, Some h2, m2) /\ bytes_at m2 buf0 (rh_len h2) = open1 ++ header_line (B "Accept") (B "*/*") ++ CRLF) /\
  (exists h2 m2, do_call cfg0 (stopped add_y h1 m1 12) h1 add_y = Ret (HTTPSuccess, Some h2, m2) /\ bytes_at m2 buf0 (rh_len h2) = open1 ++ B "Ac" ++ header_line (B "Accept") (B "*/*") ++ CRLF).
Proof.
  split; [exact h1_holds|]. split; [exact open1_opened|]. split; [exact open1_end|]. split; [apply add_y_adds|]. split; [apply stopped_moment|]. split; [vm_compute; reflexivity|].
  split; eexists; eexists; (split; [vm_compute; reflexivity|vm_compute; reflexivity]).
Qed.
(** A request line that is half written. *)
Example C87_init_case :
  config_ok cfg0 /\ rh_buf h0 = Some buf0 /\ rh_bufLen h0 = 200 /\ object m0 buf0 200 /\ init_args cfg0 m0 buf0 200 ri0 (B "GET") (B "/index.html") (B "example.com") /\
  moment (call_p cfg0 h0 (CInit ri0)) m0 (stopped (CInit ri0) h0 m0 9) /\ bytes_at (stopped (CInit ri0) h0 m0 9) buf0 20 = B "GET /inde" ++ repeat 0 11.
Proof.
  split; [exact cfg0_ok|]. split; [reflexivity|]. split; [reflexivity|]. split; [exact m0_obj|]. split; [exact ri0_args|]. split; [apply stopped_moment|]. vm_compute. reflexivity.
Qed.
(** A request with a body, abandoned in the middle of being sent: the server has the headers and not the body. *)
Definition sending : task (list _ * _) := Going (deeds_p 100 cfg0 refparser trr [DSend (Some (mkptr 2 0)) 4 0] (hx, rsep)) wsep.
Example C87_sent_case : exists k,
  size_ok cfg0 /\ send_contract (env_ex resp_ok) /\ holds (w_mem wsep) hx buf0 300 req1 /\ body_arg (w_mem wsep) buf0 300 (Some (mkptr 2 0)) 4 (B "data") /\
  ~ send_invalid (Some trr) (Some hx) (Some (mkptr 2 0)) 4 (Some rsep) /\
  (exists g s' w', do_deeds 100 cfg0 (env_ex resp_ok) refparser trr [DSend (Some (mkptr 2 0)) 4 0] (hx, rsep) wsep = Ret (g, s', w')) /\
  reaches (env_ex resp_ok) (w_mem wsep) sending (fst (solo (env_ex resp_ok) k (w_mem wsep) sending)) (snd (solo (env_ex resp_ok) k (w_mem wsep) sending)) /\
  accepted (calls_of (snd (solo (env_ex resp_ok) k (w_mem wsep) sending))) = open1 ++ header_line (B "Content-Length") (B "4") ++ CRLF.
Proof.
  exists 77%nat. destruct (setup_ex resp_ok) as (S1&_). destruct S1 as (A1&A2&A3&A4&A5&A6&A7&A8&A9&A10&A11&A12&A13).
  split; [exact A1|]. split; [exact A2|]. split; [exact A7|]. split; [exact A12|]. split; [|].
  { intros [X|[(x&X&Y)|[X|[(x&X&Y)|[X|[(x&X&Y)|[(X&Y)|X]]]]]]]; try discriminate; injection X as <-; destruct Y as [Y|Y]; try discriminate; destruct Y as [Y|Y]; discriminate. }
  split; [do 3 eexists; vm_compute; reflexivity|]. split; [apply solo_reaches|]. vm_compute. reflexivity.
Qed.
