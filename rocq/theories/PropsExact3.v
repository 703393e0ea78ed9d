(** PropsExact3.v — the request side, exactly: C63 (request line), C64 (lengths that wrap), C65 (no clock), C66 (space for Content-Length). *)
From Verif Require Import Base Lib ModelRequest ModelSend ModelResponse SpecRequest SpecSend SpecResponse SpecExchange ProofsRequest ProofsDecimal
  ProofsRequest2 ProofsHistory ProofsSend ProofsSend2 ProofsResponse RefParser Demo DemoResponse PropsRequest PropsSend PropsResponse PropsResponse2.

(** ** C63 *)
Lemma read_line_legal d : forall l rest, read_line d = Some (l, rest) -> legal_value l.
Proof.
  induction d as [|c d IH]; intros l rest X; cbn [read_line] in X; [discriminate|].
  destruct (Z.eqb_spec c CR).
  - destruct d as [|x d]; [discriminate|]. destruct (x =? LF); [|discriminate]. injection X as <- <-. split; intros [].
  - destruct (Z.eqb_spec c LF); [discriminate|]. destruct (read_line d) as [[l1 r1]|]; [|discriminate]. injection X as <- <-.
    destruct (IH _ _ eq_refl) as (A&C). split; intros [Q|Q]; congruence || tauto.
Qed.
(** After a successful initialisation, a reader that takes a CR or LF outside a line end for an error reads the documented request - the
    request line the application asked for and the documented headers - exactly when neither the method nor the path contains CR or LF. *)
Theorem C63_request_line_exact : forall cfg m h buf ri me p ho h' m',
  config_ok cfg -> rh_buf h = Some buf -> object m buf (rh_bufLen h) -> init_args cfg m buf (rh_bufLen h) ri me p ho ->
  InitializeRequestHeaders cfg m (Some h) (Some ri) = Ret (HTTPSuccess, Some h', m') ->
  (read_request (bytes_at m' buf (rh_len h')) = Some (me ++ B " " ++ p ++ B " HTTP/1.1", init_headers (UA cfg) (ri_flags ri) ho) <->
   legal_value me /\ legal_value p).
Proof.
  intros cfg m h buf ri me p ho h' m' CO Hb O A E. split.
  - unfold read_request. destruct (read_line _) as [[l rest]|] eqn:R; [|discriminate].
    destruct (read_headers _ _); [|discriminate]. intros Q. injection Q as -> _. destruct (read_line_legal _ _ _ R) as (X&Y).
    split; split; intros I; [apply X|apply Y|apply X|apply Y]; rewrite in_app_iff; auto; right; right; rewrite in_app_iff; auto.
  - intros (Lm&Lp). eapply C08_request_line_is_one_line_partial; eauto.
Qed.
Print Assumptions C63_request_line_exact.
Example C63_case : exists ri h' m' ri2 h2 m2,
  InitializeRequestHeaders cfg0 m0 (Some h0) (Some ri) = Ret (HTTPSuccess, Some h', m') /\ init_args cfg0 m0 buf0 (rh_bufLen h0) ri (B "GET") (B "/") (B "h") /\
  InitializeRequestHeaders cfg0 m0 (Some h0) (Some ri2) = Ret (HTTPSuccess, Some h2, m2) /\ init_args cfg0 m0 buf0 (rh_bufLen h0) ri2 (B "GET") evil_path (B "h").
Proof.
  exists (mkri (SLit (B "GET")) 3 SNull 0 (SLit (B "h")) 1 1). do 2 eexists. exists (mkri (SLit (B "GET")) 3 (SLit evil_path) (zlen evil_path) (SLit (B "h")) 1 1). do 2 eexists.
  split; [vm_compute; reflexivity|]. split.
  { unfold init_args. cbn [ri_method ri_methodLen ri_path ri_pathLen ri_host ri_hostLen].
    split; [litarg|]. split; [lia|]. split; [left; split; [auto|reflexivity]|]. split; [lia|]. split; [exact I|]. split; [litarg|]. split; [lia|]. vm_compute. reflexivity. }
  split; [vm_compute; reflexivity|].
  unfold init_args. cbn [ri_method ri_methodLen ri_path ri_pathLen ri_host ri_hostLen].
  split; [litarg|]. split; [lia|].
  split; [right; split; [discriminate|]; split; [vm_compute; lia|]; split; [reflexivity|split; [vm_compute; discriminate|reflexivity]]|].
  split; [vm_compute; discriminate|]. split; [exact I|]. split; [litarg|]. split; [lia|]. vm_compute. reflexivity.
Qed.

(** ** C64 *)
(** Only the sums depend on the size of size_t. *)
Lemma addHeader_sz cfg cfg' m h field fl value vl :
  0 <= rh_len h -> 0 <= fl -> 0 <= vl -> rh_len h + fl + vl + 6 < SZ cfg -> rh_len h + fl + vl + 6 < SZ cfg' -> 
  addHeader cfg m h field fl value vl = addHeader cfg' m h field fl value vl.
Proof.
  intros H0 F0 V0 W W'. unfold addHeader. destruct (rh_buf h) as [buf|]; [|reflexivity].
  destruct (assert_at (negb (is_null field)) 1360); cbn [bind]; auto. destruct (assert_at (negb (is_null value)) 1361); cbn [bind]; auto.
  destruct (assert_at (negb (fl =? 0)) 1362); cbn [bind]; auto. destruct (assert_at (negb (vl =? 0)) 1363); cbn [bind]; auto.
  destruct (padd m buf (rh_len h)) as [cur0| | |]; cbn [bind]; auto.
  match goal with |- bind ?x _ = _ => destruct x as [[cur bk]| | |] eqn:Q end; cbn [bind]; auto.
  assert (BK : 0 <= bk <= rh_len h).
  { revert Q. destruct (Z.leb_spec 4 (rh_len h)); [|intros Q; injection Q as <- <-; lia].
    destruct (padd m cur0 (-4)); cbn [bind]; try discriminate. destruct (strncmp_eq _ _ _) as [[|]| | |]; cbn [bind]; try discriminate; [|intros Q; injection Q as <- <-; lia].
    destruct (padd m cur0 (-2)); cbn [bind]; try discriminate. intros Q; injection Q as <- <-; lia. }
  rewrite !(Z.mod_small (fl + 2 + vl + 2 + 2)) by lia. rewrite !(Z.mod_small (bk + (fl + 2 + vl + 2 + 2))) by lia. reflexivity.
Qed.
(** A legal text copied to a place with less room runs over its end. *)
Lemma strncpy_over isF d : forall m dst s i k, src_reads m s i d -> object m (poff dst i) k -> k < zlen d -> zlen (blk m (pb dst)) = po dst + i + k ->
  match s with SAt q => disjoint (poff dst i) k (poff q i) (zlen d) | _ => True end -> all_legal isF d = true ->
  strncpy_loop m dst s isF (length d) i = Ub UbOob.
Proof.
  induction d as [|c d IH]; intros m dst s i k R O LT EB A AL; [cbn in LT; destruct O as (?&_); zlia|].
  cbn [length strncpy_loop]. pose proof (R 0) as R0. rewrite zn_cons0, Z.add_0_r in R0. rewrite R0 by zlia. cbn [bind].
  fold (badc isF c). cbn [all_legal] in AL. apply andb_prop in AL. destruct AL as (A1&A2). apply negb_true_iff in A1. rewrite A1.
  fold (poff dst i). destruct O as (O1&O2&O3). destruct (Z.eq_dec k 0) as [->|K].
  - unfold storen, in_range. replace (po (poff dst i) + zlen [c] <=? zlen (blk m (pb (poff dst i)))) with false; [rewrite andb_false_r; reflexivity|].
    unfold poff. cbn [po pb]. rewrite EB. symmetry. apply Z.leb_gt. zlia.
  - assert (O1' : object m (poff dst i) (zlen [c])) by (unfold object, poff in *; cbn [pb po] in *; zlia).
    rewrite storen_ok by auto. cbn [bind]. apply (IH _ _ _ _ (k - 1)).
    + apply src_reads_tail in R. apply src_reads_write; auto. destruct s as [| |q]; auto. unfold disjoint, poff in *; cbn [pb po] in *. zlia.
    + apply object_write; auto. unfold object, poff in *; cbn [pb po] in *; zlia.
    + zlia.
    + rewrite zlen_blk_write by auto. lia.
    + destruct s as [| |q]; auto. unfold disjoint, poff in *; cbn [pb po] in *. zlia.
    + auto.
Qed.
Lemma storen_over m p d : po p + zlen d > zlen (blk m (pb p)) -> storen m p d = Ub UbOob.
Proof. intros H. unfold storen, in_range. replace (po p + zlen d <=? zlen (blk m (pb p))) with false by lia. rewrite andb_false_r. reflexivity. Qed.
(** The copying of a header for which there is no room. *)
Lemma copy_over m buf n b field fl value vl f v :
  object m buf n -> zlen (blk m (pb buf)) = po buf + n -> 0 <= b <= n -> arg_for m buf n field fl f -> arg_for m buf n value vl v -> 0 < fl -> 0 < vl ->
  all_legal true f = true -> all_legal false v = true -> n < b + fl + vl + 6 -> forall (h : reqHeaders) (x : Z),
  (' (ok, m1) <- httpHeaderStrncpy m (poff buf b) field fl true ;;
   if negb ok then Ret (HTTPSecurityAlertInvalidCharacter, h, m1)
   else
     cur1 <- padd m1 (poff buf b) fl ;;
     m2 <- memcpy m1 cur1 (SLit HTTP_HEADER_FIELD_SEPARATOR) 2 ;;
     cur2 <- padd m2 cur1 2 ;;
     ' (ok2, m3) <- httpHeaderStrncpy m2 cur2 value vl false ;;
     if negb ok2 then Ret (HTTPSecurityAlertInvalidCharacter, h, m3)
     else
       cur3 <- padd m3 cur2 vl ;;
       m4 <- memcpy m3 cur3 (SLit HTTP_HEADER_END_INDICATOR) 4 ;;
       Ret (HTTPSuccess, set_rh_len h x, m4)) = Ub UbOob.
Proof.
  intros O EB Hb (Af&Df) (Av&Dv) F0 V0 Lf Lv LT h x. pose proof O as (O1&O2&O3).
  assert (H2 : zlen HTTP_HEADER_FIELD_SEPARATOR = 2) by reflexivity. assert (H4 : zlen HTTP_HEADER_END_INDICATOR = 4) by reflexivity.
  pose proof Af as (Zf&_). pose proof Av as (Zv&_).
  destruct (Z_lt_le_dec (n - b) fl) as [Q|Q].
  { unfold httpHeaderStrncpy. rewrite (arg_not_null _ _ _ _ Af). cbn [negb assert_at bind]. replace (Z.to_nat fl) with (length f) by (unfold zlen in Zf; lia).
    rewrite (strncpy_over true f m (poff buf b) field 0 (n - b)); auto.
    - apply arg_reads in Af. exact Af.
    - rewrite poff_0. obj.
    - lia.
    - unfold poff; cbn [pb po]. lia.
    - destruct field as [| |q]; auto. rewrite !poff_0. unfold arg_apart in Df. unfold disjoint, poff in *; cbn [pb po] in *. lia. }
  rewrite (httpHeaderStrncpy_ok true m (poff buf b) field fl f); auto; [|obj|eapply arg_apart_sub; eauto; simpl; lia].
  cbn [bind]. rewrite Lf. cbn [negb]. rewrite lpre_legal by auto.
  assert (Of : object m (poff buf b) (zlen f)) by (obj).
  rewrite padd_ok by (rewrite zlen_blk_write by auto; unfold poff; cbn [pb po]; lia). cbn [bind].
  unfold memcpy at 1. cbn [overlaps src_bytes bind].
  change ((0 <=? 2) && (2 <=? zlen HTTP_HEADER_FIELD_SEPARATOR)) with true. cbv iota. cbn [bind].
  change (slice HTTP_HEADER_FIELD_SEPARATOR 0 2) with HTTP_HEADER_FIELD_SEPARATOR.
  destruct (Z_lt_le_dec (n - b) (fl + 2)) as [Q2|Q2].
  { rewrite storen_over; [reflexivity|]. rewrite zlen_blk_write by auto. unfold poff; cbn [pb po]. lia. }
  rewrite storen_ok by (apply object_write; auto; obj).
  cbn [bind]. rewrite (write_adj m (poff buf b)); [|obj|f_equal; lia].
  set (f2 := f ++ HTTP_HEADER_FIELD_SEPARATOR).
  assert (Lf2 : zlen f2 = fl + 2) by (unfold f2; rewrite zlen_app; lia).
  assert (Of2 : object m (poff buf b) (zlen f2)) by (obj).
  rewrite padd_ok by (rewrite zlen_blk_write by auto; unfold poff; cbn [pb po]; lia). cbn [bind].
  rewrite !poff_poff.
  assert (Av2 : arg (write m (poff buf b) f2) value vl v).
  { eapply arg_same; [exact Av|apply same_outside_write; exact Of2|eapply arg_apart_sub; eauto; simpl; lia]. }
  destruct (Z_lt_le_dec (n - b - fl - 2) vl) as [Q3|Q3].
  { unfold httpHeaderStrncpy. rewrite (arg_not_null _ _ _ _ Av). cbn [negb assert_at bind]. replace (Z.to_nat vl) with (length v) by (unfold zlen in Zv; lia).
    rewrite (strncpy_over false v _ (poff buf (b + (fl + 2))) value 0 (n - b - fl - 2)).
    - reflexivity.
    - apply arg_reads in Av2. exact Av2.
    - rewrite poff_0. apply object_write; auto. obj.
    - lia.
    - rewrite zlen_blk_write by auto. unfold poff; cbn [pb po]. lia.
    - destruct value as [| |q]; auto. rewrite !poff_0. unfold arg_apart in Dv. unfold disjoint, poff in *; cbn [pb po] in *. lia.
    - auto. }
  rewrite (httpHeaderStrncpy_ok false _ _ value vl v); [|exact Av2|apply object_write; auto; obj|eapply arg_apart_sub; eauto; simpl; lia].
  cbn [bind]. rewrite Lv. cbn [negb]. rewrite lpre_legal by auto.
  assert (Ov : object (write m (poff buf b) f2) (poff buf (b + (fl + 2))) (zlen v)) by (apply object_write; auto; obj).
  rewrite padd_ok by (rewrite !zlen_blk_write by auto; unfold poff; cbn [pb po]; lia). cbn [bind].
  unfold memcpy. cbn [overlaps src_bytes bind].
  change ((0 <=? 4) && (4 <=? zlen HTTP_HEADER_END_INDICATOR)) with true. cbv iota. cbn [bind].
  change (slice HTTP_HEADER_END_INDICATOR 0 4) with HTTP_HEADER_END_INDICATOR.
  rewrite storen_over; [reflexivity|]. rewrite !zlen_blk_write by auto. unfold poff; cbn [pb po]. lia.
Qed.

(** HTTPClient_AddHeader with a legal header of any lengths, when the buffer is the end of the object it lies in: the check is made on the size
    modulo SIZE_MAX + 1; where that passes although the header does not fit, the copy runs over the end of the buffer. *)
Theorem C64_header_of_any_length_exact : forall cfg m h buf n req o field fl value vl f v,
  holds m h buf n req -> opened req o -> zlen (blk m (pb buf)) = po buf + n -> n + 2 < SZ cfg ->
  arg_for m buf n field fl f -> arg_for m buf n value vl v -> 0 < fl < SZ cfg -> 0 < vl < SZ cfg -> legal_field f -> legal_value v ->
  let new := o ++ header_line f v ++ CRLF in
  (zlen new <= n -> exists h' m', AddHeader cfg m (Some h) field fl value vl = Ret (HTTPSuccess, Some h', m') /\ holds m' h' buf n new) /\
  (n < zlen new -> n < zlen new mod SZ cfg -> AddHeader cfg m (Some h) field fl value vl = Ret (HTTPInsufficientMemory, Some h, m)) /\
  (n < zlen new -> zlen new mod SZ cfg <= n -> AddHeader cfg m (Some h) field fl value vl = Ub UbOob).
Proof.
  intros cfg m h buf n req o field fl value vl f v H OP EB W Af Av F0 V0 Lf Lv new.
  pose proof H as (Hb&HB&O&Hl&HR). subst n. pose proof Af as (Af1&Df). pose proof Av as (Av1&Dv). pose proof Af1 as (Zf&_). pose proof Av1 as (Zv&_).
  pose proof O as (O1&O2&O3).
  set (b := back m buf (rh_len h)).
  assert (Hbk : 0 <= b <= rh_len h /\ rh_len h <= b + 2).
  { unfold b. pose proof (back_bounds m buf (rh_len h) ltac:(lia)). unfold back in *. destruct (ends4 m buf (rh_len h)); lia. }
  assert (Eo : o = bytes_at m buf b).
  { eapply opened_fun; [exact OP|]. rewrite HR. apply opened_at; lia. }
  assert (Lo : zlen o = b) by (rewrite Eo; apply bytes_at_len; obj).
  assert (Ln : zlen new = b + fl + vl + 6) by (unfold new; rewrite !zlen_app, header_line_len; change (zlen CRLF) with 2; lia).
  rewrite Ln.
  rewrite (AddHeader_unfold cfg m h buf); auto; try lia; try (eapply arg_not_null; eauto).
  split; [|].
  { intros Fit. pose (cfg' := mkconfig (SZ cfg + rh_bufLen h + fl + vl + 6) (UA cfg) (SEND_TO cfg) (RECV_TO cfg)).
    rewrite (addHeader_sz cfg cfg') by (cbn [cfg' SZ]; lia).
    destruct (addHeader_outcome cfg' m h buf (rh_bufLen h) req field fl value vl f v) as (st&h'&m'&E&o'&OP'&_&D); auto; try lia; [cbn [cfg' SZ]; lia|].
    rewrite E. cbn [bind]. pose proof (opened_fun _ _ _ OP OP'). subst o'.
    destruct D as [(_&C&_)|[(_&_&C&_)|(->&_&_&_&Hh&_)]]; [exfalso; lia|exfalso; tauto|]. exists h', m'. auto. }
  assert (U : forall (P : res (status * option reqHeaders * mem) -> Prop),
    P (' (st, h', m') <- (if (b + fl + vl + 6) mod SZ cfg <=? rh_bufLen h
       then ' (ok, m1) <- httpHeaderStrncpy m (poff buf b) field fl true ;;
        if negb ok then Ret (HTTPSecurityAlertInvalidCharacter, h, m1)
        else
          cur1 <- padd m1 (poff buf b) fl ;;
          m2 <- memcpy m1 cur1 (SLit HTTP_HEADER_FIELD_SEPARATOR) 2 ;;
          cur2 <- padd m2 cur1 2 ;;
          ' (ok2, m3) <- httpHeaderStrncpy m2 cur2 value vl false ;;
          if negb ok2 then Ret (HTTPSecurityAlertInvalidCharacter, h, m3)
          else
            cur3 <- padd m3 cur2 vl ;;
            m4 <- memcpy m3 cur3 (SLit HTTP_HEADER_END_INDICATOR) 4 ;;
            Ret (HTTPSuccess, set_rh_len h ((b + fl + vl + 6) mod SZ cfg), m4)
      else Ret (HTTPInsufficientMemory, h, m)) ;; Ret (st, Some h', m')) ->
    P (' (st, h', m') <- addHeader cfg m h field fl value vl ;; Ret (st, Some h', m'))).
  { intros P. unfold addHeader. rewrite Hb. rewrite (arg_not_null _ _ _ _ Af1), (arg_not_null _ _ _ _ Av1).
    replace (fl =? 0) with false by lia. replace (vl =? 0) with false by lia. cbn [negb assert_at bind].
    rewrite padd_ok by lia. cbn [bind].
    assert (E :
      (if 4 <=? rh_len h
       then
        q <- padd m (poff buf (rh_len h)) (-4);;
        b0 <- strncmp_eq m q HTTP_HEADER_END_INDICATOR;;
        (if b0 then c <- padd m (poff buf (rh_len h)) (-2);; Ret (c, rh_len h - 2)
               else Ret (poff buf (rh_len h), rh_len h))
       else Ret (poff buf (rh_len h), rh_len h)) = Ret (poff buf b, b)).
    { unfold b, back, ends4. destruct (Z.leb_spec 4 (rh_len h)); simpl andb; [|reflexivity].
      rewrite padd_ok by (simpl; lia). cbn [bind]. rewrite poff_poff. assert (H4 : zlen HTTP_HEADER_END_INDICATOR = 4) by reflexivity. rewrite strncmp_eq_ok by (obj). cbn [bind].
      change (zlen HTTP_HEADER_END_INDICATOR) with 4. replace (rh_len h + -4) with (rh_len h - 4) by lia.
      destruct (beqb _ _); auto. rewrite padd_ok by (simpl; lia). cbn [bind]. rewrite poff_poff. reflexivity. }
    rewrite E. cbn [bind]. clear E. rewrite Zplus_mod_idemp_r.
    replace (b + (fl + 2 + vl + 2 + 2)) with (b + fl + vl + 6) by lia. auto. }
  split; intros C1 C2; apply U; clear U.
  - replace ((b + fl + vl + 6) mod SZ cfg <=? rh_bufLen h) with false by lia. reflexivity.
  - replace ((b + fl + vl + 6) mod SZ cfg <=? rh_bufLen h) with true by lia.
    rewrite (copy_over m buf (rh_bufLen h) b field fl value vl f v); auto; try lia; [apply all_legal_field; auto|apply all_legal_value; auto].
Qed.
Print Assumptions C64_header_of_any_length_exact.
(** The three cases are met: with a buffer of 50 bytes, a value of 1, of 100, and of SIZE_MAX - 19 bytes. *)
Example C64_case : exists m h o vs, holds m h buf0 50 req1 /\ opened req1 o /\ zlen (blk m (pb buf0)) = po buf0 + 50 /\
  vs = [1; 100; SZ cfg0 - 20] /\ Forall (fun vl => 0 < vl < SZ cfg0 /\ arg_for m buf0 50 (SLit (repeat 97 (Z.to_nat vl))) vl (repeat 97 (Z.to_nat vl)) /\ legal_value (repeat 97 (Z.to_nat vl))) vs /\
  map (fun vl => let s := zlen (o ++ header_line (B "A") [] ++ CRLF) + vl in (s <=? 50, s mod SZ cfg0 <=? 50)) vs = [(true, true); (false, false); (false, true)].
Proof.
  exists [req1 ++ repeat 0 (50 - length req1)], (mkrh (Some buf0) 50 (zlen req1)), (slice req1 0 (zlen req1 - 2)), [1; 100; SZ cfg0 - 20].
  split; [split; [reflexivity|]; split; [reflexivity|]; split; [vm_compute; repeat split; discriminate|]; split; [vm_compute; repeat split; discriminate|reflexivity]|].
  split; [left; exists (B "GET / HTTP/1.1" ++ CRLF ++ B "Host: h"); split; reflexivity|]. split; [reflexivity|]. split; [reflexivity|]. split; [|vm_compute; reflexivity].
  assert (G : forall vl, 0 < vl < SZ cfg0 -> 0 < vl < SZ cfg0 /\ arg_for [req1 ++ repeat 0 (50 - length req1)] buf0 50 (SLit (repeat 97 (Z.to_nat vl))) vl (repeat 97 (Z.to_nat vl)) /\ legal_value (repeat 97 (Z.to_nat vl))).
  { intros vl V. split; [auto|]. assert (Z1 : zlen (repeat 97 (Z.to_nat vl)) = vl) by (rewrite zlen_repeat; lia).
    split; [split; [|exact I]; split; [auto|]; split; [lia|]; rewrite slice_full; auto|]. split; intros Q; apply repeat_spec in Q; discriminate. }
  assert (S0 : SZ cfg0 = 4294967296) by reflexivity.
  apply Forall_cons; [apply G; lia|]. apply Forall_cons; [apply G; lia|]. apply Forall_cons; [apply G; lia|]. apply Forall_nil.
Qed.

(** ** C65 *)
(** HTTPClient_ReceiveAndParseHttpResponse without a clock function calls NULL, always, before anything else. *)
Theorem C65_receive_without_clock : forall fuel cfg E P t r rh buf L req w,
  recv_setup cfg E P t (set_r_time r TZero) rh buf L req w -> r_time r = TNull ->
  ReceiveAndParseHttpResponse fuel cfg E P (Some t) (Some r) (Some rh) w = Ub UbNull.
Proof.
  intros fuel cfg E P t r rh buf L req w (S1&_&_&_&_&_&_&_&(rb&n&HH)&LR) TN.
  unfold ReceiveAndParseHttpResponse. rewrite S1. cbn [assert_at bind].
  unfold initializeParsingContextForFirstResponse. destruct HH as (Hb&HB&O&Hl&->). rewrite bytes_at_len in LR by obj.
  replace (HTTP_MINIMUM_REQUEST_LINE_LENGTH <=? rh_len rh) with true by (unfold HTTP_MINIMUM_REQUEST_LINE_LENGTH; lia). cbn [assert_at bind].
  rewrite Hb. rewrite strncmp_eq_ok by (change (zlen HTTP_METHOD_HEAD) with 4; obj). cbn [bind]. rewrite TN. reflexivity.
Qed.
Print Assumptions C65_receive_without_clock.
(** HTTPClient_Send without one does exactly what it does with a clock that stands still. *)
Theorem C65_send_without_clock : forall fuel cfg E P t h body len r flags w,
  size_ok cfg -> 0 <= len < SZ cfg -> r_time r = TNull -> ~ send_invalid t h body len (Some r) ->
  Send fuel cfg E P t h body len (Some r) flags w = Send fuel cfg E P t h body len (Some (set_r_time r TZero)) flags w.
Proof.
  intros fuel cfg E P t h body len r flags w SO HL TN NI.
  assert (NI2 : ~ send_invalid t h body len (Some (set_r_time r TZero))).
  { intros Q. apply NI. unfold send_invalid in *. destruct Q as [Q|[Q|[Q|[Q|[Q|[Q|Q]]]]]]; auto 10; try discriminate.
    destruct Q as (r2&X&Y). injection X as <-. do 5 right. left. exists r. split; [auto|]. exact Y. }
  destruct (Send_valid fuel cfg E P t h body len (Some r) flags w SO HL NI) as (t'&h'&r'&Q1&_&_&Q2&Q3&_&_&_&_&_&_&ES).
  destruct (Send_valid fuel cfg E P t h body len (Some (set_r_time r TZero)) flags w SO HL NI2) as (t2&h2&r2&Q4&_&_&Q5&Q6&_&_&_&_&_&_&ES2).
  rewrite ES, ES2. injection Q3 as <-. injection Q6 as <-. rewrite Q1 in Q4. injection Q4 as <-. rewrite Q2 in Q5. injection Q5 as <-.
  assert (EE : eff_time (set_r_time r TZero) = eff_time r) by (unfold eff_time; cbn [set_r_time r_time]; rewrite TN; reflexivity). rewrite EE. reflexivity.
Qed.
Print Assumptions C65_send_without_clock.

Example C65_case : recv_setup cfg0 (env_of resp_ok) refparser trr (set_r_time (set_r_time (resp0 200 0) TNull) TZero) h1 rbuf 200 req1 (wr 200) /\
  size_ok cfg0 /\ ~ send_invalid (Some trr) (Some h1) None 0 (Some (set_r_time (resp0 200 0) TNull)) /\
  exists x, Send 100 cfg0 (env_of resp_ok) refparser (Some trr) (Some h1) None 0 (Some (set_r_time (resp0 200 0) TNull)) 0 (wr 200) = Ret x.
Proof.
  split. { destruct (setup0 resp_ok 200 0 ltac:(lia) ltac:(lia)) as ((S1&S2&S3&S4&S5)&_). unfold recv_setup. split; [auto|]. split; [auto|]. split; [auto|]. split; [discriminate|]. exact S5. }
  split; [exists 32; split; [lia|reflexivity]|]. split.
  { intros [Q|[(t&Q1&Q2)|[Q|[(h&Q1&Q2)|[Q|[(r&Q1&Q2)|[(_&Q)|Q]]]]]]]; try discriminate; try lia.
    - injection Q1 as <-. destruct Q2; discriminate.
    - injection Q1 as <-. revert Q2. vm_compute. intuition discriminate.
    - injection Q1 as <-. destruct Q2; discriminate.
    }
  eexists. vm_compute. reflexivity.
Qed.

(** ** C66 *)
(** Sending the headers of a request that ends with its blank line, with a body and automatic Content-Length: HTTPInsufficientMemory is returned if and
    only if the buffer has less than 18 + d bytes left, d the number of decimal digits of the length. *)
Theorem C66_content_length_space_exact : forall fuel cfg E tf t h buf n req pre len d flags w st oh w',
  send_contract E -> tf <> TNull -> t_send t = true -> holds (w_mem w) h buf n req -> req = pre ++ CRLF ++ CRLF ->
  0 < len <= INT32_MAX -> n + 30 < SZ cfg -> Z.testbit flags 0 = false -> decimal len d ->
  SendHttpHeaders fuel cfg E (Some t) tf (Some h) len flags w = Ret (st, oh, w') ->
  (st = HTTPInsufficientMemory <-> n < zlen req + 18 + zlen d).
Proof.
  intros fuel cfg E tf t h buf n req pre len d flags w st oh w' SC TN Ht H Er Hl W FL DD X.
  destruct (C11_content_length_on_the_wire fuel cfg E tf t h buf n req len flags w SC TN Ht H ltac:(lia) W) as (block&WH&A1&A2).
  assert (L : zlen block = zlen req + 18 + zlen d).
  { unfold wire_headers in WH. rewrite FL in WH. replace (len =? 0) with false in WH by lia. cbn [orb] in WH. destruct WH as (o&d2&OP&D2&->). subst req. rewrite (opened_blank _ _ OP).
    assert (d2 = d) as ->.
    { unfold decimal in DD, D2. replace (len <? 0) with false in * by lia. eapply decimal_nat_unique; eauto. }
    rewrite !zlen_app, header_line_len. change (zlen CRLF) with 2. change (zlen (B "Content-Length")) with 14. lia. }
  rewrite <- L. split.
  - intros ->. destruct (Z_lt_le_dec n (zlen block)) as [Q|Q]; [auto|]. destruct (A2 Q) as (o&w1&tr&Y1&_&_&_&_&Y2). rewrite X in Y1. cbn [wout] in Y1. injection Y1 as <- <-.
    destruct (Y2 _ _ eq_refl) as (_&[(Y&_)|(Y&_)]); discriminate.
  - intros Q. rewrite (A1 Q) in X. injection X as <- _ _. reflexivity.
Qed.
Print Assumptions C66_content_length_space_exact.
Lemma rdig_len_low k : forall f v, 10 ^ Z.of_nat k <= v -> (k < f)%nat -> Z.of_nat k < zlen (rdig f v).
Proof.
  induction k as [|k IH]; intros f v Hv Hf; destruct f as [|f]; try lia; cbn [rdig]; [zlia|].
  rewrite Nat2Z.inj_succ, Z.pow_succ_r in Hv by lia. assert (10 ^ Z.of_nat k <= v / 10) by (apply Z.div_le_lower_bound; lia).
  assert (0 < 10 ^ Z.of_nat k) by (apply Z.pow_pos_nonneg; lia).
  replace (v / 10 =? 0) with false by lia. specialize (IH f (v / 10) ltac:(auto) ltac:(lia)). zlia.
Qed.
(** So the documented reserve is enough exactly for bodies of less than 100000000 bytes. *)
Theorem C66_reserve_exact : forall fuel cfg E tf t h buf n req pre len flags w st oh w',
  send_contract E -> tf <> TNull -> t_send t = true -> holds (w_mem w) h buf n req -> req = pre ++ CRLF ++ CRLF ->
  0 < len <= INT32_MAX -> n + 30 < SZ cfg -> Z.testbit flags 0 = false -> n = zlen req + HTTP_MAX_CONTENT_LENGTH_HEADER_LENGTH ->
  SendHttpHeaders fuel cfg E (Some t) tf (Some h) len flags w = Ret (st, oh, w') ->
  (st = HTTPInsufficientMemory <-> 100000000 <= len).
Proof.
  intros fuel cfg E tf t h buf n req pre len flags w st oh w' SC TN Ht H Er Hl W FL En X.
  assert (D2 : decimal len (to_dec len)) by (apply to_dec_decimal; unfold is_int32, INT32_MIN; lia).
  rewrite (C66_content_length_space_exact _ _ _ _ _ _ _ _ _ _ _ _ _ _ _ _ _ SC TN Ht H Er Hl W FL D2 X).
  change HTTP_MAX_CONTENT_LENGTH_HEADER_LENGTH with 26 in En. rewrite En.
  assert (B1 : len < 100000000 <-> zlen (to_dec len) <= 8) .
  { unfold to_dec. replace (len <? 0) with false by lia. rewrite zlen_rev.
    split; intros Q; [apply (rdig_len_bound 8); [change (10 ^ Z.of_nat 8) with 100000000; lia|lia]|].
    destruct (Z_lt_le_dec len 100000000) as [Q2|Q2]; [auto|]. pose proof (rdig_len_low 8 11 len ltac:(change (10 ^ Z.of_nat 8) with 100000000; lia) ltac:(lia)). lia. }
  lia.
Qed.
Print Assumptions C66_reserve_exact.

Example C66_case : exists m h st oh w', holds m h buf0 (zlen req1 + 26) req1 /\ req1 = (B "GET / HTTP/1.1" ++ CRLF ++ B "Host: h") ++ CRLF ++ CRLF /\
  SendHttpHeaders 100 cfg0 env5 (Some tr1) TUser (Some h) 99999999 0 (mkw m 0 0 0 []) = Ret (st, oh, w') /\ st = HTTPSuccess.
Proof.
  exists [req1 ++ repeat 0 26], (mkrh (Some buf0) (zlen req1 + 26) (zlen req1)). do 3 eexists.
  split; [split; [reflexivity|]; split; [reflexivity|]; split; [vm_compute; repeat split; discriminate|]; split; [vm_compute; repeat split; discriminate|reflexivity]|].
  split; [reflexivity|]. split; [vm_compute; reflexivity|reflexivity].
Qed.
