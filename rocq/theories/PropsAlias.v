(** PropsAlias.v — C83: a header's field or value may be taken from the headers already written. *)
From Verif Require Import Base Lib ModelRequest SpecRequest ProofsRequest ProofsRequest2 Demo.

(** The argument [s], [k] bytes long, lies inside the [n] bytes at [p]. *)
Definition arg_inside (p : ptr) (n : Z) (s : src) (k : Z) : Prop :=
  match s with SAt q => pb q = pb p /\ po p <= po q /\ po q + k <= po p + n | _ => False end.

(** What HTTPClient_AddHeader owes its caller for the field [f] and the value [v], the request
    without its blank line being [o]. *)
Definition adds (m : mem) (h : reqHeaders) (buf : ptr) (n : Z) (o f v : bytes) (st : status) (h' : reqHeaders) (m' : mem) : Prop :=
  let fits := zlen (o ++ header_line f v ++ CRLF) <= n in
  (st = HTTPInsufficientMemory /\ ~ fits /\ h' = h /\ m' = m) \/
  (st = HTTPSecurityAlertInvalidCharacter /\ fits /\ ~ (legal_field f /\ legal_value v) /\ h' = h /\
   same_outside m m' (poff buf (zlen o)) (n - zlen o)) \/
  (st = HTTPSuccess /\ fits /\ legal_field f /\ legal_value v /\
   holds m' h' buf n (o ++ header_line f v ++ CRLF) /\
   same_outside m m' (poff buf (zlen o)) (zlen (header_line f v ++ CRLF))).

Lemma arg_len_pos m s n d : arg m s n d -> 0 < n -> d <> [].
Proof. intros (L&_) H ->. change (zlen (@nil Z)) with 0 in L. lia. Qed.

Lemma apart_of_inside buf b n s k : 0 <= b -> arg_inside buf b s k -> arg_apart (poff buf b) n s k.
Proof. intros B0. destruct s as [| |q]; simpl; try tauto. intros (E&H1&H2). unfold disjoint. cbn [poff pb po]. right. right. lia. Qed.

Theorem C83_own_text : forall cfg m h buf n req o field fl value vl f v,
  holds m h buf n req -> opened req o ->
  arg m field fl f -> arg m value vl v -> 0 < fl -> 0 < vl ->
  arg_apart buf n field fl \/ arg_inside buf (zlen o) field fl ->
  arg_apart buf n value vl \/ arg_inside buf (zlen o) value vl ->
  n + fl + vl + 6 < SZ cfg ->
  exists st h' m', AddHeader cfg m (Some h) field fl value vl = Ret (st, Some h', m') /\ adds m h buf n o f v st h' m'.
Proof.
  intros cfg m h buf n req o field fl value vl f v H OP Af Av Pf Pv If Iv W.
  pose proof H as (Hb&HB&O&Hl&HE). pose proof O as (O1&O2&O3).
  pose proof (back_bounds m buf (rh_len h) ltac:(lia)) as Hbk.
  assert (OA : opened req (bytes_at m buf (back m buf (rh_len h)))) by (rewrite HE; apply opened_at; lia).
  pose proof (opened_fun _ _ _ OP OA) as EO.
  assert (LO : zlen o = back m buf (rh_len h)) by (rewrite EO; apply slice_len; lia).
  set (b := back m buf (rh_len h)) in *.
  assert (AP : forall s k, arg_apart buf n s k \/ arg_inside buf (zlen o) s k -> arg_apart (poff buf b) (n - b) s k).
  { intros s k [X|X].
    - eapply arg_apart_sub; [exact X| | |]; cbn [poff pb po]; lia.
    - rewrite LO in X. apply apart_of_inside; auto; lia. }
  assert (EF : zlen (o ++ header_line f v ++ CRLF) = zlen o + fl + vl + 6).
  { rewrite !zlen_app, header_line_len. change (zlen CRLF) with 2. destruct Af as (<-&_), Av as (<-&_). lia. }
  assert (EG : zlen (header_line f v ++ CRLF) = fl + vl + 6) by (rewrite !zlen_app in EF; rewrite zlen_app; lia).
  destruct (addHeader_holds_at cfg m h buf n req field fl value vl f v H Af Av Pf Pv (conj (AP _ _ If) (AP _ _ Iv)) W) as (o'&OP'&_&D).
  pose proof (opened_fun _ _ _ OP OP'). subst o'.
  rewrite (AddHeader_unfold cfg m h buf); auto; try lia; try (eapply arg_not_null; eassumption).
  unfold adds. rewrite EF, EG.
  destruct D as [(C&->)|[(C&N&m'&->&S)|(C&L1&L2&h'&m'&->&Hh&S)]]; cbn [bind].
  - exists HTTPInsufficientMemory, h, m. split; [reflexivity|]. left. split; [reflexivity|]. split; [lia|]. auto.
  - exists HTTPSecurityAlertInvalidCharacter, h, m'. split; [reflexivity|]. right. left. split; [reflexivity|]. split; [lia|]. split; auto. split; auto.
    eapply same_outside_weaken; [exact S| | |]; cbn [poff pb po]; lia.
  - exists HTTPSuccess, h', m'. split; [reflexivity|]. right. right. split; [reflexivity|]. split; [lia|]. split; [exact L1|]. split; [exact L2|]. split; [exact Hh|exact S].
Qed.
Print Assumptions C83_own_text.

(** A legal text inside the request as it stands cannot reach into the blank line. *)
Lemma legal_inside m h buf n req o s k d : holds m h buf n req -> opened req o -> arg m s k d -> 0 < k -> legal_value d ->
  arg_inside buf (zlen req) s k -> arg_inside buf (zlen o) s k.
Proof.
  intros (Hb&HB&O&Hl&HE) OP (L&A) K (NC&NL) I. destruct s as [| |q]; simpl in *; try tauto. destruct I as (E&I1&I2). destruct A as (_&A).
  split; auto. split; auto.
  destruct OP as [(pre&ER&->)|(_&->)]; auto.
  pose proof O as (O1&O2&O3).
  assert (LR : zlen req = rh_len h) by (rewrite HE; apply slice_len; lia).
  assert (LP : zlen req = zlen pre + 4) by (rewrite ER, !zlen_app; change (zlen CRLF) with 2; lia).
  rewrite zlen_app. change (zlen CRLF) with 2.
  destruct (Z_le_gt_dec (po q + k) (po buf + (zlen pre + 2))) as [|G]; auto. exfalso.
  (* the last byte of the argument is one of the two of the blank line *)
  pose proof (zlen_nonneg pre) as LN.
  assert (AT : forall i, 0 <= i < k -> nth (Z.to_nat i) d 0 = nth (Z.to_nat (po q - po buf + i)) req 0).
  { intros i Hi. rewrite A, HE. unfold bytes_at. rewrite E. change (zn (slice (blk m (pb buf)) (po q) k) i = zn (slice (blk m (pb buf)) (po buf) (rh_len h)) (po q - po buf + i)). rewrite !zn_slice by lia. f_equal. lia. }
  pose proof (AT (k - 1) ltac:(lia)) as AT1.
  assert (IN : In (nth (Z.to_nat (k - 1)) d 0) d) by (apply nth_In; unfold zlen in L; lia).
  rewrite AT1 in IN.
  assert (C : po q - po buf + (k - 1) = zlen pre + 2 \/ po q - po buf + (k - 1) = zlen pre + 3) by lia.
  rewrite ER in IN. rewrite app_nth2 in IN by (unfold zlen in *; lia).
  destruct C as [C|C]; rewrite C in IN.
  - replace (Z.to_nat (zlen pre + 2) - length pre)%nat with 2%nat in IN by (unfold zlen; lia). apply NC. exact IN.
  - replace (Z.to_nat (zlen pre + 3) - length pre)%nat with 3%nat in IN by (unfold zlen; lia). apply NL. exact IN.
Qed.

Theorem C83_legal_text : forall cfg m h buf n req o field fl value vl f v,
  holds m h buf n req -> opened req o ->
  arg m field fl f -> arg m value vl v -> 0 < fl -> 0 < vl -> legal_field f -> legal_value v ->
  arg_apart buf n field fl \/ arg_inside buf (zlen req) field fl ->
  arg_apart buf n value vl \/ arg_inside buf (zlen req) value vl ->
  n + fl + vl + 6 < SZ cfg ->
  exists st h' m', AddHeader cfg m (Some h) field fl value vl = Ret (st, Some h', m') /\ adds m h buf n o f v st h' m' /\
    (st = HTTPSuccess <-> zlen (o ++ header_line f v ++ CRLF) <= n).
Proof.
  intros cfg m h buf n req o field fl value vl f v H OP Af Av Pf Pv LF LV If Iv W.
  destruct (C83_own_text cfg m h buf n req o field fl value vl f v H OP Af Av Pf Pv) as (st&h'&m'&E&D); auto.
  - destruct If as [X|X]; [left; auto|right]. eapply legal_inside; eauto. apply LF.
  - destruct Iv as [X|X]; [left; auto|right]. eapply legal_inside; eauto.
  - exists st, h', m'. split; auto. split; auto.
    destruct D as [(->&C&_)|[(->&C&N&_)|(->&C&L1&L2&_)]]; (split; [|]); intros; try discriminate; tauto.
Qed.
Print Assumptions C83_legal_text.

(** The request "GET / HTTP/1.1, Host: h": "Host" is at offset 16, "h" at 22. A second header is made
    of the first one's parts: "h: Host". *)
Example C83_case :
  let field := SAt (mkptr 0 22) in let value := SAt (mkptr 0 16) in
  holds m1 h1 buf0 (zlen req1 + 100) req1 /\
  arg m1 field 1 (B "h") /\ arg m1 value 4 (B "Host") /\
  arg_inside buf0 (zlen req1) field 1 /\ arg_inside buf0 (zlen req1) value 4 /\
  exists h' m', AddHeader cfg0 m1 (Some h1) field 1 value 4 = Ret (HTTPSuccess, Some h', m') /\
    bytes_at m' buf0 (rh_len h') = request_line (B "GET") (B "/") ++ header_line (B "Host") (B "h") ++ header_line (B "h") (B "Host") ++ CRLF.
Proof.
  cbv zeta. split; [apply h1_holds|].
  split; [split; [reflexivity|split; [vm_compute; repeat split; discriminate|reflexivity]]|].
  split; [split; [reflexivity|split; [vm_compute; repeat split; discriminate|reflexivity]]|].
  split; [vm_compute; repeat split; discriminate|]. split; [vm_compute; repeat split; discriminate|].
  eexists _, _. split; [vm_compute; reflexivity|vm_compute; reflexivity].
Qed.

(** Why the theorem stops at the blank line: a value made of its two bytes, CR LF, is not legal, but it is
    overwritten by the field before it is looked at. *)
Example C83_blank_line_value :
  arg m1 (SAt (mkptr 0 (zlen req1 - 2))) 2 CRLF /\ ~ legal_value CRLF /\
  exists h' m', AddHeader cfg0 m1 (Some h1) (SLit (B "Accept")) 6 (SAt (mkptr 0 (zlen req1 - 2))) 2 = Ret (HTTPSuccess, Some h', m') /\
    bytes_at m' buf0 (rh_len h') = request_line (B "GET") (B "/") ++ header_line (B "Host") (B "h") ++ header_line (B "Accept") (B "Ac") ++ CRLF.
Proof.
  split; [split; [reflexivity|split; [vm_compute; repeat split; discriminate|reflexivity]]|].
  split; [intros (X&_); apply X; left; reflexivity|].
  eexists _, _. split; [vm_compute; reflexivity|vm_compute; reflexivity].
Qed.
