(** PropsRequest.v — the request-building properties (C01-C10, C18, C39). *)
From Verif Require Import Base Lib ModelRequest SpecRequest ProofsRequest ProofsDecimal ProofsRequest2 ProofsHistory Demo.
From Coq Require Import Arith.

(** ** C01 *)
Theorem C01_init_exact : forall cfg m h buf ri me p ho h' m',
  config_ok cfg -> rh_buf h = Some buf -> object m buf (rh_bufLen h) ->
  init_args cfg m buf (rh_bufLen h) ri me p ho ->
  InitializeRequestHeaders cfg m (Some h) (Some ri) = Ret (HTTPSuccess, Some h', m') ->
  let req := init_request (UA cfg) (ri_flags ri) me p ho in
  holds m' h' buf (rh_bufLen h) req /\ rh_len h' = zlen req /\ same_outside m m' buf (zlen req).
Proof.
  intros cfg m h buf ri me p ho h' m' CO Hb O A E req.
  destruct (Init_outcome cfg m h buf ri me p ho CO Hb O A) as (st&h2&m2&E2&_&_&_&_&_&K).
  rewrite E in E2. injection E2 as <- <- <-. destruct (K eq_refl) as (H&S). split; auto. split; auto.
  destruct H as (?&?&HO&HL&HE). unfold req. rewrite HE. symmetry. apply bytes_at_len. obj.
Qed.
Example C01_case :
  config_ok cfg0 /\ rh_buf h0 = Some buf0 /\ object m0 buf0 (rh_bufLen h0) /\
  init_args cfg0 m0 buf0 (rh_bufLen h0) ri0 (B "GET") (B "/index.html") (B "example.com") /\
  exists h' m', InitializeRequestHeaders cfg0 m0 (Some h0) (Some ri0) = Ret (HTTPSuccess, Some h', m') /\
    bytes_at m' buf0 (rh_len h') =
    B "GET /index.html HTTP/1.1" ++ CRLF ++ B "User-Agent: my-platform-name" ++ CRLF
    ++ B "Host: example.com" ++ CRLF ++ B "Connection: keep-alive" ++ CRLF ++ CRLF.
Proof.
  split; [exact cfg0_ok|]. split; [reflexivity|]. split; [exact m0_obj|]. split; [exact ri0_args|].
  do 2 eexists. split; [vm_compute; reflexivity|vm_compute; reflexivity].
Qed.
Print Assumptions C01_init_exact.

(** ** C02 *)
Theorem C02_init_invalid_parameter : forall cfg m prh pri,
  init_invalid prh pri ->
  InitializeRequestHeaders cfg m prh pri = Ret (HTTPInvalidParameter, prh, m).
Proof. exact Init_invalid. Qed.
Print Assumptions C02_init_invalid_parameter.

Theorem C02_init_status : forall cfg m h buf ri me p ho,
  config_ok cfg -> rh_buf h = Some buf -> object m buf (rh_bufLen h) ->
  init_args cfg m buf (rh_bufLen h) ri me p ho ->
  let n := rh_bufLen h in
  let upToHost := zlen (host_part (UA cfg) (ri_flags ri) me p ho ++ CRLF) in
  let whole := zlen (init_request (UA cfg) (ri_flags ri) me p ho) in
  exists st h' m', InitializeRequestHeaders cfg m (Some h) (Some ri) = Ret (st, Some h', m') /\
    (st = HTTPInsufficientMemory <-> n < upToHost \/ (legal_value ho /\ n < whole)) /\
    (st = HTTPSecurityAlertInvalidCharacter <-> upToHost <= n /\ ~ legal_value ho) /\
    (st = HTTPSuccess <-> legal_value ho /\ whole <= n) /\
    (st = HTTPInsufficientMemory \/ st = HTTPSecurityAlertInvalidCharacter \/ st = HTTPSuccess).
Proof.
  intros cfg m h buf ri me p ho CO Hb O A n up whole.
  destruct (Init_outcome cfg m h buf ri me p ho CO Hb O A) as (st&h2&m2&E2&_&_&_&_&Est&_).
  exists st, h2, m2. split; auto. fold n up whole in Est.
  assert (LU : up <= whole).
  { unfold up, whole, init_request. rewrite !zlen_app. zlia. }
  destruct (all_legal false ho) eqn:L; cbn [negb] in Est.
  - apply all_legal_value in L.
    destruct (Z.ltb_spec n up); [|destruct (Z.ltb_spec n whole)]; subst st; intuition (try discriminate; try lia).
  - assert (NL : ~ legal_value ho) by (intros X; apply all_legal_value in X; congruence).
    destruct (Z.ltb_spec n up); subst st; intuition (try discriminate; try lia).
Qed.
Example C02_case_small : exists h' m',
  InitializeRequestHeaders cfg0 m0 (Some (mkrh (Some buf0) 50 0)) (Some ri0)
  = Ret (HTTPInsufficientMemory, Some h', m').
Proof. do 2 eexists. vm_compute. reflexivity. Qed.
Example C02_case_illegal : exists h' m',
  InitializeRequestHeaders cfg0 m0 (Some h0)
    (Some (mkri (SLit (B "GET")) 3 SNull 0 (SLit [104; 13; 10; 88; 58; 32; 49]) 7 0))
  = Ret (HTTPSecurityAlertInvalidCharacter, Some h', m').
Proof. do 2 eexists. vm_compute. reflexivity. Qed.
Print Assumptions C02_init_status.

(** ** C03 *)
Theorem C03_add_header_exact : forall cfg m h buf n req field fl value vl f v h' m',
  holds m h buf n req ->
  arg_for m buf n field fl f -> arg_for m buf n value vl v ->
  n + fl + vl + 6 < SZ cfg ->
  AddHeader cfg m (Some h) field fl value vl = Ret (HTTPSuccess, Some h', m') ->
  exists o, opened req o /\
    holds m' h' buf n (o ++ header_line f v ++ CRLF) /\
    rh_len h' = zlen (o ++ header_line f v ++ CRLF) /\
    same_outside m m' (poff buf (zlen o)) (zlen (header_line f v ++ CRLF)).
Proof.
  intros cfg m h buf n req field fl value vl f v h' m' H Af Av W E.
  assert (D : add_invalid (Some h) field fl value vl \/ (fl <> 0 /\ vl <> 0)).
  { unfold add_invalid. destruct (Z.eq_dec fl 0); [left; auto 8|]. destruct (Z.eq_dec vl 0); [left; auto 8|auto]. }
  destruct D as [D|(N1&N2)]; [rewrite AddHeader_invalid in E by auto; discriminate|].
  pose proof Af as ((Lf&_)&_). pose proof Av as ((Lv&_)&_).
  destruct (AddHeader_outcome cfg m h buf n req field fl value vl f v H Af Av) as (st&h2&m2&E2&OC); try zlia.
  rewrite E in E2. injection E2 as <- <- <-. destruct OC as (o&OP&_&D).
  destruct D as [(X&_)|[(X&_)|(_&_&_&_&Hh&S)]]; try discriminate.
  exists o. split; auto. split; auto. split.
  - destruct Hh as (?&?&HO&HL&HE). rewrite HE. symmetry. apply bytes_at_len. obj.
  - rewrite zlen_app, header_line_len. change (zlen CRLF) with 2.
    replace (zlen f + zlen v + 4 + 2) with (zlen f + zlen v + 6) by lia. auto.
Qed.
Example C03_case :
  holds m1 h1 buf0 (zlen req1 + 100) req1 /\
  exists h' m', AddHeader cfg0 m1 (Some h1) (SLit (B "Accept")) 6 (SLit (B "*/*")) 3 = Ret (HTTPSuccess, Some h', m') /\
    bytes_at m' buf0 (rh_len h') = B "GET / HTTP/1.1" ++ CRLF ++ B "Host: h" ++ CRLF ++ B "Accept: */*" ++ CRLF ++ CRLF.
Proof. split; [exact h1_holds|]. do 2 eexists. split; vm_compute; reflexivity. Qed.
Print Assumptions C03_add_header_exact.

(** ** C04 *)
Theorem C04_add_header_invalid_parameter : forall cfg m prh field fl value vl,
  add_invalid prh field fl value vl ->
  AddHeader cfg m prh field fl value vl = Ret (HTTPInvalidParameter, prh, m).
Proof. exact AddHeader_invalid. Qed.
Print Assumptions C04_add_header_invalid_parameter.

Theorem C04_add_header_status : forall cfg m h buf n req field fl value vl f v o,
  holds m h buf n req -> opened req o ->
  arg_for m buf n field fl f -> arg_for m buf n value vl v -> 0 < fl -> 0 < vl ->
  n + fl + vl + 6 < SZ cfg ->
  let fits := zlen (o ++ header_line f v ++ CRLF) <= n in
  exists st h' m', AddHeader cfg m (Some h) field fl value vl = Ret (st, Some h', m') /\
    (st = HTTPInsufficientMemory <-> ~ fits) /\
    (st = HTTPSecurityAlertInvalidCharacter <-> fits /\ ~ (legal_field f /\ legal_value v)) /\
    (st = HTTPSuccess <-> fits /\ legal_field f /\ legal_value v) /\
    (st = HTTPInsufficientMemory \/ st = HTTPSecurityAlertInvalidCharacter \/ st = HTTPSuccess).
Proof.
  intros cfg m h buf n req field fl value vl f v o H OP Af Av P1 P2 W fits.
  destruct (AddHeader_outcome cfg m h buf n req field fl value vl f v H Af Av P1 P2 W) as (st&h2&m2&E2&o'&OP'&_&D).
  pose proof (opened_fun _ _ _ OP OP'). subst o'.
  assert (EF : zlen (o ++ header_line f v ++ CRLF) = zlen o + zlen f + zlen v + 6).
  { rewrite !zlen_app, header_line_len. change (zlen CRLF) with 2. lia. }
  unfold fits. rewrite EF.
  exists st, h2, m2. split; auto.
  destruct D as [(->&C&_)|[(->&C&N&_)|(->&C&L1&L2&_)]]; intuition (try discriminate; try lia).
Qed.
Example C04_cases :
  (exists h' m', AddHeader cfg0 m1 (Some h1) (SLit (B "A:B")) 3 (SLit (B "v")) 1 = Ret (HTTPSecurityAlertInvalidCharacter, Some h', m')) /\
  (exists h' m', AddHeader cfg0 m1 (Some h1) (SLit (repeat 97 99)) 99 (SLit (B "v")) 1 = Ret (HTTPInsufficientMemory, Some h', m')) /\
  (exists h' m', AddHeader cfg0 m1 (Some h1) (SLit (repeat 97 95)) 95 (SLit (B "v")) 1 = Ret (HTTPSuccess, Some h', m')).
Proof. repeat split; do 2 eexists; vm_compute; reflexivity. Qed.
Print Assumptions C04_add_header_status.

(** ** C05 *)
Theorem C05_request_building_memory_safe : forall cfg m h buf n cs,
  config_ok cfg -> rh_buf h = Some buf -> rh_bufLen h = n -> object m buf n -> 0 <= rh_len h <= n ->
  Forall (call_ok cfg m buf n) cs ->
  exists sts h' m', history cfg m h cs = Ret (sts, h', m') /\
    same_outside m m' buf n /\ rh_buf h' = Some buf /\ rh_bufLen h' = n /\ 0 <= rh_len h' <= n.
Proof.
  intros cfg m h buf n cs CO Hb Hn O Hl OK.
  destruct (history_stays cfg buf n CO cs m h Hb Hn O Hl OK) as (sts&h'&m'&E&S&B1&B2&B3&_).
  exists sts, h', m'. auto.
Qed.
Definition calls0 : list call :=
  [CInit ri0; CAdd (SLit (B "X-A")) 3 (SLit (B "1")) 1; CAdd SNull 4 (SLit (B "1")) 1; CRange 5 10;
   CAdd (SLit (repeat 97 150)) 150 (SLit (B "1")) 1; CRange 10 5; CRange (-100) (-1)].
Example C05_case :
  Forall (call_ok cfg0 m0 buf0 200) calls0 /\
  exists h' m', history cfg0 m0 h0 calls0 =
    Ret ([HTTPSuccess; HTTPSuccess; HTTPInvalidParameter; HTTPSuccess; HTTPInsufficientMemory;
          HTTPInvalidParameter; HTTPSuccess], h', m').
Proof.
  split.
  - repeat constructor; vm_compute; intros; discriminate.
  - do 2 eexists. vm_compute. reflexivity.
Qed.
Print Assumptions C05_request_building_memory_safe.

(** ** C06 *)
(** The full statement, "any failed AddHeader leaves the request (the first headersLen bytes) as it was", is false:
    a rejected character is noticed only after the terminating CRLF was overwritten. *)
Theorem C06_failed_add_keeps_request_refuted :
  exists cfg m h buf n req field fl value vl f v st h' m',
    config_ok cfg /\ holds m h buf n req /\
    arg_for m buf n field fl f /\ arg_for m buf n value vl v /\ 0 < fl /\ 0 < vl /\ n + fl + vl + 6 < SZ cfg /\
    AddHeader cfg m (Some h) field fl value vl = Ret (st, Some h', m') /\ st <> HTTPSuccess /\
    rh_len h' = rh_len h /\ bytes_at m' buf (rh_len h') <> req.
Proof.
  exists cfg0, m1, h1, buf0, (zlen req1 + 100), req1, (SLit (B "X-A")), 3, (SLit [98; 10]), 2, (B "X-A"), [98; 10].
  do 3 eexists. split; [exact cfg0_ok|]. split; [exact h1_holds|].
  split; [litarg|]. split; [litarg|]. split; [lia|]. split; [lia|]. split; [vm_compute; reflexivity|].
  split; [vm_compute; reflexivity|]. split; [discriminate|]. split; [reflexivity|].
  vm_compute. discriminate.
Qed.
Print Assumptions C06_failed_add_keeps_request_refuted.

(** What holds: the structure never changes on failure; on HTTPInsufficientMemory and HTTPInvalidParameter
    memory does not change at all; on a rejected character everything before the terminating blank line is kept. *)
Theorem C06_failed_add_keeps_request_partial : forall cfg m h buf n req field fl value vl f v st h' m',
  holds m h buf n req ->
  arg_for m buf n field fl f -> arg_for m buf n value vl v -> n + fl + vl + 6 < SZ cfg ->
  AddHeader cfg m (Some h) field fl value vl = Ret (st, Some h', m') -> st <> HTTPSuccess ->
  h' = h /\
  ((st = HTTPInsufficientMemory \/ st = HTTPInvalidParameter) /\ m' = m \/
   st = HTTPSecurityAlertInvalidCharacter /\
   exists o, opened req o /\ bytes_at m' buf (zlen o) = o /\
     same_outside m m' (poff buf (zlen o)) (zlen f + zlen v + 2)).
Proof.
  intros cfg m h buf n req field fl value vl f v st h' m' H Af Av W E NS.
  pose proof Af as ((Lf&_)&_). pose proof Av as ((Lv&_)&_).
  assert (D : add_invalid (Some h) field fl value vl \/ (fl <> 0 /\ vl <> 0)).
  { unfold add_invalid. destruct (Z.eq_dec fl 0); [left; auto 8|]. destruct (Z.eq_dec vl 0); [left; auto 8|auto]. }
  destruct D as [D|(N1&N2)].
  { rewrite AddHeader_invalid in E by auto. injection E as <- <- <-. auto. }
  destruct (AddHeader_outcome cfg m h buf n req field fl value vl f v H Af Av) as (st2&h2&m2&E2&o&OP&LO&D); try zlia.
  rewrite E in E2. injection E2 as <- <- <-.
  destruct D as [(->&C&->&->)|[(->&C&N&->&S)|(->&_)]]; [auto| |congruence].
  split; auto. right. split; auto. exists o. split; auto. split; auto.
  pose proof H as (Hb&HB&O&Hl&Er).
  assert (LR : zlen req = rh_len h) by (subst req; apply bytes_at_len; obj).
  assert (H0 : bytes_at m buf (zlen o) = o).
  { pose proof (opened_at m buf (rh_len h)) as OA. destruct O as (O1&O2&O3).
    specialize (OA ltac:(lia) ltac:(lia) ltac:(lia)). rewrite <- Er in OA.
    rewrite (opened_fun _ _ _ OP OA). apply slice_zlen_slice. }
  rewrite <- H0 at 2. eapply bytes_at_same; eauto.
  { obj. }
  right; right. cbn [poff po pb]. lia.
Qed.
Print Assumptions C06_failed_add_keeps_request_partial.

Theorem C06_failed_range_keeps_request : forall cfg m h buf n req s e st h' m',
  holds m h buf n req -> is_int32 s -> is_int32 e -> n + 38 < SZ cfg ->
  AddRangeHeader cfg m (Some h) s e = Ret (st, Some h', m') -> st <> HTTPSuccess ->
  h' = h /\ m' = m /\ (st = HTTPInsufficientMemory \/ st = HTTPInvalidParameter).
Proof.
  intros cfg m h buf n req s e st h' m' H I1 I2 W E NS.
  destruct (AddRangeHeader_outcome cfg m h buf n _ s e H I1 I2 W) as [(RR&E')|(NR&t&st2&h2&m2&RV&LT&E'&OC)];
    rewrite E in E'; injection E' as -> -> ->; [auto|].
  destruct OC as (o&OP&LO&D).
  destruct D as [(->&C&->&->)|[(->&C&N&->&S)|(->&_)]]; [auto| |congruence].
  exfalso. apply N. split; [apply all_legal_field; reflexivity|]. eapply range_value_legal; eauto.
Qed.
Print Assumptions C06_failed_range_keeps_request.

(** ** C07 *)
Theorem C07_no_header_injection : forall cfg m h buf n ri me p ho cs sts h' m',
  config_ok cfg -> rh_buf h = Some buf -> rh_bufLen h = n -> object m buf n -> 0 <= rh_len h <= n ->
  init_args cfg m buf n ri me p ho -> legal_value me -> legal_value p ->
  Forall (call_ok cfg m buf n) cs -> Forall (fun c => match c with CInit _ => False | _ => True end) cs ->
  history cfg m h (CInit ri :: cs) = Ret (HTTPSuccess :: sts, h', m') ->
  ~ In HTTPSecurityAlertInvalidCharacter sts ->
  exists hs, contribute m cs sts hs /\
    read_request (bytes_at m' buf (rh_len h')) =
    Some (me ++ B " " ++ p ++ B " HTTP/1.1", init_headers (UA cfg) (ri_flags ri) ho ++ hs).
Proof.
  intros cfg m h buf n ri me p ho cs sts h' m' CO Hb Hn O Hl A Lm Lp OK NI E NS.
  subst n. cbn [history do_call] in E.
  destruct (Init_outcome cfg m h buf ri me p ho CO Hb O A) as (st&h1&m1&E1&S1&_&_&_&Est&K).
  rewrite E1 in E. cbn [bind] in E.
  destruct (history cfg m1 h1 cs) as [((sts1,h2),m2)| | |] eqn:E2; try discriminate.
  cbn [bind] in E. injection E as -> <- <- <-.
  destruct (K eq_refl) as (H1&_).
  assert (Lho : legal_value ho).
  { destruct (all_legal false ho) eqn:L; [apply all_legal_value; auto|].
    cbn [negb] in Est. destruct (_ <? _) in Est; discriminate. }
  rewrite init_request_hlines in H1.
  assert (LI : legal_headers (init_headers (UA cfg) (ri_flags ri) ho)).
  { destruct CO as (_&_&Lua&_). apply init_headers_legal; auto. }
  destruct (history_reader cfg buf (rh_bufLen h) me p m CO cs m1 h1 _ sts1 h2 m2 H1 LI S1 OK) as (hs&C&LH&H2); auto.
  { eapply Forall_impl; [|exact NI]. intros [| |]; simpl; auto. }
  exists hs. split; auto. destruct H2 as (_&_&_&_&<-). apply read_request_ok; auto.
Qed.
Definition calls1 : list call :=
  [CAdd (SLit (B "X-A")) 3 (SLit (B "1")) 1; CRange 5 10; CAdd (SLit (repeat 97 150)) 150 (SLit (B "1")) 1; CRange (-100) (-1)].
Example C07_case :
  Forall (call_ok cfg0 m0 buf0 200) calls1 /\
  exists h' m', history cfg0 m0 h0 (CInit ri0 :: calls1) =
    Ret ([HTTPSuccess; HTTPSuccess; HTTPSuccess; HTTPInsufficientMemory; HTTPSuccess], h', m') /\
    read_request (bytes_at m' buf0 (rh_len h')) =
    Some (B "GET /index.html HTTP/1.1",
          [(B "User-Agent", B "my-platform-name"); (B "Host", B "example.com"); (B "Connection", B "keep-alive");
           (B "X-A", B "1"); (B "Range", B "bytes=5-10"); (B "Range", B "bytes=-100")]).
Proof.
  split.
  - repeat constructor; vm_compute; intros; discriminate.
  - do 2 eexists. split; vm_compute; reflexivity.
Qed.
Print Assumptions C07_no_header_injection.

(** ** C08 *)
(** False as stated: a path containing CR LF injects a header. *)
Definition evil_path : bytes := B "/ HTTP/1.1" ++ CRLF ++ B "X-Evil: 1" ++ CRLF ++ B "Y: y".
Theorem C08_request_line_is_one_line_refuted :
  exists cfg m h buf ri me p ho h' m',
    config_ok cfg /\ rh_buf h = Some buf /\ object m buf (rh_bufLen h) /\
    init_args cfg m buf (rh_bufLen h) ri me p ho /\
    InitializeRequestHeaders cfg m (Some h) (Some ri) = Ret (HTTPSuccess, Some h', m') /\
    exists hs, read_request (bytes_at m' buf (rh_len h')) = Some (me ++ B " / HTTP/1.1", hs) /\
      In (B "X-Evil", B "1") hs.
Proof.
  exists cfg0, m0, h0, buf0, (mkri (SLit (B "GET")) 3 (SLit evil_path) (zlen evil_path) (SLit (B "example.com")) 11 1),
    (B "GET"), evil_path, (B "example.com").
  do 2 eexists. split; [exact cfg0_ok|]. split; [reflexivity|]. split; [exact m0_obj|].
  split.
  { unfold init_args. cbn [ri_method ri_methodLen ri_path ri_pathLen ri_host ri_hostLen].
    split; [litarg|]. split; [lia|].
    split; [right; split; [discriminate|]; split; [vm_compute; lia|]; split; [reflexivity|split; [vm_compute; discriminate|reflexivity]]|].
    split; [vm_compute; discriminate|]. split; [exact I|]. split; [litarg|]. split; [lia|]. vm_compute. reflexivity. }
  split; [vm_compute; reflexivity|].
  eexists. split; [vm_compute; reflexivity|]. left. reflexivity.
Qed.
Print Assumptions C08_request_line_is_one_line_refuted.

(** True when method and path are free of CR and LF. *)
Theorem C08_request_line_is_one_line_partial : forall cfg m h buf ri me p ho h' m',
  config_ok cfg -> rh_buf h = Some buf -> object m buf (rh_bufLen h) ->
  init_args cfg m buf (rh_bufLen h) ri me p ho -> legal_value me -> legal_value p ->
  InitializeRequestHeaders cfg m (Some h) (Some ri) = Ret (HTTPSuccess, Some h', m') ->
  read_request (bytes_at m' buf (rh_len h')) =
  Some (me ++ B " " ++ p ++ B " HTTP/1.1", init_headers (UA cfg) (ri_flags ri) ho).
Proof.
  intros cfg m h buf ri me p ho h' m' CO Hb O A Lm Lp E.
  destruct (Init_outcome cfg m h buf ri me p ho CO Hb O A) as (st&h1&m1&E1&S1&_&_&_&Est&K).
  rewrite E in E1. injection E1 as <- <- <-. destruct (K eq_refl) as (H1&_).
  destruct H1 as (_&_&_&_&<-). rewrite init_request_hlines. apply read_request_ok; auto.
  assert (Lho : legal_value ho).
  { destruct (all_legal false ho) eqn:L; [apply all_legal_value; auto|].
    cbn [negb] in Est. destruct (_ <? _) in Est; discriminate. }
  destruct CO as (_&_&Lua&_). apply init_headers_legal; auto.
Qed.
Print Assumptions C08_request_line_is_one_line_partial.

(** ** C09 *)
Theorem C09_range_rejected : forall cfg m prh s e,
  is_int32 s -> range_invalid prh s e ->
  AddRangeHeader cfg m prh s e = Ret (HTTPInvalidParameter, prh, m).
Proof. exact AddRangeHeader_invalid. Qed.
Print Assumptions C09_range_rejected.

Theorem C09_range_header_exact : forall cfg m h buf n req s e o,
  holds m h buf n req -> opened req o -> is_int32 s -> is_int32 e -> n + 38 < SZ cfg ->
  ~ range_rejected s e ->
  exists t st h' m', range_value s e t /\
    AddRangeHeader cfg m (Some h) s e = Ret (st, Some h', m') /\
    (st = HTTPInsufficientMemory /\ n < zlen (o ++ header_line (B "Range") t ++ CRLF) /\ h' = h /\ m' = m \/
     st = HTTPSuccess /\ zlen (o ++ header_line (B "Range") t ++ CRLF) <= n /\
     holds m' h' buf n (o ++ header_line (B "Range") t ++ CRLF) /\
     same_outside m m' (poff buf (zlen o)) (zlen (header_line (B "Range") t ++ CRLF))).
Proof.
  intros cfg m h buf n req s e o H OP I1 I2 W NR.
  destruct (AddRangeHeader_outcome cfg m h buf n _ s e H I1 I2 W) as [(RR&_)|(_&t&st&h2&m2&RV&LT&E'&o'&OP'&LO&D)]; [contradiction|].
  pose proof (opened_fun _ _ _ OP OP'). subst o'.
  exists t, st, h2, m2. split; auto. split; auto.
  assert (EF : zlen (o ++ header_line (B "Range") t ++ CRLF) = zlen o + zlen (B "Range") + zlen t + 6).
  { rewrite !zlen_app, header_line_len. change (zlen CRLF) with 2. lia. }
  destruct D as [(->&C&->&->)|[(->&C&N&->&S)|(->&C&_&_&Hh&S)]].
  - left. split; auto. split; [lia|auto].
  - exfalso. apply N. split; [apply all_legal_field; reflexivity|]. eapply range_value_legal; eauto.
  - right. split; auto. split; [lia|]. split; auto.
    rewrite zlen_app, header_line_len. change (zlen CRLF) with 2.
    replace (zlen (B "Range") + zlen t + 4 + 2) with (zlen (B "Range") + zlen t + 6) by lia. auto.
Qed.
Example C09_case : exists h' m',
  AddRangeHeader cfg0 m1 (Some h1) 2147483646 2147483647 = Ret (HTTPSuccess, Some h', m') /\
  bytes_at m' buf0 (rh_len h') = B "GET / HTTP/1.1" ++ CRLF ++ B "Host: h" ++ CRLF ++ B "Range: bytes=2147483646-2147483647" ++ CRLF ++ CRLF.
Proof. do 2 eexists. split; vm_compute; reflexivity. Qed.
Print Assumptions C09_range_header_exact.

(** Reading the decimal text back gives the number, so distinct requests give distinct texts. *)
Theorem C09_range_value_injective : forall s e s' e' t,
  range_value s e t -> range_value s' e' t -> ~ range_rejected s e -> ~ range_rejected s' e' -> s = s' /\ e = e'.
Proof.
  assert (SP : forall a b a' b', Forall (fun c => 48 <= c <= 57) a -> Forall (fun c => 48 <= c <= 57) a' ->
     a ++ B "-" ++ b = a' ++ B "-" ++ b' -> a = a' /\ b = b').
  { induction a as [|x a IH]; intros b a' b' F F' E.
    - destruct a' as [|y a']; [split; auto; injection E; auto|].
      injection E as E1 E2. inversion F'; subst. lia.
    - inversion F; subst. destruct a' as [|y a']; [injection E as E1 E2; lia|].
      injection E as -> E. inversion F'; subst. destruct (IH _ _ _ H2 H4 E). subst; auto. }
  assert (NN : forall n d, 0 <= n -> decimal n d -> decimal_nat n d).
  { intros n d Hn. unfold decimal. replace (n <? 0) with false by lia. auto. }
  assert (HD : forall n d, decimal_nat n d -> exists c r, d = c :: r /\ 48 <= c <= 57).
  { intros n d (N&F&_). destruct d as [|c r]; [congruence|]. inversion F; subst. eauto. }
  assert (U : forall n n' d, decimal_nat n d -> decimal_nat n' d -> n = n') by (intros n n' d (_&_&_&<-) (_&_&_&<-); auto).
  assert (PL : forall x y, B "bytes=" ++ x = B "bytes=" ++ y -> x = y) by (intros x y E; apply app_inv_head in E; auto).
  unfold range_value, range_rejected. intros s e s' e' t H H' R R'.
  destruct (Z.eqb_spec e (-1)) as [->|Ne]; [destruct (Z.ltb_spec s 0)|];
  (destruct (Z.eqb_spec e' (-1)) as [->|Ne']; [destruct (Z.ltb_spec s' 0)|]).
  - destruct H as (a&D&->), H' as (a'&D'&E). apply NN in D, D'; try lia. injection E as <-.
    split; auto. pose proof (U _ _ _ D D'). lia.
  - destruct H as (a&D&->), H' as (a'&D'&E). apply NN in D, D'; try lia. exfalso.
    change (B "bytes=-" ++ a) with (B "bytes=" ++ B "-" ++ a) in E. apply PL in E.
    destruct (HD _ _ D') as (c&r&->&Hc). injection E as E _. lia.
  - destruct H as (a&D&->), H' as (a'&b'&D'&D''&E). apply NN in D, D'; try lia. exfalso.
    change (B "bytes=-" ++ a) with (B "bytes=" ++ B "-" ++ a) in E. apply PL in E.
    destruct (HD _ _ D') as (c&r&->&Hc). injection E as E _. lia.
  - destruct H as (a&D&->), H' as (a'&D'&E). apply NN in D, D'; try lia. exfalso.
    change (B "bytes=-" ++ a') with (B "bytes=" ++ B "-" ++ a') in E. apply PL in E.
    destruct (HD _ _ D) as (c&r&->&Hc). injection E as E _. lia.
  - destruct H as (a&D&->), H' as (a'&D'&E). apply NN in D, D'; try lia. apply PL in E.
    apply app_inv_tail in E. subst a'. split; auto. eapply U; eauto.
  - destruct H as (a&D&->), H' as (a'&b'&D'&D''&E). apply NN in D, D', D''; try lia. exfalso. apply PL in E.
    destruct (SP a [] a' b') as (_&X); auto; [apply D|apply D'|]. subst b'.
    destruct (HD _ _ D'') as (?&?&?&_); discriminate.
  - destruct H as (a&b&D&D1&->), H' as (a'&D'&E). apply NN in D, D'; try lia. exfalso.
    change (B "bytes=-" ++ a') with (B "bytes=" ++ B "-" ++ a') in E. apply PL in E.
    destruct (HD _ _ D) as (c&r&->&Hc). injection E as E _. lia.
  - destruct H as (a&b&D&D1&->), H' as (a'&D'&E). apply NN in D, D', D1; try lia. exfalso. apply PL in E.
    destruct (SP a b a' []) as (_&X); auto; [apply D|apply D'|]. subst b.
    destruct (HD _ _ D1) as (?&?&?&_); discriminate.
  - destruct H as (a&b&D&D1&->), H' as (a'&b'&D'&D1'&E). apply NN in D, D', D1, D1'; try lia. apply PL in E.
    destruct (SP a b a' b') as (->&->); auto; [apply D|apply D'|].
    split; eapply U; eauto.
Qed.
Print Assumptions C09_range_value_injective.

(** ** C10 *)
Theorem C10_integer_formatting : forall v a base,
  INT32_MIN < v <= INT32_MAX -> 0 <= base ->
  (if v <? 0 then 11 else 10) <= zlen a - base ->
  exists a' n, convertInt32ToAscii v a base = Ret (a', n) /\
    decimal v (slice a' base n) /\ 1 <= n <= (if v <? 0 then 11 else 10) /\
    zlen a' = zlen a /\
    slice a' 0 base = slice a 0 base /\
    slice a' (base + n) (zlen a - base - n) = slice a (base + n) (zlen a - base - n).
Proof.
  intros v a base Hv Hb Ha.
  assert (L : 1 <= zlen (to_dec v) <= (if v <? 0 then 11 else 10)).
  { destruct (Z.ltb_spec v 0); [apply to_dec_len|apply to_dec_len_nonneg]; unfold is_int32, INT32_MIN in *; lia. }
  assert (10 <= zlen a - base) by (destruct (v <? 0); lia).
  exists (splice a base (to_dec v)), (zlen (to_dec v)).
  split; [apply conv_ok; auto; lia|].
  rewrite slice_splice_same by lia.
  split; [apply to_dec_decimal; unfold is_int32; lia|]. split; auto.
  split; [apply splice_len; lia|].
  split; rewrite slice_splice_disj; auto; lia.
Qed.
Example C10_case : convertInt32ToAscii (-2147483647) (repeat 0 11) 0 = Ret (B "-2147483647", 11).
Proof. vm_compute. reflexivity. Qed.
Print Assumptions C10_integer_formatting.

(** Through HTTPClient_AddRangeHeader: whatever the two integers, the call returns (it neither overruns its scratch array nor overflows), and
    when it succeeds the value written is the decimal text of the range. *)
Theorem C10_range_formatting_is_safe : forall cfg m h buf n req s e,
  holds m h buf n req -> is_int32 s -> is_int32 e -> n + 38 < SZ cfg ->
  exists st h' m', AddRangeHeader cfg m (Some h) s e = Ret (st, Some h', m') /\
    (st = HTTPSuccess \/ st = HTTPInvalidParameter /\ range_rejected s e \/ st = HTTPInsufficientMemory) /\
    (st = HTTPSuccess -> exists o t, opened req o /\ range_value s e t /\ holds m' h' buf n (o ++ header_line (B "Range") t ++ CRLF)).
Proof.
  intros cfg m h buf n req s e H I1 I2 W.
  destruct (AddRangeHeader_outcome cfg m h buf n _ s e H I1 I2 W) as [(RR&E)|(NR&t&st&h2&m2&RV&LT&E'&D)].
  - exists HTTPInvalidParameter, h, m. split; [auto|]. split; [auto|]. discriminate.
  - destruct D as (o&OP&_). destruct (C09_range_header_exact cfg m h buf n req s e o H OP I1 I2 W NR) as (t2&st'&h'&m'&RV'&E2&D).
    exists st', h', m'. split; [auto|]. destruct D as [(->&_)|(->&_&D&_)]; (split; [auto|]); [discriminate|]. intros _. exists o, t2. auto.
Qed.
Print Assumptions C10_range_formatting_is_safe.

(** ** C18 (request functions) *)
Theorem C18_invalid_parameter_no_effect_request : forall cfg m h c st oh m',
  do_call cfg m h c = Ret (st, oh, m') ->
  (match c with CInit ri => init_invalid (Some h) (Some ri)
              | CAdd f fl v vl => add_invalid (Some h) f fl v vl
              | CRange s e => is_int32 s /\ range_invalid (Some h) s e end) ->
  st = HTTPInvalidParameter /\ oh = Some h /\ m' = m.
Proof.
  intros cfg m h c st oh m' E H. destruct c; cbn [do_call] in E.
  - rewrite Init_invalid in E by auto. injection E as <- <- <-. auto.
  - rewrite AddHeader_invalid in E by auto. injection E as <- <- <-. auto.
  - destruct H. rewrite AddRangeHeader_invalid in E by auto. injection E as <- <- <-. auto.
Qed.
Print Assumptions C18_invalid_parameter_no_effect_request.

(** ** C39 *)
(** False without a bound on the lengths: on every platform, a field of SIZE_MAX - 2 bytes makes the
    size_t sum wrap to 4, the size check passes and the copy runs off the end of the buffer. *)
Lemma loop_oob n : forall k i m dst l, object m dst n -> 0 <= i -> i + Z.of_nat k = n ->
  (forall j, 0 <= j <= n -> zn l j = 97) -> n < zlen l -> n <= zlen (blk m (pb dst)) - po dst -> 
  zlen (blk m (pb dst)) = po dst + n -> forall r,
  strncpy_loop m dst (SLit l) true (S k + r) i = Ub UbOob.
Proof.
  induction k as [|k IH]; intros i m dst l O Hi Hk A Ll H1 H2 r.
  - cbn [Nat.add strncpy_loop src_byte].
    replace (0 <=? i) with true by lia. replace (i <? zlen l) with true by lia. cbn [andb bind].
    pose proof (A i ltac:(lia)) as Ai. unfold zn in Ai. rewrite Ai.
    change ((97 =? CR) || (97 =? LF) || true && (97 =? COLON)) with false. cbv iota.
    unfold storen, in_range. cbn [po pb]. replace (po dst + i + zlen [97] <=? zlen (blk m (pb dst))) with false by zlia.
    rewrite andb_false_r. reflexivity.
  - cbn [Nat.add strncpy_loop src_byte].
    replace (0 <=? i) with true by lia. replace (i <? zlen l) with true by lia. cbn [andb bind].
    pose proof (A i ltac:(lia)) as Ai. unfold zn in Ai. rewrite Ai.
    change ((97 =? CR) || (97 =? LF) || true && (97 =? COLON)) with false. cbv iota.
    assert (OO : object m (mkptr (pb dst) (po dst + i)) (zlen [97])) by (destruct O as (?&?&?); unfold object; cbn [po pb]; zlia).
    rewrite storen_ok by auto. cbn [bind].
    apply IH; auto; try lia; rewrite ?zlen_blk_write by auto; auto.
    apply object_write; auto.
Qed.
Theorem C39_length_arithmetic_wraps_refuted : forall cfg, config_ok cfg ->
  exists m h buf n field fl value vl f v,
    rh_buf h = Some buf /\ rh_bufLen h = n /\ object m buf n /\ rh_len h = 0 /\
    arg_for m buf n field fl f /\ arg_for m buf n value vl v /\ 0 < fl < SZ cfg /\ 0 < vl < SZ cfg /\
    AddHeader cfg m (Some h) field fl value vl = Ub UbOob.
Proof.
  intros cfg (Hsz&_).
  set (fl := SZ cfg - 3). set (f := repeat 97 (Z.to_nat fl)).
  assert (Lf : zlen f = fl) by (unfold f; rewrite zlen_repeat; unfold fl; lia).
  exists [repeat 0 16], (mkrh (Some buf0) 16 0), buf0, 16, (SLit f), fl, (SLit [97]), 1, f, [97].
  assert (O16 : object [repeat 0 16] buf0 16) by (vm_compute; repeat split; discriminate).
  split; [reflexivity|]. split; [reflexivity|]. split; [exact O16|].
  split; [reflexivity|].
  split. { split; [|exact I]. split; auto. split; [lia|]. rewrite slice_full; auto. }
  split; [litarg|]. split; [unfold fl; lia|]. split; [lia|].
  unfold AddHeader. cbn [rh_buf rh_bufLen rh_len is_null].
  replace (fl =? 0) with false by (unfold fl; lia). change (1 =? 0) with false. change (16 <? 0) with false. cbv iota.
  unfold addHeader. cbn [rh_buf rh_len rh_bufLen is_null negb assert_at bind].
  replace (fl =? 0) with false by (unfold fl; lia). change (1 =? 0) with false. cbn [negb assert_at bind].
  change (padd [repeat 0 16] buf0 0) with (Ret (mkptr 0 0)). cbn [bind].
  change (4 <=? 0) with false. cbv iota. cbn [bind].
  assert (E1 : (fl + 2 + 1 + 2 + 2) mod SZ cfg = 4).
  { unfold fl. replace (SZ cfg - 3 + 2 + 1 + 2 + 2) with (4 + 1 * SZ cfg) by lia.
    rewrite Z_mod_plus by lia. apply Z.mod_small. lia. }
  rewrite E1. replace ((0 + 4) mod SZ cfg) with 4 by (rewrite Z.mod_small; lia).
  change (4 <=? 16) with true. cbv iota.
  unfold httpHeaderStrncpy. cbn [is_null negb assert_at bind].
  replace (Z.to_nat fl) with (S 16 + (Z.to_nat fl - 17))%nat by (unfold fl; lia).
  rewrite (loop_oob 16 16 0 [repeat 0 16] (mkptr 0 0) f); auto; try lia; try reflexivity.
  - intros j Hj. unfold zn, f. rewrite nth_repeat_in; auto. unfold fl; lia.
Qed.
Print Assumptions C39_length_arithmetic_wraps_refuted.

(** With lengths whose sum size_t can count, nothing wraps: see C05 (every call, every history). *)
Theorem C39_no_wrap_partial : forall cfg m h buf n c,
  config_ok cfg -> rh_buf h = Some buf -> rh_bufLen h = n -> object m buf n -> 0 <= rh_len h <= n ->
  call_ok cfg m buf n c ->
  exists st h' m', do_call cfg m h c = Ret (st, Some h', m') /\ same_outside m m' buf n.
Proof.
  intros. edestruct do_call_stays as (st&h'&m'&E&S&_); eauto 8.
Qed.
Print Assumptions C39_no_wrap_partial.
