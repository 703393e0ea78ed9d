(** PropsReadHeader.v — HTTPClient_ReadHeader and HTTPClient_strerror. *)
From Verif Require Import Base Lib ModelRequest ModelSend ModelResponse ModelReadHeader SpecRequest SpecSend SpecResponse SpecReadHeader
  ProofsRequest ProofsSend ProofsSend2 ProofsResponse ProofsResponse2 ProofsResponse3 ProofsResponse4 ProofsResponse5
  ProofsReadHeader RefParser RefRun SpecHttp SpecParser HttpRun ProofsFollow ProofsEnd ProofsReadHttp Demo DemoResponse PropsResponse PropsHttp.

(** ** C18 for HTTPClient_ReadHeader *)
Theorem C18_read_invalid_parameter_iff : forall P m pr field n locOk lenOk,
  (exists out, ReadHeader P m pr field n locOk lenOk = Ret (HTTPInvalidParameter, out)) <-> read_invalid pr field n locOk lenOk.
Proof.
  intros P m pr field n locOk lenOk.
  assert (NI : forall buf L, ~ exists out, findHeaderInResponse P m buf L field n = Ret (HTTPInvalidParameter, out)).
  { intros buf L (out&H). unfold findHeaderInResponse in H. destruct (loadn m buf L) as [d| | |]; cbn [bind] in H; try discriminate.
    destruct (find_tree m buf (p_exec P (p_init P) d) (mkfctx field n false false None)) as [(e&x)| | |]; cbn [bind] in H; try discriminate.
    destruct (f_fieldFound x); cbn [negb bind] in H; [destruct (f_valueFound x); cbn [negb bind] in H|destruct (f_valueFound x); cbn [negb assert_at bind] in H]; destruct e; discriminate. }
  unfold ReadHeader, read_invalid. destruct pr as [r|]; [|split; [left; auto|eauto]].
  destruct (r_buf r) as [buf|] eqn:EB; [|split; [right; left; eauto|eauto]].
  destruct (Z.eqb_spec (r_bufLen r) 0) as [EL|EL]; [split; [right; left; eauto|eauto]|].
  destruct field as [|l|p]; cbn [is_null]; [split; [right; right; left; auto|eauto]| |].
  all: destruct (Z.eqb_spec n 0) as [EN|EN]; [split; [right; right; right; left; auto|eauto]|].
  all: destruct locOk; cbn [negb]; [|split; [right; right; right; right; left; auto|eauto]].
  all: destruct lenOk; cbn [negb]; [|split; [right; right; right; right; right; auto|eauto]].
  all: split; [intros X; destruct (NI _ _ X)|].
  all: intros [X|[(r0&X&[Y|Y])|[X|[X|[X|X]]]]]; try discriminate; try congruence; injection X as <-; congruence.
Qed.
Print Assumptions C18_read_invalid_parameter_iff.

(** ** C35 — names compare equal exactly up to ASCII case *)
(** [name]: the bytes of pField; [loc], [len]: a name in the response, as the parser reports it. *)
Theorem C35_names_equal : forall m field n name out loc len, src_bytes m field n = Ret name -> 0 < n -> 0 < len -> object m loc len ->
  exists found, findHeaderField m (mkfctx field n false false out) loc len = Ret (CbContinue, mkfctx field n found false out) /\
    (found = true <-> same_name name (bytes_at m loc len)).
Proof. intros m field n name out loc len HA Hn Hl HO. apply (field_ok m field n name (mkfctx field n false false out) loc len); auto. Qed.
(** ... which is: the same length, and at every position the same byte or the two cases of one letter. *)
Definition same_letter (c d : Z) : Prop := c = d \/ 97 <= c <= 122 /\ d = c - 32 \/ 97 <= d <= 122 /\ c = d - 32.
Theorem C35_nothing_else_identified : forall a b,
  same_name a b <-> length a = length b /\ forall i, (i < length a)%nat -> same_letter (nth i a 0) (nth i b 0).
Proof.
  assert (F : forall c d, fold_case c = fold_case d <-> same_letter c d).
  { intros c d. unfold fold_case, same_letter. destruct ((97 <=? c) && (c <=? 122)) eqn:E1, ((97 <=? d) && (d <=? 122)) eqn:E2; lia. }
  unfold same_name. induction a as [|x a IH]; intros [|y b]; cbn [map length].
  - split; [split; [auto|lia]|auto].
  - split; [discriminate|intros (X&_); discriminate].
  - split; [discriminate|intros (X&_); discriminate].
  - split.
    + intros H. injection H as H1 H2. apply IH in H2. destruct H2 as (L&Q). split; [auto|]. intros [|i] Hi; cbn [nth]; [apply F; auto|apply Q; lia].
    + intros (L&Q). f_equal; [apply F, (Q 0%nat); lia|]. apply IH. split; [lia|]. intros i Hi. apply (Q (S i)). lia.
Qed.
Example C35_case : same_name (B "Content-Length") (B "cONTENT-lENGTH") /\ ~ same_name (B "A[") (B "a{") /\ ~ same_name (B "A") (B "AB").
Proof. conj; [reflexivity|discriminate|discriminate]. Qed.
Print Assumptions C35_names_equal.
Print Assumptions C35_nothing_else_identified.

(** ** C37 — HTTPClient_strerror *)
Theorem C37_strerror_names : forall v name, strerror v = Some name <-> exists s, v = status_code s /\ In (s, name) status_names.
Proof.
  intros v name. split.
  - intros H. unfold strerror in H.
    repeat match type of H with context [match ?x with _ => _ end] => destruct x; try discriminate end; injection H as <-.
    all: unfold status_names.
    all: match goal with |- exists s, _ /\ In (s, ?n) _ =>
      first [exists HTTPSuccess; split; [reflexivity|cbn [In]; tauto] | exists HTTPInvalidParameter; split; [reflexivity|cbn [In]; tauto]
      | exists HTTPNetworkError; split; [reflexivity|cbn [In]; tauto] | exists HTTPPartialResponse; split; [reflexivity|cbn [In]; tauto]
      | exists HTTPNoResponse; split; [reflexivity|cbn [In]; tauto] | exists HTTPInsufficientMemory; split; [reflexivity|cbn [In]; tauto]
      | exists HTTPSecurityAlertExtraneousResponseData; split; [reflexivity|cbn [In]; tauto]
      | exists HTTPSecurityAlertInvalidChunkHeader; split; [reflexivity|cbn [In]; tauto]
      | exists HTTPSecurityAlertInvalidProtocolVersion; split; [reflexivity|cbn [In]; tauto]
      | exists HTTPSecurityAlertInvalidStatusCode; split; [reflexivity|cbn [In]; tauto]
      | exists HTTPSecurityAlertInvalidCharacter; split; [reflexivity|cbn [In]; tauto]
      | exists HTTPSecurityAlertInvalidContentLength; split; [reflexivity|cbn [In]; tauto]
      | exists HTTPParserPaused; split; [reflexivity|cbn [In]; tauto] | exists HTTPParserInternalError; split; [reflexivity|cbn [In]; tauto]
      | exists HTTPHeaderNotFound; split; [reflexivity|cbn [In]; tauto] | exists HTTPInvalidResponse; split; [reflexivity|cbn [In]; tauto]] end.
  - intros (s&->&H). unfold status_names in H. cbn [In] in H.
    repeat match goal with H : _ \/ _ |- _ => destruct H as [H|H] end; try contradiction; injection H as <- <-; reflexivity.
Qed.
(** Every status has one name, distinct statuses have distinct codes and names, and no other integer has a name. *)
Theorem C37_strerror_total_injective :
  (forall s, exists name, strerror (status_code s) = Some name /\ In (s, name) status_names) /\
  (forall v1 v2 name, strerror v1 = Some name -> strerror v2 = Some name -> v1 = v2) /\
  (forall s1 s2, status_code s1 = status_code s2 -> s1 = s2) /\
  (forall v, strerror v = None <-> v < 0 \/ 15 < v).
Proof.
  split; [|split; [|split]].
  - intros s. destruct s; eexists; (split; [reflexivity|]); unfold status_names; cbn [In]; tauto.
  - intros v1 v2 name H1 H2. pose proof H1 as G1. pose proof H2 as G2. apply C37_strerror_names in G1, G2. destruct G1 as (s1&->&_). destruct G2 as (s2&->&_).
    f_equal. destruct s1, s2; try reflexivity; vm_compute in H1, H2; congruence.
  - intros s1 s2. destruct s1, s2; cbn; intros H; try discriminate; reflexivity.
  - intros v. split.
    + intros H. destruct (Z_lt_le_dec v 0); [auto|]. destruct (Z_lt_le_dec 15 v); [auto|]. exfalso.
      assert (X : v = 0 \/ v = 1 \/ v = 2 \/ v = 3 \/ v = 4 \/ v = 5 \/ v = 6 \/ v = 7 \/ v = 8 \/ v = 9 \/ v = 10 \/ v = 11 \/ v = 12 \/ v = 13 \/ v = 14 \/ v = 15) by lia.
      repeat destruct X as [X|X]; subst v; discriminate.
    + intros H. destruct (strerror v) as [name|] eqn:E; [|auto]. exfalso. apply C37_strerror_names in E. destruct E as (s&->&_). destruct s; cbn in H; lia.
Qed.
Print Assumptions C37_strerror_names.
Print Assumptions C37_strerror_total_injective.

(** ** C34 — the first header with that name *)
(** For every parser that keeps the contract and reports whole names: exactly what the parser reports for the buffer decides.
    [evs], [e]: everything it reports, and how it ends, when it is not stopped. *)
Theorem C34_first_match_partial : forall P m r buf L field n name evs e,
  parser_ok P -> whole_names P -> r_buf r = Some buf -> r_bufLen r = L -> object m buf L -> 0 < L ->
  src_bytes m field n = Ret name -> 0 < n ->
  let d := bytes_at m buf L in reports (p_exec P (p_init P) d) = (evs, e) ->
  exists st out, ReadHeader P m (Some r) field n true true = Ret (st, out) /\
  ((st = HTTPSuccess /\ exists a o l vo vl b, evs = a ++ EvField o l :: EvValue vo vl :: b /\ same_name name (slice d o l) /\ no_such d name a /\
      out = Some (value_at buf vo vl)) \/
   (out = None /\ no_such d name evs /\ (e = HPE_OK /\ st = HTTPHeaderNotFound \/ e <> HPE_OK /\ st = HTTPInvalidResponse)) \/
   (out = None /\ st = HTTPInvalidResponse /\ exists a o l, evs = a ++ [EvField o l] /\ same_name name (slice d o l) /\ no_such d name a)).
Proof.
  intros P m r buf L field n name evs e PO WN HB1 HB2 HO HL HA Hn d RP.
  exact (read_ok P m r buf L field n name true true PO WN HB1 HB2 HO HL HA Hn eq_refl eq_refl evs e RP).
Qed.
Print Assumptions C34_first_match_partial.
Example C34_case_parser : parser_ok refparser /\ whole_names refparser.
Proof. split; [apply refparser_ok|apply refparser_whole]. Qed.

(** A response structure whose buffer holds exactly [d]. *)
Definition holding (d : bytes) : response := mkresp (Some (mkptr 0 0)) (zlen d) true TUser None 0 None 0 0 0 0 0 0 0.
Definition bare : http :=   (* "HTTP/1.1 200 OK", one header, the body "hello" *)
  mkhttp 49 (B "200") (B "OK") [mkhline (B "Content-Length") (B " ") (B "5")] (Sized (B "hello")).
Definition nested : http := (* the body is the beginning of a response itself *)
  mkhttp 49 (B "200") (B "OK") [mkhline (B "Content-Length") (B " ") (B "23")] (Sized (line (B "HTTP/1.1 200 OK") ++ B "X: 1" ++ CRLF)).
Lemma sized_ok r d n : p_minor r = 49 -> p_code r = B "200" -> p_reason r = B "OK" -> p_headers r = [mkhline (B "Content-Length") (B " ") n] -> p_body r = Sized d ->
  clen_header n -> Forall text_char n -> (forall c x, n = c :: x -> ~ blank c) -> zlen d = dec_value n -> http_ok false r.
Proof.
  intros H1 H2 H3 H4 H5 HC HT HN HZ.
  assert (C : content_length (p_headers r) (Some (zlen d))) by (rewrite H4, HZ; apply CLhere; [reflexivity|exact HC|constructor]).
  unfold http_ok, head_ok, code_of. rewrite H1, H2, H3, H5. split; [split; [right; reflexivity|]|].
  - split; [reflexivity|]. split; [repeat constructor; discriminate|]. split; [vm_compute; discriminate|].
    split; [repeat constructor; discriminate|]. split; [|eauto]. rewrite H4. constructor; [|constructor].
    split; [discriminate|]; split; [repeat constructor; discriminate|]; split; [repeat constructor; discriminate|]. auto.
  - split; [intros [X|[X|[X|X]]]; vm_compute in X; discriminate|]. split; [|exact C]. rewrite H4. intros (h&[<-|[]]&X&_). vm_compute in X. discriminate.
Qed.
Lemma bare_ok : http_ok false bare.
Proof.
  eapply sized_ok; try reflexivity; [split; [discriminate|split; [repeat constructor; discriminate|cbn; lia]]|repeat constructor; discriminate|].
  intros c x X; injection X as <- _; intros [X|X]; discriminate.
Qed.
Lemma nested_ok : http_ok false nested.
Proof.
  eapply sized_ok; try reflexivity; [split; [discriminate|split; [repeat constructor; discriminate|cbn; lia]]|repeat constructor; discriminate|].
  intros c x X; injection X as <- _; intros [X|X]; discriminate.
Qed.

(** The search does not stop at the end of the headers: the parser goes on into the body.  A header that is absent from a
    well-formed response is reported as HTTPInvalidResponse, not as HTTPHeaderNotFound ... *)
Theorem C34_not_found_refuted : exists resp name, http_ok false resp /\ Forall (fun h => ~ same_name name (h_name h)) (p_headers resp) /\
  let d := http_bytes resp in
  ReadHeader refparser [d] (Some (holding d)) (SLit name) (zlen name) true true = Ret (HTTPInvalidResponse, None).
Proof.
  exists bare, (B "X"). split; [apply bare_ok|]. split; [repeat constructor; discriminate|]. vm_compute. reflexivity.
Qed.
Print Assumptions C34_not_found_refuted.
(** ... and a body that looks like a response makes it return a "header" from the body. *)
Theorem C34_value_from_body_refuted : exists resp name vo, http_ok false resp /\ Forall (fun h => ~ same_name name (h_name h)) (p_headers resp) /\
  let d := http_bytes resp in
  ReadHeader refparser [d] (Some (holding d)) (SLit name) (zlen name) true true = Ret (HTTPSuccess, Some (value_at (mkptr 0 0) vo 1)) /\
  zlen (head_bytes resp) <= vo.
Proof.
  exists nested, (B "X"), 59. split; [apply nested_ok|]. split; [repeat constructor; discriminate|]. vm_compute. split; [reflexivity|discriminate].
Qed.
Print Assumptions C34_value_from_body_refuted.

(** ** C47 — reading a well-formed header section *)
(** [r] is a response structure whose buffer, the [L] bytes at [buf], begins with the header section of [resp]; [rest] is
    whatever follows in the buffer. *)
Definition holds_head (m : mem) (r : response) (buf : ptr) (L : Z) (resp : http) (rest : bytes) : Prop :=
  r_buf r = Some buf /\ r_bufLen r = L /\ object m buf L /\ head_ok resp /\ bytes_at m buf L = head_bytes resp ++ rest.
Lemma head_valid resp : head_ok resp -> Forall hline_ok (p_headers resp) /\ cl_valid (p_headers resp).
Proof. intros (_&_&_&_&_&H5&o&H6). split; [auto|]. apply content_length_f in H6. apply H6. Qed.
Lemma holds_pos m r buf L resp rest : holds_head m r buf L resp rest -> 0 < L.
Proof.
  intros (_&_&HO&_&HB). pose proof (bytes_at_len _ _ _ HO) as LL. rewrite HB in LL. unfold head_bytes, status_bytes in LL. rewrite <- !app_assoc, zlen_app in LL.
  change (zlen (B "HTTP/1.")) with 7 in LL. match type of LL with _ + zlen ?x = _ => pose proof (zlen_nonneg x) end. lia.
Qed.
(** A header that is there is found, whatever follows the header section: the first one with that name. *)
Theorem C47_header_found : forall m r buf L resp rest field n name pre h post,
  holds_head m r buf L resp rest -> src_bytes m field n = Ret name -> 0 < n ->
  p_headers resp = pre ++ h :: post -> same_name name (h_name h) -> Forall (fun x => ~ same_name name (h_name x)) pre ->
  exists vo, ReadHeader refparser m (Some r) field n true true = Ret (HTTPSuccess, Some (value_at buf vo (zlen (h_value h)))) /\
    vo = zlen (status_bytes resp) + zlen (hlines_bytes pre) + zlen (h_name h) + 1 + zlen (h_ws h) /\
    bytes_at m (poff buf vo) (zlen (h_value h)) = h_value h.
Proof.
  intros m r buf L resp rest field n name pre h post HH HA Hn HE SN FD. pose proof (holds_pos _ _ _ _ _ _ HH) as HL.
  destruct HH as (HB1&HB2&HO&OK&HB). destruct (head_valid _ OK) as (FO&V). rewrite HE in FO, V.
  apply Forall_app in FO. destruct FO as (FO1&FO2). inversion FO2 as [|? ? FO3 _]; subst.
  assert (HB' : bytes_at m buf (r_bufLen r) = status_bytes resp ++ hlines_bytes pre ++ hline_bytes h ++ hlines_bytes post ++ CRLF ++ rest).
  { rewrite HB. unfold head_bytes. rewrite HE. unfold hlines_bytes. rewrite flat_map_app. cbn [flat_map]. rewrite <- !app_assoc. reflexivity. }
  destruct (find_head m buf _ field n name resp pre _ HO HA Hn OK FO1 FD (cl_valid_pre _ _ V) HB') as (s'&E1&J). cbn zeta in E1. rewrite <- zlen_app in E1.
  rewrite app_assoc in HB'. destruct (find_here m buf _ field n name _ _ _ _ h _ HO HA Hn FO3 SN J HB') as (E2&E3).
  exists (zlen (status_bytes resp ++ hlines_bytes pre) + value_off h). split; [|split; [unfold value_off; rewrite zlen_app; lia|exact E3]].
  rewrite (read_valid _ _ _ _ _ _ _ _ HB1 eq_refl HO HL HA Hn), E1, E2. reflexivity.
Qed.
Print Assumptions C47_header_found.
(** A header that is not there: when nothing follows the header section in the buffer, HTTPHeaderNotFound; when anything
    follows but line ends and the letter H, HTTPInvalidResponse. *)
Theorem C47_header_not_found : forall m r buf L resp rest field n name,
  holds_head m r buf L resp rest -> src_bytes m field n = Ret name -> 0 < n ->
  Forall (fun x => ~ same_name name (h_name x)) (p_headers resp) ->
  (rest = [] -> ReadHeader refparser m (Some r) field n true true = Ret (HTTPHeaderNotFound, None)) /\
  (forall c x, rest = c :: x -> c <> CR -> c <> LF -> c <> 72 -> ReadHeader refparser m (Some r) field n true true = Ret (HTTPInvalidResponse, None)).
Proof.
  intros m r buf L resp rest field n name HH HA Hn FD. pose proof (holds_pos _ _ _ _ _ _ HH) as HL.
  destruct HH as (HB1&HB2&HO&OK&HB). destruct (head_valid _ OK) as (FO&V). subst L.
  assert (HB' : bytes_at m buf (r_bufLen r) = status_bytes resp ++ hlines_bytes (p_headers resp) ++ CRLF ++ rest).
  { rewrite HB. unfold head_bytes. rewrite <- !app_assoc. reflexivity. }
  destruct (find_head m buf _ field n name resp _ _ HO HA Hn OK FO FD V HB') as (s'&E1&J). cbn zeta in E1.
  rewrite (read_valid _ _ _ _ _ _ _ _ HB1 eq_refl HO HL HA Hn), E1. destruct J as (A&T&_). split.
  - intros ->. rewrite (find_no_more m buf field n s' [] _ A T).
    + reflexivity.
    + intros s2 Q. cbn [go]. unfold flush. rewrite Z.ltb_irrefl. cbn [emit]. eauto.
  - intros c x -> N1 N2 N3. rewrite (find_no_more m buf field n s' (c :: x) _ A T).
    + reflexivity.
    + intros s2 Q. cbn [go]. unfold step. rewrite Q. replace ((c =? CR) || (c =? LF)) with false by lia. replace (c =? 72) with false by lia. cbn [map emit to q_st]. eauto.
Qed.
Print Assumptions C47_header_not_found.
Example C47_case : let d := head_bytes bare in
  holds_head [d] (holding d) (mkptr 0 0) (zlen d) bare [] /\ same_name (B "CONTENT-length") (B "Content-Length") /\
  ReadHeader refparser [d] (Some (holding d)) (SLit (B "CONTENT-length")) 14 true true = Ret (HTTPSuccess, Some (Some (mkptr 0 33), 1)) /\
  ReadHeader refparser [d] (Some (holding d)) (SLit (B "Content-Typ")) 11 true true = Ret (HTTPHeaderNotFound, None).
Proof.
  split; [|conj; reflexivity]. split; [reflexivity|]. split; [reflexivity|]. split; [vm_compute; repeat split; discriminate|].
  split; [apply (proj1 bare_ok)|reflexivity].
Qed.

(** ** C36 — HTTPClient_ReadHeader after a successful receive *)
(** [pre]: the headers before [h]; the callback has been given the same headers with the same values. *)
Theorem C36_headers_agree_partial : forall fuel cfg E t r rh buf L req w r' w' tr resp field n name pre h post,
  recv_setup cfg E refparser t r rh buf L req w -> recv_faithful E -> no_parse_body r = false ->
  receives fuel cfg E refparser t r rh w HTTPSuccess r' w' tr ->
  http_ok (beqb (slice req 0 4) (B "HEAD")) resp -> data_received tr = http_bytes resp ->
  src_bytes (w_mem w') field n = Ret name -> 0 < n ->
  p_headers resp = pre ++ h :: post -> same_name name (h_name h) -> Forall (fun x => ~ same_name name (h_name x)) pre ->
  exists vo, ReadHeader refparser (w_mem w') (Some r') field n true true = Ret (HTTPSuccess, Some (value_at buf vo (zlen (h_value h)))) /\
    bytes_at (w_mem w') (poff buf vo) (zlen (h_value h)) = h_value h /\
    (r_cb r = true -> exists rest, delivered tr = map (fun x => (h_name x, h_value x, code_of resp)) pre ++ (h_name h, h_value h, code_of resp) :: rest).
Proof.
  intros fuel cfg E t r rh buf L req w r' w' tr resp field n name pre h post HS F ND HR HO DR HA Hn HE SN FD.
  destruct (C19_parser_reads_what_was_received _ _ _ _ _ _ _ _ _ _ _ _ _ _ _ HS F HR) as (_&RW&RL).
  assert (G : gives cfg buf L resp r r' w' tr).
  { assert (D : (exists d, p_body resp = ToClose d) \/ forall d, p_body resp <> ToClose d) by (destruct (p_body resp) as [| | |d]; [right|right|right|left; eauto]; discriminate).
    assert (PR : exists rest, http_bytes resp = data_received tr ++ rest) by (exists []; rewrite DR, app_nil_r; reflexivity).
    destruct D as [(d&D)|D].
    - destruct (C43_until_close _ _ _ _ _ _ _ _ _ _ _ _ _ _ _ _ HS F ND HR HO D PR) as [(_&X)|[(_&X)|[(_&_&X)|(_&_&d'&X&Y)]]]; try discriminate; [destruct (data_received tr); discriminate|].
      assert (d' = d) by (rewrite DR in X; unfold http_bytes in X; rewrite D in X; apply app_inv_head in X; auto). subst d'.
      replace (cut resp d) with resp in Y by (destruct resp; unfold cut; cbn in *; congruence). exact Y.
    - destruct (C43_well_formed_response _ _ _ _ _ _ _ _ _ _ _ _ _ _ _ HS F ND HR HO D ltac:(rewrite <- DR; lia) PR) as [(_&_&X)|(X&_)]; [exact X|]. rewrite DR in X. lia. }
  destruct (outputs _ _ _ _ _ _ _ _ _ _ _ _ _ _ _ HS HR ltac:(left; discriminate)) as (_&(SI1&SI2&_)&_).
  destruct (C19_receive_stays_in_buffer fuel _ _ _ _ _ _ _ _ _ _ HS) as (o1&w1&tr0&Z1&_&_&SM). pose proof HR as (HR1&_). rewrite HR1 in Z1. cbn [wout] in Z1. injection Z1 as Z1 <-.
  destruct HS as (_&_&_&_&HB1&HB2&HOB&HL&_).
  assert (HOB' : object (w_mem w') buf L) by (apply (same_outside_object _ _ _ _ _ _ SM); auto).
  destruct HO as (OK&_).
  assert (LH : zlen (head_bytes resp) <= L).
  { rewrite DR in RW. unfold http_bytes in RW. rewrite zlen_app in RW. pose proof (zlen_nonneg (body_bytes (p_body resp))). lia. }
  assert (HH : exists rest, holds_head (w_mem w') r' buf L resp rest).
  { exists (bytes_at (w_mem w') (poff buf (zlen (head_bytes resp))) (L - zlen (head_bytes resp))). split; [congruence|]. split; [congruence|]. split; [auto|]. split; [auto|].
    pose proof (zlen_nonneg (head_bytes resp)). replace L with (zlen (head_bytes resp) + (L - zlen (head_bytes resp))) at 1 by lia.
    unfold object in HOB'. rewrite bytes_at_app by lia. rewrite (g_head _ _ _ _ _ _ _ _ G). reflexivity. }
  destruct HH as (rest&HH). destruct (C47_header_found _ _ _ _ _ _ _ _ _ _ _ _ HH HA Hn HE SN FD) as (vo&E1&_&E3).
  exists vo. split; [exact E1|]. split; [exact E3|]. intros CB. rewrite (g_headers _ _ _ _ _ _ _ _ G CB).
  unfold reported, headers_of. rewrite HE. destruct (trailers (p_body resp)) as [|tl0 tls].
  - rewrite app_nil_r, map_app. cbn [map]. eauto.
  - rewrite map_app, removelast_app by discriminate. rewrite map_app. rewrite <- app_assoc. cbn [map app]. eauto.
Qed.
Print Assumptions C36_headers_agree_partial.
(** ex_chunked in one piece: the body is compacted in the buffer, and the header after it still is read from the same place. *)
Example C36_case : exists r' w' tr,
  receives 10 cfg0 (env_of [http_bytes ex_chunked]) refparser trr (resp_old 300 0) h1 (wr 300) HTTPSuccess r' w' tr /\
  data_received tr = http_bytes ex_chunked /\ http_ok false ex_chunked /\ p_headers ex_chunked = [nth 0 (p_headers ex_chunked) (mkhline [] [] [])] ++ mkhline (B "A") (B " ") (B "b") :: [] /\
  ReadHeader refparser (w_mem w') (Some r') (SLit (B "a")) 1 true true = Ret (HTTPSuccess, Some (Some (poff rbuf 48), 1)) /\
  bytes_at (w_mem w') (poff rbuf 48) 1 = B "b".
Proof. do 3 eexists. split; [split; vm_compute; reflexivity|]. split; [vm_compute; reflexivity|]. split; [apply ex_chunked_ok|]. conj; vm_compute; reflexivity. Qed.
(** A trailer of a chunked response that was delivered to the callback is not found. *)
Theorem C36_trailers_refuted : exists r' w' tr resp name value,
  recv_setup cfg0 (env_of [http_bytes resp]) refparser trr (resp_old 300 0) h1 rbuf 300 req1 (wr 300) /\ http_ok false resp /\
  receives 10 cfg0 (env_of [http_bytes resp]) refparser trr (resp_old 300 0) h1 (wr 300) HTTPSuccess r' w' tr /\
  data_received tr = http_bytes resp /\ In (name, value, code_of resp) (delivered tr) /\
  ReadHeader refparser (w_mem w') (Some r') (SLit name) (zlen name) true true = Ret (HTTPInvalidResponse, None).
Proof.
  do 3 eexists. exists ex_chunked, (B "T1"), (B "u"). split; [apply (setup0 _ 300 0); [lia|reflexivity]|]. split; [apply ex_chunked_ok|].
  split; [split; vm_compute; reflexivity|]. conj; vm_compute; auto.
Qed.
Print Assumptions C36_trailers_refuted.
