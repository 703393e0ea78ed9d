(** PropsSections.v — C72: HTTPClient_ReadHeader on a buffer that begins with a header section, for any parser. *)
From Verif Require Import Base Lib ModelRequest ModelSend ModelResponse ModelReadHeader SpecRequest SpecSend SpecResponse SpecReadHeader
  ProofsRequest ProofsSend ProofsSend2 ProofsResponse ProofsResponse2 ProofsResponse3 ProofsResponse4 ProofsResponse5
  ProofsReadHeader RefParser RefRun SpecHttp SpecParser HttpRun ProofsFollow ProofsEnd ProofsReadHttp Demo DemoResponse PropsResponse PropsHttp
  PropsReadHeader ProofsAny PropsAny SpecRaw PropsRaw SpecSections.

(** ** The reference parser *)
(** Two states from which the parser reads the same headers. *)
Definition mute (x : rstate) : bool := match x with Start | Dead _ => true | _ => false end.
Definition sim (s t : rst) : Prop :=
  q_st s = q_st t /\ (mute (q_st s) = false -> q_tr s = q_tr t /\ q_name s = q_name t /\ q_val s = q_val t /\ q_clen s = q_clen t).
Lemma sim_intro s t : q_st s = q_st t -> q_tr s = q_tr t -> q_name s = q_name t -> q_val s = q_val t -> q_clen s = q_clen t -> sim s t.
Proof. intros. split; auto. Qed.
Lemma sim_mute s t : q_st s = q_st t -> mute (q_st s) = true -> sim s t.
Proof. intros H N. split; [auto|congruence]. Qed.
Ltac sims := first [assumption | apply sim_mute; [cbn; congruence|cbn; reflexivity] | apply sim_intro; cbn; congruence].
Lemma sim_interpret s t : sim s t -> mute (q_st s) = false -> sim (interpret s) (interpret t).
Proof.
  intros (H1&H2) N. destruct (H2 N) as (H3&H4&H5&H6).
  unfold interpret. rewrite <- H3, <- H4, <- H5, <- H6.
  repeat match goal with |- context [if ?b then _ else _] => destruct b end; sims.
Qed.
Lemma sim_hstart s t c ks s1 : sim s t -> mute (q_st s) = false -> hstart s c = (ks, s1) -> exists t1, hstart t c = (ks, t1) /\ sim s1 t1.
Proof.
  intros (H1&H2) N H. destruct (H2 N) as (H3&H4&H5&H6). unfold hstart, end_of_headers in *. rewrite <- H3.
  repeat match type of H with context [if ?b then _ else _] => destruct b eqn:? end; injection H as <- <-; eexists; (split; [reflexivity|]); sims.
Qed.
Lemma sim_step s t c ks s1 : sim s t -> step s c = (ks, s1) -> exists t1, step t c = (ks, t1) /\ sim s1 t1.
Proof.
  intros Hs H. pose proof Hs as (H1&H2). unfold step in *. rewrite <- H1. destruct (q_st s) eqn:Q.
  all: try (destruct (H2 eq_refl) as (H3&H4&H5&H6)).
  all: try match goal with |- exists t1, hstart _ _ = _ /\ _ => eapply sim_hstart; [exact Hs|rewrite Q; reflexivity|exact H] end.
  all: try (unfold end_of_headers in *; try rewrite <- H3; try rewrite <- H4; try rewrite <- H5;
            repeat match type of H with context [if ?b then _ else _] => destruct b eqn:? | context [match hexval ?c with _ => _ end] => destruct (hexval c) end;
            injection H as <- <-; eexists; (split; [reflexivity|]); sims).
  cbn zeta in *. rewrite <- H4, <- H5. destruct (is_ws c); [injection H as <- <-; eexists; (split; [reflexivity|]); sims|].
  assert (J : sim (interpret s) (interpret t)) by (apply sim_interpret; [exact Hs|rewrite Q; reflexivity]).
  pose proof J as (J1&_). rewrite <- J1. destruct (interpret_st s) as [X|(e&X&_)]; rewrite X in *; [rewrite Q in *|].
  - eapply sim_hstart; [exact J|rewrite X; reflexivity|exact H].
  - injection H as <- <-. eauto.
Qed.
Lemma reports_emit' evs (t : ptree rst) a e : reports t = (a, e) -> reports (emit evs t) = (evs ++ a, e).
Proof. intros H. induction evs as [|x evs IH]; [exact H|]. cbn [emit reports app]. rewrite IH. reflexivity. Qed.
Lemma hev_app a b : header_events (a ++ b) = header_events a ++ header_events b.
Proof. apply filter_app. Qed.
Lemma event_further k s1 t1 kd sp pos : header_events [event s1 kd (sp + k) (pos + k)] = map (further k) (header_events [event t1 kd sp pos]).
Proof. destruct kd; cbn [event header_events filter of_header map further]; try reflexivity; do 2 f_equal; lia. Qed.
Lemma events_further k s1 t1 ks sp pos : header_events (map (fun x => event s1 x (sp + k) (pos + k)) ks) = map (further k) (header_events (map (fun x => event t1 x sp pos) ks)).
Proof.
  induction ks as [|x ks IH]; [reflexivity|]. change (map ?f (x :: ks)) with ([f x] ++ map f ks). rewrite !hev_app, map_app, IH. f_equal. apply event_further.
Qed.
Lemma sim_go k d : forall s t sp pos evs e evs2 e2, sim s t -> reports (go s d (sp + k) (pos + k)) = (evs, e) -> reports (go t d sp pos) = (evs2, e2) ->
  header_events evs = map (further k) (header_events evs2) /\ e = e2.
Proof.
  induction d as [|c d IH]; intros s t sp pos evs e evs2 e2 Hs R1 R2; cbn [go] in *.
  - rewrite (reports_emit' _ (PDone HPE_OK s) [] HPE_OK eq_refl) in R1. rewrite (reports_emit' _ (PDone HPE_OK t) [] HPE_OK eq_refl) in R2. injection R1 as <- <-. injection R2 as <- <-.
    rewrite !app_nil_r. split; [|reflexivity]. destruct Hs as (H1&_). unfold flush. rewrite H1. replace (sp + k <? pos + k) with (sp <? pos) by lia.
    destruct (sp <? pos); [|reflexivity]. destruct (q_st t); cbn [header_events filter of_header map further]; try reflexivity; do 2 f_equal; lia.
  - destruct (step s c) as (ks&s1) eqn:S1. destruct (sim_step _ _ _ _ _ Hs S1) as (t1&S2&J). rewrite S2 in R2. pose proof J as (J1&J2).
    match type of R1 with reports (emit _ ?x) = _ => destruct (reports x) as (a1&f1) eqn:X1; rewrite (reports_emit' _ x _ _ X1) in R1 end.
    match type of R2 with reports (emit _ ?x) = _ => destruct (reports x) as (a2&f2) eqn:X2; rewrite (reports_emit' _ x _ _ X2) in R2 end.
    injection R1 as <- <-. injection R2 as <- <-. rewrite !hev_app, map_app, (events_further k s1 t1).
    assert (Y : header_events a1 = map (further k) (header_events a2) /\ f1 = f2); [|destruct Y as (-> & ->); auto].
    rewrite <- J1 in X2. replace (pos + k + 1) with (pos + 1 + k) in * by lia.
    assert (NS : next_sp s s1 ks (sp + k) (pos + k) = next_sp t t1 ks sp pos + k).
    { unfold next_sp. rewrite <- J1. destruct Hs as (Hs&_). rewrite <- Hs. destruct ks; [|lia]. destruct (in_piece (q_st s)); [lia|]. destruct (q_st s1); lia. }
    rewrite NS in X1. destruct (q_st s1) eqn:Q1; try (eapply IH; [exact J|exact X1|exact X2]).
    + unfold after_hdrs in X1, X2. cbn [reports orb] in X1, X2.
      match type of X1 with context [reports (emit ?l ?x)] => destruct (reports x) as (b1&g1) eqn:Y1; rewrite (reports_emit' l x _ _ Y1) in X1 end.
      match type of X2 with context [reports (emit ?l ?x)] => destruct (reports x) as (b2&g2) eqn:Y2; rewrite (reports_emit' l x _ _ Y2) in X2 end.
      injection X1 as <- <-. injection X2 as <- <-. cbn [map event header_events filter of_header app].
      eapply IH; [|exact Y1|exact Y2]. apply sim_mute; reflexivity.
    + cbn in X1, X2. injection X1 as <- <-. injection X2 as <- <-. auto.
Qed.
(** The header lines. *)
Lemma lines_reports code hs : Forall hline_ok hs -> forall done d s pos, cl_valid (done ++ hs) -> HI code done s ->
  exists s', HI code (done ++ hs) s' /\ forall evs e, reports (go s' d (pos + zlen (hlines_bytes hs)) (pos + zlen (hlines_bytes hs))) = (evs, e) ->
    exists evs1, reports (go s (hlines_bytes hs ++ d) pos pos) = (evs1, e) /\ header_events evs1 = line_events pos hs ++ header_events evs.
Proof.
  induction 1 as [|h hs OK _ IH]; intros done d s pos V J.
  - exists s. rewrite app_nil_r. split; [exact J|]. change (zlen (hlines_bytes [])) with 0. rewrite Z.add_0_r. intros evs e R. exists evs. split; [exact R|reflexivity].
  - destruct (IH (done ++ [h]) d (upd (settle s) VFold (h_name h) (h_value h)) (pos + zlen (hline_bytes h))) as (s'&K1&K2).
    + rewrite <- app_assoc. exact V.
    + eapply HI_next; eauto.
    + exists s'. split; [rewrite <- app_assoc in K1; exact K1|]. intros evs e R. unfold hlines_bytes in *. cbn [flat_map] in *. rewrite zlen_app, Z.add_assoc in R.
      destruct (K2 _ _ R) as (evs1&R1&Q1). eexists. split.
      * rewrite <- app_assoc. rewrite (go_line s h _ _ OK) by apply J. cbn [reports]. rewrite R1. reflexivity.
      * cbn [header_events filter of_header line_events]. fold (header_events evs1). rewrite Q1. unfold value_off. rewrite !Z.add_assoc. reflexivity.
Qed.
Lemma ref_sections resp rest evs e : head_ok resp -> reports (p_exec refparser (p_init refparser) (head_bytes resp ++ rest)) = (evs, e) ->
  exists s2 b, q_st s2 = Start /\ reports (go s2 rest (zlen (head_bytes resp)) (zlen (head_bytes resp))) = (b, e) /\
    header_events evs = line_events (zlen (status_bytes resp)) (p_headers resp) ++ header_events b.
Proof.
  intros OK R1. set (own := line_events _ _).
  assert (EX : p_exec refparser (p_init refparser) (head_bytes resp ++ rest) = go rinit (status_bytes resp ++ hlines_bytes (p_headers resp) ++ CRLF ++ rest) 0 0).
  { unfold head_bytes. rewrite <- !app_assoc. reflexivity. }
  rewrite EX, (go_status _ _ OK) in R1. destruct (head_valid _ OK) as (FO&V).
  assert (HI0 : HI (code_of resp) [] (base HStart (code_of resp))).
  { split; [left; reflexivity|]. cbn. repeat (split; [reflexivity|]). reflexivity. }
  destruct (lines_reports (code_of resp) _ FO [] (CRLF ++ rest) (base HStart (code_of resp)) (zlen (status_bytes resp)) V HI0) as (s'&J&K). cbn [app] in J.
  set (p := zlen (status_bytes resp) + zlen (hlines_bytes (p_headers resp))) in *.
  destruct (reports (go s' (CRLF ++ rest) p p)) as (a&ea) eqn:RA. destruct (K _ _ eq_refl) as (b&RB&HB).
  rewrite (reports_emit' _ _ _ _ RB) in R1. assert (XE : evs = status_events resp ++ b /\ e = ea) by (split; congruence). destruct XE as (-> & ->). clear R1.
  rewrite hev_app, HB. change (header_events (status_events resp)) with (@nil pevent). cbn [app]. fold own.
  destruct J as (A&T&_). rewrite (go_blank s' rest p A T) in RA. cbn zeta in RA. unfold after_hdrs in RA. cbn [reports orb] in RA.
  match type of RA with context [reports (emit ?l ?x)] => destruct (reports x) as (b1&g1) eqn:Y1; rewrite (reports_emit' l x _ _ Y1) in RA end.
  injection RA as <- <-. cbn [map event header_events filter of_header app].
  assert (PE : p + 2 = zlen (head_bytes resp)) by (unfold head_bytes, p; rewrite !zlen_app; change (zlen CRLF) with 2; lia).
  rewrite PE in Y1. exists (to (to (settle s') HEnd) Start), b1. auto.
Qed.
(** It goes on with whatever follows the section as with a new message. *)
Lemma ref_goes_on resp rest evs e evs2 e2 : head_ok resp -> rest <> [] ->
  reports (p_exec refparser (p_init refparser) (head_bytes resp ++ rest)) = (evs, e) -> reports (p_exec refparser (p_init refparser) rest) = (evs2, e2) ->
  header_events evs = line_events (zlen (status_bytes resp)) (p_headers resp) ++ map (further (zlen (head_bytes resp))) (header_events evs2) /\ e = e2.
Proof.
  intros OK NE R1 R2. destruct (ref_sections _ _ _ _ OK R1) as (s2&b&Q&Y1&->). destruct rest as [|c rest]; [congruence|].
  change (p_exec refparser (p_init refparser) (c :: rest)) with (go rinit (c :: rest) 0 0) in R2.
  destruct (sim_go (zlen (head_bytes resp)) (c :: rest) s2 rinit 0 0 _ _ _ _ ltac:(apply sim_mute; rewrite Q; reflexivity) Y1 R2) as (-> & ->). auto.
Qed.
Theorem C72_reference_parser_reads_sections : reads_sections refparser.
Proof.
  split; [apply refparser_ok|]. split; [apply refparser_whole|]. intros resp rest evs e evs2 e2 OK R1 R2 own. split.
  - intros ->. destruct (ref_sections _ _ _ _ OK R1) as (s2&b&Q&Y1&->). cbn [go] in Y1. unfold flush in Y1. rewrite Z.ltb_irrefl in Y1. cbn in Y1. injection Y1 as <- <-. cbn. rewrite app_nil_r. auto.
  - intros NE. left. exact (ref_goes_on _ _ _ _ _ _ OK NE R1 R2).
Qed.
Print Assumptions C72_reference_parser_reads_sections.

(** ** The search, as a function of what the parser reports *)
Fixpoint search (d name : bytes) (buf : ptr) (hev : list pevent) (e : errno) : status * option (option ptr * Z) :=
  match hev with
  | [] => (match e with HPE_OK => HTTPHeaderNotFound | _ => HTTPInvalidResponse end, None)
  | EvField o l :: rest =>
      if beqb (map fold_case name) (map fold_case (slice d o l))
      then match rest with EvValue vo vl :: _ => (HTTPSuccess, Some (value_at buf vo vl)) | _ => (HTTPInvalidResponse, None) end
      else search d name buf rest e
  | _ :: rest => search d name buf rest e
  end.
Lemma search_skip d name buf a b e : no_such d name a -> search d name buf (header_events a ++ b) e = search d name buf b e.
Proof.
  induction a as [|x a IH]; intros N; [reflexivity|]. assert (N' : no_such d name a) by (intros o l I; apply N; right; exact I). specialize (IH N').
  destruct x; cbn [header_events filter of_header app search]; try exact IH.
  destruct (beqb _ _) eqn:Q; [|exact IH]. apply beqb_eq in Q. destruct (N off len (or_introl eq_refl) Q).
Qed.
Lemma search_hit d name buf o l vo vl b e : same_name name (slice d o l) -> search d name buf (EvField o l :: EvValue vo vl :: b) e = (HTTPSuccess, Some (value_at buf vo vl)).
Proof. intros H. cbn [search]. apply beqb_eq in H. rewrite H. reflexivity. Qed.
Lemma read_search P m r buf L field n name evs e : parser_ok P -> whole_names P -> r_buf r = Some buf -> r_bufLen r = L -> object m buf L -> 0 < L ->
  src_bytes m field n = Ret name -> 0 < n -> reports (p_exec P (p_init P) (bytes_at m buf L)) = (evs, e) ->
  ReadHeader P m (Some r) field n true true = Ret (search (bytes_at m buf L) name buf (header_events evs) e).
Proof.
  intros PO WN HB1 HB2 HO HL HA Hn RP.
  destruct (read_ok P m r buf L field n name true true PO WN HB1 HB2 HO HL HA Hn eq_refl eq_refl evs e RP) as (st&out&E&C). rewrite E. f_equal.
  destruct C as [(->&(a&o&l&vo&vl&b&->&S1&S2&->))|[(->&S1&S2)|(->&->&(a&o&l&->&S1&S2))]].
  - rewrite hev_app, (search_skip _ _ _ _ _ _ S2). cbn [header_events filter of_header]. rewrite search_hit by exact S1. reflexivity.
  - rewrite <- (app_nil_r (header_events evs)), (search_skip _ _ _ _ _ _ S1). cbn [search]. destruct S2 as [(->&->)|(S2&->)]; [reflexivity|]. destruct e; try reflexivity. congruence.
  - rewrite hev_app, (search_skip _ _ _ _ _ _ S2). cbn [header_events filter of_header search]. apply beqb_eq in S1. rewrite S1. reflexivity.
Qed.
(** Bounds of what is reported. *)
Lemma reports_bounds {S} R n (t : ptree S) : forall ph pos, 0 <= pos -> conforms R n ph pos t ->
  forall ev, In ev (fst (reports t)) -> match ev with EvField o l | EvValue o l => 0 <= o /\ 0 <= l /\ o + l <= n | _ => True end.
Proof.
  induction t as [e q|ev k IH]; intros ph pos Z0 C ev0 I; cbn [reports] in I; [destruct I|].
  cbn [conforms] in C. destruct C as (OK&C).
  set (a := match ev with EvHeadersComplete _ _ _ _ => CbNoBody | _ => CbContinue end) in *.
  destruct (C a) as (ph'&_&C'); [unfold a; destruct ev; auto|].
  destruct (reports (k a)) as [evs e] eqn:E. cbn [fst] in I. destruct I as [->|I].
  - destruct ev0; cbn [ev_ok] in OK; auto; lia.
  - eapply (IH a ph' (ev_end pos ev)); [destruct ev; cbn [ev_ok ev_end] in *; lia|exact C'|rewrite E; exact I].
Qed.
Lemma search_further pre d name buf e hev :
  (forall ev, In ev hev -> match ev with EvField o l | EvValue o l => 0 <= o /\ 0 <= l /\ o + l <= zlen d | _ => True end) ->
  search (pre ++ d) name buf (map (further (zlen pre)) hev) e = search d name (poff buf (zlen pre)) hev e.
Proof.
  assert (V : forall vo vl, value_at buf (vo + zlen pre) vl = value_at (poff buf (zlen pre)) vo vl).
  { intros vo vl. unfold value_at, poff. cbn [pb po]. destruct (0 <? vl); [|reflexivity]. do 3 f_equal. lia. }
  induction hev as [|x hev IH]; intros H; [reflexivity|]. assert (H' : forall ev, In ev hev -> match ev with EvField o l | EvValue o l => 0 <= o /\ 0 <= l /\ o + l <= zlen d | _ => True end) by (intros ev I; apply H; right; exact I).
  specialize (IH H'). cbn [map]. pose proof (H x (or_introl eq_refl)) as B. pose proof (zlen_nonneg pre). destruct x; cbn [further search]; try exact IH.
  rewrite slice_of_app_r by lia. replace (off + zlen pre - zlen pre) with off by lia. destruct (beqb _ _); [|exact IH].
  destruct hev as [|y hev]; [reflexivity|]. destruct y; cbn [map further]; try reflexivity. rewrite V. reflexivity.
Qed.
(** The header lines of a section. *)
Lemma search_absent name buf e more hs : forall pre d rest, d = pre ++ hlines_bytes hs ++ rest -> Forall hline_ok hs -> Forall (differs name) hs ->
  search d name buf (line_events (zlen pre) hs ++ more) e = search d name buf more e.
Proof.
  induction hs as [|h hs IH]; intros pre d rest -> OK DF; [reflexivity|]. inversion OK; subst. inversion DF as [|? ? D1 D2]; subst. cbn [line_events app search].
  replace (slice _ (zlen pre) (zlen (h_name h))) with (h_name h).
  2:{ cbn [hlines_bytes flat_map]. unfold hline_bytes. rewrite <- !app_assoc. symmetry. apply slice_mid. }
  destruct (beqb _ _) eqn:Q; [apply beqb_eq in Q; destruct (D1 Q)|]. rewrite <- zlen_app. eapply (IH _ _ rest); auto.
  cbn [hlines_bytes flat_map]. rewrite <- !app_assoc. reflexivity.
Qed.

Lemma value_place m buf L resp rest pre h post : object m buf L -> bytes_at m buf L = head_bytes resp ++ rest -> p_headers resp = pre ++ h :: post ->
  let vo := zlen (status_bytes resp) + zlen (hlines_bytes pre) + zlen (h_name h) + 1 + zlen (h_ws h) in
  bytes_at m (poff buf vo) (zlen (h_value h)) = h_value h.
Proof.
  intros HO HB HE vo.
  assert (HB2 : bytes_at m buf L = (status_bytes resp ++ hlines_bytes pre ++ h_name h ++ [COLON] ++ h_ws h) ++ h_value h ++ CRLF ++ hlines_bytes post ++ CRLF ++ rest).
  { rewrite HB. unfold head_bytes. rewrite HE. unfold hlines_bytes. rewrite flat_map_app. cbn [flat_map]. unfold hline_bytes at 2. rewrite <- !app_assoc. reflexivity. }
  assert (VE : vo = zlen (status_bytes resp ++ hlines_bytes pre ++ h_name h ++ [COLON] ++ h_ws h)) by (rewrite !zlen_app; change (zlen [COLON]) with 1; lia).
  pose proof (bytes_at_len _ _ _ HO) as LL. rewrite HB2, zlen_app, <- VE, zlen_app in LL.
  match type of LL with _ + (_ + zlen ?x) = _ => pose proof (zlen_nonneg x) end. pose proof (zlen_nonneg (h_value h)).
  assert (V0 : 0 <= vo) by (rewrite VE; apply zlen_nonneg).
  destruct (bytes_sub m buf L _ vo (zlen (h_value h)) HO HB2 V0 ltac:(lia) ltac:(lia)) as (_&->). rewrite VE. apply slice_mid.
Qed.

(** ** The call *)
(** A header that is there is found, whatever follows the header section: the first one with that name. *)
Theorem C72_header_found : forall P m r buf L resp rest field n name pre h post,
  reads_sections P -> holds_head m r buf L resp rest -> src_bytes m field n = Ret name -> 0 < n ->
  p_headers resp = pre ++ h :: post -> same_name name (h_name h) -> Forall (fun x => ~ same_name name (h_name x)) pre ->
  exists vo, ReadHeader P m (Some r) field n true true = Ret (HTTPSuccess, Some (value_at buf vo (zlen (h_value h)))) /\
    vo = zlen (status_bytes resp) + zlen (hlines_bytes pre) + zlen (h_name h) + 1 + zlen (h_ws h) /\
    bytes_at m (poff buf vo) (zlen (h_value h)) = h_value h.
Proof.
  intros P m r buf L resp rest field n name pre h post (PO&WN&RS) HH HA Hn HE SN FD. pose proof (holds_pos _ _ _ _ _ _ HH) as HL.
  destruct HH as (HB1&HB2&HO&OK&HB).
  destruct (reports (p_exec P (p_init P) (bytes_at m buf L))) as (evs&e) eqn:R1. destruct (reports (p_exec P (p_init P) rest)) as (evs2&e2) eqn:R2.
  rewrite (read_search P m r buf L field n name evs e PO WN HB1 HB2 HO HL HA Hn R1). rewrite HB in R1.
  destruct (RS resp rest evs e evs2 e2 OK R1 R2) as (C1&C2).
  assert (C : exists more, header_events evs = line_events (zlen (status_bytes resp)) (p_headers resp) ++ more).
  { destruct rest; [exists []; rewrite app_nil_r; apply C1; reflexivity|]. destruct C2 as [(->&_)|(->&_)]; [discriminate|eauto|exists []; rewrite app_nil_r; reflexivity]. }
  destruct C as (more&->). eexists. split; [|split; [reflexivity|eapply value_place; eauto]].
  destruct (head_valid _ OK) as (FO&_). rewrite HE in *. apply Forall_app in FO. destruct FO as (FO1&_).
  assert (LE : forall hs1 hs2 pos, line_events pos (hs1 ++ hs2) = line_events pos hs1 ++ line_events (pos + zlen (hlines_bytes hs1)) hs2).
  { induction hs1 as [|x hs1 IH]; intros hs2 pos; [change (zlen (hlines_bytes [])) with 0; rewrite Z.add_0_r; reflexivity|].
    cbn [app line_events]. rewrite IH. cbn [hlines_bytes flat_map]. fold (hlines_bytes hs1). rewrite zlen_app, Z.add_assoc. reflexivity. }
  assert (HB' : bytes_at m buf L = status_bytes resp ++ hlines_bytes pre ++ h_name h ++ [COLON] ++ h_ws h ++ h_value h ++ CRLF ++ hlines_bytes post ++ CRLF ++ rest).
  { rewrite HB. unfold head_bytes. rewrite HE. unfold hlines_bytes. rewrite flat_map_app. cbn [flat_map]. unfold hline_bytes at 2. rewrite <- !app_assoc. reflexivity. }
  rewrite LE, <- app_assoc, (search_absent _ _ _ _ _ _ _ _ HB' FO1 FD). cbn [line_events app]. rewrite search_hit; [reflexivity|].
  rewrite HB', app_assoc, <- zlen_app, slice_mid. exact SN.
Qed.
Print Assumptions C72_header_found.
(** A header that is not there.  [r2]: a structure whose buffer is the part of the buffer behind the header section. *)
Definition behind (r : response) (buf : ptr) (k : Z) (r2 : response) : Prop := r_buf r2 = Some (poff buf k) /\ r_bufLen r2 = r_bufLen r - k.
Lemma rest_place m buf L d rest : object m buf L -> bytes_at m buf L = d ++ rest ->
  object m (poff buf (zlen d)) (L - zlen d) /\ bytes_at m (poff buf (zlen d)) (L - zlen d) = rest.
Proof.
  intros HO HB. pose proof (bytes_at_len _ _ _ HO) as LL. rewrite HB, zlen_app in LL. pose proof (zlen_nonneg d). pose proof (zlen_nonneg rest).
  destruct (bytes_sub m buf L _ (zlen d) (L - zlen d) HO HB ltac:(lia) ltac:(lia) ltac:(lia)) as (X1&X2). split; [exact X1|]. rewrite X2.
  replace (L - zlen d) with (zlen rest) by lia. rewrite <- (app_nil_r rest) at 1. apply slice_mid.
Qed.
Lemma rest_read P m r buf L resp rest field n name r2 e2 evs2 : parser_ok P -> whole_names P -> holds_head m r buf L resp rest -> src_bytes m field n = Ret name -> 0 < n ->
  rest <> [] -> behind r buf (zlen (head_bytes resp)) r2 -> Forall (fun x => ~ same_name name (h_name x)) (p_headers resp) ->
  reports (p_exec P (p_init P) rest) = (evs2, e2) ->
  search (bytes_at m buf L) name buf (line_events (zlen (status_bytes resp)) (p_headers resp) ++ map (further (zlen (head_bytes resp))) (header_events evs2)) e2 =
  search rest name (poff buf (zlen (head_bytes resp))) (header_events evs2) e2 /\
  ReadHeader P m (Some r2) field n true true = Ret (search rest name (poff buf (zlen (head_bytes resp))) (header_events evs2) e2).
Proof.
  intros PO WN (HB1&HB2&HO&OK&HB) HA Hn NE (B1&B2) FD R2. destruct (rest_place _ _ _ _ _ HO HB) as (O2&D2). split.
  - destruct (head_valid _ OK) as (FO&_). 
    assert (HB' : bytes_at m buf L = status_bytes resp ++ hlines_bytes (p_headers resp) ++ CRLF ++ rest) by (rewrite HB; unfold head_bytes; rewrite <- !app_assoc; reflexivity).
    rewrite (search_absent _ _ _ _ _ _ _ _ HB' FO FD), HB. apply search_further.
    intros ev I. apply filter_In in I. destruct I as (I&_). destruct PO as (R&R0&PO). eapply (reports_bounds R (zlen rest)); [|exact (PO _ _ rest R0)|rewrite R2; exact I]. lia.
  - rewrite <- D2 at 1. rewrite HB2 in B2. eapply read_search; eauto; [|rewrite D2; exact R2].
    pose proof (bytes_at_len _ _ _ O2) as LL. rewrite D2 in LL. destruct rest as [|c rest]; [congruence|]. rewrite zlen_cons in LL. pose proof (zlen_nonneg rest). lia.
Qed.
Theorem C72_header_absent : forall P m r buf L resp rest field n name,
  reads_sections P -> holds_head m r buf L resp rest -> src_bytes m field n = Ret name -> 0 < n ->
  Forall (fun x => ~ same_name name (h_name x)) (p_headers resp) ->
  (rest = [] -> ReadHeader P m (Some r) field n true true = Ret (HTTPHeaderNotFound, None)) /\
  (rest <> [] -> ReadHeader P m (Some r) field n true true = Ret (HTTPInvalidResponse, None) \/
     forall r2, behind r buf (zlen (head_bytes resp)) r2 -> ReadHeader P m (Some r) field n true true = ReadHeader P m (Some r2) field n true true).
Proof.
  intros P m r buf L resp rest field n name (PO&WN&RS) HH HA Hn FD. pose proof (holds_pos _ _ _ _ _ _ HH) as HL. pose proof HH as (HB1&HB2&HO&OK&HB).
  destruct (reports (p_exec P (p_init P) (bytes_at m buf L))) as (evs&e) eqn:R1. destruct (reports (p_exec P (p_init P) rest)) as (evs2&e2) eqn:R2.
  rewrite (read_search P m r buf L field n name evs e PO WN HB1 HB2 HO HL HA Hn R1). rewrite HB in R1.
  destruct (RS resp rest evs e evs2 e2 OK R1 R2) as (C1&C2). destruct (head_valid _ OK) as (FO&_).
  assert (HB' : bytes_at m buf L = status_bytes resp ++ hlines_bytes (p_headers resp) ++ CRLF ++ rest) by (rewrite HB; unfold head_bytes; rewrite <- !app_assoc; reflexivity).
  pose proof (search_absent name buf e [] _ _ _ _ HB' FO FD) as SA. rewrite app_nil_r in SA. cbn [search] in SA. split.
  - intros Q. destruct (C1 Q) as (->&->). rewrite SA. reflexivity.
  - intros NE. destruct (C2 NE) as [(->&->)|(->&Q)].
    + right. intros r2 BH. destruct (rest_read P m r buf L resp rest field n name r2 e2 evs2 PO WN HH HA Hn NE BH FD R2) as (->&->). reflexivity.
    + left. rewrite SA. destruct e; try reflexivity. congruence.
Qed.
Print Assumptions C72_header_absent.
(** The reference parser always goes on with what follows. *)
Theorem C72_reference_parser_goes_on : forall m r buf L resp rest field n name r2,
  holds_head m r buf L resp rest -> src_bytes m field n = Ret name -> 0 < n -> rest <> [] ->
  Forall (fun x => ~ same_name name (h_name x)) (p_headers resp) -> behind r buf (zlen (head_bytes resp)) r2 ->
  ReadHeader refparser m (Some r) field n true true = ReadHeader refparser m (Some r2) field n true true.
Proof.
  intros m r buf L resp rest field n name r2 HH HA Hn NE FD BH. pose proof (holds_pos _ _ _ _ _ _ HH) as HL. pose proof HH as (HB1&HB2&HO&OK&HB).
  destruct (reports (p_exec refparser (p_init refparser) (bytes_at m buf L))) as (evs&e) eqn:R1. destruct (reports (p_exec refparser (p_init refparser) rest)) as (evs2&e2) eqn:R2.
  rewrite (read_search refparser m r buf L field n name evs e refparser_ok refparser_whole HB1 HB2 HO HL HA Hn R1). rewrite HB in R1.
  destruct (ref_goes_on resp rest evs e evs2 e2 OK NE R1 R2) as (->&->).
  destruct (rest_read refparser m r buf L resp rest field n name r2 e2 evs2 refparser_ok refparser_whole HH HA Hn NE BH FD R2) as (->&->). reflexivity.
Qed.
Print Assumptions C72_reference_parser_goes_on.

(** ** After a successful receive *)
Lemma holds_after fuel cfg E P t r rh buf L req w st r' w' tr resp : recv_setup cfg E P t r rh buf L req w -> receives fuel cfg E P t r rh w st r' w' tr ->
  st <> HTTPNetworkError -> head_ok resp -> zlen (head_bytes resp) <= L -> bytes_at (w_mem w') buf (zlen (head_bytes resp)) = head_bytes resp ->
  exists rest, holds_head (w_mem w') r' buf L resp rest.
Proof.
  intros HS HR NE OK LH GH. destruct (outputs _ _ _ _ _ _ _ _ _ _ _ _ _ _ _ HS HR ltac:(left; exact NE)) as (_&(SI1&SI2&_)&_).
  destruct (C19_receive_stays_in_buffer fuel _ _ _ _ _ _ _ _ _ _ HS) as (o1&w1&tr0&Z1&_&_&SM). pose proof HR as (HR1&_). rewrite HR1 in Z1. cbn [wout] in Z1. injection Z1 as Z1 <-.
  destruct HS as (_&_&_&_&HB1&HB2&HOB&HL&_).
  assert (HOB' : object (w_mem w') buf L) by (apply (same_outside_object _ _ _ _ _ _ SM); auto).
  exists (bytes_at (w_mem w') (poff buf (zlen (head_bytes resp))) (L - zlen (head_bytes resp))). split; [congruence|]. split; [congruence|]. split; [auto|]. split; [auto|].
  pose proof (zlen_nonneg (head_bytes resp)). replace L with (zlen (head_bytes resp) + (L - zlen (head_bytes resp))) at 1 by lia.
  unfold object in HOB'. rewrite bytes_at_app by lia. rewrite GH. reflexivity.
Qed.
(** What the header callback was given for a header is what HTTPClient_ReadHeader then finds for its name (the first, if there are several). *)
Theorem C72_after_receive : forall fuel cfg E P t r rh buf L req w r' w' tr resp field n name pre h post,
  reads_http P -> reads_sections P -> recv_setup cfg E P t r rh buf L req w -> recv_faithful E -> no_parse_body r = false ->
  receives fuel cfg E P t r rh w HTTPSuccess r' w' tr ->
  http_ok (beqb (slice req 0 4) (B "HEAD")) resp -> data_received tr = http_bytes resp ->
  src_bytes (w_mem w') field n = Ret name -> 0 < n ->
  p_headers resp = pre ++ h :: post -> same_name name (h_name h) -> Forall (fun x => ~ same_name name (h_name x)) pre ->
  exists vo, ReadHeader P (w_mem w') (Some r') field n true true = Ret (HTTPSuccess, Some (value_at buf vo (zlen (h_value h)))) /\
    bytes_at (w_mem w') (poff buf vo) (zlen (h_value h)) = h_value h /\
    (r_cb r = true -> exists rest, delivered tr = map (fun x => (h_name x, h_value x, code_of resp)) pre ++ (h_name h, h_value h, code_of resp) :: rest).
Proof.
  intros fuel cfg E P t r rh buf L req w r' w' tr resp field n name pre h post RH RS HS F ND HR HO DR HA Hn HE SN FD.
  destruct (C19_parser_reads_what_was_received _ _ _ _ _ _ _ _ _ _ _ _ _ _ _ HS F HR) as (_&RW&RL).
  assert (G : gives cfg buf L resp r r' w' tr).
  { assert (D : (exists d, p_body resp = ToClose d) \/ forall d, p_body resp <> ToClose d) by (destruct (p_body resp) as [| | |d]; [right|right|right|left; eauto]; discriminate).
    assert (PR : exists rest, http_bytes resp = data_received tr ++ rest) by (exists []; rewrite DR, app_nil_r; reflexivity).
    destruct D as [(d&D)|D].
    - destruct (C43_any_parser_until_close _ _ _ _ _ _ _ _ _ _ _ _ _ _ _ _ _ RH HS F ND HR HO D PR) as [(_&X)|[(_&X)|[(_&_&X)|(_&_&d'&X&Y)]]]; try discriminate; [destruct (data_received tr); discriminate|].
      assert (d' = d) by (rewrite DR in X; unfold http_bytes in X; rewrite D in X; apply app_inv_head in X; auto). subst d'.
      replace (cut resp d) with resp in Y by (destruct resp; unfold cut; cbn in *; congruence). exact Y.
    - destruct (C43_any_parser_well_formed_response _ _ _ _ _ _ _ _ _ _ _ _ _ _ _ _ RH HS F ND HR HO D ltac:(rewrite <- DR; lia) PR) as [(_&_&X)|(X&_)]; [exact X|]. rewrite DR in X. lia. }
  assert (LH : zlen (head_bytes resp) <= L).
  { rewrite DR in RW. unfold http_bytes in RW. rewrite zlen_app in RW. pose proof (zlen_nonneg (body_bytes (p_body resp))). lia. }
  destruct (holds_after _ _ _ _ _ _ _ _ _ _ _ _ _ _ _ resp HS HR ltac:(discriminate) (proj1 HO) LH (g_head _ _ _ _ _ _ _ _ G)) as (rest&HH).
  destruct (C72_header_found _ _ _ _ _ _ _ _ _ _ _ _ _ RS HH HA Hn HE SN FD) as (vo&E1&_&E3).
  exists vo. split; [exact E1|]. split; [exact E3|]. intros CB. rewrite (g_headers _ _ _ _ _ _ _ _ G CB).
  unfold reported, headers_of. rewrite HE. destruct (trailers (p_body resp)) as [|tl0 tls].
  - rewrite app_nil_r, map_app. cbn [map]. eauto.
  - rewrite map_app, removelast_app by discriminate. rewrite map_app. rewrite <- app_assoc. cbn [map app]. eauto.
Qed.
Print Assumptions C72_after_receive.
(** The same when the response was received with the do-not-parse-body flag, once its header section has come. *)
Theorem C72_after_raw_receive : forall fuel cfg E P t r rh buf L req w st r' w' tr resp rest field n name pre h post,
  reads_heads P -> reads_sections P -> recv_setup cfg E P t r rh buf L req w -> recv_faithful E -> no_parse_body r = true ->
  receives fuel cfg E P t r rh w st r' w' tr -> head_ok resp -> data_received tr = head_bytes resp ++ rest ->
  src_bytes (w_mem w') field n = Ret name -> 0 < n ->
  p_headers resp = pre ++ h :: post -> same_name name (h_name h) -> Forall (fun x => ~ same_name name (h_name x)) pre ->
  exists vo, ReadHeader P (w_mem w') (Some r') field n true true = Ret (HTTPSuccess, Some (value_at buf vo (zlen (h_value h)))) /\
    bytes_at (w_mem w') (poff buf vo) (zlen (h_value h)) = h_value h /\
    (r_cb r = true -> delivered tr = map (fun x => (h_name x, h_value x, code_of resp)) (pre ++ h :: post)).
Proof.
  intros fuel cfg E P t r rh buf L req w st r' w' tr resp rest field n name pre h post RH RS HS F ND HR OK DR HA Hn HE SN FD.
  destruct (C69_raw_response _ _ _ _ _ _ _ _ _ _ _ _ _ _ _ _ RH HS F ND HR OK ltac:(left; eauto)) as [(rest2&k&DR2&_&_&->&G)|(X&_)].
  2:{ rewrite DR, zlen_app in X. pose proof (zlen_nonneg rest). lia. }
  pose proof (gr_fits _ _ _ _ _ _ _ _ _ G) as GF. pose proof (gr_buffer _ _ _ _ _ _ _ _ _ G) as GB. pose proof (zlen_nonneg rest2). pose proof (zlen_nonneg (head_bytes resp)).
  pose proof HS as (_&_&_&_&_&_&HOB&_).
  destruct (C19_receive_stays_in_buffer fuel _ _ _ _ _ _ _ _ _ _ HS) as (o1&w1&tr0&Z1&_&_&SM). pose proof HR as (HR1&_). rewrite HR1 in Z1. cbn [wout] in Z1. injection Z1 as Z1 <-.
  assert (HOB' : object (w_mem w') buf L) by (apply (same_outside_object _ _ _ _ _ _ SM); auto).
  assert (GH : bytes_at (w_mem w') buf (zlen (head_bytes resp)) = head_bytes resp).
  { unfold object in HOB'. rewrite bytes_at_app in GB by lia. apply (f_equal (firstn (length (head_bytes resp)))) in GB.
    assert (LE : length (bytes_at (w_mem w') buf (zlen (head_bytes resp))) = length (head_bytes resp)).
    { assert (O1 : object (w_mem w') buf (zlen (head_bytes resp))) by (unfold object; lia). pose proof (bytes_at_len _ _ _ O1) as Q. apply Nat2Z.inj. exact Q. }
    assert (FA : forall x y : bytes, firstn (length x) (x ++ y) = x) by (intros x y; rewrite firstn_app, Nat.sub_diag, firstn_all; apply app_nil_r).
    rewrite FA in GB. rewrite <- LE in GB. rewrite FA in GB. exact GB. }
  destruct (holds_after _ _ _ _ _ _ _ _ _ _ _ _ _ _ _ resp HS HR ltac:(discriminate) OK ltac:(lia) GH) as (rst&HH).
  destruct (C72_header_found _ _ _ _ _ _ _ _ _ _ _ _ _ RS HH HA Hn HE SN FD) as (vo&E1&_&E3).
  exists vo. split; [exact E1|]. split; [exact E3|]. intros CB. rewrite (gr_headers _ _ _ _ _ _ _ _ _ G CB), HE. reflexivity.
Qed.
Print Assumptions C72_after_raw_receive.
(** ** Cases *)
(** The body of [nested] is the beginning of a response itself: the header X is looked for there, just as in a buffer that begins with the body. *)
Example C72_case : let d := http_bytes nested in let k := zlen (head_bytes nested) in
  let r2 := mkresp (Some (mkptr 0 k)) (zlen d - k) true TUser None 0 None 0 0 0 0 0 0 0 in
  holds_head [d] (holding d) (mkptr 0 0) (zlen d) nested (body_bytes (p_body nested)) /\ body_bytes (p_body nested) <> [] /\ behind (holding d) (mkptr 0 0) k r2 /\
  Forall (fun x => ~ same_name (B "X") (h_name x)) (p_headers nested) /\
  ReadHeader refparser [d] (Some (holding d)) (SLit (B "X")) 1 true true = Ret (HTTPSuccess, Some (Some (mkptr 0 59), 1)) /\
  ReadHeader refparser [d] (Some r2) (SLit (B "X")) 1 true true = Ret (HTTPSuccess, Some (Some (mkptr 0 59), 1)) /\
  ReadHeader refparser [d] (Some (holding d)) (SLit (B "content-LENGTH")) 14 true true = Ret (HTTPSuccess, Some (Some (mkptr 0 33), 2)).
Proof.
  cbn zeta. split; [|split; [discriminate|split; [split; reflexivity|split; [repeat constructor; discriminate|conj; vm_compute; reflexivity]]]].
  split; [reflexivity|]. split; [reflexivity|]. split; [vm_compute; repeat split; discriminate|]. split; [apply (proj1 nested_ok)|reflexivity].
Qed.
(** After receiving ex_sized with the do-not-parse-body flag, in two pieces. *)
Example C72_raw_case : exists r' w' tr rest, receives 20 cfg0 (env_of [firstn 20 (http_bytes ex_sized); skipn 20 (http_bytes ex_sized)]) refparser trr (resp_old 100 1) h1 (wr 100) HTTPSuccess r' w' tr /\
  no_parse_body (resp_old 100 1) = true /\ head_ok ex_sized /\ data_received tr = head_bytes ex_sized ++ rest /\
  exists h hs, p_headers ex_sized = h :: hs /\
  ReadHeader refparser (w_mem w') (Some r') (SLit (h_name h)) (zlen (h_name h)) true true = Ret (HTTPSuccess, Some (value_at rbuf (zlen (status_bytes ex_sized) + value_off h) (zlen (h_value h)))).
Proof.
  do 3 eexists. exists (body_bytes (p_body ex_sized)). split; [demo|]. split; [reflexivity|]. split; [exact (proj1 ex_sized_ok)|]. split; [vm_compute; reflexivity|].
  do 2 eexists. split; [reflexivity|]. vm_compute. reflexivity.
Qed.
