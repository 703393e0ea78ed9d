(** RefPlaces.v — the reference parser tells the places of names and values. *)
From Verif Require Import Base Lib ModelRequest ModelSend ModelResponse SpecRequest SpecSend SpecResponse ProofsRequest ProofsSend ProofsSend2
  ProofsResponse ProofsResponse2 ProofsResponse3 ProofsResponse4 ProofsResponse5 RefParser RefRun SpecHttp SpecParser HttpRun ProofsFollow ProofsEnd Demo DemoResponse
  PropsResponse PropsHttp ProofsAny SpecRaw ProofsRaw RefRaw SpecPlaces.

(** Byte by byte: where the first name begins, where the last reported piece ends, how long the header lines seemed to be at the end of the headers. *)
Record trk := mktrk { t_hs : option Z; t_le : Z; t_he : option Z }.
Definition trk0 : trk := mktrk None 0 None.
Definition upd_le (a : Z) (l : Z) (k : kind) : Z := match k with KStatus | KField | KValue | KEmptyValue => a | KBody => a + 1 | _ => l end.
Definition upd_hs (a : Z) (hs : option Z) (s1 : rst) : option Z := match hs with Some h => Some h | None => match q_st s1 with Field => Some a | _ => None end end.
Definition tstep (b : Z) (s : rst) (t : trk) (a c : Z) : trk :=
  let hs := upd_hs a (t_hs t) (snd (step s c)) in
  let le := fold_left (upd_le a) (fst (step s c)) (t_le t) in
  mktrk hs le (match q_st (snd (step s c)) with HEnd => Some (match hs with Some h => Z.max le b - h | None => 0 end) | _ => t_he t end).
Fixpoint track (nb : bool) (b : Z) (s : rst) (t : trk) (a : Z) (d : bytes) : trk :=
  match d with [] => t | c :: d' => track nb b (step1 nb s c) (tstep b s t a c) (a + 1) d' end.

Definition places (s : rst) (v : view) (t : trk) (b sp pos : Z) : Prop :=
  option_map fst (v_hend v) = t_he t /\
  (t_le t <= b + pos /\ v_last v <= b + pos /\ (in_piece (q_st s) = false -> Z.max (v_last v) b = Z.max (t_le t) b)) /\
  (v_hstart v = t_hs t \/ (q_st s = Field /\ v_hstart v = None /\ t_hs t = Some (b + sp) /\ sp < pos)) /\
  (q_st s = Field -> t_hs t <> None).

Lemma finish_place v : v_last (finish v) = v_last v /\ v_hstart (finish v) = v_hstart v /\ v_hend (finish v) = v_hend v /\ v_start (finish v) = v_start v.
Proof. unfold finish. destruct (v_name v), (v_value v); auto. Qed.

Lemma place_step s v t b sp pos c ks s1 : step s c = (ks, s1) -> b = v_start v -> 0 <= sp <= pos -> 0 <= b -> (forall e, q_st s1 <> Dead e) -> q_st s <> HEnd ->
  places s v t b sp pos ->
  places s1 (fold_left view_event (map (fun k => event s1 k sp pos) ks) v) (mktrk (upd_hs (b + pos) (t_hs t) s1) (fold_left (upd_le (b + pos)) ks (t_le t)) (t_he t)) b (next_sp s s1 ks sp pos) (pos + 1).
Proof.
  intros ST Eb Hp Hb ND NH (HE&(L1&L2&L3)&HS&HF). destruct (finish_place v) as (F1&F2&F3&F4).
  assert (HS' : q_st s <> Field -> v_hstart v = t_hs t) by (intros Q; destruct HS as [HS|(HS&_)]; [auto|congruence]).
  assert (PL : forall x s2, in_piece (q_st s) = false -> q_st s <> Field -> ks = [] -> s1 = s2 -> q_st s2 = x ->
    places s1 v (mktrk (upd_hs (b + pos) (t_hs t) s1) (t_le t) (t_he t)) b (next_sp s s1 [] sp pos) (pos + 1)).
  { intros x s2 Q1 Q2 Q3 -> Q5. unfold places, next_sp. cbn [t_hs t_le t_he]. rewrite Q1. split; [auto|]. split; [split; [lia|split; [lia|auto]]|]. specialize (HS' Q2). rewrite HS'. unfold upd_hs.
    destruct (t_hs t) as [h|]; [split; [auto|discriminate]|]. destruct (q_st s2); try (split; [left; reflexivity|congruence]). split; [right; split; [auto|split; [auto|split; [auto|lia]]]|discriminate]. }
  unfold step in ST. destruct (q_st s) eqn:Q; try congruence.
  all: repeat match type of ST with context [if ?x then _ else _] => destruct x eqn:? | context [hexval ?y] => destruct (hexval y) eqn:? end.
  all: try (injection ST as <- <-; cbn [map fold_left]; eapply PL; (reflexivity || discriminate || eassumption); fail).
  all: try match type of ST with match q_st (interpret _) with _ => _ end = _ => assert (HST : hstart (interpret s) c = (ks, s1)) by (destruct (q_st (interpret s)) eqn:QI; try exact ST; injection ST as <- <-; destruct (ND _ QI)); clear ST; rename HST into ST end.
  all: try (unfold hstart, end_of_headers in ST; repeat match type of ST with context [if ?x then _ else _] => destruct x eqn:? end).
  all: try (injection ST as <- <-; cbn [map fold_left]; eapply PL; (reflexivity || discriminate || eassumption); fail).
  all: try (injection ST as <- <-; exfalso; eapply ND; reflexivity).
  all: injection ST as <- <-; cbn [map fold_left event view_event]; unfold places, next_sp, upd_hs; cbn [t_hs t_le t_he to q_st fresh set_name add_body v_hend v_last v_hstart upd_le in_piece].
  all: rewrite ?Q, ?F1, ?F2, ?F3, ?F4; cbn [in_piece].
  all: repeat match goal with |- _ /\ _ => split end; try exact HE; try lia; try (intros; discriminate).
  all: try (intros _; specialize (L3 eq_refl); lia).
  all: try (left; rewrite HS' by discriminate; destruct (t_hs t); reflexivity).
  all: specialize (HF eq_refl); destruct (t_hs t) as [h|]; [|congruence].
  - left. destruct HS as [HS|(_&HS&HX&_)]; rewrite HS; cbn [or_new]; [auto|]. rewrite <- Eb. auto.
  - destruct HS as [HS|(_&HS&HX&_)]; [left; auto|right]. split; [auto|]. split; [auto|]. split; [auto|lia].
  - discriminate.
Qed.

Lemma place_flush s v t b sp pos : b = v_start v -> 0 <= sp <= pos -> places s v t b sp pos ->
  let v1 := fold_left view_event (flush s sp pos) v in
  option_map fst (v_hend v1) = t_he t /\ t_le t <= b + pos /\ v_last v1 <= b + pos /\ v_hstart v1 = t_hs t /\ (q_st s = Field -> t_hs t <> None).
Proof.
  intros Eb Hp (HE&(L1&L2&L3)&HS&HF). destruct (finish_place v) as (F1&F2&F3&F4). cbn zeta.
  assert (HX : v_hstart v = t_hs t -> or_new (v_hstart v) (v_start v + sp) = t_hs t \/ t_hs t = None) by (intros ->; destruct (t_hs t); auto).
  unfold flush. destruct (sp <? pos) eqn:LT.
  - destruct (q_st s) eqn:Q; cbn [fold_left view_event v_hend v_last v_hstart]; rewrite ?F1, ?F2, ?F3, ?F4.
    all: repeat match goal with |- _ /\ _ => split end; auto; try lia; try discriminate.
    all: try (destruct HS as [HS|(HS&_)]; [auto|discriminate]).
    destruct HS as [HS|(_&HS&H2&_)]; [|rewrite HS, H2, Eb; reflexivity]. destruct (HX HS) as [Y|Y]; [auto|]. destruct (HF eq_refl Y).
  - cbn [fold_left]. repeat match goal with |- _ /\ _ => split end; auto. destruct HS as [HS|(_&_&_&HS)]; [auto|lia].
Qed.

Lemma place_go nb d : forall s v t b sp pos v' e s', b = v_start v -> 0 <= b -> 0 <= sp <= pos -> okrun nb s d -> q_st s <> HEnd ->
  places s v t b sp pos -> texec nb (go s d sp pos) v = (v', e, s') ->
  let t' := track nb b s t (b + pos) d in
  option_map fst (v_hend v') = t_he t' /\ t_le t' <= b + pos + zlen d /\ v_last v' <= b + pos + zlen d /\ v_hstart v' = t_hs t' /\ (q_st (srun nb s d) = Field -> t_hs t' <> None).
Proof.
  induction d as [|c d IH]; intros s v t b sp pos v' e s' Eb Hb Hp OK NH PL H.
  - cbn [go] in H. rewrite texec_emit in H. cbn [texec] in H. injection H as <- _ _. cbn [track srun fold_left]. change (zlen (@nil Z)) with 0. rewrite Z.add_0_r.
    apply (place_flush s v t b sp pos Eb Hp PL).
  - cbn [okrun] in OK. destruct OK as (O1&O2&O3&O4&O5).
    assert (ND : forall e, q_st (snd (step s c)) <> Dead e) by (intros e0 Q; apply (O3 e0); unfold step1; rewrite Q; exact Q).
    cbn [go] in H. cbn [track]. change (srun nb s (c :: d)) with (srun nb (step1 nb s c) d). rewrite zlen_cons.
    assert (TS : tstep b s t (b + pos) c = let hs := upd_hs (b + pos) (t_hs t) (snd (step s c)) in let le := fold_left (upd_le (b + pos)) (fst (step s c)) (t_le t) in
      mktrk hs le (match q_st (snd (step s c)) with HEnd => Some (match hs with Some h => Z.max le b - h | None => 0 end) | _ => t_he t end)) by reflexivity.
    rewrite TS. clear TS. cbn zeta.
    assert (S1 : step1 nb s c = match q_st (snd (step s c)) with HEnd => snd (after_hdrs nb (snd (step s c))) | _ => snd (step s c) end) by reflexivity.
    rewrite S1 in *. clear S1. destruct (step s c) as [ks s1] eqn:EST. cbn [fst snd] in *.
    pose proof (place_step s v t b sp pos c ks s1 EST Eb Hp Hb ND NH PL) as P1. rewrite texec_emit in H.
    set (v1 := fold_left view_event (map (fun k => event s1 k sp pos) ks) v) in *.
    assert (VC : v_start v1 = v_start v) by apply view_events_const.
    replace (b + pos + (1 + zlen d)) with (b + (pos + 1) + zlen d) by lia. replace (b + pos + 1) with (b + (pos + 1)) by lia.
    assert (GO : q_st s1 <> HEnd -> okrun nb s1 d -> texec nb (go s1 d (next_sp s s1 ks sp pos) (pos + 1)) v1 = (v', e, s') ->
      let t' := track nb b s1 (mktrk (upd_hs (b + pos) (t_hs t) s1) (fold_left (upd_le (b + pos)) ks (t_le t)) (t_he t)) (b + (pos + 1)) d in
      option_map fst (v_hend v') = t_he t' /\ t_le t' <= b + (pos + 1) + zlen d /\ v_last v' <= b + (pos + 1) + zlen d /\ v_hstart v' = t_hs t' /\ (q_st (srun nb s1 d) = Field -> t_hs t' <> None)).
    { intros Q1 Q2 Q3. eapply (IH s1 v1 _ b); [congruence|exact Hb|apply next_sp_range; exact Hp|exact Q2|exact Q1|exact P1|exact Q3]. }
    destruct (q_st s1) eqn:E1; try (apply GO; [discriminate|exact O5|exact H]; fail).
    + (* HEnd *)
      cbn [texec rep] in H. set (v2 := view_event v1 _) in H.
      assert (NB : match (if nb then CbNoBody else CbContinue) with CbNoBody => true | _ => false end = nb) by (destruct nb; auto).
      rewrite NB in H. clear NB.
      destruct (finish_place v1) as (F1&F2&F3&F4). destruct P1 as (HE&(L1&L2&L3)&HS&HF). rewrite E1 in *. cbn [t_hs t_le t_he] in *.
      specialize (L3 eq_refl). destruct HS as [HS|(HS&_)]; [|discriminate].
      set (hs := upd_hs (b + pos) (t_hs t) s1) in *. set (le := fold_left (upd_le (b + pos)) ks (t_le t)) in *.
      assert (V2 : v_last v2 = v_last v1 /\ v_hstart v2 = v_hstart v1 /\ option_map fst (v_hend v2) = Some (match hs with Some h => Z.max le b - h | None => 0 end) /\ v_start v2 = v_start v1).
      { unfold v2. cbn [view_event v_last v_hstart v_hend v_start option_map fst]. rewrite F1, F2, F4, HS. split; [auto|]. split; [auto|]. split; [|auto]. destruct hs; [|auto]. rewrite VC, <- Eb, L3. reflexivity. }
      destruct V2 as (G1&G2&G3&G4).
      assert (EV : forall k sp0 pos0, In k (fst (after_hdrs nb s1)) -> event (snd (after_hdrs nb s1)) k sp0 pos0 = EvMessageComplete).
      { unfold after_hdrs. intros k sp0 pos0. destruct (nb || _); [cbn; intros [<-|[]]; auto|]. destruct (q_chunked s1); [cbn; tauto|].
        destruct (q_clen s1) as [n|]; [destruct (n =? 0); cbn; [intros [<-|[]]; auto|tauto]|cbn; tauto]. }
      assert (NH2 : q_st (snd (after_hdrs nb s1)) <> HEnd /\ q_st (snd (after_hdrs nb s1)) <> Field).
      { unfold after_hdrs. destruct (nb || _); [split; discriminate|]. destruct (q_chunked s1); [split; discriminate|].
        destruct (q_clen s1) as [n|]; [destruct (n =? 0)|]; split; discriminate. }
      destruct (after_hdrs nb s1) as [ks2 s2]. cbn [fst snd] in *. rewrite texec_emit in H. destruct NH2 as (NH2&NH3).
      set (v3 := fold_left view_event (map (fun k => event s2 k (pos + 1) (pos + 1)) ks2) v2) in *.
      assert (V3 : v_last v3 = v_last v2 /\ v_hstart v3 = v_hstart v2 /\ v_hend v3 = v_hend v2 /\ v_start v3 = v_start v2).
      { unfold v3. clear -EV. clearbody v2. revert EV v2. induction ks2 as [|k ks2 IH]; intros EV v2; [auto|]. cbn [map fold_left]. destruct (IH ltac:(intros; apply EV; right; auto) (view_event v2 (event s2 k (pos + 1) (pos + 1)))) as (->&->&->&->).
        rewrite EV by (left; auto). auto. }
      destruct V3 as (H1&H2&H3&H4).
      eapply (IH s2 v3); [congruence|auto| |eauto|auto| |exact H]; [lia|]. unfold places. cbn [t_hs t_le t_he]. rewrite H1, H2, H3, G1, G2, G3, HS.
      split; [auto|]. split; [split; [lia|split; [lia|auto]]|]. split; [auto|intros Q; congruence].
    + exfalso. apply (ND e0). auto.
Qed.

(** ** The tracker over several pieces *)
Lemma track_app nb b d1 : forall d2 s t a, track nb b s t a (d1 ++ d2) = track nb b (srun nb s d1) (track nb b s t a d1) (a + zlen d1) d2.
Proof.
  induction d1 as [|c d1 IH]; intros d2 s t a; cbn [app track].
  - change (zlen (@nil Z)) with 0. rewrite Z.add_0_r. reflexivity.
  - rewrite IH, zlen_cons. replace (a + 1 + zlen d1) with (a + (1 + zlen d1)) by lia. reflexivity.
Qed.
Lemma track_same nb b b' d : forall s t t' a, t_hs t = t_hs t' -> t_le t = t_le t' ->
  t_hs (track nb b s t a d) = t_hs (track nb b' s t' a d) /\ t_le (track nb b s t a d) = t_le (track nb b' s t' a d).
Proof. induction d as [|c d IH]; intros s t t' a H1 H2; cbn [track]; [auto|]. apply IH; unfold tstep; cbn [t_hs t_le]; rewrite ?H1, ?H2; reflexivity. Qed.
Lemma track_none nb b d : forall s t a, hfind nb s d = None -> t_he (track nb b s t a d) = t_he t.
Proof.
  induction d as [|c d IH]; intros s t a H; cbn [track]; [auto|]. cbn [hfind] in H.
  assert (X : q_st (snd (step s c)) <> HEnd /\ hfind nb (step1 nb s c) d = None).
  { unfold step1 in *. destruct (q_st (snd (step s c))); try discriminate; (split; [discriminate|]); destruct (hfind nb _ d); auto; discriminate. }
  destruct X as (X1&X2). rewrite (IH _ _ _ X2). unfold tstep. cbn [t_he]. destruct (q_st (snd (step s c))); congruence.
Qed.
Lemma track_some nb b d : forall s t a h, t_hs t = Some h -> t_hs (track nb b s t a d) = Some h.
Proof. induction d as [|c d IH]; intros s t a h H; cbn [track]; [auto|]. apply IH. unfold tstep, upd_hs. cbn [t_hs]. rewrite H. reflexivity. Qed.
Fixpoint tcalls (nb : bool) (s : rst) (t : trk) (n : Z) (ps : list bytes) : trk :=
  match ps with [] => t | d :: ps' => tcalls nb (srun nb s d) (track nb n s t n d) (n + zlen d) ps' end.
Lemma tcalls_app nb ps1 : forall ps2 s t n, tcalls nb s t n (ps1 ++ ps2) = tcalls nb (srun nb s (concat ps1)) (tcalls nb s t n ps1) (n + zlen (concat ps1)) ps2.
Proof.
  induction ps1 as [|d ps1 IH]; intros ps2 s t n; cbn [app tcalls concat].
  - change (zlen (@nil Z)) with 0. rewrite Z.add_0_r. reflexivity.
  - rewrite IH, srun_app, zlen_app, Z.add_assoc. reflexivity.
Qed.
Lemma tcalls_same nb ps : forall s t t' n, t_hs t = t_hs t' -> t_le t = t_le t' ->
  t_hs (tcalls nb s t n ps) = t_hs (track nb 0 s t' n (concat ps)) /\ t_le (tcalls nb s t n ps) = t_le (track nb 0 s t' n (concat ps)).
Proof.
  induction ps as [|d ps IH]; intros s t t' n H1 H2; cbn [tcalls concat]; [auto|]. rewrite track_app.
  destruct (track_same nb n 0 d s t t' n H1 H2) as (X1&X2). apply IH; auto.
Qed.
Lemma tcalls_none nb ps : forall s t n, hfind nb s (concat ps) = None -> t_he (tcalls nb s t n ps) = t_he t.
Proof.
  induction ps as [|d ps IH]; intros s t n H; cbn [tcalls concat] in *; [auto|]. rewrite hfind_app in H. destruct (hfind nb s d) eqn:Q; [discriminate|].
  rewrite IH; [apply track_none; auto|]. destruct (hfind nb (srun nb s d) (concat ps)); [discriminate|auto].
Qed.

Definition stage (v : view) (t : trk) (n : Z) (s : rst) : Prop :=
  option_map fst (v_hend v) = t_he t /\ t_le t <= n /\ v_last v <= n /\ v_hstart v = t_hs t /\ (q_st s = Field -> t_hs t <> None).

Lemma srun_nhend nb d : forall s, q_st s <> HEnd -> q_st (srun nb s d) <> HEnd.
Proof. induction d as [|c d IH]; intros s H; [auto|]. change (srun nb s (c :: d)) with (srun nb (step1 nb s c) d). apply IH. apply step1_nhend. Qed.

Lemma fed_place nb ps s v : fed nb refparser ps s v -> okrun nb rinit (concat ps) -> stage v (tcalls nb rinit trk0 0 ps) (zlen (concat ps)) (srun nb rinit (concat ps)).
Proof.
  induction 1 as [|ps d s v s' v' H IH ND R]; intros OK.
  - cbn. repeat split; try lia; try reflexivity; discriminate.
  - rewrite concat_app in OK |- *. cbn [concat] in *. rewrite app_nil_r in *. pose proof (proj1 (okrun_app _ _ _ _) OK) as (OK1&OK2). destruct (fed_ref _ _ _ _ H OK1) as (->&_).
    destruct (IH OK1) as (I1&I2&I3&I4&I5). pose proof (fed_stream _ _ _ _ _ H) as VS. rewrite reading_texec in R.
    assert (Z1 : v_start (given v d) = zlen (concat ps)) by (rewrite <- VS; reflexivity).
    rewrite tcalls_app. cbn [tcalls]. rewrite zlen_app, srun_app. cbn [Z.add].
    set (s0 := srun nb rinit (concat ps)) in *. set (t := tcalls nb rinit trk0 0 ps) in *.
    assert (R2 : texec nb (go s0 d 0 0) (given v d) = (v', HPE_OK, s')).
    { cbn [p_exec refparser] in R. unfold rexec in R. destruct d as [|c d]; [congruence|]. destruct (q_st s0) eqn:Q; auto. destruct (okrun_live _ _ OK1) as (_&L). destruct (L _ Q). }
    pose proof (zlen_nonneg (concat ps)).
    pose proof (place_go nb d s0 (given v d) t (zlen (concat ps)) 0 0 v' HPE_OK s' (eq_sym Z1) ltac:(lia) ltac:(lia) OK2 ltac:(apply srun_nhend; discriminate)) as PG.
    cbn zeta in PG. rewrite !Z.add_0_r in PG. unfold stage. apply PG; [|exact R2]. unfold places. rewrite !Z.add_0_r. cbn [given view_step v_hend v_last v_hstart].
    split; [exact I1|]. split; [split; [lia|split; [lia|intros; lia]]|]. split; [auto|auto].
Qed.

(** ** Where the first name of a response begins *)
Lemma step_name nb s c : (q_st s = Start -> s = rinit) -> q_name s <> [] \/ q_tr s = true -> q_name (step1 nb s c) <> [] \/ q_tr (step1 nb s c) = true.
Proof.
  intros ST H. assert (NS : q_st s <> Start) by (intros Q; rewrite (ST Q) in H; destruct H as [H|H]; [apply H; reflexivity|discriminate]).
  assert (AH : forall x, q_name (snd (after_hdrs nb x)) = q_name x /\ q_tr (snd (after_hdrs nb x)) = q_tr x).
  { intros x. unfold after_hdrs. destruct (nb || _); [auto|]. destruct (q_chunked x); [auto|]. destruct (q_clen x) as [n|]; [destruct (n =? 0)|]; auto. }
  assert (IN : forall x, q_name (interpret x) = q_name x /\ q_tr (interpret x) = q_tr x).
  { intros x. unfold interpret. repeat match goal with |- context [if ?y then _ else _] => destruct y end; auto. }
  assert (HS : forall x, q_name x <> [] \/ q_tr x = true -> q_name (snd (hstart x c)) <> [] \/ q_tr (snd (hstart x c)) = true).
  { intros x X. unfold hstart, end_of_headers. destruct (c =? CR); [exact X|]. destruct (c =? LF); [destruct (q_tr x) eqn:QT; [right; exact QT|cbn; rewrite QT; exact X]|]. destruct (is_tchar c); [left; cbn; congruence|exact X]. }
  assert (X : q_name (snd (step s c)) <> [] \/ q_tr (snd (step s c)) = true).
  { assert (IS : q_name (interpret s) <> [] \/ q_tr (interpret s) = true) by (destruct (IN s) as (->& ->); exact H).
    unfold step. destruct (q_st s) eqn:Q; try congruence; try (apply HS; exact H);
    try (repeat match goal with |- context [if ?y then _ else _] => destruct y | |- context [hexval ?y] => destruct (hexval y) end; cbn [snd to set_name q_name q_tr set_code set_tr add_body]; auto; fail).
    - destruct (c =? COLON); [cbn; auto|]. destruct (is_tchar c); cbn; auto. left. destruct (q_name s); discriminate.
    - destruct (is_ws c); [cbn; auto|]. destruct (q_st (interpret s)); try (apply HS; exact IS). exact IS.
    - destruct (c =? LF); [|exact H]. unfold end_of_headers. destruct (q_tr s) eqn:QT; [right; exact QT|cbn; rewrite QT; exact H]. }
  unfold step1. destruct (AH (snd (step s c))) as (A1&A2). destruct (q_st (snd (step s c))); auto. rewrite A1, A2. exact X.
Qed.
Lemma run_name nb d : forall s, okrun nb s d -> q_name s <> [] \/ q_tr s = true -> q_name (srun nb s d) <> [] \/ q_tr (srun nb s d) = true.
Proof.
  induction d as [|c d IH]; intros s OK H; [auto|]. cbn [okrun] in OK. destruct OK as (O1&_&_&_&O5). change (srun nb s (c :: d)) with (srun nb (step1 nb s c) d).
  apply IH; [exact O5|]. apply step_name; [intros Q; apply O1; exact Q|exact H].
Qed.
(** A byte after which a name has begun. *)
Lemma field_name s c : q_st (snd (step s c)) = Field -> q_st s <> Field -> q_name (snd (step s c)) <> [].
Proof.
  assert (HS : forall x, q_st (snd (hstart x c)) = Field -> q_name (snd (hstart x c)) <> []).
  { intros x. unfold hstart, end_of_headers. destruct (c =? CR); [discriminate|]. destruct (c =? LF); [destruct (q_tr x); discriminate|]. destruct (is_tchar c); [cbn; congruence|discriminate]. }
  intros F NF. unfold step in *. destruct (q_st s) eqn:Q; try congruence; try (apply HS; exact F);
    try (repeat match type of F with context [if ?y then _ else _] => destruct y | context [hexval ?y] => destruct (hexval y) end; cbn [snd to set_name q_st set_code set_tr add_body] in F; congruence).
  - destruct (is_ws c); [discriminate|]. destruct (q_st (interpret s)) eqn:QI; try (apply HS; exact F). cbn in F. congruence.
  - unfold end_of_headers in F. destruct (c =? LF); [destruct (q_tr s)|]; discriminate.
Qed.
Lemma track_noname nb b d : forall s t a, okrun nb s d -> q_st s <> Field -> q_name (srun nb s d) = [] -> q_tr (srun nb s d) = false -> t_hs (track nb b s t a d) = t_hs t.
Proof.
  induction d as [|c d IH]; intros s t a OK NF N1 N2; cbn [track]; [auto|]. cbn [okrun] in OK. destruct OK as (_&_&_&_&O5). change (srun nb s (c :: d)) with (srun nb (step1 nb s c) d) in *.
  assert (X : q_st (snd (step s c)) <> Field).
  { intros Q. pose proof (field_name s c Q NF) as Y. assert (S1 : step1 nb s c = snd (step s c)) by (unfold step1; rewrite Q; reflexivity).
    destruct (run_name nb d (step1 nb s c) O5 ltac:(left; rewrite S1; exact Y)) as [Z|Z]; congruence. }
  rewrite IH; auto.
  - unfold tstep, upd_hs. cbn [t_hs]. destruct (t_hs t); [auto|]. destruct (q_st (snd (step s c))); congruence.
  - unfold step1. destruct (q_st (snd (step s c))) eqn:Q; try congruence; rewrite ?Q; try discriminate.
    unfold after_hdrs. destruct (nb || _); [discriminate|]. destruct (q_chunked _); [discriminate|]. destruct (q_clen _) as [n|]; [destruct (n =? 0)|]; discriminate.
Qed.

(** A header line, without its line end. *)
Definition hline_cut (h : hline) : bytes := h_name h ++ [COLON] ++ h_ws h ++ h_value h.
Lemma run_cut nb s h : hline_ok h -> at_line s -> exists s', runs nb s (hline_cut h) s' /\ (q_st s' = Val \/ q_st s' = VWs).
Proof.
  intros (H1&H2&H3&H4&H5) A. destruct (settle_st s A) as (E&N). unfold hline_cut.
  assert (NS : q_st s <> Start) by (destruct A as [X|(X&_)]; rewrite X; discriminate).
  assert (R1 : runs nb s (h_name h) (upd (settle s) Field (h_name h) [])).
  { destruct (h_name h) as [|c n]; [congruence|]. inversion H2 as [|? ? T H2']; subst. destruct (token_ncolon c T) as (N1&N2&N3&N4).
    apply (runs_cons _ _ _ (upd (settle s) Field [c] [])); auto; try dis.
    - unfold step1. rewrite (step_line s c A N4). unfold hstart. rewrite N2, N3, (token_t c T). reflexivity.
    - apply (run_field nb (settle s) [c]). auto. }
  assert (R2 : runs nb (upd (settle s) Field (h_name h) []) [COLON] (upd (settle s) VWs (h_name h) [])) by (apply runs_one; (reflexivity || dis)).
  assert (R3 : runs nb (upd (settle s) VWs (h_name h) []) (h_ws h) (upd (settle s) VWs (h_name h) [])) by (apply run_ws; auto).
  destruct (h_value h) as [|c v].
  - eexists. split; [eapply runs_app; [exact R1|eapply runs_app; [exact R2|rewrite app_nil_r; exact R3]]|right; reflexivity].
  - inversion H4 as [|? ? T H4']; subst. destruct (text_n c T) as (T1&T2).
    eexists. split; [eapply runs_app; [exact R1|eapply runs_app; [exact R2|eapply runs_app; [exact R3|]]]|left].
    + apply (runs_cons _ _ _ (upd (settle s) Val (h_name h) [c])); try dis.
      * step1. cbn. rewrite (nblank_ws c (H5 c v eq_refl)), T1, T2. reflexivity.
      * apply (run_val nb (settle s) (h_name h) [c]). auto.
    + reflexivity.
Qed.
Lemma step1_live nb s c e : q_st (snd (step s c)) = Dead e -> q_st (step1 nb s c) = Dead e.
Proof. intros Q. unfold step1. rewrite Q. exact Q. Qed.
Lemma blank_le nb b s t a : okrun nb s (CRLF ++ CRLF) -> q_st s = Val \/ q_st s = VWs -> t_le (track nb b s t a (CRLF ++ CRLF)) = a.
Proof.
  intros OK H. change (CRLF ++ CRLF) with [CR; LF; CR; LF] in *. cbn [okrun track] in *. destruct OK as (_&_&_&_&_&_&_&_&_&_&D3&_&_&_&D4&_&_).
  assert (E1 : exists k, step s CR = ([k], to s ValLF) /\ (k = KValue \/ k = KEmptyValue)).
  { destruct H as [H|H]; [exists KValue|exists KEmptyValue]; (split; [|auto]); unfold step; rewrite H; reflexivity. }
  destruct E1 as (k&E1&K). assert (S1 : step1 nb s CR = to s ValLF) by (unfold step1; rewrite E1; reflexivity). rewrite S1 in *.
  assert (E2 : step (to s ValLF) LF = ([], to s VFold)) by reflexivity. assert (S2 : step1 nb (to s ValLF) LF = to s VFold) by reflexivity. rewrite S2 in *.
  set (s2 := to s VFold) in *. set (s3 := interpret s2) in *.
  assert (E3 : fst (step s2 CR) = [] /\ (step1 nb s2 CR = to s3 EndLF)).
  { assert (X : forall e, q_st s3 <> Dead e).
    { intros e Q. apply (D3 e). apply step1_live. unfold step. change (q_st s2) with VFold. cbn [is_ws]. change (is_ws CR) with false. cbn iota. fold s3. rewrite Q. exact Q. }
    assert (Y : step s2 CR = ([], to s3 EndLF)).
    { unfold step. change (q_st s2) with VFold. change (is_ws CR) with false. cbn iota. fold s3. destruct (q_st s3) eqn:Q; try reflexivity. destruct (X _ eq_refl). }
    unfold step1. rewrite Y. auto. }
  destruct E3 as (E3&S3). rewrite S3 in *.
  assert (E4 : fold_left (upd_le (a + 1 + 1 + 1)) (fst (step (to s3 EndLF) LF)) = fun x => x).
  { change (step (to s3 EndLF) LF) with (end_of_headers (to s3 EndLF)). unfold end_of_headers. destruct (q_tr (to s3 EndLF)); reflexivity. }
  unfold tstep. cbn [t_le]. rewrite E4, E3, E2, E1. cbn [fst fold_left]. destruct K as [-> | ->]; reflexivity.
Qed.

Lemma hlines_app a b : hlines_bytes (a ++ b) = hlines_bytes a ++ hlines_bytes b.
Proof. unfold hlines_bytes. apply flat_map_app. Qed.
Lemma header_lines_eq resp hs h : p_headers resp = hs ++ [h] -> header_lines resp = hlines_bytes hs ++ hline_cut h /\ hlines_bytes (p_headers resp) = header_lines resp ++ CRLF.
Proof.
  intros E. assert (X : hlines_bytes (hs ++ [h]) = (hlines_bytes hs ++ hline_cut h) ++ CRLF).
  { rewrite hlines_app. cbn [hlines_bytes flat_map]. rewrite app_nil_r. unfold hline_bytes, hline_cut. rewrite <- !app_assoc. reflexivity. }
  assert (Y : header_lines resp = hlines_bytes hs ++ hline_cut h).
  { unfold header_lines. rewrite E. clear E. remember (hs ++ [h]) as l eqn:Q. destruct l as [|y l]; [destruct hs; discriminate|]. rewrite X, zlen_app. change (zlen CRLF) with 2.
    replace (zlen (hlines_bytes hs ++ hline_cut h) + 2 - 2) with (zlen (hlines_bytes hs ++ hline_cut h)) by lia. pose proof (zlen_nonneg (hlines_bytes hs ++ hline_cut h)). rewrite slice_of_app_l by lia. apply slice_all. }
  split; [exact Y|]. rewrite E, X, Y. reflexivity.
Qed.
Lemma nonempty_last {A} (l : list A) : l <> [] -> exists a x, l = a ++ [x].
Proof. intros H. destruct (exists_last H) as (a&x&E). eauto. Qed.
Lemma head_split resp : p_headers resp <> [] -> head_bytes resp = (status_bytes resp ++ header_lines resp) ++ CRLF ++ CRLF.
Proof. intros H. destruct (nonempty_last _ H) as (hs&h&E). destruct (header_lines_eq resp hs h E) as (_&X). unfold head_bytes. rewrite X, <- !app_assoc. reflexivity. Qed.

Lemma head_le nb b resp : head_ok resp -> p_headers resp <> [] -> t_le (track nb b rinit trk0 0 (head_bytes resp)) = zlen (status_bytes resp) + zlen (header_lines resp).
Proof.
  intros H NE. destruct (nonempty_last _ NE) as (hs&h&E). destruct (header_lines_eq resp hs h E) as (X&_). rewrite (head_split resp NE).
  pose proof (run_status nb resp H) as R1. destruct (run_head nb resp H) as (sx&_&(OKH&_)). rewrite (head_split resp NE) in OKH.
  destruct H as (_&_&_&HC&_&H5&o&H6). apply content_length_f in H6. destruct H6 as (_&V). rewrite E in V, H5. apply Forall_app in H5. destruct H5 as (H5&H7). inversion H7 as [|? ? H8 _]; subst.
  assert (V' : cl_valid ([] ++ hs)).
  { intros a h0 b0 Q I. apply (V a h0 (b0 ++ [h])); [|exact I]. cbn [app] in Q. rewrite Q, <- app_assoc. reflexivity. }
  destruct (run_lines nb (code_of resp) hs H5 [] (base HStart (code_of resp)) V')
    as (s'&R2&J).
  { split; [left; reflexivity|]. cbn. repeat (split; [reflexivity|]). reflexivity. }
  destruct J as (A&_). destruct (run_cut nb s' h H8 A) as (s2&R3&S2).
  assert (R : runs nb rinit (status_bytes resp ++ header_lines resp) s2) by (rewrite X; eapply runs_app; [exact R1|eapply runs_app; [exact R2|exact R3]]).
  destruct R as (_&SR). rewrite track_app, SR. apply okrun_app in OKH. destruct OKH as (_&OK2). rewrite SR in OK2. rewrite blank_le by auto. rewrite zlen_app. lia.
Qed.
Lemma head_hs nb b resp : head_ok resp -> t_hs (track nb b rinit trk0 0 (head_bytes resp)) = first_header resp.
Proof.
  intros H. destruct (run_status nb resp H) as (OK&SR). unfold head_bytes. rewrite track_app, SR.
  assert (HN : t_hs (track nb b rinit trk0 0 (status_bytes resp)) = None) by (apply track_noname; [exact OK|discriminate|rewrite SR; reflexivity|rewrite SR; reflexivity]).
  set (t := track nb b rinit trk0 0 (status_bytes resp)) in *. unfold first_header. destruct H as (_&_&_&_&_&H5&_). destruct (p_headers resp) as [|h hs].
  - cbn [hlines_bytes flat_map app]. unfold CRLF. cbn [track]. unfold tstep. cbn [t_hs]. rewrite HN. reflexivity.
  - inversion H5 as [|? ? H6 _]; subst. destruct H6 as (N1&N2&_). cbn [hlines_bytes flat_map]. unfold hline_bytes.
    destruct (h_name h) as [|c n]; [congruence|]. inversion N2 as [|? ? T _]; subst. destruct (token_ncolon c T) as (_&N3&N4&N5).
    cbn [app track]. apply track_some. unfold tstep, upd_hs. cbn [t_hs]. rewrite HN. change (step (base HStart (code_of resp)) c) with (hstart (base HStart (code_of resp)) c). unfold hstart. rewrite N3, N4, (token_t c T). reflexivity.
Qed.
Lemma track_end nb b d : forall s t a, hfind nb s d = Some (zlen d) ->
  t_he (track nb b s t a d) = Some (match t_hs (track nb b s t a d) with Some h => Z.max (t_le (track nb b s t a d)) b - h | None => 0 end).
Proof.
  induction d as [|c d IH]; intros s t a H; [discriminate|]. cbn [hfind] in H. rewrite zlen_cons in H. cbn [track].
  assert (X : q_st (snd (step s c)) <> HEnd -> hfind nb (step1 nb s c) d = Some (zlen d)).
  { intros N. destruct (hfind nb (step1 nb s c) d) as [z|]; [|destruct (q_st (snd (step s c))); congruence]. assert (z + 1 = 1 + zlen d) by (destruct (q_st (snd (step s c))); congruence). f_equal. lia. }
  destruct (q_st (snd (step s c))) eqn:Q; try (apply IH; apply X; discriminate).
  assert (1 = 1 + zlen d) by congruence. assert (DE : d = []) by (destruct d; [auto|rewrite zlen_cons in *; pose proof (zlen_nonneg d); lia]). subst d. cbn [track]. unfold tstep. cbn [t_hs t_le t_he]. rewrite Q. reflexivity.
Qed.

(** ** All of it *)
Lemma track_eof nb b d : forall s t a, q_st s = BodyEof -> t_hs (track nb b s t a d) = t_hs t.
Proof.
  induction d as [|c d IH]; intros s t a Q; cbn [track]; [auto|].
  assert (S : step s c = ([], add_body s c)) by (unfold step; rewrite Q; reflexivity). rewrite IH.
  - unfold tstep, upd_hs. rewrite S. cbn [t_hs snd add_body q_st]. rewrite Q. destruct (t_hs t); reflexivity.
  - unfold step1. rewrite S. cbn [snd add_body q_st]. rewrite Q. exact Q.
Qed.
Lemma after_head nb resp rest b a : head_ok resp -> okrun nb rinit (head_bytes resp ++ rest) ->
  let t := track nb b rinit trk0 0 (head_bytes resp) in t_hs (track nb b (srun nb rinit (head_bytes resp)) t a rest) = first_header resp.
Proof.
  intros H OK. cbn zeta. pose proof (head_hs nb b resp H) as HS. set (t := track nb b rinit trk0 0 (head_bytes resp)) in *.
  destruct (first_header resp) as [x|] eqn:FH; [apply track_some; exact HS|]. unfold first_header in FH. destruct (p_headers resp) eqn:PH; [|discriminate].
  destruct (run_head nb resp H) as (s1&HE&(_&SR)). rewrite PH in HE. apply okrun_app in OK. destruct OK as (_&OK). rewrite SR in *.
  destruct HE as (_&_&HC&_&_&H1&H2&_). cbn in H1, H2. destruct H as (_&_&_&HK&_). unfold after_hdrs in *. destruct (nb || _).
  - destruct rest as [|c rest]; [exact HS|]. cbn [okrun] in OK. destruct OK as (O1&_). destruct (O1 eq_refl) as (Q&_).
    assert (QC : q_code (snd ([KDone], to s1 Start)) = 0) by (rewrite Q; reflexivity). cbn in QC. rewrite HC in QC. lia.
  - rewrite H1, H2 in *. rewrite track_eof by reflexivity. exact HS.
Qed.

Lemma split_len (a : bytes) : forall b c d, zlen a = zlen c -> a ++ b = c ++ d -> c = a /\ d = b.
Proof.
  induction a as [|x a IHa]; intros b [|y c] d HL HE; rewrite ?zlen_cons in HL; change (zlen (@nil Z)) with 0 in *.
  - auto.
  - pose proof (zlen_nonneg c). lia.
  - pose proof (zlen_nonneg a). lia.
  - cbn [app] in HE. injection HE as -> HE. destruct (IHa b c d) as (->&->); auto. lia.
Qed.
Lemma refparser_places : reads_places refparser.
Proof.
  constructor; [apply refparser_reads| |].
  - intros head resp ps1 d ps2 s v HO F E HZ. pose proof HO as (HH&_).
    assert (OK : okrun head rinit (concat (ps1 ++ d :: ps2))) by (rewrite E; destruct (http_runs head resp HO) as (s'&(OK&_)&_); exact OK).
    destruct (fed_place head _ _ _ F OK) as (S1&_&_&S4&_).
    assert (EH : exists d1 d2, d = d1 ++ d2 /\ head_bytes resp = concat ps1 ++ d1 /\ body_bytes (p_body resp) = d2 ++ concat ps2).
    { rewrite concat_app in E. cbn [concat] in E. unfold http_bytes in E.
      set (n := zlen (head_bytes resp) - zlen (concat ps1)) in *. exists (firstn (Z.to_nat n) d), (skipn (Z.to_nat n) d).
      assert (DD : firstn (Z.to_nat n) d ++ skipn (Z.to_nat n) d = d) by apply firstn_skipn. split; [auto|].
      assert (ZL : zlen (concat ps1 ++ firstn (Z.to_nat n) d) = zlen (head_bytes resp)).
      { rewrite zlen_app. unfold zlen at 2. rewrite firstn_length. unfold zlen in *. lia. }
      rewrite <- DD in E. rewrite !app_assoc in E. rewrite <- (app_assoc (concat ps1 ++ _)) in E.
      destruct (split_len _ _ _ _ ZL E) as (X1&X2). auto. }
    destruct EH as (d1&d2&ED&EH&EB). subst d.
    assert (ND : d1 <> []) by (intros ->; rewrite app_nil_r in EH; rewrite EH in HZ; lia).
    destruct (head_part head resp _ _ HH EH ND) as (_&N1&N2&_&_).
    assert (OKB : okrun head (srun head rinit (head_bytes resp)) (body_bytes (p_body resp))) by (rewrite E in OK; unfold http_bytes in OK; apply okrun_app in OK; tauto).
    assert (NB : hfind head (srun head rinit (head_bytes resp)) (body_bytes (p_body resp)) = None).
    { apply past_run; [|exact OKB]. destruct (run_head head resp HH) as (s1&(HE1&HE2&HE3&_)&(_&SR)). rewrite SR. apply after_past; auto. destruct (after_same head s1) as (QC&_). intros _. rewrite QC, HE3. destruct HH as (_&_&_&HK&_). lia. }
    rewrite EB, hfind_app in NB. destruct (hfind head (srun head rinit (head_bytes resp)) d2) eqn:NB1; [discriminate|].
    assert (NB2 : hfind head (srun head (srun head rinit (head_bytes resp)) d2) (concat ps2) = None) by (destruct (hfind head (srun head (srun head rinit (head_bytes resp)) d2) (concat ps2)); [discriminate|auto]).
    split.
    + rewrite S4. refine (eq_trans (proj1 (tcalls_same head _ rinit trk0 trk0 0 eq_refl eq_refl)) _). match goal with |- context [concat ?x] => replace (concat x) with (http_bytes resp) by (symmetry; exact E) end. unfold http_bytes. rewrite track_app.
      apply after_head; [exact HH|]. rewrite E in OK. exact OK.
    + rewrite S1. rewrite tcalls_app. cbn [tcalls]. set (t1 := tcalls head rinit trk0 0 ps1). cbn [Z.add]. set (n := zlen (concat ps1)) in *.
      rewrite tcalls_none by (rewrite <- srun_app, app_assoc, <- EH, srun_app; exact NB2). rewrite track_app, track_none by (rewrite <- srun_app, <- EH; exact NB1).
      rewrite track_end by exact N2.
      destruct (tcalls_same head ps1 rinit trk0 trk0 0 eq_refl eq_refl) as (A1&A2). fold t1 in A1, A2.
      destruct (track_same head n 0 d1 (srun head rinit (concat ps1)) t1 (track head 0 rinit trk0 0 (concat ps1)) n A1 A2) as (B1&B2). rewrite B1, B2.
      replace (track head 0 (srun head rinit (concat ps1)) (track head 0 rinit trk0 0 (concat ps1)) n d1) with (track head 0 rinit trk0 0 (head_bytes resp)) by (rewrite EH, track_app; reflexivity).
      rewrite (head_hs head 0 resp HH). unfold first_header, seen_len. destruct (p_headers resp) eqn:PH; [reflexivity|]. rewrite head_le; [|exact HH|rewrite PH; discriminate]. f_equal. lia.
  - intros head resp ps s v v' e s' HO F E R. destruct (http_runs head resp HO) as (sx&(OK&_)&_). rewrite <- E in OK. destruct (fed_ref _ _ _ _ F OK) as (->&_).
    cbn [p_exec refparser] in R. unfold rexec in R. destruct (q_st (srun head rinit (concat ps))); cbn [reading] in R; injection R as <- _ _; auto.
Qed.
