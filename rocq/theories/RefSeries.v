(** RefSeries.v — the reference parser reads a series of responses as the responses one after the other. *)
From Verif Require Import Base Lib ModelRequest ModelSend ModelResponse SpecRequest SpecSend SpecResponse RefParser RefRun HttpRun SpecHttp SpecParser SpecCut RefCut SpecSeries.

(** ** Two states that differ in what earlier messages left *)
(** The status code has been read. *)
Definition coded (x : rstate) : bool := match x with Start | Ver _ | Minor | VSp | Code _ _ | Dead _ => false | _ => true end.
Definition graft (t : rst) (code : Z) (H : list (bytes * bytes * Z)) (b : bytes) : rst :=
  mkrst (q_st t) (q_tr t) code (q_name t) (q_val t) (q_clen t) (q_chunked t) (q_close t) (q_ka t) H b.
Definition peer (s t : rst) : Prop := exists code H b, s = graft t code H b /\ (coded (q_st t) = true -> code = q_code t).
Ltac peers := do 3 eexists; split; [reflexivity|cbn; auto; try congruence].
Lemma peer_interpret s t : peer s t -> coded (q_st t) = true -> peer (interpret s) (interpret t).
Proof.
  intros (code&H&b&->&HC) C. specialize (HC C). subst code. unfold interpret. cbn [graft q_st q_tr q_code q_name q_val q_clen q_chunked q_close q_ka q_hdrs q_body].
  repeat match goal with |- context [if ?b then _ else _] => destruct b end; peers.
Qed.
Lemma peer_hstart s t c : peer s t -> coded (q_st t) = true -> fst (hstart s c) = fst (hstart t c) /\ peer (snd (hstart s c)) (snd (hstart t c)).
Proof.
  intros (code&H&b&->&HC) C. specialize (HC C). subst code. unfold hstart, end_of_headers. cbn [graft q_tr].
  repeat match goal with |- context [if ?b then _ else _] => destruct b end; (split; [reflexivity|peers]).
Qed.
Lemma peer_step s t c : peer s t -> q_st t <> Start -> fst (step s c) = fst (step t c) /\ peer (snd (step s c)) (snd (step t c)).
Proof.
  intros P NS. pose proof P as (code&H&b&E&HC). assert (Q0 : q_st s = q_st t) by (subst s; reflexivity).
  unfold step. rewrite Q0. destruct (q_st t) eqn:Q; [congruence|..]; cbn [coded] in HC.
  all: try (apply peer_hstart; [exact P|rewrite Q; reflexivity]).
  all: try (subst s; unfold end_of_headers; cbn [graft q_tr q_name q_val];
            repeat match goal with |- context [if ?b then _ else _] => destruct b | |- context [match hexval ?c with _ => _ end] => destruct (hexval c) end;
            cbn [fst snd]; (split; [reflexivity|first [assumption | peers; rewrite ?Q; auto]])).
  (* VFold *)
  assert (IP : peer (interpret s) (interpret t)) by (apply peer_interpret; [exact P|rewrite Q; reflexivity]).
  assert (E1 : q_name s = q_name t /\ q_val s = q_val t) by (subst s; auto). destruct E1 as (->&->).
  destruct (is_ws c). { cbn [fst snd]. split; [reflexivity|]. subst s. peers. }
  pose proof IP as (c2&H2&b2&E2&_). assert (Q2 : q_st (interpret s) = q_st (interpret t)) by (rewrite E2; reflexivity). cbn zeta. rewrite Q2.
  destruct (interpret_st t) as [X|(e&X&_)]; rewrite X; [rewrite Q|].
  - apply peer_hstart; [exact IP|rewrite X, Q; reflexivity].
  - cbn [fst snd]. split; [reflexivity|exact IP].
Qed.
Lemma peer_after nb s t : peer s t -> q_st t = HEnd -> fst (after_hdrs nb s) = fst (after_hdrs nb t) /\ peer (snd (after_hdrs nb s)) (snd (after_hdrs nb t)).
Proof.
  intros (code&H&b&->&HC) Q. rewrite Q in HC. specialize (HC eq_refl). subst code. unfold after_hdrs. cbn [graft q_code q_chunked q_clen].
  destruct (nb || no_content (q_code t)); [split; [reflexivity|peers]|]. destruct (q_chunked t); [split; [reflexivity|peers]|].
  destruct (q_clen t) as [n|]; [destruct (n =? 0)|]; (split; [reflexivity|peers]).
Qed.

(** ** Two reports *)
Definition shift (k : Z) (h : hloc) : hloc := let '((n, nl), (x, xl), c) := h in ((k + n, nl), (k + x, xl), c).
Definition or_else {A} (a b : option A) : option A := match a with Some _ => a | None => b end.
(** [X0]: what had been said before this message, which begins at [k]; [Y]: what is said of this message when it is read alone. *)
Record joint (k : Z) (X0 X Y : dig) : Prop := mkjoint {
  j_msg : d_msg X = d_msg Y;
  j_headers : d_headers X = d_headers X0 ++ d_headers Y;
  j_locs : d_locs X = d_locs X0 ++ map (shift k) (d_locs Y);
  j_hend : d_hend X = match d_hend Y with Some p => Some (k + p) | None => d_hend X0 end;
  j_clen : d_clen X = match d_hend Y with Some _ => d_clen Y | None => d_clen X0 end;
  j_close : d_close X = d_close X0 || d_close Y;
  j_ka : d_ka X = d_ka X0 || d_ka Y;
  j_body : d_body X = d_body X0 ++ d_body Y
}.
(** The header being read is the same. *)
Record jname (k : Z) (X Y : dig) : Prop := mkjname {
  j_code : d_code X = d_code Y;
  j_name : d_name X = d_name Y;
  j_value : d_value X = d_value Y;
  j_n0 : d_name Y <> None -> d_n0 X = k + d_n0 Y;
  j_x0 : d_value Y <> None -> d_x0 X = k + d_x0 Y
}.
Definition noname (Y : dig) : Prop := d_name Y = None /\ d_value Y = None.
Definition shift_ev (k : Z) (e : aev) : aev :=
  match e with
  | AField o t => AField (k + o) t
  | AValue o t => AValue (k + o) t
  | AHdrs p cl a b => AHdrs (k + p) cl a b
  | ABody o t => ABody (k + o) t
  | _ => e
  end.
Lemma joint_fin k X0 X Y : joint k X0 X Y -> jname k X Y -> joint k X0 (dfin X) (dfin Y) /\ jname k (dfin X) (dfin Y).
Proof.
  intros [H1 H2 H3 H4 H5 H6 H7 H8] [N1 N2 N3 N4 N5]. unfold dfin. rewrite N2, N3. destruct (d_name Y) as [n|] eqn:E1, (d_value Y) as [x|] eqn:E2;
    try (split; constructor; auto; try congruence; intros Q; first [apply N4 | apply N5]; congruence).
  - split; constructor; cbn; auto; try congruence.
    + rewrite N1, H2, app_assoc. reflexivity.
    + rewrite H3, map_app, <- app_assoc. cbn [map shift]. rewrite N1, N4, N5 by congruence. reflexivity.
Qed.
Lemma joint_ev k X0 X Y e : joint k X0 X Y -> jname k X Y -> match e with ABegin => False | _ => True end ->
  joint k X0 (adig X (shift_ev k e)) (adig Y e) /\ jname k (adig X (shift_ev k e)) (adig Y e).
Proof.
  intros HJ HN NB. destruct (joint_fin _ _ _ _ HJ HN) as (FJ&FN). destruct e; try contradiction; cbn [adig shift_ev].
  - destruct HJ as [H1 H2 H3 H4 H5 H6 H7 H8], HN as [N1 N2 N3 N4 N5]. split; constructor; cbn; auto; congruence.
  - revert FJ FN. generalize (dfin X) (dfin Y). intros U V [H1 H2 H3 H4 H5 H6 H7 H8] [N1 N2 N3 N4 N5].
    split; constructor; cbn; auto; try congruence. rewrite N2. destruct (d_name V); auto. intros _. apply N4. discriminate.
  - destruct HJ as [H1 H2 H3 H4 H5 H6 H7 H8], HN as [N1 N2 N3 N4 N5].
    split; constructor; cbn; auto; try congruence. rewrite N3. destruct (d_value Y); auto. intros _. apply N5. discriminate.
  - revert FJ FN. generalize (dfin X) (dfin Y). intros U V [H1 H2 H3 H4 H5 H6 H7 H8] [N1 N2 N3 N4 N5].
    split; constructor; cbn; auto; try congruence; [rewrite H6|rewrite H7]; rewrite orb_assoc; reflexivity.
  - destruct HJ as [H1 H2 H3 H4 H5 H6 H7 H8], HN as [N1 N2 N3 N4 N5]. split; constructor; cbn; auto; try congruence. rewrite H8, app_assoc. reflexivity.
  - destruct HJ as [H1 H2 H3 H4 H5 H6 H7 H8], HN as [N1 N2 N3 N4 N5]. split; constructor; cbn; auto; congruence.
Qed.
Lemma joint_evs k X0 es : forall X Y, joint k X0 X Y -> jname k X Y -> Forall (fun e => match e with ABegin => False | _ => True end) es ->
  joint k X0 (fold_left adig (map (shift_ev k) es) X) (fold_left adig es Y) /\ jname k (fold_left adig (map (shift_ev k) es) X) (fold_left adig es Y).
Proof.
  induction es as [|e es IH]; intros X Y HJ HN F; [auto|]. inversion F as [|? ? F1 F2]; subst. destruct (joint_ev _ _ _ _ e HJ HN F1). cbn [map fold_left]. apply IH; auto.
Qed.
(** The status line clears what was left. *)
Lemma joint_status k X0 X Y c : joint k X0 X Y -> joint k X0 (adig X (AStatus c)) (adig Y (AStatus c)) /\ jname k (adig X (AStatus c)) (adig Y (AStatus c)) /\ noname (adig Y (AStatus c)).
Proof. intros [H1 H2 H3 H4 H5 H6 H7 H8]. split; [constructor; auto|]. split; [constructor; cbn; auto; congruence|split; reflexivity]. Qed.

(** In which states the status has been reported. *)
Definition named (x : rstate) : bool := match x with Ver _ | Minor | VSp | Code _ _ | CodeEnd | Reason | ReasonLF => false | _ => true end.
Definition jst (k : Z) (X0 : dig) (t : rst) (X Y : dig) : Prop := joint k X0 X Y /\ (named (q_st t) = true -> jname k X Y).

Lemma kaev_shift k s1 t1 a c kd : peer s1 t1 -> (kd = KStatus \/ kd = KStatusDone -> coded (q_st t1) = true) -> kaev s1 (k + a) c kd = shift_ev k (kaev t1 a c kd).
Proof. intros (code&H&b&->&HC) HK. destruct kd; cbn [kaev shift_ev]; auto; cbn [graft q_code]; rewrite HC; auto. Qed.

(** What a byte reports, by the state. *)
Lemma step_kinds t c : q_st t <> Start ->
  let ks := fst (step t c) in let t1 := snd (step t c) in
  Forall (fun x => x <> KBegin) ks /\ (In KStatus ks \/ In KStatusDone ks -> coded (q_st t1) = true) /\
  (named (q_st t) = false -> (forall e, q_st t1 <> Dead e) ->
     (ks = [] /\ named (q_st t1) = false) \/ (exists x, (x = KStatus \/ x = KStatusDone) /\ ks = [x]) \/ ks = [KStatus; KStatusDone]).
Proof.
  intros NS. unfold step.
  assert (HS : forall u, let ks := fst (hstart u c) in Forall (fun x => x <> KBegin) ks /\ (In KStatus ks \/ In KStatusDone ks -> coded (q_st (snd (hstart u c))) = true)).
  { intros u. unfold hstart, end_of_headers. repeat match goal with |- context [if ?b then _ else _] => destruct b end; cbn;
      (split; [repeat constructor; discriminate|intuition discriminate]). }
  destruct (q_st t) eqn:Q; [congruence|..]; cbn [named].
  all: try (destruct (HS t) as (A&A2); split; [exact A|]; split; [exact A2|discriminate]).
  all: try (unfold end_of_headers; repeat match goal with |- context [if ?b then _ else _] => destruct b | |- context [match hexval ?c with _ => _ end] => destruct (hexval c) end;
    cbn [fst snd]; (split; [repeat constructor; discriminate|]); (split; [cbn; intuition (auto; discriminate)|]); try discriminate; intros _ ND;
    first [exfalso; eapply ND; reflexivity | left; split; [reflexivity|cbn; rewrite ?Q; reflexivity] | right; left; eexists; split; [|reflexivity]; auto | right; right; reflexivity]).
  destruct (is_ws c). { cbn. split; [constructor|]. split; [tauto|discriminate]. }
  cbn zeta. destruct (interpret_st t) as [X|(e&X&_)]; rewrite X; [rewrite Q; destruct (HS (interpret t)) as (A&A2); split; [exact A|]; split; [exact A2|discriminate]|].
  cbn. split; [constructor|]. split; [tauto|discriminate].
Qed.
Lemma after_kinds nb t : Forall (fun x => x = KDone) (fst (after_hdrs nb t)).
Proof. unfold after_hdrs. repeat match goal with |- context [if ?b then _ else _] => destruct b | |- context [match q_clen t with _ => _ end] => destruct (q_clen t) end; repeat constructor. Qed.
Lemma pev_shift k s1 t1 a l : peer s1 t1 -> pev s1 (k + a) l = map (shift_ev k) (pev t1 a l).
Proof.
  intros (code&H&b&->&HC). unfold pev. destruct l; [reflexivity|]. cbn [graft q_st q_code]. destruct (q_st t1); cbn [map shift_ev]; try reflexivity. rewrite HC; reflexivity.
Qed.
Lemma pev_begin t1 a l : Forall (fun e => match e with ABegin => False | _ => True end) (pev t1 a l).
Proof. unfold pev. destruct l; [constructor|]. destruct (q_st t1); repeat constructor. Qed.
Lemma kaevs_shift k s1 t1 a c ks : peer s1 t1 -> (In KStatus ks \/ In KStatusDone ks -> coded (q_st t1) = true) -> map (kaev s1 (k + a) c) ks = map (shift_ev k) (map (kaev t1 a c) ks).
Proof.
  intros P HK. rewrite map_map. apply map_ext_in. intros kd IN. apply kaev_shift; [exact P|]. intros [-> | ->]; apply HK; auto.
Qed.
Lemma kaevs_begin t1 a c ks : Forall (fun x => x <> KBegin) ks -> Forall (fun e => match e with ABegin => False | _ => True end) (map (kaev t1 a c) ks).
Proof. induction 1 as [|x ks H _ IH]; cbn [map]; constructor; auto. destruct x; cbn; auto; congruence. Qed.

Lemma jst_step nb k X0 s t X Y a c : peer s t -> jst k X0 t X Y -> q_st t <> Start -> (forall e, q_st (fst (cstep nb t Y a c)) <> Dead e) ->
  peer (fst (cstep nb s X (k + a) c)) (fst (cstep nb t Y a c)) /\ jst k X0 (fst (cstep nb t Y a c)) (snd (cstep nb s X (k + a) c)) (snd (cstep nb t Y a c)).
Proof.
  intros P (HJ&HN) NS. destruct (peer_step s t c P NS) as (K&P1). destruct (step_kinds t c NS) as (B1&B2&B3). cbn zeta in *.
  unfold cstep. destruct (step s c) as [ks0 s1], (step t c) as [ks t1]. cbn [fst snd] in *. subst ks0.
  assert (E0 : q_st s = q_st t) by (destruct P as (?&?&?&->&_); reflexivity). assert (E1 : q_st s1 = q_st t1) by (destruct P1 as (?&?&?&->&_); reflexivity).
  rewrite E1. rewrite (kaevs_shift k s1 t1 a c ks P1 B2).
  set (X1 := fold_left adig (map (shift_ev k) (map (kaev t1 a c) ks)) X). set (Y1 := fold_left adig (map (kaev t1 a c) ks) Y).
  assert (MAIN : (forall e, q_st t1 <> Dead e) -> joint k X0 X1 Y1 /\ (jname k X1 Y1 \/ ks = [] /\ named (q_st t) = false /\ named (q_st t1) = false)).
  { intros ND. destruct (named (q_st t)) eqn:NM.
    - destruct (joint_evs k X0 (map (kaev t1 a c) ks) X Y HJ (HN eq_refl) (kaevs_begin _ _ _ _ B1)). auto.
    - destruct (B3 eq_refl ND) as [(->&Q)|[(x&[-> | ->]&->)| ->]].
      + cbn in X1, Y1. subst X1 Y1. auto.
      + destruct (joint_status k X0 X Y (q_code t1) HJ) as (A1&A2&_). split; [exact A1|left; exact A2].
      + destruct (joint_status k X0 X Y (q_code t1) HJ) as (A1&A2&_). split; [exact A1|left; exact A2].
      + destruct (joint_status k X0 X Y (q_code t1) HJ) as (A1&_). destruct (joint_status k X0 _ _ (q_code t1) A1) as (A2&A3&_). split; [exact A2|left; exact A3]. }
  assert (PLAIN : (forall e, q_st t1 <> Dead e) -> peer s1 t1 /\
    jst k X0 t1 (match ks with [] => if in_piece (q_st s) || begins_piece (q_st t1) then fold_left adig (pev s1 (k + a) [c]) X1 else X1 | _ => X1 end)
                (match ks with [] => if in_piece (q_st t) || begins_piece (q_st t1) then fold_left adig (pev t1 a [c]) Y1 else Y1 | _ => Y1 end)).
  { intros ND. split; [exact P1|]. destruct (MAIN ND) as (M1&M2). rewrite E0. unfold jst.
    destruct ks as [|kd ks]; [|split; [exact M1|]; intros _; destruct M2 as [M2|(M2&_)]; [exact M2|discriminate]].
    destruct (in_piece (q_st t) || begins_piece (q_st t1)) eqn:IP; [|split; [exact M1|]; intros Q; destruct M2 as [M2|(_&_&M2)]; [exact M2|congruence]].
    rewrite (pev_shift k s1 t1 a [c] P1). destruct M2 as [M2|(_&M2&M3)].
    - destruct (joint_evs k X0 (pev t1 a [c]) X1 Y1 M1 M2 (pev_begin _ _ _)). auto.
    - split; [|congruence]. unfold pev. destruct (q_st t1) eqn:Q1; try discriminate M3; cbn [map fold_left]; try exact M1. apply (joint_status k X0 X1 Y1 (q_code t1) M1). }
  destruct (q_st t1) eqn:Q1; try (intros ND; exact (PLAIN ltac:(discriminate))).
  - (* HEnd *)
    destruct (peer_after nb s1 t1 P1 Q1) as (K2&P2). pose proof (after_kinds nb t1) as AK. intros ND.
    destruct (MAIN ltac:(discriminate)) as (M1&M2).
    assert (JN : jname k X1 Y1). { destruct M2 as [M2|(_&_&M2)]; [exact M2|discriminate]. }
    assert (CL : clen_field s1 = clen_field t1 /\ q_close s1 = q_close t1 /\ q_ka s1 = q_ka t1) by (destruct P1 as (?&?&?&->&_); auto). destruct CL as (->&->&->).
    destruct (joint_ev k X0 X1 Y1 (AHdrs (a + 1) (clen_field t1) (q_close t1) (q_ka t1)) M1 JN I) as (G1&G2). cbn [shift_ev] in G1, G2. rewrite Z.add_assoc in G1, G2.
    destruct (after_hdrs nb s1) as [ks2 s2], (after_hdrs nb t1) as [ks3 t2]. cbn [fst snd] in *. subst ks2. split; [exact P2|].
    rewrite <- Z.add_assoc, (kaevs_shift k s2 t2 (a + 1) 0 ks3 P2).
    2:{ rewrite Forall_forall in AK. intros [IN|IN]; apply AK in IN; discriminate. }
    rewrite Z.add_assoc. destruct (joint_evs k X0 (map (kaev t2 (a + 1) 0) ks3) _ _ G1 G2) as (L1&L2).
    { apply kaevs_begin. eapply Forall_impl; [|exact AK]. intros x ->. discriminate. }
    split; auto.
  - intros ND. exfalso. eapply ND. exact Q1.
Qed.

(** ** A message behind another *)
Lemma cstep_st nb s X a c : fst (cstep nb s X a c) = step1 nb s c.
Proof. unfold cstep, step1. destruct (step s c) as [ks s1]. cbn [snd]. destruct (q_st s1); try reflexivity. destruct (after_hdrs nb s1). reflexivity. Qed.
Lemma crun_cons nb s X a c d : (forall e, q_st (step1 nb s c) <> Dead e) -> crun nb s X a (c :: d) = crun nb (step1 nb s c) (snd (cstep nb s X a c)) (a + 1) d.
Proof.
  intros ND. cbn [crun]. rewrite <- (cstep_st nb s X a c) in *. destruct (cstep nb s X a c) as [s1 X1]. cbn [fst snd] in *. destruct (q_st s1) eqn:Q; try reflexivity. destruct (ND e). reflexivity.
Qed.
Lemma crun_joint nb k X0 d : forall s t X Y a, peer s t -> jst k X0 t X Y -> okrun nb t d -> (q_st t = Start -> t <> rinit) ->
  exists s' X' Y', crun nb s X (k + a) d = inl (s', X') /\ crun nb t Y a d = inl (srun nb t d, Y') /\ peer s' (srun nb t d) /\ jst k X0 (srun nb t d) X' Y'.
Proof.
  induction d as [|c d IH]; intros s t X Y a P HJ OK NI; [exists s, X, Y; auto|].
  cbn [okrun] in OK. destruct OK as (O1&_&O3&O4&O5). assert (NS : q_st t <> Start) by (intros Q; destruct (O1 Q); apply NI; auto).
  destruct (jst_step nb k X0 s t X Y a c P HJ NS ltac:(intros e; rewrite cstep_st; apply O3)) as (P1&J1). rewrite !cstep_st in *.
  assert (E1 : q_st (step1 nb s c) = q_st (step1 nb t c)) by (destruct P1 as (?&?&?&->&_); reflexivity).
  rewrite !crun_cons by (intros e; rewrite ?E1; apply O3). rewrite <- Z.add_assoc.
  change (srun nb t (c :: d)) with (srun nb (step1 nb t c) d). apply IH; auto. intros Q E. apply (O4 Q). rewrite E. reflexivity.
Qed.
Definition dig0 : dig := dig_of view0.
Lemma message_joint nb k s X d : q_st s = Start -> okrun nb rinit d -> d <> [] ->
  exists s' X' Y, crun nb s X k d = inl (s', X') /\ crun nb rinit dig0 0 d = inl (srun nb rinit d, Y) /\ peer s' (srun nb rinit d) /\ jst k X (srun nb rinit d) X' Y.
Proof.
  intros Q OK ND. destruct d as [|c d]; [congruence|]. cbn [okrun] in OK. destruct OK as (O1&_&O3&O4&O5). destruct (O1 eq_refl) as (_&->).
  set (t1 := step1 nb rinit 72) in *. change (srun nb rinit (72 :: d)) with (srun nb t1 d).
  set (Y1 := snd (cstep nb rinit dig0 0 72)). assert (EX : exists s1 X1, cstep nb s X k 72 = (s1, X1) /\ peer s1 t1 /\ jst k X t1 X1 Y1).
  { unfold cstep, step. rewrite Q. cbn. do 2 eexists. split; [reflexivity|]. split; [peers; discriminate|]. split; [|discriminate].
    constructor; cbn; rewrite ?app_nil_r, ?orb_false_r; reflexivity. }
  destruct EX as (s1&X1&E1&P1&J1). destruct (crun_joint nb k X d s1 t1 X1 Y1 1 P1 J1 O5) as (s'&X'&Y'&G1&G2&G3&G4); [discriminate|].
  exists s', X', Y'. split; [|split; [exact G2|auto]].
  cbn [crun]. rewrite E1. assert (E2 : q_st s1 = Ver 1) by (destruct P1 as (?&?&?&->&_); reflexivity). rewrite E2. exact G1.
Qed.

(** ** Where the headers are *)
Definition within (n : Z) (h : hloc) : Prop := let '((a, al), (b, bl), _) := h in 0 <= a /\ 0 <= al /\ a + al <= n /\ 0 <= b /\ 0 <= bl /\ b + bl <= n.
Lemma text_keep D E h : within (zlen D) h -> text_at (D ++ E) h = text_at D h.
Proof. destruct h as [[[a al] [b bl]] c]. cbn. intros (H1&H2&H3&H4&H5&H6). rewrite !slice_of_app_l by lia. reflexivity. Qed.
Lemma texts_keep D E l : Forall (within (zlen D)) l -> map (text_at (D ++ E)) l = map (text_at D) l.
Proof. intros H. apply map_ext_in. rewrite Forall_forall in H. intros h IN. apply text_keep. auto. Qed.
Lemma within_le n m h : n <= m -> within n h -> within m h.
Proof. destruct h as [[[a al] [b bl]] c]. cbn. lia. Qed.
Lemma text_shift D E h : within (zlen E) h -> text_at (D ++ E) (shift (zlen D) h) = text_at E h.
Proof.
  destruct h as [[[a al] [b bl]] c]. cbn. intros (H1&H2&H3&H4&H5&H6). pose proof (zlen_nonneg D). rewrite !slice_of_app_r by lia.
  replace (zlen D + a - zlen D) with a by lia. replace (zlen D + b - zlen D) with b by lia. reflexivity.
Qed.
(** [o]: where the text [x] is. *)
Definition lies (D : bytes) (o : Z) (x : bytes) : Prop := 0 <= o /\ o + zlen x <= zlen D /\ slice D o (zlen x) = x.
Lemma lies_keep D E o x : lies D o x -> lies (D ++ E) o x.
Proof. intros (H1&H2&H3). pose proof (zlen_nonneg E). pose proof (zlen_nonneg x). split; [auto|]. rewrite zlen_app. split; [lia|]. rewrite slice_of_app_l by lia. auto. Qed.
Lemma lies_snoc D o x c : lies D o x -> o + zlen x = zlen D -> lies (D ++ [c]) o (x ++ [c]) /\ o + zlen (x ++ [c]) = zlen (D ++ [c]).
Proof.
  intros (H1&H2&H3) H4. pose proof (zlen_nonneg x). rewrite !zlen_app, zlen_cons, zlen_nil. split; [|lia]. split; [auto|]. rewrite !zlen_app, zlen_cons, zlen_nil. split; [lia|].
  rewrite slice_app by (rewrite ?zlen_app, ?zlen_cons, ?zlen_nil; lia). rewrite slice_of_app_l by lia. rewrite H3. f_equal.
  replace (o + zlen x) with (zlen D) by lia. rewrite slice_of_app_r by (change (zlen [c]) with 1; lia). rewrite Z.sub_diag. reflexivity.
Qed.
Lemma lies_one D c : lies (D ++ [c]) (zlen D) [c] /\ zlen D + zlen [c] = zlen (D ++ [c]).
Proof.
  pose proof (zlen_nonneg D). rewrite zlen_app. change (zlen [c]) with 1. split; [|lia]. split; [lia|]. rewrite zlen_app. change (zlen [c]) with 1. split; [lia|].
  rewrite slice_of_app_r by (change (zlen [c]) with 1; lia). rewrite Z.sub_diag. reflexivity.
Qed.
Lemma lies_nil D o : 0 <= o <= zlen D -> lies D o [].
Proof. intros H. split; [lia|]. rewrite zlen_nil. split; [lia|]. apply slice_0. Qed.

Record placed (D : bytes) (Y : dig) : Prop := mkplaced {
  pl_texts : map (text_at D) (d_locs Y) = d_headers Y;
  pl_within : Forall (within (zlen D)) (d_locs Y);
  pl_name : forall n, d_name Y = Some n -> lies D (d_n0 Y) n;
  pl_value : forall x, d_value Y = Some x -> lies D (d_x0 Y) x
}.
Definition both (Y : dig) : Prop := (d_name Y = None /\ d_value Y = None) \/ (d_name Y <> None /\ d_value Y <> None).
Definition where_is (D : bytes) (t : rst) (Y : dig) : Prop :=
  match q_st t with
  | Field => d_value Y = None /\ exists n, d_name Y = Some n /\ d_n0 Y + zlen n = zlen D
  | VWs => d_value Y = None /\ d_name Y <> None
  | Val => d_name Y <> None /\ exists x, d_value Y = Some x /\ d_x0 Y + zlen x = zlen D
  | ValLF | VFold => d_name Y <> None /\ d_value Y <> None
  | Start | Ver _ | Minor | VSp | Code _ _ | CodeEnd | Reason | ReasonLF | Dead _ => True
  | _ => both Y
  end.
Lemma placed_keep D E Y : placed D Y -> placed (D ++ E) Y.
Proof.
  intros [H1 H2 H3 H4]. pose proof (zlen_nonneg E). constructor; [rewrite texts_keep; auto| |intros; apply lies_keep; auto|intros; apply lies_keep; auto].
  eapply Forall_impl; [|exact H2]. intros h. apply within_le. rewrite zlen_app. lia.
Qed.
Lemma placed_fin D Y : placed D Y -> placed D (dfin Y).
Proof.
  intros [H1 H2 H3 H4]. unfold dfin. destruct (d_name Y) as [n|] eqn:E1, (d_value Y) as [x|] eqn:E2; try (constructor; auto; rewrite ?E1, ?E2; auto; fail).
  destruct (H3 _ eq_refl) as (A1&A2&A3), (H4 _ eq_refl) as (B1&B2&B3). pose proof (zlen_nonneg n). pose proof (zlen_nonneg x). constructor; cbn; try discriminate.
  - rewrite map_app, H1. cbn [map text_at]. rewrite A3, B3. reflexivity.
  - apply Forall_app. split; [auto|]. constructor; [|constructor]. cbn. lia.
Qed.
Lemma both_fin Y : both Y -> noname (dfin Y).
Proof. unfold both, noname, dfin. destruct (d_name Y) eqn:?, (d_value Y) eqn:?; cbn; intuition congruence. Qed.
(** Events that say nothing of a header. *)
Lemma placed_other D Y e : placed D Y -> match e with AField _ _ | AValue _ _ | AHdrs _ _ _ _ => False | _ => True end -> placed D (adig Y e).
Proof. intros [H1 H2 H3 H4] N. destruct e; try contradiction; cbn [adig]; constructor; cbn; auto; discriminate. Qed.
Lemma placed_hdrs D Y p cl a b : placed D Y -> placed D (adig Y (AHdrs p cl a b)).
Proof. intros H. cbn [adig]. destruct (placed_fin _ _ H) as [H1 H2 H3 H4]. constructor; cbn; auto. Qed.
(** A new name. *)
Lemma placed_new D Y c : placed D Y -> both Y -> let Y1 := adig Y (AField (zlen D) [c]) in
  placed (D ++ [c]) Y1 /\ d_value Y1 = None /\ exists n, d_name Y1 = Some n /\ d_n0 Y1 + zlen n = zlen (D ++ [c]).
Proof.
  intros HP HB. destruct (both_fin _ HB) as (N1&N2). destruct (placed_fin _ _ HP) as [H1 H2 H3 H4]. destruct (placed_keep _ [c] _ (placed_fin _ _ HP)) as [K1 K2 _ _]. destruct (lies_one D c) as (L1&L2).
  cbn [adig]. rewrite N1, N2. cbn. split; [constructor; cbn; auto; try discriminate|]. { intros n Q. injection Q as <-. exact L1. } split; [reflexivity|]. eexists. split; [reflexivity|]. exact L2.
Qed.
Lemma placed_field D Y c : placed D Y -> (d_value Y = None /\ exists n, d_name Y = Some n /\ d_n0 Y + zlen n = zlen D) -> let Y1 := adig Y (AField (zlen D) [c]) in
  placed (D ++ [c]) Y1 /\ d_value Y1 = None /\ exists n, d_name Y1 = Some n /\ d_n0 Y1 + zlen n = zlen (D ++ [c]).
Proof.
  intros HP (V&n&N&Q). assert (F : dfin Y = Y) by (unfold dfin; rewrite N, V; reflexivity). destruct (placed_keep _ [c] _ HP) as [K1 K2 _ _]. destruct HP as [H1 H2 H3 H4].
  destruct (lies_snoc _ _ _ c (H3 _ N) Q) as (L1&L2). cbn [adig]. rewrite F, N, V. cbn. split; [constructor; cbn; auto; try discriminate|].
  { intros n' Q'. injection Q' as <-. exact L1. } split; [reflexivity|]. eexists. split; [reflexivity|]. exact L2.
Qed.
Lemma placed_colon D Y c : placed D Y -> (d_value Y = None /\ exists n, d_name Y = Some n /\ d_n0 Y + zlen n = zlen D) -> let Y1 := adig Y (AField (zlen D) []) in
  placed (D ++ [c]) Y1 /\ d_value Y1 = None /\ d_name Y1 <> None.
Proof.
  intros HP (V&n&N&Q). assert (F : dfin Y = Y) by (unfold dfin; rewrite N, V; reflexivity). destruct (placed_keep _ [c] _ HP) as [K1 K2 K3 K4].
  cbn [adig]. rewrite F, N, V. cbn. rewrite app_nil_r. split; [constructor; cbn; auto; try discriminate|]. { intros n' Q'. injection Q' as <-. auto. } split; [reflexivity|discriminate].
Qed.
Lemma placed_val0 D Y c : placed D Y -> d_value Y = None -> d_name Y <> None -> let Y1 := adig Y (AValue (zlen D) [c]) in
  placed (D ++ [c]) Y1 /\ d_name Y1 <> None /\ exists x, d_value Y1 = Some x /\ d_x0 Y1 + zlen x = zlen (D ++ [c]).
Proof.
  intros HP V N. destruct (placed_keep _ [c] _ HP) as [K1 K2 K3 K4]. destruct (lies_one D c) as (L1&L2). cbn [adig]. rewrite V. cbn.
  split; [constructor; cbn; auto|]. { intros x Q. injection Q as <-. exact L1. } split; [exact N|]. eexists. split; [reflexivity|exact L2].
Qed.
Lemma placed_empty D Y c : placed D Y -> d_value Y = None -> d_name Y <> None -> let Y1 := adig Y (AValue (zlen D) []) in
  placed (D ++ [c]) Y1 /\ d_name Y1 <> None /\ d_value Y1 <> None.
Proof.
  intros HP V N. destruct (placed_keep _ [c] _ HP) as [K1 K2 K3 K4]. pose proof (zlen_nonneg D). cbn [adig]. rewrite V. cbn.
  split; [constructor; cbn; auto|]. { intros x Q. injection Q as <-. apply lies_nil. rewrite zlen_app. change (zlen [c]) with 1. lia. } split; [exact N|discriminate].
Qed.
Lemma placed_val D Y c : placed D Y -> d_name Y <> None -> (exists x, d_value Y = Some x /\ d_x0 Y + zlen x = zlen D) -> let Y1 := adig Y (AValue (zlen D) [c]) in
  placed (D ++ [c]) Y1 /\ d_name Y1 <> None /\ exists x, d_value Y1 = Some x /\ d_x0 Y1 + zlen x = zlen (D ++ [c]).
Proof.
  intros HP N (x&V&Q). destruct (placed_keep _ [c] _ HP) as [K1 K2 K3 K4]. destruct HP as [H1 H2 H3 H4]. destruct (lies_snoc _ _ _ c (H4 _ V) Q) as (L1&L2). cbn [adig]. rewrite V. cbn.
  split; [constructor; cbn; auto|]. { intros x' Q'. injection Q' as <-. exact L1. } split; [exact N|]. eexists. split; [reflexivity|exact L2].
Qed.
Lemma placed_val_end D Y c o : placed D Y -> d_name Y <> None -> (exists x, d_value Y = Some x /\ d_x0 Y + zlen x = zlen D) -> let Y1 := adig Y (AValue o []) in
  placed (D ++ [c]) Y1 /\ d_name Y1 <> None /\ d_value Y1 <> None.
Proof.
  intros HP N (x&V&Q). destruct (placed_keep _ [c] _ HP) as [K1 K2 K3 K4]. cbn [adig]. rewrite V. cbn. rewrite app_nil_r.
  split; [constructor; cbn; auto|]. { intros x' Q'. injection Q' as <-. auto. } split; [exact N|discriminate].
Qed.
Definition tstate (D : bytes) (t : rst) (Y : dig) : Prop := placed D Y /\ where_is D t Y.
Definition other (e : aev) : Prop := match e with AField _ _ | AValue _ _ | AHdrs _ _ _ _ | AStatus _ => False | _ => True end.
Lemma placed_others D es : forall Y, placed D Y -> both Y -> Forall other es -> placed D (fold_left adig es Y) /\ both (fold_left adig es Y).
Proof.
  induction es as [|e es IH]; intros Y HP HB F; [auto|]. inversion F as [|? ? F1 F2]; subst. cbn [fold_left]. apply IH; auto.
  - apply placed_other; auto. destruct e; cbn in *; auto.
  - destruct e; cbn in F1; try contradiction; exact HB.
Qed.
Lemma text_hend nb D s1 Y c p : placed D Y -> both Y ->
  tstate (D ++ [c]) (snd (after_hdrs nb s1)) (fold_left adig (map (kaev (snd (after_hdrs nb s1)) p 0) (fst (after_hdrs nb s1))) (adig Y (AHdrs p (clen_field s1) (q_close s1) (q_ka s1)))).
Proof.
  intros HP HB. set (Y2 := adig Y (AHdrs p (clen_field s1) (q_close s1) (q_ka s1))).
  assert (B2 : both Y2) by (left; exact (both_fin _ HB)). assert (P2 : placed D Y2) by (apply placed_hdrs; exact HP). clearbody Y2.
  assert (F : Forall other (map (kaev (snd (after_hdrs nb s1)) p 0) (fst (after_hdrs nb s1)))).
  { pose proof (after_kinds nb s1) as AK. induction AK as [|x l -> _ IH]; cbn [map]; constructor; auto. exact I. }
  destruct (placed_others D _ Y2 P2 B2 F) as (P3&B3). split; [apply placed_keep; exact P3|].
  unfold where_is, after_hdrs in *. repeat match goal with |- context [if ?b then _ else _] => destruct b | |- context [match q_clen s1 with _ => _ end] => destruct (q_clen s1) end; cbn in *; auto.
Qed.
(** One byte; the end of the headers apart. *)
Definition after_byte (s s1 : rst) (ks : list kind) (Y : dig) (a c : Z) : dig :=
  let Y1 := fold_left adig (map (kaev s1 a c) ks) Y in
  match ks with [] => if in_piece (q_st s) || begins_piece (q_st s1) then fold_left adig (pev s1 a [c]) Y1 else Y1 | _ => Y1 end.
Definition text_ok (nb : bool) (D : bytes) (t : rst) (c : Z) (ks : list kind) (t1 : rst) (Y : dig) : Prop :=
  match q_st t1 with
  | HEnd => let Y1 := fold_left adig (map (kaev t1 (zlen D) c) ks) Y in placed D Y1 /\ both Y1
  | _ => tstate (D ++ [c]) t1 (after_byte t t1 ks Y (zlen D) c)
  end.
Lemma text_hstart nb t u Y D c : placed D Y -> both Y -> in_piece (q_st t) = false -> (forall e, q_st (snd (hstart u c)) <> Dead e) ->
  text_ok nb D t c (fst (hstart u c)) (snd (hstart u c)) Y.
Proof.
  intros HP HB IP ND. unfold hstart, end_of_headers, text_ok, after_byte in *.
  destruct (c =? CR); [cbn; rewrite IP; cbn; split; [apply placed_keep; exact HP|exact HB]|].
  destruct (c =? LF); [destruct (q_tr u); cbn; [split; [apply placed_keep; apply (placed_other _ _ AComplete); auto|exact I]|auto]|].
  destruct (is_tchar c); [|exfalso; eapply ND; reflexivity].
  cbn [fst snd to set_name q_st begins_piece]. rewrite orb_true_r. cbn [map fold_left pev q_st to]. exact (placed_new D Y c HP HB).
Qed.
Lemma text_step nb D t Y c : tstate D t Y -> (q_st t = Start -> c = 72) -> (q_st t = VFold -> is_ws c = false) -> (forall e, q_st (snd (step t c)) <> Dead e) -> q_st t <> HEnd ->
  text_ok nb D t c (fst (step t c)) (snd (step t c)) Y.
Proof.
  intros (HP&HW) HS HV ND NH. pose proof (placed_keep D [c] Y HP) as KP. unfold where_is in HW. unfold step in *. destruct (q_st t) eqn:Q; try congruence.
  all: try (apply text_hstart; [exact HP|exact HW|rewrite Q; reflexivity|exact ND]).
  - assert (EC : c = 72) by auto. subst c. cbn. split; [apply (placed_other _ _ ABegin); auto|exact I].
  - destruct (c =? nth i VERSION 0); cbn in ND |- *; [|exfalso; eapply ND; reflexivity]. unfold text_ok, after_byte. cbn. rewrite Q. destruct (Nat.eqb i 6); (split; [exact KP|exact I]).
  - destruct ((c =? 48) || (c =? 49)); cbn in ND |- *; [|exfalso; eapply ND; reflexivity]. unfold text_ok, after_byte. cbn. rewrite Q. split; [exact KP|exact I].
  - destruct (c =? SPACE); cbn in ND |- *; [|exfalso; eapply ND; reflexivity]. unfold text_ok, after_byte. cbn. rewrite Q. split; [exact KP|exact I].
  - destruct (is_digit c); [|exfalso; eapply ND; reflexivity]. cbn zeta. destruct (Nat.leb 2 k); unfold text_ok, after_byte; cbn; rewrite Q; (split; [exact KP|exact I]).
  - destruct (c =? SPACE); [unfold text_ok, after_byte; cbn; rewrite Q; split; [exact KP|exact I]|].
    destruct (c =? CR); [unfold text_ok, after_byte; cbn; rewrite Q; split; [exact KP|exact I]|].
    destruct (c =? LF); [|exfalso; eapply ND; reflexivity]. split; [apply (placed_other _ _ (AStatus _)); auto|left; split; reflexivity].
  - destruct (c =? CR); [split; [apply (placed_other _ _ (AStatus _)); auto|exact I]|].
    destruct (c =? LF); [split; [apply (placed_other _ _ (AStatus _)); [apply (placed_other _ _ (AStatus _)); auto|exact I]|left; split; reflexivity]|].
    unfold text_ok, after_byte. cbn [fst snd]. rewrite Q. cbn [in_piece orb map fold_left]. unfold pev. rewrite Q. cbn [fold_left]. split; [apply (placed_other _ _ (AStatus _)); auto|]. unfold where_is. rewrite Q. exact I.
  - destruct (c =? LF); [|exfalso; eapply ND; reflexivity]. split; [apply (placed_other _ _ (AStatus _)); auto|left; split; reflexivity].
  - (* Field *) destruct (c =? COLON). { destruct (placed_colon D Y c HP HW) as (A1&A2&A3). split; [exact A1|split; [exact A2|exact A3]]. }
    destruct (is_tchar c); [|exfalso; eapply ND; reflexivity]. unfold text_ok, after_byte. cbn [fst snd set_name q_st]. rewrite Q. cbn [in_piece orb map fold_left]. unfold pev. cbn [q_st set_name]. rewrite Q. cbn [fold_left].
    destruct (placed_field D Y c HP HW) as (A1&A2&A3). split; [exact A1|]. unfold where_is. cbn [q_st set_name]. rewrite Q. split; [exact A2|exact A3].
  - (* VWs *) destruct HW as (W1&W2).
    destruct (is_ws c). { unfold text_ok, after_byte. cbn [fst snd]. rewrite Q. cbn [in_piece orb begins_piece map fold_left]. split; [exact KP|]. unfold where_is. rewrite Q. auto. }
    destruct (c =? CR). { destruct (placed_empty D Y c HP W1 W2) as (A1&A2&A3). split; [exact A1|split; [exact A2|exact A3]]. }
    destruct (c =? LF). { destruct (placed_empty D Y c HP W1 W2) as (A1&A2&A3). split; [exact A1|split; [exact A2|exact A3]]. }
    unfold text_ok, after_byte. cbn [fst snd to q_st begins_piece]. rewrite orb_true_r. cbn [map fold_left pev q_st to].
    destruct (placed_val0 D Y c HP W1 W2) as (A1&A2&A3). split; [exact A1|split; [exact A2|exact A3]].
  - (* Val *) destruct HW as (W1&W2).
    destruct (c =? CR). { destruct (placed_val_end D Y c (zlen D) HP W1 W2) as (A1&A2&A3). split; [exact A1|split; [exact A2|exact A3]]. }
    destruct (c =? LF). { destruct (placed_val_end D Y c (zlen D) HP W1 W2) as (A1&A2&A3). split; [exact A1|split; [exact A2|exact A3]]. }
    unfold text_ok, after_byte. cbn [fst snd set_name q_st]. rewrite Q. cbn [in_piece orb map fold_left]. unfold pev. cbn [q_st set_name]. rewrite Q. cbn [fold_left].
    destruct (placed_val D Y c HP W1 W2) as (A1&A2&A3). split; [exact A1|]. unfold where_is. cbn [q_st set_name]. rewrite Q. split; [exact A2|exact A3].
  - (* ValLF *) destruct (c =? LF); [|exfalso; eapply ND; reflexivity]. unfold text_ok, after_byte. cbn. rewrite Q. cbn. split; [exact KP|exact HW].
  - (* VFold *) rewrite (HV eq_refl) in *. cbn zeta in *. assert (HB : both Y) by (right; exact HW).
    destruct (interpret_st t) as [X|(e&X&_)]; rewrite X in *; [rewrite Q in *|exfalso; eapply ND; exact X].
    apply text_hstart; [exact HP|exact HB|rewrite Q; reflexivity|exact ND].
  - (* EndLF *) destruct (c =? LF); [|exfalso; eapply ND; reflexivity]. unfold end_of_headers in *. destruct (q_tr t); unfold text_ok, after_byte; cbn; [split; [apply (placed_other _ _ AComplete); auto|exact I]|auto].
  - (* BodyN *) destruct (n <=? 1). { split; [apply (placed_other _ _ AComplete); [apply (placed_other _ _ (ABody _ _)); auto|exact I]|exact I]. }
    unfold text_ok, after_byte. cbn [fst snd to add_body q_st]. rewrite Q. cbn [in_piece orb map fold_left]. unfold pev. cbn [q_st to add_body fold_left]. split; [apply (placed_other _ _ (ABody _ _)); auto|exact HW].
  - (* BodyEof *) unfold text_ok, after_byte. cbn [fst snd add_body q_st]. rewrite Q. cbn [in_piece orb map fold_left]. unfold pev. cbn [q_st add_body]. rewrite Q. cbn [fold_left]. split; [apply (placed_other _ _ (ABody _ _)); auto|]. unfold where_is. cbn [q_st add_body]. rewrite Q. exact HW.
  - (* CkStart *) destruct (hexval c); [|exfalso; eapply ND; reflexivity]. unfold text_ok, after_byte. cbn. rewrite Q. cbn. split; [exact KP|exact HW].
  - (* CkSize *) destruct (hexval c). { destruct (v <? 2 ^ 59); [|exfalso; eapply ND; reflexivity]. unfold text_ok, after_byte. cbn. rewrite Q. cbn. split; [exact KP|exact HW]. }
    destruct (c =? CR). { unfold text_ok, after_byte. cbn. rewrite Q. cbn. split; [exact KP|exact HW]. }
    destruct (c =? 59); [|exfalso; eapply ND; reflexivity]. unfold text_ok, after_byte. cbn. rewrite Q. cbn. split; [exact KP|exact HW].
  - (* CkExt *) destruct (c =? CR). { unfold text_ok, after_byte. cbn. rewrite Q. cbn. split; [exact KP|exact HW]. }
    destruct (c =? LF); [exfalso; eapply ND; reflexivity|]. unfold text_ok, after_byte. cbn [fst snd]. rewrite Q. cbn. split; [exact KP|]. unfold where_is. rewrite Q. exact HW.
  - (* CkLF *) destruct (c =? LF); [|exfalso; eapply ND; reflexivity]. destruct (v =? 0); unfold text_ok, after_byte; cbn; rewrite Q; cbn; (split; [exact KP|exact HW]).
  - (* CkData *) destruct (n <=? 1). { split; [apply (placed_other _ _ (ABody _ _)); auto|exact HW]. }
    unfold text_ok, after_byte. cbn [fst snd to add_body q_st]. rewrite Q. cbn [in_piece orb map fold_left]. unfold pev. cbn [q_st to add_body fold_left]. split; [apply (placed_other _ _ (ABody _ _)); auto|exact HW].
  - (* CkCR *) destruct (c =? CR); [|exfalso; eapply ND; reflexivity]. unfold text_ok, after_byte. cbn. rewrite Q. cbn. split; [exact KP|exact HW].
  - (* CkDLF *) destruct (c =? LF); [|exfalso; eapply ND; reflexivity]. unfold text_ok, after_byte. cbn. rewrite Q. cbn. split; [exact KP|exact HW].
  - exfalso. eapply ND. cbn [snd]. exact Q.
Qed.
Lemma text_cstep nb D t Y c : tstate D t Y -> (q_st t = Start -> c = 72) -> (q_st t = VFold -> is_ws c = false) -> (forall e, q_st (step1 nb t c) <> Dead e) -> calm t ->
  tstate (D ++ [c]) (fst (cstep nb t Y (zlen D) c)) (snd (cstep nb t Y (zlen D) c)).
Proof.
  intros HT HS HV ND (NH&_).
  assert (ND1 : forall e, q_st (snd (step t c)) <> Dead e). { intros e Q. apply (ND e). unfold step1. rewrite Q. exact Q. }
  pose proof (text_step nb D t Y c HT HS HV ND1 NH) as X. unfold text_ok, after_byte in X. unfold cstep. destruct (step t c) as [ks t1]. cbn [fst snd] in *.
  destruct (q_st t1) eqn:Q; try (rewrite Q in X; exact X); try exact X.
  destruct X as (X1&X2). pose proof (text_hend nb D t1 _ c (zlen D + 1) X1 X2) as Z. destruct (after_hdrs nb t1) as [ks2 t2]. exact Z.
Qed.
Lemma after_calm nb s : calm (snd (after_hdrs nb s)).
Proof. unfold after_hdrs. repeat match goal with |- context [if ?b then _ else _] => destruct b | |- context [match q_clen s with _ => _ end] => destruct (q_clen s) end; split; cbn; discriminate. Qed.
Lemma step1_calm nb t c : (forall e, q_st (step1 nb t c) <> Dead e) -> calm (step1 nb t c).
Proof. intros ND. split; [|exact ND]. unfold step1 in *. destruct (q_st (snd (step t c))) eqn:Q; try congruence. apply after_calm. Qed.
Lemma text_run nb d : forall D t Y, tstate D t Y -> okrun nb t d -> calm t -> exists Y', crun nb t Y (zlen D) d = inl (srun nb t d, Y') /\ tstate (D ++ d) (srun nb t d) Y'.
Proof.
  induction d as [|c d IH]; intros D t Y HT OK HC; [exists Y; rewrite app_nil_r; auto|].
  cbn [okrun] in OK. destruct OK as (O1&O2&O3&O4&O5). rewrite crun_cons by exact O3.
  pose proof (text_cstep nb D t Y c HT ltac:(intros Q; apply (O1 Q)) O2 O3 HC) as X. rewrite cstep_st in X.
  destruct (IH (D ++ [c]) _ _ X O5 (step1_calm _ _ _ O3)) as (Y'&G1&G2). rewrite <- app_assoc in G2. rewrite zlen_app in G1. change (zlen [c]) with 1 in G1. eauto.
Qed.
