(** RefRun.v — the reference parser byte by byte: whatever way the data are cut into calls, the parser's reports add up to the
    same response. *)
From Verif Require Import Base Lib ModelRequest ModelSend ModelResponse SpecRequest SpecSend SpecResponse RefParser.

(** One byte; [nb]: the end of the headers is answered "no body". *)
Definition step1 (nb : bool) (s : rst) (c : Z) : rst :=
  let s1 := snd (step s c) in
  match q_st s1 with HEnd => snd (after_hdrs nb s1) | _ => s1 end.
Definition srun (nb : bool) (s : rst) (d : bytes) : rst := fold_left (step1 nb) d s.

(** The run is one of a single message, without error and without line folding. *)
Fixpoint okrun (nb : bool) (s : rst) (d : bytes) : Prop :=
  match d with
  | [] => True
  | c :: d' =>
      (q_st s = Start -> s = rinit /\ c = 72) /\ (q_st s = VFold -> is_ws c = false) /\
      (forall e, q_st (step1 nb s c) <> Dead e) /\ (q_st (step1 nb s c) = Start -> q_code (step1 nb s c) <> 0) /\
      okrun nb (step1 nb s c) d'
  end.
Lemma okrun_app nb s a b : okrun nb s (a ++ b) <-> okrun nb s a /\ okrun nb (srun nb s a) b.
Proof.
  revert s. induction a as [|c a IH]; intros s; cbn [okrun app]; [cbn; tauto|].
  change (srun nb s (c :: a)) with (srun nb (step1 nb s c) a). rewrite IH. tauto.
Qed.

(** Running a call of the parser, without pauses. *)
Definition rep (nb : bool) (ev : pevent) : cbret :=
  match ev with EvHeadersComplete _ _ _ _ => if nb then CbNoBody else CbContinue | _ => CbContinue end.
Fixpoint texec {S} (nb : bool) (t : ptree S) (v : view) : view * errno * S :=
  match t with
  | PDone e s => (v, e, s)
  | PEmit ev k => texec nb (k (rep nb ev)) (view_event v ev)
  end.
Lemma texec_emit nb evs t v : texec nb (emit evs t) v = texec nb t (fold_left view_event evs v).
Proof. revert v. induction evs as [|e evs IH]; intros v; cbn [emit texec fold_left]; auto. Qed.

(** ** What the reports so far say, compared with the bytes read so far *)
(** [u]: where the piece not yet reported begins; [a]: how far the parser has read. *)
Definition unrep (v : view) (u a : Z) : bytes := slice (v_stream v) u (a - u).
Definition settled (v : view) (H : list (bytes * bytes * Z)) : Prop :=
  v_headers (finish v) = H /\ v_name (finish v) = None /\ v_value (finish v) = None.
Definition clear (s : rst) : Prop := q_tr s = false /\ q_clen s = None /\ q_chunked s = false /\ q_close s = false /\ q_ka s = false.
Definition before_headers (s : rst) (v : view) : Prop :=
  v_hend v = None /\ v_close v = false /\ v_ka v = false /\ v_body v = [] /\ q_body s = [].
Definition past_headers (s : rst) (v : view) : Prop :=
  v_hend v <> None /\ v_clen v = clen_field s /\ v_close v = q_close s /\ v_ka v = q_ka s /\ (q_tr s = false -> v_name v = None).
Definition section (s : rst) (v : view) : Prop :=
  if q_tr s then past_headers s v /\ v_body v = q_body s else before_headers s v.

Definition rel0 (s : rst) (v : view) (u a : Z) : Prop :=
  v_adj v = true /\
  match q_st s with
  | Start => (s = rinit /\ v_msg v = MsgNone /\ v_name v = None /\ v_value v = None /\ v_headers v = [] /\ before_headers s v) \/
             (q_code s <> 0 /\ v_msg v = MsgComplete /\ v_code v = q_code s /\ settled v (q_hdrs s) /\ past_headers s v /\ v_body v = q_body s)
  | Ver _ | Minor | VSp | Code _ _ | CodeEnd | Reason | ReasonLF =>
      v_msg v = MsgBegun /\ v_name v = None /\ v_value v = None /\ v_headers v = [] /\ q_hdrs s = [] /\ clear s /\ before_headers s v
  | HStart | EndLF => v_msg v = MsgBegun /\ v_code v = q_code s /\ section s v /\ settled v (q_hdrs s)
  | Field => v_msg v = MsgBegun /\ v_code v = q_code s /\ section s v /\ q_val s = [] /\
      (settled v (q_hdrs s) /\ unrep v u a = q_name s \/
       v_headers v = q_hdrs s /\ v_value v = None /\ exists n, v_name v = Some n /\ n ++ unrep v u a = q_name s /\ v_next v = u)
  | VWs => v_msg v = MsgBegun /\ v_code v = q_code s /\ section s v /\
      v_headers v = q_hdrs s /\ v_name v = Some (q_name s) /\ v_value v = None /\ q_val s = []
  | Val => v_msg v = MsgBegun /\ v_code v = q_code s /\ section s v /\ v_headers v = q_hdrs s /\ v_name v = Some (q_name s) /\
      (v_value v = None /\ unrep v u a = q_val s \/ exists x, v_value v = Some x /\ x ++ unrep v u a = q_val s /\ v_next v = u)
  | ValLF | VFold => v_msg v = MsgBegun /\ v_code v = q_code s /\ section s v /\ v_headers v = q_hdrs s /\
      v_name v = Some (q_name s) /\ v_value v = Some (q_val s)
  | BodyN _ | BodyEof | CkData _ => v_msg v = MsgBegun /\ v_code v = q_code s /\ past_headers s v /\ settled v (q_hdrs s) /\
      q_tr s = false /\ v_body v ++ unrep v u a = q_body s
  | CkStart | CkSize _ | CkExt _ | CkLF _ | CkCR | CkDLF => v_msg v = MsgBegun /\ v_code v = q_code s /\ past_headers s v /\
      settled v (q_hdrs s) /\ q_tr s = false /\ v_body v = q_body s
  | HEnd => v_msg v = MsgBegun /\ v_code v = q_code s /\ before_headers s v /\ settled v (q_hdrs s) /\ q_tr s = false
  | Dead _ => False
  end.

Lemma finish_const v : v_stream (finish v) = v_stream v /\ v_start (finish v) = v_start v /\ v_msg (finish v) = v_msg v /\
  v_code (finish v) = v_code v /\ v_hend (finish v) = v_hend v /\ v_close (finish v) = v_close v /\ v_ka (finish v) = v_ka v /\
  v_body (finish v) = v_body v /\ v_adj (finish v) = v_adj v /\ v_clen (finish v) = v_clen v.
Proof. unfold finish. destruct (v_name v), (v_value v); cbn; repeat split. Qed.
Lemma finish_none v : v_value v = None -> finish v = v.
Proof. unfold finish. intros ->. destruct (v_name v); auto. Qed.
Lemma finish_none2 v : v_name v = None -> finish v = v.
Proof. unfold finish. intros ->. auto. Qed.

Lemma interp_st s : (forall e, q_st (interpret s) <> Dead e) -> q_st (interpret s) = q_st s.
Proof. intros N. destruct (interpret_st s) as [H|(e&H&_)]; [auto|]. destruct (N e H). Qed.
Lemma interp_hdrs s : q_hdrs (interpret s) = q_hdrs s ++ [(q_name s, q_val s, q_code s)] /\ q_body (interpret s) = q_body s /\
  (q_tr s = true -> q_clen (interpret s) = q_clen s /\ q_close (interpret s) = q_close s /\ q_ka (interpret s) = q_ka s).
Proof.
  unfold interpret. destruct (q_tr s); [auto|]. split; [|split; [|discriminate]];
  (destruct (ieq _ _); [destruct (match q_clen s with None => true | _ => false end); [destruct (_ && _ && _)|]; auto|];
   destruct (_ && _); [auto|]; destruct (_ && _); [auto|]; destruct (_ && _); auto).
Qed.

Lemma unrep_snoc v u a c : 0 <= u <= a -> a < zlen (v_stream v) -> slice (v_stream v) a 1 = [c] -> unrep v u (a + 1) = unrep v u a ++ [c].
Proof. intros H1 H2 H3. unfold unrep. replace (a + 1 - u) with ((a - u) + 1) by lia. rewrite slice_app by lia. f_equal. rewrite <- H3. f_equal. lia. Qed.
Lemma unrep_nil v a : unrep v a a = [].
Proof. unfold unrep. rewrite Z.sub_diag. apply slice_0. Qed.
Lemma unrep_one v a c : slice (v_stream v) a 1 = [c] -> unrep v a (a + 1) = [c].
Proof. intros H. unfold unrep. replace (a + 1 - a) with 1 by lia. auto. Qed.

Lemma piece_unrep v sp pos : piece v sp (pos - sp) = unrep v (v_start v + sp) (v_start v + pos).
Proof. unfold piece, unrep. f_equal. lia. Qed.
Lemma piece_fin v sp n : piece (finish v) sp n = piece v sp n.
Proof. unfold piece. destruct (finish_const v) as (->&->&_). auto. Qed.

Lemma view_event_const v ev : v_stream (view_event v ev) = v_stream v /\ v_start (view_event v ev) = v_start v.
Proof. destruct (finish_const v) as (A&B&_). destruct ev; cbn; auto. Qed.
Lemma view_events_const evs v : v_stream (fold_left view_event evs v) = v_stream v /\ v_start (fold_left view_event evs v) = v_start v.
Proof.
  revert v. induction evs as [|e evs IH]; intros v; [auto|]. cbn [fold_left]. destruct (IH (view_event v e)) as (->&->). apply view_event_const.
Qed.
Lemma unrep_eq v1 v2 u a : v_stream v1 = v_stream v2 -> unrep v1 u a = unrep v2 u a.
Proof. unfold unrep. intros ->. auto. Qed.

Lemma fin_field v o l H : settled v H ->
  let v1 := view_event v (EvField o l) in
  v_headers v1 = H /\ v_name v1 = Some (piece v o l) /\ v_value v1 = None /\ v_adj v1 = v_adj v /\ v_next v1 = v_start v + o + l.
Proof.
  intros (A&B&C). destruct (finish_const v) as (F1&F2&_&_&_&_&_&_&F9&_).
  cbn. rewrite A, B, C, F2, F9, andb_true_r. cbn. rewrite piece_fin. auto.
Qed.
Lemma more_field v o l n : v_name v = Some n -> v_value v = None -> v_next v = v_start v + o ->
  let v1 := view_event v (EvField o l) in
  v_headers v1 = v_headers v /\ v_name v1 = Some (n ++ piece v o l) /\ v_value v1 = None /\ v_adj v1 = v_adj v /\ v_next v1 = v_start v + o + l.
Proof. intros A B C. cbn. rewrite finish_none by auto. rewrite A, B, C, Z.eqb_refl, andb_true_r. auto. Qed.
Lemma field_same v o l : let v1 := view_event v (EvField o l) in
  v_msg v1 = v_msg v /\ v_code v1 = v_code v /\ v_hend v1 = v_hend v /\ v_clen v1 = v_clen v /\ v_close v1 = v_close v /\ v_ka v1 = v_ka v /\ v_body v1 = v_body v.
Proof. destruct (finish_const v) as (F1&F2&F3&F4&F5&F6&F7&F8&F9&F10). cbn. auto 10. Qed.
(** A section description depends only on those fields. *)
Lemma section_same s v s1 v1 : section s v -> q_tr s1 = q_tr s -> q_body s1 = q_body s ->
  (q_tr s = true -> q_clen s1 = q_clen s /\ q_close s1 = q_close s /\ q_ka s1 = q_ka s) ->
  v_hend v1 = v_hend v -> v_clen v1 = v_clen v -> v_close v1 = v_close v -> v_ka v1 = v_ka v -> v_body v1 = v_body v -> section s1 v1.
Proof.
  unfold section, past_headers, before_headers, clen_field. intros H E -> T -> -> -> -> ->. rewrite E. destruct (q_tr s); [|auto].
  destruct (T eq_refl) as (->&->&->). intuition discriminate.
Qed.

Definition head_rel (s : rst) (v : view) : Prop := v_msg v = MsgBegun /\ v_code v = q_code s /\ section s v.
Lemma head_rel_same s v s1 v1 : head_rel s v -> q_tr s1 = q_tr s -> q_body s1 = q_body s -> q_code s1 = q_code s ->
  (q_tr s = true -> q_clen s1 = q_clen s /\ q_close s1 = q_close s /\ q_ka s1 = q_ka s) ->
  v_msg v1 = v_msg v -> v_code v1 = v_code v ->
  v_hend v1 = v_hend v -> v_clen v1 = v_clen v -> v_close v1 = v_close v -> v_ka v1 = v_ka v -> v_body v1 = v_body v -> head_rel s1 v1.
Proof.
  intros (A&B&C) T1 T2 T3 T4 V1 V2 V3 V4 V5 V6 V7. split; [congruence|]. split; [congruence|]. eapply section_same; eauto.
Qed.

Ltac fin v := unfold settled, finish, past_headers, clen_field in *; cbn in *; destruct (v_name v) eqn:?, (v_value v) eqn:?; cbn in *; intuition congruence.
Lemma hstart_rel s v b sp pos c : b = v_start v -> 0 <= b -> 0 <= pos -> b + pos < zlen (v_stream v) -> slice (v_stream v) (b + pos) 1 = [c] ->
  v_adj v = true -> head_rel s v -> settled v (q_hdrs s) -> (forall e, q_st (snd (hstart s c)) <> Dead e) ->
  (q_st (snd (hstart s c)) = Start -> q_code (snd (hstart s c)) <> 0) ->
  forall s0, in_piece (q_st s0) = false ->
  let ks := fst (hstart s c) in let s1 := snd (hstart s c) in
  rel0 s1 (fold_left view_event (map (fun k => event s1 k sp pos) ks) v) (b + next_sp s0 s1 ks sp pos) (b + (pos + 1)).
Proof.
  intros -> Hb Hp Hz Hc AD (M&K&SE) ST ND NC s0 IP. unfold hstart in *.
  destruct (c =? CR); cbn [fst snd map fold_left].
  { split; [auto|]. cbn. auto. }
  destruct (c =? LF); cbn [fst snd map fold_left].
  { unfold end_of_headers in *. unfold section in SE. destruct (q_tr s) eqn:ET; cbn [fst snd map fold_left event].
    - split; [auto|]. cbn in *. right. split; [auto|]. destruct SE as (S1&S2). fin v.
    - split; [auto|]. cbn. auto 10. }
  destruct (is_tchar c); cbn [fst snd map fold_left] in *; [|exfalso; eapply ND; reflexivity].
  split; [auto|]. cbn [to set_name q_st q_code q_hdrs q_name]. split; [auto|]. split; [auto|]. split; [exact SE|]. split; [reflexivity|].
  left. split; [auto|]. unfold next_sp. rewrite IP. cbn [q_st to]. rewrite Z.add_assoc. apply unrep_one. auto.
Qed.

Lemma rel0_step s v b sp pos c : b = v_start v -> 0 <= b -> 0 <= sp <= pos -> b + pos < zlen (v_stream v) -> slice (v_stream v) (b + pos) 1 = [c] ->
  (q_st s = Start -> s = rinit /\ c = 72) -> (q_st s = VFold -> is_ws c = false) -> (forall e, q_st (snd (step s c)) <> Dead e) -> (q_st (snd (step s c)) = Start -> q_code (snd (step s c)) <> 0) -> q_st s <> HEnd ->
  rel0 s v (b + sp) (b + pos) ->
  let ks := fst (step s c) in let s1 := snd (step s c) in
  rel0 s1 (fold_left view_event (map (fun k => event s1 k sp pos) ks) v) (b + next_sp s s1 ks sp pos) (b + (pos + 1)).
Proof.
  intros Eb Hb Hp Hz Hc HS HV ND NC NH (AD&R).
  assert (US : unrep v (b + sp) (b + (pos + 1)) = unrep v (b + sp) (b + pos) ++ [c]).
  { rewrite Z.add_assoc. apply unrep_snoc; auto. lia. }
  assert (PU : piece v sp (pos - sp) = unrep v (b + sp) (b + pos)) by (subst b; apply piece_unrep).
  assert (PU1 : piece v sp (pos + 1 - sp) = unrep v (b + sp) (b + pos) ++ [c]) by (rewrite <- US; subst b; apply piece_unrep).
  unfold step in *. destruct (q_st s) eqn:ES; try contradiction (NH eq_refl).
  - (* Start *)
    destruct (HS eq_refl) as (->&->). cbn. split; [auto|]. destruct R as [R|R]; [|destruct R as (R&_); cbn in R; congruence].
    destruct R as (_&R1&R2&R3&R4&R5). unfold before_headers, clear in *. cbn in *. auto 15.
  - (* Ver *)
    destruct (c =? nth i VERSION 0); cbn [fst snd] in *; [|exfalso; eapply ND; reflexivity].
    split; [auto|]. destruct (Nat.eqb i 6); exact R.
  - (* Minor *)
    destruct ((c =? 48) || (c =? 49)); cbn [fst snd] in *; [|exfalso; eapply ND; reflexivity]. split; [auto|exact R].
  - (* VSp *)
    destruct (c =? SPACE); cbn [fst snd] in *; [|exfalso; eapply ND; reflexivity]. split; [auto|exact R].
  - (* Code *)
    destruct (is_digit c); cbn [fst snd] in *; [|exfalso; eapply ND; reflexivity].
    destruct (Nat.leb 2 k); cbn [fst snd] in *; (split; [auto|exact R]).
  - (* CodeEnd *)
    destruct (c =? SPACE); cbn [fst snd] in *; [split; [auto|exact R]|].
    destruct (c =? CR); cbn [fst snd] in *; [split; [auto|exact R]|].
    destruct (c =? LF); cbn [fst snd] in *; [|exfalso; eapply ND; reflexivity].
    destruct R as (R1&R2&R3&R4&R5&R6&R7). pose proof R6 as (Q&_). split; [auto|]. cbn. unfold section, settled, finish. cbn. rewrite Q. rewrite R5. auto 10.
  - (* Reason *)
    destruct R as (R1&R2&R3&R4&R5&R6&R7). pose proof R6 as (Q&_).
    destruct (c =? CR); cbn [fst snd] in *; [split; [auto|]; cbn; auto 10|].
    destruct (c =? LF); cbn [fst snd] in *.
    + split; [auto|]. cbn. unfold section, settled, finish. cbn. rewrite Q, R5. auto 10.
    + split; [auto|]. cbn. rewrite ES. auto 10.
  - (* ReasonLF *)
    destruct (c =? LF); cbn [fst snd] in *; [|exfalso; eapply ND; reflexivity].
    destruct R as (R1&R2&R3&R4&R5&R6&R7). pose proof R6 as (Q&_). split; [auto|]. cbn. unfold section, settled, finish. cbn. rewrite Q, R5. auto 10.
  - (* HStart *)
    destruct R as (R1&R2&R3&R4). apply hstart_rel; auto; [lia|split; auto|rewrite ES; auto].
  - (* Field *)
    destruct R as (R1&R2&R3&QV&R4).
    destruct (c =? COLON); cbn [fst snd map fold_left event] in *.
    + destruct (field_same v sp (pos - sp)) as (F1&F2&F3&F4&F5&F6&F7).
      assert (SE : section (to s VWs) (view_event v (EvField sp (pos - sp)))) by (eapply section_same; eauto).
      destruct R4 as [(R4&R5)|(R4&R5&n&R6&R7&R8)].
      * destruct (fin_field v sp (pos - sp) _ R4) as (G1&G2&G3&G4&_). rewrite PU, R5 in G2.
        split; [rewrite G4; auto|]. cbn [to q_st q_code q_hdrs q_name q_val]. rewrite F1, F2. auto 10.
      * rewrite Eb in R8. destruct (more_field v sp (pos - sp) n R6 R5 R8) as (G1&G2&G3&G4&_). rewrite PU, R7 in G2.
        split; [rewrite G4; auto|]. cbn [to q_st q_code q_hdrs q_name q_val]. rewrite F1, F2, G1. auto 10.
    + destruct (is_tchar c); cbn [fst snd map fold_left] in *; [|exfalso; eapply ND; reflexivity].
      split; [auto|]. unfold next_sp. rewrite ES. cbn [in_piece]. unfold set_name at 1. cbn [q_st]. rewrite ES. cbn [set_name q_code q_hdrs q_name].
      split; [auto|]. split; [auto|]. split; [exact R3|]. split; [exact QV|]. rewrite US.
      destruct R4 as [(R4&R5)|(R4&R5&n&R6&R7&R8)]; [left; rewrite R5; auto|].
      right. split; [auto|]. split; [auto|]. exists n. rewrite app_assoc, R7. auto.
  - (* VWs *)
    destruct R as (R1&R2&R3&R4&R5&R6&R7).
    assert (EV : forall x, in_piece x = false -> rel0 (to s x) (view_event v (EvValue pos 0)) (b + (pos + 1)) (b + (pos + 1)) \/ (x <> ValLF /\ x <> VFold)).
    { intros x _. destruct x; try (right; split; discriminate); left; (split; [cbn; rewrite R6, andb_true_r; auto|]);
      assert (Y : v_value (view_event v (EvValue pos 0)) = Some (q_val s)) by (cbn [view_event v_value]; rewrite R6, R7; unfold piece; rewrite slice_0; reflexivity);
      cbn [to q_st q_code q_hdrs q_name q_val]; rewrite Y; cbn; auto 10. }
    destruct (is_ws c); cbn [fst snd map fold_left event] in *; [split; [auto|]; rewrite ES; auto 10|].
    destruct (c =? CR); cbn [fst snd map fold_left event] in *; [destruct (EV ValLF eq_refl) as [X|(X&_)]; [exact X|congruence]|].
    destruct (c =? LF); cbn [fst snd map fold_left event] in *; [destruct (EV VFold eq_refl) as [X|(_&X)]; [exact X|congruence]|].
    split; [auto|]. cbn [to set_name q_st q_code q_hdrs q_name q_val]. repeat (split; [solve [auto]|]). left. split; [auto|].
    unfold next_sp. rewrite ES. cbn [in_piece q_st to]. rewrite Z.add_assoc. apply unrep_one. auto.
  - (* Val *)
    destruct R as (R1&R2&R3&R4&R5&R6).
    assert (EV : forall x, x = ValLF \/ x = VFold -> rel0 (to s x) (view_event v (EvValue sp (pos - sp))) (b + (pos + 1)) (b + (pos + 1))).
    { intros x X.
      assert (Y : v_value (view_event v (EvValue sp (pos - sp))) = Some (q_val s) /\ v_adj (view_event v (EvValue sp (pos - sp))) = true).
      { cbn. rewrite PU. destruct R6 as [(R6&R7)|(x0&R6&R7&R8)]; rewrite R6; cbn; rewrite R7, AD; [auto|].
        rewrite R8, Eb, Z.eqb_refl. auto. }
      destruct Y as (Y1&Y2). split; [auto|]. destruct X as [-> | ->]; cbn [to q_st q_code q_hdrs q_name q_val]; rewrite Y1; cbn; auto 10. }
    destruct (c =? CR); cbn [fst snd map fold_left event] in *; [apply EV; auto|].
    destruct (c =? LF); cbn [fst snd map fold_left event] in *; [apply EV; auto|].
    split; [auto|]. unfold next_sp. rewrite ES. cbn [in_piece]. unfold set_name at 1. cbn [q_st]. rewrite ES. cbn [set_name q_code q_hdrs q_name q_val].
    split; [auto|]. split; [auto|]. split; [exact R3|]. split; [auto|]. split; [auto|]. rewrite US.
    destruct R6 as [(R6&R7)|(x0&R6&R7&R8)]; [left; rewrite R7; auto|]. right. exists x0. rewrite app_assoc, R7. auto.
  - (* ValLF *)
    destruct (c =? LF); cbn [fst snd map fold_left event] in *; [|exfalso; eapply ND; reflexivity]. split; [auto|]. exact R.
  - (* VFold *)
    rewrite (HV eq_refl) in *. destruct R as (R1&R2&R3&R4&R5&R6).
    destruct (interpret_st s) as [X|(e&X&_)]; rewrite X in *; [|exfalso; apply (ND e); exact X]. rewrite ES in *.
    destruct (interp_hdrs s) as (I1&I2&I3).
    apply hstart_rel; auto; [lia| | |rewrite ES; auto].
    + split; [auto|]. rewrite interpret_code. split; [auto|]. eapply section_same; eauto. apply interpret_tr.
    + unfold settled, finish. rewrite R5, R6. cbn. rewrite I1, R4, R2. auto.
  - (* EndLF *)
    destruct R as (R1&R2&R3&R4). unfold end_of_headers in *. destruct (c =? LF); cbn [fst snd] in *; [|exfalso; eapply ND; reflexivity].
    unfold section in R3. destruct (q_tr s) eqn:ET; cbn [fst snd map fold_left event] in *.
    + split; [auto|]. cbn in *. right. split; [auto|]. destruct R3 as (S1&S2). fin v.
    + split; [auto|]. cbn. auto 10.
  - (* BodyN *)
    destruct R as (R1&R2&R3&R4&R5&R6). destruct (n <=? 1); cbn [fst snd map fold_left event] in *.
    + split; [auto|]. cbn in *. rewrite PU1, app_assoc, R6. right. split; [auto|]. fin v.
    + split; [auto|]. unfold next_sp. rewrite ES. cbn [in_piece to q_st add_body q_code q_hdrs q_tr q_body]. rewrite US, app_assoc, R6. auto 10.
  - (* BodyEof *)
    destruct R as (R1&R2&R3&R4&R5&R6). cbn [fst snd map fold_left] in *.
    split; [auto|]. unfold next_sp. rewrite ES. cbn [in_piece to q_st add_body q_code q_hdrs q_tr q_body]. rewrite ES, US, app_assoc, R6. auto 10.
  - (* CkStart *) destruct (hexval c); cbn [fst snd] in *; [|exfalso; eapply ND; reflexivity]. split; [auto|exact R].
  - (* CkSize *)
    destruct (hexval c) as [x|].
    + destruct (v0 <? 2 ^ 59); cbn [fst snd] in *; [|exfalso; eapply ND; reflexivity]. split; [auto|exact R].
    + destruct (c =? CR); cbn [fst snd] in *; [split; [auto|exact R]|].
      destruct (c =? 59); cbn [fst snd] in *; [|exfalso; eapply ND; reflexivity]. split; [auto|exact R].
  - (* CkExt *)
    destruct (c =? CR); cbn [fst snd] in *; [split; [auto|exact R]|].
    destruct (c =? LF); cbn [fst snd] in *; [exfalso; eapply ND; reflexivity|]. split; [auto|]. rewrite ES. exact R.
  - (* CkLF *)
    destruct (c =? LF); cbn [fst snd] in *; [|exfalso; eapply ND; reflexivity].
    destruct R as (R1&R2&R3&R4&R5&R6).
    destruct (v0 =? 0); cbn [fst snd] in *; (split; [auto|]).
    + cbn. unfold section. cbn. repeat (split; [solve [auto]|]). split; [split; [|auto]|auto].
      unfold past_headers in *. cbn. intuition discriminate.
    + cbn. unfold next_sp. rewrite ES. cbn. rewrite unrep_nil, app_nil_r. auto 10.
  - (* CkData *)
    destruct R as (R1&R2&R3&R4&R5&R6). destruct (n <=? 1); cbn [fst snd map fold_left event] in *.
    + split; [auto|]. cbn in *. rewrite PU1, app_assoc, R6. fin v.
    + split; [auto|]. unfold next_sp. rewrite ES. cbn [in_piece to q_st add_body q_code q_hdrs q_tr q_body]. rewrite US, app_assoc, R6. auto 10.
  - (* CkCR *) destruct (c =? CR); cbn [fst snd] in *; [|exfalso; eapply ND; reflexivity]. split; [auto|exact R].
  - (* CkDLF *) destruct (c =? LF); cbn [fst snd] in *; [|exfalso; eapply ND; reflexivity]. split; [auto|exact R].
  - contradiction.
Qed.

(** The piece reported when the data end. *)
Lemma rel0_flush s v b sp pos : b = v_start v -> 0 <= sp <= pos -> rel0 s v (b + sp) (b + pos) ->
  rel0 s (fold_left view_event (flush s sp pos) v) (b + pos) (b + pos).
Proof.
  intros Eb Hp R. unfold flush. destruct (Z.ltb_spec sp pos) as [L|L].
  2:{ cbn. replace (b + pos) with (b + sp) at 1 by lia. exact R. }
  assert (PU : piece v sp (pos - sp) = unrep v (b + sp) (b + pos)) by (subst b; apply piece_unrep).
  assert (NX : v_start v + sp + (pos - sp) = b + pos) by lia.
  destruct R as (AD&R).
  destruct (q_st s) eqn:ES; cbn [fold_left]; try (split; [exact AD|rewrite ES; exact R]).
  - (* Reason *) split; [exact AD|]. rewrite ES. cbn. intuition auto.
  - (* Field *)
    destruct R as (R1&R2&R3&QV&R4). destruct (field_same v sp (pos - sp)) as (F1&F2&F3&F4&F5&F6&F7).
    assert (SE : section s (view_event v (EvField sp (pos - sp)))) by (eapply section_same; eauto).
    destruct R4 as [(R4&R5)|(R4&R5&n&R6&R7&R8)].
    + destruct (fin_field v sp (pos - sp) _ R4) as (G1&G2&G3&G4&G5). rewrite PU, R5 in G2. rewrite NX in G5.
      split; [rewrite G4; auto|]. rewrite ES, F1, F2. repeat (split; [solve [auto]|]). right. repeat (split; [solve [auto]|]).
      exists (q_name s). rewrite unrep_nil, app_nil_r. auto.
    + rewrite Eb in R8. destruct (more_field v sp (pos - sp) n R6 R5 R8) as (G1&G2&G3&G4&G5). rewrite PU, R7 in G2. rewrite NX in G5.
      split; [rewrite G4; auto|]. rewrite ES, F1, F2. repeat (split; [solve [auto]|]). right. split; [congruence|]. split; [auto|].
      exists (q_name s). rewrite unrep_nil, app_nil_r. auto.
  - (* Val *)
    destruct R as (R1&R2&R3&R4&R5&R6).
    assert (Y : v_value (view_event v (EvValue sp (pos - sp))) = Some (q_val s) /\ v_adj (view_event v (EvValue sp (pos - sp))) = true).
    { cbn. rewrite PU. destruct R6 as [(R6&R7)|(x0&R6&R7&R8)]; rewrite R6; cbn; rewrite R7, AD; [auto|].
      rewrite R8, Eb, Z.eqb_refl. auto. }
    destruct Y as (Y1&Y2). split; [auto|]. rewrite ES, Y1. repeat (split; [solve [auto]|]). right. exists (q_val s). rewrite unrep_nil, app_nil_r. cbn [view_event v_next]. auto.
  - (* BodyN *) destruct R as (R1&R2&R3&R4&R5&R6). split; [auto|]. rewrite ES, unrep_nil, app_nil_r. cbn [view_event v_body]. rewrite PU, R6. fin v.
  - destruct R as (R1&R2&R3&R4&R5&R6). split; [auto|]. rewrite ES, unrep_nil, app_nil_r. cbn [view_event v_body]. rewrite PU, R6. fin v.
  - destruct R as (R1&R2&R3&R4&R5&R6). split; [auto|]. rewrite ES, unrep_nil, app_nil_r. cbn [view_event v_body]. rewrite PU, R6. fin v.
Qed.

(** The end of the headers. *)
Lemma rel0_hend nb s1 v p u a w : q_st s1 = HEnd -> rel0 s1 v u a -> (q_st (snd (after_hdrs nb s1)) = Start -> q_code (snd (after_hdrs nb s1)) <> 0) ->
  let v2 := view_event v (EvHeadersComplete p (clen_field s1) (q_close s1) (q_ka s1)) in
  rel0 (snd (after_hdrs nb s1)) (fold_left view_event (map (fun k => event (snd (after_hdrs nb s1)) k w w) (fst (after_hdrs nb s1))) v2) w w.
Proof.
  intros ES (AD&R) NC v2. rewrite ES in R. destruct R as (R1&R2&(B1&B2&B3&B4&B5)&R4&R5).
  assert (V : v_adj v2 = true /\ v_msg v2 = MsgBegun /\ v_code v2 = q_code s1 /\ settled v2 (q_hdrs s1) /\ past_headers s1 v2 /\ v_body v2 = q_body s1).
  { destruct (finish_const v) as (F1&F2&F3&F4&F5&F6&F7&F8&F9&F10). destruct R4 as (S1&S2&S3).
    unfold v2, past_headers, settled, finish, clen_field. cbn. rewrite F3, F4, F6, F7, F8, F9, S1, S2, S3, B2, B3, B4, B5, AD. cbn.
    repeat (split; [solve [auto]|]). split; [|auto]. split; [discriminate|]. auto. }
  clearbody v2. destruct V as (V1&V2&V3&V4&V5&V6).
  assert (ST : forall kd, snd (after_hdrs nb s1) = to s1 Start -> fst (after_hdrs nb s1) = kd -> kd = [KDone] ->
    rel0 (to s1 Start) (fold_left view_event (map (fun k => event (to s1 Start) k w w) kd) v2) w w).
  { intros kd E1 E2 ->. rewrite E1 in NC. split; [auto|]. cbn in *. right. split; [auto|]. clear - V2 V3 V4 V5 V6. fin v2. }
  unfold after_hdrs in *. destruct (nb || no_content (q_code s1)); [apply (ST [KDone]); auto|].
  destruct (q_chunked s1); [cbn; split; [auto|]; cbn; auto 10|].
  destruct (q_clen s1) as [n|] eqn:EC.
  - destruct (n =? 0); [apply (ST [KDone]); auto|]. cbn. split; [auto|]. cbn. rewrite unrep_nil, app_nil_r. unfold past_headers, clen_field in *. cbn. rewrite EC in *. auto 10.
  - cbn. split; [auto|]. cbn. rewrite unrep_nil, app_nil_r. unfold past_headers, clen_field in *. cbn. rewrite EC in *. auto 10.
Qed.

(** The trailer being read, if any, is the one not finished yet. *)
Definition pend (s : rst) (v : view) : Prop :=
  match q_st s with
  | Start | HStart | EndLF => q_tr s = true -> (v_name v = None <-> q_name s = [])
  | Field | VWs | Val | ValLF | VFold => q_name s <> []
  | _ => True
  end.
Definition rel (s : rst) (v : view) (u a : Z) : Prop := rel0 s v u a /\ pend s v.
Lemma interp_name s : q_name (interpret s) = q_name s.
Proof.
  unfold interpret. destruct (q_tr s); [auto|].
  destruct (ieq _ _); [destruct (match q_clen s with None => true | _ => false end); [destruct (_ && _ && _)|]; auto|];
   destruct (_ && _); [auto|]; destruct (_ && _); [auto|]; destruct (_ && _); auto.
Qed.
Lemma hstart_pend s v c sp pos : (forall e, q_st (snd (hstart s c)) <> Dead e) -> (q_tr s = true -> (v_name v = None <-> q_name s = [])) ->
  pend (snd (hstart s c)) (fold_left view_event (map (fun k => event (snd (hstart s c)) k sp pos) (fst (hstart s c))) v).
Proof.
  intros ND H. unfold hstart in *. destruct (c =? CR); [exact H|]. destruct (c =? LF).
  - unfold end_of_headers. destruct (q_tr s) eqn:Q; [|exact I]. unfold pend. cbn. rewrite Q. auto.
  - destruct (is_tchar c); [cbn; discriminate|]. cbn in ND. destruct (ND _ eq_refl).
Qed.
Lemma rel_step s v b sp pos c : b = v_start v -> 0 <= b -> 0 <= sp <= pos -> b + pos < zlen (v_stream v) -> slice (v_stream v) (b + pos) 1 = [c] ->
  (q_st s = Start -> s = rinit /\ c = 72) -> (q_st s = VFold -> is_ws c = false) -> (forall e, q_st (snd (step s c)) <> Dead e) -> (q_st (snd (step s c)) = Start -> q_code (snd (step s c)) <> 0) -> q_st s <> HEnd ->
  rel s v (b + sp) (b + pos) ->
  let ks := fst (step s c) in let s1 := snd (step s c) in
  rel s1 (fold_left view_event (map (fun k => event s1 k sp pos) ks) v) (b + next_sp s s1 ks sp pos) (b + (pos + 1)).
Proof.
  intros Eb Hb Hp Hz Hc HS HV ND NC NH (R0&P). split; [apply rel0_step; auto|]. destruct R0 as (_&R). clear Hz Hc NC.
  unfold step in *. destruct (q_st s) eqn:ES; try contradiction (NH eq_refl); unfold pend in P; rewrite ?ES in P;
    try solve [repeat match goal with |- context [if ?x then _ else _] => destruct x end; repeat match goal with |- context [match ?x with None => _ | Some _ => _ end] => destruct x end;
      unfold pend; cbn; rewrite ?ES; auto];
    try solve [destruct R as (_&_&_&_&_&(Q&_)&_); repeat match goal with |- context [if ?x then _ else _] => destruct x end; unfold pend; cbn; rewrite ?ES; cbn; congruence || exact I].
  - apply hstart_pend; auto.
  - destruct (c =? COLON); [exact P|]. destruct (is_tchar c); [|exact I]. unfold pend. cbn. rewrite ES. cbn. destruct (q_name s); discriminate.
  - rewrite (HV eq_refl) in *. destruct (interpret_st s) as [X|(e&X&_)]; rewrite X in *; [|exfalso; apply (ND e); exact X]. rewrite ES in *.
    apply hstart_pend; auto. intros _. rewrite interp_name. destruct R as (_&_&_&_&->&_). split; [discriminate|contradiction].
  - destruct (c =? LF); [|exact I]. unfold end_of_headers. destruct (q_tr s) eqn:Q; [|exact I]. unfold pend. cbn. rewrite Q. auto.
  - destruct (n <=? 1); [|exact I]. unfold pend. cbn. intros Q. destruct R as (_&_&_&_&R&_). congruence.
  - destruct (c =? LF); [|exact I]. destruct (v0 =? 0); [|exact I]. unfold pend. cbn. intros _. destruct R as (_&_&R&_&R1&_).
    destruct R as (_&_&_&_&R). split; auto.
Qed.
Lemma rel_flush s v b sp pos : b = v_start v -> 0 <= sp <= pos -> rel s v (b + sp) (b + pos) ->
  rel s (fold_left view_event (flush s sp pos) v) (b + pos) (b + pos).
Proof.
  intros Eb Hp (R&P). split; [apply rel0_flush; auto|]. unfold flush. destruct (sp <? pos); [|exact P].
  unfold pend in *. destruct (q_st s); auto.
Qed.
Lemma rel_hend nb s1 v p u a w : q_st s1 = HEnd -> rel s1 v u a -> (q_st (snd (after_hdrs nb s1)) = Start -> q_code (snd (after_hdrs nb s1)) <> 0) ->
  let v2 := view_event v (EvHeadersComplete p (clen_field s1) (q_close s1) (q_ka s1)) in
  rel (snd (after_hdrs nb s1)) (fold_left view_event (map (fun k => event (snd (after_hdrs nb s1)) k w w) (fst (after_hdrs nb s1))) v2) w w.
Proof.
  intros ES (R&P) NC v2. split; [eapply rel0_hend; eauto|]. destruct R as (_&R). rewrite ES in R. destruct R as (_&_&_&_&Q).
  unfold after_hdrs. destruct (_ || _); [unfold pend; cbn; congruence|]. destruct (q_chunked s1); [exact I|].
  destruct (q_clen s1) as [n|]; [|exact I]. destruct (n =? 0); [unfold pend; cbn; congruence|exact I].
Qed.

Lemma next_sp_range s s1 ks sp pos : 0 <= sp <= pos -> 0 <= next_sp s s1 ks sp pos <= pos + 1.
Proof. unfold next_sp. intros H. destruct ks; [destruct (in_piece _); [lia|destruct (q_st s1); lia]|lia]. Qed.

Lemma go_texec nb d : forall s v b sp pos pre, b = v_start v -> 0 <= b -> 0 <= sp <= pos ->
  v_stream v = pre ++ d -> zlen pre = b + pos -> okrun nb s d -> q_st s <> HEnd ->
  rel s v (b + sp) (b + pos) ->
  exists v', texec nb (go s d sp pos) v = (v', HPE_OK, srun nb s d) /\ v_stream v' = v_stream v /\ v_start v' = v_start v /\
    rel (srun nb s d) v' (zlen (v_stream v)) (zlen (v_stream v)).
Proof.
  induction d as [|c d IH]; intros s v b sp pos pre Eb Hb Hp HS HP OK NH R.
  - cbn [go]. rewrite texec_emit. cbn [texec srun fold_left]. eexists. split; [reflexivity|].
    destruct (view_events_const (flush s sp pos) v) as (->&->). split; [auto|]. split; [auto|].
    rewrite HS, zlen_app, zlen_nil, HP, Z.add_0_r. apply rel_flush; auto.
  - cbn [okrun] in OK. destruct OK as (O1&O2&O3&O4&O5).
    pose proof (zlen_nonneg d).
    assert (HZ : b + pos < zlen (v_stream v)) by (rewrite HS, zlen_app, zlen_cons; lia).
    assert (HC : slice (v_stream v) (b + pos) 1 = [c]).
    { rewrite HS, <- HP. rewrite slice_of_app_r by (rewrite ?zlen_cons; lia). rewrite Z.sub_diag. reflexivity. }
    assert (ND : forall e, q_st (snd (step s c)) <> Dead e).
    { intros e Q. apply (O3 e). unfold step1. rewrite Q. exact Q. }
    assert (NC : q_st (snd (step s c)) = Start -> q_code (snd (step s c)) <> 0).
    { intros Q. unfold step1 in O4. rewrite Q in O4. auto. }
    pose proof (rel_step s v b sp pos c Eb Hb Hp HZ HC O1 O2 ND NC NH R) as R1. cbn zeta in R1.
    change (srun nb s (c :: d)) with (fold_left (step1 nb) d (step1 nb s c)).
    assert (S1 : step1 nb s c = match q_st (snd (step s c)) with HEnd => snd (after_hdrs nb (snd (step s c))) | _ => snd (step s c) end) by reflexivity.
    rewrite S1 in *. clear S1. cbn [go]. destruct (step s c) as [ks s1] eqn:EST. cbn [fst snd] in *. rewrite texec_emit.
    set (v1 := fold_left view_event (map (fun k => event s1 k sp pos) ks) v) in *.
    assert (VC : v_stream v1 = v_stream v /\ v_start v1 = v_start v) by apply view_events_const. destruct VC as (C1&C2).
    assert (HS1 : v_stream v = (pre ++ [c]) ++ d) by (rewrite <- app_assoc; auto).
    assert (HP1 : zlen (pre ++ [c]) = b + (pos + 1)) by (rewrite zlen_app, zlen_cons, zlen_nil; lia).
    assert (STEP : forall s2 v2 sp2, v_stream v2 = v_stream v -> v_start v2 = v_start v -> 0 <= sp2 <= pos + 1 -> okrun nb s2 d -> q_st s2 <> HEnd ->
      rel s2 v2 (b + sp2) (b + (pos + 1)) ->
      exists v', texec nb (go s2 d sp2 (pos + 1)) v2 = (v', HPE_OK, fold_left (step1 nb) d s2) /\ v_stream v' = v_stream v /\ v_start v' = v_start v /\
        rel (fold_left (step1 nb) d s2) v' (zlen (v_stream v)) (zlen (v_stream v))).
    { intros s2 v2 sp2 E1 E2 E3 E4 E5 E6.
      destruct (IH s2 v2 b sp2 (pos + 1) (pre ++ [c])) as (v'&X1&X2&X3&X4); try lia; auto; try congruence.
      exists v'. rewrite E1 in *. rewrite E2 in *. auto. }
    destruct (q_st s1) eqn:E1; try (apply STEP; auto; [apply next_sp_range; auto|rewrite E1; discriminate]).
    + (* HEnd *)
      cbn [texec rep].
      assert (NB : match (if nb then CbNoBody else CbContinue) with CbNoBody => true | _ => false end = nb) by (destruct nb; auto).
      rewrite NB.
      pose proof (rel_hend nb s1 v1 (pos + 1) _ _ (b + (pos + 1)) E1 R1 O4) as R2. cbn zeta in R2.
      assert (EV : forall k sp0 pos0, In k (fst (after_hdrs nb s1)) -> event (snd (after_hdrs nb s1)) k sp0 pos0 = EvMessageComplete).
      { unfold after_hdrs. intros k sp0 pos0. destruct (nb || _); [cbn; intros [<-|[]]; auto|]. destruct (q_chunked s1); [cbn; tauto|].
        destruct (q_clen s1) as [n|]; [destruct (n =? 0); cbn; [intros [<-|[]]; auto|tauto]|cbn; tauto]. }
      assert (NH2 : q_st (snd (after_hdrs nb s1)) <> HEnd).
      { unfold after_hdrs. destruct (nb || _); [discriminate|]. destruct (q_chunked s1); [discriminate|].
        destruct (q_clen s1) as [n|]; [destruct (n =? 0)|]; discriminate. }
      destruct (after_hdrs nb s1) as [ks2 s2]. cbn [fst snd] in *. rewrite texec_emit.
      assert (EM : map (fun k => event s2 k (pos + 1) (pos + 1)) ks2 = map (fun k => event s2 k (b + (pos + 1)) (b + (pos + 1))) ks2).
      { apply map_ext_in. intros k Hk. rewrite !EV; auto. }
      rewrite EM. set (v2 := fold_left view_event (map (fun k => event s2 k (b + (pos + 1)) (b + (pos + 1))) ks2) (view_event v1 (EvHeadersComplete (pos + 1) (clen_field s1) (q_close s1) (q_ka s1)))) in *.
      assert (VC : v_stream v2 = v_stream v1 /\ v_start v2 = v_start v1).
      { unfold v2. destruct (view_events_const (map (fun k => event s2 k (b + (pos + 1)) (b + (pos + 1))) ks2) (view_event v1 (EvHeadersComplete (pos + 1) (clen_field s1) (q_close s1) (q_ka s1)))) as (->&->). apply view_event_const. }
      destruct VC as (C3&C4). apply STEP; auto; try congruence. lia.
    + exfalso. apply (ND e). auto.
Qed.
