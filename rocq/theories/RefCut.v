(** RefCut.v — the reference parser's answer to any data does not depend on how they are cut: it is the answer ([crun]) of a parser
    that reports every byte at once. *)
From Verif Require Import Base Lib ModelRequest ModelSend ModelResponse SpecRequest SpecSend SpecResponse RefParser RefRun SpecHttp SpecParser SpecCut.

(** ** Reports without cuts *)
Record dig := mkdig { d_msg : msg; d_code : Z; d_name : option bytes; d_value : option bytes; d_headers : list (bytes * bytes * Z);
  d_hstart : option Z; d_hend : option Z; d_h1 : option Z; d_clen : Z; d_close : bool; d_ka : bool; d_bstart : option Z; d_body : bytes; d_n0 : Z; d_x0 : Z; d_locs : list hloc }.
Definition dig_of (v : view) : dig := mkdig (v_msg v) (v_code v) (v_name v) (v_value v) (v_headers v) (v_hstart v) (option_map snd (v_hend v)) (v_h1 v) (v_clen v) (v_close v)
  (v_ka v) (v_bstart v) (v_body v) (v_n0 v) (v_x0 v) (v_locs v).
Lemma dig_same v1 v2 : dig_of v1 = dig_of v2 -> same_report v1 v2.
Proof. unfold dig_of. intros H. injection H. intros. constructor; auto. Qed.
Inductive aev := ABegin | AStatus (code : Z) | AField (o : Z) (t : bytes) | AValue (o : Z) (t : bytes) | AHdrs (p clen : Z) (close ka : bool) | ABody (o : Z) (t : bytes) | AComplete.
Definition dfin (x : dig) : dig :=
  match d_name x, d_value x with
  | Some n, Some y => mkdig (d_msg x) (d_code x) None None (d_headers x ++ [(n, y, d_code x)]) (d_hstart x) (d_hend x) (d_h1 x) (d_clen x) (d_close x) (d_ka x) (d_bstart x) (d_body x) (d_n0 x) (d_x0 x) (d_locs x ++ [((d_n0 x, zlen n), (d_x0 x, zlen y), d_code x)])
  | _, _ => x
  end.
Definition adig (x : dig) (e : aev) : dig :=
  match e with
  | ABegin => mkdig MsgBegun (d_code x) (d_name x) (d_value x) (d_headers x) (d_hstart x) (d_hend x) (d_h1 x) (d_clen x) (d_close x) (d_ka x) (d_bstart x) (d_body x) (d_n0 x) (d_x0 x) (d_locs x)
  | AStatus c => mkdig (d_msg x) c None None (d_headers x) (d_hstart x) (d_hend x) (d_h1 x) (d_clen x) (d_close x) (d_ka x) (d_bstart x) (d_body x) (d_n0 x) (d_x0 x) (d_locs x)
  | AField o t => let x := dfin x in
      mkdig (d_msg x) (d_code x) (Some (or_nil (d_name x) ++ t)) (d_value x) (d_headers x) (or_new (d_hstart x) o) (d_hend x) (d_h1 x) (d_clen x) (d_close x) (d_ka x) (d_bstart x) (d_body x) (match d_name x with None => o | Some _ => d_n0 x end) (d_x0 x) (d_locs x)
  | AValue o t => mkdig (d_msg x) (d_code x) (d_name x) (Some (or_nil (d_value x) ++ t)) (d_headers x) (d_hstart x) (d_hend x) (d_h1 x) (d_clen x) (d_close x) (d_ka x) (d_bstart x) (d_body x) (d_n0 x) (match d_value x with None => o | Some _ => d_x0 x end) (d_locs x)
  | AHdrs p cl close ka => let x := dfin x in
      mkdig (d_msg x) (d_code x) (d_name x) (d_value x) (d_headers x) (d_hstart x) (Some p) (or_new (d_h1 x) p) cl (d_close x || close) (d_ka x || ka) (d_bstart x) (d_body x) (d_n0 x) (d_x0 x) (d_locs x)
  | ABody o t => mkdig (d_msg x) (d_code x) (d_name x) (d_value x) (d_headers x) (d_hstart x) (d_hend x) (d_h1 x) (d_clen x) (d_close x) (d_ka x) (or_new (d_bstart x) o) (d_body x ++ t) (d_n0 x) (d_x0 x) (d_locs x)
  | AComplete => mkdig MsgComplete (d_code x) (d_name x) (d_value x) (d_headers x) (d_hstart x) (d_hend x) (d_h1 x) (d_clen x) (d_close x) (d_ka x) (d_bstart x) (d_body x) (d_n0 x) (d_x0 x) (d_locs x)
  end.
Definition abs (v : view) (ev : pevent) : aev :=
  match ev with
  | EvMessageBegin => ABegin
  | EvStatus _ _ c | EvStatusComplete c => AStatus c
  | EvField o l => AField (v_start v + o) (piece v o l)
  | EvValue o l => AValue (v_start v + o) (piece v o l)
  | EvHeadersComplete p cl close ka => AHdrs (v_start v + p) cl close ka
  | EvBody o l => ABody (v_start v + o) (piece v o l)
  | EvMessageComplete => AComplete
  end.
Lemma dig_fin v : dig_of (finish v) = dfin (dig_of v).
Proof. unfold finish, dfin. cbn [dig_of d_name d_value]. destruct (v_name v), (v_value v); reflexivity. Qed.
Lemma dig_event v ev : dig_of (view_event v ev) = adig (dig_of v) (abs v ev).
Proof.
  destruct ev; try reflexivity; cbn [abs adig].
  - rewrite <- dig_fin. destruct (finish_const v) as (F1&F2&_). cbn [view_event]. unfold dig_of at 1. cbn. unfold piece. rewrite F1, F2. reflexivity.
  - rewrite <- dig_fin. destruct (finish_const v) as (F1&F2&_). cbn [view_event]. unfold dig_of at 1. cbn. rewrite F2. reflexivity.
Qed.
Lemma dig_events evs : forall v, dig_of (fold_left view_event evs v) = fold_left adig (map (abs v) evs) (dig_of v).
Proof.
  induction evs as [|e evs IH]; intros v; [reflexivity|]. cbn [fold_left map]. rewrite IH, dig_event.
  f_equal. apply map_ext. intros ev. destruct (view_event_const v e) as (E1&E2). unfold abs, piece. rewrite E1, E2. reflexivity.
Qed.
(** What both parsers have said when one of them finds an error. *)
Definition sofar (x : dig) : dig := let y := dfin x in
  mkdig (d_msg y) (d_code y) None None (d_headers y) None (d_hend y) (d_h1 y) (d_clen y) (d_close y) (d_ka y) (d_bstart y) (d_body y) 0 0 (d_locs y).
Lemma sofar_same v1 v2 : sofar (dig_of v1) = sofar (dig_of v2) -> same_so_far v1 v2.
Proof.
  unfold sofar. rewrite <- !dig_fin. destruct (finish_const v1) as (_&_&A3&A4&A5&A6&A7&A8&_&A10). destruct (finish_const v2) as (_&_&B3&B4&B5&B6&B7&B8&_&B10).
  assert (H1 : forall v, v_h1 (finish v) = v_h1 v /\ v_bstart (finish v) = v_bstart v) by (intros v; unfold finish; destruct (v_name v), (v_value v); auto).
  destruct (H1 v1) as (C1&C2), (H1 v2) as (D1&D2).
  cbn. rewrite A3, A4, A5, A6, A7, A8, A10, C1, C2, B3, B4, B5, B6, B7, B8, B10, D1, D2. intros H. injection H. intros. constructor; auto.
Qed.

(** ** Every byte reported at once *)
Definition kaev (s1 : rst) (a c : Z) (k : kind) : aev :=
  match k with
  | KBegin => ABegin
  | KStatus | KStatusDone => AStatus (q_code s1)
  | KField => AField a []
  | KValue | KEmptyValue => AValue a []
  | KBody => ABody a [c]
  | KDone => AComplete
  end.
(** The piece [t] at [u], reported in the state [s]. *)
Definition pev (s : rst) (u : Z) (t : bytes) : list aev :=
  match t with
  | [] => []
  | _ => match q_st s with
         | Reason => [AStatus (q_code s)]
         | Field => [AField u t]
         | Val => [AValue u t]
         | BodyN _ | BodyEof | CkData _ => [ABody u t]
         | _ => []
         end
  end.
Definition begins_piece (x : rstate) : bool := match x with Field | Val => true | _ => false end.
Definition cstep (nb : bool) (s : rst) (X : dig) (a c : Z) : rst * dig :=
  let '(ks, s1) := step s c in
  let X1 := fold_left adig (map (kaev s1 a c) ks) X in
  match q_st s1 with
  | HEnd =>
      let X2 := adig X1 (AHdrs (a + 1) (clen_field s1) (q_close s1) (q_ka s1)) in
      let '(ks2, s2) := after_hdrs nb s1 in
      (s2, fold_left adig (map (kaev s2 (a + 1) 0) ks2) X2)
  | _ => (s1, match ks with [] => if in_piece (q_st s) || begins_piece (q_st s1) then fold_left adig (pev s1 a [c]) X1 else X1 | _ => X1 end)
  end.
Fixpoint crun (nb : bool) (s : rst) (X : dig) (a : Z) (d : bytes) : (rst * dig) + (errno * dig) :=
  match d with
  | [] => inl (s, X)
  | c :: d' =>
      let '(s1, X1) := cstep nb s X a c in
      match q_st s1 with Dead e => inr (e, X) | _ => crun nb s1 X1 (a + 1) d' end
  end.

(** ** Pieces put together *)
Definition wf (x : dig) : Prop := d_name x = None -> d_value x = None.
Definition J (s : rst) (x : dig) : Prop := wf x /\ match q_st s with VWs | Val | ValLF | VFold => d_name x <> None | _ => True end.
Lemma dfin_value x : wf x -> d_value (dfin x) = None.
Proof. unfold wf, dfin. destruct (d_name x) eqn:E1, (d_value x) eqn:E2; cbn; auto. Qed.
Lemma field_field x o o' a b : wf x -> adig (adig x (AField o a)) (AField o' b) = adig x (AField o (a ++ b)).
Proof.
  intros W. pose proof (dfin_value x W) as V. cbn [adig]. set (y := dfin x) in *. unfold dfin. cbn. rewrite V. cbn.
  rewrite <- app_assoc. destruct (d_hstart y); reflexivity.
Qed.
Lemma value_value x o o' a b : adig (adig x (AValue o a)) (AValue o' b) = adig x (AValue o (a ++ b)).
Proof. cbn. rewrite <- app_assoc. reflexivity. Qed.
Lemma body_body x o o' a b : adig (adig x (ABody o a)) (ABody o' b) = adig x (ABody o (a ++ b)).
Proof. cbn. rewrite <- app_assoc. destruct (d_bstart x); reflexivity. Qed.
Lemma wf_field x o t : wf (adig x (AField o t)).
Proof. intros H. discriminate H. Qed.
Lemma wf_hdrs x p cl a b : wf x -> wf (adig x (AHdrs p cl a b)).
Proof. intros W H. cbn in *. apply dfin_value. auto. Qed.
Lemma sofar_field x o t : wf x -> sofar (adig x (AField o t)) = sofar x.
Proof.
  intros W. pose proof (dfin_value x W) as V. unfold sofar. cbn [adig]. set (y := dfin x) in *. unfold dfin. cbn. rewrite V. reflexivity.
Qed.

(** ** One byte *)
Lemma step_dead s c e : q_st (snd (step s c)) = Dead e -> q_st s = Dead e \/ (goes_on e = false /\ fst (step s c) = [] /\ (in_piece (q_st s) = true -> q_st s = Field)).
Proof.
  unfold step.
  assert (HS : forall s, q_st (snd (hstart s c)) = Dead e -> goes_on e = false /\ fst (hstart s c) = []).
  { intros s0. unfold hstart, end_of_headers. destruct (c =? CR); [discriminate|]. destruct (c =? LF); [destruct (q_tr s0); discriminate|]. destruct (is_tchar c); [discriminate|]. intros Q. injection Q as <-. auto. }
  destruct (q_st s) eqn:ES; cbn [in_piece];
    repeat match goal with
    | |- context [if ?b then _ else _] => let Q := fresh in destruct b eqn:Q; cbn [fst snd to set_name set_code add_body set_tr q_st]
    | |- context [match hexval c with _ => _ end] => destruct (hexval c); cbn [fst snd to q_st]
    end; try discriminate; try (intros Q; injection Q as <-; right; split; [reflexivity|split; [reflexivity|congruence]]); try (rewrite ES; discriminate); try (cbn; rewrite ?ES; discriminate).
  - intros Q. right. destruct (HS _ Q). split; [auto|split; [auto|discriminate]].
  - destruct (interpret_st s) as [Q|(e'&Q&Q1&_)].
    + rewrite Q, ES. intros H0. right. destruct (HS _ H0). split; [auto|split; [auto|discriminate]].
    + rewrite Q. cbn [fst snd]. rewrite Q. intros Q2. injection Q2 as <-. right. split; [auto|split; [auto|discriminate]].
  - unfold end_of_headers. destruct (q_tr s); discriminate.
  - cbn [snd]. rewrite ES. auto.
Qed.

Lemma fold_snoc {A C} (f : A -> C -> A) l x a : fold_left f (l ++ [x]) a = f (fold_left f l a) x.
Proof. rewrite fold_left_app. reflexivity. Qed.

(** [T]: the bytes read but not reported. *)
Definition told (s : rst) (x : dig) (u : Z) (T : bytes) : dig := fold_left adig (pev s u T) x.
Lemma told_nil s x u : told s x u [] = x.
Proof. reflexivity. Qed.
Lemma told_out s x u T : in_piece (q_st s) = false -> told s x u T = x.
Proof. unfold told, pev. destruct T; [auto|]. destruct (q_st s); cbn; auto; discriminate. Qed.
Lemma told_same s s' x u T : q_st s' = q_st s -> q_code s' = q_code s -> told s' x u T = told s x u T.
Proof. unfold told, pev. intros -> ->. reflexivity. Qed.

(** One byte in the middle of a call; [T]: what was read and not reported before it, beginning at [u]. *)
Lemma hstart_dig s x c a : wf x -> (forall e, q_st (snd (hstart s c)) <> Dead e) ->
  let ks := fst (hstart s c) in let s1 := snd (hstart s c) in
  J s1 (fold_left adig (map (kaev s1 a c) ks) x) /\ (ks = [] \/ ks = [KDone]) /\ (in_piece (q_st s1) = true -> q_st s1 = Field).
Proof.
  intros W ND. unfold hstart, end_of_headers in *. destruct (c =? CR); cbn; [split; [split; [auto|exact I]|split; [auto|discriminate]]|].
  destruct (c =? LF); cbn. { destruct (q_tr s); cbn; (split; [split; [auto|exact I]|split; [auto|discriminate]]). }
  destruct (is_tchar c); cbn in *; [split; [split; [auto|exact I]|auto]|]. exfalso. eapply ND. reflexivity.
Qed.

Definition kev (s1 : rst) (u a : Z) (T : bytes) (c : Z) (k : kind) : aev :=
  match k with
  | KBegin => ABegin
  | KStatus | KStatusDone => AStatus (q_code s1)
  | KField => AField u T
  | KValue => AValue u T
  | KEmptyValue => AValue a []
  | KBody => ABody u (T ++ [c])
  | KDone => AComplete
  end.
Definition next_u (s s1 : rst) (ks : list kind) (u a : Z) (T : bytes) (c : Z) : Z * bytes :=
  match ks with
  | [] => if in_piece (q_st s) then (u, T ++ [c]) else if begins_piece (q_st s1) then (a, [c]) else (a + 1, [])
  | _ => (a + 1, [])
  end.
Definition step_ok (s : rst) (c : Z) (ks : list kind) (s1 : rst) (x : dig) (u a : Z) (T : bytes) : Prop :=
  let x1 := fold_left adig (map (kev s1 u a T c) ks) x in
  let X1 := fold_left adig (map (kaev s1 a c) ks) (told s x u T) in
  J s1 x1 /\ (q_st s1 = HEnd -> X1 = x1) /\
  (q_st s1 <> HEnd ->
     match ks with [] => if in_piece (q_st s) || begins_piece (q_st s1) then told s1 X1 a [c] else X1 | _ => X1 end =
     told s1 x1 (fst (next_u s s1 ks u a T c)) (snd (next_u s s1 ks u a T c))).

(** Outside a piece, reporting nothing about one. *)
Lemma step_plain s c ks s1 x u a T : in_piece (q_st s) = false -> J s1 (fold_left adig (map (kaev s1 a c) ks) x) ->
  Forall (fun k => match k with KField | KValue | KBody => False | _ => True end) ks ->
  step_ok s c ks s1 x u a T.
Proof.
  intros IP HJ HK. unfold step_ok. rewrite (told_out s) by auto.
  assert (E : map (kev s1 u a T c) ks = map (kaev s1 a c) ks).
  { clear HJ. induction HK as [|k ks H1 H2 IH]; [reflexivity|]. cbn [map]. rewrite IH. f_equal. destruct k; cbn; tauto || reflexivity. }
  rewrite E. split; [auto|]. split; [auto|]. intros NH. rewrite IP. cbn [orb]. unfold next_u. rewrite IP.
  destruct ks; [|reflexivity]. destruct (begins_piece (q_st s1)); reflexivity.
Qed.
(** Going on with a piece. *)
Lemma step_piece s c s1 x u a T : in_piece (q_st s) = true -> q_st s1 <> HEnd -> J s1 x ->
  told s1 (told s x u T) a [c] = told s1 x u (T ++ [c]) -> step_ok s c [] s1 x u a T.
Proof.
  intros IP NH HJ HT. unfold step_ok. cbn [map fold_left]. split; [auto|]. split; [tauto|]. intros _. unfold next_u. rewrite IP. exact HT.
Qed.
Ltac plain ES W := apply step_plain; [rewrite ES; reflexivity|split; [first [exact W|exact (fun _ => eq_refl)]|exact I]|repeat constructor].
Lemma step_step s c x u a T : a = u + zlen T -> J s x -> q_st s <> HEnd -> (forall e, q_st s <> Dead e) -> (forall e, q_st (snd (step s c)) <> Dead e) ->
  step_ok s c (fst (step s c)) (snd (step s c)) x u a T.
Proof.
  intros EA (W&NM) NH NDs ND. assert (EA0 : T = [] -> a = u) by (intros ->; change (zlen (@nil Z)) with 0 in EA; lia).
  unfold step in *. destruct (q_st s) eqn:ES; try contradiction (NH eq_refl); try (exfalso; eapply NDs; reflexivity).
  - (* Start *) destruct ((c =? CR) || (c =? LF)); cbn [fst snd] in *; [apply step_plain; [rewrite ES; auto|split; [auto|rewrite ES; exact I]|auto]|].
    destruct (c =? 72); cbn [fst snd] in *; [|exfalso; eapply ND; reflexivity]. plain ES W.
  - destruct (c =? nth i VERSION 0); cbn [fst snd] in *; [|exfalso; eapply ND; reflexivity]. apply step_plain; [rewrite ES; auto|split; [exact W|destruct (Nat.eqb i 6); exact I]|repeat constructor].
  - destruct ((c =? 48) || (c =? 49)); cbn [fst snd] in *; [|exfalso; eapply ND; reflexivity]. plain ES W.
  - destruct (c =? SPACE); cbn [fst snd] in *; [|exfalso; eapply ND; reflexivity]. plain ES W.
  - destruct (is_digit c); cbn [fst snd] in *; [|exfalso; eapply ND; reflexivity].
    destruct (Nat.leb 2 k); cbn [fst snd] in *; plain ES W.
  - destruct (c =? SPACE); cbn [fst snd] in *; [plain ES W|].
    destruct (c =? CR); cbn [fst snd] in *; [plain ES W|].
    destruct (c =? LF); cbn [fst snd] in *; [|exfalso; eapply ND; reflexivity]. plain ES W.
  - (* Reason *)
    assert (TS : forall s1, q_code s1 = q_code s -> adig (told s x u T) (AStatus (q_code s1)) = adig x (AStatus (q_code s))) by (intros s1 ->; unfold told, pev; rewrite ES; destruct T; auto).
    destruct (c =? CR); cbn [fst snd] in *.
    { unfold step_ok. cbn [map fold_left kev kaev]. split; [split; [exact (fun _ => eq_refl)|exact I]|]. split; [discriminate|]. intros _. rewrite TS; reflexivity. }
    destruct (c =? LF); cbn [fst snd] in *.
    { unfold step_ok. cbn [map fold_left kev kaev]. split; [split; [exact (fun _ => eq_refl)|exact I]|]. split; [discriminate|]. intros _. rewrite TS; reflexivity. }
    apply step_piece; [rewrite ES; auto|congruence|split; [auto|rewrite ES; exact I]|].
    unfold told, pev. rewrite ES. destruct T; reflexivity.
  - destruct (c =? LF); cbn [fst snd] in *; [|exfalso; eapply ND; reflexivity]. plain ES W.
  - (* HStart *) destruct (hstart_dig s x c a W ND) as (H1&H2&H3). apply step_plain; [rewrite ES; auto|exact H1|]. destruct H2 as [-> | ->]; repeat constructor.
  - (* Field *)
    assert (TF : forall b, adig (told s x u T) (AField a b) = match T with [] => adig x (AField a b) | _ => adig x (AField u (T ++ b)) end).
    { intros b. unfold told, pev. rewrite ES. destruct T; [auto|]. cbn [fold_left]. apply field_field. auto. }
    destruct (c =? COLON); cbn [fst snd] in *.
    { unfold step_ok. cbn [map fold_left kev kaev]. split; [split; [discriminate|discriminate]|]. split; [discriminate|]. intros _. cbn [next_u fst snd]. rewrite told_nil, TF, app_nil_r.
      destruct T; [rewrite EA0 by auto|]; reflexivity. }
    destruct (is_tchar c); cbn [fst snd] in *; [|exfalso; eapply ND; reflexivity].
    apply step_piece; [rewrite ES; auto|cbn; congruence|split; [auto|cbn [set_name q_st]; rewrite ES; exact I]|].
    unfold told at 1 3, pev. cbn [set_name q_st]. rewrite ES. cbn [fold_left]. rewrite TF. destruct T; [rewrite EA0 by auto|]; reflexivity.
  - (* VWs *)
    destruct (is_ws c); cbn [fst snd] in *; [apply step_plain; [rewrite ES; auto|split; [auto|rewrite ES; exact NM]|auto]|].
    destruct (c =? CR); cbn [fst snd] in *; [apply step_plain; [rewrite ES; auto|split; [intros Q; cbn in Q; congruence|exact NM]|repeat constructor]|].
    destruct (c =? LF); cbn [fst snd] in *; [apply step_plain; [rewrite ES; auto|split; [intros Q; cbn in Q; congruence|exact NM]|repeat constructor]|].
    apply step_plain; [rewrite ES; auto|split; [exact W|exact NM]|auto].
  - (* Val *)
    assert (TF : forall b, adig (told s x u T) (AValue a b) = adig x (AValue u (T ++ b))).
    { intros b. unfold told, pev. rewrite ES. destruct T; [rewrite EA0 by auto; auto|]. cbn [fold_left]. apply value_value. }
    destruct (c =? CR); cbn [fst snd] in *.
    { unfold step_ok. cbn [map fold_left kev kaev]. split; [split; [intros Q; cbn in Q; congruence|exact NM]|]. split; [discriminate|]. intros _. rewrite TF, app_nil_r. reflexivity. }
    destruct (c =? LF); cbn [fst snd] in *.
    { unfold step_ok. cbn [map fold_left kev kaev]. split; [split; [intros Q; cbn in Q; congruence|exact NM]|]. split; [discriminate|]. intros _. rewrite TF, app_nil_r. reflexivity. }
    apply step_piece; [rewrite ES; auto|cbn; congruence|split; [auto|cbn [set_name q_st]; rewrite ES; exact NM]|].
    unfold told at 1 3, pev. cbn [set_name q_st]. rewrite ES. cbn [fold_left]. rewrite TF. destruct (T ++ [c]) eqn:Q; [destruct T; discriminate|reflexivity].
  - (* ValLF *) destruct (c =? LF); cbn [fst snd] in *; [|exfalso; eapply ND; reflexivity]. apply step_plain; [rewrite ES; auto|split; [exact W|exact NM]|auto].
  - (* VFold *)
    destruct (is_ws c); cbn [fst snd] in *; [apply step_plain; [rewrite ES; auto|split; [exact W|exact NM]|auto]|].
    destruct (interpret_st s) as [Q|(e'&Q&Q1&_)].
    + rewrite Q, ES in *. destruct (hstart_dig (interpret s) x c a W ND) as (H1&H2&H3). apply step_plain; [rewrite ES; auto|exact H1|]. destruct H2 as [-> | ->]; repeat constructor.
    + exfalso. rewrite Q in ND. cbn [snd] in ND. eapply ND. exact Q.
  - (* EndLF *)
    destruct (c =? LF); cbn [fst snd] in *; [|exfalso; eapply ND; reflexivity]. unfold end_of_headers. destruct (q_tr s); cbn [fst snd]; plain ES W.
  - (* BodyN *)
    assert (TF : forall b, adig (told s x u T) (ABody a b) = adig x (ABody u (T ++ b))).
    { intros b. unfold told, pev. rewrite ES. destruct T; [rewrite EA0 by auto; auto|]. cbn [fold_left]. apply body_body. }
    destruct (n <=? 1); cbn [fst snd] in *.
    { unfold step_ok. cbn [map fold_left kev kaev]. split; [split; [exact W|exact I]|]. split; [discriminate|]. intros _. rewrite TF. reflexivity. }
    apply step_piece; [rewrite ES; auto|cbn; congruence|split; [auto|exact I]|].
    unfold told at 1 3, pev. cbn [to q_st]. cbn [fold_left]. rewrite TF. destruct (T ++ [c]) eqn:Q; [destruct T; discriminate|reflexivity].
  - (* BodyEof *)
    assert (TF : forall b, adig (told s x u T) (ABody a b) = adig x (ABody u (T ++ b))).
    { intros b. unfold told, pev. rewrite ES. destruct T; [rewrite EA0 by auto; auto|]. cbn [fold_left]. apply body_body. }
    apply step_piece; [rewrite ES; auto|cbn; congruence|split; [auto|cbn; rewrite ES; exact I]|].
    unfold told at 1 3, pev. cbn [fst snd add_body q_st]. rewrite ES. cbn [fold_left]. rewrite TF. destruct (T ++ [c]) eqn:Q; [destruct T; discriminate|reflexivity].
  - destruct (hexval c); cbn [fst snd] in *; [|exfalso; eapply ND; reflexivity]. plain ES W.
  - destruct (hexval c); cbn [fst snd] in *.
    + destruct (v <? 2 ^ 59); cbn [fst snd] in *; [|exfalso; eapply ND; reflexivity]. plain ES W.
    + destruct (c =? CR); cbn [fst snd] in *; [plain ES W|]. destruct (c =? 59); cbn [fst snd] in *; [|exfalso; eapply ND; reflexivity]. plain ES W.
  - destruct (c =? CR); cbn [fst snd] in *; [plain ES W|]. destruct (c =? LF); cbn [fst snd] in *; [exfalso; eapply ND; reflexivity|]. apply step_plain; [rewrite ES; auto|split; [auto|rewrite ES; exact I]|auto].
  - destruct (c =? LF); cbn [fst snd] in *; [|exfalso; eapply ND; reflexivity]. destruct (v =? 0); cbn [fst snd] in *; plain ES W.
  - (* CkData *)
    assert (TF : forall b, adig (told s x u T) (ABody a b) = adig x (ABody u (T ++ b))).
    { intros b. unfold told, pev. rewrite ES. destruct T; [rewrite EA0 by auto; auto|]. cbn [fold_left]. apply body_body. }
    destruct (n <=? 1); cbn [fst snd] in *.
    { unfold step_ok. cbn [map fold_left kev kaev]. split; [split; [exact W|exact I]|]. split; [discriminate|]. intros _. rewrite TF. reflexivity. }
    apply step_piece; [rewrite ES; auto|cbn; congruence|split; [auto|exact I]|].
    unfold told at 1 3, pev. cbn [to q_st]. cbn [fold_left]. rewrite TF. destruct (T ++ [c]) eqn:Q; [destruct T; discriminate|reflexivity].
  - destruct (c =? CR); cbn [fst snd] in *; [|exfalso; eapply ND; reflexivity]. plain ES W.
  - destruct (c =? LF); cbn [fst snd] in *; [|exfalso; eapply ND; reflexivity]. plain ES W.
Qed.

(** ** A call *)
Lemma told_J s x u T : J s x -> J s (told s x u T).
Proof.
  intros (W&N). unfold told, pev. destruct T; [split; auto|]. destruct (q_st s) eqn:ES; cbn [fold_left]; try (split; [auto|rewrite ES; auto]).
  - intros _; reflexivity.
  - discriminate.
  - intros Q. cbn in Q. congruence.
Qed.
Lemma flush_pev v s sp pos b : b = v_start v -> 0 <= b -> 0 <= sp <= pos -> b + pos <= zlen (v_stream v) ->
  map (abs v) (flush s sp pos) = pev s (b + sp) (unrep v (b + sp) (b + pos)).
Proof.
  intros -> Hb Hp Hz. unfold flush, pev. assert (L : zlen (unrep v (v_start v + sp) (v_start v + pos)) = pos - sp) by (unfold unrep; rewrite slice_len; lia).
  destruct (Z.ltb_spec sp pos) as [Q|Q].
  - destruct (unrep v (v_start v + sp) (v_start v + pos)) eqn:EU; [change (zlen (@nil Z)) with 0 in L; lia|]. rewrite <- EU.
    destruct (q_st s); cbn [map abs]; rewrite ?piece_unrep; reflexivity.
  - destruct (unrep v (v_start v + sp) (v_start v + pos)); [reflexivity|]. rewrite zlen_cons in L. pose proof (zlen_nonneg b). lia.
Qed.
Lemma after_hdrs_not nb s : q_st (snd (after_hdrs nb s)) <> HEnd /\ (forall e, q_st (snd (after_hdrs nb s)) <> Dead e) /\ (forall x, wf x -> forall a, J (snd (after_hdrs nb s)) (fold_left adig (map (kaev (snd (after_hdrs nb s)) a 0) (fst (after_hdrs nb s))) x)) /\
  Forall (fun k => match k with KDone => True | _ => False end) (fst (after_hdrs nb s)).
Proof.
  unfold after_hdrs. destruct (nb || no_content (q_code s)); cbn; [|destruct (q_chunked s); cbn; [|destruct (q_clen s) as [n|]; cbn; [destruct (n =? 0); cbn|]]];
    (split; [discriminate|]); (split; [discriminate|]); (split; [intros x W a; split; [exact W|exact I]|repeat constructor]).
Qed.
Lemma go_dig nb d : forall s v sp pos, let b := v_start v in 0 <= b -> 0 <= sp <= pos ->
  slice (v_stream v) (b + pos) (zlen d) = d -> b + pos + zlen d = zlen (v_stream v) ->
  q_st s <> HEnd -> (forall e, q_st s <> Dead e) -> J s (dig_of v) ->
  let T := unrep v (b + sp) (b + pos) in let X := told s (dig_of v) (b + sp) T in
  let '(v', e, s') := texec nb (go s d sp pos) v in
  match crun nb s X (b + pos) d with
  | inl (s2, X2) => e = HPE_OK /\ s' = s2 /\ dig_of v' = X2 /\ J s' X2 /\ q_st s' <> HEnd /\ (forall e, q_st s' <> Dead e)
  | inr (e2, X2) => e = e2 /\ goes_on e2 = false /\ sofar (dig_of v') = sofar X2
  end.
Proof.
  induction d as [|c d IH]; intros s v sp pos b Hb Hp HD HZ NH NDs HJ T X.
  - change (zlen (@nil Z)) with 0 in HZ. cbn [go crun]. rewrite texec_emit. cbn [texec]. rewrite dig_events, (flush_pev v s sp pos b); auto; [|lia].
    split; [auto|]. split; [auto|]. split; [auto|]. split; [apply told_J; auto|auto].
  - assert (LC : zlen (c :: d) = 1 + zlen d) by (rewrite zlen_cons; lia). pose proof (zlen_nonneg d).
    assert (C1 : slice (v_stream v) (b + pos) 1 = [c]).
    { rewrite LC in HD. rewrite slice_app in HD by lia.
      assert (L1 : zlen (slice (v_stream v) (b + pos) 1) = 1) by (rewrite slice_len; lia).
      destruct (slice (v_stream v) (b + pos) 1) as [|y [|z l]]; [discriminate|injection HD as -> _; auto|]. exfalso. rewrite !zlen_cons in L1. pose proof (zlen_nonneg l). lia. }
    assert (D1 : slice (v_stream v) (b + (pos + 1)) (zlen d) = d).
    { rewrite LC in HD. rewrite slice_app in HD by lia. rewrite C1 in HD. injection HD as HD. rewrite Z.add_assoc. exact HD. }
    cbn [go crun]. unfold cstep.
    assert (LT : zlen T = pos - sp) by (unfold T, unrep; rewrite slice_len by lia; lia).
    pose proof (step_step s c (dig_of v) (b + sp) (b + pos) T ltac:(lia) HJ NH NDs) as ST.
    pose proof (step_dead s c) as SD.
    destruct (step s c) as [ks s1]. cbn [fst snd] in *. rewrite texec_emit.
    set (v1 := fold_left view_event (map (fun k => event s1 k sp pos) ks) v).
    destruct (view_events_const (map (fun k => event s1 k sp pos) ks) v) as (VS&VT). fold v1 in VS, VT.
    assert (DV : dig_of v1 = fold_left adig (map (kev s1 (b + sp) (b + pos) T c) ks) (dig_of v)).
    { unfold v1. rewrite dig_events, map_map. f_equal. apply map_ext. intros k. unfold T. destruct k; cbn [event abs kev]; fold b; rewrite ?piece_unrep; try reflexivity.
      fold b. f_equal. rewrite Z.add_assoc. apply unrep_snoc; auto; lia. }
    assert (DC : (exists e, q_st s1 = Dead e) \/ q_st s1 = HEnd \/ (q_st s1 <> HEnd /\ forall e, q_st s1 <> Dead e)).
    { destruct (q_st s1); eauto; right; right; (split; [discriminate|discriminate]). }
    destruct DC as [(e&DE)|[HE|(NH1&ND1)]].
    + (* an error *)
      rewrite DE. cbn [texec]. destruct (SD e DE) as [Q|(GE&->&QF)]; [destruct (NDs _ Q)|].
      rewrite DE. split; [auto|]. split; [auto|]. unfold v1. cbn [map fold_left]. unfold X, told, pev.
      destruct T; [reflexivity|]. destruct (q_st s) eqn:ES; try reflexivity; try (discriminate (QF eq_refl)).
      cbn [fold_left]. rewrite sofar_field; [reflexivity|apply HJ].
    + (* the end of the headers *)
      rewrite HE. destruct (ST ltac:(intros e; congruence)) as (J1&X1&_). specialize (X1 HE). fold X in X1. rewrite X1.
      cbn [texec rep]. set (v2 := view_event v1 _).
      assert (RP : match (if nb then CbNoBody else CbContinue) with CbNoBody => true | _ => false end = nb) by (destruct nb; auto). rewrite RP.
      destruct (after_hdrs_not nb s1) as (A1&A2&A3&A4). destruct (after_hdrs nb s1) as [ks2 s2]. cbn [fst snd] in *. rewrite texec_emit.
      set (v3 := fold_left view_event _ v2).
      destruct (view_event_const v1 (EvHeadersComplete (pos + 1) (clen_field s1) (q_close s1) (q_ka s1))) as (VS2&VT2). fold v2 in VS2, VT2.
      destruct (view_events_const (map (fun k => event s2 k (pos + 1) (pos + 1)) ks2) v2) as (VS3&VT3). fold v3 in VS3, VT3.
      assert (D2 : dig_of v2 = adig (dig_of v1) (AHdrs (b + pos + 1) (clen_field s1) (q_close s1) (q_ka s1))).
      { unfold v2. rewrite dig_event. cbn [abs]. rewrite VT. fold b. rewrite Z.add_assoc. reflexivity. }
      assert (D3 : dig_of v3 = fold_left adig (map (kaev s2 (b + pos + 1) 0) ks2) (dig_of v2)).
      { unfold v3. rewrite dig_events, map_map. f_equal. apply map_ext_in. intros k Hk. rewrite Forall_forall in A4. specialize (A4 k Hk). destruct k; try (destruct A4; fail); reflexivity. }
      assert (W2 : wf (dig_of v2)) by (rewrite D2; apply wf_hdrs; rewrite DV; apply J1).
      specialize (IH s2 v3 (pos + 1) (pos + 1)). cbn zeta in IH.
      assert (E3 : v_start v3 = b /\ v_stream v3 = v_stream v) by (split; [rewrite VT3, VT2; exact VT|rewrite VS3, VS2; exact VS]). destruct E3 as (E3&E4). rewrite E3, E4 in IH.
      specialize (IH Hb ltac:(lia) D1 ltac:(lia) A1 A2 ltac:(rewrite D3; apply A3; auto)).
      rewrite unrep_nil, told_nil in IH. rewrite D3, D2, DV in IH. rewrite Z.add_assoc in IH.
      destruct (q_st s2) eqn:E2; try (destruct (A2 _ eq_refl)); try congruence; exact IH.
    + (* another byte *)
      destruct (ST ND1) as (J1&_&X1). specialize (X1 NH1). fold X in X1.
      assert (EG : forall (A : Type) (fd : errno -> A) h o, match q_st s1 with Dead e => fd e | HEnd => h | _ => o end = o) by (intros; destruct (q_st s1); congruence).
      rewrite EG.
      assert (NU : next_u s s1 ks (b + sp) (b + pos) T c = (b + next_sp s s1 ks sp pos, unrep v1 (b + next_sp s s1 ks sp pos) (b + (pos + 1))) /\ 0 <= next_sp s s1 ks sp pos <= pos + 1).
      { rewrite (unrep_eq v1 v) by auto. unfold next_u, next_sp. destruct ks; [|split; [rewrite unrep_nil; f_equal; lia|lia]].
        destruct (in_piece (q_st s)).
        { split; [|lia]. rewrite (Z.add_assoc b pos 1). rewrite (unrep_snoc v (b + sp) (b + pos) c); auto; lia. }
        assert (Q1 : unrep v (b + pos) (b + (pos + 1)) = [c]) by (rewrite Z.add_assoc; apply unrep_one; auto).
        destruct (q_st s1); cbn [begins_piece]; (split; [rewrite ?Q1, ?unrep_nil; f_equal; lia|lia]). }
      destruct NU as (NU&NP). rewrite NU in X1. cbn [fst snd] in X1. rewrite <- DV in X1.
      specialize (IH s1 v1 (next_sp s s1 ks sp pos) (pos + 1)). cbn zeta in IH. rewrite VT, VS in IH. fold b in IH.
      specialize (IH Hb NP D1 ltac:(lia) NH1 ND1 ltac:(rewrite DV; exact J1)). rewrite <- X1 in IH. rewrite Z.add_assoc in IH.
      assert (EG2 : forall (A : Type) (h o : A), match q_st s1 with HEnd => h | _ => o end = o) by (intros; destruct (q_st s1); congruence).
      rewrite EG2.
      assert (EG3 : forall (A : Type) (fd : errno -> A) o, match q_st s1 with Dead e => fd e | _ => o end = o) by (intros; destruct (q_st s1); congruence).
      rewrite EG3. exact IH.
Qed.

(** ** Any way of cutting *)
Lemma crun_app nb b : forall a s X p, crun nb s X p (a ++ b) = match crun nb s X p a with inl (s1, X1) => crun nb s1 X1 (p + zlen a) b | inr r => inr r end.
Proof.
  induction a as [|c a IH]; intros s X p; cbn [app crun]; [rewrite Z.add_0_r; reflexivity|].
  destruct (cstep nb s X p c) as [s1 X1]. replace (p + zlen (c :: a)) with (p + 1 + zlen a) by (rewrite zlen_cons; lia).
  destruct (q_st s1); try apply IH. reflexivity.
Qed.
Lemma texec_reading nb {S} (t : ptree S) : forall v, reading nb t v = texec nb t v.
Proof. induction t as [e s|ev k IH]; intros v; cbn [reading texec]; [auto|]. rewrite IH. reflexivity. Qed.
Definition calm (s : rst) : Prop := q_st s <> HEnd /\ forall e, q_st s <> Dead e.
Lemma call_crun nb s v d v' e s' : d <> [] -> calm s -> J s (dig_of v) -> reading nb (rexec s d) (given v d) = (v', e, s') ->
  match crun nb s (dig_of v) (zlen (v_stream v)) d with
  | inl (s2, X2) => e = HPE_OK /\ s' = s2 /\ dig_of v' = X2 /\ J s' X2 /\ calm s'
  | inr (e2, X2) => e = e2 /\ goes_on e2 = false /\ sofar (dig_of v') = sofar X2
  end.
Proof.
  intros ND (N1&N2) HJ R. rewrite texec_reading in R.
  pose proof (go_dig nb d s (given v d) 0 0) as G. cbn zeta in G. cbn [given view_step v_start v_stream] in G. rewrite !Z.add_0_r in G. rewrite unrep_nil, told_nil in G.
  change (dig_of (mkview (v_stream v ++ d) (zlen (v_stream v)) (v_msg v) (v_code v) (v_name v) (v_value v) (v_headers v) (v_hstart v) (v_hend v) (v_h1 v) (v_clen v) (v_close v) (v_ka v)
             (v_bstart v) (v_body v) (v_last v) (v_next v) (v_adj v) (v_n0 v) (v_x0 v) (v_locs v))) with (dig_of v) in G.
  specialize (G (zlen_nonneg _) ltac:(lia)). rewrite zlen_app in G.
  assert (SL : slice (v_stream v ++ d) (zlen (v_stream v)) (zlen d) = d) by (rewrite slice_of_app_r by (pose proof (zlen_nonneg d); lia); rewrite Z.sub_diag; apply slice_all).
  specialize (G SL eq_refl N1 N2 HJ).
  assert (RX : rexec s d = go s d 0 0).
  { unfold rexec. destruct d as [|c d]; [congruence|]. destruct (q_st s) eqn:ES; try reflexivity. destruct (N2 _ eq_refl). }
  rewrite RX in R. cbn [given view_step] in R. rewrite R in G. destruct (crun nb s (dig_of v) (zlen (v_stream v)) d) as [[s2 X2]|[e2 X2]]; [|exact G].
  destruct G as (G1&G2&G3&G4&G5&G6). split; [auto|]. split; [auto|]. split; [auto|]. split; [auto|split; auto].
Qed.

Lemma read_stream nb {S} (t : ptree S) u : v_stream (fst (fst (reading nb t u))) = v_stream u.
Proof. revert u. induction t as [e q|ev k IH]; intros u; cbn [reading]; [auto|]. rewrite IH. apply view_event_const. Qed.
Lemma start_calm : calm rinit.
Proof. split; discriminate. Qed.
Lemma handled_ref nb ps s v : handled nb refparser ps s v ->
  crun nb rinit (dig_of view0) 0 (concat ps) = inl (s, dig_of v) /\ J s (dig_of v) /\ calm s /\ v_stream v = concat ps.
Proof.
  induction 1 as [|ps d s v e s' v' H (IH&HJ&HC&VS) ND R GE].
  { split; [reflexivity|]. split; [split; [exact (fun _ => eq_refl)|exact I]|]. split; [apply start_calm|reflexivity]. }
  pose proof (call_crun nb s v d v' e s' ND HC HJ R) as CC.
  rewrite concat_app, crun_app, IH, Z.add_0_l. cbn [concat]. rewrite app_nil_r, <- VS.
  assert (VS' : v_stream v' = v_stream v ++ d).
  { pose proof (read_stream nb (p_exec refparser s d) (given v d)) as X. rewrite R in X. exact X. }
  destruct (crun nb s (dig_of v) (zlen (v_stream v)) d) as [[s2 X2]|[e2 X2]].
  - destruct CC as (_&<-&<-&HJ'&HC'). split; [reflexivity|]. split; [exact HJ'|]. split; [exact HC'|exact VS'].
  - destruct CC as (->&Q&_). congruence.
Qed.
Lemma so_far_report v1 v2 : same_report v1 v2 -> same_so_far v1 v2.
Proof.
  intros []. constructor; auto; unfold finish; rewrite <- sr_name, <- sr_value; destruct (v_name v1), (v_value v1); cbn [v_headers v_locs]; congruence.
Qed.
Lemma refparser_cut_free : cut_free refparser.
Proof.
  intros nb ps1 d1 s1 v1 v1' e1 s1' ps2 d2 s2 v2 v2' e2 s2' H1 H2 E EN R1 R2.
  destruct (handled_ref _ _ _ _ H1) as (C1&J1&K1&S1). destruct (handled_ref _ _ _ _ H2) as (C2&J2&K2&S2).
  destruct d1 as [|c1 d1].
  - assert (d2 = []) by tauto. subst d2. rewrite !app_nil_r in E. rewrite <- E, C1 in C2. assert (Q : s1 = s2 /\ dig_of v1 = dig_of v2) by (split; congruence). destruct Q as (<-&D). clear C2.
    cbn [refparser p_exec] in R1, R2. unfold rexec in R1, R2.
    destruct (q_st s1) eqn:ES; cbn [reading] in R1, R2; injection R1 as <- <- <-; injection R2 as <- <- <-;
      (split; [reflexivity|]);
      match goal with |- same_so_far ?a ?b /\ _ => assert (SR : same_report a b) by (apply dig_same; first [exact D|change (adig (dig_of v1) AComplete = adig (dig_of v2) AComplete); rewrite D; reflexivity]) end;
      (split; [apply so_far_report; exact SR|intros _; exact SR]).
  - destruct d2 as [|c2 d2]; [exfalso; assert (c1 :: d1 = []) by tauto; discriminate|].
    pose proof (call_crun nb s1 v1 (c1 :: d1) v1' e1 s1' ltac:(discriminate) K1 J1 R1) as X1.
    pose proof (call_crun nb s2 v2 (c2 :: d2) v2' e2 s2' ltac:(discriminate) K2 J2 R2) as X2.
    assert (T1 : crun nb s1 (dig_of v1) (zlen (v_stream v1)) (c1 :: d1) = crun nb rinit (dig_of view0) 0 (concat ps1 ++ c1 :: d1)) by (rewrite crun_app, C1, S1; reflexivity).
    assert (T2 : crun nb s2 (dig_of v2) (zlen (v_stream v2)) (c2 :: d2) = crun nb rinit (dig_of view0) 0 (concat ps2 ++ c2 :: d2)) by (rewrite crun_app, C2, S2; reflexivity).
    rewrite T1, E in X1. rewrite T2 in X2. destruct (crun nb rinit (dig_of view0) 0 (concat ps2 ++ c2 :: d2)) as [[s X]|[e X]].
    + destruct X1 as (->&_&D1&_), X2 as (->&_&D2&_). assert (SR : same_report v1' v2') by (apply dig_same; congruence).
      split; [auto|]. split; [apply so_far_report; exact SR|auto].
    + destruct X1 as (->&G&D1), X2 as (->&_&D2). split; [auto|]. split; [apply sofar_same; congruence|congruence].
Qed.
