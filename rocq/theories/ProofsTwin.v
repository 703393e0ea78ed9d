(** ProofsTwin.v — two receiving calls that differ only in where their buffers lie, and in the width of size_t, do the same. *)
From Verif Require Import Base Lib ModelRequest ModelSend ModelResponse SpecRequest SpecSend SpecResponse SpecExchange ProofsRequest
  ProofsSend ProofsSend2 ProofsResponse ProofsResponse2 ProofsResponse3 ProofsFollow ProofsIndep.

Ltac conj := repeat match goal with |- _ /\ _ => split end.
(** Callbacks do not touch the mark that the response was connected to the parser. *)
Lemma pch_resp cfg s s' : processCompleteHeader cfg s = Ret s' -> c_resp (s_ctx s') = c_resp (s_ctx s).
Proof.
  unfold processCompleteHeader. intros H. inv_bind H.
  destruct (c_lf (s_ctx s)), (c_lv (s_ctx s)); try (injection H as <-; reflexivity).
  inv_bind H. destruct (r_cb (s_resp s)); [|injection H as <-; reflexivity].
  inv_bind H. inv_bind H. injection H as <-. reflexivity.
Qed.
Lemma callback_resp cfg start ev s r s' : callback cfg start ev s = Ret (r, s') -> c_resp (s_ctx s') = c_resp (s_ctx s).
Proof.
  intros H. destruct ev; cbn [callback] in H.
  - injection H as <- <-. reflexivity.
  - unfold onStatus in H. inv_bind H. inv_bind H. injection H as <- <-. reflexivity.
  - unfold onStatusComplete in H. inv_bind H. injection H as <- <-. reflexivity.
  - unfold onHeaderField in H. inv_bind H. inv_bind H. inv_bind H. apply pch_resp in E1. cbn [s_ctx set_cur c_resp] in E1.
    destruct (c_lf (s_ctx a1)); [inv_bind H|]; injection H as <- <-; exact E1.
  - unfold onHeaderValue in H. inv_bind H. inv_bind H. injection H as <- <-. cbn [s_ctx set_cur c_lv]. destruct (c_lv (s_ctx s)); reflexivity.
  - unfold onHeadersComplete in H. inv_bind H. destruct (c_cur (s_ctx s)); [|discriminate]. destruct (r_buf (s_resp s)); [|discriminate].
    do 7 inv_bind H. injection H as <- <-. match goal with Q : processCompleteHeader _ _ = _ |- _ => apply pch_resp in Q; exact Q end.
  - unfold onBody in H. inv_bind H. destruct (r_buf (s_resp s)); [|discriminate]. inv_bind H. inv_bind H. inv_bind H. inv_bind H. inv_bind H.
    destruct (match r_body (s_resp s) with Some b => _ | None => _ end). inv_bind H. inv_bind H. inv_bind H. inv_bind H.
    injection H as <- <-. reflexivity.
  - injection H as <- <-. reflexivity.
Qed.
Lemma run_tree_resp cfg start {S} (s0 : S) t : forall s e pos s1 s', c_resp (s_ctx s) = true -> run_tree cfg start s0 t s = Ret (e, pos, s1, s') -> c_resp (s_ctx s') = true.
Proof.
  induction t as [e0 sd|ev k IH]; intros s e pos s1 s' R H; cbn [run_tree] in H.
  - injection H as <- <- <- <-. auto.
  - inv_bind H. destruct a as [r s2]. apply callback_resp in E. cbn [s_ctx] in E. rewrite R in E.
    destruct r; try (eapply IH; [|exact H]; cbn [s_ctx]; exact E); injection H as <- <- <- <-; exact E.
Qed.

Section Twin.
Variables (cfg cfg2 : config) (b1 b2 : ptr) (L : Z) (base1 base2 : list tev).

(** A pointer at the same place of the two buffers, with [n] bytes that end at or before [hi]. *)
Definition osh (n hi : Z) (p q : option ptr) : Prop :=
  match p, q with
  | None, None => True
  | Some p, Some q => exists o, p = poff b1 o /\ q = poff b2 o /\ 0 <= o /\ 0 <= n /\ o + n <= hi
  | _, _ => False
  end.
Notation psh := (same_place b1 b2).
Notation same_ev := (same_entry b1 b2).

Record tctx (hi : Z) (c1 c2 : pctx) : Prop := mktctx {
  tc_state : c_state c1 = c_state c2;
  tc_resp : c_resp c1 = c_resp c2;
  tc_head : c_head c1 = c_head c2;
  tc_cur : osh 0 hi (c_cur c1) (c_cur c2);
  tc_lfl : c_lfl c1 = c_lfl c2;
  tc_lf : osh (c_lfl c1) hi (c_lf c1) (c_lf c2);
  tc_lvl : c_lvl c1 = c_lvl c2;
  tc_lv : osh (c_lvl c1) hi (c_lv c1) (c_lv c2)
}.
(** contentLength: the same number, reduced to the size_t of either platform. *)
Definition clr (x y : Z) : Prop := x = y \/ exists c, x = c mod SZ cfg /\ y = c mod SZ cfg2.
Lemma clr_same x y : x = y -> clr x y.
Proof. left. assumption. Qed.
Local Hint Resolve clr_same : core.
Record tresp (hi : Z) (r1 r2 : response) : Prop := mktresp {
  tr_buf1 : r_buf r1 = Some b1;  tr_buf2 : r_buf r2 = Some b2;
  tr_len1 : r_bufLen r1 = L;  tr_len2 : r_bufLen r2 = L;
  tr_cb : r_cb r1 = r_cb r2;
  tr_time : r_time r1 = r_time r2;
  tr_opt : r_opt r1 = r_opt r2;
  tr_status : r_status r1 = r_status r2;
  tr_clen : clr (r_clen r1) (r_clen r2);
  tr_hcount : r_hcount r1 = r_hcount r2;
  tr_hdone : r_hdone r1 = r_hdone r2;
  tr_flags : r_flags r1 = r_flags r2;
  tr_headersLen : r_headersLen r1 = r_headersLen r2;
  tr_headers : osh (r_headersLen r1) hi (r_headers r1) (r_headers r2);
  tr_noheaders : r_headers r1 = None -> r_headersLen r1 = 0;
  tr_bodyLen : r_bodyLen r1 = r_bodyLen r2;
  tr_body : osh (r_bodyLen r1) hi (r_body r1) (r_body r2)
}.
Record tworld (T : Z) (w1 w2 : world) : Prop := mktworld {
  tw_o1 : object (w_mem w1) b1 L;  tw_o2 : object (w_mem w2) b2 L;
  tw_T : 0 <= T <= L;
  tw_eq : bytes_at (w_mem w1) b1 T = bytes_at (w_mem w2) b2 T;
  tw_ns : w_ns w1 = w_ns w2;
  tw_nr : w_nr w1 = w_nr w2;
  tw_nt : w_nt w1 = w_nt w2;
  tw_tr : exists t1 t2, w_tr w1 = base1 ++ t1 /\ w_tr w2 = base2 ++ t2 /\ Forall2 same_ev t1 t2
}.
Definition twin (T hi : Z) (s1 s2 : cbst) : Prop :=
  tctx hi (s_ctx s1) (s_ctx s2) /\ tresp hi (s_resp s1) (s_resp s2) /\ tworld T (s_w s1) (s_w s2).

(** The first header begins at or before the next byte to parse. *)
Definition hcur (s : cbst) : Prop :=
  match r_headers (s_resp s), c_cur (s_ctx s) with Some h, Some c => po h <= po c | _, _ => True end.

Hypothesis HSZ : L < SZ cfg.
Hypothesis HSZ2 : L < SZ cfg2.
Hypothesis HTO : RECV_TO cfg2 = RECV_TO cfg.

Lemma osh_mono n hi hi' p q : hi <= hi' -> osh n hi p q -> osh n hi' p q.
Proof. intros H. destruct p, q; cbn; auto. intros (o&?&?&?&?&?). exists o. repeat split; auto; lia. Qed.
Lemma tctx_mono hi hi' c1 c2 : hi <= hi' -> tctx hi c1 c2 -> tctx hi' c1 c2.
Proof. intros H []. constructor; auto; eapply osh_mono; eauto. Qed.
Lemma tresp_mono hi hi' r1 r2 : hi <= hi' -> tresp hi r1 r2 -> tresp hi' r1 r2.
Proof. intros H []. constructor; auto; eapply osh_mono; eauto. Qed.
Lemma twin_mono T hi hi' s1 s2 : hi <= hi' -> twin T hi s1 s2 -> twin T hi' s1 s2.
Proof. intros H (A&B&C). split; [eapply tctx_mono; eauto|split; [eapply tresp_mono; eauto|auto]]. Qed.
Lemma tworld_log T w1 w2 x y : tworld T w1 w2 -> same_ev x y -> tworld T (log w1 x) (log w2 y).
Proof.
  intros [] H. constructor; auto. destruct tw_tr0 as (t1&t2&E1&E2&F). exists (t1 ++ [x]), (t2 ++ [y]). cbn [log w_tr].
  rewrite E1, E2, <- !app_assoc. repeat split; auto. apply Forall2_app; auto.
Qed.
Lemma tw_load T w1 w2 o n : tworld T w1 w2 -> 0 <= o -> 0 <= n -> o + n <= T ->
  bytes_at (w_mem w1) (poff b1 o) n = bytes_at (w_mem w2) (poff b2 o) n.
Proof.
  intros [O1 O2 HT EQ _ _ _ _] Ho Hn H.
  assert (S : forall m b, object m b L -> bytes_at m (poff b o) n = slice (bytes_at m b T) o n).
  { intros m b (?&?&?). unfold bytes_at, poff. cbn [pb po]. rewrite slice_slice by lia. reflexivity. }
  rewrite (S _ b1), (S _ b2), EQ by auto. reflexivity.
Qed.
Lemma in_obj m b o n : object m b L -> 0 <= o -> 0 <= n -> o + n <= L -> object m (poff b o) n.
Proof. intros (?&?&?) ? ? ?. unfold object, poff. cbn [pb po]. lia. Qed.

Lemma bytes_at_write_in m b o d T : object m b L -> 0 <= T <= L -> 0 <= o -> o + zlen d <= T ->
  bytes_at (write m (poff b o) d) b T = splice (bytes_at m b T) o d.
Proof.
  intros O HT Ho H. pose proof (zlen_nonneg d) as Hd. assert (O' : object m (poff b o) (zlen d)) by (apply in_obj; auto; lia).
  destruct O as (O1&O2&O3). assert (LT : zlen (bytes_at m b T) = T) by (apply bytes_at_len; unfold object; lia).
  assert (LT' : zlen (bytes_at (write m (poff b o) d) b T) = T) by (apply bytes_at_len, object_write; [auto|unfold object; lia]).
  apply list_ext.
  - rewrite splice_len by lia. lia.
  - intros i Hi. rewrite LT' in Hi. rewrite zn_splice by lia.
    unfold bytes_at at 1. rewrite blk_write by auto. cbn [poff pb po]. rewrite Nat.eqb_refl.
    rewrite zn_slice by lia. change (po (poff b o)) with (po b + o); rewrite zn_splice by lia.
    unfold bytes_at. rewrite zn_slice by lia.
    replace (po b + o <=? po b + i) with (o <=? i) by lia. replace (po b + i <? po b + o + zlen d) with (i <? o + zlen d) by lia.
    replace (po b + i - (po b + o)) with (i - o) by lia. reflexivity.
Qed.
Lemma tworld_write T w1 w2 o d m1 m2 : tworld T w1 w2 -> 0 <= o -> o + zlen d <= T ->
  storen (w_mem w1) (poff b1 o) d = Ret m1 -> storen (w_mem w2) (poff b2 o) d = Ret m2 -> tworld T (set_mem w1 m1) (set_mem w2 m2).
Proof.
  intros TW Ho H. pose proof (zlen_nonneg d) as Hd. destruct TW as [O1 O2 HT EQ NS NR NT TR].
  assert (Q1 : object (w_mem w1) (poff b1 o) (zlen d)) by (apply in_obj; auto; lia).
  assert (Q2 : object (w_mem w2) (poff b2 o) (zlen d)) by (apply in_obj; auto; lia).
  rewrite !storen_ok by auto. intros A B. injection A as <-. injection B as <-.
  constructor; auto; cbn [set_mem w_mem].
  - apply object_write; auto.
  - apply object_write; auto.
  - rewrite !bytes_at_write_in by (auto; lia). rewrite EQ. reflexivity.
Qed.

(** ** The callbacks *)
Lemma padd_inv m p n q : padd m p n = Ret q -> q = poff p n.
Proof. unfold padd. destruct (_ && _); [|discriminate]. intros H. injection H as <-. reflexivity. Qed.
Lemma psub_inv p q d : psub p q = Ret d -> d = po p - po q.
Proof. unfold psub. destruct (Nat.eqb _ _); [|discriminate]. intros H. injection H as <-. reflexivity. Qed.
Lemma loadn_inv m p n d : loadn m p n = Ret d -> d = bytes_at m p n.
Proof. unfold loadn. destruct (in_range m p n); [|discriminate]. intros H. injection H as <-. reflexivity. Qed.

Lemma pch_twin T hi s1 s2 s1' s2' : twin T hi s1 s2 -> hi <= T ->
  processCompleteHeader cfg s1 = Ret s1' -> processCompleteHeader cfg2 s2 = Ret s2' -> twin T hi s1' s2'.
Proof.
  intros (TC&TR&TW) HT H1 H2. unfold processCompleteHeader in *. inv_bind H1. inv_bind H2.
  pose proof (tc_lf _ _ _ TC) as LF. pose proof (tc_lv _ _ _ TC) as LV. unfold osh in LF, LV.
  destruct (c_lf (s_ctx s1)) as [f1|] eqn:F1, (c_lf (s_ctx s2)) as [f2|] eqn:F2; try contradiction.
  2:{ injection H1 as <-. injection H2 as <-. split; auto. }
  destruct (c_lv (s_ctx s1)) as [v1|] eqn:V1, (c_lv (s_ctx s2)) as [v2|] eqn:V2; try contradiction.
  2:{ injection H1 as <-. injection H2 as <-. split; auto. }
  inv_bind H1. inv_bind H2.
  assert (TC' : tctx hi (set_last (s_ctx s1) None 0 None 0) (set_last (s_ctx s2) None 0 None 0)) by (destruct TC; constructor; cbn; auto).
  assert (TR' : tresp hi (set_r_hcount (s_resp s1) (r_hcount (s_resp s1) + 1)) (set_r_hcount (s_resp s2) (r_hcount (s_resp s2) + 1))).
  { destruct TR; constructor; cbn; auto. congruence. }
  rewrite <- (tr_cb _ _ _ TR) in H2. destruct (r_cb (s_resp s1)).
  2:{ injection H1 as <-. injection H2 as <-. split; [exact TC'|]. split; [exact TR'|exact TW]. }
  inv_bind H1. inv_bind H1. inv_bind H2. inv_bind H2. injection H1 as <-. injection H2 as <-.
  split; [exact TC'|]. split; [exact TR'|]. cbn [s_w]. apply tworld_log; auto. rewrite <- (tc_lfl _ _ _ TC), <- (tc_lvl _ _ _ TC) in *.
  destruct LF as (o&->&->&Q1&Q2&Q3). destruct LV as (o'&->&->&Q4&Q5&Q6). cbn [same_ev].
  repeat match goal with H : loadn _ _ _ = Ret _ |- _ => apply loadn_inv in H; subst end.
  split; [exists o; auto|]. split; auto. split; [exists o'; auto|]. split; auto. split; [apply (tw_load T); auto; lia|].
  split; [apply (tw_load T); auto; lia|]. apply (tr_status _ _ _ TR).
Qed.

Lemma tcur hi c1 c2 o : 0 <= o <= hi -> tctx hi c1 c2 -> tctx hi (set_cur c1 (Some (poff b1 o))) (set_cur c2 (Some (poff b2 o))).
Proof. intros H []. constructor; cbn; auto. exists o. repeat split; auto; lia. Qed.
Lemma poff_at b a off : mkptr (pb (poff b a)) (po (poff b a) + off) = poff b (a + off).
Proof. unfold poff. cbn. f_equal. lia. Qed.

Lemma pch_same s s' : processCompleteHeader cfg s = Ret s' -> r_headers (s_resp s') = r_headers (s_resp s) /\ c_cur (s_ctx s') = c_cur (s_ctx s).
Proof.
  unfold processCompleteHeader. intros H. inv_bind H.
  destruct (c_lf (s_ctx s)), (c_lv (s_ctx s)); try (injection H as <-; split; reflexivity).
  inv_bind H. destruct (r_cb (s_resp s)); [|injection H as <-; split; reflexivity].
  inv_bind H. inv_bind H. injection H as <-. split; reflexivity.
Qed.
(** The first header begins at or before [x]. *)
Lemma hcur_at hi s1 s2 x : tresp hi (s_resp s1) (s_resp s2) -> hi <= x -> match r_headers (s_resp s1) with Some h => po h <= po b1 + x | None => True end.
Proof.
  intros TR Hx. pose proof (tr_headers _ _ _ TR) as H. unfold osh in H. destruct (r_headers (s_resp s1)); auto. destruct (r_headers (s_resp s2)); [|contradiction].
  destruct H as (o&->&_&?&?&?). unfold poff. cbn [po]. lia.
Qed.
Lemma cb_twin T hi a n pos ev s1 s2 r1 r2 s1' s2' : twin T hi s1 s2 -> hcur s1 -> 0 <= a -> 0 <= pos -> hi <= a + pos -> a + n <= T -> T <= L -> pos <= n -> ev_ok pos n ev ->
  callback cfg (poff b1 a) ev s1 = Ret (r1, s1') -> callback cfg2 (poff b2 a) ev s2 = Ret (r2, s2') ->
  r1 = r2 /\ twin T (a + ev_end pos ev) s1' s2' /\ ev_end pos ev <= n /\ hcur s1'.
Proof.
  intros TWN HC Ha Hpos Hhi Hn HT Hpn OK H1 H2. pose proof TWN as (TC&TR&TW).
  destruct ev as [|off len code|code|off len|off len|p clen close ka|off len|]; cbn [callback ev_ok ev_end] in *; rewrite ?poff_at in *.
  - injection H1 as <- <-. injection H2 as <- <-. split; auto. split; [|auto]. apply (twin_mono T hi); [lia|]. split; [|auto]. destruct TC; constructor; cbn; auto.
  - pose proof (hcur_at _ _ _ (a + off + len) TR ltac:(lia)) as HX.
    assert (TWN' : twin T (a + (off + len)) s1 s2) by (apply (twin_mono T hi); [lia|auto]). clear TC TR TW. destruct TWN' as (TC&TR&TW).
    unfold onStatus in *. inv_bind H1. inv_bind H1. inv_bind H2. inv_bind H2. injection H1 as <- <-. injection H2 as <- <-.
    apply padd_inv in E0, E2. subst. rewrite !poff_poff in *. split; auto. split; [|split; [lia|]].
    + split; [|split; auto]; cbn [s_ctx s_resp].
      * destruct TC; constructor; cbn; auto. exists (a + off + len). repeat split; auto; lia.
      * destruct TR; constructor; cbn; auto.
    + unfold hcur. cbn [s_resp s_ctx set_r_status r_headers c_cur]. destruct (r_headers (s_resp s1)); auto; unfold poff; cbn [po c_cur set_last set_cur]; lia.
  - unfold onStatusComplete in *. inv_bind H1. inv_bind H2. injection H1 as <- <-. injection H2 as <- <-. split; auto. split; [|auto]. apply (twin_mono T hi); [lia|].
    split; [|split; auto]; cbn [s_ctx s_resp].
    + destruct TC; constructor; cbn; auto.
    + destruct TR; constructor; cbn; auto.
  - unfold onHeaderField in *. inv_bind H1. inv_bind H1. inv_bind H1. inv_bind H2. inv_bind H2. inv_bind H2.
    apply padd_inv in E0, E3. subst a1 a4. rewrite !poff_poff in *.
    assert (TW0 : twin T (a + (off + len)) s1 s2) by (apply (twin_mono T hi); [lia|auto]).
    pose proof (hcur_at _ _ _ (a + off + len) TR ltac:(lia)) as HX.
    assert (HC1 : hcur a2).
    { destruct (pch_same _ _ E1) as (X1&X2). unfold hcur. rewrite X1, X2. cbn [s_resp s_ctx set_cur c_cur].
      destruct (r_headers (s_resp s1)) eqn:Q; rewrite ?Q; cbn [set_r_headers r_headers]; unfold poff; cbn [po]; lia. }
    assert (LFX : tresp (a + off) (s_resp s1) (s_resp s2) /\ tctx (a + off) (s_ctx s1) (s_ctx s2)) by (split; [eapply tresp_mono|eapply tctx_mono]; eauto; lia).
    assert (TW1 : twin T (a + (off + len)) a2 a5 /\ osh (c_lfl (s_ctx a2)) (a + off) (c_lf (s_ctx a2)) (c_lf (s_ctx a5))).
    { split.
      - eapply pch_twin; [|lia|exact E1|exact E4]. destruct TW0 as (TC0&TR0&TX0). split; [apply tcur; auto; lia|]. split; [|auto]. cbn [s_resp].
        pose proof (tr_headers _ _ _ TR0) as HH. pose proof (tr_noheaders _ _ _ TR0) as HN. unfold osh in HH.
        destruct (r_headers (s_resp s1)) eqn:R1, (r_headers (s_resp s2)) eqn:R2; try contradiction; auto.
        specialize (HN eq_refl). destruct TR0; constructor; cbn; auto; try discriminate. rewrite HN. exists (a + off). repeat split; auto; lia.
      - destruct LFX as (_&LX). pose proof (tc_lf _ _ _ LX) as LF. pose proof (tc_lv _ _ _ LX) as LV.
        assert (PX : forall cfg s s', processCompleteHeader cfg s = Ret s' -> (c_lf (s_ctx s') = c_lf (s_ctx s) /\ c_lfl (s_ctx s') = c_lfl (s_ctx s) /\ (c_lf (s_ctx s) = None \/ c_lv (s_ctx s) = None)) \/ c_lf (s_ctx s') = None /\ c_lf (s_ctx s) <> None /\ c_lv (s_ctx s) <> None).
        { intros cf s s' H. unfold processCompleteHeader in H. inv_bind H.
          destruct (c_lf (s_ctx s)) eqn:?, (c_lv (s_ctx s)) eqn:?; try (injection H as <-; left; auto; fail).
          right. split; [|split; discriminate]. inv_bind H. destruct (r_cb (s_resp s)); [|injection H as <-; reflexivity]. inv_bind H. inv_bind H. injection H as <-. reflexivity. }
        apply PX in E1. apply PX in E4. cbn [s_ctx set_cur c_lf c_lv c_lfl] in E1, E4. unfold osh in LF, LV.
        destruct E1 as [(Y1&Y2&Y3)|(Y1&Y2&Y3)], E4 as [(Z1&Z2&Z3)|(Z1&Z2&Z3)].
        + rewrite Y1, Y2, Z1. exact LF.
        + exfalso. destruct (c_lf (s_ctx s2)), (c_lv (s_ctx s2)); try congruence. destruct (c_lf (s_ctx s1)), (c_lv (s_ctx s1)); try contradiction. destruct Y3; discriminate.
        + exfalso. destruct (c_lf (s_ctx s1)), (c_lv (s_ctx s1)); try congruence. destruct (c_lf (s_ctx s2)), (c_lv (s_ctx s2)); try contradiction. destruct Z3; discriminate.
        + rewrite Y1, Z1. exact Logic.I. }
    clear TWN TC TR TW TW0 E1 E4 LFX. destruct TW1 as ((TC&TR&TW)&LF). unfold osh in LF.
    destruct (c_lf (s_ctx a2)) as [f1|] eqn:F1, (c_lf (s_ctx a5)) as [f2|] eqn:F2; try contradiction.
    + inv_bind H1. inv_bind H2. injection H1 as <- <-. injection H2 as <- <-. split; auto. split; [|split; [lia|exact HC1]].
      destruct LF as (o&->&->&Q1&Q2&Q3). assert (M : (c_lfl (s_ctx a2) + len) mod SZ cfg = c_lfl (s_ctx a2) + len) by (apply Z.mod_small; lia).
      assert (M2 : (c_lfl (s_ctx a2) + len) mod SZ cfg2 = c_lfl (s_ctx a2) + len) by (apply Z.mod_small; lia).
      pose proof (tc_lfl _ _ _ TC) as QL. split; [|split; [exact TR|exact TW]]. cbn [s_ctx].
      destruct TC; constructor; cbn; rewrite <- ?QL, ?M, ?M2; auto. exists o. repeat split; auto; lia.
    + injection H1 as <- <-. injection H2 as <- <-. split; auto. split; [|split; [lia|exact HC1]].
      split; [|split; [exact TR|exact TW]]. cbn [s_ctx].
      destruct TC; constructor; cbn; auto. exists (a + off). repeat split; auto; lia.
  - unfold onHeaderValue in *. inv_bind H1. inv_bind H1. inv_bind H2. inv_bind H2. injection H1 as <- <-. injection H2 as <- <-.
    apply padd_inv in E, E1. subst. rewrite !poff_poff in *. pose proof (hcur_at _ _ _ (a + off + len) TR ltac:(lia)) as HX. split; auto.
    assert (TC' : tctx (a + off) (s_ctx s1) (s_ctx s2)) by (eapply tctx_mono; [|exact TC]; lia).
    pose proof (tc_lv _ _ _ TC') as LV. unfold osh in LV. cbn [set_cur c_lv c_lf c_lfl c_lvl].
    destruct (c_lv (s_ctx s1)) as [v1|] eqn:V1, (c_lv (s_ctx s2)) as [v2|] eqn:V2; try contradiction.
    + destruct LV as (o&->&->&Q1&Q2&Q3). assert (M : (c_lvl (s_ctx s1) + len) mod SZ cfg = c_lvl (s_ctx s1) + len) by (apply Z.mod_small; lia).
      assert (M2 : (c_lvl (s_ctx s1) + len) mod SZ cfg2 = c_lvl (s_ctx s1) + len) by (apply Z.mod_small; lia).
      pose proof (tc_lvl _ _ _ TC) as QL. assert (TC2 : tctx (a + (off + len)) (s_ctx s1) (s_ctx s2)) by (eapply tctx_mono; [|exact TC']; lia).
      split; [|split; [lia|]].
      * split; [|split; [eapply tresp_mono; [|exact TR]; lia|exact TW]]. cbn [s_ctx].
        destruct TC2; constructor; cbn; rewrite <- ?QL, ?M, ?M2; auto.
        -- exists (a + off + len). repeat split; auto; lia.
        -- exists o. repeat split; auto; lia.
      * unfold hcur. cbn [s_resp s_ctx c_cur set_last set_cur]. destruct (r_headers (s_resp s1)); auto; unfold poff; cbn [po]; lia.
    + assert (TC2 : tctx (a + (off + len)) (s_ctx s1) (s_ctx s2)) by (eapply tctx_mono; [|exact TC']; lia).
      split; [|split; [lia|]].
      * split; [|split; [eapply tresp_mono; [|exact TR]; lia|exact TW]]. cbn [s_ctx].
        destruct TC2; constructor; cbn; auto.
        -- exists (a + off + len). repeat split; auto; lia.
        -- exists (a + off). repeat split; auto; lia.
      * unfold hcur. cbn [s_resp s_ctx c_cur set_last set_cur]. destruct (r_headers (s_resp s1)); auto; unfold poff; cbn [po]; lia.
  - assert (TWN' : twin T (a + p) s1 s2) by (apply (twin_mono T hi); [lia|auto]). clear TC TR TW TWN. destruct TWN' as (TC&TR&TW).
    unfold onHeadersComplete in *. rewrite (tr_buf1 _ _ _ TR) in H1. rewrite (tr_buf2 _ _ _ TR) in H2.
    rewrite (tr_len1 _ _ _ TR) in H1. rewrite (tr_len2 _ _ _ TR) in H2.
    pose proof (tc_cur _ _ _ TC) as CC. unfold osh in CC. inv_bind H1. inv_bind H2.
    destruct (c_cur (s_ctx s1)) as [c1|] eqn:C1, (c_cur (s_ctx s2)) as [c2|] eqn:C2; try contradiction; try discriminate.
    destruct CC as (o&->&->&Co1&_&Co2). do 6 inv_bind H1. do 6 inv_bind H2.
    unfold hcur in HC. rewrite C1 in HC.
    assert (TR2 : tresp (a + p) a7 a13 /\ r_headers a7 = r_headers (s_resp s1)).
    { pose proof (tr_headers _ _ _ TR) as HH. unfold osh in HH. cbn [set_r_hdone r_headers] in E6, E12.
      destruct (r_headers (s_resp s1)) eqn:R1, (r_headers (s_resp s2)) eqn:R2; try contradiction.
      - destruct HH as (h&->&->&Q). inv_bind E6. inv_bind E6. inv_bind E12. inv_bind E12. injection E6 as <-. injection E12 as <-.
        repeat match goal with H : psub _ _ = Ret _ |- _ => apply psub_inv in H end. subst. cbn [poff po].
        replace (po (poff b2 o) - po (poff b2 h)) with (po (poff b1 o) - po (poff b1 h)) by (unfold poff; cbn [po]; lia).
        set (z := po (poff b1 o) - po (poff b1 h)). assert (Hz : z = o - h) by (unfold z, poff; cbn [po]; lia). change (po (poff b1 h)) with (po b1 + h) in HC. change (po (poff b1 o)) with (po b1 + o) in HC.
        assert (Mz : z mod SZ cfg = z) by (apply Z.mod_small; lia). assert (Mz2 : z mod SZ cfg2 = z) by (apply Z.mod_small; lia).
        split; [|cbn [set_r_headers r_headers]; auto].
        destruct TR; constructor; cbn [set_r_headers set_r_hdone r_buf r_bufLen r_cb r_time r_headers r_headersLen r_body r_bodyLen r_status r_clen r_hcount r_hdone r_opt r_flags]; auto; try discriminate.
        rewrite ?Mz, ?Mz2. exists h. repeat split; auto; lia.
      - injection E6 as <-. injection E12 as <-. split; [|auto]. destruct TR; constructor; cbn; auto. }
    destruct TR2 as (TR2&HQ). inv_bind H1. inv_bind H2. injection H1 as <- <-. injection H2 as <- <-.
    assert (TW3 : twin T (a + p) a14 a15).
    { eapply pch_twin; [|lia|exact E13|exact E14]. split; [exact TC|]. split; [|exact TW]. cbn [s_resp].
      destruct TR2, close, ka; constructor; cbn; auto; try congruence; unfold clr; (destruct (clen =? UINT64_MAX); [left; reflexivity|right; exists clen; auto]). }
    assert (HC3 : hcur a14).
    { destruct (pch_same _ _ E13) as (X1&X2). unfold hcur. rewrite X1, X2. cbn [s_resp s_ctx]. rewrite C1.
      replace (r_headers _) with (r_headers (s_resp s1)) by (rewrite <- HQ; destruct close, ka; reflexivity). exact HC. }
    destruct TW3 as (TC3&TR3&TW3). rewrite (tr_opt _ _ _ TR3), (tc_head _ _ _ TC). split; auto. split; [split; auto|]. split; [lia|]. exact HC3.
  - unfold onBody in *. rewrite (tr_buf1 _ _ _ TR) in H1. rewrite (tr_buf2 _ _ _ TR) in H2.
    rewrite (tr_len1 _ _ _ TR) in H1. rewrite (tr_len2 _ _ _ TR) in H2.
    pose proof (hcur_at _ _ _ (a + off + len) TR ltac:(lia)) as HX.
    do 6 inv_bind H1. do 6 inv_bind H2.
    assert (TR0 : tresp (a + off) (s_resp s1) (s_resp s2)) by (eapply tresp_mono; [|exact TR]; lia).
    assert (TC0 : tctx (a + (off + len)) (s_ctx s1) (s_ctx s2)) by (eapply tctx_mono; [|exact TC]; lia).
    pose proof (tr_body _ _ _ TR0) as TB. unfold osh in TB.
    assert (BB : exists o bl, (match r_body (s_resp s1) with None => (poff b1 (a + off), 0) | Some b => (b, r_bodyLen (s_resp s1)) end) = (poff b1 o, bl) /\
       (match r_body (s_resp s2) with None => (poff b2 (a + off), 0) | Some b => (b, r_bodyLen (s_resp s2)) end) = (poff b2 o, bl) /\
       0 <= o /\ 0 <= bl /\ o + bl <= a + off).
    { rewrite <- (tr_bodyLen _ _ _ TR0). destruct (r_body (s_resp s1)) eqn:R1, (r_body (s_resp s2)) eqn:R2; try contradiction.
      - destruct TB as (o&->&->&Q). exists o, (r_bodyLen (s_resp s1)). repeat split; auto; lia.
      - exists (a + off), 0. repeat split; auto; lia. }
    destruct BB as (o&bl&BB1&BB2&Q1&Q2&Q3). rewrite BB1 in H1. rewrite BB2 in H2.
    do 4 inv_bind H1. do 4 inv_bind H2. injection H1 as <- <-. injection H2 as <- <-.
    repeat match goal with H : psub _ _ = Ret _ |- _ => apply psub_inv in H | H : padd _ _ _ = Ret _ |- _ => apply padd_inv in H end. subst.
    rewrite !poff_poff in *. repeat change (po (poff b1 ?x)) with (po b1 + x) in *. repeat change (po (poff b2 ?x)) with (po b2 + x) in *.
    split; auto. assert (M : (bl + len) mod SZ cfg = bl + len) by (apply Z.mod_small; lia). assert (M2 : (bl + len) mod SZ cfg2 = bl + len) by (apply Z.mod_small; lia). rewrite M, M2.
    split; [|split; [lia|]].
    2:{ unfold hcur. cbn [s_resp s_ctx c_cur set_cur set_r_body r_headers]. destruct (r_headers (s_resp s1)); auto; unfold poff; cbn [po]; lia. }
    split; [apply tcur; [lia|auto]|]. split; cbn [s_resp s_w].
    + assert (TR1 : tresp (a + (off + len)) (s_resp s1) (s_resp s2)) by (eapply tresp_mono; [|exact TR0]; lia).
      destruct TR1; constructor; cbn; auto. exists o. repeat split; auto; lia.
    + replace (po b2 + (a + off) - (po b2 + (o + bl))) with (po b1 + (a + off) - (po b1 + (o + bl))) in * by lia.
      destruct (0 <? po b1 + (a + off) - (po b1 + (o + bl))) eqn:GP.
      * unfold memmove in *. rewrite ?GP in *. match goal with H : bind _ _ = Ret ?x, H' : bind _ _ = Ret ?y |- tworld _ (set_mem _ ?x) (set_mem _ ?y) => inv_bind H; inv_bind H' end.
        repeat match goal with H : loadn _ _ _ = Ret _ |- _ => apply loadn_inv in H end. subst.
        rewrite (tw_load T _ _ (a + off) len TW) in * by lia.
        eapply tworld_write; [exact TW| | |eassumption|eassumption]; [lia|].
        rewrite bytes_at_len by (apply in_obj; [apply (tw_o2 _ _ _ TW)|lia..]). lia.
      * repeat match goal with H : Ret _ = Ret _ |- _ => injection H as <- end. destruct TW; constructor; auto.
  - injection H1 as <- <-. injection H2 as <- <-. split; auto. split; [|auto]. apply (twin_mono T hi); [lia|]. split; [|auto]. destruct TC; constructor; cbn; auto.
Qed.

(** ** One call of the parser *)
Lemma run_twin {S} (R : S -> phase -> Prop) (s0 : S) T a n t : 0 <= a -> a + n <= T -> T <= L -> forall ph hi pos s1 s2 e1 e2 p1 p2 q1 q2 s1' s2',
  conforms R n ph pos t -> twin T hi s1 s2 -> hcur s1 -> 0 <= pos <= n -> hi <= a + pos ->
  run_tree cfg (poff b1 a) s0 t s1 = Ret (e1, p1, q1, s1') -> run_tree cfg2 (poff b2 a) s0 t s2 = Ret (e2, p2, q2, s2') ->
  e1 = e2 /\ p1 = p2 /\ q1 = q2 /\ twin T (a + n) s1' s2' /\ (goes_on e1 = true -> exists ph', R q1 ph') /\ (e1 = HPE_PAUSED -> 0 <= p1 <= n).
Proof.
  intros Ha Hn HT. induction t as [e s|ev k IH]; intros ph hi pos s1 s2 e1 e2 p1 p2 q1 q2 s1' s2' CF TW HC Hp Hh H1 H2; cbn [run_tree conforms] in *.
  - injection H1 as <- <- <- <-. injection H2 as <- <- <- <-. destruct CF as (NP&G). do 3 (split; auto). split; [apply (twin_mono T hi); [lia|auto]|]. split; [eauto|congruence].
  - destruct CF as (OK&CF). inv_bind H1. destruct a0 as [r1 x1]. inv_bind H2. destruct a0 as [r2 x2].
    assert (TW0 : twin T hi (mkst (s_ctx s1) (s_resp s1) (log (s_w s1) (TEvent ev))) (mkst (s_ctx s2) (s_resp s2) (log (s_w s2) (TEvent ev)))).
    { destruct TW as (TC&TR&TX). split; [auto|]. split; [auto|]. apply tworld_log; [auto|reflexivity]. }
    destruct (cb_twin T hi a n pos ev _ _ _ _ _ _ TW0 HC Ha ltac:(lia) Hh Hn HT ltac:(lia) OK E E0) as (<-&TW1&Hle&HC1).
    assert (TW2 : twin T (a + ev_end pos ev) (mkst (s_ctx x1) (s_resp x1) (log (s_w x1) (TReply r1))) (mkst (s_ctx x2) (s_resp x2) (log (s_w x2) (TReply r1)))).
    { destruct TW1 as (TC&TR&TX). split; [auto|]. split; [auto|]. apply tworld_log; [auto|reflexivity]. }
    assert (Hge : pos <= ev_end pos ev) by (destruct ev; cbn [ev_ok ev_end] in *; lia).
    assert (EP : 0 <= ev_pos ev <= n) by (destruct ev; cbn [ev_ok ev_end ev_pos] in *; lia).
    destruct r1.
    + destruct (CF CbContinue (or_introl eq_refl)) as (ph'&_&CF'). eapply (IH CbContinue ph' (a + ev_end pos ev) (ev_end pos ev)); eauto; lia.
    + destruct (CF CbNoBody (or_intror eq_refl)) as (ph'&_&CF'). eapply (IH CbNoBody ph' (a + ev_end pos ev) (ev_end pos ev)); eauto; lia.
    + injection H1 as <- <- <- <-. injection H2 as <- <- <- <-. do 3 (split; auto). split; [apply (twin_mono T (a + ev_end pos ev)); [lia|auto]|]. split; [discriminate|auto].
    + injection H1 as <- <- <- <-. injection H2 as <- <- <- <-. do 3 (split; auto). split; [apply (twin_mono T (a + ev_end pos ev)); [lia|auto]|]. split; [discriminate|discriminate].
Qed.

(** Between parser calls: nothing parsed yet, or everything received so far has been parsed. *)
Definition fresh (r1 r2 : response) : Prop :=
  r_buf r1 = Some b1 /\ r_buf r2 = Some b2 /\ r_bufLen r1 = L /\ r_bufLen r2 = L /\ r_cb r1 = r_cb r2 /\ r_time r1 = r_time r2 /\
  r_opt r1 = r_opt r2 /\ r_clen r1 = r_clen r2 /\ r_hdone r1 = r_hdone r2.
Definition idle (c1 c2 : pctx) : Prop :=
  c1 = c2 /\ c_resp c1 = false /\ c_cur c1 = None /\ c_lf c1 = None /\ c_lv c1 = None /\ c_state c1 = HTTP_PARSING_NONE.
Definition quiet0 (w1 : world) : Prop := exists t1, w_tr w1 = base1 ++ t1 /\ received t1 = 0.
Definition pair (T : Z) (s1 s2 : cbst) : Prop :=
  T = 0 /\ idle (s_ctx s1) (s_ctx s2) /\ fresh (s_resp s1) (s_resp s2) /\ tworld T (s_w s1) (s_w s2) \/
  c_resp (s_ctx s1) = true /\ 0 < T /\ hcur s1 /\ twin T T s1 s2 /\ c_cur (s_ctx s1) = Some (poff b1 T) /\ c_cur (s_ctx s2) = Some (poff b2 T).

Lemma pair_twin T n s1 s2 : pair T s1 s2 -> 0 <= n -> T + n <= L -> bytes_at (w_mem (s_w s1)) b1 (T + n) = bytes_at (w_mem (s_w s2)) b2 (T + n) ->
  c_resp (s_ctx (reset s1)) = true /\ hcur (reset s1) /\ twin (T + n) T (reset s1) (reset s2) /\ c_cur (s_ctx (reset s1)) = Some (poff b1 T) /\ c_cur (s_ctx (reset s2)) = Some (poff b2 T).
Proof.
  intros [(->&(IC&R1&C1&L1&L2&_)&FR&TW)|(R1&PT&HC&(TC&TR&TW)&C1&C2)] Hn HL EQ.
  - unfold reset. rewrite <- IC, R1. cbn [s_ctx s_resp s_w c_resp c_cur]. destruct FR as (F1&F2&F3&F4&F5&F6&F7&F8&F9). rewrite F1, F2, !poff_0. split; auto. split; [exact Logic.I|]. split; [|auto].
    split; [|split].
    + rewrite L1, L2. constructor; cbn; auto. exists 0. rewrite !poff_0. conj; auto; lia.
    + constructor; cbn; auto.
    + destruct TW; constructor; cbn; auto; lia.
  - rewrite (reset_true s1) by auto. rewrite (reset_true s2) by (rewrite <- (tc_resp _ _ _ TC); auto). split; auto. split; auto. split; [|auto]. split; [auto|]. split; [auto|].
    destruct TW; constructor; auto; lia.
Qed.
Lemma parse_twin (P : parser) (R : PS P -> phase -> Prop) ps ph T n s1 s2 st1 st2 q1 q2 s1' s2' :
  (forall s ph d, R s ph -> conforms R (zlen d) ph 0 (p_exec P s d)) -> R ps ph ->
  pair T s1 s2 -> 0 <= n -> T + n <= L -> bytes_at (w_mem (s_w s1)) b1 (T + n) = bytes_at (w_mem (s_w s2)) b2 (T + n) ->
  parseHttpResponse cfg P ps s1 n = Ret (st1, q1, s1') -> parseHttpResponse cfg2 P ps s2 n = Ret (st2, q2, s2') ->
  st1 = st2 /\ q1 = q2 /\ twin (T + n) (T + n) s1' s2' /\ c_resp (s_ctx s1') = true /\
  (is_success st1 = true -> exists ph', R q1 ph') /\
  st1 <> HTTPNetworkError /\
  (st1 <> HTTPParserPaused -> hcur s1' /\ c_cur (s_ctx s1') = Some (poff b1 (T + n)) /\ c_cur (s_ctx s2') = Some (poff b2 (T + n))) /\
  (exists o, c_cur (s_ctx s1') = Some (poff b1 o) /\ c_cur (s_ctx s2') = Some (poff b2 o) /\ T <= o <= T + n).
Proof.
  intros PC RP PR Hn HL EQ H1 H2. rewrite parse_reset in H1, H2.
  destruct (pair_twin T n s1 s2 PR Hn HL EQ) as (R1&HC&TW&C1&C2).
  assert (HT : 0 <= T) by (destruct PR as [(->&_)|(_&X&_)]; lia).
  set (x1 := reset s1) in *. set (x2 := reset s2) in *. clearbody x1 x2. clear PR EQ.
  assert (R2 : c_resp (s_ctx x2) = true) by (destruct TW as (TC&_); rewrite <- (tc_resp _ _ _ TC); auto).
  unfold parseHttpResponse in H1, H2. rewrite R1, C1 in H1. rewrite R2, C2 in H2.
  inv_bind H1. inv_bind H2. apply loadn_inv in E, E0. pose proof TW as (_&_&TX).
  assert (DD : a0 = a). { subst. symmetry. apply (tw_load (T + n)); auto; lia. }
  assert (LD : zlen a = n). { subst a. apply bytes_at_len, in_obj; [apply (tw_o1 _ _ _ TX)|lia..]. }
  clear E E0. subst a0. inv_bind H1. destruct a0 as (((e1&p1)&z1)&y1). inv_bind H2. destruct a0 as (((e2&p2)&z2)&y2).
  assert (TW0 : twin (T + n) T (mkst (s_ctx x1) (s_resp x1) (log (s_w x1) (TParse (poff b1 T) a))) (mkst (s_ctx x2) (s_resp x2) (log (s_w x2) (TParse (poff b2 T) a)))).
  { destruct TW as (TC&TR&TY). split; [auto|]. split; [auto|]. apply tworld_log; [auto|]. split; [exists T; auto|reflexivity]. }
  pose proof (PC ps ph a RP) as CF. rewrite LD in CF.
  destruct (run_twin R ps (T + n) T n _ HT ltac:(lia) HL _ T 0 _ _ _ _ _ _ _ _ _ _ CF TW0 HC ltac:(lia) ltac:(lia) E E0) as (<-&<-&<-&TW1&GO&PA).
  inv_bind H1. inv_bind H2. injection H1 as <- <- <-. injection H2 as <- <- <-.
  assert (CUR : exists o, a0 = poff b1 o /\ a1 = poff b2 o /\ T <= o <= T + n /\ (e1 <> HPE_PAUSED -> o = T + n)).
  { destruct e1; repeat match goal with H : padd _ _ _ = Ret _ |- _ => apply padd_inv in H end; subst a0 a1; rewrite !poff_poff; eexists; (split; [reflexivity|]); (split; [reflexivity|]);
      try (split; [lia|auto]). specialize (PA eq_refl). split; [lia|congruence]. }
  destruct CUR as (o&->&->&Ho&NP). cbn [s_ctx set_cur c_cur c_resp].
  assert (TW2 : twin (T + n) (T + n) (mkst (set_cur (s_ctx y1) (Some (poff b1 o))) (s_resp y1) (log (s_w y1) (TParsed e1))) (mkst (set_cur (s_ctx y2) (Some (poff b2 o))) (s_resp y2) (log (s_w y2) (TParsed e1)))).
  { destruct TW1 as (TC&TR&TY). split; [apply tcur; [lia|auto]|]. split; [auto|]. apply tworld_log; [auto|reflexivity]. }
  split; auto. split; auto. split; [exact TW2|].
  split; [eapply run_tree_resp; [|exact E]; cbn; auto|]. split; [rewrite goes_on_success; auto|]. split; [destruct e1; discriminate|]. split; [|eauto].
  intros NS. assert (o = T + n) by (apply NP; intros ->; apply NS; reflexivity). subst o. split; [|auto].
  destruct TW2 as (_&TR2&_). pose proof (hcur_at _ _ _ (T + n) TR2 ltac:(lia)) as HX. unfold hcur. cbn [s_ctx s_resp set_cur c_cur] in *.
  destruct (r_headers (s_resp y1)); exact HX.
Qed.

(** ** recv and the clock *)
Lemma get_time_twin T tf E w1 w2 t1 t2 w1' w2' : tworld T w1 w2 -> get_time E tf w1 = Ret (t1, w1') -> get_time E tf w2 = Ret (t2, w2') ->
  t1 = t2 /\ tworld T w1' w2' /\ w_mem w1' = w_mem w1 /\ w_mem w2' = w_mem w2.
Proof.
  intros TW H1 H2. destruct tf; cbn [get_time] in *; [discriminate| |]; injection H1 as <- <-; injection H2 as <- <-; [auto|].
  rewrite (tw_nt _ _ _ TW). split; auto. split; [|auto]. destruct TW as [A1 A2 A3 A4 A7 A5 A6 (t1&t2&E1&E2&F)]. constructor; cbn [w_mem w_ns w_nr w_nt w_tr]; auto.
  exists (t1 ++ [TTime (u32 (e_time E (w_nt w2)))]), (t2 ++ [TTime (u32 (e_time E (w_nt w2)))]). rewrite E1, E2, <- !app_assoc. do 2 (split; auto). apply Forall2_app; [auto|]. constructor; [reflexivity|constructor].
Qed.
Lemma recv_twin T room n d w1 w2 m1 m2 : tworld T w1 w2 -> storen (w_mem w1) (poff b1 T) d = Ret m1 -> storen (w_mem w2) (poff b2 T) d = Ret m2 -> T + zlen d <= L ->
  (0 < n -> zlen d = n) -> let w1' := w_after_recv w1 m1 (poff b1 T) room n d in let w2' := w_after_recv w2 m2 (poff b2 T) room n d in
  tworld T w1' w2' /\ (0 < n -> bytes_at (w_mem w1') b1 (T + n) = bytes_at (w_mem w2') b2 (T + n)).
Proof.
  intros TW H1 H2 HL Hd w1' w2'. pose proof (zlen_nonneg d) as Zd. destruct TW as [O1 O2 HT EQ NS NR NT (t1&t2&E1&E2&F)].
  rewrite storen_ok in H1 by (apply in_obj; auto; lia). rewrite storen_ok in H2 by (apply in_obj; auto; lia). injection H1 as <-. injection H2 as <-.
  assert (Q1 : object (w_mem w1) (poff b1 T) (zlen d)) by (apply in_obj; auto; lia).
  assert (Q2 : object (w_mem w2) (poff b2 T) (zlen d)) by (apply in_obj; auto; lia).
  assert (LOW : forall m b, object m b L -> object m (poff b T) (zlen d) -> bytes_at (write m (poff b T) d) b T = bytes_at m b T).
  { intros m b (P1&P2&P3) Q. unfold bytes_at. rewrite blk_write by auto. change (pb (poff b T)) with (pb b). rewrite Nat.eqb_refl. change (po (poff b T)) with (po b + T).
    apply slice_splice_disj; lia. }
  assert (ALL : forall m b, object m b L -> object m (poff b T) (zlen d) -> bytes_at (write m (poff b T) d) b (T + zlen d) = bytes_at m b T ++ d).
  { intros m b P Q. rewrite bytes_at_app by (destruct P as (?&?&?); lia). rewrite LOW by auto. f_equal. change (mkptr (pb b) (po b + T)) with (poff b T). apply bytes_at_write_same; auto. }
  split.
  - constructor; cbn [w1' w2' w_after_recv w_mem w_ns w_nr w_nt w_tr]; auto.
    + apply object_write; auto.
    + apply object_write; auto.
    + rewrite !LOW by auto. auto.
    + exists (t1 ++ [TRecv (poff b1 T) room n d]), (t2 ++ [TRecv (poff b2 T) room n d]). rewrite E1, E2, <- !app_assoc. do 2 (split; auto).
      apply Forall2_app; [auto|]. constructor; [|constructor]. split; [exists T; auto|auto].
  - intros Hn. specialize (Hd Hn). rewrite <- Hd. cbn [w1' w2' w_after_recv w_mem]. rewrite !ALL by auto. rewrite EQ. reflexivity.
Qed.

(** ** The receiving loop *)
Definition fin (st : status) (T : Z) (s1 s2 s1' s2' : cbst) : Prop :=
  T = 0 /\ quiet0 (s_w s1') /\ c_resp (s_ctx s1) = false /\ idle (s_ctx s1') (s_ctx s2') /\ fresh (s_resp s1') (s_resp s2') /\ tworld T (s_w s1') (s_w s2') /\ s_resp s1' = s_resp s1 /\ s_resp s2' = s_resp s2 \/
  c_resp (s_ctx s1') = true /\ twin T T s1' s2' /\ (exists o, c_cur (s_ctx s1') = Some (poff b1 o) /\ c_cur (s_ctx s2') = Some (poff b2 o) /\ 0 <= o <= T) /\ (0 < T \/ st <> HTTPNetworkError).
Definition defd {A} (x : res A) : Prop := match x with Ret _ | More _ => True | _ => False end.
Lemma defd_bind {A C} (x : res A) (f : A -> res C) : nomore x -> defd (bind x f) -> exists a, x = Ret a /\ defd (f a).
Proof. intros N H. destruct x; cbn [bind defd] in H; try contradiction; [eauto|destruct (N _ eq_refl)]. Qed.
Ltac inv_def H :=
  match type of H with defd (bind ?x ?f) =>
    let N := fresh "N" in assert (N : nomore x) by (first [apply nomore_parse | nomore]);
    apply (defd_bind x f N) in H; clear N;
    let a := fresh "a" in let E := fresh "E" in destruct H as (a&E&H); rewrite ?E; cbn [bind]
  end.
Definition both (P1 : status * Z * cbst -> status * Z * cbst -> Prop) (x y : res (status * Z * cbst)) : Prop :=
  match x, y with Ret a, Ret b => P1 a b | More w1, More w2 => exists T, tworld T w1 w2 | _, _ => False end.
Lemma pair_facts T s1 s2 : pair T s1 s2 -> tworld T (s_w s1) (s_w s2) /\ r_buf (s_resp s1) = Some b1 /\ r_buf (s_resp s2) = Some b2 /\
  r_bufLen (s_resp s1) = L /\ r_bufLen (s_resp s2) = L /\ r_time (s_resp s1) = r_time (s_resp s2) /\ c_state (s_ctx s1) = c_state (s_ctx s2).
Proof.
  intros [(->&(IC&_)&(F1&F2&F3&F4&F5&F6&_)&TW)|(R1&PT&HC&(TC&TR&TW)&C1&C2)].
  - rewrite IC. conj; auto.
  - destruct TR, TC. conj; auto.
Qed.
Lemma pair_world T s1 s2 w1 w2 : pair T s1 s2 -> tworld T w1 w2 -> pair T (mkst (s_ctx s1) (s_resp s1) w1) (mkst (s_ctx s2) (s_resp s2) w2).
Proof.
  intros [(->&IC&F&TW)|(R1&PT&HC&(TC&TR&TW)&C1&C2)] H.
  - left. cbn [s_ctx s_resp s_w]. conj; auto.
  - right. cbn [s_ctx s_resp s_w]. split; auto. split; auto. split; auto. split; [|auto]. split; auto.
Qed.
Lemma pair_fin st T s1 s2 w1 w2 : pair T s1 s2 -> (c_resp (s_ctx s1) = false -> quiet0 w1) -> tworld T w1 w2 -> fin st T s1 s2 (mkst (s_ctx s1) (s_resp s1) w1) (mkst (s_ctx s2) (s_resp s2) w2).
Proof.
  intros [(->&IC&F&TW)|(R1&PT&HC&(TC&TR&TW)&C1&C2)] HQ H.
  - left. cbn [s_ctx s_resp s_w]. destruct IC as (?&?&?). conj; auto. split; auto.
  - right. cbn [s_ctx s_resp s_w]. split; auto. split; [split; auto|]. split; [exists T; conj; auto; lia|auto].
Qed.
Lemma loop_twin (E : env) (P : parser) (R : PS P -> phase -> Prop) retry :
  (forall s ph d, R s ph -> conforms R (zlen d) ph 0 (p_exec P s d)) -> recv_contract E -> recv_faithful E ->
  forall fuel total last ps ph s1 s2, R ps ph -> pair total s1 s2 -> (c_resp (s_ctx s1) = false -> quiet0 (s_w s1)) -> total < L ->
  defd (recv_loop fuel cfg E P retry total last ps s1) -> defd (recv_loop fuel cfg2 E P retry total last ps s2) ->
  both (fun '(st1, T1, s1') '(st2, T2, s2') => st1 = st2 /\ T1 = T2 /\ 0 <= T1 <= L /\ fin st1 T1 s1 s2 s1' s2')
    (recv_loop fuel cfg E P retry total last ps s1) (recv_loop fuel cfg2 E P retry total last ps s2).
Proof.
  intros PC RC RF. induction fuel as [|fuel IH]; intros total last ps ph s1 s2 RP PR Q0 HT D1 D2; cbn [recv_loop] in *.
  { cbn [both]. exists total. apply (pair_facts _ _ _ PR). }
  destruct (pair_facts _ _ _ PR) as (TW&B1&B2&L1&L2&TM&CS). pose proof (tw_T _ _ _ TW) as HT0.
  rewrite B1, B2, L1, L2, <- (tw_nr _ _ _ TW), <- TM in *.
  inv_def D1. inv_def D2. apply padd_inv in E0, E1. subst a a0.
  assert (RM : (L - total) mod SZ cfg = L - total) by (apply Z.mod_small; lia). assert (RM2 : (L - total) mod SZ cfg2 = L - total) by (apply Z.mod_small; lia). rewrite RM, RM2 in *.
  pose proof (RC (w_nr (s_w s1)) (L - total) ltac:(lia)) as (C1&C2). pose proof (RF (w_nr (s_w s1)) (L - total)) as C3.
  destruct (e_recv E (w_nr (s_w s1)) (L - total)) as [n d]. cbn [fst snd] in C1, C2, C3.
  inv_def D1. inv_def D2. cbn [s_ctx s_w] in *.
  destruct (recv_twin total (L - total) n d (s_w s1) (s_w s2) a a0 TW E0 E1 ltac:(lia) C3) as (TW1&EQ1). cbn zeta in *.
  set (v1 := w_after_recv (s_w s1) a (poff b1 total) (L - total) n d) in *.
  set (v2 := w_after_recv (s_w s2) a0 (poff b2 total) (L - total) n d) in *.
  assert (Q1 : n <= 0 -> c_resp (s_ctx s1) = false -> quiet0 v1).
  { intros Hn CR. destruct (Q0 CR) as (t1&X1&X2). exists (t1 ++ [TRecv (poff b1 total) (L - total) n d]). unfold v1. cbn [w_after_recv w_tr]. rewrite X1, <- app_assoc. split; auto. rewrite received_app0. cbn [received]. lia. }
  clearbody v1 v2.
  destruct (n <? 0) eqn:NN.
  { cbn [both]. conj; auto; [lia|lia|]. apply pair_fin; auto. apply Q1. lia. }
  inv_def D1. inv_def D2. destruct a1 as [t1 w1]. destruct a2 as [t2 w2].
  destruct (get_time_twin total _ E _ _ _ _ _ _ TW1 E2 E3) as (<-&TW2&M1&M2). rewrite <- M1, <- M2 in EQ1. cbn [s_ctx s_w] in *.
  assert (Q2 : quiet0 v1 -> quiet0 w1).
  { intros (x&X1&X2). pose proof (get_time_keeps _ _ _ _ _ E2) as W. exists (x ++ tick (r_time (s_resp s1)) t1). rewrite W, X1, <- app_assoc. split; auto. rewrite received_app0, X2. destruct (r_time (s_resp s1)); reflexivity. }
  destruct (0 <? n) eqn:NP.
  - assert (MT : (total + n) mod SZ cfg = total + n) by (apply Z.mod_small; lia). assert (MT2 : (total + n) mod SZ cfg2 = total + n) by (apply Z.mod_small; lia). rewrite MT, MT2 in *.
    inv_def D1. inv_def D2. destruct a1 as ((st1&q1)&x1). destruct a2 as ((st2&q2)&x2).
    destruct (parse_twin P R ps ph total n _ _ _ _ _ _ _ _ PC RP (pair_world _ _ _ _ _ PR TW2) ltac:(lia) ltac:(lia) (EQ1 ltac:(lia)) E4 E5) as (<-&<-&TW3&R3&GO&NE&CU&(o&O1&O2&O3)).
    pose proof TW3 as (TC3&TR3&TX3). rewrite <- (tc_state _ _ _ TC3), (tr_len1 _ _ _ TR3), (tr_len2 _ _ _ TR3) in *.
    destruct (is_success st1 && _ && _) eqn:CO.
    + apply andb_prop in CO. destruct CO as (CO&CL). apply andb_prop in CO. destruct CO as (CO&CM).
      destruct (GO CO) as (ph'&RP'). destruct CU as (U0&U1&U2); [intros ->; discriminate|].
      assert (PR' : pair (total + n) x1 x2) by (right; conj; auto; lia).
      specialize (IH (total + n) t1 q1 ph' x1 x2 RP' PR' ltac:(congruence) ltac:(lia) D1 D2). unfold both in *.
      destruct (recv_loop fuel cfg E P retry (total + n) t1 q1 x1) as [((s&T1)&y1)| | |w1'], (recv_loop fuel cfg2 E P retry (total + n) t1 q1 x2) as [((s'&T2)&y2)| | |w2']; auto.
      destruct IH as (->&->&HB&F). conj; auto; try lia. destruct F as [(_&_&F&_)|F]; [congruence|right; auto].
    + cbn [both]. conj; auto; try lia. right. split; auto. split; auto. split; [exists o; conj; auto; lia|auto].
  - assert (Q3 : c_resp (s_ctx s1) = false -> quiet0 w1) by (intros; apply Q2, Q1; auto; lia).
    destruct (retry <=? u32 (t1 - last)).
    + inv_def D1. inv_def D2. destruct a1 as ((st1&q1)&x1). destruct a2 as ((st2&q2)&x2).
      destruct (parse_twin P R ps ph total 0 _ _ _ _ _ _ _ _ PC RP (pair_world _ _ _ _ _ PR TW2) ltac:(lia) ltac:(lia) ltac:(rewrite Z.add_0_r; apply (tw_eq _ _ _ TW2)) E4 E5) as (<-&<-&TW3&R3&GO&NE&CU&(o&O1&O2&O3)).
      rewrite Z.add_0_r in *. cbn [both]. conj; auto; try lia. right. split; auto. split; auto. split; [exists o; conj; auto; lia|auto].
    + rewrite <- CS in *. destruct (_ && _) eqn:CO.
      * specialize (IH total last ps ph _ _ RP (pair_world _ _ _ _ _ PR TW2) Q3 ltac:(lia) D1 D2). unfold both in *.
        destruct (recv_loop fuel cfg E P retry total last ps (mkst (s_ctx s1) (s_resp s1) w1)) as [((s&T1)&y1)| | |w1'], (recv_loop fuel cfg2 E P retry total last ps (mkst (s_ctx s2) (s_resp s2) w2)) as [((s'&T2)&y2)| | |w2']; auto.
      * cbn [both]. conj; auto; try lia. apply pair_fin; auto.
Qed.

Lemma init_ctx m rh rb n req c : holds m rh rb n req -> 16 <= zlen req -> initializeParsingContextForFirstResponse m rh = Ret c ->
  c = mkctx HTTP_PARSING_NONE false (beqb (slice req 0 4) (B "HEAD")) None None 0 None 0.
Proof.
  intros (H1&H2&H3&H4&H5) LQ E1. unfold initializeParsingContextForFirstResponse in E1. rewrite H1 in E1.
  assert (LR : zlen req = rh_len rh) by (rewrite H5; apply bytes_at_len; destruct H3 as (?&?&?); repeat split; lia).
  replace (HTTP_MINIMUM_REQUEST_LINE_LENGTH <=? rh_len rh) with true in E1 by (unfold HTTP_MINIMUM_REQUEST_LINE_LENGTH; lia).
  cbn [assert_at bind] in E1. change HTTP_METHOD_HEAD with (B "HEAD") in *.
  rewrite strncmp_eq_ok in E1 by (destruct H3 as (?&?&?); change (zlen (B "HEAD")) with 4; repeat split; lia).
  cbn [bind] in E1. injection E1 as <-. f_equal. change (zlen (B "HEAD")) with 4. f_equal.
  rewrite H5. unfold bytes_at. rewrite slice_slice by (destruct H3 as (?&?&?); lia). f_equal; lia.
Qed.

(** ** The whole receiving call *)
Lemma receive_twin fuel E P t r1 r2 rh1 rh2 req w1 w2 :
  recv_setup cfg E P t r1 rh1 b1 L req w1 -> recv_setup cfg2 E P t r2 rh2 b2 L req w2 -> recv_faithful E ->
  fresh r1 r2 -> tworld 0 w1 w2 -> w_tr w1 = base1 ->
  defd (ReceiveAndParseHttpResponse fuel cfg E P (Some t) (Some r1) (Some rh1) w1) ->
  defd (ReceiveAndParseHttpResponse fuel cfg2 E P (Some t) (Some r2) (Some rh2) w2) ->
  match ReceiveAndParseHttpResponse fuel cfg E P (Some t) (Some r1) (Some rh1) w1, ReceiveAndParseHttpResponse fuel cfg2 E P (Some t) (Some r2) (Some rh2) w2 with
  | Ret (st1, o1, w1'), Ret (st2, o2, w2') => st1 = st2 /\ exists T r1' r2', o1 = Some r1' /\ o2 = Some r2' /\ tworld T w1' w2' /\ (tresp T r1' r2' \/ quiet0 w1' /\ r1' = r1 /\ r2' = r2)
  | More w1', More w2' => exists T, tworld T w1' w2'
  | _, _ => False
  end.
Proof.
  intros S1 S2 RF FR TW WT D1 D2.
  destruct S1 as (T1&RC&(R&RI&PC)&TN1&_&_&_&HL&(rb1&n1&H1)&LQ). destruct S2 as (_&_&_&_&_&_&_&_&(rb2&n2&H2)&_).
  unfold ReceiveAndParseHttpResponse in *. pose proof FR as (F1&F2&F3&F4&F5&F6&F7&F8&F9). rewrite <- F6, HTO in *.
  inv_def D1. clear E0. inv_def D2. clear E0. inv_def D1.
  inv_def D2.
  apply (init_ctx _ _ _ _ _ _ H1 LQ) in E0. apply (init_ctx _ _ _ _ _ _ H2 LQ) in E1. subst a1 a2.
  inv_def D1. inv_def D2. destruct a1 as [u1 v1]. destruct a2 as [u2 v2].
  destruct (get_time_twin 0 _ E _ _ _ _ _ _ TW E0 E1) as (<-&TW1&_).
  set (c := mkctx _ _ _ _ _ _ _ _) in *.
  assert (PR : pair 0 (mkst c r1 v1) (mkst c r2 v2)).
  { left. cbn [s_ctx s_resp s_w]. conj; auto. split; auto. }
  assert (QQ : c_resp (s_ctx (mkst c r1 v1)) = false -> quiet0 (s_w (mkst c r1 v1))).
  { intros _. destruct (get_time_tr _ _ _ _ _ E0) as (x&X1&X2). exists x. cbn [s_w]. rewrite X1, WT. auto. }
  set (retry := match r_time r1 with TZero => 0 | _ => RECV_TO cfg end) in *.
  pose proof (loop_twin E P R retry PC RC RF fuel 0 u1 (p_init P) PhIdle _ _ RI PR QQ ltac:(lia)) as LT.
  assert (DD : forall A C (x : res A) (f : A -> res C), defd (bind x f) -> defd x) by (intros A C [] f; cbn; auto).
  specialize (LT (DD _ _ _ _ D1) (DD _ _ _ _ D2)). unfold both in LT.
  destruct (recv_loop fuel cfg E P retry 0 u1 (p_init P) (mkst c r1 v1)) as [((st1&Q1)&y1)| | |w1'], (recv_loop fuel cfg2 E P retry 0 u1 (p_init P) (mkst c r2 v2)) as [((st2&Q2)&y2)| | |w2']; auto; try contradiction.
  destruct LT as (<-&<-&HB&FI). cbn [bind] in *.
  inv_def D1. inv_def D2. destruct a1 as [sa ra]. destruct a2 as [sb rb].
  assert (K : sa = sb /\ c_state (s_ctx y1) = c_state (s_ctx y2) /\ tworld Q1 (s_w y1) (s_w y2) /\ r_bufLen ra = L /\ r_bufLen rb = L /\ r_opt ra = r_opt rb /\ (tresp Q1 ra rb \/ quiet0 (s_w y1) /\ ra = r1 /\ rb = r2)).
  { destruct FI as [(->&QU&_&(IC&_&IC2&_)&_&TX&Y1&Y2)|(_&(TC&TR&TX)&(o&O1&O2&O3)&NE)].
    - cbn [s_resp] in Y1, Y2. rewrite Y1 in E2. rewrite Y2 in E3. rewrite <- IC, IC2 in E3. rewrite IC2 in E2. rewrite <- F7 in E3.
      rewrite <- IC. destruct st1; try (injection E2 as <- <-; injection E3 as <- <-; conj; auto; fail).
      destruct (negb _); [discriminate|]. injection E2 as <- <-; injection E3 as <- <-; conj; auto.
    - rewrite O1, (tr_buf1 _ _ _ TR) in E2. rewrite O2, (tr_buf2 _ _ _ TR), <- (tr_opt _ _ _ TR) in E3.
      assert (KK : ra = s_resp y1 -> rb = s_resp y2 -> sa = sb -> sa = sb /\ c_state (s_ctx y1) = c_state (s_ctx y2) /\ tworld Q1 (s_w y1) (s_w y2) /\ r_bufLen ra = L /\ r_bufLen rb = L /\ r_opt ra = r_opt rb /\ (tresp Q1 ra rb \/ quiet0 (s_w y1) /\ ra = r1 /\ rb = r2)).
      { intros -> -> ->. pose proof (tc_state _ _ _ TC). pose proof (tr_len1 _ _ _ TR). pose proof (tr_len2 _ _ _ TR). pose proof (tr_opt _ _ _ TR). conj; auto. }
      destruct st1; try (injection E2 as <- <-; injection E3 as <- <-; apply KK; auto; fail).
      destruct (negb _); [|injection E2 as <- <-; injection E3 as <- <-; apply KK; auto].
      inv_bind E2. inv_bind E3. injection E2 as <- <-. injection E3 as <- <-. apply psub_inv in E4, E5. subst a1 a2.
      change (po (poff b1 o)) with (po b1 + o). change (po (poff b2 o)) with (po b2 + o).
      replace (po b2 + o - po b2) with (po b1 + o - po b1) by lia. replace (po b1 + o - po b1) with o by lia.
      rewrite !(Z.mod_small (Q1 - o)) by lia. destruct TR. split; auto. split; [apply (tc_state _ _ _ TC)|]. split; auto.
      cbn [set_r_body r_bufLen r_opt]. conj; auto. left. constructor; cbn; auto. exists o. conj; auto; lia. }
  destruct K as (<-&CS&TX&L1&L2&OP&K). clear E2 E3.
  destruct (is_success sa).
  - inv_def D1. inv_def D2. unfold getFinalResponseStatus in E2, E3. rewrite <- CS, L2, <- OP in E3. rewrite L1 in E2. rewrite E2 in E3. injection E3 as <-.
    split; auto. exists Q1, ra, rb. auto.
  - split; auto. exists Q1, ra, rb. auto.
Qed.
End Twin.
