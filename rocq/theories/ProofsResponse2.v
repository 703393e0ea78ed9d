(** ProofsResponse2.v — the receive loop: its runs, and the invariant at their end. *)
From Verif Require Import Base Lib ModelRequest ModelSend ModelResponse SpecRequest SpecSend SpecResponse ProofsSend ProofsSend2 ProofsResponse.

(** ** The parser calls neither the transport nor the clock *)
Definition cnt (w w' : world) : Prop := w_ns w' = w_ns w /\ w_nr w' = w_nr w /\ w_nt w' = w_nt w.
Lemma cnt_refl w : cnt w w.
Proof. repeat split. Qed.
Lemma cnt_trans w1 w2 w3 : cnt w1 w2 -> cnt w2 w3 -> cnt w1 w3.
Proof. unfold cnt. intuition congruence. Qed.
Lemma pch_cnt cfg s s' : processCompleteHeader cfg s = Ret s' -> cnt (s_w s) (s_w s').
Proof.
  unfold processCompleteHeader. intros H. inv_bind H.
  destruct (c_lf (s_ctx s)), (c_lv (s_ctx s)); try (injection H as <-; apply cnt_refl).
  inv_bind H. destruct (r_cb (s_resp s)); [|injection H as <-; apply cnt_refl].
  inv_bind H. inv_bind H. injection H as <-. repeat split.
Qed.
Lemma callback_cnt cfg start ev s r s' : callback cfg start ev s = Ret (r, s') -> cnt (s_w s) (s_w s').
Proof.
  destruct ev; cbn [callback]; intros H.
  - injection H as <- <-. apply cnt_refl.
  - unfold onStatus in H. inv_bind H. inv_bind H. injection H as <- <-. apply cnt_refl.
  - unfold onStatusComplete in H. inv_bind H. injection H as <- <-. apply cnt_refl.
  - unfold onHeaderField in H. inv_bind H. inv_bind H. inv_bind H. apply pch_cnt in E1. cbn [s_w] in E1.
    destruct (c_lf (s_ctx a1)); [inv_bind H|]; injection H as <- <-; auto.
  - unfold onHeaderValue in H. inv_bind H. inv_bind H. injection H as <- <-. apply cnt_refl.
  - unfold onHeadersComplete in H. inv_bind H. destruct (c_cur (s_ctx s)); [|discriminate].
    destruct (r_buf (s_resp s)); [|discriminate]. inv_bind H. inv_bind H. inv_bind H. inv_bind H. inv_bind H. inv_bind H.
    inv_bind H. apply pch_cnt in E6. injection H as <- <-. auto.
  - unfold onBody in H. inv_bind H. destruct (r_buf (s_resp s)); [|discriminate]. inv_bind H. inv_bind H. inv_bind H. inv_bind H. inv_bind H.
    destruct (match r_body (s_resp s) with Some b => _ | None => _ end). inv_bind H. inv_bind H. inv_bind H. inv_bind H.
    injection H as <- <-. repeat split.
  - injection H as <- <-. apply cnt_refl.
Qed.
Lemma run_tree_cnt cfg start {S} (s0 : S) t : forall s e pos s1 s', run_tree cfg start s0 t s = Ret (e, pos, s1, s') -> cnt (s_w s) (s_w s').
Proof.
  induction t as [e0 sd|ev k IH]; intros s e pos s1 s' H; cbn [run_tree] in H.
  - injection H as <- <- <- <-. apply cnt_refl.
  - inv_bind H. destruct a as [r s2]. apply callback_cnt in E. cbn [s_w log] in E.
    set (s3 := mkst (s_ctx s2) (s_resp s2) (log (s_w s2) (TReply r))) in H.
    assert (Y : cnt (s_w s) (s_w s3)) by exact E.
    clearbody s3. destruct r; try (injection H as <- <- <- <-; auto); eapply cnt_trans; eauto.
Qed.
Definition reset (s : cbst) : cbst :=
  if c_resp (s_ctx s) then s
  else mkst (mkctx (c_state (s_ctx s)) true (c_head (s_ctx s)) (r_buf (s_resp s)) (c_lf (s_ctx s)) (c_lfl (s_ctx s)) (c_lv (s_ctx s)) (c_lvl (s_ctx s)))
            (set_r_flags (set_r_hcount (set_r_headers (set_r_body (set_r_status (s_resp s) 0) None 0) None 0) 0) 0)
            (s_w s).
Lemma parse_reset cfg P ps s n : parseHttpResponse cfg P ps s n = parseHttpResponse cfg P ps (reset s) n.
Proof.
  unfold reset. destruct (c_resp (s_ctx s)) eqn:E; auto.
  unfold parseHttpResponse at 1. rewrite E. reflexivity.
Qed.

(** A parser call in the log. *)
Definition pblock (k : kst) (p : ptr) (b : bytes) (e : errno) (blk : list tev) : Prop :=
  exists evs, events k evs /\ blk = TParse p b :: evs ++ [TParsed e] /\ (In (TReply CbPause) evs -> e = HPE_PAUSED).

Lemma parse_inv cfg k (P : parser) (R : PS P -> phase -> Prop) ps s ph v D n : k_ok cfg k ->
  (forall s ph d, R s ph -> conforms R (zlen d) ph 0 (p_exec P s d)) ->
  inv cfg k ph (zlen (v_stream v)) (zlen (v_stream v)) v D s -> R ps ph ->
  0 <= n -> zlen (v_stream v) + n <= k_L k -> (n = 0 -> zlen (v_stream v) < k_L k) ->
  let p := poff (k_buf k) (zlen (v_stream v)) in let b := bytes_at (w_mem (s_w s)) p n in
  exists e ps' s' blk ph' G', let v' := fold_left view_step blk v in
    parseHttpResponse cfg P ps s n = Ret (processLlhttpError e, ps', s') /\
    w_tr (s_w s') = w_tr (s_w s) ++ blk /\ cnt (s_w s) (s_w s') /\ pblock k p b e blk /\
    v_stream v' = v_stream v ++ b /\ zlen b = n /\ v_start v' = zlen (v_stream v) /\
    inv cfg k ph' G' G' v' (D ++ delivered blk) s' /\
    (goes_on e = true -> R ps' ph') /\
    (e <> HPE_PAUSED -> G' = zlen (v_stream v')) /\
    (e = HPE_PAUSED -> dnp k = true /\ v_msg v' = MsgBegun /\ exists hl, v_hend v' = Some (hl, G')) /\
    (dnp k = true -> e <> HPE_PAUSED -> v_hend v' = v_hend v).
Proof.
  intros K PO I RP Hn HL Hz p b. set (n0 := zlen (v_stream v)) in *.
  pose proof (inv_object _ _ _ _ _ _ _ _ K I) as O.
  assert (Z0 : 0 <= n0) by apply zlen_nonneg.
  assert (OB : object (w_mem (s_w s)) p n) by (eapply in_buf; eauto).
  assert (Lb : zlen b = n) by (apply bytes_at_len; auto).
  unfold parseHttpResponse. rewrite (i_resp _ _ _ _ _ _ _ _ I), (i_cur _ _ _ _ _ _ _ _ I). fold p.
  rewrite loadn_ok by auto. cbn [bind]. fold b.
  set (v1 := view_step v (TParse p b)).
  set (s1 := mkst (s_ctx s) (s_resp s) (log (s_w s) (TParse p b))).
  assert (V1 : v_stream v1 = v_stream v ++ b /\ v_start v1 = n0 /\ v_last v1 = v_last v) by (repeat split).
  destruct V1 as (V1&V2&V3).
  assert (I1 : inv cfg k ph n0 n0 v1 D s1).
  { destruct I as [I Y]. constructor; [|destruct Y; constructor; auto]. destruct I. constructor; cbn; auto.
    - rewrite zlen_app, Lb. fold n0. lia.
    - lia.
    - intros hi Hh. rewrite i_low by auto. symmetry. pose proof (zlen_nonneg (v_body v)). apply slice_of_app_l; fold n0; rewrite ?Hh; destruct (v_bstart v) as [bo|]; lia.
    - rewrite zlen_app, Lb. fold n0. rewrite slice_of_app_r by (rewrite ?Lb; fold n0; lia).
      fold n0. replace (n0 + n - n0) with n by lia. replace (n0 - n0) with 0 by lia.
      rewrite slice_full by auto. reflexivity.
    - intros x Hx. destruct (i_n0 x Hx) as (N1&N2&N3&N4). pose proof (zlen_nonneg x). fold n0 in N3, N4. split; [auto|]. split; [auto|]. split; [auto|]. rewrite slice_of_app_l by (fold n0; lia). exact N4.
    - intros x Hx. destruct (i_x0 x Hx) as (N1&N2&N3&N4). pose proof (zlen_nonneg x). fold n0 in N3, N4. split; [auto|]. split; [auto|]. split; [auto|]. rewrite slice_of_app_l by (fold n0; lia). exact N4.
    - rewrite zlen_app, Lb. fold n0. eapply locs_more; [|exact i_locs]. fold n0. lia.
    - intros X. rewrite text_more by auto. auto.
    - intros bo o q Hb Ho Hq Hl. rewrite Hb in i_body. destruct i_body as (_&_&B1&B2&_). fold n0 in B2. pose proof (zlen_nonneg (v_body v)) as ZB. destruct O as (O1&O2&O3).
      set (e := bo + zlen (v_body v)) in *. assert (EL : zlen (v_stream v ++ b) = n0 + n) by (rewrite zlen_app, Lb; reflexivity).
      eapply tail_piece with (G := e); try lia. rewrite EL.
      replace (n0 + n - e) with (n0 - e + n) by lia. rewrite bytes_at_app by (unfold poff; cbn [po]; lia). rewrite poff_poff. replace (e + (n0 - e)) with n0 by lia. fold p b.
      rewrite (i_mid bo e (n0 - e) Hb) by (fold n0; lia). rewrite slice_app by lia. replace (e + (n0 - e)) with n0 by lia.
      rewrite (slice_of_app_l _ _ e) by (fold n0; lia). rewrite (slice_of_app_r _ _ n0) by (fold n0; lia). fold n0. rewrite Z.sub_diag. f_equal. symmetry. apply slice_full. auto.
    - rewrite handed_app. cbn [handed]. rewrite app_nil_r. auto. }
  assert (MX : Z.max (v_last v1) (v_start v1) = n0) by (rewrite V2, V3; pose proof (i_C _ _ _ _ _ _ _ _ I); lia).
  rewrite <- MX in I1 at 2.
  destruct (run_tree_inv cfg k R ps (p_exec P ps b) K ph n0 v1 D s1 I1) as (e&epos&ps'&s'&evs&ph'&G'&Y1&Y2&Y3&Y4&Y5&Y6&Y7&Y8&Y9&Y10).
  { rewrite V1, V2, zlen_app. fold n0. replace (n0 + zlen b - n0) with (zlen b) by lia. rewrite Z.sub_diag. auto. }
  rewrite V2 in Y1. fold p in Y1. rewrite Y1. cbn [bind].
  pose proof (run_tree_cnt _ _ _ _ _ _ _ _ _ Y1) as CN.
  set (vf := fold_left view_step evs v1) in *.
  assert (VF : fold_left view_step (TParse p b :: evs ++ [TParsed e]) v = vf).
  { cbn [fold_left]. rewrite fold_left_app. reflexivity. }
  assert (DF : delivered (TParse p b :: evs ++ [TParsed e]) = delivered evs).
  { cbn [delivered]. rewrite delivered_app. cbn [delivered]. apply app_nil_r. }
  assert (VS : v_stream vf = v_stream v ++ b) by (rewrite Y5; auto).
  assert (LS : zlen (v_stream vf) = n0 + n) by (rewrite VS, zlen_app, Lb; auto).
  pose proof (inv_object _ _ _ _ _ _ _ _ K Y4) as O2.
  pose proof (i_pos _ _ _ _ _ _ _ _ Y4) as IP. pose proof (i_C _ _ _ _ _ _ _ _ Y4) as IC.
  assert (FIN : forall G2 cur, cur = poff p (G2 - n0) -> G' <= G2 <= n0 + n ->
     inv cfg k ph' G2 G2 vf (D ++ delivered (TParse p b :: evs ++ [TParsed e]))
       (mkst (set_cur (s_ctx s') (Some cur)) (s_resp s') (log (s_w s') (TParsed e)))).
  { intros G2 cur -> HG. rewrite DF. replace (poff p (G2 - n0)) with (poff (k_buf k) G2) by (unfold p; rewrite poff_poff; f_equal; lia).
    apply (inv_log cfg k ph' G2 G2 vf _ (mkst (set_cur (s_ctx s') (Some (poff (k_buf k) G2))) (s_resp s') (s_w s'))); [reflexivity|apply handed_log; exact Logic.I|].
    eapply inv_advance; eauto; lia. }
  assert (ER : exists G2, (match e with HPE_PAUSED => padd (w_mem (s_w s')) p epos | _ => padd (w_mem (s_w s')) p n end) = Ret (poff p (G2 - n0)) /\
     G' <= G2 <= n0 + n /\ (e <> HPE_PAUSED -> G2 = n0 + n) /\ (e = HPE_PAUSED -> G2 = G')).
  { assert (DE : e = HPE_PAUSED \/ e <> HPE_PAUSED) by (destruct e; (left; reflexivity) || (right; discriminate)).
    destruct DE as [->|NE].
    - destruct (Y8 eq_refl) as (_&->&_). exists G'. rewrite padd_ok by (destruct O2 as (?&?&?); unfold p, poff; cbn [pb po]; lia).
      split; [f_equal; f_equal; lia|]. split; [lia|]. split; [congruence|auto].
    - exists (n0 + n). split; [|split; [lia|split; [auto|congruence]]].
      replace (match e with HPE_PAUSED => padd (w_mem (s_w s')) p epos | _ => padd (w_mem (s_w s')) p n end) with (padd (w_mem (s_w s')) p n)
        by (destruct e; congruence).
      rewrite padd_ok by (destruct O2 as (?&?&?); unfold p, poff; cbn [pb po]; lia). f_equal. f_equal. lia. }
  destruct ER as (G2&ER&HG1&HG2&HG3). rewrite ER. cbn [bind].
  eexists e, ps', _, (TParse p b :: evs ++ [TParsed e]), ph', G2. cbv zeta. split; [reflexivity|].
  rewrite VF. split. { cbn [s_w log w_tr]. rewrite Y2. unfold s1. cbn [s_w log w_tr]. rewrite <- !app_assoc. reflexivity. }
  split; [exact CN|]. split; [exists evs; auto|]. split; [auto|]. split; [auto|]. split; [rewrite Y6; auto|].
  split; [apply FIN; auto|]. split; [auto|]. split; [rewrite LS; auto|].
  split; [|auto]. intros X. rewrite (HG3 X). destruct (Y8 X) as (?&?&?&?). auto.
Qed.

(** ** The receive loop *)
Inductive rout := OMore | OFail | OStop (e : errno) | OStall (e : errno).
Definition clk (E : env) (tf : timefn) (nt : nat) : Z := match tf with TUser => u32 (e_time E nt) | _ => 0 end.
Definition clk_next (tf : timefn) (nt : nat) : nat := match tf with TUser => S nt | _ => nt end.
Definition done_msg (v : view) : bool := match v_msg v with MsgComplete => true | _ => false end.

(** [last]: the reading of the clock when data last arrived; [nr], [nt]: recv calls and clock readings so far;
    [v]: the log so far; then the log of the loop, how it ended, and the whole log. *)
Inductive rrun (E : env) (T : Z) (k : kst) : Z -> nat -> nat -> view -> list tev -> rout -> view -> Prop :=
| rr_more last nr nt v : rrun E T k last nr nt v [] OMore v
| rr_fail last nr nt v n d : e_recv E nr (k_L k - zlen (v_stream v)) = (n, d) -> n < 0 ->
    rrun E T k last nr nt v [TRecv (poff (k_buf k) (zlen (v_stream v))) (k_L k - zlen (v_stream v)) n d] OFail v
| rr_data last nr nt v n d b e blk tr o v' : e_recv E nr (k_L k - zlen (v_stream v)) = (n, d) -> 0 < n ->
    zlen b = n -> (zlen d = n -> b = d) -> zlen (v_stream v) + n <= k_L k ->
    pblock k (poff (k_buf k) (zlen (v_stream v))) b e blk ->
    goes_on e && negb (done_msg (fold_left view_step blk v)) && (zlen (v_stream v) + n <? k_L k) = true ->
    rrun E T k (clk E (k_tf k) nt) (S nr) (clk_next (k_tf k) nt) (fold_left view_step blk v) tr o v' ->
    rrun E T k last nr nt v
      (TRecv (poff (k_buf k) (zlen (v_stream v))) (k_L k - zlen (v_stream v)) n d :: tick (k_tf k) (clk E (k_tf k) nt) ++ blk ++ tr) o v'
| rr_stop last nr nt v n d b e blk : e_recv E nr (k_L k - zlen (v_stream v)) = (n, d) -> 0 < n ->
    zlen b = n -> (zlen d = n -> b = d) -> zlen (v_stream v) + n <= k_L k ->
    pblock k (poff (k_buf k) (zlen (v_stream v))) b e blk ->
    goes_on e && negb (done_msg (fold_left view_step blk v)) && (zlen (v_stream v) + n <? k_L k) = false ->
    rrun E T k last nr nt v
      (TRecv (poff (k_buf k) (zlen (v_stream v))) (k_L k - zlen (v_stream v)) n d :: tick (k_tf k) (clk E (k_tf k) nt) ++ blk)
      (OStop e) (fold_left view_step blk v)
| rr_stall last nr nt v d e blk : e_recv E nr (k_L k - zlen (v_stream v)) = (0, d) ->
    T <= u32 (clk E (k_tf k) nt - last) ->
    pblock k (poff (k_buf k) (zlen (v_stream v))) [] e blk ->
    rrun E T k last nr nt v
      (TRecv (poff (k_buf k) (zlen (v_stream v))) (k_L k - zlen (v_stream v)) 0 d :: tick (k_tf k) (clk E (k_tf k) nt) ++ blk)
      (OStall e) (fold_left view_step blk v)
| rr_wait last nr nt v d tr o v' : e_recv E nr (k_L k - zlen (v_stream v)) = (0, d) ->
    u32 (clk E (k_tf k) nt - last) < T ->
    rrun E T k last (S nr) (clk_next (k_tf k) nt) v tr o v' ->
    rrun E T k last nr nt v
      (TRecv (poff (k_buf k) (zlen (v_stream v))) (k_L k - zlen (v_stream v)) 0 d :: tick (k_tf k) (clk E (k_tf k) nt) ++ tr) o v'.

Definition status_of (o : rout) : status :=
  match o with OStop e | OStall e => processLlhttpError e | _ => HTTPNetworkError end.
Definition paused (o : rout) : Prop := o = OStop HPE_PAUSED \/ o = OStall HPE_PAUSED.

Definition rest (cfg : config) (k : kst) (r0 : response) (ph : phase) (v : view) (D : list (bytes * bytes * Z)) (s : cbst) : Prop :=
  inv cfg k ph (zlen (v_stream v)) (zlen (v_stream v)) v D (reset s) /\
  (c_resp (s_ctx s) = false -> s_resp s = r0 /\ v = view0 /\ D = []).

Definition final (cfg : config) (k : kst) (r0 : response) (v : view) (D : list (bytes * bytes * Z)) (s : cbst) (o : rout) : Prop :=
  exists ph G, inv cfg k ph G G v D (reset s) /\
  (c_resp (s_ctx s) = false -> s_resp s = r0 /\ v = view0 /\ D = [] /\ o = OFail) /\
  (~ paused o -> G = zlen (v_stream v)) /\
  (paused o -> dnp k = true /\ v_msg v = MsgBegun /\ exists hl, v_hend v = Some (hl, G)) /\
  (dnp k = true -> ~ paused o -> v_hend v = None).

Lemma recvs_app a b : recvs (a ++ b) = recvs a + recvs b.
Proof. induction a as [|[]]; cbn [recvs app]; lia. Qed.
Lemma recvs_tick tf t : recvs (tick tf t) = 0.
Proof. destruct tf; reflexivity. Qed.
Lemma events_recvs k evs : events k evs -> recvs evs = 0.
Proof.
  induction 1 as [|ev hs tr H1 H2 IH H3]; auto. cbn [recvs]. rewrite recvs_app. cbn [recvs]. rewrite IH.
  assert (recvs hs = 0); [|lia]. clear -H1. induction H1 as [|e hs H]; auto. destruct e; cbn in H; try contradiction. auto.
Qed.
Lemma pblock_recvs k p b e blk : pblock k p b e blk -> recvs blk = 0.
Proof. intros (evs&H&->&_). cbn [recvs]. rewrite recvs_app, (events_recvs _ _ H). reflexivity. Qed.
Lemma handed_tick tf t : handed (tick tf t) = [].
Proof. destruct tf; reflexivity. Qed.
Lemma delivered_tick tf t : delivered (tick tf t) = [].
Proof. destruct tf; reflexivity. Qed.

Lemma get_time_clk E tf w : tf <> TNull ->
  exists w', get_time E tf w = Ret (clk E tf (w_nt w), w') /\ w_mem w' = w_mem w /\
    w_tr w' = w_tr w ++ tick tf (clk E tf (w_nt w)) /\ w_nr w' = w_nr w /\ w_nt w' = clk_next tf (w_nt w).
Proof.
  intros N. destruct tf; [congruence| |]; cbn [get_time clk clk_next tick]; eexists; split; try reflexivity.
  rewrite app_nil_r. auto. cbn. auto.
Qed.

Lemma reset_w s c r w : s_ctx s = c -> s_resp s = r ->
  reset (mkst c r w) = mkst (s_ctx (reset s)) (s_resp (reset s)) w.
Proof. intros <- <-. unfold reset. cbn [s_ctx s_resp s_w]. destruct (c_resp (s_ctx s)); reflexivity. Qed.
Lemma reset_same s : r_buf (s_resp (reset s)) = r_buf (s_resp s) /\ r_bufLen (s_resp (reset s)) = r_bufLen (s_resp s) /\
  r_time (s_resp (reset s)) = r_time (s_resp s) /\ c_state (s_ctx (reset s)) = c_state (s_ctx s) /\ s_w (reset s) = s_w s /\
  r_opt (s_resp (reset s)) = r_opt (s_resp s).
Proof. unfold reset. destruct (c_resp (s_ctx s)); repeat split. Qed.
Lemma reset_true s : c_resp (s_ctx s) = true -> reset s = s.
Proof. unfold reset. intros ->. auto. Qed.
Lemma goes_on_success e : is_success (processLlhttpError e) = goes_on e.
Proof. destruct e; reflexivity. Qed.

Section Loop.
Variables (cfg : config) (k : kst) (E : env) (P : parser) (R : PS P -> phase -> Prop) (T : Z) (r0 : response).
Hypotheses (K : k_ok cfg k) (RC : recv_contract E) (TN : k_tf k <> TNull)
  (PO : forall s ph d, R s ph -> conforms R (zlen d) ph 0 (p_exec P s d)).

Lemma recv_loop_run : forall fuel last ps s ph v D,
  rest cfg k r0 ph v D s -> R ps ph -> v_msg v <> MsgComplete -> zlen (v_stream v) < k_L k ->
  (dnp k = true -> v_hend v = None) ->
  exists tr o v', rrun E T k last (w_nr (s_w s)) (w_nt (s_w s)) v tr o v' /\
    match o with
    | OMore => exists w, recv_loop fuel cfg E P T (zlen (v_stream v)) last ps s = More w /\ w_tr w = w_tr (s_w s) ++ tr /\
                 recvs tr = Z.of_nat fuel /\ same_outside (k_m0 k) (w_mem w) (k_buf k) (k_L k)
    | _ => exists s', recv_loop fuel cfg E P T (zlen (v_stream v)) last ps s = Ret (status_of o, zlen (v_stream v'), s') /\
             w_tr (s_w s') = w_tr (s_w s) ++ tr /\ final cfg k r0 v' (D ++ delivered tr) s' o
    end.
Proof.
  induction fuel as [|fuel IH]; intros last ps s ph v D (I&FR) RP NC LT DH.
  { exists [], OMore, v. split; [constructor|]. exists (s_w s). rewrite app_nil_r. split; [reflexivity|]. split; [auto|]. split; [auto|].
    pose proof (i_mem _ _ _ _ _ _ _ _ I). destruct (reset_same s) as (_&_&_&_&<-&_). auto. }
  pose proof (inv_object _ _ _ _ _ _ _ _ K I) as O.
  destruct (reset_same s) as (RS1&RS2&RS3&RS4&RS5&RS6).
  assert (EB : r_buf (s_resp s) = Some (k_buf k)) by (rewrite <- RS1; exact (i_buf _ _ _ _ _ _ _ _ I)).
  assert (EL : r_bufLen (s_resp s) = k_L k) by (rewrite <- RS2; exact (i_L _ _ _ _ _ _ _ _ I)).
  assert (ET : r_time (s_resp s) = k_tf k) by (rewrite <- RS3; exact (i_tf _ _ _ _ _ _ _ _ I)).
  assert (ES : c_state (s_ctx s) = pstate_of (v_msg v)) by (rewrite <- RS4; exact (i_state _ _ _ _ _ _ _ _ I)).
  assert (CS : (match c_state (s_ctx s) with HTTP_PARSING_COMPLETE => false | _ => true end) = true) by (rewrite ES; destruct (v_msg v); auto; congruence).
  rewrite RS5 in O.
  set (n0 := zlen (v_stream v)) in *. assert (Z0 : 0 <= n0) by apply zlen_nonneg.
  pose proof K as (KO&KL).
  cbn [recv_loop]. rewrite EB, EL, ET. rewrite padd_ok by (destruct O as (?&?&?); lia). cbn [bind].
  rewrite (Z.mod_small (k_L k - n0)) by lia.
  specialize (RC (w_nr (s_w s)) (k_L k - n0) ltac:(lia)).
  destruct (e_recv E (w_nr (s_w s)) (k_L k - n0)) as [n d] eqn:ER. cbn [fst snd] in RC.
  set (dst := poff (k_buf k) n0) in *. pose proof (zlen_nonneg d) as Zd.
  assert (OD : object (w_mem (s_w s)) dst (zlen d)) by (eapply in_buf; eauto; lia).
  rewrite storen_ok by auto. cbn [bind].
  set (m1 := write (w_mem (s_w s)) dst d).
  assert (SM : same_outside (w_mem (s_w s)) m1 dst (k_L k - n0)).
  { eapply same_outside_weaken; [apply same_outside_write; auto|auto|lia|lia]. }
  set (w1 := w_after_recv (s_w s) m1 dst (k_L k - n0) n d).
  assert (I1 : forall w', w_mem w' = m1 -> handed (w_tr w') = handed (w_tr (s_w s)) -> inv cfg k ph n0 n0 v D (reset (mkst (s_ctx s) (s_resp s) w'))).
  { intros w' Hw Hh. rewrite (reset_w s) by auto. apply inv_mem; auto; [rewrite RS5, Hw; exact SM|]. unfold reset. destruct (c_resp (s_ctx s)); exact Hh. }
  assert (SM2 : same_outside (k_m0 k) m1 (k_buf k) (k_L k)) by (pose proof (i_mem _ _ _ _ _ _ _ _ (I1 (set_mem (s_w s) m1) eq_refl eq_refl)) as X; rewrite (proj1 (proj2 (proj2 (proj2 (proj2 (reset_same _)))))) in X; exact X).
  cbn [s_ctx s_w].
  destruct (Z.ltb_spec n 0).
  { exists [TRecv dst (k_L k - n0) n d], OFail, v. split; [apply rr_fail; auto|].
    exists (mkst (s_ctx s) (s_resp s) w1). split; [reflexivity|]. split; [reflexivity|]. cbn [delivered]. rewrite app_nil_r.
    exists ph, n0. split; [apply I1; [reflexivity|unfold w1, w_after_recv; cbn [w_tr]; rewrite handed_app; cbn [handed]; apply app_nil_r]|]. split; [cbn [s_ctx s_resp]; intros X; destruct (FR X) as (?&?&?); auto|].
    assert (~ paused OFail) by (intros [X|X]; discriminate). split; [auto|]. split; [tauto|]. auto. }
  destruct (get_time_clk E (k_tf k) w1 TN) as (w2&Et&Em&Etr&Enr&Ent). rewrite Et. cbn [bind].
  change (w_nt w1) with (w_nt (s_w s)) in *. change (w_nr w1) with (S (w_nr (s_w s))) in *. change (w_mem w1) with m1 in Em.
  change (w_tr w1) with (w_tr (s_w s) ++ [TRecv dst (k_L k - n0) n d]) in Etr.
  set (s2 := mkst (s_ctx s) (s_resp s) w2).
  assert (I2 : inv cfg k ph n0 n0 v D (reset s2)) by (apply I1; auto; rewrite Etr, !handed_app; cbn [handed]; rewrite (handed_tick (k_tf k)), !app_nil_r; reflexivity).
  destruct (reset_same s2) as (_&_&_&_&RW&_).
  destruct (Z.ltb_spec 0 n).
  - (* data *)
    rewrite (Z.mod_small (n0 + n)) by lia.
    rewrite parse_reset.
    destruct (parse_inv cfg k P R ps (reset s2) ph v D n K PO I2 RP ltac:(lia)) as (e&ps'&s3&blk&ph'&G'&Y1&Y2&Y3&Y4&Y5&Y6&Y7&Y8&Y9&Y10&Y11&Y12); [fold n0; lia|lia|].
    fold n0 in Y1, Y4, Y5, Y6, Y7. fold dst in Y4, Y5, Y6. rewrite Y1. cbn [bind].
    rewrite RW in *. cbn [s2 s_w] in Y2, Y3, Y4, Y5, Y6. fold s2 in Y1.
    set (b := bytes_at (w_mem w2) dst n) in *. set (v' := fold_left view_step blk v) in *.
    assert (LV : zlen (v_stream v') = n0 + n) by (rewrite Y5, zlen_app; fold n0; lia).
    assert (BD : zlen d = n -> b = d).
    { intros X. unfold b. rewrite Em, <- X. unfold m1. apply bytes_at_write_same; auto. }
    rewrite goes_on_success. rewrite (i_state _ _ _ _ _ _ _ _ Y8), (i_L _ _ _ _ _ _ _ _ Y8).
    replace (match pstate_of (v_msg v') with HTTP_PARSING_COMPLETE => false | _ => true end) with (negb (done_msg v'))
      by (unfold done_msg; destruct (v_msg v'); auto).
    pose proof (i_resp _ _ _ _ _ _ _ _ Y8) as RT.
    pose proof (pblock_recvs _ _ _ _ _ Y4) as PR.
    destruct (goes_on e && negb (done_msg v') && (n0 + n <? k_L k)) eqn:EG.
    + apply andb_prop in EG as (EG1&EG3). apply andb_prop in EG1 as (EG1&EG2). apply Z.ltb_lt in EG3.
      assert (NP : e <> HPE_PAUSED) by (intros ->; discriminate).
      destruct (IH (clk E (k_tf k) (w_nt (s_w s))) ps' s3 ph' v' (D ++ delivered blk)) as (tr&o&v2&HR&HO); auto.
      { split; [|congruence]. rewrite reset_true by auto. rewrite <- (Y10 NP). auto. }
      { unfold done_msg in EG2. destruct (v_msg v'); cbn in EG2; congruence. }
      { lia. }
      { intros X. rewrite Y12; auto. }
      destruct Y3 as (_&Y3a&Y3b). rewrite Y3a, Y3b, Enr, Ent in HR.
      exists (TRecv dst (k_L k - n0) n d :: tick (k_tf k) (clk E (k_tf k) (w_nt (s_w s))) ++ blk ++ tr), o, v2.
      split. { apply rr_data with (b := b) (e := e); auto; try (fold n0; lia). fold v' n0. rewrite EG1, EG2. replace (n0 + n <? k_L k) with true by lia. reflexivity. }
      assert (TT : forall w', w_tr w' = w_tr (s_w s3) ++ tr ->
         w_tr w' = w_tr (s_w s) ++ TRecv dst (k_L k - n0) n d :: tick (k_tf k) (clk E (k_tf k) (w_nt (s_w s))) ++ blk ++ tr).
      { intros w' ->. rewrite Y2, Etr, <- !app_assoc. reflexivity. }
      assert (DD : delivered (TRecv dst (k_L k - n0) n d :: tick (k_tf k) (clk E (k_tf k) (w_nt (s_w s))) ++ blk ++ tr) = delivered blk ++ delivered tr).
      { cbn [delivered]. rewrite !delivered_app, delivered_tick. reflexivity. }
      rewrite DD. rewrite <- LV.
      destruct o.
      * destruct HO as (w&Q1&Q2&Q3&Q4). exists w. split; [auto|]. split; [auto|]. split; [|auto].
        cbn [recvs]. rewrite !recvs_app, recvs_tick, PR. lia.
      * destruct HO as (s'&Q1&Q2&Q3). exists s'. rewrite (app_assoc D). auto.
      * destruct HO as (s'&Q1&Q2&Q3). exists s'. rewrite (app_assoc D). auto.
      * destruct HO as (s'&Q1&Q2&Q3). exists s'. rewrite (app_assoc D). auto.
    + exists (TRecv dst (k_L k - n0) n d :: tick (k_tf k) (clk E (k_tf k) (w_nt (s_w s))) ++ blk), (OStop e), v'.
      split. { apply rr_stop with (b := b) (e := e); auto; fold n0; lia. }
      exists s3. rewrite LV. split; [reflexivity|].
      split. { rewrite Y2, Etr, <- !app_assoc. reflexivity. }
      cbn [delivered]. rewrite !delivered_app, delivered_tick. cbn [app].
      exists ph', G'. rewrite reset_true by auto. split; [auto|]. split; [congruence|].
      assert (PE : paused (OStop e) <-> e = HPE_PAUSED) by (unfold paused; split; [intros [X|X]; congruence|intros ->; auto]).
      rewrite PE. split; [auto|]. split; [auto|]. intros X Y. rewrite Y12; auto.
  - assert (n = 0) by lia. subst n.
    destruct (Z.leb_spec T (u32 (clk E (k_tf k) (w_nt (s_w s)) - last))).
    + (* stall *)
      rewrite parse_reset.
      destruct (parse_inv cfg k P R ps (reset s2) ph v D 0 K PO I2 RP ltac:(lia)) as (e&ps'&s3&blk&ph'&G'&Y1&Y2&Y3&Y4&Y5&Y6&Y7&Y8&Y9&Y10&Y11&Y12); [fold n0; lia|fold n0; lia|].
      fold n0 in Y1, Y4, Y5, Y6, Y7. fold dst in Y4, Y5, Y6. rewrite Y1. cbn [bind].
      rewrite RW in *. cbn [s2 s_w] in Y2, Y3, Y4, Y5, Y6. fold s2 in Y1.
      assert (BN : bytes_at (w_mem w2) dst 0 = []) by reflexivity. rewrite BN in *.
      set (v' := fold_left view_step blk v) in *. rewrite app_nil_r in Y5.
      pose proof (i_resp _ _ _ _ _ _ _ _ Y8) as RT.
      exists (TRecv dst (k_L k - n0) 0 d :: tick (k_tf k) (clk E (k_tf k) (w_nt (s_w s))) ++ blk), (OStall e), v'.
      split. { apply rr_stall; auto. }
      exists s3. rewrite Y5. fold n0. split; [reflexivity|].
      split. { rewrite Y2, Etr, <- !app_assoc. reflexivity. }
      cbn [delivered]. rewrite !delivered_app, delivered_tick. cbn [app].
      exists ph', G'. rewrite reset_true by auto. split; [auto|]. split; [congruence|].
      assert (PE : paused (OStall e) <-> e = HPE_PAUSED) by (unfold paused; split; [intros [X|X]; congruence|intros ->; auto]).
      rewrite PE. split; [auto|]. split; [auto|]. intros X Y. rewrite Y12; auto.
    + (* wait *)
      rewrite CS. replace (n0 <? k_L k) with true by lia. cbn [andb].
      destruct (IH last ps s2 ph v D) as (tr&o&v2&HR&HO); auto.
      { split; auto. }
      cbn [s2 s_w] in HR, HO. rewrite Enr, Ent in HR.
      exists (TRecv dst (k_L k - n0) 0 d :: tick (k_tf k) (clk E (k_tf k) (w_nt (s_w s))) ++ tr), o, v2.
      split. { apply rr_wait; auto. }
      assert (DD : delivered (TRecv dst (k_L k - n0) 0 d :: tick (k_tf k) (clk E (k_tf k) (w_nt (s_w s))) ++ tr) = delivered tr).
      { cbn [delivered]. rewrite !delivered_app, delivered_tick. reflexivity. }
      rewrite DD. fold n0 in HO. fold s2 in HO.
      destruct o.
      * destruct HO as (w&Q1&Q2&Q3&Q4). exists w. split; [auto|]. split; [rewrite Q2, Etr, <- !app_assoc; reflexivity|]. split; [|auto].
        cbn [recvs]. rewrite !recvs_app, recvs_tick. lia.
      * destruct HO as (s'&Q1&Q2&Q3). exists s'. split; [auto|]. split; [rewrite Q2, Etr, <- !app_assoc; reflexivity|auto].
      * destruct HO as (s'&Q1&Q2&Q3). exists s'. split; [auto|]. split; [rewrite Q2, Etr, <- !app_assoc; reflexivity|auto].
      * destruct HO as (s'&Q1&Q2&Q3). exists s'. split; [auto|]. split; [rewrite Q2, Etr, <- !app_assoc; reflexivity|auto].
Qed.
End Loop.
