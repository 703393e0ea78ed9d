(** ProofsResponse.v — the invariant tying the library's state to the parser's log. *)
From Verif Require Import Base Lib ModelRequest ModelSend ModelResponse SpecRequest SpecSend SpecResponse ProofsSend ProofsSend2.

(** What stays fixed during a call: the buffer, the options, whether it is a response to HEAD, and the
    memory and the output fields as they were at the start. *)
Record kst := mkk {
  k_buf : ptr;  k_L : Z;  k_cb : bool;  k_tf : timefn;  k_opt : Z;  k_head : bool;
  k_hdone : Z;  k_clen : Z;  k_m0 : mem
}.
Definition k_ok (cfg : config) (k : kst) : Prop :=
  object (k_m0 k) (k_buf k) (k_L k) /\ 0 < k_L k < SZ cfg.

Definition dnp (k : kst) : bool := negb (Z.land (k_opt k) HTTP_RESPONSE_DO_NOT_PARSE_BODY_FLAG =? 0).
Definition named_extra (ph : phase) : Z :=
  match ph with PhField true | PhValue | PhTField true | PhTValue => 1 | _ => 0 end.
Definition after_headers (ph : phase) : bool :=
  match ph with PhBody _ | PhTField _ | PhTValue => true | _ => false end.
Definition body_phase (ph : phase) : bool :=
  match ph with PhBody false | PhTField _ | PhTValue => true | _ => false end.
Definition nameless (ph : phase) : bool :=
  match ph with PhField false | PhTField false => true | _ => false end.
Definition pend_ok (ph : phase) (v : view) : Prop :=
  match ph with
  | PhIdle | PhStatus => True
  | PhHdr | PhBody _ => v_name v = None /\ v_value v = None
  | PhField _ | PhTField _ => v_name v <> None /\ v_value v = None
  | PhValue | PhTValue => v_name v <> None /\ v_value v <> None
  end.
Definition shape (h : bytes * bytes * Z) : Z * Z * Z :=
  let '(n, x, c) := h in (zlen n, zlen x, c).
Definition flags_of (close ka : bool) : Z := (if close then 1 else 0) + (if ka then 2 else 0).
Definition clen_of (cfg : config) (clen : Z) : Z := if clen =? UINT64_MAX then 0 else clen mod SZ cfg.
Definition pstate_of (x : msg) : pstate :=
  match x with MsgNone => HTTP_PARSING_NONE | MsgBegun => HTTP_PARSING_INCOMPLETE | MsgComplete => HTTP_PARSING_COMPLETE end.

(** The pointer [p] is where the [n] bytes at [o] of the stream are; from there on the buffer holds the stream. *)
Definition kept (m : mem) (buf : ptr) (st : bytes) (G : Z) (p : option ptr) (o n : Z) : Prop :=
  p = Some (poff buf o) /\ 0 <= o /\ o + n <= G /\ bytes_at m (poff buf o) (G - o) = slice st o (G - o).
Definition loc_in (N : Z) (h : hloc) : Prop := let '((n, nl), (x, xl), _) := h in (0 <= n /\ 0 <= nl /\ n + nl <= N) /\ (0 <= x /\ 0 <= xl /\ x + xl <= N).
Lemma text_more (a b : bytes) hs : Forall (loc_in (zlen a)) hs -> map (text_at (a ++ b)) hs = map (text_at a) hs.
Proof.
  induction 1 as [|[[[n nl] [x xl]] c] hs ((A1&A2&A3)&(B1&B2&B3)) H IH]; [reflexivity|]. cbn [map text_at]. rewrite IH, !slice_of_app_l by lia. reflexivity.
Qed.
Lemma locs_more N N' hs : N <= N' -> Forall (loc_in N) hs -> Forall (loc_in N') hs.
Proof. intros L. apply Forall_impl. intros [[[n nl] [x xl]] c]. unfold loc_in. lia. Qed.
(** [G]: the position in the stream up to which the parser has read; [C]: pBufferCur. *)
Record inv0 (cfg : config) (k : kst) (ph : phase) (G C : Z) (v : view) (D : list (bytes * bytes * Z)) (s : cbst)
  : Prop := mkinv0 {
  i_buf : r_buf (s_resp s) = Some (k_buf k);
  i_L : r_bufLen (s_resp s) = k_L k;
  i_cb : r_cb (s_resp s) = k_cb k;
  i_tf : r_time (s_resp s) = k_tf k;
  i_opt : r_opt (s_resp s) = k_opt k;
  i_resp : c_resp (s_ctx s) = true;
  i_head : c_head (s_ctx s) = k_head k;
  i_state : c_state (s_ctx s) = pstate_of (v_msg v);
  i_msg : v_msg v = MsgBegun <-> ph <> PhIdle;
  i_mem : same_outside (k_m0 k) (w_mem (s_w s)) (k_buf k) (k_L k);
  i_pos : 0 <= v_start v <= G /\ G <= zlen (v_stream v) <= k_L k /\
          (zlen (v_stream v) = v_start v -> v_start v < k_L k);
  i_cur : c_cur (s_ctx s) = Some (poff (k_buf k) C);
  i_C : 0 <= v_last v <= C /\ v_start v <= C <= G;
  i_code : r_status (s_resp s) = v_code v;
  i_flags : r_flags (s_resp s) = flags_of (v_close v) (v_ka v);
  i_hcount : r_hcount (s_resp s) = zlen (v_headers v);
  i_count : zlen (v_headers v) + named_extra ph <= G;
  i_hs : r_headers (s_resp s) = option_map (poff (k_buf k)) (v_hstart v);
  i_hs2 : forall h, v_hstart v = Some h -> 0 <= h <= C /\ (nameless ph = false -> h < C);
  i_hs3 : v_headers v <> [] \/ v_name v <> None -> v_hstart v <> None;
  i_hend : match v_hend v with
           | None => r_headersLen (s_resp s) = 0 /\ r_hdone (s_resp s) = k_hdone k /\
                     r_clen (s_resp s) = k_clen k /\ v_h1 v = None
           | Some (hl, p) => r_headersLen (s_resp s) = hl /\ r_hdone (s_resp s) = 1 /\
                     r_clen (s_resp s) = clen_of cfg (v_clen v) /\ v_h1 v <> None /\ 0 < p <= G /\
                     0 <= hl /\ match v_hstart v with None => hl = 0 | Some h => h + hl <= G end
           end;
  i_h1 : forall p, v_h1 v = Some p -> 0 < p <= G;
  i_after : after_headers ph = true \/ v_msg v = MsgComplete -> v_h1 v <> None;
  i_pend : pend_ok ph v;
  i_name : forall n, v_name v = Some n ->
           exists f0, c_lf (s_ctx s) = Some (poff (k_buf k) f0) /\ c_lfl (s_ctx s) = zlen n /\
             0 <= f0 /\ f0 + zlen n <= G /\
             (v_adj v = true -> bytes_at (w_mem (s_w s)) (poff (k_buf k) f0) (zlen n) = n /\
                                (v_value v = None -> v_next v = f0 + zlen n));
  i_value : forall x, v_value v = Some x ->
           exists f0, c_lv (s_ctx s) = Some (poff (k_buf k) f0) /\ c_lvl (s_ctx s) = zlen x /\
             0 <= f0 /\ f0 + zlen x <= G /\
             (v_adj v = true -> bytes_at (w_mem (s_w s)) (poff (k_buf k) f0) (zlen x) = x /\
                                v_next v = f0 + zlen x);
  i_noname : v_name v = None -> c_lf (s_ctx s) = None;
  i_novalue : v_value v = None -> c_lv (s_ctx s) = None;
  i_body : match v_bstart v with
           | None => r_body (s_resp s) = None /\ r_bodyLen (s_resp s) = 0 /\ v_body v = []
           | Some bo => r_body (s_resp s) = Some (poff (k_buf k) bo) /\
                        r_bodyLen (s_resp s) = zlen (v_body v) /\
                        0 <= bo /\ bo + zlen (v_body v) <= G /\
                        bytes_at (w_mem (s_w s)) (poff (k_buf k) bo) (zlen (v_body v)) = v_body v /\
                        exists p, v_h1 v = Some p /\ p <= bo
           end;
  i_nobody : k_head k = true \/ dnp k = true -> v_bstart v = None /\ body_phase ph = false;
  i_low : forall hi, hi = match v_bstart v with Some bo => bo | None => G end ->
           bytes_at (w_mem (s_w s)) (k_buf k) hi = slice (v_stream v) 0 hi;
  i_tail : bytes_at (w_mem (s_w s)) (poff (k_buf k) G) (zlen (v_stream v) - G)
           = slice (v_stream v) G (zlen (v_stream v) - G);
  i_D : if k_cb k then map shape D = map shape (v_headers v) /\ (v_adj v = true -> D = v_headers v)
        else D = [];
  i_n0 : forall n, v_name v = Some n -> kept (w_mem (s_w s)) (k_buf k) (v_stream v) G (c_lf (s_ctx s)) (v_n0 v) (zlen n);
  i_x0 : forall x, v_value v = Some x -> kept (w_mem (s_w s)) (k_buf k) (v_stream v) G (c_lv (s_ctx s)) (v_x0 v) (zlen x);
  i_locs : Forall (loc_in (zlen (v_stream v))) (v_locs v);
  i_seen : k_cb k = true -> D = map (text_at (v_stream v)) (v_locs v);
  i_mid : forall bo o n, v_bstart v = Some bo -> bo + zlen (v_body v) <= o -> 0 <= n -> o + n <= zlen (v_stream v) ->
          bytes_at (w_mem (s_w s)) (poff (k_buf k) o) n = slice (v_stream v) o n;
  i_handed : k_cb k = true -> exists T0, handed (w_tr (s_w s)) = T0 ++ map (place (k_buf k)) (v_locs v)
}.

(** The part of the invariant that does not depend on the log of the transport and clock. *)
Lemma handed_app a b : handed (a ++ b) = handed a ++ handed b.
Proof. induction a as [|[]]; cbn [handed app]; rewrite ?IHa; auto. Qed.
Lemma inv0_log cfg k ph G C v D s w : w_mem w = w_mem (s_w s) -> handed (w_tr w) = handed (w_tr (s_w s)) ->
  inv0 cfg k ph G C v D s -> inv0 cfg k ph G C v D (mkst (s_ctx s) (s_resp s) w).
Proof. intros E E2 []. constructor; cbn [s_ctx s_resp s_w]; rewrite ?E, ?E2; auto. Qed.
Lemma handed_log w e : match e with THeader _ _ _ _ _ _ _ => False | _ => True end -> handed (w_tr (log w e)) = handed (w_tr w).
Proof. intros N. cbn [log w_tr]. rewrite handed_app. destruct e; try contradiction; cbn [handed]; apply app_nil_r. Qed.

Lemma inv_object cfg k ph G C v D s : k_ok cfg k -> inv0 cfg k ph G C v D s ->
  object (w_mem (s_w s)) (k_buf k) (k_L k).
Proof. intros (O&_) []. apply (same_outside_object _ _ _ _ _ _ i_mem0). auto. Qed.

(** Reading in the buffer. *)
Lemma in_buf m buf L o n : object m buf L -> 0 <= o -> 0 <= n -> o + n <= L -> object m (poff buf o) n.
Proof. unfold object, poff. cbn [pb po]. lia. Qed.

Lemma poff_poff p a b : poff (poff p a) b = poff p (a + b).
Proof. unfold poff. cbn [pb po]. f_equal. lia. Qed.
Lemma poff_0 p : poff p 0 = p.
Proof. destruct p as [a b]; unfold poff; cbn [pb po]; f_equal; lia. Qed.

Lemma tail_piece m buf (st : bytes) G o n : 0 <= po buf -> 0 <= G <= o -> 0 <= n -> o + n <= zlen st ->
  bytes_at m (poff buf G) (zlen st - G) = slice st G (zlen st - G) ->
  po buf + zlen st <= zlen (blk m (pb buf)) ->
  bytes_at m (poff buf o) n = slice st o n.
Proof.
  intros P HG Hn Ho E Hb. unfold bytes_at in *. cbn [poff pb po] in *.
  replace (slice st o n) with (slice (slice st G (zlen st - G)) (o - G) n)
    by (rewrite slice_slice by lia; f_equal; lia).
  rewrite <- E. rewrite slice_slice by lia. f_equal; lia.
Qed.


Lemma poff_inj p a b : poff p a = poff p b -> a = b.
Proof. unfold poff. intros H. injection H. lia. Qed.
Lemma kept_grow m buf st G p o n G' n' L : kept m buf st G p o n -> object m buf L -> G <= G' <= zlen st -> zlen st <= L -> 0 <= n -> o + n' <= G' ->
  bytes_at m (poff buf G) (zlen st - G) = slice st G (zlen st - G) -> kept m buf st G' p o n'.
Proof.
  intros (K1&K2&K3&K4) (O1&O2&O3) HG HL HN HN' HT. split; [auto|]. split; [auto|]. split; [lia|].
  assert (BT : bytes_at m (poff buf G) (G' - G) = slice st G (G' - G)) by (eapply tail_piece; eauto; lia).
  replace (G' - o) with ((G - o) + (G' - G)) by lia. rewrite bytes_at_app; [|unfold poff; cbn [pb po]; lia|lia|lia].
  rewrite K4, poff_poff, slice_app by lia. f_equal. replace (o + (G - o)) with G by lia. exact BT.
Qed.
Lemma kept_bytes m buf st G p o n L : kept m buf st G p o n -> object m buf L -> G <= zlen st -> G <= L -> 0 <= n -> bytes_at m (poff buf o) n = slice st o n.
Proof.
  intros (K1&K2&K3&K4) (O1&O2&O3) HG HL HN. 
  assert (Q : slice (bytes_at m (poff buf o) (G - o)) 0 n = slice (slice st o (G - o)) 0 n) by (rewrite K4; reflexivity).
  unfold bytes_at in *. cbn [poff pb po] in *. rewrite !slice_slice in Q by lia. rewrite !Z.add_0_r in Q. exact Q.
Qed.

(** [processCompleteHeader] finishes the header being read. *)
Definition unpend (ph : phase) : phase :=
  match ph with PhValue => PhHdr | PhTValue => PhBody false | _ => ph end.

Lemma delivered_app a b : delivered (a ++ b) = delivered a ++ delivered b.
Proof. induction a as [|[]]; cbn [delivered app]; rewrite ?IHa; auto. Qed.

(** The header callback was given a whole region of the buffer. *)
Definition hdr_in (buf : ptr) (L : Z) (e : tev) : Prop :=
  match e with
  | THeader f fl x xl fb xb _ =>
      (exists a, f = poff buf a /\ 0 <= a /\ a + fl <= L) /\ fl = zlen fb /\
      (exists a, x = poff buf a /\ 0 <= a /\ a + xl <= L) /\ xl = zlen xb
  | _ => False
  end.

Lemma pch_inv cfg k ph G C v D s :
  k_ok cfg k -> inv0 cfg k ph G C v D s -> ph <> PhIdle -> ph <> PhStatus ->
  exists s' tr, processCompleteHeader cfg s = Ret s' /\ w_tr (s_w s') = w_tr (s_w s) ++ tr /\
    inv0 cfg k (unpend ph) G C (finish v) (D ++ delivered tr) s' /\
    Forall (hdr_in (k_buf k) (k_L k)) tr /\ fold_left view_step tr v = v.
Proof.
  intros K I N1 N2. pose proof (inv_object _ _ _ _ _ _ _ _ K I) as O. destruct K as (KO&KL). destruct I.
  unfold processCompleteHeader. rewrite i_resp0. cbn [assert_at bind].
  destruct (v_name v) as [n|] eqn:En.
  2:{ rewrite i_noname0 by auto. exists s, []. rewrite !app_nil_r. do 2 (split; [auto|]).
      assert (PV : v_value v = None) by (destruct ph; cbn in i_pend0; tauto || congruence).
      assert (F : finish v = v) by (unfold finish; rewrite En; auto). rewrite F.
      split; [|split; [constructor|auto]]. replace (unpend ph) with ph by (destruct ph; cbn in *; tauto || congruence).
      constructor; auto; rewrite En in *; auto; discriminate. }
  destruct (v_value v) as [x|] eqn:Ex.
  2:{ rewrite i_novalue0 by auto. exists s, []. rewrite !app_nil_r.
      split. { destruct (c_lf (s_ctx s)); auto. } split; [auto|].
      assert (F : finish v = v) by (unfold finish; rewrite En, Ex; auto). rewrite F.
      split; [|split; [constructor|auto]]. replace (unpend ph) with ph by (destruct ph; cbn in *; tauto || congruence).
      constructor; auto; rewrite ?En, ?Ex in *; auto; discriminate. }
  assert (PH : ph = PhValue \/ ph = PhTValue).
  { destruct ph; cbn in i_pend0; rewrite ?En, ?Ex in i_pend0; intuition congruence. }
  assert (NE : named_extra ph = 1) by (destruct PH as [->| ->]; auto).
  destruct (i_name0 n eq_refl) as (a&A1&A2&A3&A4&A5).
  destruct (i_value0 x eq_refl) as (b&B1&B2&B3&B4&B5).
  rewrite A1, B1. pose proof (zlen_nonneg (v_headers v)). pose proof (zlen_nonneg n). pose proof (zlen_nonneg x).
  replace (r_hcount (s_resp s) <? SZ cfg - 1) with true by lia. cbn [assert_at bind].
  assert (F : finish v = mkview (v_stream v) (v_start v) (v_msg v) (v_code v) None None (v_headers v ++ [(n, x, v_code v)])
     (v_hstart v) (v_hend v) (v_h1 v) (v_clen v) (v_close v) (v_ka v) (v_bstart v) (v_body v) (v_last v) (v_next v) (v_adj v)
     (v_n0 v) (v_x0 v) (v_locs v ++ [((v_n0 v, zlen n), (v_x0 v, zlen x), v_code v)]))
    by (unfold finish; rewrite En, Ex; auto).
  rewrite F. clear F.
  assert (INV : forall D' w', w_mem w' = w_mem (s_w s) -> (k_cb k = true -> handed (w_tr w') = handed (w_tr (s_w s)) ++ [((poff (k_buf k) a, zlen n), (poff (k_buf k) b, zlen x))]) ->
     (if k_cb k then map shape D' = map shape (v_headers v ++ [(n, x, v_code v)]) /\ (v_adj v = true -> D' = v_headers v ++ [(n, x, v_code v)])
        else D' = []) -> (k_cb k = true -> D' = map (text_at (v_stream v)) (v_locs v ++ [((v_n0 v, zlen n), (v_x0 v, zlen x), v_code v)])) ->
     inv0 cfg k (unpend ph) G C (mkview (v_stream v) (v_start v) (v_msg v) (v_code v) None None (v_headers v ++ [(n, x, v_code v)])
     (v_hstart v) (v_hend v) (v_h1 v) (v_clen v) (v_close v) (v_ka v) (v_bstart v) (v_body v) (v_last v) (v_next v) (v_adj v)
     (v_n0 v) (v_x0 v) (v_locs v ++ [((v_n0 v, zlen n), (v_x0 v, zlen x), v_code v)]))
       D' (mkst (set_last (s_ctx s) None 0 None 0) (set_r_hcount (s_resp s) (r_hcount (s_resp s) + 1)) w')).
  { intros D' w' Ew EH HD HS. constructor; cbn; rewrite ?Ew; auto; try discriminate.
    - rewrite i_msg0. destruct PH as [->| ->]; cbn; split; congruence.
    - rewrite zlen_app, zlen_cons, zlen_nil. lia.
    - rewrite zlen_app, zlen_cons, zlen_nil. destruct PH as [->| ->]; cbn in *; lia.
    - intros h Hh. specialize (i_hs4 h Hh). destruct PH as [->| ->]; cbn in *; intuition.
    - intros _. apply i_hs5. right. congruence.
    - destruct PH as [->| ->]; cbn in *; auto.
    - destruct PH as [->| ->]; cbn in *; auto.
    - intros X. specialize (i_nobody0 X). destruct PH as [->| ->]; cbn in *; intuition.
    - apply Forall_app. split; [auto|]. constructor; [|constructor]. destruct (i_n1 n eq_refl) as (_&Y1&Y2&_). destruct (i_x1 x eq_refl) as (_&Y3&Y4&_). cbn. lia.
    - intros X. destruct (i_handed0 X) as (T0&HT). exists T0. rewrite (EH X), HT, map_app, <- app_assoc. cbn [map place].
      destruct (i_n1 n eq_refl) as (N0&N3). destruct (i_x1 x eq_refl) as (X0&X3).
      assert (EA : a = v_n0 v) by (apply (poff_inj (k_buf k)); congruence).
      assert (EB : b = v_x0 v) by (apply (poff_inj (k_buf k)); congruence). rewrite EA, EB. reflexivity. }
  rewrite i_cb0. destruct (k_cb k) eqn:Ecb.
  - rewrite A2, B2, i_code0, !loadn_ok by (eapply in_buf; eauto; lia). cbn [bind].
    eexists _, [_]. split; [reflexivity|]. split; [reflexivity|]. cbn [delivered].
    assert (LA : zlen (bytes_at (w_mem (s_w s)) (poff (k_buf k) a) (zlen n)) = zlen n) by (apply bytes_at_len; eapply in_buf; eauto; lia).
    assert (LB : zlen (bytes_at (w_mem (s_w s)) (poff (k_buf k) b) (zlen x)) = zlen x) by (apply bytes_at_len; eapply in_buf; eauto; lia).
    split.
    + apply INV; [reflexivity|intros _; cbn [log w_tr]; rewrite handed_app; reflexivity| |].
      destruct i_D0 as (D1&D2). rewrite !map_app. cbn [map shape]. rewrite D1, LA, LB. split; auto.
      { intros X. destruct (A5 X) as (->&_), (B5 X) as (->&_). rewrite D2; auto. }
      intros X. rewrite map_app. cbn [map text_at]. rewrite (i_seen0 X).
      destruct (i_n1 n eq_refl) as (N0&N3). destruct (i_x1 x eq_refl) as (X0&X3).
      assert (EA : a = v_n0 v) by (apply (poff_inj (k_buf k)); congruence).
      assert (EB : b = v_x0 v) by (apply (poff_inj (k_buf k)); congruence).
      assert (KA : bytes_at (w_mem (s_w s)) (poff (k_buf k) (v_n0 v)) (zlen n) = slice (v_stream v) (v_n0 v) (zlen n)) by (eapply kept_bytes; [exact (i_n1 n eq_refl)|exact O|lia|lia|lia]).
      assert (KB : bytes_at (w_mem (s_w s)) (poff (k_buf k) (v_x0 v)) (zlen x) = slice (v_stream v) (v_x0 v) (zlen x)) by (eapply kept_bytes; [exact (i_x1 x eq_refl)|exact O|lia|lia|lia]).
      rewrite EA, EB, KA, KB. reflexivity.
    + split; [|reflexivity]. constructor; [|constructor]. cbn [hdr_in]. rewrite LA, LB.
      split; [exists a; split; [auto|lia]|]. split; [auto|]. split; [exists b; split; [auto|lia]|auto].
  - eexists _, []. split; [reflexivity|]. rewrite !app_nil_r. split; [auto|]. split; [apply INV; auto; congruence|]. split; [constructor|auto].
Qed.

Lemma pch_commute cfg (u : response -> response) c r q w :
  (forall r x, u (set_r_hcount r x) = set_r_hcount (u r) x) ->
  r_hcount (u r) = r_hcount r -> r_cb (u r) = r_cb r -> r_status (u r) = r_status r ->
  processCompleteHeader cfg (mkst (set_cur c q) (u r) w)
  = (s <- processCompleteHeader cfg (mkst c r w) ;;
     Ret (mkst (set_cur (s_ctx s) q) (u (s_resp s)) (s_w s))).
Proof.
  intros U E1 E2 E3. unfold processCompleteHeader. cbn [s_ctx s_resp s_w set_cur c_resp c_lf c_lfl c_lv c_lvl].
  destruct (assert_at (c_resp c) 573); cbn [bind]; auto.
  destruct (c_lf c), (c_lv c); cbn [bind s_ctx s_resp s_w]; auto.
  rewrite E1, E2, E3. destruct (assert_at _ 582); cbn [bind]; auto.
  destruct (r_cb r); cbn [bind s_ctx s_resp s_w]; rewrite ?U; auto.
  destruct (loadn _ p _); cbn [bind]; auto. destruct (loadn _ p0 _); cbn [bind s_ctx s_resp s_w]; rewrite ?U; auto.
Qed.

(** What the callbacks reply. *)
Definition reply_of (k : kst) (ev : pevent) : cbret :=
  match ev with
  | EvHeadersComplete _ _ _ _ =>
      if negb (Z.land (k_opt k) HTTP_RESPONSE_DO_NOT_PARSE_BODY_FLAG =? 0) then CbPause
      else if k_head k then CbNoBody else CbContinue
  | _ => CbContinue
  end.
Definition phase_after (ph : phase) (ev : pevent) (r : cbret) : option phase :=
  match r with CbPause => Some (PhBody true) | CbStop => None | _ => next_phase ph ev r end.

Arguments zlen : simpl never.
Arguments slice : simpl never.
Arguments bytes_at : simpl never.
Arguments poff : simpl never.
Arguments clen_of : simpl never.
Arguments flags_of : simpl never.

Definition cb_goal cfg k ph ev G v D s start : Prop :=
  exists s' tr ph', callback cfg start ev s = Ret (reply_of k ev, s') /\
    w_tr (s_w s') = w_tr (s_w s) ++ tr /\ Forall (hdr_in (k_buf k) (k_L k)) tr /\
    phase_after ph ev (reply_of k ev) = Some ph' /\
    inv0 cfg k ph' (v_start v + ev_end (G - v_start v) ev)
        (Z.max (v_last (view_event v ev)) (v_start v)) (view_event v ev) (D ++ delivered tr) s'.

Definition may (ph : phase) (ev : pevent) : Prop :=
  forall r, r = CbContinue \/ r = CbNoBody -> exists ph', next_phase ph ev r = Some ph'.

Lemma low_grow cfg k ph G C v D s hi G' : k_ok cfg k -> inv0 cfg k ph G C v D s -> G <= G' <= zlen (v_stream v) ->
  hi = match v_bstart v with Some bo => bo | None => G' end ->
  bytes_at (w_mem (s_w s)) (k_buf k) hi = slice (v_stream v) 0 hi.
Proof.
  intros K I HG ->. pose proof (inv_object _ _ _ _ _ _ _ _ K I) as O. destruct K as (KO&KL). destruct I.
  destruct (v_bstart v) as [bo|] eqn:Eb; [apply i_low0; auto|].
  specialize (i_low0 G eq_refl). destruct O as (?&?&?).
  replace G' with (G + (G' - G)) by lia. rewrite bytes_at_app by lia. rewrite i_low0.
  rewrite slice_app by lia. f_equal. replace (0 + G) with G by lia.
  eapply tail_piece; eauto; lia.
Qed.
Lemma tail_grow cfg k ph G C v D s G' : k_ok cfg k -> inv0 cfg k ph G C v D s -> G <= G' <= zlen (v_stream v) ->
  bytes_at (w_mem (s_w s)) (poff (k_buf k) G') (zlen (v_stream v) - G')
           = slice (v_stream v) G' (zlen (v_stream v) - G').
Proof.
  intros K I HG. pose proof (inv_object _ _ _ _ _ _ _ _ K I) as O. destruct K as (KO&KL). destruct I.
  destruct O as (?&?&?). eapply tail_piece; eauto; lia.
Qed.

Section Callbacks.
Variables (cfg : config) (k : kst) (ph : phase) (G C : Z) (v : view) (D : list (bytes * bytes * Z)) (s : cbst) (start : ptr).
Hypotheses (K : k_ok cfg k) (I : inv0 cfg k ph G C v D s) (ES : start = poff (k_buf k) (v_start v))
  (EC : C = Z.max (v_last v) (v_start v)).

Lemma cb_begin : may ph EvMessageBegin -> cb_goal cfg k ph EvMessageBegin G v D s start.
Proof.
  intros M. destruct (M CbContinue) as (ph'&E); [auto|].
  assert (P1 : ph = PhIdle) by (destruct ph as [| | |[]| |[]|[]|]; cbn in E; congruence).
  subst ph. cbn in E. injection E as <-.
  exists (mkst (set_state (s_ctx s) HTTP_PARSING_INCOMPLETE) (s_resp s) (s_w s)), [], PhStatus.
  rewrite !app_nil_r. split; [reflexivity|]. split; [auto|]. split; [constructor|]. split; [reflexivity|].
  cbn [ev_end]. replace (v_start v + (G - v_start v)) with G by lia.
  rewrite EC in I. cbn [view_event v_last].
  destruct I. constructor; cbn; auto.
  - split; congruence.
  - intros [X|X]; discriminate.
Qed.

Lemma cb_complete : may ph EvMessageComplete -> cb_goal cfg k ph EvMessageComplete G v D s start.
Proof.
  intros M. destruct (M CbContinue) as (ph'&E); [auto|].
  assert (P1 : after_headers ph = true /\ ph' = PhIdle) by (destruct ph as [| | |[]| |[]|[]|]; cbn in E; split; auto; congruence).
  destruct P1 as (P1&->).
  exists (mkst (set_state (s_ctx s) HTTP_PARSING_COMPLETE) (s_resp s) (s_w s)), [], PhIdle.
  rewrite !app_nil_r. split; [reflexivity|]. split; [auto|]. split; [constructor|]. split; [auto|].
  cbn [ev_end]. replace (v_start v + (G - v_start v)) with G by lia.
  rewrite EC in I. cbn [view_event v_last].
  destruct I. constructor; cbn; auto.
  - split; congruence.
  - destruct ph as [| | |[]| |[]|[]|]; cbn in *; lia.
  - intros h Hh. specialize (i_hs4 h Hh). split; [tauto|]. intros _. apply i_hs4. destruct ph as [| | |[]| |[]|[]|]; cbn in *; congruence.
  - intros X. destruct (i_nobody0 X). auto.
Qed.

Lemma cb_statuscomplete code : may ph (EvStatusComplete code) -> ev_ok (G - v_start v) (zlen (v_stream v) - v_start v) (EvStatusComplete code) ->
  cb_goal cfg k ph (EvStatusComplete code) G v D s start.
Proof.
  intros M OK. destruct (M CbContinue) as (ph'&E); [auto|].
  assert (P1 : ph = PhStatus) by (destruct ph as [| | |[]| |[]|[]|]; cbn in E; congruence).
  subst ph. cbn in E. injection E as <-.
  unfold cb_goal. cbn [callback reply_of]. unfold onStatusComplete. rewrite (i_resp _ _ _ _ _ _ _ _ I). cbn [assert_at bind].
  eexists _, [], PhHdr. split; [reflexivity|].
  rewrite !app_nil_r. split; [auto|]. split; [constructor|]. split; [reflexivity|].
  cbn [ev_end]. replace (v_start v + (G - v_start v)) with G by lia.
  rewrite EC in I. cbn [view_event v_last]. cbn [ev_ok] in OK.
  destruct I. constructor; cbn; auto; try discriminate.
  - rewrite i_msg0. split; congruence.
  - unfold u16. apply Z.mod_small; lia.
  - intros [X|X]; [|congruence]. auto.
Qed.

Lemma cb_status off len code : may ph (EvStatus off len code) -> ev_ok (G - v_start v) (zlen (v_stream v) - v_start v) (EvStatus off len code) ->
  cb_goal cfg k ph (EvStatus off len code) G v D s start.
Proof.
  intros M OK. destruct (M CbContinue) as (ph'&E); [auto|].
  assert (P1 : ph = PhStatus) by (destruct ph as [| | |[]| |[]|[]|]; cbn in E; congruence).
  subst ph. cbn in E. injection E as <-. cbn [ev_ok] in OK.
  pose proof (inv_object _ _ _ _ _ _ _ _ K I) as O.
  unfold cb_goal. cbn [callback reply_of]. unfold onStatus. rewrite (i_resp _ _ _ _ _ _ _ _ I). cbn [assert_at bind].
  pose proof (i_pos _ _ _ _ _ _ _ _ I) as IP.
  rewrite padd_ok; [|subst start; unfold poff; cbn [pb po]; destruct O as (?&?&?); lia]. cbn [bind].
  eexists _, [], PhStatus. split; [reflexivity|].
  rewrite !app_nil_r. split; [auto|]. split; [constructor|]. split; [reflexivity|].
  cbn [ev_end view_event v_last].
  pose proof (tail_grow _ _ _ _ _ _ _ _ (v_start v + (off + len)) K I ltac:(lia)) as TG.
  pose proof (fun hi => low_grow _ _ _ _ _ _ _ _ hi (v_start v + (off + len)) K I ltac:(lia)) as LG.
  pose proof (i_C _ _ _ _ _ _ _ _ I) as ICC.
  replace (Z.max (v_start v + off + len) (v_start v)) with (v_start v + off + len) by lia.
  destruct I. constructor; cbn; auto; try discriminate; try lia.
  - subst start. unfold poff; cbn [pb po]. f_equal. f_equal. lia.
  - unfold u16. apply Z.mod_small; lia.
  - cbn in *. lia.
  - intros h Hh. specialize (i_hs4 h Hh). cbn in i_hs4. lia.
  - intros [X|X]; [|congruence]. auto.
  - destruct (v_hend v) as [[hl p]|]; auto. do 4 (split; [tauto|]). destruct (v_hstart v); lia.
  - intros p Hp. specialize (i_h2 p Hp). lia.
  - destruct (v_bstart v) as [bo|]; auto. do 3 (split; [tauto|]). split; [lia|]. tauto.
Qed.

Lemma cb_value off len : may ph (EvValue off len) -> ev_ok (G - v_start v) (zlen (v_stream v) - v_start v) (EvValue off len) ->
  cb_goal cfg k ph (EvValue off len) G v D s start.
Proof.
  intros M OK. destruct (M CbContinue) as (ph'&E); [auto|].
  assert (P1 : (ph = PhField true \/ ph = PhValue) /\ ph' = PhValue \/ (ph = PhTField true \/ ph = PhTValue) /\ ph' = PhTValue)
    by (destruct ph as [| | |[]| |[]|[]|]; cbn in E; try discriminate; injection E as <-; tauto).
  cbn [ev_ok] in OK.
  assert (P2 : named_extra ph = 1 /\ named_extra ph' = 1 /\ nameless ph = false /\ nameless ph' = false /\
               after_headers ph' = after_headers ph /\ body_phase ph' = body_phase ph /\ ph <> PhIdle /\ ph' <> PhIdle /\
               v_name v <> None).
  { pose proof (i_pend _ _ _ _ _ _ _ _ I) as IP. destruct P1 as [([P1|P1]&P2)|([P1|P1]&P2)]; rewrite ?P1 in IP |- *; subst; cbn in *; intuition congruence. }
  destruct P2 as (Q1&Q2&Q3&Q4&Q5&Q6&Q7&Q8&Q9).
  pose proof (inv_object _ _ _ _ _ _ _ _ K I) as O.
  pose proof (i_pos _ _ _ _ _ _ _ _ I) as IP. pose proof (i_C _ _ _ _ _ _ _ _ I) as ICC.
  unfold cb_goal. cbn [callback reply_of]. unfold onHeaderValue.
  rewrite padd_ok; [|subst start; unfold poff; cbn [pb po]; destruct O as (?&?&?); lia]. cbn [bind].
  destruct (v_name v) as [nm|] eqn:En; [clear Q9|congruence].
  pose proof (i_name _ _ _ _ _ _ _ _ I nm En) as (a&A1&A2&A3&A4&A5).
  pose proof (tail_grow _ _ _ _ _ _ _ _ (v_start v + (off + len)) K I ltac:(lia)) as TG.
  pose proof (fun hi => low_grow _ _ _ _ _ _ _ _ hi (v_start v + (off + len)) K I ltac:(lia)) as LG.
  assert (PC : bytes_at (w_mem (s_w s)) (poff (k_buf k) (v_start v + off)) len = piece v off len).
  { destruct O as (?&?&?). unfold piece. eapply tail_piece with (G := G); try lia. exact (i_tail _ _ _ _ _ _ _ _ I). }
  assert (LP : zlen (piece v off len) = len) by (unfold piece; apply slice_len; lia).
  assert (EL : mkptr (pb start) (po start + off) = poff (k_buf k) (v_start v + off)).
  { subst start. unfold poff; cbn [pb po]. f_equal. lia. }
  rewrite EL. unfold set_cur. cbn [c_lv c_lf c_lfl c_lvl set_last].
  destruct K as (KO&KL).
  destruct (v_value v) as [xv|] eqn:Ev.
  - pose proof (i_value _ _ _ _ _ _ _ _ I xv Ev) as (b&B1&B2&B3&B4&B5).
    rewrite A1, B1. cbn [c_lf assert_at bind].
    eexists _, [], ph'. split; [reflexivity|].
    rewrite !app_nil_r. split; [auto|]. split; [constructor|]. split; [exact E|].
    cbn [ev_end view_event v_last]. rewrite En, Ev. cbn [or_nil].
    replace (Z.max (v_start v + off + len) (v_start v)) with (v_start v + off + len) by lia.
    pose proof (zlen_nonneg xv). pose proof (zlen_nonneg nm).
    assert (LS : (c_lvl (s_ctx s) + len) mod SZ cfg = zlen (xv ++ piece v off len)).
    { rewrite zlen_app, LP, B2. apply Z.mod_small. lia. }
    rewrite LS.
    destruct I. constructor; cbn; auto; try discriminate; try lia.
    + rewrite i_msg0. tauto.
    + rewrite poff_poff. do 2 f_equal. all: lia.
    + intros h Hh. specialize (i_hs4 h Hh). destruct i_hs4 as (X1&X2). specialize (X2 Q3). split; lia.
    + intros _. apply i_hs5. right. congruence.
    + destruct (v_hend v) as [[hl p]|]; auto. do 4 (split; [tauto|]). destruct (v_hstart v); lia.
    + intros p Hp. specialize (i_h2 p Hp). lia.
    + rewrite Q5; auto.
    + destruct P1 as [(_&->)|(_&->)]; cbn; split; congruence.
    + intros n Hn. injection Hn as <-. exists a. do 3 (split; [auto|]). split; [lia|].
      intros X. apply andb_prop in X as (X&_). destruct (A5 X). split; [auto|discriminate].
    + intros x Hx. injection Hx as <-. exists b. do 3 (split; [auto|]). rewrite zlen_app, LP. split; [lia|].
      intros X. apply andb_prop in X as (X&Y). apply Z.eqb_eq in Y. destruct (B5 X) as (B6&B7). split; [|lia].
      rewrite bytes_at_app; [|destruct O as (?&?&?); unfold poff; cbn [pb po]; lia|lia|lia].
      rewrite B6, poff_poff. f_equal. replace (b + zlen xv) with (v_start v + off) by lia. auto.
    + destruct (v_bstart v) as [bo|]; auto. do 3 (split; [tauto|]). split; [lia|]. tauto.
    + rewrite Q6. auto.
    + destruct (k_cb k); auto. destruct i_D0 as (D1&D2). split; auto. intros X. apply andb_prop in X as (X&_). auto.
    + intros n Hn. injection Hn as <-. pose proof (i_n1 nm En) as KN. rewrite A1 in KN. destruct KN as (KN1&KN2&KN3&KN4).
      eapply kept_grow; [split; [exact KN1|split; [exact KN2|split; [exact KN3|exact KN4]]]|exact O|lia|lia|lia|lia|exact i_tail0].
    + intros n Hn. injection Hn as <-. pose proof (i_x1 xv Ev) as KN. rewrite B1 in KN. destruct KN as (KN1&KN2&KN3&KN4). rewrite zlen_app, LP.
      eapply kept_grow; [split; [exact KN1|split; [exact KN2|split; [exact KN3|exact KN4]]]|exact O|lia|lia|lia|lia|exact i_tail0].
  - rewrite (i_novalue _ _ _ _ _ _ _ _ I Ev), A1. cbn [c_lf assert_at bind].
    eexists _, [], ph'. split; [reflexivity|].
    rewrite !app_nil_r. split; [auto|]. split; [constructor|]. split; [exact E|].
    cbn [ev_end view_event v_last]. rewrite En, Ev. cbn [or_nil app].
    replace (Z.max (v_start v + off + len) (v_start v)) with (v_start v + off + len) by lia.
    pose proof (zlen_nonneg nm).
    destruct I. constructor; cbn; auto; try discriminate; try lia.
    + rewrite i_msg0. tauto.
    + rewrite poff_poff. repeat f_equal; lia.
    + intros h Hh. specialize (i_hs4 h Hh). destruct i_hs4 as (X1&X2). specialize (X2 Q3). split; lia.
    + intros _. apply i_hs5. right. congruence.
    + destruct (v_hend v) as [[hl p]|]; auto. do 4 (split; [tauto|]). destruct (v_hstart v); lia.
    + intros p Hp. specialize (i_h2 p Hp). lia.
    + rewrite Q5; auto.
    + destruct P1 as [(_&->)|(_&->)]; cbn; split; congruence.
    + intros n Hn. injection Hn as <-. exists a. do 3 (split; [auto|]). split; [lia|].
      intros X. apply andb_prop in X as (X&_). destruct (A5 X). split; [auto|discriminate].
    + intros x Hx. injection Hx as <-. exists (v_start v + off). rewrite LP. do 4 (split; [auto; lia|]).
      intros X. split; [auto|lia].
    + destruct (v_bstart v) as [bo|]; auto. do 3 (split; [tauto|]). split; [lia|]. tauto.
    + rewrite Q6. auto.
    + destruct (k_cb k); auto. destruct i_D0 as (D1&D2). split; auto. intros X. apply andb_prop in X as (X&_). auto.
    + intros n Hn. injection Hn as <-. pose proof (i_n1 nm En) as KN. rewrite A1 in KN. destruct KN as (KN1&KN2&KN3&KN4).
      eapply kept_grow; [split; [exact KN1|split; [exact KN2|split; [exact KN3|exact KN4]]]|exact O|lia|lia|lia|lia|exact i_tail0].
    + intros n Hn. injection Hn as <-. rewrite LP. split; [reflexivity|]. split; [lia|]. split; [lia|].
      replace (v_start v + (off + len) - (v_start v + off)) with len by lia. exact PC.
Qed.

Lemma cb_field off len : may ph (EvField off len) -> ev_ok (G - v_start v) (zlen (v_stream v) - v_start v) (EvField off len) ->
  cb_goal cfg k ph (EvField off len) G v D s start.
Proof.
  intros M OK. destruct (M CbContinue) as (ph'&E); [auto|].
  cbn [ev_ok] in OK.
  assert (P2 : ph <> PhIdle /\ ph <> PhStatus /\ ph' <> PhIdle /\
     after_headers ph' = after_headers (unpend ph) /\ body_phase ph' = body_phase (unpend ph) /\
     (nameless (unpend ph) = false \/ unpend ph = PhField false \/ unpend ph = PhTField false) /\
     (0 < len -> named_extra ph' = 1 /\ nameless ph' = false) /\ (named_extra ph' = 0 -> named_extra (unpend ph) = 0) /\
     (named_extra ph' = 1 -> named_extra (unpend ph) = 1 \/ 0 < len) /\ 0 <= named_extra ph' <= 1 /\
     (nameless ph' = false -> named_extra (unpend ph) = 1 \/ 0 < len) /\
     (forall v, pend_ok (unpend ph) v -> v_value v = None) /\
     (forall v, v_name v <> None -> v_value v = None -> pend_ok ph' v) /\
     (forall v, pend_ok (unpend ph) v -> v_name v <> None -> unpend ph = ph)).
  { destruct ph as [| | |[]| |[]|[]|]; cbn in E; try discriminate; injection E as <-; cbn;
      destruct (Z.ltb_spec 0 len); cbn; repeat split; auto; try congruence; try lia; intuition (congruence || lia). }
  destruct P2 as (Q1&Q2&Q3&Q4&Q5&Q6&Q7&Q8&Q9&Q10&Q11&Q12&Q13&Q14).
  destruct (pch_inv _ _ _ _ _ _ _ _ K I Q1 Q2) as (s1&tr&EP&ET&I1&HD&HV).
  pose proof (inv_object _ _ _ _ _ _ _ _ K I) as O.
  pose proof (i_pos _ _ _ _ _ _ _ _ I1) as IP. pose proof (i_C _ _ _ _ _ _ _ _ I1) as ICC.
  assert (FS : v_stream (finish v) = v_stream v /\ v_start (finish v) = v_start v /\ v_last (finish v) = v_last v)
    by (unfold finish; destruct (v_name v), (v_value v); auto).
  destruct FS as (FS1&FS2&FS3). rewrite FS1, FS2, FS3 in *.
  unfold cb_goal. cbn [callback reply_of]. unfold onHeaderField. rewrite (i_resp _ _ _ _ _ _ _ _ I). cbn [assert_at bind].
  rewrite padd_ok; [|subst start; unfold poff; cbn [pb po]; destruct O as (?&?&?); lia]. cbn [bind].
  set (loc := mkptr (pb start) (po start + off)).
  set (u := fun r => match r_headers r with None => set_r_headers r (Some loc) (r_headersLen r) | Some _ => r end).
  change (match r_headers (s_resp s) with None => set_r_headers (s_resp s) (Some loc) (r_headersLen (s_resp s)) | Some _ => s_resp s end)
    with (u (s_resp s)).
  rewrite (pch_commute cfg u).
  2:{ intros r x. unfold u. cbn [set_r_hcount r_headers]. destruct (r_headers r); reflexivity. }
  2-4: unfold u; destruct (r_headers (s_resp s)); reflexivity.
  replace (mkst (s_ctx s) (s_resp s) (s_w s)) with s by (destruct s; auto). rewrite EP. cbn [bind s_ctx s_resp s_w].
  assert (EL : loc = poff (k_buf k) (v_start v + off)).
  { unfold loc. subst start. unfold poff; cbn [pb po]. f_equal. lia. }
  pose proof (tail_grow _ _ _ _ _ _ _ _ (v_start v + (off + len)) K I1 ltac:(rewrite FS1; lia)) as TG.
  pose proof (fun hi => low_grow _ _ _ _ _ _ _ _ hi (v_start v + (off + len)) K I1 ltac:(rewrite FS1; lia)) as LG.
  pose proof (inv_object _ _ _ _ _ _ _ _ K I1) as O1.
  assert (PC : bytes_at (w_mem (s_w s1)) loc len = piece (finish v) off len).
  { destruct O1 as (?&?&?). unfold piece. rewrite EL, FS1, FS2. eapply tail_piece with (G := G); try lia.
    pose proof (i_tail _ _ _ _ _ _ _ _ I1) as T. rewrite FS1 in T. exact T. }
  assert (LP : zlen (piece (finish v) off len) = len) by (unfold piece; rewrite FS1, FS2; apply slice_len; lia).
  destruct K as (KO&KL).
  assert (PV : v_value (finish v) = None) by (apply Q12; exact (i_pend _ _ _ _ _ _ _ _ I1)).
  assert (PL : c_lv (s_ctx s1) = None) by exact (i_novalue _ _ _ _ _ _ _ _ I1 PV).
  assert (UH : r_headers (u (s_resp s1)) = option_map (poff (k_buf k)) (or_new (v_hstart (finish v)) (v_start v + off))).
  { unfold u. pose proof (i_hs _ _ _ _ _ _ _ _ I1) as X. destruct (v_hstart (finish v)); cbn in X; rewrite X; cbn; auto. rewrite EL. auto. }
  assert (UR : r_buf (u (s_resp s1)) = r_buf (s_resp s1) /\ r_bufLen (u (s_resp s1)) = r_bufLen (s_resp s1) /\
     r_cb (u (s_resp s1)) = r_cb (s_resp s1) /\ r_time (u (s_resp s1)) = r_time (s_resp s1) /\ r_opt (u (s_resp s1)) = r_opt (s_resp s1) /\
     r_status (u (s_resp s1)) = r_status (s_resp s1) /\ r_flags (u (s_resp s1)) = r_flags (s_resp s1) /\
     r_hcount (u (s_resp s1)) = r_hcount (s_resp s1) /\ r_headersLen (u (s_resp s1)) = r_headersLen (s_resp s1) /\
     r_hdone (u (s_resp s1)) = r_hdone (s_resp s1) /\ r_clen (u (s_resp s1)) = r_clen (s_resp s1) /\
     r_body (u (s_resp s1)) = r_body (s_resp s1) /\ r_bodyLen (u (s_resp s1)) = r_bodyLen (s_resp s1)).
  { unfold u. destruct (r_headers (s_resp s1)); repeat split. }
  destruct UR as (U1&U2&U3&U4&U5&U6&U7&U8&U9&U10&U11&U12&U13).
  assert (FIN : forall lf lfl,
    (forall n, n = or_nil (v_name (finish v)) ++ piece (finish v) off len ->
      exists f0, lf = Some (poff (k_buf k) f0) /\ lfl = zlen n /\ 0 <= f0 /\ f0 + zlen n <= v_start v + (off + len) /\
       (v_adj (finish v) && match v_name (finish v) with None => true | Some _ => v_next (finish v) =? v_start v + off end = true ->
          bytes_at (w_mem (s_w s1)) (poff (k_buf k) f0) (zlen n) = n /\ v_start v + off + len = f0 + zlen n)) ->
    kept (w_mem (s_w s1)) (k_buf k) (v_stream v) (v_start v + (off + len)) lf (match v_name (finish v) with None => v_start v + off | Some _ => v_n0 (finish v) end)
         (zlen (or_nil (v_name (finish v)) ++ piece (finish v) off len)) ->
    inv0 cfg k ph' (v_start v + ev_end (G - v_start v) (EvField off len))
      (Z.max (v_last (view_event v (EvField off len))) (v_start v)) (view_event v (EvField off len)) (D ++ delivered tr)
      (mkst (set_last (set_cur (s_ctx s1) (Some (poff loc len))) lf lfl (c_lv (s_ctx s1)) (c_lvl (s_ctx s1))) (u (s_resp s1)) (s_w s1))).
  { intros lf lfl HN HK. cbn [ev_end view_event v_last]. rewrite FS2.
    replace (Z.max (v_start v + off + len) (v_start v)) with (v_start v + off + len) by lia.
    rewrite PV. specialize (HN _ eq_refl).
    pose proof (zlen_nonneg (v_headers (finish v))) as ZH.
    destruct I1. constructor; cbn; rewrite ?FS1, ?FS2 in *; auto; try discriminate; try lia; try congruence.
    - rewrite i_msg0. split; [tauto|]. intros _. destruct ph; cbn; congruence.
    - rewrite EL, poff_poff. repeat f_equal; lia.
    - assert (CN : named_extra ph' = 0 \/ named_extra ph' = 1) by lia. destruct CN as [CN|CN].
      + specialize (Q8 CN). lia.
      + assert (0 <= named_extra (unpend ph)) by (destruct (unpend ph) as [| | |[]| |[]|[]|]; cbn; lia). destruct (Q9 CN); lia.
    - intros h Hh. destruct (v_hstart (finish v)) as [h'|] eqn:Eh; cbn in Hh; injection Hh as <-.
      + destruct (i_hs4 h' eq_refl) as (X1&X2). split; [lia|]. intros Y. destruct (Q11 Y) as [Y1|Y1]; [|lia].
        assert (NN : nameless (unpend ph) = false) by (destruct (unpend ph) as [| | |[]| |[]|[]|]; cbn in Y1 |- *; auto; discriminate). specialize (X2 NN). lia.
      + split; [lia|]. intros Y. destruct (Q11 Y) as [Y1|Y1]; [|lia]. exfalso.
        assert (v_name (finish v) <> None) by (destruct (unpend ph) as [| | |[]| |[]|[]|]; cbn in i_pend0, Y1; try discriminate; tauto).
        apply i_hs5; auto.
    - intros _. destruct (v_hstart (finish v)); cbn; congruence.
    - rewrite U9, U10, U11. destruct (v_hend (finish v)) as [[hl p]|]; auto. do 4 (split; [tauto|]). destruct (v_hstart (finish v)); cbn [or_new]; lia.
    - intros p Hp. specialize (i_h2 p Hp). lia.
    - rewrite Q4; auto.
    - apply Q13; cbn; congruence.
    - intros n Hn. injection Hn as <-. destruct HN as (f0&?&?&?&?&X). exists f0. do 4 (split; [auto|]). intros Y. destruct (X Y). split; auto.
    - rewrite U12, U13. destruct (v_bstart (finish v)) as [bo|]; auto. do 3 (split; [tauto|]). split; [lia|]. tauto.
    - rewrite Q5. auto.
    - destruct (k_cb k); auto. destruct i_D0 as (D1&D2). split; auto. intros X. apply andb_prop in X as (X&_). auto. }
  cbn [c_lf set_cur s_ctx].
  destruct (v_name (finish v)) as [nm|] eqn:En.
  - pose proof (i_name _ _ _ _ _ _ _ _ I1 nm En) as (a&A1&A2&A3&A4&A5).
    rewrite A1. assert (A2q : forall q, c_lfl (set_cur (s_ctx s1) q) = zlen nm) by (intros; exact A2). rewrite !A2q. pose proof (zlen_nonneg nm).
    replace (zlen nm <=? SZ cfg - 1 - len) with true by lia. cbn [assert_at bind].
    eexists _, tr, ph'. split; [reflexivity|]. split; [exact ET|]. split; [exact HD|]. split; [exact E|].
    apply FIN. intros n ->. cbn [or_nil]. exists a. rewrite zlen_app, LP. split; [auto|].
    split; [apply Z.mod_small; lia|]. split; [auto|]. split; [lia|]. intros X. apply andb_prop in X as (X&Y). apply Z.eqb_eq in Y.
    destruct (A5 X) as (A6&A7). specialize (A7 PV). split; [|lia].
    rewrite bytes_at_app; [|destruct O as (?&?&?); unfold poff; cbn [pb po]; lia|lia|lia].
    { rewrite A6, poff_poff. f_equal. replace (a + zlen nm) with (v_start v + off) by lia. rewrite <- EL. auto. }
    pose proof (i_n0 _ _ _ _ _ _ _ _ I1 nm En) as KN. rewrite A1, FS1 in KN. destruct KN as (KN1&KN2&KN3&KN4). cbn [or_nil]. rewrite zlen_app, LP.
    pose proof (i_tail _ _ _ _ _ _ _ _ I1) as IT. rewrite FS1 in IT.
    eapply kept_grow; [split; [exact KN1|split; [exact KN2|split; [exact KN3|exact KN4]]]|exact O1|lia|lia|lia|lia|exact IT].
  - rewrite (i_noname _ _ _ _ _ _ _ _ I1 En).
    eexists _, tr, ph'. split; [reflexivity|]. split; [exact ET|]. split; [exact HD|]. split; [exact E|].
    apply FIN. intros n ->. cbn [or_nil app]. exists (v_start v + off). rewrite LP, EL. split; [auto|]. split; [auto|]. split; [lia|]. split; [lia|].
    { intros X. rewrite <- EL. split; [auto|lia]. }
    cbn [or_nil app]. rewrite LP. split; [congruence|]. split; [lia|]. split; [lia|].
    replace (v_start v + (off + len) - (v_start v + off)) with len by lia. rewrite <- EL, PC. unfold piece. rewrite FS1, FS2. reflexivity.
Qed.

Lemma cb_headers p clen close ka : may ph (EvHeadersComplete p clen close ka) ->
  ev_ok (G - v_start v) (zlen (v_stream v) - v_start v) (EvHeadersComplete p clen close ka) ->
  cb_goal cfg k ph (EvHeadersComplete p clen close ka) G v D s start.
Proof.
  intros M OK. destruct (M CbContinue) as (ph0&E0); [auto|].
  cbn [ev_ok] in OK.
  assert (Q0 : ph = PhHdr \/ ph = PhValue).
  { destruct ph as [| | |[]| |[]|[]|]; cbn in E0; try discriminate; auto. }
  assert (Q : ph <> PhIdle /\ ph <> PhStatus /\ unpend ph = PhHdr /\ nameless ph = false) by (destruct Q0 as [->| ->]; cbn; repeat split; congruence).
  destruct Q as (Q1&Q2&Q3&Q4).
  set (b := negb (Z.land (k_opt k) HTTP_RESPONSE_DO_NOT_PARSE_BODY_FLAG =? 0) || k_head k).
  assert (E : phase_after ph (EvHeadersComplete p clen close ka) (reply_of k (EvHeadersComplete p clen close ka)) = Some (PhBody b)).
  { unfold b. cbn [reply_of]. destruct (negb _); cbn [phase_after orb]; auto. destruct (k_head k); destruct Q0 as [->| ->]; reflexivity. }
  assert (BK : k_head k = true \/ dnp k = true -> b = true) by (unfold b, dnp; intros [-> | ->]; [apply orb_true_r|reflexivity]).
  destruct (pch_inv _ _ _ _ _ _ _ _ K I Q1 Q2) as (s1&tr&EP&ET&I1&HD&HV).
  pose proof (inv_object _ _ _ _ _ _ _ _ K I) as O.
  pose proof (i_pos _ _ _ _ _ _ _ _ I1) as IP. pose proof (i_C _ _ _ _ _ _ _ _ I1) as ICC.
  assert (FS : v_stream (finish v) = v_stream v /\ v_start (finish v) = v_start v /\ v_last (finish v) = v_last v /\ v_hstart (finish v) = v_hstart v)
    by (unfold finish; destruct (v_name v), (v_value v); auto).
  destruct FS as (FS1&FS2&FS3&FS4). rewrite FS1, FS2, FS3 in *.
  pose proof (i_hs2 _ _ _ _ _ _ _ _ I) as IH. pose proof (i_hs _ _ _ _ _ _ _ _ I) as IS.
  pose proof (i_cur _ _ _ _ _ _ _ _ I) as IC.
  pose proof (tail_grow _ _ _ _ _ _ _ _ (v_start v + p) K I1 ltac:(rewrite FS1; lia)) as TG.
  pose proof (fun hi => low_grow _ _ _ _ _ _ _ _ hi (v_start v + p) K I1 ltac:(rewrite FS1; lia)) as LG.
  unfold cb_goal. cbn [callback]. unfold onHeadersComplete. rewrite (i_resp _ _ _ _ _ _ _ _ I). cbn [assert_at bind].
  rewrite IC, (i_buf _ _ _ _ _ _ _ _ I).
  unfold psub at 1. unfold poff at 1 2; cbn [pb po]. rewrite Nat.eqb_refl. cbn [bind].
  replace (0 <=? po (k_buf k) + C - po (k_buf k)) with true by lia. cbn [assert_at bind].
  rewrite (i_L _ _ _ _ _ _ _ _ I). rewrite padd_ok by (destruct O as (?&?&?); lia). cbn [bind].
  unfold psub at 1. unfold poff at 1 2 3 4; cbn [pb po]. rewrite Nat.eqb_refl. cbn [bind].
  replace (po (k_buf k) + C - (po (k_buf k) + k_L k) <? 0) with true by lia. cbn [assert_at bind].
  set (hl := match v_hstart v with Some h => C - h | None => 0 end).
  set (u := fun r => let r2 := set_r_headers (set_r_hdone r 1) (r_headers r) hl in
                  let r3 := set_r_clen r2 (if clen =? UINT64_MAX then 0 else clen mod SZ cfg) in
          let r4 := if close
                    then set_r_flags r3 (Z.lor (r_flags r3) HTTP_RESPONSE_CONNECTION_CLOSE_FLAG)
                    else r3 in
          if ka then set_r_flags r4 (Z.lor (r_flags r4) HTTP_RESPONSE_CONNECTION_KEEP_ALIVE_FLAG)
                    else r4).
  assert (ER : (match r_headers (set_r_hdone (s_resp s) 1) with
                | Some h =>
                    d3 <- psub (poff (k_buf k) C) h ;;
                    _ <- assert_at (0 <? d3) 842 ;;
                    Ret (set_r_headers (set_r_hdone (s_resp s) 1) (Some h) d3)
                | None => Ret (set_r_headers (set_r_hdone (s_resp s) 1) None 0)
                end) = Ret (set_r_headers (set_r_hdone (s_resp s) 1) (r_headers (s_resp s)) hl)).
  { cbn [set_r_hdone r_headers]. rewrite IS. unfold hl. destruct (v_hstart v) as [h|]; cbn [option_map]; auto.
    unfold psub, poff; cbn [pb po]. rewrite Nat.eqb_refl. cbn [bind].
    destruct (IH h eq_refl) as (X1&X2). specialize (X2 Q4).
    replace (po (k_buf k) + C - (po (k_buf k) + h)) with (C - h) by lia. replace (0 <? C - h) with true by lia. reflexivity. }
  rewrite ER. cbn [bind]. clear ER.
  match goal with |- context [processCompleteHeader cfg (mkst (s_ctx s) ?r (s_w s))] => change r with (u (s_resp s)) end.
  assert (EQ : processCompleteHeader cfg (mkst (s_ctx s) (u (s_resp s)) (s_w s))
     = Ret (mkst (set_cur (s_ctx s1) (c_cur (s_ctx s))) (u (s_resp s1)) (s_w s1))).
  { replace (s_ctx s) with (set_cur (s_ctx s) (c_cur (s_ctx s))) at 1 by (destruct (s_ctx s); auto).
    rewrite (pch_commute cfg u).
    2:{ intros r x. unfold u. destruct close, ka; reflexivity. }
    2-4: unfold u; destruct close, ka; reflexivity.
    replace (mkst (s_ctx s) (s_resp s) (s_w s)) with s by (destruct s; auto). rewrite EP. reflexivity. }
  rewrite EQ. cbn [bind s_ctx s_resp s_w]. rewrite IC.
  assert (UR : r_buf (u (s_resp s1)) = r_buf (s_resp s1) /\ r_bufLen (u (s_resp s1)) = r_bufLen (s_resp s1) /\
     r_cb (u (s_resp s1)) = r_cb (s_resp s1) /\ r_time (u (s_resp s1)) = r_time (s_resp s1) /\ r_opt (u (s_resp s1)) = r_opt (s_resp s1) /\
     r_status (u (s_resp s1)) = r_status (s_resp s1) /\ r_headers (u (s_resp s1)) = r_headers (s_resp s1) /\
     r_hcount (u (s_resp s1)) = r_hcount (s_resp s1) /\ r_headersLen (u (s_resp s1)) = hl /\
     r_hdone (u (s_resp s1)) = 1 /\ r_clen (u (s_resp s1)) = clen_of cfg clen /\
     r_body (u (s_resp s1)) = r_body (s_resp s1) /\ r_bodyLen (u (s_resp s1)) = r_bodyLen (s_resp s1)).
  { unfold u. destruct close, ka; repeat split. }
  destruct UR as (U1&U2&U3&U4&U5&U6&U7&U8&U9&U10&U11&U12&U13).
  assert (UF : r_flags (u (s_resp s1)) = flags_of (v_close (finish v) || close) (v_ka (finish v) || ka)).
  { unfold u. pose proof (i_flags _ _ _ _ _ _ _ _ I1) as X. destruct close, ka; cbn; rewrite X;
      destruct (v_close (finish v)), (v_ka (finish v)); reflexivity. }
  rewrite U5, (i_opt _ _ _ _ _ _ _ _ I1), (i_head _ _ _ _ _ _ _ _ I).
  eexists _, tr, (PhBody b). split; [reflexivity|]. split; [exact ET|]. split; [exact HD|]. split; [exact E|].
  cbn [ev_end view_event v_last]. rewrite FS2, FS3, FS4, <- EC.
  pose proof (zlen_nonneg (v_headers (finish v))) as ZH.
  destruct I1. rewrite Q3 in *.
  constructor; cbn; rewrite ?FS1, ?FS2, ?FS3 in *; auto; try discriminate; try lia; try congruence.
  - rewrite i_msg0. split; congruence.
  - cbn in i_count0. lia.
  - intros h Hh. destruct (IH h Hh) as (X1&X2). specialize (X2 Q4). lia.
  - rewrite FS4 in i_hs5. auto.
  - rewrite U9, U10, U11. unfold hl. split; [auto|]. split; [auto|]. split; [auto|].
    split; [destruct (v_h1 (finish v)); cbn; congruence|]. split; [lia|].
    destruct (v_hstart v) as [h|] eqn:Eh; [|lia]. specialize (IH h eq_refl). lia.
  - intros p0 Hp. destruct (v_h1 (finish v)) as [q|] eqn:Eq; cbn in Hp; injection Hp as <-; [|lia]. specialize (i_h2 q eq_refl). lia.
  - intros _. destruct (v_h1 (finish v)); cbn; congruence.
  - intros n Hn. destruct (i_name0 n Hn) as (f0&?&?&?&?&?). exists f0. do 3 (split; [auto|]). split; [lia|]. auto.
  - intros n Hn. destruct (i_value0 n Hn) as (f0&?&?&?&?&?). exists f0. do 3 (split; [auto|]). split; [lia|]. auto.
  - rewrite U12, U13. destruct (v_bstart (finish v)) as [bo|]; [|auto]. destruct i_body0 as (Y1&Y2&Y3&Y4&Y5&(q&Y6&Y7)).
    do 3 (split; [auto|]). split; [lia|]. split; [auto|]. exists q. rewrite Y6. cbn. auto.
  - intros X. destruct (i_nobody0 X) as (Y&_). rewrite (BK X). auto.
  - intros n Hn. cbn in i_pend0. destruct i_pend0 as (Y&_). congruence.
  - intros n Hn. cbn in i_pend0. destruct i_pend0 as (_&Y). congruence.
Qed.

Lemma cb_body off len : may ph (EvBody off len) -> ev_ok (G - v_start v) (zlen (v_stream v) - v_start v) (EvBody off len) ->
  cb_goal cfg k ph (EvBody off len) G v D s start.
Proof.
  intros M OK. destruct (M CbContinue) as (ph'&E); [auto|].
  assert (P1 : ph = PhBody false /\ ph' = PhBody false) by (destruct ph as [| | |[]| |[]|[]|]; cbn in E; try discriminate; injection E as <-; auto).
  destruct P1 as (P1&->). cbn [ev_ok] in OK.
  pose proof (inv_object _ _ _ _ _ _ _ _ K I) as O.
  pose proof (i_pos _ _ _ _ _ _ _ _ I) as IP. pose proof (i_C _ _ _ _ _ _ _ _ I) as ICC.
  unfold cb_goal. cbn [callback reply_of]. unfold onBody. rewrite (i_resp _ _ _ _ _ _ _ _ I), (i_buf _ _ _ _ _ _ _ _ I). cbn [assert_at bind].
  assert (EL : mkptr (pb start) (po start + off) = poff (k_buf k) (v_start v + off)).
  { subst start. unfold poff; cbn [pb po]. f_equal. lia. }
  rewrite EL.
  unfold psub at 1. unfold poff at 1 2; cbn [pb po]. rewrite Nat.eqb_refl. cbn [bind].
  replace (0 <=? po (k_buf k) + (v_start v + off) - po (k_buf k)) with true by lia. cbn [assert_at bind].
  rewrite (i_L _ _ _ _ _ _ _ _ I). rewrite padd_ok by (destruct O as (?&?&?); lia). cbn [bind].
  unfold psub at 1. unfold poff at 1 2 3 4; cbn [pb po]. rewrite Nat.eqb_refl. cbn [bind].
  replace (po (k_buf k) + (v_start v + off) - (po (k_buf k) + k_L k) <? 0) with true by lia. cbn [assert_at bind].
  set (bo := match v_bstart v with Some b => b | None => v_start v + off end).
  pose proof (i_body _ _ _ _ _ _ _ _ I) as IB.
  assert (EB : (match r_body (s_resp s) with None => (poff (k_buf k) (v_start v + off), 0) | Some b => (b, r_bodyLen (s_resp s)) end)
     = (poff (k_buf k) bo, zlen (v_body v))).
  { unfold bo. destruct (v_bstart v); [destruct IB as (->&->&_)|destruct IB as (->&_&->)]; auto. }
  rewrite EB. clear EB. pose proof (zlen_nonneg (v_body v)) as ZB.
  assert (HB : 0 <= bo /\ bo + zlen (v_body v) <= v_start v + off).
  { unfold bo. destruct (v_bstart v); [lia|]. destruct IB as (_&_&->). change (zlen (@nil Z)) with 0. lia. }
  rewrite padd_ok by (destruct O as (?&?&?); unfold poff; cbn [pb po]; lia). cbn [bind].
  rewrite poff_poff. unfold psub at 1. unfold poff at 1 2 3 4; cbn [pb po]. rewrite Nat.eqb_refl. cbn [bind].
  assert (PC : bytes_at (w_mem (s_w s)) (poff (k_buf k) (v_start v + off)) len = piece v off len).
  { destruct O as (?&?&?). unfold piece. eapply tail_piece with (G := G); try lia. exact (i_tail _ _ _ _ _ _ _ _ I). }
  assert (LP : zlen (piece v off len) = len) by (unfold piece; apply slice_len; lia).
  set (nx := poff (k_buf k) (bo + zlen (v_body v))).
  assert (ON : object (w_mem (s_w s)) nx len) by (eapply in_buf; eauto; lia).
  assert (MM : exists m1, (if 0 <? po (k_buf k) + (v_start v + off) - (po (k_buf k) + (bo + zlen (v_body v)))
     then memmove (w_mem (s_w s)) nx (poff (k_buf k) (v_start v + off)) len else Ret (w_mem (s_w s))) = Ret m1 /\
     same_outside (w_mem (s_w s)) m1 nx len /\ bytes_at m1 nx len = piece v off len).
  { destruct (Z.ltb_spec 0 (po (k_buf k) + (v_start v + off) - (po (k_buf k) + (bo + zlen (v_body v))))).
    - unfold memmove. rewrite loadn_ok by (eapply in_buf; eauto; lia). cbn [bind]. rewrite PC.
      rewrite storen_ok by (rewrite LP; auto). eexists. split; [reflexivity|].
      pose proof (same_outside_write (w_mem (s_w s)) nx (piece v off len)) as X. pose proof (bytes_at_write_same (w_mem (s_w s)) nx (piece v off len)) as Y.
      rewrite LP in X, Y. auto.
    - exists (w_mem (s_w s)). split; [auto|]. split; [apply same_outside_refl|]. rewrite <- PC. unfold nx. f_equal. f_equal. lia. }
  destruct MM as (m1&EM&SM&BM). rewrite EM. cbn [bind].
  assert (O1 : object m1 (k_buf k) (k_L k)) by (apply (same_outside_object _ _ _ _ _ _ SM); auto).
  rewrite padd_ok by (destruct O1 as (?&?&?); unfold poff; cbn [pb po]; lia). cbn [bind].
  eexists _, [], (PhBody false). split; [reflexivity|].
  rewrite !app_nil_r. split; [auto|]. split; [constructor|]. split; [exact E|].
  cbn [ev_end view_event v_last].
  replace (Z.max (v_start v + off + len) (v_start v)) with (v_start v + off + len) by lia.
  pose proof (tail_grow _ _ _ _ _ _ _ _ (v_start v + (off + len)) K I ltac:(lia)) as TG.
  assert (EBO : or_new (v_bstart v) (v_start v + off) = Some bo) by (unfold bo; destruct (v_bstart v); auto).
  assert (LOW : bytes_at m1 (k_buf k) bo = slice (v_stream v) 0 bo).
  { rewrite (bytes_at_same _ _ _ _ _ _ SM).
    - apply (low_grow _ _ _ _ _ _ _ _ bo (v_start v + off) K I); auto; lia.
    - replace (k_buf k) with (poff (k_buf k) 0) by apply poff_0. eapply in_buf; eauto; lia.
    - right. right. unfold nx, poff; cbn [pb po]. lia. }
  assert (KM : forall o n, 0 <= o -> 0 <= n -> o + n <= k_L k -> o + n <= bo + zlen (v_body v) \/ bo + zlen (v_body v) + len <= o ->
     bytes_at m1 (poff (k_buf k) o) n = bytes_at (w_mem (s_w s)) (poff (k_buf k) o) n).
  { intros o n X1 X2 X3 X4. eapply bytes_at_same; eauto; [eapply in_buf; eauto; lia|]. right. unfold nx, poff; cbn [pb po]. lia. }
  destruct K as (KO&KL).
  assert (SB : (zlen (v_body v) + len) mod SZ cfg = zlen (v_body v ++ piece v off len)).
  { rewrite zlen_app, LP. apply Z.mod_small. lia. }
  rewrite SB. rewrite EBO.
  assert (PN : v_name v = None /\ v_value v = None) by (pose proof (i_pend _ _ _ _ _ _ _ _ I) as X; rewrite P1 in X; exact X).
  destruct PN as (PN1&PN2).
  destruct I. rewrite P1 in *. constructor; cbn; auto; try lia; try congruence.
  - eapply same_outside_trans; [exact i_mem0|]. eapply same_outside_weaken; [exact SM| | |]; unfold nx, poff; cbn [pb po]; auto; lia.
  - rewrite poff_poff. repeat f_equal; lia.
  - cbn in *; lia.
  - intros h Hh. destruct (i_hs4 h Hh) as (X1&X2). specialize (X2 eq_refl). lia.
  - destruct (v_hend v) as [[hl p]|]; auto. do 4 (split; [tauto|]). destruct (v_hstart v); lia.
  - intros p Hp. specialize (i_h2 p Hp). lia.
  - do 2 (split; [auto|]). split; [lia|]. rewrite zlen_app, LP. split; [lia|]. split.
    + rewrite bytes_at_app; [|destruct O as (?&?&?); unfold poff; cbn [pb po]; lia|lia|lia].
      rewrite poff_poff. fold nx. rewrite BM. f_equal. rewrite KM by lia. unfold bo. destruct (v_bstart v); [tauto|]. destruct IB as (_&_&->). reflexivity.
    + destruct (v_bstart v) eqn:Eb; [unfold bo; tauto|]. destruct (v_h1 v) as [q|] eqn:Eq.
      * exists q. specialize (i_h2 q eq_refl). unfold bo. split; [auto|lia].
      * exfalso. apply i_after0; auto.
  - intros X. destruct (i_nobody0 X) as (_&Y). discriminate.
  - rewrite KM by lia. auto.
  - intros b o n Hb Ho Hn Hl. injection Hb as <-. rewrite zlen_app, LP in Ho. rewrite KM by lia. unfold bo in Ho. destruct (v_bstart v) as [b0|] eqn:Eb.
    + apply (i_mid0 b0); auto; lia.
    + destruct IB as (_&_&Q). rewrite Q in Ho. change (zlen (@nil Z)) with 0 in Ho. destruct O as (?&?&?). eapply tail_piece with (G := G); try lia. exact i_tail0.
Qed.

Lemma callback_inv ev : may ph ev -> ev_ok (G - v_start v) (zlen (v_stream v) - v_start v) ev ->
  cb_goal cfg k ph ev G v D s start.
Proof.
  destruct ev; intros; eauto using cb_begin, cb_complete, cb_status, cb_statuscomplete, cb_field, cb_value, cb_headers, cb_body.
Qed.
End Callbacks.

(** ** Where the headers are relative to the body *)
(** No second header section has been completed. *)
Definition one_section (v : view) : Prop := forall hl p, v_hend v = Some (hl, p) -> v_h1 v = Some p.
(** A finished header does not overlap the body. *)
Definition loc_away (v : view) (h : hloc) : Prop := let '((n, nl), (x, xl), _) := h in
  forall bo, v_bstart v = Some bo -> (n + nl <= bo \/ bo + zlen (v_body v) <= n) /\ (x + xl <= bo \/ bo + zlen (v_body v) <= x).
Record stay (ph : phase) (G : Z) (v : view) : Prop := mkstay {
  y_locs : Forall (loc_in G) (v_locs v);
  y_name : forall n, v_name v = Some n -> 0 <= v_n0 v /\ v_n0 v + zlen n <= G;
  y_value : forall x, v_value v = Some x -> 0 <= v_x0 v /\ v_x0 v + zlen x <= G;
  y_away : one_section v -> Forall (loc_away v) (v_locs v);
  y_body : one_section v -> forall b bo, ph = PhBody b -> v_bstart v = Some bo -> Forall (loc_in bo) (v_locs v);
  y_pend : one_section v -> forall bo, v_bstart v = Some bo -> (v_name v <> None -> bo + zlen (v_body v) <= v_n0 v) /\ (v_value v <> None -> bo + zlen (v_body v) <= v_x0 v)
}.
Lemma stay_finish ph G v : stay ph G v -> pend_ok ph v -> stay ph G (finish v).
Proof.
  intros Y PO. unfold finish. destruct (v_name v) as [n|] eqn:EN; auto. destruct (v_value v) as [x|] eqn:EX; auto.
  destruct Y as [Y1 Y2 Y3 Y4 Y5 Y6]. rewrite EN, EX in *. specialize (Y2 n eq_refl). specialize (Y3 x eq_refl). pose proof (zlen_nonneg n). pose proof (zlen_nonneg x).
  unfold one_section in *. constructor; unfold one_section; cbn [v_locs v_name v_value v_n0 v_x0 v_bstart v_body v_hend v_h1]; try discriminate.
  - apply Forall_app. split; auto. constructor; [|constructor]. cbn. lia.
  - intros OS. specialize (Y4 OS). specialize (Y6 OS). apply Forall_app. split; [exact Y4|]. constructor; [|constructor]. cbn [loc_away v_bstart v_body].
    intros bo Hb. destruct (Y6 bo Hb) as (A&B). specialize (A ltac:(discriminate)). specialize (B ltac:(discriminate)). lia.
  - intros OS b bo -> Hb. destruct PO as (PO&_). congruence.
  - intros _ bo _. split; congruence.
Qed.
Lemma stay_event k ph ph' G v ev : stay ph G v -> pend_ok ph v -> 0 <= v_start v <= G -> G <= zlen (v_stream v) -> (forall p, v_h1 v = Some p -> 0 < p <= G) ->
  (forall bo, v_bstart v = Some bo -> 0 <= bo /\ bo + zlen (v_body v) <= G /\ v_h1 v <> None) ->
  ev_ok (G - v_start v) (zlen (v_stream v) - v_start v) ev -> may ph ev -> phase_after ph ev (reply_of k ev) = Some ph' ->
  stay ph' (v_start v + ev_end (G - v_start v) ev) (view_event v ev).
Proof.
  intros Y PO ST GS H1 HB OK M PA.
  assert (PL : forall off len, G - v_start v <= off -> 0 <= len -> off + len <= zlen (v_stream v) - v_start v -> zlen (piece v off len) = len)
    by (intros off len; intros; unfold piece; apply slice_len; lia).
  destruct ev as [|off len code|code|off len|off len|p clen close ka|off len|]; cbn [ev_ok ev_end reply_of phase_after] in OK, PA |- *.
  - replace (v_start v + (G - v_start v)) with G by lia. destruct Y. constructor; cbn [view_event]; auto. intros OS b bo ->. destruct ph as [| | |b0| |b0|b0|]; try destruct b0; discriminate PA.
  - destruct Y as [Y1 Y2 Y3 Y4 Y5 Y6]. constructor; unfold one_section in *; cbn [view_event v_locs v_name v_value v_n0 v_x0 v_bstart v_body v_hend v_h1]; try discriminate; auto.
    + eapply locs_more; [|exact Y1]. lia.
    + intros OS b bo ->. destruct ph as [| | |b0| |b0|b0|]; try destruct b0; discriminate PA.
    + intros _ bo _. split; congruence.
  - replace (v_start v + (G - v_start v)) with G by lia.
    destruct Y as [Y1 Y2 Y3 Y4 Y5 Y6]. constructor; unfold one_section in *; cbn [view_event v_locs v_name v_value v_n0 v_x0 v_bstart v_body v_hend v_h1]; try discriminate; auto.
    + intros OS b bo ->. destruct ph as [| | |b0| |b0|b0|]; try destruct b0; discriminate PA.
    + intros _ bo _. split; congruence.
  - apply stay_finish in Y; [|exact PO].
    assert (FS : v_start (finish v) = v_start v /\ v_stream (finish v) = v_stream v /\ v_bstart (finish v) = v_bstart v /\ v_body (finish v) = v_body v)
      by (unfold finish; destruct (v_name v), (v_value v); auto).
    destruct FS as (FS1&FS2&FS3&FS4). cbn [view_event]. rewrite <- FS3, <- FS4 in HB.
    assert (PF : piece (finish v) off len = piece v off len) by (unfold piece; rewrite FS1, FS2; auto). rewrite PF, FS1. clear PF.
    specialize (PL off len ltac:(lia) ltac:(lia) ltac:(lia)). set (w := finish v) in *. clearbody w.
    destruct Y as [Y1 Y2 Y3 Y4 Y5 Y6]. constructor; unfold one_section in *; cbn [v_locs v_name v_value v_n0 v_x0 v_bstart v_body v_hend v_h1]; auto.
    + eapply locs_more; [|exact Y1]. lia.
    + intros n Hn. assert (n = or_nil (v_name w) ++ piece v off len) by congruence. subst n. rewrite zlen_app, PL. destruct (v_name w) as [n|]; cbn [or_nil].
      * specialize (Y2 n eq_refl). lia.
      * change (zlen (@nil Z)) with 0. lia.
    + intros x Hx. specialize (Y3 x Hx). lia.
    + intros OS b bo ->. destruct ph as [| | |b0| |b0|b0|]; try destruct b0; discriminate PA.
    + intros OS bo Hb. destruct (Y6 OS bo Hb) as (A&B). destruct (HB bo Hb) as (HB1&HB2&HB3). split; [intros _|exact B]. destruct (v_name w); [apply A; discriminate|lia].
  - specialize (PL off len ltac:(lia) ltac:(lia) ltac:(lia)).
    destruct Y as [Y1 Y2 Y3 Y4 Y5 Y6]. constructor; unfold one_section in *; cbn [view_event v_locs v_name v_value v_n0 v_x0 v_bstart v_body v_hend v_h1]; auto.
    + eapply locs_more; [|exact Y1]. lia.
    + intros n Hn. specialize (Y2 n Hn). lia.
    + intros n Hn. assert (n = or_nil (v_value v) ++ piece v off len) by congruence. subst n. rewrite zlen_app, PL. destruct (v_value v) as [n|]; cbn [or_nil].
      * specialize (Y3 n eq_refl). lia.
      * change (zlen (@nil Z)) with 0. lia.
    + intros OS b bo ->. destruct ph as [| | |b0| |b0|b0|]; try destruct b0; discriminate PA.
    + intros OS bo Hb. destruct (Y6 OS bo Hb) as (A&B). destruct (HB bo Hb) as (HB1&HB2&HB3). split; [exact A|intros _]. destruct (v_value v); [apply B; discriminate|lia].
  - apply stay_finish in Y; [|exact PO].
    assert (FS : v_start (finish v) = v_start v /\ v_bstart (finish v) = v_bstart v /\ v_body (finish v) = v_body v /\ v_h1 (finish v) = v_h1 v)
      by (unfold finish; destruct (v_name v), (v_value v); auto).
    destruct FS as (FS1&FS3&FS4&FS5). cbn [view_event]. rewrite <- FS3, <- FS4 in HB. rewrite <- FS5 in HB, H1. rewrite FS1.
    set (w := finish v) in *. clearbody w.
    match goal with |- stay _ _ ?W => assert (NB : one_section W -> v_bstart w = None) end.
    { unfold one_section. cbn [v_hend v_h1]. intros OS. specialize (OS _ _ eq_refl). destruct (v_h1 w) as [q|] eqn:EQ.
      - cbn [or_new] in OS. specialize (H1 q eq_refl). assert (q = v_start v + p) by congruence. lia.
      - destruct (v_bstart w) as [bo|] eqn:EB; auto. destruct (HB bo eq_refl) as (_&_&X). congruence. }
    destruct Y as [Y1 Y2 Y3 Y4 Y5 Y6]. constructor; cbn [v_locs v_name v_value v_n0 v_x0 v_bstart v_body]; auto.
    + eapply locs_more; [|exact Y1]. lia.
    + intros n Hn. specialize (Y2 n Hn). lia.
    + intros n Hn. specialize (Y3 n Hn). lia.
    + intros OS. specialize (NB OS). apply Forall_forall. intros [[[n nl] [x xl]] c] _. cbn [loc_away v_bstart v_body]. intros bo Hb. congruence.
    + intros OS b bo _ Hb. specialize (NB OS). congruence.
    + intros OS bo Hb. specialize (NB OS). congruence.
  - specialize (PL off len ltac:(lia) ltac:(lia) ltac:(lia)). pose proof (zlen_nonneg (v_body v)) as ZB.
    assert (PB : exists b, ph = PhBody b) by (destruct ph as [| | |b0| |b0|b0|]; eauto; try destruct b0; discriminate PA). destruct PB as (b0&->). cbn [pend_ok] in PO. destruct PO as (PN&PX).
    destruct Y as [Y1 Y2 Y3 Y4 Y5 Y6].
    assert (LB : one_section v -> forall bo, or_new (v_bstart v) (v_start v + off) = Some bo -> Forall (loc_in bo) (v_locs v)).
    { intros OS bo Hb. destruct (v_bstart v) as [b1|] eqn:EB; cbn [or_new] in Hb.
      - assert (bo = b1) by congruence. subst b1. eapply Y5; eauto.
      - assert (bo = v_start v + off) by congruence. subst bo. eapply locs_more; [|exact Y1]. lia. }
    constructor; unfold one_section in *; cbn [view_event v_locs v_name v_value v_n0 v_x0 v_bstart v_body v_hend v_h1]; auto.
    + eapply locs_more; [|exact Y1]. lia.
    + congruence.
    + congruence.
    + intros OS. specialize (LB OS). apply Forall_forall. intros [[[n nl] [x xl]] c] HI. cbn [loc_away v_bstart v_body]. intros bo Hb.
      specialize (LB bo Hb). rewrite Forall_forall in LB. specialize (LB _ HI). cbn in LB. lia.
    + intros _ bo _. split; congruence.
  - replace (v_start v + (G - v_start v)) with G by lia. destruct Y. constructor; cbn [view_event]; auto. intros OS b bo ->. destruct ph as [| | |b0| |b0|b0|]; try destruct b0; discriminate PA.
Qed.

Record inv (cfg : config) (k : kst) (ph : phase) (G C : Z) (v : view) (D : list (bytes * bytes * Z)) (s : cbst) : Prop := mkinv {
  i_0 :> inv0 cfg k ph G C v D s;
  i_stay : stay ph G v
}.
Lemma inv_log cfg k ph G C v D s w : w_mem w = w_mem (s_w s) -> handed (w_tr w) = handed (w_tr (s_w s)) ->
  inv cfg k ph G C v D s -> inv cfg k ph G C v D (mkst (s_ctx s) (s_resp s) w).
Proof. intros E E2 []. constructor; auto. apply inv0_log; auto. Qed.
Lemma callback_stay cfg k ph G C v D s start : k_ok cfg k -> inv cfg k ph G C v D s -> start = poff (k_buf k) (v_start v) -> C = Z.max (v_last v) (v_start v) ->
  forall ev, may ph ev -> ev_ok (G - v_start v) (zlen (v_stream v) - v_start v) ev ->
  exists s' tr ph', callback cfg start ev s = Ret (reply_of k ev, s') /\
    w_tr (s_w s') = w_tr (s_w s) ++ tr /\ Forall (hdr_in (k_buf k) (k_L k)) tr /\
    phase_after ph ev (reply_of k ev) = Some ph' /\
    inv cfg k ph' (v_start v + ev_end (G - v_start v) ev)
        (Z.max (v_last (view_event v ev)) (v_start v)) (view_event v ev) (D ++ delivered tr) s'.
Proof.
  intros K I ES EC ev M O. destruct (callback_inv cfg k ph G C v D s start K I ES EC ev M O) as (s'&tr&ph'&A1&A2&A3&A4&A5).
  exists s', tr, ph'. do 4 (split; [auto|]). constructor; [auto|]. pose proof (i_pos _ _ _ _ _ _ _ _ I) as (P1&P2&_). eapply stay_event; try exact A4; auto; try lia; [apply I|apply (i_pend _ _ _ _ _ _ _ _ I)|apply (i_h1 _ _ _ _ _ _ _ _ I)|].
  intros bo Hb. pose proof (i_body _ _ _ _ _ _ _ _ I) as IB. rewrite Hb in IB. destruct IB as (_&_&B3&B4&_&p&B5&_). split; [lia|]. split; [lia|congruence].
Qed.

(** ** One llhttp_execute call *)
(** The log of the callbacks: each event, the headers then given to the application, the reply. *)
Inductive events (k : kst) : list tev -> Prop :=
| events_nil : events k []
| events_cons ev hs tr : Forall (hdr_in (k_buf k) (k_L k)) hs -> events k tr ->
    (reply_of k ev = CbPause -> tr = []) ->
    events k (TEvent ev :: hs ++ TReply (reply_of k ev) :: tr).

Lemma hdrs_view hs buf L v : Forall (hdr_in buf L) hs -> fold_left view_step hs v = v.
Proof. induction 1 as [|e hs H]; cbn [fold_left]; auto. destruct e; cbn in H; try contradiction. auto. Qed.


Lemma view_event_const v ev : v_stream (view_event v ev) = v_stream v /\ v_start (view_event v ev) = v_start v.
Proof. destruct ev; cbn [view_event]; auto; unfold finish; destruct (v_name v), (v_value v); auto. Qed.


Lemma pause_in ev hs r evs buf L : Forall (hdr_in buf L) hs -> r <> CbPause ->
  In (TReply CbPause) (TEvent ev :: hs ++ TReply r :: evs) -> In (TReply CbPause) evs.
Proof.
  intros F N [X|X]; [discriminate|]. apply in_app_or in X. destruct X as [X|[X|X]]; auto; [|congruence].
  rewrite Forall_forall in F. destruct (F _ X).
Qed.
Lemma run_tree_inv cfg k {S} (R : S -> phase -> Prop) (s0 : S) t : k_ok cfg k -> forall ph G v D s,
  inv cfg k ph G (Z.max (v_last v) (v_start v)) v D s ->
  conforms R (zlen (v_stream v) - v_start v) ph (G - v_start v) t ->
  exists e epos ps' s' evs ph' G', let v' := fold_left view_step evs v in
    run_tree cfg (poff (k_buf k) (v_start v)) s0 t s = Ret (e, epos, ps', s') /\
    w_tr (s_w s') = w_tr (s_w s) ++ evs /\ events k evs /\
    inv cfg k ph' G' (Z.max (v_last v') (v_start v')) v' (D ++ delivered evs) s' /\
    v_stream v' = v_stream v /\ v_start v' = v_start v /\
    (goes_on e = true -> R ps' ph') /\
    (e = HPE_PAUSED -> dnp k = true /\ epos = G' - v_start v /\ v_msg v' = MsgBegun /\ exists hl, v_hend v' = Some (hl, G')) /\
    (dnp k = true -> e <> HPE_PAUSED -> v_hend v' = v_hend v) /\ (In (TReply CbPause) evs -> e = HPE_PAUSED).
Proof.
  intros K. induction t as [e0 sd|ev kk IH]; intros ph G v D s I CF; cbn [run_tree conforms] in *.
  - destruct CF as (C1&C2). exists e0, 0, sd, s, [], ph, G. cbn [fold_left]. rewrite !app_nil_r.
    do 2 (split; [auto|]). split; [constructor|]. split; [auto|]. do 2 (split; [auto|]). split; [auto|]. split; [congruence|]. split; [auto|intros []].
  - destruct CF as (C1&C2).
    assert (M : may ph ev). { intros r Hr. destruct (C2 r Hr) as (p'&X&_). eauto. }
    set (s1 := mkst (s_ctx s) (s_resp s) (log (s_w s) (TEvent ev))).
    assert (I1 : inv cfg k ph G (Z.max (v_last v) (v_start v)) v D s1) by (apply inv_log; auto; apply handed_log; exact Logic.I).
    destruct (callback_stay cfg k ph G _ v D s1 (poff (k_buf k) (v_start v)) K I1 eq_refl eq_refl ev M C1) as (s2&tr&ph'&EQ&ET&HD&PA&I2).
    rewrite EQ. cbn [bind]. set (s3 := mkst (s_ctx s2) (s_resp s2) (log (s_w s2) (TReply (reply_of k ev)))).
    destruct (view_event_const v ev) as (VC1&VC2).
    assert (I3 : inv cfg k ph' (v_start v + ev_end (G - v_start v) ev) (Z.max (v_last (view_event v ev)) (v_start v)) (view_event v ev) (D ++ delivered tr) s3)
      by (apply inv_log; auto; apply handed_log; exact Logic.I).
    assert (T3 : w_tr (s_w s3) = w_tr (s_w s) ++ TEvent ev :: tr ++ [TReply (reply_of k ev)]).
    { unfold s3. cbn [s_w log w_tr]. rewrite ET. unfold s1. cbn [s_w log w_tr]. rewrite <- !app_assoc. reflexivity. }
    assert (VT : forall evs, fold_left view_step (TEvent ev :: tr ++ TReply (reply_of k ev) :: evs) v = fold_left view_step evs (view_event v ev)).
    { intros. cbn [fold_left view_step]. rewrite fold_left_app, (hdrs_view _ _ _ _ HD). reflexivity. }
    assert (DT : forall evs, delivered (TEvent ev :: tr ++ TReply (reply_of k ev) :: evs) = delivered tr ++ delivered evs).
    { intros. cbn [delivered]. rewrite delivered_app. reflexivity. }
    clearbody s3. clear I1 I2 EQ ET s1 s2.
    destruct (reply_of k ev) eqn:Er.
    + destruct (C2 CbContinue) as (p2&X1&X2); [auto|]. cbn [phase_after] in PA. rewrite PA in X1. injection X1 as <-.
      replace (Z.max (v_last (view_event v ev)) (v_start v)) with (Z.max (v_last (view_event v ev)) (v_start (view_event v ev))) in I3 by (rewrite VC2; auto).
      destruct (IH CbContinue ph' _ (view_event v ev) _ s3 I3) as (e&epos&ps'&s'&evs&ph2&G2&Y1&Y2&Y3&Y4&Y5&Y6&Y7&Y8&Y9&Y10).
      { rewrite VC1, VC2. replace (v_start v + ev_end (G - v_start v) ev - v_start v) with (ev_end (G - v_start v) ev) by lia. auto. }
      rewrite VC2 in Y1. exists e, epos, ps', s', (TEvent ev :: tr ++ TReply CbContinue :: evs), ph2, G2. cbv zeta. rewrite VT, DT.
      split; [auto|]. split; [rewrite Y2, T3, <- !app_assoc; cbn [app]; rewrite <- !app_assoc; reflexivity|].
      split. { rewrite <- Er. constructor; auto. congruence. }
      rewrite app_assoc. split; [auto|]. split; [congruence|]. split; [congruence|]. split; [auto|].
      split; [rewrite <- VC2; auto|]. split; [|intros HI; apply Y10; eapply pause_in; [exact HD| |exact HI]; discriminate]. intros Hd He. rewrite Y9 by auto.
      destruct ev; cbn [view_event v_hend]; auto; [|cbn [reply_of] in Er; fold (dnp k) in Er; rewrite Hd in Er; discriminate].
      unfold finish; destruct (v_name v), (v_value v); auto.
    + destruct (C2 CbNoBody) as (p2&X1&X2); [auto|]. cbn [phase_after] in PA. rewrite PA in X1. injection X1 as <-.
      replace (Z.max (v_last (view_event v ev)) (v_start v)) with (Z.max (v_last (view_event v ev)) (v_start (view_event v ev))) in I3 by (rewrite VC2; auto).
      destruct (IH CbNoBody ph' _ (view_event v ev) _ s3 I3) as (e&epos&ps'&s'&evs&ph2&G2&Y1&Y2&Y3&Y4&Y5&Y6&Y7&Y8&Y9&Y10).
      { rewrite VC1, VC2. replace (v_start v + ev_end (G - v_start v) ev - v_start v) with (ev_end (G - v_start v) ev) by lia. auto. }
      rewrite VC2 in Y1. exists e, epos, ps', s', (TEvent ev :: tr ++ TReply CbNoBody :: evs), ph2, G2. cbv zeta. rewrite VT, DT.
      split; [auto|]. split; [rewrite Y2, T3, <- !app_assoc; cbn [app]; rewrite <- !app_assoc; reflexivity|].
      split. { rewrite <- Er. constructor; auto. congruence. }
      rewrite app_assoc. split; [auto|]. split; [congruence|]. split; [congruence|]. split; [auto|].
      split; [rewrite <- VC2; auto|]. split; [|intros HI; apply Y10; eapply pause_in; [exact HD| |exact HI]; discriminate]. intros Hd He. rewrite Y9 by auto.
      destruct ev; cbn [reply_of] in Er; try discriminate. fold (dnp k) in Er; rewrite Hd in Er; discriminate.
    + cbn [phase_after] in PA. injection PA as <-.
      exists HPE_PAUSED, (ev_pos ev), s0, s3, (TEvent ev :: tr ++ [TReply CbPause]), (PhBody true), (v_start v + ev_end (G - v_start v) ev).
      cbv zeta. rewrite VT, DT. cbn [fold_left delivered]. rewrite app_nil_r, VC2.
      split; [auto|]. split; [auto|]. split. { rewrite <- Er. constructor; auto. constructor. }
      split; [auto|]. split; [auto|]. split; [auto|]. split; [discriminate|].
      split; [|split; [congruence|auto]]. intros _. pose proof (i_msg _ _ _ _ _ _ _ _ I3) as IM. destruct ev; cbn [reply_of] in Er; try discriminate.
      cbn [ev_pos ev_end view_event v_hend]. split. { unfold dnp. destruct (negb _); auto. destruct (k_head k); discriminate. }
      split; [lia|]. split; [apply IM; discriminate|]. replace (v_start (finish v)) with (v_start v) by (unfold finish; destruct (v_name v), (v_value v); auto). eauto.
    + exfalso. cbn [phase_after] in PA. discriminate.
Qed.

(** Reading ahead in the stream without events. *)
Lemma inv0_advance cfg k ph G C v D s G' C' : k_ok cfg k ->
  inv0 cfg k ph G C v D s -> G <= G' <= zlen (v_stream v) -> C <= C' <= G' ->
  inv0 cfg k ph G' C' v D (mkst (set_cur (s_ctx s) (Some (poff (k_buf k) C'))) (s_resp s) (s_w s)).
Proof.
  intros K I HG HC. pose proof (inv_object _ _ _ _ _ _ _ _ K I) as O.
  pose proof (tail_grow _ _ _ _ _ _ _ _ G' K I HG) as TG.
  pose proof (fun hi => low_grow _ _ _ _ _ _ _ _ hi G' K I HG) as LG.
  destruct I. constructor; cbn; auto; try lia.
  - intros h Hh. destruct (i_hs4 h Hh) as (X1&X2). split; [lia|]. intros X. specialize (X2 X). lia.
  - destruct (v_hend v) as [[hl p]|]; auto. do 4 (split; [tauto|]). destruct (v_hstart v); lia.
  - intros p Hp. specialize (i_h2 p Hp). lia.
  - intros n Hn. destruct (i_name0 n Hn) as (f0&?&?&?&?&?). exists f0. do 3 (split; [auto|]). split; [lia|]. auto.
  - intros n Hn. destruct (i_value0 n Hn) as (f0&?&?&?&?&?). exists f0. do 3 (split; [auto|]). split; [lia|]. auto.
  - destruct (v_bstart v) as [bo|]; [|auto]. do 3 (split; [tauto|]). split; [lia|]. tauto.
  - intros n Hn. pose proof (i_n1 n Hn) as KN. pose proof (zlen_nonneg n). assert (KN3 : v_n0 v + zlen n <= G) by (destruct KN as (_&_&X&_); exact X). eapply kept_grow; [exact KN|exact O|lia|lia|lia|lia|exact i_tail0].
  - intros n Hn. pose proof (i_x1 n Hn) as KN. pose proof (zlen_nonneg n). assert (KN3 : v_x0 v + zlen n <= G) by (destruct KN as (_&_&X&_); exact X). eapply kept_grow; [exact KN|exact O|lia|lia|lia|lia|exact i_tail0].
Qed.

(** Changes beyond the stream (by the transport) are harmless. *)
Lemma inv0_mem cfg k ph v D s w' : k_ok cfg k -> let n := zlen (v_stream v) in
  inv0 cfg k ph n n v D s -> same_outside (w_mem (s_w s)) (w_mem w') (poff (k_buf k) n) (k_L k - n) -> handed (w_tr w') = handed (w_tr (s_w s)) ->
  inv0 cfg k ph n n v D (mkst (s_ctx s) (s_resp s) w').
Proof.
  intros K n I S HT. pose proof (inv_object _ _ _ _ _ _ _ _ K I) as O.
  assert (KM : forall o q, 0 <= o -> 0 <= q -> o + q <= n -> bytes_at (w_mem w') (poff (k_buf k) o) q = bytes_at (w_mem (s_w s)) (poff (k_buf k) o) q).
  { intros o q X1 X2 X3. pose proof (i_pos _ _ _ _ _ _ _ _ I). eapply bytes_at_same; eauto; [eapply in_buf; eauto; lia|]. right. unfold poff; cbn [pb po]. lia. }
  assert (KM0 : forall q, 0 <= q <= n -> bytes_at (w_mem w') (k_buf k) q = bytes_at (w_mem (s_w s)) (k_buf k) q).
  { intros q X. rewrite <- (poff_0 (k_buf k)). apply KM; lia. }
  destruct I. constructor; cbn; auto.
  - eapply same_outside_trans; [exact i_mem0|]. eapply same_outside_weaken; [exact S| | |]; unfold poff; cbn [pb po]; auto; lia.
  - intros x Hn. destruct (i_name0 x Hn) as (f0&?&?&?&?&?). exists f0. do 4 (split; [auto|]). rewrite KM; auto. apply zlen_nonneg.
  - intros x Hn. destruct (i_value0 x Hn) as (f0&?&?&?&?&?). exists f0. do 4 (split; [auto|]). rewrite KM; auto. apply zlen_nonneg.
  - destruct (v_bstart v) as [bo|]; [|auto]. rewrite KM; [auto| | |]; pose proof (zlen_nonneg (v_body v)); tauto || lia.
  - intros hi Hh. rewrite KM0; [auto|]. destruct (v_bstart v) as [bo|]; [|lia]. subst hi. pose proof (zlen_nonneg (v_body v)). lia.
  - fold n. rewrite Z.sub_diag. reflexivity.
  - intros x Hx. destruct (i_n1 x Hx) as (N1&N2&N3&N4). pose proof (zlen_nonneg x). split; [auto|]. split; [auto|]. split; [auto|]. rewrite KM by lia. exact N4.
  - intros x Hx. destruct (i_x1 x Hx) as (N1&N2&N3&N4). pose proof (zlen_nonneg x). split; [auto|]. split; [auto|]. split; [auto|]. rewrite KM by lia. exact N4.
  - intros b o q Hb Ho Hq Hl. rewrite KM by (destruct (v_bstart v); [|discriminate]; injection Hb as ->; pose proof (zlen_nonneg (v_body v)); fold n in Hl; lia). eapply i_mid0; eauto.
  - rewrite HT. auto.
Qed.

Lemma stay_more ph G v G' : G <= G' -> stay ph G v -> stay ph G' v.
Proof. intros H []. constructor; auto. - eapply locs_more; eauto. - intros n Hn. specialize (y_name0 n Hn). lia. - intros n Hn. specialize (y_value0 n Hn). lia. Qed.
Lemma inv_advance cfg k ph G C v D s G' C' : k_ok cfg k ->
  inv cfg k ph G C v D s -> G <= G' <= zlen (v_stream v) -> C <= C' <= G' ->
  inv cfg k ph G' C' v D (mkst (set_cur (s_ctx s) (Some (poff (k_buf k) C'))) (s_resp s) (s_w s)).
Proof. intros K [I Y] HG HC. constructor; [eapply inv0_advance; eauto|eapply stay_more; [|exact Y]; lia]. Qed.
Lemma inv_mem cfg k ph v D s w' : k_ok cfg k -> let n := zlen (v_stream v) in
  inv cfg k ph n n v D s -> same_outside (w_mem (s_w s)) (w_mem w') (poff (k_buf k) n) (k_L k - n) -> handed (w_tr w') = handed (w_tr (s_w s)) ->
  inv cfg k ph n n v D (mkst (s_ctx s) (s_resp s) w').
Proof. intros K n [I Y] S HT. constructor; [apply inv0_mem; auto|exact Y]. Qed.
