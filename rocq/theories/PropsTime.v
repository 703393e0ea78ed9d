(** PropsTime.v — C84: how long a call can take. *)
From Verif Require Import Base Lib ModelRequest ModelSend ModelResponse SpecRequest SpecSend SpecResponse SpecHttp SpecParser SpecExchange ProofsRequest ProofsSend ProofsSend2
  ProofsResponse ProofsResponse2 ProofsResponse3 ProofsResponse4 ProofsResponse5 ProofsTwin ProofsExchange RefParser Demo DemoResponse PropsSend PropsResponse PropsResponse2 PropsExchange SpecTime.

Lemma readings_app a b : readings (a ++ b) = (readings a + readings b)%nat.
Proof. induction a as [|[] a IH]; cbn [readings app]; auto. rewrite IH. lia. Qed.
Lemma progress_app a b : progress (a ++ b) = progress a + progress b.
Proof. induction a as [|[] a IH]; cbn [progress app]; auto; rewrite IH; lia. Qed.
Lemma progress_nonneg a : 0 <= progress a.
Proof. induction a as [|[] a IH]; cbn [progress]; try lia; destruct (0 <? _); lia. Qed.
Lemma paced_mono E D : paced E D -> forall i j, (i <= j)%nat -> 0 <= e_time E j - e_time E i.
Proof. intros H i j L. induction L as [|j L IH]; [lia|]. specialize (H j). lia. Qed.

Section S.
Variables (E : env) (T D : Z).
Hypotheses (PD : paced E D) (T0 : 0 <= T) (TD : T + D < 2 ^ 32).
Let D0 : 0 <= D.
Proof. specialize (PD O). lia. Qed.

Lemma send_loop_time : forall fuel p rem last w i x w',
  last = u32 (e_time E i) -> (i < w_nt w)%nat -> e_time E (w_nt w - 1) - e_time E i = 0 \/ 0 < rem /\ e_time E (w_nt w - 1) - e_time E i < T ->
  wout (send_loop fuel E TUser T p rem last w) = Some (x, w') ->
  exists tr, w_tr w' = w_tr w ++ tr /\ w_nt w' = (w_nt w + readings tr)%nat /\ progress tr <= Z.max 0 rem /\
    e_time E (w_nt w' - 1) - e_time E i <= (progress tr + 1) * (T + D) /\
    (x = Some HTTPSuccess -> e_time E (w_nt w' - 1) - e_time E i <= progress tr * (T + D)).
Proof.
  induction fuel as [|fuel IH]; intros p rem last w i x w' L0 LI HE H.
  { injection H as <- <-. exists []. rewrite app_nil_r. cbn [readings progress]. split; auto. split; [lia|]. split; [lia|]. split; [destruct HE; lia|discriminate]. }
  cbn [send_loop] in H. destruct (Z.leb_spec rem 0) as [R0|R0].
  { injection H as <- <-. exists []. rewrite app_nil_r. cbn [readings progress]. split; auto. split; [lia|]. split; [lia|]. split; [destruct HE; lia|]. intros _. destruct HE; lia. }
  destruct (loadn (w_mem w) p rem) as [d| | |] eqn:LD; cbn [bind] in H; try discriminate; [|unfold loadn in LD; destruct (in_range _ _ _) in LD; discriminate LD].
  destruct (Z.ltb_spec (e_send E (w_ns w) rem) 0) as [N|N].
  { injection H as <- <-. cbn [w_after_send w_tr w_nt]. exists [TSend d (e_send E (w_ns w) rem)]. cbn [readings progress]. replace (0 <? _) with false by lia.
    split; auto. split; [lia|]. split; [lia|]. split; [destruct HE; lia|discriminate]. }
  pose proof (PD (w_nt w - 1)%nat) as PN. replace (S (w_nt w - 1)) with (w_nt w) in PN by lia.
  destruct (Z.ltb_spec 0 (e_send E (w_ns w) rem)) as [Q|Q].
  - destruct (Z.leb_spec (e_send E (w_ns w) rem) rem) as [C|C]; cbn [assert_at bind get_time] in H; try discriminate.
    destruct (padd _ _ _) as [p'| | |] eqn:PA in H; cbn [bind] in H; try discriminate; [|unfold padd in PA; repeat destruct (_ && _) in PA; discriminate PA].
    apply (IH _ _ _ _ (w_nt w)) in H; cbn [w_after_send w_nt]; [|reflexivity|lia|left; replace (S (w_nt w) - 1)%nat with (w_nt w) by lia; lia]. destruct H as (tr&A1&A2&A3&A4&A5).
    cbn [w_after_send w_nt w_tr] in A1, A2. exists (TSend d (e_send E (w_ns w) rem) :: TTime (u32 (e_time E (w_nt w))) :: tr). cbn [readings progress]. replace (0 <? _) with true by lia.
    split; [rewrite A1, <- !app_assoc; reflexivity|]. split; [lia|]. split; [lia|]. pose proof (progress_nonneg tr).
    split; [destruct HE; lia|]. intros X. specialize (A5 X). destruct HE; lia.
  - assert (Z0 : e_send E (w_ns w) rem = 0) by lia. rewrite Z0 in H. cbn [get_time bind] in H. cbn [w_after_send w_nt w_mem w_ns w_nr w_tr] in H.
    destruct (Z.leb_spec T (u32 (u32 (e_time E (w_nt w)) - last))) as [ST|ST].
    + injection H as <- <-. cbn [w_tr w_nt]. exists [TSend d 0; TTime (u32 (e_time E (w_nt w)))]. cbn [readings progress]. change (0 <? 0) with false. cbv iota.
      split; [rewrite <- app_assoc; reflexivity|]. split; [lia|]. split; [lia|]. replace (S (w_nt w) - 1)%nat with (w_nt w) by lia.
      split; [destruct HE; lia|discriminate].
    + rewrite L0, u32_diff in ST. pose proof (paced_mono E D PD i (w_nt w) ltac:(lia)) as PM.
      rewrite u32_small in ST by (unfold two32; change (2 ^ 32) with 4294967296 in TD; destruct HE; lia).
      apply (IH _ _ _ _ i) in H; cbn [w_nt]; [|auto|lia|right; replace (S (w_nt w) - 1)%nat with (w_nt w) by lia; lia]. destruct H as (tr&A1&A2&A3&A4&A5).
      cbn [w_nt w_tr] in A1, A2. exists (TSend d 0 :: TTime (u32 (e_time E (w_nt w))) :: tr). cbn [readings progress]. change (0 <? 0) with false. cbv iota.
      split; [rewrite A1, <- !app_assoc; reflexivity|]. split; [lia|]. split; [lia|]. split; [lia|]. intros X. specialize (A5 X). lia.
Qed.

(** What is shown of every part of a call. *)
Definition timely (w w' : world) (tr : list tev) (ok : bool) : Prop :=
  w_tr w' = w_tr w ++ tr /\ w_nt w' = (w_nt w + readings tr)%nat /\ (1 <= readings tr)%nat /\
  duration E w tr <= (if ok then progress tr else progress tr + 1) * (T + D).

Lemma SendHttpData_time fuel cfg t p len w x w' : SEND_TO cfg = T -> wout (SendHttpData fuel cfg E t TUser p len w) = Some (x, w') ->
  exists tr, timely w w' tr (match x with Some HTTPSuccess => true | _ => false end) /\ progress tr <= Z.max 0 len.
Proof.
  intros ET H. unfold SendHttpData in H. destruct t as [t|]; try discriminate. destruct (t_send t); cbn [assert_at bind] in H; try discriminate.
  destruct p as [p|]; try discriminate. cbn [get_time bind] in H. rewrite ET in H.
  apply (send_loop_time _ _ _ _ _ (w_nt w)) in H; cbn [w_nt]; [|reflexivity|lia|left; replace (S (w_nt w) - 1)%nat with (w_nt w) by lia; lia]. destruct H as (tr&A1&A2&A3&A4&A5).
  cbn [w_tr w_nt] in A1, A2. exists (TTime (u32 (e_time E (w_nt w))) :: tr). unfold timely, duration. cbn [readings progress].
  replace (w_nt w + S (readings tr) - 1)%nat with (w_nt w' - 1)%nat by lia.
  split; [|auto]. split; [rewrite A1, <- app_assoc; reflexivity|]. split; [lia|]. split; [lia|].
  destruct x as [[]|]; auto.
Qed.

Lemma rrun_time k nr nt v tr o v' last i : k_tf k = TUser -> rrun E T k last nr nt v tr o v' -> last = u32 (e_time E i) -> (i < nt)%nat ->
  e_time E (nt - 1) - e_time E i = 0 \/ e_time E (nt - 1) - e_time E i < T -> zlen (v_stream v) <= k_L k ->
  e_time E (nt + readings tr - 1) - e_time E i <= (progress tr + 1) * (T + D) /\ progress tr <= k_L k - zlen (v_stream v).
Proof.
  intros TU H. assert (BK : forall p b e blk, pblock k p b e blk -> readings blk = O /\ progress blk = 0).
  { intros p b e blk (evs&H1&->&_). apply events_inner in H1. cbn [readings progress]. rewrite readings_app, progress_app. cbn [readings progress].
    assert (Q : readings evs = O /\ progress evs = 0) by (induction H1 as [|[] l HX HY IH]; cbn [readings progress]; auto; contradiction). lia. }
  revert i. induction H as [|last nr nt v n d H1 H2|last nr nt v n d b e blk tr o v' H1 H2 H3 H4 H5 H6 H7 H8 IH|last nr nt v n d b e blk H1 H2 H3 H4 H5 H6 H7|last nr nt v d e blk H1 H2 H3|last nr nt v d tr o v' H1 H2 H3 IH];
    intros i L0 LN HE LT; pose proof (PD (nt - 1)%nat) as PN; replace (S (nt - 1)) with nt in PN by lia; cbn [readings progress]; rewrite ?TU in *; cbn [tick clk clk_next app readings progress] in *.
  - replace (nt + 0 - 1)%nat with (nt - 1)%nat by lia. split; [destruct HE; lia|lia].
  - replace (nt + 0 - 1)%nat with (nt - 1)%nat by lia. replace (0 <? n) with false by lia. split; [destruct HE; lia|lia].
  - destruct (BK _ _ _ _ H6) as (B1&B2). rewrite readings_app, progress_app, B1, B2. replace (0 <? n) with true by lia.
    assert (LS : zlen (v_stream (fold_left view_step blk v)) = zlen (v_stream v) + n) by (rewrite (pblock_stream _ _ _ _ _ _ H6), zlen_app; lia).
    destruct (IH nt eq_refl ltac:(lia)) as (I1&I2); [left; replace (S nt - 1)%nat with nt by lia; lia|lia|].
    replace (nt + S (0 + readings tr) - 1)%nat with (S nt + readings tr - 1)%nat by lia. pose proof (progress_nonneg tr).
    split; [destruct HE; lia|lia].
  - destruct (BK _ _ _ _ H6) as (B1&B2). rewrite B1, B2. replace (0 <? n) with true by lia. replace (nt + 1 - 1)%nat with nt by lia. split; [destruct HE; nia|lia].
  - destruct (BK _ _ _ _ H3) as (B1&B2). rewrite B1, B2. change (0 <? 0) with false. cbv iota. replace (nt + 1 - 1)%nat with nt by lia. split; [destruct HE; lia|lia].
  - rewrite L0, u32_diff in H2. pose proof (paced_mono E D PD i nt ltac:(lia)) as PM.
    rewrite u32_small in H2 by (unfold two32; change (2 ^ 32) with 4294967296 in TD; destruct HE; lia).
    destruct (IH i L0 ltac:(lia)) as (I1&I2); [right; replace (S nt - 1)%nat with nt by lia; lia|lia|].
    change (0 <? 0) with false. cbv iota. replace (nt + S (readings tr) - 1)%nat with (S nt + readings tr - 1)%nat by lia. split; lia.
Qed.

Lemma Receive_time fuel cfg P t r rh buf L req w x w' : RECV_TO cfg = T -> recv_setup cfg E P t r rh buf L req w -> r_time r = TUser ->
  wout (ReceiveAndParseHttpResponse fuel cfg E P (Some t) (Some r) (Some rh) w) = Some (x, w') ->
  exists tr, w_tr w' = w_tr w ++ tr /\ duration E w tr <= (progress tr + 1) * (T + D) /\ progress tr <= L.
Proof.
  intros ET S TU H. destruct (Receive_run fuel _ _ _ _ _ _ _ _ _ _ S) as (tr&o&v'&RR&HO). cbn zeta in *.
  assert (X : w_tr w' = w_tr w ++ tick (r_time r) (clk E (r_time r) (w_nt w)) ++ tr).
  { destruct o; [destruct HO as (w2&Q1&Q2&_); rewrite Q1 in H; injection H as _ <-; exact Q2| | |]; destruct HO as (r'&s'&Q1&Q2&_); rewrite Q1 in H; injection H as _ <-; exact Q2. }
  exists (tick (r_time r) (clk E (r_time r) (w_nt w)) ++ tr). split; auto. rewrite TU in *. cbn [recv_timeout tick clk clk_next app] in *. rewrite ET in RR.
  destruct (rrun_time _ _ _ _ _ _ _ _ (w_nt w) (eq_trans eq_refl TU : k_tf (kof r buf L req (w_mem w)) = TUser) RR eq_refl) as (A1&A2); [lia|left; replace (Datatypes.S (w_nt w) - 1)%nat with (w_nt w) by lia; lia| |].
  { destruct S as (_&_&_&_&_&_&_&LL&_). cbn [view0 v_stream kof k_L]. change (zlen (@nil Z)) with 0. lia. }
  unfold duration. cbn [readings progress]. replace (w_nt w + Datatypes.S (readings tr) - 1)%nat with (Datatypes.S (w_nt w) + readings tr - 1)%nat by lia. split; auto.
  cbn [view0 v_stream kof k_L] in A2. change (zlen (@nil Z)) with 0 in A2. lia.
Qed.
End S.

(** ** C84: how long sending data can take.  [x = None]: the call is still running. *)
Theorem C84_send_data : forall fuel cfg E D t p len w x w',
  paced E D -> 0 <= SEND_TO cfg -> SEND_TO cfg + D < 2 ^ 32 ->
  wout (SendHttpData fuel cfg E (Some t) TUser (Some p) len w) = Some (x, w') ->
  exists tr, w_tr w' = w_tr w ++ tr /\ duration E w tr <= (progress tr + 1) * (SEND_TO cfg + D) /\
    (x = Some HTTPSuccess -> duration E w tr <= progress tr * (SEND_TO cfg + D)) /\ progress tr <= Z.max 0 len.
Proof.
  intros fuel cfg E D t p len w x w' PD T0 TD H. destruct (SendHttpData_time E (SEND_TO cfg) D PD T0 TD _ _ _ _ _ _ _ _ eq_refl H) as (tr&(A1&A2&A3&A4)&A5).
  exists tr. split; auto. pose proof (PD O) as D0. split; [|split; [intros ->; exact A4|auto]].
  pose proof (progress_nonneg tr). destruct x as [[]|]; nia.
Qed.
Print Assumptions C84_send_data.

Theorem C84_receive : forall fuel cfg E D P t r rh buf L req w x w',
  recv_setup cfg E P t r rh buf L req w -> r_time r = TUser -> paced E D -> 0 <= RECV_TO cfg -> RECV_TO cfg + D < 2 ^ 32 ->
  wout (ReceiveAndParseHttpResponse fuel cfg E P (Some t) (Some r) (Some rh) w) = Some (x, w') ->
  exists tr, w_tr w' = w_tr w ++ tr /\ duration E w tr <= (progress tr + 1) * (RECV_TO cfg + D) /\ progress tr <= L.
Proof.
  intros fuel cfg E D P t r rh buf L req w x w' S TU PD T0 TD H. exact (Receive_time E (RECV_TO cfg) D PD T0 TD _ _ _ _ _ _ _ _ _ _ _ _ eq_refl S TU H).
Qed.
Print Assumptions C84_receive.

Lemma duration_app E w a b w1 : w_nt w1 = (w_nt w + readings a)%nat -> (1 <= readings a)%nat -> (1 <= readings b)%nat ->
  duration E w (a ++ b) = duration E w a + (e_time E (w_nt w1) - e_time E (w_nt w1 - 1)) + duration E w1 b.
Proof.
  intros N H1 H2. unfold duration. rewrite readings_app, !N.
  replace (w_nt w + (readings a + readings b) - 1)%nat with (w_nt w + readings a + readings b - 1)%nat by lia. lia.
Qed.

(** How far headersLen can be after the Content-Length line has been added, or not. *)
Definition short_block cfg (m : mem) (h : reqHeaders) len n := 0 <= n /\ rh_len h <= n /\ forall st h' m', 0 < len -> addContentLengthHeader cfg m h len = Ret (st, h', m') -> rh_len h' <= n.
Lemma short_block_holds cfg m h hbuf n req len : holds m h hbuf n req -> len <= INT32_MAX -> n + 30 < SZ cfg -> short_block cfg m h len n.
Proof.
  intros H HI W. pose proof H as (_&_&O&(H2&H3)&_). pose proof (zlen_nonneg req). split; [destruct O as (?&?); lia|]. split; [lia|]. intros st h' m' L EQ.
  destruct (addContentLength_outcome cfg m h hbuf n req len H ltac:(lia) W) as (o0&st0&g0&m0&_&EQ0&D). rewrite EQ0 in EQ. injection EQ as -> -> ->.
  cbv zeta in D. destruct D as [(_&_&->&_)|(C&_&(_&_&_&(G1&G2)&_)&_)]; lia.
Qed.
Lemma short_block_h0 cfg m h hbuf n req len h0 : holds m h hbuf n req -> len <= INT32_MAX -> n + 30 < SZ cfg -> Some h = Some h0 -> short_block cfg m h0 len n.
Proof. intros H HI W Q. injection Q as <-. eapply short_block_holds; eauto. Qed.
Lemma sendHttpRequest_time fuel cfg E D t h body len flags w st oh w' n : paced E D -> 0 <= SEND_TO cfg -> SEND_TO cfg + D < 2 ^ 32 -> (forall h0, h = Some h0 -> short_block cfg (w_mem w) h0 len n) -> 0 <= len ->
  sendHttpRequest fuel cfg E t TUser h body len flags w = Ret (st, oh, w') ->
  exists tr, w_tr w' = w_tr w ++ tr /\ w_nt w' = (w_nt w + readings tr)%nat /\ progress tr <= n + len /\
    (tr = [] /\ st <> HTTPSuccess \/
     (1 <= readings tr)%nat /\ duration E w tr <= (match st with HTTPSuccess => progress tr | _ => progress tr + 1 end) * (SEND_TO cfg + D) + D).
Proof.
  intros PD T0 TD HB HL H. pose proof (PD O) as D0. unfold sendHttpRequest in H.
  inv_bind H. inv_bind H. inv_bind H. inv_bind H. clear E0 E1 E2 E3. inv_bind H. destruct a3 as ((st1&h1)&w1).
  unfold SendHttpHeaders in E0. destruct t as [t|]; try discriminate. inv_bind E0. destruct h as [h|]; try discriminate.
  destruct (HB _ eq_refl) as (N0&N1&N2). inv_bind E0. destruct a4 as ((st0&h0)&m0).
  assert (HN : rh_len h0 <= n).
  { match goal with X : (if ?c then _ else _) = Ret (st0, h0, m0) |- _ => destruct c eqn:CC; [|injection X as <- <- <-; exact N1];
      apply andb_prop in CC; destruct CC as (_&CC); apply Z.ltb_lt in CC; exact (N2 _ _ _ CC X) end. }
  destruct (is_success st0) eqn:SU.
  2:{ injection E0 as <- <- <-. rewrite SU in H. injection H as <- <- <-. exists []. rewrite app_nil_r. cbn [set_mem w_tr w_nt readings progress]. split; auto. split; [lia|]. split; [lia|]. left. split; auto. intros ->. discriminate. }
  inv_bind E0. destruct a4 as (st2&w2). injection E0 as <- <- <-.
  destruct (SendHttpData_time E (SEND_TO cfg) D PD T0 TD _ _ _ _ _ _ (Some st2) w2 eq_refl ltac:(rewrite E3; reflexivity)) as (ta&(A1&A2&A3&A4)&A5).
  change (w_tr (set_mem w m0)) with (w_tr w) in *. change (w_nt (set_mem w m0)) with (w_nt w) in *. change (duration E (set_mem w m0) ta) with (duration E w ta) in *.
  destruct (is_success st2) eqn:S2.
  2:{ injection H as <- <- <-. exists ta. split; auto. split; auto. split; [lia|]. right. split; auto. destruct st2; try discriminate; lia. }
  assert (st2 = HTTPSuccess) as -> by (destruct st2; try discriminate; auto).
  destruct body as [b|].
  2:{ injection H as <- <- <-. exists ta. split; auto. split; auto. split; [lia|]. right. split; auto. lia. }
  inv_bind H. destruct a4 as (st3&w3). injection H as <- <- <-.
  unfold sendHttpBody in E0. inv_bind E0. inv_bind E0.
  destruct (SendHttpData_time E (SEND_TO cfg) D PD T0 TD _ _ _ _ _ _ (Some st3) w3 eq_refl ltac:(rewrite E0; reflexivity)) as (tb&(B1&B2&B3&B4)&B5).
  exists (ta ++ tb). rewrite B1, A1, <- app_assoc, readings_app, progress_app. split; auto. split; [lia|]. split; [lia|]. right. split; [lia|].
  rewrite (duration_app E w ta tb w2) by auto. pose proof (PD (w_nt w2 - 1)%nat) as PN. replace (S (w_nt w2 - 1)) with (w_nt w2) in PN by lia.
  destruct st3; lia.
Qed.

(** A whole call of HTTPClient_Send. *)
Theorem C84_exchange : forall fuel cfg E D M P t h hbuf n req body len bd r rbuf L w flags st h' r' w' tr,
  send_setup cfg E P t h hbuf n req body len bd r rbuf L w -> r_time r = TUser -> paced E D ->
  0 <= SEND_TO cfg <= M -> 0 <= RECV_TO cfg <= M -> M + D < 2 ^ 32 ->
  exchanges fuel cfg E P t h body len r flags w st h' r' w' tr ->
  duration E w tr <= (progress tr + 1) * (M + D) + 2 * D /\ progress tr <= n + len + L.
Proof.
  intros fuel cfg E D M P t h hbuf n req body len bd r rbuf L w flags st h' r' w' tr S TU PD T1 T2 TD (X&XT). pose proof (PD O) as D0.
  pose proof (setup_valid _ _ _ _ _ _ _ _ _ _ _ _ _ _ _ S) as NI. pose proof S as (SO&SC&RC&PO&S1&S2&H&LR&W&HL&HI&BA&RB&RL&OB&LL).
  destruct (Send_valid fuel cfg E P _ _ _ _ _ flags w SO HL NI) as (t'&h0'&r0'&Q1&_&_&Q2&Q3&_&_&_&_&_&_&ES). injection Q1 as <-. injection Q2 as <-. injection Q3 as <-.
  rewrite ES in X. clear ES. assert (ER : eff_time r = r) by (unfold eff_time; rewrite TU; auto). rewrite ER, TU in X.
  destruct (sendHttpRequest_run fuel cfg E TUser t h hbuf n req body len bd flags w SC ltac:(discriminate) S1 H ltac:(lia) W BA)
    as (block&h1&m1&so&w1&sent&WH&SS&Em&E1&Etr&Enr&On&Pre&Hh&Hq&Hn&Hi&Hs&Hne&Ho). subst m1.
  destruct (sendHttpRequest _ _ _ _ _ _ _ _ _ _) as [[[st1 oh] wx]| | |wx] eqn:SE; cbn [wout] in E1; try discriminate.
  injection E1 as E1 <-. destruct so as [st'|]; [|discriminate]. injection E1 as <- ->. cbn [bind] in X.
  destruct (sendHttpRequest_time fuel cfg E D (Some t) (Some h) body len flags w _ _ _ n PD ltac:(lia) ltac:(lia) (fun h0 Q => short_block_h0 _ _ _ _ _ _ _ _ H HI W Q) ltac:(lia) SE) as (ta&A1&A2&AP&A3). rewrite Etr in A1. apply app_inv_head in A1. subst ta.
  pose proof (progress_nonneg sent) as PS.
  destruct (is_success st1) eqn:SU.
  2:{ injection X as <- <- <- <-. rewrite Etr in XT. apply app_inv_head in XT. subst tr. destruct A3 as [(->&_)|(A3&A4)].
      - unfold duration. cbn [readings progress] in *. pose proof (paced_mono E D PD (w_nt w + 0 - 1) (w_nt w) ltac:(lia)). split; lia.
      - split; [|lia]. destruct st1; try discriminate; nia. }
  assert (st1 = HTTPSuccess) as -> by (destruct st1; try discriminate; auto). destruct A3 as [(_&A3)|(A3&A4)]; [congruence|].
  assert (C : zlen block <= n) by (destruct (Z.lt_ge_cases n (zlen block)) as [C|C]; [destruct (Hn C); discriminate|auto]).
  pose proof (setup_recv _ _ _ _ _ _ _ _ _ _ _ _ _ _ _ _ _ _ _ S SS WH (Hh C)) as RS. rewrite with_clock_eff, ER in RS.
  destruct (ReceiveAndParseHttpResponse fuel cfg E P (Some t) (Some r) (Some h1) wx) as [[[st2 pr2] w2]| | |] eqn:RE; cbn [bind] in X; try discriminate. injection X as -> <- -> ->.
  destruct (Receive_run fuel _ _ _ _ _ _ _ _ _ _ RS) as (trl&o&v'&RR&HO). cbn zeta in *. rewrite RE in HO. rewrite TU in *. cbn [tick clk] in HO.
  destruct (Receive_time E (RECV_TO cfg) D PD ltac:(lia) ltac:(lia) fuel cfg P t r h1 rbuf L block wx _ w' eq_refl RS TU ltac:(rewrite RE; reflexivity)) as (tb&B1&B2&B3).
  assert (RT : (1 <= readings tb)%nat).
  { assert (Y : exists v l, w_tr w' = w_tr wx ++ TTime v :: l).
    { destruct o; [destruct HO as (w3&Z1&_); discriminate| | |]; destruct HO as (r''&s''&Z1&Z2&_); injection Z1 as _ _ ->; eauto. }
    destruct Y as (v&l&Y). rewrite B1 in Y. apply app_inv_head in Y. subst tb. cbn [readings]. lia. }
  assert (tr = sent ++ tb) as -> by (rewrite B1, Etr, <- app_assoc in XT; apply app_inv_head in XT; auto).
  rewrite (duration_app E w sent tb wx) by auto. rewrite progress_app.
  pose proof (PD (w_nt wx - 1)%nat) as PN. replace (Datatypes.S (w_nt wx - 1)) with (w_nt wx) in PN by lia. pose proof (progress_nonneg tb). split; [nia|lia].
Qed.
Print Assumptions C84_exchange.
(** The same at every moment of a call that is still running. *)
Lemma bind_more {A C} (x : res A) (f : A -> res C) w : bind x f = More w -> x = More w \/ exists a, x = Ret a /\ f a = More w.
Proof. destruct x as [a| | |w']; cbn [bind]; intros H; try discriminate; [right; eauto|left; injection H as ->; reflexivity]. Qed.
Lemma assert_more c l w : assert_at c l = More w -> False.
Proof. destruct c; discriminate. Qed.
Ltac more_assert H := apply bind_more in H; destruct H as [H|(? & _ & H)]; [destruct (assert_more _ _ _ H)|].
Lemma sendHttpRequest_time_more fuel cfg E D t h body len flags w w' n : paced E D -> 0 <= SEND_TO cfg -> SEND_TO cfg + D < 2 ^ 32 ->
  short_block cfg (w_mem w) h len n -> 0 <= len -> (forall w1, 0 < len -> addContentLengthHeader cfg (w_mem w) h len <> More w1) -> sendHttpRequest fuel cfg E t TUser (Some h) body len flags w = More w' ->
  exists tr, w_tr w' = w_tr w ++ tr /\ duration E w tr <= (progress tr + 1) * (SEND_TO cfg + D) + D /\ progress tr <= n + len.
Proof.
  intros PD T0 TD (N0&N1&N2) HL NM H. pose proof (PD O) as D0. unfold sendHttpRequest in H. do 4 more_assert H. apply bind_more in H. destruct H as [H|(((st1&h1)&w1)&E0&H)].
  - unfold SendHttpHeaders in H. destruct t as [t|]; try discriminate. more_assert H. apply bind_more in H. destruct H as [H|(((st0&h0)&m0)&E0&H)].
    + exfalso. destruct (_ && _) eqn:CL; [|discriminate]. apply andb_prop in CL. destruct CL as (_&CL). apply Z.ltb_lt in CL. exact (NM _ CL H).
    + assert (HN : rh_len h0 <= n) by (match goal with X : (if ?c then _ else _) = Ret (st0, h0, m0) |- _ => destruct c eqn:CC; [|injection X as <- <- <-; exact N1];
      apply andb_prop in CC; destruct CC as (_&CC); apply Z.ltb_lt in CC; exact (N2 _ _ _ CC X) end).
      destruct (is_success st0); [|discriminate]. apply bind_more in H. destruct H as [H|((st2&w2)&_&H)]; [|discriminate].
      destruct (SendHttpData_time E (SEND_TO cfg) D PD T0 TD _ _ _ _ _ _ None w' eq_refl ltac:(rewrite H; reflexivity)) as (ta&(A1&A2&A3&A4)&A5).
      exists ta. split; [exact A1|]. change (duration E (set_mem w m0) ta) with (duration E w ta) in *. lia.
  - unfold SendHttpHeaders in E0. destruct t as [t|]; try discriminate. inv_bind E0. inv_bind E0. destruct a0 as ((st0&h0)&m0).
    assert (HN : rh_len h0 <= n) by (match goal with X : (if ?c then _ else _) = Ret (st0, h0, m0) |- _ => destruct c eqn:CC; [|injection X as <- <- <-; exact N1];
      apply andb_prop in CC; destruct CC as (_&CC); apply Z.ltb_lt in CC; exact (N2 _ _ _ CC X) end).
    destruct (is_success st0) eqn:SU. 2:{ injection E0 as <- <- <-. rewrite SU in H. discriminate. }
    inv_bind E0. destruct a0 as (st2&w2). injection E0 as <- <- <-.
    destruct (SendHttpData_time E (SEND_TO cfg) D PD T0 TD _ _ _ _ _ _ (Some st2) w2 eq_refl ltac:(rewrite E3; reflexivity)) as (ta&(A1&A2&A3&A4)&A5).
    change (w_tr (set_mem w m0)) with (w_tr w) in *. change (w_nt (set_mem w m0)) with (w_nt w) in *. change (duration E (set_mem w m0) ta) with (duration E w ta) in *.
    destruct (is_success st2) eqn:S2; [|discriminate]. assert (st2 = HTTPSuccess) as -> by (destruct st2; try discriminate; auto). destruct body as [b|]; [|discriminate].
    apply bind_more in H. destruct H as [H|((st3&w3)&_&H)]; [|discriminate]. unfold sendHttpBody in H. do 2 more_assert H.
    destruct (SendHttpData_time E (SEND_TO cfg) D PD T0 TD _ _ _ _ _ _ None w' eq_refl ltac:(rewrite H; reflexivity)) as (tb&(B1&B2&B3&B4)&B5).
    exists (ta ++ tb). rewrite B1, A1, <- app_assoc, progress_app. split; auto.
    rewrite (duration_app E w ta tb w2) by auto. pose proof (PD (w_nt w2 - 1)%nat) as PN. replace (S (w_nt w2 - 1)) with (w_nt w2) in PN by lia. lia.
Qed.
Theorem C84_exchange_running : forall fuel cfg E D M P t h hbuf n req body len bd r rbuf L w flags w',
  send_setup cfg E P t h hbuf n req body len bd r rbuf L w -> r_time r = TUser -> paced E D ->
  0 <= SEND_TO cfg <= M -> 0 <= RECV_TO cfg <= M -> M + D < 2 ^ 32 ->
  Send fuel cfg E P (Some t) (Some h) body len (Some r) flags w = More w' ->
  exists tr, w_tr w' = w_tr w ++ tr /\ duration E w tr <= (progress tr + 1) * (M + D) + 2 * D /\ progress tr <= n + len + L.
Proof.
  intros fuel cfg E D M P t h hbuf n req body len bd r rbuf L w flags w' S TU PD T1 T2 TD X. pose proof (PD O) as D0.
  pose proof (setup_valid _ _ _ _ _ _ _ _ _ _ _ _ _ _ _ S) as NI. pose proof S as (SO&SC&RC&PO&S1&S2&H&LR&W&HL&HI&BA&RB&RL&OB&LL).
  destruct (Send_valid fuel cfg E P _ _ _ _ _ flags w SO HL NI) as (t'&h0'&r0'&Q1&_&_&Q2&Q3&_&_&_&_&_&_&ES). injection Q1 as <-. injection Q2 as <-. injection Q3 as <-.
  rewrite ES in X. clear ES. assert (ER : eff_time r = r) by (unfold eff_time; rewrite TU; auto). rewrite ER, TU in X.
  destruct (sendHttpRequest fuel cfg E (Some t) TUser (Some h) body len flags w) as [[[st1 oh] wx]| | |wx] eqn:SE; cbn [bind] in X; try discriminate.
  2:{ injection X as ->. destruct (sendHttpRequest_time_more fuel cfg E D (Some t) h body len flags w w' n PD ltac:(lia) ltac:(lia) (short_block_holds _ _ _ _ _ _ _ H HI W) ltac:(lia) ltac:(intros w1 PL; destruct (addContentLength_outcome cfg (w_mem w) h hbuf n req len H ltac:(lia) W) as (o0&st0&g0&m0&_&EQ0&_); rewrite EQ0; discriminate) SE) as (ta&A1&A2&AP).
      exists ta. split; [exact A1|]. pose proof (progress_nonneg ta). split; [nia|lia]. }
  destruct (sendHttpRequest_run fuel cfg E TUser t h hbuf n req body len bd flags w SC ltac:(discriminate) S1 H ltac:(lia) W BA)
    as (block&h1&m1&so&w1&sent&WH&SS&Em&E1&Etr&Enr&On&Pre&Hh&Hq&Hn&Hi&Hs&Hne&Ho). subst m1. rewrite SE in E1. cbn [wout] in E1.
  injection E1 as E1 <-. destruct so as [st'|]; [|discriminate]. injection E1 as <- ->.
  destruct (sendHttpRequest_time fuel cfg E D (Some t) (Some h) body len flags w _ _ _ n PD ltac:(lia) ltac:(lia) (fun h0 Q => short_block_h0 _ _ _ _ _ _ _ _ H HI W Q) ltac:(lia) SE) as (ta&A1&A2&AP&A3). rewrite Etr in A1. apply app_inv_head in A1. subst ta.
  pose proof (progress_nonneg sent) as PS. destruct (is_success st1) eqn:SU; [|discriminate].
  assert (st1 = HTTPSuccess) as -> by (destruct st1; try discriminate; auto). destruct A3 as [(_&A3)|(A3&A4)]; [congruence|].
  assert (C : zlen block <= n) by (destruct (Z.lt_ge_cases n (zlen block)) as [C|C]; [destruct (Hn C); discriminate|auto]).
  pose proof (setup_recv _ _ _ _ _ _ _ _ _ _ _ _ _ _ _ _ _ _ _ S SS WH (Hh C)) as RS. rewrite with_clock_eff, ER in RS.
  destruct (ReceiveAndParseHttpResponse fuel cfg E P (Some t) (Some r) (Some h1) wx) as [[[st2 pr2] w2]| | |w2] eqn:RE; cbn [bind] in X; try discriminate. injection X as ->.
  destruct (Receive_run fuel _ _ _ _ _ _ _ _ _ _ RS) as (trl&o&v'&RR&HO). cbn zeta in *. rewrite RE in HO. rewrite TU in *. cbn [tick clk] in HO.
  destruct (Receive_time E (RECV_TO cfg) D PD ltac:(lia) ltac:(lia) fuel cfg P t r h1 rbuf L block wx _ w' eq_refl RS TU ltac:(rewrite RE; reflexivity)) as (tb&B1&B2&B3).
  assert (RT : (1 <= readings tb)%nat).
  { assert (Y : exists v l, w_tr w' = w_tr wx ++ TTime v :: l).
    { destruct o; [destruct HO as (w3&Z1&Z2&_); injection Z1 as ->; eauto| | |]; destruct HO as (r''&s''&Z1&Z2&_); discriminate Z1. }
    destruct Y as (v&l&Y). rewrite B1 in Y. apply app_inv_head in Y. subst tb. cbn [readings]. lia. }
  exists (sent ++ tb). split; [rewrite B1, Etr, <- app_assoc; reflexivity|].
  rewrite (duration_app E w sent tb wx) by auto. rewrite progress_app.
  pose proof (PD (w_nt wx - 1)%nat) as PN. replace (Datatypes.S (w_nt wx - 1)) with (w_nt wx) in PN by lia. pose proof (progress_nonneg tb). split; [nia|lia].
Qed.
Print Assumptions C84_exchange_running.
Example C84_running_case : exists w', Send 2 cfg0 (env_ex resp_ok) refparser (Some trr) (Some hx) (Some (mkptr 2 0)) 4 (Some rsep) 0 wsep = More w' /\ w_tr w' <> [].
Proof. vm_compute. eexists. split; [reflexivity|discriminate]. Qed.
(** A server that says nothing, a clock read every 400 ms, a timeout of 1000 ms: the call takes 1200 ms, and cannot take more than 1400.  One that
    sends a line and falls silent: 1600 ms, at most 2800. *)
Example C84_silent : paced (env_of []) 400 /\ RECV_TO cfg0 + 400 = 1400 /\
  (exists r' w' tr, demo_receives [] (resp0 200 0) 200 HTTPNoResponse r' w' tr /\ progress tr = 0 /\ duration (env_of []) (wr 200) tr = 1200) /\
  (exists r' w' tr, demo_receives [line (B "HTTP/1.1 200 OK")] (resp0 200 0) 200 HTTPPartialResponse r' w' tr /\ progress tr = 1 /\ duration (env_of []) (wr 200) tr = 1600).
Proof.
  split; [intros n; cbn [env_of e_time]; lia|]. split; [reflexivity|]. split; (do 3 eexists; split; [demo|]; split; vm_compute; reflexivity).
Qed.
(** A whole exchange. *)
Example C84_case : send_setup cfg0 (env_ex resp_ok) refparser trr hx buf0 300 req1 (Some (mkptr 2 0)) 4 (B "data") rsep rbuf 300 wsep /\ r_time rsep = TUser /\
  paced (env_ex resp_ok) 100 /\ SEND_TO cfg0 = 1000 /\ RECV_TO cfg0 = 1000 /\ 1000 + 100 < 2 ^ 32 /\
  exists h' r' w' tr, exchanges 100 cfg0 (env_ex resp_ok) refparser trr hx (Some (mkptr 2 0)) 4 rsep 0 wsep HTTPSuccess h' r' w' tr /\
    duration (env_ex resp_ok) wsep tr = 800 /\ progress tr = 6.
Proof.
  split; [apply setup_ex|]. split; [reflexivity|]. split; [intros n; cbn [env_ex e_time]; lia|]. split; [reflexivity|]. split; [reflexivity|]. split; [reflexivity|].
  do 4 eexists. split; [split; [vm_compute; reflexivity|reflexivity]|]. split; vm_compute; reflexivity.
Qed.
