(** PropsEnds.v — that the applications of C96 (SpecDownload.v) and C97 (SpecRetry.v) come to an end: every one of their calls returns. *)
From Verif Require Import Base Lib ModelRequest ModelSend ModelResponse SpecRequest SpecSend SpecResponse SpecHttp SpecParser SpecExchange SpecExact SpecSession SpecDownload SpecRetry
  ProofsRequest ProofsSend ProofsResponse ProofsResponse2 RefParser Demo DemoResponse PropsExchange PropsApi PropsSession PropsDownload PropsRetry.

(** With a clock that advances, so many calls of the transport as the sizes and timeouts allow; without one, so many as the sizes allow. *)
Definition enough (cfg : config) (E : env) (r : response) (n len L : Z) (fuel : nat) : Prop :=
  match r_time r with
  | TUser => advancing E (SEND_TO cfg) /\ advancing E (RECV_TO cfg) /\ (n + len + 1) * (SEND_TO cfg + 1) < Z.of_nat fuel /\ (L + 1) * (RECV_TO cfg + 1) < Z.of_nat fuel
  | _ => n + len + 1 < Z.of_nat fuel /\ L + 1 < Z.of_nat fuel
  end.
(** So often at most a call of the transport is repeated without progress. *)
Definition again (r : response) (timeout : Z) : Z := match r_time r with TUser => timeout + 1 | _ => 1 end.
Lemma enough_returns fuel cfg E P t h hbuf n req body len bd r rbuf L w flags : send_setup cfg E P t h hbuf n req body len bd r rbuf L w -> config_ok cfg -> enough cfg E r n len L fuel ->
  exists st h' r' w' tr, exchanges fuel cfg E P t h body len r flags w st h' r' w' tr /\ sends tr <= (n + len + 2) * again r (SEND_TO cfg) /\ recvs tr <= (L + 1) * again r (RECV_TO cfg).
Proof.
  intros S CO EN. unfold enough in EN. unfold again. destruct (r_time r) eqn:TM.
  - rewrite !Z.mul_1_r. apply (C49_send_terminates_without_clock fuel _ _ _ _ _ _ _ _ _ _ _ _ _ _ _ flags S ltac:(congruence) (proj1 EN) (proj2 EN)).
  - rewrite !Z.mul_1_r. apply (C49_send_terminates_without_clock fuel _ _ _ _ _ _ _ _ _ _ _ _ _ _ _ flags S ltac:(congruence) (proj1 EN) (proj2 EN)).
  - destruct EN as (A1&A2&F1&F2). apply (C49_send_terminates fuel _ _ _ _ _ _ _ _ _ _ _ _ _ _ _ flags S CO TM A1 A2 F1 F2).
Qed.

Theorem C97_retry_ends : forall fuel cfg P t ri me p ho cs hs buf n body len bd r rbuf L flags Es h m,
  retry_setup cfg P t ri me p ho cs hs h buf n body len bd r rbuf L m -> Forall (fun E => send_contract E /\ recv_contract E) Es -> Forall (fun E => enough cfg E r n len L fuel) Es ->
  exists logs o m', retry fuel cfg P t ri cs body len flags r h Es m = Ret (logs, o, m') /\
    Forall (fun tr => sends tr <= (n + len + 2) * again r (SEND_TO cfg) /\ recvs tr <= (L + 1) * again r (RECV_TO cfg)) logs.
Proof.
  intros fuel cfg P t ri me p ho cs hs buf n body len bd r rbuf L flags Es. induction Es as [|E Es IH]; intros h m D FE FN; cbn [retry]; [exists [], None, m; split; [reflexivity|constructor]|].
  inversion FE as [|x l (SC&RC) FE']; subst. inversion FN as [|x l EN FN']; subst. destruct (attempt fuel _ _ _ _ _ _ _ _ _ _ _ _ _ _ _ _ _ _ _ E flags D SC RC) as (sts&h1&m1&X1&X2&_&X4). rewrite X1. cbn [bind].
  destruct (forallb is_success sts); cbn [negb]; [|exists [], None, m1; split; [reflexivity|constructor]]. destruct (X4 eq_refl) as (SS&X5).
  destruct (enough_returns fuel _ _ _ _ _ _ _ _ _ _ _ _ _ _ _ flags SS ltac:(apply D) EN) as (st0&h0&r0&w0&tr0&(Q1&Q2)&Q3&Q4). cbn [w_tr app] in Q2.
  destruct X5 as [(w1&Y1&_)|(st&h2&r1&w1&(Y1&_)&Y2&Y3)]; [rewrite Q1 in Y1; discriminate|].
  rewrite Y1 in Q1. injection Q1 as <- <- <- <-. subst tr0. rewrite Y1. cbn [bind]. destruct (IH h2 (w_mem w1) Y3 FE' FN') as (lo&oo&mo&Q&QF). rewrite Q. cbn [bind].
  destruct st; try (exists (w_tr w1 :: lo), oo, mo; split; [reflexivity|constructor; auto]). exists [w_tr w1], (Some (h2, r1, w1)), (w_mem w1). split; [reflexivity|constructor; auto].
Qed.
Print Assumptions C97_retry_ends.

Theorem C96_download_ends : forall fuel cfg E P t ri p ho h buf n r rbuf L cs a w,
  download_setup cfg E P t ri p ho h buf n r rbuf L (w_mem w) -> 0 <= a -> Forall (fun c => 0 < c) cs -> a + total cs <= INT32_MAX + 1 -> enough cfg E r n 0 L fuel ->
  exists o w' tr, download fuel cfg E P t ri r h a cs w = Ret (o, w') /\ w_tr w' = w_tr w ++ tr /\
    sends tr <= zlen cs * ((n + 2) * again r (SEND_TO cfg)) /\ recvs tr <= zlen cs * ((L + 1) * again r (RECV_TO cfg)).
Proof.
  intros fuel cfg E P t ri p ho h buf n r rbuf L cs. revert h. induction cs as [|c cs IH]; intros h a w D A F S EN.
  - exists (Some []), w, []. rewrite app_nil_r. split; [reflexivity|]. split; [auto|]. split; reflexivity.
  - inversion F as [|x l C F']; subst. cbn [total fold_right] in S. fold (total cs) in S. assert (T0 : 0 <= total cs) by (apply total_nonneg; auto).
    destruct (range_text a c A C ltac:(lia)) as (v&RV). destruct (piece fuel _ _ _ _ _ _ _ _ _ _ _ _ _ a c v w D A C ltac:(lia) RV) as (sts&h1&m1&X1&X2&_&X4).
    assert (CO : config_ok cfg) by apply D. assert (AG : 0 <= again r (SEND_TO cfg) /\ 0 <= again r (RECV_TO cfg)) by (destruct CO as (_&_&_&_&?&?); unfold again; destruct (r_time r); lia).
    assert (NL : 0 <= n /\ 0 <= L) by (pose proof (D) as (_&_&_&_&_&_&_&_&_&DL&_); split; [lia|]; unfold download_setup in D; repeat match type of D with _ /\ _ => destruct D as (?&D) end; lia).
    assert (B0 : 0 <= (n + 2) * again r (SEND_TO cfg) /\ 0 <= (L + 1) * again r (RECV_TO cfg)) by (split; apply Z.mul_nonneg_nonneg; lia).
    set (bs := (n + 2) * again r (SEND_TO cfg)) in *. set (br := (L + 1) * again r (RECV_TO cfg)) in *.
    assert (ZC : forall B, zlen (c :: cs) * B = B + zlen cs * B) by (intros; rewrite zlen_cons; lia). rewrite !ZC. pose proof (zlen_nonneg cs) as Z0.
    assert (M0 : 0 <= zlen cs * bs /\ 0 <= zlen cs * br) by (split; apply Z.mul_nonneg_nonneg; lia).
    cbn [download]. rewrite X1. cbn [bind]. destruct (forallb is_success sts); cbn [negb].
    2:{ exists None, (with_mem w m1), []. rewrite app_nil_r. split; [reflexivity|]. split; [auto|]. change (sends []) with 0. change (recvs []) with 0. lia. }
    destruct (X4 eq_refl) as (SS&X5).
    destruct (enough_returns fuel _ _ _ _ _ _ _ _ _ _ _ _ _ _ _ 0 SS CO EN) as (st0&h0&r0&w0&tr0&(Q1&Q2)&Q3&Q4). rewrite Z.add_0_r in Q3. fold bs in Q3. fold br in Q4.
    destruct X5 as [(w1&tr&Y1&Y2&Y3)|(st&h2&r1&w1&tr&(Y1&Y2)&Y3&Y4&Y5&Y6&Y7)]; [rewrite Q1 in Y1; discriminate|].
    rewrite Y1 in Q1. injection Q1 as <- <- <- <-. rewrite Y1. cbn [bind]. cbn [with_mem w_tr] in Q2.
    assert (GU : exists o w' tr, Ret (@None bytes, w1) = Ret (o, w') /\ w_tr w' = w_tr w ++ tr /\ sends tr <= bs + zlen cs * bs /\ recvs tr <= br + zlen cs * br).
    { exists None, w1, tr0. split; [reflexivity|]. split; [exact Q2|]. lia. }
    destruct st; try exact GU. destruct (r_body r1) as [q|]; [|exact GU]. destruct ((r_status r1 =? 206) && (r_bodyLen r1 =? c)) eqn:Q; [|exact GU].
    apply andb_true_iff in Q. destruct Q as (_&Q). rewrite loadn_ok by (replace c with (r_bodyLen r1) by lia; auto). cbn [bind].
    destruct (IH h2 (a + c) w1 (setup_keeps _ _ _ _ _ _ _ _ _ _ _ _ _ _ _ _ D Y3 Y4 Y5 Y6) ltac:(lia) F' ltac:(lia) EN) as (o&w'&tr2&Z1&Z2&Z3&Z4). rewrite Z1. cbn [bind].
    do 2 eexists. exists (tr0 ++ tr2). split; [reflexivity|]. split; [rewrite Z2, Q2, app_assoc; auto|]. rewrite sends_app, recvs_app. lia.
Qed.
Print Assumptions C96_download_ends.

(** ** Case: the connections of C97_case, whose clock advances by 100 ms with every reading: the application ends. *)
Example C97_ends_case : exists fuel, enough cfg0 E_cut rsep 300 4 300 fuel /\ enough cfg0 E_good rsep 300 4 300 fuel /\
  exists logs o m', retry fuel cfg0 refparser trr ri_r cs_r (Some (mkptr 2 0)) 4 0 rsep h_d [E_cut; E_good] m_r = Ret (logs, o, m').
Proof.
  exists (Z.to_nat 100000000).
  assert (A : forall E, (forall k, e_time E k = 100 * Z.of_nat k) -> enough cfg0 E rsep 300 4 300 (Z.to_nat 100000000)).
  { intros E Q. unfold enough. cbn [rsep r_time]. rewrite Z2Nat.id by lia. cbn [cfg0 SEND_TO RECV_TO]. split; [|split; [|lia]]; intros k; rewrite !Q; lia. }
  assert (A1 : enough cfg0 E_cut rsep 300 4 300 (Z.to_nat 100000000)) by (apply A; reflexivity). assert (A2 : enough cfg0 E_good rsep 300 4 300 (Z.to_nat 100000000)) by (apply A; reflexivity).
  split; [exact A1|]. split; [exact A2|]. destruct C97_case as (_&K1&K2&_).
  destruct (C97_retry_ends (Z.to_nat 100000000) cfg0 refparser trr ri_r (B "POST") (B "/f") (B "h") cs_r hs_r buf0 300 (Some (mkptr 2 0)) 4 (B "data") rsep rbuf 300 0 [E_cut; E_good] h_d m_r setup_r
    ltac:(constructor; [split; apply K1|constructor; [split; apply K2|constructor]]) ltac:(constructor; [exact A1|constructor; [exact A2|constructor]])) as (lo&o&m'&Q&_). exists lo, o, m'. exact Q.
Qed.
