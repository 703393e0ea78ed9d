(** ProofsSend.v — the sending half. *)
From Verif Require Import Base Lib ModelRequest ModelSend SpecRequest SpecSend ProofsRequest ProofsDecimal ProofsRequest2 ProofsHistory.
From Coq Require Import Arith.

Definition tick (tf : timefn) (t : Z) : list tev := match tf with TUser => [TTime t] | _ => [] end.

(** The possible traces of the send loop; [None]: still running. *)
Inductive srun (T : Z) (tf : timefn) : Z -> bytes -> list tev -> option status -> Prop :=
| sr_done last : srun T tf last [] [] (Some HTTPSuccess)
| sr_more last rem : srun T tf last rem [] None
| sr_fail last rem r : rem <> [] -> r < 0 -> srun T tf last rem [TSend rem r] (Some HTTPNetworkError)
| sr_acc last rem r t tr o : rem <> [] -> 0 < r <= zlen rem ->
    srun T tf t (slice rem r (zlen rem - r)) tr o ->
    srun T tf last rem (TSend rem r :: tick tf t ++ tr) o
| sr_stall last rem t : rem <> [] -> T <= u32 (t - last) ->
    srun T tf last rem (TSend rem 0 :: tick tf t) (Some HTTPNetworkError)
| sr_wait last rem t tr o : rem <> [] -> u32 (t - last) < T -> srun T tf last rem tr o ->
    srun T tf last rem (TSend rem 0 :: tick tf t ++ tr) o.

Lemma get_time_ok E tf w : tf <> TNull ->
  exists t w', get_time E tf w = Ret (t, w') /\ w_mem w' = w_mem w /\ w_tr w' = w_tr w ++ tick tf t /\
    w_ns w' = w_ns w /\ w_nr w' = w_nr w /\ (tf = TZero -> t = 0) /\
    (tf = TUser -> t = u32 (e_time E (w_nt w)) /\ w_nt w' = S (w_nt w)).
Proof.
  intros N. destruct tf; [congruence| |]; cbn [get_time]; do 2 eexists; (split; [reflexivity|]); cbn [w_mem w_tr tick w_ns w_nr w_nt].
  - rewrite app_nil_r. repeat split; auto; discriminate.
  - repeat split; auto; discriminate.
Qed.

Lemma send_loop_run E tf T : send_contract E -> tf <> TNull -> forall fuel p rem last w,
  object (w_mem w) p rem ->
  exists o w' tr, wout (send_loop fuel E tf T p rem last w) = Some (o, w') /\
    w_mem w' = w_mem w /\ w_tr w' = w_tr w ++ tr /\ w_nr w' = w_nr w /\
    srun T tf last (bytes_at (w_mem w) p rem) tr o.
Proof.
  intros SC TN. induction fuel as [|fuel IH]; intros p rem last w O.
  { exists None, w, []. rewrite app_nil_r. repeat (split; auto). constructor. }
  cbn [send_loop]. pose proof O as (On&_&_).
  destruct (Z.leb_spec rem 0).
  { exists (Some HTTPSuccess), w, []. rewrite app_nil_r. replace rem with 0 by lia. repeat (split; auto).
    unfold bytes_at. rewrite slice_0. constructor. }
  rewrite loadn_ok by auto. cbn [bind]. set (d := bytes_at (w_mem w) p rem) in *.
  assert (Ld : zlen d = rem) by (apply bytes_at_len; auto).
  assert (Nd : d <> []) by (intros X; rewrite X, zlen_nil in Ld; lia).
  specialize (SC (w_ns w) rem ltac:(lia)). set (r := e_send E (w_ns w) rem) in *.
  destruct (Z.ltb_spec r 0).
  { exists (Some HTTPNetworkError), (w_after_send w d r), [TSend d r].
    repeat (split; auto). constructor; auto. }
  destruct (get_time_ok E tf (w_after_send w d r) TN) as (t&w2&Et&Em&Etr&_&Enr&_).
  cbn [w_after_send w_mem w_tr w_nr] in Em, Etr, Enr.
  destruct (Z.ltb_spec 0 r).
  - replace (r <=? rem) with true by lia. cbn [assert_at bind]. rewrite Et. cbn [bind].
    rewrite padd_ok by (rewrite Em; destruct O as (?&?&?); lia). cbn [bind].
    destruct (IH (poff p r) (rem - r) t w2) as (o&w'&tr&E1&E2&E3&E4&R).
    { rewrite Em. destruct O as (?&?&?). unfold object, poff. cbn [po pb]. lia. }
    exists o, w', (TSend d r :: tick tf t ++ tr). split; auto. split; [congruence|].
    split; [rewrite E3, Etr, <- !app_assoc; reflexivity|]. split; [congruence|].
    apply sr_acc; auto; [lia|].
    replace (slice d r (zlen d - r)) with (bytes_at (w_mem w2) (poff p r) (rem - r)); auto.
    rewrite Em, Ld. unfold d, bytes_at, poff. cbn [po pb]. destruct O as (?&?&?). rewrite slice_slice by lia. reflexivity.
  - assert (r = 0) by lia. rewrite Et. cbn [bind].
    destruct (Z.leb_spec T (u32 (t - last))).
    + exists (Some HTTPNetworkError), w2, (TSend d r :: tick tf t). split; [reflexivity|].
      split; [auto|]. split; [rewrite Etr, <- app_assoc; reflexivity|]. split; auto.
      replace r with 0. constructor; auto.
    + destruct (IH p rem last w2) as (o&w'&tr&E1&E2&E3&E4&R).
      { rewrite Em. auto. }
      exists o, w', (TSend d r :: tick tf t ++ tr). split; auto. split; [congruence|].
      split; [rewrite E3, Etr, <- !app_assoc; reflexivity|]. split; [congruence|].
      replace r with 0. apply sr_wait; auto. rewrite Em in R. exact R.
Qed.

(** ** Consequences of [srun] *)
Lemma accepted_app a b : accepted (a ++ b) = accepted a ++ accepted b.
Proof. induction a as [|[]]; simpl; auto. rewrite IHa, app_assoc. auto. Qed.
Lemma accepted_tick tf t : accepted (tick tf t) = [].
Proof. destruct tf; auto. Qed.
Lemma slice_split (d : bytes) r : 0 <= r <= zlen d -> slice d 0 r ++ slice d r (zlen d - r) = d.
Proof.
  intros. pose proof (slice_app d 0 r (zlen d - r)) as X. rewrite Z.add_0_l in X. rewrite <- X by lia.
  apply slice_full. lia.
Qed.

Lemma srun_accepted T tf last rem tr o : srun T tf last rem tr o ->
  prefix (accepted tr) rem /\ (o = Some HTTPSuccess -> accepted tr = rem) /\
  (o = Some HTTPNetworkError -> zlen (accepted tr) < zlen rem) /\
  (o = None \/ o = Some HTTPSuccess \/ o = Some HTTPNetworkError).
Proof.
  induction 1.
  - split; [exists []; auto|]. repeat split; auto; discriminate.
  - split; [exists rem; auto|]. repeat split; auto; discriminate.
  - cbn [accepted]. rewrite app_nil_r. unfold slice. replace (Z.to_nat r) with 0%nat by lia. simpl.
    split; [exists rem; auto|]. repeat split; auto; try discriminate. intros _. destruct rem; [congruence|]. zlia.
  - cbn [accepted]. rewrite accepted_app, accepted_tick. cbn [app].
    destruct IHsrun as ((c&Hc)&I2&I3&I4). pose proof (slice_split rem r ltac:(lia)) as SS.
    assert (LS : zlen (slice rem 0 r) = r) by (apply slice_len; lia).
    assert (LS2 : zlen (slice rem r (zlen rem - r)) = zlen rem - r) by (apply slice_len; lia).
    split; [|split; [|split]]; auto.
    + exists c. rewrite <- app_assoc, <- Hc. auto.
    + intros X. rewrite I2; auto.
    + intros X. specialize (I3 X). rewrite zlen_app. lia.
  - cbn [accepted]. rewrite slice_0, accepted_tick. split; [exists rem; auto|]. repeat split; auto; try discriminate.
    intros _. destruct rem; [congruence|]. simpl. zlia.
  - cbn [accepted]. rewrite slice_0, accepted_app, accepted_tick. auto.
Qed.
Lemma send_only_tick tf t : send_only (tick tf t).
Proof. destruct tf; repeat constructor. Qed.
Lemma srun_only T tf last rem tr o : srun T tf last rem tr o -> send_only tr.
Proof.
  induction 1; try (repeat constructor; fail).
  - constructor; [exact I|]. apply Forall_app. split; auto. apply send_only_tick.
  - constructor; [exact I|]. apply send_only_tick.
  - constructor; [exact I|]. apply Forall_app. split; auto. apply send_only_tick.
Qed.

Lemma offers_nil d : offers_rest d [].
Proof. intros [|? ?] ? ? ? E; discriminate. Qed.
Lemma offers_cons rem r pre tr :
  rem <> [] -> accepted pre = [] -> (forall a d x b, pre = a ++ TSend d x :: b -> False) ->
  offers_rest (skipn (Z.to_nat r) rem) tr -> slice rem 0 r ++ skipn (Z.to_nat r) rem = rem ->
  offers_rest rem (TSend rem r :: pre ++ tr).
Proof.
  intros N AP NP O SS tr1 d x tr2 E.
  destruct tr1 as [|e tr1].
  - injection E as -> -> _. auto.
  - injection E as <- E. simpl.
    assert (P : exists tr1', tr1 = pre ++ tr1' /\ tr = tr1' ++ TSend d x :: tr2).
    { clear -E NP. revert tr1 E NP. induction pre as [|y pre IH]; intros tr1 E NP; [exists tr1; auto|].
      destruct tr1 as [|z tr1].
      - injection E as -> E. exfalso. apply (NP [] d x pre). reflexivity.
      - injection E as <- E. destruct (IH tr1 E) as (tr1'&->&E').
        + intros a d' x' b E0. apply (NP (y :: a) d' x' b). rewrite E0. reflexivity.
        + exists tr1'. auto. }
    destruct P as (tr1'&->&E'). destruct (O _ _ _ _ E') as (O1&O2).
    rewrite accepted_app, AP. cbn [app]. split; auto.
    rewrite <- app_assoc, O1. auto.
Qed.
Lemma tick_no_send tf t a d x b : tick tf t = a ++ TSend d x :: b -> False.
Proof. destruct tf; simpl; destruct a as [|? [|? ?]]; discriminate. Qed.
Lemma slice_skip (d : bytes) r : 0 <= r <= zlen d -> slice d r (zlen d - r) = skipn (Z.to_nat r) d.
Proof.
  intros. unfold slice. apply firstn_all2. rewrite skipn_length. unfold zlen in *. lia.
Qed.

Lemma srun_offers T tf last rem tr o : srun T tf last rem tr o -> offers_rest rem tr.
Proof.
  induction 1.
  - apply offers_nil.
  - apply offers_nil.
  - replace [TSend rem r] with (TSend rem r :: [] ++ []) by auto. apply offers_cons; auto.
    + intros [|? ?] ? ? ? E; discriminate.
    + apply offers_nil.
      + unfold slice. replace (Z.to_nat r) with 0%nat by lia. auto.
  - apply offers_cons; auto using accepted_tick.
    + intros *; apply tick_no_send.
    + rewrite <- slice_skip by lia. auto.
    + rewrite <- slice_skip by lia. apply slice_split; lia.
  - rewrite <- (app_nil_r (tick tf t)). apply offers_cons; auto using accepted_tick, offers_nil.
    intros *; apply tick_no_send.
  - apply offers_cons; auto using accepted_tick.
    intros *; apply tick_no_send.
Qed.

(** ** Timeouts *)
Lemma elapsed_u32 t l : elapsed t l = u32 (t - l).
Proof. reflexivity. Qed.

Lemma failed_step rem r t tr : send_failed (TSend rem r :: TTime t :: tr) <-> send_failed tr.
Proof.
  split; intros (tr1&d&x&E&L).
  - destruct tr1 as [|e [|e' tr1]]; try discriminate. injection E as <- <- ->. exists tr1, d, x. auto.
  - exists (TSend rem r :: TTime t :: tr1), d, x. subst; auto.
Qed.
Lemma stalled_step T last rem r t tr :
  send_stalled T last (TSend rem r :: TTime t :: tr) <->
  (tr = [] /\ r = 0 /\ T <= elapsed t last) \/ send_stalled T (if 0 <? r then t else last) tr.
Proof.
  split.
  - intros (tr1&d&x&E&L). destruct tr1 as [|e [|e' tr1]]; try discriminate.
    + injection E as -> -> -> ->. left. auto.
    + injection E as <- <- ->. right. exists tr1, d, x. auto.
  - intros [(->&->&L)|(tr1&d&x&->&L)].
    + exists [], rem, t. auto.
    + exists (TSend rem r :: TTime t :: tr1), d, x. auto.
Qed.
Lemma patient_step T last rem r t tr :
  (r = 0 -> tr <> [] -> elapsed t last < T) -> patient T (if 0 <? r then t else last) tr ->
  patient T last (TSend rem r :: TTime t :: tr).
Proof.
  intros A P tr1 d x tr2 E N. destruct tr1 as [|e [|e' tr1]]; try discriminate.
  - injection E as -> -> -> ->. auto.
  - injection E as <- <- ->. eapply P; eauto.
Qed.
Lemma patient_short T last d r : patient T last [TSend d r].
Proof. intros [|? [|? ?]] ? ? ? E; discriminate. Qed.

Lemma srun_user T last rem tr o : srun T TUser last rem tr o ->
  (o = Some HTTPNetworkError <-> send_failed tr \/ send_stalled T last tr) /\ patient T last tr.
Proof.
  assert (NF : ~ send_failed []) by (intros ([|]&?&?&E&_); discriminate).
  assert (NS : forall l, ~ send_stalled T l []) by (intros l ([|]&?&?&E&_); discriminate).
  assert (NP : forall l, patient T l []) by (intros l [|] ? ? ? E; discriminate).
  induction 1; cbn [tick app].
  - split; auto. split; [discriminate|]. intros [X|X]; [apply NF in X|apply NS in X]; tauto.
  - split; auto. split; [discriminate|]. intros [X|X]; [apply NF in X|apply NS in X]; tauto.
  - split; [|apply patient_short]. split; auto. intros _. left. exists [], rem, r. auto.
  - destruct IHsrun as (I1&I2).
    replace (if 0 <? r then t else last) with t by (replace (0 <? r) with true by lia; auto).
    split.
    + rewrite failed_step, stalled_step. replace (0 <? r) with true by lia. rewrite I1.
      split; [tauto|]. intros [X|[(_&X&_)|X]]; auto. lia.
    + apply patient_step; [lia|]. replace (0 <? r) with true by lia. auto.
  - split.
    + rewrite failed_step, stalled_step. split; auto.
    + apply patient_step; auto. congruence.
  - destruct IHsrun as (I1&I2). split.
    + rewrite failed_step, stalled_step. cbn [Z.ltb Z.compare]. rewrite I1.
      split; [tauto|]. intros [X|[(_&_&X)|X]]; auto. rewrite elapsed_u32 in X. lia.
    + apply patient_step; auto.
Qed.

(** Without a clock: an empty or failed send ends it at once. *)
Lemma srun_zero last rem tr o : srun 0 TZero last rem tr o ->
  (o = Some HTTPNetworkError <-> last_send_nonpos tr) /\ early_sends_pos tr.
Proof.
  induction 1; cbn [tick app].
  - split; [|intros [|] ? ? ? E; discriminate]. split; [discriminate|]. intros ([|]&?&?&E&_); discriminate.
  - split; [|intros [|] ? ? ? E; discriminate]. split; [discriminate|]. intros ([|]&?&?&E&_); discriminate.
  - split.
    + split; auto. intros _. exists [], rem, r. split; auto. lia.
    + intros [|? [|]] ? ? ? E N; try discriminate. injection E as -> -> <-. congruence.
  - destruct IHsrun as (I1&I2). split.
    + rewrite I1. split; intros (tr1&d&x&E&L).
      * exists (TSend rem r :: tr1), d, x. subst; auto.
      * destruct tr1 as [|e tr1]; [injection E as -> -> ->; lia|]. injection E as <- ->. exists tr1, d, x. auto.
    + intros tr1 d x tr2 E N. destruct tr1 as [|e tr1]; [injection E as -> -> ->; lia|]. injection E as <- ->. eapply I2; eauto.
  - split.
    + split; auto. intros _. exists [], rem, 0. split; auto. lia.
    + intros [|? [|]] ? ? ? E N; try discriminate. injection E as -> -> <-. congruence.
  - unfold u32, two32 in *. pose proof (Z.mod_pos_bound (t - last) 4294967296). lia.
Qed.

(** ** Termination *)
Lemma u32_diff a b : u32 (u32 a - u32 b) = u32 (a - b).
Proof. unfold u32. rewrite <- Zminus_mod. auto. Qed.
Lemma u32_small a : 0 <= a < two32 -> u32 a = a.
Proof. intros. apply Z.mod_small; auto. Qed.

Lemma adv_le E T : 0 <= T -> advancing E T -> forall n, e_time E n < e_time E (S n).
Proof. intros H A n. specialize (A n). lia. Qed.

(** [w_nt w] clock readings made; the last progress was at reading [k], the last reading is [w_nt w - 1]. *)
Lemma send_loop_terminates E T : send_contract E -> 0 <= T < two32 -> advancing E T ->
  forall fuel p rem k w, object (w_mem w) p rem ->
  (k < w_nt w)%nat -> (let e := e_time E (w_nt w - 1) - e_time E k in 0 <= e /\ (e = 0 \/ e < T) /\
     rem * (T + 1) + T - e < Z.of_nat fuel) ->
  forall w', send_loop fuel E TUser T p rem (u32 (e_time E k)) w <> More w'.
Proof.
  intros SC HT AD. induction fuel as [|fuel IH]; intros p rem k w O Hk (He&Hlt&Hf) w'.
  { exfalso. destruct O as (?&_). destruct Hlt; nia. }
  cbn [send_loop]. pose proof O as (On&_&_).
  destruct (Z.leb_spec rem 0); [discriminate|].
  rewrite loadn_ok by auto. cbn [bind].
  specialize (SC (w_ns w) rem ltac:(lia)). set (r := e_send E (w_ns w) rem) in *.
  destruct (Z.ltb_spec r 0); [discriminate|].
  cbn [get_time w_after_send w_mem w_nt w_ns w_nr w_tr].
  destruct (Z.ltb_spec 0 r).
  - replace (r <=? rem) with true by lia. cbn [assert_at bind].
    rewrite padd_ok by (cbn [w_mem]; destruct O as (?&?&?); lia). cbn [bind].
    apply IH; cbn [w_mem w_nt].
    + destruct O as (?&?&?). unfold object, poff. cbn [po pb]. lia.
    + lia.
    + replace (S (w_nt w) - 1)%nat with (w_nt w) by lia. rewrite Z.sub_diag. split; [lia|]. split; [auto|]. nia.
  - cbn [bind]. rewrite u32_diff.
    set (e' := e_time E (w_nt w) - e_time E k).
    assert (Ee : 1 <= e' - (e_time E (w_nt w - 1) - e_time E k) <= two32 - T).
    { specialize (AD (w_nt w - 1)%nat). change (2 ^ 32) with two32 in AD. replace (S (w_nt w - 1)) with (w_nt w) in AD by lia. unfold e'. lia. }
    destruct (Z.leb_spec T (u32 e')); [discriminate|].
    assert (NW : e' < T).
    { destruct (Z.lt_ge_cases e' two32) as [?|Big].
      - rewrite u32_small in H2 by lia. auto.
      - exfalso. destruct Hlt as [Hz|Hz].
        + assert (e' = two32) by lia. assert (T = 0) by lia. subst T. unfold u32 in H2.
          pose proof (Z.mod_pos_bound e' two32). unfold two32 in *. lia.
        + lia. }
    apply IH; cbn [w_mem w_nt]; auto.
    replace (S (w_nt w) - 1)%nat with (w_nt w) by lia. fold e'. split; [lia|]. split; [auto|]. lia.
Qed.

(** Without a clock. *)
Lemma send_loop_terminates_zero E : send_contract E ->
  forall fuel p rem last w, object (w_mem w) p rem -> rem < Z.of_nat fuel ->
  forall w', send_loop fuel E TZero 0 p rem last w <> More w'.
Proof.
  intros SC. induction fuel as [|fuel IH]; intros p rem last w O Hf w'.
  { exfalso. destruct O as (?&_). lia. }
  cbn [send_loop]. pose proof O as (On&_&_).
  destruct (Z.leb_spec rem 0); [discriminate|].
  rewrite loadn_ok by auto. cbn [bind].
  specialize (SC (w_ns w) rem ltac:(lia)). set (r := e_send E (w_ns w) rem) in *.
  destruct (Z.ltb_spec r 0); [discriminate|].
  cbn [get_time bind].
  destruct (Z.ltb_spec 0 r).
  - replace (r <=? rem) with true by lia. cbn [assert_at bind].
    rewrite padd_ok by (cbn [w_after_send w_mem]; destruct O as (?&?&?); lia). cbn [bind].
    apply IH; cbn [w_after_send w_mem].
    + destruct O as (?&?&?). unfold object, poff. cbn [po pb]. lia.
    + lia.
  - assert (0 <= u32 (0 - last)) by (apply Z.mod_pos_bound; reflexivity).
    replace (0 <=? u32 (0 - last)) with true by lia. discriminate.
Qed.

(** The number of calls is bounded by the fuel. *)
Lemma sends_app a b : sends (a ++ b) = sends a + sends b.
Proof. induction a as [|[]]; cbn [sends app]; lia. Qed.
Lemma sends_tick tf t : sends (tick tf t) = 0.
Proof. destruct tf; auto. Qed.
Lemma send_loop_count E tf T : tf <> TNull -> forall fuel p rem last w st w',
  send_loop fuel E tf T p rem last w = Ret (st, w') ->
  exists tr, w_tr w' = w_tr w ++ tr /\ sends tr <= Z.of_nat fuel.
Proof.
  intros TN. induction fuel as [|fuel IH]; intros p rem last w st w' X; [discriminate|].
  cbn [send_loop] in X.
  destruct (Z.leb_spec rem 0).
  { injection X as <- <-. exists []. rewrite app_nil_r. split; auto. simpl. lia. }
  destruct (loadn (w_mem w) p rem) as [d| | |]; try discriminate. cbn [bind] in X.
  set (r := e_send E (w_ns w) rem) in *.
  destruct (get_time_ok E tf (w_after_send w d r) TN) as (t&w2&Et&Em&Etr&_).
  cbn [w_after_send w_tr] in Etr.
  destruct (Z.ltb_spec r 0).
  { injection X as <- <-. exists [TSend d r]. split; auto. cbn [sends]. lia. }
  destruct (Z.ltb_spec 0 r).
  - destruct (r <=? rem); [|discriminate]. cbn [assert_at bind] in X. rewrite Et in X. cbn [bind] in X.
    destruct (padd (w_mem w2) p r); try discriminate. cbn [bind] in X.
    destruct (IH _ _ _ _ _ _ X) as (tr&E1&E2). exists (TSend d r :: tick tf t ++ tr).
    split; [rewrite E1, Etr, <- !app_assoc; auto|]. cbn [sends]. rewrite sends_app, sends_tick. lia.
  - rewrite Et in X. cbn [bind] in X. destruct (T <=? u32 (t - last)).
    + injection X as <- <-. exists (TSend d r :: tick tf t). split; [rewrite Etr, <- app_assoc; auto|].
      cbn [sends]. rewrite sends_tick. lia.
    + destruct (IH _ _ _ _ _ _ X) as (tr&E1&E2). exists (TSend d r :: tick tf t ++ tr).
      split; [rewrite E1, Etr, <- !app_assoc; auto|]. cbn [sends]. rewrite sends_app, sends_tick. lia.
Qed.

Lemma send_loop_fuel E tf T : forall fuel p rem last w x,
  send_loop fuel E tf T p rem last w = Ret x ->
  forall fuel', (fuel <= fuel')%nat -> send_loop fuel' E tf T p rem last w = Ret x.
Proof.
  induction fuel as [|fuel IH]; intros p rem last w x X fuel' Hf; [discriminate|].
  destruct fuel' as [|fuel']; [lia|]. cbn [send_loop] in *.
  destruct (rem <=? 0); auto.
  destruct (loadn (w_mem w) p rem) as [d| | |]; try discriminate. cbn [bind] in *.
  destruct (_ <? 0); auto. destruct (0 <? _).
  - destruct (_ <=? rem); [|discriminate]. cbn [assert_at bind] in *.
    destruct (get_time E tf _) as [[t w2]| | |]; try discriminate. cbn [bind] in *.
    destruct (padd (w_mem w2) p _); try discriminate. cbn [bind] in *. apply IH; auto. lia.
  - destruct (get_time E tf _) as [[t w2]| | |]; try discriminate. cbn [bind] in *.
    destruct (T <=? _); auto. apply IH; auto. lia.
Qed.
