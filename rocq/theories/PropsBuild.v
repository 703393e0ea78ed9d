(** PropsBuild.v — C88: building a request is a machine on texts: nothing but the texts asked for matters. *)
From Verif Require Import Base Lib ModelRequest ModelSend ModelResponse SpecRequest SpecSend SpecResponse SpecExchange SpecBuild ProofsRequest ProofsRequest2 ProofsHistory SpecTask SpecAbandon ProofsAbandon RefParser DemoResponse ProofsResponse PropsResponse PropsRequest PropsExchange PropsAbandon Demo.

Lemma put_splice t k d : 0 <= k -> k + zlen d <= zlen t \/ k <= zlen t -> put t k d = splice t k d.
Proof.
  intros K H. pose proof (zlen_nonneg d) as D. unfold put, splice, slice. cbn [skipn Z.to_nat]. change (Z.to_nat 0) with 0%nat. cbn [skipn]. f_equal. f_equal.
  replace (Z.to_nat (k + zlen d)) with (Z.to_nat k + length d)%nat by (unfold zlen; lia). rewrite firstn_all2; [reflexivity|]. rewrite skipn_length. unfold zlen in *. lia.
Qed.
Lemma until_lpre (isF : bool) d : until (if isF then bad_field else bad_value) d = lpre isF d.
Proof. induction d as [|c d IH]; [reflexivity|]. cbn [until lpre]. rewrite IH. destruct isF; unfold bad_field, bad_value, badc; cbn [andb]; rewrite ?orb_false_r; reflexivity. Qed.
Lemma bad_legal (isF : bool) d : existsb (if isF then bad_field else bad_value) d = negb (all_legal isF d).
Proof.
  induction d as [|c d IH]; [reflexivity|]. cbn [existsb]. rewrite IH. unfold all_legal. cbn [forallb]. rewrite negb_andb, negb_involutive. f_equal.
  destruct isF; unfold bad_field, bad_value, badc; cbn [andb]; rewrite ?orb_false_r; reflexivity.
Qed.
Lemma same_bytes_beqb a b : same_bytes a b = beqb a b.
Proof. reflexivity. Qed.

Lemma write_same m p k : object m p k -> write m p (bytes_at m p k) = m.
Proof.
  intros (O1&O2&O3). unfold write, bytes_at. replace (splice (blk m (pb p)) (po p) (slice (blk m (pb p)) (po p) k)) with (blk m (pb p)); [apply setblk_id|].
  pose proof (slice_len (blk m (pb p)) (po p) k O2 O1 O3) as LS. apply list_ext; [rewrite splice_len by lia; reflexivity|]. intros i Hi. rewrite zn_splice by lia. rewrite LS.
  destruct (Z.leb_spec (po p) i); cbn [andb]; [|reflexivity]. destruct (Z.ltb_spec i (po p + k)); [|reflexivity]. rewrite zn_slice by lia. f_equal. lia.
Qed.
Section Machine.
Variables (cfg : config) (m : mem) (buf : ptr) (n : Z).
Hypothesis OB : object m buf n.
Lemma text_in_buffer T a c : zlen T <= n -> 0 <= a -> 0 <= c -> a + c <= zlen T -> bytes_at (write m buf T) (poff buf a) c = slice T a c.
Proof.
  intros L A C H. assert (O : object m buf (zlen T)) by (unfold object in *; lia). pose proof (bytes_at_write_same m buf T O) as H1. replace (slice T a c) with (slice (bytes_at (write m buf T) buf (zlen T)) a c) by (rewrite H1; reflexivity). unfold bytes_at. cbn [poff pb po].
  pose proof (proj2 (object_write m buf T buf (zlen T) O) O) as O2. unfold object in O2. rewrite slice_slice by lia. f_equal; lia.
Qed.
Lemma place_back T k : zlen T <= n -> 0 <= k <= zlen T -> back (write m buf T) buf k = header_place (mkbuilt T k).
Proof.
  intros L K. unfold back, header_place, ends4. cbn [b_text b_len]. destruct (Z.leb_spec 4 k); cbn [andb]; [|reflexivity]. rewrite text_in_buffer by lia. reflexivity.
Qed.
Lemma place_bounds s : 0 <= b_len s -> 0 <= header_place s <= b_len s.
Proof. intros K. unfold header_place. destruct (Z.leb_spec 4 (b_len s)); cbn [andb]; [destruct (same_bytes _ _)|]; lia. Qed.

(** The structure [h] and the text agree with [s]. *)
Definition fits (s : built) : Prop := 0 <= b_len s <= zlen (b_text s) /\ zlen (b_text s) <= n.
(** What one function of the library does with the structure [h] and the buffer is the step [r] of the machine. *)
Definition does_step (h : reqHeaders) (x : res (status * reqHeaders * mem)) (r : status * built) : Prop :=
  x = Ret (fst r, set_rh_len h (b_len (snd r)), write m buf (b_text (snd r))) /\ fits (snd r).
Lemma write_put T k d : 0 <= k <= zlen T -> k + zlen d <= n -> zlen T <= n -> write (write m buf T) (poff buf k) d = write m buf (put T k d) /\ zlen (put T k d) = Z.max (zlen T) (k + zlen d).
Proof.
  intros K H L. rewrite put_splice by lia. pose proof (zlen_nonneg d). assert (LS : zlen (splice T k d) = Z.max (zlen T) (k + zlen d)) by (apply splice_zl; exact K). split; [|exact LS].
  apply write_over; [exact K|]. rewrite LS. unfold object in *. lia.
Qed.
Lemma step_add h s field fl value vl f v : rh_buf h = Some buf -> rh_bufLen h = n -> fits s -> arg_for m buf n field fl f -> arg_for m buf n value vl v -> 0 < fl -> 0 < vl -> n + fl + vl + 6 < SZ cfg ->
  does_step h (addHeader cfg (write m buf (b_text s)) (set_rh_len h (b_len s)) field fl value vl) (add_line n f v s).
Proof.
  intros G1 G2 (K&L) (Af&Df) (Av&Dv) Pf Pv W. pose proof OB as (B1&B2&B3). set (T := b_text s) in *. set (k := b_len s) in *.
  assert (SO : same_outside m (write m buf T) buf n). { eapply same_outside_weaken; [apply same_outside_write; unfold object; lia|reflexivity|lia|lia]. }
  assert (AOK : add_ok cfg (write m buf T) (set_rh_len h k) buf field fl value vl f v).
  { apply add_ok_apart; cbn [set_rh_len rh_buf rh_bufLen rh_len]; rewrite ?G2; auto; try lia.
    - apply object_write; [unfold object; lia|exact OB].
    - split; [eapply arg_same; eauto|exact Df].
    - split; [eapply arg_same; eauto|exact Dv]. }
  rewrite (addHeader_ok _ _ _ _ _ _ _ _ _ _ AOK). cbn [set_rh_len rh_len rh_bufLen]. rewrite place_back by lia. replace (mkbuilt T k) with s by (destruct s; reflexivity).
  pose proof (place_bounds s ltac:(fold k; lia)) as PB. fold k in PB. set (b := header_place s) in *. pose proof Af as (Lf&_). pose proof Av as (Lv&_).
  assert (LL : zlen (header_line f v ++ CRLF) = fl + vl + 6) by (unfold header_line; rewrite !zlen_app, Lf, Lv; change (zlen (B ": ")) with 2; change (zlen CRLF) with 2; lia).
  unfold add_line. fold b. fold T. fold k. rewrite LL, G2.
  destruct (Z.leb_spec (b + fl + vl + 6) n); destruct (Z.ltb_spec n (b + (fl + vl + 6))); try lia.
  2:{ split; [cbn [fst snd b_len b_text]; reflexivity|]. split; [exact K|exact L]. }
  pose proof (bad_legal true f) as BF. cbn in BF. rewrite BF. pose proof (bad_legal false v) as BV. cbn in BV. rewrite BV. pose proof (until_lpre true f) as UF. cbn in UF. rewrite UF. pose proof (until_lpre false v) as UV. cbn in UV. rewrite UV.
  pose proof (lpre_len true f). pose proof (lpre_len false v). pose proof (zlen_nonneg (lpre true f)). pose proof (zlen_nonneg (lpre false v)).
  destruct (all_legal true f); cbn [negb]; [destruct (all_legal false v); cbn [negb]|].
  - destruct (write_put T b (header_line f v ++ CRLF)) as (E&LP); [lia|lia|lia|]. split; [|split; cbn [snd b_len b_text]; lia]. cbn [fst snd b_len b_text]. rewrite <- E. replace (b + (fl + vl + 6)) with (b + fl + vl + 6) by lia.
    replace (header_line f v ++ CRLF) with (f ++ HTTP_HEADER_FIELD_SEPARATOR ++ v ++ HTTP_HEADER_END_INDICATOR) by (unfold header_line; rewrite <- !app_assoc; reflexivity). reflexivity.
  - assert (LF : zlen (f ++ B ": " ++ lpre false v) = fl + 2 + zlen (lpre false v)) by (rewrite !zlen_app; change (zlen (B ": ")) with 2; lia).
    destruct (write_put T b (f ++ B ": " ++ lpre false v)) as (E&LP); [lia|lia|lia|]. split; [|split; cbn [snd b_len b_text]; lia]. cbn [fst snd b_len b_text]. rewrite <- E. reflexivity.
  - destruct (write_put T b (lpre true f)) as (E&LP); [lia|lia|lia|]. split; [|split; cbn [snd b_len b_text]; lia]. cbn [fst snd b_len b_text]. rewrite <- E. reflexivity.
Qed.
Lemma step_line h s len method ml path pl me p : rh_buf h = Some buf -> rh_bufLen h = n -> fits s -> arg_for m buf n method ml me -> 0 < ml -> path_arg m path pl p -> 0 <= pl -> arg_apart buf n path pl -> ml + pl + 13 < SZ cfg ->
  does_step h (writeRequestLine cfg (write m buf (b_text s)) (set_rh_len (set_rh_len h len) 0) method ml path pl) (start_line n me p s).
Proof.
  intros G1 G2 (K&L) (Am&Dm) Pm Pp Hpl Dp W. pose proof OB as (B1&B2&B3). set (T := b_text s) in *.
  assert (SO : same_outside m (write m buf T) buf n). { eapply same_outside_weaken; [apply same_outside_write; unfold object; lia|reflexivity|lia|lia]. }
  rewrite (writeRequestLine_ok cfg (write m buf T) (set_rh_len (set_rh_len h len) 0) buf method ml path pl me p); cbn [set_rh_len rh_buf rh_bufLen rh_len]; rewrite ?G2; auto; try lia.
  - rewrite Z.add_0_r. unfold start_line. fold T. pose proof (zlen_nonneg (request_line me p)). destruct (Z.ltb_spec n (zlen (request_line me p))).
    + split; [reflexivity|]. split; cbn [snd b_len b_text]; lia.
    + destruct (write_put T 0 (request_line me p)) as (E&LP); [lia|lia|lia|]. rewrite poff_0 in E. split; [|split; cbn [snd b_len b_text]; lia]. cbn [fst snd b_len b_text]. rewrite <- E. reflexivity.
  - apply object_write; [unfold object; lia|exact OB].
  - eapply arg_same; eauto.
  - destruct Pp as [P|(N1&N2&A)]; [left; exact P|right; split; [auto|]; split; [auto|]; eapply arg_same; eauto].
Qed.
End Machine.

(** ** A call is a step of the machine *)
Definition thn (r : status * built) (g : built -> status * built) : status * built := match r with (HTTPSuccess, s) => g s | r => r end.
Lemma steps_app l1 : forall l2 s, steps (l1 ++ l2) s = thn (steps l1 s) (steps l2).
Proof. induction l1 as [|f l1 IH]; intros l2 s; [reflexivity|]. cbn [app steps]. destruct (f s) as [[] s']; try reflexivity. apply IH. Qed.
Lemma steps_one f s : steps [f] s = f s.
Proof. cbn [steps]. destruct (f s) as [[] s']; reflexivity. Qed.
Section Call.
Variables (cfg : config) (m : mem) (buf : ptr) (n : Z).
Hypothesis OB : object m buf n.
Lemma does_thn h x r f g : does_step m buf n h x r -> (fits n (snd r) -> does_step m buf n h (f (set_rh_len h (b_len (snd r))) (write m buf (b_text (snd r)))) (g (snd r))) ->
  does_step m buf n h (andThen x f) (thn r g).
Proof.
  intros (->&F) K. destruct r as [st s]. cbn [fst snd] in *. unfold andThen. cbn [bind]. unfold thn. destruct st; cbn [is_success]; try (split; [reflexivity|exact F]). apply K. exact F.
Qed.
Lemma step_init h s len ri me p ho : config_ok cfg -> rh_buf h = Some buf -> rh_bufLen h = n -> fits n s -> init_args cfg m buf n ri me p ho ->
  exists r, InitializeRequestHeaders cfg (write m buf (b_text s)) (Some (set_rh_len h len)) (Some ri) = Ret (fst r, Some (set_rh_len h (b_len (snd r))), write m buf (b_text (snd r))) /\ fits n (snd r) /\
    r = build1 (UA cfg) n (AskInit me p ho (ri_flags ri)) s.
Proof.
  intros C G1 G2 FT ((Am&Dm)&Pm&Pp&Hpl&Dp&Ah&Ph&W). pose proof C as (_&UAn&UAl&UAs&_&_). assert (UP : 0 < zlen (UA cfg)) by (destruct (UA cfg); [congruence|zlia]). pose proof OB as (O1&_).
  assert (LIT : forall l, arg_for m buf n (SLit l) (zlen l) l) by (intros l; split; [apply arg_lit|exact Logic.I]).
  cbn [build1]. rewrite !app_assoc, !steps_app. set (r := thn _ _). exists r.
  assert (D : does_step m buf n h (andThen (andThen (andThen (writeRequestLine cfg (write m buf (b_text s)) (set_rh_len (set_rh_len h len) 0) (ri_method ri) (ri_methodLen ri) (ri_path ri) (ri_pathLen ri))
                (fun h m => if Z.land HTTP_REQUEST_NO_USER_AGENT_FLAG (ri_flags ri) =? 0 then addHeader cfg m h (SLit HTTP_USER_AGENT_FIELD) (zlen HTTP_USER_AGENT_FIELD) (SLit (UA cfg)) (zlen (UA cfg)) else Ret (HTTPSuccess, h, m)))
                (fun h m => addHeader cfg m h (SLit HTTP_HOST_FIELD) (zlen HTTP_HOST_FIELD) (ri_host ri) (ri_hostLen ri)))
                (fun h m => if negb (Z.land HTTP_REQUEST_KEEP_ALIVE_FLAG (ri_flags ri) =? 0)
                   then addHeader cfg m h (SLit HTTP_CONNECTION_FIELD) (zlen HTTP_CONNECTION_FIELD) (SLit HTTP_CONNECTION_KEEP_ALIVE_VALUE) (zlen HTTP_CONNECTION_KEEP_ALIVE_VALUE) else Ret (HTTPSuccess, h, m))) r).
  { unfold r. apply does_thn; [apply does_thn; [apply does_thn|]|].
    - rewrite steps_one. apply (step_line cfg m buf n OB); auto; [split; assumption|lia].
    - intros F1. pose proof (land2 (ri_flags ri)) as L2. change HTTP_REQUEST_NO_USER_AGENT_FLAG with 2. destruct (Z.eqb_spec (Z.land 2 (ri_flags ri)) 0) as [Z2|Z2].
      + rewrite (proj1 L2 Z2), (steps_one (add_line n (B "User-Agent") (UA cfg))). apply (step_add cfg m buf n OB); auto; try apply (LIT HTTP_USER_AGENT_FIELD); change (zlen HTTP_USER_AGENT_FIELD) with 10; lia.
      + destruct (Z.testbit (ri_flags ri) 1); [|exfalso; apply Z2, L2; reflexivity]. split; [reflexivity|exact F1].
    - intros F2. rewrite (steps_one (add_line n (B "Host") ho)). apply (step_add cfg m buf n OB); auto; try apply (LIT HTTP_HOST_FIELD); change (zlen HTTP_HOST_FIELD) with 4; lia.
    - intros F3. pose proof (land1 (ri_flags ri)) as L1. change HTTP_REQUEST_KEEP_ALIVE_FLAG with 1. destruct (Z.eqb_spec (Z.land 1 (ri_flags ri)) 0) as [Z1|Z1]; cbn [negb].
      + rewrite (proj1 L1 Z1). split; [reflexivity|exact F3].
      + destruct (Z.testbit (ri_flags ri) 0); [|exfalso; apply Z1, L1; reflexivity]. rewrite (steps_one (add_line n (B "Connection") (B "keep-alive"))). apply (step_add cfg m buf n OB); auto; try apply (LIT HTTP_CONNECTION_FIELD); try apply (LIT HTTP_CONNECTION_KEEP_ALIVE_VALUE);
        change (zlen HTTP_CONNECTION_FIELD) with 10; change (zlen HTTP_CONNECTION_KEEP_ALIVE_VALUE) with 10; lia. }
  destruct D as (D&F). split; [|split; [exact F|reflexivity]].
  unfold InitializeRequestHeaders. cbn [set_rh_len rh_buf]. rewrite G1, (arg_not_null _ _ _ _ Am), (arg_not_null _ _ _ _ (proj1 Ah)). replace (ri_methodLen ri =? 0) with false by lia. replace (ri_hostLen ri =? 0) with false by lia.
  cbn [set_rh_len] in D. rewrite D. reflexivity.
Qed.
Lemma step_call h s c a : config_ok cfg -> rh_buf h = Some buf -> rh_bufLen h = n -> fits n s -> asks_for cfg m buf n c a ->
  let r := build1 (UA cfg) n a s in
  do_call cfg (write m buf (b_text s)) (set_rh_len h (b_len s)) c = Ret (fst r, Some (set_rh_len h (b_len (snd r))), write m buf (b_text (snd r))) /\ fits n (snd r).
Proof.
  intros C G1 G2 F A. cbv zeta. destruct a as [me p ho flags|f v|].
  - destruct c as [ri| |]; cbn [asks_for] in A; try contradiction. destruct A as (A&->). destruct (step_init h s (b_len s) ri me p ho C G1 G2 F A) as (r&E&FR&->). split; [exact E|exact FR].
  - assert (AD : adds cfg m buf n c f v) by (destruct c; exact A). destruct (adds_is _ _ _ _ _ _ _ AD) as (field&fl&value&vl&Af&Av&Pf&Pv&W&IS).
    destruct (IS (write m buf (b_text s)) (set_rh_len h (b_len s)) G1 ltac:(cbn [set_rh_len rh_len rh_bufLen]; unfold fits in F; lia)) as (->&_).
    destruct (step_add cfg m buf n OB h s field fl value vl f v G1 G2 F Af Av Pf Pv W) as (E&FR). rewrite E. split; [reflexivity|exact FR].
  - cbn [build1 fst snd]. split; [|exact F]. destruct c as [ri|field fl value vl|x y]; cbn [asks_for] in A; cbn [do_call].
    + apply Init_invalid. right. right. right. exists ri. split; [reflexivity|]. destruct A as [A|[A|[A|A]]]; auto.
    + apply AddHeader_invalid. right. right. exact A.
    + destruct A as (I1&A). apply AddRangeHeader_invalid; [exact I1|]. right. right. exact A.
Qed.
Lemma calls_steps : forall cs l h s, config_ok cfg -> rh_buf h = Some buf -> rh_bufLen h = n -> fits n s -> Forall2 (asks_for cfg m buf n) cs l ->
  let r := builds (UA cfg) n l s in
  history cfg (write m buf (b_text s)) (set_rh_len h (b_len s)) cs = Ret (fst r, set_rh_len h (b_len (snd r)), write m buf (b_text (snd r))) /\ fits n (snd r).
Proof.
  intros cs l h s C G1 G2 F A. revert s F. induction A as [|c a cs l A _ IH]; intros s F; cbv zeta; cbn [history builds]; [split; [reflexivity|exact F]|].
  destruct (step_call h s c a C G1 G2 F A) as (E&F1). rewrite E. cbn [bind]. destruct (build1 (UA cfg) n a s) as [st s1]. cbn [fst snd] in *. destruct (IH s1 F1) as (E2&F2). rewrite E2. destruct (builds (UA cfg) n l s1) as [sts s2]. cbn [bind fst snd] in *. auto.
Qed.
End Call.

(** ** C88 *)
(** Whatever calls are made: the statuses, headersLen and every byte of memory are those of the machine, started with the request in the buffer. *)
Theorem C88_text_machine : forall cfg m h buf n cs l,
  config_ok cfg -> rh_buf h = Some buf -> rh_bufLen h = n -> object m buf n -> 0 <= rh_len h <= n -> Forall2 (asks_for cfg m buf n) cs l ->
  let '(sts, s) := builds (UA cfg) n l (mkbuilt (bytes_at m buf (rh_len h)) (rh_len h)) in
  exists m', history cfg m h cs = Ret (sts, set_rh_len h (b_len s), m') /\
    0 <= b_len s <= zlen (b_text s) /\ zlen (b_text s) <= n /\ bytes_at m' buf (zlen (b_text s)) = b_text s /\ same_outside m m' buf (zlen (b_text s)).
Proof.
  intros cfg m h buf n cs l C G1 G2 O K A. assert (OK : object m buf (rh_len h)) by (unfold object in *; lia). set (T := bytes_at m buf (rh_len h)). assert (LT : zlen T = rh_len h) by (apply bytes_at_len; exact OK).
  set (s0 := mkbuilt T (rh_len h)). assert (F : fits n s0) by (split; cbn [s0 b_len b_text]; lia). pose proof (calls_steps cfg m buf n O cs l h s0 C G1 G2 F A) as (E&(F1&F2)).
  destruct (builds (UA cfg) n l s0) as [sts s]. cbn [fst snd] in *. replace (write m buf (b_text s0)) with m in E by (symmetry; apply write_same; auto). replace (set_rh_len h (b_len s0)) with h in E by (destruct h; reflexivity).
  assert (OT : object m buf (zlen (b_text s))) by (unfold object in *; lia).
  eexists. split; [exact E|]. split; [exact F1|]. split; [exact F2|]. split; [apply bytes_at_write_same; exact OT|apply same_outside_write; exact OT].
Qed.
Print Assumptions C88_text_machine.

(** Every call with usable arguments asks for something: the machine covers every sequence of calls. *)
Lemma usable_path m buf n s k : usable m buf n s k -> exists p, path_arg m s k p /\ arg_apart buf n s k.
Proof.
  intros U. pose proof U as (K&_). destruct (Z.eq_dec k 0) as [->|NZ].
  - exists (B "/"). split; [left; auto|]. destruct s; cbn [arg_apart]; auto. destruct U as (_&_&D). exact D.
  - destruct s; [exists (B "/"); split; [left; auto|exact Logic.I]| |].
    all: edestruct (usable_arg _ _ _ _ _ U) as (d&A&D); [discriminate|]; exists d; split; [right; split; [discriminate|]; auto|exact D].
Qed.
Lemma asks_something cfg m buf n c : call_ok cfg m buf n c -> exists a, asks_for cfg m buf n c a.
Proof.
  destruct c as [ri|f fl v vl|s e]; cbn [call_ok].
  - intros (U1&U2&U3&W). assert (D : (ri_method ri = SNull \/ ri_host ri = SNull \/ ri_methodLen ri = 0 \/ ri_hostLen ri = 0) \/ (ri_method ri <> SNull /\ ri_host ri <> SNull /\ ri_methodLen ri <> 0 /\ ri_hostLen ri <> 0)).
    { destruct (src_dec (ri_method ri)); [left; auto|]. destruct (src_dec (ri_host ri)); [left; auto|]. destruct (Z.eq_dec (ri_methodLen ri) 0); [left; auto|]. destruct (Z.eq_dec (ri_hostLen ri) 0); [left; auto|]. right; auto. }
    destruct D as [D|(N1&N2&N3&N4)]; [exists AskNothing; exact D|].
    destruct (usable_arg _ _ _ _ _ U1 N1) as (me&A1). destruct (usable_arg _ _ _ _ _ U3 N2) as (ho&A3). destruct (usable_path _ _ _ _ _ U2) as (p&A2&D2).
    exists (AskInit me p ho (ri_flags ri)). split; [|reflexivity]. destruct U1 as (K1&_). destruct U2 as (K2&_). destruct U3 as (K3&_). unfold init_args. split; [exact A1|]. split; [lia|]. split; [exact A2|]. split; [exact K2|]. split; [exact D2|]. split; [exact A3|]. split; [lia|exact W].
  - intros (U1&U2&W). assert (D : (f = SNull \/ v = SNull \/ fl = 0 \/ vl = 0) \/ (f <> SNull /\ v <> SNull /\ fl <> 0 /\ vl <> 0)).
    { destruct (src_dec f); [left; auto|]. destruct (src_dec v); [left; auto|]. destruct (Z.eq_dec fl 0); [left; auto|]. destruct (Z.eq_dec vl 0); [left; auto|]. right; auto. }
    destruct D as [D|(N1&N2&N3&N4)]; [exists AskNothing; exact D|]. destruct (usable_arg _ _ _ _ _ U1 N1) as (fb&A1). destruct (usable_arg _ _ _ _ _ U2 N2) as (vb&A2).
    exists (AskAdd fb vb). destruct U1 as (K1&_). destruct U2 as (K2&_). split; [exact A1|]. split; [exact A2|]. split; [lia|]. split; [lia|exact W].
  - intros (I1&I2&W). assert (D : range_rejected s e \/ ~ range_rejected s e) by (unfold range_rejected; lia).
    destruct D as [D|D]; [exists AskNothing; split; [exact I1|exact D]|].
    exists (AskAdd (B "Range") (range_text s e)). split; [exact I1|]. split; [exact I2|]. split; [exact D|]. split; [reflexivity|]. split; [|exact W]. unfold range_rejected, is_int32, INT32_MIN, INT32_MAX in *. apply range_text_value; unfold INT32_MIN, INT32_MAX; lia.
Qed.
Theorem C88_every_call : forall cfg m buf n cs, Forall (call_ok cfg m buf n) cs -> exists l, Forall2 (asks_for cfg m buf n) cs l.
Proof.
  intros cfg m buf n cs H. induction H as [|c cs H _ (l&IH)]; [exists []; constructor|]. destruct (asks_something _ _ _ _ _ H) as (a&A). exists (a :: l). constructor; auto.
Qed.
Print Assumptions C88_every_call.

(** ** What was in the buffer before does not matter *)
Lemma zn_put t k d i : 0 <= k <= zlen t -> 0 <= i -> zn (put t k d) i = if (k <=? i) && (i <? k + zlen d) then zn d (i - k) else zn t i.
Proof.
  intros K Hi. pose proof (zlen_nonneg d) as D. unfold put. rewrite zn_app by exact Hi. rewrite slice_len by lia.
  destruct (Z.ltb_spec i k); destruct (Z.leb_spec k i); try lia; cbn [andb]; [rewrite zn_slice by lia; f_equal; lia|].
  rewrite zn_app by lia. destruct (Z.ltb_spec (i - k) (zlen d)); destruct (Z.ltb_spec i (k + zlen d)); try lia; try reflexivity.
  destruct (Z.ltb_spec i (zlen t)).
  - rewrite zn_slice by lia. f_equal. lia.
  - assert (E : forall l : bytes, zlen l <= i -> zn l i = 0) by (intros l L; unfold zn; apply nth_overflow; unfold zlen in L; lia). rewrite (E t) by lia.
    unfold slice. unfold zn. apply nth_overflow. rewrite firstn_length, skipn_length. unfold zlen in *. lia.
Qed.
(** Two texts with the same request. *)
Definition agree (n : Z) (s1 s2 : built) : Prop := fits n s1 /\ fits n s2 /\ b_len s1 = b_len s2 /\ forall i, 0 <= i < b_len s1 -> zn (b_text s1) i = zn (b_text s2) i.
Definition agrees (n : Z) (r1 r2 : status * built) : Prop := fst r1 = fst r2 /\ agree n (snd r1) (snd r2).
Lemma put_len t k d : 0 <= k <= zlen t -> zlen (put t k d) = Z.max (zlen t) (k + zlen d).
Proof. intros K. pose proof (zlen_nonneg d). rewrite put_splice by lia. apply splice_zl. exact K. Qed.
Lemma agree_put n s1 s2 k d l : agree n s1 s2 -> 0 <= k <= b_len s1 -> k + zlen d <= n -> 0 <= l <= Z.max (b_len s1) (k + zlen d) ->
  agree n (mkbuilt (put (b_text s1) k d) l) (mkbuilt (put (b_text s2) k d) l).
Proof.
  intros ((K1&L1)&(K2&L2)&EL&ET) K D L. unfold agree, fits. cbn [b_text b_len]. rewrite !put_len by lia. split; [lia|]. split; [lia|]. split; [reflexivity|]. intros i Hi. rewrite !zn_put by lia.
  destruct (Z.leb_spec k i); cbn [andb]; [destruct (Z.ltb_spec i (k + zlen d)); [reflexivity|]|]; apply ET; try lia.
Qed.
Lemma agree_slice n s1 s2 a c : agree n s1 s2 -> 0 <= a -> 0 <= c -> a + c <= b_len s1 -> slice (b_text s1) a c = slice (b_text s2) a c.
Proof.
  intros ((K1&L1)&(K2&L2)&EL&ET) A C H. apply list_ext; [rewrite !slice_len by lia; reflexivity|]. intros i Hi. rewrite slice_len in Hi by lia. rewrite !zn_slice by lia. apply ET. lia.
Qed.
Lemma agree_place n s1 s2 : agree n s1 s2 -> header_place s1 = header_place s2.
Proof.
  intros A. pose proof A as ((K1&L1)&(K2&L2)&EL&ET). unfold header_place. rewrite <- EL. destruct (Z.leb_spec 4 (b_len s1)); cbn [andb]; [|reflexivity]. rewrite (agree_slice n s1 s2) by (auto; lia). reflexivity.
Qed.
Lemma agrees_add n f v s1 s2 : agree n s1 s2 -> agrees n (add_line n f v s1) (add_line n f v s2).
Proof.
  intros A. pose proof A as ((K1&L1)&(K2&L2)&EL&ET). unfold add_line. rewrite <- (agree_place n s1 s2 A). pose proof (place_bounds s1 ltac:(lia)) as PB. set (k := header_place s1) in *.
  assert (LL : zlen (header_line f v ++ CRLF) = zlen f + zlen v + 6) by (unfold header_line; rewrite !zlen_app; change (zlen (B ": ")) with 2; change (zlen CRLF) with 2; lia).
  pose proof (zlen_nonneg f). pose proof (zlen_nonneg v). destruct (Z.ltb_spec n (k + zlen (header_line f v ++ CRLF))) as [T|T]; [split; [reflexivity|exact A]|].
  pose proof (until_lpre true f) as UF. cbn in UF. rewrite UF. pose proof (until_lpre false v) as UV. cbn in UV. rewrite UV. pose proof (lpre_len true f). pose proof (lpre_len false v). pose proof (zlen_nonneg (lpre true f)). pose proof (zlen_nonneg (lpre false v)).
  destruct (existsb bad_field f); [split; [reflexivity|cbn [snd]; rewrite <- EL; apply agree_put; auto; lia]|].
  destruct (existsb bad_value v); (split; [reflexivity|cbn [snd]]); [rewrite <- EL|]; apply agree_put; auto; try lia.
  all: rewrite !zlen_app; change (zlen (B ": ")) with 2; lia.
Qed.
Lemma agrees_start n me p s1 s2 : fits n s1 -> fits n s2 -> agrees n (start_line n me p s1) (start_line n me p s2).
Proof.
  intros (K1&L1) (K2&L2). unfold start_line. pose proof (zlen_nonneg (request_line me p)). destruct (Z.ltb_spec n (zlen (request_line me p))); (split; [reflexivity|]); cbn [snd].
  - unfold agree, fits. cbn [b_text b_len]. split; [lia|]. split; [lia|]. split; [reflexivity|]. intros i Hi. lia.
  - unfold agree, fits. cbn [b_text b_len]. rewrite !put_len by lia. split; [lia|]. split; [lia|]. split; [reflexivity|]. intros i Hi. rewrite !zn_put by lia. destruct (Z.leb_spec 0 i); cbn [andb]; [|lia]. destruct (Z.ltb_spec i (0 + zlen (request_line me p))); [reflexivity|lia].
Qed.
Lemma agrees_thn n r1 r2 g : agrees n r1 r2 -> (forall s1 s2, agree n s1 s2 -> agrees n (g s1) (g s2)) -> agrees n (thn r1 g) (thn r2 g).
Proof. intros (E&A) G. destruct r1 as [st s1], r2 as [st2 s2]. cbn [fst snd] in *. subst st2. unfold thn. destruct st; try (split; [reflexivity|exact A]). apply G. exact A. Qed.
Lemma agrees_steps n fs : (forall f s1 s2, In f fs -> agree n s1 s2 -> agrees n (f s1) (f s2)) -> forall s1 s2, agree n s1 s2 -> agrees n (steps fs s1) (steps fs s2).
Proof.
  induction fs as [|f fs IH]; intros H s1 s2 A; [split; [reflexivity|exact A]|]. change (steps (f :: fs)) with (steps ([f] ++ fs)). rewrite !steps_app, !steps_one. apply agrees_thn; [apply H; [left; reflexivity|exact A]|]. apply IH. intros g t1 t2 Hg. apply H. right. exact Hg.
Qed.
Lemma agrees_init ua n me p ho flags s1 s2 : fits n s1 -> fits n s2 -> agrees n (build1 ua n (AskInit me p ho flags) s1) (build1 ua n (AskInit me p ho flags) s2).
Proof.
  intros F1 F2. cbn [build1]. rewrite !(steps_app [start_line n me p]), !steps_one. apply agrees_thn; [apply agrees_start; assumption|]. intros t1 t2 A. apply agrees_steps; [|exact A].
  intros f u1 u2 Hf Au. apply in_app_or in Hf. destruct Hf as [Hf|Hf]; [|apply in_app_or in Hf; destruct Hf as [Hf|Hf]].
  - destruct (Z.testbit flags 1); [contradiction|]. destruct Hf as [<-|[]]. apply agrees_add. exact Au.
  - destruct Hf as [<-|[]]. apply agrees_add. exact Au.
  - destruct (Z.testbit flags 0); [|contradiction]. destruct Hf as [<-|[]]. apply agrees_add. exact Au.
Qed.
Lemma agrees_build1 ua n a s1 s2 : agree n s1 s2 -> agrees n (build1 ua n a s1) (build1 ua n a s2).
Proof.
  intros A. destruct a; [apply agrees_init; apply A|apply agrees_add; exact A|split; [reflexivity|exact A]].
Qed.
Lemma agrees_builds ua n : forall l s1 s2, agree n s1 s2 -> fst (builds ua n l s1) = fst (builds ua n l s2) /\ agree n (snd (builds ua n l s1)) (snd (builds ua n l s2)).
Proof.
  induction l as [|a l IH]; intros s1 s2 A; [split; [reflexivity|exact A]|]. cbn [builds]. destruct (agrees_build1 ua n a s1 s2 A) as (E&A1). destruct (build1 ua n a s1) as [st1 t1]. destruct (build1 ua n a s2) as [st2 t2]. cbn [fst snd] in *. subst st2.
  destruct (IH t1 t2 A1) as (E2&A2). destruct (builds ua n l t1). destruct (builds ua n l t2). cbn [fst snd] in *. subst. auto.
Qed.
(** A first call to HTTPClient_InitializeRequestHeaders, in whatever state the structure and the buffer are. *)
Lemma init_steps cfg m buf n h cs me p ho flags l s2 : object m buf n -> config_ok cfg -> rh_buf h = Some buf -> rh_bufLen h = n -> Forall2 (asks_for cfg m buf n) cs (AskInit me p ho flags :: l) -> fits n s2 ->
  exists s m', history cfg m h cs = Ret (fst (builds (UA cfg) n (AskInit me p ho flags :: l) s2), set_rh_len h (b_len s), m') /\
    m' = write m buf (b_text s) /\ agree n s (snd (builds (UA cfg) n (AskInit me p ho flags :: l) s2)).
Proof.
  intros O C G1 G2 A F2. inversion A as [|c a cs' l' A1 A2]; subst. assert (F0 : fits (rh_bufLen h) (mkbuilt [] 0)) by (unfold fits; cbn [b_len b_text]; change (zlen (@nil Z)) with 0; unfold object in O; lia). set (n := rh_bufLen h) in *.
  destruct c as [ri| |]; cbn [asks_for] in A1; try contradiction. destruct A1 as (A1&->). set (a := AskInit me p ho (ri_flags ri)) in *.
  destruct (step_init cfg m buf n O h (mkbuilt [] 0) (rh_len h) ri me p ho C G1 eq_refl F0 A1) as (r&E&FR&->). replace (set_rh_len h (rh_len h)) with h in E by (destruct h; reflexivity).
  replace (write m buf (b_text (mkbuilt [] 0))) with m in E. 2:{ cbn [b_text]. change (@nil Z) with (bytes_at m buf 0). symmetry. apply write_same. unfold object in *; lia. }
  fold a in E, FR. destruct (calls_steps cfg m buf n O cs' l h (snd (build1 (UA cfg) n a (mkbuilt [] 0))) C G1 eq_refl FR A2) as (E2&F3).
  destruct (agrees_init (UA cfg) n me p ho (ri_flags ri) (mkbuilt [] 0) s2 F0 F2) as (Q1&Q2). fold a in Q1, Q2. cbn [builds history do_call].
  rewrite E. cbn [bind]. rewrite E2. cbn [bind].
  destruct (build1 (UA cfg) n a (mkbuilt [] 0)) as [st1 t1]. destruct (build1 (UA cfg) n a s2) as [st2 t2]. cbn [fst snd] in *. subst st2. destruct (agrees_builds (UA cfg) n l t1 t2 Q2) as (Q3&Q4).
  destruct (builds (UA cfg) n l t1) as [sts1 u1]. destruct (builds (UA cfg) n l t2) as [sts2 u2]. cbn [fst snd] in *. subst sts2. eexists. eexists. split; [reflexivity|]. split; [reflexivity|exact Q4].
Qed.
(** Two applications ask for the same texts, the first one with HTTPClient_InitializeRequestHeaders, with buffers of the same length: the statuses, headersLen and the request are the same, whatever the
    buffers, the structures and the memories held, wherever the arguments are. *)
Theorem C88_only_texts : forall cfg n m1 h1 buf1 cs1 m2 h2 buf2 cs2 me p ho flags l,
  config_ok cfg -> rh_buf h1 = Some buf1 -> rh_bufLen h1 = n -> object m1 buf1 n -> rh_buf h2 = Some buf2 -> rh_bufLen h2 = n -> object m2 buf2 n ->
  Forall2 (asks_for cfg m1 buf1 n) cs1 (AskInit me p ho flags :: l) -> Forall2 (asks_for cfg m2 buf2 n) cs2 (AskInit me p ho flags :: l) ->
  exists sts k m1' m2', history cfg m1 h1 cs1 = Ret (sts, set_rh_len h1 k, m1') /\ history cfg m2 h2 cs2 = Ret (sts, set_rh_len h2 k, m2') /\
    0 <= k <= n /\ bytes_at m1' buf1 k = bytes_at m2' buf2 k /\ same_outside m1 m1' buf1 n /\ same_outside m2 m2' buf2 n.
Proof.
  intros cfg n m1 h1 buf1 cs1 m2 h2 buf2 cs2 me p ho flags l C G1 N1 O1 G2 N2 O2 A1 A2.
  assert (F0 : fits n (mkbuilt [] 0)) by (unfold fits; cbn [b_len b_text]; change (zlen (@nil Z)) with 0; unfold object in O1; lia).
  destruct (init_steps cfg m1 buf1 n h1 cs1 me p ho flags l (mkbuilt [] 0) O1 C G1 N1 A1 F0) as (s1&m1'&E1&M1&Q1).
  destruct (init_steps cfg m2 buf2 n h2 cs2 me p ho flags l (mkbuilt [] 0) O2 C G2 N2 A2 F0) as (s2&m2'&E2&M2&Q2).
  set (r := builds (UA cfg) n (AskInit me p ho flags :: l) (mkbuilt [] 0)) in *. clearbody r.
  assert (Q : agree n s1 s2).
  { destruct Q1 as (X1&X2&X3&X4). destruct Q2 as (Y1&Y2&Y3&Y4). unfold agree. split; [exact X1|]. split; [exact Y1|]. split; [congruence|]. intros i Hi. rewrite X4 by exact Hi. symmetry. apply Y4. lia. }
  pose proof Q as ((K1&L1)&(K2&L2)&EL&_). exists (fst r), (b_len s1), m1', m2'. rewrite <- EL in E2. split; [exact E1|]. split; [exact E2|]. split; [lia|].
  assert (T : forall m buf s, object m buf n -> fits n s -> bytes_at (write m buf (b_text s)) buf (b_len s) = slice (b_text s) 0 (b_len s)).
  { intros m buf s O (K&L). pose proof (text_in_buffer m buf n O (b_text s) 0 (b_len s) L ltac:(lia) ltac:(lia) ltac:(lia)) as X. rewrite poff_0 in X. exact X. }
  assert (TO : forall m buf s, object m buf n -> fits n s -> same_outside m (write m buf (b_text s)) buf n).
  { intros m buf s O (K&L). pose proof (zlen_nonneg (b_text s)). eapply same_outside_weaken; [apply same_outside_write; unfold object in *; lia|reflexivity|lia|lia]. }
  subst m1' m2'. split; [|split; apply TO; auto; apply Q]. rewrite (T m1 buf1 s1 O1 (proj1 Q)). rewrite EL at 2. rewrite (T m2 buf2 s2 O2 (proj1 (proj2 Q))). rewrite (agree_slice n s1 s2) by (auto; lia). rewrite EL. reflexivity.
Qed.
Print Assumptions C88_only_texts.

(** ** Starting over *)
(** And the exchange that follows: both applications then send their request - at the same point of the transport's and the clock's histories.  In particular after an abandoned or failed exchange, starting over in the
    same buffer is like starting in a new one. *)
Theorem C88_start_over : forall fuel cfg E P t n len bd L flags m1 h1 hb1 cs1 g1 sts1 req1 body1 r1 rb1 w1 m2 h2 hb2 cs2 g2 sts2 req2 body2 r2 rb2 w2 me p ho fl l st h1' r1' w1' tr1,
  config_ok cfg -> rh_buf h1 = Some hb1 -> rh_bufLen h1 = n -> object m1 hb1 n -> rh_buf h2 = Some hb2 -> rh_bufLen h2 = n -> object m2 hb2 n ->
  Forall2 (asks_for cfg m1 hb1 n) cs1 (AskInit me p ho fl :: l) -> Forall2 (asks_for cfg m2 hb2 n) cs2 (AskInit me p ho fl :: l) ->
  history cfg m1 h1 cs1 = Ret (sts1, g1, w_mem w1) -> history cfg m2 h2 cs2 = Ret (sts2, g2, w_mem w2) ->
  send_setup cfg E P t g1 hb1 n req1 body1 len bd r1 rb1 L w1 -> send_setup cfg E P t g2 hb2 n req2 body2 len bd r2 rb2 L w2 ->
  recv_faithful E -> same_wishes r1 r2 -> same_point w1 w2 -> (body1 = None <-> body2 = None) ->
  exchanges fuel cfg E P t g1 body1 len r1 flags w1 st h1' r1' w1' tr1 ->
  sts1 = sts2 /\ req1 = req2 /\ exists h2' r2' w2' tr2, exchanges fuel cfg E P t g2 body2 len r2 flags w2 st h2' r2' w2' tr2 /\
    Forall2 (same_entry rb1 rb2) tr1 tr2 /\ accepted tr1 = accepted tr2 /\ data_received tr1 = data_received tr2 /\
    delivered tr1 = delivered tr2 /\ rh_len h1' = rh_len h2' /\
    (same_response rb1 rb2 (w_mem w1') (w_mem w2') r1' r2' \/ received tr1 = 0 /\ r1' = with_clock r1 /\ r2' = with_clock r2).
Proof.
  intros fuel cfg E P t n len bd L flags m1 h1 hb1 cs1 g1 sts1 req1 body1 r1 rb1 w1 m2 h2 hb2 cs2 g2 sts2 req2 body2 r2 rb2 w2 me p ho fl l st h1' r1' w1' tr1 C G1 N1 O1 G2 N2 O2 A1 A2 H1 H2 S1 S2 RF V N BN X.
  destruct (C88_only_texts cfg n m1 h1 hb1 cs1 m2 h2 hb2 cs2 me p ho fl l C G1 N1 O1 G2 N2 O2 A1 A2) as (sts&k&m1'&m2'&E1&E2&K&EB&_&_).
  rewrite E1 in H1. rewrite E2 in H2. injection H1 as <- <- M1. injection H2 as <- <- M2.
  assert (R : req1 = req2).
  { destruct S1 as (_&_&_&_&_&_&(_&_&_&_&R1)&_). destruct S2 as (_&_&_&_&_&_&(_&_&_&_&R2)&_). cbn [set_rh_len rh_len] in R1, R2. rewrite <- M1 in R1. rewrite <- M2 in R2. congruence. }
  split; [reflexivity|]. split; [exact R|]. subst req2. eapply C38_shared_buffer; eauto.
Qed.
Print Assumptions C88_start_over.

(** Cases: the buffer of an exchange that already took place, with headersLen and request left over, and one never used, elsewhere, with the arguments in memory. *)
Definition old_mem : mem := [req1 ++ B "HTTP/1.1 500 Oh" ++ repeat 7 (285 - length req1); B "data"].
Definition new_mem : mem := [B "Accept"; repeat 0 300; repeat 0 300; B "data"].
Definition new_h : reqHeaders := mkrh (Some (mkptr 1 0)) 300 12345.
Definition add_z : call := CAdd (SAt (mkptr 0 0)) 6 (SLit (B "*/*")) 3.
Definition texts : list asked := [AskInit (B "GET") (B "/index.html") (B "example.com") 1; AskAdd (B "Accept") (B "*/*")].
Definition texts_bad : list asked := texts ++ [AskNothing; AskAdd (B "A:") (B "x"); AskAdd (B "X") (repeat 65 500)].
Definition bad_calls : list call := [CAdd SNull 1 (SLit (B "v")) 1; CAdd (SLit (B "A:")) 2 (SLit (B "x")) 1; CAdd (SLit (B "X")) 1 (SLit (repeat 65 500)) 500].
Lemma obj_old : object old_mem buf0 300. Proof. vm_compute. repeat split; discriminate. Qed.
Lemma obj_new : object new_mem (mkptr 1 0) 300. Proof. vm_compute. repeat split; discriminate. Qed.
Lemma asks_init m b : asks_for cfg0 m b 300 (CInit ri0) (AskInit (B "GET") (B "/index.html") (B "example.com") 1).
Proof.
  split; [|reflexivity]. unfold init_args, ri0. cbn [ri_method ri_methodLen ri_path ri_pathLen ri_host ri_hostLen].
  split; [litarg|]. split; [lia|]. split; [right; split; [discriminate|]; split; [lia|]; split; [reflexivity|split; [vm_compute; discriminate|reflexivity]]|].
  split; [lia|]. split; [exact Logic.I|]. split; [litarg|]. split; [lia|]. vm_compute. reflexivity.
Qed.
Lemma asks_bad m b : Forall2 (asks_for cfg0 m b 300) bad_calls [AskNothing; AskAdd (B "A:") (B "x"); AskAdd (B "X") (repeat 65 500)].
Proof.
  constructor; [left; reflexivity|]. constructor; [split; [litarg|]; split; [litarg|]; vm_compute; repeat split|].
  constructor; [split; [litarg|]; split; [litarg|]; vm_compute; repeat split|constructor].
Qed.
Example C88_case : Forall2 (asks_for cfg0 old_mem buf0 300) [CInit ri0; add_y] texts /\ Forall2 (asks_for cfg0 new_mem (mkptr 1 0) 300) [CInit ri0; add_z] texts /\
  exists k m1' m2', history cfg0 old_mem hx [CInit ri0; add_y] = Ret ([HTTPSuccess; HTTPSuccess], set_rh_len hx k, m1') /\
    history cfg0 new_mem new_h [CInit ri0; add_z] = Ret ([HTTPSuccess; HTTPSuccess], set_rh_len new_h k, m2') /\
    bytes_at m1' buf0 k = request_line (B "GET") (B "/index.html") ++ header_line (B "User-Agent") (UA cfg0) ++ header_line (B "Host") (B "example.com") ++ header_line (B "Connection") (B "keep-alive") ++ header_line (B "Accept") (B "*/*") ++ CRLF /\
    bytes_at m2' (mkptr 1 0) k = bytes_at m1' buf0 k.
Proof.
  split; [constructor; [apply asks_init|constructor; [split; [litarg|]; split; [litarg|]; vm_compute; repeat split|constructor]]|].
  split; [constructor; [apply asks_init|constructor; [|constructor]]|].
  { split; [split; [split; [reflexivity|split; [vm_compute; repeat split; discriminate|reflexivity]]|left; discriminate]|]. split; [litarg|]. vm_compute. repeat split. }
  exists 114. vm_compute. do 2 eexists. split; [reflexivity|]. split; [reflexivity|]. split; reflexivity.
Qed.
(** With failing calls: the machine's own run. *)
Example C88_machine_case : Forall2 (asks_for cfg0 old_mem buf0 300) ([CInit ri0; add_y] ++ bad_calls) texts_bad /\
  fst (builds (UA cfg0) 300 texts_bad (mkbuilt req1 (zlen req1))) = [HTTPSuccess; HTTPSuccess; HTTPInvalidParameter; HTTPSecurityAlertInvalidCharacter; HTTPInsufficientMemory] /\
  zlen (b_text (snd (builds (UA cfg0) 300 texts_bad (mkbuilt req1 (zlen req1))))) = 114 /\
  slice (b_text (snd (builds (UA cfg0) 300 texts_bad (mkbuilt req1 (zlen req1))))) 112 2 = B "A" ++ [10].
Proof.
  split; [unfold texts_bad; apply Forall2_app; [apply C88_case|apply asks_bad]|]. vm_compute. repeat split.
Qed.
Lemma setup_of m h b n req r rb bp : holds m h b n req -> 16 <= zlen req -> n + 30 < SZ cfg0 -> body_arg m b n (Some bp) 4 (B "data") -> r_buf r = Some rb -> r_bufLen r = 300 -> object m rb 300 ->
  send_setup cfg0 (env_ex resp_ok) refparser trr h b n req (Some bp) 4 (B "data") r rb 300 (mkw m 0 0 0 []).
Proof.
  intros H L N BA R1 R2 O. destruct (env_ex_ok resp_ok) as (A&C&_). split; [exists 32; split; [lia|reflexivity]|]. split; [exact A|]. split; [exact C|]. split; [apply refparser_ok|]. split; [reflexivity|]. split; [reflexivity|].
  split; [exact H|]. split; [exact L|]. split; [exact N|]. split; [split; [discriminate|reflexivity]|]. split; [vm_compute; discriminate|]. split; [exact BA|]. split; [exact R1|]. split; [exact R2|]. split; [exact O|]. split; reflexivity.
Qed.
(** What a history left behind. *)
Definition ran (x : res (list status * reqHeaders * mem)) : mem := match x with Ret (_, _, m) => m | _ => [] end.
Definition ran_len (x : res (list status * reqHeaders * mem)) : Z := match x with Ret (_, h, _) => rh_len h | _ => 0 end.
Definition r_old : response := mkresp (Some buf0) 300 true TUser None 0 None 0 0 0 0 0 0 0.
Definition r_new : response := mkresp (Some (mkptr 2 0)) 300 true TUser None 0 None 0 0 0 0 0 0 0.
Example C88_start_over_case : exists k m1 m2 h1' r1' w1' tr1 h2' r2' w2' tr2,
  history cfg0 old_mem hx [CInit ri0; add_y] = Ret ([HTTPSuccess; HTTPSuccess], set_rh_len hx k, m1) /\ history cfg0 new_mem new_h [CInit ri0; add_z] = Ret ([HTTPSuccess; HTTPSuccess], set_rh_len new_h k, m2) /\
  exchanges 100 cfg0 (env_ex resp_ok) refparser trr (set_rh_len hx k) (Some (mkptr 1 0)) 4 r_old 0 (mkw m1 0 0 0 []) HTTPSuccess h1' r1' w1' tr1 /\
  exchanges 100 cfg0 (env_ex resp_ok) refparser trr (set_rh_len new_h k) (Some (mkptr 3 0)) 4 r_new 0 (mkw m2 0 0 0 []) HTTPSuccess h2' r2' w2' tr2 /\
  accepted tr1 = accepted tr2 /\ delivered tr1 = delivered tr2 /\ delivered tr2 = [(B "Content-Length", B "5", 200); (B "A", B "b", 200)].
Proof.
  destruct C88_case as (A1&A2&k&m1&m2&E1&E2&B1&B2). destruct (env_ex_ok resp_ok) as (_&_&RF&_). exists k, m1, m2.
  assert (M1 : m1 = ran (history cfg0 old_mem hx [CInit ri0; add_y])) by (rewrite E1; reflexivity).
  assert (K1 : k = ran_len (history cfg0 old_mem hx [CInit ri0; add_y])) by (rewrite E1; reflexivity).
  assert (M2 : m2 = ran (history cfg0 new_mem new_h [CInit ri0; add_z])) by (rewrite E2; reflexivity).
  assert (X : exists st h1' r1' w1' K, Send 100 cfg0 (env_ex resp_ok) refparser (Some trr) (Some (set_rh_len hx k)) (Some (mkptr 1 0)) 4 (Some r_old) 0 (mkw m1 0 0 0 []) = Ret (st, Some h1', Some r1', w1') /\ st = HTTPSuccess /\ delivered (w_tr w1') = [(B "Content-Length", B "5", 200); (B "A", B "b", 200)] /\ K = k /\ K = 114).
  { clear - M1 K1. subst m1 k. do 5 eexists. split; [vm_compute; reflexivity|]. split; [reflexivity|]. split; [vm_compute; reflexivity|]. split; vm_compute; reflexivity. }
  destruct X as (st&h1'&r1'&w1'&K&X&->&XD&->&KV).
  assert (X' : exchanges 100 cfg0 (env_ex resp_ok) refparser trr (set_rh_len hx k) (Some (mkptr 1 0)) 4 r_old 0 (mkw m1 0 0 0 []) HTTPSuccess h1' r1' w1' (w_tr w1')) by (split; [exact X|reflexivity]).
  assert (S1 : same_outside old_mem m1 buf0 300) by (pose proof (C88_only_texts cfg0 300 old_mem hx buf0 _ old_mem hx buf0 _ _ _ _ _ _ cfg0_ok eq_refl eq_refl obj_old eq_refl eq_refl obj_old A1 A1) as (?&?&?&?&Q&_&_&_&Q2&_); rewrite E1 in Q; injection Q as <- ? <-; exact Q2).
  assert (S2 : same_outside new_mem m2 (mkptr 1 0) 300) by (pose proof (C88_only_texts cfg0 300 new_mem new_h (mkptr 1 0) _ new_mem new_h (mkptr 1 0) _ _ _ _ _ _ cfg0_ok eq_refl eq_refl obj_new eq_refl eq_refl obj_new A2 A2) as (?&?&?&?&Q&_&_&_&Q2&_); rewrite E2 in Q; injection Q as <- ? <-; exact Q2).
  assert (D1 : exists req, send_setup cfg0 (env_ex resp_ok) refparser trr (set_rh_len hx k) buf0 300 req (Some (mkptr 1 0)) 4 (B "data") r_old buf0 300 (mkw m1 0 0 0 [])).
  { exists (bytes_at m1 buf0 k). assert (OB : object m1 buf0 300) by (eapply same_object; [exact S1|apply obj_old]). apply setup_of; auto; [|rewrite B1; vm_compute; discriminate|reflexivity|].
    - split; [reflexivity|]. split; [reflexivity|]. split; [exact OB|]. split; [cbn; lia|reflexivity].
    - clear - M1. subst m1. vm_compute. repeat split; try discriminate. left. discriminate. }
  assert (D2 : exists req, send_setup cfg0 (env_ex resp_ok) refparser trr (set_rh_len new_h k) (mkptr 1 0) 300 req (Some (mkptr 3 0)) 4 (B "data") r_new (mkptr 2 0) 300 (mkw m2 0 0 0 [])).
  { exists (bytes_at m2 (mkptr 1 0) k). assert (OB : object m2 (mkptr 1 0) 300) by (eapply same_object; [exact S2|apply obj_new]). apply setup_of; auto; [|rewrite B2, B1; vm_compute; discriminate|reflexivity| |].
    - split; [reflexivity|]. split; [reflexivity|]. split; [exact OB|]. split; [cbn; lia|reflexivity].
    - clear - M2. subst m2. vm_compute. repeat split; try discriminate. left. discriminate.
    - clear - M2. subst m2. vm_compute. repeat split; discriminate. }
  destruct D1 as (q1&D1). destruct D2 as (q2&D2).
  destruct (C88_start_over _ _ _ _ _ _ _ _ _ _ old_mem hx buf0 _ _ _ _ _ _ _ (mkw m1 0 0 0 []) new_mem new_h (mkptr 1 0) _ _ _ _ _ _ _ (mkw m2 0 0 0 []) _ _ _ _ _ _ _ _ _ _ cfg0_ok eq_refl eq_refl obj_old eq_refl eq_refl obj_new A1 A2 E1 E2 D1 D2 RF ltac:(repeat split; reflexivity) ltac:(repeat split; reflexivity) ltac:(split; discriminate) X') as (_&_&h2'&r2'&w2'&tr2&Y&_&Y1&_&Y2&_).
  exists h1', r1', w1', (w_tr w1'), h2', r2', w2', tr2. split; [exact E1|]. split; [exact E2|]. split; [exact X'|]. split; [exact Y|]. split; [exact Y1|]. split; [exact Y2|]. rewrite <- Y2. exact XD.
Qed.
