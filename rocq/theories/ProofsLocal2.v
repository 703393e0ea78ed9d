(** ProofsLocal2.v — ProofsLocal.v for the programs of ModelTask.v: between any two stops they look at and change their own objects only,
    whatever has happened to the rest of the memory meanwhile. *)
From Verif Require Import Base Lib ModelRequest ModelSend ModelResponse ModelReadHeader ModelTask SpecRequest SpecTask ProofsTask ProofsLocal.

Section local2.
Variables S W : nat -> Prop.
Hypothesis WS : forall b, W b -> S b.
Notation winp := (inp W).  Notation wino := (ino W).  Notation inp := (inp S).  Notation ino := (ino S).  Notation ins := (ins S).  Notation agree_on := (agree_on S).  Notation near := (near S W).
Lemma wip p : winp p -> inp p.
Proof. apply WS. Qed.
Lemma wio o : wino o -> ino o.
Proof. destruct o; cbn; auto. apply wip. Qed.
Local Hint Resolve wip wio : core.
(** Two runs of a program in memories that agree on the objects in [S], and may differ elsewhere in other ways after every stop. *)
Fixpoint tsim {A} (Q : A -> Prop) (M1 M2 : mem) (t1 t2 : tree A) : Prop :=
  match t1, t2 with
  | TRet a m1, TRet b m2 => b = a /\ Q a /\ near M1 M2 m1 m2
  | TUb k, TUb k' => k' = k
  | TAssert l, TAssert l' => l' = l
  | TMore, TMore => True
  | TCall q m1 k1, TCall q' m2 k2 => q' = q /\ near M1 M2 m1 m2 /\ forall n d m1' m2', agree_on m1' m2' -> tsim Q m1' m2' (k1 n d m1') (k2 n d m2')
  | _, _ => False
  end.
Definition local {A} (Q : A -> Prop) (p : prog A) : Prop := forall m1 m2, agree_on m1 m2 -> tsim Q m1 m2 (p m1) (p m2).
Lemma tsim_base {A} (Q : A -> Prop) M1 M2 m1 m2 t1 t2 : near M1 M2 m1 m2 -> tsim Q m1 m2 t1 t2 -> tsim Q M1 M2 t1 t2.
Proof.
  intros N. destruct t1, t2; cbn [tsim]; auto.
  - intros (A1&B&C). split; [auto|]. split; [auto|]. eapply near_trans; eauto.
  - intros (A1&B&C). split; [auto|]. split; [eapply near_trans; eauto|auto].
Qed.
Lemma tsim_bind {A C} (Q : A -> Prop) (R : C -> Prop) f : (forall a, Q a -> local R (f a)) -> forall t1 M1 M2 t2, tsim Q M1 M2 t1 t2 -> tsim R M1 M2 (tbind t1 f) (tbind t2 f).
Proof.
  intros K. induction t1 as [a m1|k|l| |q m1 k1 IH]; intros M1 M2 t2 H; destruct t2; cbn [tsim tbind] in *; try contradiction; auto.
  - destruct H as (->&H&N). eapply tsim_base; [exact N|]. apply K; [exact H|]. apply N.
  - destruct H as (->&N&H). split; [auto|]. split; [auto|]. intros n d m1' m2' A1. apply IH. apply H. exact A1.
Qed.
Lemma local_bind {A C} (Q : A -> Prop) (R : C -> Prop) p f : local Q p -> (forall a, Q a -> local R (f a)) -> local R (pbind p f).
Proof. intros H K m1 m2 A1. unfold pbind. eapply tsim_bind; eauto. Qed.
Lemma local_ret {A} (Q : A -> Prop) a : Q a -> local Q (pret a).
Proof. intros H m1 m2 A1. cbn [pret tsim]. split; [auto|]. split; [auto|]. apply near_refl. exact A1. Qed.
Lemma local_reading {A} (Q : A -> Prop) (f : mem -> res A) : (forall m1 m2, agree_on m1 m2 -> f m2 = f m1) -> (forall m a, f m = Ret a -> Q a) -> local Q (reading f).
Proof.
  intros H K m1 m2 A1. unfold reading. rewrite (H _ _ A1). destruct (f m1) eqn:F; cbn [tsim]; auto. split; [auto|]. split; [eauto|]. apply near_refl. exact A1.
Qed.
Lemma local_fixed {A} (Q : A -> Prop) (x : res A) : (forall a, x = Ret a -> Q a) -> local Q (fixed x).
Proof. intros H. apply local_reading; auto. Qed.
Lemma local_writing {A} (Q : A -> Prop) (f : mem -> res (A * mem)) :
  (forall m1 m2, agree_on m1 m2 -> rr (fun a b => fst b = fst a /\ Q (fst a) /\ near m1 m2 (snd a) (snd b)) (f m1) (f m2)) -> local Q (writing f).
Proof. intros H m1 m2 A1. specialize (H _ _ A1). unfold writing. destruct (f m1) as [[a ma]| | |], (f m2) as [[b mb]| | |]; cbn [rr tsim] in *; try contradiction; auto. Qed.
Lemma local_stop q : local (fun _ => True) (stop q).
Proof. intros m1 m2 A1. cbn [stop tsim]. split; [auto|]. split; [apply near_refl; exact A1|]. intros n d m1' m2' A2. split; [auto|]. split; [auto|]. apply near_refl. exact A2. Qed.
Lemma local_note e : local (fun _ => True) (note e).
Proof. eapply local_bind; [apply local_stop|]. intros _ _. apply local_ret. exact Logic.I. Qed.
Lemma local_time tf : local (fun _ => True) (time_p tf).
Proof. destruct tf; cbn [time_p]; [apply local_fixed; auto|apply local_ret; auto|]. eapply local_bind; [apply local_stop|]. intros [v d] _. apply local_ret. exact Logic.I. Qed.
Lemma tsim_imp {A} (Q R : A -> Prop) : (forall a, Q a -> R a) -> forall t M1 M2 t2, tsim Q M1 M2 t t2 -> tsim R M1 M2 t t2.
Proof.
  intros K t. induction t as [a m1|k|l| |q m1 k1 IH]; intros M1 M2 t2 H; destruct t2; cbn [tsim] in *; try contradiction; auto.
  - intuition.
  - destruct H as (->&N&H). split; [auto|]. split; [auto|]. intros. apply IH. apply H. auto.
Qed.
Lemma local_more {A} (Q : A -> Prop) : local Q (fun _ => TMore).
Proof. intros m1 m2 A1. exact Logic.I. Qed.
Lemma local_padd p n : inp p -> local inp (padd_p p n).
Proof. intros H. apply local_reading; [intros m1 m2 A1; apply padd_eq with (S := S); auto|]. intros m q Q. eapply padd_in; eauto. Qed.
Lemma local_wpadd p n : winp p -> local winp (padd_p p n).
Proof. intros H. apply local_reading; [intros m1 m2 A1; apply padd_eq with (S := S); auto|]. intros m q Q. eapply padd_in; eauto. Qed.
Lemma local_pause : local (fun _ => True) pause.
Proof. eapply local_bind; [apply local_stop|]. intros _ _. apply local_ret. exact Logic.I. Qed.
Lemma local_load1 p : inp p -> local (fun _ => True) (load1_p p).
Proof.
  intros H. apply local_bind with (Q := fun _ => True); [apply local_reading; [|auto]; intros m1 m2 A1; apply load1_eq with (S := S); auto|]. intros x _. eapply local_bind; [apply local_pause|]. intros _ _. apply local_ret. exact Logic.I.
Qed.
Lemma local_range p n : inp p -> local (fun _ => True) (range_p p n).
Proof. intros H. apply local_reading; [|auto]. intros m1 m2 A1. rewrite (range_eq S m1 m2 A1 p n H). reflexivity. Qed.
Lemma local_loads n : forall p, inp p -> local (fun _ => True) (loads_p p n).
Proof.
  induction n as [|n IH]; intros p H; cbn [loads_p]; [apply local_ret; auto|]. eapply local_bind; [apply local_load1; exact H|]. intros x _. eapply local_bind; [apply IH; exact H|]. intros d _. apply local_ret. exact Logic.I.
Qed.
Lemma local_loadn p n : inp p -> local (fun _ => True) (loadn_p p n).
Proof. intros H. eapply local_bind; [apply local_range; exact H|]. intros _ _. apply local_loads. exact H. Qed.
Lemma local_stores d : forall p, winp p -> local (fun _ => True) (stores_p p d).
Proof.
  induction d as [|c d IH]; intros p H; cbn [stores_p]; [apply local_ret; auto|]. apply local_bind with (Q := fun _ => True).
  - apply local_writing. intros m1 m2 A1. eapply rr_bind2; [apply (storen_near S W WS); [apply near_refl; exact A1|exact H]|]. intros ma mb N. cbn. auto.
  - intros _ _. eapply local_bind; [apply local_pause|]. intros _ _. apply IH. exact H.
Qed.
Lemma local_storen p d : winp p -> local (fun _ => True) (storen_p p d).
Proof. intros H. eapply local_bind; [apply local_range; apply wip; exact H|]. intros _ _. apply local_stores. exact H. Qed.
Lemma local_src_byte s i : ins s -> local (fun _ => True) (src_byte_p s i).
Proof. intros H. destruct s; cbn [src_byte_p]; [apply local_fixed; auto|apply local_fixed; auto|]. apply local_load1. exact H. Qed.
Lemma local_src_bytes s n : ins s -> local (fun _ => True) (src_bytes_p s n).
Proof. intros H. destruct s; cbn [src_bytes_p]; [apply local_fixed; auto|apply local_fixed; auto|]. apply local_loadn. exact H. Qed.
Lemma local_memcpy p s n : winp p -> ins s -> local (fun _ => True) (memcpy_p p s n).
Proof. intros H K. unfold memcpy_p. destruct (overlaps p s n); [apply local_fixed; auto|]. eapply local_bind; [apply local_src_bytes; exact K|]. intros d _. apply local_storen. exact H. Qed.
Lemma local_memmove p q n : winp p -> inp q -> local (fun _ => True) (memmove_p p q n).
Proof. intros H K. unfold memmove_p. eapply local_bind; [apply local_loadn; exact K|]. intros d _. apply local_storen. exact H. Qed.
Lemma local_strncmp lit : forall p, inp p -> local (fun _ => True) (strncmp_p p lit).
Proof.
  induction lit as [|c lit IH]; intros p H; cbn [strncmp_p]; [apply local_ret; auto|]. eapply local_bind; [apply local_load1; exact H|]. intros x _. destruct (x =? c); [apply IH; exact H|apply local_ret; auto].
Qed.
Lemma ins_lit l : ins (SLit l).
Proof. exact Logic.I. Qed.
Local Hint Resolve ins_lit : core.
Ltac lnext := first [apply local_bind with (Q := fun _ => True); [solve [apply local_time|apply local_note|apply local_stop|apply local_loadn; auto|apply local_load1; auto|apply local_src_byte; auto|apply local_storen; auto|apply local_memcpy; auto|apply local_memmove; auto|apply local_strncmp; auto|apply local_fixed; auto]|intros ? _]
  | apply local_bind with (Q := winp); [solve [apply local_wpadd; assumption]|intros ? ?]
  | apply local_bind with (Q := inp); [solve [apply local_padd; assumption]|intros ? ?]].

(** ** Building requests *)
Lemma strncpy_local p s f n : winp p -> ins s -> forall i, local (fun _ => True) (strncpy_loop_p p s f n i).
Proof. intros H K. induction n as [|n IH]; intros i; cbn [strncpy_loop_p]; [apply local_ret; auto|]. lnext. destruct (_ || _); [apply local_ret; auto|]. lnext. apply IH. Qed.
Lemma hstrncpy_local p s n f : winp p -> ins s -> local (fun _ => True) (httpHeaderStrncpy_p p s n f).
Proof. intros H K. unfold httpHeaderStrncpy_p. lnext. apply strncpy_local; auto. Qed.
Definition keeps (h : reqHeaders) (a : status * reqHeaders) : Prop := rh_buf (snd a) = rh_buf h.
Lemma addHeader_local cfg h f fl v vl : wino (rh_buf h) -> ins f -> ins v -> local (keeps h) (addHeader_p cfg h f fl v vl).
Proof.
  intros H F V. unfold addHeader_p. destruct (rh_buf h) as [buf|] eqn:HB; [|apply local_fixed; intros; discriminate]. cbn in H. do 4 lnext. lnext. apply local_bind with (Q := fun a => winp (fst a)).
  - destruct (4 <=? rh_len h); [|apply local_ret; assumption]. lnext. lnext. destruct a5; [|apply local_ret; assumption]. lnext. apply local_ret. assumption.
  - intros [cur back] C. cbn [fst] in C. cbv zeta. destruct (_ <=? rh_bufLen h); [|apply local_ret; reflexivity]. eapply local_bind; [apply hstrncpy_local; auto|]. intros [|] _; cbn [negb]; [|apply local_ret; reflexivity].
    do 3 lnext. eapply local_bind; [apply hstrncpy_local; auto|]. intros [|] _; cbn [negb]; [|apply local_ret; reflexivity]. do 2 lnext. apply local_ret. reflexivity.
Qed.
Lemma rangeHeader_local cfg h a b : wino (rh_buf h) -> local (keeps h) (addRangeHeader_p cfg h a b).
Proof. intros H. unfold addRangeHeader_p. cbv zeta. lnext. destruct a0 as [a2 k]. lnext. destruct a0 as [a3 n3]. apply addHeader_local; auto. Qed.
Lemma contentLength_local cfg h n : wino (rh_buf h) -> local (keeps h) (addContentLengthHeader_p cfg h n).
Proof. intros H. unfold addContentLengthHeader_p. cbv zeta. lnext. lnext. destruct a0 as [a3 n3]. apply addHeader_local; auto. Qed.
Lemma requestLine_local cfg h mt ml pt pl : wino (rh_buf h) -> ins mt -> ins pt -> local (keeps h) (writeRequestLine_p cfg h mt ml pt pl).
Proof.
  intros H F V. unfold writeRequestLine_p. destruct (rh_buf h) as [buf|] eqn:HB; [|apply local_fixed; intros; discriminate]. cbn in H. do 2 lnext. cbv zeta. destruct (rh_bufLen h <? _); [apply local_ret; reflexivity|].
  do 4 lnext. apply local_bind with (Q := winp); [|intros c3 C3; do 5 lnext; apply local_ret; reflexivity]. destruct (is_null pt || _); lnext; apply local_wpadd; assumption.
Qed.
Lemma andThen_local h p f : local (keeps h) p -> (forall h', rh_buf h' = rh_buf h -> local (keeps h) (f h')) -> local (keeps h) (andThen_p p f).
Proof. intros H K. unfold andThen_p. eapply local_bind; [exact H|]. intros [st h1] B. destruct (is_success st); [apply K; exact B|]. apply local_ret. exact B. Qed.
Definition hin (o : option reqHeaders) : Prop := match o with Some h => wino (rh_buf h) | None => True end.
Lemma some_local h p : wino (rh_buf h) -> local (keeps h) p -> local (fun a => hin (snd a)) (' (st, h') <~ p ;; pret (st, Some h')).
Proof. intros H K. eapply local_bind; [exact K|]. intros [st h1] B. apply local_ret. cbn. unfold keeps in B. cbn in B. rewrite B. exact H. Qed.
Lemma call_local cfg h c : wino (rh_buf h) -> deed_in S W (DRequest c) -> local (fun a => hin (snd a)) (call_p cfg h c).
Proof.
  intros H C. assert (BAD : forall st : status, local (fun a => hin (snd a)) (pret (st, Some h))) by (intros st; apply local_ret; exact H).
  assert (AH : forall h' f fl v vl, rh_buf h' = rh_buf h -> ins f -> ins v -> local (keeps h) (addHeader_p cfg h' f fl v vl)).
  { intros h' f fl v vl B F V m1 m2 A1. eapply tsim_imp; [|apply (addHeader_local cfg h' f fl v vl); auto; rewrite B; exact H]. intros a. unfold keeps. rewrite B. auto. }
  destruct c as [ri|f fl v vl|a b]; cbn [call_p deed_in] in *.
  - destruct C as (C1&C2&C3). unfold InitializeRequestHeaders_p. destruct (match rh_buf h with None => true | _ => false end); [apply BAD|]. destruct (is_null (ri_method ri)); [apply BAD|]. destruct (is_null (ri_host ri)); [apply BAD|].
    destruct (ri_methodLen ri =? 0); [apply BAD|]. destruct (ri_hostLen ri =? 0); [apply BAD|]. cbv zeta. apply (some_local h); [exact H|].
    apply andThen_local; [apply andThen_local; [apply andThen_local|]|].
    + exact (requestLine_local cfg (set_rh_len h 0) _ _ _ _ H C1 C2).
    + intros h' B. destruct (_ =? 0); [apply AH; auto|apply local_ret; exact B].
    + intros h' B. apply AH; auto.
    + intros h' B. destruct (negb _); [apply AH; auto|apply local_ret; exact B].
  - destruct C as (C1&C2). unfold AddHeader_p. destruct (match rh_buf h with None => true | _ => false end); [apply BAD|]. destruct (is_null f); [apply BAD|]. destruct (is_null v); [apply BAD|].
    destruct (fl =? 0); [apply BAD|]. destruct (vl =? 0); [apply BAD|]. destruct (rh_bufLen h <? rh_len h); [apply BAD|]. apply (some_local h); [exact H|]. apply addHeader_local; auto.
  - unfold AddRangeHeader_p. destruct (match rh_buf h with None => true | _ => false end); [apply BAD|]. destruct (rh_bufLen h <? rh_len h); [apply BAD|]. destruct (b <? _); [apply BAD|]. destruct (_ && _); [apply BAD|].
    destruct (_ && _); [apply BAD|]. destruct (a =? _); [apply BAD|]. apply (some_local h); [exact H|]. apply rangeHeader_local; auto.
Qed.

(** ** Sending *)
Lemma send_loop_local tf retry fuel : forall p rem last, inp p -> local (fun _ => True) (send_loop_p fuel tf retry p rem last).
Proof.
  induction fuel as [|fuel IH]; intros p rem last H; cbn [send_loop_p]; [apply local_more|]. destruct (rem <=? 0); [apply local_ret; auto|]. lnext. lnext. destruct a0 as [r d].
  destruct (r <? 0); [apply local_ret; auto|]. destruct (0 <? r).
  - do 3 lnext. apply IH. auto.
  - lnext. destruct (_ <=? _); [apply local_ret; auto|]. apply IH. auto.
Qed.
Lemma data_local fuel cfg t tf p n : ino p -> local (fun _ => True) (SendHttpData_p fuel cfg t tf p n).
Proof.
  intros H. unfold SendHttpData_p. destruct t; [|apply local_fixed; auto]. lnext. destruct p; [|apply local_fixed; auto]. lnext. apply send_loop_local. exact H.
Qed.
Lemma headers_local fuel cfg t tf h n fl : hin h -> local (fun a => hin (snd a)) (SendHttpHeaders_p fuel cfg t tf h n fl).
Proof.
  intros H. unfold SendHttpHeaders_p. destruct t; [|apply local_fixed; intros; discriminate]. lnext. destruct h as [h|]; [|apply local_fixed; intros; discriminate].
  apply local_bind with (Q := fun a => wino (rh_buf (snd a))).
  - destruct (_ && _); [|apply local_ret; exact H]. intros m1 m2 A1. eapply tsim_imp; [|apply (contentLength_local cfg h n H); exact A1]. intros [st h1] B. unfold keeps in B. cbn [snd] in *. rewrite B. exact H.
  - intros [st h1] H1. destruct (is_success st); [|apply local_ret; exact H1]. eapply local_bind; [apply data_local; apply wio; exact H1|]. intros st2 _. apply local_ret. exact H1.
Qed.
Lemma request_local fuel cfg t tf h b n fl : hin h -> ino b -> local (fun a => hin (snd a)) (sendHttpRequest_p fuel cfg t tf h b n fl).
Proof.
  intros H K. unfold sendHttpRequest_p. do 4 lnext. eapply local_bind; [apply headers_local; exact H|]. intros [st h1] H1. destruct (is_success st); [|apply local_ret; exact H1].
  destruct b as [b|]; [|apply local_ret; exact H1]. apply local_bind with (Q := fun _ => True); [|intros st2 _; apply local_ret; exact H1].
  unfold sendHttpBody_p. destruct t; [|apply local_fixed; auto]. do 2 lnext. apply data_local. exact K.
Qed.

(** ** Receiving *)
Definition stin (s : pst) : Prop := wino (c_cur (fst s)) /\ wino (c_lf (fst s)) /\ wino (c_lv (fst s)) /\ wino (r_buf (snd s)) /\ wino (r_headers (snd s)) /\ wino (r_body (snd s)).
Lemma pch_local cfg s : stin s -> local stin (processCompleteHeader_p cfg s).
Proof.
  destruct s as [c r]. intros H. unfold processCompleteHeader_p. lnext. destruct H as (H1&H2&H3&H4&H5&H6). cbn [fst snd] in *.
  destruct (c_lf c) as [f|] eqn:LF; [|apply local_ret; unfold stin; cbn [fst snd]; rewrite LF; auto 10]. destruct (c_lv c) as [v|] eqn:LV; [|apply local_ret; unfold stin; cbn [fst snd]; rewrite LF, LV; auto 10].
  lnext. cbv zeta. destruct (r_cb r).
  - cbn [SpecTask.ino] in H2, H3. do 3 lnext. apply local_ret. unfold stin. cbn. auto 10.
  - apply local_ret. unfold stin. cbn. auto 10.
Qed.
Definition cbin (a : cbret * pst) : Prop := stin (snd a).
Definition cb_near m1 m2 (a b : cbret * cbst) : Prop :=
  fst b = fst a /\ s_ctx (snd b) = s_ctx (snd a) /\ s_resp (snd b) = s_resp (snd a) /\ stin (s_ctx (snd a), s_resp (snd a)) /\ near m1 m2 (w_mem (s_w (snd a))) (w_mem (s_w (snd b))).
Lemma inside_local f s : (forall m1 m2, agree_on m1 m2 -> rr (cb_near m1 m2) (f (mkst (fst s) (snd s) (mkw m1 O O O []))) (f (mkst (fst s) (snd s) (mkw m2 O O O [])))) -> local cbin (inside f s).
Proof.
  intros H. apply local_writing. intros m1 m2 A1. specialize (H m1 m2 A1). destruct (f (mkst (fst s) (snd s) (mkw m1 0 0 0 []))) as [[x [c r w]]| | |], (f (mkst (fst s) (snd s) (mkw m2 0 0 0 []))) as [[x' [c' r' w']]| | |]; cbn [rr] in *; try contradiction; auto.
  destruct H as (A2&B&C&D&N). cbn [fst snd s_ctx s_resp s_w] in *. subst. auto.
Qed.
Ltac pq A1 := match goal with
  | |- rr _ (bind (padd ?m1 ?p ?n) _) (bind (padd ?m2 ?p ?n) _) => rewrite (padd_eq S m1 m2 A1) by auto; let q := fresh "q" in let Q := fresh "Q" in apply rr_same2; intros q Q; assert (winp q) by (eapply padd_in; eauto)
  | |- rr _ (bind ?x _) (bind ?x _) => apply rr_same2; intros ? ?
  end.
Lemma callback_local cfg start ev s : stin s -> winp start -> local cbin (callback_p cfg start ev s).
Proof.
  intros H IS. destruct s as [c r]. pose proof H as (H1&H2&H3&H4&H5&H6). cbn [fst snd] in *. assert (IL : forall off, winp (mkptr (pb start) (po start + off))) by (intros; exact IS).
  destruct ev; cbn [callback_p]; try (apply inside_local; intros m1 m2 A1; cbn [fst snd callback]; pose proof (near_refl S W _ _ A1) as N).
  - unfold onMessageBegin. cbn. unfold cb_near, stin. cbn. auto 20.
  - unfold onStatus. cbn [s_ctx s_resp s_w w_mem]. pose proof (IL off). pq A1. pq A1. cbn. unfold cb_near, stin. cbn. auto 20.
  - unfold onStatusComplete. cbn [s_ctx s_resp s_w w_mem]. pq A1. cbn. unfold cb_near, stin. cbn. auto 20.
  - unfold onHeaderField_p. cbn [fst snd]. lnext. cbv zeta. pose proof (IL off). lnext. eapply local_bind; [apply pch_local|].
    + unfold stin. cbn. destruct (r_headers r) eqn:RH; cbn; rewrite ?RH; cbn; auto 10.
    + intros [c2 r2] K. pose proof K as (K1&K2&K3&K4&K5&K6). cbn [fst snd] in *. destruct (c_lf c2) as [f|].
      * lnext. apply local_ret. unfold cbin, stin. cbn. auto 10.
      * apply local_ret. unfold cbin, stin. cbn. auto 10.
  - unfold onHeaderValue. cbn [s_ctx s_resp s_w w_mem]. pose proof (IL off). pq A1. cbv zeta. pq A1. cbn [rr]. unfold cb_near, stin. cbn. destruct (c_lv c) eqn:LV; cbn; auto 20.
  - unfold onHeadersComplete_p. lnext. destruct (c_cur c) as [cur|] eqn:CC; [|apply local_fixed; intros; discriminate]. destruct (r_buf r) as [buf|] eqn:RB; [|apply local_fixed; intros; discriminate].
    cbn in H1, H4. cbv zeta. do 5 lnext. apply local_bind with (Q := fun r2 => r_buf r2 = r_buf r /\ r_body r2 = r_body r /\ r_headers r2 = r_headers r).
    + apply local_fixed. intros r2 Q. cbn [set_r_hdone r_headers] in Q. destruct (r_headers r) as [hh|] eqn:RH.
      * destruct (psub cur hh); cbn [bind] in Q; try discriminate. destruct (assert_at _ 842); cbn [bind] in Q; try discriminate. injection Q as <-. cbn. auto.
      * injection Q as <-. cbn. auto.
    + intros r2 (Q1&Q2&Q3). eapply local_bind; [apply pch_local|].
      * unfold stin. cbn [fst snd]. rewrite CC. assert (WW : forall b1 b2 x, let r4 := if b1 : bool then set_r_flags (set_r_clen r2 x) (Z.lor (r_flags (set_r_clen r2 x)) HTTP_RESPONSE_CONNECTION_CLOSE_FLAG) else set_r_clen r2 x in
          let r5 := if b2 : bool then set_r_flags r4 (Z.lor (r_flags r4) HTTP_RESPONSE_CONNECTION_KEEP_ALIVE_FLAG) else r4 in r_buf r5 = r_buf r /\ r_body r5 = r_body r /\ r_headers r5 = r_headers r) by (intros [|] [|] x; cbn; auto).
        destruct (WW close keepalive (if clen =? UINT64_MAX then 0 else clen mod SZ cfg)) as (W1&W2&W3). cbv zeta in W1, W2, W3. rewrite W1, W2, W3, RB. cbn. auto 10.
      * intros s1 K. apply local_ret. exact K.
  - unfold onBody_p. lnext. destruct (r_buf r) as [buf|] eqn:RB; [|apply local_fixed; intros; discriminate]. cbn in H4. do 5 lnext. pose proof (IL off).
    assert (IB : winp (fst (match r_body r with None => (mkptr (pb start) (po start + off), 0) | Some b => (b, r_bodyLen r) end))) by (destruct (r_body r); [exact H6|exact IS]).
    destruct (match r_body r with None => _ | Some b => (b, r_bodyLen r) end) as [body bl]. cbn [fst] in IB. do 2 lnext.
    apply local_bind with (Q := fun _ => True); [destruct (0 <? _); [apply local_memmove; auto|apply local_ret; auto]|]. intros _ _. lnext. apply local_ret. unfold cbin, stin. cbn. rewrite RB. auto 10.
  - unfold onMessageComplete. cbn. unfold cb_near, stin. cbn. auto 20.
Qed.
Lemma run_tree_local cfg start {X} (s0 : X) t : winp start -> forall s, stin s -> local (fun a => stin (snd a)) (run_tree_p cfg start s0 t s).
Proof.
  intros IS. induction t as [e q|ev k IH]; intros s H; cbn [run_tree_p]; [apply local_ret; exact H|]. lnext. eapply local_bind; [apply callback_local; auto|]. intros [r s1] H1. unfold cbin in H1. cbn [snd] in H1. lnext.
  destruct r; try apply IH; auto; apply local_ret; exact H1.
Qed.
Lemma parse_local cfg P ps s n : stin s -> local (fun a => stin (snd a) /\ r_buf (snd (snd a)) = r_buf (snd (snd a))) (parseHttpResponse_p cfg P ps s n).
Proof.
  intros H. unfold parseHttpResponse_p. destruct s as [c r]. cbv zeta. match goal with |- local _ (match c_cur (fst ?x) with _ => _ end) => set (s1 := x) end.
  assert (H1 : stin s1). { unfold s1. destruct (c_resp c); [exact H|]. destruct H as (A1&A2&A3&A4&A5&A6). unfold stin. cbn in *. auto 10. }
  clearbody s1. destruct (c_cur (fst s1)) as [start|] eqn:CC; [|apply local_fixed; intros; discriminate]. assert (IS : winp start) by (destruct H1 as (A1&_); rewrite CC in A1; exact A1).
  do 2 lnext. eapply local_bind; [apply run_tree_local; auto|]. intros [[[e epos] ps'] s2] H2. cbn [snd] in H2. lnext. lnext. apply local_ret. cbn [fst snd]. split; [|auto].
  destruct H2 as (A1&A2&A3&A4&A5&A6). unfold stin. cbn. auto 10.
Qed.
Lemma recv_loop_local cfg P retry fuel : forall total last ps s, stin s -> local (fun a => stin (snd a)) (recv_loop_p fuel cfg P retry total last ps s).
Proof.
  induction fuel as [|fuel IH]; intros total last ps s H; cbn [recv_loop_p]; [apply local_more|]. destruct (r_buf (snd s)) as [buf|] eqn:RB; [|apply local_fixed; intros; discriminate].
  assert (IB : winp buf) by (destruct H as (_&_&_&A1&_); rewrite RB in A1; exact A1). lnext. lnext. destruct a0 as [n d].
  apply local_bind with (Q := fun _ => True); [apply local_storen; assumption|].
  - intros _ _. destruct (n <? 0); [apply local_ret; exact H|]. lnext. destruct (0 <? n).
    + eapply local_bind; [apply parse_local; exact H|]. intros [[st ps'] s3] (H3&_). cbn [snd] in H3. destruct (_ && _ && _); [apply IH; exact H3|apply local_ret; exact H3].
    + destruct (retry <=? _).
      * eapply local_bind; [apply parse_local; exact H|]. intros [[st ps'] s3] (H3&_). cbn [snd] in H3. apply local_ret. exact H3.
      * destruct (_ && _); [apply IH; exact H|apply local_ret; exact H].
Qed.
Definition rin (o : option response) : Prop := match o with Some r => wino (r_buf r) /\ wino (r_headers r) /\ wino (r_body r) | None => True end.
Lemma receive_local fuel cfg P t r h : rin r -> hin h -> local (fun a => rin (snd a)) (ReceiveAndParseHttpResponse_p fuel cfg P t r h).
Proof.
  intros R H. unfold ReceiveAndParseHttpResponse_p. destruct t; [|apply local_fixed; intros; discriminate]. lnext. destruct r as [r|]; [|apply local_fixed; intros; discriminate]. destruct h as [h|]; [|apply local_fixed; intros; discriminate].
  cbn in R, H. destruct R as (R1&R2&R3). apply local_bind with (Q := fun c => stin (c, r)).
  - unfold initializeParsingContextForFirstResponse_p. lnext. destruct (rh_buf h) as [buf|]; [|apply local_fixed; intros; discriminate]. cbn in H. lnext. apply local_ret. unfold stin. cbn. auto 10.
  - intros c HC. cbv zeta. lnext. eapply local_bind; [apply recv_loop_local; exact HC|]. intros [[st total] s] HS. cbn [snd] in HS. destruct HS as (A1&A2&A3&A4&A5&A6).
    apply local_bind with (Q := fun x => rin (Some (snd x))).
    + apply local_fixed. intros [st2 r2] Q. cbn [snd]. assert (r2 = snd s \/ exists cur z, c_cur (fst s) = Some cur /\ r2 = set_r_body (snd s) (Some cur) z) as [->|(cur&z&CC&->)].
      { destruct st; try (injection Q as <- <-; auto; fail). destruct (negb _); [|injection Q as <- <-; auto]. destruct (c_cur (fst s)) as [cur|]; [|discriminate]. destruct (r_buf (snd s)) as [buf|]; [|discriminate].
        destruct (psub cur buf); cbn [bind] in Q; try discriminate. injection Q as <- <-. right. eauto. }
      * cbn. auto.
      * cbn. rewrite CC in A1. auto.
    + intros [st2 r2] HR. cbn [snd] in HR. destruct (is_success st2); [|apply local_ret; exact HR]. lnext. apply local_ret. exact HR.
Qed.
Lemma Send_local fuel cfg P t h b n r fl : hin h -> ino b -> rin r -> local (fun a => hin (snd (fst a)) /\ rin (snd a)) (Send_p fuel cfg P t h b n r fl).
Proof.
  intros H B R. unfold Send_p. cbv zeta.
  assert (INV : local (fun a : status * option reqHeaders * option response => hin (snd (fst a)) /\ rin (snd a)) (pret (HTTPInvalidParameter, h, r))) by (apply local_ret; auto).
  destruct t as [t|]; [|exact INV]. destruct (negb (t_send t)); [exact INV|]. destruct (negb (t_recv t)); [exact INV|]. destruct h as [rh|]; [|exact INV].
  destruct (match rh_buf rh with None => true | _ => false end); [exact INV|]. destruct (rh_len rh <? HTTP_MINIMUM_REQUEST_LINE_LENGTH); [exact INV|]. destruct (rh_bufLen rh <? rh_len rh); [exact INV|].
  destruct r as [r|]; [|exact INV]. destruct (match r_buf r with None => true | _ => false end); [exact INV|]. destruct (r_bufLen r =? 0); [exact INV|].
  destruct (match b with None => 0 <? n | _ => false end); [exact INV|]. destruct (INT32_MAX mod SZ cfg <? n); [exact INV|]. clear INV.
  assert (R1 : rin (Some (match r_time r with TNull => set_r_time r TZero | _ => r end))) by (destruct (r_time r); exact R).
  eapply local_bind; [apply request_local; auto|]. intros [st h1] H1. cbn [snd] in H1. destruct (is_success st); [|apply local_ret; auto].
  eapply local_bind; [apply receive_local; auto|]. intros [st2 r2] R2. apply local_ret. auto.
Qed.
(** ** Reading a header *)
Lemma ci_local s p n : ins s -> inp p -> forall i, local (fun _ => True) (ci_loop_p s p n i).
Proof.
  intros H K. induction n as [|n IH]; intros i; cbn [ci_loop_p]; [apply local_ret; auto|]. lnext. eapply local_bind; [apply local_load1; exact K|]. intros b _. destruct (_ =? _); [apply IH|apply local_ret; auto].
Qed.
Definition fin (x : fctx) : Prop := ins (f_field x).
Lemma find_tree_local start {X} (t : ptree X) : inp start -> forall x, fin x -> local (fun _ => True) (find_tree_p start t x).
Proof.
  intros H. induction t as [e q|ev k IH]; intros x F; cbn [find_tree_p]; [apply local_ret; auto|]. apply local_bind with (Q := fun a => fin (snd a)); [|intros [r x1] F1; cbn [snd] in F1; destruct r; auto; apply local_ret; auto].
  destruct ev; cbn [find_callback_p]; try (apply local_ret; exact F).
  - unfold findHeaderField_p. do 5 lnext. apply local_bind with (Q := fun _ => True); [destruct (_ =? _); [apply ci_local; auto|apply local_ret; auto]|]. intros [|] _; apply local_ret; exact F.
  - apply local_fixed. intros [r x1] C. unfold findHeaderValue in C. repeat match type of C with bind ?x _ = _ => destruct x; cbn [bind] in C; try discriminate end. destruct (f_fieldFound x); injection C as <- <-; exact F.
Qed.
Lemma ReadHeader_local P r f n a b : ino (r_buf r) -> ins f -> local (fun _ => True) (ReadHeader_p P (Some r) f n a b).
Proof.
  intros H F. unfold ReadHeader_p. cbv zeta. destruct (r_buf r) as [buf|]; [|apply local_ret; auto]. cbn in H. do 5 (match goal with |- local _ (if ?c then _ else _) => destruct c; [apply local_ret; auto|] end).
  unfold findHeaderInResponse_p. lnext. eapply local_bind; [apply find_tree_local; [exact H|exact F]|]. intros [e x] _. lnext. cbv zeta. apply local_ret. exact Logic.I.
Qed.
Lemma need_local {A C} (Q : C -> Prop) (o : option A) f : (forall a, o = Some a -> local Q (f a)) -> local Q (need_p o f).
Proof. intros H. destruct o; cbn [need_p]; [auto|]. apply local_fixed. intros; discriminate. Qed.
Lemma deed_local fuel cfg P t d s : structs_in W s -> deed_in S W d -> local (fun a => structs_in W (snd a)) (deed_p fuel cfg P t d s).
Proof.
  destruct s as [h r]. intros (H1&H2&H3&H4) D. cbn [fst snd] in *. assert (HH : hin (Some h)) by exact H1. assert (RR : rin (Some r)) by (cbn; auto). destruct d; cbn [deed_p].
  - apply local_bind with (Q := fun a => hin (snd a)).
    + apply call_local; auto.
    + intros [st oh] H. apply need_local. intros h' ->. apply local_ret. unfold structs_in. cbn in *. auto.
  - eapply local_bind; [apply Send_local; auto|]. intros [[st oh] or] (A1&A2). apply need_local. intros h' ->. apply need_local. intros r' ->. apply local_ret. unfold structs_in. cbn in *. auto.
  - eapply local_bind; [apply headers_local; auto|]. intros [st oh] A1. apply need_local. intros h' ->. apply local_ret. unfold structs_in. cbn in *. auto.
  - eapply local_bind; [apply data_local; exact D|]. intros st _. apply local_ret. unfold structs_in. cbn in *. auto.
  - eapply local_bind; [apply receive_local; auto|]. intros [st or] A1. apply need_local. intros r' ->. apply local_ret. unfold structs_in. cbn in *. destruct A1 as (?&?&?). auto.
  - apply local_bind with (Q := fun _ => True); [apply ReadHeader_local; cbn in *; auto|].
    + intros [st out] _. apply local_ret. unfold structs_in. cbn. auto.
  - eapply local_bind; [apply local_storen; exact D|].
    + intros _ _. apply local_ret. unfold structs_in. cbn. auto.
Qed.
Lemma deeds_local fuel cfg P t ds : Forall (deed_in S W) ds -> forall s, structs_in W s -> local (fun a => structs_in W (snd a)) (deeds_p fuel cfg P t ds s).
Proof.
  induction 1 as [|d ds D _ IH]; intros s H; cbn [deeds_p]; [apply local_ret; exact H|]. eapply local_bind; [apply deed_local; auto|]. intros [g s1] H1. cbn [snd] in H1.
  eapply local_bind; [apply IH; exact H1|]. intros [gs s2] H2. apply local_ret. exact H2.
Qed.
End local2.
