(** ProofsLog.v — logging reads nothing it should not and changes nothing. *)
From Verif Require Import Base Lib ModelRequest ModelSend ModelResponse ModelReadHeader ModelLog SpecRequest SpecSend SpecResponse SpecExchange SpecLog SpecReadHeader ProofsTwin.

Definition shape (m m' : mem) : Prop := forall b, zlen (blk m b) = zlen (blk m' b).
Lemma shape_refl m : shape m m. Proof. intros b. reflexivity. Qed.
Lemma shape_trans a b c : shape a b -> shape b c -> shape a c. Proof. intros H K x. rewrite (H x). apply K. Qed.
Lemma object_shape m m' p n : shape m m' -> object m p n -> object m' p n.
Proof. intros S. unfold object. rewrite (S (pb p)). auto. Qed.
Lemma may_shape G m m' s n : shape m m' -> may_log G m s n -> may_log G m' s n.
Proof. intros S (A&C). split; [exact A|]. destruct s; auto. destruct C as (C&D). split; [exact (object_shape _ _ _ _ S C)|exact D]. Qed.
Lemma storen_shape m p d m' : storen m p d = Ret m' -> shape m m'.
Proof.
  unfold storen. destruct (in_range m p (zlen d)) eqn:Q; [|discriminate]. intros X. injection X as <-. apply in_range_iff in Q.
  intros b. symmetry. apply (zlen_blk_write m p d b Q).
Qed.
Lemma memcpy_shape m p s n m' : memcpy m p s n = Ret m' -> shape m m'.
Proof. unfold memcpy. destruct (overlaps p s n); [discriminate|]. destruct (src_bytes m s n); cbn [bind]; try discriminate. apply storen_shape. Qed.
Lemma strncpy_shape : forall n m dst s f i ok m', strncpy_loop m dst s f n i = Ret (ok, m') -> shape m m'.
Proof.
  induction n as [|n IH]; intros m dst s f i ok m' X; cbn [strncpy_loop] in X.
  - injection X as _ <-. apply shape_refl.
  - destruct (src_byte m s i) as [c| | |]; cbn [bind] in X; try discriminate. destruct (_ || _).
    + injection X as _ <-. apply shape_refl.
    + destruct (storen m _ [c]) as [m1| | |] eqn:Q; cbn [bind] in X; try discriminate. exact (shape_trans _ _ _ (storen_shape _ _ _ _ Q) (IH _ _ _ _ _ _ _ X)).
Qed.

(** ** Texts *)
Lemma small_int n : 0 <= n <= INT32_MAX -> to_int32 n = n.
Proof. intros H. unfold to_int32, two32, INT32_MAX in *. rewrite Z.mod_small by lia. destruct (n <=? 2147483647) eqn:Q; lia. Qed.
Lemma log_bytes_ok G m p : forall n i, 0 <= i -> object m p (i + Z.of_nat n) -> (forall o, po p <= o < po p + (i + Z.of_nat n) -> lg_may G (pb p) o = true) ->
  log_bytes G m p n i = Ret tt.
Proof.
  induction n as [|n IH]; intros i I O M; cbn [log_bytes]; [reflexivity|]. rewrite M by lia. rewrite load1_ok.
  - cbn [bind]. destruct (_ =? 0); [reflexivity|]. apply IH; [lia| |].
    + replace (i + 1 + Z.of_nat n) with (i + Z.of_nat (S n)) by lia. exact O.
    + intros o H. apply M. lia.
  - destruct O as (O1&O2&O3). unfold object. cbn [pb po]. lia.
Qed.
Lemma log_text_ok G m s n : may_log G m s n -> s <> SNull -> log_text G m s n = Ret tt.
Proof.
  intros (A&C) N. unfold log_text. cbv zeta. rewrite (small_int n A). destruct s as [|l|p]; [congruence| |].
  - replace (0 <=? n) with true by lia. replace (n <=? zlen l) with true by lia. reflexivity.
  - destruct C as (O&M). replace (n <? 0) with false by lia. apply log_bytes_ok; [lia| |]; replace (0 + Z.of_nat (Z.to_nat n)) with n by lia; auto.
Qed.

(** ** Building requests *)
Lemma bind_ext {A C} (x : res A) (f g : A -> res C) : (forall a, x = Ret a -> f a = g a) -> bind x f = bind x g.
Proof. destruct x; cbn [bind]; auto. Qed.
Lemma bind_ret {A} (x : res A) (f : A -> res A) : (forall a, x = Ret a -> f a = Ret a) -> bind x f = x.
Proof. destruct x; cbn [bind]; auto. Qed.
Lemma strncpy_log G m dst s n f : may_log G m s n -> httpHeaderStrncpy_l G m dst s n f = httpHeaderStrncpy m dst s n f.
Proof.
  intros M. unfold httpHeaderStrncpy_l, httpHeaderStrncpy. apply bind_ext. intros [] X. apply bind_ret. intros [ok m1] Y. destruct ok; [reflexivity|].
  rewrite log_text_ok; [reflexivity|exact (may_shape _ _ _ _ _ (strncpy_shape _ _ _ _ _ _ _ _ Y) M)|]. intros ->. cbn in X. discriminate.
Qed.
Lemma strncpy_keeps m dst s n f ok m' : httpHeaderStrncpy m dst s n f = Ret (ok, m') -> shape m m'.
Proof. unfold httpHeaderStrncpy. destruct (negb _); cbn [assert_at bind]; try discriminate. apply strncpy_shape. Qed.
Lemma addHeader_log G cfg m h f fl v vl : may_log G m f fl -> may_log G m v vl -> addHeader_l G cfg m h f fl v vl = addHeader cfg m h f fl v vl.
Proof.
  intros MF MV. unfold addHeader_l, addHeader. destruct (rh_buf h) as [buf|]; [|reflexivity].
  do 5 (apply bind_ext; intros ? _). apply bind_ext. intros [cur back] _. cbv zeta. destruct (_ <=? rh_bufLen h); [|reflexivity].
  rewrite (strncpy_log G m cur f fl true MF). apply bind_ext. intros [ok m1] H1. destruct ok; cbn [negb]; [|reflexivity].
  apply bind_ext. intros c1 _. apply bind_ext. intros m2 H2. apply bind_ext. intros c2 _. rewrite strncpy_log; [reflexivity|].
  exact (may_shape _ _ _ _ _ (shape_trans _ _ _ (strncpy_keeps _ _ _ _ _ _ _ H1) (memcpy_shape _ _ _ _ _ H2)) MV).
Qed.
Lemma addHeader_shape cfg m h f fl v vl st h' m' : addHeader cfg m h f fl v vl = Ret (st, h', m') -> shape m m'.
Proof.
  unfold addHeader. destruct (rh_buf h) as [buf|]; [|discriminate].
  repeat (match goal with |- bind ?x _ = _ -> _ => destruct x as [?| | |] eqn:?; cbn [bind]; [|discriminate|discriminate|discriminate] end).
  destruct a4 as [cur back]. cbv zeta. destruct (_ <=? rh_bufLen h).
  - destruct (httpHeaderStrncpy m cur f fl true) as [[ok m1]| | |] eqn:H1; cbn [bind]; try discriminate. apply strncpy_keeps in H1. destruct ok; cbn [negb].
    + destruct (padd m1 cur fl) as [c1| | |]; cbn [bind]; try discriminate. destruct (memcpy m1 c1 _ 2) as [m2| | |] eqn:H2; cbn [bind]; try discriminate. apply memcpy_shape in H2.
      destruct (padd m2 c1 2) as [c2| | |]; cbn [bind]; try discriminate. destruct (httpHeaderStrncpy m2 c2 v vl false) as [[ok2 m3]| | |] eqn:H3; cbn [bind]; try discriminate. apply strncpy_keeps in H3.
      destruct ok2; cbn [negb].
      * destruct (padd m3 c2 vl) as [c3| | |]; cbn [bind]; try discriminate. destruct (memcpy m3 c3 _ 4) as [m4| | |] eqn:H4; cbn [bind]; try discriminate. apply memcpy_shape in H4.
        intros X. injection X as _ _ <-. eauto using shape_trans.
      * intros X. injection X as _ _ <-. eauto using shape_trans.
    + intros X. injection X as _ _ <-. exact H1.
  - intros X. injection X as _ _ <-. apply shape_refl.
Qed.
Lemma requestLine_shape cfg m h me ml pa pl st h' m' : writeRequestLine cfg m h me ml pa pl = Ret (st, h', m') -> shape m m'.
Proof.
  unfold writeRequestLine. cbv zeta. destruct (rh_buf h) as [buf|]; [|discriminate].
  repeat (match goal with |- bind (assert_at ?x _) _ = _ -> _ => destruct x; cbn [assert_at bind]; [|discriminate] end).
  destruct (_ <? _). { intros X. injection X as _ _ <-. apply shape_refl. }
  destruct (memcpy m buf me ml) as [m1| | |] eqn:H1; cbn [bind]; try discriminate. apply memcpy_shape in H1.
  destruct (padd m1 buf ml) as [c1| | |]; cbn [bind]; try discriminate. destruct (storen m1 c1 _) as [m2| | |] eqn:H2; cbn [bind]; try discriminate. apply storen_shape in H2.
  destruct (padd m2 c1 1) as [c2| | |]; cbn [bind]; try discriminate.
  assert (Q : forall y, (if is_null pa || (pl =? 0) then m3 <- memcpy m2 c2 (SLit HTTP_EMPTY_PATH) (zlen HTTP_EMPTY_PATH) ;; c3 <- padd m3 c2 (zlen HTTP_EMPTY_PATH) ;; Ret (m3, c3)
             else m3 <- memcpy m2 c2 pa pl ;; c3 <- padd m3 c2 pl ;; Ret (m3, c3)) = Ret y -> shape m2 (fst y)).
  { intros y. destruct (_ || _).
    - destruct (memcpy m2 c2 _ _) as [m3| | |] eqn:H3; cbn [bind]; try discriminate. apply memcpy_shape in H3. destruct (padd m3 c2 _); cbn [bind]; try discriminate. intros X. injection X as <-. exact H3.
    - destruct (memcpy m2 c2 _ _) as [m3| | |] eqn:H3; cbn [bind]; try discriminate. apply memcpy_shape in H3. destruct (padd m3 c2 _); cbn [bind]; try discriminate. intros X. injection X as <-. exact H3. }
  match goal with |- bind ?x _ = _ -> _ => destruct x as [[m3 c3]| | |]; cbn [bind]; try discriminate end. specialize (Q _ eq_refl). cbn [fst] in Q.
  destruct (storen m3 c3 _) as [m4| | |] eqn:H4; cbn [bind]; try discriminate. apply storen_shape in H4. destruct (padd m4 c3 1) as [c4| | |]; cbn [bind]; try discriminate.
  destruct (memcpy m4 c4 _ _) as [m5| | |] eqn:H5; cbn [bind]; try discriminate. apply memcpy_shape in H5. destruct (padd m5 c4 _) as [c5| | |]; cbn [bind]; try discriminate.
  destruct (memcpy m5 c5 _ 2) as [m6| | |] eqn:H6; cbn [bind]; try discriminate. apply memcpy_shape in H6. intros X. injection X as _ _ <-. eauto 8 using shape_trans.
Qed.
Lemma lit_log G m s n : n = zlen s -> zlen s <= INT32_MAX -> may_log G m (SLit s) n.
Proof. intros -> H. pose proof (zlen_nonneg s). split; [lia|]. cbn. lia. Qed.
Lemma andThen_log x y f g : x = y -> (forall st h m, y = Ret (st, h, m) -> f h m = g h m) -> andThen x f = andThen y g.
Proof. intros -> H. unfold andThen. apply bind_ext. intros [[st h] m] E. destruct (is_success st); [apply (H st), E|reflexivity]. Qed.
Lemma andThen_shape m0 x f : (forall st h m, x = Ret (st, h, m) -> shape m0 m) -> (forall h m st' h' m', f h m = Ret (st', h', m') -> shape m m') ->
  forall st h m, andThen x f = Ret (st, h, m) -> shape m0 m.
Proof.
  intros H K st h m. unfold andThen. destruct x as [[[s1 h1] m1]| | |]; cbn [bind]; try discriminate. specialize (H _ _ _ eq_refl). destruct (is_success s1).
  - intros X. apply K in X. eauto using shape_trans.
  - intros X. injection X as _ _ <-. exact H.
Qed.

Lemma aset_len a i v a' : aset a i v = Ret a' -> zlen a' = zlen a /\ 0 <= i < zlen a.
Proof.
  unfold aset. destruct (0 <=? i) eqn:Q1; cbn [andb]; [|discriminate]. destruct (i <? zlen a) eqn:Q2; [|discriminate]. intros X. injection X as <-.
  split; [|lia]. apply splice_len; [lia|]. change (zlen [v]) with 1. lia.
Qed.
Lemma digits_len : forall fuel a base neg nd av a' n, conv_digits fuel a base neg nd av = Ret (a', n) -> zlen a' = zlen a /\ base + neg + n <= zlen a /\ nd <= n.
Proof.
  induction fuel as [|f IH]; intros a base neg nd av a' n X; cbn [conv_digits] in X; [discriminate|].
  destruct (aset a _ _) as [a1| | |] eqn:Q; cbn [bind] in X; try discriminate. apply aset_len in Q. destruct Q as (Q1&Q2). destruct (_ =? 0).
  - injection X as <- <-. lia.
  - apply IH in X. lia.
Qed.
Lemma reverse_len : forall n a base neg nd i a', conv_reverse n a base neg nd i = Ret a' -> zlen a' = zlen a.
Proof.
  induction n as [|n IH]; intros a base neg nd i a' X; cbn [conv_reverse] in X; [injection X as <-; reflexivity|].
  destruct (aget a _) as [t| | |]; cbn [bind] in X; try discriminate. destruct (aget a _) as [x| | |]; cbn [bind] in X; try discriminate.
  destruct (aset a _ _) as [a1| | |] eqn:Q1; cbn [bind] in X; try discriminate. destruct (aset a1 _ _) as [a2| | |] eqn:Q2; cbn [bind] in X; try discriminate.
  apply aset_len in Q1. apply aset_len in Q2. apply IH in X. lia.
Qed.
Lemma convert_len v a base a' k : convertInt32ToAscii v a base = Ret (a', k) -> zlen a' = zlen a /\ base + k <= zlen a /\ 0 <= k.
Proof.
  unfold convertInt32ToAscii. destruct (_ <=? zlen a - base); cbn [assert_at bind]; [|discriminate].
  assert (Q : forall y, (if v <? 0 then a1 <- aset a base DASH ;; (if v * -1 <=? INT32_MAX then Ret (a1, 1, v * -1) else Ub UbOverflow) else Ret (a, 0, v)) = Ret y ->
              zlen (fst (fst y)) = zlen a /\ 0 <= snd (fst y)).
  { intros y. destruct (v <? 0).
    - destruct (aset a base DASH) as [a1| | |] eqn:Q; cbn [bind]; try discriminate. apply aset_len in Q. destruct (_ <=? _); [|discriminate]. intros X. injection X as <-. cbn. lia.
    - intros X. injection X as <-. cbn. lia. }
  match goal with |- bind ?x _ = _ -> _ => destruct x as [[[a1 neg] av]| | |]; cbn [bind]; try discriminate end. specialize (Q _ eq_refl). cbn [fst snd] in Q.
  destruct (conv_digits 11 a1 base neg 0 av) as [[a2 nd]| | |] eqn:D; cbn [bind]; try discriminate. apply digits_len in D.
  destruct (conv_reverse _ a2 base neg nd 0) as [a3| | |] eqn:R; cbn [bind]; try discriminate. apply reverse_len in R. intros X. injection X as <- <-. lia.
Qed.
Lemma addRange_log G cfg m h a b : addRangeHeader_l G cfg m h a b = addRangeHeader cfg m h a b.
Proof.
  unfold addRangeHeader_l, addRangeHeader. cbv zeta. apply bind_ext. intros [a2 k] H1. apply convert_len in H1.
  set (a1 := splice _ _ _) in H1. assert (L1 : zlen a1 = 27 /\ zlen HTTP_RANGE_REQUEST_HEADER_VALUE_PREFIX = 6) by (vm_compute; auto). destruct L1 as (L1&L2).
  apply bind_ext. intros [a3 n3] H2. apply addHeader_log; [apply lit_log; [reflexivity|vm_compute; discriminate]|].
  enough (0 <= n3 <= 27 /\ zlen a3 = 27) by (split; [unfold INT32_MAX; lia|cbn; lia]).
  clearbody a1. set (pl := zlen HTTP_RANGE_REQUEST_HEADER_VALUE_PREFIX) in *. clearbody pl.
  destruct (negb (b =? HTTP_RANGE_REQUEST_END_OF_FILE)).
  - destruct (aset a2 _ _) as [b1| | |] eqn:Q; cbn [bind] in H2; try discriminate. apply aset_len in Q. destruct (convertInt32ToAscii b b1 _) as [[c k2]| | |] eqn:Q2; cbn [bind] in H2; try discriminate.
    apply convert_len in Q2. injection H2 as <- <-. lia.
  - destruct (0 <=? a).
    + destruct (aset a2 _ _) as [b1| | |] eqn:Q; cbn [bind] in H2; try discriminate. apply aset_len in Q. injection H2 as <- <-. lia.
    + injection H2 as <- <-. lia.
Qed.
Lemma AddRange_log G cfg m prh a b : AddRangeHeader_l G cfg m prh a b = AddRangeHeader cfg m prh a b.
Proof. unfold AddRangeHeader_l, AddRangeHeader. destruct prh as [h|]; [|reflexivity]. rewrite addRange_log. reflexivity. Qed.
Lemma AddHeader_log G cfg m prh f fl v vl : may_log G m f fl -> may_log G m v vl -> AddHeader_l G cfg m prh f fl v vl = AddHeader cfg m prh f fl v vl.
Proof. intros MF MV. unfold AddHeader_l, AddHeader. destruct prh as [h|]; [|reflexivity]. rewrite addHeader_log by assumption. reflexivity. Qed.
Lemma Init_log G cfg m prh pri : zlen (UA cfg) <= INT32_MAX -> (forall ri, pri = Some ri -> may_log G m (ri_host ri) (ri_hostLen ri)) ->
  InitializeRequestHeaders_l G cfg m prh pri = InitializeRequestHeaders cfg m prh pri.
Proof.
  intros U M. unfold InitializeRequestHeaders_l, InitializeRequestHeaders. destruct prh as [h|]; [|reflexivity]. destruct (rh_buf h); [|reflexivity]. destruct pri as [ri|]; [|reflexivity]. specialize (M ri eq_refl).
  repeat (match goal with |- (if ?b then _ else _) = _ => destruct b; [reflexivity|] end). f_equal.
  assert (SH : forall h m st h' m', (if Z.land HTTP_REQUEST_NO_USER_AGENT_FLAG (ri_flags ri) =? 0 then addHeader cfg m h (SLit HTTP_USER_AGENT_FIELD) (zlen HTTP_USER_AGENT_FIELD) (SLit (UA cfg)) (zlen (UA cfg))
              else Ret (HTTPSuccess, h, m)) = Ret (st, h', m') -> shape m m').
  { intros h1 m1 st h' m'. destruct (_ =? 0); [apply addHeader_shape|]. intros X. injection X as _ _ <-. apply shape_refl. }
  apply andThen_log; [apply andThen_log; [apply andThen_log; [reflexivity|]|]|].
  - intros st h1 m1 _. destruct (_ =? 0); [|reflexivity]. apply addHeader_log; apply lit_log; auto. vm_compute; discriminate.
  - intros st h1 m1 X. apply addHeader_log; [apply lit_log; [reflexivity|vm_compute; discriminate]|]. refine (may_shape _ _ _ _ _ _ M).
    refine (andThen_shape m _ _ _ SH _ _ _ X). intros. eapply requestLine_shape; eassumption.
  - intros st h1 m1 _. destruct (negb _); [|reflexivity]. apply addHeader_log; apply lit_log; try reflexivity; vm_compute; discriminate.
Qed.
Lemma contentLength_log G cfg m h n : addContentLengthHeader_l G cfg m h n = addContentLengthHeader cfg m h n.
Proof.
  unfold addContentLengthHeader_l, addContentLengthHeader. cbv zeta. apply bind_ext. intros [] _. apply bind_ext. intros [a1 k] H1. apply convert_len in H1.
  set (a0 := repeat _ _) in H1. assert (L : zlen a0 = 10) by (vm_compute; auto). apply addHeader_log; [apply lit_log; [reflexivity|vm_compute; discriminate]|].
  split; [unfold INT32_MAX; lia|cbn; lia].
Qed.
Lemma sendRequest_log G fuel cfg E tr tf prh body n fl w : sendHttpRequest_l G fuel cfg E tr tf prh body n fl w = sendHttpRequest fuel cfg E tr tf prh body n fl w.
Proof.
  unfold sendHttpRequest_l, sendHttpRequest, SendHttpHeaders_l, SendHttpHeaders. destruct tr as [t|]; [|reflexivity]. destruct prh as [h|]; [|reflexivity]. rewrite contentLength_log. reflexivity.
Qed.

(** ** Sending leaves objects where they are *)
Lemma get_time_mem E tf w t w' : get_time E tf w = Ret (t, w') -> w_mem w' = w_mem w.
Proof. unfold get_time. destruct tf; try discriminate; intros X; injection X as _ <-; reflexivity. Qed.
Lemma send_loop_mem E tf T : forall fuel p rem last w st w', send_loop fuel E tf T p rem last w = Ret (st, w') -> w_mem w' = w_mem w.
Proof.
  induction fuel as [|f IH]; intros p rem last w st w' X; cbn [send_loop] in X; [discriminate|]. cbv zeta in X. destruct (rem <=? 0). { injection X as _ <-. reflexivity. }
  destruct (loadn _ _ _) as [d| | |]; cbn [bind] in X; try discriminate. destruct (_ <? 0). { injection X as _ <-. reflexivity. } destruct (0 <? _).
  - destruct (_ <=? rem); cbn [assert_at bind] in X; [|discriminate]. destruct (get_time _ _ _) as [[t w2]| | |] eqn:G; cbn [bind] in X; try discriminate. apply get_time_mem in G.
    destruct (padd _ _ _) as [q| | |]; cbn [bind] in X; try discriminate. apply IH in X. rewrite X, G. reflexivity.
  - destruct (get_time _ _ _) as [[t w2]| | |] eqn:G; cbn [bind] in X; try discriminate. apply get_time_mem in G. destruct (_ <=? _).
    + injection X as _ <-. exact G.
    + apply IH in X. rewrite X, G. reflexivity.
Qed.
Lemma SendHttpData_mem fuel cfg E tr tf p n w st w' : SendHttpData fuel cfg E tr tf p n w = Ret (st, w') -> w_mem w' = w_mem w.
Proof.
  unfold SendHttpData. destruct tr as [t|]; [|discriminate]. destruct (t_send t); cbn [assert_at bind]; [|discriminate]. destruct p as [p|]; [|discriminate]. cbv zeta.
  destruct (get_time _ _ _) as [[t0 w1]| | |] eqn:G; cbn [bind]; try discriminate. apply get_time_mem in G. intros X. apply send_loop_mem in X. congruence.
Qed.
Lemma sendRequest_shape fuel cfg E tr tf prh body n fl w st p' w' : sendHttpRequest fuel cfg E tr tf prh body n fl w = Ret (st, p', w') -> shape (w_mem w) (w_mem w').
Proof.
  unfold sendHttpRequest. repeat (match goal with |- bind (assert_at ?x _) _ = _ -> _ => destruct x; cbn [assert_at bind]; [|discriminate] end).
  destruct (SendHttpHeaders _ _ _ _ _ _ _ _ _) as [[[s1 h1] w1]| | |] eqn:H; cbn [bind]; try discriminate.
  assert (S : shape (w_mem w) (w_mem w1)).
  { revert H. unfold SendHttpHeaders. destruct tr as [t|]; [|discriminate]. destruct (t_send t); cbn [assert_at bind]; [|discriminate]. destruct prh as [h|]; [|discriminate].
    destruct (if _ && _ then _ else _) as [[[s0 h0] m0]| | |] eqn:H; cbn [bind]; try discriminate.
    assert (Q : shape (w_mem w) m0).
    { destruct (_ && _); [|injection H as _ _ <-; apply shape_refl]. revert H. unfold addContentLengthHeader. cbv zeta. destruct (0 <? n); cbn [assert_at bind]; [|discriminate].
      destruct (convertInt32ToAscii _ _ _) as [[a k]| | |]; cbn [bind]; try discriminate. apply addHeader_shape. }
    destruct (is_success s0).
    - destruct (SendHttpData _ _ _ _ _ _ _ _) as [[s2 w2]| | |] eqn:D; cbn [bind]; try discriminate. apply SendHttpData_mem in D. intros X. injection X as _ _ <-. rewrite D. exact Q.
    - intros X. injection X as _ _ <-. exact Q. }
  destruct (is_success s1); [|intros X; injection X as _ _ <-; exact S]. destruct body as [b|]; [|intros X; injection X as _ _ <-; exact S].
  unfold sendHttpBody. destruct tr as [t|]; [|discriminate]. destruct (t_send t); cbn [assert_at bind]; [|discriminate].
  destruct (SendHttpData _ _ _ _ _ _ _ _) as [[s2 w2]| | |] eqn:D; cbn [bind]; try discriminate. apply SendHttpData_mem in D. intros X. injection X as _ _ <-. rewrite D. exact S.
Qed.

(** ** Receiving *)
Section Receive.
Context (G : logging) (cfg : config) (buf : ptr) (L : Z).
Hypothesis SZ0 : 0 < SZ cfg.
Hypothesis LI : 0 <= L <= INT32_MAX.
Hypothesis MAY : forall o, po buf <= o < po buf + L -> lg_may G (pb buf) o = true.

Lemma buf_text m o n : object m buf L -> 0 <= o -> 0 <= n -> o + n <= L -> log_text G m (SAt (poff buf o)) n = Ret tt.
Proof.
  intros O P Q R. apply log_text_ok; [|discriminate]. split; [lia|]. split.
  - destruct O as (O1&O2&O3). unfold object, poff. cbn [pb po]. lia.
  - unfold poff; cbn [pb po]. intros x X. apply MAY. lia.
Qed.
(** What the context remembers of a header lies before position [hi] of the buffer. *)
Definition before (hi : Z) (p : option ptr) (n : Z) : Prop := forall q, p = Some q -> exists o, q = poff buf o /\ 0 <= o /\ 0 <= n /\ o + n <= hi.
Record J (hi : Z) (s : cbst) : Prop := mkJ {
  j_buf : r_buf (s_resp s) = Some buf;  j_len : r_bufLen (s_resp s) = L;
  j_obj : object (w_mem (s_w s)) buf L;
  j_f : before hi (c_lf (s_ctx s)) (c_lfl (s_ctx s));  j_v : before hi (c_lv (s_ctx s)) (c_lvl (s_ctx s)) }.
Lemma before_none hi n : before hi None n. Proof. intros q X. discriminate. Qed.
Lemma before_some hi o n : 0 <= o -> 0 <= n -> o + n <= hi -> before hi (Some (poff buf o)) n.
Proof. intros. intros q X. injection X as <-. eauto. Qed.
Lemma before_le hi hi' p n : hi <= hi' -> before hi p n -> before hi' p n.
Proof. intros H B q X. destruct (B q X) as (o&?&?&?&?). exists o. repeat split; auto; lia. Qed.
Lemma J_le hi hi' s : hi <= hi' -> J hi s -> J hi' s.
Proof. intros H []. constructor; eauto using before_le. Qed.

Lemma pch_log hi s : hi <= L -> J hi s -> processCompleteHeader_l G cfg s = processCompleteHeader cfg s /\
  forall s', processCompleteHeader cfg s = Ret s' -> J hi s' /\ w_mem (s_w s') = w_mem (s_w s).
Proof.
  intros HL j. destruct j. unfold processCompleteHeader_l, processCompleteHeader. cbv zeta. destruct (c_resp (s_ctx s)); cbn [assert_at bind]; [|split; [reflexivity|discriminate]].
  destruct (c_lf (s_ctx s)) as [f|] eqn:EF. 2: { split; [reflexivity|]. intros s' X. injection X as <-. split; [|reflexivity]. constructor; auto. rewrite EF. apply before_none. }
  destruct (c_lv (s_ctx s)) as [v|] eqn:EV. 2: { split; [reflexivity|]. intros s' X. injection X as <-. split; [|reflexivity]. constructor; auto; [rewrite EF; auto|rewrite EV; apply before_none]. }
  destruct (j_f0 f eq_refl) as (fo&->&F1&F2&F3). destruct (j_v0 v eq_refl) as (vo&->&V1&V2&V3).
  destruct (_ <? SZ cfg - 1); cbn [assert_at bind]; [|split; [reflexivity|discriminate]].
  rewrite !buf_text by (auto; lia). cbn [bind]. split; [reflexivity|]. intros s' X. destruct (r_cb (s_resp s)).
  - destruct (loadn _ _ _) as [a| | |]; cbn [bind] in X; try discriminate. destruct (loadn _ _ _) as [b| | |]; cbn [bind] in X; try discriminate. injection X as <-. split; [|reflexivity].
    constructor; cbn; auto using before_none.
  - injection X as <-. split; [|reflexivity]. constructor; cbn; auto using before_none.
Qed.

Lemma callback_log s0 pos N ev s : 0 <= s0 -> 0 <= pos -> s0 + N <= L -> ev_ok pos N ev -> J (s0 + pos) s -> pos <= N ->
  callback_l G cfg (poff buf s0) ev s = callback cfg (poff buf s0) ev s /\
  forall r s', callback cfg (poff buf s0) ev s = Ret (r, s') -> J (s0 + ev_end pos ev) s' /\ pos <= ev_end pos ev /\ (ev_end pos ev <= N).
Proof.
  intros S0 P0 SN OK j PN. assert (AT : forall off, mkptr (pb (poff buf s0)) (po (poff buf s0) + off) = poff buf (s0 + off)) by (intros; unfold poff; cbn [pb po]; f_equal; lia).
  unfold callback_l, callback. cbv zeta. destruct ev as [|off len code|code|off len|off len|p clen cl ka|off len|]; cbn [ev_ok ev_end] in *; rewrite ?AT.
  - split; [reflexivity|]. intros r s' X. cbn in X. injection X as _ <-. split; [|lia]. destruct j. constructor; cbn; auto.
  - unfold onStatus_l, onStatus. destruct (c_resp _); cbn [assert_at bind]; [|split; [reflexivity|discriminate]]. destruct (padd _ _ _) as [q| | |]; cbn [bind]; try (split; [reflexivity|discriminate]).
    rewrite buf_text by (try apply j; lia). cbn [bind]. split; [reflexivity|]. intros r s' X. injection X as _ <-. split; [|lia]. destruct j. constructor; cbn; auto using before_none.
  - split; [reflexivity|]. intros r s' X. unfold onStatusComplete in X. destruct (c_resp _); cbn [assert_at bind] in X; [|discriminate]. injection X as _ <-. split; [|lia]. destruct j. constructor; cbn; auto using before_none.
  - unfold onHeaderField_l, onHeaderField. destruct (c_resp _); cbn [assert_at bind]; [|split; [reflexivity|discriminate]]. cbv zeta. destruct (padd _ _ _) as [q| | |]; cbn [bind]; try (split; [reflexivity|discriminate]).
    match goal with |- context [processCompleteHeader cfg ?x] => set (s1 := x) end.
    assert (J1 : J (s0 + pos) s1). { destruct j. constructor; unfold s1; cbn; auto; destruct (r_headers (s_resp s)); cbn; auto. }
    destruct (pch_log (s0 + pos) s1 ltac:(lia) J1) as (E1&E2). rewrite E1. destruct (processCompleteHeader cfg s1) as [s2| | |]; cbn [bind]; try (split; [reflexivity|discriminate]).
    destruct (E2 _ eq_refl) as (J2&_). destruct (c_lf (s_ctx s2)) as [f|] eqn:EF.
    + destruct (_ <=? _); cbn [assert_at bind]; [|split; [reflexivity|discriminate]]. rewrite buf_text by (try apply J2; lia). cbn [bind]. split; [reflexivity|]. intros r s' X. injection X as _ <-. split; [|lia].
      destruct J2. destruct (j_f0 f EF) as (fo&->&F1&F2&F3). constructor; cbn; auto.
      * pose proof (Z.mod_le (c_lfl (s_ctx s2) + len) (SZ cfg) ltac:(lia) SZ0). pose proof (Z.mod_pos_bound (c_lfl (s_ctx s2) + len) (SZ cfg) SZ0). apply before_some; lia.
      * eapply before_le; [|eassumption]. lia.
    + rewrite buf_text by (try apply J2; lia). cbn [bind]. split; [reflexivity|]. intros r s' X. injection X as _ <-. split; [|lia].
      destruct J2. constructor; cbn; auto. * apply before_some; lia. * eapply before_le; [|eassumption]. lia.
  - unfold onHeaderValue_l, onHeaderValue. cbv zeta. destruct (padd _ _ _) as [q| | |]; cbn [bind]; try (split; [reflexivity|discriminate]). rewrite buf_text by (try apply j; lia).
    destruct (match c_lf _ with None => false | _ => true end); cbn [assert_at bind]; [|split; [reflexivity|discriminate]]. split; [reflexivity|]. intros r s' X. injection X as _ <-. split; [|lia].
    destruct j. constructor; cbn; auto.
    + destruct (c_lv (s_ctx s)); cbn; (eapply before_le; [|eassumption]); lia.
    + destruct (c_lv (s_ctx s)) as [v|] eqn:EV; cbn.
      * destruct (j_v0 v eq_refl) as (vo&->&F1&F2&F3). pose proof (Z.mod_le (c_lvl (s_ctx s) + len) (SZ cfg) ltac:(lia) SZ0). pose proof (Z.mod_pos_bound (c_lvl (s_ctx s) + len) (SZ cfg) SZ0). apply before_some; lia.
      * apply before_some; lia.
  - unfold onHeadersComplete_l, onHeadersComplete. cbv zeta. destruct (c_resp _); cbn [assert_at bind]; [|split; [reflexivity|discriminate]].
    destruct (c_cur (s_ctx s)) as [cur|]; [|split; [reflexivity|discriminate]]. destruct (r_buf (s_resp s)) as [bb|] eqn:EB; [|split; [reflexivity|discriminate]].
    destruct (psub _ _) as [d| | |]; cbn [bind]; try (split; [reflexivity|discriminate]). destruct (0 <=? d); cbn [assert_at bind]; [|split; [reflexivity|discriminate]].
    destruct (padd _ _ _) as [e| | |]; cbn [bind]; try (split; [reflexivity|discriminate]). destruct (psub _ _) as [d2| | |]; cbn [bind]; try (split; [reflexivity|discriminate]).
    destruct (d2 <? 0); cbn [assert_at bind]; [|split; [reflexivity|discriminate]].
    match goal with |- bind ?x _ = _ /\ _ => assert (R2 : forall r2, x = Ret r2 -> r_buf r2 = Some bb /\ r_bufLen r2 = r_bufLen (s_resp s)); [|destruct x as [r2| | |]; cbn [bind]; try (split; [reflexivity|discriminate])] end.
    { intros r2. destruct (r_headers _) as [h|].
      - destruct (psub _ _) as [d3| | |]; cbn [bind]; try discriminate. destruct (0 <? d3); cbn [assert_at bind]; [|discriminate]. intros X. injection X as <-. auto.
      - intros X. injection X as <-. auto. }
    destruct (R2 _ eq_refl) as (RB&RL). match goal with |- context [processCompleteHeader cfg ?x] => set (s1 := x) end.
    assert (J1 : J (s0 + pos) s1). { destruct j. constructor; unfold s1; cbn; auto; destruct cl; destruct ka; cbn; congruence. }
    destruct (pch_log (s0 + pos) s1 ltac:(lia) J1) as (E1&E2). rewrite E1. split; [reflexivity|]. intros r s' X.
    destruct (processCompleteHeader cfg s1) as [s2| | |]; cbn [bind] in X; try discriminate. destruct (E2 _ eq_refl) as (J2&_). injection X as _ <-. split; [|lia]. eapply J_le; [|exact J2]. lia.
  - split; [reflexivity|]. intros r s' X. unfold onBody in X. cbv zeta in X. destruct (c_resp _); cbn [assert_at bind] in X; [|discriminate]. destruct (r_buf (s_resp s)) as [bb|] eqn:EB; [|discriminate].
    destruct (psub _ _) as [d| | |]; cbn [bind] in X; try discriminate. destruct (0 <=? d); cbn [assert_at bind] in X; [|discriminate]. destruct (padd _ _ _) as [e| | |]; cbn [bind] in X; try discriminate.
    destruct (psub _ _) as [d2| | |]; cbn [bind] in X; try discriminate. destruct (d2 <? 0); cbn [assert_at bind] in X; [|discriminate].
    destruct (match r_body (s_resp s) with None => _ | _ => _ end) as [body bl]. destruct (padd _ _ _) as [nx| | |]; cbn [bind] in X; try discriminate. destruct (psub _ _) as [gp| | |]; cbn [bind] in X; try discriminate.
    destruct (if 0 <? gp then _ else _) as [m1| | |] eqn:M; cbn [bind] in X; try discriminate. destruct (padd _ _ _) as [q| | |]; cbn [bind] in X; try discriminate. injection X as _ <-. split; [|lia].
    assert (SH : shape (w_mem (s_w s)) m1). { destruct (0 <? gp); [|injection M as <-; apply shape_refl]. unfold memmove in M. destruct (loadn _ _ _); cbn [bind] in M; try discriminate. eapply storen_shape, M. }
    destruct j. constructor; cbn; auto; [exact (object_shape _ _ _ _ SH j_obj0)| |]; (eapply before_le; [|eassumption]); lia.
  - split; [reflexivity|]. intros r s' X. cbn in X. injection X as _ <-. split; [|lia]. destruct j. constructor; cbn; auto.
Qed.

Lemma run_tree_log {S} (R : S -> phase -> Prop) (i0 : S) s0 N t : 0 <= s0 -> s0 + N <= L -> forall ph pos s, 0 <= pos <= N -> conforms R N ph pos t -> J (s0 + pos) s ->
  run_tree_l G cfg (poff buf s0) i0 t s = run_tree cfg (poff buf s0) i0 t s /\
  forall e ep i1 s', run_tree cfg (poff buf s0) i0 t s = Ret (e, ep, i1, s') -> J (s0 + N) s' /\ (goes_on e = true -> exists ph', R i1 ph').
Proof.
  intros S0 SN. induction t as [e0 sd|ev k IH]; intros ph pos s PN CF j; cbn [run_tree_l run_tree conforms] in *.
  - split; [reflexivity|]. intros e ep i1 s' X. injection X as <- _ <- <-. split; [eapply J_le; [|exact j]; lia|]. intros Q. exists ph. apply CF, Q.
  - destruct CF as (C1&C2). set (s1 := mkst (s_ctx s) (s_resp s) (log (s_w s) (TEvent ev))).
    assert (J1 : J (s0 + pos) s1) by (destruct j; constructor; auto).
    destruct (callback_log s0 pos N ev s1 S0 ltac:(lia) SN C1 J1 ltac:(lia)) as (E1&E2). rewrite E1. destruct (callback cfg (poff buf s0) ev s1) as [[r s2]| | |]; cbn [bind]; try (split; [reflexivity|discriminate]).
    destruct (E2 _ _ eq_refl) as (J2&B1&B2). cbv zeta. set (s3 := mkst (s_ctx s2) (s_resp s2) (log (s_w s2) (TReply r))).
    assert (J3 : J (s0 + ev_end pos ev) s3) by (destruct J2; constructor; auto).
    destruct r.
    + destruct (C2 CbContinue (or_introl eq_refl)) as (ph'&_&CF'). apply (IH CbContinue ph' (ev_end pos ev) s3 ltac:(lia) CF' J3).
    + destruct (C2 CbNoBody (or_intror eq_refl)) as (ph'&_&CF'). apply (IH CbNoBody ph' (ev_end pos ev) s3 ltac:(lia) CF' J3).
    + split; [reflexivity|]. intros e ep i1 s' X. injection X as <- _ _ <-. split; [eapply J_le; [|exact J3]; lia|discriminate].
    + split; [reflexivity|]. intros e ep i1 s' X. injection X as <- _ _ <-. split; [eapply J_le; [|exact J3]; lia|discriminate].
Qed.

Context (P : parser) (R : PS P -> phase -> Prop).
Hypothesis CONF : forall s ph d, R s ph -> conforms R (zlen d) ph 0 (p_exec P s d).
Hypothesis REASONS : has_reasons G.

Definition at_total (total : Z) (s : cbst) : Prop := if c_resp (s_ctx s) then c_cur (s_ctx s) = Some (poff buf total) else total = 0.
Lemma parse_log ps ph s total n : R ps ph -> 0 <= total -> 0 <= n -> total + n <= L -> J total s -> at_total total s ->
  parseHttpResponse_l G cfg P ps s n = parseHttpResponse cfg P ps s n /\
  forall st ps' s', parseHttpResponse cfg P ps s n = Ret (st, ps', s') -> J (total + n) s' /\
    (is_success st = true -> at_total (total + n) s' /\ exists ph', R ps' ph').
Proof.
  intros RP T0 N0 TN j AT. unfold parseHttpResponse_l, parseHttpResponse. cbv zeta.
  match goal with |- context [match c_cur (s_ctx ?x) with _ => _ end] => set (s1 := x) end.
  assert (Q : J total s1 /\ c_cur (s_ctx s1) = Some (poff buf total) /\ c_resp (s_ctx s1) = true).
  { unfold s1. unfold at_total in AT. destruct (c_resp (s_ctx s)) eqn:CR; [auto|]. subst total. destruct j. split; [constructor; cbn; auto|]. split; [|reflexivity]. cbn. rewrite j_buf0. f_equal. destruct buf. unfold poff. cbn. f_equal. lia. }
  destruct Q as (J1&C1&CR). rewrite C1. destruct (loadn _ _ _) as [d| | |] eqn:D; cbn [bind]; try (split; [reflexivity|discriminate]).
  assert (ZD : zlen d = n). { unfold loadn in D. destruct (in_range _ _ n) eqn:IR; [|discriminate]. injection D as <-. apply in_range_iff in IR. apply (bytes_at_len _ _ _ IR). }
  match goal with |- context [run_tree cfg _ ps _ ?x] => set (s2 := x) end.
  assert (J2 : J (total + 0) s2). { rewrite Z.add_0_r. destruct J1; constructor; auto. }
  pose proof (CONF ps ph d RP) as CF. rewrite ZD in CF.
  destruct (run_tree_log R ps total n (p_exec P ps d) T0 TN ph 0 s2 ltac:(lia) CF J2) as (E1&E2). rewrite E1.
  destruct (run_tree cfg (poff buf total) ps (p_exec P ps d) s2) as [[[[e ep] ps'] s3]| | |] eqn:RT; cbn [bind]; try (split; [reflexivity|discriminate]).
  destruct (E2 _ _ _ _ eq_refl) as (J3&RR). split.
  - apply bind_ext. intros cur _. unfold log_reason. rewrite REASONS. reflexivity.
  - intros st ps2 s' X. destruct (match e with HPE_PAUSED => _ | _ => _ end) as [cur| | |] eqn:CU; cbn [bind] in X; try discriminate. injection X as <- <- <-.
    split; [destruct J3; constructor; auto|]. intros IS. assert (GO : goes_on e = true) by (destruct e; auto; discriminate IS). split; [|exact (RR GO)].
    unfold at_total. cbn [s_ctx set_cur c_resp c_cur].
    assert (KR : c_resp (s_ctx s3) = true) by (eapply run_tree_resp; [|exact RT]; exact CR).
    rewrite KR. destruct e; try discriminate GO; unfold padd in CU; destruct (_ && _); try discriminate CU; injection CU as <-; f_equal; unfold poff; cbn [pb po]; f_equal; lia.
Qed.

Context (E : env).
Hypothesis LS : L < SZ cfg.
Hypothesis RC : recv_contract E.
Lemma recv_loop_log T : forall fuel total last ps ph s, R ps ph -> 0 <= total < L -> J total s -> at_total total s ->
  recv_loop_l G fuel cfg E P T total last ps s = recv_loop fuel cfg E P T total last ps s.
Proof.
  induction fuel as [|f IH]; intros total last ps ph s RP TL j AT; [reflexivity|]. cbn [recv_loop_l recv_loop]. cbv zeta. destruct (r_buf (s_resp s)) as [bb|] eqn:EB; [|reflexivity].
  assert (EL : (r_bufLen (s_resp s) - total) mod SZ cfg = L - total) by (rewrite (j_len _ _ j); apply Z.mod_small; lia).
  apply bind_ext. intros dst _. rewrite EL. destruct (e_recv E (w_nr (s_w s)) (L - total)) as [n d] eqn:ER. pose proof (RC (w_nr (s_w s)) (L - total) ltac:(lia)) as (RN&_). rewrite ER in RN. cbn [fst] in RN.
  apply bind_ext. intros m1 SM. apply storen_shape in SM. destruct (n <? 0) eqn:N0; [reflexivity|]. apply bind_ext. intros [t w2] GT. apply get_time_mem in GT. cbn [s_w w_after_recv w_mem] in GT.
  assert (J2 : J total (mkst (s_ctx s) (s_resp s) w2)). { destruct j. constructor; cbn; auto. rewrite GT. exact (object_shape _ _ _ _ SM j_obj0). }
  assert (A2 : at_total total (mkst (s_ctx s) (s_resp s) w2)) by exact AT.
  cbn [s_ctx s_resp s_w]. destruct (0 <? n) eqn:N1.
  - destruct (parse_log ps ph _ total n RP ltac:(lia) ltac:(lia) ltac:(lia) J2 A2) as (E1&E2). rewrite E1. apply bind_ext. intros [[st ps'] s3] H3. destruct (E2 _ _ _ H3) as (J3&K3).
    replace ((total + n) mod SZ cfg) with (total + n) by (symmetry; apply Z.mod_small; lia). rewrite (j_len _ _ J3). destruct (is_success st) eqn:IS; cbn [andb]; [|reflexivity].
    destruct (K3 eq_refl) as (A3&ph'&R3). destruct (_ && _) eqn:GO; [|reflexivity]. apply andb_prop in GO. destruct GO as (_&GO). apply (IH (total + n) t ps' ph' s3 R3 ltac:(lia) J3 A3).
  - destruct (T <=? _).
    + destruct (parse_log ps ph _ total 0 RP ltac:(lia) ltac:(lia) ltac:(lia) J2 A2) as (E1&_). rewrite E1. reflexivity.
    + destruct (_ && _); [|reflexivity]. apply (IH total last ps ph _ RP TL J2 A2).
Qed.
Lemma Receive_log fuel tr r prh w : R (p_init P) PhIdle -> 0 < L -> r_buf r = Some buf -> r_bufLen r = L -> object (w_mem w) buf L ->
  ReceiveAndParseHttpResponse_l G fuel cfg E P tr (Some r) prh w = ReceiveAndParseHttpResponse fuel cfg E P tr (Some r) prh w.
Proof.
  intros R0 L0 RB RL O. unfold ReceiveAndParseHttpResponse_l, ReceiveAndParseHttpResponse. destruct tr as [t|]; [|reflexivity]. apply bind_ext. intros [] _. destruct prh as [h|]; [|reflexivity].
  apply bind_ext. intros c HC. cbv zeta. apply bind_ext. intros [t0 w1] GT. apply get_time_mem in GT.
  assert (CC : c_resp c = false /\ c_lf c = None /\ c_lv c = None).
  { revert HC. unfold initializeParsingContextForFirstResponse. destruct (_ <=? rh_len h); cbn [assert_at bind]; [|discriminate]. destruct (rh_buf h); [|discriminate]. destruct (strncmp_eq _ _ _); cbn [bind]; try discriminate.
    intros X. injection X as <-. auto. }
  destruct CC as (C1&C2&C3). rewrite (recv_loop_log _ fuel 0 t0 (p_init P) PhIdle (mkst c r w1) R0 ltac:(lia)); [reflexivity| |].
  - constructor; cbn [s_resp s_ctx s_w]; auto; [rewrite GT; exact O|rewrite C2; apply before_none|rewrite C3; apply before_none].
  - unfold at_total. cbn [s_ctx]. rewrite C1. reflexivity.
Qed.
End Receive.

Lemma Send_log G fuel cfg E P tr prh body n r buf L fl w : 0 < L <= INT32_MAX -> L < SZ cfg -> (forall o, po buf <= o < po buf + L -> lg_may G (pb buf) o = true) -> has_reasons G ->
  parser_ok P -> recv_contract E -> r_buf r = Some buf -> r_bufLen r = L -> object (w_mem w) buf L ->
  Send_l G fuel cfg E P tr prh body n (Some r) fl w = Send fuel cfg E P tr prh body n (Some r) fl w.
Proof.
  intros LI LS MAY RE (R&R0&CF) RC RB RL O. unfold Send_l, Send. cbv zeta. destruct tr as [t|]; [|reflexivity]. destruct (negb (t_send t)); [reflexivity|]. destruct (negb (t_recv t)); [reflexivity|].
  destruct prh as [h|]; [|reflexivity]. repeat (match goal with |- (if ?b then _ else _) = _ => destruct b; [reflexivity|] end). rewrite sendRequest_log. apply bind_ext. intros [[st h1] w1] HS. apply sendRequest_shape in HS.
  destruct (is_success st); [|reflexivity].
  rewrite (Receive_log G cfg buf L ltac:(lia) ltac:(lia) MAY P R CF RE E LS RC); try reflexivity; auto; try lia; [destruct (r_time r); auto|destruct (r_time r); auto|exact (object_shape _ _ _ _ HS O)].
Qed.

(** ** HTTPClient_ReadHeader *)
Section Read.
Context (G : logging) (m : mem) (buf : ptr) (L : Z) (field : src) (fl : Z).
Hypothesis OBJ : object m buf L.
Hypothesis LI : L <= INT32_MAX.
Hypothesis MAY : forall o, po buf <= o < po buf + L -> lg_may G (pb buf) o = true.
Hypothesis MF : may_log G m field fl.
Hypothesis NF : field <> SNull.
Definition found_in (x : fctx) : Prop := f_field x = field /\ f_fieldLen x = fl /\
  (f_fieldFound x = true -> f_valueFound x = true -> match f_out x with Some (Some p, n) => may_log G m (SAt p) n | Some (None, n) => n = 0 | None => False end).
Lemma find_callback_log pos ev x : 0 <= pos -> ev_ok pos L ev -> found_in x ->
  find_callback_l G m buf ev x = find_callback m buf ev x /\ forall r x', find_callback m buf ev x = Ret (r, x') -> found_in x' /\ (r = CbContinue \/ r = CbNoBody \/ r = CbStop).
Proof.
  intros P0 OK (F1&F2&F3). unfold find_callback_l, find_callback. cbv zeta. destruct ev as [|off len code|code|off len|off len|p clen cl ka|off len|]; cbn [ev_ok] in OK.
  1-3,7-8: split; [reflexivity|]; intros r x' X; injection X as <- <-; split; [split; auto|auto].
  - unfold findHeaderField_l, findHeaderField. do 5 (match goal with |- bind (assert_at ?b _) _ = _ /\ _ => destruct b eqn:?; cbn [assert_at bind]; [|split; [reflexivity|discriminate]] end).
    destruct (if len =? f_fieldLen x then _ else _) as [eq| | |] eqn:EQ; cbn [bind]; try (split; [reflexivity|discriminate]). split.
    + destruct eq; [|reflexivity]. destruct (len =? f_fieldLen x) eqn:LE; [|discriminate]. replace len with fl by lia. rewrite F1, log_text_ok by auto. reflexivity.
    + intros r x' X. injection X as <- <-. split; [|auto]. destruct eq; [|split; auto]. unfold found_in. cbn. split; [auto|]. split; [auto|]. intros _ Q. destruct (f_valueFound x); [discriminate|discriminate Q].
  - unfold findHeaderValue_l, findHeaderValue. do 3 (match goal with |- bind (assert_at ?b _) _ = _ /\ _ => destruct b eqn:?; cbn [assert_at bind]; [|split; [reflexivity|discriminate]] end).
    destruct (f_fieldFound x) eqn:FF.
    + rewrite F1, F2, log_text_ok by auto. cbn [bind]. split; [reflexivity|]. intros r x' X. injection X as <- <-. split; [|auto]. unfold found_in. cbn. split; [auto|]. split; [auto|]. intros _ _.
      destruct (0 <? len) eqn:LN; [|reflexivity]. split; [lia|]. destruct OBJ as (O1&O2&O3). split; [unfold object; cbn [pb po]; lia|]. cbn [pb po]. intros o H. apply MAY. lia.
    + split; [reflexivity|]. intros r x' X. injection X as <- <-. split; [|auto]. split; [auto|]. split; [auto|]. rewrite FF. discriminate.
  - rewrite F1, F2, log_text_ok by auto. cbn [bind]. split; [reflexivity|]. intros r x' X. injection X as <- <-. split; [split; auto|auto].
Qed.
Lemma find_tree_log {S} (R : S -> phase -> Prop) (t : ptree S) : forall ph pos x, 0 <= pos <= L -> conforms R L ph pos t -> found_in x ->
  find_tree_l G m buf t x = find_tree m buf t x /\ forall e x', find_tree m buf t x = Ret (e, x') -> found_in x'.
Proof.
  induction t as [e0 sd|ev k IH]; intros ph pos x PN CF FI; cbn [find_tree_l find_tree conforms] in *.
  - split; [reflexivity|]. intros e x' X. injection X as _ <-. exact FI.
  - destruct CF as (C1&C2). destruct (find_callback_log pos ev x ltac:(lia) C1 FI) as (E1&E2). rewrite E1. destruct (find_callback m buf ev x) as [[r x1]| | |]; cbn [bind]; try (split; [reflexivity|discriminate]).
    destruct (E2 _ _ eq_refl) as (F1&RR).
    assert (EE : 0 <= ev_end pos ev <= L) by (destruct ev; cbn [ev_ok ev_end] in *; lia).
    destruct RR as [RR|[RR|RR]]; subst r.
    + destruct (C2 CbContinue (or_introl eq_refl)) as (ph'&_&CF'). apply (IH CbContinue ph' _ _ EE CF' F1).
    + destruct (C2 CbNoBody (or_intror eq_refl)) as (ph'&_&CF'). apply (IH CbNoBody ph' _ _ EE CF' F1).
    + split; [reflexivity|]. intros e x' X. injection X as _ <-. exact F1.
Qed.
Lemma find_log P : has_reasons G -> parser_ok P -> (forall st, findHeaderInResponse P m buf L field fl <> Ret (st, Some (None, 0))) ->
  findHeaderInResponse_l G P m buf L field fl = findHeaderInResponse P m buf L field fl.
Proof.
  intros RE (R&R0&CF) NE. unfold findHeaderInResponse_l, findHeaderInResponse in *. rewrite (loadn_ok _ _ _ OBJ) in *. cbn [bind] in *.
  pose proof (CF _ _ (bytes_at m buf L) R0) as C. rewrite (bytes_at_len _ _ _ OBJ) in C.
  assert (L0 : 0 <= L) by apply OBJ.
  destruct (find_tree_log R (p_exec P (p_init P) (bytes_at m buf L)) PhIdle 0 (mkfctx field fl false false None) ltac:(lia) C) as (E1&E2).
  { split; [auto|]. split; [auto|]. discriminate. }
  rewrite E1. destruct (find_tree _ _ _ _) as [[e x]| | |]; cbn [bind] in *; try reflexivity. specialize (E2 _ _ eq_refl). destruct E2 as (F1&F2&F3).
  assert (LR : forall e, log_reason G e = Ret tt) by (intros; unfold log_reason; rewrite RE; reflexivity).
  destruct (f_fieldFound x) eqn:FF; cbn [negb bind] in *.
  - destruct (f_valueFound x) eqn:FV; cbn [negb bind] in *.
    + specialize (F3 eq_refl eq_refl). rewrite log_text_ok by auto. cbn [bind]. destruct (f_out x) as [[[p|] n]|] eqn:FO; [|subst n; exfalso; destruct e; eapply NE; reflexivity|contradiction].
      rewrite log_text_ok by (auto; discriminate). cbn [bind]. destruct e; rewrite ?LR; reflexivity.
    + rewrite log_text_ok by auto. cbn [bind]. rewrite LR. reflexivity.
  - destruct (negb (f_valueFound x)); cbn [assert_at bind]; [|reflexivity]. rewrite log_text_ok by auto. cbn [bind]. destruct e; rewrite ?LR; reflexivity.
Qed.
(** A search that succeeds, or that finds no such header, prints no reason. *)
Lemma find_log_ok P st o : parser_ok P -> findHeaderInResponse P m buf L field fl = Ret (st, o) -> st = HTTPSuccess \/ st = HTTPHeaderNotFound -> o <> Some (None, 0) ->
  findHeaderInResponse_l G P m buf L field fl = Ret (st, o).
Proof.
  intros (R&R0&CF) X ST NE. unfold findHeaderInResponse_l, findHeaderInResponse in *. rewrite (loadn_ok _ _ _ OBJ) in *. cbn [bind] in *.
  pose proof (CF _ _ (bytes_at m buf L) R0) as C. rewrite (bytes_at_len _ _ _ OBJ) in C.
  assert (L0 : 0 <= L) by apply OBJ.
  destruct (find_tree_log R (p_exec P (p_init P) (bytes_at m buf L)) PhIdle 0 (mkfctx field fl false false None) ltac:(lia) C) as (E1&E2).
  { split; [auto|]. split; [auto|]. discriminate. }
  rewrite E1. destruct (find_tree _ _ _ _) as [[e x]| | |]; cbn [bind] in *; try discriminate. specialize (E2 _ _ eq_refl). destruct E2 as (F1&F2&F3).
  destruct (f_fieldFound x) eqn:FF; cbn [negb bind] in *.
  - destruct (f_valueFound x) eqn:FV; cbn [negb bind] in *.
    + specialize (F3 eq_refl eq_refl). rewrite log_text_ok by auto. cbn [bind].
      assert (FO2 : f_out x <> Some (None, 0)) by (intros Q; apply NE; injection X as _ <-; exact Q).
      destruct (f_out x) as [[[p|] n]|] eqn:FO; [|subst n; congruence|contradiction].
      rewrite log_text_ok by (auto; discriminate). cbn [bind]. destruct e; injection X as <- <-; destruct ST; try discriminate; reflexivity.
    + injection X as <- <-. destruct ST; discriminate.
  - destruct (negb (f_valueFound x)); cbn [assert_at bind] in *; [|discriminate]. rewrite log_text_ok by auto. cbn [bind]. destruct e; injection X as <- <-; destruct ST; try discriminate; reflexivity.
Qed.
End Read.
Lemma ReadHeader_log_ok G P m r buf L field fl a b st o : r_buf r = Some buf -> r_bufLen r = L -> object m buf L -> L <= INT32_MAX -> (forall o, po buf <= o < po buf + L -> lg_may G (pb buf) o = true) ->
  may_log G m field fl -> parser_ok P -> ReadHeader P m (Some r) field fl a b = Ret (st, o) -> st = HTTPSuccess \/ st = HTTPHeaderNotFound -> o <> Some (None, 0) ->
  ReadHeader_l G P m (Some r) field fl a b = Ret (st, o).
Proof.
  intros RB RL O LI MAY MF PO X ST NE. unfold ReadHeader_l, ReadHeader in *. cbv zeta in *. rewrite RB, RL in *. destruct (L =? 0); [exact X|]. destruct (is_null field) eqn:NF; [exact X|].
  destruct (fl =? 0); [exact X|]. destruct (negb a); [exact X|]. destruct (negb b); [exact X|]. apply find_log_ok; auto. intros ->. discriminate.
Qed.
Lemma ReadHeader_log G P m r buf L field fl a b : r_buf r = Some buf -> r_bufLen r = L -> object m buf L -> L <= INT32_MAX -> (forall o, po buf <= o < po buf + L -> lg_may G (pb buf) o = true) ->
  may_log G m field fl -> has_reasons G -> parser_ok P -> (forall st, ReadHeader P m (Some r) field fl a b <> Ret (st, Some (None, 0))) ->
  ReadHeader_l G P m (Some r) field fl a b = ReadHeader P m (Some r) field fl a b.
Proof.
  intros RB RL O LI MAY MF RE PO NE. unfold ReadHeader_l, ReadHeader in *. cbv zeta in *. rewrite RB, RL in *. destruct (L =? 0); [reflexivity|]. destruct (is_null field) eqn:NF; [reflexivity|].
  destruct (fl =? 0); [reflexivity|]. destruct (negb a); [reflexivity|]. destruct (negb b); [reflexivity|]. apply find_log; auto. intros ->. discriminate.
Qed.
