(** PropsGrow.v — C78: a larger request buffer changes nothing as long as the smaller one suffices. *)
From Verif Require Import Base Lib ModelRequest ModelSend ModelResponse SpecRequest SpecSend SpecResponse ProofsDecimal ProofsRequest ProofsRequest2 ProofsSend ProofsSend2
  RefParser SpecExchange ProofsTwin ProofsExchange Demo DemoResponse PropsExchange SpecGrow.

(** The result with the structure enlarged. *)
Definition grown (n : Z) (x : res (status * reqHeaders * mem)) : res (status * reqHeaders * mem) :=
  match x with Ret (st, h, m) => Ret (st, larger n h, m) | Ub k => Ub k | AssertFail l => AssertFail l | More w => More w end.

Definition good_step (n : Z) (h : reqHeaders) (x : res (status * reqHeaders * mem)) : Prop :=
  match x with Ret (st, h', m) => rh_bufLen h' = rh_bufLen h /\ (rh_len h <= rh_bufLen h -> rh_len h' <= rh_bufLen h) | _ => True end.
Definition enough (x : res (status * reqHeaders * mem)) : Prop := match x with Ret (HTTPInsufficientMemory, _, _) => False | _ => True end.

Lemma addHeader_grow cfg m h n f fl v vl : rh_bufLen h <= n ->
  good_step n h (addHeader cfg m h f fl v vl) /\ (enough (addHeader cfg m h f fl v vl) -> addHeader cfg m (larger n h) f fl v vl = grown n (addHeader cfg m h f fl v vl)).
Proof.
  intros LE. unfold addHeader. cbn [larger rh_buf rh_len rh_bufLen]. destruct (rh_buf h) as [buf|]; [|split; [exact I|reflexivity]].
  repeat match goal with |- context [bind (assert_at ?c ?l) _] => destruct (assert_at c l); cbn [bind grown enough good_step]; try (split; [exact I|reflexivity]) end.
  destruct (padd m buf (rh_len h)) as [cur0| | |]; cbn [bind grown good_step enough]; try (split; [exact I|reflexivity]).
  match goal with |- context [bind (if 4 <=? rh_len h then ?a else ?b) _] => destruct (if 4 <=? rh_len h then a else b) as [(cur&back)| | |] end; cbn [bind grown good_step enough]; try (split; [exact I|reflexivity]).
  set (need := (back + _) mod SZ cfg). destruct (Z.leb_spec need (rh_bufLen h)); [|split; [cbn; auto|intros []]].
  replace (need <=? n) with true by lia.
  destruct (httpHeaderStrncpy m cur f fl true) as [(ok&m1)| | |]; cbn [bind grown good_step enough]; try (split; [exact I|reflexivity]).
  destruct (negb ok); [split; [cbn; auto|reflexivity]|].
  destruct (padd m1 cur fl) as [cur1| | |]; cbn [bind grown good_step enough]; try (split; [exact I|reflexivity]).
  destruct (memcpy m1 cur1 _ 2) as [m2| | |]; cbn [bind grown good_step enough]; try (split; [exact I|reflexivity]).
  destruct (padd m2 cur1 2) as [cur2| | |]; cbn [bind grown good_step enough]; try (split; [exact I|reflexivity]).
  destruct (httpHeaderStrncpy m2 cur2 v vl false) as [(ok2&m3)| | |]; cbn [bind grown good_step enough]; try (split; [exact I|reflexivity]).
  destruct (negb ok2); [split; [cbn; auto|reflexivity]|].
  destruct (padd m3 cur2 vl) as [cur3| | |]; cbn [bind grown good_step enough]; try (split; [exact I|reflexivity]).
  destruct (memcpy m3 cur3 _ 4) as [m4| | |]; cbn [bind grown good_step enough]; try (split; [exact I|reflexivity]).
  split; [|reflexivity]. cbn [set_rh_len rh_bufLen rh_len]. auto.
Qed.

Lemma bind_grow {A} n h (x : res A) (f g : A -> res (status * reqHeaders * mem)) :
  (forall a, good_step n h (f a) /\ (enough (f a) -> g a = grown n (f a))) ->
  good_step n h (bind x f) /\ (enough (bind x f) -> bind x g = grown n (bind x f)).
Proof. intros H. destruct x as [a| | |]; cbn [bind good_step enough grown]; auto. Qed.

Lemma addRangeHeader_grow cfg m h n s e : rh_bufLen h <= n ->
  good_step n h (addRangeHeader cfg m h s e) /\ (enough (addRangeHeader cfg m h s e) -> addRangeHeader cfg m (larger n h) s e = grown n (addRangeHeader cfg m h s e)).
Proof.
  intros LE. unfold addRangeHeader. apply bind_grow. intros (a2&k). apply bind_grow. intros (a3&n3). apply addHeader_grow. auto.
Qed.
Lemma addContentLength_grow cfg m h n c : rh_bufLen h <= n ->
  good_step n h (addContentLengthHeader cfg m h c) /\ (enough (addContentLengthHeader cfg m h c) -> addContentLengthHeader cfg m (larger n h) c = grown n (addContentLengthHeader cfg m h c)).
Proof.
  intros LE. unfold addContentLengthHeader. apply bind_grow. intros _. apply bind_grow. intros (a1&k). apply addHeader_grow. auto.
Qed.

Lemma writeRequestLine_grow cfg m h n me ml p pl : rh_bufLen h <= n -> rh_len h = 0 ->
  good_step n h (writeRequestLine cfg m h me ml p pl) /\ (enough (writeRequestLine cfg m h me ml p pl) -> writeRequestLine cfg m (larger n h) me ml p pl = grown n (writeRequestLine cfg m h me ml p pl)).
Proof.
  intros LE L0. unfold writeRequestLine. cbn [larger rh_buf rh_len rh_bufLen]. destruct (rh_buf h) as [buf|]; [|split; [exact I|reflexivity]].
  apply bind_grow. intros _. apply bind_grow. intros _. rewrite L0, Z.add_0_r.
  rewrite !Zmod_mod. set (need := _ mod SZ cfg).
  destruct (Z.ltb_spec (rh_bufLen h) need); [split; [cbn; auto|intros []]|]. replace (n <? need) with false by lia.
  repeat (apply bind_grow; intros ?). destruct a3 as (m3&c3). repeat (apply bind_grow; intros ?). cbn [grown good_step set_rh_len rh_bufLen rh_len larger]. split; [auto|reflexivity].
Qed.

Lemma andThen_grow n h x y f g : good_step n h x /\ (enough x -> y = grown n x) ->
  (forall h' m', rh_bufLen h' = rh_bufLen h -> good_step n h' (f h' m') /\ (enough (f h' m') -> g (larger n h') m' = grown n (f h' m'))) ->
  good_step n h (andThen x f) /\ (enough (andThen x f) -> andThen y g = grown n (andThen x f)).
Proof.
  intros (G&Y) F. unfold andThen. destruct x as [((st&h1)&m1)| | |]; cbn [bind enough good_step grown] in *; try (split; [exact I|intros _; rewrite (Y I); reflexivity]).
  destruct (is_success st) eqn:S.
  - assert (st = HTTPSuccess) by (destruct st; try discriminate; reflexivity). subst st. rewrite (Y I). cbn [bind is_success].
    destruct (F h1 m1) as (F1&F2); [apply G|]. split; [|exact F2]. destruct (f h1 m1) as [((st2&h2)&m2)| | |]; cbn [good_step] in *; auto.
    destruct G as (G1&G2), F1 as (F3&F4). rewrite F3, G1 in *. auto.
  - cbn [good_step enough grown]. split; [exact G|]. intros N. rewrite (Y N). cbn [bind]. rewrite S. reflexivity.
Qed.
Lemma set_larger n h k : set_rh_len (larger n h) k = larger n (set_rh_len h k).
Proof. reflexivity. Qed.

(** One call. *)
Lemma do_call_grow cfg m h n c st oh m' : 0 <= rh_bufLen h -> rh_len h <= rh_bufLen h <= n -> do_call cfg m h c = Ret (st, oh, m') -> st <> HTTPInsufficientMemory ->
  exists h', oh = Some h' /\ rh_bufLen h' = rh_bufLen h /\ rh_len h' <= rh_bufLen h /\ do_call cfg m (larger n h) c = Ret (st, Some (larger n h'), m').
Proof.
  intros L0 (L1&L2) H NE. destruct c as [ri|f fl v vl|s e]; cbn [do_call] in *.
  - unfold InitializeRequestHeaders in *. cbn [larger rh_buf].
    repeat match type of H with (if ?c then _ else _) = _ => destruct c; [injection H as <- <- <-; exists h; split; [reflexivity|split; [auto|split; [auto|reflexivity]]]|] end.
    fold (larger n h). rewrite set_larger. inv_bind H. destruct a as ((st1&h1)&m1). injection H as <- <- <-.
    match type of E with ?x = _ => match goal with |- context [bind ?y _] =>
      assert (Q : good_step n (set_rh_len h 0) x /\ (enough x -> y = grown n x)) end end.
    { apply andThen_grow; [apply andThen_grow; [apply andThen_grow; [apply writeRequestLine_grow; auto|]|]|]; intros h' m' B; cbn [set_rh_len rh_bufLen] in B.
      - destruct (_ =? 0); [apply addHeader_grow; lia|split; [cbn; auto|reflexivity]].
      - apply addHeader_grow; lia.
      - destruct (negb _); [apply addHeader_grow; lia|split; [cbn; auto|reflexivity]]. }
    rewrite E in Q. destruct Q as ((Q1&Q2)&Q3). cbn [set_rh_len rh_bufLen rh_len] in *. rewrite Q3 by (destruct st1; cbn; auto). cbn [grown bind].
    exists h1. split; [reflexivity|]. split; [exact Q1|]. split; [apply Q2; auto|reflexivity].
  - unfold AddHeader in *. cbn [larger rh_buf rh_len rh_bufLen].
    repeat match type of H with (if ?c then _ else _) = _ => lazymatch c with (_ <? _) => fail | _ => destruct c; [injection H as <- <- <-; exists h; split; [reflexivity|split; [auto|split; [auto|reflexivity]]]|] end end.
    replace (rh_bufLen h <? rh_len h) with false in H by lia. replace (n <? rh_len h) with false by lia.
    inv_bind H. destruct a as ((st1&h1)&m1). injection H as <- <- <-. destruct (addHeader_grow cfg m h n f fl v vl L2) as (Q1&Q3). rewrite E in Q1, Q3. destruct Q1 as (Q1&Q2).
    fold (larger n h). rewrite Q3 by (destruct st1; cbn; auto). cbn [grown bind]. exists h1. auto.
  - unfold AddRangeHeader in *. cbn [larger rh_buf rh_len rh_bufLen].
    destruct (match rh_buf h with Some _ => false | None => true end); [injection H as <- <- <-; exists h; auto|].
    replace (rh_bufLen h <? rh_len h) with false in H by lia. replace (n <? rh_len h) with false by lia.
    repeat match type of H with (if ?c then _ else _) = _ => destruct c; [injection H as <- <- <-; exists h; split; [reflexivity|split; [auto|split; [auto|reflexivity]]]|] end.
    inv_bind H. destruct a as ((st1&h1)&m1). injection H as <- <- <-. destruct (addRangeHeader_grow cfg m h n s e L2) as (Q1&Q3). rewrite E in Q1, Q3. destruct Q1 as (Q1&Q2).
    fold (larger n h). rewrite Q3 by (destruct st1; cbn; auto). cbn [grown bind]. exists h1. auto.
Qed.

Theorem C78_building : forall cfg cs m h n sts h' m',
  0 <= rh_bufLen h -> rh_len h <= rh_bufLen h <= n -> history cfg m h cs = Ret (sts, h', m') -> ~ In HTTPInsufficientMemory sts ->
  history cfg m (larger n h) cs = Ret (sts, larger n h', m').
Proof.
  intros cfg cs. induction cs as [|c cs IH]; intros m h n sts h' m' L0 L H N; cbn [history] in *.
  - injection H as <- <- <-. reflexivity.
  - inv_bind H. destruct a as ((st&oh)&m1). destruct oh as [h1|]; [|discriminate]. inv_bind H. destruct a as ((sts2&h2)&m2). injection H as <- <- <-.
    destruct (do_call_grow _ _ _ n _ _ _ _ L0 L E) as (h1'&Q1&Q2&Q3&Q4); [intros ->; apply N; left; reflexivity|]. injection Q1 as <-.
    rewrite Q4. cbn [bind]. rewrite (IH m1 h1 n sts2 h2 m2); auto; try lia. intros X. apply N. right. exact X.
Qed.
Print Assumptions C78_building.

(** The same two headers and a range in a buffer of 100 and of 300 bytes. *)
Example C78_building_case : exists sts h' m', history cfg0 (w_mem wsep) (mkrh (Some buf0) 150 (rh_len hx)) [CAdd (SLit (B "A")) 1 (SLit (B "b")) 1; CAdd (SLit (B "A:")) 2 (SLit (B "b")) 1; CRange 0 99; CRange 5 4] = Ret (sts, h', m') /\
  sts = [HTTPSuccess; HTTPSecurityAlertInvalidCharacter; HTTPSuccess; HTTPInvalidParameter] /\ larger 300 (mkrh (Some buf0) 150 (rh_len hx)) = hx.
Proof. do 3 eexists. split; [vm_compute; reflexivity|]. split; [vm_compute; reflexivity|]. reflexivity. Qed.


(** ** Sending *)
Definition grown2 (n : Z) (x : res (status * option reqHeaders * world)) : res (status * option reqHeaders * world) :=
  match x with Ret (st, Some h, w) => Ret (st, Some (larger n h), w) | x => x end.
Lemma receive_grow fuel cfg E P t r h n w : ReceiveAndParseHttpResponse fuel cfg E P t r (Some (larger n h)) w = ReceiveAndParseHttpResponse fuel cfg E P t r (Some h) w.
Proof. reflexivity. Qed.
Lemma headers_grow fuel cfg E tf t h hbuf n req len flags w block n2 : holds (w_mem w) h hbuf n req -> 0 <= len <= INT32_MAX -> n + 30 < SZ cfg ->
  wire_headers flags len req block -> zlen block <= n <= n2 ->
  SendHttpHeaders fuel cfg E (Some t) tf (Some (larger n2 h)) len flags w = grown2 n2 (SendHttpHeaders fuel cfg E (Some t) tf (Some h) len flags w).
Proof.
  intros H HL W WH (L1&L2). unfold SendHttpHeaders. destruct (assert_at (t_send t) 1936); cbn [bind grown2]; try reflexivity.
  unfold wire_headers in WH. rewrite landf1.
  assert (D : forall g m, (' (st2, w2) <- SendHttpData fuel cfg E (Some t) tf (rh_buf (larger n2 g)) (rh_len (larger n2 g)) (set_mem w m) ;; Ret (st2, Some (larger n2 g), w2)) =
     grown2 n2 (' (st2, w2) <- SendHttpData fuel cfg E (Some t) tf (rh_buf g) (rh_len g) (set_mem w m) ;; Ret (st2, Some g, w2))).
  { intros g m. cbn [larger rh_buf rh_len]. destruct (SendHttpData _ _ _ _ _ _ _ _) as [(st2&w2)| | |]; reflexivity. }
  destruct (Z.testbit flags 0); cbn [negb andb orb] in *; [cbn [bind is_success]; apply D|].
  destruct (Z.ltb_spec 0 len); [|cbn [bind is_success]; apply D]. replace (len =? 0) with false in WH by lia.
  destruct WH as (o&d&OP&DD&->). pose proof H as (Hb&HB&_).
  destruct (addContentLength_outcome cfg (w_mem w) h hbuf n req len H ltac:(lia) W) as (o2&st&h1&m1&OP2&EQ&OC). cbv zeta in OC.
  assert (DL : decimal len (to_dec len)) by (apply to_dec_decimal; unfold is_int32, INT32_MIN; lia).
  rewrite <- (opened_fun _ _ _ OP OP2), <- (decimal_unique _ _ _ DD DL) in OC.
  destruct OC as [(C&_)|(_&->&_)]; [lia|].
  destruct (addContentLength_grow cfg (w_mem w) h n2 len ltac:(lia)) as (_&G). rewrite EQ in G. rewrite (G Logic.I), EQ. cbn [grown bind is_success]. apply D.
Qed.

Theorem C78_sending : forall fuel cfg E P t h hbuf n req body len bd r rbuf L flags w block n2,
  send_setup cfg E P t h hbuf n req body len bd r rbuf L w -> wire_headers flags len req block -> zlen block <= n <= n2 ->
  Send fuel cfg E P (Some t) (Some (larger n2 h)) body len (Some r) flags w = larger_result n2 (Send fuel cfg E P (Some t) (Some h) body len (Some r) flags w).
Proof.
  intros fuel cfg E P t h hbuf n req body len bd r rbuf L flags w block n2 S WH LL2.
  pose proof (setup_valid _ _ _ _ _ _ _ _ _ _ _ _ _ _ _ S) as NI. pose proof S as (SO&SC&RC&PO&T1&T2&H&LR&W&HL&HI&BA&RB&RL&OB&LL).
  destruct (Send_valid fuel cfg E P _ _ _ _ _ flags w SO HL NI) as (t'&h0&r0&Q1&_&_&Q2&Q3&_&Q4&_&_&_&_&ES). injection Q1 as <-. injection Q2 as <-. injection Q3 as <-.
  assert (NI2 : ~ send_invalid (Some t) (Some (larger n2 h)) body len (Some r)).
  { pose proof H as (Hb&HB&_). intros X. apply NI. unfold send_invalid in *. destruct X as [X|[X|[X|[X|X]]]]; auto; [discriminate|].
    right. right. right. left. destruct X as (g&G1&G2). injection G1 as <-. exists h. split; [reflexivity|]. cbn [larger rh_buf rh_bufLen rh_len] in G2. intuition lia. }
  destruct (Send_valid fuel cfg E P _ _ _ _ _ flags w SO HL NI2) as (t'&h0&r0&Q1&_&_&Q2&Q3&_&_&_&_&_&_&ES2). injection Q1 as <-. injection Q2 as <-. injection Q3 as <-.
  rewrite ES, ES2. unfold sendHttpRequest. cbn [assert_at bind].
  destruct (assert_at _ 2182); cbn [bind larger_result]; try reflexivity. destruct (assert_at _ 2184); cbn [bind larger_result]; try reflexivity.
  rewrite (headers_grow fuel cfg E _ t h hbuf n req len flags w block n2 H (conj (proj1 HL) HI) W WH LL2).
  assert (SH : forall st oh w1, SendHttpHeaders fuel cfg E (Some t) (r_time (eff_time r)) (Some h) len flags w = Ret (st, oh, w1) -> exists g, oh = Some g).
  { intros st oh w1 X. unfold SendHttpHeaders in X. rewrite T1 in X. cbn [assert_at bind] in X. inv_bind X. match goal with y : status * reqHeaders * mem |- _ => destruct y as ((s1&g1)&m1) end.
    destruct (is_success s1); [inv_bind X; match goal with y : status * world |- _ => destruct y end|]; injection X as _ <- _; eauto. }
  destruct (SendHttpHeaders fuel cfg E (Some t) (r_time (eff_time r)) (Some h) len flags w) as [((st&oh)&w1)| | |]; cbn [bind grown2 larger_result]; try reflexivity.
  destruct (SH _ _ _ eq_refl) as (g&->). cbn [bind].
  destruct (is_success st) eqn:SU; [|cbn [bind]; rewrite SU; reflexivity]. destruct body as [p|].
  - destruct (sendHttpBody _ _ _ _ _ _ _ _) as [(st2&w2)| | |]; cbn [bind larger_result]; try reflexivity. destruct (is_success st2); [|reflexivity]. rewrite receive_grow.
    destruct (ReceiveAndParseHttpResponse _ _ _ _ _ _ _ _) as [((st3&pr)&w3)| | |]; reflexivity.
  - cbn [bind]. rewrite SU, receive_grow. destruct (ReceiveAndParseHttpResponse _ _ _ _ _ _ _ _) as [((st3&pr)&w3)| | |]; reflexivity.
Qed.
Print Assumptions C78_sending.

Example C78_sending_case :
  send_setup cfg0 (env_ex resp_ok) refparser trr hx buf0 300 req1 (Some (mkptr 2 0)) 4 (B "data") rsep rbuf 300 wsep /\
  (exists block, wire_headers 0 4 req1 block /\ zlen block = 46) /\
  exists r' w', Send 100 cfg0 (env_ex resp_ok) refparser (Some trr) (Some (larger 400 hx)) (Some (mkptr 2 0)) 4 (Some rsep) 0 wsep = Ret (HTTPSuccess, Some (mkrh (Some buf0) 400 46), Some r', w').
Proof.
  split; [apply setup_ex|]. split; [|do 2 eexists; vm_compute; reflexivity].
  exists (B "GET / HTTP/1.1" ++ CRLF ++ B "Host: h" ++ CRLF ++ B "Content-Length: 4" ++ CRLF ++ CRLF). split; [|reflexivity].
  cbn [wire_headers]. exists (B "GET / HTTP/1.1" ++ CRLF ++ B "Host: h" ++ CRLF), (B "4"). split; [left; exists (B "GET / HTTP/1.1" ++ CRLF ++ B "Host: h"); split; reflexivity|].
  split; [|reflexivity]. cbn. split; [discriminate|]. split; [repeat constructor; discriminate|]. split; [discriminate|reflexivity].
Qed.
