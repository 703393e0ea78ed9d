(** PropsSize.v — C85: the width of size_t makes no difference. *)
From Verif Require Import Base Lib ModelRequest ModelSend ModelResponse SpecRequest SpecSend SpecResponse SpecExchange SpecExact2 SpecBuffer SpecSize ProofsRequest ProofsDecimal
  ProofsRequest2 ProofsHistory ProofsSend ProofsSend2 ProofsResponse ProofsResponse2 ProofsResponse3 ProofsResponse4 ProofsResponse5 ProofsIndep ProofsTwin ProofsExchange
  PropsExact2 PropsMemory Demo DemoResponse RefParser PropsRequest PropsResponse PropsExchange.

(** ** Building requests *)
Section two.
Variables c1 c2 : config.
Lemma addHeader_size m h f fl v vl n : rh_bufLen h = n -> 0 <= rh_len h <= n -> 0 <= fl -> 0 <= vl -> n + fl + vl + 6 < SZ c1 -> n + fl + vl + 6 < SZ c2 ->
  addHeader c1 m h f fl v vl = addHeader c2 m h f fl v vl.
Proof.
  intros HN HL F V W1 W2. unfold addHeader. destruct (rh_buf h) as [buf|]; [|reflexivity]. do 5 (apply bind_ext; intros ?). 
  match goal with |- bind ?X _ = bind ?X _ => assert (HX : forall cur back, X = Ret (cur, back) -> rh_len h - 2 <= back <= rh_len h /\ 0 <= back); [|destruct X as [[cur back]| | |]; cbn [bind]; auto] end.
  { intros cur back. destruct (Z.leb_spec 4 (rh_len h)); [|intros Q; injection Q as <- <-; lia]. destruct (padd m _ (-4)) as [q| | |]; cbn [bind]; try discriminate. destruct (strncmp_eq _ _ _) as [[|]| | |]; cbn [bind]; try discriminate.
    - destruct (padd m _ (-2)); cbn [bind]; try discriminate. intros Q. injection Q as <- <-. lia.
    - intros Q. injection Q as <- <-. lia. }
  specialize (HX _ _ eq_refl). cbv zeta. rewrite !(Z.mod_small (fl + 2 + vl + 2 + 2)) by lia. rewrite !(Z.mod_small (back + _)) by lia. reflexivity.
Qed.
Definition room n (h : reqHeaders) : Prop := rh_bufLen h = n /\ 0 <= rh_len h <= n.
Definition keeps_room n (x : res (status * reqHeaders * mem)) : Prop := forall st h' m', x = Ret (st, h', m') -> room n h'.
Lemma addHeader_room m h f fl v vl n : room n h -> 0 <= fl -> 0 <= vl -> n + fl + vl + 6 < SZ c1 -> keeps_room n (addHeader c1 m h f fl v vl).
Proof.
  intros (HN&HL) F V W st h' m' H. unfold addHeader in H. destruct (rh_buf h) as [buf|]; [|discriminate]. do 5 inv_bind H. inv_bind H. destruct a4 as [cur back].
  assert (HX : rh_len h - 2 <= back <= rh_len h /\ 0 <= back).
  { clear H. match goal with Q : (if 4 <=? _ then _ else _) = _ |- _ => rename Q into HX end. destruct (Z.leb_spec 4 (rh_len h)); [|injection HX as <- <-; lia]. destruct (padd m _ (-4)) as [q| | |]; cbn [bind] in HX; try discriminate. destruct (strncmp_eq _ _ _) as [[|]| | |]; cbn [bind] in HX; try discriminate.
    - destruct (padd m _ (-2)); cbn [bind] in HX; try discriminate. injection HX as <- <-. lia.
    - injection HX as <- <-. lia. }
  cbv zeta in H. rewrite !(Z.mod_small (fl + 2 + vl + 2 + 2)) in H by lia. rewrite !(Z.mod_small (back + _)) in H by lia.
  destruct (Z.leb_spec (back + (fl + 2 + vl + 2 + 2)) (rh_bufLen h)); [|injection H as <- <- <-; split; auto].
  inv_bind H. destruct a4 as [ok m1]. destruct ok; cbn [negb] in H; [|injection H as <- <- <-; split; auto]. inv_bind H. inv_bind H. inv_bind H. inv_bind H. destruct a7 as [ok m3]. destruct ok; cbn [negb] in H; [|injection H as <- <- <-; split; auto].
  inv_bind H. inv_bind H. injection H as <- <- <-. split; cbn [set_rh_len rh_bufLen rh_len]; lia.
Qed.
Lemma line_size m h mt ml pt pl n : rh_bufLen h = n -> rh_len h = 0 -> 0 <= ml -> 0 <= pl -> n + ml + pl + 64 < SZ c1 -> n + ml + pl + 64 < SZ c2 -> 0 <= n ->
  writeRequestLine c1 m h mt ml pt pl = writeRequestLine c2 m h mt ml pt pl /\ keeps_room n (writeRequestLine c1 m h mt ml pt pl).
Proof.
  intros HN HL M P W1 W2 N0. unfold writeRequestLine. destruct (rh_buf h) as [buf|]; [|split; [reflexivity|intros ? ? ?; discriminate]].
  set (k := ml + 1 + 1 + zlen HTTP_PROTOCOL_VERSION + 2 + (if is_null pt || (pl =? 0) then zlen HTTP_EMPTY_PATH else pl)).
  assert (K : 0 <= k <= ml + pl + 13) by (unfold k; change (zlen HTTP_PROTOCOL_VERSION) with 8; change (zlen HTTP_EMPTY_PATH) with 1; destruct (_ || _); lia).
  cbv zeta. rewrite HL. rewrite !(Z.mod_small k) by lia. rewrite !(Z.mod_small (k + 0)) by lia. split; [reflexivity|].
  intros st h' m' H. inv_bind H. inv_bind H. destruct (Z.ltb_spec (rh_bufLen h) (k + 0)); [injection H as <- <- <-; split; lia|].
  do 4 inv_bind H. inv_bind H. destruct a5. do 5 inv_bind H. injection H as <- <- <-. split; cbn [set_rh_len rh_bufLen rh_len]; lia.
Qed.
Lemma andThen_size n x f g : keeps_room n x -> (forall h m, room n h -> f h m = g h m) -> andThen x f = andThen x g.
Proof. intros R H. unfold andThen. destruct x as [[[st h] m]| | |]; cbn [bind]; auto. destruct (is_success st); auto. apply H. eapply R. reflexivity. Qed.
Lemma andThen_room n x f : keeps_room n x -> (forall h m, room n h -> keeps_room n (f h m)) -> keeps_room n (andThen x f).
Proof.
  intros R H st h' m'. unfold andThen. destruct x as [[[st0 h] m]| | |]; cbn [bind]; try discriminate. destruct (is_success st0); [|intros Q; injection Q as <- <- <-; eapply R; reflexivity]. apply H. eapply R. reflexivity.
Qed.
Lemma call_size m h buf n c : UA c1 = UA c2 -> room n h -> call_ok c1 m buf n c -> call_ok c2 m buf n c -> do_call c1 m h c = do_call c2 m h c.
Proof.
  intros U R O1 O2. pose proof R as (RN&RL). destruct c as [ri|f fl v vl|s e]; cbn [do_call call_ok] in *.
  - destruct O1 as ((L1&_)&(L2&_)&(L3&_)&W1). destruct O2 as (_&_&_&W2). unfold InitializeRequestHeaders. destruct (match rh_buf h with None => true | _ => false end); [reflexivity|].
    destruct (is_null (ri_method ri)); [reflexivity|]. destruct (is_null (ri_host ri)); [reflexivity|]. destruct (ri_methodLen ri =? 0); [reflexivity|]. destruct (ri_hostLen ri =? 0); [reflexivity|].
    pose proof (zlen_nonneg (UA c1)) as ZU. rewrite <- U in *.
    destruct (line_size m (set_rh_len h 0) (ri_method ri) (ri_methodLen ri) (ri_path ri) (ri_pathLen ri) n) as (Q&KR); cbn [set_rh_len rh_bufLen rh_len]; try lia. rewrite <- Q. clear Q.
    assert (A : forall f fl v vl h' m', room n h' -> 0 <= fl -> 0 <= vl -> fl + vl <= ri_methodLen ri + ri_pathLen ri + ri_hostLen ri + zlen (UA c1) + 58 ->
      addHeader c1 m' h' f fl v vl = addHeader c2 m' h' f fl v vl /\ keeps_room n (addHeader c1 m' h' f fl v vl)).
    { intros f fl v vl h' m' (R1&R2) F V W. split; [apply (addHeader_size _ _ _ _ _ _ n); auto; lia|apply addHeader_room; auto; [split; auto|lia]]. }
    change (zlen HTTP_USER_AGENT_FIELD) with 10. change (zlen HTTP_HOST_FIELD) with 4. change (zlen HTTP_CONNECTION_FIELD) with 10. change (zlen HTTP_CONNECTION_KEEP_ALIVE_VALUE) with 10.
    match goal with |- bind (andThen (andThen (andThen ?x ?f1) ?f2) ?f3) _ = bind (andThen (andThen (andThen ?x ?g1) ?g2) ?g3) _ =>
      assert (E1 : forall h m, room n h -> f1 h m = g1 h m /\ keeps_room n (f1 h m)); [|assert (E2 : forall h m, room n h -> f2 h m = g2 h m /\ keeps_room n (f2 h m)); [|assert (E3 : forall h m, room n h -> f3 h m = g3 h m)]] end.
    + intros h' m' R'. cbv beta. destruct (_ =? 0); [apply A; auto; lia|]. split; [reflexivity|]. intros ? ? ? Q. injection Q as <- <- <-. exact R'.
    + intros h' m' R'. cbv beta. apply A; auto; lia.
    + intros h' m' R'. cbv beta. destruct (negb _); [apply A; auto; lia|reflexivity].
    + match goal with |- bind ?x _ = bind ?y _ => assert (Q : x = y); [|rewrite Q; reflexivity] end.
      rewrite <- (andThen_size n _ _ _ KR (fun h m R => proj1 (E1 h m R))). pose proof (andThen_room n _ _ KR (fun h m R => proj2 (E1 h m R))) as KR1.
      rewrite <- (andThen_size n _ _ _ KR1 (fun h m R => proj1 (E2 h m R))). pose proof (andThen_room n _ _ KR1 (fun h m R => proj2 (E2 h m R))) as KR2.
      apply (andThen_size n); auto.
  - destruct O1 as ((L1&_)&(L2&_)&W1). destruct O2 as (_&_&W2). unfold AddHeader. destruct (match rh_buf h with None => true | _ => false end); [reflexivity|]. destruct (is_null f); [reflexivity|]. destruct (is_null v); [reflexivity|].
    destruct (fl =? 0); [reflexivity|]. destruct (vl =? 0); [reflexivity|]. destruct (rh_bufLen h <? rh_len h); [reflexivity|]. rewrite (addHeader_size _ _ _ _ _ _ n) by (auto; lia). reflexivity.
  - destruct O1 as (I1&I2&W1). destruct O2 as (_&_&W2). unfold AddRangeHeader. destruct (match rh_buf h with None => true | _ => false end); [reflexivity|]. destruct (rh_bufLen h <? rh_len h); [reflexivity|].
    destruct (Z.ltb_spec e HTTP_RANGE_REQUEST_END_OF_FILE) as [|X1]; [reflexivity|]. destruct ((s <? 0) && _) eqn:X2; [reflexivity|]. destruct (negb _ && _); [reflexivity|]. destruct (Z.eqb_spec s INT32_MIN) as [|X4]; [reflexivity|].
    change HTTP_RANGE_REQUEST_END_OF_FILE with (-1) in *. unfold is_int32, INT32_MIN, INT32_MAX in *.
    assert (X5 : s < 0 -> e = -1). { intros X. destruct (Z.ltb_spec s 0); [|lia]. destruct (Z.eqb_spec e (-1)); [auto|discriminate]. }
    assert (B1 : INT32_MIN < s <= INT32_MAX) by (unfold INT32_MIN, INT32_MAX; lia). assert (B2 : -1 <= e <= INT32_MAX) by (unfold INT32_MAX; lia).
    destruct (addRangeHeader_at c1 m h s e B1 B2 X5) as (_&Q1). destruct (addRangeHeader_at c2 m h s e B1 B2 X5) as (_&Q2). rewrite Q1, Q2.
    pose proof (range_text_len _ _ B1 B2 X5) as HL. pose proof (zlen_nonneg (range_text s e)). change (zlen HTTP_RANGE_REQUEST_HEADER_FIELD) with 5. rewrite (addHeader_size _ _ _ _ _ _ n) by (auto; lia). reflexivity.
Qed.
Lemma length_size m h n len : room n h -> 0 < len <= INT32_MAX -> n + 30 < SZ c1 -> n + 30 < SZ c2 -> addContentLengthHeader c1 m h len = addContentLengthHeader c2 m h len.
Proof.
  intros (R1&R2) L W1 W2. unfold addContentLengthHeader. replace (0 <? len) with true by lia. cbn [assert_at bind]. rewrite to_int32_small by lia.
  pose proof (to_dec_len_nonneg len ltac:(lia)) as LD.
  rewrite conv_ok; [|unfold INT32_MIN; lia|lia|vm_compute; discriminate|change (zlen (repeat 0 (Z.to_nat MAX_INT32_NO_OF_DECIMAL_DIGITS))) with 10; lia].
  cbn [bind]. change (zlen HTTP_CONTENT_LENGTH_FIELD) with 14. apply (addHeader_size _ _ _ _ _ _ n); auto; lia.
Qed.

(** ** Sending *)
Hypothesis SE : same_settings c1 c2.
Lemma data_size fuel E t tf p len w : SendHttpData fuel c1 E t tf p len w = SendHttpData fuel c2 E t tf p len w.
Proof. unfold SendHttpData. destruct SE as (_&Q&_). rewrite Q. reflexivity. Qed.
Lemma headers_size fuel E t tf h n len flags w : room n h -> 0 <= len <= INT32_MAX -> n + 30 < SZ c1 -> n + 30 < SZ c2 ->
  SendHttpHeaders fuel c1 E t tf (Some h) len flags w = SendHttpHeaders fuel c2 E t tf (Some h) len flags w.
Proof.
  intros R L W1 W2. unfold SendHttpHeaders. destruct t; [|reflexivity]. apply bind_ext. intros _.
  match goal with |- bind ?x _ = bind ?y _ => assert (Q : x = y) end.
  { destruct (_ && _) eqn:C; [|reflexivity]. apply andb_prop in C as (_&C). apply (length_size _ _ n); auto. lia. }
  rewrite Q. apply bind_ext. intros [[st h1] m1]. destruct (is_success st); [|reflexivity]. rewrite data_size. reflexivity.
Qed.
Lemma request_size fuel E t tf h n body len flags w : room n h -> 0 <= len <= INT32_MAX -> n + 30 < SZ c1 -> n + 30 < SZ c2 ->
  sendHttpRequest fuel c1 E t tf (Some h) body len flags w = sendHttpRequest fuel c2 E t tf (Some h) body len flags w.
Proof.
  intros R L W1 W2. unfold sendHttpRequest. do 4 (apply bind_ext; intros ?). rewrite (headers_size _ _ _ _ _ n) by auto. apply bind_ext. intros [[st h1] w1]. destruct (is_success st); [|reflexivity].
  destruct body; [|reflexivity]. unfold sendHttpBody. destruct t; [|reflexivity]. rewrite data_size. reflexivity.
Qed.
End two.

(** ** C85 *)
Lemma history_size c1 c2 buf n : config_ok c1 -> UA c1 = UA c2 -> forall cs m h,
  rh_buf h = Some buf -> rh_bufLen h = n -> object m buf n -> 0 <= rh_len h <= n ->
  Forall (call_ok c1 m buf n) cs -> Forall (call_ok c2 m buf n) cs -> history c1 m h cs = history c2 m h cs.
Proof.
  intros CO U. induction cs as [|c cs IH]; intros m h Hb Hn O Hl OK1 OK2; [reflexivity|]. cbn [history].
  pose proof (Forall_inv OK1) as A1. pose proof (Forall_inv_tail OK1) as B1. pose proof (Forall_inv OK2) as A2. pose proof (Forall_inv_tail OK2) as B2.
  rewrite <- (call_size c1 c2 m h buf n c U (conj Hn Hl) A1 A2).
  destruct (do_call_stays c1 m h buf n c CO Hb Hn O Hl A1) as (st&h1&m1&E1&S&Q1&Q2&Q3&Q4). rewrite E1. cbn [bind].
  rewrite (IH m1 h1); auto.
  - eapply Forall_impl; [|exact B1]. intros x. apply call_ok_same. exact S.
  - eapply Forall_impl; [|exact B2]. intros x. apply call_ok_same. exact S.
Qed.
Theorem C85_requests : forall c1 c2 m h buf n cs,
  config_ok c1 -> config_ok c2 -> same_settings c1 c2 ->
  rh_buf h = Some buf -> rh_bufLen h = n -> object m buf n -> 0 <= rh_len h <= n ->
  Forall (call_ok c1 m buf n) cs -> Forall (call_ok c2 m buf n) cs ->
  history c1 m h cs = history c2 m h cs.
Proof. intros c1 c2 m h buf n cs C1 C2 (U&_) Hb Hn O Hl O1 O2. apply (history_size c1 c2 buf n); auto. Qed.
Print Assumptions C85_requests.

Lemma entries_eq b t1 t2 : Forall2 (same_entry b b) t1 t2 -> t1 = t2.
Proof.
  induction 1 as [|x y a c X F IH]; [reflexivity|]. subst c. f_equal.
  assert (SP : forall p q, same_place b b p q -> p = q) by (intros p q (o&->&->); reflexivity).
  destruct x, y; cbn in X; try contradiction; repeat match goal with H : _ /\ _ |- _ => destruct H end; repeat match goal with H : same_place b b _ _ |- _ => apply SP in H end; congruence.
Qed.
Lemma answered_dec st tr : answered st tr \/ ~ answered st tr.
Proof. unfold answered. destruct (Z_lt_le_dec 0 (received tr)) as [Q|Q]; [left; right; auto|]. destruct st; try (left; left; discriminate). right. intros [X|X]; [congruence|lia]. Qed.
Theorem C85_receive : forall fuel c1 c2 E P t r rh buf L req w st r1 w' tr,
  same_settings c1 c2 -> recv_setup c1 E P t r rh buf L req w -> recv_setup c2 E P t r rh buf L req w -> recv_exact E ->
  receives fuel c1 E P t r rh w st r1 w' tr ->
  exists r2, receives fuel c2 E P t r rh w st r2 w' tr /\ but_for_length r1 r2 /\ (length_fits c1 c2 (v_clen (view_of tr)) -> r2 = r1).
Proof.
  intros fuel c1 c2 E P t r rh buf L req w st r1 w' tr (U&ST&RT) S1 S2 RE HR. pose proof (exact_faithful _ RE) as RF.
  pose proof S1 as (T1&RC&PO&TN&RB&RL&OB&LL&_). pose proof S2 as (_&_&_&_&_&_&_&LL2&_).
  assert (FR : ProofsTwin.fresh buf buf L r r) by (unfold ProofsTwin.fresh; conj; auto).
  assert (TW : tworld buf buf L (w_tr w) (w_tr w) 0 w w).
  { constructor; auto; try lia. exists [], []. rewrite !app_nil_r. conj; auto. }
  pose proof (receive_twin c1 c2 buf buf L (w_tr w) (w_tr w) ltac:(lia) ltac:(lia) (eq_sym RT) fuel E P t _ _ rh rh req w w S1 S2 RF FR TW eq_refl (receive_defd _ _ _ _ _ _ _ _ _ _ _ S1) (receive_defd _ _ _ _ _ _ _ _ _ _ _ S2)) as K.
  destruct HR as (HR&HT). rewrite HR in K. destruct (ReceiveAndParseHttpResponse fuel c2 E P (Some t) (Some r) (Some rh) w) as [[[st2 o2] w2]| | |] eqn:HR2; try contradiction.
  destruct K as (<-&T&r1'&r2&Q&->&TX&K). injection Q as <-.
  destruct (tw_tr _ _ _ _ _ _ _ _ TX) as (t1&t2&X1&X2&F). apply entries_eq in F. subst t2. rewrite HT in X1. apply app_inv_head in X1. subst t1.
  assert (R1 : receives fuel c1 E P t r rh w st r1 w' tr) by (split; auto). assert (R2 : receives fuel c2 E P t r rh w st r2 w2 tr) by (split; auto).
  assert (W : w2 = w').
  { pose proof (C77_memory_exact _ _ _ _ _ _ _ _ _ _ _ _ _ _ _ S1 RE R1) as M1. pose proof (C77_memory_exact _ _ _ _ _ _ _ _ _ _ _ _ _ _ _ S2 RE R2) as M2.
    pose proof (tw_ns _ _ _ _ _ _ _ _ TX). pose proof (tw_nr _ _ _ _ _ _ _ _ TX). pose proof (tw_nt _ _ _ _ _ _ _ _ TX).
    destruct w' as [a1 a2 a3 a4 a5], w2 as [b1 b2 b3 b4 b5]. cbn [w_mem w_ns w_nr w_nt w_tr] in *. congruence. }
  subst w2. exists r2. split; [exact R2|].
  destruct (C59_response_exact _ _ _ _ _ _ _ _ _ _ _ _ _ _ _ S1 R1) as (A1&N1). destruct (C59_response_exact _ _ _ _ _ _ _ _ _ _ _ _ _ _ _ S2 R2) as (A2&N2).
  destruct (answered_dec st tr) as [A|A].
  - rewrite (A1 A), (A2 A). unfold response_after, but_for_length. destruct (match no_parse_body r with true => _ | false => _ end) as [bo bl].
    cbn [r_buf r_bufLen r_cb r_time r_headers r_headersLen r_body r_bodyLen r_status r_clen r_hcount r_hdone r_opt r_flags]. split; [reflexivity|].
    intros LF. f_equal. destruct (v_hend (view_of tr)); [|reflexivity]. unfold clen_reported. destruct LF as [->|(Q1&Q2)]; [reflexivity|]. rewrite !Z.mod_small by lia. reflexivity.
  - destruct (N1 A) as (->&_). destruct (N2 A) as (->&_). unfold but_for_length. split; [destruct r; reflexivity|auto].
Qed.
Print Assumptions C85_receive.

Theorem C85_exchange : forall fuel c1 c2 E P t h hbuf n req body len bd r rbuf L flags w st h' r1 w' tr,
  same_settings c1 c2 -> send_setup c1 E P t h hbuf n req body len bd r rbuf L w -> send_setup c2 E P t h hbuf n req body len bd r rbuf L w -> recv_exact E ->
  exchanges fuel c1 E P t h body len r flags w st h' r1 w' tr ->
  exists r2, exchanges fuel c2 E P t h body len r flags w st h' r2 w' tr /\ but_for_length r1 r2 /\ (length_fits c1 c2 (v_clen (view_of tr)) -> r2 = r1).
Proof.
  intros fuel c1 c2 E P t h hbuf n req body len bd r rbuf L flags w st h' r1 w' tr SE S S2 RE (HS&HT).
  pose proof (setup_valid _ _ _ _ _ _ _ _ _ _ _ _ _ _ _ S) as NI. pose proof S as (SO&SC&RC&PO&T1&T2&H&LR&W&HL&HI&BA&RB&RL&OB&LL). pose proof S2 as (SO2&_&_&_&_&_&_&_&W2&HL2&_).
  destruct (Send_valid fuel c1 E P _ _ _ _ _ flags w SO HL NI) as (t'&h0&r0&Q1&_&_&Q2&Q3&_&_&_&_&_&_&ES). injection Q1 as <-. injection Q2 as <-. injection Q3 as <-.
  destruct (Send_valid fuel c2 E P _ _ _ _ _ flags w SO2 HL2 NI) as (t'&h0&r0&Q1&_&_&Q2&Q3&_&_&_&_&_&_&ES2). injection Q1 as <-. injection Q2 as <-. injection Q3 as <-.
  rewrite ES in HS. unfold exchanges. rewrite ES2.
  pose proof H as (_&HN&_&HLEN&_).
  rewrite <- (request_size c1 c2 SE fuel E (Some t) (r_time (eff_time r)) h n body len flags w (conj HN HLEN) (conj (proj1 HL) HI) W W2).
  inv_bind HS. destruct a as ((st1&oh)&w1). cut (exists r2, ((if is_success st1 then ' (st2, pr2, w2) <- ReceiveAndParseHttpResponse fuel c2 E P (Some t) (Some (eff_time r)) oh w1 ;; Ret (st2, oh, pr2, w2) else Ret (st1, oh, Some (eff_time r), w1)) = Ret (st, Some h', Some r2, w') /\ w_tr w' = w_tr w ++ tr) /\ but_for_length r1 r2 /\ (length_fits c1 c2 (v_clen (view_of tr)) -> r2 = r1)).
  { intros (r2&X). exists r2. exact X. }
  destruct (sendHttpRequest_run fuel c1 E (r_time (eff_time r)) t h hbuf n req body len bd flags w SC (eff_time_ok r) T1 H ltac:(lia) W BA)
    as (block&h1&m1&so&w1'&sent&WH&SS&Em&E1&Etr&Enr&On&Pre&Hh&Hq&Hn&Hi&Hs&Hne&Ho).
  rewrite E0 in E1. cbn [wout] in E1. injection E1 as E1 <-. destruct so as [so|]; [|discriminate]. injection E1 as <- ->. subst m1.
  destruct (is_success st1) eqn:SU.
  2:{ injection HS as <- <- <- <-. exists (eff_time r). split; [auto|]. unfold but_for_length. split; [destruct (eff_time r); reflexivity|auto]. }
  assert (st1 = HTTPSuccess) by (destruct st1; try discriminate; reflexivity). subst st1.
  assert (C : zlen block <= n) by (destruct (Z.lt_ge_cases n (zlen block)) as [C|C]; [destruct (Hn C); discriminate|auto]).
  inv_bind HS. destruct a as ((st2&pr2)&w2). injection HS as <- <- -> <-.
  pose proof (setup_recv _ _ _ _ _ _ _ _ _ _ _ _ _ _ _ _ _ _ _ S SS WH (Hh C)) as RS. pose proof (setup_recv _ _ _ _ _ _ _ _ _ _ _ _ _ _ _ _ _ _ _ S2 SS WH (Hh C)) as RS2. rewrite with_clock_eff in RS, RS2.
  assert (X : ext w1 w2) by (eapply Receive_ext; rewrite E1; reflexivity). destruct X as (tr2&ET2&_).
  destruct (C85_receive _ _ _ _ _ _ _ _ _ _ _ _ _ _ _ _ SE RS RS2 RE (conj E1 ET2)) as (r2&(R2&_)&BF&LF).
  rewrite ET2, Etr, <- app_assoc in HT. apply app_inv_head in HT. subst tr.
  exists r2. rewrite R2. cbn [bind]. split; [split; [reflexivity|]|]. { rewrite ET2, Etr, app_assoc. reflexivity. } split; [exact BF|]. destruct (view_after sent tr2 On) as (V&_). rewrite V. exact LF.
Qed.
Print Assumptions C85_exchange.

Theorem C85_sending : forall fuel c1 c2 E t tf h n len flags p k w,
  same_settings c1 c2 -> rh_bufLen h = n -> 0 <= rh_len h <= n -> 0 <= len <= INT32_MAX -> n + 30 < SZ c1 -> n + 30 < SZ c2 ->
  SendHttpHeaders fuel c1 E t tf (Some h) len flags w = SendHttpHeaders fuel c2 E t tf (Some h) len flags w /\
  SendHttpData fuel c1 E t tf p k w = SendHttpData fuel c2 E t tf p k w.
Proof. intros fuel c1 c2 E t tf h n len flags p k w SE HN HL HB W1 W2. split; [apply (headers_size c1 c2 SE _ _ _ _ _ n); auto; split; auto|apply data_size; auto]. Qed.
Print Assumptions C85_sending.

(** A 16-bit platform (an AVR, say) beside the 32-bit one of [cfg0]. *)
Definition cfg16 : config := mkconfig 65536 (UA cfg0) 1000 1000.
Lemma cfg16_settings : same_settings cfg0 cfg16.
Proof. split; [|split]; reflexivity. Qed.
Lemma cfg16_ok : config_ok cfg16.
Proof. destruct cfg0_ok as (_&C2). split; [discriminate|exact C2]. Qed.
Example C85_requests_case : Forall (call_ok cfg0 m0 buf0 200) calls0 /\ Forall (call_ok cfg16 m0 buf0 200) calls0 /\
  rh_buf h0 = Some buf0 /\ rh_bufLen h0 = 200 /\ object m0 buf0 200 /\ 0 <= rh_len h0 <= 200 /\
  exists h' m', history cfg16 m0 h0 calls0 =
    Ret ([HTTPSuccess; HTTPSuccess; HTTPInvalidParameter; HTTPSuccess; HTTPInsufficientMemory; HTTPInvalidParameter; HTTPSuccess], h', m').
Proof.
  split; [exact (proj1 C05_case)|]. split; [repeat constructor; vm_compute; intros; discriminate|]. split; [reflexivity|]. split; [reflexivity|].
  split; [vm_compute; repeat split; discriminate|]. split; [vm_compute; split; discriminate|]. do 2 eexists. vm_compute. reflexivity.
Qed.
Lemma setup_size ps : send_setup cfg16 (env_ex ps) refparser trr hx buf0 300 req1 (Some (mkptr 2 0)) 4 (B "data") rsep rbuf 300 wsep.
Proof.
  destruct (setup_ex ps) as ((_&A&B&C&D&F&G&J&_&_&M&N&O&Q&R&_)&_). split; [exists 16; split; [lia|reflexivity]|].
  split; [exact A|]. split; [exact B|]. split; [exact C|]. split; [exact D|]. split; [exact F|]. split; [exact G|]. split; [exact J|]. split; [reflexivity|].
  split; [split; [discriminate|reflexivity]|]. split; [exact M|]. split; [exact N|]. split; [exact O|]. split; [exact Q|]. split; [exact R|]. split; reflexivity.
Qed.
(** An ordinary exchange on the 16-bit platform; the 32-bit one does the same. *)
Example C85_exchange_case : exists h' r' w' tr,
  send_setup cfg0 (env_ex resp_ok) refparser trr hx buf0 300 req1 (Some (mkptr 2 0)) 4 (B "data") rsep rbuf 300 wsep /\
  send_setup cfg16 (env_ex resp_ok) refparser trr hx buf0 300 req1 (Some (mkptr 2 0)) 4 (B "data") rsep rbuf 300 wsep /\ recv_exact (env_ex resp_ok) /\
  exchanges 100 cfg0 (env_ex resp_ok) refparser trr hx (Some (mkptr 2 0)) 4 rsep 0 wsep HTTPSuccess h' r' w' tr /\
  exchanges 100 cfg16 (env_ex resp_ok) refparser trr hx (Some (mkptr 2 0)) 4 rsep 0 wsep HTTPSuccess h' r' w' tr /\
  v_clen (view_of tr) = 5 /\ length_fits cfg0 cfg16 (v_clen (view_of tr)) /\ r_clen r' = 5.
Proof.
  do 4 eexists. split; [apply setup_ex|]. split; [apply setup_size|]. split; [exact (env_of_exact resp_ok)|].
  split; [split; vm_compute; reflexivity|]. split; [split; vm_compute; reflexivity|]. split; [vm_compute; reflexivity|]. split; [right; vm_compute; conj; auto; discriminate|]. vm_compute. reflexivity.
Qed.
(** "Content-Length: 70000" does not fit in 16 bits: 4464 is reported, and nothing else differs. *)
Definition resp_70000 : list bytes := [B "HTTP/1.1 200 OK" ++ CRLF ++ B "Content-Length: 70000" ++ CRLF ++ CRLF ++ B "only a part"].
Example C85_receive_case : exists r1 r2 w' tr,
  recv_setup cfg0 (env_of resp_70000) refparser trr (resp0 200 0) h1 rbuf 200 req1 (wr 200) /\ recv_setup cfg16 (env_of resp_70000) refparser trr (resp0 200 0) h1 rbuf 200 req1 (wr 200) /\
  recv_exact (env_of resp_70000) /\
  receives 20 cfg0 (env_of resp_70000) refparser trr (resp0 200 0) h1 (wr 200) HTTPPartialResponse r1 w' tr /\
  receives 20 cfg16 (env_of resp_70000) refparser trr (resp0 200 0) h1 (wr 200) HTTPPartialResponse r2 w' tr /\
  but_for_length r1 r2 /\ r_clen r1 = 70000 /\ r_clen r2 = 4464.
Proof.
  assert (S : recv_setup cfg0 (env_of resp_70000) refparser trr (resp0 200 0) h1 rbuf 200 req1 (wr 200)) by (apply (setup0 resp_70000 200 0); lia).
  do 4 eexists. split; [exact S|]. split.
  { destruct S as (A&B&C&D&F&G&J&_&M). split; [exact A|]. split; [exact B|]. split; [exact C|]. split; [exact D|]. split; [exact F|]. split; [exact G|]. split; [exact J|]. split; [split; reflexivity|exact M]. }
  split; [apply env_of_exact|]. split; [demo|]. split; [demo|]. split; vm_compute; auto.
Qed.
