(** PropsMemory.v — C77: the whole memory after a call. *)
From Verif Require Import Base Lib ModelRequest ModelSend ModelResponse SpecRequest SpecSend SpecResponse ProofsRequest ProofsSend ProofsSend2
  ProofsResponse ProofsResponse2 ProofsResponse3 ProofsResponse4 ProofsResponse5 RefParser SpecBuffer Demo DemoResponse PropsResponse PropsHttp SpecExact2 PropsExact2 PropsResponse2
  PropsBuffer ProofsFrame ProofsDecimal ProofsRequest2 ProofsTwin SpecExchange ProofsExchange PropsExchange.

Lemma exact_faithful E : recv_exact E -> recv_faithful E.
Proof. intros H i k X. rewrite H. lia. Qed.

Lemma splice_zlen (l : bytes) o d : 0 <= o -> o + zlen d <= zlen l -> zlen (splice l o d) = zlen l.
Proof. intros. apply splice_len; lia. Qed.

(** The data of the buffer, as one piece. *)
Lemma buffer_text fuel cfg E P t r rh buf L req w st r' w' tr : recv_setup cfg E P t r rh buf L req w -> recv_faithful E -> receives fuel cfg E P t r rh w st r' w' tr ->
  bytes_at (w_mem w') buf (zlen (data_received tr)) = put_together (view_of tr) (data_received tr) /\
  zlen (put_together (view_of tr) (data_received tr)) = zlen (data_received tr) /\ zlen (data_received tr) <= L /\ same_outside (w_mem w) (w_mem w') buf L.
Proof.
  intros H F HR.
  destruct (stream_received _ _ _ _ _ _ _ _ _ _ _ _ _ _ _ H F HR) as (VS&ZR).
  destruct (receives_inv _ _ _ _ _ _ _ _ _ _ _ _ _ _ _ H HR) as (trl&o&s'&ph&G&TR&RR&NM&ST&HW&F1&I&F2&F3&F4).
  rewrite <- VS. set (v := view_of tr) in *. set (k := kof r buf L req (w_mem w)) in *.
  assert (DN : dnp k = no_parse_body r) by (unfold dnp, k, kof; cbn [k_opt]; rewrite dnp_bit; auto).
  assert (EW : s_w (reset s') = s_w s') by apply reset_same.
  pose proof (i_low _ _ _ _ _ _ _ _ I) as IL. pose proof (i_tail _ _ _ _ _ _ _ _ I) as IT. pose proof (i_mid _ _ _ _ _ _ _ _ I) as IM.
  pose proof (i_body _ _ _ _ _ _ _ _ I) as IB. pose proof (i_pos _ _ _ _ _ _ _ _ I) as IP. pose proof (i_mem _ _ _ _ _ _ _ _ I) as IME.
  assert (KO : k_ok cfg k) by (destruct H as (_&_&_&_&_&_&O&LL&_); split; auto).
  pose proof (inv_object _ _ _ _ _ _ _ _ KO I) as O. rewrite EW in *. change (k_buf k) with buf in *. change (k_L k) with L in *. change (k_m0 k) with (w_mem w) in *. rewrite HW.
  assert (O1 : 0 <= po buf /\ po buf + zlen (v_stream v) <= zlen (blk (w_mem (s_w s')) (pb buf))) by (destruct O as (?&?&?); lia).
  split; [|split; [|split; [lia|exact IME]]]; unfold put_together.
  - destruct (v_bstart v) as [bo|] eqn:EB.
    + destruct IB as (B1&B2&B3&B4&B5&B6). pose proof (zlen_nonneg (v_body v)) as ZB.
      specialize (IL bo eq_refl). specialize (IM bo (bo + zlen (v_body v)) (zlen (v_stream v) - (bo + zlen (v_body v))) eq_refl ltac:(lia) ltac:(lia) ltac:(lia)).
      replace (zlen (v_stream v)) with (bo + (zlen (v_body v) + (zlen (v_stream v) - (bo + zlen (v_body v))))) at 1 by lia.
      rewrite bytes_at_app by lia. rewrite bytes_at_app by (unfold poff; cbn [po]; lia). rewrite poff_poff, IL, B5, IM.
      unfold splice. unfold slice at 1. rewrite skipn_O. f_equal. f_equal. unfold slice. rewrite firstn_all2; [f_equal; unfold zlen; lia|].
      rewrite skipn_length. unfold zlen. lia.
    + specialize (IL G eq_refl). replace (zlen (v_stream v)) with (G + (zlen (v_stream v) - G)) at 1 by lia.
      rewrite bytes_at_app by lia. rewrite IL, IT. rewrite <- slice_app by lia. replace (G + (zlen (v_stream v) - G)) with (zlen (v_stream v)) by lia. apply slice_full. reflexivity.
  - destruct (v_bstart v) as [bo|]; [|reflexivity]. destruct IB as (B1&B2&B3&B4&B5&B6). apply splice_zlen; lia.
Qed.

Theorem C77_memory_exact : forall fuel cfg E P t r rh buf L req w st r' w' tr,
  recv_setup cfg E P t r rh buf L req w -> recv_exact E -> receives fuel cfg E P t r rh w st r' w' tr ->
  w_mem w' = write (w_mem w) buf (put_together (view_of tr) (data_received tr)).
Proof.
  intros fuel cfg E P t r rh buf L req w st r' w' tr H RE HR. pose proof (exact_faithful _ RE) as F.
  destruct (buffer_text _ _ _ _ _ _ _ _ _ _ _ _ _ _ _ H F HR) as (BT&BL&LE&(S1&S2&S3)).
  destruct (stream_received _ _ _ _ _ _ _ _ _ _ _ _ _ _ _ H F HR) as (_&ZR).
  pose proof (receive_frame _ _ _ _ _ _ _ _ _ _ _ _ _ _ _ H RE HR) as FR. rewrite <- ZR in FR.
  set (d := put_together (view_of tr) (data_received tr)) in *. rewrite <- BL in *. clearbody d.
  assert (O : object (w_mem w) buf (zlen d)) by (destruct H as (_&_&_&_&_&_&(?&?&?)&_); pose proof (zlen_nonneg d); split; [|split]; lia).
  destruct O as (O1&O2&O3). assert (O : object (w_mem w) buf (zlen d)) by (split; [|split]; lia).
  apply mem_ext; [rewrite write_length; auto|]. intros b. apply list_ext; [rewrite zlen_blk_write; auto|]. intros i Hi.
  rewrite blk_write by auto. destruct (Nat.eqb_spec (pb buf) b) as [<-|N].
  - rewrite zn_splice by lia. destruct (Z.leb_spec (po buf) i); [destruct (Z.ltb_spec i (po buf + zlen d))|]; cbn [andb].
    + rewrite <- BT. unfold bytes_at. rewrite zn_slice by (rewrite <- ?S2; lia). f_equal. lia.
    + symmetry. apply FR; lia.
    + symmetry. apply S3; [lia|]. lia.
  - symmetry. apply S3; [lia|]. intros (X&_). congruence.
Qed.
Print Assumptions C77_memory_exact.

Lemma env_of_exact ps : recv_exact (env_of ps).
Proof. intros i k. unfold env_of. cbn [e_recv]. unfold give. cbn [fst snd]. rewrite Z.max_r by apply zlen_nonneg. reflexivity. Qed.
(** The chunked body of [resp_chunked] was put together at place 50; the 131 bytes behind the data are as before. *)
Example C77_case : exists r' w' tr, demo_receives resp_chunked (resp0 200 0) 200 HTTPSuccess r' w' tr /\ recv_exact (env_of resp_chunked) /\
  put_together (view_of tr) (data_received tr) = firstn 50 (concat resp_chunked) ++ B "abcdefg" ++ skipn 57 (concat resp_chunked) /\
  zlen (data_received tr) = 69 /\ blk (w_mem w') 1 = put_together (view_of tr) (data_received tr) ++ repeat 0 131 /\ blk (w_mem w') 0 = blk (w_mem (wr 200)) 0.
Proof.
  do 3 eexists. split; [demo|]. split; [apply env_of_exact|]. split; [vm_compute; reflexivity|]. split; [vm_compute; reflexivity|].
  split; vm_compute; reflexivity.
Qed.

(** ** Whole exchanges *)
Lemma write_text m m' h buf n block a k : holds m' h buf n block -> same_outside m m' (poff buf a) k -> 0 <= a -> a + k <= zlen block -> m' = write m buf block.
Proof.
  intros H S A K. pose proof (holds_len _ _ _ _ _ H) as LB. destruct H as (_&_&O'&L&->).
  set (d := bytes_at m' buf (rh_len h)) in *. assert (LD : zlen d = rh_len h) by lia.
  assert (O : object m buf (zlen d)) by (apply (same_outside_object _ _ _ _ _ _ S); destruct O' as (?&?&?); split; [|split]; lia).
  destruct S as (S1&S2&S3). apply mem_ext; [rewrite write_length; auto|]. intros b. apply list_ext; [rewrite zlen_blk_write; auto|]. intros i Hi.
  rewrite blk_write by auto. destruct O as (O1&O2&O3). destruct (Nat.eqb_spec (pb buf) b) as [<-|N].
  - rewrite zn_splice by lia. destruct (Z.leb_spec (po buf) i); [destruct (Z.ltb_spec i (po buf + zlen d))|]; cbn [andb].
    + unfold d, bytes_at. rewrite zn_slice by (rewrite <- ?S2; lia). f_equal. lia.
    + symmetry. apply S3; [lia|]. unfold poff. cbn [pb po]. lia.
    + symmetry. apply S3; [lia|]. unfold poff. cbn [pb po]. lia.
  - symmetry. apply S3; [lia|]. unfold poff. cbn [pb]. intros (X&_). congruence.
Qed.
Lemma write_same m h buf n req : holds m h buf n req -> write m buf req = m.
Proof. intros H. symmetry. eapply (write_text m m h buf n req 0 0); [exact H|apply same_outside_refl|lia|]. pose proof (zlen_nonneg req). lia. Qed.

Lemma wire_fun flags len req a b : wire_headers flags len req a -> wire_headers flags len req b -> a = b.
Proof.
  unfold wire_headers. destruct (_ || _); [congruence|]. intros (o&d&O&D&->) (o'&d'&O'&D'&->). rewrite (opened_fun _ _ _ O O'), (decimal_unique _ _ _ D D'). reflexivity.
Qed.

Lemma headers_mem fuel cfg E tf t h buf n req len flags w st oh w1 : send_contract E -> tf <> TNull -> t_send t = true -> holds (w_mem w) h buf n req -> 0 <= len <= INT32_MAX -> n + 30 < SZ cfg ->
  SendHttpHeaders fuel cfg E (Some t) tf (Some h) len flags w = Ret (st, oh, w1) -> exists block, wire_headers flags len req block /\
  w_mem w1 = if zlen block <=? n then write (w_mem w) buf block else w_mem w.
Proof.
  intros SC TN T H HL W HS. unfold SendHttpHeaders in HS. rewrite T in HS. cbn [assert_at bind] in HS.
  assert (K : forall g m block, holds m g buf n block -> (' (st2, w2) <- SendHttpData fuel cfg E (Some t) tf (rh_buf g) (rh_len g) (set_mem w m) ;; Ret (st2, Some g, w2)) = Ret (st, oh, w1) -> w_mem w1 = m).
  { intros g m block G X. destruct (holds_sub _ _ _ _ _ G) as (O&_&PB). rewrite PB in X. inv_bind X. destruct a as (st2&w2). injection X as <- <- <-.
    apply (SendHttpData_mem _ _ _ _ _ _ _ (set_mem w m) _ _ SC TN T O) in E0. exact E0. }
  assert (SAME : forall b, b = req -> (' (st2, w2) <- SendHttpData fuel cfg E (Some t) tf (rh_buf h) (rh_len h) (set_mem w (w_mem w)) ;; Ret (st2, Some h, w2)) = Ret (st, oh, w1) ->
     w_mem w1 = if zlen b <=? n then write (w_mem w) buf b else w_mem w).
  { intros b -> X. rewrite (K _ _ _ H X). rewrite (write_same _ _ _ _ _ H). destruct (_ <=? _); reflexivity. }
  unfold wire_headers. rewrite landf1 in HS. destruct (Z.testbit flags 0); cbn [negb andb orb bind is_success] in *; [exists req; split; auto|].
  destruct (Z.ltb_spec 0 len).
  - replace (len =? 0) with false by lia.
    destruct (addContentLength_outcome cfg (w_mem w) h buf n req len H) as (o&st'&h'&m'&OP&EQ&D); [lia|lia|].
    rewrite EQ in HS. cbn [bind] in HS. cbv zeta in D.
    assert (DL : decimal len (to_dec len)) by (apply to_dec_decimal; unfold is_int32, INT32_MIN; lia).
    exists (o ++ header_line (B "Content-Length") (to_dec len) ++ CRLF). split; [exists o, (to_dec len); auto|].
    destruct D as [(C&->&->&->)|(C&->&Hh&S)]; cbn [is_success] in HS.
    + injection HS as <- <- <-. destruct (Z.leb_spec (zlen (o ++ header_line (B "Content-Length") (to_dec len) ++ CRLF)) n); [lia|reflexivity].
    + rewrite (K _ _ _ Hh HS). destruct (Z.leb_spec (zlen (o ++ header_line (B "Content-Length") (to_dec len) ++ CRLF)) n); [|lia].
      eapply write_text; [exact Hh|exact S|apply zlen_nonneg|]. rewrite (zlen_app o). lia.
  - replace (len =? 0) with true by lia. cbn [orb bind is_success] in *. exists req; split; auto.
Qed.

Lemma request_mem fuel cfg E tf t h buf n req body len bd flags w st oh w1 block : send_contract E -> tf <> TNull -> t_send t = true -> holds (w_mem w) h buf n req -> 0 <= len <= INT32_MAX -> n + 30 < SZ cfg ->
  body_arg (w_mem w) buf n body len bd -> wire_headers flags len req block ->
  sendHttpRequest fuel cfg E (Some t) tf (Some h) body len flags w = Ret (st, oh, w1) ->
  w_mem w1 = if zlen block <=? n then write (w_mem w) buf block else w_mem w.
Proof.
  intros SC TN T H HL W BA WH HS. unfold sendHttpRequest in HS. cbn [assert_at bind] in HS.
  replace (match body with Some _ => true | None => len =? 0 end) with true in HS by (destruct body; auto; destruct BA as (->&_); auto).
  replace (match tf with TNull => false | _ => true end) with true in HS by (destruct tf; congruence). cbn [assert_at bind] in HS.
  inv_bind HS. destruct a as ((st1&oh1)&w2). destruct (headers_mem _ _ _ _ _ _ _ _ _ _ _ _ _ _ _ SC TN T H HL W E0) as (b2&WH2&M). rewrite <- (wire_fun _ _ _ _ _ WH WH2) in M.
  rewrite <- M. destruct (is_success st1); [|injection HS as <- <- <-; reflexivity]. destruct body as [p|]; [|injection HS as <- <- <-; reflexivity].
  inv_bind HS. destruct a as (st2&w3). injection HS as <- <- <-. unfold sendHttpBody in E1. rewrite T in E1. cbn [assert_at bind] in E1.
  destruct BA as (O&_&_). assert (O2 : object (w_mem w2) p len).
  { rewrite M. destruct (_ <=? _) eqn:LE; auto. apply object_write; auto. destruct H as (_&_&(?&?&?)&_). pose proof (zlen_nonneg block). split; [|split]; lia. }
  apply (SendHttpData_mem _ _ _ _ _ _ _ w2 _ _ SC TN T O2) in E1. exact E1.
Qed.

Lemma send_only_quiet tr : send_only tr -> view_of tr = view0 /\ data_received tr = [].
Proof.
  unfold view_of. induction 1 as [|x tr X F IH]; [split; reflexivity|]. destruct x; cbn in X; try contradiction; cbn [fold_left view_step data_received]; exact IH.
Qed.
Lemma view_after a b : send_only a -> view_of (a ++ b) = view_of b /\ data_received (a ++ b) = data_received b.
Proof.
  unfold view_of. induction 1 as [|x a X F IH]; [split; reflexivity|]. destruct x; cbn in X; try contradiction; cbn [fold_left app view_step data_received]; exact IH.
Qed.

Theorem C77_exchange_memory_exact : forall fuel cfg E P t h hbuf n req body len bd r rbuf L flags w st h' r' w' tr block,
  send_setup cfg E P t h hbuf n req body len bd r rbuf L w -> recv_exact E -> wire_headers flags len req block ->
  exchanges fuel cfg E P t h body len r flags w st h' r' w' tr ->
  w_mem w' = if zlen block <=? n then write (write (w_mem w) hbuf block) rbuf (put_together (view_of tr) (data_received tr)) else w_mem w.
Proof.
  intros fuel cfg E P t h hbuf n req body len bd r rbuf L flags w st h' r' w' tr block S RE WH (HS&HT).
  pose proof (setup_valid _ _ _ _ _ _ _ _ _ _ _ _ _ _ _ S) as NI. pose proof S as (SO&SC&RC&PO&T1&T2&H&LR&W&HL&HI&BA&RB&RL&OB&LL).
  destruct (Send_valid fuel cfg E P _ _ _ _ _ flags w SO HL NI) as (t'&h0&r0&Q1&_&_&Q2&Q3&_&_&_&_&_&_&ES). injection Q1 as <-. injection Q2 as <-. injection Q3 as <-.
  rewrite ES in HS. inv_bind HS. destruct a as ((st1&oh)&w1).
  pose proof (request_mem _ _ _ _ _ _ _ _ _ _ _ _ _ _ _ _ _ _ SC (eff_time_ok r) T1 H (conj (proj1 HL) HI) W BA WH E0) as M.
  destruct (sendHttpRequest_run fuel cfg E (r_time (eff_time r)) t h hbuf n req body len bd flags w SC (eff_time_ok r) T1 H ltac:(lia) W BA)
    as (b2&h1&m1&so&w1'&sent&WH2&SS&Em&E1&Etr&Enr&On&Pre&Hh&Hq&Hn&Hi&Hs&Hne&Ho). rewrite <- (wire_fun _ _ _ _ _ WH WH2) in *. clear b2 WH2.
  rewrite E0 in E1. cbn [wout] in E1. injection E1 as E1 <-. destruct so as [so|]; [|discriminate]. injection E1 as <- ->. subst m1.
  assert (QUIET : w' = w1 -> w_mem w' = if zlen block <=? n then write (write (w_mem w) hbuf block) rbuf (put_together (view_of tr) (data_received tr)) else w_mem w).
  { intros ->. rewrite HT in Etr. apply app_inv_head in Etr. subst sent. destruct (send_only_quiet _ On) as (V&D). rewrite V, D, M. cbn [put_together view0 v_bstart]. rewrite write_nil. reflexivity. }
  destruct (is_success st1) eqn:SU; [|apply QUIET; congruence].
  assert (st1 = HTTPSuccess) by (destruct st1; try discriminate; reflexivity). subst st1.
  assert (C : zlen block <= n) by (destruct (Z.lt_ge_cases n (zlen block)) as [C|C]; [destruct (Hn C); discriminate|auto]).
  inv_bind HS. destruct a as ((st2&pr2)&w2). injection HS as <- <- -> <-.
  pose proof (setup_recv _ _ _ _ _ _ _ _ _ _ _ _ _ _ _ _ _ _ _ S SS WH (Hh C)) as RS. rewrite with_clock_eff in RS.
  assert (X : ext w1 w2) by (eapply Receive_ext; rewrite E1; reflexivity). destruct X as (tr2&ET2&_).
  rewrite ET2, Etr, <- app_assoc in HT. apply app_inv_head in HT. subst tr.
  destruct (view_after sent tr2 On) as (V&D). rewrite V, D.
  rewrite (C77_memory_exact _ _ _ _ _ _ _ _ _ _ _ _ _ _ _ RS RE (conj E1 ET2)), M. destruct (Z.leb_spec (zlen block) n); [reflexivity|lia].
Qed.
Print Assumptions C77_exchange_memory_exact.


(** The request in block 0 got its Content-Length line; the response is at the front of block 1. *)
Example C77_exchange_case : exists h' r' w' tr,
  send_setup cfg0 (env_ex resp_ok) refparser trr hx buf0 300 req1 (Some (mkptr 2 0)) 4 (B "data") rsep rbuf 300 wsep /\ recv_exact (env_ex resp_ok) /\
  wire_headers 0 4 req1 (B "GET / HTTP/1.1" ++ CRLF ++ B "Host: h" ++ CRLF ++ B "Content-Length: 4" ++ CRLF ++ CRLF) /\
  exchanges 100 cfg0 (env_ex resp_ok) refparser trr hx (Some (mkptr 2 0)) 4 rsep 0 wsep HTTPSuccess h' r' w' tr /\
  put_together (view_of tr) (data_received tr) = concat resp_ok /\
  firstn 46 (blk (w_mem w') 0) = B "GET / HTTP/1.1" ++ CRLF ++ B "Host: h" ++ CRLF ++ B "Content-Length: 4" ++ CRLF ++ CRLF /\
  blk (w_mem w') 1 = concat resp_ok ++ skipn 49 (blk (w_mem wsep) 1).
Proof.
  do 4 eexists. split; [apply setup_ex|]. split; [exact (env_of_exact resp_ok)|].
  split. { cbn [wire_headers]. exists (B "GET / HTTP/1.1" ++ CRLF ++ B "Host: h" ++ CRLF), (B "4"). split; [left; exists (B "GET / HTTP/1.1" ++ CRLF ++ B "Host: h"); split; reflexivity|].
    split; [|reflexivity]. cbn. split; [discriminate|]. split; [repeat constructor; discriminate|]. split; [discriminate|reflexivity]. }
  split. { split; vm_compute; reflexivity. }
  split; [vm_compute; reflexivity|]. split; vm_compute; reflexivity.
Qed.
