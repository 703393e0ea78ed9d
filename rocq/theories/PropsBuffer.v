(** PropsBuffer.v — C74, C75: what is in the response buffer after a call, and where the header callback is pointed to. *)
From Verif Require Import Base Lib ModelRequest ModelSend ModelResponse SpecRequest SpecSend SpecResponse ProofsRequest ProofsSend ProofsSend2
  ProofsResponse ProofsResponse2 ProofsResponse3 ProofsResponse4 ProofsResponse5 RefParser SpecBuffer Demo DemoResponse PropsResponse PropsHttp SpecExact2 PropsExact2 PropsResponse2.

(** ** C74 *)
Lemma stream_received fuel cfg E P t r rh buf L req w st r' w' tr : recv_setup cfg E P t r rh buf L req w -> recv_faithful E ->
  receives fuel cfg E P t r rh w st r' w' tr -> v_stream (view_of tr) = data_received tr /\ zlen (data_received tr) = received tr.
Proof. intros H F R. destruct (C19_parser_reads_what_was_received _ _ _ _ _ _ _ _ _ _ _ _ _ _ _ H F R) as (A&B&_). auto. Qed.

Theorem C74_buffer_exact : forall fuel cfg E P t r rh buf L req w st r' w' tr,
  recv_setup cfg E P t r rh buf L req w -> recv_faithful E -> receives fuel cfg E P t r rh w st r' w' tr ->
  forall a n, 0 <= a -> 0 <= n -> a + n <= zlen (data_received tr) -> apart buf r r' a n ->
  bytes_at (w_mem w') (poff buf a) n = slice (data_received tr) a n.
Proof.
  intros fuel cfg E P t r rh buf L req w st r' w' tr H F HR a n A0 N0 LE AP.
  destruct (stream_received _ _ _ _ _ _ _ _ _ _ _ _ _ _ _ H F HR) as (VS&ZR).
  destruct (receives_inv _ _ _ _ _ _ _ _ _ _ _ _ _ _ _ H HR) as (trl&o&s'&ph&G&TR&RR&NM&ST&HW&F1&I&F2&F3&F4).
  rewrite <- VS in LE |- *. set (v := view_of tr) in *. set (k := kof r buf L req (w_mem w)) in *.
  assert (DN : dnp k = no_parse_body r) by (unfold dnp, k, kof; cbn [k_opt]; rewrite dnp_bit; auto).
  assert (EW : s_w (reset s') = s_w s') by apply reset_same.
  pose proof (i_low _ _ _ _ _ _ _ _ I) as IL. pose proof (i_tail _ _ _ _ _ _ _ _ I) as IT. pose proof (i_mid _ _ _ _ _ _ _ _ I) as IM.
  pose proof (i_body _ _ _ _ _ _ _ _ I) as IB. pose proof (i_pos _ _ _ _ _ _ _ _ I) as IP.
  assert (KO : k_ok cfg k) by (destruct H as (_&_&_&_&_&_&O&LL&_); split; auto).
  pose proof (inv_object _ _ _ _ _ _ _ _ KO I) as O. rewrite EW in *. change (k_buf k) with buf in *. rewrite HW.
  assert (O1 : 0 <= po buf /\ po buf + zlen (v_stream v) <= zlen (blk (w_mem (s_w s')) (pb buf))) by (destruct O as (?&?&?); lia).
  (* without body pieces everything is as received *)
  assert (ALL : v_bstart v = None -> bytes_at (w_mem (s_w s')) (poff buf a) n = slice (v_stream v) a n).
  { intros NB. rewrite NB in IL. specialize (IL G eq_refl).
    eapply tail_piece with (G := 0); try lia. rewrite poff_0, Z.sub_0_r. replace (zlen (v_stream v)) with (G + (zlen (v_stream v) - G)) by lia.
    rewrite bytes_at_app by lia. rewrite slice_app by lia. rewrite IL, IT. reflexivity. }
  destruct (v_bstart v) as [bo|] eqn:EB; [|auto].
  destruct IB as (B1&B2&B3&B4&B5&B6). pose proof (zlen_nonneg (v_body v)) as ZB.
  assert (NP : no_parse_body r = false).
  { destruct (no_parse_body r) eqn:NP; [exfalso|auto]. destruct (i_nobody _ _ _ _ _ _ _ _ I (or_intror DN)). congruence. }
  assert (AN : ~ paused o) by (intros X; destruct (F3 X) as (Q&_); congruence).
  destruct (F2 AN) as (->&->). destruct (c_resp (s_ctx s')) eqn:CR.
  - rewrite (reset_true _ CR) in B1, B2. destruct AP as [AP|AP]; [congruence|]. specialize (AP bo B1). rewrite B2 in AP. destruct AP as [AP|AP].
    + specialize (IL bo eq_refl). replace (slice (v_stream v) a n) with (slice (slice (v_stream v) 0 bo) a n) by (rewrite slice_slice by lia; f_equal; lia).
      rewrite <- IL. unfold bytes_at, poff. cbn [pb po]. rewrite slice_slice by lia. reflexivity.
    + apply (IM bo); auto.
  - destruct (F1 eq_refl) as (_&V0&_). rewrite V0 in EB. discriminate.
Qed.
Print Assumptions C74_buffer_exact.

Lemma apart_at buf r r' b k a n : r_body r' = Some (poff buf b) -> r_bodyLen r' = k -> a + n <= b \/ b + k <= a -> apart buf r r' a n.
Proof. intros A B C. right. intros b' Hb. assert (Q : poff buf b = poff buf b') by congruence. apply poff_inj in Q. subst b' k. exact C. Qed.
(** The chunked body "abcdefg" was put together at place 50, where "abcd" already was; the rest of the data, from the line end that "efg" was
    copied over, are as received from place 57 on. *)
Example C74_case : exists r' w' tr, demo_receives resp_chunked (resp0 200 0) 200 HTTPSuccess r' w' tr /\ recv_faithful (env_of resp_chunked) /\
  data_received tr = concat resp_chunked /\ r_body r' = Some (poff rbuf 50) /\ r_bodyLen r' = 7 /\ apart rbuf (resp0 200 0) r' 0 50 /\ apart rbuf (resp0 200 0) r' 57 12 /\
  bytes_at (w_mem w') (poff rbuf 57) 12 = slice (concat resp_chunked) 57 12 /\ bytes_at (w_mem w') (poff rbuf 50) 7 <> slice (concat resp_chunked) 50 7.
Proof.
  do 3 eexists. split; [demo|]. split; [apply env_of_faithful|]. split; [vm_compute; reflexivity|]. split; [vm_compute; reflexivity|]. split; [vm_compute; reflexivity|].
  split; [apply (apart_at _ _ _ 50 7); [vm_compute; reflexivity|vm_compute; reflexivity|lia]|].
  split; [apply (apart_at _ _ _ 50 7); [vm_compute; reflexivity|vm_compute; reflexivity|lia]|].
  split; vm_compute; [reflexivity|discriminate].
Qed.

(** ** C75 *)
Lemma handed_delivered tr : length (handed tr) = length (delivered tr).
Proof. induction tr as [|[] tr IH]; cbn [handed delivered length]; auto. Qed.
Lemma app_inj_len {A} (a b c d : list A) : length b = length d -> a ++ b = c ++ d -> a = c /\ b = d.
Proof.
  revert c. induction a as [|x a IH]; intros [|y c] L E; cbn [app] in E.
  - auto.
  - exfalso. apply (f_equal (@length A)) in E. cbn [length] in E. rewrite app_length in E. lia.
  - exfalso. apply (f_equal (@length A)) in E. cbn [length] in E. rewrite app_length in E. lia.
  - injection E as -> E. destruct (IH c L E) as (->&->). auto.
Qed.
Lemma handed_nth tr : forall f fl x xl fb xb c, In (THeader f fl x xl fb xb c) tr ->
  exists i, nth_error (handed tr) i = Some ((f, fl), (x, xl)) /\ nth_error (delivered tr) i = Some (fb, xb, c).
Proof.
  induction tr as [|e tr IH]; intros f fl x xl fb xb c HI; [destruct HI|]. destruct HI as [->|HI].
  - exists 0%nat. auto.
  - destruct (IH _ _ _ _ _ _ _ HI) as (i&A&B). destruct e; cbn [handed delivered]; eauto. exists (S i). auto.
Qed.
(** The callback is pointed to where the parser found the name and the value. *)
Lemma handed_places fuel cfg E P t r rh buf L req w st r' w' tr : recv_setup cfg E P t r rh buf L req w -> r_cb r = true ->
  receives fuel cfg E P t r rh w st r' w' tr -> handed tr = map (place buf) (v_locs (view_of tr)) /\ delivered tr = map (text_at (v_stream (view_of tr))) (v_locs (view_of tr)) /\
  Forall (loc_in (zlen (v_stream (view_of tr)))) (v_locs (view_of tr)).
Proof.
  intros H CB HR. destruct (receives_inv _ _ _ _ _ _ _ _ _ _ _ _ _ _ _ H HR) as (trl&o&s'&ph&G&TR&RR&NM&ST&HW&F1&I&_).
  assert (EW : s_w (reset s') = s_w s') by apply reset_same.
  pose proof (i_handed _ _ _ _ _ _ _ _ I CB) as (T0&HH). pose proof (i_seen _ _ _ _ _ _ _ _ I CB) as SS. rewrite EW, <- HW in HH.
  destruct HR as (_&HT). rewrite HT, handed_app in HH. split; [|split; [exact SS|exact (i_locs _ _ _ _ _ _ _ _ I)]].
  apply app_inj_len in HH; [tauto|]. rewrite handed_delivered, SS, !map_length. reflexivity.
Qed.
Lemma handed_loc fuel cfg E P t r rh buf L req w st r' w' tr : recv_setup cfg E P t r rh buf L req w -> recv_faithful E ->
  receives fuel cfg E P t r rh w st r' w' tr -> forall f fl x xl name value c, In (THeader f fl x xl name value c) tr ->
  exists a b d, In ((a, fl), (b, xl), d) (v_locs (view_of tr)) /\ f = poff buf a /\ x = poff buf b /\ 0 <= a /\ 0 <= b /\ 0 <= fl /\ 0 <= xl /\
    a + fl <= zlen (data_received tr) /\ b + xl <= zlen (data_received tr) /\ name = slice (data_received tr) a fl /\ value = slice (data_received tr) b xl.
Proof.
  intros H F HR f fl x xl name value c HI.
  destruct (stream_received _ _ _ _ _ _ _ _ _ _ _ _ _ _ _ H F HR) as (VS&ZR).
  assert (CB : r_cb r = true).
  { destruct (r_cb r) eqn:CB; [auto|exfalso]. destruct (receives_inv _ _ _ _ _ _ _ _ _ _ _ _ _ _ _ H HR) as (trl&o&s'&ph&G&TR&RR&NM&ST&HW&F1&I&_).
    pose proof (i_D _ _ _ _ _ _ _ _ I) as ID. cbn [kof k_cb] in ID. rewrite CB in ID. destruct (handed_nth _ _ _ _ _ _ _ _ HI) as (i&_&N). rewrite ID in N. destruct i; discriminate. }
  destruct (handed_places _ _ _ _ _ _ _ _ _ _ _ _ _ _ _ H CB HR) as (HP&DP&LP). rewrite VS in DP, LP.
  destruct (handed_nth _ _ _ _ _ _ _ _ HI) as (i&N1&N2). rewrite HP in N1. rewrite DP in N2. rewrite nth_error_map in N1, N2.
  destruct (nth_error (v_locs (view_of tr)) i) as [[[[a nl] [b vl]] d]|] eqn:NL; [|discriminate]. cbn [option_map place text_at] in N1, N2.
  apply nth_error_In in NL.
  assert (LI : loc_in (zlen (data_received tr)) (a, nl, (b, vl), d)) by (rewrite Forall_forall in LP; apply LP; auto).
  assert (E1 : f = poff buf a /\ fl = nl /\ x = poff buf b /\ xl = vl) by (repeat split; congruence).
  assert (E2 : name = slice (data_received tr) a nl /\ value = slice (data_received tr) b vl) by (split; congruence).
  destruct E1 as (->&->&->&->). destruct E2 as (->&->). cbn in LI. exists a, b, d. do 3 (split; [auto|]). do 6 (split; [lia|]). auto.
Qed.
Theorem C75_pointers : forall fuel cfg E P t r rh buf L req w st r' w' tr,
  recv_setup cfg E P t r rh buf L req w -> recv_faithful E -> receives fuel cfg E P t r rh w st r' w' tr ->
  forall f fl x xl name value c, In (THeader f fl x xl name value c) tr ->
  exists a b, f = poff buf a /\ x = poff buf b /\ 0 <= a /\ 0 <= b /\ 0 <= fl /\ 0 <= xl /\ a + fl <= zlen (data_received tr) /\ b + xl <= zlen (data_received tr) /\
    name = slice (data_received tr) a fl /\ value = slice (data_received tr) b xl /\
    (apart buf r r' a fl -> bytes_at (w_mem w') f fl = name) /\ (apart buf r r' b xl -> bytes_at (w_mem w') x xl = value).
Proof.
  intros fuel cfg E P t r rh buf L req w st r' w' tr H F HR f fl x xl name value c HI.
  destruct (handed_loc _ _ _ _ _ _ _ _ _ _ _ _ _ _ _ H F HR _ _ _ _ _ _ _ HI) as (a&b&d&LI&->&->&?&?&?&?&?&?&->&->).
  exists a, b. do 2 (split; [auto|]). do 6 (split; [lia|]). do 2 (split; [auto|]).
  split; intros AP; apply (C74_buffer_exact _ _ _ _ _ _ _ _ _ _ _ _ _ _ _ H F HR); auto; lia.
Qed.
Print Assumptions C75_pointers.

(** With one header section at most, what the callback was pointed to is still there when the call returns. *)
Lemma sections_cons e tr : sections (e :: tr) = (match e with TEvent (EvHeadersComplete _ _ _ _) => 1 | _ => 0 end + sections tr)%nat.
Proof. unfold sections. cbn [filter]. destruct e as [| | | |[]| | |]; reflexivity. Qed.
Lemma hend_step v e : match e with TEvent (EvHeadersComplete _ _ _ _) => False | _ => True end -> v_hend (view_step v e) = v_hend v /\ v_h1 (view_step v e) = v_h1 v.
Proof. destruct e as [| | | |[]| | |]; intros H; try destruct H; cbn [view_step view_event]; auto. unfold finish. destruct (v_name v), (v_value v); auto. Qed.
Lemma sections_0 tr : forall v, sections tr = 0%nat -> one_section v -> one_section (fold_left view_step tr v).
Proof.
  induction tr as [|e tr IH]; intros v S O; [exact O|]. rewrite sections_cons in S. cbn [fold_left]. apply IH; [lia|].
  destruct (hend_step v e) as (A&B). { destruct e as [| | | |[]| | |]; try exact Logic.I. lia. }
  unfold one_section. rewrite A, B. exact O.
Qed.
Lemma sections_1 tr : forall v, (sections tr <= 1)%nat -> v_hend v = None -> v_h1 v = None -> one_section (fold_left view_step tr v).
Proof.
  induction tr as [|e tr IH]; intros v S A B; [intros hl p X; cbn [fold_left] in X; congruence|]. rewrite sections_cons in S. cbn [fold_left].
  assert (D : match e with TEvent (EvHeadersComplete _ _ _ _) => False | _ => True end \/ exists p clen close ka, e = TEvent (EvHeadersComplete p clen close ka))
    by (destruct e as [| | | |[]| | |]; auto; right; eauto).
  destruct D as [D|(p&clen&close&ka&->)].
  - destruct (hend_step v e D) as (A1&B1). apply IH; try congruence. destruct e as [| | | |[]| | |]; lia.
  - apply sections_0; [lia|]. cbn [view_step view_event]. intros hl q. cbn [v_hend v_h1].
    assert (F : v_h1 (finish v) = None) by (unfold finish; destruct (v_name v), (v_value v); auto). rewrite F. cbn [or_new]. congruence.
Qed.
Lemma places_apart fuel cfg E P t r rh buf L req w st r' w' tr : recv_setup cfg E P t r rh buf L req w -> receives fuel cfg E P t r rh w st r' w' tr ->
  one_section (view_of tr) -> Forall (fun h : hloc => let '((n, nl), (x, xl), _) := h in apart buf r r' n nl /\ apart buf r r' x xl) (v_locs (view_of tr)).
Proof.
  intros H HR OS. destruct (receives_inv _ _ _ _ _ _ _ _ _ _ _ _ _ _ _ H HR) as (trl&o&s'&ph&G&TR&RR&NM&ST&HW&F1&I&F2&F3&F4).
  set (v := view_of tr) in *. set (k := kof r buf L req (w_mem w)) in *.
  pose proof (y_away _ _ _ (i_stay _ _ _ _ _ _ _ _ I) OS) as AW. pose proof (i_body _ _ _ _ _ _ _ _ I) as IB. change (k_buf k) with buf in *.
  assert (DN : dnp k = no_parse_body r) by (unfold dnp, k, kof; cbn [k_opt]; rewrite dnp_bit; auto).
  apply Forall_forall. intros [[[n nl] [x xl]] c] HI. rewrite Forall_forall in AW. specialize (AW _ HI). cbn [loc_away] in AW. unfold apart.
  destruct (no_parse_body r) eqn:NP; [split; auto|].
  assert (AN : ~ paused o) by (intros X; destruct (F3 X) as (Q&_); congruence). destruct (F2 AN) as (->&->).
  destruct (c_resp (s_ctx s')) eqn:CR; [|destruct (F1 eq_refl) as (_&V0&_); change (v = view0) in V0; rewrite V0 in HI; destruct HI].
  rewrite (reset_true _ CR) in IB. destruct (v_bstart v) as [bo|] eqn:EB.
  - destruct IB as (B1&B2&_). destruct (AW bo eq_refl) as (A1&A2). split; right; intros b Hb; rewrite B1 in Hb; assert (Q : poff buf bo = poff buf b) by congruence; apply poff_inj in Q; subst b; rewrite B2; auto.
  - destruct IB as (B1&B2&_). split; right; intros b Hb; congruence.
Qed.
Theorem C75_pointers_stay_good : forall fuel cfg E P t r rh buf L req w st r' w' tr,
  recv_setup cfg E P t r rh buf L req w -> recv_faithful E -> receives fuel cfg E P t r rh w st r' w' tr -> (sections tr <= 1)%nat ->
  forall f fl x xl name value c, In (THeader f fl x xl name value c) tr -> bytes_at (w_mem w') f fl = name /\ bytes_at (w_mem w') x xl = value.
Proof.
  intros fuel cfg E P t r rh buf L req w st r' w' tr H F HR S f fl x xl name value c HI.
  destruct (handed_loc _ _ _ _ _ _ _ _ _ _ _ _ _ _ _ H F HR _ _ _ _ _ _ _ HI) as (a&b&d&LI&->&->&?&?&?&?&?&?&->&->).
  assert (OS : one_section (view_of tr)) by (apply sections_1; auto).
  pose proof (places_apart _ _ _ _ _ _ _ _ _ _ _ _ _ _ _ H HR OS) as PA. rewrite Forall_forall in PA. destruct (PA _ LI) as (A1&A2).
  split; apply (C74_buffer_exact _ _ _ _ _ _ _ _ _ _ _ _ _ _ _ H F HR); auto; lia.
Qed.
Print Assumptions C75_pointers_stay_good.

(** A trailer field, reported after the body; and, with two responses in one read, a header of the second one that its own body overwrites. *)
Definition resp_over : list bytes :=
  [line (B "HTTP/1.1 200 OK") ++ line (B "Content-Length: 1") ++ [13; 10] ++ B "x" ++ line (B "HTTP/1.1 200 OK") ++ line (B "Content-Length: 40") ++ [13; 10] ++
   B "0123456789012345678901234567890123456789"].
Example C75_case :
  (exists r' w' tr, demo_receives resp_trailer (resp0 200 0) 200 HTTPSuccess r' w' tr /\ recv_faithful (env_of resp_trailer) /\ sections tr = 1%nat /\
     In (THeader (poff rbuf 56) 2 (poff rbuf 60) 1 (B "T1") (B "a") 200) tr /\ bytes_at (w_mem w') (poff rbuf 56) 2 = B "T1") /\
  (exists r' w' tr, demo_receives resp_over (resp0 200 0) 200 HTTPSuccess r' w' tr /\ sections tr = 2%nat /\
     In (THeader (poff rbuf 56) 14 (poff rbuf 72) 2 (B "Content-Length") (B "40") 200) tr /\ bytes_at (w_mem w') (poff rbuf 56) 14 = B "78901234567890").
Proof.
  split; do 3 eexists; (split; [demo|]).
  - split; [apply env_of_faithful|]. split; [vm_compute; reflexivity|]. split; [|vm_compute; reflexivity].
    vm_compute. repeat first [left; reflexivity|right].
  - split; [vm_compute; reflexivity|]. split; [|vm_compute; reflexivity]. vm_compute. repeat first [left; reflexivity|right].
Qed.
