(** ProofsResponse3.v — whole calls to HTTPClient_ReceiveAndParseHttpResponse. *)
From Verif Require Import Base Lib ModelRequest ModelSend ModelResponse SpecRequest SpecSend SpecResponse ProofsRequest ProofsSend ProofsSend2 ProofsResponse ProofsResponse2.

Definition kof (r : response) (buf : ptr) (L : Z) (req : bytes) (m : mem) : kst :=
  mkk buf L (r_cb r) (r_time r) (r_opt r) (beqb (slice req 0 4) HTTP_METHOD_HEAD) (r_hdone r) (r_clen r) m.

Definition errno_of (o : rout) : option errno := match o with OStop e | OStall e => Some e | _ => None end.
Definition final_status (k : kst) (o : rout) (v : view) : status :=
  match errno_of o with
  | None => HTTPNetworkError
  | Some e =>
      match parse_error e with
      | Some st => st
      | None =>
          match v_msg v with
          | MsgNone => HTTPNoResponse
          | MsgComplete => HTTPSuccess
          | MsgBegun => if dnp k then HTTPSuccess
                        else if zlen (v_stream v) =? k_L k then HTTPInsufficientMemory else HTTPPartialResponse
          end
      end
  end.

Lemma dnp_bit x : negb (Z.land x HTTP_RESPONSE_DO_NOT_PARSE_BODY_FLAG =? 0) = Z.testbit x 0.
Proof. pose proof (landf1 x) as H. unfold HTTP_SEND_DISABLE_CONTENT_LENGTH_FLAG in H. unfold HTTP_RESPONSE_DO_NOT_PARSE_BODY_FLAG. rewrite H. apply negb_involutive. Qed.

Lemma Receive_run fuel cfg E P t r rh buf L req w :
  recv_setup cfg E P t r rh buf L req w ->
  let k := kof r buf L req (w_mem w) in
  let t0 := clk E (r_time r) (w_nt w) in
  exists tr o v', rrun E (recv_timeout cfg (r_time r)) k t0 (w_nr w) (clk_next (r_time r) (w_nt w)) view0 tr o v' /\
    match o with
    | OMore => exists w', ReceiveAndParseHttpResponse fuel cfg E P (Some t) (Some r) (Some rh) w = More w' /\
        w_tr w' = w_tr w ++ tick (r_time r) t0 ++ tr /\ recvs tr = Z.of_nat fuel /\ same_outside (w_mem w) (w_mem w') buf L
    | _ => exists r' s', ReceiveAndParseHttpResponse fuel cfg E P (Some t) (Some r) (Some rh) w = Ret (final_status k o v', Some r', s_w s') /\
        w_tr (s_w s') = w_tr w ++ tick (r_time r) t0 ++ tr /\ final cfg k r v' (delivered tr) s' o /\
        (~ paused o -> r' = s_resp s') /\
        (paused o -> exists hl G, v_hend v' = Some (hl, G) /\ r' = set_r_body (s_resp s') (Some (poff buf G)) (zlen (v_stream v') - G))
    end.
Proof.
  intros (HT&RC&(R&R0&PO)&TN&HB&HL&O&LL&(rb&n&H)&HR) k t0.
  unfold ReceiveAndParseHttpResponse. rewrite HT. cbn [assert_at bind].
  unfold initializeParsingContextForFirstResponse. destruct H as (H1&H2&H3&H4&H5). rewrite H1.
  assert (LR : zlen req = rh_len rh) by (rewrite H5; apply bytes_at_len; destruct H3 as (?&?&?); repeat split; lia).
  replace (HTTP_MINIMUM_REQUEST_LINE_LENGTH <=? rh_len rh) with true by (unfold HTTP_MINIMUM_REQUEST_LINE_LENGTH; lia).
  cbn [assert_at bind]. change HTTP_METHOD_HEAD with (B "HEAD") in *.
  rewrite strncmp_eq_ok by (destruct H3 as (?&?&?); change (zlen (B "HEAD")) with 4; repeat split; lia).
  cbn [bind]. change (zlen (B "HEAD")) with 4.
  assert (BR : bytes_at (w_mem w) rb 4 = slice req 0 4).
  { rewrite H5. unfold bytes_at. rewrite slice_slice by (destruct H3 as (?&?&?); lia). f_equal; lia. }
  rewrite BR.
  destruct (get_time_clk E (r_time r) w TN) as (w1&Et&Em&Etr&Enr&Ent). rewrite Et. cbn [bind]. fold t0 in Etr |- *.
  replace (match r_time r with TZero => 0 | _ => RECV_TO cfg end) with (recv_timeout cfg (r_time r)) by (destruct (r_time r); auto; congruence).
  set (c := mkctx _ _ _ _ _ _ _ _). set (s0 := mkst c r w1).
  assert (K : k_ok cfg k) by (split; auto).
  assert (I0 : inv cfg k PhIdle 0 0 view0 [] (reset s0)).
  { unfold reset, s0, c. cbn [s_ctx s_resp s_w c_resp].
    constructor; [|constructor; cbn; intros; auto; discriminate].
    constructor; cbn; rewrite ?poff_0; auto; try discriminate; try lia.
    - split; [discriminate|congruence].
    - rewrite Em. apply same_outside_refl.
    - change (zlen (@nil Z)) with 0. lia.
    - intros [X|X]; congruence.
    - intros [X|X]; congruence.
    - intros hi ->. reflexivity.
    - destruct (r_cb r); auto.
    - intros _. exists (handed (w_tr w1)). symmetry. apply app_nil_r. }
  destruct (recv_loop_run cfg k E P R (recv_timeout cfg (r_time r)) r K RC TN PO fuel t0 (p_init P) s0 PhIdle view0 []) as (tr&o&v'&RR&HO); auto.
  { split; [exact I0|]. intros _. auto. }
  { discriminate. }
  { change (0 < L). lia. }
  exists tr, o, v'. cbn [s0 s_w] in RR. rewrite Enr, Ent in RR. split; [exact RR|].
  change (zlen (v_stream view0)) with 0 in HO. cbn [s0 s_w] in HO. fold s0 in HO. rewrite Etr, <- app_assoc in HO.
  assert (NB : negb (Z.land (r_opt r) HTTP_RESPONSE_DO_NOT_PARSE_BODY_FLAG =? 0) = dnp k) by reflexivity.
  assert (FIN : o <> OMore -> (exists s', recv_loop fuel cfg E P (recv_timeout cfg (r_time r)) 0 t0 (p_init P) s0 = Ret (status_of o, zlen (v_stream v'), s') /\
     w_tr (s_w s') = w_tr w ++ tick (r_time r) t0 ++ tr /\ final cfg k r v' (delivered tr) s' o)) by (intros; destruct o; auto; congruence).
  destruct o as [| |e|e].
  { destruct HO as (w'&Q1&Q2&Q3&Q4). exists w'. rewrite Q1. cbn [bind]. auto. }
  all: destruct (FIN ltac:(discriminate)) as (s'&Q1&Q2&Q3); clear HO FIN; rewrite Q1; cbn [bind status_of].
  { exists (s_resp s'), s'. cbn [is_success]. do 3 (split; [auto|]).
    split; [auto|]. intros [X|X]; discriminate. }
  all: pose proof Q3 as (ph&G&I&F1&F2&F3&F4);
       assert (RT : c_resp (s_ctx s') = true) by (destruct (c_resp (s_ctx s')); auto; destruct (F1 eq_refl) as (_&_&_&X); discriminate X);
       rewrite (reset_true _ RT) in I;
       assert (OP : r_opt (s_resp s') = r_opt r) by exact (i_opt _ _ _ _ _ _ _ _ I);
       assert (PE : paused (OStop e) \/ paused (OStall e) <-> e = HPE_PAUSED) by (unfold paused; split; [intros [[X|X]|[X|X]]; congruence|intros ->; auto]).
  all: assert (DE : e = HPE_PAUSED \/ e <> HPE_PAUSED) by (destruct e; (left; reflexivity) || (right; discriminate)).
  all: pose proof (i_pos _ _ _ _ _ _ _ _ I) as IP; pose proof (i_L _ _ _ _ _ _ _ _ I) as IL; pose proof (i_buf _ _ _ _ _ _ _ _ I) as IB.
  all: assert (GF : forall p b, getFinalResponseStatus (c_state (s_ctx s')) (zlen (v_stream v')) (set_r_body (s_resp s') p b) =
        getFinalResponseStatus (c_state (s_ctx s')) (zlen (v_stream v')) (s_resp s')) by reflexivity.
  all: assert (GS : getFinalResponseStatus (c_state (s_ctx s')) (zlen (v_stream v')) (s_resp s') =
        Ret (match v_msg v' with MsgNone => HTTPNoResponse | MsgComplete => HTTPSuccess
             | MsgBegun => if dnp k then HTTPSuccess else if zlen (v_stream v') =? k_L k then HTTPInsufficientMemory else HTTPPartialResponse end)).
  1,3: (unfold getFinalResponseStatus; rewrite IL; replace (zlen (v_stream v') <=? k_L k) with true by lia; cbn [assert_at bind];
    rewrite (i_state _ _ _ _ _ _ _ _ I), OP; destruct (v_msg v'); cbn [pstate_of]; auto;
    rewrite <- NB; destruct (Z.land (r_opt r) HTTP_RESPONSE_DO_NOT_PARSE_BODY_FLAG =? 0); cbn [negb]; auto;
    destruct (_ =? _); auto).
  - destruct DE as [->|NE].
    + destruct (F3 ltac:(left; reflexivity)) as (D1&D3&hl&D2).
      cbn [processLlhttpError]. rewrite OP, NB, D1, (i_cur _ _ _ _ _ _ _ _ I), IB. unfold psub. cbn [poff pb po]. rewrite Nat.eqb_refl. cbn [bind].
      cbn [is_success]. rewrite GF, GS. cbn [bind]. unfold final_status. cbn [errno_of parse_error].
      eexists _, s'. split; [reflexivity|]. split; [auto|]. split; [auto|]. split; [intros X; exfalso; apply X; left; reflexivity|].
      intros _. exists hl, G. split; [auto|]. f_equal. unfold poff. cbn [po]. change (po (k_buf k)) with (po buf). rewrite Z.mod_small; [lia|]. destruct K as (_&K). change (k_L k) with L in *. lia.
    + assert (NP : ~ paused (OStop e)) by tauto.
      unfold final_status. cbn [errno_of].
      exists (s_resp s'), s'. split; [|split; [auto|split; [auto|split; [auto|tauto]]]].
      destruct e; cbn [processLlhttpError is_success bind parse_error]; auto; try congruence; rewrite GS; reflexivity.
  - destruct DE as [->|NE].
    + destruct (F3 ltac:(right; reflexivity)) as (D1&D3&hl&D2).
      cbn [processLlhttpError]. rewrite OP, NB, D1, (i_cur _ _ _ _ _ _ _ _ I), IB. unfold psub. cbn [poff pb po]. rewrite Nat.eqb_refl. cbn [bind].
      cbn [is_success]. rewrite GF, GS. cbn [bind]. unfold final_status. cbn [errno_of parse_error].
      eexists _, s'. split; [reflexivity|]. split; [auto|]. split; [auto|]. split; [intros X; exfalso; apply X; right; reflexivity|].
      intros _. exists hl, G. split; [auto|]. f_equal. unfold poff. cbn [po]. change (po (k_buf k)) with (po buf). rewrite Z.mod_small; [lia|]. destruct K as (_&K). change (k_L k) with L in *. lia.
    + assert (NP : ~ paused (OStall e)) by tauto.
      unfold final_status. cbn [errno_of].
      exists (s_resp s'), s'. split; [|split; [auto|split; [auto|split; [auto|tauto]]]].
      destruct e; cbn [processLlhttpError is_success bind parse_error]; auto; try congruence; rewrite GS; reflexivity.
Qed.
