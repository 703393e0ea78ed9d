(** PropsFetch.v — C99: HEAD, then the file (SpecFetch.v). *)
From Verif Require Import Base Lib ModelRequest ModelSend ModelResponse SpecRequest SpecSend SpecResponse SpecHttp SpecParser SpecExchange SpecExact SpecSession SpecDownload SpecResume
  ProofsDecimal ProofsRequest ProofsRequest2 ProofsHistory ProofsSend ProofsSend2 ProofsResponse ProofsResponse2 ProofsResponse3 ProofsResponse4 ProofsResponse5 ProofsTwin ProofsExchange RefParser RefRun HttpRun ProofsFollow ProofsEnd Demo DemoResponse
  PropsSend PropsResponse PropsHttp PropsExchange ProofsAny PropsAny PropsAnyExchange PropsExact PropsApi ProofsCount PropsSession PropsDownload SpecRetry PropsRetry PropsEnds PropsResume SpecFetch.

Lemma pieces_ok k N : 0 < k -> 0 <= N -> Forall (fun c => 0 < c <= k) (pieces_of k N) /\ total (pieces_of k N) = N.
Proof.
  intros K HN. unfold pieces_of. pose proof (Z.mod_pos_bound N k K) as MB. pose proof (Z.div_pos N k HN K) as DP. pose proof (Z.div_mod N k ltac:(lia)) as DM.
  assert (TR : forall j, total (repeat k j) = k * Z.of_nat j). { induction j as [|j IH]; cbn [repeat total fold_right]; [lia|]. fold (total (repeat k j)). rewrite IH. lia. }
  split.
  - apply Forall_app. split; [apply Forall_forall; intros c I; apply repeat_spec in I; lia|]. destruct (N mod k =? 0) eqn:Q; constructor; [lia|constructor].
  - rewrite total_app, TR, Z2Nat.id by lia. destruct (N mod k =? 0) eqn:Q; cbn [total fold_right]; lia.
Qed.

Theorem C99_fetch_is_safe : forall fuel cfg P t rih rig p ho h buf n r rbuf L k Es1 Es2 m,
  fetch_setup cfg P t rih rig p ho h buf n r rbuf L Es1 Es2 m -> 0 < k ->
  (exists w, fetch fuel cfg P t rih rig r h k Es1 Es2 m = More w /\ same_outside2 m (w_mem w) buf n rbuf L) \/
  (exists logs1 logs2 o m', fetch fuel cfg P t rih rig r h k Es1 Es2 m = Ret (logs1, logs2, o, m') /\ same_outside2 m m' buf n rbuf L /\ (length logs1 <= length Es1)%nat /\ (length logs2 <= length Es2)%nat).
Proof.
  intros fuel cfg P t rih rig p ho h buf n r rbuf L k Es1 Es2 m (D1&C1&D2) K. unfold fetch.
  destruct (C97_retry_is_safe fuel cfg P t rih (B "HEAD") p ho [] [] buf n None 0 [] r rbuf L 0 Es1 h m D1 ltac:(eapply Forall_impl; [|exact C1]; intros E (?&?&_); auto)) as [(w&X1&X2)|(lo&o&m1&X1&X2&X3)];
    rewrite X1; cbn [bind]; [left; eauto|].
  assert (G : exists logs1 logs2 o0 m', Ret (lo, @nil (list tev), @None (bytes * list Z), m1) = Ret (logs1, logs2, o0, m') /\ same_outside2 m m' buf n rbuf L /\ (length logs1 <= length Es1)%nat /\ (length logs2 <= length Es2)%nat).
  { exists lo, [], None, m1. split; [reflexivity|]. split; [exact X2|]. split; [exact X3|cbn; lia]. }
  destruct o as [((h1&r1)&w1)|]; [|right; exact G]. destruct ((r_status r1 =? 200) && (0 <=? r_clen r1) && (r_clen r1 <=? INT32_MAX + 1)) eqn:Q; [|right; exact G].
  apply andb_true_iff in Q. destruct Q as (Q&Q3). apply andb_true_iff in Q. destruct Q as (_&Q2). destruct (pieces_ok k (r_clen r1) K ltac:(lia)) as (PF&PT).
  destruct (C98_resume_is_safe fuel cfg P t rig p ho buf n r rbuf L Es2 h 0 (pieces_of k (r_clen r1)) m1) as [(w2&Y1&Y2)|(lo2&d&to&m2&got&Y1&Y2&Y3&_)];
    [|lia|eapply Forall_impl; [|exact PF]; cbn beta; intros; lia|lia| |].
  - eapply Forall_impl; [|exact D2]. cbn beta. intros E (DE&_). eapply setup_keeps; [exact DE|exact X2|apply DE|apply DE|apply DE].
  - rewrite Y1. cbn [bind]. left. exists w2. split; [reflexivity|eapply same2_trans; eauto].
  - rewrite Y1. cbn [bind]. right. exists lo, lo2, (Some (d, to)), m2. split; [reflexivity|]. split; [eapply same2_trans; eauto|auto].
Qed.
Print Assumptions C99_fetch_is_safe.

(** With an honest server behind every connection, what the application has is a beginning of the file, and the whole file when no piece is left. *)
Theorem C99_fetch_is_never_wrong : forall fuel cfg P t rih rig p ho h buf n r rbuf L k Es1 Es2 m srv F logs1 logs2 o m',
  reads_http P -> fetch_setup cfg P t rih rig p ho h buf n r rbuf L Es1 Es2 m -> 0 < k -> well_behaved srv -> measures srv p F -> serves srv p F -> zlen F <= INT32_MAX + 1 -> zlen F < SZ cfg ->
  fetch fuel cfg P t rih rig r h k Es1 Es2 m = Ret (logs1, logs2, o, m') -> Forall (honest srv) logs1 -> Forall (honest srv) logs2 ->
  match o with None => True | Some (d, todo) => prefix d F /\ (todo = [] -> d = F) end.
Proof.
  intros fuel cfg P t rih rig p ho h buf n r rbuf L k Es1 Es2 m srv F logs1 logs2 o m' RH (D1&C1&D2) K WB ME SV SZF FS X H1 H2. unfold fetch in X.
  destruct (C97_retry_is_safe fuel cfg P t rih (B "HEAD") p ho [] [] buf n None 0 [] r rbuf L 0 Es1 h m D1 ltac:(eapply Forall_impl; [|exact C1]; intros E (?&?&_); auto)) as [(w&X1&X2)|(lo&o1&m1&X1&X2&X3)];
    rewrite X1 in X; cbn [bind] in X; [discriminate|].
  destruct o1 as [((h1&r1)&w1)|]; [|injection X as _ _ <- _; exact I]. destruct ((r_status r1 =? 200) && (0 <=? r_clen r1) && (r_clen r1 <=? INT32_MAX + 1)) eqn:Q; [|injection X as _ _ <- _; exact I].
  apply andb_true_iff in Q. destruct Q as (Q&Q3). apply andb_true_iff in Q. destruct Q as (Q1&Q2). destruct (pieces_ok k (r_clen r1) K ltac:(lia)) as (PF&PT).
  destruct (resume fuel cfg P t rig r Es2 h 0 (pieces_of k (r_clen r1)) m1) as [[[[lo2 d] to] m2]| | |] eqn:RS; cbn [bind] in X; try discriminate. injection X as <- <- <- <-.
  assert (LH : length_header 0 0 []) by (cbn; auto).
  assert (NB : forall hs bd dd, p_body (srv (line_of (B "HEAD") p) hs bd) <> ToClose dd).
  { intros hs bd dd PB. pose proof (WB (line_of (B "HEAD") p) hs bd) as (_&HB). rewrite PB in HB. destruct HB as (HB&_). apply HB. left. reflexivity. }
  destruct (C97_retry_is_right fuel cfg P t rih (B "HEAD") p ho [] [] buf n None 0 [] r rbuf L 0 [] srv Es1 h m lo (Some (h1, r1, w1)) m1 RH D1 C1 eq_refl LH WB (NB _ _) X1 H1) as (_&_&before&_&_&_&G).
  destruct (g_clen _ _ _ _ _ _ _ _ G) as (cl&GC&GE). pose proof (g_code _ _ _ _ _ _ _ _ G) as GS.
  apply ME in GC; [|rewrite <- GS; lia]. subst cl. pose proof (zlen_nonneg F). rewrite Z.mod_small in GE by lia.
  eapply (C98_resume_is_never_wrong fuel cfg P t rig p ho h buf n r rbuf L srv F Es2 (pieces_of k (r_clen r1)) m1 lo2 d to m2 RH WB SV SZF); [| | |lia|exact RS|exact H2].
  - eapply Forall_impl; [|exact D2]. cbn beta. intros E (_&?). auto.
  - eapply Forall_impl; [|exact D2]. cbn beta. intros E (DE&_). eapply setup_keeps; [exact DE|exact X2|apply DE|apply DE|apply DE].
  - eapply Forall_impl; [|exact PF]. cbn beta. intros. lia.
Qed.
Print Assumptions C99_fetch_is_never_wrong.

(** With clocks that advance, or without, it comes to an end. *)
Theorem C99_fetch_ends : forall fuel cfg P t rih rig p ho h buf n r rbuf L k Es1 Es2 m,
  fetch_setup cfg P t rih rig p ho h buf n r rbuf L Es1 Es2 m -> 0 < k -> Forall (fun E => enough cfg E r n 0 L fuel) (Es1 ++ Es2) ->
  exists logs1 logs2 o m', fetch fuel cfg P t rih rig r h k Es1 Es2 m = Ret (logs1, logs2, o, m').
Proof.
  intros fuel cfg P t rih rig p ho h buf n r rbuf L k Es1 Es2 m (D1&C1&D2) K EN. apply Forall_app in EN. destruct EN as (EN1&EN2). unfold fetch.
  destruct (C97_retry_ends fuel cfg P t rih (B "HEAD") p ho [] [] buf n None 0 [] r rbuf L 0 Es1 h m D1 ltac:(eapply Forall_impl; [|exact C1]; intros E (?&?&_); auto) EN1) as (lo&o&m1&X1&_).
  destruct (C97_retry_is_safe fuel cfg P t rih (B "HEAD") p ho [] [] buf n None 0 [] r rbuf L 0 Es1 h m D1 ltac:(eapply Forall_impl; [|exact C1]; intros E (?&?&_); auto)) as [(w&Q&_)|(lo'&o'&m1'&Q&X2&_)];
    rewrite X1 in Q; [discriminate|]. injection Q as <- <- <-. rewrite X1. cbn [bind].
  destruct o as [((h1&r1)&w1)|]; [|eauto 6]. destruct ((r_status r1 =? 200) && (0 <=? r_clen r1) && (r_clen r1 <=? INT32_MAX + 1)) eqn:Q; [|eauto 6].
  apply andb_true_iff in Q. destruct Q as (Q&Q3). apply andb_true_iff in Q. destruct Q as (_&Q2). destruct (pieces_ok k (r_clen r1) K ltac:(lia)) as (PF&PT).
  destruct (C98_resume_ends fuel cfg P t rig p ho buf n r rbuf L Es2 h 0 (pieces_of k (r_clen r1)) m1) as (lo2&d&to&m2&Y1);
    [|exact EN2|lia|eapply Forall_impl; [|exact PF]; cbn beta; intros; lia|lia|rewrite Y1; cbn [bind]; eauto 6].
  eapply Forall_impl; [|exact D2]. cbn beta. intros E (DE&_). eapply setup_keeps; [exact DE|exact X2|apply DE|apply DE|apply DE].
Qed.
Print Assumptions C99_fetch_ends.

(** If one of the first connections does its part for the HEAD request and the next one for the download (as in C97 and C96), the application has the file. *)
Theorem C99_fetch_completes : forall fuel cfg P t rih rig p ho h buf n r rbuf L k Es1 E m srv F K logs1 o1 m1 reqs pss,
  reads_http P -> fetch_setup cfg P t rih rig p ho h buf n r rbuf L Es1 [E] m -> 0 < k -> well_behaved srv -> measures srv p F -> serves srv p F -> serves_all srv p F K ->
  0 < zlen F <= INT32_MAX + 1 -> zlen F < SZ cfg -> n < Z.of_nat fuel -> k + K <= L ->
  let hs := init_headers (UA cfg) (ri_flags rih) ho in let resp := srv (line_of (B "HEAD") p) hs [] in
  retry fuel cfg P t rih [] None 0 0 r h Es1 m = Ret (logs1, o1, m1) -> Forall (honest srv) logs1 ->
  code_of resp = 200 -> zlen (http_bytes resp) <= L -> zlen (whole_request (B "HEAD") p hs []) <= n -> Exists (works cfg r fuel resp) Es1 ->
  (forall i k, 0 < k -> 0 < e_send E i k) -> range_requests cfg (ri_flags rig) p ho 0 (pieces_of k (zlen F)) reqs -> Forall (fun q => zlen (text_of q) <= n) reqs ->
  Forall2 (arrives cfg E r fuel srv) reqs pss -> feeds E 0 (concat pss) ->
  exists tr m2, fetch fuel cfg P t rih rig r h k Es1 [E] m = Ret (logs1, [tr], Some (F, []), m2) /\ accepted tr = flat_map text_of reqs.
Proof.
  intros fuel cfg P t rih rig p ho h buf n r rbuf L k Es1 E m srv F K logs1 o1 m1 reqs pss RH (D1&C1&D2) K0 WB ME SV SA SZF FS FU KL hs resp X1 HN C2 RL RN EX WI RR FN FA FE.
  assert (LH : length_header 0 0 []) by (cbn; auto). pose proof (Forall_inv D2) as (DE&RF).
  assert (NB : forall dd, p_body resp <> ToClose dd).
  { intros dd PB. pose proof (WB (line_of (B "HEAD") p) hs []) as (_&HB). fold resp in HB. rewrite PB in HB. destruct HB as (HB&_). apply HB. left. reflexivity. }
  assert (AH : all_headers cfg rih ho [] [] = hs) by (unfold all_headers; rewrite !app_nil_r; reflexivity).
  assert (O1 : o1 <> None).
  { apply (C97_retry_succeeds fuel cfg P t rih (B "HEAD") p ho [] [] buf n None 0 [] r rbuf L 0 [] resp Es1 h m logs1 o1 m1 RH D1 C1 LH (WB _ _ _) NB RL ltac:(rewrite AH; exact RN) ltac:(lia) EX X1). }
  destruct (C97_retry_is_safe fuel cfg P t rih (B "HEAD") p ho [] [] buf n None 0 [] r rbuf L 0 Es1 h m D1 ltac:(eapply Forall_impl; [|exact C1]; intros E' (?&?&_); auto)) as [(w&Q&_)|(lo'&o'&m1'&Q&X2&_)];
    rewrite X1 in Q; [discriminate|]. injection Q as <- <- <-. destruct o1 as [((h1&r1)&w1)|]; [|congruence].
  destruct (C97_retry_is_right fuel cfg P t rih (B "HEAD") p ho [] [] buf n None 0 [] r rbuf L 0 [] srv Es1 h m logs1 (Some (h1, r1, w1)) m1 RH D1 C1 eq_refl LH WB ltac:(rewrite AH; exact NB) X1 HN) as (_&_&before&_&_&_&G).
  rewrite AH in G. fold resp in G. destruct (g_clen _ _ _ _ _ _ _ _ G) as (cl&GC&GE). pose proof (g_code _ _ _ _ _ _ _ _ G) as GS. apply ME in GC; [|exact C2]. subst cl. rewrite Z.mod_small in GE by lia.
  unfold fetch. rewrite X1. cbn [bind]. rewrite GE, GS, C2. replace (0 <=? zlen F) with true by lia. replace (zlen F <=? INT32_MAX + 1) with true by lia. cbn [Z.eqb Pos.eqb andb].
  destruct (pieces_ok k (zlen F) K0 ltac:(lia)) as (PF&PT).
  assert (DE1 : download_setup cfg E P t rig p ho h buf n r rbuf L m1) by (eapply setup_keeps; [exact DE|exact X2|apply DE|apply DE|apply DE]).
  destruct (pieces_of k (zlen F)) as [|c cs] eqn:PQ; [cbn in PT; lia|].
  destruct (last_completes fuel cfg P t rig p ho buf n r rbuf L srv F K E reqs pss RH RF WI WB SV SA ltac:(lia) FU FN FA FE [] h 0 (c :: cs) m1 [] [] (c :: cs) m1 ltac:(constructor; [exact DE1|constructor]) ltac:(lia)
    ltac:(eapply Forall_impl; [|exact PF]; cbn beta; intros; lia) ltac:(lia) eq_refl ltac:(discriminate) RR) as (tr&m2&Y1&Y2&_).
  cbn [app] in Y1. rewrite Y1. cbn [bind]. exists tr, m2. split; [|exact Y2]. do 3 f_equal. change (zlen (@nil Z)) with 0. rewrite Z.add_0_r, Z.sub_0_r, slice_full by reflexivity. reflexivity.
Qed.
Print Assumptions C99_fetch_completes.

(** ** Such servers exist: the file server of C96, which answers HEAD requests with the length of the file. *)
Definition r200 (n : Z) : http := mkhttp 49 (B "200") (B "OK") [mkhline (B "Content-Length") (B " ") (to_dec n)] NoBody.
Definition sized_server (F : bytes) : server := fun line hs b => if beqb (slice line 0 4) (B "HEAD") then r200 (zlen F) else file_server F line hs b.
Lemma r200_ok n : 0 <= n <= INT32_MAX -> http_ok true (r200 n) /\ forall x, http_clen (r200 n) x -> x = n.
Proof.
  intros N. destruct (digits_clen n N) as (D1&D2&D3).
  assert (C : content_length (p_headers (r200 n)) (Some n)).
  { pose proof (CLhere (mkhline (B "Content-Length") (B " ") (to_dec n)) [] eq_refl D1 CLnil) as C. cbn [h_value] in C. rewrite D2 in C. exact C. }
  split.
  - split; [split; [right; reflexivity|]|left; reflexivity]. split; [reflexivity|]. split; [repeat constructor; discriminate|]. split; [vm_compute; discriminate|]. split; [repeat constructor; discriminate|]. split; [|eauto].
    apply Forall_cons; [|apply Forall_nil]. split; [discriminate|]. split; [repeat constructor; discriminate|]. split; [constructor; [left; reflexivity|constructor]|]. cbn [h_value]. rewrite Forall_forall in D3. split.
    + rewrite Forall_forall. intros c I. specialize (D3 c I). unfold digit in D3. unfold text_char, CR, LF. lia.
    + intros c x E. assert (I : In c (to_dec n)) by (rewrite E; left; reflexivity). specialize (D3 c I). unfold digit in D3. unfold blank, SPACE. lia.
  - intros x (o&CL&->). cbn [p_headers r200] in CL. inversion CL as [|hh hs o' NE CL'|hh hs EQ CH CL']; subst; [exfalso; apply NE; reflexivity|]. cbn [h_value]. exact D2.
Qed.
Lemma sized_server_ok F p : zlen F <= INT32_MAX -> well_behaved (sized_server F) /\ measures (sized_server F) p F /\ serves (sized_server F) p F /\ serves_all (sized_server F) p F 60.
Proof.
  intros N. pose proof (zlen_nonneg F). destruct (file_server_ok F p N) as (A1&A2&A3). destruct (r200_ok (zlen F) ltac:(lia)) as (B1&B2).
  assert (HD : forall hs bd, sized_server F (line_of (B "HEAD") p) hs bd = r200 (zlen F)).
  { intros. unfold sized_server. change (beqb (slice (line_of (B "HEAD") p) 0 4) (B "HEAD")) with true. reflexivity. }
  assert (GT : forall hs bd, sized_server F (B "GET " ++ p ++ B " HTTP/1.1") hs bd = file_server F (B "GET " ++ p ++ B " HTTP/1.1") hs bd).
  { intros. unfold sized_server. change (beqb (slice (B "GET " ++ p ++ B " HTTP/1.1") 0 4) (B "HEAD")) with false. reflexivity. }
  split; [|split; [|split]].
  - intros line hs b. unfold sized_server. destruct (beqb (slice line 0 4) (B "HEAD")) eqn:Q; [exact B1|]. rewrite <- Q. apply A1.
  - intros hs bd x _ CL. rewrite HD in CL. apply B2, CL.
  - intros hs bd v a b. rewrite GT. apply A2.
  - intros hs bd v a b. cbv zeta. rewrite GT. apply A3.
Qed.
Theorem C99_such_servers_exist : forall F p, zlen F <= INT32_MAX -> exists srv, well_behaved srv /\ measures srv p F /\ serves srv p F /\ serves_all srv p F 60.
Proof. intros F p N. exists (sized_server F). apply sized_server_ok; auto. Qed.
Print Assumptions C99_such_servers_exist.

(** ** Case: one connection for the HEAD request, whose answer comes in two pieces; the file has 43 bytes, so it is downloaded in pieces of 22 and 21 bytes; the first connection for that delivers the
    first piece and 15 bytes of the answer with the second, and is cut; the second one delivers the second piece. *)
Definition E_half2 : env := mkenv (fun _ k => Z.min k 50)
  (fun i room => match i with O => give (http_bytes (r206 (slice file_d 0 22))) room | S O => give (firstn 15 (http_bytes (r206 (slice file_d 22 21)))) room | _ => (-1, []) end) (fun n => 100 * Z.of_nat n).
Definition E_rest2 : env := env_ex (cut_d (http_bytes (r206 (slice file_d 22 21)))).
Lemma half2_ok : send_contract E_half2 /\ recv_contract E_half2 /\ recv_faithful E_half2.
Proof.
  split; [intros i k H; cbn [E_half2 e_send]; lia|]. set (ps := [http_bytes (r206 (slice file_d 0 22)); firstn 15 (http_bytes (r206 (slice file_d 22 21)))]). split.
  - intros i k H. destruct i as [|[|i]]; cbn [E_half2 e_recv]; [exact (env_of_contract ps 0%nat k H)|exact (env_of_contract ps 1%nat k H)|cbn; change (zlen (@nil Z)) with 0; lia].
  - intros i k. destruct i as [|[|i]]; cbn [E_half2 e_recv]; [exact (env_of_faithful ps 0%nat k)|exact (env_of_faithful ps 1%nat k)|cbn; intros; lia].
Qed.
Definition ri_head : reqInfo := mkri (SLit (B "HEAD")) 4 (SLit (B "/f")) 2 (SLit (B "h")) 1 0.
Definition E_head : env := env_ex (cut_d (http_bytes (r200 43))).
Lemma setup_f : fetch_setup cfg0 refparser trr ri_head ri_d (B "/f") (B "h") h_d buf0 300 rsep rbuf 300 [E_head] [E_half2; E_rest2] (w_mem w_d).
Proof.
  destruct half2_ok as (H1&H2&H3). destruct (env_ex_ok (cut_d (http_bytes (r200 43)))) as (G1&G2&G3&_). destruct (env_ex_ok (cut_d (http_bytes (r206 (slice file_d 22 21))))) as (J1&J2&J3&_).
  split; [|split; [constructor; [split; [exact G1|split; [exact G2|exact G3]]|constructor]|]].
  2:{ constructor; [split; [apply setup_u; auto|exact H3]|constructor; [split; [apply setup_u; auto|exact J3]|constructor]]. }
  split; [exact cfg0_ok|]. split; [exists 32; split; [lia|reflexivity]|]. split; [exact refparser_ok|]. do 4 (split; [reflexivity|]). split; [vm_compute; split; discriminate|]. split; [vm_compute; repeat split; discriminate|]. split; [reflexivity|].
  split; [vm_compute; repeat split; try discriminate; auto; right; repeat split; discriminate|]. split; [split; vm_compute; discriminate|].
  do 3 (split; [split; intros X; vm_compute in X; intuition discriminate|]). do 3 (split; [exact I|]).
  split; [constructor|]. split; [constructor|]. split; [constructor|]. split; [constructor|]. split; [vm_compute; split; discriminate|]. split; [reflexivity|].
  split; [split; [reflexivity|reflexivity]|]. split; [exact I|]. split; [reflexivity|]. split; [reflexivity|]. split; [vm_compute; repeat split; discriminate|]. split; [vm_compute; split; [reflexivity|reflexivity]|reflexivity].
Qed.
Example C99_case : let srv := sized_server file_d in
  fetch_setup cfg0 refparser trr ri_head ri_d (B "/f") (B "h") h_d buf0 300 rsep rbuf 300 [E_head] [E_half2; E_rest2] (w_mem w_d) /\ well_behaved srv /\ measures srv (B "/f") file_d /\ serves srv (B "/f") file_d /\
  exists log0 log1 log2 m2, fetch 400 cfg0 refparser trr ri_head ri_d rsep h_d 22 [E_head] [E_half2; E_rest2] (w_mem w_d) = Ret ([log0], [log1; log2], Some (file_d, []), m2) /\
    honest srv log0 /\ honest srv log1 /\ honest srv log2.
Proof.
  intros srv. destruct (sized_server_ok file_d (B "/f") ltac:(vm_compute; discriminate)) as (A1&A2&A3&_). split; [exact setup_f|]. split; [exact A1|]. split; [exact A2|]. split; [exact A3|].
  set (X := fetch 400 cfg0 refparser trr ri_head ri_d rsep h_d 22 [E_head] [E_half2; E_rest2] (w_mem w_d)).
  assert (Q : match X with Ret ([log0], [log1; log2], Some (d, []), m1) => honest_b srv log0 && honest_b srv log1 && honest_b srv log2 && beqb d file_d | _ => false end = true) by (vm_compute; reflexivity).
  destruct X as [[[[[|log0 [|]] [|log1 [|log2 [|]]]] [[d [|]]|]] m2]| | |]; try discriminate. apply andb_true_iff in Q. destruct Q as (Q&Q4). apply andb_true_iff in Q. destruct Q as (Q&Q3). apply andb_true_iff in Q. destruct Q as (Q1&Q2). apply beqb_eq in Q4. subst d.
  exists log0, log1, log2, m2. split; [reflexivity|]. split; [apply honest_ok, Q1|]. split; [apply honest_ok, Q2|apply honest_ok, Q3].
Qed.
Example C99_ends_case : exists fuel logs1 logs2 o m', Forall (fun E => enough cfg0 E rsep 300 0 300 fuel) ([E_head] ++ [E_half2; E_rest2]) /\
  fetch fuel cfg0 refparser trr ri_head ri_d rsep h_d 22 [E_head] [E_half2; E_rest2] (w_mem w_d) = Ret (logs1, logs2, o, m').
Proof.
  assert (A : forall E, (forall k, e_time E k = 100 * Z.of_nat k) -> enough cfg0 E rsep 300 0 300 (Z.to_nat 100000000)).
  { intros E Q. unfold enough. cbn [rsep r_time]. rewrite Z2Nat.id by lia. cbn [cfg0 SEND_TO RECV_TO]. split; [|split; [|lia]]; intros k; rewrite !Q; lia. }
  exists (Z.to_nat 100000000). assert (EN : Forall (fun E => enough cfg0 E rsep 300 0 300 (Z.to_nat 100000000)) ([E_head] ++ [E_half2; E_rest2])) by (repeat (constructor; [apply A; reflexivity|]); constructor).
  destruct (C99_fetch_ends (Z.to_nat 100000000) cfg0 refparser trr ri_head ri_d (B "/f") (B "h") h_d buf0 300 rsep rbuf 300 22 [E_head] [E_half2; E_rest2] (w_mem w_d) setup_f ltac:(lia) EN) as (l1&l2&o&m'&Q).
  exists l1, l2, o, m'. split; [exact EN|exact Q].
Qed.
