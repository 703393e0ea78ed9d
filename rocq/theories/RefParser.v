(** RefParser.v — a reference HTTP/1.1 response parser with llhttp's interface.  It is not a model of
    llhttp (whose source is not in /repo): it is one parser that reads the response grammar byte by
    byte and reports the documented callbacks, used to show that the parser contract of SpecResponse.v
    can be met, for the concrete cases, and for the end-to-end property C43.
    Like llhttp it reports a name, value or body piece when it ends or when the data of the call end;
    it continues with the next message after a complete one; it skips CR and LF before a message; it
    reports a folded header value (obsolete line folding) in several pieces; and it is given a
    zero-length call at the end of the input. *)
From Verif Require Import Base Lib ModelRequest ModelSend ModelResponse SpecRequest SpecSend SpecResponse.

Inductive rstate :=
| Start                       (* between messages *)
| Ver (i : nat)               (* [i] characters of "HTTP/1." read *)
| Minor | VSp
| Code (k : nat) (acc : Z)    (* [k] digits of the status code read *)
| CodeEnd
| Reason | ReasonLF
| HStart                      (* at the beginning of a header line *)
| Field                       (* in a header name *)
| VWs                         (* in the white space before a value *)
| Val | ValLF
| VFold                       (* after the line of a header: it may be continued *)
| EndLF                       (* after the CR of the blank line *)
| HEnd                        (* the headers just ended *)
| BodyN (n : Z) | BodyEof
| CkStart | CkSize (v : Z) | CkExt (v : Z) | CkLF (v : Z) | CkData (n : Z) | CkCR | CkDLF
| Dead (e : errno).

Record rst := mkrst {
  q_st : rstate;
  q_tr : bool;                          (* in the trailer section *)
  q_code : Z;
  q_name : bytes;  q_val : bytes;       (* the header being read, or the last one read in this section *)
  q_clen : option Z;  q_chunked : bool;  q_close : bool;  q_ka : bool;
  (* everything reported so far *)
  q_hdrs : list (bytes * bytes * Z);
  q_body : bytes
}.
Definition rinit : rst := mkrst Start false 0 [] [] None false false false [] [].

Definition to (s : rst) (x : rstate) : rst :=
  mkrst x (q_tr s) (q_code s) (q_name s) (q_val s) (q_clen s) (q_chunked s) (q_close s) (q_ka s) (q_hdrs s) (q_body s).
Definition is_digit (c : Z) : bool := (48 <=? c) && (c <=? 57).
Definition hexval (c : Z) : option Z :=
  if is_digit c then Some (c - 48)
  else if (97 <=? c) && (c <=? 102) then Some (c - 87)
  else if (65 <=? c) && (c <=? 70) then Some (c - 55) else None.
Definition is_tchar (c : Z) : bool := (33 <=? c) && (c <=? 126) && negb (c =? COLON).
Definition is_ws (c : Z) : bool := (c =? SPACE) || (c =? 9).
Definition lower (c : Z) : Z := if (65 <=? c) && (c <=? 90) then c + 32 else c.
Fixpoint beq (a b : bytes) : bool :=
  match a, b with
  | [], [] => true
  | x :: a', y :: b' => (x =? y) && beq a' b'
  | _, _ => false
  end.
Definition ieq (a b : bytes) : bool := beq (map lower a) (map lower b).
Definition decval (d : bytes) : Z := fold_left (fun acc c => acc * 10 + (c - 48)) d 0.

(** A header is finished: its meaning for the framing of the message. *)
Definition interpret (s : rst) : rst :=
  let n := q_name s in
  let v := q_val s in
  let s1 := mkrst (q_st s) (q_tr s) (q_code s) n v (q_clen s) (q_chunked s) (q_close s) (q_ka s)
                  (q_hdrs s ++ [(n, v, q_code s)]) (q_body s) in
  if q_tr s then s1
  else if ieq n (B "content-length") then
    if match q_clen s with None => true | _ => false end
    then if forallb is_digit v && (0 <? zlen v) && (zlen v <=? 19)
         then mkrst (q_st s1) (q_tr s1) (q_code s1) n v (Some (decval v)) (q_chunked s1) (q_close s1) (q_ka s1) (q_hdrs s1) (q_body s1)
         else to s1 (Dead HPE_INVALID_CONTENT_LENGTH)
    else to s1 (Dead HPE_UNEXPECTED_CONTENT_LENGTH)
  else if ieq n (B "transfer-encoding") && ieq v (B "chunked") then
    mkrst (q_st s1) (q_tr s1) (q_code s1) n v (q_clen s1) true (q_close s1) (q_ka s1) (q_hdrs s1) (q_body s1)
  else if ieq n (B "connection") && ieq v (B "close") then
    mkrst (q_st s1) (q_tr s1) (q_code s1) n v (q_clen s1) (q_chunked s1) true (q_ka s1) (q_hdrs s1) (q_body s1)
  else if ieq n (B "connection") && ieq v (B "keep-alive") then
    mkrst (q_st s1) (q_tr s1) (q_code s1) n v (q_clen s1) (q_chunked s1) (q_close s1) true (q_hdrs s1) (q_body s1)
  else s1.

(** What a byte makes the parser report. *)
Inductive kind := KBegin | KStatus | KStatusDone | KField | KValue | KEmptyValue | KBody | KDone.

Definition set_name (s : rst) (n v : bytes) : rst :=
  mkrst (q_st s) (q_tr s) (q_code s) n v (q_clen s) (q_chunked s) (q_close s) (q_ka s) (q_hdrs s) (q_body s).
Definition add_body (s : rst) (c : Z) : rst :=
  mkrst (q_st s) (q_tr s) (q_code s) (q_name s) (q_val s) (q_clen s) (q_chunked s) (q_close s) (q_ka s) (q_hdrs s) (q_body s ++ [c]).
Definition set_code (s : rst) (x : Z) : rst :=
  mkrst (q_st s) (q_tr s) x (q_name s) (q_val s) (q_clen s) (q_chunked s) (q_close s) (q_ka s) (q_hdrs s) (q_body s).
Definition set_tr (s : rst) (x : bool) : rst :=
  mkrst (q_st s) x (q_code s) [] [] (q_clen s) (q_chunked s) (q_close s) (q_ka s) (q_hdrs s) (q_body s).
(** A new message begins. *)
Definition fresh (s : rst) : rst :=
  mkrst (q_st s) false (q_code s) [] [] None false false false (q_hdrs s) (q_body s).

Definition end_of_headers (s : rst) : list kind * rst :=
  if q_tr s then ([KDone], to s Start) else ([], to s HEnd).
Definition hstart (s : rst) (c : Z) : list kind * rst :=
  if c =? CR then ([], to s EndLF)
  else if c =? LF then end_of_headers s
  else if is_tchar c then ([], to (set_name s [c] []) Field)
  else ([], to s (Dead HPE_INVALID_HEADER_TOKEN)).

Definition VERSION : bytes := B "HTTP/1.".
Definition step (s : rst) (c : Z) : list kind * rst :=
  match q_st s with
  | Start =>
      if (c =? CR) || (c =? LF) then ([], s)
      else if c =? 72 then ([KBegin], to (fresh s) (Ver 1))
      else ([], to s (Dead HPE_INVALID_CONSTANT))
  | Ver i =>
      if c =? nth i VERSION 0 then ([], to s (if Nat.eqb i 6 then Minor else Ver (S i)))
      else ([], to s (Dead HPE_INVALID_VERSION))
  | Minor => if (c =? 48) || (c =? 49) then ([], to s VSp) else ([], to s (Dead HPE_INVALID_VERSION))
  | VSp => if c =? SPACE then ([], to s (Code 0 0)) else ([], to s (Dead HPE_INVALID_VERSION))
  | Code k acc =>
      if is_digit c
      then let acc' := acc * 10 + (c - 48) in
           if Nat.leb 2 k then ([], to (set_code s acc') CodeEnd) else ([], to s (Code (S k) acc'))
      else ([], to s (Dead HPE_INVALID_STATUS))
  | CodeEnd =>
      if c =? SPACE then ([], to s Reason)
      else if c =? CR then ([], to s ReasonLF)
      else if c =? LF then ([KStatusDone], to s HStart)
      else ([], to s (Dead HPE_INVALID_STATUS))
  | Reason =>
      if c =? CR then ([KStatus], to s ReasonLF)
      else if c =? LF then ([KStatus; KStatusDone], to s HStart)
      else ([], s)
  | ReasonLF => if c =? LF then ([KStatusDone], to s HStart) else ([], to s (Dead HPE_STRICT))
  | HStart => hstart s c
  | Field =>
      if c =? COLON then ([KField], to s VWs)
      else if is_tchar c then ([], set_name s (q_name s ++ [c]) (q_val s))
      else ([], to s (Dead HPE_INVALID_HEADER_TOKEN))
  | VWs =>
      if is_ws c then ([], s)
      else if c =? CR then ([KEmptyValue], to s ValLF)
      else if c =? LF then ([KEmptyValue], to s VFold)
      else ([], to (set_name s (q_name s) [c]) Val)
  | Val =>
      if c =? CR then ([KValue], to s ValLF)
      else if c =? LF then ([KValue], to s VFold)
      else ([], set_name s (q_name s) (q_val s ++ [c]))
  | ValLF => if c =? LF then ([], to s VFold) else ([], to s (Dead HPE_LF_EXPECTED))
  | VFold =>
      if is_ws c then ([], to (set_name s (q_name s) (q_val s ++ [c])) Val)
      else let s1 := interpret s in
           match q_st s1 with Dead _ => ([], s1) | _ => hstart s1 c end
  | EndLF => if c =? LF then end_of_headers s else ([], to s (Dead HPE_STRICT))
  | HEnd => ([], to s (Dead (HPE_OTHER 0)))      (* not reached *)
  | BodyN n => if n <=? 1 then ([KBody; KDone], to (add_body s c) Start) else ([], to (add_body s c) (BodyN (n - 1)))
  | BodyEof => ([], add_body s c)
  | CkStart => match hexval c with Some v => ([], to s (CkSize v)) | None => ([], to s (Dead HPE_INVALID_CHUNK_SIZE)) end
  | CkSize v =>
      match hexval c with
      | Some x => if v <? 2 ^ 59 then ([], to s (CkSize (v * 16 + x))) else ([], to s (Dead HPE_INVALID_CHUNK_SIZE))
      | None =>
          if c =? CR then ([], to s (CkLF v))
          else if c =? 59 then ([], to s (CkExt v))
          else ([], to s (Dead HPE_INVALID_CHUNK_SIZE))
      end
  | CkExt v => if c =? CR then ([], to s (CkLF v)) else if c =? LF then ([], to s (Dead HPE_STRICT)) else ([], s)
  | CkLF v =>
      if c =? LF
      then if v =? 0 then ([], to (set_tr s true) HStart) else ([], to s (CkData v))
      else ([], to s (Dead HPE_STRICT))
  | CkData n => if n <=? 1 then ([KBody], to (add_body s c) CkCR) else ([], to (add_body s c) (CkData (n - 1)))
  | CkCR => if c =? CR then ([], to s CkDLF) else ([], to s (Dead HPE_STRICT))
  | CkDLF => if c =? LF then ([], to s CkStart) else ([], to s (Dead HPE_STRICT))
  | Dead _ => ([], s)
  end.

(** After the headers ([nobody]: the callback said there is no body). *)
Definition no_content (code : Z) : bool := (code <? 200) || (code =? 204) || (code =? 304).
Definition after_hdrs (nobody : bool) (s : rst) : list kind * rst :=
  if nobody || no_content (q_code s) then ([KDone], to s Start)
  else if q_chunked s then ([], to s CkStart)
  else match q_clen s with
       | Some n => if n =? 0 then ([KDone], to s Start) else ([], to s (BodyN n))
       | None => ([], to s BodyEof)
       end.

(** Reporting [k] with a piece beginning at [sp], at position [pos]. *)
Definition event (s : rst) (k : kind) (sp pos : Z) : pevent :=
  match k with
  | KBegin => EvMessageBegin
  | KStatus => EvStatus sp (pos - sp) (q_code s)
  | KStatusDone => EvStatusComplete (q_code s)
  | KField => EvField sp (pos - sp)
  | KValue => EvValue sp (pos - sp)
  | KEmptyValue => EvValue pos 0
  | KBody => EvBody sp (pos + 1 - sp)
  | KDone => EvMessageComplete
  end.
Fixpoint emit (evs : list pevent) (t : ptree rst) : ptree rst :=
  match evs with
  | [] => t
  | e :: evs' => PEmit e (fun _ => emit evs' t)
  end.

Definition in_piece (x : rstate) : bool :=
  match x with Reason | Field | Val | BodyN _ | BodyEof | CkData _ => true | _ => false end.
(** The piece at the end of the data of a call. *)
Definition flush (s : rst) (sp pos : Z) : list pevent :=
  if sp <? pos then
    match q_st s with
    | Reason => [EvStatus sp (pos - sp) (q_code s)]
    | Field => [EvField sp (pos - sp)]
    | Val => [EvValue sp (pos - sp)]
    | BodyN _ | BodyEof | CkData _ => [EvBody sp (pos - sp)]
    | _ => []
    end
  else [].
(** Where the current piece begins, after the byte at [pos]. *)
Definition next_sp (s s1 : rst) (ks : list kind) (sp pos : Z) : Z :=
  match ks with
  | [] => if in_piece (q_st s) then sp
          else match q_st s1 with Field | Val => pos | _ => pos + 1 end
  | _ => pos + 1
  end.

Definition clen_field (s : rst) : Z := match q_clen s with Some n => n | None => 0 end.

Fixpoint go (s : rst) (d : bytes) (sp pos : Z) : ptree rst :=
  match d with
  | [] => emit (flush s sp pos) (PDone HPE_OK s)
  | c :: d' =>
      let '(ks, s1) := step s c in
      emit (map (fun k => event s1 k sp pos) ks)
        match q_st s1 with
        | Dead e => PDone e s1
        | HEnd =>
            PEmit (EvHeadersComplete (pos + 1) (clen_field s1) (q_close s1) (q_ka s1))
              (fun r =>
                 let '(ks2, s2) := after_hdrs (match r with CbNoBody => true | _ => false end) s1 in
                 emit (map (fun k => event s2 k (pos + 1) (pos + 1)) ks2) (go s2 d' (pos + 1) (pos + 1)))
        | _ => go s1 d' (next_sp s s1 ks sp pos) (pos + 1)
        end
  end.

Definition rexec (s : rst) (d : bytes) : ptree rst :=
  match d with
  | [] =>   (* the end of the input *)
      match q_st s with
      | Start => PDone HPE_OK s
      | BodyEof => PEmit EvMessageComplete (fun _ => PDone HPE_OK (to s Start))
      | Dead e => PDone e s
      | _ => PDone HPE_INVALID_EOF_STATE s
      end
  | _ => match q_st s with Dead e => PDone e s | _ => go s d 0 0 end
  end.
Definition refparser : parser := mkparser rst rinit rexec.

(** ** It keeps the parser contract *)
(** The phases a state can be in between calls. *)
Definition allowed (s : rst) (ph : phase) : Prop :=
  match q_st s with
  | Start => ph = PhIdle
  | Ver _ | Minor | VSp | Code _ _ | CodeEnd | Reason | ReasonLF => ph = PhStatus /\ q_tr s = false
  | HStart => if q_tr s then ph = PhBody false else ph = PhHdr
  | Field | VWs => if q_tr s then ph = PhTField true else ph = PhField true
  | Val | ValLF | VFold => if q_tr s then ph = PhTValue else ph = PhValue
  | EndLF => if q_tr s then ph = PhBody false \/ ph = PhTValue else ph = PhHdr \/ ph = PhValue
  | BodyN _ | BodyEof | CkStart | CkSize _ | CkExt _ | CkLF _ | CkData _ | CkCR | CkDLF => ph = PhBody false
  | HEnd => False
  | Dead e => False
  end.
(** The numbers are in range. *)
Definition CLMAX := 10000000000000000000.
Definition ranges (s : rst) : Prop :=
  0 <= q_code s < 1000 /\ (forall n, q_clen s = Some n -> 0 <= n < CLMAX) /\
  match q_st s with
  | Code k acc => (k <= 2)%nat /\ 0 <= acc < 10 ^ Z.of_nat k
  | Dead e => goes_on e = false /\ e <> HPE_PAUSED
  | _ => True
  end.
(** Inside a call at [pos], the current piece beginning at [sp]; a name or a value may not have been
    reported yet. *)
Definition allowed_in (s : rst) (ph : phase) (sp pos : Z) : Prop :=
  allowed s ph \/
  match q_st s with
  | Field => sp < pos /\ (if q_tr s then ph = PhBody false \/ ph = PhTValue else ph = PhHdr \/ ph = PhValue)
  | Val => sp < pos /\ (if q_tr s then ph = PhTField true else ph = PhField true)
  | _ => False
  end.

Definition Rr (s : rst) (ph : phase) : Prop := allowed s ph /\ ranges s.

Lemma decval_range d : forallb is_digit d = true -> 0 <= decval d < 10 ^ zlen d.
Proof.
  unfold decval. induction d as [|c d IH] using rev_ind; intros H; [cbn; lia|].
  rewrite forallb_app, andb_true_iff in H. destruct H as (H&H2). cbn [forallb] in H2.
  specialize (IH H). rewrite fold_left_app. cbn [fold_left]. unfold is_digit in H2.
  rewrite zlen_app. change (zlen [c]) with 1. rewrite Z.pow_add_r by (pose proof (zlen_nonneg d); lia). lia.
Qed.

Lemma interpret_st s : q_st (interpret s) = q_st s \/
  exists e, q_st (interpret s) = Dead e /\ goes_on e = false /\ e <> HPE_PAUSED.
Proof.
  unfold interpret. destruct (q_tr s); [auto|]. destruct (ieq _ _).
  - destruct (match q_clen s with None => true | _ => false end).
    + destruct (_ && _ && _); [auto|]. right. exists HPE_INVALID_CONTENT_LENGTH. repeat split; discriminate.
    + right. exists HPE_UNEXPECTED_CONTENT_LENGTH. repeat split; discriminate.
  - destruct (_ && _); [auto|]. destruct (_ && _); [auto|]. destruct (_ && _); auto.
Qed.
Lemma interpret_tr s : q_tr (interpret s) = q_tr s.
Proof.
  unfold interpret. destruct (q_tr s) eqn:E; [auto|]. destruct (ieq _ _).
  - destruct (match q_clen s with None => true | _ => false end); [destruct (_ && _ && _)|]; auto.
  - destruct (_ && _); [auto|]. destruct (_ && _); [auto|]. destruct (_ && _); auto.
Qed.
Lemma interpret_code s : q_code (interpret s) = q_code s.
Proof.
  unfold interpret. destruct (q_tr s) eqn:E; [auto|]. destruct (ieq _ _).
  - destruct (match q_clen s with None => true | _ => false end); [destruct (_ && _ && _)|]; auto.
  - destruct (_ && _); [auto|]. destruct (_ && _); [auto|]. destruct (_ && _); auto.
Qed.
Lemma interpret_clen s : (forall n, q_clen s = Some n -> 0 <= n < CLMAX) -> forall n, q_clen (interpret s) = Some n -> 0 <= n < CLMAX.
Proof.
  intros H. unfold interpret. destruct (q_tr s) eqn:E; [auto|]. destruct (ieq _ _).
  - destruct (match q_clen s with None => true | _ => false end); [|auto].
    destruct (forallb is_digit (q_val s) && (0 <? zlen (q_val s)) && (zlen (q_val s) <=? 19)) eqn:F; [|auto].
    rewrite !andb_true_iff in F. destruct F as ((F1&F2)&F3). intros n X. injection X as <-.
    pose proof (decval_range _ F1). assert (10 ^ zlen (q_val s) <= 10 ^ 19) by (apply Z.pow_le_mono_r; lia). change CLMAX with (10 ^ 19). lia.
  - destruct (_ && _); [auto|]. destruct (_ && _); [auto|]. destruct (_ && _); auto.
Qed.

(** A list of events leading from one phase to another, inside the data of a call. *)
Inductive path (n : Z) : phase -> Z -> list pevent -> phase -> Z -> Prop :=
| path_nil ph pos : path n ph pos [] ph pos
| path_cons ph pos ev ph1 evs ph2 pos2 : ev_ok pos n ev -> (forall r, next_phase ph ev r = Some ph1) ->
    path n ph1 (ev_end pos ev) evs ph2 pos2 -> path n ph pos (ev :: evs) ph2 pos2.

Lemma conforms_emit n evs : forall ph pos ph2 pos2 t, path n ph pos evs ph2 pos2 ->
  conforms Rr n ph2 pos2 t -> conforms Rr n ph pos (emit evs t).
Proof.
  induction evs as [|ev evs IH]; intros ph pos ph2 pos2 t H C; inversion H; subst; [exact C|].
  cbn [emit conforms]. split; [auto|]. intros r _. exists ph1. split; [auto|]. eapply IH; eauto.
Qed.

(** One byte. *)
Definition hend_phase (ph : phase) : Prop := ph = PhHdr \/ ph = PhValue.
Lemma ranges_intro s : 0 <= q_code s < 1000 -> (forall n, q_clen s = Some n -> 0 <= n < CLMAX) ->
  match q_st s with Code _ _ | Dead _ => False | _ => True end -> ranges s.
Proof. intros H1 H2 H3. split; [auto|]. split; [auto|]. destruct (q_st s); auto; contradiction. Qed.
Lemma ranges_dead s e : ranges s -> goes_on e = false -> e <> HPE_PAUSED -> ranges (to s (Dead e)).
Proof. intros (A&C&_) G N. split; [exact A|]. split; [exact C|]. cbn. auto. Qed.

Definition step_ok (s : rst) (ph : phase) (sp pos n ep : Z) (ks : list kind) (s1 : rst) : Prop :=
  ranges s1 /\
  exists ph1 ep1, path n ph ep (map (fun k => event s1 k sp pos) ks) ph1 ep1 /\ ep1 <= pos + 1 /\
    match q_st s1 with
    | Dead _ => True
    | HEnd => hend_phase ph1 /\ ep1 <= pos
    | _ => allowed_in s1 ph1 (next_sp s s1 ks sp pos) (pos + 1) /\ ep1 <= next_sp s s1 ks sp pos <= pos + 1
    end.

Lemma ok_dead s ph sp pos n ep e : ranges s -> ep <= pos -> goes_on e = false -> e <> HPE_PAUSED ->
  step_ok s ph sp pos n ep [] (to s (Dead e)).
Proof.
  intros R HE G N. split; [apply ranges_dead; auto|]. exists ph, ep. split; [constructor|]. split; [lia|]. cbn. auto.
Qed.

Lemma hstart_ok s0 s ph sp pos n ep c : ranges s -> in_piece (q_st s0) = false -> 
  (if q_tr s then ph = PhBody false \/ ph = PhTValue else ph = PhHdr \/ ph = PhValue) -> 0 <= ep <= pos -> pos < n ->
  match q_st s with Code _ _ | Dead _ => False | _ => True end ->
  step_ok s0 ph sp pos n ep (fst (hstart s c)) (snd (hstart s c)).
Proof.
  intros R NP HP HE HN NC. pose proof R as (R1&R2&_). unfold hstart, end_of_headers.
  destruct (c =? CR).
  { split; [apply ranges_intro; cbn; auto|]. exists ph, ep. cbn [fst snd map to q_st]. split; [constructor|]. split; [lia|].
    split; [left; unfold allowed; cbn [to q_st q_tr]; exact HP|]. unfold next_sp. rewrite NP. cbn. lia. }
  destruct (c =? LF).
  { destruct (q_tr s) eqn:ET; cbn [fst snd map].
    - split; [apply ranges_intro; cbn; auto|]. exists PhIdle, ep. split.
      { cbn [event]. eapply path_cons; [exact I| |cbn [ev_end]; constructor].
        intros r. destruct HP as [-> | ->]; reflexivity. }
      split; [lia|]. cbn [to q_st]. split; [left; reflexivity|]. unfold next_sp. cbn. lia.
    - split; [apply ranges_intro; cbn; auto|]. exists ph, ep. split; [constructor|]. split; [lia|]. cbn [to q_st]. split; [exact HP|lia]. }
  destruct (is_tchar c).
  { split; [apply ranges_intro; cbn; auto|]. exists ph, ep. cbn [fst snd map to q_st]. split; [constructor|]. split; [lia|].
    unfold next_sp. rewrite NP. cbn [q_st to]. split; [right; cbn [q_st to set_name q_tr]; split; [lia|exact HP]|lia]. }
  cbn [fst snd]. split; [apply ranges_dead; auto; discriminate|]. exists ph, ep. split; [constructor|]. split; [lia|]. exact I.
Qed.

Lemma step_conforms s ph sp pos n ep c : ranges s -> allowed_in s ph sp pos -> 0 <= ep -> ep <= sp <= pos -> pos < n ->
  (in_piece (q_st s) = false -> ep <= pos) ->
  step_ok s ph sp pos n ep (fst (step s c)) (snd (step s c)).
Proof.
  intros R AI Hep Hsp HN _. pose proof R as (R1&R2&R3).
  assert (AL : match q_st s with Field | Val => True | _ => allowed s ph end).
  { destruct AI as [AI|AI]; [destruct (q_st s); auto|]. destruct (q_st s); auto; contradiction. }
  unfold step. unfold allowed in AL.
  assert (OKs : forall s1 ks ph1 ep1, ranges s1 -> path n ph ep (map (fun k => event s1 k sp pos) ks) ph1 ep1 ->
     match q_st s1 with Dead _ => False | HEnd => False | _ => True end ->
     allowed s1 ph1 -> ep1 <= next_sp s s1 ks sp pos <= pos + 1 -> step_ok s ph sp pos n ep ks s1).
  { intros s1 ks ph1 ep1 A1 A2 A3 A4 A5. split; [auto|]. exists ph1, ep1. split; [auto|]. split; [lia|].
    destruct (q_st s1); try contradiction; (split; [left; auto|auto]). }
  assert (KEEP : forall s1, ranges s1 -> match q_st s1 with Code _ _ | Dead _ | HEnd | Field | Val => False | _ => True end ->
     in_piece (q_st s) = false -> allowed s1 ph -> step_ok s ph sp pos n ep [] s1).
  { intros s1 A1 A2 A3 A4. apply (OKs s1 [] ph ep); auto; [constructor| |].
    - destruct (q_st s1); auto.
    - unfold next_sp. rewrite A3. destruct (q_st s1); try contradiction; lia. }
  destruct (q_st s) eqn:ES; cbn [fst snd].
  - (* Start *) destruct ((c =? CR) || (c =? LF)); cbn [fst snd].
    { apply KEEP; rewrite ?ES; auto. unfold allowed. rewrite ES. auto. }
    destruct (c =? 72); cbn [fst snd]; [|apply ok_dead; auto; (lia || discriminate)].
    apply (OKs _ _ PhStatus ep); cbn; auto.
    + apply ranges_intro; cbn; auto. discriminate.
    + eapply path_cons; [exact I| |constructor]. intros r. rewrite AL. reflexivity.
    + lia.
  - (* Ver *) destruct (c =? nth i VERSION 0); cbn [fst snd]; [|apply ok_dead; auto; (lia || discriminate)].
    destruct (Nat.eqb i 6); apply KEEP; cbn; auto; apply ranges_intro; cbn; auto.
  - (* Minor *) destruct (_ || _); cbn [fst snd]; [|apply ok_dead; auto; (lia || discriminate)].
    apply KEEP; cbn; auto; apply ranges_intro; cbn; auto.
  - (* VSp *) destruct (_ =? _); cbn [fst snd]; [|apply ok_dead; auto; (lia || discriminate)].
    apply (OKs _ [] ph ep); [|constructor|exact I|exact AL|unfold next_sp; rewrite ES; cbn; lia].
    split; [exact R1|]. split; [exact R2|]. cbn. lia.
  - (* Code *) destruct (is_digit c) eqn:ED; cbn [fst snd]; [|apply ok_dead; auto; (lia || discriminate)].
    unfold is_digit in ED. destruct R3 as (R3&R4).
    destruct (Nat.leb 2 k) eqn:EK; cbn [fst snd].
    + apply Nat.leb_le in EK. assert (k = 2%nat) by lia. subst k. change (10 ^ Z.of_nat 2) with 100 in R4.
      apply KEEP; cbn; auto. apply ranges_intro; cbn; auto. lia.
    + apply Nat.leb_gt in EK.
      apply (OKs _ [] ph ep); [|constructor|exact I|exact AL|unfold next_sp; rewrite ES; cbn; lia].
      split; [exact R1|]. split; [exact R2|]. cbn [to q_st]. split; [lia|].
      rewrite Nat2Z.inj_succ, Z.pow_succ_r by lia. lia.
  - (* CodeEnd *) destruct (c =? SPACE); cbn [fst snd]; [apply KEEP; cbn; auto; apply ranges_intro; cbn; auto|].
    destruct (c =? CR); cbn [fst snd]; [apply KEEP; cbn; auto; apply ranges_intro; cbn; auto|].
    destruct (c =? LF); cbn [fst snd]; [|apply ok_dead; auto; (lia || discriminate)].
    destruct AL as (->&AL). apply (OKs _ _ PhHdr ep); cbn; auto; try lia.
    + apply ranges_intro; cbn; auto.
    + eapply path_cons; [cbn; lia| |constructor]. reflexivity.
    + unfold allowed. cbn. rewrite AL. auto.
  - (* Reason *) destruct AL as (->&AL).
    destruct (c =? CR); cbn [fst snd]; [|destruct (c =? LF); cbn [fst snd]].
    + apply (OKs _ _ PhStatus pos); cbn; auto; try lia; [apply ranges_intro; cbn; auto|].
      eapply path_cons; [cbn; lia| |cbn [ev_end]; replace (sp + (pos - sp)) with pos by lia; constructor]. reflexivity.
    + apply (OKs _ _ PhHdr pos); cbn; auto; try lia.
      * apply ranges_intro; cbn; auto.
      * eapply path_cons; [cbn; lia| |cbn [ev_end]; replace (sp + (pos - sp)) with pos by lia; eapply path_cons; [cbn; lia| |constructor]]; reflexivity.
      * unfold allowed. cbn. rewrite AL. auto.
    + apply (OKs _ [] PhStatus ep); rewrite ?ES; auto; [constructor| |unfold next_sp; rewrite ES; cbn; lia].
      unfold allowed. rewrite ES. auto.
  - (* ReasonLF *) destruct AL as (->&AL).
    destruct (c =? LF); cbn [fst snd]; [|apply ok_dead; auto; (lia || discriminate)].
    apply (OKs _ _ PhHdr ep); cbn; auto; try lia.
    + apply ranges_intro; cbn; auto.
    + eapply path_cons; [cbn; lia| |constructor]. reflexivity.
    + unfold allowed. cbn. rewrite AL. auto.
  - (* HStart *) apply hstart_ok; rewrite ?ES; auto; [|lia]. destruct (q_tr s); auto.
  - (* Field *)
    destruct (c =? COLON); cbn [fst snd]; [|destruct (is_tchar c); cbn [fst snd]].
    + apply (OKs _ _ (if q_tr s then PhTField true else PhField true) pos); cbn; auto; try lia.
      * apply ranges_intro; cbn; auto.
      * eapply path_cons; [cbn; lia| |cbn [ev_end]; replace (sp + (pos - sp)) with pos by lia; constructor].
        intros r. unfold allowed_in, allowed in AI. rewrite ES in AI. destruct (q_tr s).
        -- destruct AI as [->|(A1&[->| ->])]; cbn; auto; replace (0 <? pos - sp) with true by lia; auto.
        -- destruct AI as [->|(A1&[->| ->])]; cbn; auto; replace (0 <? pos - sp) with true by lia; auto.
      * unfold allowed. cbn. destruct (q_tr s); auto.
    + split; [apply ranges_intro; cbn; rewrite ?ES; auto|]. exists ph, ep. cbn [map]. split; [constructor|]. split; [lia|].
      unfold set_name at 1. cbn [q_st]. rewrite ES. unfold next_sp. rewrite ES. cbn [in_piece].
      split; [|lia]. unfold allowed_in, allowed in AI |- *. cbn [set_name q_st q_tr]. rewrite ES in *.
      destruct AI as [AI|(A1&A2)]; [left; auto|right; split; [lia|auto]].
    + apply ok_dead; auto; (lia || discriminate).
  - (* VWs *)
    destruct (is_ws c); cbn [fst snd]; [apply KEEP; rewrite ?ES; auto; unfold allowed; rewrite ES; auto|].
    destruct (c =? CR); cbn [fst snd]; [|destruct (c =? LF); cbn [fst snd]].
    + apply (OKs _ _ (if q_tr s then PhTValue else PhValue) pos); cbn; auto; try lia.
      * apply ranges_intro; cbn; auto.
      * eapply path_cons; [cbn; lia| |cbn [ev_end]; rewrite Z.add_0_r; constructor].
        intros r. destruct (q_tr s); rewrite AL; reflexivity.
      * unfold allowed. cbn. destruct (q_tr s); auto.
    + apply (OKs _ _ (if q_tr s then PhTValue else PhValue) pos); cbn; auto; try lia.
      * apply ranges_intro; cbn; auto.
      * eapply path_cons; [cbn; lia| |cbn [ev_end]; rewrite Z.add_0_r; constructor].
        intros r. destruct (q_tr s); rewrite AL; reflexivity.
      * unfold allowed. cbn. destruct (q_tr s); auto.
    + split; [apply ranges_intro; cbn; auto|]. exists ph, ep. cbn [map to q_st]. split; [constructor|]. split; [lia|].
      unfold next_sp. rewrite ES. cbn [in_piece q_st to]. split; [|lia]. right. cbn [q_st to q_tr set_name]. split; [lia|]. auto.
  - (* Val *)
    destruct (c =? CR); cbn [fst snd]; [|destruct (c =? LF); cbn [fst snd]].
    + apply (OKs _ _ (if q_tr s then PhTValue else PhValue) pos); cbn; auto; try lia.
      * apply ranges_intro; cbn; auto.
      * eapply path_cons; [cbn; lia| |cbn [ev_end]; replace (sp + (pos - sp)) with pos by lia; constructor].
        intros r. unfold allowed_in, allowed in AI. rewrite ES in AI. destruct (q_tr s); destruct AI as [->|(_& ->)]; reflexivity.
      * unfold allowed. cbn. destruct (q_tr s); auto.
    + apply (OKs _ _ (if q_tr s then PhTValue else PhValue) pos); cbn; auto; try lia.
      * apply ranges_intro; cbn; auto.
      * eapply path_cons; [cbn; lia| |cbn [ev_end]; replace (sp + (pos - sp)) with pos by lia; constructor].
        intros r. unfold allowed_in, allowed in AI. rewrite ES in AI. destruct (q_tr s); destruct AI as [->|(_& ->)]; reflexivity.
      * unfold allowed. cbn. destruct (q_tr s); auto.
    + split; [apply ranges_intro; cbn; rewrite ?ES; auto|]. exists ph, ep. cbn [map]. split; [constructor|]. split; [lia|].
      unfold set_name at 1. cbn [q_st]. rewrite ES. unfold next_sp. rewrite ES. cbn [in_piece].
      split; [|lia]. unfold allowed_in, allowed in AI |- *. cbn [set_name q_st q_tr]. rewrite ES in *.
      destruct AI as [AI|(A1&A2)]; [left; auto|right; split; [lia|auto]].
  - (* ValLF *) destruct (c =? LF); cbn [fst snd]; [|apply ok_dead; auto; (lia || discriminate)].
    apply KEEP; cbn; auto; apply ranges_intro; cbn; auto.
  - (* VFold *)
    destruct (is_ws c); cbn [fst snd].
    + split; [apply ranges_intro; cbn; auto|]. exists ph, ep. cbn [map to q_st]. split; [constructor|]. split; [lia|].
      unfold next_sp. rewrite ES. cbn [in_piece q_st to]. split; [|lia]. left. unfold allowed. cbn [q_st to q_tr set_name]. auto.
    + assert (RI : ranges (interpret s)).
      { split; [rewrite interpret_code; auto|]. split; [apply interpret_clen; auto|].
        destruct (interpret_st s) as [X|(e&X&Y1&Y2)]; rewrite X; [rewrite ES; auto|auto]. }
      destruct (interpret_st s) as [X|(e&X&Y1&Y2)]; rewrite X.
      * rewrite ES. apply hstart_ok; rewrite ?ES, ?X; auto; [|lia|rewrite ES; auto]. rewrite interpret_tr. destruct (q_tr s); auto.
      * cbn [fst snd]. split; [auto|]. exists ph, ep. split; [constructor|]. split; [lia|]. rewrite X. auto.
  - (* EndLF *) destruct (c =? LF); cbn [fst snd]; [|apply ok_dead; auto; (lia || discriminate)].
    unfold end_of_headers. destruct (q_tr s) eqn:ET; cbn [fst snd].
    + apply (OKs _ _ PhIdle ep); cbn; auto; try lia; [apply ranges_intro; cbn; auto|].
      eapply path_cons; [exact I| |constructor]. intros r. destruct AL as [->| ->]; reflexivity.
    + split; [apply ranges_intro; cbn; auto|]. exists ph, ep. split; [constructor|]. split; [lia|]. cbn. split; [exact AL|lia].
  - contradiction.
  - (* BodyN *) destruct (n0 <=? 1); cbn [fst snd].
    + apply (OKs _ _ PhIdle (pos + 1)); cbn; auto; try lia; [apply ranges_intro; cbn; auto|].
      eapply path_cons; [cbn; lia| |cbn [ev_end]; replace (sp + (pos + 1 - sp)) with (pos + 1) by lia; eapply path_cons; [exact I| |constructor]].
      * instantiate (1 := PhBody false). intros r. rewrite AL. reflexivity.
      * reflexivity.
    + apply (OKs _ [] ph ep); cbn; auto; [apply ranges_intro; cbn; auto|constructor|unfold next_sp; rewrite ES; cbn; lia].
  - (* BodyEof *) assert (Q : q_st (add_body s c) = BodyEof) by exact ES. apply (OKs _ [] ph ep).
    + apply ranges_intro; rewrite ?Q; auto.
    + constructor.
    + rewrite Q. auto.
    + unfold allowed. rewrite Q. auto.
    + unfold next_sp. rewrite ES. cbn. lia.
  - (* CkStart *) destruct (hexval c); cbn [fst snd]; [|apply ok_dead; auto; (lia || discriminate)].
    apply KEEP; cbn; auto; apply ranges_intro; cbn; auto.
  - (* CkSize *) destruct (hexval c).
    + destruct (v <? 2 ^ 59); cbn [fst snd]; [|apply ok_dead; auto; (lia || discriminate)]. apply KEEP; cbn; auto; apply ranges_intro; cbn; auto.
    + destruct (c =? CR); cbn [fst snd]; [apply KEEP; cbn; auto; apply ranges_intro; cbn; auto|].
      destruct (c =? 59); cbn [fst snd]; [|apply ok_dead; auto; (lia || discriminate)]. apply KEEP; cbn; auto; apply ranges_intro; cbn; auto.
  - (* CkExt *) destruct (c =? CR); cbn [fst snd]; [apply KEEP; cbn; auto; apply ranges_intro; cbn; auto|].
    destruct (c =? LF); cbn [fst snd]; [apply ok_dead; auto; (lia || discriminate)|].
    apply KEEP; rewrite ?ES; auto. unfold allowed. rewrite ES. auto.
  - (* CkLF *) destruct (c =? LF); cbn [fst snd]; [|apply ok_dead; auto; (lia || discriminate)].
    destruct (v =? 0); cbn [fst snd]; apply KEEP; cbn; auto; apply ranges_intro; cbn; auto.
  - (* CkData *) destruct (n0 <=? 1); cbn [fst snd].
    + apply (OKs _ _ (PhBody false) (pos + 1)); cbn; auto; try lia; [apply ranges_intro; cbn; auto|].
      eapply path_cons; [cbn; lia| |cbn [ev_end]; replace (sp + (pos + 1 - sp)) with (pos + 1) by lia; constructor].
      intros r. rewrite AL. reflexivity.
    + apply (OKs _ [] ph ep); cbn; auto; [apply ranges_intro; cbn; auto|constructor|unfold next_sp; rewrite ES; cbn; lia].
  - (* CkCR *) destruct (c =? CR); cbn [fst snd]; [|apply ok_dead; auto; (lia || discriminate)].
    apply KEEP; cbn; auto; apply ranges_intro; cbn; auto.
  - (* CkDLF *) destruct (c =? LF); cbn [fst snd]; [|apply ok_dead; auto; (lia || discriminate)].
    apply KEEP; cbn; auto; apply ranges_intro; cbn; auto.
  - contradiction.
Qed.

Lemma go_conforms n d : forall s ph sp pos ep, n = pos + zlen d ->
  ranges s -> allowed_in s ph sp pos -> 0 <= ep -> ep <= sp <= pos -> q_st s <> HEnd -> (forall e, q_st s <> Dead e) ->
  conforms Rr n ph ep (go s d sp pos).
Proof.
  induction d as [|c d IH]; intros s ph sp pos ep Hn R AI Hep Hsp NH ND.
  - cbn [go]. change (zlen (@nil Z)) with 0 in Hn.
    assert (PD : forall ph', allowed s ph' -> conforms Rr n ph' (sp + (pos - sp)) (PDone HPE_OK s) /\ conforms Rr n ph' ep (PDone HPE_OK s)).
    { intros ph' A. assert (Rr s ph') by (split; auto). cbn. split; (split; [discriminate|auto]). }
    unfold flush. destruct (Z.ltb_spec sp pos).
    + unfold allowed_in in AI.
      assert (AF : q_st s <> Field -> q_st s <> Val -> allowed s ph) by (intros N1 N2; destruct AI as [AI|AI]; auto; destruct (q_st s); contradiction || congruence).
      destruct (q_st s) eqn:ES; cbn [emit]; try (apply PD; apply AF; congruence); try congruence.
      * specialize (AF ltac:(discriminate) ltac:(discriminate)). pose proof AF as AF'. unfold allowed in AF. rewrite ES in AF. destruct AF as (->&_). destruct R as (R1&_).
        cbn [conforms]. split; [cbn; lia|]. intros r _. exists PhStatus. split; [reflexivity|]. apply PD; auto.
      * cbn [conforms]. split; [cbn; lia|]. intros r _. exists (if q_tr s then PhTField true else PhField true).
        split. { unfold allowed in AI. rewrite ES in AI. destruct (q_tr s); destruct AI as [->|(_&[->| ->])]; cbn; auto; replace (0 <? pos - sp) with true by lia; auto. }
        apply PD. unfold allowed. rewrite ES. destruct (q_tr s); auto.
      * cbn [conforms]. split; [cbn; lia|]. intros r _. exists (if q_tr s then PhTValue else PhValue).
        split. { unfold allowed in AI. rewrite ES in AI. destruct (q_tr s); destruct AI as [->|(_& ->)]; reflexivity. }
        apply PD. unfold allowed. rewrite ES. destruct (q_tr s); auto.
      * specialize (AF ltac:(discriminate) ltac:(discriminate)). pose proof AF as AF'. unfold allowed in AF. rewrite ES in AF. subst ph.
        cbn [conforms]. split; [cbn; lia|]. intros r _. exists (PhBody false). split; [reflexivity|]. apply PD; auto.
      * specialize (AF ltac:(discriminate) ltac:(discriminate)). pose proof AF as AF'. unfold allowed in AF. rewrite ES in AF. subst ph.
        cbn [conforms]. split; [cbn; lia|]. intros r _. exists (PhBody false). split; [reflexivity|]. apply PD; auto.
      * specialize (AF ltac:(discriminate) ltac:(discriminate)). pose proof AF as AF'. unfold allowed in AF. rewrite ES in AF. subst ph.
        cbn [conforms]. split; [cbn; lia|]. intros r _. exists (PhBody false). split; [reflexivity|]. apply PD; auto.
    + cbn [emit]. apply PD. destruct AI as [AI|AI]; auto. destruct (q_st s); try contradiction; lia.
  - rewrite zlen_cons in Hn. pose proof (zlen_nonneg d).
    pose proof (step_conforms s ph sp pos n ep c R AI Hep Hsp ltac:(lia) ltac:(lia)) as (R1&ph1&ep1&PA&HE&X).
    cbn [go]. destruct (step s c) as [ks s1] eqn:ES. cbn [fst snd] in *.
    eapply conforms_emit; [exact PA|].
    assert (EP0 : 0 <= ep1).
    { clear -PA Hep Hsp. revert PA Hep. generalize ph ep. induction (map (fun k : kind => event s1 k sp pos) ks) as [|ev evs IH]; intros ph0 ep0 PA Hep; inversion PA; subst; [auto|].
      apply (IH _ _ H7). destruct ev; cbn [ev_end ev_ok] in *; lia. }
    destruct (q_st s1) eqn:E1; try (destruct X as (X1&X2); apply IH; auto; [lia|rewrite E1; discriminate|rewrite E1; discriminate]).
    + (* HEnd *) destruct X as (X1&X2). cbn [conforms]. pose proof R1 as (Q1&Q2&_).
      split. { cbn. split; [lia|]. unfold clen_field. destruct (q_clen s1) as [x|] eqn:EC; [specialize (Q2 x eq_refl); unfold CLMAX in Q2; unfold UINT64_MAX; lia|unfold UINT64_MAX; lia]. }
      intros r Hr. exists (PhBody (match r with CbNoBody => true | _ => false end)).
      split. { destruct X1 as [->| ->]; reflexivity. }
      set (nb := match r with CbNoBody => true | _ => false end).
      cbn [ev_end].
      assert (MC : forall s2, ranges s2 -> q_st s2 = Start -> conforms Rr n (PhBody nb) (pos + 1) (PEmit EvMessageComplete (fun _ => go s2 d (pos + 1) (pos + 1)))).
      { intros s2 RS E2. cbn [conforms]. split; [exact I|]. intros r' _. exists PhIdle. split; [unfold nb; destruct r; reflexivity|]. cbn [ev_end].
        apply IH; auto; try lia; [|rewrite E2; discriminate|rewrite E2; discriminate]. left. unfold allowed. rewrite E2. auto. }
      unfold after_hdrs. destruct (nb || no_content (q_code s1)) eqn:EN; [apply (MC (to s1 Start)); auto; apply ranges_intro; cbn; auto|].
      apply orb_false_iff in EN. destruct EN as (EN&_). rewrite EN in *.
      destruct (q_chunked s1).
      { cbn [map emit]. apply IH; cbn; try lia; try discriminate; [apply ranges_intro; cbn; auto|left; reflexivity]. }
      destruct (q_clen s1) as [x|] eqn:EC.
      * destruct (x =? 0); [apply (MC (to s1 Start)); auto; apply ranges_intro; cbn; auto; rewrite EC; auto|].
        cbn [map emit]. apply IH; cbn; try lia; try discriminate; [apply ranges_intro; cbn; auto; rewrite EC; auto|left; reflexivity].
      * cbn [map emit]. apply IH; cbn; try lia; try discriminate; [apply ranges_intro; cbn; auto; rewrite EC; discriminate|left; reflexivity].
    + (* Dead *) destruct R1 as (_&_&R1). rewrite E1 in R1. cbn. destruct R1 as (G&N). split; [auto|]. rewrite G. discriminate.
Qed.

Theorem refparser_ok : parser_ok refparser.
Proof.
  exists Rr. split.
  - split; [reflexivity|]. apply ranges_intro; cbn; auto; [lia|discriminate].
  - intros s ph d (A&R). cbn [refparser p_exec]. unfold rexec.
    destruct d as [|c d].
    + change (zlen (@nil Z)) with 0. unfold allowed in A.
      assert (Y : Rr s ph) by (split; auto). unfold Rr, allowed in Y.
      destruct (q_st s) eqn:E; cbn [conforms]; try contradiction;
        try (split; [discriminate|intros _; split; [unfold allowed; rewrite E; exact A|exact R]]).
      split; [exact I|]. intros r _. exists PhIdle. rewrite A. split; [reflexivity|]. split; [discriminate|]. intros _.
      split; [reflexivity|]. destruct R as (R1&R2&_). apply ranges_intro; cbn; auto.
    + assert (N : q_st s <> HEnd /\ forall e, q_st s <> Dead e) by (unfold allowed in A; destruct (q_st s); try contradiction; split; congruence).
      destruct N as (N1&N2). destruct (q_st s) eqn:E; try (exfalso; eapply N2; reflexivity);
        (apply go_conforms; rewrite ?E; try lia; auto; left; auto).
Qed.
