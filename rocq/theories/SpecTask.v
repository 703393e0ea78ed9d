(** SpecTask.v — several tasks that use the library at the same time, in one memory. *)
From Verif Require Import Base Lib ModelRequest ModelSend ModelResponse ModelReadHeader ModelTask SpecRequest.

(** ** What one task does: a list of calls of the library, and writes to memory of its own, one after the other. *)
Inductive deed :=
| DRequest (c : call)                                  (* HTTPClient_InitializeRequestHeaders, _AddHeader, _AddRangeHeader *)
| DSend (body : option ptr) (len flags : Z)            (* HTTPClient_Send *)
| DSendHeaders (tf : timefn) (len flags : Z)           (* HTTPClient_SendHttpHeaders *)
| DSendData (tf : timefn) (p : ptr) (len : Z)          (* HTTPClient_SendHttpData *)
| DReceive                                             (* HTTPClient_ReceiveAndParseHttpResponse *)
| DRead (field : src) (n : Z)                          (* HTTPClient_ReadHeader *)
| DWrite (p : ptr) (d : bytes).                        (* it writes to its memory *)
(** What it knows: its request structure and its response structure. *)
Definition structs := (reqHeaders * response)%type.
(** What it gets from a call: the status; from HTTPClient_ReadHeader also the value. *)
Definition got := (status * option (option ptr * Z))%type.
Definition need {A X} (o : option A) (x : A -> res X) : res X := match o with Some a => x a | None => Ub UbNull end.

(** *** The task alone: every call runs from beginning to end (the functions of the other model files). *)
Definition do_deed (fuel : nat) (cfg : config) (E : env) (P : parser) (t : transport) (d : deed) (s : structs) (w : world) : res (got * structs * world) :=
  let (h, r) := s in
  match d with
  | DRequest c => ' (st, oh, m) <- do_call cfg (w_mem w) h c ;; need oh (fun h => Ret ((st, None), (h, r), set_mem w m))
  | DSend body len flags => ' (st, oh, or, w) <- Send fuel cfg E P (Some t) (Some h) body len (Some r) flags w ;; need oh (fun h => need or (fun r => Ret ((st, None), (h, r), w)))
  | DSendHeaders tf len flags => ' (st, oh, w) <- SendHttpHeaders fuel cfg E (Some t) tf (Some h) len flags w ;; need oh (fun h => Ret ((st, None), (h, r), w))
  | DSendData tf p len => ' (st, w) <- SendHttpData fuel cfg E (Some t) tf (Some p) len w ;; Ret ((st, None), (h, r), w)
  | DReceive => ' (st, or, w) <- ReceiveAndParseHttpResponse fuel cfg E P (Some t) (Some r) (Some h) w ;; need or (fun r => Ret ((st, None), (h, r), w))
  | DRead field n => ' (st, out) <- ReadHeader P (w_mem w) (Some r) field n true true ;; Ret ((st, out), (h, r), w)
  | DWrite p d => m <- storen (w_mem w) p d ;; Ret ((HTTPSuccess, None), (h, r), set_mem w m)
  end.
Fixpoint do_deeds (fuel : nat) (cfg : config) (E : env) (P : parser) (t : transport) (ds : list deed) (s : structs) (w : world) : res (list got * structs * world) :=
  match ds with
  | [] => Ret ([], s, w)
  | d :: ds' => ' (g, s1, w1) <- do_deed fuel cfg E P t d s w ;; ' (gs, s2, w2) <- do_deeds fuel cfg E P t ds' s1 w1 ;; Ret (g :: gs, s2, w2)
  end.

(** *** The task as a program that can be interrupted (the functions of ModelTask.v). *)
Definition need_p {A X} (o : option A) (x : A -> prog X) : prog X := match o with Some a => x a | None => fixed (Ub UbNull) end.
Definition call_p (cfg : config) (h : reqHeaders) (c : call) : prog (status * option reqHeaders) :=
  match c with
  | CInit ri => InitializeRequestHeaders_p cfg (Some h) (Some ri)
  | CAdd f fl v vl => AddHeader_p cfg (Some h) f fl v vl
  | CRange s e => AddRangeHeader_p cfg (Some h) s e
  end.
Definition deed_p (fuel : nat) (cfg : config) (P : parser) (t : transport) (d : deed) (s : structs) : prog (got * structs) :=
  let (h, r) := s in
  match d with
  | DRequest c => ' (st, oh) <~ call_p cfg h c ;; need_p oh (fun h => pret ((st, None), (h, r)))
  | DSend body len flags => ' (st, oh, or) <~ Send_p fuel cfg P (Some t) (Some h) body len (Some r) flags ;; need_p oh (fun h => need_p or (fun r => pret ((st, None), (h, r))))
  | DSendHeaders tf len flags => ' (st, oh) <~ SendHttpHeaders_p fuel cfg (Some t) tf (Some h) len flags ;; need_p oh (fun h => pret ((st, None), (h, r)))
  | DSendData tf p len => st <~ SendHttpData_p fuel cfg (Some t) tf (Some p) len ;; pret ((st, None), (h, r))
  | DReceive => ' (st, or) <~ ReceiveAndParseHttpResponse_p fuel cfg P (Some t) (Some r) (Some h) ;; need_p or (fun r => pret ((st, None), (h, r)))
  | DRead field n => ' (st, out) <~ ReadHeader_p P (Some r) field n true true ;; pret ((st, out), (h, r))
  | DWrite p d => _ <~ storen_p p d ;; pret ((HTTPSuccess, None), (h, r))
  end.
Fixpoint deeds_p (fuel : nat) (cfg : config) (P : parser) (t : transport) (ds : list deed) (s : structs) : prog (list got * structs) :=
  match ds with
  | [] => pret ([], s)
  | d :: ds' => ' (g, s1) <~ deed_p fuel cfg P t d s ;; ' (gs, s2) <~ deeds_p fuel cfg P t ds' s1 ;; pret (g :: gs, s2)
  end.

(** ** Tasks at the same time *)
(** The task's transport and clock answer the call it makes; [w] counts and records the task's own calls (its memory component is not used). *)
Definition answer (E : env) (q : query) (w : world) : Z * bytes * world :=
  match q with
  | QSend d n => let r := e_send E (w_ns w) n in (r, [], mkw (w_mem w) (S (w_ns w)) (w_nr w) (w_nt w) (w_tr w ++ [TSend d r]))
  | QRecv p room => let (n, d) := e_recv E (w_nr w) room in (n, d, mkw (w_mem w) (w_ns w) (S (w_nr w)) (w_nt w) (w_tr w ++ [TRecv p room n d]))
  | QTime => let v := u32 (e_time E (w_nt w)) in (v, [], mkw (w_mem w) (w_ns w) (w_nr w) (S (w_nt w)) (w_tr w ++ [TTime v]))
  | QNote e => (0, [], log w e)
  | QPause => (0, [], w)
  end.
(** A task is on its way (what it will do next, its calls so far) or has ended. *)
Inductive task (A : Type) := Going (p : prog A) (w : world) | Ended (x : res (A * world)).
Arguments Going {A} p w.  Arguments Ended {A} x.
(** It runs, in the memory [m] as it is now, up to its next stop. *)
Definition go {A} (E : env) (m : mem) (k : task A) : mem * task A :=
  match k with
  | Ended _ => (m, k)
  | Going p w =>
      match p m with
      | TRet a m' => (m', Ended (Ret (a, set_mem w m')))
      | TUb u => (m, Ended (Ub u))
      | TAssert l => (m, Ended (AssertFail l))
      | TMore => (m, Ended (More w))
      | TCall q m' f => let '(n, d, w') := answer E q w in (m', Going (f n d) w')
      end
  end.
(** The tasks are numbered; task [i] uses the transport and clock [E i], and looks at the memory objects [sees i].  [runs E sees m ks l m' ks']:
    from memory [m] and tasks [ks], memory [m'] and tasks [ks'] are reached; [l] are the tasks that ran, in turn.  In between anything may happen
    to memory that none of the tasks looks at. *)
Definition upd {A} (ks : nat -> A) (i : nat) (k : A) : nat -> A := fun j => if Nat.eqb j i then k else ks j.
Inductive runs {A} (E : nat -> env) (sees : nat -> nat -> Prop) (m : mem) (ks : nat -> task A) : list nat -> mem -> (nat -> task A) -> Prop :=
| runs_begin : runs E sees m ks [] m ks
| runs_task l m1 ks1 i m2 k : runs E sees m ks l m1 ks1 -> go (E i) m1 (ks1 i) = (m2, k) -> runs E sees m ks (l ++ [i]) m2 (upd ks1 i k)
| runs_other l m1 ks1 m2 : runs E sees m ks l m1 ks1 -> (forall i b, sees i b -> blk m2 b = blk m1 b) -> runs E sees m ks l m2 ks1.

(** ** What belongs to whom *)
Definition inp (S : nat -> Prop) (p : ptr) : Prop := S (pb p).
Definition ino (S : nat -> Prop) (o : option ptr) : Prop := match o with Some p => inp S p | None => True end.
Definition ins (S : nat -> Prop) (s : src) : Prop := match s with SAt p => inp S p | _ => True end.
(** The task's structures point to objects it may change ([W]); its arguments to objects it may look at ([S]), and where it writes, to those it
    may change. *)
Definition structs_in (W : nat -> Prop) (s : structs) : Prop :=
  ino W (rh_buf (fst s)) /\ ino W (r_buf (snd s)) /\ ino W (r_headers (snd s)) /\ ino W (r_body (snd s)).
Definition deed_in (S W : nat -> Prop) (d : deed) : Prop :=
  match d with
  | DRequest (CInit ri) => ins S (ri_method ri) /\ ins S (ri_path ri) /\ ins S (ri_host ri)
  | DRequest (CAdd f _ v _) => ins S f /\ ins S v
  | DRequest (CRange _ _) => True
  | DSend body _ _ => ino S body
  | DSendData _ p _ => inp S p
  | DRead field _ => ins S field
  | DWrite p _ => inp W p
  | DSendHeaders _ _ _ | DReceive => True
  end.
Definition agree_on (S : nat -> Prop) (m m' : mem) : Prop := forall b, S b -> blk m' b = blk m b.
(** The task ended as it would have alone ([x]): it got the same, has the same structures, made the same calls of transport, clock, parser and header
    callback (with the same arguments and answers, in the same order), and the objects it looks at hold the same in the memory [m]. *)
Definition ended_like (S : nat -> Prop) (m : mem) (k : task (list got * structs)) (x : res (list got * structs * world)) : Prop :=
  match k, x with
  | Ended (Ret (g, s, w)), Ret (g', s', w') => g = g' /\ s = s' /\ w_ns w = w_ns w' /\ w_nr w = w_nr w' /\ w_nt w = w_nt w' /\ w_tr w = w_tr w' /\ agree_on S (w_mem w') m
  | Ended (Ub u), Ub u' => u = u'
  | Ended (AssertFail l), AssertFail l' => l = l'
  | Ended (More _), More _ => True
  | _, _ => False
  end.
