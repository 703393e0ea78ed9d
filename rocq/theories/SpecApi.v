(** SpecApi.v — an application that uses the whole interface, in any order. *)
From Verif Require Import Base Lib ModelRequest ModelSend ModelResponse ModelReadHeader SpecRequest SpecSend SpecResponse SpecReadHeader SpecExchange.

(** The application: the world (its memory, the transport, the clock), its request structure, its response structure. *)
Record app := mkapp { a_w : world;  a_h : reqHeaders;  a_r : response }.
(** What it can do next. *)
Inductive act :=
| ARequest (c : call)                                  (* HTTPClient_InitializeRequestHeaders, _AddHeader, _AddRangeHeader *)
| ASend (body : option ptr) (len flags : Z)            (* HTTPClient_Send *)
| ASendHeaders (tf : timefn) (len flags : Z)           (* HTTPClient_SendHttpHeaders *)
| ASendData (tf : timefn) (p : ptr) (len : Z)          (* HTTPClient_SendHttpData *)
| AReceive                                             (* HTTPClient_ReceiveAndParseHttpResponse *)
| ARead (field : src) (n : Z)                          (* HTTPClient_ReadHeader *)
| AOwn (m : mem).                                      (* it writes to its own memory, anything, anywhere *)

(** It performs the action.  That the library hands back no structure would be an error ([lost]). *)
Definition lost {A} : res A := Ub UbNull.
Definition do_act (fuel : nat) (cfg : config) (E : env) (P : parser) (t : transport) (a : act) (s : app) : res (status * app) :=
  match a with
  | ARequest c =>
      ' (st, oh, m) <- do_call cfg (w_mem (a_w s)) (a_h s) c ;;
      match oh with Some h => Ret (st, mkapp (mkw m (w_ns (a_w s)) (w_nr (a_w s)) (w_nt (a_w s)) (w_tr (a_w s))) h (a_r s)) | None => lost end
  | ASend body len flags =>
      ' (st, oh, or, w) <- Send fuel cfg E P (Some t) (Some (a_h s)) body len (Some (a_r s)) flags (a_w s) ;;
      match oh, or with Some h, Some r => Ret (st, mkapp w h r) | _, _ => lost end
  | ASendHeaders tf len flags =>
      ' (st, oh, w) <- SendHttpHeaders fuel cfg E (Some t) tf (Some (a_h s)) len flags (a_w s) ;;
      match oh with Some h => Ret (st, mkapp w h (a_r s)) | None => lost end
  | ASendData tf p len =>
      ' (st, w) <- SendHttpData fuel cfg E (Some t) tf (Some p) len (a_w s) ;; Ret (st, mkapp w (a_h s) (a_r s))
  | AReceive =>
      ' (st, or, w) <- ReceiveAndParseHttpResponse fuel cfg E P (Some t) (Some (a_r s)) (Some (a_h s)) (a_w s) ;;
      match or with Some r => Ret (st, mkapp w (a_h s) r) | None => lost end
  | ARead field n =>
      ' (st, out) <- ReadHeader P (w_mem (a_w s)) (Some (a_r s)) field n true true ;; Ret (st, s)
  | AOwn m => Ret (HTTPSuccess, mkapp (mkw m (w_ns (a_w s)) (w_nr (a_w s)) (w_nt (a_w s)) (w_tr (a_w s))) (a_h s) (a_r s))
  end.

(** What it must see to: pointers are valid for the lengths given with them, data for a request do not lie in the request buffer, lengths are
    not near SIZE_MAX.  Lengths may be 0, pointers NULL and numbers out of range wherever the function checks this itself.  The three
    functions that only assert their arguments (they are steps of HTTPClient_Send) need a clock function, a body length the header can
    express and, for receiving, a request of at least one line. *)
Definition act_ok (cfg : config) (hbuf : ptr) (n : Z) (s : app) (a : act) : Prop :=
  let m := w_mem (a_w s) in
  match a with
  | ARequest c => call_ok cfg m hbuf n c
  | ASend body len flags => 0 <= len < SZ cfg /\ match body with None => True | Some p => object m p len /\ disjoint hbuf n p len end
  | ASendHeaders tf len flags => tf <> TNull /\ 0 <= len <= INT32_MAX
  | ASendData tf p len => tf <> TNull /\ object m p len
  | AReceive => r_time (a_r s) <> TNull /\ 16 <= rh_len (a_h s)
  | ARead field n => 0 <= n /\ match field with SNull => True | SLit l => n <= zlen l | SAt q => object m q n end
  | AOwn m' => length m' = length m /\ forall b, zlen (blk m' b) = zlen (blk m b)
  end.
(** The beginning: an empty request structure over the [n] bytes at [hbuf], a response structure over the [L] bytes at [rbuf]. *)
Definition begins_app (cfg : config) (hbuf : ptr) (n : Z) (rbuf : ptr) (L : Z) (s : app) : Prop :=
  rh_buf (a_h s) = Some hbuf /\ rh_bufLen (a_h s) = n /\ rh_len (a_h s) = 0 /\ object (w_mem (a_w s)) hbuf n /\ n + 38 < SZ cfg /\
  r_buf (a_r s) = Some rbuf /\ r_bufLen (a_r s) = L /\ object (w_mem (a_w s)) rbuf L /\ 0 < L < SZ cfg.
(** The states the application can be in after any number of actions. *)
Inductive reachable (cfg : config) (E : env) (P : parser) (t : transport) (hbuf : ptr) (n : Z) (rbuf : ptr) (L : Z) : app -> Prop :=
| RBegin s : begins_app cfg hbuf n rbuf L s -> reachable cfg E P t hbuf n rbuf L s
| RStep s a fuel st s' : reachable cfg E P t hbuf n rbuf L s -> act_ok cfg hbuf n s a -> do_act fuel cfg E P t a s = Ret (st, s') ->
    reachable cfg E P t hbuf n rbuf L s'.
