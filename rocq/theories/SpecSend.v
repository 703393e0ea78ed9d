(** SpecSend.v — what the sending properties say, in terms of the trace of transport and clock calls. *)
From Verif Require Import Base Lib ModelRequest ModelSend ModelResponse SpecRequest.

(** The transport contract for send (transport_interface.h l.240-268): at most as many bytes as offered. *)
Definition send_contract (E : env) : Prop := forall n k, 0 < k -> e_send E n k <= k.

(** The bytes the transport accepted, in order. *)
Fixpoint accepted (tr : list tev) : bytes :=
  match tr with
  | [] => []
  | TSend d r :: tr' => slice d 0 r ++ accepted tr'
  | _ :: tr' => accepted tr'
  end.
Definition prefix (a b : bytes) : Prop := exists c, b = a ++ c.

(** Only calls to send and the clock. *)
Definition send_only (tr : list tev) : Prop :=
  Forall (fun e => match e with TSend _ _ | TTime _ => True | _ => False end) tr.

(** Every send call is offered exactly what has not been accepted yet, and never nothing. *)
Definition offers_rest (data : bytes) (tr : list tev) : Prop :=
  forall tr1 d r tr2, tr = tr1 ++ TSend d r :: tr2 -> accepted tr1 ++ d = data /\ d <> [].

(** The clock reading at the last progress: the start, or just after a send that accepted bytes. *)
Fixpoint progress_time (last : Z) (tr : list tev) : Z :=
  match tr with
  | [] => last
  | TSend _ r :: tr' =>
      match tr' with
      | TTime t :: _ => progress_time (if 0 <? r then t else last) tr'
      | _ => progress_time last tr'
      end
  | _ :: tr' => progress_time last tr'
  end.
(** Milliseconds between two readings of the 32-bit clock. *)
Definition elapsed (now last : Z) : Z := (now - last) mod 2 ^ 32.

(** The last send failed. *)
Definition send_failed (tr : list tev) : Prop := exists tr1 d r, tr = tr1 ++ [TSend d r] /\ r < 0.
(** The last send accepted nothing and at least [T] ms had passed since the last progress. *)
Definition send_stalled (T t0 : Z) (tr : list tev) : Prop :=
  exists tr1 d t, tr = tr1 ++ [TSend d 0; TTime t] /\ T <= elapsed t (progress_time t0 tr1).
(** Every earlier empty send came before the timeout. *)
Definition patient (T t0 : Z) (tr : list tev) : Prop :=
  forall tr1 d t tr2, tr = tr1 ++ TSend d 0 :: TTime t :: tr2 -> tr2 <> [] ->
    elapsed t (progress_time t0 tr1) < T.

(** Number of send calls. *)
Fixpoint sends (tr : list tev) : Z :=
  match tr with [] => 0 | TSend _ _ :: tr' => 1 + sends tr' | _ :: tr' => sends tr' end.

(** How a call ends: its result and the world it leaves, or (first component [None]) the world of a
    call still running when the fuel ran out.  [None] overall: undefined behaviour or failed assert. *)
Definition wout {A} (x : res (A * world)) : option (option A * world) :=
  match x with Ret (a, w) => Some (Some a, w) | More w => Some (None, w) | _ => None end.

(** Without a clock: the last send accepted nothing or failed; every earlier one accepted something. *)
Definition last_send_nonpos (tr : list tev) : Prop := exists tr1 d r, tr = tr1 ++ [TSend d r] /\ r <= 0.
Definition early_sends_pos (tr : list tev) : Prop :=
  forall tr1 d r tr2, tr = tr1 ++ TSend d r :: tr2 -> tr2 <> [] -> 0 < r.

(** The clock advances by at least 1 ms, and by at most 2^32 - T ms, from one reading to the next. *)
Definition advancing (E : env) (T : Z) : Prop :=
  forall n, 1 <= e_time E (S n) - e_time E n <= 2 ^ 32 - T.

(** The header block that must go on the wire: the request, plus a Content-Length line when there is a
    body and flag bit 0 is clear. *)
Definition wire_headers (flags bodyLen : Z) (req block : bytes) : Prop :=
  if Z.testbit flags 0 || (bodyLen =? 0) then block = req
  else exists o d, opened req o /\ decimal bodyLen d /\
         block = o ++ header_line (B "Content-Length") d ++ CRLF.

(** The body argument of HTTPClient_Send is the text [d], apart from the request buffer. *)
Definition body_arg (m : mem) (buf : ptr) (n : Z) (body : option ptr) (len : Z) (d : bytes) : Prop :=
  match body with
  | None => len = 0 /\ d = []
  | Some p => object m p len /\ disjoint buf n p len /\ d = bytes_at m p len
  end.

Definition no_send (tr : list tev) : Prop := Forall (fun e => match e with TSend _ _ => False | _ => True end) tr.

(** size_t has a power of two as modulus. *)
Definition size_ok (cfg : config) : Prop := exists k, 16 <= k /\ SZ cfg = 2 ^ k.

(** The documented reasons for HTTPClient_Send to return HTTPInvalidParameter (core_http_client.h,
    documentation of HTTPClient_Send, and the checks' own messages): a missing transport function,
    request, response or buffer, an impossible headersLen, a body pointer that is NULL with a nonzero
    length, or a body longer than INT32_MAX. *)
Definition send_invalid (tr : option transport) (prh : option reqHeaders) (body : option ptr)
           (bodyLen : Z) (pr : option response) : Prop :=
  tr = None \/ (exists t, tr = Some t /\ (t_send t = false \/ t_recv t = false)) \/
  prh = None \/
  (exists h, prh = Some h /\ (rh_buf h = None \/ rh_len h < 16 \/ rh_bufLen h < rh_len h)) \/
  pr = None \/ (exists r, pr = Some r /\ (r_buf r = None \/ r_bufLen r = 0)) \/
  (body = None /\ 0 < bodyLen) \/ INT32_MAX < bodyLen.
