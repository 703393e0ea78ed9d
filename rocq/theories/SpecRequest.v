(** SpecRequest.v — what the request-building and sending properties say, independently of the
    model's code.  Uses only bytes, memory regions (Lib.v) and the data structures. *)
From Verif Require Import Base Lib ModelRequest.

(** ** Arguments *)
(** The [const char *] argument [s] of length [n] is the text [d]. *)
Definition arg (m : mem) (s : src) (n : Z) (d : bytes) : Prop :=
  zlen d = n /\
  match s with
  | SNull => False
  | SLit l => n <= zlen l /\ d = slice l 0 n
  | SAt p => object m p n /\ d = bytes_at m p n
  end.
(** The argument does not overlap the [n] bytes at [p]. *)
Definition arg_apart (p : ptr) (n : Z) (s : src) (k : Z) : Prop :=
  match s with SAt q => disjoint p n q k | _ => True end.

(** ** HTTP text *)
Definition header_line (field value : bytes) : bytes := field ++ B ": " ++ value ++ CRLF.

(** Characters that would let a header break out of its line (or its name). *)
Definition legal_value (v : bytes) : Prop := ~ In CR v /\ ~ In LF v.
Definition legal_field (f : bytes) : Prop := legal_value f /\ ~ In COLON f.

Definition ends_with (l suffix : bytes) : Prop := exists pre, l = pre ++ suffix.

(** [o] is the request [r] without its final blank line, if it has one. *)
Definition opened (r o : bytes) : Prop :=
  (exists pre, r = pre ++ CRLF ++ CRLF /\ o = pre ++ CRLF) \/
  (~ ends_with r (CRLF ++ CRLF) /\ o = r).

Definition request_line (method path : bytes) : bytes :=
  method ++ B " " ++ path ++ B " HTTP/1.1" ++ CRLF.

(** ** Request structures *)
(** [h] is a request structure whose buffer is [bufLen] bytes at [buf], holding the request [req]. *)
Definition holds (m : mem) (h : reqHeaders) (buf : ptr) (bufLen : Z) (req : bytes) : Prop :=
  rh_buf h = Some buf /\ rh_bufLen h = bufLen /\ object m buf bufLen /\
  0 <= rh_len h <= bufLen /\ req = bytes_at m buf (rh_len h).

(** size_t of this platform can count: the constant strings fit, and the user agent is a legal
    header value (HTTP_USER_AGENT_VALUE). *)
Definition config_ok (cfg : config) : Prop :=
  65536 <= SZ cfg /\ UA cfg <> [] /\ legal_value (UA cfg) /\ zlen (UA cfg) < 32768 /\
  0 <= SEND_TO cfg < two32 /\ 0 <= RECV_TO cfg < two32.

(** The path that goes into the request line: "/" when the argument is NULL or empty. *)
Definition path_arg (m : mem) (s : src) (n : Z) (d : bytes) : Prop :=
  (s = SNull \/ n = 0) /\ d = B "/" \/
  s <> SNull /\ n <> 0 /\ arg m s n d.

(** An argument that is the text [d] and does not overlap the buffer. *)
Definition arg_for (m : mem) (buf : ptr) (bufLen : Z) (s : src) (n : Z) (d : bytes) : Prop :=
  arg m s n d /\ arg_apart buf bufLen s n.

(** ** The request HTTPClient_InitializeRequestHeaders promises (core_http_client.h, documentation of
    HTTPClient_InitializeRequestHeaders): request line, User-Agent unless suppressed (flag bit 1),
    Host, and Connection: keep-alive if asked for (flag bit 0). *)
Definition host_part (ua : bytes) (flags : Z) (method path host : bytes) : bytes :=
  request_line method path
  ++ (if Z.testbit flags 1 then [] else header_line (B "User-Agent") ua)
  ++ header_line (B "Host") host.
Definition init_request (ua : bytes) (flags : Z) (method path host : bytes) : bytes :=
  host_part ua flags method path host
  ++ (if Z.testbit flags 0 then header_line (B "Connection") (B "keep-alive") else [])
  ++ CRLF.

(** The arguments of HTTPClient_InitializeRequestHeaders are the texts [me], [p], [ho], none overlaps the
    buffer, and their lengths do not exceed what size_t can count. *)
Definition init_args (cfg : config) (m : mem) (buf : ptr) (bufLen : Z) (ri : reqInfo)
           (me p ho : bytes) : Prop :=
  arg_for m buf bufLen (ri_method ri) (ri_methodLen ri) me /\ 0 < ri_methodLen ri /\
  path_arg m (ri_path ri) (ri_pathLen ri) p /\ 0 <= ri_pathLen ri /\
  arg_apart buf bufLen (ri_path ri) (ri_pathLen ri) /\
  arg_for m buf bufLen (ri_host ri) (ri_hostLen ri) ho /\ 0 < ri_hostLen ri /\
  bufLen + ri_methodLen ri + ri_pathLen ri + ri_hostLen ri + zlen (UA cfg) + 64 < SZ cfg.

(** ** Decimal numbers *)
Definition dec_value (d : bytes) : Z := fold_left (fun a c => 10 * a + (c - 48)) d 0.
(** [d] is the canonical decimal notation of [n >= 0]: only digits, no superfluous leading zero,
    value [n]. *)
Definition decimal_nat (n : Z) (d : bytes) : Prop :=
  d <> [] /\ Forall (fun c => 48 <= c <= 57) d /\ (hd 0 d = 48 -> d = [48]) /\ dec_value d = n.
(** Same for any integer, with a minus sign exactly for the negative ones. *)
Definition decimal (n : Z) (d : bytes) : Prop :=
  if n <? 0 then exists d', d = 45 :: d' /\ decimal_nat (- n) d' else decimal_nat n d.

(** ** Range header values (core_http_client.h l.717-770): "bytes=a-b", "bytes=a-", "bytes=-n". *)
Definition range_value (start rend : Z) (t : bytes) : Prop :=
  if rend =? -1 then
    if start <? 0 then exists a, decimal (- start) a /\ t = B "bytes=-" ++ a
    else exists a, decimal start a /\ t = B "bytes=" ++ a ++ B "-"
  else exists a b, decimal start a /\ decimal rend b /\ t = B "bytes=" ++ a ++ B "-" ++ b.
Definition range_rejected (start rend : Z) : Prop :=
  rend < -1 \/ (start < 0 /\ rend <> -1) \/ (rend <> -1 /\ rend < start) \/ start = INT32_MIN.

(** ** Histories of calls on one request structure *)
Inductive call :=
| CInit (ri : reqInfo)                                   (* HTTPClient_InitializeRequestHeaders *)
| CAdd (field : src) (fieldLen : Z) (value : src) (valueLen : Z)      (* HTTPClient_AddHeader *)
| CRange (start rend : Z).                               (* HTTPClient_AddRangeHeader *)

Definition do_call (cfg : config) (m : mem) (h : reqHeaders) (c : call)
  : res (status * option reqHeaders * mem) :=
  match c with
  | CInit ri => InitializeRequestHeaders cfg m (Some h) (Some ri)
  | CAdd f fl v vl => AddHeader cfg m (Some h) f fl v vl
  | CRange s e => AddRangeHeader cfg m (Some h) s e
  end.

(** The calls in order; the statuses they return, the final structure and memory. *)
Fixpoint history (cfg : config) (m : mem) (h : reqHeaders) (cs : list call)
  : res (list status * reqHeaders * mem) :=
  match cs with
  | [] => Ret ([], h, m)
  | c :: cs' =>
      ' (st, oh, m1) <- do_call cfg m h c ;;
      match oh with
      | None => Ub UbNull
      | Some h1 => ' (sts, h2, m2) <- history cfg m1 h1 cs' ;; Ret (st :: sts, h2, m2)
      end
  end.

(** A [const char *] argument of length [k]: NULL, or readable and apart from the [n]-byte buffer. *)
Definition usable (m : mem) (buf : ptr) (n : Z) (s : src) (k : Z) : Prop :=
  0 <= k /\
  match s with
  | SNull => True
  | SLit l => k <= zlen l
  | SAt q => object m q k /\ disjoint buf n q k
  end.

(** Usable arguments whose lengths, with the buffer's, do not exceed what size_t can count. *)
Definition call_ok (cfg : config) (m : mem) (buf : ptr) (n : Z) (c : call) : Prop :=
  match c with
  | CInit ri =>
      usable m buf n (ri_method ri) (ri_methodLen ri) /\ usable m buf n (ri_path ri) (ri_pathLen ri) /\
      usable m buf n (ri_host ri) (ri_hostLen ri) /\
      n + ri_methodLen ri + ri_pathLen ri + ri_hostLen ri + zlen (UA cfg) + 64 < SZ cfg
  | CAdd f fl v vl =>
      usable m buf n f fl /\ usable m buf n v vl /\ n + fl + vl + 6 < SZ cfg
  | CRange s e => is_int32 s /\ is_int32 e /\ n + 38 < SZ cfg
  end.

(** ** A line-splitting HTTP reader *)
(** The text up to the first CRLF and what follows it; a CR or LF outside a CRLF is an error. *)
Fixpoint read_line (d : bytes) : option (bytes * bytes) :=
  match d with
  | [] => None
  | c :: d' =>
      if c =? CR
      then match d' with x :: r => if x =? LF then Some ([], r) else None | [] => None end
      else if c =? LF then None
      else match read_line d' with Some (l, r) => Some (c :: l, r) | None => None end
  end.
(** Name and value of a header line "name: value". *)
Fixpoint read_header (l : bytes) : option (bytes * bytes) :=
  match l with
  | [] => None
  | c :: l' =>
      if c =? COLON
      then match l' with x :: v => if x =? SPACE then Some ([], v) else None | [] => None end
      else match read_header l' with Some (n, v) => Some (c :: n, v) | None => None end
  end.
(** Header lines up to an empty line, which must end the text. *)
Fixpoint read_headers (fuel : nat) (d : bytes) : option (list (bytes * bytes)) :=
  match fuel with
  | O => None
  | S f =>
      match read_line d with
      | None => None
      | Some ([], rest) => match rest with [] => Some [] | _ => None end
      | Some (l, rest) =>
          match read_header l, read_headers f rest with
          | Some h, Some hs => Some (h :: hs)
          | _, _ => None
          end
      end
  end.
(** Request line and headers. *)
Definition read_request (d : bytes) : option (bytes * list (bytes * bytes)) :=
  match read_line d with
  | None => None
  | Some (l, rest) =>
      match read_headers (S (length rest)) rest with Some hs => Some (l, hs) | None => None end
  end.

(** The headers a call is meant to add: none if it failed. *)
Definition contributes (m : mem) (c : call) (st : status) (hs : list (bytes * bytes)) : Prop :=
  match st, c with
  | HTTPSuccess, CAdd f fl v vl => exists fb vb, arg m f fl fb /\ arg m v vl vb /\ hs = [(fb, vb)]
  | HTTPSuccess, CRange s e => exists t, range_value s e t /\ hs = [(B "Range", t)]
  | HTTPSuccess, CInit _ => False
  | _, _ => hs = []
  end.
Inductive contribute (m : mem) : list call -> list status -> list (bytes * bytes) -> Prop :=
| contribute_nil : contribute m [] [] []
| contribute_cons c cs st sts hs hs' :
    contributes m c st hs -> contribute m cs sts hs' ->
    contribute m (c :: cs) (st :: sts) (hs ++ hs').

(** The headers InitializeRequestHeaders writes. *)
Definition init_headers (ua : bytes) (flags : Z) (host : bytes) : list (bytes * bytes) :=
  (if Z.testbit flags 1 then [] else [(B "User-Agent", ua)])
  ++ [(B "Host", host)]
  ++ (if Z.testbit flags 0 then [(B "Connection", B "keep-alive")] else []).

(** Documented reasons for HTTPInvalidParameter. *)
Definition init_invalid (prh : option reqHeaders) (pri : option reqInfo) : Prop :=
  prh = None \/ (exists h, prh = Some h /\ rh_buf h = None) \/ pri = None \/
  (exists ri, pri = Some ri /\
     (ri_method ri = SNull \/ ri_host ri = SNull \/ ri_methodLen ri = 0 \/ ri_hostLen ri = 0)).
Definition add_invalid (prh : option reqHeaders) (f : src) (fl : Z) (v : src) (vl : Z) : Prop :=
  prh = None \/ (exists h, prh = Some h /\ (rh_buf h = None \/ rh_bufLen h < rh_len h)) \/
  f = SNull \/ v = SNull \/ fl = 0 \/ vl = 0.
Definition range_invalid (prh : option reqHeaders) (s e : Z) : Prop :=
  prh = None \/ (exists h, prh = Some h /\ (rh_buf h = None \/ rh_bufLen h < rh_len h)) \/
  range_rejected s e.
