(** Base.v — C-level vocabulary of the model: bytes, machine integers, memory, outcomes,
    and the observable trace.  Nothing here is specific to coreHTTP. *)
From Coq Require Export ZArith List Lia Bool.
From Coq Require String Ascii.
Export String.StringSyntax.
Export ListNotations.
Open Scope Z_scope.

(** ** Bytes *)
Definition bytes := list Z.

(** ASCII string literal to bytes. *)
Fixpoint B (s : String.string) : bytes :=
  match s with
  | String.EmptyString => []
  | String.String c s' => Z.of_N (Ascii.N_of_ascii c) :: B s'
  end.
Arguments B s%string_scope.

Definition CR := 13.      Definition LF := 10.
Definition COLON := 58.   Definition SPACE := 32.   Definition DASH := 45.
Definition CRLF : bytes := [CR; LF].

Definition zlen {A} (l : list A) : Z := Z.of_nat (length l).

(** [slice l o n]: the [n] elements of [l] from index [o]. *)
Definition slice {A} (l : list A) (o n : Z) : list A :=
  firstn (Z.to_nat n) (skipn (Z.to_nat o) l).

(** [splice l o d]: [l] with the elements from index [o] overwritten by [d]. *)
Definition splice {A} (l : list A) (o : Z) (d : list A) : list A :=
  firstn (Z.to_nat o) l ++ d ++ skipn (Z.to_nat o + length d) l.

(** ** Machine integers *)
Definition two32 := 4294967296.
Definition UINT64_MAX := 18446744073709551615.
Definition INT32_MAX := 2147483647.
Definition INT32_MIN := -2147483648.
Definition is_int32 (v : Z) : Prop := INT32_MIN <= v <= INT32_MAX.

(** (uint32_t) and the implementation-defined (int32_t) conversion (two's complement,
    as on every supported compiler). *)
Definition u32 (v : Z) : Z := v mod two32.
Definition to_int32 (v : Z) : Z :=
  let r := v mod two32 in if r <=? INT32_MAX then r else r - two32.

(** Configuration macros of core_http_config_defaults.h (l.57, 81, 104) and the width of [size_t]
    ([SZ] = SIZE_MAX + 1). *)
Record config := mkconfig {
  SZ : Z;
  UA : bytes;          (* HTTP_USER_AGENT_VALUE *)
  SEND_TO : Z;         (* HTTP_SEND_RETRY_TIMEOUT_MS *)
  RECV_TO : Z          (* HTTP_RECV_RETRY_TIMEOUT_MS *)
}.

(** ** Memory: a list of blocks; a pointer is a block number and an offset. *)
Record ptr := mkptr { pb : nat; po : Z }.
Definition mem := list bytes.
Definition blk (m : mem) (b : nat) : bytes := nth b m [].
Fixpoint setblk (m : mem) (b : nat) (l : bytes) : mem :=
  match m, b with
  | [], _ => []
  | _ :: m', O => l :: m'
  | x :: m', S b' => x :: setblk m' b' l
  end.

(** ** Outcomes *)
Inductive ubkind := UbNull | UbOob | UbOverflow | UbOverlap | UbPtr.

(** What the third-party parser (llhttp) reports through its callbacks.  Offsets and positions are
    relative to the start of the data given to the current llhttp_execute call. *)
Inductive pevent :=
| EvMessageBegin
| EvStatus (off len code : Z)          (* a piece of the reason phrase; [code] = parser->status_code *)
| EvStatusComplete (code : Z)
| EvField (off len : Z)                (* a piece of a header field name *)
| EvValue (off len : Z)                (* a piece of a header value *)
| EvHeadersComplete (pos clen : Z) (close keepalive : bool)
     (* [pos]: parser position just after the header terminator; [clen] = parser->content_length;
        [close], [keepalive]: F_CONNECTION_CLOSE, F_CONNECTION_KEEP_ALIVE in parser->flags *)
| EvBody (off len : Z)
| EvMessageComplete.

(** llhttp_errno_t: the values core_http_client.c names, and any other. *)
Inductive errno :=
| HPE_OK | HPE_PAUSED_UPGRADE | HPE_INVALID_EOF_STATE | HPE_CLOSED_CONNECTION
| HPE_INVALID_CHUNK_SIZE | HPE_INVALID_VERSION | HPE_INVALID_STATUS | HPE_STRICT
| HPE_INVALID_CONSTANT | HPE_LF_EXPECTED | HPE_INVALID_HEADER_TOKEN
| HPE_INVALID_CONTENT_LENGTH | HPE_UNEXPECTED_CONTENT_LENGTH | HPE_PAUSED | HPE_USER
| HPE_OTHER (n : Z).

(** Values returned by the callbacks registered with llhttp (core_http_client_private.h l.161-188). *)
Inductive cbret :=
| CbContinue        (* LLHTTP_CONTINUE_PARSING *)
| CbNoBody          (* LLHTTP_STOP_PARSING_NO_BODY / _NO_HEADER: 1 *)
| CbPause           (* LLHTTP_PAUSE_PARSING: HPE_PAUSED *)
| CbStop.           (* LLHTTP_STOP_PARSING: HPE_USER *)

(** Observable calls to the outside world, oldest first. *)
Inductive tev :=
| TSend (data : bytes) (ret : Z)           (* transport send: the bytes offered, its return value *)
| TRecv (p : ptr) (room ret : Z) (d : bytes)
                                           (* transport recv: destination, size offered, return value,
                                              bytes it stored *)
| TTime (v : Z)                            (* application clock *)
| TParse (p : ptr) (d : bytes)             (* llhttp_execute on the bytes [d] at [p] *)
| TEvent (ev : pevent)                     (* a parser callback inside the last llhttp_execute *)
| TReply (r : cbret)                       (* what that callback returned to the parser *)
| TParsed (e : errno)                      (* llhttp_execute returned *)
| THeader (f : ptr) (fl : Z) (v : ptr) (vl : Z) (fbytes vbytes : bytes) (code : Z).
                                           (* application header callback, with the bytes it sees *)

Record world := mkw {
  w_mem : mem;
  w_ns : nat;  w_nr : nat;  w_nt : nat;    (* calls made so far to send / recv / clock *)
  w_tr : list tev
}.

Inductive res (A : Type) :=
| Ret (a : A)          (* normal return *)
| Ub (k : ubkind)      (* undefined behaviour in C *)
| AssertFail (line : Z)     (* assert() failed at that line of core_http_client.c *)
| More (w : world).    (* still running: loop fuel exhausted *)
Arguments Ret {A} a.  Arguments Ub {A} k.  Arguments AssertFail {A} line.
Arguments More {A} w.

Definition bind {A C} (x : res A) (f : A -> res C) : res C :=
  match x with
  | Ret a => f a
  | Ub k => Ub k
  | AssertFail l => AssertFail l
  | More w => More w
  end.
Notation "x <- e ;; k" := (bind e (fun x => k))
  (at level 61, e at next level, right associativity).
Notation "' p <- e ;; k" := (bind e (fun p => k))
  (at level 61, p pattern, e at next level, right associativity).

(** assert( c ) at line [l]. *)
Definition assert_at (c : bool) (l : Z) : res unit := if c then Ret tt else AssertFail l.

(** ** Memory access *)
Definition in_range (m : mem) (p : ptr) (n : Z) : bool :=
  (0 <=? n) && (0 <=? po p) && (po p + n <=? zlen (blk m (pb p))).

(** Read [n] bytes. *)
Definition loadn (m : mem) (p : ptr) (n : Z) : res bytes :=
  if in_range m p n then Ret (slice (blk m (pb p)) (po p) n) else Ub UbOob.
Definition load1 (m : mem) (p : ptr) : res Z :=
  if in_range m p 1 then Ret (nth (Z.to_nat (po p)) (blk m (pb p)) 0) else Ub UbOob.
(** Write the bytes [d]. *)
Definition storen (m : mem) (p : ptr) (d : bytes) : res mem :=
  if in_range m p (zlen d)
  then Ret (setblk m (pb p) (splice (blk m (pb p)) (po p) d)) else Ub UbOob.

(** &p[ n ]: pointer arithmetic is defined only inside an object or one past its end. *)
Definition padd (m : mem) (p : ptr) (n : Z) : res ptr :=
  if (0 <=? po p + n) && (po p + n <=? zlen (blk m (pb p)))
  then Ret (mkptr (pb p) (po p + n)) else Ub UbPtr.

(** Pointer difference, defined only within one object. *)
Definition psub (p q : ptr) : res Z :=
  if Nat.eqb (pb p) (pb q) then Ret (po p - po q) else Ub UbPtr.

(** A [const char *] argument: NULL, a constant or local array no one else can reach, or a pointer
    into memory. *)
Inductive src := SNull | SLit (l : bytes) | SAt (p : ptr).
Definition is_null (s : src) : bool := match s with SNull => true | _ => false end.

Definition src_byte (m : mem) (s : src) (i : Z) : res Z :=
  match s with
  | SNull => Ub UbNull
  | SLit l => if (0 <=? i) && (i <? zlen l) then Ret (nth (Z.to_nat i) l 0) else Ub UbOob
  | SAt p => load1 m (mkptr (pb p) (po p + i))
  end.

Definition src_bytes (m : mem) (s : src) (n : Z) : res bytes :=
  match s with
  | SNull => Ub UbNull
  | SLit l => if (0 <=? n) && (n <=? zlen l) then Ret (slice l 0 n) else Ub UbOob
  | SAt p => loadn m p n
  end.

(** memcpy( dst, s, n ): undefined when the regions overlap. *)
Definition overlaps (p : ptr) (s : src) (n : Z) : bool :=
  match s with
  | SAt q => Nat.eqb (pb p) (pb q) && (0 <? n) && (po p <? po q + n) && (po q <? po p + n)
  | _ => false
  end.
Definition memcpy (m : mem) (dst : ptr) (s : src) (n : Z) : res mem :=
  if overlaps dst s n then Ub UbOverlap
  else d <- src_bytes m s n ;; storen m dst d.

(** memmove( dst, src, n ). *)
Definition memmove (m : mem) (dst sp : ptr) (n : Z) : res mem :=
  d <- loadn m sp n ;; storen m dst d.

(** strncmp( p, lit, length lit ) == 0 for a literal without NUL: bytes are read until the first
    difference (a NUL in memory is a difference). *)
Fixpoint strncmp_eq (m : mem) (p : ptr) (lit : bytes) : res bool :=
  match lit with
  | [] => Ret true
  | c :: lit' =>
      x <- load1 m p ;;
      if x =? c then strncmp_eq m (mkptr (pb p) (po p + 1)) lit' else Ret false
  end.

(** ** The outside world *)
(** What the successive calls return, given the number of bytes offered: [e_recv n room] also gives
    the bytes the transport stores into the buffer it was offered.  Any adaptive transport or clock
    is, in each execution, one of these streams, so a theorem for every [env] covers them all. *)
Record env := mkenv {
  e_send : nat -> Z -> Z;
  e_recv : nat -> Z -> Z * bytes;
  e_time : nat -> Z
}.

(** HTTPClient_GetCurrentTimeFunc_t values: NULL, the internal getZeroTimestampMs, or the
    application's clock. *)
Inductive timefn := TNull | TZero | TUser.

(** getTime(); getZeroTimestampMs is core_http_client.c l.523-526. *)
Definition get_time (E : env) (tf : timefn) (w : world) : res (Z * world) :=
  match tf with
  | TNull => Ub UbNull
  | TZero => Ret (0, w)
  | TUser =>
      let v := u32 (e_time E (w_nt w)) in
      Ret (v, mkw (w_mem w) (w_ns w) (w_nr w) (S (w_nt w)) (w_tr w ++ [TTime v]))
  end.

(** HTTPStatus_t, core_http_client.h l.191-351. *)
Inductive status :=
| HTTPSuccess | HTTPInvalidParameter | HTTPNetworkError | HTTPPartialResponse | HTTPNoResponse
| HTTPInsufficientMemory | HTTPSecurityAlertExtraneousResponseData
| HTTPSecurityAlertInvalidChunkHeader | HTTPSecurityAlertInvalidProtocolVersion
| HTTPSecurityAlertInvalidStatusCode | HTTPSecurityAlertInvalidCharacter
| HTTPSecurityAlertInvalidContentLength | HTTPParserPaused | HTTPParserInternalError
| HTTPHeaderNotFound | HTTPInvalidResponse.

Definition is_success (s : status) : bool := match s with HTTPSuccess => true | _ => false end.
