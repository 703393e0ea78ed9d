(** ModelTask.v — the same functions, able to be interrupted.  In the other model files a call of the library runs from its beginning to its end;
    here it is a program that stops after every single byte it reads from memory or writes to it, and at every point where it leaves the library
    (a call of the transport, of the clock, of the parser's callbacks and of the header callback), and goes on later, with the memory as it is
    then.  What it keeps in its own variables (loop counters, pointers, the parsing context, the small arrays for numbers) nobody else can
    reach.  The texts follow ModelRequest.v, ModelSend.v, ModelResponse.v and ModelReadHeader.v line by line (that both say the same is proved in
    ProofsTask.v and ProofsTask2.v); the line numbers of core_http_client.c are given there and here. *)
From Verif Require Import Base ModelRequest ModelSend ModelResponse ModelReadHeader.

(** Why it stopped. *)
Inductive query :=
| QSend (d : bytes) (n : Z)           (* it calls the transport's send with the [n] bytes [d] *)
| QRecv (p : ptr) (room : Z)          (* it calls the transport's recv *)
| QTime                               (* it calls the clock *)
| QNote (e : tev)                     (* the parser enters or leaves a callback or the parser, or the header callback is called *)
| QPause.                             (* it has read or written a byte; another task may run *)
(** A program that has run up to its next stop, and the memory it has then.  [TCall]: it stopped; it wants a number and bytes, and the memory. *)
Inductive tree (A : Type) :=
| TRet (a : A) (m : mem)
| TUb (k : ubkind)
| TAssert (l : Z)
| TMore
| TCall (q : query) (m : mem) (k : Z -> bytes -> mem -> tree A).
Arguments TRet {A} a m.  Arguments TUb {A} k.  Arguments TAssert {A} l.  Arguments TMore {A}.  Arguments TCall {A} q m k.
(** A program: what it does in a given memory. *)
Definition prog (A : Type) := mem -> tree A.

Fixpoint tbind {A C} (t : tree A) (f : A -> prog C) : tree C :=
  match t with
  | TRet a m => f a m
  | TUb k => TUb k
  | TAssert l => TAssert l
  | TMore => TMore
  | TCall q m k => TCall q m (fun n d m' => tbind (k n d m') f)
  end.
Definition pbind {A C} (x : prog A) (f : A -> prog C) : prog C := fun m => tbind (x m) f.
Notation "x <~ e ;; k" := (pbind e (fun x => k)) (at level 61, e at next level, right associativity).
Notation "' p <~ e ;; k" := (pbind e (fun p => k)) (at level 61, p pattern, e at next level, right associativity).
Definition pret {A} (a : A) : prog A := fun m => TRet a m.
(** What reads memory, and what also writes to it. *)
Definition reading {A} (x : mem -> res A) : prog A := fun m =>
  match x m with Ret a => TRet a m | Ub k => TUb k | AssertFail l => TAssert l | More _ => TMore end.
Definition writing {A} (x : mem -> res (A * mem)) : prog A := fun m =>
  match x m with Ret (a, m') => TRet a m' | Ub k => TUb k | AssertFail l => TAssert l | More _ => TMore end.
Definition fixed {A} (x : res A) : prog A := reading (fun _ => x).
Definition stop (q : query) : prog (Z * bytes) := fun m => TCall q m (fun n d m' => TRet (n, d) m').
Definition note (e : tev) : prog unit := _ <~ stop (QNote e) ;; pret tt.

(** getTime(), as Base.get_time. *)
Definition time_p (tf : timefn) : prog Z :=
  match tf with
  | TNull => fixed (Ub UbNull)
  | TZero => pret 0
  | TUser => ' (v, _) <~ stop QTime ;; pret v
  end.

(** ** Memory, a byte at a time *)
Definition pause : prog unit := _ <~ stop QPause ;; pret tt.
(** &p[ n ], as Base.padd: no byte of memory is read for that. *)
Definition padd_p (p : ptr) (n : Z) : prog ptr := reading (fun m => padd m p n).
(** As Base.load1, Base.loadn: that the object is large enough is checked first, then the bytes are read one by one. *)
Definition load1_p (p : ptr) : prog Z := x <~ reading (fun m => load1 m p) ;; _ <~ pause ;; pret x.
Definition range_p (p : ptr) (n : Z) : prog unit := reading (fun m => if in_range m p n then Ret tt else Ub UbOob).
Fixpoint loads_p (p : ptr) (n : nat) : prog bytes :=
  match n with O => pret [] | S n' => x <~ load1_p p ;; d <~ loads_p (mkptr (pb p) (po p + 1)) n' ;; pret (x :: d) end.
Definition loadn_p (p : ptr) (n : Z) : prog bytes := _ <~ range_p p n ;; loads_p p (Z.to_nat n).
(** As Base.storen, in the same way. *)
Fixpoint stores_p (p : ptr) (d : bytes) : prog unit :=
  match d with
  | [] => pret tt
  | c :: d' => _ <~ writing (fun m => m1 <- storen m p [c] ;; Ret (tt, m1)) ;; _ <~ pause ;; stores_p (mkptr (pb p) (po p + 1)) d'
  end.
Definition storen_p (p : ptr) (d : bytes) : prog unit := _ <~ range_p p (zlen d) ;; stores_p p d.
(** As Base.src_byte, src_bytes, memcpy, memmove, strncmp_eq.  memcpy and memmove read all bytes before they write any (C leaves the order open). *)
Definition src_byte_p (s : src) (i : Z) : prog Z :=
  match s with
  | SNull => fixed (Ub UbNull)
  | SLit l => fixed (if (0 <=? i) && (i <? zlen l) then Ret (nth (Z.to_nat i) l 0) else Ub UbOob)
  | SAt p => load1_p (mkptr (pb p) (po p + i))
  end.
Definition src_bytes_p (s : src) (n : Z) : prog bytes :=
  match s with
  | SNull => fixed (Ub UbNull)
  | SLit l => fixed (if (0 <=? n) && (n <=? zlen l) then Ret (slice l 0 n) else Ub UbOob)
  | SAt p => loadn_p p n
  end.
Definition memcpy_p (dst : ptr) (s : src) (n : Z) : prog unit :=
  if overlaps dst s n then fixed (Ub UbOverlap) else d <~ src_bytes_p s n ;; storen_p dst d.
Definition memmove_p (dst sp : ptr) (n : Z) : prog unit := d <~ loadn_p sp n ;; storen_p dst d.
Fixpoint strncmp_p (p : ptr) (lit : bytes) : prog bool :=
  match lit with
  | [] => pret true
  | c :: lit' => x <~ load1_p p ;; if x =? c then strncmp_p (mkptr (pb p) (po p + 1)) lit' else pret false
  end.

(** ** Building requests *)
(** httpHeaderStrncpy, l.1293-1338. *)
Fixpoint strncpy_loop_p (dst : ptr) (s : src) (isField : bool) (n : nat) (i : Z) : prog bool :=
  match n with
  | O => pret true
  | S n' =>
      c <~ src_byte_p s i ;;
      if (c =? CR) || (c =? LF) || (isField && (c =? COLON)) then pret false
      else _ <~ storen_p (mkptr (pb dst) (po dst + i)) [c] ;; strncpy_loop_p dst s isField n' (i + 1)
  end.
Definition httpHeaderStrncpy_p (dst : ptr) (s : src) (len : Z) (isField : bool) : prog bool :=
  _ <~ fixed (assert_at (negb (is_null s)) 1303) ;;
  strncpy_loop_p dst s isField (Z.to_nat len) 0.
(** addHeader, l.1342-1438. *)
Definition addHeader_p (cfg : config) (h : reqHeaders) (field : src) (fieldLen : Z) (value : src) (valueLen : Z) : prog (status * reqHeaders) :=
  match rh_buf h with
  | None => fixed (AssertFail 1359)
  | Some buf =>
      _ <~ fixed (assert_at (negb (is_null field)) 1360) ;;
      _ <~ fixed (assert_at (negb (is_null value)) 1361) ;;
      _ <~ fixed (assert_at (negb (fieldLen =? 0)) 1362) ;;
      _ <~ fixed (assert_at (negb (valueLen =? 0)) 1363) ;;
      cur0 <~ padd_p buf (rh_len h) ;;
      ' (cur, back) <~
        (if 4 <=? rh_len h
         then q <~ padd_p cur0 (-4) ;;
              b <~ strncmp_p q HTTP_HEADER_END_INDICATOR ;;
              if b then c <~ padd_p cur0 (-2) ;; pret (c, rh_len h - 2) else pret (cur0, rh_len h)
         else pret (cur0, rh_len h)) ;;
      let toAdd := (fieldLen + 2 + valueLen + 2 + 2) mod SZ cfg in
      if (back + toAdd) mod SZ cfg <=? rh_bufLen h
      then
        ok <~ httpHeaderStrncpy_p cur field fieldLen true ;;
        if negb ok then pret (HTTPSecurityAlertInvalidCharacter, h)
        else
          cur1 <~ padd_p cur fieldLen ;;
          _ <~ memcpy_p cur1 (SLit HTTP_HEADER_FIELD_SEPARATOR) 2 ;;
          cur2 <~ padd_p cur1 2 ;;
          ok2 <~ httpHeaderStrncpy_p cur2 value valueLen false ;;
          if negb ok2 then pret (HTTPSecurityAlertInvalidCharacter, h)
          else
            cur3 <~ padd_p cur2 valueLen ;;
            _ <~ memcpy_p cur3 (SLit HTTP_HEADER_END_INDICATOR) 4 ;;
            pret (HTTPSuccess, set_rh_len h ((back + toAdd) mod SZ cfg))
      else pret (HTTPInsufficientMemory, h)
  end.
(** addRangeHeader, l.1442-1509. *)
Definition addRangeHeader_p (cfg : config) (h : reqHeaders) (start rend : Z) : prog (status * reqHeaders) :=
  let a0 := repeat 0 (Z.to_nat HTTP_MAX_RANGE_REQUEST_VALUE_LEN) in
  let a1 := splice a0 0 HTTP_RANGE_REQUEST_HEADER_VALUE_PREFIX in
  let n1 := zlen HTTP_RANGE_REQUEST_HEADER_VALUE_PREFIX in
  ' (a2, k) <~ fixed (convertInt32ToAscii start a1 n1) ;;
  let n2 := n1 + k in
  ' (a3, n3) <~ fixed
    (if negb (rend =? HTTP_RANGE_REQUEST_END_OF_FILE)
     then b <- aset a2 n2 DASH ;;
          ' (c, k2) <- convertInt32ToAscii rend b (n2 + 1) ;;
          Ret (c, n2 + 1 + k2)
     else if 0 <=? start
     then b <- aset a2 n2 DASH ;; Ret (b, n2 + 1)
     else Ret (a2, n2)) ;;
  addHeader_p cfg h (SLit HTTP_RANGE_REQUEST_HEADER_FIELD) (zlen HTTP_RANGE_REQUEST_HEADER_FIELD) (SLit a3) n3.
(** addContentLengthHeader, l.1894-1922. *)
Definition addContentLengthHeader_p (cfg : config) (h : reqHeaders) (contentLength : Z) : prog (status * reqHeaders) :=
  let a0 := repeat 0 (Z.to_nat MAX_INT32_NO_OF_DECIMAL_DIGITS) in
  _ <~ fixed (assert_at (0 <? contentLength) 1902) ;;
  ' (a1, k) <~ fixed (convertInt32ToAscii (to_int32 contentLength) a0 0) ;;
  addHeader_p cfg h (SLit HTTP_CONTENT_LENGTH_FIELD) (zlen HTTP_CONTENT_LENGTH_FIELD) (SLit a1) k.
(** writeRequestLine, l.1513-1585. *)
Definition writeRequestLine_p (cfg : config) (h : reqHeaders) (method : src) (methodLen : Z) (path : src) (pathLen : Z) : prog (status * reqHeaders) :=
  match rh_buf h with
  | None => fixed (AssertFail 1530)
  | Some buf =>
      _ <~ fixed (assert_at (negb (is_null method)) 1531) ;;
      _ <~ fixed (assert_at (negb (methodLen =? 0)) 1532) ;;
      let noPath := is_null path || (pathLen =? 0) in
      let toAdd := (methodLen + 1 + 1 + zlen HTTP_PROTOCOL_VERSION + 2
                    + (if noPath then zlen HTTP_EMPTY_PATH else pathLen)) mod SZ cfg in
      if rh_bufLen h <? (toAdd + rh_len h) mod SZ cfg then pret (HTTPInsufficientMemory, h)
      else
        _ <~ memcpy_p buf method methodLen ;;
        c1 <~ padd_p buf methodLen ;;
        _ <~ storen_p c1 [SPACE] ;;
        c2 <~ padd_p c1 1 ;;
        c3 <~
          (if noPath
           then _ <~ memcpy_p c2 (SLit HTTP_EMPTY_PATH) (zlen HTTP_EMPTY_PATH) ;; padd_p c2 (zlen HTTP_EMPTY_PATH)
           else _ <~ memcpy_p c2 path pathLen ;; padd_p c2 pathLen) ;;
        _ <~ storen_p c3 [SPACE] ;;
        c4 <~ padd_p c3 1 ;;
        _ <~ memcpy_p c4 (SLit HTTP_PROTOCOL_VERSION) (zlen HTTP_PROTOCOL_VERSION) ;;
        c5 <~ padd_p c4 (zlen HTTP_PROTOCOL_VERSION) ;;
        _ <~ memcpy_p c5 (SLit HTTP_HEADER_LINE_SEPARATOR) 2 ;;
        pret (HTTPSuccess, set_rh_len h toAdd)
  end.
(** The chaining of l.1643-1682. *)
Definition andThen_p (x : prog (status * reqHeaders)) (f : reqHeaders -> prog (status * reqHeaders)) : prog (status * reqHeaders) :=
  ' (st, h) <~ x ;; if is_success st then f h else pret (st, h).
(** HTTPClient_InitializeRequestHeaders, l.1589-1685. *)
Definition InitializeRequestHeaders_p (cfg : config) (prh : option reqHeaders) (pri : option reqInfo) : prog (status * option reqHeaders) :=
  let invalid := pret (HTTPInvalidParameter, prh) in
  match prh with
  | None => invalid
  | Some h =>
      if match rh_buf h with None => true | Some _ => false end then invalid
      else match pri with
      | None => invalid
      | Some ri =>
          if is_null (ri_method ri) then invalid
          else if is_null (ri_host ri) then invalid
          else if ri_methodLen ri =? 0 then invalid
          else if ri_hostLen ri =? 0 then invalid
          else
            ' (st, h') <~
              andThen_p (andThen_p (andThen_p
                (writeRequestLine_p cfg (set_rh_len h 0) (ri_method ri) (ri_methodLen ri) (ri_path ri) (ri_pathLen ri))
                (fun h =>
                   if Z.land HTTP_REQUEST_NO_USER_AGENT_FLAG (ri_flags ri) =? 0
                   then addHeader_p cfg h (SLit HTTP_USER_AGENT_FIELD) (zlen HTTP_USER_AGENT_FIELD) (SLit (UA cfg)) (zlen (UA cfg))
                   else pret (HTTPSuccess, h)))
                (fun h => addHeader_p cfg h (SLit HTTP_HOST_FIELD) (zlen HTTP_HOST_FIELD) (ri_host ri) (ri_hostLen ri)))
                (fun h =>
                   if negb (Z.land HTTP_REQUEST_KEEP_ALIVE_FLAG (ri_flags ri) =? 0)
                   then addHeader_p cfg h (SLit HTTP_CONNECTION_FIELD) (zlen HTTP_CONNECTION_FIELD)
                                    (SLit HTTP_CONNECTION_KEEP_ALIVE_VALUE) (zlen HTTP_CONNECTION_KEEP_ALIVE_VALUE)
                   else pret (HTTPSuccess, h)) ;;
            pret (st, Some h')
      end
  end.
(** HTTPClient_AddHeader, l.1689-1745. *)
Definition AddHeader_p (cfg : config) (prh : option reqHeaders) (field : src) (fieldLen : Z) (value : src) (valueLen : Z) : prog (status * option reqHeaders) :=
  let invalid := pret (HTTPInvalidParameter, prh) in
  match prh with
  | None => invalid
  | Some h =>
      if match rh_buf h with None => true | Some _ => false end then invalid
      else if is_null field then invalid
      else if is_null value then invalid
      else if fieldLen =? 0 then invalid
      else if valueLen =? 0 then invalid
      else if rh_bufLen h <? rh_len h then invalid
      else ' (st, h') <~ addHeader_p cfg h field fieldLen value valueLen ;; pret (st, Some h')
  end.
(** HTTPClient_AddRangeHeader, l.1749-1810. *)
Definition AddRangeHeader_p (cfg : config) (prh : option reqHeaders) (start rend : Z) : prog (status * option reqHeaders) :=
  let invalid := pret (HTTPInvalidParameter, prh) in
  match prh with
  | None => invalid
  | Some h =>
      if match rh_buf h with None => true | Some _ => false end then invalid
      else if rh_bufLen h <? rh_len h then invalid
      else if rend <? HTTP_RANGE_REQUEST_END_OF_FILE then invalid
      else if (start <? 0) && negb (rend =? HTTP_RANGE_REQUEST_END_OF_FILE) then invalid
      else if negb (rend =? HTTP_RANGE_REQUEST_END_OF_FILE) && (rend <? start) then invalid
      else if start =? INT32_MIN then invalid
      else ' (st, h') <~ addRangeHeader_p cfg h start rend ;; pret (st, Some h')
  end.

(** ** Sending *)
(** HTTPClient_SendHttpData, l.1814-1890. *)
Fixpoint send_loop_p (fuel : nat) (tf : timefn) (retry : Z) (p : ptr) (rem last : Z) : prog status :=
  match fuel with
  | O => fun _ => TMore
  | S f =>
      if rem <=? 0 then pret HTTPSuccess
      else
        d <~ loadn_p p rem ;;
        ' (r, _) <~ stop (QSend d rem) ;;
        if r <? 0 then pret HTTPNetworkError
        else if 0 <? r then
          _ <~ fixed (assert_at (r <=? rem) 1861) ;;
          t <~ time_p tf ;;
          p' <~ padd_p p r ;;
          send_loop_p f tf retry p' (rem - r) t
        else
          t <~ time_p tf ;;
          if retry <=? u32 (t - last) then pret HTTPNetworkError
          else send_loop_p f tf retry p rem last
  end.
Definition SendHttpData_p (fuel : nat) (cfg : config) (tr : option transport) (tf : timefn) (pData : option ptr) (dataLen : Z) : prog status :=
  match tr with
  | None => fixed (AssertFail 1826)
  | Some t =>
      _ <~ fixed (assert_at (t_send t) 1827) ;;
      match pData with
      | None => fixed (AssertFail 1828)
      | Some p => t0 <~ time_p tf ;; send_loop_p fuel tf (match tf with TZero => 0 | _ => SEND_TO cfg end) p dataLen t0
      end
  end.

(** HTTPClient_SendHttpHeaders, l.1926-1960. *)
Definition SendHttpHeaders_p (fuel : nat) (cfg : config) (tr : option transport) (tf : timefn) (prh : option reqHeaders) (reqBodyLen sendFlags : Z)
  : prog (status * option reqHeaders) :=
  match tr with
  | None => fixed (AssertFail 1935)
  | Some t =>
      _ <~ fixed (assert_at (t_send t) 1936) ;;
      match prh with
      | None => fixed (AssertFail 1937)
      | Some h =>
          ' (st, h1) <~
            (if (Z.land sendFlags HTTP_SEND_DISABLE_CONTENT_LENGTH_FLAG =? 0) && (0 <? reqBodyLen)
             then addContentLengthHeader_p cfg h reqBodyLen
             else pret (HTTPSuccess, h)) ;;
          if is_success st
          then st2 <~ SendHttpData_p fuel cfg tr tf (rh_buf h1) (rh_len h1) ;; pret (st2, Some h1)
          else pret (st, Some h1)
      end
  end.

(** sendHttpBody, l.1964-1981. *)
Definition sendHttpBody_p (fuel : nat) (cfg : config) (tr : option transport) (tf : timefn) (body : option ptr) (bodyLen : Z) : prog status :=
  match tr with
  | None => fixed (AssertFail 1971)
  | Some t =>
      _ <~ fixed (assert_at (t_send t) 1972) ;;
      _ <~ fixed (assert_at (match body with None => false | _ => true end) 1973) ;;
      SendHttpData_p fuel cfg tr tf body bodyLen
  end.

(** sendHttpRequest, l.2171-2210. *)
Definition sendHttpRequest_p (fuel : nat) (cfg : config) (tr : option transport) (tf : timefn) (prh : option reqHeaders) (body : option ptr)
           (bodyLen sendFlags : Z) : prog (status * option reqHeaders) :=
  _ <~ fixed (assert_at (match tr with None => false | _ => true end) 2180) ;;
  _ <~ fixed (assert_at (match prh with None => false | _ => true end) 2181) ;;
  _ <~ fixed (assert_at (match body with None => bodyLen =? 0 | _ => true end) 2182) ;;
  _ <~ fixed (assert_at (match tf with TNull => false | _ => true end) 2184) ;;
  ' (st, h1) <~ SendHttpHeaders_p fuel cfg tr tf prh bodyLen sendFlags ;;
  if is_success st
  then match body with
       | Some _ => st2 <~ sendHttpBody_p fuel cfg tr tf body bodyLen ;; pret (st2, h1)
       | None => pret (st, h1)
       end
  else pret (st, h1).

(** ** Receiving *)
Definition pst := (pctx * response)%type.
(** A function of ModelResponse.v that neither leaves the library nor reads or writes a byte of memory (it computes addresses). *)
Definition inside {X} (f : cbst -> res (X * cbst)) (s : pst) : prog (X * pst) :=
  writing (fun m => match f (mkst (fst s) (snd s) (mkw m O O O [])) with
                    | Ret (x, s') => Ret (x, (s_ctx s', s_resp s'), w_mem (s_w s'))
                    | Ub k => Ub k | AssertFail l => AssertFail l | More w => More w
                    end).
(** processCompleteHeader, l.568-613. *)
Definition processCompleteHeader_p (cfg : config) (s : pst) : prog pst :=
  let (c, r) := s in
  _ <~ fixed (assert_at (c_resp c) 573) ;;
  match c_lf c, c_lv c with
  | Some f, Some v =>
      _ <~ fixed (assert_at (r_hcount r <? SZ cfg - 1) 582) ;;
      let r1 := set_r_hcount r (r_hcount r + 1) in
      let c1 := set_last c None 0 None 0 in
      if r_cb r
      then
        fb <~ loadn_p f (c_lfl c) ;;
        vb <~ loadn_p v (c_lvl c) ;;
        _ <~ note (THeader f (c_lfl c) v (c_lvl c) fb vb (r_status r)) ;;
        pret (c1, r1)
      else pret (c1, r1)
  | _, _ => pret s
  end.
(** httpParserOnHeaderFieldCallback, l.709-762. *)
Definition onHeaderField_p (cfg : config) (s : pst) (loc : ptr) (length : Z) : prog (cbret * pst) :=
  _ <~ fixed (assert_at (c_resp (fst s)) 723) ;;
  let r1 := match r_headers (snd s) with
            | None => set_r_headers (snd s) (Some loc) (r_headersLen (snd s))
            | Some _ => snd s
            end in
  q <~ padd_p loc length ;;
  ' (c, r2) <~ processCompleteHeader_p cfg (set_cur (fst s) (Some q), r1) ;;
  match c_lf c with
  | None => pret (CbContinue, (set_last c (Some loc) length (c_lv c) (c_lvl c), r2))
  | Some f =>
      _ <~ fixed (assert_at (c_lfl c <=? SZ cfg - 1 - length) 752) ;;
      pret (CbContinue, (set_last c (Some f) ((c_lfl c + length) mod SZ cfg) (c_lv c) (c_lvl c), r2))
  end.
(** httpParserOnHeadersCompleteCallback, l.810-905. *)
Definition onHeadersComplete_p (cfg : config) (s : pst) (clen : Z) (close keepalive : bool) : prog (cbret * pst) :=
  let (c, r) := s in
  _ <~ fixed (assert_at (c_resp c) 822) ;;
  match c_cur c with
  | None => fixed (AssertFail 823)
  | Some cur =>
      match r_buf r with
      | None => fixed (Ub UbNull)
      | Some buf =>
          let r1 := set_r_hdone r 1 in
          d <~ fixed (psub cur buf) ;;
          _ <~ fixed (assert_at (0 <=? d) 830) ;;
          endp <~ padd_p buf (r_bufLen r) ;;
          d2 <~ fixed (psub cur endp) ;;
          _ <~ fixed (assert_at (d2 <? 0) 831) ;;
          r2 <~ fixed (match r_headers r1 with
                | Some h =>
                    d3 <- psub cur h ;;
                    _ <- assert_at (0 <? d3) 842 ;;
                    Ret (set_r_headers r1 (Some h) d3)
                | None => Ret (set_r_headers r1 None 0)
                end) ;;
          let r3 := set_r_clen r2 (if clen =? UINT64_MAX then 0 else clen mod SZ cfg) in
          let r4 := if close then set_r_flags r3 (Z.lor (r_flags r3) HTTP_RESPONSE_CONNECTION_CLOSE_FLAG) else r3 in
          let r5 := if keepalive then set_r_flags r4 (Z.lor (r_flags r4) HTTP_RESPONSE_CONNECTION_KEEP_ALIVE_FLAG) else r4 in
          let ret := if c_head c then CbNoBody else CbContinue in
          s1 <~ processCompleteHeader_p cfg (c, r5) ;;
          pret (if negb (Z.land (r_opt (snd s1)) HTTP_RESPONSE_DO_NOT_PARSE_BODY_FLAG =? 0) then CbPause else ret, s1)
      end
  end.
(** httpParserOnBodyCallback, l.909-977. *)
Definition onBody_p (cfg : config) (s : pst) (loc : ptr) (length : Z) : prog (cbret * pst) :=
  let (c, r) := s in
  _ <~ fixed (assert_at (c_resp c) 925) ;;
  match r_buf r with
  | None => fixed (AssertFail 926)
  | Some buf =>
      d <~ fixed (psub loc buf) ;;
      _ <~ fixed (assert_at (0 <=? d) 927) ;;
      endp <~ padd_p buf (r_bufLen r) ;;
      d2 <~ fixed (psub loc endp) ;;
      _ <~ fixed (assert_at (d2 <? 0) 928) ;;
      let '(body, bl) := match r_body r with
                         | None => (loc, 0)
                         | Some b => (b, r_bodyLen r)
                         end in
      next <~ padd_p body bl ;;
      gap <~ fixed (psub loc next) ;;
      _ <~ (if 0 <? gap then memmove_p next loc length else pret tt) ;;
      q <~ padd_p loc length ;;
      pret (CbContinue, (set_cur c (Some q), set_r_body r (Some body) ((bl + length) mod SZ cfg)))
  end.
(** The settings of l.1009-1016. *)
Definition callback_p (cfg : config) (start : ptr) (ev : pevent) (s : pst) : prog (cbret * pst) :=
  match ev with
  | EvField off len => onHeaderField_p cfg s (mkptr (pb start) (po start + off)) len
  | EvHeadersComplete _ clen close ka => onHeadersComplete_p cfg s clen close ka
  | EvBody off len => onBody_p cfg s (mkptr (pb start) (po start + off)) len
  | _ => inside (callback cfg start ev) s
  end.
(** llhttp_execute with the library's callbacks, as ModelResponse.run_tree. *)
Fixpoint run_tree_p (cfg : config) (start : ptr) {S : Type} (s0 : S) (t : ptree S) (s : pst) : prog (errno * Z * S * pst) :=
  match t with
  | PDone e s1 => pret (e, 0, s1, s)
  | PEmit ev k =>
      _ <~ note (TEvent ev) ;;
      ' (r, s1) <~ callback_p cfg start ev s ;;
      _ <~ note (TReply r) ;;
      match r with
      | CbPause => pret (HPE_PAUSED, ev_pos ev, s0, s1)
      | CbStop => pret (HPE_USER, ev_pos ev, s0, s1)
      | _ => run_tree_p cfg start s0 (k r) s1
      end
  end.
(** parseHttpResponse, l.1161-1234. *)
Definition parseHttpResponse_p (cfg : config) (P : parser) (ps : PS P) (s : pst) (parseLen : Z) : prog (status * PS P * pst) :=
  let (c, r) := s in
  let s1 : pst :=
    if c_resp c then s
    else (mkctx (c_state c) true (c_head c) (r_buf r) (c_lf c) (c_lfl c) (c_lv c) (c_lvl c),
          set_r_flags (set_r_hcount (set_r_headers (set_r_body (set_r_status r 0) None 0) None 0) 0) 0) in
  match c_cur (fst s1) with
  | None => fixed (Ub UbNull)
  | Some start =>
      d <~ loadn_p start parseLen ;;
      _ <~ note (TParse start d) ;;
      ' (e, epos, ps', s2) <~ run_tree_p cfg start ps (p_exec P ps d) s1 ;;
      cur' <~ padd_p start (match e with HPE_PAUSED => epos | _ => parseLen end) ;;
      _ <~ note (TParsed e) ;;
      pret (processLlhttpError e, ps', (set_cur (fst s2) (Some cur'), snd s2))
  end.
(** initializeParsingContextForFirstResponse, l.1000-1037. *)
Definition initializeParsingContextForFirstResponse_p (rh : reqHeaders) : prog pctx :=
  _ <~ fixed (assert_at (HTTP_MINIMUM_REQUEST_LINE_LENGTH <=? rh_len rh) 1005) ;;
  match rh_buf rh with
  | None => fixed (Ub UbNull)
  | Some buf =>
      hd <~ strncmp_p buf HTTP_METHOD_HEAD ;;
      pret (mkctx HTTP_PARSING_NONE false hd None None 0 None 0)
  end.
(** The while loop of HTTPClient_ReceiveAndParseHttpResponse, l.2068-2140. *)
Fixpoint recv_loop_p (fuel : nat) (cfg : config) (P : parser) (retry : Z) (total last : Z) (ps : PS P) (s : pst) : prog (status * Z * pst) :=
  match fuel with
  | O => fun _ => TMore
  | S f =>
      let r := snd s in
      match r_buf r with
      | None => fixed (Ub UbNull)
      | Some buf =>
          dst <~ padd_p buf total ;;
          let room := (r_bufLen r - total) mod SZ cfg in
          ' (n, d) <~ stop (QRecv dst room) ;;
          _ <~ storen_p dst d ;;
          if n <? 0 then pret (HTTPNetworkError, total, s)
          else
            t <~ time_p (r_time r) ;;
            if 0 <? n then
              let total' := (total + n) mod SZ cfg in
              ' (st, ps', s3) <~ parseHttpResponse_p cfg P ps s n ;;
              if is_success st
                 && (match c_state (fst s3) with HTTP_PARSING_COMPLETE => false | _ => true end)
                 && (total' <? r_bufLen (snd s3))
              then recv_loop_p f cfg P retry total' t ps' s3
              else pret (st, total', s3)
            else if retry <=? u32 (t - last) then
              ' (st, ps', s3) <~ parseHttpResponse_p cfg P ps s 0 ;;
              pret (st, total, s3)
            else if (match c_state (fst s) with HTTP_PARSING_COMPLETE => false | _ => true end) && (total <? r_bufLen r)
            then recv_loop_p f cfg P retry total last ps s
            else pret (HTTPSuccess, total, s)
      end
  end.
(** HTTPClient_ReceiveAndParseHttpResponse, l.2037-2167. *)
Definition ReceiveAndParseHttpResponse_p (fuel : nat) (cfg : config) (P : parser) (tr : option transport) (pResponse : option response)
           (prh : option reqHeaders) : prog (status * option response) :=
  match tr with
  | None => fixed (AssertFail 2049)
  | Some t =>
      _ <~ fixed (assert_at (t_recv t) 2050) ;;
      match pResponse with
      | None => fixed (AssertFail 2051)
      | Some r =>
          match prh with
          | None => fixed (AssertFail 2052)
          | Some rh =>
              c <~ initializeParsingContextForFirstResponse_p rh ;;
              let retry := match r_time r with TZero => 0 | _ => RECV_TO cfg end in
              t0 <~ time_p (r_time r) ;;
              ' (st, total, s) <~ recv_loop_p fuel cfg P retry 0 t0 (p_init P) (c, r) ;;
              let r1 := snd s in
              ' (st2, r2) <~ fixed
                (match st with
                 | HTTPParserPaused =>
                     if negb (Z.land (r_opt r1) HTTP_RESPONSE_DO_NOT_PARSE_BODY_FLAG =? 0)
                     then match c_cur (fst s), r_buf r1 with
                          | Some cur, Some buf =>
                              d <- psub cur buf ;;
                              Ret (HTTPSuccess, set_r_body r1 (Some cur) ((total - d) mod SZ cfg))
                          | _, _ => Ub UbNull
                          end
                     else Ret (st, r1)
                 | _ => Ret (st, r1)
                 end) ;;
              if is_success st2
              then st3 <~ fixed (getFinalResponseStatus (c_state (fst s)) total r2) ;; pret (st3, Some r2)
              else pret (st2, Some r2)
          end
      end
  end.
(** HTTPClient_Send, l.2214-2313. *)
Definition Send_p (fuel : nat) (cfg : config) (P : parser) (tr : option transport) (prh : option reqHeaders) (body : option ptr) (bodyLen : Z)
           (pResponse : option response) (sendFlags : Z) : prog (status * option reqHeaders * option response) :=
  let invalid := pret (HTTPInvalidParameter, prh, pResponse) in
  match tr with
  | None => invalid
  | Some t =>
      if negb (t_send t) then invalid
      else if negb (t_recv t) then invalid
      else match prh with
      | None => invalid
      | Some rh =>
          if match rh_buf rh with None => true | _ => false end then invalid
          else if rh_len rh <? HTTP_MINIMUM_REQUEST_LINE_LENGTH then invalid
          else if rh_bufLen rh <? rh_len rh then invalid
          else match pResponse with
          | None => invalid
          | Some r =>
              if match r_buf r with None => true | _ => false end then invalid
              else if r_bufLen r =? 0 then invalid
              else if match body with None => 0 <? bodyLen | _ => false end then invalid
              else if INT32_MAX mod SZ cfg <? bodyLen then invalid
              else
                let r1 := match r_time r with TNull => set_r_time r TZero | _ => r end in
                ' (st, prh1) <~ sendHttpRequest_p fuel cfg tr (r_time r1) prh body bodyLen sendFlags ;;
                if is_success st
                then ' (st2, pr2) <~ ReceiveAndParseHttpResponse_p fuel cfg P tr (Some r1) prh1 ;; pret (st2, prh1, pr2)
                else pret (st, prh1, Some r1)
          end
      end
  end.

(** ** Reading a header *)
(** caseInsensitiveStringCmp, l.529-563. *)
Fixpoint ci_loop_p (s1 : src) (p2 : ptr) (n : nat) (i : Z) : prog bool :=
  match n with
  | O => pret true
  | S n' =>
      a <~ src_byte_p s1 i ;;
      b <~ load1_p (mkptr (pb p2) (po p2 + i)) ;;
      if upper a =? upper b then ci_loop_p s1 p2 n' (i + 1) else pret false
  end.
(** findHeaderFieldParserCallback, l.2317-2355. *)
Definition findHeaderField_p (x : fctx) (loc : ptr) (len : Z) : prog (cbret * fctx) :=
  _ <~ fixed (assert_at (0 <? len) 2326) ;;
  _ <~ fixed (assert_at (negb (is_null (f_field x))) 2330) ;;
  _ <~ fixed (assert_at (0 <? f_fieldLen x) 2331) ;;
  _ <~ fixed (assert_at (negb (f_fieldFound x)) 2334) ;;
  _ <~ fixed (assert_at (negb (f_valueFound x)) 2335) ;;
  eq <~ (if len =? f_fieldLen x then ci_loop_p (f_field x) loc (Z.to_nat len) 0 else pret false) ;;
  pret (CbContinue, if eq then mkfctx (f_field x) (f_fieldLen x) true (f_valueFound x) (f_out x) else x).
Definition find_callback_p (start : ptr) (ev : pevent) (x : fctx) : prog (cbret * fctx) :=
  match ev with
  | EvField off len => findHeaderField_p x (mkptr (pb start) (po start + off)) len
  | EvValue off len => fixed (findHeaderValue x (mkptr (pb start) (po start + off)) len)
  | EvHeadersComplete _ _ _ _ => pret (CbNoBody, x)
  | _ => pret (CbContinue, x)
  end.
Fixpoint find_tree_p (start : ptr) {S : Type} (t : ptree S) (x : fctx) : prog (errno * fctx) :=
  match t with
  | PDone e _ => pret (e, x)
  | PEmit ev k =>
      ' (r, x1) <~ find_callback_p start ev x ;;
      match r with
      | CbPause => pret (HPE_PAUSED, x1)
      | CbStop => pret (HPE_USER, x1)
      | _ => find_tree_p start (k r) x1
      end
  end.
(** findHeaderInResponse, l.2450-2554. *)
Definition findHeaderInResponse_p (P : parser) (buf : ptr) (bufLen : Z) (field : src) (fieldLen : Z) : prog (status * option (option ptr * Z)) :=
  d <~ loadn_p buf bufLen ;;
  ' (e, x) <~ find_tree_p buf (p_exec P (p_init P) d) (mkfctx field fieldLen false false None) ;;
  st <~ fixed (if negb (f_fieldFound x)
         then _ <- assert_at (negb (f_valueFound x)) 2488 ;; Ret HTTPHeaderNotFound
         else if negb (f_valueFound x) then Ret HTTPInvalidResponse
         else Ret HTTPSuccess) ;;
  let st2 :=
    match st, e with
    | HTTPSuccess, HPE_USER => HTTPSuccess
    | HTTPSuccess, _ => HTTPParserInternalError
    | HTTPHeaderNotFound, HPE_OK => HTTPHeaderNotFound
    | HTTPHeaderNotFound, _ => HTTPInvalidResponse
    | _, _ => st
    end in
  pret (st2, f_out x).
(** HTTPClient_ReadHeader, l.2558-2619. *)
Definition ReadHeader_p (P : parser) (pResponse : option response) (field : src) (fieldLen : Z) (locOk lenOk : bool) : prog (status * option (option ptr * Z)) :=
  let invalid := pret (HTTPInvalidParameter, None) in
  match pResponse with
  | None => invalid
  | Some r =>
      match r_buf r with
      | None => invalid
      | Some buf =>
          if r_bufLen r =? 0 then invalid
          else if is_null field then invalid
          else if fieldLen =? 0 then invalid
          else if negb locOk then invalid
          else if negb lenOk then invalid
          else findHeaderInResponse_p P buf (r_bufLen r) field fieldLen
      end
  end.
