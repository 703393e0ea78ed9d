(** ModelRequest.v — the request-building half of core_http_client.c.
    All line numbers are of /repo/source/core_http_client.c unless another file is named. *)
From Verif Require Import Base.

(** ** Constants of core_http_client_private.h (l.54-204) and core_http_client.h *)
Definition HTTP_PROTOCOL_VERSION := B "HTTP/1.1".               (* private.h l.54 *)
Definition HTTP_EMPTY_PATH := B "/".                            (* private.h l.60 *)
Definition HTTP_HEADER_LINE_SEPARATOR : bytes := [13; 10].      (* private.h l.64 *)
Definition HTTP_HEADER_END_INDICATOR : bytes := [13; 10; 13; 10].
Definition HTTP_HEADER_FIELD_SEPARATOR : bytes := [58; 32].     (* ": " *)
Definition HTTP_USER_AGENT_FIELD := B "User-Agent".
Definition HTTP_HOST_FIELD := B "Host".
Definition HTTP_CONNECTION_FIELD := B "Connection".
Definition HTTP_CONTENT_LENGTH_FIELD := B "Content-Length".
Definition HTTP_CONNECTION_KEEP_ALIVE_VALUE := B "keep-alive".
Definition HTTP_RANGE_REQUEST_HEADER_FIELD := B "Range".
Definition HTTP_RANGE_REQUEST_HEADER_VALUE_PREFIX := B "bytes=".
Definition MAX_INT32_NO_OF_DECIMAL_DIGITS := 10.
Definition HTTP_MAX_RANGE_REQUEST_VALUE_LEN := 27.              (* private.h l.153-155: 6+10+1+10 *)
Definition HTTP_REQUEST_KEEP_ALIVE_FLAG := 1.                   (* core_http_client.h l.114 *)
Definition HTTP_REQUEST_NO_USER_AGENT_FLAG := 2.                (* core_http_client.h l.125 *)
Definition HTTP_RANGE_REQUEST_END_OF_FILE := -1.

(** HTTPRequestHeaders_t, core_http_client.h l.364-389. *)
Record reqHeaders := mkrh {
  rh_buf : option ptr;       (* pBuffer *)
  rh_bufLen : Z;             (* bufferLen *)
  rh_len : Z                 (* headersLen *)
}.
Definition set_rh_len (h : reqHeaders) (n : Z) := mkrh (rh_buf h) (rh_bufLen h) n.

(** HTTPRequestInfo_t, core_http_client.h l.395-423. *)
Record reqInfo := mkri {
  ri_method : src;  ri_methodLen : Z;
  ri_path : src;    ri_pathLen : Z;
  ri_host : src;    ri_hostLen : Z;
  ri_flags : Z
}.

(** ** Local arrays ([char x[ N ]]) are lists; access is bounds-checked. *)
Definition aget (a : bytes) (i : Z) : res Z :=
  if (0 <=? i) && (i <? zlen a) then Ret (nth (Z.to_nat i) a 0) else Ub UbOob.
Definition aset (a : bytes) (i v : Z) : res bytes :=
  if (0 <=? i) && (i <? zlen a) then Ret (splice a i [v]) else Ub UbOob.

(** ** convertInt32ToAscii, l.1238-1289.  [a] is the caller's array and [base] the index in it that
    [pBuffer] points to, so [bufferLength] is [zlen a - base] in both callers. *)

(** The do-while loop of l.1270-1275 (C's % and / truncate: Z.rem, Z.quot).  The fuel is 11 rounds;
    an int32_t has at most 10 digits, so the [O] case is not reached for such values. *)
Fixpoint conv_digits (fuel : nat) (a : bytes) (base neg nd av : Z) : res (bytes * Z) :=
  match fuel with
  | O => Ub UbOob
  | S f =>
      a' <- aset a (base + neg + nd) (Z.rem av 10 + 48) ;;
      if Z.quot av 10 =? 0 then Ret (a', nd + 1)
      else conv_digits f a' base neg (nd + 1) (Z.quot av 10)
  end.

(** The reversing loop of l.1279-1286; [n] rounds remain. *)
Fixpoint conv_reverse (n : nat) (a : bytes) (base neg nd idx : Z) : res bytes :=
  match n with
  | O => Ret a
  | S n' =>
      temp <- aget a (base + neg + idx) ;;
      x <- aget a (base + (neg + nd - idx - 1)) ;;
      a1 <- aset a (base + neg + idx) x ;;
      a2 <- aset a1 (base + (neg + nd - idx - 1)) temp ;;
      conv_reverse n' a2 base neg nd (idx + 1)
  end.

Definition convertInt32ToAscii (value : Z) (a : bytes) (base : Z) : res (bytes * Z) :=
  _ <- assert_at (MAX_INT32_NO_OF_DECIMAL_DIGITS <=? zlen a - base) 1256 ;;
  ' (a1, neg, av) <-
    (if value <? 0
     then a1 <- aset a base DASH ;;
          (if value * (-1) <=? INT32_MAX then Ret (a1, 1, value * (-1)) else Ub UbOverflow)
     else Ret (a, 0, value)) ;;
  ' (a2, nd) <- conv_digits 11 a1 base neg 0 av ;;
  a3 <- conv_reverse (Z.to_nat (nd / 2)) a2 base neg nd 0 ;;
  Ret (a3, neg + nd).

(** ** httpHeaderStrncpy, l.1293-1338.  The result is whether the C function returned non-NULL.
    [i] is the loop index and [n] the number of iterations left.  Logging is not modelled. *)
Fixpoint strncpy_loop (m : mem) (dst : ptr) (s : src) (isField : bool) (n : nat) (i : Z)
  : res (bool * mem) :=
  match n with
  | O => Ret (true, m)
  | S n' =>
      c <- src_byte m s i ;;
      if (c =? CR) || (c =? LF) || (isField && (c =? COLON)) then Ret (false, m)
      else
        m' <- storen m (mkptr (pb dst) (po dst + i)) [c] ;;
        strncpy_loop m' dst s isField n' (i + 1)
  end.
Definition httpHeaderStrncpy (m : mem) (dst : ptr) (s : src) (len : Z) (isField : bool) :=
  _ <- assert_at (negb (is_null s)) 1303 ;;
  strncpy_loop m dst s isField (Z.to_nat len) 0.

(** ** addHeader, l.1342-1438.  size_t sums wrap modulo [SZ]. *)
Definition addHeader (cfg : config) (m : mem) (h : reqHeaders)
           (field : src) (fieldLen : Z) (value : src) (valueLen : Z)
  : res (status * reqHeaders * mem) :=
  match rh_buf h with
  | None => AssertFail 1359
  | Some buf =>
      _ <- assert_at (negb (is_null field)) 1360 ;;
      _ <- assert_at (negb (is_null value)) 1361 ;;
      _ <- assert_at (negb (fieldLen =? 0)) 1362 ;;
      _ <- assert_at (negb (valueLen =? 0)) 1363 ;;
      cur0 <- padd m buf (rh_len h) ;;
      (* l.1371-1378: step back over the blank line if there is one *)
      ' (cur, back) <-
        (if 4 <=? rh_len h
         then q <- padd m cur0 (-4) ;;
              b <- strncmp_eq m q HTTP_HEADER_END_INDICATOR ;;
              if b then c <- padd m cur0 (-2) ;; Ret (c, rh_len h - 2) else Ret (cur0, rh_len h)
         else Ret (cur0, rh_len h)) ;;
      let toAdd := (fieldLen + 2 + valueLen + 2 + 2) mod SZ cfg in
      if (back + toAdd) mod SZ cfg <=? rh_bufLen h
      then
        ' (ok, m1) <- httpHeaderStrncpy m cur field fieldLen true ;;
        if negb ok then Ret (HTTPSecurityAlertInvalidCharacter, h, m1)
        else
          cur1 <- padd m1 cur fieldLen ;;
          m2 <- memcpy m1 cur1 (SLit HTTP_HEADER_FIELD_SEPARATOR) 2 ;;
          cur2 <- padd m2 cur1 2 ;;
          ' (ok2, m3) <- httpHeaderStrncpy m2 cur2 value valueLen false ;;
          if negb ok2 then Ret (HTTPSecurityAlertInvalidCharacter, h, m3)
          else
            cur3 <- padd m3 cur2 valueLen ;;
            m4 <- memcpy m3 cur3 (SLit HTTP_HEADER_END_INDICATOR) 4 ;;
            Ret (HTTPSuccess, set_rh_len h ((back + toAdd) mod SZ cfg), m4)
      else Ret (HTTPInsufficientMemory, h, m)
  end.

(** ** addRangeHeader, l.1442-1509. *)
Definition addRangeHeader (cfg : config) (m : mem) (h : reqHeaders) (start rend : Z)
  : res (status * reqHeaders * mem) :=
  let a0 := repeat 0 (Z.to_nat HTTP_MAX_RANGE_REQUEST_VALUE_LEN) in
  let a1 := splice a0 0 HTTP_RANGE_REQUEST_HEADER_VALUE_PREFIX in
  let n1 := zlen HTTP_RANGE_REQUEST_HEADER_VALUE_PREFIX in
  ' (a2, k) <- convertInt32ToAscii start a1 n1 ;;
  let n2 := n1 + k in
  ' (a3, n3) <-
    (if negb (rend =? HTTP_RANGE_REQUEST_END_OF_FILE)
     then b <- aset a2 n2 DASH ;;
          ' (c, k2) <- convertInt32ToAscii rend b (n2 + 1) ;;
          Ret (c, n2 + 1 + k2)
     else if 0 <=? start
     then b <- aset a2 n2 DASH ;; Ret (b, n2 + 1)
     else Ret (a2, n2)) ;;
  addHeader cfg m h (SLit HTTP_RANGE_REQUEST_HEADER_FIELD) (zlen HTTP_RANGE_REQUEST_HEADER_FIELD)
            (SLit a3) n3.

(** ** writeRequestLine, l.1513-1585. *)
Definition writeRequestLine (cfg : config) (m : mem) (h : reqHeaders)
           (method : src) (methodLen : Z) (path : src) (pathLen : Z)
  : res (status * reqHeaders * mem) :=
  match rh_buf h with
  | None => AssertFail 1530
  | Some buf =>
      _ <- assert_at (negb (is_null method)) 1531 ;;
      _ <- assert_at (negb (methodLen =? 0)) 1532 ;;
      let noPath := is_null path || (pathLen =? 0) in
      let toAdd := (methodLen + 1 + 1 + zlen HTTP_PROTOCOL_VERSION + 2
                    + (if noPath then zlen HTTP_EMPTY_PATH else pathLen)) mod SZ cfg in
      if rh_bufLen h <? (toAdd + rh_len h) mod SZ cfg then Ret (HTTPInsufficientMemory, h, m)
      else
        m1 <- memcpy m buf method methodLen ;;
        c1 <- padd m1 buf methodLen ;;
        m2 <- storen m1 c1 [SPACE] ;;
        c2 <- padd m2 c1 1 ;;
        ' (m3, c3) <-
          (if noPath
           then m3 <- memcpy m2 c2 (SLit HTTP_EMPTY_PATH) (zlen HTTP_EMPTY_PATH) ;;
                c3 <- padd m3 c2 (zlen HTTP_EMPTY_PATH) ;; Ret (m3, c3)
           else m3 <- memcpy m2 c2 path pathLen ;;
                c3 <- padd m3 c2 pathLen ;; Ret (m3, c3)) ;;
        m4 <- storen m3 c3 [SPACE] ;;
        c4 <- padd m4 c3 1 ;;
        m5 <- memcpy m4 c4 (SLit HTTP_PROTOCOL_VERSION) (zlen HTTP_PROTOCOL_VERSION) ;;
        c5 <- padd m5 c4 (zlen HTTP_PROTOCOL_VERSION) ;;
        m6 <- memcpy m5 c5 (SLit HTTP_HEADER_LINE_SEPARATOR) 2 ;;
        Ret (HTTPSuccess, set_rh_len h toAdd, m6)
  end.

(** The if ( returnStatus == HTTPSuccess ) chaining of l.1643-1682. *)
Definition andThen (x : res (status * reqHeaders * mem))
           (f : reqHeaders -> mem -> res (status * reqHeaders * mem)) :=
  ' (st, h, m) <- x ;;
  if is_success st then f h m else Ret (st, h, m).

(** ** HTTPClient_InitializeRequestHeaders, l.1589-1685. *)
Definition InitializeRequestHeaders (cfg : config) (m : mem)
           (prh : option reqHeaders) (pri : option reqInfo)
  : res (status * option reqHeaders * mem) :=
  match prh with
  | None => Ret (HTTPInvalidParameter, None, m)
  | Some h =>
      if match rh_buf h with None => true | Some _ => false end
      then Ret (HTTPInvalidParameter, prh, m)
      else match pri with
      | None => Ret (HTTPInvalidParameter, prh, m)
      | Some ri =>
          if is_null (ri_method ri) then Ret (HTTPInvalidParameter, prh, m)
          else if is_null (ri_host ri) then Ret (HTTPInvalidParameter, prh, m)
          else if ri_methodLen ri =? 0 then Ret (HTTPInvalidParameter, prh, m)
          else if ri_hostLen ri =? 0 then Ret (HTTPInvalidParameter, prh, m)
          else
            ' (st, h', m') <-
              andThen (andThen (andThen
                (writeRequestLine cfg m (set_rh_len h 0) (ri_method ri) (ri_methodLen ri)
                                  (ri_path ri) (ri_pathLen ri))
                (fun h m =>
                   if Z.land HTTP_REQUEST_NO_USER_AGENT_FLAG (ri_flags ri) =? 0
                   then addHeader cfg m h (SLit HTTP_USER_AGENT_FIELD) (zlen HTTP_USER_AGENT_FIELD)
                                  (SLit (UA cfg)) (zlen (UA cfg))
                   else Ret (HTTPSuccess, h, m)))
                (fun h m =>
                   addHeader cfg m h (SLit HTTP_HOST_FIELD) (zlen HTTP_HOST_FIELD)
                             (ri_host ri) (ri_hostLen ri)))
                (fun h m =>
                   if negb (Z.land HTTP_REQUEST_KEEP_ALIVE_FLAG (ri_flags ri) =? 0)
                   then addHeader cfg m h (SLit HTTP_CONNECTION_FIELD) (zlen HTTP_CONNECTION_FIELD)
                                  (SLit HTTP_CONNECTION_KEEP_ALIVE_VALUE)
                                  (zlen HTTP_CONNECTION_KEEP_ALIVE_VALUE)
                   else Ret (HTTPSuccess, h, m)) ;;
            Ret (st, Some h', m')
      end
  end.

(** ** HTTPClient_AddHeader, l.1689-1745. *)
Definition AddHeader (cfg : config) (m : mem) (prh : option reqHeaders)
           (field : src) (fieldLen : Z) (value : src) (valueLen : Z)
  : res (status * option reqHeaders * mem) :=
  match prh with
  | None => Ret (HTTPInvalidParameter, None, m)
  | Some h =>
      if match rh_buf h with None => true | Some _ => false end
      then Ret (HTTPInvalidParameter, prh, m)
      else if is_null field then Ret (HTTPInvalidParameter, prh, m)
      else if is_null value then Ret (HTTPInvalidParameter, prh, m)
      else if fieldLen =? 0 then Ret (HTTPInvalidParameter, prh, m)
      else if valueLen =? 0 then Ret (HTTPInvalidParameter, prh, m)
      else if rh_bufLen h <? rh_len h then Ret (HTTPInvalidParameter, prh, m)
      else
        ' (st, h', m') <- addHeader cfg m h field fieldLen value valueLen ;;
        Ret (st, Some h', m')
  end.

(** ** HTTPClient_AddRangeHeader, l.1749-1810. *)
Definition AddRangeHeader (cfg : config) (m : mem) (prh : option reqHeaders) (start rend : Z)
  : res (status * option reqHeaders * mem) :=
  match prh with
  | None => Ret (HTTPInvalidParameter, None, m)
  | Some h =>
      if match rh_buf h with None => true | Some _ => false end
      then Ret (HTTPInvalidParameter, prh, m)
      else if rh_bufLen h <? rh_len h then Ret (HTTPInvalidParameter, prh, m)
      else if rend <? HTTP_RANGE_REQUEST_END_OF_FILE then Ret (HTTPInvalidParameter, prh, m)
      else if (start <? 0) && negb (rend =? HTTP_RANGE_REQUEST_END_OF_FILE)
      then Ret (HTTPInvalidParameter, prh, m)
      else if negb (rend =? HTTP_RANGE_REQUEST_END_OF_FILE) && (rend <? start)
      then Ret (HTTPInvalidParameter, prh, m)
      else if start =? INT32_MIN then Ret (HTTPInvalidParameter, prh, m)
      else
        ' (st, h', m') <- addRangeHeader cfg m h start rend ;;
        Ret (st, Some h', m')
  end.
