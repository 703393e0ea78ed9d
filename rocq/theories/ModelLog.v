(** ModelLog.v — core_http_client.c compiled with logging: the LogError, LogWarn, LogInfo and LogDebug macros, which are empty by default
    (core_http_config_defaults.h l.122-188), evaluate their arguments and format them.  Numbers and constant strings need nothing from
    memory; what does is modelled: texts printed with "%.*s" (a pointer and a length cast to int) and the parser's error reason,
    printed with "%s".  Every function of ModelRequest.v, ModelSend.v, ModelResponse.v and ModelReadHeader.v that logs such a
    text, or calls one that does, is repeated here under the same name followed by _l, with the logging added where the
    comments say (l.: lines of /repo/source/core_http_client.c); all else is as there.  Not modelled: what becomes of the text
    (the macros' implementation is the application's), and the texts of the other messages. *)
From Verif Require Import Base ModelRequest ModelSend ModelResponse ModelReadHeader.

(** [lg_may b o]: the logger may read the byte at offset [o] of block [b]: in theorems, the bytes that the application gave to the
    library.  [lg_reason e]: llhttp_get_error_reason is not NULL after a call that ended with errno [e] (simplified: the same
    whenever the errno is the same). *)
Record logging := mklogging { lg_may : nat -> Z -> bool;  lg_reason : errno -> bool }.

(** "%.*s" with precision [n]: the bytes are read until a NUL byte, [n] at most. *)
Fixpoint log_bytes (G : logging) (m : mem) (p : ptr) (n : nat) (i : Z) : res unit :=
  match n with
  | O => Ret tt
  | S n' =>
      if lg_may G (pb p) (po p + i)
      then c <- load1 m (mkptr (pb p) (po p + i)) ;;
           if c =? 0 then Ret tt else log_bytes G m p n' (i + 1)
      else Ub UbOob
  end.
(** "%.*s", ( int ) len, s.  A negative precision is as none: the text goes on to the next NUL byte.  A constant string, or an array
    of the library's own, must be as long as the text.  NULL is not a string, even with precision 0 (C11 7.21.6.1). *)
Definition log_text (G : logging) (m : mem) (s : src) (len : Z) : res unit :=
  let prec := to_int32 len in
  match s with
  | SNull => Ub UbNull
  | SLit l => if (0 <=? prec) && (prec <=? zlen l) then Ret tt else Ub UbOob
  | SAt p => log_bytes G m p (Z.to_nat (if prec <? 0 then zlen (blk m (pb p)) + 1 else prec)) 0
  end.
(** "%s", llhttp_get_error_reason( .. ). *)
Definition log_reason (G : logging) (e : errno) : res unit := if lg_reason G e then Ret tt else Ub UbNull.

(** ** httpHeaderStrncpy, l.1293-1338. *)
Definition httpHeaderStrncpy_l (G : logging) (m : mem) (dst : ptr) (s : src) (len : Z) (isField : bool) :=
  _ <- assert_at (negb (is_null s)) 1303 ;;
  ' (ok, m1) <- strncpy_loop m dst s isField (Z.to_nat len) 0 ;;
  (* l.1309, 1315, 1321: logged where the copying stops *)
  _ <- (if ok then Ret tt else log_text G m1 s len) ;;
  Ret (ok, m1).

(** ** addHeader, l.1342-1438.  size_t sums wrap modulo [SZ]. *)
Definition addHeader_l (G : logging) (cfg : config) (m : mem) (h : reqHeaders)
           (field : src) (fieldLen : Z) (value : src) (valueLen : Z)
  : res (status * reqHeaders * mem) :=
  match rh_buf h with
  | None => AssertFail 1359
  | Some buf =>
      _ <- assert_at (negb (is_null field)) 1360 ;;
      _ <- assert_at (negb (is_null value)) 1361 ;;
      _ <- assert_at (negb (fieldLen =? 0)) 1362 ;;
      _ <- assert_at (negb (valueLen =? 0)) 1363 ;;
      cur0 <- padd m buf (rh_len h) ;;
      (* l.1371-1378: step back over the blank line if there is one *)
      ' (cur, back) <-
        (if 4 <=? rh_len h
         then q <- padd m cur0 (-4) ;;
              b <- strncmp_eq m q HTTP_HEADER_END_INDICATOR ;;
              if b then c <- padd m cur0 (-2) ;; Ret (c, rh_len h - 2) else Ret (cur0, rh_len h)
         else Ret (cur0, rh_len h)) ;;
      let toAdd := (fieldLen + 2 + valueLen + 2 + 2) mod SZ cfg in
      if (back + toAdd) mod SZ cfg <=? rh_bufLen h
      then
        ' (ok, m1) <- httpHeaderStrncpy_l G m cur field fieldLen true ;;
        if negb ok then Ret (HTTPSecurityAlertInvalidCharacter, h, m1)
        else
          cur1 <- padd m1 cur fieldLen ;;
          m2 <- memcpy m1 cur1 (SLit HTTP_HEADER_FIELD_SEPARATOR) 2 ;;
          cur2 <- padd m2 cur1 2 ;;
          ' (ok2, m3) <- httpHeaderStrncpy_l G m2 cur2 value valueLen false ;;
          if negb ok2 then Ret (HTTPSecurityAlertInvalidCharacter, h, m3)
          else
            cur3 <- padd m3 cur2 valueLen ;;
            m4 <- memcpy m3 cur3 (SLit HTTP_HEADER_END_INDICATOR) 4 ;;
            Ret (HTTPSuccess, set_rh_len h ((back + toAdd) mod SZ cfg), m4)
      else Ret (HTTPInsufficientMemory, h, m)
  end.

(** ** addRangeHeader, l.1442-1509. *)
Definition addRangeHeader_l (G : logging) (cfg : config) (m : mem) (h : reqHeaders) (start rend : Z)
  : res (status * reqHeaders * mem) :=
  let a0 := repeat 0 (Z.to_nat HTTP_MAX_RANGE_REQUEST_VALUE_LEN) in
  let a1 := splice a0 0 HTTP_RANGE_REQUEST_HEADER_VALUE_PREFIX in
  let n1 := zlen HTTP_RANGE_REQUEST_HEADER_VALUE_PREFIX in
  ' (a2, k) <- convertInt32ToAscii start a1 n1 ;;
  let n2 := n1 + k in
  ' (a3, n3) <-
    (if negb (rend =? HTTP_RANGE_REQUEST_END_OF_FILE)
     then b <- aset a2 n2 DASH ;;
          ' (c, k2) <- convertInt32ToAscii rend b (n2 + 1) ;;
          Ret (c, n2 + 1 + k2)
     else if 0 <=? start
     then b <- aset a2 n2 DASH ;; Ret (b, n2 + 1)
     else Ret (a2, n2)) ;;
  addHeader_l G cfg m h (SLit HTTP_RANGE_REQUEST_HEADER_FIELD) (zlen HTTP_RANGE_REQUEST_HEADER_FIELD)
            (SLit a3) n3.

(** ** HTTPClient_InitializeRequestHeaders, l.1589-1685. *)
Definition InitializeRequestHeaders_l (G : logging) (cfg : config) (m : mem)
           (prh : option reqHeaders) (pri : option reqInfo)
  : res (status * option reqHeaders * mem) :=
  match prh with
  | None => Ret (HTTPInvalidParameter, None, m)
  | Some h =>
      if match rh_buf h with None => true | Some _ => false end
      then Ret (HTTPInvalidParameter, prh, m)
      else match pri with
      | None => Ret (HTTPInvalidParameter, prh, m)
      | Some ri =>
          if is_null (ri_method ri) then Ret (HTTPInvalidParameter, prh, m)
          else if is_null (ri_host ri) then Ret (HTTPInvalidParameter, prh, m)
          else if ri_methodLen ri =? 0 then Ret (HTTPInvalidParameter, prh, m)
          else if ri_hostLen ri =? 0 then Ret (HTTPInvalidParameter, prh, m)
          else
            ' (st, h', m') <-
              andThen (andThen (andThen
                (writeRequestLine cfg m (set_rh_len h 0) (ri_method ri) (ri_methodLen ri)
                                  (ri_path ri) (ri_pathLen ri))
                (fun h m =>
                   if Z.land HTTP_REQUEST_NO_USER_AGENT_FLAG (ri_flags ri) =? 0
                   then addHeader_l G cfg m h (SLit HTTP_USER_AGENT_FIELD) (zlen HTTP_USER_AGENT_FIELD)
                                  (SLit (UA cfg)) (zlen (UA cfg))
                   else Ret (HTTPSuccess, h, m)))
                (fun h m =>
                   addHeader_l G cfg m h (SLit HTTP_HOST_FIELD) (zlen HTTP_HOST_FIELD)
                             (ri_host ri) (ri_hostLen ri)))
                (fun h m =>
                   if negb (Z.land HTTP_REQUEST_KEEP_ALIVE_FLAG (ri_flags ri) =? 0)
                   then addHeader_l G cfg m h (SLit HTTP_CONNECTION_FIELD) (zlen HTTP_CONNECTION_FIELD)
                                  (SLit HTTP_CONNECTION_KEEP_ALIVE_VALUE)
                                  (zlen HTTP_CONNECTION_KEEP_ALIVE_VALUE)
                   else Ret (HTTPSuccess, h, m)) ;;
            Ret (st, Some h', m')
      end
  end.

(** ** HTTPClient_AddHeader, l.1689-1745. *)
Definition AddHeader_l (G : logging) (cfg : config) (m : mem) (prh : option reqHeaders)
           (field : src) (fieldLen : Z) (value : src) (valueLen : Z)
  : res (status * option reqHeaders * mem) :=
  match prh with
  | None => Ret (HTTPInvalidParameter, None, m)
  | Some h =>
      if match rh_buf h with None => true | Some _ => false end
      then Ret (HTTPInvalidParameter, prh, m)
      else if is_null field then Ret (HTTPInvalidParameter, prh, m)
      else if is_null value then Ret (HTTPInvalidParameter, prh, m)
      else if fieldLen =? 0 then Ret (HTTPInvalidParameter, prh, m)
      else if valueLen =? 0 then Ret (HTTPInvalidParameter, prh, m)
      else if rh_bufLen h <? rh_len h then Ret (HTTPInvalidParameter, prh, m)
      else
        ' (st, h', m') <- addHeader_l G cfg m h field fieldLen value valueLen ;;
        Ret (st, Some h', m')
  end.

(** ** HTTPClient_AddRangeHeader, l.1749-1810. *)
Definition AddRangeHeader_l (G : logging) (cfg : config) (m : mem) (prh : option reqHeaders) (start rend : Z)
  : res (status * option reqHeaders * mem) :=
  match prh with
  | None => Ret (HTTPInvalidParameter, None, m)
  | Some h =>
      if match rh_buf h with None => true | Some _ => false end
      then Ret (HTTPInvalidParameter, prh, m)
      else if rh_bufLen h <? rh_len h then Ret (HTTPInvalidParameter, prh, m)
      else if rend <? HTTP_RANGE_REQUEST_END_OF_FILE then Ret (HTTPInvalidParameter, prh, m)
      else if (start <? 0) && negb (rend =? HTTP_RANGE_REQUEST_END_OF_FILE)
      then Ret (HTTPInvalidParameter, prh, m)
      else if negb (rend =? HTTP_RANGE_REQUEST_END_OF_FILE) && (rend <? start)
      then Ret (HTTPInvalidParameter, prh, m)
      else if start =? INT32_MIN then Ret (HTTPInvalidParameter, prh, m)
      else
        ' (st, h', m') <- addRangeHeader_l G cfg m h start rend ;;
        Ret (st, Some h', m')
  end.

(** addContentLengthHeader, l.1894-1922 (the conversion to int32_t included). *)
Definition addContentLengthHeader_l (G : logging) (cfg : config) (m : mem) (h : reqHeaders) (contentLength : Z)
  : res (status * reqHeaders * mem) :=
  let a0 := repeat 0 (Z.to_nat MAX_INT32_NO_OF_DECIMAL_DIGITS) in
  _ <- assert_at (0 <? contentLength) 1902 ;;
  ' (a1, k) <- convertInt32ToAscii (to_int32 contentLength) a0 0 ;;
  addHeader_l G cfg m h (SLit HTTP_CONTENT_LENGTH_FIELD) (zlen HTTP_CONTENT_LENGTH_FIELD) (SLit a1) k.

(** HTTPClient_SendHttpHeaders, l.1926-1960. *)
Definition SendHttpHeaders_l (G : logging) (fuel : nat) (cfg : config) (E : env) (tr : option transport)
           (tf : timefn) (prh : option reqHeaders) (reqBodyLen sendFlags : Z) (w : world)
  : res (status * option reqHeaders * world) :=
  match tr with
  | None => AssertFail 1935
  | Some t =>
      _ <- assert_at (t_send t) 1936 ;;
      match prh with
      | None => AssertFail 1937
      | Some h =>
          ' (st, h1, m1) <-
            (if (Z.land sendFlags HTTP_SEND_DISABLE_CONTENT_LENGTH_FLAG =? 0) && (0 <? reqBodyLen)
             then addContentLengthHeader_l G cfg (w_mem w) h reqBodyLen
             else Ret (HTTPSuccess, h, w_mem w)) ;;
          if is_success st
          then
            ' (st2, w2) <- SendHttpData fuel cfg E tr tf (rh_buf h1) (rh_len h1) (set_mem w m1) ;;
            Ret (st2, Some h1, w2)
          else Ret (st, Some h1, set_mem w m1)
      end
  end.

(** sendHttpRequest, l.2171-2210. *)
Definition sendHttpRequest_l (G : logging) (fuel : nat) (cfg : config) (E : env) (tr : option transport)
           (tf : timefn) (prh : option reqHeaders) (body : option ptr) (bodyLen sendFlags : Z)
           (w : world) : res (status * option reqHeaders * world) :=
  _ <- assert_at (match tr with None => false | _ => true end) 2180 ;;
  _ <- assert_at (match prh with None => false | _ => true end) 2181 ;;
  _ <- assert_at (match body with None => bodyLen =? 0 | _ => true end) 2182 ;;
  _ <- assert_at (match tf with TNull => false | _ => true end) 2184 ;;
  ' (st, h1, w1) <- SendHttpHeaders_l G fuel cfg E tr tf prh bodyLen sendFlags w ;;
  if is_success st
  then match body with
       | Some _ =>
           ' (st2, w2) <- sendHttpBody fuel cfg E tr tf body bodyLen w1 ;;
           Ret (st2, h1, w2)
       | None => Ret (st, h1, w1)
       end
  else Ret (st, h1, w1).

(** ** processCompleteHeader, l.568-613.  The application's header callback is assumed not to write
    to the library's buffers; it may read the two byte ranges it is given. *)
Definition processCompleteHeader_l (G : logging) (cfg : config) (s : cbst) : res cbst :=
  let c := s_ctx s in
  _ <- assert_at (c_resp c) 573 ;;
  match c_lf c, c_lv c with
  | Some f, Some v =>
      let r := s_resp s in
      _ <- assert_at (r_hcount r <? SZ cfg - 1) 582 ;;
      let r1 := set_r_hcount r (r_hcount r + 1) in
      _ <- log_text G (w_mem (s_w s)) (SAt f) (c_lfl c) ;;        (* l.586 *)
      _ <- log_text G (w_mem (s_w s)) (SAt v) (c_lvl c) ;;
      let c1 := set_last c None 0 None 0 in
      if r_cb r
      then
        fb <- loadn (w_mem (s_w s)) f (c_lfl c) ;;
        vb <- loadn (w_mem (s_w s)) v (c_lvl c) ;;
        Ret (mkst c1 r1 (log (s_w s) (THeader f (c_lfl c) v (c_lvl c) fb vb (r_status r))))
      else Ret (mkst c1 r1 (s_w s))
  | _, _ => Ret s
  end.

(** httpParserOnStatusCallback, l.636-673. *)
Definition onStatus_l (G : logging) (s : cbst) (loc : ptr) (length code : Z) : res (cbret * cbst) :=
  _ <- assert_at (c_resp (s_ctx s)) 650 ;;
  q <- padd (w_mem (s_w s)) loc length ;;
  _ <- log_text G (w_mem (s_w s)) (SAt loc) length ;;             (* l.666 *)
  Ret (CbContinue,
       mkst (set_last (set_cur (s_ctx s) (Some q)) None 0 None 0)
            (set_r_status (s_resp s) (u16 code)) (s_w s)).

(** httpParserOnHeaderFieldCallback, l.709-762. *)
Definition onHeaderField_l (G : logging) (cfg : config) (s : cbst) (loc : ptr) (length : Z) : res (cbret * cbst) :=
  _ <- assert_at (c_resp (s_ctx s)) 723 ;;
  let r1 := match r_headers (s_resp s) with
            | None => set_r_headers (s_resp s) (Some loc) (r_headersLen (s_resp s))
            | Some _ => s_resp s
            end in
  q <- padd (w_mem (s_w s)) loc length ;;
  s1 <- processCompleteHeader_l G cfg (mkst (set_cur (s_ctx s) (Some q)) r1 (s_w s)) ;;
  let c := s_ctx s1 in
  match c_lf c with
  | None =>
      _ <- log_text G (w_mem (s_w s1)) (SAt loc) length ;;        (* l.756 *)
      Ret (CbContinue, mkst (set_last c (Some loc) length (c_lv c) (c_lvl c)) (s_resp s1) (s_w s1))
  | Some f =>
      _ <- assert_at (c_lfl c <=? SZ cfg - 1 - length) 752 ;;
      _ <- log_text G (w_mem (s_w s1)) (SAt loc) length ;;        (* l.756 *)
      Ret (CbContinue,
           mkst (set_last c (Some f) ((c_lfl c + length) mod SZ cfg) (c_lv c) (c_lvl c))
                (s_resp s1) (s_w s1))
  end.

(** httpParserOnHeaderValueCallback, l.766-806. *)
Definition onHeaderValue_l (G : logging) (cfg : config) (s : cbst) (loc : ptr) (length : Z) : res (cbret * cbst) :=
  q <- padd (w_mem (s_w s)) loc length ;;
  let c := set_cur (s_ctx s) (Some q) in
  let c1 := match c_lv c with
            | None => set_last c (c_lf c) (c_lfl c) (Some loc) length
            | Some v => set_last c (c_lf c) (c_lfl c) (Some v) ((c_lvl c + length) mod SZ cfg)
            end in
  _ <- assert_at (match c_lf c1 with None => false | Some _ => true end) 798 ;;
  _ <- log_text G (w_mem (s_w s)) (SAt loc) length ;;             (* l.800 *)
  Ret (CbContinue, mkst c1 (s_resp s) (s_w s)).

(** httpParserOnHeadersCompleteCallback, l.810-905. *)
Definition onHeadersComplete_l (G : logging) (cfg : config) (s : cbst) (clen : Z) (close keepalive : bool)
  : res (cbret * cbst) :=
  let c := s_ctx s in
  let r := s_resp s in
  _ <- assert_at (c_resp c) 822 ;;
  match c_cur c with
  | None => AssertFail 823
  | Some cur =>
      match r_buf r with
      | None => Ub UbNull
      | Some buf =>
          let r1 := set_r_hdone r 1 in
          d <- psub cur buf ;;
          _ <- assert_at (0 <=? d) 830 ;;
          endp <- padd (w_mem (s_w s)) buf (r_bufLen r) ;;
          d2 <- psub cur endp ;;
          _ <- assert_at (d2 <? 0) 831 ;;
          r2 <- match r_headers r1 with
                | Some h =>
                    d3 <- psub cur h ;;
                    _ <- assert_at (0 <? d3) 842 ;;
                    Ret (set_r_headers r1 (Some h) d3)
                | None => Ret (set_r_headers r1 None 0)
                end ;;
          let r3 := set_r_clen r2 (if clen =? UINT64_MAX then 0 else clen mod SZ cfg) in
          let r4 := if close
                    then set_r_flags r3 (Z.lor (r_flags r3) HTTP_RESPONSE_CONNECTION_CLOSE_FLAG)
                    else r3 in
          let r5 := if keepalive
                    then set_r_flags r4 (Z.lor (r_flags r4) HTTP_RESPONSE_CONNECTION_KEEP_ALIVE_FLAG)
                    else r4 in
          let ret := if c_head c then CbNoBody else CbContinue in
          s1 <- processCompleteHeader_l G cfg (mkst c r5 (s_w s)) ;;
          let ret2 := if negb (Z.land (r_opt (s_resp s1)) HTTP_RESPONSE_DO_NOT_PARSE_BODY_FLAG =? 0)
                      then CbPause else ret in
          Ret (ret2, s1)
      end
  end.

(** The settings of l.1009-1016: which callback handles which event; [start] is the address of the
    data being parsed.  A data callback's [pLoc] is [start + off]. *)
Definition callback_l (G : logging) (cfg : config) (start : ptr) (ev : pevent) (s : cbst) : res (cbret * cbst) :=
  let at_ off := mkptr (pb start) (po start + off) in
  match ev with
  | EvMessageBegin => onMessageBegin s
  | EvStatus off len code => onStatus_l G s (at_ off) len code
  | EvStatusComplete code => onStatusComplete s code
  | EvField off len => onHeaderField_l G cfg s (at_ off) len
  | EvValue off len => onHeaderValue_l G cfg s (at_ off) len
  | EvHeadersComplete _ clen close ka => onHeadersComplete_l G cfg s clen close ka
  | EvBody off len => onBody cfg s (at_ off) len
  | EvMessageComplete => onMessageComplete s
  end.

(** llhttp_execute with the library's callbacks: the result is the errno, error_pos, the parser's
    state and what the callbacks did.  A callback returning HPE_PAUSED or HPE_USER ends the call with
    that errno; the library then never calls the parser again, so the state returned with it
    ([s0], the state before the call) is immaterial. *)
Fixpoint run_tree_l (G : logging) (cfg : config) (start : ptr) {S : Type} (s0 : S) (t : ptree S) (s : cbst)
  : res (errno * Z * S * cbst) :=
  match t with
  | PDone e s1 => Ret (e, 0, s1, s)
  | PEmit ev k =>
      ' (r, s1) <- callback_l G cfg start ev (mkst (s_ctx s) (s_resp s) (log (s_w s) (TEvent ev))) ;;
      let s2 := mkst (s_ctx s1) (s_resp s1) (log (s_w s1) (TReply r)) in
      match r with
      | CbPause => Ret (HPE_PAUSED, ev_pos ev, s0, s2)
      | CbStop => Ret (HPE_USER, ev_pos ev, s0, s2)
      | _ => run_tree_l G cfg start s0 (k r) s2
      end
  end.

(** ** parseHttpResponse, l.1161-1234.  llhttp_resume_after_upgrade (l.1214) clears the errno, which
    [processLlhttpError] treats like HPE_PAUSED_UPGRADE. *)
Definition parseHttpResponse_l (G : logging) (cfg : config) (P : parser) (ps : PS P) (s : cbst) (parseLen : Z)
  : res (status * PS P * cbst) :=
  let c := s_ctx s in
  let r := s_resp s in
  let s1 :=
    if c_resp c then s
    else mkst (mkctx (c_state c) true (c_head c) (r_buf r) (c_lf c) (c_lfl c) (c_lv c) (c_lvl c))
              (set_r_flags (set_r_hcount (set_r_headers (set_r_body (set_r_status r 0) None 0) None 0) 0) 0)
              (s_w s) in
  match c_cur (s_ctx s1) with
  | None => Ub UbNull
  | Some start =>
      d <- loadn (w_mem (s_w s1)) start parseLen ;;
      ' (e, epos, ps', s2) <-
        run_tree_l G cfg start ps (p_exec P ps d)
                 (mkst (s_ctx s1) (s_resp s1) (log (s_w s1) (TParse start d))) ;;
      cur' <- match e with
              | HPE_PAUSED => padd (w_mem (s_w s2)) start epos
              | _ => padd (w_mem (s_w s2)) start parseLen
              end ;;
      _ <- log_reason G (match e with HPE_PAUSED_UPGRADE => HPE_OK | _ => e end) ;;     (* l.1152 *)
      Ret (processLlhttpError e, ps',
           mkst (set_cur (s_ctx s2) (Some cur')) (s_resp s2) (log (s_w s2) (TParsed e)))
  end.

(** ** The while loop of HTTPClient_ReceiveAndParseHttpResponse, l.2068-2140.  Result: status, bytes
    received, state. *)
Fixpoint recv_loop_l (G : logging) (fuel : nat) (cfg : config) (E : env) (P : parser) (retry : Z)
         (total last : Z) (ps : PS P) (s : cbst) : res (status * Z * cbst) :=
  match fuel with
  | O => More (s_w s)
  | S f =>
      let r := s_resp s in
      match r_buf r with
      | None => Ub UbNull
      | Some buf =>
          dst <- padd (w_mem (s_w s)) buf total ;;
          let room := (r_bufLen r - total) mod SZ cfg in
          let '(n, d) := e_recv E (w_nr (s_w s)) room in
          m1 <- storen (w_mem (s_w s)) dst d ;;     (* what the transport does to the buffer *)
          let s1 := mkst (s_ctx s) r (w_after_recv (s_w s) m1 dst room n d) in
          if n <? 0 then Ret (HTTPNetworkError, total, s1)
          else
            ' (t, w2) <- get_time E (r_time r) (s_w s1) ;;
            let s2 := mkst (s_ctx s1) r w2 in
            if 0 <? n then
              let total' := (total + n) mod SZ cfg in
              ' (st, ps', s3) <- parseHttpResponse_l G cfg P ps s2 n ;;
              if is_success st
                 && (match c_state (s_ctx s3) with HTTP_PARSING_COMPLETE => false | _ => true end)
                 && (total' <? r_bufLen (s_resp s3))
              then recv_loop_l G f cfg E P retry total' t ps' s3
              else Ret (st, total', s3)
            else if retry <=? u32 (t - last) then
              ' (st, ps', s3) <- parseHttpResponse_l G cfg P ps s2 0 ;;
              Ret (st, total, s3)                   (* timeoutReached ends the loop *)
            else if (match c_state (s_ctx s2) with HTTP_PARSING_COMPLETE => false | _ => true end)
                    && (total <? r_bufLen r)
            then recv_loop_l G f cfg E P retry total last ps s2
            else Ret (HTTPSuccess, total, s2)
      end
  end.

(** ** HTTPClient_ReceiveAndParseHttpResponse, l.2037-2167. *)
Definition ReceiveAndParseHttpResponse_l (G : logging) (fuel : nat) (cfg : config) (E : env) (P : parser)
           (tr : option transport) (pResponse : option response) (prh : option reqHeaders)
           (w : world) : res (status * option response * world) :=
  match tr with
  | None => AssertFail 2049
  | Some t =>
      _ <- assert_at (t_recv t) 2050 ;;
      match pResponse with
      | None => AssertFail 2051
      | Some r =>
          match prh with
          | None => AssertFail 2052
          | Some rh =>
              c <- initializeParsingContextForFirstResponse (w_mem w) rh ;;
              let retry := match r_time r with TZero => 0 | _ => RECV_TO cfg end in
              ' (t0, w1) <- get_time E (r_time r) w ;;
              ' (st, total, s) <- recv_loop_l G fuel cfg E P retry 0 t0 (p_init P) (mkst c r w1) ;;
              let r1 := s_resp s in
              ' (st2, r2) <-
                (match st with
                 | HTTPParserPaused =>
                     if negb (Z.land (r_opt r1) HTTP_RESPONSE_DO_NOT_PARSE_BODY_FLAG =? 0)
                     then match c_cur (s_ctx s), r_buf r1 with
                          | Some cur, Some buf =>
                              d <- psub cur buf ;;
                              Ret (HTTPSuccess, set_r_body r1 (Some cur) ((total - d) mod SZ cfg))
                          | _, _ => Ub UbNull
                          end
                     else Ret (st, r1)
                 | _ => Ret (st, r1)
                 end) ;;
              if is_success st2
              then
                st3 <- getFinalResponseStatus (c_state (s_ctx s)) total r2 ;;
                Ret (st3, Some r2, s_w s)
              else Ret (st2, Some r2, s_w s)
          end
      end
  end.

(** ** HTTPClient_Send, l.2214-2313.  On HTTPInvalidParameter nothing is changed; the reqHeaders and
    response structures are returned as the function leaves them. *)
Definition Send_l (G : logging) (fuel : nat) (cfg : config) (E : env) (P : parser) (tr : option transport)
           (prh : option reqHeaders) (body : option ptr) (bodyLen : Z)
           (pResponse : option response) (sendFlags : Z) (w : world)
  : res (status * option reqHeaders * option response * world) :=
  let invalid := Ret (HTTPInvalidParameter, prh, pResponse, w) in
  match tr with
  | None => invalid
  | Some t =>
      if negb (t_send t) then invalid
      else if negb (t_recv t) then invalid
      else match prh with
      | None => invalid
      | Some rh =>
          if match rh_buf rh with None => true | _ => false end then invalid
          else if rh_len rh <? HTTP_MINIMUM_REQUEST_LINE_LENGTH then invalid
          else if rh_bufLen rh <? rh_len rh then invalid
          else match pResponse with
          | None => invalid
          | Some r =>
              if match r_buf r with None => true | _ => false end then invalid
              else if r_bufLen r =? 0 then invalid
              else if match body with None => 0 <? bodyLen | _ => false end then invalid
              else if INT32_MAX mod SZ cfg <? bodyLen then invalid   (* (size_t) INT32_MAX *)
              else
                let r1 := match r_time r with TNull => set_r_time r TZero | _ => r end in
                ' (st, prh1, w1) <-
                  sendHttpRequest_l G fuel cfg E tr (r_time r1) prh body bodyLen sendFlags w ;;
                if is_success st
                then
                  ' (st2, pr2, w2) <-
                    ReceiveAndParseHttpResponse_l G fuel cfg E P tr (Some r1) prh1 w1 ;;
                  Ret (st2, prh1, pr2, w2)
                else Ret (st, prh1, Some r1, w1)
          end
      end
  end.

(** findHeaderFieldParserCallback, l.2317-2355. *)
Definition findHeaderField_l (G : logging) (m : mem) (x : fctx) (loc : ptr) (len : Z) : res (cbret * fctx) :=
  _ <- assert_at (0 <? len) 2326 ;;
  _ <- assert_at (negb (is_null (f_field x))) 2330 ;;
  _ <- assert_at (0 <? f_fieldLen x) 2331 ;;
  _ <- assert_at (negb (f_fieldFound x)) 2334 ;;
  _ <- assert_at (negb (f_valueFound x)) 2335 ;;
  eq <- (if len =? f_fieldLen x then caseInsensitiveStringCmp m (f_field x) loc len else Ret false) ;;
  _ <- (if eq then log_text G m (f_field x) len else Ret tt) ;;   (* l.2342 *)
  Ret (CbContinue,
       if eq then mkfctx (f_field x) (f_fieldLen x) true (f_valueFound x) (f_out x) else x).

(** findHeaderValueParserCallback, l.2359-2414. *)
Definition findHeaderValue_l (G : logging) (m : mem) (x : fctx) (loc : ptr) (len : Z) : res (cbret * fctx) :=
  _ <- assert_at (negb (is_null (f_field x))) 2372 ;;
  _ <- assert_at (0 <? f_fieldLen x) 2373 ;;
  _ <- assert_at (negb (f_valueFound x)) 2378 ;;
  if f_fieldFound x
  then _ <- log_text G m (f_field x) (f_fieldLen x) ;;            (* l.2382 *)
       Ret (CbStop,
            mkfctx (f_field x) (f_fieldLen x) true true
                   (Some (if 0 <? len then (Some loc, len) else (None, 0))))
  else Ret (CbContinue, x).

(** findHeaderOnHeaderCompleteCallback (l.2418-2446) only returns 1.  The other events have no
    callback registered (l.2472-2475). *)
Definition find_callback_l (G : logging) (m : mem) (start : ptr) (ev : pevent) (x : fctx) : res (cbret * fctx) :=
  let at_ off := mkptr (pb start) (po start + off) in
  match ev with
  | EvField off len => findHeaderField_l G m x (at_ off) len
  | EvValue off len => findHeaderValue_l G m x (at_ off) len
  | EvHeadersComplete _ _ _ _ => _ <- log_text G m (f_field x) (f_fieldLen x) ;; Ret (CbNoBody, x)   (* l.2433 *)
  | _ => Ret (CbContinue, x)
  end.

Fixpoint find_tree_l (G : logging) (m : mem) (start : ptr) {S : Type} (t : ptree S) (x : fctx) : res (errno * fctx) :=
  match t with
  | PDone e _ => Ret (e, x)
  | PEmit ev k =>
      ' (r, x1) <- find_callback_l G m start ev x ;;
      match r with
      | CbPause => Ret (HPE_PAUSED, x1)
      | CbStop => Ret (HPE_USER, x1)
      | _ => find_tree_l G m start (k r) x1
      end
  end.

(** ** findHeaderInResponse, l.2450-2554. *)
Definition findHeaderInResponse_l (G : logging) (P : parser) (m : mem) (buf : ptr) (bufLen : Z)
           (field : src) (fieldLen : Z) : res (status * option (option ptr * Z)) :=
  d <- loadn m buf bufLen ;;
  ' (e, x) <- find_tree_l G m buf (p_exec P (p_init P) d) (mkfctx field fieldLen false false None) ;;
  st <- (if negb (f_fieldFound x)
         then _ <- assert_at (negb (f_valueFound x)) 2488 ;;
              _ <- log_text G m field fieldLen ;;                 (* l.2491 *)
              Ret HTTPHeaderNotFound
         else if negb (f_valueFound x)
         then _ <- log_text G m field fieldLen ;; _ <- log_reason G e ;;          (* l.2501 *)
              Ret HTTPInvalidResponse
         else _ <- log_text G m field fieldLen ;;                 (* l.2515 *)
              _ <- log_text G m (match f_out x with Some (Some p, _) => SAt p | _ => SNull end)
                            (match f_out x with Some (_, n) => n | None => 0 end) ;;
              Ret HTTPSuccess) ;;
  _ <- (match st, e with                                          (* l.2530, 2542 *)
        | HTTPSuccess, HPE_USER | HTTPHeaderNotFound, HPE_OK => Ret tt
        | HTTPSuccess, _ | HTTPHeaderNotFound, _ => log_reason G e
        | _, _ => Ret tt
        end) ;;
  let st2 :=
    match st, e with
    | HTTPSuccess, HPE_USER => HTTPSuccess
    | HTTPSuccess, _ => HTTPParserInternalError
    | HTTPHeaderNotFound, HPE_OK => HTTPHeaderNotFound
    | HTTPHeaderNotFound, _ => HTTPInvalidResponse
    | _, _ => st
    end in
  Ret (st2, f_out x).

(** ** HTTPClient_ReadHeader, l.2558-2619.  [locOk], [lenOk]: the two output pointers are non-NULL. *)
Definition ReadHeader_l (G : logging) (P : parser) (m : mem) (pResponse : option response) (field : src)
           (fieldLen : Z) (locOk lenOk : bool) : res (status * option (option ptr * Z)) :=
  let invalid := Ret (HTTPInvalidParameter, None) in
  match pResponse with
  | None => invalid
  | Some r =>
      match r_buf r with
      | None => invalid
      | Some buf =>
          if r_bufLen r =? 0 then invalid
          else if is_null field then invalid
          else if fieldLen =? 0 then invalid
          else if negb locOk then invalid
          else if negb lenOk then invalid
          else findHeaderInResponse_l G P m buf (r_bufLen r) field fieldLen
      end
  end.
