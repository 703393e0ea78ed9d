(** ModelRelease.v — core_http_client.c compiled with NDEBUG: assert() does nothing, so its argument is not evaluated
    either, and what it guards goes on.  Every function of ModelRequest.v, ModelSend.v, ModelResponse.v and ModelReadHeader.v that
    contains an assertion, or calls one that does, is repeated here without it under the same name followed by _r; the others
    (the loops of the string functions, processLlhttpError, ...) are used as they are.  What a failing assertion stops is undefined
    behaviour where the program then uses a NULL pointer, and unsigned arithmetic that wraps around elsewhere; the places where
    a definition differs by more than the missing assertion say so.  All line numbers are of /repo/source/core_http_client.c. *)
From Verif Require Import Base ModelRequest ModelSend ModelResponse ModelReadHeader.

(** convertInt32ToAscii, l.1238-1289. *)
Definition convertInt32ToAscii_r (value : Z) (a : bytes) (base : Z) : res (bytes * Z) :=
  ' (a1, neg, av) <-
    (if value <? 0
     then a1 <- aset a base DASH ;;
          (if value * (-1) <=? INT32_MAX then Ret (a1, 1, value * (-1)) else Ub UbOverflow)
     else Ret (a, 0, value)) ;;
  ' (a2, nd) <- conv_digits 11 a1 base neg 0 av ;;
  a3 <- conv_reverse (Z.to_nat (nd / 2)) a2 base neg nd 0 ;;
  Ret (a3, neg + nd).

(** httpHeaderStrncpy, l.1293-1338. *)
Definition httpHeaderStrncpy_r (m : mem) (dst : ptr) (s : src) (len : Z) (isField : bool) :=
  strncpy_loop m dst s isField (Z.to_nat len) 0.

(** addHeader, l.1342-1438. *)
Definition addHeader_r (cfg : config) (m : mem) (h : reqHeaders)
           (field : src) (fieldLen : Z) (value : src) (valueLen : Z)
  : res (status * reqHeaders * mem) :=
  match rh_buf h with
  | None => Ub UbNull                       (* NULL + headersLen *)
  | Some buf =>
      cur0 <- padd m buf (rh_len h) ;;
      (* l.1371-1378: step back over the blank line if there is one *)
      ' (cur, back) <-
        (if 4 <=? rh_len h
         then q <- padd m cur0 (-4) ;;
              b <- strncmp_eq m q HTTP_HEADER_END_INDICATOR ;;
              if b then c <- padd m cur0 (-2) ;; Ret (c, rh_len h - 2) else Ret (cur0, rh_len h)
         else Ret (cur0, rh_len h)) ;;
      let toAdd := (fieldLen + 2 + valueLen + 2 + 2) mod SZ cfg in
      if (back + toAdd) mod SZ cfg <=? rh_bufLen h
      then
        ' (ok, m1) <- httpHeaderStrncpy_r m cur field fieldLen true ;;
        if negb ok then Ret (HTTPSecurityAlertInvalidCharacter, h, m1)
        else
          cur1 <- padd m1 cur fieldLen ;;
          m2 <- memcpy m1 cur1 (SLit HTTP_HEADER_FIELD_SEPARATOR) 2 ;;
          cur2 <- padd m2 cur1 2 ;;
          ' (ok2, m3) <- httpHeaderStrncpy_r m2 cur2 value valueLen false ;;
          if negb ok2 then Ret (HTTPSecurityAlertInvalidCharacter, h, m3)
          else
            cur3 <- padd m3 cur2 valueLen ;;
            m4 <- memcpy m3 cur3 (SLit HTTP_HEADER_END_INDICATOR) 4 ;;
            Ret (HTTPSuccess, set_rh_len h ((back + toAdd) mod SZ cfg), m4)
      else Ret (HTTPInsufficientMemory, h, m)
  end.

(** addRangeHeader, l.1442-1509. *)
Definition addRangeHeader_r (cfg : config) (m : mem) (h : reqHeaders) (start rend : Z)
  : res (status * reqHeaders * mem) :=
  let a0 := repeat 0 (Z.to_nat HTTP_MAX_RANGE_REQUEST_VALUE_LEN) in
  let a1 := splice a0 0 HTTP_RANGE_REQUEST_HEADER_VALUE_PREFIX in
  let n1 := zlen HTTP_RANGE_REQUEST_HEADER_VALUE_PREFIX in
  ' (a2, k) <- convertInt32ToAscii_r start a1 n1 ;;
  let n2 := n1 + k in
  ' (a3, n3) <-
    (if negb (rend =? HTTP_RANGE_REQUEST_END_OF_FILE)
     then b <- aset a2 n2 DASH ;;
          ' (c, k2) <- convertInt32ToAscii_r rend b (n2 + 1) ;;
          Ret (c, n2 + 1 + k2)
     else if 0 <=? start
     then b <- aset a2 n2 DASH ;; Ret (b, n2 + 1)
     else Ret (a2, n2)) ;;
  addHeader_r cfg m h (SLit HTTP_RANGE_REQUEST_HEADER_FIELD) (zlen HTTP_RANGE_REQUEST_HEADER_FIELD)
            (SLit a3) n3.

(** writeRequestLine, l.1513-1585. *)
Definition writeRequestLine_r (cfg : config) (m : mem) (h : reqHeaders)
           (method : src) (methodLen : Z) (path : src) (pathLen : Z)
  : res (status * reqHeaders * mem) :=
      let noPath := is_null path || (pathLen =? 0) in
      let toAdd := (methodLen + 1 + 1 + zlen HTTP_PROTOCOL_VERSION + 2
                    + (if noPath then zlen HTTP_EMPTY_PATH else pathLen)) mod SZ cfg in
      if rh_bufLen h <? (toAdd + rh_len h) mod SZ cfg then Ret (HTTPInsufficientMemory, h, m)
      else match rh_buf h with
      | None => Ub UbNull
      | Some buf =>
        m1 <- memcpy m buf method methodLen ;;
        c1 <- padd m1 buf methodLen ;;
        m2 <- storen m1 c1 [SPACE] ;;
        c2 <- padd m2 c1 1 ;;
        ' (m3, c3) <-
          (if noPath
           then m3 <- memcpy m2 c2 (SLit HTTP_EMPTY_PATH) (zlen HTTP_EMPTY_PATH) ;;
                c3 <- padd m3 c2 (zlen HTTP_EMPTY_PATH) ;; Ret (m3, c3)
           else m3 <- memcpy m2 c2 path pathLen ;;
                c3 <- padd m3 c2 pathLen ;; Ret (m3, c3)) ;;
        m4 <- storen m3 c3 [SPACE] ;;
        c4 <- padd m4 c3 1 ;;
        m5 <- memcpy m4 c4 (SLit HTTP_PROTOCOL_VERSION) (zlen HTTP_PROTOCOL_VERSION) ;;
        c5 <- padd m5 c4 (zlen HTTP_PROTOCOL_VERSION) ;;
        m6 <- memcpy m5 c5 (SLit HTTP_HEADER_LINE_SEPARATOR) 2 ;;
        Ret (HTTPSuccess, set_rh_len h toAdd, m6)
  end.

(** InitializeRequestHeaders, l.1589-1685. *)
Definition InitializeRequestHeaders_r (cfg : config) (m : mem)
           (prh : option reqHeaders) (pri : option reqInfo)
  : res (status * option reqHeaders * mem) :=
  match prh with
  | None => Ret (HTTPInvalidParameter, None, m)
  | Some h =>
      if match rh_buf h with None => true | Some _ => false end
      then Ret (HTTPInvalidParameter, prh, m)
      else match pri with
      | None => Ret (HTTPInvalidParameter, prh, m)
      | Some ri =>
          if is_null (ri_method ri) then Ret (HTTPInvalidParameter, prh, m)
          else if is_null (ri_host ri) then Ret (HTTPInvalidParameter, prh, m)
          else if ri_methodLen ri =? 0 then Ret (HTTPInvalidParameter, prh, m)
          else if ri_hostLen ri =? 0 then Ret (HTTPInvalidParameter, prh, m)
          else
            ' (st, h', m') <-
              andThen (andThen (andThen
                (writeRequestLine_r cfg m (set_rh_len h 0) (ri_method ri) (ri_methodLen ri)
                                  (ri_path ri) (ri_pathLen ri))
                (fun h m =>
                   if Z.land HTTP_REQUEST_NO_USER_AGENT_FLAG (ri_flags ri) =? 0
                   then addHeader_r cfg m h (SLit HTTP_USER_AGENT_FIELD) (zlen HTTP_USER_AGENT_FIELD)
                                  (SLit (UA cfg)) (zlen (UA cfg))
                   else Ret (HTTPSuccess, h, m)))
                (fun h m =>
                   addHeader_r cfg m h (SLit HTTP_HOST_FIELD) (zlen HTTP_HOST_FIELD)
                             (ri_host ri) (ri_hostLen ri)))
                (fun h m =>
                   if negb (Z.land HTTP_REQUEST_KEEP_ALIVE_FLAG (ri_flags ri) =? 0)
                   then addHeader_r cfg m h (SLit HTTP_CONNECTION_FIELD) (zlen HTTP_CONNECTION_FIELD)
                                  (SLit HTTP_CONNECTION_KEEP_ALIVE_VALUE)
                                  (zlen HTTP_CONNECTION_KEEP_ALIVE_VALUE)
                   else Ret (HTTPSuccess, h, m)) ;;
            Ret (st, Some h', m')
      end
  end.

(** AddHeader, l.1689-1745. *)
Definition AddHeader_r (cfg : config) (m : mem) (prh : option reqHeaders)
           (field : src) (fieldLen : Z) (value : src) (valueLen : Z)
  : res (status * option reqHeaders * mem) :=
  match prh with
  | None => Ret (HTTPInvalidParameter, None, m)
  | Some h =>
      if match rh_buf h with None => true | Some _ => false end
      then Ret (HTTPInvalidParameter, prh, m)
      else if is_null field then Ret (HTTPInvalidParameter, prh, m)
      else if is_null value then Ret (HTTPInvalidParameter, prh, m)
      else if fieldLen =? 0 then Ret (HTTPInvalidParameter, prh, m)
      else if valueLen =? 0 then Ret (HTTPInvalidParameter, prh, m)
      else if rh_bufLen h <? rh_len h then Ret (HTTPInvalidParameter, prh, m)
      else
        ' (st, h', m') <- addHeader_r cfg m h field fieldLen value valueLen ;;
        Ret (st, Some h', m')
  end.

(** AddRangeHeader, l.1749-1810. *)
Definition AddRangeHeader_r (cfg : config) (m : mem) (prh : option reqHeaders) (start rend : Z)
  : res (status * option reqHeaders * mem) :=
  match prh with
  | None => Ret (HTTPInvalidParameter, None, m)
  | Some h =>
      if match rh_buf h with None => true | Some _ => false end
      then Ret (HTTPInvalidParameter, prh, m)
      else if rh_bufLen h <? rh_len h then Ret (HTTPInvalidParameter, prh, m)
      else if rend <? HTTP_RANGE_REQUEST_END_OF_FILE then Ret (HTTPInvalidParameter, prh, m)
      else if (start <? 0) && negb (rend =? HTTP_RANGE_REQUEST_END_OF_FILE)
      then Ret (HTTPInvalidParameter, prh, m)
      else if negb (rend =? HTTP_RANGE_REQUEST_END_OF_FILE) && (rend <? start)
      then Ret (HTTPInvalidParameter, prh, m)
      else if start =? INT32_MIN then Ret (HTTPInvalidParameter, prh, m)
      else
        ' (st, h', m') <- addRangeHeader_r cfg m h start rend ;;
        Ret (st, Some h', m')
  end.

(** bytesRemaining is a size_t: taking more from it than there is wraps around.  [tr]: without a send function, or with
    pData NULL, the call of l.1848 is undefined behaviour. *)
(** send_loop, l.1846-1887. *)
Fixpoint send_loop_r (fuel : nat) (cfg : config) (E : env) (tr : option transport) (tf : timefn) (retry : Z)
         (pp : option ptr) (rem last : Z) (w : world) : res (status * world) :=
  match fuel with
  | O => More w
  | S f =>
      if rem <=? 0 then Ret (HTTPSuccess, w)
      else
        match tr, pp with
        | Some t, Some p =>
            if negb (t_send t) then Ub UbNull
            else
              d <- loadn (w_mem w) p rem ;;
              let r := e_send E (w_ns w) rem in
              let w1 := w_after_send w d r in
              if r <? 0 then Ret (HTTPNetworkError, w1)
              else if 0 <? r then
                ' (t, w2) <- get_time E tf w1 ;;
                p' <- padd (w_mem w2) p r ;;
                send_loop_r f cfg E tr tf retry (Some p') (if rem <? r then rem - r + SZ cfg else rem - r) t w2
              else
                ' (t, w2) <- get_time E tf w1 ;;
                if retry <=? u32 (t - last) then Ret (HTTPNetworkError, w2)
                else send_loop_r f cfg E tr tf retry pp rem last w2
        | _, _ => Ub UbNull
        end
  end.

(** SendHttpData, l.1814-1890. *)
Definition SendHttpData_r (fuel : nat) (cfg : config) (E : env) (tr : option transport) (tf : timefn)
           (pData : option ptr) (dataLen : Z) (w : world) : res (status * world) :=
  let retry := match tf with TZero => 0 | _ => SEND_TO cfg end in
  ' (t0, w1) <- get_time E tf w ;;
  send_loop_r fuel cfg E tr tf retry pData dataLen t0 w1.

(** addContentLengthHeader, l.1894-1922. *)
Definition addContentLengthHeader_r (cfg : config) (m : mem) (h : reqHeaders) (contentLength : Z)
  : res (status * reqHeaders * mem) :=
  let a0 := repeat 0 (Z.to_nat MAX_INT32_NO_OF_DECIMAL_DIGITS) in
  ' (a1, k) <- convertInt32ToAscii_r (to_int32 contentLength) a0 0 ;;
  addHeader_r cfg m h (SLit HTTP_CONTENT_LENGTH_FIELD) (zlen HTTP_CONTENT_LENGTH_FIELD) (SLit a1) k.

(** SendHttpHeaders, l.1926-1960. *)
Definition SendHttpHeaders_r (fuel : nat) (cfg : config) (E : env) (tr : option transport)
           (tf : timefn) (prh : option reqHeaders) (reqBodyLen sendFlags : Z) (w : world)
  : res (status * option reqHeaders * world) :=
  match prh with
  | None => Ub UbNull
  | Some h =>
      ' (st, h1, m1) <-
        (if (Z.land sendFlags HTTP_SEND_DISABLE_CONTENT_LENGTH_FLAG =? 0) && (0 <? reqBodyLen)
         then addContentLengthHeader_r cfg (w_mem w) h reqBodyLen
         else Ret (HTTPSuccess, h, w_mem w)) ;;
      if is_success st
      then
        ' (st2, w2) <- SendHttpData_r fuel cfg E tr tf (rh_buf h1) (rh_len h1) (set_mem w m1) ;;
        Ret (st2, Some h1, w2)
      else Ret (st, Some h1, set_mem w m1)
  end.

(** sendHttpBody, l.1964-1981. *)
Definition sendHttpBody_r (fuel : nat) (cfg : config) (E : env) (tr : option transport) (tf : timefn)
           (body : option ptr) (bodyLen : Z) (w : world) : res (status * world) :=
  SendHttpData_r fuel cfg E tr tf body bodyLen w.

(** sendHttpRequest, l.2171-2210. *)
Definition sendHttpRequest_r (fuel : nat) (cfg : config) (E : env) (tr : option transport)
           (tf : timefn) (prh : option reqHeaders) (body : option ptr) (bodyLen sendFlags : Z)
           (w : world) : res (status * option reqHeaders * world) :=
  ' (st, h1, w1) <- SendHttpHeaders_r fuel cfg E tr tf prh bodyLen sendFlags w ;;
  if is_success st
  then match body with
       | Some _ =>
           ' (st2, w2) <- sendHttpBody_r fuel cfg E tr tf body bodyLen w1 ;;
           Ret (st2, h1, w2)
       | None => Ret (st, h1, w1)
       end
  else Ret (st, h1, w1).

(** processCompleteHeader, l.568-613 (headerCount is a size_t and wraps around). *)
Definition processCompleteHeader_r (cfg : config) (s : cbst) : res cbst :=
  let c := s_ctx s in
  if negb (c_resp c) then Ub UbNull else
  match c_lf c, c_lv c with
  | Some f, Some v =>
      let r := s_resp s in
      let r1 := set_r_hcount r (if r_hcount r =? SZ cfg - 1 then 0 else r_hcount r + 1) in
      let c1 := set_last c None 0 None 0 in
      if r_cb r
      then
        fb <- loadn (w_mem (s_w s)) f (c_lfl c) ;;
        vb <- loadn (w_mem (s_w s)) v (c_lvl c) ;;
        Ret (mkst c1 r1 (log (s_w s) (THeader f (c_lfl c) v (c_lvl c) fb vb (r_status r))))
      else Ret (mkst c1 r1 (s_w s))
  | _, _ => Ret s
  end.

(** onStatus, l.636-673. *)
Definition onStatus_r (s : cbst) (loc : ptr) (length code : Z) : res (cbret * cbst) :=
  if negb (c_resp (s_ctx s)) then Ub UbNull else
  q <- padd (w_mem (s_w s)) loc length ;;
  Ret (CbContinue,
       mkst (set_last (set_cur (s_ctx s) (Some q)) None 0 None 0)
            (set_r_status (s_resp s) (u16 code)) (s_w s)).

(** onStatusComplete, l.677-705. *)
Definition onStatusComplete_r (s : cbst) (code : Z) : res (cbret * cbst) :=
  if negb (c_resp (s_ctx s)) then Ub UbNull else
  Ret (CbContinue,
       mkst (set_last (s_ctx s) None 0 None 0) (set_r_status (s_resp s) (u16 code)) (s_w s)).

(** onHeaderField, l.709-762. *)
Definition onHeaderField_r (cfg : config) (s : cbst) (loc : ptr) (length : Z) : res (cbret * cbst) :=
  if negb (c_resp (s_ctx s)) then Ub UbNull else
  let r1 := match r_headers (s_resp s) with
            | None => set_r_headers (s_resp s) (Some loc) (r_headersLen (s_resp s))
            | Some _ => s_resp s
            end in
  q <- padd (w_mem (s_w s)) loc length ;;
  s1 <- processCompleteHeader_r cfg (mkst (set_cur (s_ctx s) (Some q)) r1 (s_w s)) ;;
  let c := s_ctx s1 in
  match c_lf c with
  | None =>
      Ret (CbContinue, mkst (set_last c (Some loc) length (c_lv c) (c_lvl c)) (s_resp s1) (s_w s1))
  | Some f =>
      Ret (CbContinue,
           mkst (set_last c (Some f) ((c_lfl c + length) mod SZ cfg) (c_lv c) (c_lvl c))
                (s_resp s1) (s_w s1))
  end.

(** onHeaderValue, l.766-806. *)
Definition onHeaderValue_r (cfg : config) (s : cbst) (loc : ptr) (length : Z) : res (cbret * cbst) :=
  q <- padd (w_mem (s_w s)) loc length ;;
  let c := set_cur (s_ctx s) (Some q) in
  let c1 := match c_lv c with
            | None => set_last c (c_lf c) (c_lfl c) (Some loc) length
            | Some v => set_last c (c_lf c) (c_lfl c) (Some v) ((c_lvl c + length) mod SZ cfg)
            end in
  Ret (CbContinue, mkst c1 (s_resp s) (s_w s)).

(** pBufferCur - pHeaders is a pointer difference converted to size_t: a negative one wraps around, one that is not negative
    is smaller than SIZE_MAX.  (pBufferCur is not NULL in any call of parseHttpResponse.) *)
(** onHeadersComplete, l.810-905. *)
Definition onHeadersComplete_r (cfg : config) (s : cbst) (clen : Z) (close keepalive : bool)
  : res (cbret * cbst) :=
  let c := s_ctx s in
  let r := s_resp s in
  if negb (c_resp c) then Ub UbNull else
  match c_cur c with
  | None => Ub UbNull
  | Some cur =>
      let r1 := set_r_hdone r 1 in
      r2 <- match r_headers r1 with
            | Some h =>
                d3 <- psub cur h ;;
                Ret (set_r_headers r1 (Some h) (if d3 <? 0 then d3 mod SZ cfg else d3))
            | None => Ret (set_r_headers r1 None 0)
            end ;;
      let r3 := set_r_clen r2 (if clen =? UINT64_MAX then 0 else clen mod SZ cfg) in
      let r4 := if close
                then set_r_flags r3 (Z.lor (r_flags r3) HTTP_RESPONSE_CONNECTION_CLOSE_FLAG)
                else r3 in
      let r5 := if keepalive
                then set_r_flags r4 (Z.lor (r_flags r4) HTTP_RESPONSE_CONNECTION_KEEP_ALIVE_FLAG)
                else r4 in
      let ret := if c_head c then CbNoBody else CbContinue in
      s1 <- processCompleteHeader_r cfg (mkst c r5 (s_w s)) ;;
      let ret2 := if negb (Z.land (r_opt (s_resp s1)) HTTP_RESPONSE_DO_NOT_PARSE_BODY_FLAG =? 0)
                  then CbPause else ret in
      Ret (ret2, s1)
  end.

(** onBody, l.909-977. *)
Definition onBody_r (cfg : config) (s : cbst) (loc : ptr) (length : Z) : res (cbret * cbst) :=
  let c := s_ctx s in
  let r := s_resp s in
  if negb (c_resp c) then Ub UbNull else
  let '(body, bl) := match r_body r with
                     | None => (loc, 0)
                     | Some b => (b, r_bodyLen r)
                     end in
  next <- padd (w_mem (s_w s)) body bl ;;
  gap <- psub loc next ;;
  m1 <- (if 0 <? gap then memmove (w_mem (s_w s)) next loc length else Ret (w_mem (s_w s))) ;;
  q <- padd m1 loc length ;;
  Ret (CbContinue,
       mkst (set_cur c (Some q)) (set_r_body r (Some body) ((bl + length) mod SZ cfg))
            (set_mem (s_w s) m1)).

(** callback: the settings of l.1009-1016. *)
Definition callback_r (cfg : config) (start : ptr) (ev : pevent) (s : cbst) : res (cbret * cbst) :=
  let at_ off := mkptr (pb start) (po start + off) in
  match ev with
  | EvMessageBegin => onMessageBegin s
  | EvStatus off len code => onStatus_r s (at_ off) len code
  | EvStatusComplete code => onStatusComplete_r s code
  | EvField off len => onHeaderField_r cfg s (at_ off) len
  | EvValue off len => onHeaderValue_r cfg s (at_ off) len
  | EvHeadersComplete _ clen close ka => onHeadersComplete_r cfg s clen close ka
  | EvBody off len => onBody_r cfg s (at_ off) len
  | EvMessageComplete => onMessageComplete s
  end.

(** run_tree: llhttp_execute with these callbacks. *)
Fixpoint run_tree_r (cfg : config) (start : ptr) {S : Type} (s0 : S) (t : ptree S) (s : cbst)
  : res (errno * Z * S * cbst) :=
  match t with
  | PDone e s1 => Ret (e, 0, s1, s)
  | PEmit ev k =>
      ' (r, s1) <- callback_r cfg start ev (mkst (s_ctx s) (s_resp s) (log (s_w s) (TEvent ev))) ;;
      let s2 := mkst (s_ctx s1) (s_resp s1) (log (s_w s1) (TReply r)) in
      match r with
      | CbPause => Ret (HPE_PAUSED, ev_pos ev, s0, s2)
      | CbStop => Ret (HPE_USER, ev_pos ev, s0, s2)
      | _ => run_tree_r cfg start s0 (k r) s2
      end
  end.

(** initializeParsingContextForFirstResponse, l.1000-1037. *)
Definition initializeParsingContextForFirstResponse_r (m : mem) (rh : reqHeaders) : res pctx :=
  match rh_buf rh with
  | None => Ub UbNull
  | Some buf =>
      hd <- strncmp_eq m buf HTTP_METHOD_HEAD ;;
      Ret (mkctx HTTP_PARSING_NONE false hd None None 0 None 0)
  end.

(** parseHttpResponse, l.1161-1234. *)
Definition parseHttpResponse_r (cfg : config) (P : parser) (ps : PS P) (s : cbst) (parseLen : Z)
  : res (status * PS P * cbst) :=
  let c := s_ctx s in
  let r := s_resp s in
  let s1 :=
    if c_resp c then s
    else mkst (mkctx (c_state c) true (c_head c) (r_buf r) (c_lf c) (c_lfl c) (c_lv c) (c_lvl c))
              (set_r_flags (set_r_hcount (set_r_headers (set_r_body (set_r_status r 0) None 0) None 0) 0) 0)
              (s_w s) in
  match c_cur (s_ctx s1) with
  | None => Ub UbNull
  | Some start =>
      d <- loadn (w_mem (s_w s1)) start parseLen ;;
      ' (e, epos, ps', s2) <-
        run_tree_r cfg start ps (p_exec P ps d)
                 (mkst (s_ctx s1) (s_resp s1) (log (s_w s1) (TParse start d))) ;;
      cur' <- match e with
              | HPE_PAUSED => padd (w_mem (s_w s2)) start epos
              | _ => padd (w_mem (s_w s2)) start parseLen
              end ;;
      Ret (processLlhttpError e, ps',
           mkst (set_cur (s_ctx s2) (Some cur')) (s_resp s2) (log (s_w s2) (TParsed e)))
  end.

(** getFinalResponseStatus, l.1985-2033. *)
Definition getFinalResponseStatus_r (st : pstate) (total : Z) (r : response) : res status :=
  match st with
  | HTTP_PARSING_NONE => Ret HTTPNoResponse
  | HTTP_PARSING_INCOMPLETE =>
      if Z.land (r_opt r) HTTP_RESPONSE_DO_NOT_PARSE_BODY_FLAG =? 0
      then if total =? r_bufLen r then Ret HTTPInsufficientMemory else Ret HTTPPartialResponse
      else Ret HTTPSuccess
  | HTTP_PARSING_COMPLETE => Ret HTTPSuccess
  end.

(** recv_loop, l.2068-2140. *)
Fixpoint recv_loop_r (fuel : nat) (cfg : config) (E : env) (P : parser) (retry : Z)
         (total last : Z) (ps : PS P) (s : cbst) : res (status * Z * cbst) :=
  match fuel with
  | O => More (s_w s)
  | S f =>
      let r := s_resp s in
      match r_buf r with
      | None => Ub UbNull
      | Some buf =>
          dst <- padd (w_mem (s_w s)) buf total ;;
          let room := (r_bufLen r - total) mod SZ cfg in
          let '(n, d) := e_recv E (w_nr (s_w s)) room in
          m1 <- storen (w_mem (s_w s)) dst d ;;     (* what the transport does to the buffer *)
          let s1 := mkst (s_ctx s) r (w_after_recv (s_w s) m1 dst room n d) in
          if n <? 0 then Ret (HTTPNetworkError, total, s1)
          else
            ' (t, w2) <- get_time E (r_time r) (s_w s1) ;;
            let s2 := mkst (s_ctx s1) r w2 in
            if 0 <? n then
              let total' := (total + n) mod SZ cfg in
              ' (st, ps', s3) <- parseHttpResponse_r cfg P ps s2 n ;;
              if is_success st
                 && (match c_state (s_ctx s3) with HTTP_PARSING_COMPLETE => false | _ => true end)
                 && (total' <? r_bufLen (s_resp s3))
              then recv_loop_r f cfg E P retry total' t ps' s3
              else Ret (st, total', s3)
            else if retry <=? u32 (t - last) then
              ' (st, ps', s3) <- parseHttpResponse_r cfg P ps s2 0 ;;
              Ret (st, total, s3)                   (* timeoutReached ends the loop *)
            else if (match c_state (s_ctx s2) with HTTP_PARSING_COMPLETE => false | _ => true end)
                    && (total <? r_bufLen r)
            then recv_loop_r f cfg E P retry total last ps s2
            else Ret (HTTPSuccess, total, s2)
      end
  end.

(** ReceiveAndParseHttpResponse, l.2037-2167. *)
Definition ReceiveAndParseHttpResponse_r (fuel : nat) (cfg : config) (E : env) (P : parser)
           (tr : option transport) (pResponse : option response) (prh : option reqHeaders)
           (w : world) : res (status * option response * world) :=
  match tr with
  | None => Ub UbNull
  | Some t =>
      if negb (t_recv t) then Ub UbNull else
      match pResponse with
      | None => Ub UbNull
      | Some r =>
          match prh with
          | None => Ub UbNull
          | Some rh =>
              c <- initializeParsingContextForFirstResponse_r (w_mem w) rh ;;
              let retry := match r_time r with TZero => 0 | _ => RECV_TO cfg end in
              ' (t0, w1) <- get_time E (r_time r) w ;;
              ' (st, total, s) <- recv_loop_r fuel cfg E P retry 0 t0 (p_init P) (mkst c r w1) ;;
              let r1 := s_resp s in
              ' (st2, r2) <-
                (match st with
                 | HTTPParserPaused =>
                     if negb (Z.land (r_opt r1) HTTP_RESPONSE_DO_NOT_PARSE_BODY_FLAG =? 0)
                     then match c_cur (s_ctx s), r_buf r1 with
                          | Some cur, Some buf =>
                              d <- psub cur buf ;;
                              Ret (HTTPSuccess, set_r_body r1 (Some cur) ((total - d) mod SZ cfg))
                          | _, _ => Ub UbNull
                          end
                     else Ret (st, r1)
                 | _ => Ret (st, r1)
                 end) ;;
              if is_success st2
              then
                st3 <- getFinalResponseStatus_r (c_state (s_ctx s)) total r2 ;;
                Ret (st3, Some r2, s_w s)
              else Ret (st2, Some r2, s_w s)
          end
      end
  end.

(** Send, l.2214-2313. *)
Definition Send_r (fuel : nat) (cfg : config) (E : env) (P : parser) (tr : option transport)
           (prh : option reqHeaders) (body : option ptr) (bodyLen : Z)
           (pResponse : option response) (sendFlags : Z) (w : world)
  : res (status * option reqHeaders * option response * world) :=
  let invalid := Ret (HTTPInvalidParameter, prh, pResponse, w) in
  match tr with
  | None => invalid
  | Some t =>
      if negb (t_send t) then invalid
      else if negb (t_recv t) then invalid
      else match prh with
      | None => invalid
      | Some rh =>
          if match rh_buf rh with None => true | _ => false end then invalid
          else if rh_len rh <? HTTP_MINIMUM_REQUEST_LINE_LENGTH then invalid
          else if rh_bufLen rh <? rh_len rh then invalid
          else match pResponse with
          | None => invalid
          | Some r =>
              if match r_buf r with None => true | _ => false end then invalid
              else if r_bufLen r =? 0 then invalid
              else if match body with None => 0 <? bodyLen | _ => false end then invalid
              else if INT32_MAX mod SZ cfg <? bodyLen then invalid   (* (size_t) INT32_MAX *)
              else
                let r1 := match r_time r with TNull => set_r_time r TZero | _ => r end in
                ' (st, prh1, w1) <-
                  sendHttpRequest_r fuel cfg E tr (r_time r1) prh body bodyLen sendFlags w ;;
                if is_success st
                then
                  ' (st2, pr2, w2) <-
                    ReceiveAndParseHttpResponse_r fuel cfg E P tr (Some r1) prh1 w1 ;;
                  Ret (st2, prh1, pr2, w2)
                else Ret (st, prh1, Some r1, w1)
          end
      end
  end.

(** findHeaderField, l.2317-2355. *)
Definition findHeaderField_r (m : mem) (x : fctx) (loc : ptr) (len : Z) : res (cbret * fctx) :=
  eq <- (if len =? f_fieldLen x then caseInsensitiveStringCmp m (f_field x) loc len else Ret false) ;;
  Ret (CbContinue,
       if eq then mkfctx (f_field x) (f_fieldLen x) true (f_valueFound x) (f_out x) else x).

(** findHeaderValue, l.2359-2414. *)
Definition findHeaderValue_r (x : fctx) (loc : ptr) (len : Z) : res (cbret * fctx) :=
  if f_fieldFound x
  then Ret (CbStop,
            mkfctx (f_field x) (f_fieldLen x) true true
                   (Some (if 0 <? len then (Some loc, len) else (None, 0))))
  else Ret (CbContinue, x).

(** find_callback: the settings of l.2472-2475. *)
Definition find_callback_r (m : mem) (start : ptr) (ev : pevent) (x : fctx) : res (cbret * fctx) :=
  let at_ off := mkptr (pb start) (po start + off) in
  match ev with
  | EvField off len => findHeaderField_r m x (at_ off) len
  | EvValue off len => findHeaderValue_r x (at_ off) len
  | EvHeadersComplete _ _ _ _ => Ret (CbNoBody, x)
  | _ => Ret (CbContinue, x)
  end.

(** find_tree: llhttp_execute with these callbacks. *)
Fixpoint find_tree_r (m : mem) (start : ptr) {S : Type} (t : ptree S) (x : fctx) : res (errno * fctx) :=
  match t with
  | PDone e _ => Ret (e, x)
  | PEmit ev k =>
      ' (r, x1) <- find_callback_r m start ev x ;;
      match r with
      | CbPause => Ret (HPE_PAUSED, x1)
      | CbStop => Ret (HPE_USER, x1)
      | _ => find_tree_r m start (k r) x1
      end
  end.

(** findHeaderInResponse, l.2450-2554. *)
Definition findHeaderInResponse_r (P : parser) (m : mem) (buf : ptr) (bufLen : Z)
           (field : src) (fieldLen : Z) : res (status * option (option ptr * Z)) :=
  d <- loadn m buf bufLen ;;
  ' (e, x) <- find_tree_r m buf (p_exec P (p_init P) d) (mkfctx field fieldLen false false None) ;;
  st <- (if negb (f_fieldFound x)
         then Ret HTTPHeaderNotFound
         else if negb (f_valueFound x) then Ret HTTPInvalidResponse
         else Ret HTTPSuccess) ;;
  let st2 :=
    match st, e with
    | HTTPSuccess, HPE_USER => HTTPSuccess
    | HTTPSuccess, _ => HTTPParserInternalError
    | HTTPHeaderNotFound, HPE_OK => HTTPHeaderNotFound
    | HTTPHeaderNotFound, _ => HTTPInvalidResponse
    | _, _ => st
    end in
  Ret (st2, f_out x).

(** ReadHeader, l.2558-2619. *)
Definition ReadHeader_r (P : parser) (m : mem) (pResponse : option response) (field : src)
           (fieldLen : Z) (locOk lenOk : bool) : res (status * option (option ptr * Z)) :=
  let invalid := Ret (HTTPInvalidParameter, None) in
  match pResponse with
  | None => invalid
  | Some r =>
      match r_buf r with
      | None => invalid
      | Some buf =>
          if r_bufLen r =? 0 then invalid
          else if is_null field then invalid
          else if fieldLen =? 0 then invalid
          else if negb locOk then invalid
          else if negb lenOk then invalid
          else findHeaderInResponse_r P m buf (r_bufLen r) field fieldLen
      end
  end.

