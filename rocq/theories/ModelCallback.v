(** ModelCallback.v — the calls that use the transport, the clock and the header callback once more, now with functions of the application
    that also write to memory.  In ModelSend.v and ModelResponse.v they only return something (and recv stores into the buffer it is given).
    Here an [effect] says what else they do to memory: it is applied to the memory after each of their calls, and may depend on everything
    that happened so far (the log, whose last entry is the call just made).  Every function that calls one of them, or calls a function that
    does, is repeated under its name followed by _k; the only difference is [told].  llhttp is still given a copy of the received data at the
    start of each call (l.1213): a callback that changes the data being parsed is outside this model, and excluded by the contract of C93 (the
    response buffer is left alone).  All line numbers are of /repo/source/core_http_client.c. *)
From Verif Require Import Base ModelRequest ModelSend ModelResponse.

Definition effect := list tev -> mem -> mem.
(** The function that was called last does what it does to memory (transport_interface.h l.222: recv, l.244: send; core_http_client.h l.443:
    onHeaderCallback, l.510: getTime). *)
Definition told (K : effect) (w : world) : world := set_mem w (K (w_tr w) (w_mem w)).

(** The clock (called at l.1839, 1864, 1877, 2067, 2090, 2103); without a clock of the application nothing is called. *)
Definition get_time_k (K : effect) (E : env) (tf : timefn) (w : world) : res (Z * world) :=
  ' (t, w1) <- get_time E tf w ;;
  Ret (t, match tf with TUser => told K w1 | _ => w1 end).

(** The while loop of HTTPClient_SendHttpData, l.1846-1887. *)
Fixpoint send_loop_k (K : effect) (fuel : nat) (E : env) (tf : timefn) (retry : Z)
         (p : ptr) (rem last : Z) (w : world) : res (status * world) :=
  match fuel with
  | O => More w
  | S f =>
      if rem <=? 0 then Ret (HTTPSuccess, w)
      else
        d <- loadn (w_mem w) p rem ;;          (* the transport may read all it is offered *)
        let r := e_send E (w_ns w) rem in
        let w1 := told K (w_after_send w d r) in   (* the call, l.1844 *)
        if r <? 0 then Ret (HTTPNetworkError, w1)
        else if 0 <? r then
          _ <- assert_at (r <=? rem) 1861 ;;
          ' (t, w2) <- get_time_k K E tf w1 ;;
          p' <- padd (w_mem w2) p r ;;
          send_loop_k K f E tf retry p' (rem - r) t w2
        else
          ' (t, w2) <- get_time_k K E tf w1 ;;
          if retry <=? u32 (t - last) then Ret (HTTPNetworkError, w2)
          else send_loop_k K f E tf retry p rem last w2
  end.

(** HTTPClient_SendHttpData, l.1814-1890. *)
Definition SendHttpData_k (K : effect) (fuel : nat) (cfg : config) (E : env) (tr : option transport) (tf : timefn)
           (pData : option ptr) (dataLen : Z) (w : world) : res (status * world) :=
  match tr with
  | None => AssertFail 1826
  | Some t =>
      _ <- assert_at (t_send t) 1827 ;;
      match pData with
      | None => AssertFail 1828
      | Some p =>
          let retry := match tf with TZero => 0 | _ => SEND_TO cfg end in
          ' (t0, w1) <- get_time_k K E tf w ;;
          send_loop_k K fuel E tf retry p dataLen t0 w1
      end
  end.

(** HTTPClient_SendHttpHeaders, l.1926-1960. *)
Definition SendHttpHeaders_k (K : effect) (fuel : nat) (cfg : config) (E : env) (tr : option transport)
           (tf : timefn) (prh : option reqHeaders) (reqBodyLen sendFlags : Z) (w : world)
  : res (status * option reqHeaders * world) :=
  match tr with
  | None => AssertFail 1935
  | Some t =>
      _ <- assert_at (t_send t) 1936 ;;
      match prh with
      | None => AssertFail 1937
      | Some h =>
          ' (st, h1, m1) <-
            (if (Z.land sendFlags HTTP_SEND_DISABLE_CONTENT_LENGTH_FLAG =? 0) && (0 <? reqBodyLen)
             then addContentLengthHeader cfg (w_mem w) h reqBodyLen
             else Ret (HTTPSuccess, h, w_mem w)) ;;
          if is_success st
          then
            ' (st2, w2) <- SendHttpData_k K fuel cfg E tr tf (rh_buf h1) (rh_len h1) (set_mem w m1) ;;
            Ret (st2, Some h1, w2)
          else Ret (st, Some h1, set_mem w m1)
      end
  end.

(** sendHttpBody, l.1964-1981. *)
Definition sendHttpBody_k (K : effect) (fuel : nat) (cfg : config) (E : env) (tr : option transport) (tf : timefn)
           (body : option ptr) (bodyLen : Z) (w : world) : res (status * world) :=
  match tr with
  | None => AssertFail 1971
  | Some t =>
      _ <- assert_at (t_send t) 1972 ;;
      _ <- assert_at (match body with None => false | _ => true end) 1973 ;;
      SendHttpData_k K fuel cfg E tr tf body bodyLen w
  end.

(** sendHttpRequest, l.2171-2210. *)
Definition sendHttpRequest_k (K : effect) (fuel : nat) (cfg : config) (E : env) (tr : option transport)
           (tf : timefn) (prh : option reqHeaders) (body : option ptr) (bodyLen sendFlags : Z)
           (w : world) : res (status * option reqHeaders * world) :=
  _ <- assert_at (match tr with None => false | _ => true end) 2180 ;;
  _ <- assert_at (match prh with None => false | _ => true end) 2181 ;;
  _ <- assert_at (match body with None => bodyLen =? 0 | _ => true end) 2182 ;;
  _ <- assert_at (match tf with TNull => false | _ => true end) 2184 ;;
  ' (st, h1, w1) <- SendHttpHeaders_k K fuel cfg E tr tf prh bodyLen sendFlags w ;;
  if is_success st
  then match body with
       | Some _ =>
           ' (st2, w2) <- sendHttpBody_k K fuel cfg E tr tf body bodyLen w1 ;;
           Ret (st2, h1, w2)
       | None => Ret (st, h1, w1)
       end
  else Ret (st, h1, w1).

(** processCompleteHeader, l.568-613. *)
Definition processCompleteHeader_k (K : effect) (cfg : config) (s : cbst) : res cbst :=
  let c := s_ctx s in
  _ <- assert_at (c_resp c) 573 ;;
  match c_lf c, c_lv c with
  | Some f, Some v =>
      let r := s_resp s in
      _ <- assert_at (r_hcount r <? SZ cfg - 1) 582 ;;
      let r1 := set_r_hcount r (r_hcount r + 1) in
      let c1 := set_last c None 0 None 0 in
      if r_cb r
      then
        fb <- loadn (w_mem (s_w s)) f (c_lfl c) ;;
        vb <- loadn (w_mem (s_w s)) v (c_lvl c) ;;
        Ret (mkst c1 r1 (told K (log (s_w s) (THeader f (c_lfl c) v (c_lvl c) fb vb (r_status r)))))   (* the call, l.596 *)
      else Ret (mkst c1 r1 (s_w s))
  | _, _ => Ret s
  end.

(** httpParserOnHeaderFieldCallback, l.709-762. *)
Definition onHeaderField_k (K : effect) (cfg : config) (s : cbst) (loc : ptr) (length : Z) : res (cbret * cbst) :=
  _ <- assert_at (c_resp (s_ctx s)) 723 ;;
  let r1 := match r_headers (s_resp s) with
            | None => set_r_headers (s_resp s) (Some loc) (r_headersLen (s_resp s))
            | Some _ => s_resp s
            end in
  q <- padd (w_mem (s_w s)) loc length ;;
  s1 <- processCompleteHeader_k K cfg (mkst (set_cur (s_ctx s) (Some q)) r1 (s_w s)) ;;
  let c := s_ctx s1 in
  match c_lf c with
  | None =>
      Ret (CbContinue, mkst (set_last c (Some loc) length (c_lv c) (c_lvl c)) (s_resp s1) (s_w s1))
  | Some f =>
      _ <- assert_at (c_lfl c <=? SZ cfg - 1 - length) 752 ;;
      Ret (CbContinue,
           mkst (set_last c (Some f) ((c_lfl c + length) mod SZ cfg) (c_lv c) (c_lvl c))
                (s_resp s1) (s_w s1))
  end.

(** httpParserOnHeadersCompleteCallback, l.810-905. *)
Definition onHeadersComplete_k (K : effect) (cfg : config) (s : cbst) (clen : Z) (close keepalive : bool)
  : res (cbret * cbst) :=
  let c := s_ctx s in
  let r := s_resp s in
  _ <- assert_at (c_resp c) 822 ;;
  match c_cur c with
  | None => AssertFail 823
  | Some cur =>
      match r_buf r with
      | None => Ub UbNull
      | Some buf =>
          let r1 := set_r_hdone r 1 in
          d <- psub cur buf ;;
          _ <- assert_at (0 <=? d) 830 ;;
          endp <- padd (w_mem (s_w s)) buf (r_bufLen r) ;;
          d2 <- psub cur endp ;;
          _ <- assert_at (d2 <? 0) 831 ;;
          r2 <- match r_headers r1 with
                | Some h =>
                    d3 <- psub cur h ;;
                    _ <- assert_at (0 <? d3) 842 ;;
                    Ret (set_r_headers r1 (Some h) d3)
                | None => Ret (set_r_headers r1 None 0)
                end ;;
          let r3 := set_r_clen r2 (if clen =? UINT64_MAX then 0 else clen mod SZ cfg) in
          let r4 := if close
                    then set_r_flags r3 (Z.lor (r_flags r3) HTTP_RESPONSE_CONNECTION_CLOSE_FLAG)
                    else r3 in
          let r5 := if keepalive
                    then set_r_flags r4 (Z.lor (r_flags r4) HTTP_RESPONSE_CONNECTION_KEEP_ALIVE_FLAG)
                    else r4 in
          let ret := if c_head c then CbNoBody else CbContinue in
          s1 <- processCompleteHeader_k K cfg (mkst c r5 (s_w s)) ;;
          let ret2 := if negb (Z.land (r_opt (s_resp s1)) HTTP_RESPONSE_DO_NOT_PARSE_BODY_FLAG =? 0)
                      then CbPause else ret in
          Ret (ret2, s1)
      end
  end.

(** The callbacks registered at l.1009-1016. *)
Definition callback_k (K : effect) (cfg : config) (start : ptr) (ev : pevent) (s : cbst) : res (cbret * cbst) :=
  let at_ off := mkptr (pb start) (po start + off) in
  match ev with
  | EvMessageBegin => onMessageBegin s
  | EvStatus off len code => onStatus s (at_ off) len code
  | EvStatusComplete code => onStatusComplete s code
  | EvField off len => onHeaderField_k K cfg s (at_ off) len
  | EvValue off len => onHeaderValue cfg s (at_ off) len
  | EvHeadersComplete _ clen close ka => onHeadersComplete_k K cfg s clen close ka
  | EvBody off len => onBody cfg s (at_ off) len
  | EvMessageComplete => onMessageComplete s
  end.

(** llhttp_execute with these callbacks. *)
Fixpoint run_tree_k (K : effect) (cfg : config) (start : ptr) {S : Type} (s0 : S) (t : ptree S) (s : cbst)
  : res (errno * Z * S * cbst) :=
  match t with
  | PDone e s1 => Ret (e, 0, s1, s)
  | PEmit ev k =>
      ' (r, s1) <- callback_k K cfg start ev (mkst (s_ctx s) (s_resp s) (log (s_w s) (TEvent ev))) ;;
      let s2 := mkst (s_ctx s1) (s_resp s1) (log (s_w s1) (TReply r)) in
      match r with
      | CbPause => Ret (HPE_PAUSED, ev_pos ev, s0, s2)
      | CbStop => Ret (HPE_USER, ev_pos ev, s0, s2)
      | _ => run_tree_k K cfg start s0 (k r) s2
      end
  end.

(** parseHttpResponse, l.1161-1234. *)
Definition parseHttpResponse_k (K : effect) (cfg : config) (P : parser) (ps : PS P) (s : cbst) (parseLen : Z)
  : res (status * PS P * cbst) :=
  let c := s_ctx s in
  let r := s_resp s in
  let s1 :=
    if c_resp c then s
    else mkst (mkctx (c_state c) true (c_head c) (r_buf r) (c_lf c) (c_lfl c) (c_lv c) (c_lvl c))
              (set_r_flags (set_r_hcount (set_r_headers (set_r_body (set_r_status r 0) None 0) None 0) 0) 0)
              (s_w s) in
  match c_cur (s_ctx s1) with
  | None => Ub UbNull
  | Some start =>
      d <- loadn (w_mem (s_w s1)) start parseLen ;;
      ' (e, epos, ps', s2) <-
        run_tree_k K cfg start ps (p_exec P ps d)
                 (mkst (s_ctx s1) (s_resp s1) (log (s_w s1) (TParse start d))) ;;
      cur' <- match e with
              | HPE_PAUSED => padd (w_mem (s_w s2)) start epos
              | _ => padd (w_mem (s_w s2)) start parseLen
              end ;;
      Ret (processLlhttpError e, ps',
           mkst (set_cur (s_ctx s2) (Some cur')) (s_resp s2) (log (s_w s2) (TParsed e)))
  end.

(** The while loop of HTTPClient_ReceiveAndParseHttpResponse, l.2068-2140. *)
Fixpoint recv_loop_k (K : effect) (fuel : nat) (cfg : config) (E : env) (P : parser) (retry : Z)
         (total last : Z) (ps : PS P) (s : cbst) : res (status * Z * cbst) :=
  match fuel with
  | O => More (s_w s)
  | S f =>
      let r := s_resp s in
      match r_buf r with
      | None => Ub UbNull
      | Some buf =>
          dst <- padd (w_mem (s_w s)) buf total ;;
          let room := (r_bufLen r - total) mod SZ cfg in
          let '(n, d) := e_recv E (w_nr (s_w s)) room in
          m1 <- storen (w_mem (s_w s)) dst d ;;     (* what the transport does to the buffer *)
          let s1 := mkst (s_ctx s) r (told K (w_after_recv (s_w s) m1 dst room n d)) in   (* the call, l.2072 *)
          if n <? 0 then Ret (HTTPNetworkError, total, s1)
          else
            ' (t, w2) <- get_time_k K E (r_time r) (s_w s1) ;;
            let s2 := mkst (s_ctx s1) r w2 in
            if 0 <? n then
              let total' := (total + n) mod SZ cfg in
              ' (st, ps', s3) <- parseHttpResponse_k K cfg P ps s2 n ;;
              if is_success st
                 && (match c_state (s_ctx s3) with HTTP_PARSING_COMPLETE => false | _ => true end)
                 && (total' <? r_bufLen (s_resp s3))
              then recv_loop_k K f cfg E P retry total' t ps' s3
              else Ret (st, total', s3)
            else if retry <=? u32 (t - last) then
              ' (st, ps', s3) <- parseHttpResponse_k K cfg P ps s2 0 ;;
              Ret (st, total, s3)                   (* timeoutReached ends the loop *)
            else if (match c_state (s_ctx s2) with HTTP_PARSING_COMPLETE => false | _ => true end)
                    && (total <? r_bufLen r)
            then recv_loop_k K f cfg E P retry total last ps s2
            else Ret (HTTPSuccess, total, s2)
      end
  end.

(** HTTPClient_ReceiveAndParseHttpResponse, l.2037-2167. *)
Definition ReceiveAndParseHttpResponse_k (K : effect) (fuel : nat) (cfg : config) (E : env) (P : parser)
           (tr : option transport) (pResponse : option response) (prh : option reqHeaders)
           (w : world) : res (status * option response * world) :=
  match tr with
  | None => AssertFail 2049
  | Some t =>
      _ <- assert_at (t_recv t) 2050 ;;
      match pResponse with
      | None => AssertFail 2051
      | Some r =>
          match prh with
          | None => AssertFail 2052
          | Some rh =>
              c <- initializeParsingContextForFirstResponse (w_mem w) rh ;;
              let retry := match r_time r with TZero => 0 | _ => RECV_TO cfg end in
              ' (t0, w1) <- get_time_k K E (r_time r) w ;;
              ' (st, total, s) <- recv_loop_k K fuel cfg E P retry 0 t0 (p_init P) (mkst c r w1) ;;
              let r1 := s_resp s in
              ' (st2, r2) <-
                (match st with
                 | HTTPParserPaused =>
                     if negb (Z.land (r_opt r1) HTTP_RESPONSE_DO_NOT_PARSE_BODY_FLAG =? 0)
                     then match c_cur (s_ctx s), r_buf r1 with
                          | Some cur, Some buf =>
                              d <- psub cur buf ;;
                              Ret (HTTPSuccess, set_r_body r1 (Some cur) ((total - d) mod SZ cfg))
                          | _, _ => Ub UbNull
                          end
                     else Ret (st, r1)
                 | _ => Ret (st, r1)
                 end) ;;
              if is_success st2
              then
                st3 <- getFinalResponseStatus (c_state (s_ctx s)) total r2 ;;
                Ret (st3, Some r2, s_w s)
              else Ret (st2, Some r2, s_w s)
          end
      end
  end.

(** HTTPClient_Send, l.2214-2313.  [Ks]: while the request goes out, [K]: while the response comes in. *)
Definition Send_k (Ks K : effect) (fuel : nat) (cfg : config) (E : env) (P : parser) (tr : option transport)
           (prh : option reqHeaders) (body : option ptr) (bodyLen : Z)
           (pResponse : option response) (sendFlags : Z) (w : world)
  : res (status * option reqHeaders * option response * world) :=
  let invalid := Ret (HTTPInvalidParameter, prh, pResponse, w) in
  match tr with
  | None => invalid
  | Some t =>
      if negb (t_send t) then invalid
      else if negb (t_recv t) then invalid
      else match prh with
      | None => invalid
      | Some rh =>
          if match rh_buf rh with None => true | _ => false end then invalid
          else if rh_len rh <? HTTP_MINIMUM_REQUEST_LINE_LENGTH then invalid
          else if rh_bufLen rh <? rh_len rh then invalid
          else match pResponse with
          | None => invalid
          | Some r =>
              if match r_buf r with None => true | _ => false end then invalid
              else if r_bufLen r =? 0 then invalid
              else if match body with None => 0 <? bodyLen | _ => false end then invalid
              else if INT32_MAX mod SZ cfg <? bodyLen then invalid   (* (size_t) INT32_MAX *)
              else
                let r1 := match r_time r with TNull => set_r_time r TZero | _ => r end in
                ' (st, prh1, w1) <-
                  sendHttpRequest_k Ks fuel cfg E tr (r_time r1) prh body bodyLen sendFlags w ;;
                if is_success st
                then
                  ' (st2, pr2, w2) <-
                    ReceiveAndParseHttpResponse_k K fuel cfg E P tr (Some r1) prh1 w1 ;;
                  Ret (st2, prh1, pr2, w2)
                else Ret (st, prh1, Some r1, w1)
          end
      end
  end.

