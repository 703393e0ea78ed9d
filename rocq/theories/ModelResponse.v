(** ModelResponse.v — the receiving half of core_http_client.c (line numbers as in ModelRequest.v).
    llhttp is a third-party submodule whose source is not in /repo: it is a parameter here, an
    arbitrary [parser].  What is assumed of it in theorems is stated in Spec.v. *)
From Verif Require Import Base ModelRequest ModelSend.

(** ** llhttp *)
(** One llhttp_execute call: it reports events, learns what the callback returned, and finally
    returns an errno and its new internal state. *)
Inductive ptree (S : Type) :=
| PDone (e : errno) (s : S)
| PEmit (ev : pevent) (k : cbret -> ptree S).
Arguments PDone {S} e s.  Arguments PEmit {S} ev k.

Record parser := mkparser {
  PS : Type;                           (* llhttp_t *)
  p_init : PS;                         (* llhttp_init( .., HTTP_RESPONSE, .. ) *)
  p_exec : PS -> bytes -> ptree PS     (* llhttp_execute *)
}.

(** ** Data structures *)
(** HTTPResponse_t, core_http_client.h l.467-581.  [r_cb]: pHeaderParsingCallback != NULL. *)
Record response := mkresp {
  r_buf : option ptr;      r_bufLen : Z;
  r_cb : bool;             r_time : timefn;
  r_headers : option ptr;  r_headersLen : Z;
  r_body : option ptr;     r_bodyLen : Z;
  r_status : Z;            r_clen : Z;       r_hcount : Z;
  r_hdone : Z;             r_opt : Z;        r_flags : Z
}.
Definition HTTP_RESPONSE_CONNECTION_CLOSE_FLAG := 1.        (* core_http_client.h l.146 *)
Definition HTTP_RESPONSE_CONNECTION_KEEP_ALIVE_FLAG := 2.   (* l.154 *)
Definition HTTP_RESPONSE_DO_NOT_PARSE_BODY_FLAG := 1.       (* l.175 *)
Definition HTTP_MINIMUM_REQUEST_LINE_LENGTH := 16.          (* private.h l.204 *)
Definition HTTP_METHOD_HEAD := B "HEAD".                    (* core_http_client.h l.65 *)

(** HTTPParsingState_t and HTTPParsingContext_t, core_http_client_private.h l.210-215, 290-303.
    [c_resp]: pResponse != NULL (the code only ever stores the one response there). *)
Inductive pstate := HTTP_PARSING_NONE | HTTP_PARSING_INCOMPLETE | HTTP_PARSING_COMPLETE.
Record pctx := mkctx {
  c_state : pstate;  c_resp : bool;  c_head : bool;
  c_cur : option ptr;                                (* pBufferCur *)
  c_lf : option ptr;  c_lfl : Z;                     (* pLastHeaderField, lastHeaderFieldLen *)
  c_lv : option ptr;  c_lvl : Z                      (* pLastHeaderValue, lastHeaderValueLen *)
}.

(** What the callbacks can reach. *)
Record cbst := mkst { s_ctx : pctx;  s_resp : response;  s_w : world }.

(** ** Field updates *)
Definition set_state (c : pctx) (x : pstate) :=
  mkctx x (c_resp c) (c_head c) (c_cur c) (c_lf c) (c_lfl c) (c_lv c) (c_lvl c).
Definition set_cur (c : pctx) (x : option ptr) :=
  mkctx (c_state c) (c_resp c) (c_head c) x (c_lf c) (c_lfl c) (c_lv c) (c_lvl c).
Definition set_last (c : pctx) (lf : option ptr) (lfl : Z) (lv : option ptr) (lvl : Z) :=
  mkctx (c_state c) (c_resp c) (c_head c) (c_cur c) lf lfl lv lvl.

Definition set_r_status (r : response) (x : Z) :=
  mkresp (r_buf r) (r_bufLen r) (r_cb r) (r_time r) (r_headers r) (r_headersLen r) (r_body r)
         (r_bodyLen r) x (r_clen r) (r_hcount r) (r_hdone r) (r_opt r) (r_flags r).
Definition set_r_headers (r : response) (p : option ptr) (n : Z) :=
  mkresp (r_buf r) (r_bufLen r) (r_cb r) (r_time r) p n (r_body r)
         (r_bodyLen r) (r_status r) (r_clen r) (r_hcount r) (r_hdone r) (r_opt r) (r_flags r).
Definition set_r_body (r : response) (p : option ptr) (n : Z) :=
  mkresp (r_buf r) (r_bufLen r) (r_cb r) (r_time r) (r_headers r) (r_headersLen r) p
         n (r_status r) (r_clen r) (r_hcount r) (r_hdone r) (r_opt r) (r_flags r).
Definition set_r_hcount (r : response) (x : Z) :=
  mkresp (r_buf r) (r_bufLen r) (r_cb r) (r_time r) (r_headers r) (r_headersLen r) (r_body r)
         (r_bodyLen r) (r_status r) (r_clen r) x (r_hdone r) (r_opt r) (r_flags r).
Definition set_r_clen (r : response) (x : Z) :=
  mkresp (r_buf r) (r_bufLen r) (r_cb r) (r_time r) (r_headers r) (r_headersLen r) (r_body r)
         (r_bodyLen r) (r_status r) x (r_hcount r) (r_hdone r) (r_opt r) (r_flags r).
Definition set_r_hdone (r : response) (x : Z) :=
  mkresp (r_buf r) (r_bufLen r) (r_cb r) (r_time r) (r_headers r) (r_headersLen r) (r_body r)
         (r_bodyLen r) (r_status r) (r_clen r) (r_hcount r) x (r_opt r) (r_flags r).
Definition set_r_flags (r : response) (x : Z) :=
  mkresp (r_buf r) (r_bufLen r) (r_cb r) (r_time r) (r_headers r) (r_headersLen r) (r_body r)
         (r_bodyLen r) (r_status r) (r_clen r) (r_hcount r) (r_hdone r) (r_opt r) x.
Definition set_r_time (r : response) (x : timefn) :=
  mkresp (r_buf r) (r_bufLen r) (r_cb r) x (r_headers r) (r_headersLen r) (r_body r)
         (r_bodyLen r) (r_status r) (r_clen r) (r_hcount r) (r_hdone r) (r_opt r) (r_flags r).

Definition log (w : world) (e : tev) : world :=
  mkw (w_mem w) (w_ns w) (w_nr w) (w_nt w) (w_tr w ++ [e]).

(** (uint16_t) *)
Definition u16 (v : Z) : Z := v mod 65536.

(** ** processCompleteHeader, l.568-613.  The application's header callback is assumed not to write
    to the library's buffers; it may read the two byte ranges it is given. *)
Definition processCompleteHeader (cfg : config) (s : cbst) : res cbst :=
  let c := s_ctx s in
  _ <- assert_at (c_resp c) 573 ;;
  match c_lf c, c_lv c with
  | Some f, Some v =>
      let r := s_resp s in
      _ <- assert_at (r_hcount r <? SZ cfg - 1) 582 ;;
      let r1 := set_r_hcount r (r_hcount r + 1) in
      let c1 := set_last c None 0 None 0 in
      if r_cb r
      then
        fb <- loadn (w_mem (s_w s)) f (c_lfl c) ;;
        vb <- loadn (w_mem (s_w s)) v (c_lvl c) ;;
        Ret (mkst c1 r1 (log (s_w s) (THeader f (c_lfl c) v (c_lvl c) fb vb (r_status r))))
      else Ret (mkst c1 r1 (s_w s))
  | _, _ => Ret s
  end.

(** ** Callbacks.  [loc] is the [pLoc] pointer. *)
(** httpParserOnMessageBeginCallback, l.617-632. *)
Definition onMessageBegin (s : cbst) : res (cbret * cbst) :=
  Ret (CbContinue, mkst (set_state (s_ctx s) HTTP_PARSING_INCOMPLETE) (s_resp s) (s_w s)).

(** httpParserOnStatusCallback, l.636-673. *)
Definition onStatus (s : cbst) (loc : ptr) (length code : Z) : res (cbret * cbst) :=
  _ <- assert_at (c_resp (s_ctx s)) 650 ;;
  q <- padd (w_mem (s_w s)) loc length ;;
  Ret (CbContinue,
       mkst (set_last (set_cur (s_ctx s) (Some q)) None 0 None 0)
            (set_r_status (s_resp s) (u16 code)) (s_w s)).

(** httpParserOnStatusCompleteCallback, l.677-705. *)
Definition onStatusComplete (s : cbst) (code : Z) : res (cbret * cbst) :=
  _ <- assert_at (c_resp (s_ctx s)) 688 ;;
  Ret (CbContinue,
       mkst (set_last (s_ctx s) None 0 None 0) (set_r_status (s_resp s) (u16 code)) (s_w s)).

(** httpParserOnHeaderFieldCallback, l.709-762. *)
Definition onHeaderField (cfg : config) (s : cbst) (loc : ptr) (length : Z) : res (cbret * cbst) :=
  _ <- assert_at (c_resp (s_ctx s)) 723 ;;
  let r1 := match r_headers (s_resp s) with
            | None => set_r_headers (s_resp s) (Some loc) (r_headersLen (s_resp s))
            | Some _ => s_resp s
            end in
  q <- padd (w_mem (s_w s)) loc length ;;
  s1 <- processCompleteHeader cfg (mkst (set_cur (s_ctx s) (Some q)) r1 (s_w s)) ;;
  let c := s_ctx s1 in
  match c_lf c with
  | None =>
      Ret (CbContinue, mkst (set_last c (Some loc) length (c_lv c) (c_lvl c)) (s_resp s1) (s_w s1))
  | Some f =>
      _ <- assert_at (c_lfl c <=? SZ cfg - 1 - length) 752 ;;
      Ret (CbContinue,
           mkst (set_last c (Some f) ((c_lfl c + length) mod SZ cfg) (c_lv c) (c_lvl c))
                (s_resp s1) (s_w s1))
  end.

(** httpParserOnHeaderValueCallback, l.766-806. *)
Definition onHeaderValue (cfg : config) (s : cbst) (loc : ptr) (length : Z) : res (cbret * cbst) :=
  q <- padd (w_mem (s_w s)) loc length ;;
  let c := set_cur (s_ctx s) (Some q) in
  let c1 := match c_lv c with
            | None => set_last c (c_lf c) (c_lfl c) (Some loc) length
            | Some v => set_last c (c_lf c) (c_lfl c) (Some v) ((c_lvl c + length) mod SZ cfg)
            end in
  _ <- assert_at (match c_lf c1 with None => false | Some _ => true end) 798 ;;
  Ret (CbContinue, mkst c1 (s_resp s) (s_w s)).

(** httpParserOnHeadersCompleteCallback, l.810-905. *)
Definition onHeadersComplete (cfg : config) (s : cbst) (clen : Z) (close keepalive : bool)
  : res (cbret * cbst) :=
  let c := s_ctx s in
  let r := s_resp s in
  _ <- assert_at (c_resp c) 822 ;;
  match c_cur c with
  | None => AssertFail 823
  | Some cur =>
      match r_buf r with
      | None => Ub UbNull
      | Some buf =>
          let r1 := set_r_hdone r 1 in
          d <- psub cur buf ;;
          _ <- assert_at (0 <=? d) 830 ;;
          endp <- padd (w_mem (s_w s)) buf (r_bufLen r) ;;
          d2 <- psub cur endp ;;
          _ <- assert_at (d2 <? 0) 831 ;;
          r2 <- match r_headers r1 with
                | Some h =>
                    d3 <- psub cur h ;;
                    _ <- assert_at (0 <? d3) 842 ;;
                    Ret (set_r_headers r1 (Some h) d3)
                | None => Ret (set_r_headers r1 None 0)
                end ;;
          let r3 := set_r_clen r2 (if clen =? UINT64_MAX then 0 else clen mod SZ cfg) in
          let r4 := if close
                    then set_r_flags r3 (Z.lor (r_flags r3) HTTP_RESPONSE_CONNECTION_CLOSE_FLAG)
                    else r3 in
          let r5 := if keepalive
                    then set_r_flags r4 (Z.lor (r_flags r4) HTTP_RESPONSE_CONNECTION_KEEP_ALIVE_FLAG)
                    else r4 in
          let ret := if c_head c then CbNoBody else CbContinue in
          s1 <- processCompleteHeader cfg (mkst c r5 (s_w s)) ;;
          let ret2 := if negb (Z.land (r_opt (s_resp s1)) HTTP_RESPONSE_DO_NOT_PARSE_BODY_FLAG =? 0)
                      then CbPause else ret in
          Ret (ret2, s1)
      end
  end.

(** httpParserOnBodyCallback, l.909-977. *)
Definition onBody (cfg : config) (s : cbst) (loc : ptr) (length : Z) : res (cbret * cbst) :=
  let c := s_ctx s in
  let r := s_resp s in
  _ <- assert_at (c_resp c) 925 ;;
  match r_buf r with
  | None => AssertFail 926
  | Some buf =>
      d <- psub loc buf ;;
      _ <- assert_at (0 <=? d) 927 ;;
      endp <- padd (w_mem (s_w s)) buf (r_bufLen r) ;;
      d2 <- psub loc endp ;;
      _ <- assert_at (d2 <? 0) 928 ;;
      let '(body, bl) := match r_body r with
                         | None => (loc, 0)
                         | Some b => (b, r_bodyLen r)
                         end in
      next <- padd (w_mem (s_w s)) body bl ;;
      gap <- psub loc next ;;
      m1 <- (if 0 <? gap then memmove (w_mem (s_w s)) next loc length else Ret (w_mem (s_w s))) ;;
      q <- padd m1 loc length ;;
      Ret (CbContinue,
           mkst (set_cur c (Some q)) (set_r_body r (Some body) ((bl + length) mod SZ cfg))
                (set_mem (s_w s) m1))
  end.

(** httpParserOnMessageCompleteCallback, l.981-996. *)
Definition onMessageComplete (s : cbst) : res (cbret * cbst) :=
  Ret (CbContinue, mkst (set_state (s_ctx s) HTTP_PARSING_COMPLETE) (s_resp s) (s_w s)).

(** The settings of l.1009-1016: which callback handles which event; [start] is the address of the
    data being parsed.  A data callback's [pLoc] is [start + off]. *)
Definition callback (cfg : config) (start : ptr) (ev : pevent) (s : cbst) : res (cbret * cbst) :=
  let at_ off := mkptr (pb start) (po start + off) in
  match ev with
  | EvMessageBegin => onMessageBegin s
  | EvStatus off len code => onStatus s (at_ off) len code
  | EvStatusComplete code => onStatusComplete s code
  | EvField off len => onHeaderField cfg s (at_ off) len
  | EvValue off len => onHeaderValue cfg s (at_ off) len
  | EvHeadersComplete _ clen close ka => onHeadersComplete cfg s clen close ka
  | EvBody off len => onBody cfg s (at_ off) len
  | EvMessageComplete => onMessageComplete s
  end.

(** Where the parser stands when it reports [ev] (llhttp's error_pos if the callback pauses it). *)
Definition ev_pos (ev : pevent) : Z :=
  match ev with
  | EvHeadersComplete pos _ _ _ => pos
  | EvStatus off len _ | EvField off len | EvValue off len | EvBody off len => off + len
  | _ => 0
  end.

(** llhttp_execute with the library's callbacks: the result is the errno, error_pos, the parser's
    state and what the callbacks did.  A callback returning HPE_PAUSED or HPE_USER ends the call with
    that errno; the library then never calls the parser again, so the state returned with it
    ([s0], the state before the call) is immaterial. *)
Fixpoint run_tree (cfg : config) (start : ptr) {S : Type} (s0 : S) (t : ptree S) (s : cbst)
  : res (errno * Z * S * cbst) :=
  match t with
  | PDone e s1 => Ret (e, 0, s1, s)
  | PEmit ev k =>
      ' (r, s1) <- callback cfg start ev (mkst (s_ctx s) (s_resp s) (log (s_w s) (TEvent ev))) ;;
      let s2 := mkst (s_ctx s1) (s_resp s1) (log (s_w s1) (TReply r)) in
      match r with
      | CbPause => Ret (HPE_PAUSED, ev_pos ev, s0, s2)
      | CbStop => Ret (HPE_USER, ev_pos ev, s0, s2)
      | _ => run_tree cfg start s0 (k r) s2
      end
  end.

(** ** initializeParsingContextForFirstResponse, l.1000-1037.  The context starts zeroed (l.2044). *)
Definition initializeParsingContextForFirstResponse (m : mem) (rh : reqHeaders) : res pctx :=
  _ <- assert_at (HTTP_MINIMUM_REQUEST_LINE_LENGTH <=? rh_len rh) 1005 ;;
  match rh_buf rh with
  | None => Ub UbNull
  | Some buf =>
      hd <- strncmp_eq m buf HTTP_METHOD_HEAD ;;
      Ret (mkctx HTTP_PARSING_NONE false hd None None 0 None 0)
  end.

(** ** processLlhttpError, l.1041-1157. *)
Definition processLlhttpError (e : errno) : status :=
  match e with
  | HPE_OK | HPE_PAUSED_UPGRADE => HTTPSuccess
  | HPE_INVALID_EOF_STATE => HTTPSuccess
  | HPE_CLOSED_CONNECTION => HTTPSecurityAlertExtraneousResponseData
  | HPE_INVALID_CHUNK_SIZE => HTTPSecurityAlertInvalidChunkHeader
  | HPE_INVALID_VERSION => HTTPSecurityAlertInvalidProtocolVersion
  | HPE_INVALID_STATUS => HTTPSecurityAlertInvalidStatusCode
  | HPE_STRICT | HPE_INVALID_CONSTANT => HTTPSecurityAlertInvalidCharacter
  | HPE_LF_EXPECTED => HTTPSecurityAlertInvalidCharacter
  | HPE_INVALID_HEADER_TOKEN => HTTPSecurityAlertInvalidCharacter
  | HPE_INVALID_CONTENT_LENGTH => HTTPSecurityAlertInvalidContentLength
  | HPE_UNEXPECTED_CONTENT_LENGTH => HTTPSecurityAlertInvalidContentLength
  | HPE_PAUSED => HTTPParserPaused
  | HPE_USER => HTTPParserInternalError
  | HPE_OTHER _ => HTTPParserInternalError
  end.

(** ** parseHttpResponse, l.1161-1234.  llhttp_resume_after_upgrade (l.1214) clears the errno, which
    [processLlhttpError] treats like HPE_PAUSED_UPGRADE. *)
Definition parseHttpResponse (cfg : config) (P : parser) (ps : PS P) (s : cbst) (parseLen : Z)
  : res (status * PS P * cbst) :=
  let c := s_ctx s in
  let r := s_resp s in
  let s1 :=
    if c_resp c then s
    else mkst (mkctx (c_state c) true (c_head c) (r_buf r) (c_lf c) (c_lfl c) (c_lv c) (c_lvl c))
              (set_r_flags (set_r_hcount (set_r_headers (set_r_body (set_r_status r 0) None 0) None 0) 0) 0)
              (s_w s) in
  match c_cur (s_ctx s1) with
  | None => Ub UbNull
  | Some start =>
      d <- loadn (w_mem (s_w s1)) start parseLen ;;
      ' (e, epos, ps', s2) <-
        run_tree cfg start ps (p_exec P ps d)
                 (mkst (s_ctx s1) (s_resp s1) (log (s_w s1) (TParse start d))) ;;
      cur' <- match e with
              | HPE_PAUSED => padd (w_mem (s_w s2)) start epos
              | _ => padd (w_mem (s_w s2)) start parseLen
              end ;;
      Ret (processLlhttpError e, ps',
           mkst (set_cur (s_ctx s2) (Some cur')) (s_resp s2) (log (s_w s2) (TParsed e)))
  end.

(** ** getFinalResponseStatus, l.1985-2033. *)
Definition getFinalResponseStatus (st : pstate) (total : Z) (r : response) : res status :=
  _ <- assert_at (total <=? r_bufLen r) 1993 ;;
  match st with
  | HTTP_PARSING_NONE => Ret HTTPNoResponse
  | HTTP_PARSING_INCOMPLETE =>
      if Z.land (r_opt r) HTTP_RESPONSE_DO_NOT_PARSE_BODY_FLAG =? 0
      then if total =? r_bufLen r then Ret HTTPInsufficientMemory else Ret HTTPPartialResponse
      else Ret HTTPSuccess
  | HTTP_PARSING_COMPLETE => Ret HTTPSuccess
  end.

Definition w_after_recv (w : world) (m : mem) (p : ptr) (room r : Z) (d : bytes) : world :=
  mkw m (w_ns w) (S (w_nr w)) (w_nt w) (w_tr w ++ [TRecv p room r d]).

(** ** The while loop of HTTPClient_ReceiveAndParseHttpResponse, l.2068-2140.  Result: status, bytes
    received, state. *)
Fixpoint recv_loop (fuel : nat) (cfg : config) (E : env) (P : parser) (retry : Z)
         (total last : Z) (ps : PS P) (s : cbst) : res (status * Z * cbst) :=
  match fuel with
  | O => More (s_w s)
  | S f =>
      let r := s_resp s in
      match r_buf r with
      | None => Ub UbNull
      | Some buf =>
          dst <- padd (w_mem (s_w s)) buf total ;;
          let room := (r_bufLen r - total) mod SZ cfg in
          let '(n, d) := e_recv E (w_nr (s_w s)) room in
          m1 <- storen (w_mem (s_w s)) dst d ;;     (* what the transport does to the buffer *)
          let s1 := mkst (s_ctx s) r (w_after_recv (s_w s) m1 dst room n d) in
          if n <? 0 then Ret (HTTPNetworkError, total, s1)
          else
            ' (t, w2) <- get_time E (r_time r) (s_w s1) ;;
            let s2 := mkst (s_ctx s1) r w2 in
            if 0 <? n then
              let total' := (total + n) mod SZ cfg in
              ' (st, ps', s3) <- parseHttpResponse cfg P ps s2 n ;;
              if is_success st
                 && (match c_state (s_ctx s3) with HTTP_PARSING_COMPLETE => false | _ => true end)
                 && (total' <? r_bufLen (s_resp s3))
              then recv_loop f cfg E P retry total' t ps' s3
              else Ret (st, total', s3)
            else if retry <=? u32 (t - last) then
              ' (st, ps', s3) <- parseHttpResponse cfg P ps s2 0 ;;
              Ret (st, total, s3)                   (* timeoutReached ends the loop *)
            else if (match c_state (s_ctx s2) with HTTP_PARSING_COMPLETE => false | _ => true end)
                    && (total <? r_bufLen r)
            then recv_loop f cfg E P retry total last ps s2
            else Ret (HTTPSuccess, total, s2)
      end
  end.

(** ** HTTPClient_ReceiveAndParseHttpResponse, l.2037-2167. *)
Definition ReceiveAndParseHttpResponse (fuel : nat) (cfg : config) (E : env) (P : parser)
           (tr : option transport) (pResponse : option response) (prh : option reqHeaders)
           (w : world) : res (status * option response * world) :=
  match tr with
  | None => AssertFail 2049
  | Some t =>
      _ <- assert_at (t_recv t) 2050 ;;
      match pResponse with
      | None => AssertFail 2051
      | Some r =>
          match prh with
          | None => AssertFail 2052
          | Some rh =>
              c <- initializeParsingContextForFirstResponse (w_mem w) rh ;;
              let retry := match r_time r with TZero => 0 | _ => RECV_TO cfg end in
              ' (t0, w1) <- get_time E (r_time r) w ;;
              ' (st, total, s) <- recv_loop fuel cfg E P retry 0 t0 (p_init P) (mkst c r w1) ;;
              let r1 := s_resp s in
              ' (st2, r2) <-
                (match st with
                 | HTTPParserPaused =>
                     if negb (Z.land (r_opt r1) HTTP_RESPONSE_DO_NOT_PARSE_BODY_FLAG =? 0)
                     then match c_cur (s_ctx s), r_buf r1 with
                          | Some cur, Some buf =>
                              d <- psub cur buf ;;
                              Ret (HTTPSuccess, set_r_body r1 (Some cur) ((total - d) mod SZ cfg))
                          | _, _ => Ub UbNull
                          end
                     else Ret (st, r1)
                 | _ => Ret (st, r1)
                 end) ;;
              if is_success st2
              then
                st3 <- getFinalResponseStatus (c_state (s_ctx s)) total r2 ;;
                Ret (st3, Some r2, s_w s)
              else Ret (st2, Some r2, s_w s)
          end
      end
  end.

(** ** HTTPClient_Send, l.2214-2313.  On HTTPInvalidParameter nothing is changed; the reqHeaders and
    response structures are returned as the function leaves them. *)
Definition Send (fuel : nat) (cfg : config) (E : env) (P : parser) (tr : option transport)
           (prh : option reqHeaders) (body : option ptr) (bodyLen : Z)
           (pResponse : option response) (sendFlags : Z) (w : world)
  : res (status * option reqHeaders * option response * world) :=
  let invalid := Ret (HTTPInvalidParameter, prh, pResponse, w) in
  match tr with
  | None => invalid
  | Some t =>
      if negb (t_send t) then invalid
      else if negb (t_recv t) then invalid
      else match prh with
      | None => invalid
      | Some rh =>
          if match rh_buf rh with None => true | _ => false end then invalid
          else if rh_len rh <? HTTP_MINIMUM_REQUEST_LINE_LENGTH then invalid
          else if rh_bufLen rh <? rh_len rh then invalid
          else match pResponse with
          | None => invalid
          | Some r =>
              if match r_buf r with None => true | _ => false end then invalid
              else if r_bufLen r =? 0 then invalid
              else if match body with None => 0 <? bodyLen | _ => false end then invalid
              else if INT32_MAX mod SZ cfg <? bodyLen then invalid   (* (size_t) INT32_MAX *)
              else
                let r1 := match r_time r with TNull => set_r_time r TZero | _ => r end in
                ' (st, prh1, w1) <-
                  sendHttpRequest fuel cfg E tr (r_time r1) prh body bodyLen sendFlags w ;;
                if is_success st
                then
                  ' (st2, pr2, w2) <-
                    ReceiveAndParseHttpResponse fuel cfg E P tr (Some r1) prh1 w1 ;;
                  Ret (st2, prh1, pr2, w2)
                else Ret (st, prh1, Some r1, w1)
          end
      end
  end.
