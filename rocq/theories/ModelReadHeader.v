(** ModelReadHeader.v — HTTPClient_ReadHeader and HTTPClient_strerror
    (line numbers as in ModelRequest.v). *)
From Verif Require Import Base ModelRequest ModelSend ModelResponse.

(** ** caseInsensitiveStringCmp, l.529-563; the result is whether the C function returned 0.
    [char] values above 127 are compared unchanged whether char is signed or not. *)
Definition upper (c : Z) : Z := if (97 <=? c) && (c <=? 122) then c - 32 else c.
Fixpoint ci_loop (m : mem) (s1 : src) (p2 : ptr) (n : nat) (i : Z) : res bool :=
  match n with
  | O => Ret true
  | S n' =>
      a <- src_byte m s1 i ;;
      b <- load1 m (mkptr (pb p2) (po p2 + i)) ;;
      if upper a =? upper b then ci_loop m s1 p2 n' (i + 1) else Ret false
  end.
Definition caseInsensitiveStringCmp (m : mem) (s1 : src) (p2 : ptr) (n : Z) : res bool :=
  ci_loop m s1 p2 (Z.to_nat n) 0.

(** findHeaderContext_t, core_http_client_private.h l.222-230.  [f_out]: what was written to
    *pValueLoc and *pValueLen, if anything was. *)
Record fctx := mkfctx {
  f_field : src;  f_fieldLen : Z;
  f_fieldFound : bool;  f_valueFound : bool;
  f_out : option (option ptr * Z)
}.

(** findHeaderFieldParserCallback, l.2317-2355. *)
Definition findHeaderField (m : mem) (x : fctx) (loc : ptr) (len : Z) : res (cbret * fctx) :=
  _ <- assert_at (0 <? len) 2326 ;;
  _ <- assert_at (negb (is_null (f_field x))) 2330 ;;
  _ <- assert_at (0 <? f_fieldLen x) 2331 ;;
  _ <- assert_at (negb (f_fieldFound x)) 2334 ;;
  _ <- assert_at (negb (f_valueFound x)) 2335 ;;
  eq <- (if len =? f_fieldLen x then caseInsensitiveStringCmp m (f_field x) loc len else Ret false) ;;
  Ret (CbContinue,
       if eq then mkfctx (f_field x) (f_fieldLen x) true (f_valueFound x) (f_out x) else x).

(** findHeaderValueParserCallback, l.2359-2414. *)
Definition findHeaderValue (x : fctx) (loc : ptr) (len : Z) : res (cbret * fctx) :=
  _ <- assert_at (negb (is_null (f_field x))) 2372 ;;
  _ <- assert_at (0 <? f_fieldLen x) 2373 ;;
  _ <- assert_at (negb (f_valueFound x)) 2378 ;;
  if f_fieldFound x
  then Ret (CbStop,
            mkfctx (f_field x) (f_fieldLen x) true true
                   (Some (if 0 <? len then (Some loc, len) else (None, 0))))
  else Ret (CbContinue, x).

(** findHeaderOnHeaderCompleteCallback (l.2418-2446) only returns 1.  The other events have no
    callback registered (l.2472-2475). *)
Definition find_callback (m : mem) (start : ptr) (ev : pevent) (x : fctx) : res (cbret * fctx) :=
  let at_ off := mkptr (pb start) (po start + off) in
  match ev with
  | EvField off len => findHeaderField m x (at_ off) len
  | EvValue off len => findHeaderValue x (at_ off) len
  | EvHeadersComplete _ _ _ _ => Ret (CbNoBody, x)
  | _ => Ret (CbContinue, x)
  end.

Fixpoint find_tree (m : mem) (start : ptr) {S : Type} (t : ptree S) (x : fctx) : res (errno * fctx) :=
  match t with
  | PDone e _ => Ret (e, x)
  | PEmit ev k =>
      ' (r, x1) <- find_callback m start ev x ;;
      match r with
      | CbPause => Ret (HPE_PAUSED, x1)
      | CbStop => Ret (HPE_USER, x1)
      | _ => find_tree m start (k r) x1
      end
  end.

(** ** findHeaderInResponse, l.2450-2554. *)
Definition findHeaderInResponse (P : parser) (m : mem) (buf : ptr) (bufLen : Z)
           (field : src) (fieldLen : Z) : res (status * option (option ptr * Z)) :=
  d <- loadn m buf bufLen ;;
  ' (e, x) <- find_tree m buf (p_exec P (p_init P) d) (mkfctx field fieldLen false false None) ;;
  st <- (if negb (f_fieldFound x)
         then _ <- assert_at (negb (f_valueFound x)) 2488 ;; Ret HTTPHeaderNotFound
         else if negb (f_valueFound x) then Ret HTTPInvalidResponse
         else Ret HTTPSuccess) ;;
  let st2 :=
    match st, e with
    | HTTPSuccess, HPE_USER => HTTPSuccess
    | HTTPSuccess, _ => HTTPParserInternalError
    | HTTPHeaderNotFound, HPE_OK => HTTPHeaderNotFound
    | HTTPHeaderNotFound, _ => HTTPInvalidResponse
    | _, _ => st
    end in
  Ret (st2, f_out x).

(** ** HTTPClient_ReadHeader, l.2558-2619.  [locOk], [lenOk]: the two output pointers are non-NULL. *)
Definition ReadHeader (P : parser) (m : mem) (pResponse : option response) (field : src)
           (fieldLen : Z) (locOk lenOk : bool) : res (status * option (option ptr * Z)) :=
  let invalid := Ret (HTTPInvalidParameter, None) in
  match pResponse with
  | None => invalid
  | Some r =>
      match r_buf r with
      | None => invalid
      | Some buf =>
          if r_bufLen r =? 0 then invalid
          else if is_null field then invalid
          else if fieldLen =? 0 then invalid
          else if negb locOk then invalid
          else if negb lenOk then invalid
          else findHeaderInResponse P m buf (r_bufLen r) field fieldLen
      end
  end.

(** ** HTTPStatus_t values (core_http_client.h l.191-351) and HTTPClient_strerror, l.2623-2700. *)
Definition status_code (s : status) : Z :=
  match s with
  | HTTPSuccess => 0 | HTTPInvalidParameter => 1 | HTTPNetworkError => 2 | HTTPPartialResponse => 3
  | HTTPNoResponse => 4 | HTTPInsufficientMemory => 5
  | HTTPSecurityAlertExtraneousResponseData => 6 | HTTPSecurityAlertInvalidChunkHeader => 7
  | HTTPSecurityAlertInvalidProtocolVersion => 8 | HTTPSecurityAlertInvalidStatusCode => 9
  | HTTPSecurityAlertInvalidCharacter => 10 | HTTPSecurityAlertInvalidContentLength => 11
  | HTTPParserPaused => 12 | HTTPParserInternalError => 13 | HTTPHeaderNotFound => 14
  | HTTPInvalidResponse => 15
  end.

Definition strerror (v : Z) : option bytes :=
  match v with
  | 0 => Some (B "HTTPSuccess")
  | 1 => Some (B "HTTPInvalidParameter")
  | 2 => Some (B "HTTPNetworkError")
  | 3 => Some (B "HTTPPartialResponse")
  | 4 => Some (B "HTTPNoResponse")
  | 5 => Some (B "HTTPInsufficientMemory")
  | 6 => Some (B "HTTPSecurityAlertExtraneousResponseData")
  | 7 => Some (B "HTTPSecurityAlertInvalidChunkHeader")
  | 8 => Some (B "HTTPSecurityAlertInvalidProtocolVersion")
  | 9 => Some (B "HTTPSecurityAlertInvalidStatusCode")
  | 10 => Some (B "HTTPSecurityAlertInvalidCharacter")
  | 11 => Some (B "HTTPSecurityAlertInvalidContentLength")
  | 12 => Some (B "HTTPParserPaused")
  | 13 => Some (B "HTTPParserInternalError")
  | 14 => Some (B "HTTPHeaderNotFound")
  | 15 => Some (B "HTTPInvalidResponse")
  | _ => None
  end.
