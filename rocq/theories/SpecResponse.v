(** SpecResponse.v — what the receiving properties say: the contracts of the transport and of the
    third-party parser, and what a log of parser events means, independently of the library's code. *)
From Verif Require Import Base Lib ModelRequest ModelSend ModelResponse SpecRequest SpecSend.

(** ** The transport contract for recv (transport_interface.h l.200-238): it returns at most the number
    of bytes it was offered room for, and stores at most that many. *)
Definition recv_contract (E : env) : Prop :=
  forall i k, 0 < k -> fst (e_recv E i k) <= k /\ zlen (snd (e_recv E i k)) <= k.
(** It stores exactly the bytes it reports. *)
Definition recv_faithful (E : env) : Prop :=
  forall i k, 0 < fst (e_recv E i k) -> zlen (snd (e_recv E i k)) = fst (e_recv E i k).

(** ** The parser contract: the callback diagram of core_http_client_private.h l.233-290, extended with
    what llhttp does beyond it: pieces, several messages, trailers. *)
Inductive phase :=
| PhIdle                  (* between messages *)
| PhStatus                (* in the status line *)
| PhHdr                   (* before the first header *)
| PhField (named : bool)  (* in a header name; [named]: not empty so far *)
| PhValue                 (* in a header value *)
| PhBody (skip : bool)    (* after the headers; [skip]: the parser was told there is no body *)
| PhTField (named : bool) (* the same in the trailer section of a chunked body *)
| PhTValue.

Definition next_phase (ph : phase) (ev : pevent) (reply : cbret) : option phase :=
  match ph, ev with
  | PhIdle, EvMessageBegin => Some PhStatus
  | PhStatus, EvStatus _ _ _ => Some PhStatus
  | PhStatus, EvStatusComplete _ => Some PhHdr
  | PhHdr, EvField _ len | PhValue, EvField _ len => Some (PhField (0 <? len))
  | PhField b, EvField _ len => Some (PhField (b || (0 <? len)))
  | PhField true, EvValue _ _ | PhValue, EvValue _ _ => Some PhValue
  | PhHdr, EvHeadersComplete _ _ _ _ | PhValue, EvHeadersComplete _ _ _ _ =>
      Some (PhBody (match reply with CbNoBody => true | _ => false end))
  | PhBody false, EvBody _ _ => Some (PhBody false)
  | PhBody false, EvField _ len | PhTValue, EvField _ len => Some (PhTField (0 <? len))
  | PhTField b, EvField _ len => Some (PhTField (b || (0 <? len)))
  | PhTField true, EvValue _ _ | PhTValue, EvValue _ _ => Some PhTValue
  | PhBody _, EvMessageComplete | PhTValue, EvMessageComplete => Some PhIdle
  | _, _ => None
  end.

(** In a call on [n] bytes, standing at [pos], the parser may report [ev]: pieces lie in the data, in
    increasing order; numbers are in the range of the llhttp_t fields. *)
Definition ev_ok (pos n : Z) (ev : pevent) : Prop :=
  match ev with
  | EvStatus off len code => pos <= off /\ 0 <= len /\ off + len <= n /\ 0 <= code < 65536
  | EvStatusComplete code => 0 <= code < 65536
  | EvField off len | EvValue off len => pos <= off /\ 0 <= len /\ off + len <= n
  | EvBody off len => pos <= off /\ 0 <= len /\ off + len <= n /\ (off < n \/ n = 0)
  | EvHeadersComplete p clen _ _ => pos < p <= n /\ 0 <= clen <= UINT64_MAX
  | _ => True
  end.
Definition ev_end (pos : Z) (ev : pevent) : Z :=
  match ev with
  | EvStatus off len _ | EvField off len | EvValue off len | EvBody off len => off + len
  | EvHeadersComplete p _ _ _ => p
  | _ => pos
  end.

(** llhttp errnos that do not stop parsing. *)
Definition goes_on (e : errno) : bool :=
  match e with HPE_OK | HPE_PAUSED_UPGRADE | HPE_INVALID_EOF_STATE => true | _ => false end.

(** One llhttp_execute call on [n] bytes, begun in phase [ph], keeps to the diagram whatever the
    callbacks reply; it reports HPE_PAUSED only when a callback asked for it.  [R s ph]: the parser state
    [s] may be in phase [ph]. *)
Fixpoint conforms {S : Type} (R : S -> phase -> Prop) (n : Z) (ph : phase) (pos : Z) (t : ptree S) : Prop :=
  match t with
  | PDone e s' => e <> HPE_PAUSED /\ (goes_on e = true -> R s' ph)
  | PEmit ev k =>
      ev_ok pos n ev /\
      forall r, r = CbContinue \/ r = CbNoBody ->
        exists ph', next_phase ph ev r = Some ph' /\ conforms R n ph' (ev_end pos ev) (k r)
  end.
Definition parser_ok (P : parser) : Prop :=
  exists R : PS P -> phase -> Prop,
    R (p_init P) PhIdle /\
    forall s ph d, R s ph -> conforms R (zlen d) ph 0 (p_exec P s d).

(** ** What a log of parser calls and events says about the response *)
Inductive msg := MsgNone | MsgBegun | MsgComplete.
(** Where in the data a header is: where the first piece of its name begins, the length of the name; the same of its
    value; its status code. *)
Definition hloc : Type := (Z * Z) * (Z * Z) * Z.
Record view := mkview {
  v_stream : bytes;                       (* all data given to the parser so far *)
  v_start : Z;                            (* where in it the data of the current call begin *)
  v_msg : msg;                            (* no message begun; in a message; the last one complete *)
  v_code : Z;                             (* status code, 0 if none yet *)
  v_name : option bytes;                  (* name and value of the header being read *)
  v_value : option bytes;
  v_headers : list (bytes * bytes * Z);   (* finished headers: name, value, status code *)
  v_hstart : option Z;                    (* where the first header name begins *)
  v_hend : option (Z * Z);                (* once the headers are complete: the distance from the first header
                                             name to the larger of the end of the last piece and the begin of the
                                             call's data (0 without headers); where the header section ends *)
  v_h1 : option Z;                        (* where the header section of the first message ends *)
  v_clen : Z;  v_close : bool;  v_ka : bool;    (* Content-Length and connection flags *)
  v_bstart : option Z;                    (* where the first body piece begins *)
  v_body : bytes;                         (* concatenation of the body pieces *)
  v_last : Z;                             (* end of the last piece of any kind *)
  v_next : Z;                             (* end of the last piece of the header being read *)
  v_adj : bool;                           (* every further piece of a name or of a value began where the
                                             previous piece of it ended *)
  v_n0 : Z;  v_x0 : Z;                    (* where the name and the value of the header being read begin *)
  v_locs : list hloc                      (* where finished headers are *)
}.
Definition view0 : view :=
  mkview [] 0 MsgNone 0 None None [] None None None 0 false false None [] 0 0 true 0 0 [].

Definition or_nil (o : option bytes) : bytes := match o with Some d => d | None => [] end.
Definition or_new (o : option Z) (x : Z) : option Z := match o with None => Some x | _ => o end.
Definition piece (v : view) (off len : Z) : bytes := slice (v_stream v) (v_start v + off) len.

(** The header being read, if it has a value, is finished. *)
Definition finish (v : view) : view :=
  match v_name v, v_value v with
  | Some n, Some x =>
      mkview (v_stream v) (v_start v) (v_msg v) (v_code v) (None) (None) (v_headers v ++ [(n, x,
             v_code v)]) (v_hstart v) (v_hend v) (v_h1 v) (v_clen v) (v_close v) (v_ka v) (v_bstart
             v) (v_body v) (v_last v) (v_next v) (v_adj v) (v_n0 v) (v_x0 v) (v_locs v ++
             [((v_n0 v, zlen n), (v_x0 v, zlen x), v_code v)])
  | _, _ => v
  end.

Definition view_event (v : view) (ev : pevent) : view :=
  match ev with
  | EvMessageBegin =>
      mkview (v_stream v) (v_start v) (MsgBegun) (v_code v) (v_name v) (v_value v) (v_headers v)
             (v_hstart v) (v_hend v) (v_h1 v) (v_clen v) (v_close v) (v_ka v) (v_bstart v) (v_body
             v) (v_last v) (v_next v) (v_adj v) (v_n0 v) (v_x0 v) (v_locs v)
  | EvStatus off len code =>
      mkview (v_stream v) (v_start v) (v_msg v) (code) (None) (None) (v_headers v) (v_hstart v)
             (v_hend v) (v_h1 v) (v_clen v) (v_close v) (v_ka v) (v_bstart v) (v_body v) (v_start v
             + off + len) (v_next v) (v_adj v) (v_n0 v) (v_x0 v) (v_locs v)
  | EvStatusComplete code =>
      mkview (v_stream v) (v_start v) (v_msg v) (code) (None) (None) (v_headers v) (v_hstart v)
             (v_hend v) (v_h1 v) (v_clen v) (v_close v) (v_ka v) (v_bstart v) (v_body v) (v_last v)
             (v_next v) (v_adj v) (v_n0 v) (v_x0 v) (v_locs v)
  | EvField off len =>
      let v := finish v in
      mkview (v_stream v) (v_start v) (v_msg v) (v_code v) (Some (or_nil (v_name v) ++ piece v off
             len)) (v_value v) (v_headers v) (or_new (v_hstart v) (v_start v + off)) (v_hend v)
             (v_h1 v) (v_clen v) (v_close v) (v_ka v) (v_bstart v) (v_body v) (v_start v + off +
             len) (v_start v + off + len) (v_adj v && match v_name v with None => true | Some _ =>
             v_next v =? v_start v + off end) (match v_name v with None => v_start v + off | Some _ => v_n0 v end)
             (v_x0 v) (v_locs v)
  | EvValue off len =>
      mkview (v_stream v) (v_start v) (v_msg v) (v_code v) (v_name v) (Some (or_nil (v_value v) ++
             piece v off len)) (v_headers v) (v_hstart v) (v_hend v) (v_h1 v) (v_clen v) (v_close v)
             (v_ka v) (v_bstart v) (v_body v) (v_start v + off + len) (v_start v + off + len) (v_adj
             v && match v_value v with None => true | Some _ => v_next v =? v_start v + off end) (v_n0 v)
             (match v_value v with None => v_start v + off | Some _ => v_x0 v end) (v_locs v)
  | EvHeadersComplete p clen close ka =>
      let v := finish v in
      mkview (v_stream v) (v_start v) (v_msg v) (v_code v) (v_name v) (v_value v) (v_headers v)
             (v_hstart v) (Some (match v_hstart v with Some h => Z.max (v_last v) (v_start v) - h |
             None => 0 end, v_start v + p)) (or_new (v_h1 v) (v_start v + p)) (clen) (v_close v ||
             close) (v_ka v || ka) (v_bstart v) (v_body v) (v_last v) (v_next v) (v_adj v) (v_n0 v) (v_x0 v) (v_locs v)
  | EvBody off len =>
      mkview (v_stream v) (v_start v) (v_msg v) (v_code v) (v_name v) (v_value v) (v_headers v)
             (v_hstart v) (v_hend v) (v_h1 v) (v_clen v) (v_close v) (v_ka v) (or_new (v_bstart v)
             (v_start v + off)) (v_body v ++ piece v off len) (v_start v + off + len) (v_next v)
             (v_adj v) (v_n0 v) (v_x0 v) (v_locs v)
  | EvMessageComplete =>
      mkview (v_stream v) (v_start v) (MsgComplete) (v_code v) (v_name v) (v_value v) (v_headers v)
             (v_hstart v) (v_hend v) (v_h1 v) (v_clen v) (v_close v) (v_ka v) (v_bstart v) (v_body
             v) (v_last v) (v_next v) (v_adj v) (v_n0 v) (v_x0 v) (v_locs v)
  end.
Definition view_step (v : view) (e : tev) : view :=
  match e with
  | TParse _ d =>
      mkview (v_stream v ++ d) (zlen (v_stream v)) (v_msg v) (v_code v) (v_name v) (v_value v)
             (v_headers v) (v_hstart v) (v_hend v) (v_h1 v) (v_clen v) (v_close v) (v_ka v)
             (v_bstart v) (v_body v) (v_last v) (v_next v) (v_adj v) (v_n0 v) (v_x0 v) (v_locs v)
  | TEvent ev => view_event v ev
  | _ => v
  end.
Definition view_of (tr : list tev) : view := fold_left view_step tr view0.

(** The bytes of the data at such a place. *)
Definition text_at (data : bytes) (h : hloc) : bytes * bytes * Z := let '((n, nl), (x, xl), c) := h in (slice data n nl, slice data x xl, c).
(** What the application's header callback was given. *)
Fixpoint delivered (tr : list tev) : list (bytes * bytes * Z) :=
  match tr with
  | [] => []
  | THeader _ _ _ _ f v c :: tr' => (f, v, c) :: delivered tr'
  | _ :: tr' => delivered tr'
  end.
(** The arguments of the header callback: where the name is and how long, where the value is and how long. *)
Fixpoint handed (tr : list tev) : list (ptr * Z * (ptr * Z)) :=
  match tr with
  | [] => []
  | THeader f fl x xl _ _ _ :: tr' => ((f, fl), (x, xl)) :: handed tr'
  | _ :: tr' => handed tr'
  end.
(** What the callback is to be given for a header that lies at [h] of the data, which begin at [buf]. *)
Definition place (buf : ptr) (h : hloc) : ptr * Z * (ptr * Z) :=
  let '((n0, nl), (x0, xl), _) := h in ((poff buf n0, nl), (poff buf x0, xl)).

(** ** A call to HTTPClient_ReceiveAndParseHttpResponse with valid arguments: the response buffer is the
    [L] bytes at [buf]; the request that was sent is [req]. *)
Definition recv_setup (cfg : config) (E : env) (P : parser) (t : transport) (r : response) (rh : reqHeaders)
           (buf : ptr) (L : Z) (req : bytes) (w : world) : Prop :=
  t_recv t = true /\ recv_contract E /\ parser_ok P /\ r_time r <> TNull /\
  r_buf r = Some buf /\ r_bufLen r = L /\ object (w_mem w) buf L /\ 0 < L < SZ cfg /\
  (exists rb n, holds (w_mem w) rh rb n req) /\ 16 <= zlen req.

(** HTTP_RECV_RETRY_TIMEOUT_MS, or no retries at all without a clock. *)
Definition recv_timeout (cfg : config) (tf : timefn) : Z := match tf with TUser => RECV_TO cfg | _ => 0 end.

(** ** The log of transport and clock *)
(** Bytes received so far; number of recv calls. *)
Fixpoint received (tr : list tev) : Z :=
  match tr with
  | [] => 0
  | TRecv _ _ n _ :: tr' => Z.max n 0 + received tr'
  | _ :: tr' => received tr'
  end.
Fixpoint recvs (tr : list tev) : Z :=
  match tr with [] => 0 | TRecv _ _ _ _ :: tr' => 1 + recvs tr' | _ :: tr' => recvs tr' end.
(** The data received so far, for a transport that stores exactly the bytes it reports. *)
Fixpoint data_received (tr : list tev) : bytes :=
  match tr with
  | [] => []
  | TRecv _ _ n d :: tr' => (if 0 <? n then d else []) ++ data_received tr'
  | _ :: tr' => data_received tr'
  end.
(** Every recv is offered exactly the unused rest of the buffer, which is never empty. *)
Definition offers_tail (buf : ptr) (L : Z) (tr : list tev) : Prop :=
  forall tr1 p room n d tr2, tr = tr1 ++ TRecv p room n d :: tr2 ->
    p = poff buf (received tr1) /\ room = L - received tr1 /\ 0 < room /\ n <= room.

(** The clock reading at the last progress: the start, or just after a recv that returned data. *)
Fixpoint data_time (last : Z) (tr : list tev) : Z :=
  match tr with
  | [] => last
  | TRecv _ _ n _ :: tr' =>
      match tr' with
      | TTime t :: _ => data_time (if 0 <? n then t else last) tr'
      | _ => data_time last tr'
      end
  | _ :: tr' => data_time last tr'
  end.

(** One call of the parser on the data [b]: no call to the transport or the clock inside. *)
Definition parser_call (b : bytes) (e : errno) (tr : list tev) : Prop :=
  exists p evs, tr = TParse p b :: evs ++ [TParsed e] /\
    Forall (fun x => match x with TEvent _ | TReply _ | THeader _ _ _ _ _ _ _ => True | _ => False end) evs.

(** ** Statuses *)
(** The status documented for each error of the parser; [None]: not an error. *)
Definition parse_error (e : errno) : option status :=
  match e with
  | HPE_OK | HPE_PAUSED_UPGRADE | HPE_INVALID_EOF_STATE | HPE_PAUSED => None
  | HPE_CLOSED_CONNECTION => Some HTTPSecurityAlertExtraneousResponseData
  | HPE_INVALID_CHUNK_SIZE => Some HTTPSecurityAlertInvalidChunkHeader
  | HPE_INVALID_VERSION => Some HTTPSecurityAlertInvalidProtocolVersion
  | HPE_INVALID_STATUS => Some HTTPSecurityAlertInvalidStatusCode
  | HPE_STRICT | HPE_INVALID_CONSTANT | HPE_LF_EXPECTED | HPE_INVALID_HEADER_TOKEN =>
      Some HTTPSecurityAlertInvalidCharacter
  | HPE_INVALID_CONTENT_LENGTH | HPE_UNEXPECTED_CONTENT_LENGTH => Some HTTPSecurityAlertInvalidContentLength
  | HPE_USER | HPE_OTHER _ => Some HTTPParserInternalError
  end.
(** The exchange ended with a failed recv; with a parser call that returned [e]. *)
Definition recv_failed (tr : list tev) : Prop :=
  exists tr1 p room n d, tr = tr1 ++ [TRecv p room n d] /\ n < 0.
Definition ended_with (tr : list tev) (e : errno) : Prop := exists tr1, tr = tr1 ++ [TParsed e].
(** HTTP_RESPONSE_DO_NOT_PARSE_BODY_FLAG is set. *)
Definition no_parse_body (r : response) : bool := Z.testbit (r_opt r) 0.

(** ** A completed call: its status, the response structure and the world it leaves; [tr]: its log. *)
Definition receives (fuel : nat) (cfg : config) (E : env) (P : parser) (t : transport) (r : response) (rh : reqHeaders)
           (w : world) (st : status) (r' : response) (w' : world) (tr : list tev) : Prop :=
  ReceiveAndParseHttpResponse fuel cfg E P (Some t) (Some r) (Some rh) w = Ret (st, Some r', w') /\
  w_tr w' = w_tr w ++ tr.
(** The parser was called: the first recv did not fail. *)
Definition answered (st : status) (tr : list tev) : Prop := st <> HTTPNetworkError \/ 0 < received tr.
(** The parser returned from its last call, and not with an error. *)
Definition no_error (tr : list tev) : Prop := exists e, ended_with tr e /\ parse_error e = None.
(** The last recv of the call returned [n]. *)
Definition last_recv (tr : list tev) (n : Z) : Prop :=
  exists tr1 p room d tr2, tr = tr1 ++ TRecv p room n d :: tr2 /\ recvs tr2 = 0.
(** The log of header callbacks between two other entries of the log. *)
Definition only_headers (tr : list tev) : Prop :=
  Forall (fun x => match x with THeader _ _ _ _ _ _ _ => True | _ => False end) tr.
(** [b] lies in the [L] bytes at [buf]. *)
Definition inside (buf : ptr) (L : Z) (p : ptr) (n : Z) : Prop := exists a, p = poff buf a /\ 0 <= a /\ 0 <= n /\ a + n <= L.
(** The bits the library reports in respFlags. *)
Definition conn_flags (close ka : bool) : Z := (if close then 1 else 0) + (if ka then 2 else 0).
(** A header, without the bytes: length of its name, length of its value, status code. *)
Definition sizes (h : bytes * bytes * Z) : Z * Z * Z := let '(n, x, c) := h in (zlen n, zlen x, c).
(** The fields the application sets, unchanged. *)
Definition same_inputs (r r' : response) : Prop :=
  r_buf r' = r_buf r /\ r_bufLen r' = r_bufLen r /\ r_cb r' = r_cb r /\ r_time r' = r_time r /\ r_opt r' = r_opt r.
(** The fields the library reports about the status line and the headers, given what the parser reported. *)
Definition describes (buf : ptr) (v : view) (r' : response) : Prop :=
  r_status r' = v_code v /\
  r_hcount r' = zlen (v_headers v) /\
  r_flags r' = conn_flags (v_close v) (v_ka v) /\
  r_headers r' = option_map (poff buf) (v_hstart v) /\
  r_headersLen r' = match v_hend v with Some (hl, _) => hl | None => 0 end.
