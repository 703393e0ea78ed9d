(** SpecReadHeader.v — what the properties of HTTPClient_ReadHeader and HTTPClient_strerror say. *)
From Verif Require Import Base Lib ModelRequest ModelSend ModelResponse SpecRequest SpecSend SpecResponse.

(** ASCII case folding: a-z become A-Z, every other byte is left alone. *)
Definition fold_case (c : Z) : Z := if (97 <=? c) && (c <=? 122) then c - 32 else c.
Definition same_name (a b : bytes) : Prop := map fold_case a = map fold_case b.

(** Everything the parser reports in one call, and how the call ends, when every callback lets it go on and the
    end of the headers is answered "no body". *)
Fixpoint reports {S : Type} (t : ptree S) : list pevent * errno :=
  match t with
  | PDone e _ => ([], e)
  | PEmit ev k =>
      let '(evs, e) := reports (k (match ev with EvHeadersComplete _ _ _ _ => CbNoBody | _ => CbContinue end)) in
      (ev :: evs, e)
  end.
(** In one call on a whole response the parser reports every header name in one piece, not empty, and then the
    value, if the data do not end before. *)
Definition whole_names (P : parser) : Prop :=
  forall d a o l b, fst (reports (p_exec P (p_init P) d)) = a ++ EvField o l :: b ->
    0 < l /\ (b = [] \/ exists vo vl b', b = EvValue vo vl :: b').

(** No name among these events is [name]. *)
Definition no_such (d name : bytes) (evs : list pevent) : Prop :=
  forall o l, In (EvField o l) evs -> ~ same_name name (slice d o l).
(** What is written to *pValueLoc and *pValueLen for a value of [vl] bytes at [vo]. *)
Definition value_at (buf : ptr) (vo vl : Z) : option ptr * Z := if 0 <? vl then (Some (poff buf vo), vl) else (None, 0).

(** The documented reasons for HTTPInvalidParameter (core_http_client.h l.963-995). *)
Definition read_invalid (pr : option response) (field : src) (fieldLen : Z) (locOk lenOk : bool) : Prop :=
  pr = None \/ (exists r, pr = Some r /\ (r_buf r = None \/ r_bufLen r = 0)) \/ field = SNull \/ fieldLen = 0 \/
  locOk = false \/ lenOk = false.
(** The names of the statuses, as the enumeration lists them (core_http_client.h l.195-351). *)
Definition status_names : list (status * bytes) :=
  [(HTTPSuccess, B "HTTPSuccess"); (HTTPInvalidParameter, B "HTTPInvalidParameter"); (HTTPNetworkError, B "HTTPNetworkError");
   (HTTPPartialResponse, B "HTTPPartialResponse"); (HTTPNoResponse, B "HTTPNoResponse");
   (HTTPInsufficientMemory, B "HTTPInsufficientMemory");
   (HTTPSecurityAlertExtraneousResponseData, B "HTTPSecurityAlertExtraneousResponseData");
   (HTTPSecurityAlertInvalidChunkHeader, B "HTTPSecurityAlertInvalidChunkHeader");
   (HTTPSecurityAlertInvalidProtocolVersion, B "HTTPSecurityAlertInvalidProtocolVersion");
   (HTTPSecurityAlertInvalidStatusCode, B "HTTPSecurityAlertInvalidStatusCode");
   (HTTPSecurityAlertInvalidCharacter, B "HTTPSecurityAlertInvalidCharacter");
   (HTTPSecurityAlertInvalidContentLength, B "HTTPSecurityAlertInvalidContentLength");
   (HTTPParserPaused, B "HTTPParserPaused"); (HTTPParserInternalError, B "HTTPParserInternalError");
   (HTTPHeaderNotFound, B "HTTPHeaderNotFound"); (HTTPInvalidResponse, B "HTTPInvalidResponse")].
