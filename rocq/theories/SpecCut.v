(** SpecCut.v — the vocabulary of C67: what a call returns does not depend on how the data are cut into pieces.  Nothing here
    refers to the library's code. *)
From Verif Require Import Base Lib ModelRequest ModelSend ModelResponse SpecRequest SpecSend SpecResponse SpecHttp SpecParser.

(** ** Two reports about the same data *)
(** Everything is the same, except where the cuts are. *)
Record same_report (v1 v2 : view) : Prop := mksr {
  sr_msg : v_msg v1 = v_msg v2;
  sr_code : v_code v1 = v_code v2;
  sr_name : v_name v1 = v_name v2;
  sr_value : v_value v1 = v_value v2;
  sr_headers : v_headers v1 = v_headers v2;
  sr_hstart : v_hstart v1 = v_hstart v2;
  sr_hend : option_map snd (v_hend v1) = option_map snd (v_hend v2);
  sr_h1 : v_h1 v1 = v_h1 v2;
  sr_clen : v_clen v1 = v_clen v2;
  sr_close : v_close v1 = v_close v2;
  sr_ka : v_ka v1 = v_ka v2;
  sr_bstart : v_bstart v1 = v_bstart v2;
  sr_body : v_body v1 = v_body v2;
  sr_n0 : v_n0 v1 = v_n0 v2;
  sr_x0 : v_x0 v1 = v_x0 v2;
  sr_locs : v_locs v1 = v_locs v2
}.
(** The same, except that in one of them the name in which an error was found was not reported. *)
Record same_so_far (v1 v2 : view) : Prop := mkso {
  so_msg : v_msg v1 = v_msg v2;
  so_code : v_code v1 = v_code v2;
  so_headers : v_headers (finish v1) = v_headers (finish v2);
  so_hend : option_map snd (v_hend v1) = option_map snd (v_hend v2);
  so_h1 : v_h1 v1 = v_h1 v2;
  so_clen : v_clen v1 = v_clen v2;
  so_close : v_close v1 = v_close v2;
  so_ka : v_ka v1 = v_ka v2;
  so_bstart : v_bstart v1 = v_bstart v2;
  so_body : v_body v1 = v_body v2;
  so_locs : v_locs (finish v1) = v_locs (finish v2)
}.

(** ** Parsers *)
(** [handled head P ps s v]: the parser [P], fed with the non-empty pieces [ps] of any data, one per call, has found no error, is now in
    state [s] and has reported [v]. *)
Inductive handled (head : bool) (P : parser) : list bytes -> PS P -> view -> Prop :=
| HandledNil : handled head P [] (p_init P) view0
| HandledMore ps d s v e s' v' : handled head P ps s v -> d <> [] -> reading head (p_exec P s d) (given v d) = (v', e, s') -> goes_on e = true ->
    handled head P (ps ++ [d]) s' v'.
(** A parser whose answer to any data (also to data that are not HTTP) does not depend on how they were cut: the errno is the same
    and the reports are.  [d1] and [d2] are the last pieces, or both empty (the end of the data). *)
Definition cut_free (P : parser) : Prop :=
  forall head ps1 d1 s1 v1 v1' e1 s1' ps2 d2 s2 v2 v2' e2 s2',
  handled head P ps1 s1 v1 -> handled head P ps2 s2 v2 -> concat ps1 ++ d1 = concat ps2 ++ d2 -> (d1 = [] <-> d2 = []) ->
  reading head (p_exec P s1 d1) (given v1 d1) = (v1', e1, s1') -> reading head (p_exec P s2 d2) (given v2 d2) = (v2', e2, s2') ->
  e1 = e2 /\ same_so_far v1' v2' /\ (goes_on e1 = true -> same_report v1' v2').

(** ** Two calls *)
(** The status is one of those that say that the data are not HTTP. *)
Definition rejected (st : status) : Prop :=
  In st [HTTPSecurityAlertExtraneousResponseData; HTTPSecurityAlertInvalidChunkHeader; HTTPSecurityAlertInvalidProtocolVersion;
         HTTPSecurityAlertInvalidStatusCode; HTTPSecurityAlertInvalidCharacter; HTTPSecurityAlertInvalidContentLength; HTTPParserInternalError].
(** What two calls returned: response structures [r1'], [r2'] in the memories [m1], [m2]; [r1], [r2]: the structures before,
    [buf1], [buf2]: the buffers. *)
Record same_response (r1 r1' : response) (buf1 : ptr) (m1 : mem) (r2 r2' : response) (buf2 : ptr) (m2 : mem) : Prop := mksame {
  sm_code : r_status r1' = r_status r2';
  sm_flags : r_flags r1' = r_flags r2';
  sm_done : r_hdone r1 = r_hdone r2 -> r_hdone r1' = r_hdone r2';
  sm_clen : r_clen r1 = r_clen r2 -> r_clen r1' = r_clen r2';
  sm_bodyLen : r_bodyLen r1' = r_bodyLen r2';
  sm_body : (r_body r1' = None /\ r_body r2' = None) \/
            exists o, r_body r1' = Some (poff buf1 o) /\ r_body r2' = Some (poff buf2 o) /\
                      bytes_at m1 (poff buf1 o) (r_bodyLen r1') = bytes_at m2 (poff buf2 o) (r_bodyLen r2')
}.
(** Lists that are equal, but that one of them may have one more element at its end. *)
Definition nearly {A} (a b : list A) : Prop := a = b \/ (exists h, a = b ++ [h]) \/ exists h, b = a ++ [h].
(** The same headers: their number, where they begin, and what the header callback was given; [tr1], [tr2]: the logs. *)
Record same_headers (r1 r1' : response) (buf1 : ptr) (tr1 : list tev) (r2 r2' : response) (buf2 : ptr) (tr2 : list tev) : Prop := mksameh {
  sh_count : r_hcount r1' = r_hcount r2';
  sh_start : (r_headers r1' = None /\ r_headers r2' = None) \/
             exists o, r_headers r1' = Some (poff buf1 o) /\ r_headers r2' = Some (poff buf2 o);
  sh_given : r_cb r1 = true -> r_cb r2 = true -> delivered tr1 = delivered tr2
}.
