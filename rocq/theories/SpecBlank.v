(** SpecBlank.v — the vocabulary of C71: line ends before a response.  Nothing here refers to the library's code. *)
From Verif Require Import Base Lib ModelRequest ModelSend ModelResponse SpecRequest SpecSend SpecResponse SpecHttp SpecParser SpecCut SpecRaw.

(** Nothing but CR and LF. *)
Definition only_line_ends (d : bytes) : Prop := Forall (fun c => c = CR \/ c = LF) d.
(** A parser that skips line ends before a message and takes any other byte for the beginning of a message or for an error.  [d] is the
    last piece, or empty at the end of the data. *)
Definition skips_line_ends (P : parser) : Prop :=
  forall head ps d s v v' e s', handled head P ps s v -> reading head (p_exec P s d) (given v d) = (v', e, s') ->
  (v_msg v' = MsgNone /\ parse_error e = None <-> only_line_ends (concat ps ++ d)).

(** The same with HTTP_RESPONSE_DO_NOT_PARSE_BODY_FLAG. *)
(** [handled_raw P ps s v]: as [handled] (SpecCut.v), with the parser told to pause when it reports the end of the headers ([heading], SpecRaw.v). *)
Inductive handled_raw (P : parser) : list bytes -> PS P -> view -> Prop :=
| HRawNil : handled_raw P [] (p_init P) view0
| HRawMore ps d s v e s' v' : handled_raw P ps s v -> d <> [] -> heading s (p_exec P s d) (given v d) = (v', e, s') -> goes_on e = true ->
    handled_raw P (ps ++ [d]) s' v'.
(** As [skips_line_ends] (SpecBlank.v). *)
Definition skips_line_ends_raw (P : parser) : Prop :=
  forall ps d s v v' e s', handled_raw P ps s v -> heading s (p_exec P s d) (given v d) = (v', e, s') ->
  (v_msg v' = MsgNone /\ parse_error e = None <-> only_line_ends (concat ps ++ d)).
