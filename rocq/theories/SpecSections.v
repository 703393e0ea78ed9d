(** SpecSections.v — the vocabulary of C72: what a parser reports of a buffer that begins with a header section, in one call in which it is
    told that no body follows.  Nothing here refers to the library's code. *)
From Verif Require Import Base Lib ModelRequest ModelSend ModelResponse SpecRequest SpecSend SpecResponse SpecHttp SpecReadHeader.

(** The names and values among the reports, and where they lie. *)
Definition of_header (ev : pevent) : bool := match ev with EvField _ _ | EvValue _ _ => true | _ => false end.
Definition header_events (evs : list pevent) : list pevent := filter of_header evs.
(** The same report of a text that begins [k] bytes further on. *)
Definition further (k : Z) (ev : pevent) : pevent :=
  match ev with EvField o l => EvField (o + k) l | EvValue o l => EvValue (o + k) l | _ => ev end.
(** The names and values of the header lines [hs] that begin at [pos]. *)
Fixpoint line_events (pos : Z) (hs : list hline) : list pevent :=
  match hs with
  | [] => []
  | h :: hs' => EvField pos (zlen (h_name h)) :: EvValue (pos + zlen (h_name h) + 1 + zlen (h_ws h)) (zlen (h_value h)) ::
                line_events (pos + zlen (hline_bytes h)) hs'
  end.
(** A parser that reads header sections in one call: it reports the names and values of the header section at their places, whatever
    follows; if nothing follows, that is all; if anything follows, it either takes it for the next message or for an error. *)
Definition reads_sections (P : parser) : Prop :=
  parser_ok P /\ whole_names P /\
  forall resp rest evs e evs2 e2, head_ok resp ->
    reports (p_exec P (p_init P) (head_bytes resp ++ rest)) = (evs, e) -> reports (p_exec P (p_init P) rest) = (evs2, e2) ->
    let own := line_events (zlen (status_bytes resp)) (p_headers resp) in
    (rest = [] -> header_events evs = own /\ e = HPE_OK) /\
    (rest <> [] -> header_events evs = own ++ map (further (zlen (head_bytes resp))) (header_events evs2) /\ e = e2 \/
                   header_events evs = own /\ e <> HPE_OK).
