(** SpecPlaces.v — the vocabulary of C70: where the header lines of a response lie.  Nothing here refers to the library's code. *)
From Verif Require Import Base Lib ModelRequest ModelSend ModelResponse SpecRequest SpecSend SpecResponse SpecHttp SpecParser.

(** Where the header lines begin: behind the status line. *)
Definition first_header (resp : http) : option Z := match p_headers resp with [] => None | _ => Some (zlen (status_bytes resp)) end.
(** The header lines without the line end of the last one. *)
Definition header_lines (resp : http) : bytes := match p_headers resp with [] => [] | hs => slice (hlines_bytes hs) 0 (zlen (hlines_bytes hs) - 2) end.
(** What lies between the header lines and the body. *)
Definition header_end : bytes := CRLF ++ CRLF.
(** How long the header lines seem to be when [cut] bytes came before the read in which the header section ends: the first bytes of [header_end]
    are counted if they came before that read. *)
Definition seen_len (resp : http) (cut : Z) : Z :=
  match p_headers resp with
  | [] => 0
  | _ => Z.max (zlen (header_lines resp)) (cut - zlen (status_bytes resp))
  end.

(** A parser that reads HTTP/1.1 responses and tells the places of the names and values. *)
Record reads_places (P : parser) : Prop := mkplaces {
  rp_http : reads_http P;
  (* the first name is at its place, and the last report before the end of the headers is the last value, at its place *)
  rp_place : forall head resp ps1 d ps2 s v, http_ok head resp -> fed head P (ps1 ++ d :: ps2) s v -> concat (ps1 ++ d :: ps2) = http_bytes resp ->
    zlen (concat ps1) < zlen (head_bytes resp) <= zlen (concat ps1) + zlen d ->
    v_hstart v = first_header resp /\ option_map fst (v_hend v) = Some (seen_len resp (zlen (concat ps1)));
  (* the end of the data, at the end of the response, is neither a header nor the end of the headers *)
  rp_end : forall head resp ps s v v' e s', http_ok head resp -> fed head P ps s v -> concat ps = http_bytes resp ->
    reading head (p_exec P s []) (given v []) = (v', e, s') -> v_hstart v' = v_hstart v /\ v_hend v' = v_hend v
}.
