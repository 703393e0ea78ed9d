(** SpecHttp.v — well-formed HTTP/1.1 responses (RFC 7230), as text.  Used by the end-to-end properties; nothing here
    refers to a parser or to the library.  The classes of characters are supersets of those of the RFC. *)
From Verif Require Import Base.

(** ** Headers *)
Record hline := mkhline { h_name : bytes; h_ws : bytes; h_value : bytes }.
(** "name:" white space "value" CRLF *)
Definition hline_bytes (h : hline) : bytes := h_name h ++ [COLON] ++ h_ws h ++ h_value h ++ CRLF.
Definition hlines_bytes (hs : list hline) : bytes := flat_map hline_bytes hs.

Definition token_char (c : Z) : Prop := 33 <= c <= 126 /\ c <> COLON.
Definition blank (c : Z) : Prop := c = SPACE \/ c = 9.
Definition text_char (c : Z) : Prop := c <> CR /\ c <> LF.
Definition hline_ok (h : hline) : Prop :=
  h_name h <> [] /\ Forall token_char (h_name h) /\ Forall blank (h_ws h) /\ Forall text_char (h_value h) /\
  (forall c x, h_value h = c :: x -> ~ blank c).

(** ** Letters and numbers *)
Definition lower_case (c : Z) : Z := if (65 <=? c) && (c <=? 90) then c + 32 else c.
Definition ci_eq (a b : bytes) : Prop := map lower_case a = map lower_case b.
Definition digit (c : Z) : Prop := 48 <= c <= 57.
(** The number written by the decimal digits [v]. *)
Definition dec_value (v : bytes) : Z := fold_left (fun acc c => acc * 10 + (c - 48)) v 0.
Inductive hexdigit : Z -> Z -> Prop :=
| HexNum c : 48 <= c <= 57 -> hexdigit c (c - 48)
| HexLow c : 97 <= c <= 102 -> hexdigit c (c - 87)
| HexUp c : 65 <= c <= 70 -> hexdigit c (c - 55).
(** [hexnum acc t v]: the hexadecimal digits [t] written after a number [acc] make [v]. *)
Inductive hexnum : Z -> bytes -> Z -> Prop :=
| HexEnd acc : hexnum acc [] acc
| HexMore acc c x t v : hexdigit c x -> hexnum (acc * 16 + x) t v -> hexnum acc (c :: t) v.

(** ** Framing headers *)
(** At most one Content-Length header, and it is a number of at most 19 digits. *)
Definition clen_header (v : bytes) : Prop := v <> [] /\ Forall digit v /\ (length v <= 19)%nat.
Inductive content_length : list hline -> option Z -> Prop :=
| CLnil : content_length [] None
| CLskip h hs o : ~ ci_eq (h_name h) (B "content-length") -> content_length hs o -> content_length (h :: hs) o
| CLhere h hs : ci_eq (h_name h) (B "content-length") -> clen_header (h_value h) -> content_length hs None ->
    content_length (h :: hs) (Some (dec_value (h_value h))).
Definition has_header (hs : list hline) (n v : bytes) : Prop :=
  exists h, In h hs /\ ci_eq (h_name h) n /\ ci_eq (h_value h) v.
Definition is_chunked (hs : list hline) : Prop := has_header hs (B "transfer-encoding") (B "chunked").

(** ** Bodies *)
Record chunk := mkchunk { k_size : bytes; k_ext : bytes; k_data : bytes }.
Definition chunk_head (size ext : bytes) : bytes := size ++ ext ++ CRLF.
Definition chunk_bytes (k : chunk) : bytes := chunk_head (k_size k) (k_ext k) ++ k_data k ++ CRLF.
Definition chunk_head_ok (size ext : bytes) (n : Z) : Prop :=
  size <> [] /\ (length size <= 15)%nat /\ hexnum 0 size n /\
  (ext = [] \/ exists x, ext = 59 :: x /\ Forall text_char x).
Definition chunk_ok (k : chunk) : Prop := k_data k <> [] /\ chunk_head_ok (k_size k) (k_ext k) (zlen (k_data k)).

Inductive body :=
| NoBody                                     (* answer to HEAD, 1xx, 204, 304 *)
| Sized (d : bytes)                          (* Content-Length *)
| Chunked (ks : list chunk) (size ext : bytes) (trailers : list hline)
| ToClose (d : bytes).                       (* until the connection is closed *)
Definition body_bytes (b : body) : bytes :=
  match b with
  | NoBody => []
  | Sized d => d
  | Chunked ks size ext tl => flat_map chunk_bytes ks ++ chunk_head size ext ++ hlines_bytes tl ++ CRLF
  | ToClose d => d
  end.
(** The content the body carries. *)
Definition content (b : body) : bytes :=
  match b with NoBody => [] | Sized d => d | Chunked ks _ _ _ => flat_map k_data ks | ToClose d => d end.
Definition trailers (b : body) : list hline := match b with Chunked _ _ _ tl => tl | _ => [] end.

(** ** Responses *)
Record http := mkhttp { p_minor : Z; p_code : bytes; p_reason : bytes; p_headers : list hline; p_body : body }.
Definition status_bytes (r : http) : bytes :=
  B "HTTP/1." ++ [p_minor r; SPACE] ++ p_code r ++ [SPACE] ++ p_reason r ++ CRLF.
Definition head_bytes (r : http) : bytes := status_bytes r ++ hlines_bytes (p_headers r) ++ CRLF.
Definition http_bytes (r : http) : bytes := head_bytes r ++ body_bytes (p_body r).
Definition code_of (r : http) : Z := dec_value (p_code r).
(** All headers with the status code, trailers last. *)
Definition headers_of (r : http) : list (bytes * bytes * Z) :=
  map (fun h => (h_name h, h_value h, code_of r)) (p_headers r ++ trailers (p_body r)).

(** The headers the library reports: all of them, but not the last trailer (see C45). *)
Definition reported (r : http) : list (bytes * bytes * Z) :=
  match trailers (p_body r) with [] => headers_of r | _ => removelast (headers_of r) end.

(** No body follows the headers of a response to HEAD ([head]), nor of a 1xx, 204 or 304 response. *)
Definition bodiless (head : bool) (code : Z) : Prop := head = true \/ code < 200 \/ code = 204 \/ code = 304.
Definition head_ok (r : http) : Prop :=
  (p_minor r = 48 \/ p_minor r = 49) /\ length (p_code r) = 3%nat /\ Forall digit (p_code r) /\ 100 <= code_of r /\
  Forall text_char (p_reason r) /\ Forall hline_ok (p_headers r) /\ exists o, content_length (p_headers r) o.
Definition http_ok (head : bool) (r : http) : Prop :=
  head_ok r /\
  match p_body r with
  | NoBody => bodiless head (code_of r)
  | Sized d => ~ bodiless head (code_of r) /\ ~ is_chunked (p_headers r) /\ content_length (p_headers r) (Some (zlen d))
  | Chunked ks size ext tl => ~ bodiless head (code_of r) /\ is_chunked (p_headers r) /\
      Forall chunk_ok ks /\ chunk_head_ok size ext 0 /\ Forall hline_ok tl
  | ToClose _ => ~ bodiless head (code_of r) /\ ~ is_chunked (p_headers r) /\ content_length (p_headers r) None
  end.
(** The Content-Length of a response, 0 without one. *)
Definition http_clen (r : http) (n : Z) : Prop :=
  exists o, content_length (p_headers r) o /\ n = match o with Some x => x | None => 0 end.
Definition says_close (r : http) : Prop := has_header (p_headers r) (B "connection") (B "close").
Definition says_keep_alive (r : http) : Prop := has_header (p_headers r) (B "connection") (B "keep-alive").
