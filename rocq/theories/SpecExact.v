(** SpecExact.v — the vocabulary of the exact request-side properties (C51-C55), independent of the model's code. *)
From Verif Require Import Base Lib ModelRequest ModelSend ModelResponse SpecRequest SpecSend SpecResponse SpecExchange.

(** [p] is what precedes the first character of [d] that is not allowed. *)
Definition cut_at_illegal (legal : bytes -> Prop) (d p : bytes) : Prop :=
  exists c r, d = p ++ c :: r /\ legal p /\ ~ legal [c].

(** What a rejected header leaves behind: the name up to its first illegal character, or the name, ": "
    and the value up to its first illegal character. *)
Definition leftover (f v W : bytes) : Prop :=
  cut_at_illegal legal_field f W \/
  (legal_field f /\ exists p, cut_at_illegal legal_value v p /\ W = f ++ B ": " ++ p).

(** The bytes [a] with their beginning overwritten by [b] (as far as [a] reaches). *)
Fixpoint overwritten (a b : bytes) : bytes :=
  match a, b with
  | x :: a', y :: b' => y :: overwritten a' b'
  | _, _ => a
  end.

(** What each call asks for: one header, whose texts are legal. *)
Definition asks (m : mem) (c : call) (fv : bytes * bytes) : Prop :=
  match c with
  | CInit _ => False
  | CAdd f fl v vl => arg m f fl (fst fv) /\ arg m v vl (snd fv) /\ 0 < fl /\ 0 < vl /\
                      legal_field (fst fv) /\ legal_value (snd fv)
  | CRange s e => ~ range_rejected s e /\ fst fv = B "Range" /\ range_value s e (snd fv)
  end.
(** A request as it appears in the buffer: request line, header lines, blank line. *)
Definition request_text (me p : bytes) (hs : list (bytes * bytes)) : bytes :=
  request_line me p ++ concat (map (fun h => header_line (fst h) (snd h)) hs) ++ CRLF.

(** ** What a server makes of the bytes it receives *)
(** Header lines up to the empty line, and what follows it. *)
Fixpoint read_block (fuel : nat) (d : bytes) : option (list (bytes * bytes) * bytes) :=
  match fuel with
  | O => None
  | S f =>
      match read_line d with
      | None => None
      | Some ([], rest) => Some ([], rest)
      | Some (l, rest) =>
          match read_header l, read_block f rest with
          | Some h, Some (hs, b) => Some (h :: hs, b)
          | _, _ => None
          end
      end
  end.
Definition lower (c : Z) : Z := if (65 <=? c) && (c <=? 90) then c + 32 else c.
(** Header names are compared without regard to case. *)
Definition is_content_length (h : bytes * bytes) : bool :=
  if list_eq_dec Z.eq_dec (map lower (fst h)) (B "content-length") then true else false.
(** The body length the headers announce: 0 without Content-Length; contradictory or malformed ones are refused. *)
Definition announced (hs : list (bytes * bytes)) : option Z :=
  match filter is_content_length hs with
  | [] => Some 0
  | [(_, v)] => if negb (zlen v =? 0) && forallb (fun c => (48 <=? c) && (c <=? 57)) v then Some (dec_value v) else None
  | _ => None
  end.
(** Request line, headers, body, and the bytes after this request. *)
Definition server_reads (d : bytes) : option (bytes * list (bytes * bytes) * bytes * bytes) :=
  match read_line d with
  | None => None
  | Some (l, rest) =>
      match read_block (S (length rest)) rest with
      | None => None
      | Some (hs, b) =>
          match announced hs with
          | Some k => if k <=? zlen b then Some (l, hs, slice b 0 k, slice b k (zlen b - k)) else None
          | None => None
          end
      end
  end.
(** The Content-Length header HTTPClient_Send adds for a body of [len] bytes. *)
Definition length_header (flags len : Z) (hs : list (bytes * bytes)) : Prop :=
  if Z.testbit flags 0 || (len =? 0) then hs = [] else exists d, decimal len d /\ hs = [(B "Content-Length", d)].

(** Calls of HTTPClient_Send one after the other with one request structure, whose buffer is the [n] bytes at [hbuf]. Each call has
    its own body, response structure, response buffer (apart from the request's) and flags; between two calls nothing else
    happens. One record for each call: flags, body length, body, status, bytes accepted by the transport. *)
Record sent_call := mksent { sc_flags : Z; sc_len : Z; sc_body : bytes; sc_status : status; sc_wire : bytes }.
Inductive in_turn (cfg : config) (E : env) (P : parser) (t : transport) (hbuf : ptr) (n : Z) :
  reqHeaders -> world -> list sent_call -> reqHeaders -> world -> Prop :=
| turns_end h w : in_turn cfg E P t hbuf n h w [] h w
| turns_next h w fuel req body len bd r rbuf L flags st h1 r1 w1 tr l h' w' :
    send_setup cfg E P t h hbuf n req body len bd r rbuf L w -> disjoint rbuf L hbuf n ->
    exchanges fuel cfg E P t h body len r flags w st h1 r1 w1 tr ->
    in_turn cfg E P t hbuf n h1 w1 l h' w' ->
    in_turn cfg E P t hbuf n h w (mksent flags len bd st (accepted tr) :: l) h' w'.
(** What these calls put on the wire when the request has method [me], path [p] and headers [hs] before the first: each call first
    appends its own Content-Length header, and it stays there. [hs']: the headers in the end. *)
Inductive wires (n : Z) (me p : bytes) : list (bytes * bytes) -> list sent_call -> list (bytes * bytes) -> Prop :=
| wires_end hs : wires n me p hs [] hs
| wires_sent hs c cl l hs' :
    length_header (sc_flags c) (sc_len c) cl -> zlen (request_text me p (hs ++ cl)) <= n ->
    prefix (sc_wire c) (request_text me p (hs ++ cl) ++ sc_body c) ->
    (sc_status c <> HTTPNetworkError -> sc_wire c = request_text me p (hs ++ cl) ++ sc_body c) ->
    wires n me p (hs ++ cl) l hs' -> wires n me p hs (c :: l) hs'
| wires_refused hs c cl l hs' :
    length_header (sc_flags c) (sc_len c) cl -> n < zlen (request_text me p (hs ++ cl)) ->
    sc_wire c = [] -> sc_status c = HTTPInsufficientMemory ->
    wires n me p hs l hs' -> wires n me p hs (c :: l) hs'.
