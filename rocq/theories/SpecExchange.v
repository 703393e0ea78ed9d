(** SpecExchange.v — what the properties of a whole HTTPClient_Send call say. *)
From Verif Require Import Base Lib ModelRequest ModelSend ModelResponse SpecRequest SpecSend SpecResponse.

(** ** A call to HTTPClient_Send with valid arguments: the request structure [h] holds the request [req] in the
    [n] bytes at [hbuf], the body is the text [bd], the response buffer is the [L] bytes at [rbuf].  The two
    buffers may be the same or overlap. *)
Definition send_setup (cfg : config) (E : env) (P : parser) (t : transport) (h : reqHeaders) (hbuf : ptr) (n : Z)
           (req : bytes) (body : option ptr) (len : Z) (bd : bytes) (r : response) (rbuf : ptr) (L : Z) (w : world) : Prop :=
  size_ok cfg /\ send_contract E /\ recv_contract E /\ parser_ok P /\ t_send t = true /\ t_recv t = true /\
  holds (w_mem w) h hbuf n req /\ 16 <= zlen req /\ n + 30 < SZ cfg /\
  0 <= len < SZ cfg /\ len <= INT32_MAX /\ body_arg (w_mem w) hbuf n body len bd /\
  r_buf r = Some rbuf /\ r_bufLen r = L /\ object (w_mem w) rbuf L /\ 0 < L < SZ cfg.

(** A completed call: status, the structures and the world it leaves; [tr]: its log. *)
Definition exchanges (fuel : nat) (cfg : config) (E : env) (P : parser) (t : transport) (h : reqHeaders)
           (body : option ptr) (len : Z) (r : response) (flags : Z) (w : world)
           (st : status) (h' : reqHeaders) (r' : response) (w' : world) (tr : list tev) : Prop :=
  Send fuel cfg E P (Some t) (Some h) body len (Some r) flags w = Ret (st, Some h', Some r', w') /\
  w_tr w' = w_tr w ++ tr.

(** Without a clock the library puts its own zero clock in the response structure. *)
Definition with_clock (r : response) : response :=
  match r_time r with
  | TNull => mkresp (r_buf r) (r_bufLen r) (r_cb r) TZero (r_headers r) (r_headersLen r) (r_body r) (r_bodyLen r)
                    (r_status r) (r_clen r) (r_hcount r) (r_hdone r) (r_opt r) (r_flags r)
  | _ => r
  end.

(** Two memories agree outside the [n] bytes at [a] and the [k] bytes at [c] (as [same_outside] for one buffer). *)
Definition same_outside2 (m m' : mem) (a : ptr) (n : Z) (c : ptr) (k : Z) : Prop :=
  length m = length m' /\
  (forall b, zlen (blk m b) = zlen (blk m' b)) /\
  (forall b i, 0 <= i -> ~ (b = pb a /\ po a <= i < po a + n) -> ~ (b = pb c /\ po c <= i < po c + k) ->
     zn (blk m b) i = zn (blk m' b) i).

(** ** Two calls that differ in where their buffers lie *)
(** The same place in the buffers [b1] and [b2]. *)
Definition same_place (b1 b2 p q : ptr) : Prop := exists o, p = poff b1 o /\ q = poff b2 o.
Definition same_place_opt (b1 b2 : ptr) (p q : option ptr) : Prop :=
  match p, q with Some p, Some q => same_place b1 b2 p q | None, None => True | _, _ => False end.
(** The same entry of the log, up to the place of the response buffer. *)
Definition same_entry (b1 b2 : ptr) (x y : tev) : Prop :=
  match x, y with
  | TSend d r, TSend d' r' => d = d' /\ r = r'
  | TRecv p room n d, TRecv p' room' n' d' => same_place b1 b2 p p' /\ room = room' /\ n = n' /\ d = d'
  | TTime t, TTime t' => t = t'
  | TParse p d, TParse p' d' => same_place b1 b2 p p' /\ d = d'
  | TEvent e, TEvent e' => e = e'
  | TReply r, TReply r' => r = r'
  | TParsed e, TParsed e' => e = e'
  | THeader f fl v vl fb vb c, THeader f' fl' v' vl' fb' vb' c' =>
      same_place b1 b2 f f' /\ fl = fl' /\ same_place b1 b2 v v' /\ vl = vl' /\ fb = fb' /\ vb = vb' /\ c = c'
  | _, _ => False
  end.
(** The same response: equal numbers, header block and body at the same places of the two buffers, and the
    same bytes there. *)
Definition same_response (b1 b2 : ptr) (m1 m2 : mem) (r1 r2 : response) : Prop :=
  r_status r1 = r_status r2 /\ r_clen r1 = r_clen r2 /\ r_hcount r1 = r_hcount r2 /\ r_hdone r1 = r_hdone r2 /\
  r_flags r1 = r_flags r2 /\
  r_headersLen r1 = r_headersLen r2 /\ same_place_opt b1 b2 (r_headers r1) (r_headers r2) /\
  (forall p q, r_headers r1 = Some p -> r_headers r2 = Some q -> bytes_at m1 p (r_headersLen r1) = bytes_at m2 q (r_headersLen r2)) /\
  r_bodyLen r1 = r_bodyLen r2 /\ same_place_opt b1 b2 (r_body r1) (r_body r2) /\
  (forall p q, r_body r1 = Some p -> r_body r2 = Some q -> bytes_at m1 p (r_bodyLen r1) = bytes_at m2 q (r_bodyLen r2)).
(** The application asks for the same: callback, clock and options; the two output fields the library does not
    reset are the same before the call. *)
Definition same_wishes (r1 r2 : response) : Prop :=
  r_cb r1 = r_cb r2 /\ r_time r1 = r_time r2 /\ r_opt r1 = r_opt r2 /\ r_clen r1 = r_clen r2 /\ r_hdone r1 = r_hdone r2.
(** The transport and the clock are at the same point of their histories. *)
Definition same_point (w1 w2 : world) : Prop := w_ns w1 = w_ns w2 /\ w_nr w1 = w_nr w2 /\ w_nt w1 = w_nt w2.
