(** SpecDownload.v — the vocabulary of C96: an application that fetches a file piece by piece with range requests (the library's Range header
    is there for this), and the server it talks to. *)
From Verif Require Import Base Lib ModelRequest ModelSend ModelResponse SpecRequest SpecSend SpecResponse SpecHttp SpecParser SpecExchange SpecExact SpecSession ProofsRequest.

(** ** The application.  For each piece of the file, [c] bytes from offset [a] on: HTTPClient_InitializeRequestHeaders,
    HTTPClient_AddRangeHeader( a, a + c - 1 ), HTTPClient_Send without a body; the response structure is set up anew each time.  It goes on only if
    every call succeeds and the answer is a 206 with [c] bytes of body, which it copies.  [None]: it gave up. *)
Fixpoint download (fuel : nat) (cfg : config) (E : env) (P : parser) (t : transport) (ri : reqInfo) (r : response) (h : reqHeaders) (a : Z) (cs : list Z) (w : world)
  : res (option bytes * world) :=
  match cs with
  | [] => Ret (Some [], w)
  | c :: cs' =>
      ' (sts, h1, m1) <- history cfg (w_mem w) h [CInit ri; CRange a (a + c - 1)] ;;
      if negb (forallb is_success sts) then Ret (None, with_mem w m1)
      else
        ' (st, prh, pr, w1) <- Send fuel cfg E P (Some t) (Some h1) None 0 (Some r) 0 (with_mem w m1) ;;
        match st, prh, pr with
        | HTTPSuccess, Some h2, Some r1 =>
            match r_body r1 with
            | Some p =>
                if (r_status r1 =? 206) && (r_bodyLen r1 =? c)
                then
                  d <- loadn (w_mem w1) p c ;;
                  ' (rest, w2) <- download fuel cfg E P t ri r h2 (a + c) cs' w1 ;;
                  Ret (match rest with Some x => Some (d ++ x) | None => None end, w2)
                else Ret (None, w1)
            | None => Ret (None, w1)
            end
        | _, _, _ => Ret (None, w1)
        end
  end.
Definition total (cs : list Z) : Z := fold_right Z.add 0 cs.

(** Its structures and texts: the [n]-byte request buffer at [buf], the [L]-byte response buffer at [rbuf] (they may be the same), path [p] and host
    [ho], which are in neither. *)
Definition download_setup (cfg : config) (E : env) (P : parser) (t : transport) (ri : reqInfo) (p ho : bytes) (h : reqHeaders) (buf : ptr) (n : Z)
           (r : response) (rbuf : ptr) (L : Z) (m : mem) : Prop :=
  config_ok cfg /\ size_ok cfg /\ send_contract E /\ recv_contract E /\ parser_ok P /\ t_send t = true /\ t_recv t = true /\
  rh_buf h = Some buf /\ rh_bufLen h = n /\ 0 <= rh_len h <= n /\ object m buf n /\ n + 38 < SZ cfg /\
  init_args cfg m buf n ri (B "GET") p ho /\ usable m buf n (ri_path ri) (ri_pathLen ri) /\ legal_value p /\ legal_value ho /\
  arg_apart rbuf L (ri_method ri) (ri_methodLen ri) /\ arg_apart rbuf L (ri_path ri) (ri_pathLen ri) /\ arg_apart rbuf L (ri_host ri) (ri_hostLen ri) /\
  r_buf r = Some rbuf /\ r_bufLen r = L /\ object m rbuf L /\ 0 < L < SZ cfg /\ no_parse_body r = false.

(** ** The server.  [srv line hs b] is its answer to the request with that request line, headers and body; what it answers is well-formed HTTP. *)
Definition server := bytes -> list (bytes * bytes) -> bytes -> http.
Definition well_behaved (srv : server) : Prop := forall line hs b, http_ok (beqb (slice line 0 4) (B "HEAD")) (srv line hs b).
Definition is_range (h : bytes * bytes) : bool := beqb (map lower (fst h)) (B "range").
(** If it answers a request for the bytes [a] to [b] of path [p] with 206, it sends those bytes of [F]. *)
Definition serves (srv : server) (p F : bytes) : Prop :=
  forall hs bd v a b, filter is_range hs = [(B "Range", v)] -> range_value a b v -> 0 <= a <= b -> b < zlen F ->
    code_of (srv (B "GET " ++ p ++ B " HTTP/1.1") hs bd) = 206 ->
    content (p_body (srv (B "GET " ++ p ++ B " HTTP/1.1") hs bd)) = slice F a (b - a + 1).
(** It always answers such a request with 206, in a response with a length of its own that is at most [K] bytes longer than the piece. *)
Definition serves_all (srv : server) (p F : bytes) (K : Z) : Prop :=
  forall hs bd v a b, filter is_range hs = [(B "Range", v)] -> range_value a b v -> 0 <= a <= b -> b < zlen F ->
    let x := srv (B "GET " ++ p ++ B " HTTP/1.1") hs bd in
    code_of x = 206 /\ (forall d, p_body x <> ToClose d) /\ zlen (http_bytes x) <= b - a + 1 + K.

(** [x]: the server's answers to some of the requests at the beginning of [d], the bytes it has received. *)
Inductive answers (srv : server) : bytes -> bytes -> Prop :=
| answers_none d : answers srv d []
| answers_one d line hs b rest x : server_reads d = Some (line, hs, b, rest) -> answers srv rest x -> answers srv d (http_bytes (srv line hs b) ++ x).
(** At every moment of [log], what the transport has delivered is the beginning of answers to requests it had taken by then. *)
Definition honest (srv : server) (log : list tev) : Prop :=
  forall log1 log2, log = log1 ++ log2 -> exists x, answers srv (accepted log1) x /\ prefix (data_received log1) x.

(** The requests: what the application sends for the pieces [cs] from offset [a] on, and the answers. *)
Inductive range_requests (cfg : config) (flags : Z) (p ho : bytes) : Z -> list Z -> list (bytes * list (bytes * bytes)) -> Prop :=
| RRnil a : range_requests cfg flags p ho a [] []
| RRcons a c cs v l : range_value a (a + c - 1) v -> range_requests cfg flags p ho (a + c) cs l ->
    range_requests cfg flags p ho a (c :: cs) ((B "GET " ++ p ++ B " HTTP/1.1", init_headers (UA cfg) flags ho ++ [(B "Range", v)]) :: l).
(** A request as text. *)
Definition text_of (q : bytes * list (bytes * bytes)) : bytes := fst q ++ CRLF ++ concat (map (fun h => header_line (fst h) (snd h)) (snd q)) ++ CRLF.
Definition answer_to (srv : server) (q : bytes * list (bytes * bytes)) : http := srv (fst q) (snd q) [].
