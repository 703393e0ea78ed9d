(** SpecRetry.v — the vocabulary of C97: an application that builds a request and sends it; if that fails, it builds the request again and sends
    it on a new connection, and so on. *)
From Verif Require Import Base Lib ModelRequest ModelSend ModelResponse SpecRequest SpecSend SpecResponse SpecHttp SpecParser SpecExchange SpecExact SpecSession SpecDownload ProofsRequest.

(** [Es]: the connections it may use, each with a transport and a clock of its own.  It stops at the first HTTPSuccess.  The result: for each
    connection used what happened on it, then the request and response structures of the successful call and its world, if there was one, and memory. *)
Fixpoint retry (fuel : nat) (cfg : config) (P : parser) (t : transport) (ri : reqInfo) (cs : list call) (body : option ptr) (len flags : Z) (r : response) (h : reqHeaders)
         (Es : list env) (m : mem) : res (list (list tev) * option (reqHeaders * response * world) * mem) :=
  match Es with
  | [] => Ret ([], None, m)
  | E :: Es' =>
      ' (sts, h1, m1) <- history cfg m h (CInit ri :: cs) ;;
      if negb (forallb is_success sts) then Ret ([], None, m1)
      else
        ' (st, prh, pr, w1) <- Send fuel cfg E P (Some t) (Some h1) body len (Some r) flags (mkw m1 0 0 0 []) ;;
        match st, prh, pr with
        | HTTPSuccess, Some h2, Some r2 => Ret ([w_tr w1], Some (h2, r2, w1), w_mem w1)
        | _, Some h2, _ =>
            ' (logs, o, m2) <- retry fuel cfg P t ri cs body len flags r h2 Es' (w_mem w1) ;;
            Ret (w_tr w1 :: logs, o, m2)
        | _, None, _ => Ret ([w_tr w1], None, w_mem w1)
        end
  end.

(** The texts of the added headers are not in the [L] bytes at [rbuf]. *)
Definition call_apart (rbuf : ptr) (L : Z) (c : call) : Prop :=
  match c with CAdd f fl v vl => arg_apart rbuf L f fl /\ arg_apart rbuf L v vl | _ => True end.
(** The request: method [me], path [p], host [ho], the headers [hs] added by the calls [cs], body [bd] of [len] bytes; the [n]-byte request buffer
    [buf] and the [L]-byte response buffer [rbuf], which may be the same, hold none of the texts and nothing of the body. *)
Definition retry_setup (cfg : config) (P : parser) (t : transport) (ri : reqInfo) (me p ho : bytes) (cs : list call) (hs : list (bytes * bytes)) (h : reqHeaders) (buf : ptr) (n : Z)
           (body : option ptr) (len : Z) (bd : bytes) (r : response) (rbuf : ptr) (L : Z) (m : mem) : Prop :=
  config_ok cfg /\ size_ok cfg /\ parser_ok P /\ t_send t = true /\ t_recv t = true /\
  rh_buf h = Some buf /\ rh_bufLen h = n /\ 0 <= rh_len h <= n /\ object m buf n /\ n + 38 < SZ cfg /\
  init_args cfg m buf n ri me p ho /\ usable m buf n (ri_path ri) (ri_pathLen ri) /\ legal_value me /\ legal_value p /\ legal_value ho /\
  arg_apart rbuf L (ri_method ri) (ri_methodLen ri) /\ arg_apart rbuf L (ri_path ri) (ri_pathLen ri) /\ arg_apart rbuf L (ri_host ri) (ri_hostLen ri) /\
  Forall (call_ok cfg m buf n) cs /\ Forall2 (asks m) cs hs /\ Forall (call_apart rbuf L) cs /\ Forall (fun x => is_content_length x = false) hs /\
  0 <= len <= INT32_MAX /\ len < SZ cfg /\ body_arg m buf n body len bd /\ match body with Some q => disjoint rbuf L q len | None => True end /\
  r_buf r = Some rbuf /\ r_bufLen r = L /\ object m rbuf L /\ 0 < L < SZ cfg /\ no_parse_body r = false.
Definition connection_ok (E : env) : Prop := send_contract E /\ recv_contract E /\ recv_faithful E.

(** What the request reads like for a server, and as text. *)
Definition line_of (me p : bytes) : bytes := me ++ B " " ++ p ++ B " HTTP/1.1".
Definition whole_request (me p : bytes) (hs : list (bytes * bytes)) (bd : bytes) : bytes :=
  line_of me p ++ CRLF ++ concat (map (fun x => header_line (fst x) (snd x)) hs) ++ CRLF ++ bd.
(** A connection that does its part: it takes the request, if only in small pieces, and delivers the answer [resp] in the pieces [ps] in time. *)
Definition works (cfg : config) (r : response) (fuel : nat) (resp : http) (E : env) : Prop :=
  (forall i k, 0 < k -> 0 < e_send E i k) /\
  exists ps, concat ps = http_bytes resp /\ feeds E 0 ps /\ (forall nt, prompt cfg E (r_time (with_clock r)) nt ps) /\ (length ps < fuel)%nat.
