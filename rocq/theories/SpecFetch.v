(** SpecFetch.v — the vocabulary of C99: an application that asks for the size of a file with HEAD and then downloads it in pieces of that many bytes in all. *)
From Verif Require Import Base Lib ModelRequest ModelSend ModelResponse SpecRequest SpecSend SpecResponse SpecHttp SpecParser SpecExchange SpecExact SpecSession SpecDownload SpecResume ProofsRequest SpecRetry.

(** Pieces of [k] bytes, the last one may be smaller. *)
Definition pieces_of (k N : Z) : list Z := repeat k (Z.to_nat (N / k)) ++ (if N mod k =? 0 then [] else [N mod k]).
(** It asks on the connections [Es1], one after the other, until a call succeeds (C97); when the status code is 200 it takes the response structure's Content-Length for the size of
    the file and downloads that in pieces of [k] bytes on the connections [Es2] (C98).  The result: what happened on the connections, then what it has and which pieces are left, if it
    came to that, and memory. *)
Definition fetch (fuel : nat) (cfg : config) (P : parser) (t : transport) (rih rig : reqInfo) (r : response) (h : reqHeaders) (k : Z) (Es1 Es2 : list env) (m : mem)
  : res (list (list tev) * list (list tev) * option (bytes * list Z) * mem) :=
  ' (logs1, o, m1) <- retry fuel cfg P t rih [] None 0 0 r h Es1 m ;;
  match o with
  | Some (_, r1, _) =>
      if (r_status r1 =? 200) && (0 <=? r_clen r1) && (r_clen r1 <=? INT32_MAX + 1)
      then
        ' (logs2, d, todo, m2) <- resume fuel cfg P t rig r Es2 h 0 (pieces_of k (r_clen r1)) m1 ;;
        Ret (logs1, logs2, Some (d, todo), m2)
      else Ret (logs1, [], None, m1)
  | None => Ret (logs1, [], None, m1)
  end.
(** Both requests are for path [p] of host [ho], with the same buffers. *)
Definition fetch_setup (cfg : config) (P : parser) (t : transport) (rih rig : reqInfo) (p ho : bytes) (h : reqHeaders) (buf : ptr) (n : Z) (r : response) (rbuf : ptr) (L : Z)
           (Es1 Es2 : list env) (m : mem) : Prop :=
  retry_setup cfg P t rih (B "HEAD") p ho [] [] h buf n None 0 [] r rbuf L m /\ Forall connection_ok Es1 /\
  Forall (fun E => download_setup cfg E P t rig p ho h buf n r rbuf L m /\ recv_faithful E) Es2.
(** If the server answers a HEAD request for [p] with 200, the Content-Length it gives is the length of [F]. *)
Definition measures (srv : server) (p F : bytes) : Prop :=
  forall hs bd x, code_of (srv (line_of (B "HEAD") p) hs bd) = 200 -> http_clen (srv (line_of (B "HEAD") p) hs bd) x -> x = zlen F.
