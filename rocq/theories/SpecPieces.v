(** SpecPieces.v — the vocabulary of C80: a request sent by HTTPClient_SendHttpHeaders and HTTPClient_SendHttpData, its body in pieces. *)
From Verif Require Import Base Lib ModelRequest ModelSend ModelResponse SpecRequest SpecSend SpecTask.

(** Calls of the library ([deed], SpecTask.v) one after the other, until one does not return HTTPSuccess: the status of the last one made, the
    structures and the world it leaves. *)
Fixpoint until_failure (fuel : nat) (cfg : config) (E : env) (P : parser) (t : transport) (ds : list deed) (s : structs) (w : world) : res (status * structs * world) :=
  match ds with
  | [] => Ret (HTTPSuccess, s, w)
  | d :: ds' =>
      ' (g, s1, w1) <- do_deed fuel cfg E P t d s w ;;
      match fst g with
      | HTTPSuccess => until_failure fuel cfg E P t ds' s1 w1
      | st => Ret (st, s1, w1)
      end
  end.
(** HTTPClient_SendHttpHeaders for a body of [len] bytes, HTTPClient_SendHttpData for each piece, HTTPClient_ReceiveAndParseHttpResponse. *)
Definition upload (len flags : Z) (pieces : list (ptr * Z)) : list deed :=
  DSendHeaders TUser len flags :: map (fun '(p, k) => DSendData TUser p k) pieces ++ [DReceive].
(** The pieces lie in memory, apart from the request buffer; the text they make up. *)
Definition pieces_arg (m : mem) (hbuf : ptr) (n : Z) (pieces : list (ptr * Z)) : Prop :=
  Forall (fun '(p, k) => object m p k /\ disjoint hbuf n p k) pieces.
Definition pieces_text (m : mem) (pieces : list (ptr * Z)) : bytes := concat (map (fun '(p, k) => bytes_at m p k) pieces).
