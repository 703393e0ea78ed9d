(** SpecResume.v — the vocabulary of C98: an application that downloads a file in ranges and, when a piece fails, goes on with that piece on a new connection. *)
From Verif Require Import Base Lib ModelRequest ModelSend ModelResponse SpecRequest SpecSend SpecResponse SpecHttp SpecParser SpecExchange SpecExact SpecSession SpecDownload.

(** As [download] (SpecDownload.v): for each piece, of so many bytes as [cs] says, from offset [a] on, Init, the Range header, Send and a copy of the body.  It stops at the first
    piece that fails.  The result: what it has copied, the pieces that are left, the request structure and the world. *)
Fixpoint part (fuel : nat) (cfg : config) (E : env) (P : parser) (t : transport) (ri : reqInfo) (r : response) (h : reqHeaders) (a : Z) (cs : list Z) (w : world)
  : res (bytes * list Z * reqHeaders * world) :=
  match cs with
  | [] => Ret ([], [], h, w)
  | c :: cs' =>
      ' (sts, h1, m1) <- history cfg (w_mem w) h [CInit ri; CRange a (a + c - 1)] ;;
      if negb (forallb is_success sts) then Ret ([], cs, h1, with_mem w m1)
      else
        ' (st, prh, pr, w1) <- Send fuel cfg E P (Some t) (Some h1) None 0 (Some r) 0 (with_mem w m1) ;;
        let h2 := match prh with Some h2 => h2 | None => h1 end in
        match st, prh, pr with
        | HTTPSuccess, Some _, Some r1 =>
            match r_body r1 with
            | Some p =>
                if (r_status r1 =? 206) && (r_bodyLen r1 =? c)
                then
                  d <- loadn (w_mem w1) p c ;;
                  ' (rest, todo, h3, w2) <- part fuel cfg E P t ri r h2 (a + c) cs' w1 ;;
                  Ret (d ++ rest, todo, h3, w2)
                else Ret ([], cs, h2, w1)
            | None => Ret ([], cs, h2, w1)
            end
        | _, _, _ => Ret ([], cs, h2, w1)
        end
  end.
(** [Es]: the connections it may use, each with a transport and a clock of its own.  The result: for each connection used what happened on it, then what the application has copied
    from all of them together, the pieces that are left, and memory. *)
Fixpoint resume (fuel : nat) (cfg : config) (P : parser) (t : transport) (ri : reqInfo) (r : response) (Es : list env) (h : reqHeaders) (a : Z) (cs : list Z) (m : mem)
  : res (list (list tev) * bytes * list Z * mem) :=
  match cs, Es with
  | [], _ | _, [] => Ret ([], [], cs, m)
  | _, E :: Es' =>
      ' (d, todo, h1, w) <- part fuel cfg E P t ri r h a cs (mkw m 0 0 0 []) ;;
      ' (logs, d', todo', m') <- resume fuel cfg P t ri r Es' h1 (a + zlen d) todo (w_mem w) ;;
      Ret (w_tr w :: logs, d ++ d', todo', m')
  end.

(** [asked … a cs logs d todo]: on the first connection some first pieces [got] of [cs] came in; what was sent on it is a beginning of the requests for the pieces [cs], one after
    the other, from offset [a] on; and so on, on the next connection, with the pieces after [got]. *)
Inductive asked (cfg : config) (flags : Z) (p ho : bytes) : Z -> list Z -> list (list tev) -> bytes -> list Z -> Prop :=
| AKnil : forall a cs, asked cfg flags p ho a cs [] [] cs
| AKcons : forall a got left_over reqs tr logs d d' todo,
    range_requests cfg flags p ho a (got ++ left_over) reqs -> prefix (accepted tr) (flat_map text_of reqs) -> zlen d = total got ->
    asked cfg flags p ho (a + zlen d) left_over logs d' todo ->
    asked cfg flags p ho a (got ++ left_over) (tr :: logs) (d ++ d') todo.
