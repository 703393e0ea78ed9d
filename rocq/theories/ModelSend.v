(** ModelSend.v — the sending half of core_http_client.c (line numbers as in ModelRequest.v). *)
From Verif Require Import Base ModelRequest.

Definition HTTP_SEND_DISABLE_CONTENT_LENGTH_FLAG := 1.     (* core_http_client.h l.92 *)

(** TransportInterface_t (transport_interface.h): whether the two function pointers are set.  What the
    functions do is the [env]. *)
Record transport := mktransport { t_send : bool; t_recv : bool }.

Definition w_after_send (w : world) (d : bytes) (r : Z) : world :=
  mkw (w_mem w) (S (w_ns w)) (w_nr w) (w_nt w) (w_tr w ++ [TSend d r]).

(** The while loop of HTTPClient_SendHttpData, l.1846-1887.  [last] is lastSendTimeMs. *)
Fixpoint send_loop (fuel : nat) (E : env) (tf : timefn) (retry : Z)
         (p : ptr) (rem last : Z) (w : world) : res (status * world) :=
  match fuel with
  | O => More w
  | S f =>
      if rem <=? 0 then Ret (HTTPSuccess, w)
      else
        d <- loadn (w_mem w) p rem ;;          (* the transport may read all it is offered *)
        let r := e_send E (w_ns w) rem in
        let w1 := w_after_send w d r in
        if r <? 0 then Ret (HTTPNetworkError, w1)
        else if 0 <? r then
          _ <- assert_at (r <=? rem) 1861 ;;
          ' (t, w2) <- get_time E tf w1 ;;
          p' <- padd (w_mem w2) p r ;;
          send_loop f E tf retry p' (rem - r) t w2
        else
          ' (t, w2) <- get_time E tf w1 ;;
          if retry <=? u32 (t - last) then Ret (HTTPNetworkError, w2)
          else send_loop f E tf retry p rem last w2
  end.

(** HTTPClient_SendHttpData, l.1814-1890. *)
Definition SendHttpData (fuel : nat) (cfg : config) (E : env) (tr : option transport) (tf : timefn)
           (pData : option ptr) (dataLen : Z) (w : world) : res (status * world) :=
  match tr with
  | None => AssertFail 1826
  | Some t =>
      _ <- assert_at (t_send t) 1827 ;;
      match pData with
      | None => AssertFail 1828
      | Some p =>
          let retry := match tf with TZero => 0 | _ => SEND_TO cfg end in
          ' (t0, w1) <- get_time E tf w ;;
          send_loop fuel E tf retry p dataLen t0 w1
      end
  end.

Definition set_mem (w : world) (m : mem) : world :=
  mkw m (w_ns w) (w_nr w) (w_nt w) (w_tr w).

(** addContentLengthHeader, l.1894-1922 (the conversion to int32_t included). *)
Definition addContentLengthHeader (cfg : config) (m : mem) (h : reqHeaders) (contentLength : Z)
  : res (status * reqHeaders * mem) :=
  let a0 := repeat 0 (Z.to_nat MAX_INT32_NO_OF_DECIMAL_DIGITS) in
  _ <- assert_at (0 <? contentLength) 1902 ;;
  ' (a1, k) <- convertInt32ToAscii (to_int32 contentLength) a0 0 ;;
  addHeader cfg m h (SLit HTTP_CONTENT_LENGTH_FIELD) (zlen HTTP_CONTENT_LENGTH_FIELD) (SLit a1) k.

(** HTTPClient_SendHttpHeaders, l.1926-1960. *)
Definition SendHttpHeaders (fuel : nat) (cfg : config) (E : env) (tr : option transport)
           (tf : timefn) (prh : option reqHeaders) (reqBodyLen sendFlags : Z) (w : world)
  : res (status * option reqHeaders * world) :=
  match tr with
  | None => AssertFail 1935
  | Some t =>
      _ <- assert_at (t_send t) 1936 ;;
      match prh with
      | None => AssertFail 1937
      | Some h =>
          ' (st, h1, m1) <-
            (if (Z.land sendFlags HTTP_SEND_DISABLE_CONTENT_LENGTH_FLAG =? 0) && (0 <? reqBodyLen)
             then addContentLengthHeader cfg (w_mem w) h reqBodyLen
             else Ret (HTTPSuccess, h, w_mem w)) ;;
          if is_success st
          then
            ' (st2, w2) <- SendHttpData fuel cfg E tr tf (rh_buf h1) (rh_len h1) (set_mem w m1) ;;
            Ret (st2, Some h1, w2)
          else Ret (st, Some h1, set_mem w m1)
      end
  end.

(** sendHttpBody, l.1964-1981. *)
Definition sendHttpBody (fuel : nat) (cfg : config) (E : env) (tr : option transport) (tf : timefn)
           (body : option ptr) (bodyLen : Z) (w : world) : res (status * world) :=
  match tr with
  | None => AssertFail 1971
  | Some t =>
      _ <- assert_at (t_send t) 1972 ;;
      _ <- assert_at (match body with None => false | _ => true end) 1973 ;;
      SendHttpData fuel cfg E tr tf body bodyLen w
  end.

(** sendHttpRequest, l.2171-2210. *)
Definition sendHttpRequest (fuel : nat) (cfg : config) (E : env) (tr : option transport)
           (tf : timefn) (prh : option reqHeaders) (body : option ptr) (bodyLen sendFlags : Z)
           (w : world) : res (status * option reqHeaders * world) :=
  _ <- assert_at (match tr with None => false | _ => true end) 2180 ;;
  _ <- assert_at (match prh with None => false | _ => true end) 2181 ;;
  _ <- assert_at (match body with None => bodyLen =? 0 | _ => true end) 2182 ;;
  _ <- assert_at (match tf with TNull => false | _ => true end) 2184 ;;
  ' (st, h1, w1) <- SendHttpHeaders fuel cfg E tr tf prh bodyLen sendFlags w ;;
  if is_success st
  then match body with
       | Some _ =>
           ' (st2, w2) <- sendHttpBody fuel cfg E tr tf body bodyLen w1 ;;
           Ret (st2, h1, w2)
       | None => Ret (st, h1, w1)
       end
  else Ret (st, h1, w1).
