(** SpecBuild.v — building a request, as a machine on texts: what the three functions that build requests do to the text in the buffer, without
    memory, pointers or arguments: only the texts asked for matter. *)
From Verif Require Import Base Lib ModelRequest SpecRequest.

(** What the application asks for: the texts of the arguments; [AskNothing]: a call with invalid arguments. *)
Inductive asked :=
| AskInit (method path host : bytes) (flags : Z)
| AskAdd (field value : bytes)
| AskNothing.
(** [b_text]: what the beginning of the buffer is known to hold; [b_len]: headersLen, the length of the request: its beginning of that length. *)
Record built := mkbuilt { b_text : bytes; b_len : Z }.

(** The text [d] put over [t] from place [k] on. *)
Definition put (t : bytes) (k : Z) (d : bytes) : bytes := slice t 0 k ++ d ++ slice t (k + zlen d) (zlen t - (k + zlen d)).
(** [d] up to its first character that [bad] forbids. *)
Fixpoint until (bad : Z -> bool) (d : bytes) : bytes := match d with [] => [] | c :: d' => if bad c then [] else c :: until bad d' end.
Definition bad_value (c : Z) : bool := (c =? CR) || (c =? LF).
Definition bad_field (c : Z) : bool := bad_value c || (c =? COLON).
Fixpoint same_bytes (a b : bytes) : bool := match a, b with [], [] => true | x :: a', y :: b' => (x =? y) && same_bytes a' b' | _, _ => false end.
(** Where the next header goes: before the blank line, if there is one. *)
Definition header_place (s : built) : Z := if (4 <=? b_len s) && same_bytes (slice (b_text s) (b_len s - 4) 4) (CRLF ++ CRLF) then b_len s - 2 else b_len s.
(** One header line and a blank line, in a buffer of [n] bytes. *)
Definition add_line (n : Z) (f v : bytes) (s : built) : status * built :=
  let k := header_place s in
  let line := header_line f v ++ CRLF in
  if n <? k + zlen line then (HTTPInsufficientMemory, s)
  else if existsb bad_field f then (HTTPSecurityAlertInvalidCharacter, mkbuilt (put (b_text s) k (until bad_field f)) (b_len s))
  else if existsb bad_value v then (HTTPSecurityAlertInvalidCharacter, mkbuilt (put (b_text s) k (f ++ B ": " ++ until bad_value v)) (b_len s))
  else (HTTPSuccess, mkbuilt (put (b_text s) k line) (k + zlen line)).
Definition start_line (n : Z) (method path : bytes) (s : built) : status * built :=
  let line := request_line method path in
  if n <? zlen line then (HTTPInsufficientMemory, mkbuilt (b_text s) 0) else (HTTPSuccess, mkbuilt (put (b_text s) 0 line) (zlen line)).
(** One after the other, until one fails. *)
Fixpoint steps (fs : list (built -> status * built)) (s : built) : status * built :=
  match fs with
  | [] => (HTTPSuccess, s)
  | f :: fs' => match f s with (HTTPSuccess, s') => steps fs' s' | r => r end
  end.
Definition build1 (ua : bytes) (n : Z) (a : asked) (s : built) : status * built :=
  match a with
  | AskInit me p ho flags =>
      steps ([start_line n me p] ++ (if Z.testbit flags 1 then [] else [add_line n (B "User-Agent") ua]) ++ [add_line n (B "Host") ho] ++
             (if Z.testbit flags 0 then [add_line n (B "Connection") (B "keep-alive")] else [])) s
  | AskAdd f v => add_line n f v s
  | AskNothing => (HTTPInvalidParameter, s)
  end.
Fixpoint builds (ua : bytes) (n : Z) (l : list asked) (s : built) : list status * built :=
  match l with
  | [] => ([], s)
  | a :: l' => let '(st, s1) := build1 ua n a s in let '(sts, s2) := builds ua n l' s1 in (st :: sts, s2)
  end.

(** The call [c] asks for [a]: its arguments, in memory [m] and apart from the [n]-byte buffer at [buf], are those texts. *)
Definition asks_for (cfg : config) (m : mem) (buf : ptr) (n : Z) (c : call) (a : asked) : Prop :=
  match c, a with
  | CInit ri, AskInit me p ho flags => init_args cfg m buf n ri me p ho /\ flags = ri_flags ri
  | CInit ri, AskNothing => ri_method ri = SNull \/ ri_host ri = SNull \/ ri_methodLen ri = 0 \/ ri_hostLen ri = 0
  | CAdd field fl value vl, AskAdd f v => arg_for m buf n field fl f /\ arg_for m buf n value vl v /\ 0 < fl /\ 0 < vl /\ n + fl + vl + 6 < SZ cfg
  | CAdd field fl value vl, AskNothing => field = SNull \/ value = SNull \/ fl = 0 \/ vl = 0
  | CRange s e, AskAdd f v => is_int32 s /\ is_int32 e /\ ~ range_rejected s e /\ f = B "Range" /\ range_value s e v /\ n + 38 < SZ cfg
  | CRange s e, AskNothing => is_int32 s /\ range_rejected s e
  | _, _ => False
  end.
