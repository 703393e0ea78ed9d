(** DemoResponse.v — concrete data for the receiving properties: a transport that delivers given pieces,
    a request buffer and a response buffer, and the reference parser. *)
From Verif Require Import Base Lib ModelRequest ModelSend ModelResponse SpecRequest SpecSend SpecResponse ProofsRequest ProofsSend RefParser Demo.

(** The [i]-th recv delivers the [i]-th piece (as much of it as there is room for), later ones nothing; the clock
    advances by 400 ms from one reading to the next; send takes everything. *)
Definition give (p : bytes) (room : Z) : Z * bytes := let d := slice p 0 (Z.min (zlen p) room) in (zlen d, d).
Definition env_of (ps : list bytes) : env :=
  mkenv (fun _ k => k) (fun i room => give (nth i ps []) room) (fun n => 400 * Z.of_nat n).
Lemma give_len p room : 0 < room -> zlen (snd (give p room)) = Z.min (zlen p) room.
Proof. intros H. unfold give. cbn [snd]. pose proof (zlen_nonneg p). rewrite slice_len; lia. Qed.
Lemma env_of_contract ps : recv_contract (env_of ps).
Proof.
  intros i k H. cbn [env_of e_recv]. unfold give at 1. cbn [fst].
  pose proof (give_len (nth i ps []) k H) as X. unfold give in *. cbn [snd] in *. lia.
Qed.
Lemma env_of_faithful ps : recv_faithful (env_of ps).
Proof. intros i k H. reflexivity. Qed.

(** Block 0: the request; block 1: the response buffer of [L] bytes. *)
Definition rbuf : ptr := mkptr 1 0.
Definition wr (L : nat) : world := mkw [req1 ++ repeat 0 100; repeat 0 L] 0 0 0 [].
Definition resp0 (L : nat) (opt : Z) : response :=
  mkresp (Some rbuf) (Z.of_nat L) true TUser None 0 None 0 0 0 0 0 opt 0.
(** The same structure with output fields left over from some earlier response. *)
Definition resp_old (L : nat) (opt : Z) : response :=
  mkresp (Some rbuf) (Z.of_nat L) true TUser (Some (mkptr 1 3)) 9 (Some (mkptr 1 5)) 8 503 77 6 1 opt 3.
Definition trr : transport := mktransport true true.
Lemma zlen_repeat (x : Z) n : zlen (repeat x n) = Z.of_nat n.
Proof. unfold zlen. rewrite repeat_length. reflexivity. Qed.
Lemma setup0 ps L opt : (0 < L)%nat -> Z.of_nat L < 4294967296 ->
  recv_setup cfg0 (env_of ps) refparser trr (resp0 L opt) h1 rbuf (Z.of_nat L) req1 (wr L) /\
  recv_setup cfg0 (env_of ps) refparser trr (resp_old L opt) h1 rbuf (Z.of_nat L) req1 (wr L).
Proof.
  intros H1 H2.
  assert (A : exists rb n, holds (w_mem (wr L)) h1 rb n req1).
  { exists buf0, (zlen req1 + 100). split; [reflexivity|]. split; [reflexivity|].
    split; [vm_compute; repeat split; discriminate|]. split; [vm_compute; repeat split; discriminate|reflexivity]. }
  assert (B : object (w_mem (wr L)) rbuf (Z.of_nat L)).
  { unfold object, wr, rbuf, blk. cbn [w_mem pb po nth]. rewrite zlen_repeat. lia. }
  assert (C : 16 <= zlen req1) by (vm_compute; discriminate).
  split; (split; [reflexivity|]; split; [apply env_of_contract|]; split; [apply refparser_ok|]; split; [discriminate|];
    split; [reflexivity|]; split; [reflexivity|]; split; [auto|]; split; [cbn [cfg0 SZ]; lia|]; auto).
Qed.

(** "[s]\r\n" *)
Definition line (s : bytes) : bytes := s ++ [13; 10].
(** Three reads of a response with a body; three of one with a chunked body. *)
Definition resp_ok : list bytes :=
  [B "HTTP/1.1 20"; B "0 OK" ++ [13; 10] ++ B "Conte"; B "nt-Length: 5" ++ [13; 10] ++ B "A: b" ++ [13; 10; 13; 10] ++ B "hel"; B "lo"].
Definition resp_chunked : list bytes :=
  [line (B "HTTP/1.1 200 OK") ++ line (B "Transfer-Encoding: chunked") ++ [13; 10] ++ line (B "4") ++ B "ab";
   line (B "cd") ++ line (B "3") ++ line (B "efg") ++ line (B "0") ++ [13; 10]].
