(** Demo.v — concrete data used by the Examples that show hypotheses are satisfiable, and by the
    witnesses of refuted properties. *)
From Verif Require Import Base Lib ModelRequest SpecRequest ProofsRequest.

Definition cfg0 : config := mkconfig 4294967296 (B "my-platform-name") 1000 1000.
Lemma cfg0_ok : config_ok cfg0.
Proof.
  unfold config_ok, cfg0, two32. cbn [SZ UA SEND_TO RECV_TO].
  split; [lia|]. split; [discriminate|]. split; [apply all_legal_value; reflexivity|].
  split; [reflexivity|]. lia.
Qed.

(** Block 0: a 200-byte request buffer. *)
Definition m0 : mem := [repeat 0 200].
Definition buf0 : ptr := mkptr 0 0.
Definition h0 : reqHeaders := mkrh (Some buf0) 200 0.
Definition ri0 : reqInfo := mkri (SLit (B "GET")) 3 (SLit (B "/index.html")) 11 (SLit (B "example.com")) 11 1.

Lemma m0_obj : object m0 buf0 200.
Proof. unfold object, m0, buf0, blk. cbn [pb po nth]. vm_compute. repeat split; discriminate. Qed.

Ltac litarg := split; [split; [reflexivity|split; [vm_compute; discriminate|reflexivity]]|exact I].

Lemma ri0_args : init_args cfg0 m0 buf0 200 ri0 (B "GET") (B "/index.html") (B "example.com").
Proof.
  unfold init_args, ri0. cbn [ri_method ri_methodLen ri_path ri_pathLen ri_host ri_hostLen].
  split; [litarg|]. split; [lia|].
  split; [right; split; [discriminate|]; split; [lia|]; split; [reflexivity|split; [vm_compute; discriminate|reflexivity]]|].
  split; [lia|]. split; [exact I|]. split; [litarg|]. split; [lia|]. vm_compute. reflexivity.
Qed.

(** A buffer already holding a request. *)
Definition req1 : bytes := request_line (B "GET") (B "/") ++ header_line (B "Host") (B "h") ++ CRLF.
Definition m1 : mem := [req1 ++ repeat 0 100].
Definition h1 : reqHeaders := mkrh (Some buf0) (zlen req1 + 100) (zlen req1).
Lemma h1_holds : holds m1 h1 buf0 (zlen req1 + 100) req1.
Proof.
  split; [reflexivity|]. split; [reflexivity|]. split.
  - vm_compute. repeat split; discriminate.
  - split; [vm_compute; repeat split; discriminate|reflexivity].
Qed.
