(** SpecSize.v — the vocabulary of C85: two platforms that differ in the width of size_t. *)
From Verif Require Import Base Lib ModelRequest ModelSend ModelResponse SpecRequest SpecSend SpecResponse.

(** The same configuration (HTTP_USER_AGENT_VALUE, HTTP_SEND_RETRY_TIMEOUT_MS, HTTP_RECV_RETRY_TIMEOUT_MS); SIZE_MAX may differ. *)
Definition same_settings (c1 c2 : config) : Prop := UA c1 = UA c2 /\ SEND_TO c1 = SEND_TO c2 /\ RECV_TO c1 = RECV_TO c2.
(** The content length the parser found (UINT64_MAX: none) can be stored in either size_t. *)
Definition length_fits (c1 c2 : config) (clen : Z) : Prop := clen = UINT64_MAX \/ 0 <= clen < SZ c1 /\ clen < SZ c2.
(** The same response structure, but that contentLength may differ. *)
Definition but_for_length (r1 r2 : response) : Prop :=
  r2 = mkresp (r_buf r1) (r_bufLen r1) (r_cb r1) (r_time r1) (r_headers r1) (r_headersLen r1) (r_body r1) (r_bodyLen r1)
              (r_status r1) (r_clen r2) (r_hcount r1) (r_hdone r1) (r_opt r1) (r_flags r1).
