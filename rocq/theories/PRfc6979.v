(** C158-C159: the nonces of P-256 signatures. *)
From Verif Require Import Prelude Ord SMap Base58 Value Cbor Ext Json Capability Semantics Key KeySupport Sha256 P256 Rfc6979 Ucan Builder Store Chain
  Spec SpecWire SpecCbor SpecSha SpecTwin SpecP256 SpecRfc6979 Rfc6979Facts Samples SampleRfc.

(* ------------------------------------------------------------------- C158 *)

(** The code computes HMAC with SHA-256. *)
Theorem C158_hmac : forall key m d, hmac_of key m d <-> hmac_sha256 key m = d.
Proof. exact hmac_iff. Qed.
Print Assumptions C158_hmac.

(** The nonce is that of RFC 6979: what the loop finds is it, and it is found if there is one. *)
Theorem C158_nonce : forall reduced d data n, (d < 256 ^ N.of_nat 32)%N ->
  (rfc6979_nonce reduced d data n <-> n <> 0%N /\ exists fuel, forall fuel', (fuel <= fuel')%nat -> rfc_nonce reduced fuel' d data = n).
Proof. exact nonce_iff. Qed.
Print Assumptions C158_nonce.

(** Found early, it is the same. *)
Theorem C158_found : forall reduced fuel d data, (d < 256 ^ N.of_nat 32)%N -> rfc_nonce reduced fuel d data <> 0%N ->
  rfc6979_nonce reduced d data (rfc_nonce reduced fuel d data).
Proof. exact nonce_found. Qed.
Print Assumptions C158_found.

(** There is at most one, and it is a scalar. *)
Theorem C158_one : forall reduced d data n n', rfc6979_nonce reduced d data n -> rfc6979_nonce reduced d data n' -> n = n'.
Proof. exact nonce_one. Qed.
Print Assumptions C158_one.
Theorem C158_range : forall reduced d data n, rfc6979_nonce reduced d data n -> (0 < n)%N /\ (Z.of_N n < p256_order)%Z.
Proof. exact nonce_range. Qed.
Print Assumptions C158_range.

(** The vectors of RFC 4231, 4.3 and RFC 6979, A.2.5. *)
Example C158_example : hmac_of (B "Jefe") (B "what do ya want for nothing?") jefe_mac /\ forall reduced, rfc6979_nonce reduced rfc_key (B "sample") rfc_k.
Proof. exact (conj jefe rfc_vector). Qed.

(* ------------------------------------------------------------------- C159 *)

(** A signature is the one of that nonce. *)
Theorem C159_signs : forall reduced fuel d P data sig, p256_key_pair d P ->
  key_sign (p256_material (rfc_nonce reduced fuel) P (Some (mkQPriv d P))) data = Ok sig ->
  exists k, rfc6979_nonce reduced d data k /\ p256_signed d k data sig.
Proof. exact rfc_signs. Qed.
Print Assumptions C159_signs.

(** That one is made, given time. *)
Theorem C159_made : forall reduced d P data k sig, p256_key_pair d P -> rfc6979_nonce reduced d data k -> p256_signed d k data sig ->
  exists fuel, forall fuel', (fuel <= fuel')%nat -> key_sign (p256_material (rfc_nonce reduced fuel') P (Some (mkQPriv d P))) data = Ok sig.
Proof. exact rfc_signs_enough. Qed.
Print Assumptions C159_made.

(** A key and a text have one signature. *)
Theorem C159_once : forall reduced fuel fuel' d P data sig sig', p256_key_pair d P ->
  key_sign (p256_material (rfc_nonce reduced fuel) P (Some (mkQPriv d P))) data = Ok sig ->
  key_sign (p256_material (rfc_nonce reduced fuel') P (Some (mkQPriv d P))) data = Ok sig' -> sig = sig'.
Proof. exact rfc_signs_once. Qed.
Print Assumptions C159_once.

(** The signature of a token is that of its text. *)
Theorem C159_token : forall reduced fuel d P X rng s u, p256_key_pair d P ->
  s_issuer s = p256_material (rfc_nonce reduced fuel) P (Some (mkQPriv d P)) -> sign X rng s = Ok u ->
  exists k, rfc6979_nonce reduced d (u_signed_data u) k /\ p256_signed d k (u_signed_data u) (u_signature u).
Proof. exact fresh_rfc_nonce. Qed.
Print Assumptions C159_token.

(** Tokens signed so pass, at once and after transport: nothing is left to assume of the nonces (compare C149). *)
Theorem C159_fresh : forall reduced fuel d P X rng s u slice st, p256_key_pair d P ->
  s_issuer s = p256_material (rfc_nonce reduced fuel) P (Some (mkQPriv d P)) -> sign X rng s = Ok u ->
  registered slice [x80; x24] (bytes_to_p256_key (p256_crate (rfc_nonce reduced fuel))) -> with_parser slice st ->
  fst (check_signature u st) = Ok tt /\ forall v, signable_carried X s -> parse_token X (encode X u) = Ok v -> fst (check_signature v st) = Ok tt.
Proof. exact fresh_rfc. Qed.
Print Assumptions C159_fresh.

(** The signature of RFC 6979, A.2.5, and a token of its key. *)
Example C159_example : p256_key_pair rfc_key rfc_pub /\ p256_signed rfc_key rfc_k (B "sample") rfc_sig /\
  (forall reduced, key_sign (p256_material (rfc_nonce reduced 1) rfc_pub (Some (mkQPriv rfc_key rfc_pub))) (B "sample") = Ok rfc_sig) /\
  sign sample_ext [] rfc_signable = Ok rfc_ucan /\ registered rfc_slice [x80; x24] (bytes_to_p256_key (p256_crate (rfc_nonce false 1))) /\
  with_parser rfc_slice rfc_state.
Proof. exact (conj rfc_pair (conj rfc_signed (conj rfc_model (conj rfc_made (conj rfc_registered rfc_parser))))). Qed.
