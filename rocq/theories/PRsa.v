(** C137-C139: SHA-256, RSA signatures, second signatures. *)
From Verif Require Import Prelude Ord SMap Base58 BaseN Value Cbor Ext Json Capability Semantics Key KeySupport Der Sha256 RsaSign Ucan Builder Store Chain
  Spec SpecWire SpecCbor SpecSha SpecDer SpecRsa SpecTwin ShaFacts RsaFacts TwinFacts Samples SampleRsa.

(* ------------------------------------------------------------------- C137 *)

(** The hash is SHA-256. *)
Theorem C137_sha256 : forall m d, sha256 m = d <-> sha256_of m d.
Proof. exact (fun m d => conj (fun E => proj2 (sha256_iff m d) (eq_sym E)) (fun H => eq_sym (proj1 (sha256_iff m d) H))). Qed.
Print Assumptions C137_sha256.

(** The test vectors of FIPS 180-4. *)
Example C137_example :
  sha256_of (B "abc")
    [xba; x78; x16; xbf; x8f; x01; xcf; xea; x41; x41; x40; xde; x5d; xae; x22; x23;
     xb0; x03; x61; xa3; x96; x17; x7a; x9c; xb4; x10; xff; x61; xf2; x00; x15; xad] /\
  sha256_of (B "abcdbcdecdefdefgefghfghighijhijkijkljklmklmnlmnomnopnopq")
    [x24; x8d; x6a; x61; xd2; x06; x38; xb8; xe5; xc0; x26; x93; x0c; x3e; x60; x39;
     xa3; x3c; xe4; x59; x64; xff; x21; x67; xf6; xec; xed; xd4; x19; xdb; x06; xc1].
Proof. split; apply C137_sha256; vm_compute; reflexivity. Qed.

(* ------------------------------------------------------------------- C138 *)

(** What an RSA key verifies: the signatures of RFC 8017; without the test of the range, those up to
    multiples of the modulus. *)
Theorem C138_verify : forall range n e sk data sig, n <> 0%N ->
  (key_verify (rsa_material range (n, e) sk) data sig = Ok tt <->
   loose_signature n e data sig /\ (range = true -> place_value 256 (map bN sig) < n)%N) /\
  (key_verify (rsa_material range (n, e) sk) data sig <> Ok tt -> key_verify (rsa_material range (n, e) sk) data sig = Err ESignature).
Proof. exact material_verify. Qed.
Print Assumptions C138_verify.

(** What it signs: a key pair gives the signature of RFC 8017, and no other exists; a wrong private
    exponent never gives a wrong signature; from 489 bits on, a key pair always signs. *)
Theorem C138_sign : forall range n e d data,
  (forall sig, rsa_pair n e d ->
     (key_sign (rsa_material range (n, e) (Some (mkRsaPriv n e d))) data = Ok sig <-> pkcs1_signature n e data sig)) /\
  (forall sig, key_sign (rsa_material range (n, e) (Some (mkRsaPriv n e d))) data = Ok sig -> pkcs1_signature n e data sig) /\
  (rsa_pair n e d -> (256 ^ 61 <= n)%N -> exists sig, key_sign (rsa_material range (n, e) (Some (mkRsaPriv n e d))) data = Ok sig) /\
  (forall pk, key_sign (rsa_material range pk None) data = Err ENoPrivateKey).
Proof. exact material_sign. Qed.
Print Assumptions C138_sign.

(** A shorter modulus has no signatures. *)
Theorem C138_short : forall n e data sig, (n < 256 ^ 61)%N -> ~ loose_signature n e data sig.
Proof. exact too_short. Qed.
Print Assumptions C138_short.

(** Tokens: those of an RSA issuer pass the check of the signature exactly if they carry one. *)
Theorem C138_token : forall range slice n e t u st, registered slice [x85; x24] (bytes_to_rsa_key (rsa_pkcs1 range) sha256) ->
  with_parser slice st -> rsa_public_key n e t -> rsa_taken n e -> p_iss (u_payload u) = did_key_text ([x85; x24] ++ t) ->
  (fst (check_signature u st) = Ok tt <->
   loose_signature n e (u_signed_data u) (u_signature u) /\ (range = true -> place_value 256 (map bN (u_signature u)) < n)%N).
Proof. exact rsa_token. Qed.
Print Assumptions C138_token.

(** The loss without the test of the range: what is accepted is a signature modulo n ... *)
Theorem C138_range_loss : forall n e data sig, loose_signature n e data sig -> exists k sig',
  octets n k /\ pkcs1_signature n e data sig' /\ (place_value 256 (map bN sig') = place_value 256 (map bN sig) mod n)%N.
Proof. exact range_loss. Qed.
Print Assumptions C138_range_loss.

(** ... and all that fit are accepted. *)
Theorem C138_range_twin : forall n e k data sig i, octets n k -> loose_signature n e data sig ->
  (place_value 256 (map bN sig) + i * n < 256 ^ N.of_nat k)%N -> exists sig',
  loose_signature n e data sig' /\ (place_value 256 (map bN sig') = place_value 256 (map bN sig) + i * n)%N.
Proof. exact range_twin. Qed.
Print Assumptions C138_range_twin.

(** A key of 489 bits, a token it signed, and the signature plus the modulus. *)
Example C138_example :
  rsa_pair small_n 3 small_d /\ rsa_taken small_n 3 /\ rsa_public_key small_n 3 small_der /\
  key_sign (rsa_material true (small_n, 3%N) (Some (mkRsaPriv small_n 3 small_d))) small_data = Ok small_sig /\
  p_iss (u_payload (small_ucan small_sig)) = did_key_text ([x85; x24] ++ small_der) /\
  outcome (small_token small_sig) (rsa_state true) = Ok tt /\
  outcome (small_token small_twin) (rsa_state true) = Err ESignature /\
  outcome (small_token small_twin) (rsa_state false) = Ok tt.
Proof.
  split; [exact small_pair|]. split; [exact small_taken|]. split; [exact small_der_ok|]. split; [exact (small_signs true)|].
  split; [vm_compute; reflexivity|]. split; [vm_compute; reflexivity|]. split; vm_compute; reflexivity.
Qed.

(* ------------------------------------------------------------------- C139 *)

(** A header and payload can be accepted with two different signatures. *)
Theorem C139_one_signature_refuted : exists Pub Priv (C : crypto Pub Priv) slice E nt fuel st h p s s' c c' str str',
  ecdsa_crypto C /\ slice = [([x80; x24], bytes_to_p256_key C)] /\ with_parser slice st /\
  ~ In x2e h /\ ~ In x2e p /\ ~ In x2e s /\ ~ In x2e s' /\ s <> s' /\
  from_token E nt fuel (h ++ B "." ++ p ++ B "." ++ s) st = (Ok c, str) /\
  from_token E nt fuel (h ++ B "." ++ p ++ B "." ++ s') st = (Ok c', str').
Proof. exact two_tokens. Qed.
Print Assumptions C139_one_signature_refuted.

(** P-256: from every accepted token anybody has another one, with the same header, payload, proofs and report. *)
Theorem C139_p256_partial : forall Pub Priv (C : crypto Pub Priv) E nt fuel t st c st' slice tl, ecdsa_crypto C ->
  registered slice [x80; x24] (bytes_to_p256_key C) -> with_parser slice st ->
  from_token E nt fuel t st = (Ok c, st') -> p_iss (u_payload (c_ucan c)) = did_key_text ([x80; x24] ++ tl) ->
  exists a s s' rest c', t = a ++ B "." ++ s ++ rest /\ s' <> s /\
    a = u_signed_data (c_ucan c) /\ ~ In x2e s /\ ~ In x2e s' /\ (rest = [] \/ exists r, rest = B "." ++ r) /\
    from_token E nt fuel (a ++ B "." ++ s' ++ rest) st = (Ok c', st') /\
    u_header (c_ucan c') = u_header (c_ucan c) /\ u_payload (c_ucan c') = u_payload (c_ucan c) /\
    c_proofs c' = c_proofs c /\
    forall S A (SO : scope_ops S) (AO : ability_ops A) parse, reduce SO AO parse c' = reduce SO AO parse c.
Proof. exact (fun _ _ C E nt fuel t st c st' slice tl => accepted_twin C E nt fuel t st c st' slice tl). Qed.
Print Assumptions C139_p256_partial.

(** RSA with the test of the range: one signature for one header and payload. *)
Theorem C139_rsa_partial : forall E E' nt nt' fuel fuel' st st' c c' str str' slice h p s s' tl n e d,
  registered slice [x85; x24] (bytes_to_rsa_key (rsa_pkcs1 true) sha256) -> with_parser slice st -> with_parser slice st' ->
  e_ext E = e_ext E' -> ~ In x2e h -> ~ In x2e p -> ~ In x2e s -> ~ In x2e s' ->
  from_token E nt fuel (h ++ B "." ++ p ++ B "." ++ s) st = (Ok c, str) ->
  from_token E' nt' fuel' (h ++ B "." ++ p ++ B "." ++ s') st' = (Ok c', str') ->
  p_iss (u_payload (c_ucan c)) = did_key_text ([x85; x24] ++ tl) -> rsa_public_key n e tl -> rsa_pair n e d -> s = s'.
Proof. exact rsa_one_token. Qed.
Print Assumptions C139_rsa_partial.

(** ECDSA on three elements: s and 3 - s. *)
Example C139_example :
  ecdsa_crypto three_crypto /\ three_token 1 <> three_token 2 /\
  outcome (three_token 1) three_state = Ok tt /\ outcome (three_token 2) three_state = Ok tt /\
  outcome (three_token 3) three_state = Err ESignature.
Proof.
  split; [exact three_ecdsa|]. split; [vm_compute; discriminate|]. split; [vm_compute; reflexivity|]. split; vm_compute; reflexivity.
Qed.
