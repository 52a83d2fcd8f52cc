(** C144: SHA-512. *)
From Verif Require Import Prelude Ext Capability Key KeySupport Ucan Store Chain Sha512 Ed25519 Spec SpecWire SpecCbor SpecSha512 SpecEd
  Sha512Facts EdFacts P256TokenFacts SampleP256.

(* ------------------------------------------------------------------- C144 *)

(** The hash is SHA-512. *)
Theorem C144_sha512 : forall m d, sha512 m = d <-> sha512_of m d.
Proof. exact sha512_char. Qed.
Print Assumptions C144_sha512.

(** With it, the tokens of an Ed25519 issuer are checked by the rules of ZIP 215 for the hash of FIPS 180-4. *)
Theorem C144_token : forall H slice ab u st, (forall m, sha512_of m (H m)) ->
  registered slice [xed; x01] (bytes_to_ed25519_key (ed25519_zebra sha512)) -> with_parser slice st ->
  p_iss (u_payload u) = did_key_text ([xed; x01] ++ ab) ->
  (fst (check_signature u st) = Ok tt <-> zip215 H ab (u_signed_data u) (u_signature u)).
Proof. exact sha512_token. Qed.
Print Assumptions C144_token.

(** And a seed signs as RFC 8032 says with that hash. *)
Theorem C144_seeds : forall H seed data sig, (forall m, sha512_of m (H m)) -> let sk := ed_signing_key sha512 seed in
  (key_sign (ed25519_material sha512 (es_pub sk) (Some sk)) data = Ok sig <-> ed_signature_of H seed data sig).
Proof. exact sha512_seeds. Qed.
Print Assumptions C144_seeds.

(** The test vector of FIPS 180-4, and a hash. *)
Example C144_example :
  sha512_of (B "abc")
    [xdd; xaf; x35; xa1; x93; x61; x7a; xba; xcc; x41; x73; x49; xae; x20; x41; x31;
     x12; xe6; xfa; x4e; x89; xa9; x7e; xa2; x0a; x9e; xee; xe6; x4b; x55; xd3; x9a;
     x21; x92; x99; x2a; x27; x4f; xc1; xa8; x36; xba; x3c; x23; xa3; xfe; xeb; xbd;
     x45; x4d; x44; x23; x64; x3c; xe8; x0e; x2a; x9a; xc9; x4f; xa5; x4c; xa4; x9f] /\
  (forall m, sha512_of m (sha512 m)) /\ forall m, length (sha512 m) = 64%nat.
Proof.
  split; [apply C144_sha512; vm_compute; reflexivity|]. split; [intros m; apply C144_sha512; reflexivity | exact sha512_length].
Qed.
