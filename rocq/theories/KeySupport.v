(** ucan-key-support/src/{ed25519,rsa,p256}.rs.  The cryptography is a parameter. *)
From Verif Require Import Prelude Ord SMap Base58 Key Ipld.

(** What the three files use of ed25519-zebra, rsa and p256.  Signing is modelled
    as deterministic (EdDSA, PKCS#1 v1.5 and RFC 6979 ECDSA are). *)
Record crypto (Pub Priv : Type) := mkCrypto {
  cr_encode : Pub -> option bytes;         (* as_ref / to_pkcs1_der / to_encoded_point(true) *)
  cr_decode : bytes -> option Pub;         (* TryFrom<&[u8]> / from_pkcs1_der *)
  cr_sign : Priv -> bytes -> option bytes;
  cr_verify : Pub -> bytes -> bytes -> bool  (* including the signature's own decoding *)
}.
Arguments mkCrypto {Pub Priv}.
Arguments cr_encode {Pub Priv}.
Arguments cr_decode {Pub Priv}.
Arguments cr_sign {Pub Priv}.
Arguments cr_verify {Pub Priv}.

(** [format!("did:key:z{}", bs58::encode(bytes).into_string())] *)
Definition did_key_of (bs : bytes) : bytes := did_key_prefix ++ b58_encode bs.

Section KeySupport.
  Context {Pub Priv : Type} (C : crypto Pub Priv).

  (** sign with an optional private key: ed25519.rs:32-41, rsa.rs:44-58, p256.rs:35-43 *)
  Definition km_sign (digest : bytes -> bytes) (sk : option Priv) (data : bytes) : res bytes :=
    match sk with
    | Some sk => ok_or (cr_sign C sk (digest data)) ESigning
    | None => Err ENoPrivateKey
    end.

  (** ed25519.rs:43-48, rsa.rs:60-69, p256.rs:45-50 *)
  Definition km_verify (digest : bytes -> bytes) (pk : Pub) (data sig : bytes) : res unit :=
    if cr_verify C pk (digest data) sig then Ok tt else Err ESignature.

  (** [Ed25519KeyMaterial(pk, sk)], ed25519.rs:17-49.  [as_ref] is total; a [None]
      of [cr_encode] (impossible for this crate) is mapped like RSA's. *)
  Definition ed25519_key (pk : Pub) (sk : option Priv) : key := {|
    key_alg := alg_to_string EdDSA;
    key_did := Ok (did_key_of (match cr_encode C pk with Some b => ed25519_magic ++ b | None => [] end));
    key_sign := km_sign (fun d => d) sk;
    key_verify := km_verify (fun d => d) pk
  |}.

  (** [P256KeyMaterial(pk, sk)], p256.rs:20-51 *)
  Definition p256_key (pk : Pub) (sk : option Priv) : key := {|
    key_alg := alg_to_string ES256;
    key_did := Ok (did_key_of (match cr_encode C pk with Some b => p256_magic ++ b | None => [] end));
    key_sign := km_sign (fun d => d) sk;
    key_verify := km_verify (fun d => d) pk
  |}.

  (** [RsaKeyMaterial(pk, sk)], rsa.rs:22-70: signs the SHA-256 of the payload; a
      failure to encode the public key yields the DID of no bytes (rsa.rs:33-40). *)
  Definition rsa_key (sha256 : bytes -> bytes) (pk : Pub) (sk : option Priv) : key := {|
    key_alg := alg_to_string RS256;
    key_did := Ok (did_key_of (match cr_encode C pk with Some b => rsa_magic ++ b | None => [] end));
    key_sign := km_sign sha256 sk;
    key_verify := km_verify sha256 pk
  |}.

  (** [bytes_to_ed25519_key], ed25519.rs:12-15 *)
  Definition bytes_to_ed25519_key (bs : bytes) : res key :=
    let? pk := ok_or (cr_decode C bs) EKeyBytes in Ok (ed25519_key pk None).
  (** [bytes_to_p256_key], p256.rs:14-17 *)
  Definition bytes_to_p256_key (bs : bytes) : res key :=
    let? pk := ok_or (cr_decode C bs) EKeyBytes in Ok (p256_key pk None).
  (** [bytes_to_rsa_key], rsa.rs:14-20 *)
  Definition bytes_to_rsa_key (sha256 : bytes -> bytes) (bs : bytes) : res key :=
    let? pk := ok_or (cr_decode C bs) EKeyBytes in Ok (rsa_key sha256 pk None).
End KeySupport.
