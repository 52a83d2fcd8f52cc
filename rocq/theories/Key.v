(** ucan/src/crypto/key.rs and ucan/src/crypto/did.rs *)
From Verif Require Import Prelude Ord SMap Base58.

(** A [KeyMaterial] trait object, key.rs:23-36: the record of its methods.
    Keys are assumed to be pure (no interior state). *)
Record key := mkKey {
  key_alg : bytes;                              (* get_jwt_algorithm_name *)
  key_did : res bytes;                          (* get_did *)
  key_sign : bytes -> res bytes;                (* sign *)
  key_verify : bytes -> bytes -> res unit       (* verify payload signature *)
}.

(** did.rs:11-12 *)
Definition did_prefix : bytes := B "did:".
Definition did_key_prefix : bytes := B "did:key:z".

(** did.rs:14-19 *)
Definition ed25519_magic : bytes := [xed; x01].
Definition rsa_magic : bytes := [x85; x24].
Definition bls12381g1_magic : bytes := [xea; x01].
Definition bls12381g2_magic : bytes := [xeb; x01].
Definition p256_magic : bytes := [x80; x24].
Definition secp256k1_magic : bytes := [xe7; x01].

(** [BytesToKey], did.rs:6 *)
Definition ctor := bytes -> res key.

(** [DidParser], did.rs:25-28 *)
Record did_parser := mkParser {
  dp_ctors : smap bytes ctor;
  dp_cache : smap bytes key
}.

(** [DidParser::new], did.rs:31-40 *)
Definition did_parser_new (slice : list (bytes * ctor)) : did_parser :=
  {| dp_ctors := mof_list slice; dp_cache := [] |}.

(** [DidParser::parse], did.rs:42-66: the outcome and the parser afterwards. *)
Definition did_parse (p : did_parser) (did : bytes) : res key * did_parser :=
  match strip_prefix did_key_prefix did with
  | None => (Err ENotDidKey, p)
  | Some rest =>
      match mget did (dp_cache p) with
      | Some k => (Ok k, p)
      | None =>
          match b58_decode rest with
          | None => (Err EBase58, p)
          | Some (m0 :: m1 :: tl) =>
              match mget [m0; m1] (dp_ctors p) with
              | Some ctor =>
                  match ctor tl with
                  | Ok k =>
                      let p' := {| dp_ctors := dp_ctors p; dp_cache := minsert did k (dp_cache p) |} in
                      (ok_or (mget did (dp_cache p')) ENoCachedKey, p')
                  | Err e => (Err e, p)
                  | Panic q => (Panic q, p)
                  | Diverged => (Diverged, p)
                  end
              | None => (Err EUnknownMagic, p)
              end
          | Some _ => (Panic PDidSlice, p)          (* did_bytes[0..2] *)
          end
      end
  end.
