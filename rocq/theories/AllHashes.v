(** Every code of the crate multihash with its default features, those of cid (Cargo.toml of ucan: [cid = "0.10"]): what
    [Code::digest] computes at ucan/src/ucan.rs:177-181.  Codes that are not of the type [Code] stay with the function given. *)
From Verif Require Import Prelude Ext Multihash Keccak Blake2s.

Definition more_digest (others : N -> bytes -> bytes) (code : N) (m : bytes) : bytes :=
  if (code =? 0x14)%N then sha3 64 m
  else if (code =? 0x15)%N then sha3 48 m
  else if (code =? 0x16)%N then sha3 32 m
  else if (code =? 0x17)%N then sha3 28 m
  else if (code =? 0x1a)%N then keccak_old 28 m
  else if (code =? 0x1b)%N then keccak_old 32 m
  else if (code =? 0x1c)%N then keccak_old 48 m
  else if (code =? 0x1d)%N then keccak_old 64 m
  else if (code =? 0xb240)%N then blake2b 64 m
  else if (code =? 0xb250)%N then blake2s 16 m
  else if (code =? 0xb260)%N then blake2s 32 m
  else others code m.
Definition with_all_hashes (X : ext) : ext :=
  mkExt (x_f64_print X) (x_f64_parse X) (x_value_i128 X) (x_dagjson_end X) (x_multibase X) (x_url_hier X) (code_digest (more_digest (x_hash X))) (x_overflow_checks X).
