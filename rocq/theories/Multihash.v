(** [Code::digest] of the crate multihash (not in the repository), called at ucan/src/ucan.rs:177-181,
    ucan/src/store.rs:123 and ucan/src/tests/fixtures/store.rs:41.  Four of its codes are modelled;
    the others (SHA-3, Keccak, BLAKE2s, other lengths) stay with the function given. *)
From Verif Require Import Prelude Ext Store Fixtures Sha256 Sha512 Blake3 Blake2b.

Definition code_digest (others : N -> bytes -> bytes) (code : N) (m : bytes) : bytes :=
  if (code =? 18)%N then sha256 m
  else if (code =? 19)%N then sha512 m
  else if (code =? blake3_256)%N then blake3 m
  else if (code =? blake2b_256)%N then blake2b256 m
  else others code m.
Definition with_hashes (X : ext) : ext :=
  mkExt (x_f64_print X) (x_f64_parse X) (x_value_i128 X) (x_dagjson_end X) (x_multibase X) (x_url_hier X) (code_digest (x_hash X)) (x_overflow_checks X).
