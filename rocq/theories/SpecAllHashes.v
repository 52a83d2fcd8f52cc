(** The hash functions of the multihash table that [Code] has, with their codes and lengths (C168). *)
From Verif Require Import Prelude Ext Spec SpecSha SpecSha512 SpecBlake3 SpecBlake2 SpecBlake2s SpecKeccak.

Definition hash_table : list (N * nat * (bytes -> bytes -> Prop)) :=
  [(0x12%N, 32%nat, sha256_of); (0x13%N, 64%nat, sha512_of);
   (0x14%N, 64%nat, sha3_of 64); (0x15%N, 48%nat, sha3_of 48); (0x16%N, 32%nat, sha3_of 32); (0x17%N, 28%nat, sha3_of 28);
   (0x1a%N, 28%nat, keccak_of 28); (0x1b%N, 32%nat, keccak_of 32); (0x1c%N, 48%nat, keccak_of 48); (0x1d%N, 64%nat, keccak_of 64);
   (0x1e%N, 32%nat, blake3_of);
   (0xb220%N, 32%nat, blake2b_of 32); (0xb240%N, 64%nat, blake2b_of 64);
   (0xb250%N, 16%nat, blake2s_of 16); (0xb260%N, 32%nat, blake2s_of 32)].
Definition table_digest (code : N) (m d : bytes) : Prop := exists n f, In (code, n, f) hash_table /\ f m d.
Definition all_multihashed (X : ext) : Prop := forall code m d, table_digest code m d -> x_hash X code m = d.
