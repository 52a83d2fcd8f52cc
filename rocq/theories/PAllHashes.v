(** C166-C168: SHA-3, Keccak, BLAKE2b of other lengths, BLAKE2s, and citations under every hash a CID can have. *)
From Verif Require Import Prelude Value Cid Ext Json Capability Key Ucan Builder Keccak Blake2s AllHashes Spec SpecWire SpecHash SpecKeccak SpecBlake2s SpecAllHashes
  KeccakFacts Blake2bFacts Blake2sFacts AllHashesFacts AllSampleFacts Samples SampleHash.

(* ------------------------------------------------------------------- C166 *)

(** SHA-3 of FIPS 202, bit by bit, for each of its four lengths. *)
Theorem C166_sha3 : forall n m d, In n [28; 32; 48; 64]%nat -> (sha3_of n m d <-> d = sha3 n m).
Proof. exact sha3_iff. Qed.
Print Assumptions C166_sha3.

(** Keccak as it was before the two bits of SHA-3. *)
Theorem C166_keccak : forall n m d, In n [28; 32; 48; 64]%nat -> (keccak_of n m d <-> d = keccak_old n m).
Proof. exact keccak_iff. Qed.
Print Assumptions C166_keccak.

Example C166_example : sha3_of 28 (B "abc")
  [xe6; x42; x82; x4c; x3f; x8c; xf2; x4a; xd0; x92; x34; xee; x7d; x3c; x76; x6f; xc9; xa3; xa5; x16; x8d; x0c; x94; xad; x73; xb4; x6f; xdf] /\
  keccak_of 32 []
  [xc5; xd2; x46; x01; x86; xf7; x23; x3c; x92; x7e; x7d; xb2; xdc; xc7; x03; xc0; xe5; x00; xb6; x53; xca; x82; x27; x3b; x7b; xfa; xd8; x04; x5d; x85; xa4; x70].
Proof. exact abc_sha3. Qed.

(* ------------------------------------------------------------------- C167 *)

(** BLAKE2b and BLAKE2s of RFC 7693, for digests of every length they have. *)
Theorem C167_blake2b : forall n m d, (n <= 64)%nat -> (blake2b_of n m d <-> blake2b n m = d).
Proof. exact blake2b_iff. Qed.
Print Assumptions C167_blake2b.
Theorem C167_blake2s : forall n m d, (n <= 32)%nat -> (blake2s_of n m d <-> blake2s n m = d).
Proof. exact blake2s_iff. Qed.
Print Assumptions C167_blake2s.

Example C167_example : blake2b_of 64 (B "abc")
  [xba; x80; xa5; x3f; x98; x1c; x4d; x0d; x6a; x27; x97; xb6; x9f; x12; xf6; xe9; x4c; x21; x2f; x14; x68; x5a; xc4; xb7; x4b; x12; xbb; x6f; xdb; xff; xa2; xd1;
   x7d; x87; xc5; x39; x2a; xab; x79; x2d; xc2; x52; xd5; xde; x45; x33; xcc; x95; x18; xd3; x8a; xa8; xdb; xf1; x92; x5a; xb9; x23; x86; xed; xd4; x00; x99; x23] /\
  blake2s_of 16 (B "abc") [xaa; x49; x38; x11; x9b; x1d; xc7; xb8; x7c; xba; xd0; xff; xd2; x00; xd0; xae].
Proof. exact abc_blake2. Qed.

(* ------------------------------------------------------------------- C168 *)

(** Each of the fifteen functions gives every message one digest, of the length in the table. *)
Theorem C168_digests : forall code n f m, In (code, n, f) hash_table -> exists d, f m d /\ length d = n /\ forall d', f m d' -> d' = d.
Proof. exact table_digests. Qed.
Print Assumptions C168_digests.

(** The modelled crate computes them, and what was said of four of the codes holds of all. *)
Theorem C168_multihash : forall X, all_multihashed (with_all_hashes X).
Proof. exact all_hashes. Qed.
Print Assumptions C168_multihash.
Theorem C168_contains : forall code m d, digest_of code m d -> table_digest code m d.
Proof. exact old_table. Qed.
Print Assumptions C168_contains.

(** The text of the CID of a UCAN under any of the codes. *)
Theorem C168_cid_text : forall X code u t d, all_multihashed X -> token_text X u t -> table_digest code t d ->
  exists cb, shortest_varint code cb /\ cid_to_string (to_cid X code u) = B "b" ++ base32 ([x01; x55] ++ cb ++ [byteN (N.of_nat (length d))] ++ d).
Proof. exact cid_under_any. Qed.
Print Assumptions C168_cid_text.

(** A witness cited under any of them. *)
Theorem C168_citation : forall X b code u t d, all_multihashed X -> token_text X u t -> table_digest code t d ->
  exists cb, shortest_varint code cb /\
    b_proofs (builder_step X b (WitnessedBy u (Some code))) = b_proofs b ++ [B "b" ++ base32 ([x01; x55] ++ cb ++ [byteN (N.of_nat (length d))] ++ d)].
Proof. exact witness_under_any. Qed.
Print Assumptions C168_citation.

(** Citations under different codes differ; under one code they agree only if the digests do. *)
Theorem C168_apart : forall X code code' n n' f f' u u' t t', all_multihashed X -> In (code, n, f) hash_table -> In (code', n', f') hash_table ->
  token_text X u t -> token_text X u' t' -> cid_to_string (to_cid X code u) = cid_to_string (to_cid X code' u') ->
  code = code' /\ exists d, f t d /\ f' t' d.
Proof. exact citation_tells. Qed.
Print Assumptions C168_apart.

Example C168_example : token_text (with_all_hashes sample_ext) root_ucan hashed_text /\
  cid_to_string (to_cid (with_all_hashes sample_ext) 0x16 root_ucan) = B "bafkrmiazlfqwdrij2332tmnrkup4iaas23gl5j4a6at27tdhgiy5oqaoom" /\
  cid_to_string (to_cid (with_all_hashes sample_ext) 0xb250 root_ucan) = B "bafk5bzaccaycd3eaxxuatrdx6i3carxqn77a".
Proof. exact all_citations. Qed.
