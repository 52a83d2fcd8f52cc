(** Sample digests and citations under the other hashes (C166-C168). *)
From Verif Require Import Prelude Value Cid Ext Json Capability Key Ucan Builder Samples SampleHash Keccak Blake2s AllHashes Multihash
  Spec SpecWire SpecKeccak SpecBlake2s SpecAllHashes WireFacts KeccakFacts Blake2bFacts Blake2sFacts AllHashesFacts.

Lemma abc_sha3 : sha3_of 28 (B "abc")
  [xe6; x42; x82; x4c; x3f; x8c; xf2; x4a; xd0; x92; x34; xee; x7d; x3c; x76; x6f; xc9; xa3; xa5; x16; x8d; x0c; x94; xad; x73; xb4; x6f; xdf] /\
  keccak_of 32 []
  [xc5; xd2; x46; x01; x86; xf7; x23; x3c; x92; x7e; x7d; xb2; xdc; xc7; x03; xc0; xe5; x00; xb6; x53; xca; x82; x27; x3b; x7b; xfa; xd8; x04; x5d; x85; xa4; x70].
Proof.
  destruct lengths as (D28 & D32 & _). split; [apply (sha3_iff 28 _ _ D28) | apply (keccak_iff 32 _ _ D32)]; vm_compute; reflexivity.
Qed.
Lemma abc_blake2 : blake2b_of 64 (B "abc")
  [xba; x80; xa5; x3f; x98; x1c; x4d; x0d; x6a; x27; x97; xb6; x9f; x12; xf6; xe9; x4c; x21; x2f; x14; x68; x5a; xc4; xb7; x4b; x12; xbb; x6f; xdb; xff; xa2; xd1;
   x7d; x87; xc5; x39; x2a; xab; x79; x2d; xc2; x52; xd5; xde; x45; x33; xcc; x95; x18; xd3; x8a; xa8; xdb; xf1; x92; x5a; xb9; x23; x86; xed; xd4; x00; x99; x23] /\
  blake2s_of 16 (B "abc") [xaa; x49; x38; x11; x9b; x1d; xc7; xb8; x7c; xba; xd0; xff; xd2; x00; xd0; xae].
Proof. split; [apply (blake2b_iff 64); [lia|] | apply (blake2s_iff 16); [lia|]]; vm_compute; reflexivity. Qed.
Lemma all_citations : token_text (with_all_hashes sample_ext) root_ucan hashed_text /\
  cid_to_string (to_cid (with_all_hashes sample_ext) 0x16 root_ucan) = B "bafkrmiazlfqwdrij2332tmnrkup4iaas23gl5j4a6at27tdhgiy5oqaoom" /\
  cid_to_string (to_cid (with_all_hashes sample_ext) 0xb250 root_ucan) = B "bafk5bzaccaycd3eaxxuatrdx6i3carxqn77a".
Proof. split; [apply encode_is_token_text; vm_compute; reflexivity|]. split; vm_compute; reflexivity. Qed.
