(** C150-C154: BLAKE3, BLAKE2b, and the CIDs of tokens under concrete hashes. *)
From Verif Require Import Prelude BaseN Value Cid Ext Json Capability Key Ucan Builder Store Chain Sha256 Sha512 Blake3 Blake2b Multihash
  Spec SpecWire SpecBlake3 SpecBlake2 SpecHash Blake3TreeFacts Blake2Facts HashFacts HashSampleFacts Samples SampleHash.

(* ------------------------------------------------------------------- C150 *)

(** The default hash of CIDs is BLAKE3: the digest the tree of chunks of the BLAKE3 paper has, for every message, and no other. *)
Theorem C150_blake3 : forall m d, blake3_of m d <-> blake3 m = d.
Proof. exact blake3_iff. Qed.
Print Assumptions C150_blake3.

(** Hashing in pieces, of any lengths, is hashing the whole: the stack of the incremental hasher holds no other state. *)
Theorem C150_pieces : forall pieces, b3_finalize (fold_left b3_update pieces b3_new) = blake3 (concat pieces).
Proof. exact blake3_pieces. Qed.
Print Assumptions C150_pieces.

Example C150_example : blake3_of (B "abc")
  [x64; x37; xb3; xac; x38; x46; x51; x33; xff; xb6; x3b; x75; x27; x3a; x8d; xb5; x48; xc5; x58; x46; x5d; x79; xdb; x03; xfd; x35; x9c; x6c; xd5; xbd; x9d; x85] /\
  b3_finalize (fold_left b3_update [B "a"; []; B "bc"] b3_new) =
  [x64; x37; xb3; xac; x38; x46; x51; x33; xff; xb6; x3b; x75; x27; x3a; x8d; xb5; x48; xc5; x58; x46; x5d; x79; xdb; x03; xfd; x35; x9c; x6c; xd5; xbd; x9d; x85].
Proof. exact abc_blake3. Qed.

(* ------------------------------------------------------------------- C151 *)

(** The hash of the test suite's other store is BLAKE2b of RFC 7693 with digests of 32 bytes and no key. *)
Theorem C151_blake2b256 : forall m d, blake2b256_of m d <-> blake2b256 m = d.
Proof. exact blake2b256_iff. Qed.
Print Assumptions C151_blake2b256.

Example C151_example : blake2b256_of (B "abc")
  [xbd; xdd; x81; x3c; x63; x42; x39; x72; x31; x71; xef; x3f; xee; x98; x57; x9b; x94; x96; x4e; x3b; xb1; xcb; x3e; x42; x72; x62; xc8; xc0; x68; xd5; x23; x19].
Proof. exact abc_blake2b. Qed.

(* ------------------------------------------------------------------- C152 *)

(** The four codes have one digest for every message, of 64 bytes for SHA-512 and 32 for the others. *)
Theorem C152_digests : forall code m,
  (In code [18; 19; 30; 45600]%N -> exists d, digest_of code m d) /\
  (forall d d', digest_of code m d -> digest_of code m d' -> d = d') /\
  forall d, digest_of code m d -> length d = (if (code =? 19)%N then 64%nat else 32%nat).
Proof. exact digests. Qed.
Print Assumptions C152_digests.

(** The modelled crate computes them. *)
Theorem C152_multihash : forall X, multihashed (with_hashes X).
Proof. exact with_hashes_multihashed. Qed.
Print Assumptions C152_multihash.

(** The text of the CID of a UCAN under any of them. *)
Theorem C152_cid_text : forall X code u t d, multihashed X -> token_text X u t -> digest_of code t d ->
  exists cb, shortest_varint code cb /\ cid_to_string (to_cid X code u) = B "b" ++ base32 ([x01; x55] ++ cb ++ [byteN (N.of_nat (length d))] ++ d).
Proof. exact cid_under_hash. Qed.
Print Assumptions C152_cid_text.

(** A witness without a choice of hash is cited by its BLAKE3 digest. *)
Theorem C152_default_citation : forall X b u t d, multihashed X -> token_text X u t -> blake3_of t d ->
  b_proofs (builder_step X b (WitnessedBy u None)) = b_proofs b ++ [B "b" ++ base32 ([x01; x55; x1e; x20] ++ d)].
Proof. exact default_proof_blake3. Qed.
Print Assumptions C152_default_citation.

Example C152_example : token_text hash_ext root_ucan hashed_text /\ blake3_of hashed_text hashed_digest /\
  cited hashed_ucan = [B "b" ++ base32 ([x01; x55; x1e; x20] ++ hashed_digest)].
Proof. exact sample_citation. Qed.

(* ------------------------------------------------------------------- C153 *)

(** Reading a CID a store returned for a block gives that block, unless a block with the same BLAKE3 digest was written too. *)
Theorem C153_read_back : forall X ops i j b c r, multihashed X -> (i < j)%nat ->
  op_at X ops i (SWrite (IBytes b)) (OWrite (Ok c)) -> op_at X ops j (SRead c) r ->
  exists b', written ops b' /\ r = ORead (Ok (Some (IBytes b'))) /\ (b = b' \/ b3_collision b b').
Proof. exact read_back_collision. Qed.
Print Assumptions C153_read_back.

(** What a builder cites by default resolves in a store that holds it, to what its token parses as, unless the store
    holds a collision with it. *)
Theorem C153_cited_resolves : forall X E ops u pu, multihashed X -> e_ext E = X ->
  (forall n d, e_read E n d = mem_read (snd (store_run X [] ops)) d) -> written ops (encode X u) -> parse_token X (encode X u) = Ok pu ->
  resolves E (fun _ => True) (proof_text X u None) pu \/ exists b, written ops b /\ b3_collision (encode X u) b.
Proof. exact cited_resolves_collision. Qed.
Print Assumptions C153_cited_resolves.

Example C153_example : (forall n d, e_read hashed_env' n d = mem_read (snd (store_run hash_ext [] hashed_ops')) d) /\
  written hashed_ops' (encode hash_ext root_ucan) /\ parse_token hash_ext (encode hash_ext root_ucan) = Ok root_ucan /\
  op_at hash_ext (hashed_ops ++ [SRead (block_cid hash_ext hashed_text)]) 1 (SRead (block_cid hash_ext hashed_text)) (ORead (Ok (Some (IBytes hashed_text)))).
Proof. exact sample_reads. Qed.

(* ------------------------------------------------------------------- C154 *)

(** Whatever two memory stores hold, and however they change meanwhile: a UCAN accepted against both, at any times,
    gives the same chain, unless the stores answered one CID with different tokens, which then are a collision of BLAKE3. *)
Theorem C154_one_chain : forall E E' nt nt' slice slice' f f' u st st' c c',
  memory_backed E -> memory_backed E' -> e_ext E' = e_ext E -> multihashed (e_ext E) ->
  with_parser slice st -> with_parser slice' st' ->
  fst (from_ucan E nt f u st) = Ok c -> fst (from_ucan E' nt' f' u st') = Ok c' ->
  c = c' \/ answers_collide E E' c c'.
Proof. exact stores_agree. Qed.
Print Assumptions C154_one_chain.

Example C154_example : memory_backed hashed_env /\ memory_backed hashed_env' /\ multihashed hash_ext /\
  fst (from_ucan hashed_env None 3 hashed_ucan sample_state) = Ok hashed_chain /\
  fst (from_ucan hashed_env' None 3 hashed_ucan sample_state) = Ok hashed_chain.
Proof. exact sample_chains. Qed.
