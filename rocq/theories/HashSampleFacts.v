(** The samples of C150-C154. *)
From Verif Require Import Prelude BaseN Value Cid Ext Json Capability Key Ucan Builder Store Chain Sha256 Sha512 Blake3 Blake2b Multihash
  Spec SpecWire SpecBlake3 SpecBlake2 SpecHash WireFacts Blake3TreeFacts Blake2Facts HashFacts Samples SampleHash.

Lemma digests code m : (In code [18; 19; 30; 45600]%N -> exists d, digest_of code m d) /\
  (forall d d', digest_of code m d -> digest_of code m d' -> d = d') /\
  forall d, digest_of code m d -> length d = (if (code =? 19)%N then 64%nat else 32%nat).
Proof. split; [apply digest_exists | split; [apply digest_fun | apply digest_length]]. Qed.

Definition abc_digest : bytes :=
  [x64; x37; xb3; xac; x38; x46; x51; x33; xff; xb6; x3b; x75; x27; x3a; x8d; xb5; x48; xc5; x58; x46; x5d; x79; xdb; x03; xfd; x35; x9c; x6c; xd5; xbd; x9d; x85].
Lemma abc_value : blake3 (B "abc") = abc_digest.
Proof. vm_compute. reflexivity. Qed.
Lemma abc_blake3 : blake3_of (B "abc") abc_digest /\ b3_finalize (fold_left b3_update [B "a"; []; B "bc"] b3_new) = abc_digest.
Proof. split; [apply blake3_iff; exact abc_value|]. rewrite blake3_pieces. exact abc_value. Qed.
Lemma abc_blake2b : blake2b256_of (B "abc")
  [xbd; xdd; x81; x3c; x63; x42; x39; x72; x31; x71; xef; x3f; xee; x98; x57; x9b; x94; x96; x4e; x3b; xb1; xcb; x3e; x42; x72; x62; xc8; xc0; x68; xd5; x23; x19].
Proof. apply blake2b256_iff. vm_compute. reflexivity. Qed.

Lemma text_value : encode hash_ext root_ucan = hashed_text.
Proof. vm_compute. reflexivity. Qed.
Lemma digest_value : blake3 hashed_text = hashed_digest.
Proof. vm_compute. reflexivity. Qed.
Lemma cited_value : cited hashed_ucan = [B "b" ++ base32 ([x01; x55; x1e; x20] ++ hashed_digest)].
Proof. vm_compute. reflexivity. Qed.
Lemma sample_citation : token_text hash_ext root_ucan hashed_text /\ blake3_of hashed_text hashed_digest /\
  cited hashed_ucan = [B "b" ++ base32 ([x01; x55; x1e; x20] ++ hashed_digest)].
Proof. split; [apply encode_is_token_text; exact text_value | split; [apply blake3_iff; exact digest_value | exact cited_value]]. Qed.

Lemma store_value : snd (store_run hash_ext [] hashed_ops) = hashed_store.
Proof. vm_compute. reflexivity. Qed.
Lemma store_value' : snd (store_run hash_ext [] hashed_ops') = hashed_store'.
Proof. vm_compute. reflexivity. Qed.
Lemma parse_value : parse_token hash_ext hashed_text = Ok root_ucan.
Proof. vm_compute. reflexivity. Qed.
Definition hashed_cid : cid := cid_new_v1 85 30 hashed_digest.
Lemma cid_value : block_cid hash_ext hashed_text = hashed_cid.
Proof. unfold block_cid, hashed_cid. cbn [hash_ext with_hashes x_hash]. unfold code_digest. change (blake3_256 =? 18)%N with false. change (blake3_256 =? 19)%N with false.
  change (blake3_256 =? blake3_256)%N with true. cbv iota. rewrite digest_value. reflexivity. Qed.
Lemma sample_reads : (forall n d, e_read hashed_env' n d = mem_read (snd (store_run hash_ext [] hashed_ops')) d) /\
  written hashed_ops' (encode hash_ext root_ucan) /\ parse_token hash_ext (encode hash_ext root_ucan) = Ok root_ucan /\
  op_at hash_ext (hashed_ops ++ [SRead (block_cid hash_ext hashed_text)]) 1 (SRead (block_cid hash_ext hashed_text)) (ORead (Ok (Some (IBytes hashed_text)))).
Proof.
  rewrite text_value, cid_value. split; [intros n d; rewrite store_value'; reflexivity|]. split; [right; left; reflexivity|]. split; [exact parse_value|].
  split; [reflexivity|]. vm_compute. reflexivity.
Qed.
Lemma sample_chains : memory_backed hashed_env /\ memory_backed hashed_env' /\ multihashed hash_ext /\
  fst (from_ucan hashed_env None 3 hashed_ucan sample_state) = Ok hashed_chain /\
  fst (from_ucan hashed_env' None 3 hashed_ucan sample_state) = Ok hashed_chain.
Proof.
  split; [intros n; exists hashed_ops; intros c; change (e_ext hashed_env) with hash_ext; rewrite store_value; reflexivity|].
  split; [intros n; exists hashed_ops'; intros c; change (e_ext hashed_env') with hash_ext; rewrite store_value'; reflexivity|].
  split; [apply with_hashes_multihashed|]. split; vm_compute; reflexivity.
Qed.
