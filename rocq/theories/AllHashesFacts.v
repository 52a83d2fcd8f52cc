(** Proofs about the table of hashes (C168). *)
From Verif Require Import Prelude Value Cid Ext Json Capability Key Ucan Builder Store Sha256 Sha512 Blake3 Blake2b Ed25519 Multihash Keccak Blake2s AllHashes
  Spec SpecWire SpecSha SpecSha512 SpecBlake3 SpecBlake2 SpecBlake2s SpecKeccak SpecHash SpecAllHashes
  OrdFacts CidFacts WireFacts ShaFacts Sha512Facts Blake3TreeFacts Blake2Facts HashFacts KeccakFacts Blake2bFacts Blake2sFacts.

Lemma blake2b_32 m : blake2b 32 m = blake2b256 m.
Proof.
  unfold blake2b, blake2b256. rewrite flat_map_concat_map. change (b2_start 32) with b2_init. apply (first_words 4).
Qed.
Lemma sponge_length r n M d : sponge r (8 * n) M (SpecKeccak.byte_bits d) -> length d = n.
Proof.
  intros (P & bs & _ & _ & _ & E). apply (f_equal (@length bool)) in E. rewrite byte_bits_length, map_length, seq_length in E. lia.
Qed.
Lemma sha3_length n m : digest_length n -> length (sha3 n m) = n.
Proof. intros Hn. eapply sponge_length. apply (sha3_iff n m _ Hn). reflexivity. Qed.
Lemma keccak_old_length n m : digest_length n -> length (keccak_old n m) = n.
Proof. intros Hn. eapply sponge_length. apply (keccak_iff n m _ Hn). reflexivity. Qed.

Definition entry_ok (others : N -> bytes -> bytes) (e : N * nat * (bytes -> bytes -> Prop)) : Prop :=
  match e with (code, n, f) => forall m, (forall d, f m d <-> d = code_digest (more_digest others) code m) /\ length (code_digest (more_digest others) code m) = n end.
Lemma entry others code n (f : bytes -> bytes -> Prop) g : (forall m, code_digest (more_digest others) code m = g m) -> (forall m d, f m d <-> d = g m) ->
  (forall m, length (g m) = n) -> entry_ok others (code, n, f).
Proof. intros Hg Hf Hl m. rewrite Hg. split; [apply Hf | apply Hl]. Qed.
Lemma flip (f : bytes -> bytes -> Prop) (g : bytes -> bytes) : (forall m d, f m d <-> g m = d) -> forall m d, f m d <-> d = g m.
Proof. intros H m d. rewrite H. split; congruence. Qed.
Lemma lengths : digest_length 28 /\ digest_length 32 /\ digest_length 48 /\ digest_length 64.
Proof. unfold digest_length. cbn [In]. auto 10. Qed.
Local Opaque sha256 sha512 sha3 keccak_old blake3 blake2b blake2b256 blake2s.
Lemma table_ok others : Forall (entry_ok others) hash_table.
Proof.
  destruct lengths as (D28 & D32 & D48 & D64). unfold hash_table.
  constructor; [apply entry with (g := sha256); [intros m; reflexivity | exact sha256_iff | exact sha256_length]|].
  constructor; [apply entry with (g := sha512); [intros m; reflexivity | exact sha512_iff | exact sha512_length]|].
  constructor; [apply entry with (g := (sha3 64)); [intros m; reflexivity | exact (fun m d => sha3_iff _ m d D64) | exact (fun m => sha3_length _ m D64)]|].
  constructor; [apply entry with (g := (sha3 48)); [intros m; reflexivity | exact (fun m d => sha3_iff _ m d D48) | exact (fun m => sha3_length _ m D48)]|].
  constructor; [apply entry with (g := (sha3 32)); [intros m; reflexivity | exact (fun m d => sha3_iff _ m d D32) | exact (fun m => sha3_length _ m D32)]|].
  constructor; [apply entry with (g := (sha3 28)); [intros m; reflexivity | exact (fun m d => sha3_iff _ m d D28) | exact (fun m => sha3_length _ m D28)]|].
  constructor; [apply entry with (g := (keccak_old 28)); [intros m; reflexivity | exact (fun m d => keccak_iff _ m d D28) | exact (fun m => keccak_old_length _ m D28)]|].
  constructor; [apply entry with (g := (keccak_old 32)); [intros m; reflexivity | exact (fun m d => keccak_iff _ m d D32) | exact (fun m => keccak_old_length _ m D32)]|].
  constructor; [apply entry with (g := (keccak_old 48)); [intros m; reflexivity | exact (fun m d => keccak_iff _ m d D48) | exact (fun m => keccak_old_length _ m D48)]|].
  constructor; [apply entry with (g := (keccak_old 64)); [intros m; reflexivity | exact (fun m d => keccak_iff _ m d D64) | exact (fun m => keccak_old_length _ m D64)]|].
  constructor; [apply entry with (g := blake3); [intros m; reflexivity | exact (flip _ _ blake3_iff) | exact blake3_length]|].
  constructor; [apply entry with (g := (blake2b 32)); [intros m; symmetry; apply blake2b_32 | exact (flip _ _ (fun m d => blake2b_iff 32 m d ltac:(lia))) | exact (fun m => blake2b_length 32 m ltac:(lia))]|].
  constructor; [apply entry with (g := (blake2b 64)); [intros m; reflexivity | exact (flip _ _ (fun m d => blake2b_iff 64 m d ltac:(lia))) | exact (fun m => blake2b_length 64 m ltac:(lia))]|].
  constructor; [apply entry with (g := (blake2s 16)); [intros m; reflexivity | exact (flip _ _ (fun m d => blake2s_iff 16 m d ltac:(lia))) | exact (fun m => blake2s_length 16 m ltac:(lia))]|].
  constructor; [apply entry with (g := (blake2s 32)); [intros m; reflexivity | exact (flip _ _ (fun m d => blake2s_iff 32 m d ltac:(lia))) | exact (fun m => blake2s_length 32 m ltac:(lia))]|].
  constructor.
Qed.
Lemma in_table others code n f : In (code, n, f) hash_table ->
  forall m, (forall d, f m d <-> d = code_digest (more_digest others) code m) /\ length (code_digest (more_digest others) code m) = n.
Proof. intros H. pose proof (table_ok others) as T. rewrite Forall_forall in T. exact (T _ H). Qed.

Theorem all_hashes X : all_multihashed (with_all_hashes X).
Proof.
  intros code m d (n & f & Hin & Hd). cbn [with_all_hashes x_hash]. destruct (in_table (x_hash X) code n f Hin m) as [H _]. symmetry. apply H, Hd.
Qed.
Theorem table_digests code n f m : In (code, n, f) hash_table -> exists d, f m d /\ length d = n /\ forall d', f m d' -> d' = d.
Proof.
  intros Hin. destruct (in_table (fun _ _ => []) code n f Hin m) as [H L]. exists (code_digest (more_digest (fun _ _ => [])) code m).
  split; [apply H; reflexivity|]. split; [exact L|]. intros d'. apply H.
Qed.
Theorem old_table code m d : digest_of code m d -> table_digest code m d.
Proof.
  intros [[-> H] | [[-> H] | [[-> H] | [-> H]]]].
  - exists 32%nat, sha256_of. split; [cbn [In hash_table]; auto | exact H].
  - exists 64%nat, sha512_of. split; [cbn [In hash_table]; auto | exact H].
  - exists 32%nat, blake3_of. split; [cbn [In hash_table]; auto 20 | exact H].
  - exists 32%nat, (blake2b_of 32). split; [cbn [In hash_table]; auto 20|]. apply (blake2b_iff 32); [lia|]. rewrite blake2b_32. apply blake2b256_iff, H.
Qed.
Lemma table_codes code n f : In (code, n, f) hash_table -> (code < 65536)%N /\ (n <= 64)%nat.
Proof.
  intros H. unfold hash_table in H. cbn [In] in H. repeat (destruct H as [H | H]; [injection H as <- <- _; split; [reflexivity | lia]|]). destruct H.
Qed.
Theorem cid_under_any X code u t d : all_multihashed X -> token_text X u t -> table_digest code t d ->
  exists cb, shortest_varint code cb /\ cid_to_string (to_cid X code u) = B "b" ++ base32 ([x01; x55] ++ cb ++ [byteN (N.of_nat (length d))] ++ d).
Proof.
  intros HX Ht Hd. pose proof (HX code t d Hd) as Eh. destruct Hd as (n & f & Hin & Hd). destruct (table_codes code n f Hin) as [Hc Hn].
  destruct (table_digests code n f t Hin) as (d' & _ & Hl & Hu). rewrite <- (Hu d Hd) in Hl.
  destruct (cid_text_of X code u t Ht) as (cb & Hcb & E); [lia | rewrite Eh, Hl; exact Hn|].
  exists cb. rewrite Eh in E. auto.
Qed.
Theorem witness_under_any X b code u t d : all_multihashed X -> token_text X u t -> table_digest code t d ->
  exists cb, shortest_varint code cb /\
    b_proofs (builder_step X b (WitnessedBy u (Some code))) = b_proofs b ++ [B "b" ++ base32 ([x01; x55] ++ cb ++ [byteN (N.of_nat (length d))] ++ d)].
Proof.
  intros HX Ht Hd. destruct (cid_under_any X code u t d HX Ht Hd) as (cb & Hcb & E). exists cb. split; [exact Hcb|]. rewrite <- E. destruct b; reflexivity.
Qed.
Theorem citation_tells X code code' n n' f f' u u' t t' : all_multihashed X -> In (code, n, f) hash_table -> In (code', n', f') hash_table ->
  token_text X u t -> token_text X u' t' -> cid_to_string (to_cid X code u) = cid_to_string (to_cid X code' u') ->
  code = code' /\ exists d, f t d /\ f' t' d.
Proof.
  intros HX Hin Hin' Ht Ht' E.
  destruct (table_digests code n f t Hin) as (d & Hd & Hl & _). destruct (table_digests code' n' f' t' Hin') as (d' & Hd' & Hl' & _).
  assert (x_hash X code t = d) as Eh by (apply HX; exists n, f; auto). assert (x_hash X code' t' = d') as Eh' by (apply HX; exists n', f'; auto).
  destruct (table_codes code n f Hin) as [Hc Hn]. destruct (table_codes code' n' f' Hin') as [Hc' Hn'].
  apply token_text_iff in Ht, Ht'. unfold to_cid in E. rewrite <- Ht, Eh, <- Ht', Eh' in E.
  apply cid_text_inj in E.
  - unfold cid_new_v1 in E. injection E as E1 E2. subst code' d'. split; [reflexivity|]. exists d. auto.
  - unfold cid_v1, cid_new_v1, Spec.word, raw_codec. cbn [cid_version cid_codec cid_hash_code cid_digest]. repeat split; try lia.
  - unfold cid_v1, cid_new_v1, Spec.word, raw_codec. cbn [cid_version cid_codec cid_hash_code cid_digest]. repeat split; try lia.
Qed.
