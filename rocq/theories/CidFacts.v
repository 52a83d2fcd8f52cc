(** Facts about varints and CIDs (C72). *)
From Verif Require Export Base58Facts Varint Cid Ext Spec.

Lemma varint_decode_encode_from fuel : forall i acc n rest,
  (n < 2 ^ (7 * N.of_nat fuel))%N -> (0 < fuel)%nat -> (i + fuel <= 10)%nat -> (n <> 0%N \/ i = 0%nat) ->
  varint_decode_from i acc (varint_encode_fuel fuel n ++ rest) =
  Some ((acc + n * 2 ^ (7 * N.of_nat i)) mod 2 ^ 64, rest)%N.
Proof.
  induction fuel as [|f IH]; intros i acc n rest Hn Hf Hi Hz; [lia|].
  cbn [varint_encode_fuel]. destruct (N.ltb_spec n 128) as [Hs|Hs].
  - cbn [app varint_decode_from]. rewrite bN_byteN_small by lia.
    rewrite (N.mod_small n 128) by exact Hs.
    destruct (N.ltb_spec n 128); [|lia].
    destruct (N.eqb_spec n 0) as [->|Hne].
    + destruct Hz as [Hz | ->]; [contradiction|]. reflexivity.
    + reflexivity.
  - cbn [app varint_decode_from]. rewrite bN_byteN_small by lia.
    assert ((n mod 128 + 128) mod 128 = n mod 128)%N as Em by lia. rewrite Em.
    destruct (N.ltb_spec (n mod 128 + 128) 128); [lia|].
    assert (f <> 0)%nat as Hf0.
    { intros ->. change (2 ^ (7 * N.of_nat 1))%N with 128%N in Hn. lia. }
    assert (i =? 9 = false)%nat as -> by (apply Nat.eqb_neq; lia).
    rewrite IH.
    + do 3 f_equal. rewrite Nat2N.inj_succ. replace (7 * N.succ (N.of_nat i))%N with (7 * N.of_nat i + 7)%N by lia.
      rewrite N.pow_add_r. change (2 ^ 7)%N with 128%N.
      pose proof (N.div_mod n 128 ltac:(lia)) as Hd. set (q := (n / 128)%N) in *. set (r := (n mod 128)%N) in *.
      set (p := (2 ^ (7 * N.of_nat i))%N). rewrite Hd. lia.
    + rewrite Nat2N.inj_succ in Hn. replace (7 * N.succ (N.of_nat f))%N with (7 * N.of_nat f + 7)%N in Hn by lia.
      rewrite N.pow_add_r in Hn. change (2 ^ 7)%N with 128%N in Hn.
      apply N.div_lt_upper_bound; [lia|]. lia.
    + lia.
    + lia.
    + left. intros E. assert (n < 128)%N; [|lia]. apply N.div_small_iff in E; [exact E | lia].
Qed.

Lemma word_lt n : word n <-> (n < 2 ^ 64)%N.
Proof. unfold word, u64_max. change (2 ^ 64)%N with 18446744073709551616%N. lia. Qed.

Lemma varint_roundtrip n rest : word n -> varint_decode (varint_encode n ++ rest) = Some (n, rest).
Proof.
  intros Hn. apply word_lt in Hn. unfold varint_decode, varint_encode.
  rewrite varint_decode_encode_from; [| |lia|lia|right; reflexivity].
  - rewrite N.add_0_l, N.mul_0_r, N.mul_1_r, N.mod_small by exact Hn. reflexivity.
  - eapply N.lt_le_trans; [exact Hn|]. apply N.pow_le_mono_r; lia.
Qed.

Lemma varint_encode_nonnil n : varint_encode n <> [].
Proof. unfold varint_encode. cbn [varint_encode_fuel]. destruct (n <? 128)%N; discriminate. Qed.

Lemma take_exact_app d rest : take_exact (N.of_nat (length d)) (d ++ rest) = Some (d, rest).
Proof.
  unfold take_exact. rewrite app_length.
  assert (N.of_nat (length d) <=? N.of_nat (length d + length rest) = true)%N as -> by (apply N.leb_le; lia).
  rewrite Nat2N.id, firstn_app, skipn_app, firstn_all, skipn_all, Nat.sub_diag. simpl.
  rewrite app_nil_r. reflexivity.
Qed.

Lemma read_multihash_bytes c rest : word (cid_hash_code c) -> (length (cid_digest c) <= 64)%nat ->
  read_multihash (multihash_bytes c ++ rest) = Some (cid_hash_code c, cid_digest c).
Proof.
  intros Hw Hl. unfold read_multihash, multihash_bytes. rewrite <- !app_assoc.
  rewrite varint_roundtrip by exact Hw.
  rewrite varint_roundtrip by (unfold word, u64_max; lia).
  assert (N.of_nat (length (cid_digest c)) <=? 64 = true)%N as -> by (apply N.leb_le; lia).
  rewrite take_exact_app. reflexivity.
Qed.

Lemma cid_of_to_bytes c rest : cid_v1 c -> cid_of_bytes (cid_to_bytes c ++ rest) = Some c.
Proof.
  intros (Hv & Hc & Hh & Hd). unfold cid_of_bytes, cid_to_bytes. rewrite Hv.
  change (1 =? 0)%N with false. cbv iota. rewrite <- !app_assoc.
  rewrite varint_roundtrip by (unfold word, u64_max; lia).
  rewrite varint_roundtrip by exact Hc.
  change ((1 =? 18)%N) with false. cbn [andb]. change (1 =? 1)%N with true. cbv iota.
  rewrite read_multihash_bytes by assumption.
  destruct c. simpl in Hv. subst. reflexivity.
Qed.

Lemma after_ipfs_none s : ~ In x2f s -> after_ipfs s = None.
Proof.
  induction s as [|c s IH]; intros Hn; [reflexivity|].
  unfold after_ipfs. fold after_ipfs.
  assert (strip_prefix (B "/ipfs/") (c :: s) = None) as ->.
  { change (B "/ipfs/") with (x2f :: B "ipfs/"). simpl.
    destruct c; try reflexivity. exfalso. apply Hn. left. reflexivity. }
  apply IH. intros Hin. apply Hn. right. exact Hin.
Qed.

Lemma base32_no_slash bs : ~ In x2f (b32_encode bs).
Proof.
  intros Hin. apply b32_encode_in in Hin.
  assert (existsb (Byte.eqb x2f) base32_alphabet = true) as E; [|vm_compute in E; discriminate].
  apply existsb_exists. exists x2f. split; [exact Hin | reflexivity].
Qed.

Lemma b32_encode_nonnil bs : bs <> [] -> b32_encode bs <> [].
Proof.
  intros Hne E. pose proof (proj2 (b32_decode_iff _ _) (eq_refl (b32_encode bs))) as Hd.
  rewrite E in Hd. vm_compute in Hd. congruence.
Qed.

Lemma cid_to_bytes_nonnil c : cid_to_bytes c <> [].
Proof.
  unfold cid_to_bytes, multihash_bytes. destruct (cid_version c =? 0)%N.
  - pose proof (varint_encode_nonnil (cid_hash_code c)). destruct (varint_encode (cid_hash_code c)); [contradiction|discriminate].
  - discriminate.
Qed.

Lemma cid_text_roundtrip mb c : cid_v1 c -> cid_of_string mb (cid_to_string c) = Some c.
Proof.
  intros Hc. unfold cid_of_string, cid_to_string. destruct Hc as (Hv & Hc).
  rewrite Hv. change (1 =? 0)%N with false. cbv iota.
  set (t := b32_encode (cid_to_bytes c)).
  assert (after_ipfs (B "b" ++ t) = None) as ->.
  { apply after_ipfs_none. intros Hin. apply in_app_iff in Hin as [Hin | Hin].
    - simpl in Hin. destruct Hin as [Hin | []]. discriminate.
    - apply (base32_no_slash _ Hin). }
  assert (t <> []) as Ht by (apply b32_encode_nonnil, cid_to_bytes_nonnil).
  destruct (length (B "b" ++ t) <? 2)%nat eqn:El.
  { apply Nat.ltb_lt in El. rewrite app_length in El. change (length (B "b")) with 1%nat in El.
    destruct t; [contradiction|]. simpl in El. lia. }
  change (B "b" ++ t) with (x62 :: t). change (strip_prefix (B "Qm") (x62 :: t)) with (@None bytes). cbv iota.
  rewrite (proj2 (b32_decode_iff t (cid_to_bytes c)) eq_refl).
  rewrite <- (app_nil_r (cid_to_bytes c)). apply cid_of_to_bytes. split; assumption.
Qed.

Lemma cid_text_inj c d : cid_v1 c -> cid_v1 d -> cid_to_string c = cid_to_string d -> c = d.
Proof.
  intros Hc Hd E. pose proof (cid_text_roundtrip (fun _ _ => None) c Hc) as H1.
  rewrite E, cid_text_roundtrip in H1 by exact Hd. congruence.
Qed.

Lemma parse_cid_text X c : cid_v1 c -> parse_cid X (cid_to_string c) = Some c.
Proof. apply cid_text_roundtrip. Qed.

Lemma cid_eqb_eq c d : cid_eqb c d = true <-> c = d.
Proof.
  unfold cid_eqb. rewrite !andb_true_iff, !N.eqb_eq, bytes_eqb_eq. destruct c, d. simpl. split.
  - intros [[[-> ->] ->] ->]. reflexivity.
  - intros [= -> -> -> ->]. auto.
Qed.

Lemma cid_eqb_refl c : cid_eqb c c = true.
Proof. apply cid_eqb_eq. reflexivity. Qed.
