(** Proofs about CIDs under concrete hash functions (C152-C154). *)
From Verif Require Import Prelude Ord SMap Base58 Value Cid Ext Json Capability Semantics Key Ucan Store Builder Chain Fixtures Sha256 Sha512 Blake3 Blake2b Multihash
  Spec SpecWire SpecBuilder SpecChain SpecSha SpecSha512 SpecBlake3 SpecBlake2 SpecHash
  OrdFacts SMapFacts StoreFacts CidFacts WireFacts ChainFacts ReduceFacts ChainMoreFacts ShaFacts Sha512Facts Blake3TreeFacts Blake2Facts EntryFacts.

Lemma digest_fun code m d d' : digest_of code m d -> digest_of code m d' -> d = d'.
Proof.
  intros [[-> H] | [[-> H] | [[-> H] | [-> H]]]] [[E H'] | [[E H'] | [[E H'] | [E H']]]]; try discriminate E; clear E.
  - apply sha256_iff in H, H'. congruence.
  - apply sha512_iff in H, H'. congruence.
  - eapply blake3_fun; eassumption.
  - eapply blake2b256_fun; eassumption.
Qed.
Lemma with_hashes_multihashed X : multihashed (with_hashes X).
Proof.
  intros code m d [[-> H] | [[-> H] | [[-> H] | [-> H]]]]; cbn [x_hash with_hashes]; unfold code_digest.
  - symmetry. apply sha256_iff, H.
  - symmetry. apply sha512_iff, H.
  - apply blake3_iff, H.
  - apply blake2b256_iff, H.
Qed.
Lemma digest_exists code m : In code [18; 19; 30; 45600]%N -> exists d, digest_of code m d.
Proof.
  unfold digest_of. intros [<- | [<- | [<- | [<- | []]]]].
  - exists (sha256 m). left. split; [reflexivity | apply sha256_iff; reflexivity].
  - exists (sha512 m). right. left. split; [reflexivity | apply sha512_iff; reflexivity].
  - exists (blake3 m). right. right. left. split; [reflexivity | apply blake3_iff; reflexivity].
  - exists (blake2b256 m). right. right. right. split; [reflexivity | apply blake2b256_iff; reflexivity].
Qed.
Lemma digest_length code m d : digest_of code m d -> length d = (if (code =? 19)%N then 64%nat else 32%nat).
Proof.
  intros [[-> H] | [[-> H] | [[-> H] | [-> H]]]].
  - apply sha256_iff in H as ->. apply sha256_length.
  - apply sha512_iff in H as ->. apply sha512_length.
  - apply (blake3_of_length m d H).
  - apply blake2b256_iff in H as <-. apply blake2b256_length.
Qed.
Lemma cid_under_hash X code u t d : multihashed X -> token_text X u t -> digest_of code t d ->
  exists cb, shortest_varint code cb /\ cid_to_string (to_cid X code u) = B "b" ++ base32 ([x01; x55] ++ cb ++ [byteN (N.of_nat (length d))] ++ d).
Proof.
  intros HX Ht Hd. pose proof (HX code t d Hd) as Eh. pose proof (digest_length code t d Hd) as Hl.
  destruct (cid_text_of X code u t Ht) as (cb & Hc & E).
  - destruct Hd as [[-> _] | [[-> _] | [[-> _] | [-> _]]]]; discriminate.
  - rewrite Eh, Hl. destruct (code =? 19)%N; lia.
  - exists cb. rewrite Eh in E. auto.
Qed.
Lemma default_proof_blake3 X b u t d : multihashed X -> token_text X u t -> blake3_of t d ->
  b_proofs (builder_step X b (WitnessedBy u None)) = b_proofs b ++ [B "b" ++ base32 ([x01; x55; x1e; x20] ++ d)].
Proof.
  intros HX Ht Hd. assert (x_hash X 30 t = d) as E by (apply HX; right; right; left; auto). pose proof (blake3_of_length t d Hd) as Hl.
  rewrite <- E in Hl |- *. apply default_proof_text; assumption.
Qed.

Lemma hash_digest X m : multihashed X -> blake3_of m (x_hash X 30 m).
Proof. intros HX. rewrite (HX 30%N m (blake3 m)); [apply blake3_iff; reflexivity|]. right. right. left. split; [reflexivity | apply blake3_iff; reflexivity]. Qed.
Lemma hash_collision X b b' : multihashed X -> x_hash X 30 b = x_hash X 30 b' -> b = b' \/ b3_collision b b'.
Proof.
  intros HX E. destruct (list_eq_dec Byte.byte_eq_dec b b') as [->|Hne]; [left; reflexivity|]. right. split; [exact Hne|].
  exists (x_hash X 30 b). split; [|rewrite E]; apply hash_digest, HX.
Qed.
Lemma read_back_collision X ops i j b c r : multihashed X -> (i < j)%nat ->
  op_at X ops i (SWrite (IBytes b)) (OWrite (Ok c)) -> op_at X ops j (SRead c) r ->
  exists b', written ops b' /\ r = ORead (Ok (Some (IBytes b'))) /\ (b = b' \/ b3_collision b b').
Proof.
  intros HX Hij Hw Hr. pose proof (write_outcome _ _ _ _ _ Hw) as Hc. injection Hc as ->. apply read_outcome in Hr as ->.
  assert (written (firstn j ops) b) as Hwj by (apply in_firstn_nth; exists i; split; [exact Hij | apply Hw]).
  unfold mem_read. rewrite store_run_get. simpl.
  destruct (last_written_in X (block_cid X b) (firstn j ops) None b Hwj eq_refl) as (b' & -> & Hw' & Hc').
  exists b'. split; [|split; [reflexivity|]].
  - unfold written in *. rewrite <- (firstn_skipn j ops). apply in_or_app. left. exact Hw'.
  - apply block_cid_inj in Hc'. apply (hash_collision X); auto.
Qed.
Lemma cited_resolves_collision X E ops u pu : multihashed X -> e_ext E = X ->
  (forall n d, e_read E n d = mem_read (snd (store_run X [] ops)) d) -> written ops (encode X u) -> parse_token X (encode X u) = Ok pu ->
  resolves E (fun _ => True) (proof_text X u None) pu \/ exists b, written ops b /\ b3_collision (encode X u) b.
Proof.
  intros HX HE Hr Hw Hp. destruct (last_written_in X (block_cid X (encode X u)) ops None _ Hw eq_refl) as (b & Hb & Hwb & Hc).
  apply block_cid_inj in Hc. symmetry in Hc. destruct (hash_collision X _ _ HX Hc) as [E1|Hcol]; [|right; exists b; auto].
  left. exists (to_cid X 30 u), O, (encode X u). split; [|split; [reflexivity|]].
  - rewrite HE. apply (parse_cid_text X (to_cid X 30 u)). unfold to_cid, cid_v1, cid_new_v1, Spec.word, raw_codec. cbn [cid_version cid_codec cid_hash_code cid_digest].
    pose proof (blake3_of_length _ _ (hash_digest X (encode X u) HX)). repeat split; try lia.
  - split; [exact I|]. split; [|split; [apply encode_utf8 | rewrite HE; exact Hp]].
    rewrite Hr. unfold mem_read. rewrite store_run_get. simpl.
    change (to_cid X 30 u) with (block_cid X (encode X u)). rewrite Hb, <- E1. reflexivity.
Qed.

(* ------------------------------------------------------------------ one chain, whatever the store *)

Lemma in_chain_root c : in_chain (c_ucan c) c.
Proof. exists c. split; [constructor | reflexivity]. Qed.
Lemma in_chain_proof a pc c : In pc (c_proofs c) -> in_chain a pc -> in_chain a c.
Proof. intros Hin (d & Hs & <-). exists d. split; [eapply Sub_proof; eassumption | reflexivity]. Qed.
Lemma memory_chains_agree E E' nt nt' slice slice' T T' R R' c : memory_backed E -> memory_backed E' -> e_ext E' = e_ext E -> multihashed (e_ext E) ->
  forall c', c_ucan c = c_ucan c' -> valid_chain E nt slice T R c -> valid_chain E' nt' slice' T' R' c' -> c = c' \/ answers_collide E E' c c'.
Proof.
  intros Hm Hm' Hx HX c' Hc Hv. revert c' Hc. induction Hv as [u ps red _ Hres _ Hred _ IH]. intros c' Hc Hv'.
  destruct Hv' as [u' ps' red' _ Hres' _ Hred' Hps']. cbn [c_ucan] in Hc. subst u'.
  assert (ps = ps' \/ exists pc pc', In pc ps /\ In pc' ps' /\ answers_collide E E' pc pc') as [Hps | (pc & pc' & Hin & Hin' & Hcol)].
  { clear Hred Hred'. revert ps' Hres' Hps'. induction Hres as [|text pc l ps Hr Hres IHl]; intros ps' Hres' Hps'; inversion Hres' as [|? pc' ? ps'' Hr' Hres'']; subst; [left; reflexivity|].
    assert (c_ucan pc = c_ucan pc' \/ answers_collide E E' pc pc') as [Hu|Hcol]; [| |right; exists pc, pc'; cbn [In]; auto].
    { destruct Hr as (d & n & tok & P1 & P2 & _ & P3 & _ & P4), Hr' as (d' & n' & tok' & Q1 & Q2 & _ & Q3 & _ & Q4).
      assert (d' = d) as -> by congruence.
      pose proof (memory_token_cid E n d tok Hm P3) as C1. pose proof (memory_token_cid E' n' d tok' Hm' Q3) as C2. rewrite Hx in C2.
      assert (x_hash (e_ext E) 30 tok = x_hash (e_ext E) 30 tok') as Eh by (apply block_cid_inj; congruence).
      destruct (hash_collision (e_ext E) tok tok' HX Eh) as [->|Hcol].
      - left. rewrite Hx in Q4. congruence.
      - right. exists d, n, n', tok, tok', (c_ucan pc), (c_ucan pc'). repeat (split; [first [assumption | apply in_chain_root]|]). exact Hcol. }
    destruct (IH pc (or_introl eq_refl) pc' Hu (Hps' _ (or_introl eq_refl))) as [->|Hcol]; [|right; exists pc, pc'; cbn [In]; auto].
    destruct (IHl (fun q Hq => IH q (or_intror Hq)) ps'' Hres'' (fun q Hq => Hps' q (or_intror Hq))) as [->|(q & q' & H1 & H2 & H3)]; [left; reflexivity|].
    right. exists q, q'. cbn [In]. auto. }
  - left. subst ps'. f_equal. destruct Hred as (S1 & R1 & _), Hred' as (S2 & R2 & _). rewrite Hx in R2.
    apply ssorted_lt in S1. apply ssorted_lt in S2. apply (ssorted_ext red red' S1 S2). intros i. rewrite R1, R2. reflexivity.
  - right. destruct Hcol as (d & n & n' & t & t' & a & a' & H1 & H2 & H3 & H4 & H5 & H6 & H7).
    exists d, n, n', t, t', a, a'. repeat (split; [first [assumption | eapply in_chain_proof; [|eassumption]; assumption]|]). exact H7.
Qed.
Lemma stores_agree E E' nt nt' slice slice' f f' u st st' c c' : memory_backed E -> memory_backed E' -> e_ext E' = e_ext E -> multihashed (e_ext E) ->
  with_parser slice st -> with_parser slice' st' -> fst (from_ucan E nt f u st) = Ok c -> fst (from_ucan E' nt' f' u st') = Ok c' ->
  c = c' \/ answers_collide E E' c c'.
Proof.
  intros Hm Hm' Hx HX Hp Hp' H1 H2. destruct (from_ucan E nt f u st) as [r1 s1] eqn:E1, (from_ucan E' nt' f' u st') as [r2 s2] eqn:E2.
  cbn [fst] in *. subst. destruct (from_ucan_valid _ _ _ _ _ _ _ _ Hp E1) as [Hc V1]. destruct (from_ucan_valid _ _ _ _ _ _ _ _ Hp' E2) as [Hc' V2].
  eapply memory_chains_agree; try eassumption. congruence.
Qed.
