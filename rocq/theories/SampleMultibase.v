(** Samples of texts in the bases of multibase. *)
From Verif Require Import Prelude Ord Value Cid Ext Json Key Multibase Multihash Ucan Chain Store Spec SpecWire SpecIpld SpecKeys SpecMultibase MultibaseFacts Samples SampleHash.

(** The data of an identity multihash; "/ipfs/" and another CID appear in the base64 text of the CID. *)
Definition confusing_digest : bytes :=
  [x00; x00; x00; x00; x3f; x8a; x97; xec; xfd; xb6; x9f; x92; xbe; x22; x85; xa9; xa5; xbf; x88; xe9; x7b; x6a; x6f; xdf; x3b; xef; xaa;
   xbc; x5b; xc2; x5e; xe7; xc9; xcb; xba; x73; x9d; xa9; x6a; x29; xaa; x73; x6a; x1d; xaa; x7c; x9f; xae; xfe; x1f; xb6; xde; x2e].

Definition multibase_env : env := mkEnv (with_multibase hash_ext) (fun _ => 50%N) (fun _ c => mem_read hashed_store c).
Definition spellings : list bytes :=
  [B "bafkr4ihamlv4jpe2pv3zvvqrxbwl7nycu6c52paimqc2odqnyfrv4ftt4u"; B "k2cx9IV7nNLhHbEIa2exL77i9C2BH07WAMQCUaukQ8nV0phi6e1D0d7p";
   B "ZA38rm5cyZa4EpheE1UV62n83N8wo4DQ6CQtMoYqu6e4HpM4t"; B "92588588762932607668400555653621953566972114337207770306799328229694918025450635031525";
   B "F01551E20E062EBC4BC9A7D779AD611B86CBFB702A785DD3C086405A70E0DC1635E1673E5"; B "UAVUeIA==4GLrxLyafXea1hG4bL-3AqeF3TwIZAWnDg3BY14Wc-U=";
   B "x/ipfs/UAVUeIOBi68S8mn13mtYRuGy_twKnhd08CGQFpw4NwWNeFnPl"].

Lemma one_text_refuted :
  (exists bs t t', base_text x4d bs t /\ base_text x4d bs t' /\ t <> t') /\
  (exists bs t t', base_text x43 bs t /\ base_text x43 bs t' /\ t <> t') /\
  (exists bs t t', base_text x6b bs t /\ base_text x6b bs t' /\ t <> t').
Proof.
  split; [exists (B "ff"), (B "ZmY="), (B "Zg==Zg==") | split; [exists (B "ff"), (B "MZTA===="), (B "MY======MY======") | exists (B "ff"), (B "k86"), (B "K86")]];
    repeat split; try (apply mb_decode_iff; vm_compute; reflexivity); discriminate.
Qed.

Lemma spellings_refuted : exists c l t c', cid_v1 c /\ In l base_letters /\ base_text l (cid_to_bytes c) t /\ spells (l :: t) c' /\ c' <> c.
Proof.
  exists (mkCid 1 85 0 confusing_digest), x6d, (B "AVUANQAAAAA/ipfs/bafkr4ihamlv4jpe2pv3zvvqrxbwl7nycu6c52paimqc2odqnyfrv4ftt4u"), (mkCid 1 85 30 hashed_digest).
  split; [repeat split; try reflexivity; try (vm_compute; discriminate); apply Nat.leb_le; vm_compute; reflexivity|]. split; [vm_compute; tauto|]. split; [apply mb_decode_iff; vm_compute; reflexivity|].
  split; [apply (spells_iff _ _ _ (with_multibase_ok sample_ext)); vm_compute; reflexivity | discriminate].
Qed.
