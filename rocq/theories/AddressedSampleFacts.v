(** The samples of C169-C170. *)
From Verif Require Import Prelude Value Cid Ext Json Capability Key Ucan Builder Store Chain Fixtures AllHashes Samples SampleHash SampleAddressed
  Spec SpecWire SpecAllHashes SpecAddressed WireFacts AllHashesFacts AddressedFacts.

Lemma filled_addressed tokens : addressed (filled tokens).
Proof. apply blake2b_addressed, all_hashes. Qed.
Lemma sample_addressed : addressed (filled one_token) /\ addressed (filled three_tokens) /\
  fst (from_ucan (filled one_token) None 3 all_ucan sample_state) = Ok all_chain /\
  fst (from_ucan (filled three_tokens) None 3 all_ucan sample_state) = Ok all_chain.
Proof. split; [apply filled_addressed|]. split; [apply filled_addressed|]. split; vm_compute; reflexivity. Qed.
Lemma sample_pinned : token_text all_ext root_ucan hashed_text /\ resolves (filled three_tokens) (fun _ => True) (proof_text all_ext root_ucan (Some 45600%N)) root_ucan.
Proof.
  split; [apply encode_is_token_text; vm_compute; reflexivity|]. exists (to_cid all_ext 45600 root_ucan), O, hashed_text.
  split; [vm_compute; reflexivity|]. split; [reflexivity|]. split; [exact I|]. split; [vm_compute; reflexivity|]. split; vm_compute; reflexivity.
Qed.
Lemma sample_portable : steady (filled one_token) /\ steady (filled three_tokens) /\ addressed (filled three_tokens) /\
  (exists fuel, fst (from_ucan (filled one_token) None fuel all_ucan sample_state) = Ok all_chain) /\ holds_citations (filled three_tokens) all_chain /\
  fst (from_ucan (filled []) None 3 all_ucan sample_state) = Err ENoUcanForCid.
Proof.
  assert (forall l, steady (filled l)) as Hs by (split; reflexivity).
  split; [apply Hs|]. split; [apply Hs|]. split; [apply filled_addressed|]. split; [exists 3%nat; apply sample_addressed|].
  split; [|vm_compute; reflexivity].
  apply (needs_blocks (filled three_tokens) None [(ed25519_magic, fun bs => Ok (toy bs))] all_ucan all_chain sample_state (Hs _)); [exists []; reflexivity | exists 3%nat; apply sample_addressed].
Qed.
