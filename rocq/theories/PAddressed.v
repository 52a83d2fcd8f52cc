(** C169, C170: stores whose answers have the digest of the CID, whatever the hash. *)
From Verif Require Import Prelude Value Cid Ext Json Capability Key Ucan Builder Store Chain Fixtures AllHashes Samples SampleHash SampleAddressed
  Spec SpecWire SpecAllHashes SpecAddressed AddressedFacts AddressedSampleFacts.

(* ------------------------------------------------------------------- C169 *)

(** The store the crate provides, and the one of its test suite, are such stores. *)
Theorem C169_memory : forall E, memory_backed E -> all_multihashed (e_ext E) -> addressed E.
Proof. exact memory_addressed. Qed.
Print Assumptions C169_memory.
Theorem C169_fixture : forall X clock tokens, all_multihashed X ->
  addressed (mkEnv X clock (fun _ c => mem_read (fold_left (fun s t => snd (blake2b_write_token X s t)) tokens []) c)).
Proof. exact blake2b_addressed. Qed.
Print Assumptions C169_fixture.

(** A UCAN accepted against two of them, at any times, gives one chain, unless they answered a cited CID by texts that collide. *)
Theorem C169_one_chain : forall E E' nt nt' slice slice' f f' u st st' c c', addressed E -> addressed E' -> e_ext E' = e_ext E ->
  with_parser slice st -> with_parser slice' st' -> fst (from_ucan E nt f u st) = Ok c -> fst (from_ucan E' nt' f' u st') = Ok c' ->
  c = c' \/ stores_collide E E' c.
Proof. exact addressed_one_chain. Qed.
Print Assumptions C169_one_chain.

(** What a builder cites under a code of the table resolves to what the cited token parses as, or a token that collides with it. *)
Theorem C169_pinned : forall E R X code a t d v, e_ext E = X -> addressed E -> all_multihashed X -> token_text X a t -> table_digest code t d ->
  resolves E R (proof_text X a (Some code)) v -> parse_token X t = Ok v \/ exists t', parse_token X t' = Ok v /\ collision code t t'.
Proof. exact pinned. Qed.
Print Assumptions C169_pinned.

Example C169_example : addressed (filled one_token) /\ addressed (filled three_tokens) /\
  fst (from_ucan (filled one_token) None 3 all_ucan sample_state) = Ok all_chain /\
  fst (from_ucan (filled three_tokens) None 3 all_ucan sample_state) = Ok all_chain.
Proof. exact sample_addressed. Qed.
Example C169_example_pinned : token_text all_ext root_ucan hashed_text /\
  resolves (filled three_tokens) (fun _ => True) (proof_text all_ext root_ucan (Some 45600%N)) root_ucan.
Proof. exact sample_pinned. Qed.

(* ------------------------------------------------------------------- C170 *)

(** A chain accepted in one store is accepted in another that has something under each cited CID, unless the two collide. *)
Theorem C170_portable : forall E E' nt slice u c st st', steady E -> steady E' -> addressed E -> addressed E' -> e_ext E' = e_ext E ->
  (forall n, e_clock E' n = e_clock E n) -> with_parser slice st -> with_parser slice st' ->
  (exists fuel, fst (from_ucan E nt fuel u st) = Ok c) -> holds_citations E' c ->
  (exists fuel, fst (from_ucan E' nt fuel u st') = Ok c) \/ stores_collide E E' c.
Proof. exact portable. Qed.
Print Assumptions C170_portable.

(** It is accepted in no other. *)
Theorem C170_needs_blocks : forall E nt slice u c st, steady E -> with_parser slice st ->
  (exists fuel, fst (from_ucan E nt fuel u st) = Ok c) -> holds_citations E c.
Proof. exact needs_blocks. Qed.
Print Assumptions C170_needs_blocks.

Example C170_example : steady (filled one_token) /\ steady (filled three_tokens) /\ addressed (filled three_tokens) /\
  (exists fuel, fst (from_ucan (filled one_token) None fuel all_ucan sample_state) = Ok all_chain) /\ holds_citations (filled three_tokens) all_chain /\
  fst (from_ucan (filled []) None 3 all_ucan sample_state) = Err ENoUcanForCid.
Proof. exact sample_portable. Qed.
