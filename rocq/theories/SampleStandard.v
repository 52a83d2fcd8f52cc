(** Samples for C160: an RSA key redelegates what an Ed25519 key gave it. *)
From Coq Require Import Sorting.Permutation Sorting.Sorted.
From Verif Require Import Prelude Ord SMap Base58 BaseN Value Cbor Cid Ext Json Capability Semantics Key KeySupport Der Sha256 Sha512 Blake3 Multihash RsaSign Ed25519 P256 Ucan Builder Store Chain
  Spec SpecWire SpecJson SpecUrl SpecKeys SpecCbor SpecSha SpecSha512 SpecDer SpecRsa SpecTwin SpecEd SpecP256 SpecBlake3 SpecHash SpecStandard
  OrdFacts ChainFacts StoreFacts UrlTextFacts KeysFacts JsonGrammarFacts DerFacts RsaFacts TwinFacts EdFacts Sha512Facts Blake3TreeFacts HashFacts StandardFacts Samples SampleRsa SampleEd SampleHash.

Definition std_root : ucan := Eval vm_compute in make_hashed
  [IssuedBy (fixed_signer (B "EdDSA") unit_did unit_sig); ForAudience small_did; WithExpiration 90; ClaimingCapability (mail "a@x" "email/send" (VObj []))].
Definition std_leaf_with (g : bytes) : ucan := make_hashed
  [IssuedBy (fixed_signer (B "RS256") small_did g); ForAudience (did_of bob); NotBefore 20; WithExpiration 80; WitnessedBy std_root None;
   ClaimingCapability (mkCap (B "prf:0") (B "ucan/DELEGATE") (VObj []))].
Definition std_sig : bytes := be_bytes 62
  464954385769494166495775412703886251185966332860057155743199277197820927359910927771080785855330330398762996617608390984447322597580892738573337713.
Definition std_leaf : ucan := Eval vm_compute in std_leaf_with std_sig.
Definition std_text : bytes := Eval vm_compute in encode hash_ext std_root.
Definition std_token : bytes := Eval vm_compute in encode hash_ext std_leaf.
Definition std_digest : bytes := Eval vm_compute in blake3 std_text.
Definition std_chain : chain := Chain std_leaf [Chain std_root [] []] [0%N].
(** The store also saw something else, and refused what is not bytes. *)
Definition std_ops : list store_op := [SWrite (IBytes std_text); SWrite INull; SRead (mkCid 1 85 30 std_digest); SWrite (IBytes (B "x"))].
Definition std_env : env := mkEnv hash_ext (fun _ => 50%N) (fun _ c => mem_read (snd (store_run hash_ext [] std_ops)) c).
Definition std_slice : list (bytes * ctor) :=
  [([x80; x24], bytes_to_p256_key (p256_crate (fun _ _ => 1%N))); ([xed; x01], bytes_to_ed25519_key (ed25519_zebra sha512)); ([x85; x24], bytes_to_rsa_key (rsa_pkcs1 true) sha256)].
Definition std_state : vstate := mkState (did_parser_new std_slice) 0 0 0.

Lemma std_perm : Permutation std_slice (standard_keys true (fun _ _ => 1%N)).
Proof. unfold std_slice, standard_keys. eapply perm_trans; [apply perm_swap|]. apply perm_skip, perm_swap. Qed.
Lemma std_rooted : rooted hash_ext.
Proof. intros sch rest u H. discriminate H. Qed.
Lemma std_writes : writes std_ops [std_text; B "x"].
Proof. apply W_block, W_other; [discriminate|]. apply W_other; [discriminate|]. apply W_block, W_nil. Qed.
Lemma std_standing : standing std_env 50 std_ops.
Proof. split; [intros n; reflexivity | intros n c; reflexivity]. Qed.
Lemma std_root_signed : standard_signature true (u_signed_data std_root) (u_signature std_root) (p_iss (u_payload std_root)).
Proof.
  assert (p_iss (u_payload std_root) = did_key_text ([xed; x01] ++ unit_text)) as -> by (vm_compute; reflexivity).
  apply (SS_ed25519 true _ _ sha512); [intros m; apply sha512_iff; reflexivity|].
  assert (u_signature std_root = unit_sig) as -> by (vm_compute; reflexivity). apply unit_any.
Qed.
Lemma std_leaf_signed : standard_signature true (u_signed_data std_leaf) (u_signature std_leaf) (p_iss (u_payload std_leaf)).
Proof.
  assert (p_iss (u_payload std_leaf) = did_key_text ([x85; x24] ++ small_der)) as -> by (vm_compute; reflexivity).
  assert (pkcs1_signature small_n 3 (u_signed_data std_leaf) (u_signature std_leaf)) as [H1 H2] by (apply verify_strict; [discriminate | vm_compute; reflexivity]).
  apply (SS_rsa true _ _ small_n 3 small_der small_der_ok small_taken H1). intros _. exact H2.
Qed.
Lemma std_digest_ok : blake3_of std_text std_digest.
Proof. apply blake3_iff. vm_compute. reflexivity. Qed.
Lemma std_stands text : cited std_leaf = [text] -> stands_for hash_ext [std_text; B "x"] text std_root.
Proof.
  intros E. exists std_digest, std_text. split; [|split; [|split]].
  - apply cid_text_iff. vm_compute in E. injection E as <-. vm_compute. reflexivity.
  - exists [], [B "x"]. split; [reflexivity|]. split; [exact std_digest_ok|]. intros b [<-|[]] H. apply blake3_iff in H. vm_compute in H. discriminate H.
  - apply utf8_valid_iff. vm_compute. reflexivity.
  - apply token_grammar_iff. vm_compute. reflexivity.
Qed.
Lemma std_valid : standard_chain hash_ext true None 50 [std_text; B "x"] std_chain.
Proof.
  assert (redelegates_texts std_leaf 1 [0%N]) as HL.
  { apply (redelegates_iff hash_ext _ _ _ std_rooted), (ChainFacts.redelegates_iff hash_ext). vm_compute. reflexivity. }
  assert (redelegates_texts std_root 0 []) as HR.
  { apply (redelegates_iff hash_ext _ _ _ std_rooted), (ChainFacts.redelegates_iff hash_ext). vm_compute. reflexivity. }
  constructor.
  - split; intros x Hx; vm_compute in Hx; injection Hx as <-; vm_compute; discriminate.
  - exact std_leaf_signed.
  - assert (exists t, cited std_leaf = [t]) as [t Ht] by (eexists; vm_compute; reflexivity). rewrite Ht. constructor; [|constructor]. exact (std_stands t Ht).
  - intros pc [<-|[]]. split; [vm_compute; reflexivity|]. split; intros x Hx; vm_compute in Hx.
    all: try discriminate Hx. injection Hx as <-. eexists. split; [vm_compute; reflexivity | vm_compute; discriminate].
  - exact HL.
  - intros pc [<-|[]]. constructor.
    + split; intros x Hx; vm_compute in Hx; [injection Hx as <-; vm_compute; discriminate | discriminate Hx].
    + exact std_root_signed.
    + assert (cited std_root = []) as -> by (vm_compute; reflexivity). constructor.
    + intros pc [].
    + exact HR.
    + intros pc [].
Qed.
Lemma std_parser : with_parser std_slice std_state.
Proof. exists []. reflexivity. Qed.
Lemma std_token_text : token_grammar hash_ext std_token std_leaf.
Proof. apply token_grammar_iff. vm_compute. reflexivity. Qed.
Lemma unit_signs_all range nonce slice signed : Permutation slice (standard_keys range nonce) -> SpecSecurity.unforgeable slice signed ->
  forall data, signed unit_did data.
Proof.
  intros HP HU data. apply (proj1 (standard_unforgeable range nonce slice signed HP) HU unit_did data unit_sig).
  apply (SS_ed25519 range _ _ sha512); [intros m; apply sha512_iff; reflexivity | apply unit_any].
Qed.
Lemma std_report : reduce mail_scope mail_ability mail_parse std_chain = Ok [mkInfo [unit_did] (Some 20%N) (Some 80%N) (mkView (RPlain (Scoped (B "a@x"))) true (VObj []))].
Proof. vm_compute. reflexivity. Qed.
Lemma std_line : standard_line mail_scope mail_ability mail_parse hash_ext true [std_text; B "x"] std_leaf (mkView (RPlain (Scoped (B "a@x"))) true (VObj [])) unit_did.
Proof.
  assert (SpecSecurity.trail mail_scope mail_ability mail_parse std_chain (mkView (RPlain (Scoped (B "a@x"))) true (VObj [])) unit_did) as HT.
  { apply (SpecSecurity.Tr_redelegated _ _ _ _ (Chain std_root [] [])); [exists 0%nat; split; [left; reflexivity | reflexivity]|].
    assert (unit_did = p_iss (u_payload (c_ucan (Chain std_root [] [])))) as -> by (vm_compute; reflexivity). apply SpecSecurity.Tr_claim.
    exists [], (mail "a@x" "email/send" (VObj [])), []. split; [vm_compute; reflexivity|]. split; [vm_compute; reflexivity | intros c' []]. }
  exact (trail_line mail_scope mail_ability mail_parse hash_ext true None 50 [std_text; B "x"] std_chain _ _ HT std_valid).
Qed.
