(** The entry points of chain building, the multicodec tables, stores under other hashes (C113-C115). *)
From Verif Require Import Prelude Ord SMap Base58 Value Utf8 Cid Url Ext Json Capability Semantics Key Ucan Store Builder Chain Ipld Fixtures
  Spec SpecChain SpecWire SpecJson SpecIpld SpecReject SpecEntry Samples JsonGrammarFacts JsonGrammarFacts EntryFacts.

(* ------------------------------------------------------------------ C113 *)

(** A chain is built from a text exactly when the text is the token of a UCAN with a valid chain. *)
Theorem C113_from_token : forall E nt slice t c st, steady E -> with_parser slice st ->
  ((exists fuel, fst (from_token E nt fuel t st) = Ok c) <->
   token_grammar (e_ext E) t (c_ucan c) /\ valid_chain E nt slice (fun _ => True) (fun _ => True) c).
Proof. exact token_entry. Qed.
Print Assumptions C113_from_token.

(** A chain is built from a CID exactly when the store holds such a token there. *)
Theorem C113_from_cid : forall E nt slice d c st, steady E -> with_parser slice st ->
  ((exists fuel, fst (from_cid E nt fuel d st) = Ok c) <->
   holds E d (c_ucan c) /\ valid_chain E nt slice (fun _ => True) (fun _ => True) c).
Proof. exact cid_entry. Qed.
Print Assumptions C113_from_cid.

(** Otherwise the error is that of the token, or of the chain. *)
Theorem C113_from_token_refused : forall E nt slice fuel t st e st', with_parser slice st -> from_token E nt fuel t st = (Err e, st') ->
  token_fault (e_ext E) t e \/
  exists u v, token_grammar (e_ext E) t u /\ reachable E u v /\ fault E nt slice (ticks_between st st') (reads_between st st') v e.
Proof. exact token_refused. Qed.
Print Assumptions C113_from_token_refused.

Theorem C113_from_cid_refused : forall E nt slice fuel c st e st', with_parser slice st -> from_cid E nt fuel c st = (Err e, st') ->
  cid_fault E (reads_between st st') c e \/
  exists u v, holds E c u /\ reachable E u v /\ fault E nt slice (ticks_between st st') (reads_between st st') v e.
Proof. exact cid_refused. Qed.
Print Assumptions C113_from_cid_refused.

Example C113_example :
  fst (from_token (leaf_env 50) None 5 (encode sample_ext leaf_ucan) sample_state) = Ok leaf_chain /\
  fst (from_cid (leaf_env 50) None 5 (to_cid sample_ext 30 mid_ucan) sample_state) = Ok (Chain mid_ucan [Chain root_ucan [] []] []) /\
  holds (leaf_env 50) (to_cid sample_ext 30 mid_ucan) mid_ucan /\
  fst (from_cid (leaf_env 50) None 5 (cid_new_v1 113 30 (x_hash sample_ext 30 (encode sample_ext mid_ucan))) sample_state) = Err ECodec /\
  fst (from_cid (leaf_env 50) None 5 (to_cid sample_ext 18 mid_ucan) sample_state) = Err ENoUcanForCid /\
  cid_fault (leaf_env 50) (fun _ => True) (to_cid sample_ext 18 mid_ucan) ENoUcanForCid.
Proof.
  split; [vm_compute; reflexivity|]. split; [vm_compute; reflexivity|]. split.
  { split; [reflexivity|]. exists O, (encode sample_ext mid_ucan). split; [vm_compute; reflexivity|].
    split; [apply JsonGrammarFacts.utf8_valid_iff; vm_compute; reflexivity|]. apply token_grammar_iff. vm_compute. reflexivity. }
  split; [vm_compute; reflexivity|]. split; [vm_compute; reflexivity|].
  apply (DF_absent _ _ _ O None I); [vm_compute; reflexivity | discriminate].
Qed.

(* ------------------------------------------------------------------ C114 *)

(** The tags of the kinds of keys and of other principals are those of the multicodec table: 0xed, 0x1205, 0xea, 0xeb, 0x1200, 0xe7; 0xd1d. *)
Theorem C114_key_kinds : Forall2 shortest_varint [237; 4613; 234; 235; 4608; 231; 3357]%N
  [ed25519_magic; rsa_magic; bls12381g1_magic; bls12381g2_magic; p256_magic; secp256k1_magic; did_ipld_prefix].
Proof. exact key_kinds. Qed.
Print Assumptions C114_key_kinds.

(** So are the kinds of signatures, and they are read as written. *)
Theorem C114_signature_kinds : forall v n,
  (varsig_code v = n <-> In (v, n) signature_kinds) /\ (varsig_of_code n = Ok v <-> In (v, n) signature_kinds) /\
  (forall e, varsig_of_code n = Err e <-> e = EVarsigPrefix /\ ~ In n (map snd signature_kinds)).
Proof. exact (fun v n => conj (signature_kind_code v n) (conj (signature_kind_ok n v) (signature_kind_err n))). Qed.
Print Assumptions C114_signature_kinds.

(** The names and kinds of the JWT algorithms. *)
Theorem C114_jwt_algorithms : forall s a v,
  (alg_to_string a = s <-> exists v, In (s, a, v) jwt_kinds) /\ (alg_of_string s = Ok a <-> exists v, In (s, a, v) jwt_kinds) /\
  (varsig_of_string s = Ok v <-> exists a, In (s, a, v) jwt_kinds) /\
  (varsig_of_alg a = v <-> exists s, In (s, a, v) jwt_kinds) /\ (alg_of_varsig v = Ok a <-> exists s, In (s, a, v) jwt_kinds).
Proof.
  exact (fun s a v => conj (alg_name a s) (conj (alg_read_ok s a) (conj (kind_read_ok s v) (conj (varsig_of_alg_kind a v) (alg_of_kind_ok v a))))).
Qed.
Print Assumptions C114_jwt_algorithms.

(** Tagged signatures that do not decode, and why. *)
Theorem C114_signature_errors : forall s e, signature_decode s = Err e <-> signature_fault s e.
Proof. exact signature_fault_iff. Qed.
Print Assumptions C114_signature_errors.

(** Principals: what a text is read as, and why not. *)
Theorem C114_principals : forall s p, principle_of_string s = Ok p <-> principal_bytes s p.
Proof. exact principal_iff. Qed.
Print Assumptions C114_principals.

Theorem C114_principal_errors : forall s e, principle_of_string s = Err e <-> principal_fault s e.
Proof. exact principal_fault_iff. Qed.
Print Assumptions C114_principal_errors.

Example C114_example :
  signature_fault ([xe7; xa1; x03] ++ [x05] ++ []) EVarsigAlgorithm /\ signature_fault [x80; x00] EVarint /\
  signature_fault ([xed; xa1; x03] ++ [x80]) EVarint /\ signature_fault ([x00] ++ [x00] ++ [x07]) EVarsigPrefix /\
  principal_bytes (B "did:web:x") (marker ++ B "web:x") /\ principal_bytes (did_of alice) ([xed; x01] ++ B "alice") /\
  principal_fault (B "key:z6Mk") ENotADid /\ principal_fault (B "did:key:z" ++ B "0") EBase58.
Proof.
  split; [apply signature_fault_iff; vm_compute; reflexivity|]. split; [apply signature_fault_iff; vm_compute; reflexivity|].
  split; [apply signature_fault_iff; vm_compute; reflexivity|]. split; [apply signature_fault_iff; vm_compute; reflexivity|].
  split; [apply principal_iff; vm_compute; reflexivity|]. split; [apply principal_iff; vm_compute; reflexivity|].
  split; apply principal_fault_iff; vm_compute; reflexivity.
Qed.

(* ------------------------------------------------------------------ C115 *)

(** A store under Blake2b-256: the token is there, under its hash, and nothing else changed. *)
Theorem C115_blake2b_store : forall X s token, exists c,
  fst (blake2b_write_token X s token) = Ok c /\ c = cid_new_v1 85 45600 (x_hash X 45600 token) /\
  mem_read (snd (blake2b_write_token X s token)) c = Ok (Some (IBytes token)) /\
  (forall d, d <> c -> mem_read (snd (blake2b_write_token X s token)) d = mem_read s d).
Proof. exact blake2b_written. Qed.
Print Assumptions C115_blake2b_store.

(** What a store holds under any hash is found by the citation made with that hash. *)
Theorem C115_citation_under_hash : forall E h u pu n, word h -> (length (x_hash (e_ext E) h (encode (e_ext E) u)) <= 64)%nat ->
  e_read E n (cid_new_v1 85 h (x_hash (e_ext E) h (encode (e_ext E) u))) = Ok (Some (IBytes (encode (e_ext E) u))) ->
  parse_token (e_ext E) (encode (e_ext E) u) = Ok pu ->
  resolves E (fun _ => True) (proof_text (e_ext E) u (Some h)) pu.
Proof. exact cited_under_hash. Qed.
Print Assumptions C115_citation_under_hash.

Definition b2_store : mstore := snd (blake2b_write_token sample_ext [] (encode sample_ext root_ucan)).
Definition b2_env : env := mkEnv sample_ext (fun _ => 50%N) (fun _ c => mem_read b2_store c).
Definition b2_ucan : ucan := Eval vm_compute in make
  [IssuedBy (toy bob); ForAudience (did_of mallory); NotBefore 20; WithExpiration 90; WitnessedBy root_ucan (Some 45600%N)].
Definition b3_ucan : ucan := Eval vm_compute in make
  [IssuedBy (toy bob); ForAudience (did_of mallory); NotBefore 20; WithExpiration 90; WitnessedBy root_ucan None].
Example C115_example :
  fst (from_ucan b2_env None 5 b2_ucan sample_state) = Ok (Chain b2_ucan [Chain root_ucan [] []] []) /\
  fst (from_ucan b2_env None 5 b3_ucan sample_state) = Err ENoUcanForCid /\
  word 45600 /\ (length (x_hash sample_ext 45600 (encode sample_ext root_ucan)) <= 64)%nat /\
  parse_token sample_ext (encode sample_ext root_ucan) = Ok root_ucan.
Proof.
  split; [vm_compute; reflexivity|]. split; [vm_compute; reflexivity|]. split; [unfold word; lia|].
  split; [apply Nat.leb_le; vm_compute; reflexivity | vm_compute; reflexivity].
Qed.
