(** C160-C161: acceptance and reports in terms of the standards alone. *)
From Coq Require Import Sorting.Permutation.
From Verif Require Import Prelude Ord SMap Value Cid Ext Json Capability Semantics Key KeySupport Sha256 Sha512 RsaSign Ed25519 P256 Multihash Ucan Builder Store Chain
  Spec SpecJson SpecUrl SpecKeys SpecHash SpecSecurity SpecStandard HashFacts StandardFacts Samples SampleRsa SampleEd SampleHash SampleStandard.

(* ------------------------------------------------------------------ C160 *)

(** A signature is accepted exactly when it is one of the standards' under the key the issuer's DID names, whatever the
    order of the constructors, the nonces of the signer and the DIDs parsed before. *)
Theorem C160_signature : forall range nonce slice u st, Permutation slice (standard_keys range nonce) -> with_parser slice st ->
  (fst (check_signature u st) = Ok tt <-> standard_signature range (u_signed_data u) (u_signature u) (p_iss (u_payload u))).
Proof. exact standard_check. Qed.
Print Assumptions C160_signature.

(** A token gives a chain exactly when it is a text of the grammar and the chain is one of the standards'. *)
Theorem C160_token : forall range nonce slice E nt now ops blocks t c st,
  Permutation slice (standard_keys range nonce) -> standing E now ops -> writes ops blocks ->
  multihashed (e_ext E) -> rooted (e_ext E) -> with_parser slice st ->
  ((exists fuel, fst (from_token E nt fuel t st) = Ok c) <->
   token_grammar (e_ext E) t (c_ucan c) /\ standard_chain (e_ext E) range nt now blocks c).
Proof. exact standard_token. Qed.
Print Assumptions C160_token.

(** A UCAN has one chain over the same blocks, at all times. *)
Theorem C160_one_chain : forall X blocks range nt now c range' nt' now' c',
  standard_chain X range nt now blocks c -> standard_chain X range' nt' now' blocks c' -> c_ucan c = c_ucan c' -> c = c'.
Proof. exact (fun X blocks range nt now c range' nt' now' c' => standard_chain_fun X range nt now blocks c range' nt' now' c'). Qed.
Print Assumptions C160_one_chain.

(** An RSA key redelegates what an Ed25519 key gave it. *)
Example C160_example : Permutation std_slice (standard_keys true (fun _ _ => 1%N)) /\ standing std_env 50 std_ops /\ writes std_ops [std_text; B "x"] /\
  multihashed hash_ext /\ rooted hash_ext /\ with_parser std_slice std_state /\
  token_grammar hash_ext std_token std_leaf /\ standard_chain hash_ext true None 50 [std_text; B "x"] std_chain /\
  exists fuel, fst (from_token std_env None fuel std_token std_state) = Ok std_chain.
Proof.
  split; [exact std_perm|]. split; [exact std_standing|]. split; [exact std_writes|]. split; [apply with_hashes_multihashed|]. split; [exact std_rooted|].
  split; [exact std_parser|]. split; [exact std_token_text|]. split; [exact std_valid|].
  apply (C160_token true (fun _ _ => 1%N) std_slice std_env None 50 std_ops [std_text; B "x"] std_token std_chain std_state std_perm std_standing std_writes
           (with_hashes_multihashed sample_ext) std_rooted std_parser).
  split; [exact std_token_text | exact std_valid].
Qed.

(* ------------------------------------------------------------------ C161 *)

(** The assumption of C86 that signatures cannot be forged, exactly: who has a signature of the standards has signed. *)
Theorem C161_unforgeable : forall range nonce slice signed, Permutation slice (standard_keys range nonce) ->
  (unforgeable slice signed <-> forall did data sig, standard_signature range data sig did -> signed did data).
Proof. exact standard_unforgeable. Qed.
Print Assumptions C161_unforgeable.

(** A reported capability rests on a line of signed UCANs back to one of its originators. *)
Theorem C161_report : forall S A (SO : scope_ops S) (AO : ability_ops A) parse range nonce slice E nt now ops blocks fuel t st c r x,
  Permutation slice (standard_keys range nonce) -> standing E now ops -> writes ops blocks ->
  multihashed (e_ext E) -> rooted (e_ext E) -> with_parser slice st ->
  fst (from_token E nt fuel t st) = Ok c -> reduce SO AO parse c = Ok r -> In x r ->
  exists o, In o (i_originators x) /\ standard_line SO AO parse (e_ext E) range blocks (c_ucan c) (i_capability x) o.
Proof. exact @report_line. Qed.
Print Assumptions C161_report.

(** Every originator issued a UCAN of the chain. *)
Theorem C161_originators : forall S A (SO : scope_ops S) (AO : ability_ops A) parse range nonce slice E nt now ops blocks fuel t st c r x o,
  Permutation slice (standard_keys range nonce) -> standing E now ops -> writes ops blocks ->
  multihashed (e_ext E) -> rooted (e_ext E) -> with_parser slice st ->
  fst (from_token E nt fuel t st) = Ok c -> reduce SO AO parse c = Ok r -> In x r -> In o (i_originators x) ->
  exists u, in_chain u c /\ p_iss (u_payload u) = o /\ issued range u.
Proof. exact @report_issued. Qed.
Print Assumptions C161_originators.

(** The assumption is never met by "the holder signed": the neutral point's DID signs everything. *)
Theorem C161_weak_key : forall range nonce slice signed, Permutation slice (standard_keys range nonce) -> unforgeable slice signed ->
  forall data, signed unit_did data.
Proof. exact unit_signs_all. Qed.
Print Assumptions C161_weak_key.

Example C161_example :
  reduce mail_scope mail_ability mail_parse std_chain = Ok [mkInfo [unit_did] (Some 20%N) (Some 80%N) (mkView (RPlain (Scoped (B "a@x"))) true (VObj []))] /\
  standard_line mail_scope mail_ability mail_parse hash_ext true [std_text; B "x"] std_leaf (mkView (RPlain (Scoped (B "a@x"))) true (VObj [])) unit_did.
Proof. split; [exact std_report | exact std_line]. Qed.
