(** The unit tests of the repository, run on the model.

    Every Example is the transcription of the test of the same name: the same calls, the same
    literals, the assertions of the test.  Keys and hashes are toys (the cryptography is a
    parameter of the model), but the public key bytes and so the DIDs are the ones of
    ucan/src/tests/fixtures/identities.rs.  [now()] is 1700000000.
    Nothing depends on this file; it checks the model against known behaviour of the code. *)
From Coq Require Import Floats.SpecFloat.
From Verif Require Import Prelude Ord SMap BaseN Base58 Value Url Cid Ext Json Capability Semantics Key Ucan Store Builder Chain Ipld IpldSerde Cbor
  KeySupport Fixtures Hier Samples.

(** [Url::parse] on hierarchical URLs, by the rules of Hier.v. *)
Definition suite_hier : bytes -> bytes -> option url := url_hier (mkRules path_encoded (fun _ => None)).
Definition suite_ext : ext :=
  mkExt (fun _ => B "0.0") (fun _ => Some (S754_zero false)) true true (fun _ _ => None) suite_hier (fun _ => toy_hash) true.
Definition t0 : N := 1700000000.

Definition key_bytes (b64 : String.string) : bytes := match b64std_decode (B b64) with Some b => b | None => [] end.
Definition alice_pub : bytes := Eval vm_compute in key_bytes "VEDJjEu6quFIU8yp91/TY/+MYK8GvlKoTDnqOCovCVM".
Definition bob_pub : bytes := Eval vm_compute in key_bytes "EevXgL1V73PD9snOCIoONgb+yQ9sycYchQC8kygR4qY".
Definition mallory_pub : bytes := Eval vm_compute in key_bytes "0elFYkl3Ulf3Q3A/EvcVY0utb4etiSE8e6pi4H0FEmU".
Definition alice_did : bytes := Eval vm_compute in did_of alice_pub.
Definition bob_did : bytes := Eval vm_compute in did_of bob_pub.
Definition mallory_did : bytes := Eval vm_compute in did_of mallory_pub.
Definition alice_key : key := toy_key alice_pub alice_did.
Definition bob_key : key := toy_key bob_pub bob_did.
Definition mallory_key : key := toy_key mallory_pub mallory_did.

(** [.build().unwrap().sign().await.unwrap()] *)
Definition signed (ops : list builder_op) : ucan :=
  match build suite_ext t0 (builder_run suite_ext ops) with
  | Ok s => match sign suite_ext (repeat x07 32) s with Ok u => u | _ => no_ucan end
  | _ => no_ucan
  end.
Definition token (ops : list builder_op) : bytes := encode suite_ext (signed ops).

(** A memory store after [write_token] of the tokens, and the validator. *)
Definition written_to (tokens : list bytes) : mstore :=
  fold_left (fun s t => snd (mem_write_token suite_ext s t)) tokens [].
Definition suite_env (s : mstore) : env := mkEnv suite_ext (fun _ => t0) (fun _ c => mem_read s c).
Definition suite_state : vstate := sample_state.
Definition chain_of_token (s : mstore) (now_time : option N) (t : bytes) : res chain :=
  fst (from_token (suite_env s) now_time 9 t suite_state).
Definition chain_of_cid (s : mstore) (now_time : option N) (c : cid) : res chain :=
  fst (from_cid (suite_env s) now_time 9 c suite_state).
Definition chain_of_ucan (s : mstore) (now_time : option N) (u : ucan) : res chain :=
  fst (from_ucan (suite_env s) now_time 9 u suite_state).

Definition email_parse (r a : String.string) : option (view bytes email_action) :=
  parse_cap email_scope email_ability suite_ext (B r) (B a) None.
Definition wnfs_parse (r a : String.string) : option (view wnfs wnfs_level) :=
  parse_cap wnfs_scope wnfs_ability suite_ext (B r) (B a) None.
(** [.claiming_capability(&view)] *)
Definition claim_email (v : option (view bytes email_action)) : builder_op :=
  match v with Some v => ClaimingCapability (cap_of_view email_scope email_ability v) | None => WithNonce end.
Definition claim_wnfs (v : option (view wnfs wnfs_level)) : builder_op :=
  match v with Some v => ClaimingCapability (cap_of_view wnfs_scope wnfs_ability v) | None => WithNonce end.
Definition email_report (c : res chain) : res (list (info bytes email_action)) :=
  let? c := c in reduce email_scope email_ability (parse_capability email_scope email_ability suite_ext) c.

Definition send_as_alice := email_parse "mailto:alice@email.com" "email/send".
Definition send_as_bob := email_parse "mailto:bob@email.com" "email/send".
Definition is_ok {A} (r : res A) : bool := match r with Ok _ => true | _ => false end.
Definition is_err {A} (r : res A) : bool := match r with Err _ => true | _ => false end.

(* ---------------------------------------------------------------- tests/attenuation.rs *)

Definition mail_leaf := signed [IssuedBy alice_key; ForAudience bob_did; WithLifetime 60; claim_email send_as_alice].
Definition attenuated_token := token [IssuedBy bob_key; ForAudience mallory_did; WithLifetime 50; WitnessedBy mail_leaf None; claim_email send_as_alice].
Example it_works_with_a_simple_example :
  match email_report (chain_of_token (written_to [encode suite_ext mail_leaf]) None attenuated_token) with
  | Ok [i] => resource_to_string email_scope (v_resource (i_capability i)) = B "mailto:alice@email.com" /\
              ab_to_string email_ability (v_ability (i_capability i)) = B "email/send"
  | _ => False
  end.
Proof. vm_compute. split; reflexivity. Qed.

Definition leaf_no_claim := signed [IssuedBy alice_key; ForAudience bob_did; WithLifetime 60].
Definition by_bob_token := token [IssuedBy bob_key; ForAudience mallory_did; WithLifetime 50; WitnessedBy leaf_no_claim None; claim_email send_as_bob].
Example it_reports_the_first_issuer_in_the_chain_as_originator :
  match email_report (chain_of_token (written_to [encode suite_ext leaf_no_claim]) None by_bob_token) with
  | Ok [i] => i_originators i = [bob_did] /\ Some (i_capability i) = send_as_bob
  | _ => False
  end.
Proof. vm_compute. split; reflexivity. Qed.

Definition leaf_alice := signed [IssuedBy alice_key; ForAudience mallory_did; WithLifetime 60; claim_email send_as_alice].
Definition leaf_bob := signed [IssuedBy bob_key; ForAudience mallory_did; WithLifetime 60; claim_email send_as_bob].
Definition both_ucan := signed [IssuedBy mallory_key; ForAudience alice_did; WithLifetime 50; WitnessedBy leaf_alice None;
  WitnessedBy leaf_bob None; claim_email send_as_alice; claim_email send_as_bob].
Example it_finds_the_right_proof_chain_for_the_originator :
  match email_report (chain_of_token (written_to [encode suite_ext leaf_alice; encode suite_ext leaf_bob]) None (encode suite_ext both_ucan)), send_as_alice, send_as_bob with
  | Ok [i_bob; i_alice], Some as_alice, Some as_bob =>
      i_alice = mkInfo [alice_did] (p_nbf (u_payload both_ucan)) (p_exp (u_payload both_ucan)) as_alice /\
      i_bob = mkInfo [bob_did] (p_nbf (u_payload both_ucan)) (p_exp (u_payload both_ucan)) as_bob
  | _, _, _ => False
  end.
Proof. vm_compute. split; reflexivity. Qed.

Definition leaf_bob_for_alice := signed [IssuedBy bob_key; ForAudience mallory_did; WithLifetime 60; claim_email send_as_alice].
Definition options_ucan := signed [IssuedBy mallory_key; ForAudience alice_did; WithLifetime 50; WitnessedBy leaf_alice None;
  WitnessedBy leaf_bob_for_alice None; claim_email send_as_alice].
Example it_reports_all_chain_options :
  match email_report (chain_of_token (written_to [encode suite_ext leaf_alice; encode suite_ext leaf_bob_for_alice]) None (encode suite_ext options_ucan)), send_as_alice with
  | Ok [i], Some as_alice =>
      i = mkInfo (sextend [] [alice_did; bob_did]) (p_nbf (u_payload options_ucan)) (p_exp (u_payload options_ucan)) as_alice
  | _, _ => False
  end.
Proof. vm_compute. reflexivity. Qed.

(** it_validates_caveats *)
Definition with_caveat (c : value) : capability := mkCap (B "mailto:alice@email.com") (B "email/send") c.
Definition no_caveat := with_caveat (VObj []).
Definition x_caveat := with_caveat (VObj [(B "x", VBool true)]).
Definition y_caveat := with_caveat (VObj [(B "y", VBool true)]).
Definition z_caveat := with_caveat (VObj [(B "z", VBool true)]).
Definition yz_caveat := with_caveat (VObj [(B "y", VBool true); (B "z", VBool true)]).
Definition enables_capabilities (c : res chain) (originator : bytes) (desired : list capability) : bool :=
  match email_report c with
  | Ok infos => forallb (fun d => match parse_capability email_scope email_ability suite_ext d with
      | Some v => existsb (fun i => existsb (bytes_eqb originator) (i_originators i) && view_enables email_scope email_ability (i_capability i) v) infos
      | None => false end) desired
  | _ => false
  end.
Definition test_capabilities_delegation (proof delegated : list capability) : bool :=
  let proof_ucan := signed [IssuedBy alice_key; ForAudience mallory_did; WithLifetime 60; ClaimingCapabilities proof] in
  let ucan := signed [IssuedBy mallory_key; ForAudience alice_did; WithLifetime 50; WitnessedBy proof_ucan None; ClaimingCapabilities delegated] in
  enables_capabilities (chain_of_ucan (written_to [encode suite_ext proof_ucan; encode suite_ext ucan]) None ucan) alice_did delegated.
Example it_validates_caveats :
  map (fun pd => test_capabilities_delegation (fst pd) (snd pd))
    [([no_caveat], [no_caveat]); ([x_caveat], [x_caveat]); ([no_caveat], [x_caveat]); ([x_caveat; y_caveat], [x_caveat]);
     ([x_caveat; y_caveat], [x_caveat; yz_caveat]);
     ([x_caveat], [no_caveat]); ([x_caveat], [y_caveat]); ([x_caveat; y_caveat], [x_caveat; y_caveat; z_caveat])]
  = [true; true; true; true; true; false; false; false].
Proof. vm_compute. reflexivity. Qed.

(* ---------------------------------------------------------------------- tests/chain.rs *)

Definition plain_leaf := signed [IssuedBy alice_key; ForAudience bob_did; WithLifetime 60].
Definition delegated_token := token [IssuedBy bob_key; ForAudience mallory_did; WithLifetime 50; WitnessedBy plain_leaf None].
Definition deep_asserts (c : res chain) : Prop :=
  match c with
  | Ok c => p_aud (u_payload (c_ucan c)) = mallory_did /\
            option_map (fun p => p_iss (u_payload (c_ucan p))) (nth_error (c_proofs c) 0) = Some alice_did
  | _ => False
  end.
Example it_decodes_deep_ucan_chains : deep_asserts (chain_of_token (written_to [encode suite_ext plain_leaf]) None delegated_token).
Proof. vm_compute. split; reflexivity. Qed.

Definition wrong_token := token [IssuedBy alice_key; ForAudience mallory_did; WithLifetime 50; WitnessedBy plain_leaf None].
Example it_fails_with_incorrect_chaining : is_err (chain_of_token (written_to [encode suite_ext plain_leaf]) None wrong_token) = true.
Proof. vm_compute. reflexivity. Qed.

Definition chain_store := written_to [encode suite_ext plain_leaf; delegated_token].
Definition delegated_cid := match fst (mem_write_token suite_ext [] delegated_token) with Ok c => c | _ => mkCid 0 0 0 [] end.
Example it_can_be_instantiated_by_cid : deep_asserts (chain_of_cid chain_store None delegated_cid).
Proof. vm_compute. split; reflexivity. Qed.

Definition leaf_2 := signed [IssuedBy mallory_key; ForAudience bob_did; WithLifetime 60].
Definition two_leaves_token := token [IssuedBy bob_key; ForAudience alice_did; WithLifetime 50; WitnessedBy plain_leaf None; WitnessedBy leaf_2 None].
Example it_can_handle_multiple_leaves :
  is_ok (chain_of_token (written_to [encode suite_ext plain_leaf; encode suite_ext leaf_2]) None two_leaves_token) = true.
Proof. vm_compute. reflexivity. Qed.

Example it_can_use_a_custom_timestamp_to_validate_a_ucan :
  is_ok (chain_of_cid chain_store (Some t0) delegated_cid) = true /\ is_err (chain_of_cid chain_store (Some (t0 + 61)%N) delegated_cid) = true.
Proof. vm_compute. split; reflexivity. Qed.

(* ----------------------------------------------------------------------- tests/ucan.rs *)

Definition no_store := suite_env [].
Example it_round_trips_with_encode :
  match parse_token suite_ext (token [IssuedBy alice_key; ForAudience bob_did; WithLifetime 30]) with
  | Ok u => fst (validate no_store u None suite_state) = Ok tt
  | _ => False
  end.
Proof. vm_compute. reflexivity. Qed.

Example it_identifies_a_ucan_that_is_not_active_yet :
  fst (is_too_early no_store (signed [IssuedBy alice_key; ForAudience bob_did; NotBefore (t0 + 30); WithLifetime 30]) suite_state) = Ok true.
Proof. vm_compute. reflexivity. Qed.

Example it_identifies_a_ucan_that_has_become_active :
  fst (is_too_early no_store (signed [IssuedBy alice_key; ForAudience bob_did; NotBefore (t0 / 1000); WithLifetime 30]) suite_state) = Ok false.
Proof. vm_compute. reflexivity. Qed.

(** [serde_json::to_value] is the derived serialisation; map fields in key order. *)
Definition json_ucan := signed [IssuedBy alice_key; ForAudience bob_did; NotBefore (t0 / 1000); WithLifetime 30;
  WithFact (B "abc/challenge") (Some (VObj [(B "foo", VStr (B "bar"))])); claim_email send_as_alice].
Example it_can_be_serialized_as_json : ucan_to_data json_ucan = IMap [
  (B "header", IMap [(B "alg", IStr (B "EdDSA")); (B "typ", IStr (B "JWT"))]);
  (B "payload", IMap [
    (B "aud", IStr bob_did);
    (B "cap", IMap [(B "mailto:alice@email.com", IMap [(B "email/send", IList [IMap []])])]);
    (B "exp", IInt 1700000030);
    (B "fct", IMap [(B "abc/challenge", IMap [(B "foo", IStr (B "bar"))])]);
    (B "iss", IStr alice_did);
    (B "nbf", IInt 1700000);
    (B "ucv", IStr (B "0.10.0-canary"))]);
  (B "signature", ipld_of_vec (u_signature json_ucan));
  (B "signed_data", ipld_of_vec (u_signed_data json_ucan))].
Proof. vm_compute. reflexivity. Qed.

Definition plain_ucan := signed [IssuedBy alice_key; ForAudience bob_did].
Example it_can_be_serialized_as_json_without_optionals : ucan_to_data plain_ucan = IMap [
  (B "header", IMap [(B "alg", IStr (B "EdDSA")); (B "typ", IStr (B "JWT"))]);
  (B "payload", IMap [(B "aud", IStr bob_did); (B "cap", IMap []); (B "exp", INull); (B "iss", IStr alice_did); (B "ucv", IStr (B "0.10.0-canary"))]);
  (B "signature", ipld_of_vec (u_signature plain_ucan));
  (B "signed_data", ipld_of_vec (u_signed_data plain_ucan))].
Proof. vm_compute. reflexivity. Qed.

Example it_implements_partial_eq :
  signed [IssuedBy alice_key; ForAudience bob_did; WithExpiration 10000000] = signed [IssuedBy alice_key; ForAudience bob_did; WithExpiration 10000000] /\
  signed [IssuedBy alice_key; ForAudience bob_did; WithExpiration 10000000] <> signed [IssuedBy alice_key; ForAudience bob_did; WithExpiration 20000000].
Proof. split; [reflexivity|]. intros H. apply (f_equal (fun u => p_exp (u_payload u))) in H. vm_compute in H. discriminate. Qed.

Definition early_ucan := signed [IssuedBy alice_key; ForAudience bob_did; WithLifetime 2000].
Definition later_ucan := signed [IssuedBy alice_key; ForAudience bob_did; WithLifetime 4000].
Example test_lifetime_ends_after :
  p_exp (u_payload plain_ucan) = None /\ lifetime_ends_after plain_ucan early_ucan = true /\
  lifetime_ends_after early_ucan plain_ucan = false /\ lifetime_ends_after later_ucan early_ucan = true.
Proof. vm_compute. repeat split; reflexivity. Qed.

(* -------------------------------------------------------------------- tests/builder.rs *)

Definition fact_1 := VObj [(B "test", VBool true)].
Definition fact_2 := VObj [(B "hash", VStr (B "sth")); (B "preimage", VStr (B "abc"))].
Definition cap_1 := email_parse "mailto:alice@gmail.com" "email/send".
Definition cap_2 := wnfs_parse "wnfs://alice.fission.name/public" "wnfs/super_user".
Definition simple_ucan := signed [IssuedBy alice_key; ForAudience bob_did; WithExpiration (t0 + 30); NotBefore (t0 - 30);
  WithFact (B "abc/challenge") (Some fact_1); WithFact (B "def/challenge") (Some fact_2); claim_email cap_1; claim_wnfs cap_2; WithNonce].
Example it_builds_with_a_simple_example :
  let p := u_payload simple_ucan in
  p_iss p = alice_did /\ p_aud p = bob_did /\ p_exp p = Some (t0 + 30)%N /\ p_nbf p = Some (t0 - 30)%N /\
  p_fct p = Some (mof_list [(B "abc/challenge", fact_1); (B "def/challenge", fact_2)]) /\
  match cap_1, cap_2 with
  | Some c1, Some c2 => caps_of_list [cap_of_view email_scope email_ability c1; cap_of_view wnfs_scope wnfs_ability c2] = Ok (p_cap p)
  | _, _ => False
  end /\ p_nnc p <> None.
Proof. vm_compute. repeat split. discriminate. Qed.

Example it_builds_with_lifetime_in_seconds :
  match p_exp (u_payload (signed [IssuedBy alice_key; ForAudience bob_did; WithLifetime 300])) with
  | Some e => (t0 + 290 <? e)%N = true
  | None => False
  end.
Proof. vm_compute. reflexivity. Qed.

Definition parent_ucan := signed [IssuedBy alice_key; ForAudience bob_did; WithLifetime 30; claim_wnfs cap_2].
Definition next_ucan := signed [IssuedBy bob_key; ForAudience mallory_did; WithLifetime 30; WitnessedBy parent_ucan None;
  claim_wnfs (wnfs_parse "wnfs://alice.fission.name/public/Apps" "wnfs/create");
  claim_wnfs (wnfs_parse "wnfs://alice.fission.name/public/Domains" "wnfs/create")].
Example it_prevents_duplicate_proofs : p_prf (u_payload next_ucan) = Some [cid_to_string (to_cid suite_ext default_hasher parent_ucan)].
Proof. vm_compute. reflexivity. Qed.

Definition hasher_leaf := signed [IssuedBy alice_key; ForAudience bob_did; WithLifetime 60].
Definition hasher_ucan := signed [IssuedBy alice_key; IssuedBy bob_key; ForAudience mallory_did; WithLifetime 50; WitnessedBy hasher_leaf (Some blake2b_256)].
Definition blake2b_store := fold_left (fun s u => snd (blake2b_write_token suite_ext s (encode suite_ext u))) [hasher_leaf; hasher_ucan] [].
Example it_can_use_custom_hasher :
  is_ok (chain_of_ucan blake2b_store (Some t0) hasher_ucan) = true.
Proof. vm_compute. reflexivity. Qed.

(* ------------------------------------------------------------------ tests/capability.rs *)

Definition one_field (k : String.string) := VObj [(B k, VNum (PosInt 1))].
Definition cap_foo := mkCap (B "example://foo") (B "ability/foo") (VObj []).
Definition cap_bar_1 := mkCap (B "example://bar") (B "ability/bar") (one_field "beep").
Definition cap_bar_2 := mkCap (B "example://bar") (B "ability/bar") (one_field "boop").
Definition cap_json := VObj [(B "example://bar", VObj [(B "ability/bar", VArr [one_field "beep"; one_field "boop"])]);
                             (B "example://foo", VObj [(B "ability/foo", VArr [VObj []])])].
Example it_can_cast_between_map_and_sequence :
  match caps_of_value cap_json with
  | Ok cap_map => caps_iter cap_map = [cap_bar_1; cap_bar_2; cap_foo] /\ caps_of_list [cap_bar_1; cap_bar_2; cap_foo] = Ok cap_map
  | _ => False
  end.
Proof. vm_compute. split; reflexivity. Qed.

Example it_rejects_non_compliant_json :
  forallb (fun v => is_err (caps_of_value v))
    [VArr []; VObj [(B "resource:foo", VArr [])]; VObj [(B "resource:foo", VObj [])];
     VObj [(B "resource:foo", VObj [(B "ability/read", VObj [])])];
     VObj [(B "resource:foo", VObj [(B "ability/read", VArr [VNum (PosInt 1)])])]] = true /\
  is_ok (caps_of_value (VObj [(B "resource:foo", VObj [(B "ability/read", VArr [VObj []])])])) = true.
Proof. vm_compute. split; reflexivity. Qed.

Example it_filters_out_empty_caveats_when_iterating :
  match caps_of_value (VObj [(B "example://bar", VObj [(B "ability/bar", VArr [VObj []])]); (B "example://foo", VObj [(B "ability/foo", VArr [])])]) with
  | Ok m => caps_iter m = [mkCap (B "example://bar") (B "ability/bar") (VObj [])]
  | _ => False
  end.
Proof. vm_compute. reflexivity. Qed.

(* ---------------------------------------------------------------------- tests/crypto.rs *)

(** The bytes are those of the test's base64 text, whose padding the model's decoder does not take. *)
Example it_handles_ed25519_keys :
  did_of (key_bytes "Hv+AVRD2WUjUFOsSNbsmrp9fokuwrUnjBcr92f0kxw4") = B "did:key:z6MkgYGF3thn8k1Fv4p4dWXKtsXCnLH7q9yw4QgNPULDmDKB".
Proof. vm_compute. reflexivity. Qed.

(* --------------------------------------------------------------------------- ipld/*.rs *)

(** ipld/principle.rs *)
Definition principle_round_trip (s : bytes) : res bytes :=
  let? p := principle_of_string s in
  match dag_cbor_roundtrip ipld_of_vec vec_of_ipld p with Some p' => principle_to_string p' | None => Diverged end.
Example it_round_trips_a_principle_did :
  forallb (fun s => match principle_round_trip s with Ok s' => bytes_eqb s s' | _ => false end)
    [B "did:key:z6MkhaXgBZDvotDkL5257faiztiGiC2QtKLGpbnnEGta2doK"; B "did:web:example.com"] = true.
Proof. vm_compute. reflexivity. Qed.

(** ipld/signature.rs *)
Example it_can_convert_between_jwt_and_bytesprefix_form :
  match b64_decode (B "Ab-xfYRoqYEHuo-252MKXDSiOZkLD-h1gHt8gKBP0AVdJZ6Jruv49TLZOvgWy9QkCpiwKUeGVbHodKcVx-azCQ") with
  | Some sig => length sig = 64%nat /\ signature_decode (signature_encode EdDSA sig) = Ok (EdDSA, sig)
  | None => False
  end.
Proof. vm_compute. split; reflexivity. Qed.

(** ipld/ucan.rs; the calls of [scaffold_ucan_builder] *)
Definition scaffold_alice := signed [IssuedBy alice_key; ForAudience mallory_did; WithExpiration 1664232146010; claim_email send_as_alice].
Definition scaffold_bob := signed [IssuedBy bob_key; ForAudience mallory_did; WithExpiration 1664232146010; claim_email send_as_bob].
Definition scaffold := [IssuedBy mallory_key; ForAudience alice_did; WithExpiration 1664232146010; WitnessedBy scaffold_alice None;
  WitnessedBy scaffold_bob None; claim_email send_as_alice; claim_email send_as_bob].
(** The values of [json!] are maps, so both orders are the same value. *)
Definition challenge (entries : list (bytes * value)) := WithFact (B "abc/challenge") (Some (VObj (mof_list entries))).
Example it_produces_canonical_jwt_despite_json_ambiguity :
  bytes_eqb (token (scaffold ++ [challenge [(B "baz", VBool true); (B "foo", VStr (B "bar"))]]))
            (token (scaffold ++ [challenge [(B "foo", VStr (B "bar")); (B "baz", VBool true)]])) = true.
Proof. vm_compute. reflexivity. Qed.

Definition scaffold_jwt := token (scaffold ++ [challenge [(B "baz", VBool true); (B "foo", VStr (B "bar"))]; WithNonce]).
Definition there_and_back : res bytes :=
  let? u := parse_token suite_ext scaffold_jwt in
  let? i := ucan_to_ipld suite_ext u in
  match dag_cbor_roundtrip ucan_ipld_to_data (ucan_ipld_of_data suite_ext) i with
  | Some i' => let? u' := ucan_of_ipld suite_ext i' in Ok (encode suite_ext u')
  | None => Diverged
  end.
Example it_stays_canonical_when_converting_between_jwt_and_ipld :
  match there_and_back with Ok j => bytes_eqb scaffold_jwt j | _ => false end = true.
Proof. vm_compute. reflexivity. Qed.

(* ------------------------------------------------------ ucan-key-support/src/*.rs *)

Definition toy_crypto : crypto bytes bytes :=
  mkCrypto (fun pk => Some pk) (fun b => Some b) (fun sk d => Some (sk ++ d)) (fun pk d g => bytes_eqb g (pk ++ d)).
(** The test [it_can_sign_and_verify_a_ucan] of ed25519.rs, p256.rs and rsa.rs. *)
Definition sign_and_verify (magic : bytes) (c : ctor) (k : key) : bool :=
  match key_did k with
  | Ok did =>
      match parse_token suite_ext (token [IssuedBy k; ForAudience did; WithLifetime 60]) with
      | Ok u => is_ok (fst (check_signature u (mkState (did_parser_new [(magic, c)]) 0 0 0)))
      | _ => false
      end
  | _ => false
  end.
Definition toy_sha256 (d : bytes) : bytes := toy_hash d.
Example it_can_sign_and_verify_a_ucan :
  sign_and_verify ed25519_magic (bytes_to_ed25519_key toy_crypto) (ed25519_key toy_crypto alice_pub (Some alice_pub)) = true /\
  sign_and_verify p256_magic (bytes_to_p256_key toy_crypto) (p256_key toy_crypto (x02 :: alice_pub) (Some (x02 :: alice_pub))) = true /\
  sign_and_verify rsa_magic (bytes_to_rsa_key toy_crypto toy_sha256) (rsa_key toy_crypto toy_sha256 alice_pub (Some alice_pub)) = true.
Proof. vm_compute. repeat split; reflexivity. Qed.
