(** C26-C31: DIDs and key material. *)
From Verif Require Import Prelude SMap Base58 Value Ext Capability Key KeySupport Ucan Builder Spec DidFacts Samples.

(* ------------------------------------------------------------------- C26 *)

Theorem C26_cache_invisible : forall slice dids did,
  fst (did_parse (parser_after slice dids) did) = fst (did_parse (did_parser_new slice) did).
Proof. exact cache_invisible. Qed.
Print Assumptions C26_cache_invisible.

Theorem C26_failure_changes_nothing : forall p did,
  (forall k, fst (did_parse p did) <> Ok k) -> snd (did_parse p did) = p.
Proof. exact did_parse_fail. Qed.
Print Assumptions C26_failure_changes_nothing.

(** A history with a success, a repetition, an error and a panic; then alice
    from the cache, bob freshly. *)
Definition history : list bytes :=
  [did_of alice; did_of alice; B "did:web:x"; B "did:key:z"; B "did:key:z0"].
Definition alg_of (r : res key) : res bytes := let? k := r in Ok (key_alg k).

Example C26_example :
  map fst (dp_cache (parser_after [(ed25519_magic, fun bs => Ok (toy bs))] history)) = [did_of alice] /\
  alg_of (fst (did_parse (parser_after [(ed25519_magic, fun bs => Ok (toy bs))] history) (did_of alice))) = Ok (B "EdDSA") /\
  alg_of (fst (did_parse (parser_after [(ed25519_magic, fun bs => Ok (toy bs))] history) (did_of bob))) = Ok (B "EdDSA") /\
  alg_of (fst (did_parse (parser_after [(ed25519_magic, fun bs => Ok (toy bs))] history) (B "did:key:z2"))) = Panic PDidSlice.
Proof. vm_compute. repeat split. Qed.

(* ------------------------------------------------------------------- C27 *)

Theorem C27_success_iff : forall slice dids did k,
  fst (did_parse (parser_after slice dids) did) = Ok k <->
  exists m c rest, length m = 2%nat /\ did = did_key_text (m ++ rest) /\
                   registered slice m c /\ c rest = Ok k.
Proof. exact did_parse_ok_iff. Qed.
Print Assumptions C27_success_iff.

Theorem C27_constructor_outcome : forall slice dids m c rest,
  length m = 2%nat -> registered slice m c ->
  fst (did_parse (parser_after slice dids) (did_key_text (m ++ rest))) = c rest.
Proof. exact dispatch. Qed.
Print Assumptions C27_constructor_outcome.

Theorem C27_unregistered_magic : forall slice dids m rest,
  length m = 2%nat -> ~ In m (map fst slice) ->
  fst (did_parse (parser_after slice dids) (did_key_text (m ++ rest))) = Err EUnknownMagic.
Proof. exact dispatch_unknown. Qed.
Print Assumptions C27_unregistered_magic.

Theorem C27_other_method : forall slice dids did,
  (forall r, did <> B "did:key:z" ++ r) ->
  fst (did_parse (parser_after slice dids) did) = Err ENotDidKey.
Proof. exact dispatch_other. Qed.
Print Assumptions C27_other_method.

Theorem C27_bad_base58 : forall slice dids r,
  (forall bs, r <> b58_encode bs) ->
  fst (did_parse (parser_after slice dids) (B "did:key:z" ++ r)) = Err EBase58.
Proof. exact dispatch_bad_base58. Qed.
Print Assumptions C27_bad_base58.

(** Two constructors for one prefix: the later one is used. *)
Definition two_ctors : list (bytes * ctor) :=
  [(ed25519_magic, fun _ => Err EKeyBytes); (rsa_magic, fun bs => Ok (toy bs));
   (ed25519_magic, fun bs => Ok (toy_key bs (B "second")))].

Example C27_example :
  registered two_ctors ed25519_magic (fun bs => Ok (toy_key bs (B "second"))) /\
  (let? k := fst (did_parse (did_parser_new two_ctors) (did_of alice)) in key_did k) = Ok (B "second") /\
  alg_of (fst (did_parse (did_parser_new two_ctors) (did_key_text (p256_magic ++ alice)))) = Err EUnknownMagic /\
  alg_of (fst (did_parse (did_parser_new two_ctors) (B "did:web:example.com"))) = Err ENotDidKey /\
  alg_of (fst (did_parse (did_parser_new two_ctors) (B "did:key:z0OIl"))) = Err EBase58.
Proof.
  split.
  - exists (firstn 2 two_ctors), []. split; [reflexivity | intros []].
  - vm_compute. repeat split.
Qed.

(* ------------------------------------------------------------------- C28 *)

(** Expected: no DID string makes the parser panic.  False: *)
Theorem C28_never_aborts_refuted : exists slice did,
  (forall m c bs q, In (m, c) slice -> c bs <> Panic q) /\
  fst (did_parse (did_parser_new slice) did) = Panic PDidSlice.
Proof.
  exists [(ed25519_magic, fun bs => Ok (toy bs))], (B "did:key:z").
  split; [|reflexivity]. intros m c bs q [[= <- <-] | []]. discriminate.
Qed.
Print Assumptions C28_never_aborts_refuted.

(** It panics exactly on a payload of fewer than two bytes. *)
Theorem C28_aborts_iff_short_partial : forall slice dids did q,
  (forall m c bs q', In (m, c) slice -> c bs <> Panic q') ->
  (fst (did_parse (parser_after slice dids) did) = Panic q <->
   q = PDidSlice /\ exists bs, (length bs < 2)%nat /\ did = did_key_text bs).
Proof. exact did_parse_panic_iff. Qed.
Print Assumptions C28_aborts_iff_short_partial.

Example C28_example :
  did_key_text [] = B "did:key:z" /\ did_key_text [xed] = B "did:key:z56" /\
  alg_of (fst (did_parse sample_parser (B "did:key:z56"))) = Panic PDidSlice /\
  alg_of (fst (did_parse sample_parser (did_of []))) = Ok (B "EdDSA").
Proof. vm_compute. repeat split. Qed.

(* ------------------------------------------------------------------- C29 *)

Theorem C29_did_dispatches_to_own_type : forall m b k slice dids c did,
  supported_key m b k -> key_did k = Ok did -> registered slice m c ->
  fst (did_parse (parser_after slice dids) did) = c b.
Proof. exact supported_resolves. Qed.
Print Assumptions C29_did_dispatches_to_own_type.

Theorem C29_ed25519_roundtrip : forall Pub Priv (C : crypto Pub Priv) pk sk b did slice dids,
  cr_encode C pk = Some b -> cr_decode C b = Some pk ->
  key_did (ed25519_key C pk sk) = Ok did -> registered slice [xed; x01] (bytes_to_ed25519_key C) ->
  fst (did_parse (parser_after slice dids) did) = Ok (ed25519_key C pk None).
Proof. exact @ed25519_roundtrip. Qed.
Print Assumptions C29_ed25519_roundtrip.

Theorem C29_p256_roundtrip : forall Pub Priv (C : crypto Pub Priv) pk sk b did slice dids,
  cr_encode C pk = Some b -> cr_decode C b = Some pk ->
  key_did (p256_key C pk sk) = Ok did -> registered slice [x80; x24] (bytes_to_p256_key C) ->
  fst (did_parse (parser_after slice dids) did) = Ok (p256_key C pk None).
Proof. exact @p256_roundtrip. Qed.
Print Assumptions C29_p256_roundtrip.

Theorem C29_rsa_roundtrip : forall Pub Priv (C : crypto Pub Priv) sha256 pk sk b did slice dids,
  cr_encode C pk = Some b -> cr_decode C b = Some pk ->
  key_did (rsa_key C sha256 pk sk) = Ok did -> registered slice [x85; x24] (bytes_to_rsa_key C sha256) ->
  fst (did_parse (parser_after slice dids) did) = Ok (rsa_key C sha256 pk None).
Proof. exact @rsa_roundtrip. Qed.
Print Assumptions C29_rsa_roundtrip.

(** A toy crypto scheme: public keys are 4-byte strings, a signature repeats the data. *)
Definition toy_crypto : crypto bytes bytes :=
  mkCrypto Some (fun b => if (length b =? 4)%nat then Some b else None)
           (fun sk d => Some (sk ++ d)) (fun pk d s => bytes_eqb s (pk ++ d)).
Definition three_ctors : list (bytes * ctor) :=
  [(ed25519_magic, bytes_to_ed25519_key toy_crypto); (rsa_magic, bytes_to_rsa_key toy_crypto (fun d => d));
   (p256_magic, bytes_to_p256_key toy_crypto)].

Example C29_example :
  registered three_ctors [x85; x24] (bytes_to_rsa_key toy_crypto (fun d => d)) /\
  cr_decode toy_crypto (B "four") = Some (B "four") /\
  alg_of (let? did := key_did (rsa_key toy_crypto (fun d => d) (B "four") (Some (B "four"))) in
          fst (did_parse (did_parser_new three_ctors) did)) = Ok (B "RS256") /\
  alg_of (let? did := key_did (p256_key toy_crypto (B "four") None) in
          fst (did_parse (did_parser_new three_ctors) did)) = Ok (B "ES256").
Proof.
  split; [|vm_compute; repeat split].
  exists (firstn 1 three_ctors), (skipn 2 three_ctors). split; [reflexivity|].
  intros [E | []]. discriminate.
Qed.

(* ------------------------------------------------------------------- C30 *)

Theorem C30_dids_distinguish_keys : forall m b k m' b' k',
  supported_key m b k -> supported_key m' b' k' -> key_did k = key_did k' ->
  m = m' /\ b = b' /\ key_alg k = key_alg k'.
Proof. exact supported_did_inj. Qed.
Print Assumptions C30_dids_distinguish_keys.

(** The same bytes as Ed25519 key and as P-256 key. *)
Example C30_example :
  supported_key [xed; x01] (B "four") (ed25519_key toy_crypto (B "four") None) /\
  supported_key [x80; x24] (B "four") (p256_key toy_crypto (B "four") None) /\
  key_did (ed25519_key toy_crypto (B "four") None) <> key_did (p256_key toy_crypto (B "four") None).
Proof.
  split; [constructor; reflexivity|]. split; [constructor; reflexivity|]. vm_compute. discriminate.
Qed.

(* ------------------------------------------------------------------- C31 *)

Theorem C31_public_key_refuses : forall k d, public_only k -> key_sign k d = Err ENoPrivateKey.
Proof. exact public_only_sign. Qed.
Print Assumptions C31_public_key_refuses.

Theorem C31_no_token : forall X rng s u, public_only (s_issuer s) -> sign X rng s <> Ok u.
Proof. exact public_only_never_signs. Qed.
Print Assumptions C31_no_token.

Theorem C31_error : forall X rng s, public_only (s_issuer s) ->
  (forall c, In c (s_capabilities s) -> object_caveat (cap_caveat c)) ->
  sign X rng s = Err ENoPrivateKey.
Proof. exact public_only_sign_error. Qed.
Print Assumptions C31_error.

Theorem C31_parsed_keys_are_public_only : forall slice dids did k,
  (forall m c, In (m, c) slice -> standard_ctor m c) ->
  fst (did_parse (parser_after slice dids) did) = Ok k -> public_only k.
Proof. exact parsed_key_public. Qed.
Print Assumptions C31_parsed_keys_are_public_only.

Example C31_example :
  (forall m c, In (m, c) three_ctors -> standard_ctor m c) /\
  (let? k := fst (did_parse (did_parser_new three_ctors) (did_key_text (ed25519_magic ++ B "four"))) in
   let? s := build sample_ext 0 (builder_run sample_ext
     [IssuedBy k; ForAudience (did_of bob); ClaimingCapability (mkCap (B "mailto:a@x") (B "email/send") obj1)]) in
   sign sample_ext [] s) = Err ENoPrivateKey /\
  (let? s := build sample_ext 0 (builder_run sample_ext
     [IssuedBy (ed25519_key toy_crypto (B "four") (Some (B "four"))); ForAudience (did_of bob)]) in
   let? u := sign sample_ext [] s in Ok (p_iss (u_payload u))) = Ok (did_key_text (ed25519_magic ++ B "four")).
Proof.
  split; [|vm_compute; repeat split].
  intros m c [[= <- <-] | [[= <- <-] | [[= <- <-] | []]]]; constructor.
Qed.
