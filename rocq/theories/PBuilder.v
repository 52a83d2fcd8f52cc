(** C53-C59: the builder. *)
From Coq Require Import Sorting.Permutation.
From Verif Require Import Prelude Ord SMap BaseN Base58 Value Cid Ext Capability Semantics Key Ucan Store Builder Chain Spec SpecBuilder
  SignFacts BuilderFacts Samples.

(* ------------------------------------------------------------------- C53 *)

Theorem C53_order_independent_report : forall S A (SO : scope_ops S) (AO : ability_ops A) parse X t rng before adds adds' after u u' proofs red,
  Permutation adds adds' -> ForallOrdPairs independent adds ->
  (let? s := build X t (builder_run X (before ++ map addition_op adds ++ after)) in sign X rng s) = Ok u ->
  (let? s := build X t (builder_run X (before ++ map addition_op adds' ++ after)) in sign X rng s) = Ok u' ->
  reduce SO AO parse (Chain u proofs red) = reduce SO AO parse (Chain u' proofs red).
Proof. exact @order_same_report. Qed.
Print Assumptions C53_order_independent_report.

Definition two_claims : list addition :=
  [AddClaim (mail "z@x" "email/send" obj1); AddClaim (mail "a@x" "email/read" obj2)].
Definition by_mallory : list builder_op := [IssuedBy (toy mallory); ForAudience (did_of alice)].
Example C53_example :
  Permutation two_claims (rev two_claims) /\ ForallOrdPairs independent two_claims /\
  reduce mail_scope mail_ability mail_parse (Chain (make (by_mallory ++ map addition_op two_claims)) [] []) =
  Ok [mkInfo [did_of mallory] None None (mkView (RPlain (Scoped (B "z@x"))) true obj1);
      mkInfo [did_of mallory] None None (mkView (RPlain (Scoped (B "a@x"))) false obj2)] /\
  reduce mail_scope mail_ability mail_parse (Chain (make (by_mallory ++ map addition_op (rev two_claims))) [] []) =
  Ok [mkInfo [did_of mallory] None None (mkView (RPlain (Scoped (B "z@x"))) true obj1);
      mkInfo [did_of mallory] None None (mkView (RPlain (Scoped (B "a@x"))) false obj2)].
Proof.
  split; [apply Permutation_rev|]. split; [do 2 (constructor; [repeat (constructor; [left; discriminate|]); constructor|]); constructor|]. vm_compute. split; reflexivity.
Qed.

(* ------------------------------------------------------------------- C54 *)

(** The result is exactly the UCAN described by the calls. *)
Theorem C54_build_iff_described : forall X t ops s, word (N.of_nat (length ops)) ->
  (build X t (builder_run X ops) = Ok s <-> described X t ops s).
Proof. exact build_iff. Qed.
Print Assumptions C54_build_iff_described.

(** It succeeds iff issuer and audience are set (and checked arithmetic does not overflow). *)
Theorem C54_build_succeeds_iff : forall X t ops, (exists s, build X t (builder_run X ops) = Ok s) <->
  (exists k, In (IssuedBy k) ops) /\ (exists a, In (ForAudience a) ops) /\
  ~ (last_such sets_expiration ops None /\ x_overflow_checks X = true /\
     exists l, last_such sets_lifetime ops (Some l) /\ (18446744073709551616 <= t + l)%N).
Proof. exact build_succeeds_iff. Qed.
Print Assumptions C54_build_succeeds_iff.

Theorem C54_missing_issuer : forall X t ops,
  build X t (builder_run X ops) = Err EMissingIssuer <-> forall k, ~ In (IssuedBy k) ops.
Proof. exact build_missing_issuer. Qed.
Print Assumptions C54_missing_issuer.

Theorem C54_missing_audience : forall X t ops, build X t (builder_run X ops) = Err EMissingAudience <->
  (exists k, In (IssuedBy k) ops) /\ forall a, ~ In (ForAudience a) ops.
Proof. exact build_missing_audience. Qed.
Print Assumptions C54_missing_audience.

Definition many_calls : list builder_op :=
  [IssuedBy (toy bob); WithFact (B "k") (Some VNull); WithLifetime 5; ForAudience (did_of bob); WitnessedBy root_ucan None;
   WithFact (B "k") (Some (VBool true)); WithFact (B "a") None; ClaimingCapabilities [mail "a@x" "email/read" obj1; mail "b@x" "email/read" obj1];
   DelegatingFrom mid_ucan (Some 18%N); WithFact (B "a") (Some VNull); WithNonce; WithLifetime 7; IssuedBy (toy alice); NotBefore 3].
Example C54_example :
  build sample_ext 100 (builder_run sample_ext many_calls) =
    Ok (mkSignable (toy alice) (did_of bob)
          [mail "a@x" "email/read" obj1; mail "b@x" "email/read" obj1; mkCap (B "prf:1") (B "ucan/DELEGATE") (VObj [])]
          (Some 107%N) (Some 3%N) [(B "a", VNull); (B "k", VBool true)]
          [citation sample_ext root_ucan None; citation sample_ext mid_ucan (Some 18%N)] true) /\
  word (N.of_nat (length many_calls)).
Proof. split; [vm_compute; reflexivity | vm_compute; discriminate]. Qed.

(* ------------------------------------------------------------------- C55 *)

Theorem C55_delegating_from_points_at_its_proof : forall X before a h after,
  word (N.of_nat (length (before ++ DelegatingFrom a h :: after))) ->
  exists i, i = length (b_proofs (builder_run X before)) /\
    b_proofs (builder_run X (before ++ [DelegatingFrom a h])) = b_proofs (builder_run X before) ++ [citation X a h] /\
    b_capabilities (builder_run X (before ++ [DelegatingFrom a h])) = b_capabilities (builder_run X before) ++ [delegation_of i] /\
    names_proof X (delegation_of i) (N.of_nat i) /\
    (forall j, names_proof X (delegation_of i) j -> j = N.of_nat i) /\
    nth_error (b_proofs (builder_run X (before ++ DelegatingFrom a h :: after))) i = Some (citation X a h) /\
    In (delegation_of i) (b_capabilities (builder_run X (before ++ DelegatingFrom a h :: after))).
Proof. exact delegating_from_points. Qed.
Print Assumptions C55_delegating_from_points_at_its_proof.

Theorem C55_later_calls_keep_the_proofs : forall X before after i text,
  nth_error (b_proofs (builder_run X before)) i = Some text ->
  nth_error (b_proofs (builder_run X (before ++ after))) i = Some text.
Proof. exact later_calls_keep. Qed.
Print Assumptions C55_later_calls_keep_the_proofs.

Example C55_example :
  delegation_of 1 = mkCap (B "prf:1") (B "ucan/DELEGATE") (VObj []) /\
  nth_error (b_proofs (builder_run sample_ext many_calls)) 1 = Some (citation sample_ext mid_ucan (Some 18%N)) /\
  citation sample_ext mid_ucan (Some 18%N) <> citation sample_ext mid_ucan None.
Proof. split; [reflexivity|]. split; [vm_compute; reflexivity | vm_compute; discriminate]. Qed.

(* ------------------------------------------------------------------- C56 *)

Theorem C56_redelegated_iff_delegating_from : forall E t rng ops s u nt fuel st c st',
  word (N.of_nat (length ops)) ->
  build (e_ext E) t (builder_run (e_ext E) ops) = Ok s -> sign (e_ext E) rng s = Ok u ->
  from_ucan E nt fuel u st = (Ok c, st') ->
  forall i, In (N.of_nat i) (c_redelegations c) <->
     (exists a h, nth_error (proofs_added ops) i = Some (a, h, true)) \/
     (exists cap, claimed_explicitly ops cap /\ names_proof (e_ext E) cap (N.of_nat i)).
Proof. exact built_redelegations. Qed.
Print Assumptions C56_redelegated_iff_delegating_from.

(** The proof at each position is a token stored under the CID of the authority given there. *)
Theorem C56_proofs_are_the_authorities_cited : forall E t rng ops s u nt slice fuel st c st',
  word (N.of_nat (length ops)) ->
  build (e_ext E) t (builder_run (e_ext E) ops) = Ok s -> sign (e_ext E) rng s = Ok u ->
  with_parser slice st -> from_ucan E nt fuel u st = (Ok c, st') ->
  length (c_proofs c) = length (proofs_added ops) /\
  forall i a h d pc, nth_error (proofs_added ops) i = Some (a, h, d) -> nth_error (c_proofs c) i = Some pc ->
    resolves E (reads_between st st') (citation (e_ext E) a h) (c_ucan pc).
Proof. exact built_proofs. Qed.
Print Assumptions C56_proofs_are_the_authorities_cited.

(** One proof delegated from, one only witnessed, one named explicitly. *)
Definition gift_ucan : ucan := Eval vm_compute in make
  [IssuedBy (toy bob); ForAudience (did_of mallory); ClaimingCapability (mail "b@x" "email/send" (VObj []))].
Definition mixed_calls : list builder_op :=
  [IssuedBy (toy mallory); ForAudience (did_of alice); NotBefore 30; WithExpiration 80; WitnessedBy gift_ucan None;
   DelegatingFrom mid_ucan None; WitnessedBy gift_ucan None; ClaimingCapability (mkCap (B "prf:2") (B "ucan/DELEGATE") (VObj []))].
Example C56_example :
  proofs_added mixed_calls = [(gift_ucan, None, false); (mid_ucan, None, true); (gift_ucan, None, false)] /\
  fst (from_ucan (sample_env 50 [root_ucan; mid_ucan; gift_ucan]) None 5 (make mixed_calls) sample_state) =
    Ok (Chain (make mixed_calls) [Chain gift_ucan [] []; Chain mid_ucan [Chain root_ucan [] []] []; Chain gift_ucan [] []] [1%N; 2%N]).
Proof. split; vm_compute; reflexivity. Qed.

(* ------------------------------------------------------------------- C57 *)

(** Without explicit expiry: exact when it fits, in the past when it wraps. *)
Theorem C57_lifetime_expiry : forall X t ops s l, word (N.of_nat (length ops)) ->
  build X t (builder_run X ops) = Ok s ->
  last_such sets_expiration ops None -> last_such sets_lifetime ops (Some l) -> word t -> word l ->
  ((t + l < 18446744073709551616)%N -> s_expiration s = Some (t + l)%N) /\
  ((18446744073709551616 <= t + l)%N -> exists e, s_expiration s = Some e /\ (e < t)%N).
Proof. exact lifetime_expiry. Qed.
Print Assumptions C57_lifetime_expiry.

(** The only abort of [build]: overflow with checked arithmetic. *)
Theorem C57_abort_iff_overflow : forall X t ops p, build X t (builder_run X ops) = Panic p <->
  p = PAddOverflow /\ (exists k, In (IssuedBy k) ops) /\ (exists a, In (ForAudience a) ops) /\
  last_such sets_expiration ops None /\ x_overflow_checks X = true /\
  exists l, last_such sets_lifetime ops (Some l) /\ (18446744073709551616 <= t + l)%N.
Proof. exact lifetime_aborts_iff. Qed.
Print Assumptions C57_abort_iff_overflow.

Definition unchecked_ext : ext :=
  mkExt (x_f64_print sample_ext) (x_f64_parse sample_ext) true true (x_multibase sample_ext) (x_url_hier sample_ext) (x_hash sample_ext) false.
Definition lasting (l : N) : list builder_op := [IssuedBy (toy alice); ForAudience (did_of bob); WithLifetime l].
Definition expiry_of (r : res signable) : res (option N) := match r with Ok s => Ok (s_expiration s) | Err e => Err e | Panic p => Panic p | Diverged => Diverged end.
Example C57_example :
  expiry_of (build sample_ext 100 (builder_run sample_ext (lasting 18446744073709551515))) = Ok (Some 18446744073709551615%N) /\
  build sample_ext 100 (builder_run sample_ext (lasting 18446744073709551516)) = Panic PAddOverflow /\
  expiry_of (build unchecked_ext 100 (builder_run unchecked_ext (lasting 18446744073709551615))) = Ok (Some 99%N) /\
  last_such sets_lifetime (lasting 5) (Some 5%N) /\ last_such sets_expiration (lasting 5) None.
Proof.
  do 3 (split; [vm_compute; reflexivity|]). split.
  - exists [IssuedBy (toy alice); ForAudience (did_of bob)], (WithLifetime 5), []. split; [reflexivity | split; [reflexivity | intros x []]].
  - intros x [<-|[<-|[<-|[]]]]; reflexivity.
Qed.

(* ------------------------------------------------------------------- C58 *)

(** Expected: signing never aborts with keys that do not abort.  Refuted. *)
Theorem C58_signing_never_aborts_refuted : exists X rng s p,
  (forall q, key_did (s_issuer s) <> Panic q) /\ (forall d q, key_sign (s_issuer s) d <> Panic q) /\
  sign X rng s = Panic p.
Proof.
  exists sample_ext, [], (mkSignable (toy alice) (did_of bob) [mail "a@x" "email/send" VNull] None None [] [] false), PPayloadExpect.
  split; [discriminate | split; [discriminate | vm_compute; reflexivity]].
Qed.
Print Assumptions C58_signing_never_aborts_refuted.

Theorem C58_aborts_iff_partial : forall X rng s,
  (forall p, key_did (s_issuer s) <> Panic p) -> (forall d p, key_sign (s_issuer s) d <> Panic p) ->
  ((exists p, sign X rng s = Panic p) <->
   (exists e, key_did (s_issuer s) = Err e) \/
   ((exists did, key_did (s_issuer s) = Ok did) /\ exists c, In c (s_capabilities s) /\ ~ object_caveat (cap_caveat c))).
Proof. exact sign_aborts_iff. Qed.
Print Assumptions C58_aborts_iff_partial.

(** Otherwise the outcome is a UCAN or the key's own error. *)
Theorem C58_otherwise_reports_partial : forall X rng s did, key_did (s_issuer s) = Ok did ->
  (forall c, In c (s_capabilities s) -> object_caveat (cap_caveat c)) ->
  (forall d, (exists g, key_sign (s_issuer s) d = Ok g) \/ (exists e, key_sign (s_issuer s) d = Err e)) ->
  (exists u, sign X rng s = Ok u) \/ (exists d e, key_sign (s_issuer s) d = Err e /\ sign X rng s = Err e).
Proof. exact sign_reports. Qed.
Print Assumptions C58_otherwise_reports_partial.

Definition failing_key : key := mkKey (B "EdDSA") (Ok (did_of alice)) (fun _ => Err ENoPrivateKey) (fun _ _ => Ok tt).
Definition no_did_key : key := mkKey (B "EdDSA") (Err EDid) (fun _ => Ok []) (fun _ _ => Ok tt).
Example C58_example :
  sign sample_ext [] (mkSignable failing_key (did_of bob) [mail "a@x" "email/send" obj1] None None [] [] false) = Err ENoPrivateKey /\
  sign sample_ext [] (mkSignable no_did_key (did_of bob) [] None None [] [] false) = Panic PPayloadExpect.
Proof. vm_compute. split; reflexivity. Qed.

(* ------------------------------------------------------------------- C59 *)

Theorem C59_nonce_iff_requested : forall X t ops s rng u, word (N.of_nat (length ops)) ->
  build X t (builder_run X ops) = Ok s -> sign X rng s = Ok u ->
  (p_nnc (u_payload u) <> None <-> In WithNonce ops) /\
  (forall n, p_nnc (u_payload u) = Some n -> b64_decode n = Some rng).
Proof. exact built_nonce. Qed.
Print Assumptions C59_nonce_iff_requested.

Theorem C59_nonce_form : forall X rng s u n, sign X rng s = Ok u -> length rng = 32%nat -> p_nnc (u_payload u) = Some n ->
  length n = 43%nat /\ (forall c, In c n -> In c base64url_alphabet) /\ b64_decode n = Some rng.
Proof. exact nonce_form. Qed.
Print Assumptions C59_nonce_form.

Theorem C59_distinct_draws_distinct_nonces : forall X rng rng' s s' u u' n,
  sign X rng s = Ok u -> sign X rng' s' = Ok u' ->
  p_nnc (u_payload u) = Some n -> p_nnc (u_payload u') = Some n -> rng = rng'.
Proof. exact nonce_distinct. Qed.
Print Assumptions C59_distinct_draws_distinct_nonces.

Example C59_example :
  sign sample_ext (repeat x61 32) rich_signable = Ok rich_ucan /\
  p_nnc (u_payload rich_ucan) = Some (B "YWFhYWFhYWFhYWFhYWFhYWFhYWFhYWFhYWFhYWFhYWE") /\
  p_nnc (u_payload root_ucan) = None.
Proof. vm_compute. repeat split. Qed.
