(** C99-C100: proofs cited more than once, and their order. *)
From Coq Require Import Sorting.Permutation.
From Verif Require Import Prelude Ord SMap Base58 Value Ext Capability Semantics Key Ucan Store Builder Chain Spec SpecBuilder
  BuilderFacts ProofSetFacts Samples.

(* ------------------------------------------------------------------- C99 *)

(** What the test [it_prevents_duplicate_proofs] is named after: no UCAN that was built cites a proof twice. *)
Definition C99_no_duplicate_proofs : Prop := forall X ops, NoDup (b_proofs (builder_run X ops)).

Theorem C99_no_duplicate_proofs_refuted : exists X ops,
  b_proofs (builder_run X ops) = [citation X root_ucan None; citation X root_ucan None].
Proof. exact (ex_intro _ sample_ext (ex_intro _ [WitnessedBy root_ucan None; WitnessedBy root_ucan None] eq_refl)). Qed.
Print Assumptions C99_no_duplicate_proofs_refuted.

(** The proofs are exactly those of the calls, one for each call and in that order. *)
Theorem C99_no_duplicate_proofs_partial : forall X ops,
  b_proofs (builder_run X ops) = map (fun p => citation X (fst (fst p)) (snd (fst p))) (proofs_added ops).
Proof. exact run_proofs. Qed.
Print Assumptions C99_no_duplicate_proofs_partial.

(** Citing again a proof that is cited without redelegation leaves the report as it is. *)
Theorem C99_repeated_proof_partial : forall S A (SO : scope_ops S) (AO : ability_ops A) parse u ps red p r,
  attenuated (Chain u ps red) p -> reduce SO AO parse (Chain u ps red) = Ok r ->
  reduce SO AO parse (Chain u (ps ++ [p]) red) = Ok r.
Proof. exact @repeated_proof_report. Qed.
Print Assumptions C99_repeated_proof_partial.

Definition twice_ucan : ucan := Eval vm_compute in make
  [IssuedBy (toy bob); ForAudience (did_of mallory); NotBefore 20; WithExpiration 90; WitnessedBy root_ucan None; WitnessedBy root_ucan None;
   ClaimingCapability (mail "a@x" "email/send" obj1)].
Example C99_example :
  fst (from_ucan (sample_env 30 [root_ucan]) None 9 twice_ucan sample_state) =
    Ok (Chain twice_ucan [Chain root_ucan [] []; Chain root_ucan [] []] []) /\
  attenuated (Chain twice_ucan [Chain root_ucan [] []] []) (Chain root_ucan [] []) /\
  exists r, r <> [] /\ reduce mail_scope mail_ability mail_parse (Chain twice_ucan [Chain root_ucan [] []] []) = Ok r /\
    reduce mail_scope mail_ability mail_parse (Chain twice_ucan [Chain root_ucan [] []; Chain root_ucan [] []] []) = Ok r.
Proof.
  split; [vm_compute; reflexivity|]. split; [exists O; split; [intros [] | reflexivity]|].
  exists [mkInfo [did_of alice] (Some 20%N) (Some 90%N) (mkView (RPlain (Scoped (B "a@x"))) true obj1)].
  split; [discriminate|]. vm_compute. split; reflexivity.
Qed.

(* ------------------------------------------------------------------ C100 *)

(** The report of a UCAN that redelegates nothing does not depend on the order of its proofs, nor on repetitions. *)
Theorem C100_proof_order : forall S A (SO : scope_ops S) (AO : ability_ops A) parse u ps ps' r,
  (forall p, In p ps <-> In p ps') ->
  reduce SO AO parse (Chain u ps []) = Ok r -> reduce SO AO parse (Chain u ps' []) = Ok r.
Proof. exact @proof_set_report. Qed.
Print Assumptions C100_proof_order.

(** With redelegations: only the set of the other proofs matters, and the redelegated ones in their order. *)
Theorem C100_same_proofs : forall S A (SO : scope_ops S) (AO : ability_ops A) parse u ps red ps' red' r,
  (forall p, attenuated (Chain u ps red) p <-> attenuated (Chain u ps' red') p) ->
  map (fun i => nth_error ps (N.to_nat i)) red = map (fun i => nth_error ps' (N.to_nat i)) red' ->
  reduce SO AO parse (Chain u ps red) = Ok r -> reduce SO AO parse (Chain u ps' red') = Ok r.
Proof. exact @same_proofs_report. Qed.
Print Assumptions C100_same_proofs.

Definition other_ucan : ucan := Eval vm_compute in make
  [IssuedBy (toy mallory); ForAudience (did_of bob); WithExpiration 100; ClaimingCapability (mail "a@x" "email/send" obj1)].
Example C100_example :
  exists r, reduce mail_scope mail_ability mail_parse (Chain twice_ucan [Chain root_ucan [] []; Chain other_ucan [] []] []) = Ok r /\
    reduce mail_scope mail_ability mail_parse (Chain twice_ucan [Chain other_ucan [] []; Chain root_ucan [] []; Chain other_ucan [] []] []) = Ok r /\
    map i_originators r = [[did_of mallory; did_of alice]].
Proof.
  exists [mkInfo [did_of mallory; did_of alice] (Some 20%N) (Some 90%N) (mkView (RPlain (Scoped (B "a@x"))) true obj1)].
  vm_compute. repeat split; reflexivity.
Qed.
