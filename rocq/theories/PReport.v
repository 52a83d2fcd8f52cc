(** C101-C102: exactly what a report is. *)
From Verif Require Import Prelude Ord SMap Value Ext Capability Semantics Key Ucan Builder Chain Spec SpecReport ReportFacts Samples.

(* ------------------------------------------------------------------ C101 *)

(** The report is the claims read, credited, followed by the redelegated reports, in which
    each entry that an earlier one enables is handed over to the earliest such; and nothing else. *)
Theorem C101_report_exactly : forall S A (SO : scope_ops S) (AO : ability_ops A) parse c r,
  reduce SO AO parse c = Ok r <-> is_report SO AO parse c r.
Proof. exact @report_exact. Qed.
Print Assumptions C101_report_exactly.

Definition all_caveat : value := VObj [].
Definition one_caveat : value := VObj [(B "x", VBool true)].
Definition wide_proof : ucan := Eval vm_compute in make
  [IssuedBy (toy alice); ForAudience (did_of bob); WithExpiration 100; ClaimingCapability (mail "a@x" "email/read" all_caveat)].
Definition narrow_proof : ucan := Eval vm_compute in make
  [IssuedBy (toy mallory); ForAudience (did_of bob); WithExpiration 100; ClaimingCapability (mail "a@x" "email/read" one_caveat)].
Definition both_ucan : ucan := Eval vm_compute in make
  [IssuedBy (toy bob); ForAudience (did_of alice); WithExpiration 90; WitnessedBy wide_proof None; WitnessedBy narrow_proof None;
   ClaimingCapability (mail "a@x" "email/read" all_caveat); ClaimingCapability (mail "a@x" "email/read" one_caveat);
   ClaimingCapability (mail "b@x" "email/read" one_caveat)].
Definition both_chain : chain := Chain both_ucan [Chain wide_proof [] []; Chain narrow_proof [] []] [].
Definition both_own : list (info bytes bool) :=
  [mkInfo [did_of alice] None (Some 90%N) (mkView (RPlain (Scoped (B "a@x"))) false all_caveat);
   mkInfo [did_of mallory; did_of alice] None (Some 90%N) (mkView (RPlain (Scoped (B "a@x"))) false one_caveat);
   mkInfo [did_of bob] None (Some 90%N) (mkView (RPlain (Scoped (B "b@x"))) false one_caveat)].

(** The second claim is handed over to the first; what is left is reported last first. *)
Example C101_example :
  reduce mail_scope mail_ability mail_parse both_chain = Ok
    [mkInfo [did_of bob] None (Some 90%N) (mkView (RPlain (Scoped (B "b@x"))) false one_caveat);
     mkInfo [did_of mallory; did_of alice] None (Some 90%N) (mkView (RPlain (Scoped (B "a@x"))) false all_caveat)] /\
  enabler mail_scope mail_ability both_own 1 0 /\
  gathers mail_scope mail_ability both_own 0 (did_of mallory).
Proof.
  split; [vm_compute; reflexivity|].
  assert (enabler mail_scope mail_ability both_own 1 0) as He.
  { split; [repeat constructor|]. do 2 eexists. split; [reflexivity|]. split; [reflexivity|]. split; [vm_compute; reflexivity|].
    intros k z Hk. inversion Hk. }
  split; [exact He|]. eapply G_from; [exact He|]. eapply G_own; [reflexivity | left; reflexivity].
Qed.

(* ------------------------------------------------------------------ C102 *)

(** Which capabilities are reported, and in which order, does not depend on the proofs that are not redelegated. *)
Theorem C102_capabilities_of_the_root : forall S A (SO : scope_ops S) (AO : ability_ops A) parse c c' r r',
  c_ucan c = c_ucan c' -> redelegated_proofs c = redelegated_proofs c' ->
  reduce SO AO parse c = Ok r -> reduce SO AO parse c' = Ok r' -> map i_capability r = map i_capability r'.
Proof. exact @report_caps. Qed.
Print Assumptions C102_capabilities_of_the_root.

(** Without redelegation there are at most as many entries as claims. *)
Theorem C102_at_most_the_claims : forall S A (SO : scope_ops S) (AO : ability_ops A) parse u ps r,
  reduce SO AO parse (Chain u ps []) = Ok r -> (length r <= length (caps_iter (p_cap (u_payload u))))%nat.
Proof. exact @report_length. Qed.
Print Assumptions C102_at_most_the_claims.

Example C102_example :
  exists r r', reduce mail_scope mail_ability mail_parse both_chain = Ok r /\
    reduce mail_scope mail_ability mail_parse (Chain both_ucan [] []) = Ok r' /\
    map i_capability r = map i_capability r' /\ length r = 2%nat /\ length (caps_iter (p_cap (u_payload both_ucan))) = 3%nat /\
    map i_originators r <> map i_originators r'.
Proof.
  exists [mkInfo [did_of bob] None (Some 90%N) (mkView (RPlain (Scoped (B "b@x"))) false one_caveat);
     mkInfo [did_of mallory; did_of alice] None (Some 90%N) (mkView (RPlain (Scoped (B "a@x"))) false all_caveat)],
    [mkInfo [did_of bob] None (Some 90%N) (mkView (RPlain (Scoped (B "b@x"))) false one_caveat);
     mkInfo [did_of bob] None (Some 90%N) (mkView (RPlain (Scoped (B "a@x"))) false all_caveat)].
  split; [vm_compute; reflexivity|]. split; [vm_compute; reflexivity|]. split; [reflexivity|]. split; [reflexivity|].
  split; [vm_compute; reflexivity|]. vm_compute. discriminate.
Qed.
