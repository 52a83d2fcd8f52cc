(** C85, C86: whose authority a report rests on. *)
From Verif Require Import Prelude Ord SMap BaseN Base58 Value Cid Url Ext Json Capability Semantics Key Ucan Store Builder Chain
  Spec SpecSecurity OrdFacts DidFacts SecurityFacts Samples SampleFacts SampleSecurity.

(* ------------------------------------------------------------------- C85 *)

(** A line of enabling claims leads to one of the originators, for any semantics. *)
Theorem C85_genuine_originator : forall S A (SO : scope_ops S) (AO : ability_ops A) parse c r x,
  reduce SO AO parse c = Ok r -> In x r -> exists o, In o (i_originators x) /\ trail SO AO parse c (i_capability x) o.
Proof. exact (fun S A SO AO parse c r x => genuine_originator SO AO parse c r x). Qed.
Print Assumptions C85_genuine_originator.

(** So a capability with a single originator rests on that one. *)
Theorem C85_sole_originator : forall S A (SO : scope_ops S) (AO : ability_ops A) parse c r x o,
  reduce SO AO parse c = Ok r -> In x r -> i_originators x = [o] -> trail SO AO parse c (i_capability x) o.
Proof. exact @sole_originator. Qed.
Print Assumptions C85_sole_originator.

(** With transitive enabling: one of the originators, or the single one, claimed a capability enabling the reported one. *)
Theorem C85_some_originator_claimed : forall S A (SO : scope_ops S) (AO : ability_ops A) parse c r x,
  enabling_transitive SO AO parse c -> reduce SO AO parse c = Ok r -> In x r ->
  exists o, In o (i_originators x) /\ claimed_by SO AO parse c o (i_capability x).
Proof. exact @some_originator_claimed. Qed.
Print Assumptions C85_some_originator_claimed.

Theorem C85_sole_originator_claimed : forall S A (SO : scope_ops S) (AO : ability_ops A) parse c r x o,
  enabling_transitive SO AO parse c -> reduce SO AO parse c = Ok r -> In x r -> i_originators x = [o] ->
  claimed_by SO AO parse c o (i_capability x).
Proof. exact @sole_originator_claimed. Qed.
Print Assumptions C85_sole_originator_claimed.

(** Alice, over bob's attenuation and mallory's redelegation. *)
Example C85_example :
  reduce mail_scope mail_ability mail_parse leaf_chain = Ok
    [mkInfo [did_of alice] (Some 30%N) (Some 80%N) (mkView (RPlain (Scoped (B "a@x"))) false obj2);
     mkInfo [did_of mallory] (Some 30%N) (Some 80%N) (mkView (RPlain (Scoped (B "m@x"))) true (VObj []))] /\
  trail mail_scope mail_ability mail_parse leaf_chain (mkView (RPlain (Scoped (B "a@x"))) false obj2) (did_of alice).
Proof.
  split; [vm_compute; reflexivity|].
  apply (Tr_redelegated _ _ _ _ (Chain mid_ucan [Chain root_ucan [] []] [])); [exists 0%nat; split; [left; reflexivity | reflexivity]|].
  apply (Tr_enabled _ _ _ _ (Chain root_ucan [] []) _ (mkView (RPlain (Scoped (B "a@x"))) true obj1)).
  - exists [], (mail "a@x" "email/read" obj2), []. split; [vm_compute; reflexivity|]. split; [vm_compute; reflexivity | intros c' []].
  - exists 0%nat. split; [intros [] | reflexivity].
  - change (did_of alice) with (p_iss (u_payload (c_ucan (Chain root_ucan [] [])))). apply Tr_claim.
    exists [], (mail "a@x" "email/send" obj1), []. split; [vm_compute; reflexivity|]. split; [vm_compute; reflexivity | intros c' []].
  - vm_compute. reflexivity.
Qed.

(* ------------------------------------------------------------------- C86 *)

(** If signatures cannot be forged, what an accepted token reports rests on payloads signed by their issuers,
    each citing and addressed by the next, up to one of the originators. *)
Theorem C86_report_has_authority : forall S A (SO : scope_ops S) (AO : ability_ops A) parse E nt slice signed fuel token st c st' r x,
  unforgeable slice signed -> with_parser slice st ->
  from_token E nt fuel token st = (Ok c, st') -> reduce SO AO parse c = Ok r -> In x r ->
  exists u o, parse_token (e_ext E) token = Ok u /\ In o (i_originators x) /\ authority SO AO parse E signed u (i_capability x) o.
Proof. exact @report_has_authority. Qed.
Print Assumptions C86_report_has_authority.

(** A DID that signed nothing is never named. *)
Theorem C86_originators_signed : forall S A (SO : scope_ops S) (AO : ability_ops A) parse E nt slice signed fuel token st c st' r x o,
  unforgeable slice signed -> with_parser slice st ->
  from_token E nt fuel token st = (Ok c, st') -> reduce SO AO parse c = Ok r -> In x r -> In o (i_originators x) ->
  exists u, in_chain u c /\ p_iss (u_payload u) = o /\ authentic (e_ext E) signed u.
Proof. exact @originators_signed. Qed.
Print Assumptions C86_originators_signed.

(** A DID named as the only originator signed a claim enabling the capability. *)
Theorem C86_sole_originator_signed : forall S A (SO : scope_ops S) (AO : ability_ops A) parse E nt slice signed fuel token st c st' r x o,
  unforgeable slice signed -> with_parser slice st -> enabling_transitive SO AO parse c ->
  from_token E nt fuel token st = (Ok c, st') -> reduce SO AO parse c = Ok r -> In x r -> i_originators x = [o] ->
  exists u w, p_iss (u_payload u) = o /\ authentic (e_ext E) signed u /\ heeded parse u w /\ enables_or_is SO AO w (i_capability x).
Proof. exact @sole_originator_signed. Qed.
Print Assumptions C86_sole_originator_signed.

Example C86_example :
  unforgeable strict_slice signed_by /\
  fst (from_token (leaf_env 50) None 5 (encode sample_ext leaf_ucan) (mkState (did_parser_new strict_slice) 0 0 0)) = Ok leaf_chain.
Proof. split; [exact strict_unforgeable | vm_compute; reflexivity]. Qed.
