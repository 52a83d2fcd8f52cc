(** C126: the texts of the semantics of redelegation. *)
From Verif Require Import Prelude Url Semantics Spec SpecProofText ProofTextFacts.

(* ------------------------------------------------------------------ C126 *)

(** Selections: how they are read, printed and contained in each other. *)
Theorem C126_selection_text : forall u p q t,
  (sc_of_url proof_scope u = Some p <-> url_scheme u = B "prf" /\ proof_path (url_path u) p) /\
  (sc_to_string proof_scope p = t <-> proof_print p t) /\
  (sc_contains proof_scope p q = true <-> p = q \/ p = All).
Proof. exact proof_scope_text. Qed.
Print Assumptions C126_selection_text.

(** The one ability. *)
Theorem C126_delegate_text : forall t a b,
  (ab_of_string proof_ability t = Some a <-> t = B "ucan/DELEGATE") /\
  ab_to_string proof_ability a = B "ucan/DELEGATE" /\ at_least proof_ability a b.
Proof. exact proof_ability_text. Qed.
Print Assumptions C126_delegate_text.

Example C126_example :
  proof_path (B "+007") (Index 7) /\ sc_of_url proof_scope (mkUrl (B "prf") (B "+007") None) = Some (Index 7) /\
  sc_of_url proof_scope (mkUrl (B "PRF") (B "7") None) = None /\ sc_of_url proof_scope (mkUrl (B "prf") (B "") None) = None /\
  sc_to_string proof_scope (Index 7) = B "prf:7" /\ sc_to_string proof_scope All = B "prf:*" /\
  sc_contains proof_scope (Index 7) All = false.
Proof.
  split; [|vm_compute; repeat split; reflexivity].
  apply (PP_index (B "+") (B "007") 7); [right; reflexivity | split; [discriminate | repeat (apply Forall_cons; [split; vm_compute; discriminate|]); apply Forall_nil] | reflexivity | reflexivity].
Qed.
