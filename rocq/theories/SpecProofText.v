(** The texts of the semantics of redelegation, proof.rs (C126). *)
From Verif Require Import Prelude Url Semantics Spec SpecWire SpecJson.

(** The path of a [prf:] URL: a star, or a machine word in decimal. *)
Inductive proof_path : bytes -> proof_selection -> Prop :=
| PP_all : proof_path (B "*") All
| PP_index plus ds n : (plus = [] \/ plus = B "+") -> digits ds ->
    n = place_value 10 (map (fun d => (bN d - 48)%N) ds) -> (n < 2 ^ 64)%N -> proof_path (plus ++ ds) (Index n).

(** What a selection is printed as. *)
Inductive proof_print : proof_selection -> bytes -> Prop :=
| PR_all : proof_print All (B "prf:*")
| PR_index n t : decimal_text n t -> proof_print (Index n) (B "prf:" ++ t).
