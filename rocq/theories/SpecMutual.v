(** Capabilities that are the same (C122), and keys behind pointers (C123). *)
From Verif Require Import Prelude Value Semantics Key KeyWrap Spec.

(** No two different scopes contain each other; no two different abilities are at least each other. *)
Definition scope_antisymmetric {S} (SO : scope_ops S) : Prop :=
  forall a b, sc_contains SO a b = true -> sc_contains SO b a = true -> a = b.
Definition ability_antisymmetric {A} (AO : ability_ops A) : Prop :=
  forall a b, at_least AO a b -> at_least AO b a -> a = b.

(** The same resource, the same ability, equal caveats. *)
Definition same_capability {S A} (a b : view S A) : Prop :=
  v_resource a = v_resource b /\ v_ability a = v_ability b /\ json_eq (v_caveat a) (v_caveat b).

(** A key behind any number of pointers. *)
Inductive points_to : key -> key -> Prop :=
| PT_self k : points_to k k
| PT_box k k' : points_to k k' -> points_to (box_key k) k'
| PT_arc k k' : points_to k k' -> points_to (arc_key k) k'.
