(** C01-C07: caveats, resources, capabilities and capability maps. *)
From Coq Require Import Sorting.Sorted Sorting.Permutation.
From Verif Require Import Prelude Ord SMap Value Caveat Capability Semantics Spec CapFacts CapMapFacts CapsFaultFacts Samples.

(* ------------------------------------------------------------------- C01 *)

Theorem C01_caveat_enables_iff : forall a b : list (bytes * value),
  object_ok b ->
  (caveat_enables a b = true <-> fields_included a b).
Proof. exact caveat_enables_iff. Qed.
Print Assumptions C01_caveat_enables_iff.

Theorem C01_caveat_empty : forall a : list (bytes * value),
  caveat_enables [] a = true /\ (a <> [] -> caveat_enables a [] = false).
Proof. exact caveat_enables_consequences. Qed.
Print Assumptions C01_caveat_empty.

Theorem C01_caveat_enables_refl : forall a, object_ok a -> caveat_enables a a = true.
Proof. exact caveat_enables_refl. Qed.
Print Assumptions C01_caveat_enables_refl.

Theorem C01_caveat_enables_trans : forall a b c, object_ok b -> object_ok c ->
  caveat_enables a b = true -> caveat_enables b c = true -> caveat_enables a c = true.
Proof. exact caveat_enables_trans. Qed.
Print Assumptions C01_caveat_enables_trans.

Definition fields1 := match obj1 with VObj m => m | _ => [] end.
Definition fields2 := match obj2 with VObj m => m | _ => [] end.

Example C01_example :
  object_ok fields1 /\ object_ok fields2 /\
  caveat_enables fields1 fields2 = true /\ caveat_enables fields2 fields1 = false.
Proof. repeat split; repeat constructor; discriminate. Qed.

(* ------------------------------------------------------------------- C02 *)

Theorem C02_resource_contains_iff : forall (S : Type) (SO : scope_ops S) (a b : resource S),
  resource_contains SO a b = true <-> covers SO a b.
Proof. exact @resource_contains_spec. Qed.
Print Assumptions C02_resource_contains_iff.

Theorem C02_scoped_never_contains_wildcard : forall (S : Type) (SO : scope_ops S) (a : resource S) x b,
  uri_of a = Scoped x -> uri_of b = Unscoped -> resource_contains SO a b = false.
Proof. exact @scoped_not_wild. Qed.
Print Assumptions C02_scoped_never_contains_wildcard.

Theorem C02_resource_contains_refl : forall (S : Type) (SO : scope_ops S),
  scope_preorder SO -> forall a, resource_contains SO a a = true.
Proof. exact @resource_contains_refl. Qed.
Print Assumptions C02_resource_contains_refl.

Theorem C02_resource_contains_trans : forall (S : Type) (SO : scope_ops S),
  scope_preorder SO -> forall a b c,
  resource_contains SO a b = true -> resource_contains SO b c = true -> resource_contains SO a c = true.
Proof. exact @resource_contains_trans. Qed.
Print Assumptions C02_resource_contains_trans.

Example C02_example :
  scope_preorder mail_scope /\
  resource_contains mail_scope (RMy Unscoped) (RMy (Scoped (B "a@b"))) = true /\
  resource_contains mail_scope (RMy Unscoped) (RPlain (Scoped (B "a@b"))) = false /\
  resource_contains mail_scope (RAs (B "did:key:z1") Unscoped) (RAs (B "did:key:z2") Unscoped) = false.
Proof.
  repeat split.
  - intros a. apply OrdFacts.bytes_eqb_refl.
  - intros a b c. simpl. rewrite !OrdFacts.bytes_eqb_eq. congruence.
Qed.

(* ------------------------------------------------------------------- C03 *)

Theorem C03_view_enables_iff : forall (S A : Type) (SO : scope_ops S) (AO : ability_ops A) (a b : view S A),
  json_ok (v_caveat b) ->
  (view_enables SO AO a b = true <->
   exists ca cb, v_caveat a = VObj ca /\ v_caveat b = VObj cb /\
     covers SO (v_resource a) (v_resource b) /\
     at_least AO (v_ability a) (v_ability b) /\
     fields_included ca cb).
Proof. exact @view_enables_spec. Qed.
Print Assumptions C03_view_enables_iff.

Theorem C03_view_enables_refl : forall (S A : Type) (SO : scope_ops S) (AO : ability_ops A),
  scope_preorder SO -> ability_preorder AO ->
  forall (v : view S A) m, v_caveat v = VObj m -> json_ok (v_caveat v) -> view_enables SO AO v v = true.
Proof. exact @view_enables_refl. Qed.
Print Assumptions C03_view_enables_refl.

Theorem C03_view_enables_trans : forall (S A : Type) (SO : scope_ops S) (AO : ability_ops A),
  scope_preorder SO -> ability_preorder AO ->
  forall a b c : view S A, json_ok (v_caveat b) -> json_ok (v_caveat c) ->
  view_enables SO AO a b = true -> view_enables SO AO b c = true -> view_enables SO AO a c = true.
Proof. exact @view_enables_trans. Qed.
Print Assumptions C03_view_enables_trans.

Definition view_wide : view bytes bool := mkView (RPlain Unscoped) true (VObj []).
Definition view_mid : view bytes bool := mkView (RPlain (Scoped (B "a@b"))) true obj1.
Definition view_narrow : view bytes bool := mkView (RPlain (Scoped (B "a@b"))) false obj2.

Example C03_example :
  json_ok (v_caveat view_mid) /\ json_ok (v_caveat view_narrow) /\
  view_enables mail_scope mail_ability view_wide view_mid = true /\
  view_enables mail_scope mail_ability view_mid view_narrow = true /\
  view_enables mail_scope mail_ability view_narrow view_mid = false /\
  view_enables mail_scope mail_ability (mkView (RPlain Unscoped) true VNull) view_mid = false.
Proof. repeat split; repeat constructor; discriminate. Qed.

(* -------------------------------------------------------------- C04, C05 *)

Theorem C04_caps_of_list_iter : forall l m, caps_of_list l = Ok m ->
  Permutation (caps_iter m) l /\ StronglySorted key_le (caps_iter m) /\
  forall r a, filter (same_key r a) (caps_iter m) = filter (same_key r a) l.
Proof. exact caps_of_list_iter. Qed.
Print Assumptions C04_caps_of_list_iter.

Theorem C05_caps_of_list_fails_iff : forall l,
  (exists e, caps_of_list l = Err e) <-> exists c, In c l /\ ~ object_caveat (cap_caveat c).
Proof. exact caps_of_list_fails_iff. Qed.
Print Assumptions C05_caps_of_list_fails_iff.

(** ... and there is no third outcome (panic, non-termination). *)
Theorem C05_caps_of_list_total : forall l,
  (exists m, caps_of_list l = Ok m) \/ caps_of_list l = Err ECaveatNotObject.
Proof. exact caps_of_list_total. Qed.
Print Assumptions C05_caps_of_list_total.

(** A caveat by itself is made of an object, and of nothing else, in the same way. *)
Theorem C05_caveat : forall v r, caveat_of_value v = r <->
  (exists m, v = VObj m /\ r = Ok m) \/ (~ object_caveat v /\ r = Err ECaveatNotObject).
Proof. exact caveat_outcome. Qed.
Print Assumptions C05_caveat.

Definition caps_example : list capability :=
  [mkCap (B "b:1") (B "y") obj2; mkCap (B "a:1") (B "x") obj1; mkCap (B "b:1") (B "x") obj1;
   mkCap (B "b:1") (B "y") obj1; mkCap (B "b:1") (B "y") obj2].

Example C04_example : exists m, caps_of_list caps_example = Ok m /\
  caps_iter m = [mkCap (B "a:1") (B "x") obj1; mkCap (B "b:1") (B "x") obj1; mkCap (B "b:1") (B "y") obj2;
                 mkCap (B "b:1") (B "y") obj1; mkCap (B "b:1") (B "y") obj2].
Proof. eexists. split; [vm_compute; reflexivity | vm_compute; reflexivity]. Qed.

Example C05_example :
  caps_of_list (caps_example ++ [mkCap (B "b:1") (B "x") (VArr [])]) = Err ECaveatNotObject /\
  caveat_of_value (VObj [(B "k", VNull)]) = Ok [(B "k", VNull)] /\ caveat_of_value (VArr []) = Err ECaveatNotObject.
Proof. vm_compute. repeat split. Qed.

(* ------------------------------------------------------------------- C06 *)

Theorem C06_caps_roundtrip : forall m, caps_sorted m -> caps_shape m -> no_empty_caveats m ->
  caps_of_list (caps_iter m) = Ok m.
Proof. exact caps_roundtrip. Qed.
Print Assumptions C06_caps_roundtrip.

Theorem C06_caps_iter_in : forall m c, In c (caps_iter m) <->
  exists abs cs, In (cap_resource c, abs) m /\ In (cap_ability c, cs) abs /\ In (cap_caveat c) cs.
Proof. exact caps_iter_in. Qed.
Print Assumptions C06_caps_iter_in.

Definition caps_map_example : capabilities :=
  [(B "a:1", [(B "x", [obj1])]); (B "b:1", [(B "x", [obj2; obj1]); (B "y", [VObj []])])].

Example C06_example : caps_sorted caps_map_example /\ caps_shape caps_map_example /\
  no_empty_caveats caps_map_example /\ caps_of_list (caps_iter caps_map_example) = Ok caps_map_example.
Proof.
  split; [|split; [|split; [|vm_compute; reflexivity]]].
  - split; [repeat constructor|].
    intros r abs [[= <- <-] | [[= <- <-] | []]]; repeat constructor.
  - intros r abs [[= <- <-] | [[= <- <-] | []]]; (split; [discriminate|]); simpl;
      intros a cs Hin c Hc; decompose [or] Hin; try contradiction;
      repeat match goal with H : (_, _) = (_, _) |- _ => injection H as <- <- end;
      simpl in Hc; decompose [or] Hc; try contradiction; subst; eexists; reflexivity.
  - intros r abs [[= <- <-] | [[= <- <-] | []]]; simpl; intros a cs Hin; decompose [or] Hin; try contradiction;
      repeat match goal with H : (_, _) = (_, _) |- _ => injection H as <- <- end; discriminate.
Qed.

(* ------------------------------------------------------------------- C07 *)

Theorem C07_caps_of_value_iff : forall v m, json_ok v ->
  (caps_of_value v = Ok m <-> v = json_of_caps m /\ caps_shape m).
Proof. exact caps_of_value_iff. Qed.
Print Assumptions C07_caps_of_value_iff.

Example C07_example :
  json_ok (json_of_caps caps_map_example) /\
  caps_of_value (json_of_caps caps_map_example) = Ok caps_map_example /\
  caps_of_value (VObj [(B "a:1", VObj [])]) = Err ENoAbilities /\
  caps_of_value (VObj [(B "a:1", VObj [(B "x", VArr [VNull])])]) = Err ECaveatNotObject.
Proof. repeat split; repeat constructor; discriminate. Qed.
