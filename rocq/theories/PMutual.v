(** C122-C123: capabilities that enable each other, and keys behind pointers. *)
From Verif Require Import Prelude Ord SMap Base58 Value Ext Url Capability Semantics Key KeyWrap Ucan Builder Chain Fixtures Spec SpecMutual MutualFacts Samples.

(* ------------------------------------------------------------------ C122 *)

(** Capabilities that enable each other are the same. *)
Theorem C122_mutual_enabling : forall (S A : Type) (SO : scope_ops S) (AO : ability_ops A) a b,
  scope_antisymmetric SO -> ability_antisymmetric AO -> json_ok (v_caveat a) -> json_ok (v_caveat b) ->
  view_enables SO AO a b = true -> view_enables SO AO b a = true -> same_capability a b.
Proof. exact @mutual_same. Qed.
Print Assumptions C122_mutual_enabling.

(** And conversely. *)
Theorem C122_same_capability : forall (S A : Type) (SO : scope_ops S) (AO : ability_ops A) a b m,
  scope_preorder SO -> ability_preorder AO -> v_caveat a = VObj m ->
  json_ok (v_caveat a) -> json_ok (v_caveat b) -> same_capability a b ->
  view_enables SO AO a b = true /\ view_enables SO AO b a = true.
Proof. exact @same_enables. Qed.
Print Assumptions C122_same_capability.

(** A report lists no capability twice. *)
Theorem C122_no_repetition : forall (S A : Type) (SO : scope_ops S) (AO : ability_ops A) parse c r i j a b m,
  scope_preorder SO -> ability_preorder AO ->
  reduce SO AO parse c = Ok r -> i <> j -> nth_error r i = Some a -> nth_error r j = Some b ->
  v_caveat (i_capability a) = VObj m -> json_ok (v_caveat (i_capability a)) -> json_ok (v_caveat (i_capability b)) ->
  ~ same_capability (i_capability a) (i_capability b).
Proof. exact @report_no_repetition. Qed.
Print Assumptions C122_no_repetition.

(** The example semantics meet the hypotheses. *)
Theorem C122_examples_are_antisymmetric :
  scope_antisymmetric email_scope /\ ability_antisymmetric email_ability /\
  scope_antisymmetric wnfs_scope /\ ability_antisymmetric wnfs_ability.
Proof. exact examples_antisymmetric. Qed.
Print Assumptions C122_examples_are_antisymmetric.

(** A capability claimed twice is reported once. *)
Definition repeated_ucan : ucan := Eval vm_compute in make
  [IssuedBy (toy alice); ForAudience (did_of mallory); WithExpiration 100;
   ClaimingCapability (mail "a@x" "email/read" (VObj [])); ClaimingCapability (mail "a@x" "email/read" (VObj []))].
Example C122_example :
  length (caps_iter (p_cap (u_payload repeated_ucan))) = 2%nat /\
  reduce mail_scope mail_ability mail_parse (Chain repeated_ucan [] []) = Ok [mkInfo [did_of alice] None (Some 100%N) (mkView (RPlain (Scoped (B "a@x"))) false (VObj []))].
Proof. split; vm_compute; reflexivity. Qed.

(* ------------------------------------------------------------------ C123 *)

(** A boxed or shared key, at any depth, is the key it points to: so are the tokens
    it signs and the verdicts of validators that use it. *)
Theorem C123_wrapped_key : forall k k', points_to k k' -> k = k'.
Proof. exact pointed. Qed.
Print Assumptions C123_wrapped_key.

Example C123_example : points_to (box_key (arc_key (arc_key (toy alice)))) (toy alice) /\
  key_sign (box_key (arc_key (toy alice))) (B "data") = key_sign (toy alice) (B "data").
Proof. split; [repeat constructor | reflexivity]. Qed.
