(** C97-C98: the example semantics that come with the repository. *)
From Verif Require Import Prelude Ord SMap Base58 Value Ext Url Capability Semantics Key Ucan Builder Chain Fixtures Spec ReduceFacts FixtureFacts Samples.

(* ------------------------------------------------------------------- C97 *)

(** Both example semantics order scopes and abilities by preorders. *)
Theorem C97_examples_are_preorders :
  scope_preorder email_scope /\ ability_preorder email_ability /\
  scope_preorder wnfs_scope /\ ability_preorder wnfs_ability.
Proof. exact (conj email_preorder (conj email_abilities (conj wnfs_preorder wnfs_abilities))). Qed.
Print Assumptions C97_examples_are_preorders.

(** Hence reports read with the WNFS semantics leave no claim out. *)
Theorem C97_wnfs_claims_are_covered : forall parse c r v,
  (forall w, understood parse c w -> json_ok (v_caveat w)) ->
  reduce wnfs_scope wnfs_ability parse c = Ok r -> heeded parse (c_ucan c) v ->
  exists x, In x r /\ enables_or_is wnfs_scope wnfs_ability (i_capability x) v /\
    forall o, credited wnfs_scope wnfs_ability parse c v o -> In o (i_originators x).
Proof. exact wnfs_claims_covered. Qed.
Print Assumptions C97_wnfs_claims_are_covered.

(** The order of the WNFS abilities, and their names. *)
Theorem C97_wnfs_levels : forall a b,
  (at_least wnfs_ability a b <-> a = b \/ exists before between after,
     [WSuperUser; WOverwrite; WSoftDelete; WRevise; WCreate] = before ++ a :: between ++ b :: after) /\
  (ab_of_string wnfs_ability (ab_to_string wnfs_ability a) = Some b <-> a = b).
Proof. exact (fun a b => conj (wnfs_level_order a b) (wnfs_names a b)). Qed.
Print Assumptions C97_wnfs_levels.

Definition wnfs_view (path : String.string) (l : wnfs_level) : view wnfs wnfs_level :=
  mkView (RPlain (Scoped (mkWnfs (B "alice.fission.name") (B path)))) l (VObj []).
Example C97_example :
  view_enables wnfs_scope wnfs_ability (wnfs_view "/public" WSuperUser) (wnfs_view "/public/photos" WOverwrite) = true /\
  view_enables wnfs_scope wnfs_ability (wnfs_view "/public/photos" WOverwrite) (wnfs_view "/public/photos/vacation" WCreate) = true /\
  view_enables wnfs_scope wnfs_ability (wnfs_view "/public" WSuperUser) (wnfs_view "/public/photos/vacation" WCreate) = true /\
  view_enables wnfs_scope wnfs_ability (wnfs_view "/public" WCreate) (wnfs_view "/public/photos" WOverwrite) = false.
Proof. vm_compute. repeat split; reflexivity. Qed.

(* ------------------------------------------------------------------- C98 *)

(** A WNFS scope contains another iff the origin is the same and the path is the same
    or continues after a slash. *)
Theorem C98_wnfs_contains_iff : forall a b, sc_contains wnfs_scope a b = true <->
  w_origin a = w_origin b /\ (w_path b = w_path a \/ exists r, w_path b = w_path a ++ B "/" ++ r).
Proof. exact wnfs_contains_iff. Qed.
Print Assumptions C98_wnfs_contains_iff.

(** What is expected of a directory, here its path ends in a slash. *)
Definition C98_directory_contains : Prop := forall o p r,
  sc_contains wnfs_scope (mkWnfs o (p ++ B "/")) (mkWnfs o (p ++ B "/" ++ r)) = true.
(** It holds without the trailing slash only. *)
Theorem C98_directory_contains_partial : forall o p r,
  sc_contains wnfs_scope (mkWnfs o p) (mkWnfs o (p ++ B "/" ++ r)) = true.
Proof. exact wnfs_below. Qed.
Print Assumptions C98_directory_contains_partial.

(** With it, nothing is contained but the directory itself and paths with an empty component. *)
Theorem C98_directory_contains_refuted : ~ C98_directory_contains /\
  exists whole public,
    sc_of_url wnfs_scope whole = Some (mkWnfs (B "alice.fission.name") (B "/")) /\
    sc_of_url wnfs_scope public = Some (mkWnfs (B "alice.fission.name") (B "/public")) /\
    sc_contains wnfs_scope (mkWnfs (B "alice.fission.name") (B "/")) (mkWnfs (B "alice.fission.name") (B "/public")) = false.
Proof. exact wnfs_trailing_slash. Qed.
Print Assumptions C98_directory_contains_refuted.

(** A sibling whose name continues the name of the directory is not contained. *)
Example C98_example :
  sc_contains wnfs_scope (mkWnfs (B "h") (B "/pub")) (mkWnfs (B "h") (B "/public")) = false /\
  sc_contains wnfs_scope (mkWnfs (B "h") (B "/pub")) (mkWnfs (B "h") (B "/pub/lic")) = true /\
  sc_contains wnfs_scope (mkWnfs (B "h") (B "/pub")) (mkWnfs (B "i") (B "/pub/lic")) = false.
Proof. vm_compute. repeat split; reflexivity. Qed.
