(** ucan/src/capability/semantics.rs and ucan/src/capability/proof.rs *)
From Verif Require Import Prelude Ord SMap Base58 Value Url Ext Caveat Capability.

(** trait Scope, semantics.rs:6-8 ([PartialEq]/[Clone] are not used by the modelled code). *)
Record scope_ops (S : Type) := mkScope {
  sc_contains : S -> S -> bool;
  sc_to_string : S -> bytes;
  sc_of_url : url -> option S          (* TryFrom<Url>; the error is discarded *)
}.
Arguments mkScope {S}.
Arguments sc_contains {S}.
Arguments sc_to_string {S}.
Arguments sc_of_url {S}.

(** trait Ability, semantics.rs:10 *)
Record ability_ops (A : Type) := mkAbility {
  ab_cmp : A -> A -> comparison;       (* Ord::cmp *)
  ab_to_string : A -> bytes;
  ab_of_string : bytes -> option A     (* TryFrom<String>; the error is discarded *)
}.
Arguments mkAbility {A}.
Arguments ab_cmp {A}.
Arguments ab_to_string {A}.
Arguments ab_of_string {A}.

(** [a >= b] *)
Definition ab_ge {A} (AO : ability_ops A) (a b : A) : bool :=
  match ab_cmp AO a b with Lt => false | _ => true end.

(** semantics.rs:12-19 *)
Inductive resource_uri (S : Type) : Type :=
| Scoped (s : S)
| Unscoped.
Arguments Scoped {S}.
Arguments Unscoped {S}.

(** semantics.rs:48-56 *)
Inductive resource (S : Type) : Type :=
| RPlain (kind : resource_uri S)
| RMy (kind : resource_uri S)
| RAs (did : bytes) (kind : resource_uri S).
Arguments RPlain {S}.
Arguments RMy {S}.
Arguments RAs {S}.

(** semantics.rs:197-206 *)
Record view (S A : Type) := mkView {
  v_resource : resource S;
  v_ability : A;
  v_caveat : value
}.
Arguments mkView {S A}.
Arguments v_resource {S A}.
Arguments v_ability {S A}.
Arguments v_caveat {S A}.

Section Semantics.
  Context {S A : Type} (SO : scope_ops S) (AO : ability_ops A).

  (** [ResourceUri::contains], semantics.rs:25-33 *)
  Definition uri_contains (self other : resource_uri S) : bool :=
    match self with
    | Unscoped => true
    | Scoped scope => match other with
                      | Scoped other_scope => sc_contains SO scope other_scope
                      | _ => false
                      end
    end.

  (** [ToString for ResourceUri], semantics.rs:36-46 *)
  Definition uri_to_string (u : resource_uri S) : bytes :=
    match u with
    | Unscoped => B "*"
    | Scoped s => sc_to_string SO s
    end.

  (** [Resource::contains], semantics.rs:62-88 *)
  Definition resource_contains (self other : resource S) : bool :=
    match self, other with
    | RPlain r, RPlain r' => uri_contains r r'
    | RMy r, RMy r' => uri_contains r r'
    | RAs did r, RAs did' r' => if bytes_eqb did did' then uri_contains r r' else false
    | _, _ => false
    end.

  (** [ToString for Resource], semantics.rs:91-102 *)
  Definition resource_to_string (r : resource S) : bytes :=
    match r with
    | RPlain k => uri_to_string k
    | RMy k => B "my:" ++ uri_to_string k
    | RAs did k => B "as:" ++ did ++ B ":" ++ uri_to_string k
    end.

  (** [CapabilityView::enables], semantics.rs:248-260 *)
  Definition view_enables (self other : view S A) : bool :=
    match caveat_of_value (v_caveat self), caveat_of_value (v_caveat other) with
    | Ok self_caveat, Ok other_caveat =>
        resource_contains (v_resource self) (v_resource other)
        && ab_ge AO (v_ability self) (v_ability other)
        && caveat_enables self_caveat other_caveat
    | _, _ => false
    end.

  (** [From<&CapabilityView> for Capability], semantics.rs:275-301 *)
  Definition cap_of_view (v : view S A) : capability :=
    mkCap (resource_to_string (v_resource v)) (ab_to_string AO (v_ability v)) (v_caveat v).

  (* The provided methods of trait CapabilitySemantics, semantics.rs:104-195. *)

  (** [parse_resource], semantics.rs:137-142 *)
  Definition parse_resource (u : url) : option (resource_uri S) :=
    if bytes_eqb (url_path u) (B "*") then Some Unscoped
    else let?? s := sc_of_url SO u in Some (Scoped s).

  (** [parse_caveat], semantics.rs:144-150 *)
  Definition parse_caveat (c : option value) : value :=
    match c with Some c => c | None => VObj [] end.

  (** [extract_did], semantics.rs:116-135: the parts after the third are
      concatenated without their separators. *)
  Definition extract_did (path : bytes) : option (bytes * bytes) :=
    match split_on x3a path with
    | p1 :: p2 :: v :: rest =>
        if bytes_eqb p1 (B "did") && bytes_eqb p2 (B "key")
        then Some (B "did:key:" ++ v, concat rest) else None
    | _ => None
    end.

  (** [parse], semantics.rs:154-190 *)
  Definition parse_cap (X : ext) (resource ability : bytes) (caveat : option value) : option (view S A) :=
    let?? uri := parse_url X resource in
    let?? cap_resource :=
      if bytes_eqb (url_scheme uri) (B "my") then
        let?? k := parse_resource uri in Some (RMy k)
      else if bytes_eqb (url_scheme uri) (B "as") then
        let?? (did, r) := extract_did (url_path uri) in
        let?? u := parse_url X r in
        let?? k := parse_resource u in Some (RAs did k)
      else
        let?? k := parse_resource uri in Some (RPlain k) in
    let?? a := ab_of_string AO ability in
    Some (mkView cap_resource a (parse_caveat caveat)).

  (** [parse_capability], semantics.rs:192-194 *)
  Definition parse_capability (X : ext) (c : capability) : option (view S A) :=
    parse_cap X (cap_resource c) (cap_ability c) (Some (cap_caveat c)).
End Semantics.

(* ------------------------------------------------------------ proof.rs *)

(** proof.rs:5-8 *)
Inductive proof_action : Set := Delegate.

(** proof.rs:34-38 *)
Inductive proof_selection : Set :=
| Index (n : N)       (* usize *)
| All.

Definition proof_selection_eqb (a b : proof_selection) : bool :=
  match a, b with
  | Index m, Index n => N.eqb m n
  | All, All => true
  | _, _ => false
  end.

(** [TryFrom<String> for ProofSelection], proof.rs:57-66 *)
Definition proof_selection_of_string (s : bytes) : option proof_selection :=
  if bytes_eqb s (B "*") then Some All
  else let?? n := parse_usize s in Some (Index n).

(** Scope, TryFrom<Url>, ToString for ProofSelection, proof.rs:40-55 and :68-75 *)
Definition proof_scope : scope_ops proof_selection := {|
  sc_contains self other := proof_selection_eqb self other || proof_selection_eqb self All;
  sc_to_string s := match s with Index n => B "prf:" ++ dec_print n | All => B "prf:*" end;
  sc_of_url u := if bytes_eqb (url_scheme u) (B "prf")
                 then proof_selection_of_string (url_path u) else None
|}.

(** Ability, TryFrom<String>, ToString for ProofAction, proof.rs:5-32 *)
Definition proof_ability : ability_ops proof_action := {|
  ab_cmp _ _ := Eq;
  ab_to_string _ := B "ucan/DELEGATE";
  ab_of_string s := if bytes_eqb s (B "ucan/DELEGATE") then Some Delegate else None
|}.

(** [ProofDelegationSemantics.parse_capability], proof.rs:77-79 *)
Definition parse_proof_cap (X : ext) (c : capability) : option (view proof_selection proof_action) :=
  parse_capability proof_scope proof_ability X c.
