(** Specifications for end-to-end statements: UCANs made by the builder, stored,
    and checked by the chain validator. *)
From Verif Require Import Prelude Ord SMap Base58 Value Cid Url Ext Capability Semantics Key Ucan Store Builder Chain Spec SpecBuilder SpecChain.

(** The validator's constructors make, from the key's DID, a key that verifies what it signs. *)
Definition known_key (slice : list (bytes * ctor)) (k : key) : Prop :=
  exists did k', key_did k = Ok did /\ fst (did_parse (did_parser_new slice) did) = Ok k' /\
    forall d s, key_sign k d = Ok s -> key_verify k' d s = Ok tt.

(** The UCAN's token is in the store, can be read back, and its digest fits a CID. *)
Definition stored (X : ext) (ops : list store_op) (a : ucan) : Prop :=
  written ops (encode X a) /\ (length (x_hash X 30 (encode X a)) <= 64)%nat /\ parse_token X (encode X a) = Ok a.

Definition accepted (E : env) (slice : list (bytes * ctor)) (c : chain) : Prop :=
  forall st, with_parser slice st -> exists fuel, fst (from_ucan E None fuel (c_ucan c) st) = Ok c.

(** [leaf] results from [root] by any number of hand-overs, each made by the builder with nothing but
    [delegating_from] the previous UCAN; [us] are the UCANs before [leaf], the latest first. *)
Inductive handed_down (X : ext) (slice : list (bytes * ctor)) (root : ucan) : list ucan -> ucan -> Prop :=
| HD_root : handed_down X slice root [] root
| HD_hop us u ops t rng s u' :
    handed_down X slice root us u ->
    proofs_added ops = [(u, None, true)] -> claims_added 0 ops = [delegation_of 0] -> word (N.of_nat (length ops)) ->
    build X t (builder_run X ops) = Ok s -> sign X rng s = Ok u' -> known_key slice (s_issuer s) ->
    linked u' u ->
    handed_down X slice root (u :: us) u'.

(** The chain of such a UCAN over the chain of the root. *)
Fixpoint handed_chain (c0 : chain) (us : list ucan) (leaf : ucan) : chain :=
  match us with
  | [] => c0
  | u :: us' => Chain leaf [handed_chain c0 us' u] [0%N]
  end.

(** No reported capability enables another one. *)
Definition antichain {S A} (SO : scope_ops S) (AO : ability_ops A) (r : list (info S A)) : Prop :=
  forall i j a b, nth_error r i = Some a -> nth_error r j = Some b -> i <> j ->
    view_enables SO AO (i_capability a) (i_capability b) = false.

(** The same entry within the window of [u]. *)
Definition within_window {S A} (u : ucan) (i : info S A) : info S A :=
  mkInfo (i_originators i) (p_nbf (u_payload u)) (p_exp (u_payload u)) (i_capability i).
