(** Specifications about the builder, stated over the sequence of calls made. *)
From Verif Require Import Prelude Ord SMap Base58 Value Cid Ext Capability Semantics Key Ucan Builder Spec.

(** [o] is what the last element of [l] for which [f] is defined says. *)
Definition last_such {A C} (f : A -> option C) (l : list A) (o : option C) : Prop :=
  match o with
  | Some c => exists before a after, l = before ++ a :: after /\ f a = Some c /\ forall x, In x after -> f x = None
  | None => forall x, In x l -> f x = None
  end.

(** What a call sets. *)
Definition sets_issuer (o : builder_op) : option key := match o with IssuedBy k => Some k | _ => None end.
Definition sets_audience (o : builder_op) : option bytes := match o with ForAudience a => Some a | _ => None end.
Definition sets_lifetime (o : builder_op) : option N := match o with WithLifetime n => Some n | _ => None end.
Definition sets_expiration (o : builder_op) : option N := match o with WithExpiration n => Some n | _ => None end.
Definition sets_not_before (o : builder_op) : option N := match o with NotBefore n => Some n | _ => None end.
(** A fact whose value cannot be serialised is dropped. *)
Definition sets_fact (k : bytes) (o : builder_op) : option value :=
  match o with WithFact k' (Some v) => if bytes_eqb k' k then Some v else None | _ => None end.

(** The text by which a UCAN is cited: its CID under the hasher given, BLAKE3 by default. *)
Definition citation (X : ext) (a : ucan) (hasher : option N) : bytes :=
  let code := match hasher with Some c => c | None => 30%N end in
  cid_to_string (mkCid 1 85 code (x_hash X code (encode X a))).

(** The authorities the calls add, in order, and whether each is delegated. *)
Definition adds_proof (o : builder_op) : list (ucan * option N * bool) :=
  match o with
  | WitnessedBy a h => [(a, h, false)]
  | DelegatingFrom a h => [(a, h, true)]
  | _ => []
  end.
Definition proofs_added (ops : list builder_op) : list (ucan * option N * bool) := flat_map adds_proof ops.

(** The capability naming the proof at position [i]. *)
Definition delegation_of (i : nat) : capability :=
  mkCap (B "prf:" ++ dec_print (N.of_nat i)) (B "ucan/DELEGATE") (VObj []).

(** The capabilities the calls claim, in order, when [n] proofs were added before. *)
Fixpoint claims_added (n : nat) (ops : list builder_op) : list capability :=
  match ops with
  | [] => []
  | ClaimingCapability c :: r => c :: claims_added n r
  | ClaimingCapabilities l :: r => l ++ claims_added n r
  | WitnessedBy _ _ :: r => claims_added (S n) r
  | DelegatingFrom _ _ :: r => delegation_of n :: claims_added (S n) r
  | _ :: r => claims_added n r
  end.

(** The capabilities the caller claims explicitly. *)
Definition claimed_explicitly (ops : list builder_op) (c : capability) : Prop :=
  In (ClaimingCapability c) ops \/ exists l, In (ClaimingCapabilities l) ops /\ In c l.

(** The expiry implied by the calls when the clock shows [t]. *)
Definition implied_expiry (X : ext) (t : N) (ops : list builder_op) (exp : option N) : Prop :=
  (exists e, last_such sets_expiration ops (Some e) /\ exp = Some e) \/
  (last_such sets_expiration ops None /\
   ((last_such sets_lifetime ops None /\ exp = None) \/
    exists l, last_such sets_lifetime ops (Some l) /\ exp = Some ((t + l) mod 18446744073709551616)%N /\
              ((t + l < 18446744073709551616)%N \/ x_overflow_checks X = false))).

(** The UCAN the calls describe. *)
Record described (X : ext) (t : N) (ops : list builder_op) (s : signable) : Prop := mkDescribed {
  de_issuer : last_such sets_issuer ops (Some (s_issuer s));
  de_audience : last_such sets_audience ops (Some (s_audience s));
  de_expiration : implied_expiry X t ops (s_expiration s);
  de_not_before : last_such sets_not_before ops (s_not_before s);
  de_fact_keys : keys_increasing (s_facts s);
  de_facts : forall k v, In (k, v) (s_facts s) <-> last_such (sets_fact k) ops (Some v);
  de_claims : s_capabilities s = claims_added 0 ops;
  de_proofs : s_proofs s = map (fun p => citation X (fst (fst p)) (snd (fst p))) (proofs_added ops);
  de_nonce : s_add_nonce s = true <-> In WithNonce ops
}.
