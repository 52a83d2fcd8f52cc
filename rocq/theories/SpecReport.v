(** Exactly what a report is (C101, C102). *)
From Coq Require Import Sorting.Sorted.
From Verif Require Import Prelude Ord SMap Value Capability Semantics Ucan Chain Spec.

Section Report.
  Context {S A : Type} (SO : scope_ops S) (AO : ability_ops A) (parse : capability -> option (view S A)).
  Implicit Types (entries : list (info S A)) (c : chain).

  (** [i] is the earliest entry that enables entry [j], and comes before it. *)
  Definition enabler entries (j i : nat) : Prop :=
    (i < j)%nat /\ exists x y, nth_error entries i = Some x /\ nth_error entries j = Some y /\
      view_enables SO AO (i_capability x) (i_capability y) = true /\
      forall k z, (k < i)%nat -> nth_error entries k = Some z -> view_enables SO AO (i_capability z) (i_capability y) = false.

  (** No earlier entry enables entry [i]. *)
  Definition unenabled entries (i : nat) : Prop :=
    exists x, nth_error entries i = Some x /\
      forall k z, (k < i)%nat -> nth_error entries k = Some z -> view_enables SO AO (i_capability z) (i_capability x) = false.

  (** [o] is an originator of entry [i] or of one that is handed over to it, directly or not. *)
  Inductive gathers entries : nat -> bytes -> Prop :=
  | G_own i x o : nth_error entries i = Some x -> In o (i_originators x) -> gathers entries i o
  | G_from j i o : enabler entries j i -> gathers entries j o -> gathers entries i o.

  (** The entries nothing earlier enables, last first, with all that was handed over to them. *)
  Definition merged_into entries (r : list (info S A)) : Prop :=
    exists is, StronglySorted Nat.lt is /\ (forall i, In i is <-> unenabled entries i) /\
      Forall2 (fun i y => exists x, nth_error entries i = Some x /\ i_capability y = i_capability x /\
        i_not_before y = i_not_before x /\ i_expires_at y = i_expires_at x /\
        StronglySorted (fun a b => cmp a b = Lt) (i_originators y) /\
        forall o, In o (i_originators y) <-> gathers entries i o) (rev is) r.

  (** The claims read, in map order: all up to the first that is not understood. *)
  Definition claims_read (u : ucan) (vs : list (view S A)) : Prop :=
    exists taken rest, caps_iter (p_cap (u_payload u)) = taken ++ rest /\
      Forall2 (fun cap v => parse cap = Some v) taken vs /\
      match rest with [] => True | cap :: _ => parse cap = None end.

  (** The entries before merging: the claims read, with whom they are credited to ... *)
  Definition own_entries c (own : list (info S A)) : Prop :=
    exists vs, claims_read (c_ucan c) vs /\
      Forall2 (fun v x => i_capability x = v /\
        i_not_before x = p_nbf (u_payload (c_ucan c)) /\ i_expires_at x = p_exp (u_payload (c_ucan c)) /\
        StronglySorted (fun a b => cmp a b = Lt) (i_originators x) /\
        forall o, In o (i_originators x) <-> credited SO AO parse c v o) vs own.

  (** ... and the entries of the redelegated proofs' reports, with the root's lifetime. *)
  Definition passed_entries c (passed : list (info S A)) : Prop :=
    exists reports,
      Forall2 (fun i rep => exists p, nth_error (c_proofs c) (N.to_nat i) = Some p /\ reduce SO AO parse p = Ok rep)
        (c_redelegations c) reports /\
      passed = map (fun z => mkInfo (i_originators z) (p_nbf (u_payload (c_ucan c))) (p_exp (u_payload (c_ucan c))) (i_capability z))
        (concat reports).

  (** What is reported: own entries, then passed-on ones, merged. *)
  Definition is_report c (r : list (info S A)) : Prop :=
    (forall p, In p (c_proofs c) -> exists y, reduce SO AO parse p = Ok y) /\
    exists own passed, own_entries c own /\ passed_entries c passed /\ merged_into (own ++ passed) r.

  (** The proofs redelegated, in order. *)
  Definition redelegated_proofs c : list (option chain) := map (fun i => nth_error (c_proofs c) (N.to_nat i)) (c_redelegations c).
End Report.
