(** Specifications about the amount of validation work. *)
From Verif Require Import Prelude Value Cid Ext Capability Key Ucan Store Chain.

(** The UCANs of a chain, each as often as it occurs. *)
Fixpoint links (c : chain) : list ucan :=
  let 'Chain u proofs _ := c in u :: flat_map links proofs.

(** Signature checks made between two states. *)
Definition checks_between (a b : vstate) : N := (N.of_nat (v_checks b) - N.of_nat (v_checks a))%N.

(** The number of levels of a chain. *)
Fixpoint levels (c : chain) : nat :=
  let 'Chain _ proofs _ := c in S (fold_right Nat.max 0%nat (map levels proofs)).
