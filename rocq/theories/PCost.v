(** C75: the amount of validation work. *)
From Verif Require Import Prelude Ord SMap Value Cid Ext Capability Key Ucan Store Builder Chain Spec SpecCost CostFacts Samples.

(** Expected: the signature checks made for a chain are bounded by a linear
    function of the number of stored tokens.  Refuted, for all slopes and offsets
    up to 2^64: a proof is validated again for each citation. *)
Theorem C75_linear_refuted : forall a b, word a -> word b -> exists E slice ops u st fuel c st',
  steady E /\ with_parser slice st /\
  (forall k d, e_read E k d = mem_read (snd (store_run (e_ext E) [] ops)) d) /\
  from_ucan E None fuel u st = (Ok c, st') /\
  (a * N.of_nat (length (snd (store_run (e_ext E) [] ops))) + b < checks_between st st')%N.
Proof. exact not_linear. Qed.
Print Assumptions C75_linear_refuted.

(** Exponential: with [n] store writes, 2^(n+1) - 1 checks. *)
Theorem C75_exponential_refuted : forall n, word (N.of_nat n) -> exists E slice ops u st fuel c st',
  steady E /\ with_parser slice st /\ (length ops <= n)%nat /\
  (forall k d, e_read E k d = mem_read (snd (store_run (e_ext E) [] ops)) d) /\
  from_ucan E None fuel u st = (Ok c, st') /\ checks_between st st' = (2 ^ (N.of_nat n + 1) - 1)%N.
Proof. exact exponential_checks. Qed.
Print Assumptions C75_exponential_refuted.

(** What holds: one check for each occurrence of a UCAN in the chain; *)
Theorem C75_one_check_per_link_partial : forall E nt fuel u st c st', from_ucan E nt fuel u st = (Ok c, st') ->
  v_checks st' = (v_checks st + length (links c))%nat.
Proof. exact checks_links. Qed.
Print Assumptions C75_one_check_per_link_partial.

(** hence linear if no UCAN occurs twice, *)
Theorem C75_linear_without_sharing_partial : forall E nt slice s fuel u st c st',
  with_parser slice st -> (forall n d, e_read E n d = mem_read s d) ->
  from_ucan E nt fuel u st = (Ok c, st') -> NoDup (links c) -> (checks_between st st' <= N.of_nat (length s) + 1)%N.
Proof. exact linear_unshared. Qed.
Print Assumptions C75_linear_without_sharing_partial.

(** and exponential only in the height of the chain. *)
Theorem C75_bounded_by_shape_partial : forall b c, (1 <= b)%nat ->
  (forall d, sub_chain d c -> (length (c_proofs d) <= b)%nat) -> (length (links c) * (b - 1) + 1 <= b ^ levels c)%nat.
Proof. exact links_bound. Qed.
Print Assumptions C75_bounded_by_shape_partial.

(** Five tokens, 31 checks; the chain of the other examples has no sharing. *)
Example C75_example :
  v_checks (snd (from_ucan (tower_env 4) None 5 (tower_ucan 4) (mkState (did_parser_new tower_slice) 0 0 0))) = 31%nat /\
  length (tower_store 4) = 4%nat /\
  v_checks (snd (from_ucan (leaf_env 50) None 5 leaf_ucan sample_state)) = 3%nat /\ length (links leaf_chain) = 3%nat.
Proof. vm_compute. repeat split. Qed.
