(** C45-C52 and C73: reducing a chain to its capabilities. *)
From Verif Require Import Prelude Ord SMap Value Url Ext Capability Semantics Key Ucan Store Builder Chain Spec
  ChainFacts CapFacts ReduceFacts Samples.

(** Shorthands for the examples. *)
Definition cap_view (who : String.string) (send : bool) (caveat : value) : view bytes bool :=
  mkView (RPlain (Scoped (B who))) send caveat.
Definition mail_reduce : chain -> res (list (info bytes bool)) := reduce mail_scope mail_ability mail_parse.

(* ------------------------------------------------------------------- C45 *)

Theorem C45_report_has_leaf_lifetime : forall S A (SO : scope_ops S) (AO : ability_ops A) parse c r x,
  reduce SO AO parse c = Ok r -> In x r ->
  i_not_before x = p_nbf (u_payload (c_ucan c)) /\ i_expires_at x = p_exp (u_payload (c_ucan c)).
Proof. exact @report_lifetime. Qed.
Print Assumptions C45_report_has_leaf_lifetime.

(** For an accepted chain that window lies within the one of every UCAN in it. *)
Theorem C45_window_within_chain : forall S A (SO : scope_ops S) (AO : ability_ops A) parse E nt slice fuel u st c st' r x d t,
  with_parser slice st -> from_ucan E nt fuel u st = (Ok c, st') -> reduce SO AO parse c = Ok r -> In x r -> sub_chain d c ->
  (forall b, i_not_before x = Some b -> (Z.of_N b <= t)%Z) -> (forall e, i_expires_at x = Some e -> (t <= Z.of_N e)%Z) ->
  live_at (u_payload (c_ucan d)) t.
Proof. exact @report_window. Qed.
Print Assumptions C45_window_within_chain.

(** Own and redelegated capabilities, the latter narrowed from 20..90. *)
Example C45_example :
  fst (from_ucan (leaf_env 50) None 5 leaf_ucan sample_state) = Ok leaf_chain /\
  mail_reduce leaf_chain = Ok
    [mkInfo [did_of alice] (Some 30%N) (Some 80%N) (cap_view "a@x" false obj2);
     mkInfo [did_of mallory] (Some 30%N) (Some 80%N) (cap_view "m@x" true (VObj []))].
Proof. vm_compute. split; reflexivity. Qed.

(* ------------------------------------------------------------------- C46 *)

Theorem C46_reported_was_claimed_or_redelegated : forall S A (SO : scope_ops S) (AO : ability_ops A) parse c r x,
  reduce SO AO parse c = Ok r -> In x r -> passed_on parse c (i_capability x).
Proof. intros S A SO AO parse c r x. exact (report_passed_on SO AO parse c r x). Qed.
Print Assumptions C46_reported_was_claimed_or_redelegated.

Theorem C46_passed_on_was_claimed : forall S A (parse : capability -> option (view S A)) c v, passed_on parse c v ->
  exists u cap, in_chain u c /\ claims u cap /\ parse cap = Some v /\ heeded parse u v.
Proof. exact @passed_on_claimed. Qed.
Print Assumptions C46_passed_on_was_claimed.

(** The report of an accepted chain always exists. *)
Theorem C46_accepted_chain_reports : forall S A (SO : scope_ops S) (AO : ability_ops A) parse E nt slice fuel u st c st',
  with_parser slice st -> from_ucan E nt fuel u st = (Ok c, st') -> exists r, reduce SO AO parse c = Ok r.
Proof. exact @accepted_reduces. Qed.
Print Assumptions C46_accepted_chain_reports.

(** The unattenuated claim of alice's UCAN is not reported for the chain above it. *)
Example C46_example :
  passed_on mail_parse leaf_chain (cap_view "a@x" false obj2) /\
  mail_reduce (Chain root_ucan [] []) = Ok [mkInfo [did_of alice] (Some 10%N) (Some 100%N) (cap_view "a@x" true obj1)].
Proof.
  split; [|vm_compute; reflexivity].
  apply PO_redelegated with (Chain mid_ucan [Chain root_ucan [] []] []).
  - exists 0%nat. split; [left; reflexivity | reflexivity].
  - apply PO_own. exists [], (mail "a@x" "email/read" obj2), []. vm_compute. repeat split. intros c' [].
Qed.

(* ------------------------------------------------------------------- C47 *)

Theorem C47_originators_are_issuers : forall S A (SO : scope_ops S) (AO : ability_ops A) parse c r x,
  reduce SO AO parse c = Ok r -> In x r ->
  ssorted (i_originators x) /\ i_originators x <> [] /\
  forall o, In o (i_originators x) -> exists u, in_chain u c /\ p_iss (u_payload u) = o.
Proof. intros S A SO AO parse c r x. exact (report_originators SO AO parse c r x). Qed.
Print Assumptions C47_originators_are_issuers.

Theorem C47_without_proofs_the_issuer : forall S A (SO : scope_ops S) (AO : ability_ops A) parse u red r x,
  reduce SO AO parse (Chain u [] red) = Ok r -> In x r -> i_originators x = [p_iss (u_payload u)].
Proof. exact @report_no_proofs. Qed.
Print Assumptions C47_without_proofs_the_issuer.

Example C47_example :
  (exists x, mail_reduce (Chain mid_ucan [Chain root_ucan [] []] []) = Ok [x] /\ i_originators x = [did_of alice]) /\
  (exists x, mail_reduce (Chain mid_ucan [] []) = Ok [x] /\ i_originators x = [did_of bob]).
Proof. vm_compute. split; eexists; split; reflexivity. Qed.

(* ------------------------------------------------------------------- C48 *)

(** Alice lets mallory read with the caveat [{x:true}]; mallory cites this and
    claims to read, with the caveats [[{}, {x:true}]]. *)
Definition narrow : value := VObj [(B "x", VBool true)].
Definition narrow_ucan : ucan := Eval vm_compute in make
  [IssuedBy (toy alice); ForAudience (did_of mallory); WithExpiration 100;
   ClaimingCapability (mail "a@x" "email/read" narrow)].
Definition greedy_ucan : ucan := Eval vm_compute in make
  [IssuedBy (toy mallory); ForAudience (did_of bob); WithExpiration 100; WitnessedBy narrow_ucan None;
   ClaimingCapability (mail "a@x" "email/read" (VObj [])); ClaimingCapability (mail "a@x" "email/read" narrow)].
Definition greedy_chain : chain := Chain greedy_ucan [Chain narrow_ucan [] []] [].

(** False: the unrestricted capability is reported with alice among its originators. *)
Theorem C48_no_unclaimed_authority_refuted : exists E fuel u st c st' r x o,
  from_ucan E None fuel u st = (Ok c, st') /\ with_parser [(ed25519_magic, fun bs => Ok (toy bs))] st /\
  reduce mail_scope mail_ability mail_parse c = Ok r /\ In x r /\ In o (i_originators x) /\
  ~ claimed_by mail_scope mail_ability mail_parse c o (i_capability x).
Proof.
  eexists (sample_env 50 [narrow_ucan]), 3%nat, greedy_ucan, sample_state, greedy_chain, _, _, _, (did_of alice).
  split; [vm_compute; reflexivity|]. split; [exists []; reflexivity|]. split; [vm_compute; reflexivity|].
  split; [left; reflexivity|]. split; [vm_compute; tauto|].
  intros (u & w & (d & Hd & <-) & Hi & (b & cap & a & Hl & Hp & _) & Hw).
  inversion Hd as [d' E1 E2 | d' pc c' Hpc Hs E1 E2]; subst; [vm_compute in Hi; discriminate|].
  cbn [greedy_chain c_proofs] in Hpc. destruct Hpc as [<- | []].
  inversion Hs as [d' E1 E2 | d' pc c' Hpc Hs' E1 E2]; subst; [|contradiction].
  assert (In cap (caps_iter (p_cap (u_payload narrow_ucan)))) as Hin by (cbn [c_ucan] in Hl; rewrite Hl; apply in_or_app; right; left; reflexivity).
  vm_compute in Hin. destruct Hin as [<- | []]. vm_compute in Hp. injection Hp as <-.
  destruct Hw as [Hw | Hw]; [discriminate | vm_compute in Hw; discriminate].
Qed.
Print Assumptions C48_no_unclaimed_authority_refuted.

(** What holds: an originator claimed, somewhere in the chain, something that the
    reported capability enables or is; and where enabling among the claims is mutual, the
    property itself. *)
Theorem C48_originator_source_partial : forall S A (SO : scope_ops S) (AO : ability_ops A) parse c r x o,
  enabling_transitive SO AO parse c -> reduce SO AO parse c = Ok r -> In x r -> In o (i_originators x) ->
  exists v, enables_or_is SO AO (i_capability x) v /\
    (heeded parse (c_ucan c) v /\ credited SO AO parse c v o \/
     exists z, redelegated_entry SO AO parse c z /\ i_capability z = v /\ In o (i_originators z)).
Proof. exact @report_originator_source. Qed.
Print Assumptions C48_originator_source_partial.

Theorem C48_no_unclaimed_authority_partial : forall S A (SO : scope_ops S) (AO : ability_ops A) parse c r x o,
  enabling_transitive SO AO parse c -> mutual_enabling SO AO parse c ->
  reduce SO AO parse c = Ok r -> In x r -> In o (i_originators x) -> claimed_by SO AO parse c o (i_capability x).
Proof. intros S A SO AO parse c r x o. exact (report_claimed_by SO AO parse c r x o). Qed.
Print Assumptions C48_no_unclaimed_authority_partial.

Example C48_example :
  mail_reduce greedy_chain = Ok [mkInfo [did_of mallory; did_of alice] None (Some 100%N) (cap_view "a@x" false (VObj []))].
Proof. vm_compute. reflexivity. Qed.

(* ------------------------------------------------------------------- C49 *)

Theorem C49_claims_are_covered : forall S A (SO : scope_ops S) (AO : ability_ops A) parse c r v,
  enabling_transitive SO AO parse c -> reduce SO AO parse c = Ok r -> heeded parse (c_ucan c) v ->
  exists x, In x r /\ enables_or_is SO AO (i_capability x) v /\
    forall o, credited SO AO parse c v o -> In o (i_originators x).
Proof. exact @report_covers_claim. Qed.
Print Assumptions C49_claims_are_covered.

Theorem C49_redelegations_are_covered : forall S A (SO : scope_ops S) (AO : ability_ops A) parse c r z,
  enabling_transitive SO AO parse c -> reduce SO AO parse c = Ok r -> redelegated_entry SO AO parse c z ->
  exists x, In x r /\ enables_or_is SO AO (i_capability x) (i_capability z) /\
    forall o, In o (i_originators z) -> In o (i_originators x).
Proof. exact @report_covers_redelegated. Qed.
Print Assumptions C49_redelegations_are_covered.

(** Enabling is transitive when containment and the ability order are preorders. *)
Theorem C49_preorders_suffice : forall S A (SO : scope_ops S) (AO : ability_ops A) parse c,
  scope_preorder SO -> ability_preorder AO -> (forall v, understood parse c v -> json_ok (v_caveat v)) ->
  enabling_transitive SO AO parse c.
Proof. exact @preorders_transitive. Qed.
Print Assumptions C49_preorders_suffice.

(** Three claims, merged into one entry. *)
Definition broad_ucan : ucan := Eval vm_compute in make
  [IssuedBy (toy alice); ForAudience (did_of mallory); WithExpiration 100;
   ClaimingCapability (mail "a@x" "email/read" (VObj [])); ClaimingCapability (mail "a@x" "email/read" narrow);
   ClaimingCapability (mail "b@x" "email/read" narrow)].
Example C49_example :
  mail_reduce (Chain broad_ucan [] []) = Ok
    [mkInfo [did_of alice] None (Some 100%N) (cap_view "b@x" false narrow);
     mkInfo [did_of alice] None (Some 100%N) (cap_view "a@x" false (VObj []))] /\
  enabling_transitive mail_scope mail_ability mail_parse (Chain broad_ucan [] []).
Proof.
  split; [vm_compute; reflexivity|]. apply preorders_transitive.
  - split; [intros a; apply bytes_eqb_refl|]. intros a b c Hab Hbc. cbn [mail_scope sc_contains] in *.
    destruct (bytes_eqb_spec a b), (bytes_eqb_spec b c); try discriminate. subst. apply bytes_eqb_refl.
  - split; [intros []; unfold at_least; simpl; discriminate|].
    intros [] [] []; unfold at_least; simpl; congruence.
  - intros v (u & (d & Hd & <-) & (b & cap & a & Hl & Hp & _)).
    inversion Hd as [d' E1 E2 | d' pc c' Hpc Hs E1 E2]; subst; [|contradiction].
    assert (In cap (caps_iter (p_cap (u_payload broad_ucan)))) as Hin by (cbn [c_ucan] in Hl; rewrite Hl; apply in_or_app; right; left; reflexivity).
    vm_compute in Hin. destruct Hin as [<- | [<- | [<- | []]]]; vm_compute in Hp; injection Hp as <-; cbn [v_caveat];
      repeat (constructor; try reflexivity).
Qed.

(* ------------------------------------------------------------------- C50 *)

(** A claim with which nothing else reported is comparable has an entry with exactly
    the credited originators: those of the attenuated proofs' capabilities enabling it,
    or the issuer when there are none. *)
Theorem C50_claim_attribution : forall S A (SO : scope_ops S) (AO : ability_ops A) parse c r v,
  enabling_transitive SO AO parse c -> reduce SO AO parse c = Ok r -> heeded parse (c_ucan c) v ->
  (forall w, heeded parse (c_ucan c) w -> view_enables SO AO v w = true \/ view_enables SO AO w v = true -> w = v) ->
  (forall z, redelegated_entry SO AO parse c z ->
     i_capability z <> v /\ view_enables SO AO v (i_capability z) = false /\ view_enables SO AO (i_capability z) v = false) ->
  exists x, In x r /\ i_capability x = v /\ forall o, In o (i_originators x) <-> credited SO AO parse c v o.
Proof. exact @report_isolated_claim. Qed.
Print Assumptions C50_claim_attribution.

(** In general the entry covering a claim has at least these. *)
Theorem C50_unproved_claim_names_issuer : forall S A (SO : scope_ops S) (AO : ability_ops A) parse c r v,
  enabling_transitive SO AO parse c -> reduce SO AO parse c = Ok r -> heeded parse (c_ucan c) v ->
  (forall pc q i, attenuated c pc -> reduce SO AO parse pc = Ok q -> In i q -> view_enables SO AO (i_capability i) v = false) ->
  exists x, In x r /\ enables_or_is SO AO (i_capability x) v /\ In (p_iss (u_payload (c_ucan c))) (i_originators x).
Proof. exact @report_unproved_claim. Qed.
Print Assumptions C50_unproved_claim_names_issuer.

(** Bob's claim rests on alice's; if bob claims to send with more recipients it does not. *)
Definition wide_ucan : ucan := Eval vm_compute in make
  [IssuedBy (toy bob); ForAudience (did_of mallory); NotBefore 20; WithExpiration 90; WitnessedBy root_ucan None;
   ClaimingCapability (mail "a@x" "email/read" (VObj []))].
Example C50_example :
  (exists x, mail_reduce (Chain mid_ucan [Chain root_ucan [] []] []) = Ok [x] /\ i_originators x = [did_of alice]) /\
  (exists x, mail_reduce (Chain wide_ucan [Chain root_ucan [] []] []) = Ok [x] /\ i_originators x = [did_of bob]).
Proof. vm_compute. split; eexists; split; reflexivity. Qed.

(* ------------------------------------------------------------------- C51 *)

(** One claim with the caveats [[{x:true}, {}]]. *)
Definition redundant_ucan : ucan := Eval vm_compute in make
  [IssuedBy (toy alice); ForAudience (did_of mallory); WithExpiration 100;
   ClaimingCapability (mail "a@x" "email/read" narrow); ClaimingCapability (mail "a@x" "email/read" (VObj []))].

(** False: merging looks for an enabling capability only among the entries listed earlier. *)
Theorem C51_no_redundant_entry_refuted : exists c r i j a b,
  reduce mail_scope mail_ability mail_parse c = Ok r /\ i <> j /\
  nth_error r i = Some a /\ nth_error r j = Some b /\
  view_enables mail_scope mail_ability (i_capability a) (i_capability b) = true.
Proof.
  eexists (Chain redundant_ucan [] []), _, 0%nat, 1%nat, _, _.
  split; [vm_compute; reflexivity|]. split; [discriminate|]. split; [reflexivity|]. split; [reflexivity | vm_compute; reflexivity].
Qed.
Print Assumptions C51_no_redundant_entry_refuted.

(** What holds: no entry enables one reported before it, and none enables
    another where enabling among the claims is mutual. *)
Theorem C51_no_earlier_redundant_partial : forall S A (SO : scope_ops S) (AO : ability_ops A) parse c r i j a b,
  reduce SO AO parse c = Ok r -> (i < j)%nat -> nth_error r i = Some a -> nth_error r j = Some b ->
  view_enables SO AO (i_capability b) (i_capability a) = false.
Proof. exact @report_order. Qed.
Print Assumptions C51_no_earlier_redundant_partial.

Theorem C51_no_redundant_entry_partial : forall S A (SO : scope_ops S) (AO : ability_ops A) parse c r i j a b,
  mutual_enabling SO AO parse c -> reduce SO AO parse c = Ok r -> i <> j ->
  nth_error r i = Some a -> nth_error r j = Some b -> view_enables SO AO (i_capability b) (i_capability a) = false.
Proof. exact @report_antichain. Qed.
Print Assumptions C51_no_redundant_entry_partial.

Example C51_example :
  mail_reduce (Chain redundant_ucan [] []) = Ok
    [mkInfo [did_of alice] None (Some 100%N) (cap_view "a@x" false (VObj []));
     mkInfo [did_of alice] None (Some 100%N) (cap_view "a@x" false narrow)].
Proof. vm_compute. reflexivity. Qed.

(* ------------------------------------------------------------------- C52 *)

(** A claim in another semantics, sorted before the mail one. *)
Definition foreign_ucan : ucan := Eval vm_compute in make
  [IssuedBy (toy alice); ForAudience (did_of mallory); WithExpiration 100;
   ClaimingCapability (mkCap (B "dns:example.com") (B "dns/write") (VObj []));
   ClaimingCapability (mail "a@x" "email/read" (VObj []))].

(** False: the understood mail claim vanishes. *)
Theorem C52_understood_claims_count_refuted : exists u cap v,
  claims u cap /\ mail_parse cap = Some v /\ mail_reduce (Chain u [] []) = Ok [].
Proof.
  exists foreign_ucan, (mail "a@x" "email/read" (VObj [])), (cap_view "a@x" false (VObj [])).
  split; [|split; vm_compute; reflexivity]. apply claims_iter. vm_compute. tauto.
Qed.
Print Assumptions C52_understood_claims_count_refuted.

(** What holds: all understood claims are covered if the semantics understands every
    claim of the UCAN. *)
Theorem C52_understood_claims_count_partial : forall S A (SO : scope_ops S) (AO : ability_ops A) parse c r cap v,
  enabling_transitive SO AO parse c -> reduce SO AO parse c = Ok r ->
  (forall cap', claims (c_ucan c) cap' -> parse cap' <> None) -> claims (c_ucan c) cap -> parse cap = Some v ->
  exists x, In x r /\ enables_or_is SO AO (i_capability x) v.
Proof. exact @report_covers_understood. Qed.
Print Assumptions C52_understood_claims_count_partial.

Example C52_example :
  mail_reduce (Chain root_ucan [] []) <> Ok [] /\
  (exists cap, claims foreign_ucan cap /\ mail_parse cap = None).
Proof.
  split; [vm_compute; discriminate|]. exists (mkCap (B "dns:example.com") (B "dns/write") (VObj [])).
  split; [apply claims_iter; vm_compute; tauto | vm_compute; reflexivity].
Qed.

(* ------------------------------------------------------------------- C73 *)

(** A UCAN with no heeded claim reports what the proofs it redelegates report. *)
Theorem C73_redelegates_only_the_proofs : forall S A (SO : scope_ops S) (AO : ability_ops A) parse c r x,
  reduce SO AO parse c = Ok r -> (forall v, ~ heeded parse (c_ucan c) v) -> In x r ->
  exists z, redelegated_entry SO AO parse c z /\ i_capability z = i_capability x.
Proof. exact @pure_redelegation_source. Qed.
Print Assumptions C73_redelegates_only_the_proofs.

Theorem C73_redelegates_all_of_the_proofs : forall S A (SO : scope_ops S) (AO : ability_ops A) parse c r z,
  enabling_transitive SO AO parse c -> reduce SO AO parse c = Ok r -> redelegated_entry SO AO parse c z ->
  exists x, In x r /\ enables_or_is SO AO (i_capability x) (i_capability z) /\
    forall o, In o (i_originators z) -> In o (i_originators x).
Proof. exact @report_covers_redelegated. Qed.
Print Assumptions C73_redelegates_all_of_the_proofs.

Theorem C73_redelegates_only_their_originators : forall S A (SO : scope_ops S) (AO : ability_ops A) parse c r x o,
  enabling_transitive SO AO parse c -> reduce SO AO parse c = Ok r -> (forall v, ~ heeded parse (c_ucan c) v) ->
  In x r -> In o (i_originators x) ->
  exists z, redelegated_entry SO AO parse c z /\ enables_or_is SO AO (i_capability x) (i_capability z) /\ In o (i_originators z).
Proof. exact @pure_redelegation_originators. Qed.
Print Assumptions C73_redelegates_only_their_originators.

(** Bob redelegates all of alice's UCAN. *)
Definition relay_ucan : ucan := Eval vm_compute in make
  [IssuedBy (toy bob); ForAudience (did_of mallory); NotBefore 20; WithExpiration 90; DelegatingFrom root_ucan None].
Example C73_example :
  fst (from_ucan (leaf_env 50) None 5 relay_ucan sample_state) = Ok (Chain relay_ucan [Chain root_ucan [] []] [0%N]) /\
  mail_reduce (Chain relay_ucan [Chain root_ucan [] []] [0%N]) =
    Ok [mkInfo [did_of alice] (Some 20%N) (Some 90%N) (cap_view "a@x" true obj1)] /\
  (forall v, ~ heeded mail_parse relay_ucan v).
Proof.
  split; [vm_compute; reflexivity|]. split; [vm_compute; reflexivity|].
  intros v (b & cap & a & Hl & Hp & _).
  assert (In cap (caps_iter (p_cap (u_payload relay_ucan)))) as Hin by (rewrite Hl; apply in_or_app; right; left; reflexivity).
  vm_compute in Hin. destruct Hin as [<- | []]. vm_compute in Hp. discriminate.
Qed.
