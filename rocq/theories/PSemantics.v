(** C09-C12: proof resources, parsing and printing capabilities. *)
From Verif Require Import Prelude Ord SMap Base58 Value Cid Url Ext Capability Semantics Key Ucan Store Builder Chain Spec
  SemanticsFacts Samples.

(* ------------------------------------------------------------------- C09 *)

Theorem C09_index_roundtrip : forall X n cav, (n <= 18446744073709551615)%N ->
  parse_proof_cap X (mkCap (sc_to_string proof_scope (Index n)) (B "ucan/DELEGATE") cav) =
  Some (mkView (RPlain (Scoped (Index n))) Delegate cav).
Proof. exact index_roundtrip. Qed.
Print Assumptions C09_index_roundtrip.

Theorem C09_index_printing_injective : forall m n,
  sc_to_string proof_scope (Index m) = sc_to_string proof_scope (Index n) -> m = n.
Proof. exact index_print_inj. Qed.
Print Assumptions C09_index_printing_injective.

(** Indices beyond a machine word are refused, not wrapped. *)
Theorem C09_large_index_refused : forall X n cav, (18446744073709551615 < n)%N ->
  parse_proof_cap X (mkCap (sc_to_string proof_scope (Index n)) (B "ucan/DELEGATE") cav) = None.
Proof. exact index_too_big. Qed.
Print Assumptions C09_large_index_refused.

(** The printed text is the one a chain honours. *)
Theorem C09_index_is_honoured : forall X n cav, (n <= 18446744073709551615)%N ->
  names_proof X (mkCap (B "prf:" ++ dec_print n) (B "ucan/DELEGATE") cav) n.
Proof. exact names_index. Qed.
Print Assumptions C09_index_is_honoured.

Example C09_example :
  sc_to_string proof_scope (Index 18446744073709551615) = B "prf:18446744073709551615" /\
  (18446744073709551615 <= 18446744073709551615)%N /\
  parse_proof_cap sample_ext (mkCap (B "prf:12") (B "ucan/DELEGATE") (VObj [])) =
    Some (mkView (RPlain (Scoped (Index 12))) Delegate (VObj [])) /\
  parse_proof_cap sample_ext (mkCap (B "prf:12") (B "ucan/delegate") (VObj [])) = None /\
  parse_proof_cap sample_ext (mkCap (B "prf:18446744073709551616") (B "ucan/DELEGATE") (VObj [])) = None.
Proof. split; [vm_compute; reflexivity|]. split; [lia|]. vm_compute. repeat split. Qed.

(* ------------------------------------------------------------------- C10 *)

(** Expected: for every accepted chain whose root claims [prf:*] with
    [ucan/DELEGATE], every index below the number of proofs is redelegated.
    Refuted: [prf:*] parses as the unscoped resource, which the chain ignores. *)
Definition star_cap : capability := mkCap (B "prf:*") (B "ucan/DELEGATE") (VObj []).
Definition star_ucan : ucan := Eval vm_compute in make
  [IssuedBy (toy mallory); ForAudience (did_of alice); NotBefore 30; WithExpiration 80; WitnessedBy mid_ucan None;
   ClaimingCapability star_cap].
Theorem C10_star_redelegates_all_refuted : exists E fuel u st c,
  fst (from_ucan E None fuel u st) = Ok c /\ claims u star_cap /\
  length (c_proofs c) = 1%nat /\ c_redelegations c = [].
Proof.
  exists (leaf_env 50), 5%nat, star_ucan, sample_state, (Chain star_ucan [Chain mid_ucan [Chain root_ucan [] []] []] []).
  split; [vm_compute; reflexivity|]. split; [|split; reflexivity].
  exists [(B "ucan/DELEGATE", [VObj []])], [VObj []].
  split; [left; vm_compute; reflexivity | split; left; reflexivity].
Qed.
Print Assumptions C10_star_redelegates_all_refuted.

(** What holds: [prf:*] never contributes, for any semantics of URLs. *)
Theorem C10_star_parses_unscoped_partial : forall X cav,
  parse_proof_cap X (mkCap (B "prf:*") (B "ucan/DELEGATE") cav) = Some (mkView (RPlain Unscoped) Delegate cav).
Proof. exact star_parses. Qed.
Print Assumptions C10_star_parses_unscoped_partial.

Theorem C10_star_contributes_nothing_partial : forall E nt fuel u st c st' i,
  from_ucan E nt fuel u st = (Ok c, st') -> In i (c_redelegations c) ->
  exists cap, claims u cap /\ names_proof (e_ext E) cap i /\ cap_resource cap <> B "prf:*".
Proof. exact star_contributes_nothing. Qed.
Print Assumptions C10_star_contributes_nothing_partial.

Theorem C10_star_alone_redelegates_nothing_partial : forall E nt fuel u st c st',
  from_ucan E nt fuel u st = (Ok c, st') ->
  (forall cap, claims u cap -> cap_ability cap = B "ucan/DELEGATE" -> cap_resource cap = B "prf:*") ->
  c_redelegations c = [].
Proof. exact star_redelegates_nothing. Qed.
Print Assumptions C10_star_alone_redelegates_nothing_partial.

(** As scopes, [prf:*] contains every selection and [prf:i] itself only ... *)
Theorem C10_selection_contains_iff : forall a b, sc_contains proof_scope a b = true <-> a = All \/ a = b.
Proof. exact selection_contains_iff. Qed.
Print Assumptions C10_selection_contains_iff.

(** ... and so do the delegations read from these texts. *)
Theorem C10_delegations_enable : forall X o m n,
  (m <= 18446744073709551615)%N -> (n <= 18446744073709551615)%N -> object_ok o ->
  exists every one other,
    parse_proof_cap X (mkCap (B "prf:*") (B "ucan/DELEGATE") (VObj o)) = Some every /\
    parse_proof_cap X (mkCap (B "prf:" ++ dec_print m) (B "ucan/DELEGATE") (VObj o)) = Some one /\
    parse_proof_cap X (mkCap (B "prf:" ++ dec_print n) (B "ucan/DELEGATE") (VObj o)) = Some other /\
    view_enables proof_scope proof_ability every one = true /\
    view_enables proof_scope proof_ability one every = false /\
    (view_enables proof_scope proof_ability one other = true <-> m = n).
Proof. exact delegations_enable. Qed.
Print Assumptions C10_delegations_enable.

Example C10_example :
  fst (from_ucan (leaf_env 50) None 5 leaf_ucan sample_state) = Ok leaf_chain /\ c_redelegations leaf_chain = [0%N] /\
  fst (from_ucan (leaf_env 50) None 5 star_ucan sample_state) = Ok (Chain star_ucan [Chain mid_ucan [Chain root_ucan [] []] []] []).
Proof. vm_compute. repeat split. Qed.

(* ------------------------------------------------------------------- C11 *)

(** Expected: if a resource text parses by itself, then [as:<did>:<resource>]
    parses to the same capability on behalf of that DID.  Refuted. *)
Theorem C11_as_parses_refuted : exists S A (SO : scope_ops S) (AO : ability_ops A) X did res ab cav k a,
  (exists b, did = did_key_text b) /\
  parse_cap SO AO X res ab (Some cav) = Some (mkView (RPlain k) a cav) /\
  parse_cap SO AO X (B "as:" ++ did ++ B ":" ++ res) ab (Some cav) = None.
Proof.
  exists bytes, bool, mail_scope, mail_ability, sample_ext, (did_of alice), (B "mailto:a@x"), (B "email/read"), (VObj []),
    (Scoped (B "a@x")), false.
  split; [exists (xed :: x01 :: alice); reflexivity|]. split; vm_compute; reflexivity.
Qed.
Print Assumptions C11_as_parses_refuted.

(** What holds: no [as:] resource parses under any semantics using the provided parser. *)
Theorem C11_as_never_parses_partial : forall S A (SO : scope_ops S) (AO : ability_ops A) X uri res ab cav,
  parse_url X res = Some uri -> url_scheme uri = B "as" -> parse_cap SO AO X res ab cav = None.
Proof. exact @as_never_parses. Qed.
Print Assumptions C11_as_never_parses_partial.

Theorem C11_no_view_on_behalf_partial : forall S A (SO : scope_ops S) (AO : ability_ops A) X res ab cav v did k,
  parse_cap SO AO X res ab cav = Some v -> v_resource v <> RAs did k.
Proof. exact @as_never_view. Qed.
Print Assumptions C11_no_view_on_behalf_partial.

Example C11_example :
  parse_url sample_ext (B "as:did:key:zabc:mailto:a@x") = Some (mkUrl (B "as") (B "did:key:zabc:mailto:a@x") None) /\
  extract_did (B "did:key:zabc:mailto:a@x") = Some (B "did:key:zabc", B "mailtoa@x") /\
  mail_parse (mkCap (B "my:*") (B "email/send") VNull) = Some (mkView (RMy Unscoped) true VNull).
Proof. vm_compute. repeat split. Qed.

(* ------------------------------------------------------------------- C12 *)

(** The round trip holds for exactly the plain scoped capabilities whose scope
    and ability texts are read back. *)
Theorem C12_roundtrip_iff : forall S A (SO : scope_ops S) (AO : ability_ops A) X s a cav,
  parse_capability SO AO X (cap_of_view SO AO (mkView (RPlain (Scoped s)) a cav)) =
    Some (mkView (RPlain (Scoped s)) a cav) <->
  (exists uri, parse_url X (sc_to_string SO s) = Some uri /\ url_scheme uri <> B "my" /\ url_scheme uri <> B "as" /\
               url_path uri <> B "*" /\ sc_of_url SO uri = Some s) /\
  ab_of_string AO (ab_to_string AO a) = Some a.
Proof. exact @print_parse_scoped_iff. Qed.
Print Assumptions C12_roundtrip_iff.

(** Every proof capability naming an index that was parsed survives. *)
Theorem C12_proof_capabilities : forall X c v i, parse_proof_cap X c = Some v ->
  v_resource v = RPlain (Scoped (Index i)) ->
  parse_proof_cap X (cap_of_view proof_scope proof_ability v) = Some v.
Proof. exact proof_view_roundtrip. Qed.
Print Assumptions C12_proof_capabilities.

(** The bare wildcard never survives; [my:*] does. *)
Theorem C12_wildcard_is_lost : forall S A (SO : scope_ops S) (AO : ability_ops A) X a cav,
  parse_capability SO AO X (cap_of_view SO AO (mkView (RPlain Unscoped) a cav)) = None.
Proof. exact @print_wildcard_lost. Qed.
Print Assumptions C12_wildcard_is_lost.

Theorem C12_my_wildcard : forall S A (SO : scope_ops S) (AO : ability_ops A) X a cav,
  ab_of_string AO (ab_to_string AO a) = Some a ->
  parse_capability SO AO X (cap_of_view SO AO (mkView (RMy Unscoped) a cav)) = Some (mkView (RMy Unscoped) a cav).
Proof. exact @print_my_wildcard. Qed.
Print Assumptions C12_my_wildcard.

Example C12_example :
  mail_parse (cap_of_view mail_scope mail_ability (mkView (RPlain (Scoped (B "a@x"))) true obj1)) =
    Some (mkView (RPlain (Scoped (B "a@x"))) true obj1) /\
  cap_of_view mail_scope mail_ability (mkView (RPlain (Scoped (B "a@x"))) true obj1) =
    mkCap (B "mailto:a@x") (B "email/send") obj1 /\
  parse_proof_cap sample_ext (mkCap (B "PRF:+007") (B "ucan/DELEGATE") obj1) =
    Some (mkView (RPlain (Scoped (Index 7))) Delegate obj1) /\
  mail_parse (mkCap (B "mailto:*") (B "email/send") obj1) = Some (mkView (RPlain Unscoped) true obj1).
Proof. vm_compute. repeat split. Qed.
