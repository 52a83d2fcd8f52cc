(** C120-C121: errors of malformed capabilities, and the texts of the example semantics. *)
From Verif Require Import Prelude Ord SMap Value Url Capability Semantics Fixtures Spec SpecCaps CapsFaultFacts.

(* ------------------------------------------------------------------ C120 *)

(** Refused JSON is refused with the error of the first fault, and never anything else happens. *)
Theorem C120_caps_error_iff : forall v e, json_ok v -> (caps_of_value v = Err e <-> caps_fault v e).
Proof. exact caps_fault_iff. Qed.
Print Assumptions C120_caps_error_iff.

Theorem C120_caps_total : forall v, (exists m, caps_of_value v = Ok m) \/ (exists e, caps_of_value v = Err e).
Proof. exact caps_of_value_total. Qed.
Print Assumptions C120_caps_total.

Definition two_faults : value :=
  VObj [(B "a:1", VObj []); (B "b:1", VObj [(B "x", VArr [VObj []; VNull]); (B "y", VNull)]); (B "c:1", VNull)].
Example C120_example : json_ok two_faults /\ caps_fault two_faults ECaveatNotObject /\
  caps_of_value two_faults = Err ECaveatNotObject /\
  caps_of_value (VObj [(B "a:1", VNull)]) = Err EAbilitiesNotObject /\
  caps_of_value (VObj [(B "a:1", VObj [(B "y", VNull)])]) = Err ECaveatsNotArray /\
  caps_of_value (VArr []) = Err ECapsNotObject.
Proof.
  split; [repeat constructor; discriminate|]. split; [|repeat split; reflexivity].
  apply (CF_caveat [(B "a:1", VObj [])] (B "b:1") [] (B "x") [VObj []; VNull] VNull [(B "y", VNull)] [(B "c:1", VNull)]).
  - constructor; [|constructor]. exists []. split; [reflexivity | constructor].
  - constructor.
  - right. left. reflexivity.
  - intros [m H]. discriminate.
Qed.

(* ------------------------------------------------------------------ C121 *)

(** Email scopes: read from the path of a [mailto] URL, contain only themselves. *)
Theorem C121_email_scope : forall u s t,
  (sc_of_url email_scope u = Some s <-> url_scheme u = B "mailto" /\ s = url_path u) /\
  (sc_contains email_scope s t = true <-> s = t) /\
  sc_to_string email_scope s = B "mailto:" ++ s.
Proof. exact email_scope_facts. Qed.
Print Assumptions C121_email_scope.

(** The one email ability. *)
Theorem C121_email_ability : forall t a b,
  (ab_of_string email_ability t = Some a <-> t = B "email/send") /\
  ab_to_string email_ability a = B "email/send" /\ at_least email_ability a b.
Proof. exact email_ability_facts. Qed.
Print Assumptions C121_email_ability.

(** WNFS scopes: read from the host and the path of a [wnfs] URL with a host. *)
Theorem C121_wnfs_scope : forall u s,
  (sc_of_url wnfs_scope u = Some s <->
     url_scheme u = B "wnfs" /\ url_host u = Some (w_origin s) /\ w_path s = url_path u) /\
  sc_to_string wnfs_scope s = B "wnfs://" ++ w_origin s ++ w_path s.
Proof. exact (fun u s => conj (wnfs_url u s) eq_refl). Qed.
Print Assumptions C121_wnfs_scope.

(** WNFS abilities: the names of the table and no others. *)
Theorem C121_wnfs_ability : forall t l,
  (ab_of_string wnfs_ability t = Some l <-> In (t, l) wnfs_table) /\
  In (ab_to_string wnfs_ability l, l) wnfs_table.
Proof. exact (fun t l => conj (wnfs_ability_text t l) (wnfs_ability_print l)). Qed.
Print Assumptions C121_wnfs_ability.

Example C121_example :
  sc_of_url email_scope (mkUrl (B "mailto") (B "alice@email.com") None) = Some (B "alice@email.com") /\
  sc_of_url wnfs_scope (mkUrl (B "wnfs") (B "/public") None) = None /\
  sc_of_url wnfs_scope (mkUrl (B "wnfs") (B "/public") (Some (B "alice.fission.name"))) = Some (mkWnfs (B "alice.fission.name") (B "/public")) /\
  ab_of_string wnfs_ability (B "wnfs/soft_delete") = Some WSoftDelete /\ ab_of_string wnfs_ability (B "WNFS/CREATE") = None.
Proof. vm_compute. repeat split; reflexivity. Qed.
