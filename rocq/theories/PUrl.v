(** Which resource texts are read, and how (C109). *)
From Coq Require Import Floats.SpecFloat.
From Verif Require Import Prelude Base58 Url Ext Value Capability Semantics Spec SpecWire SpecJson SpecUrl Samples UrlTextFacts.

(* ------------------------------------------------------------------ C109 *)

(** Exactly the texts that are URLs, with the scheme and path they name. *)
Theorem C109_resource_texts : forall X t u, parse_url X t = Some u <-> url_text X t u.
Proof. exact parse_url_text. Qed.
Print Assumptions C109_resource_texts.

(** Exactly the capabilities a semantics understands, and as what. *)
Theorem C109_capability_texts : forall S A (SO : scope_ops S) (AO : ability_ops A) X c v,
  parse_capability SO AO X c = Some v <-> capability_text SO AO X c v.
Proof. exact @capability_text_iff. Qed.
Print Assumptions C109_capability_texts.

(** Exactly the capabilities that redelegate the proof number [i]. *)
Theorem C109_proof_texts : forall X c i, rooted X ->
  (names_proof X c i <-> cap_ability c = B "ucan/DELEGATE" /\ proof_text (cap_resource c) i).
Proof. exact names_proof_text. Qed.
Print Assumptions C109_proof_texts.

(** As [sample_ext], but reading "scheme:/rest" as the path "/rest". *)
Definition slash_ext : ext :=
  mkExt (fun _ => B "0.0") (fun _ => Some (S754_zero false)) true true (fun _ _ => None)
        (fun sch rest => match rest with x2f :: _ => Some (mkUrl sch rest None) | _ => None end) (fun _ => toy_hash) true.

Example C109_example :
  rooted slash_ext /\
  (* upper case, surrounding blanks, a line break within, a plus sign, leading zeros, a query *)
  proof_text (B " P" ++ [x0a] ++ B "rF:+007?q=1 ") 7 /\
  names_proof slash_ext (mkCap (B " P" ++ [x0a] ++ B "rF:+007?q=1 ") (B "ucan/DELEGATE") obj1) 7 /\
  ~ names_proof slash_ext (mkCap (B "prf:7") (B "ucan/delegate") obj1) 7 /\
  ~ proof_text (B "prf:-1") 1 /\ ~ proof_text (B "prf:/1") 1 /\ ~ proof_text (B "prf:") 0 /\ ~ proof_text (B "prf:18446744073709551616") 18446744073709551616 /\
  url_text slash_ext (B "MailTo:a@" ++ [xc3; xa9] ++ B "#x") (mkUrl (B "mailto") (B "a@%C3%A9") None) /\
  url_text slash_ext (B "prf:/1") (mkUrl (B "prf") (B "/1") None) /\
  capability_text mail_scope mail_ability slash_ext (mkCap (B "MY:*") (B "email/read") obj1) (mkView (RMy Unscoped) false obj1) /\
  (forall v, ~ capability_text mail_scope mail_ability slash_ext (mkCap (B "as:did:key:z6Mk:mailto:a@x") (B "email/read") obj1) v).
Proof.
  assert (rooted slash_ext) as Hr.
  { intros sch rest u H. cbn [x_url_hier slash_ext] in H. destruct rest as [|c r]; [discriminate|].
    destruct (Byte.eqb c x2f) eqn:E; [apply Byte.byte_dec_bl in E; subst c; injection H as <-; right; exists r; reflexivity|].
    exfalso. clear -E H. destruct c; (discriminate H || discriminate E). }
  assert (forall t i, proof_text t i -> names_proof slash_ext (mkCap t (B "ucan/DELEGATE") obj1) i) as Hn.
  { intros t i H. apply (C109_proof_texts _ _ _ Hr). split; [reflexivity | exact H]. }
  assert (forall t i, (forall u, parse_url slash_ext t = Some u -> url_scheme u = B "prf" -> parse_usize (url_path u) = Some i -> False) -> ~ proof_text t i) as Hnot.
  { intros t i H Hp. destruct (Hn _ _ Hp) as (_ & u & H1 & H2 & H3). exact (H u H1 H2 H3). }
  assert (proof_text (B " P" ++ [x0a] ++ B "rF:+007?q=1 ") 7) as H7.
  { assert (names_proof slash_ext (mkCap (B " P" ++ [x0a] ++ B "rF:+007?q=1 ") (B "ucan/DELEGATE") obj1) 7) as H.
    { split; [reflexivity|]. exists (mkUrl (B "prf") (B "+007") None). repeat split; vm_compute; reflexivity. }
    exact (proj2 (proj1 (C109_proof_texts _ _ _ Hr) H)). }
  split; [exact Hr|]. split; [exact H7|]. split; [exact (Hn _ _ H7)|].
  split; [intros [H _]; discriminate H|].
  split; [apply Hnot; intros u H _ H1; vm_compute in H; injection H as <-; vm_compute in H1; discriminate H1|].
  split; [apply Hnot; intros u H _ H1; vm_compute in H; injection H as <-; vm_compute in H1; discriminate H1|].
  split; [apply Hnot; intros u H _ H1; vm_compute in H; injection H as <-; vm_compute in H1; discriminate H1|].
  split; [apply Hnot; intros u H _ H1; vm_compute in H; injection H as <-; vm_compute in H1; discriminate H1|].
  split; [apply C109_resource_texts; vm_compute; reflexivity|].
  split; [apply C109_resource_texts; vm_compute; reflexivity|].
  split; [apply C109_capability_texts; vm_compute; reflexivity|].
  intros v H. apply C109_capability_texts in H. vm_compute in H. discriminate H.
Qed.
