(** Facts about the texts of the semantics of redelegation. *)
From Verif Require Import Prelude Ord Base58 Value Url Semantics Spec SpecWire SpecJson SpecUrl SpecProofText OrdFacts WireFacts UrlTextFacts.

Lemma proof_path_iff s p : proof_selection_of_string s = Some p <-> proof_path s p.
Proof.
  unfold proof_selection_of_string. destruct (bytes_eqb_spec s (B "*")) as [->|N].
  - split; [intros [= <-]; constructor|]. inversion 1 as [|plus ds n Hp Hd Hn Hw E]; [reflexivity|]. exfalso.
    assert (parse_usize (B "*") = Some n) as Q by (apply parse_usize_iff; exists plus, ds; auto).
    vm_compute in Q. discriminate.
  - split.
    + destruct (parse_usize s) as [n|] eqn:E; [|discriminate]. intros [= <-].
      apply parse_usize_iff in E as (plus & ds & -> & Hp & Hd & Hn & Hw). exact (PP_index plus ds n Hp Hd Hn Hw).
    + inversion 1 as [|plus ds n Hp Hd Hn Hw E]; [congruence|]. subst s.
      assert (parse_usize (plus ++ ds) = Some n) as -> by (apply parse_usize_iff; exists plus, ds; auto). subst p. reflexivity.
Qed.

Lemma proof_scope_text u p q t :
  (sc_of_url proof_scope u = Some p <-> url_scheme u = B "prf" /\ proof_path (url_path u) p) /\
  (sc_to_string proof_scope p = t <-> proof_print p t) /\
  (sc_contains proof_scope p q = true <-> p = q \/ p = All).
Proof.
  split; [|split].
  - cbn [sc_of_url proof_scope]. rewrite <- proof_path_iff. destruct (bytes_eqb_spec (url_scheme u) (B "prf")); intuition congruence.
  - destruct p as [n|]; cbn [sc_to_string proof_scope].
    + split; [intros <-; constructor; apply decimal_text_iff; reflexivity|]. inversion 1 as [|n' t' Ht]. apply decimal_text_iff in Ht. congruence.
    + split; [intros <-; constructor | inversion 1; reflexivity].
  - destruct p as [m|], q as [n|]; cbn; rewrite ?orb_false_r, ?N.eqb_eq; intuition congruence.
Qed.

Lemma proof_ability_text t a b :
  (ab_of_string proof_ability t = Some a <-> t = B "ucan/DELEGATE") /\
  ab_to_string proof_ability a = B "ucan/DELEGATE" /\ at_least proof_ability a b.
Proof.
  split; [|split; [reflexivity | cbv; discriminate]]. cbn [ab_of_string proof_ability]. destruct a.
  destruct (bytes_eqb_spec t (B "ucan/DELEGATE")); intuition congruence.
Qed.
