(** Facts about bytes, byte strings and the orders of Ord.v. *)
From Coq Require Import Sorting.Sorted.
From Coq Require Export ZifyBool ZifyNat ZifyN.
From Verif Require Export Prelude Ord.
Ltac Zify.zify_post_hook ::= Z.div_mod_to_equations.

Lemma byte_eqb_eq (a b : byte) : Byte.eqb a b = true <-> a = b.
Proof. split; [apply Strings.Byte.byte_dec_bl | apply Strings.Byte.byte_dec_lb]. Qed.

Lemma byte_eqb_refl (a : byte) : Byte.eqb a a = true.
Proof. apply byte_eqb_eq; reflexivity. Qed.

Lemma byte_eqb_neq (a b : byte) : Byte.eqb a b = false <-> a <> b.
Proof.
  split.
  - intros H E. apply byte_eqb_eq in E. congruence.
  - intros H. destruct (Byte.eqb a b) eqn:E; [apply byte_eqb_eq in E; contradiction | reflexivity].
Qed.

Lemma bN_bound (b : byte) : (bN b < 256)%N.
Proof. pose proof (Strings.Byte.to_N_bounded b). unfold bN. lia. Qed.

Lemma byteN_bN (b : byte) : byteN (bN b) = b.
Proof.
  unfold byteN. rewrite N.mod_small by apply bN_bound.
  unfold bN. rewrite Strings.Byte.of_to_N. reflexivity.
Qed.

Lemma bN_byteN (n : N) : bN (byteN n) = (n mod 256)%N.
Proof.
  unfold byteN. destruct (Byte.of_N (n mod 256)) eqn:E.
  - apply Strings.Byte.to_of_N in E. exact E.
  - apply Strings.Byte.of_N_None_iff in E.
    assert (n mod 256 < 256)%N by (apply N.mod_lt; lia). lia.
Qed.

Lemma bN_byteN_small (n : N) : (n < 256)%N -> bN (byteN n) = n.
Proof. intros. rewrite bN_byteN. apply N.mod_small. assumption. Qed.

Lemma bN_inj (a b : byte) : bN a = bN b -> a = b.
Proof. intros H. rewrite <- (byteN_bN a), <- (byteN_bN b), H. reflexivity. Qed.

Lemma bytes_eqb_eq (a b : bytes) : bytes_eqb a b = true <-> a = b.
Proof.
  revert b. induction a as [|x a IH]; intros [|y b]; simpl; split; intros H;
    try reflexivity; try discriminate.
  - apply andb_true_iff in H as [H1 H2]. apply byte_eqb_eq in H1. apply IH in H2. congruence.
  - injection H as -> ->. rewrite byte_eqb_refl. apply IH. reflexivity.
Qed.

Lemma bytes_eqb_refl (a : bytes) : bytes_eqb a a = true.
Proof. apply bytes_eqb_eq; reflexivity. Qed.

Lemma bytes_eqb_neq (a b : bytes) : bytes_eqb a b = false <-> a <> b.
Proof.
  split.
  - intros H E. apply bytes_eqb_eq in E. congruence.
  - intros H. destruct (bytes_eqb a b) eqn:E; [apply bytes_eqb_eq in E; contradiction | reflexivity].
Qed.

Lemma bytes_eqb_spec (a b : bytes) : reflect (a = b) (bytes_eqb a b).
Proof.
  destruct (bytes_eqb a b) eqn:E; constructor; [apply bytes_eqb_eq | apply bytes_eqb_neq]; assumption.
Qed.

Lemma bytes_dec (a b : bytes) : {a = b} + {a <> b}.
Proof. destruct (bytes_eqb_spec a b); [left | right]; assumption. Qed.

Lemma strip_prefix_some (pre s r : bytes) : strip_prefix pre s = Some r <-> s = pre ++ r.
Proof.
  revert s. induction pre as [|p pre IH]; intros s; simpl.
  - split; [intros [= ->] | intros ->]; reflexivity.
  - destruct s as [|c s]; [split; discriminate|].
    destruct (Byte.eqb p c) eqn:E.
    + apply byte_eqb_eq in E. subst. rewrite IH. split; [intros -> | intros [= ->]]; reflexivity.
    + apply byte_eqb_neq in E. split; [discriminate | intros [= -> ?]; contradiction].
Qed.

Lemma strip_prefix_app (pre r : bytes) : strip_prefix pre (pre ++ r) = Some r.
Proof. apply strip_prefix_some. reflexivity. Qed.

(* ------------------------------------------------------------- orders *)

Class OrdLaws (K : Type) `{Ord K} : Prop := {
  cmp_eq : forall a b : K, cmp a b = Eq <-> a = b;
  cmp_antisym : forall a b : K, cmp b a = CompOpp (cmp a b);
  cmp_lt_trans : forall a b c : K, cmp a b = Lt -> cmp b c = Lt -> cmp a c = Lt
}.

Lemma bytes_cmp_eq (a b : bytes) : bytes_cmp a b = Eq <-> a = b.
Proof.
  revert b. induction a as [|x a IH]; intros [|y b]; simpl; split; intros H;
    try reflexivity; try discriminate.
  - destruct (N.compare_spec (bN x) (bN y)) as [E|E|E]; try discriminate.
    apply bN_inj in E. apply IH in H. congruence.
  - injection H as -> ->. rewrite N.compare_refl. apply IH. reflexivity.
Qed.

Lemma bytes_cmp_antisym (a b : bytes) : bytes_cmp b a = CompOpp (bytes_cmp a b).
Proof.
  revert b. induction a as [|x a IH]; intros [|y b]; simpl; try reflexivity.
  rewrite (N.compare_antisym (bN x) (bN y)).
  destruct (N.compare (bN x) (bN y)); simpl; auto.
Qed.

Lemma bytes_cmp_lt_trans (a b c : bytes) : bytes_cmp a b = Lt -> bytes_cmp b c = Lt -> bytes_cmp a c = Lt.
Proof.
  revert b c. induction a as [|x a IH]; intros [|y b] [|z c]; simpl; try discriminate; try reflexivity.
  destruct (N.compare_spec (bN x) (bN y)), (N.compare_spec (bN y) (bN z));
    intros; try discriminate.
  - assert (bN x = bN z) as -> by congruence. rewrite N.compare_refl. eauto.
  - assert (bN x < bN z)%N as E by lia. apply N.compare_lt_iff in E. rewrite E. reflexivity.
  - assert (bN x < bN z)%N as E by lia. apply N.compare_lt_iff in E. rewrite E. reflexivity.
  - assert (bN x < bN z)%N as E by lia. apply N.compare_lt_iff in E. rewrite E. reflexivity.
Qed.

#[global] Instance OrdLaws_bytes : OrdLaws bytes :=
  {| cmp_eq := bytes_cmp_eq; cmp_antisym := bytes_cmp_antisym; cmp_lt_trans := bytes_cmp_lt_trans |}.

#[global] Instance OrdLaws_N : OrdLaws N.
Proof.
  split; unfold cmp, Ord_N.
  - apply N.compare_eq_iff.
  - intros. apply N.compare_antisym.
  - intros a b c. rewrite !N.compare_lt_iff. lia.
Qed.

Section Laws.
  Context {K : Type} `{OrdLaws K}.

  Lemma cmp_refl (a : K) : cmp a a = Eq.
  Proof. apply cmp_eq. reflexivity. Qed.

  Lemma cmp_gt_lt (a b : K) : cmp a b = Gt <-> cmp b a = Lt.
  Proof. rewrite (cmp_antisym a b). destruct (cmp a b); simpl; split; congruence. Qed.

  Lemma cmp_lt_neq (a b : K) : cmp a b = Lt -> a <> b.
  Proof. intros E ->. rewrite cmp_refl in E. discriminate. Qed.

  Lemma cmp_dec (a b : K) : {a = b} + {a <> b}.
  Proof.
    destruct (cmp a b) eqn:E.
    - left. apply cmp_eq. exact E.
    - right. intros ->. rewrite cmp_refl in E. discriminate.
    - right. intros ->. rewrite cmp_refl in E. discriminate.
  Qed.
End Laws.
