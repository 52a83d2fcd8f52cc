(** Facts about caveats, resources and capability maps (C01-C07). *)
From Coq Require Import Sorting.Sorted Sorting.Permutation.
From Verif Require Export ValueFacts Caveat Capability Semantics.

(* ------------------------------------------------------------------ caveats *)

Lemma caveat_covered_iff a b : msorted b ->
  (caveat_covered a b = true <-> fields_included a b).
Proof.
  intros Hb. induction a as [|[k v] a IH]; simpl.
  - split; [|reflexivity]. intros _ k v [].
  - split.
    + intros Hx k' v' [[= <- <-] | Hin].
      * destruct (mget k b) as [w|] eqn:E; [|discriminate].
        destruct (value_eqb v w) eqn:Ev; [|discriminate].
        exists w. split; [apply mget_in, E | apply value_eqb_iff, Ev].
      * destruct (mget k b) as [w|]; [|discriminate].
        destruct (value_eqb v w); [|discriminate]. simpl in Hx.
        destruct (proj1 IH Hx _ _ Hin) as [w' ?]. exists w'. assumption.
    + intros Hx. destruct (Hx k v (or_introl eq_refl)) as [w [Hw Hj]].
      rewrite (in_mget _ _ _ Hb Hw). apply value_eqb_iff in Hj. rewrite Hj. simpl.
      apply IH. intros k' v' Hin. apply Hx. right. exact Hin.
Qed.

Lemma obj_eqb_included a b : obj_eqb a b = true -> fields_included a b.
Proof.
  rewrite <- value_eqb_obj, value_eqb_iff. intros Hj. inversion Hj as [| | | | | | |? ? F]. subst.
  clear Hj. intros k v Hin. induction F as [|[k1 v1] [k2 v2] m m' [Hk Hv] _ IH]; [contradiction|].
  simpl in Hk, Hv. destruct Hin as [[= -> ->] | Hin].
  - exists v2. subst. split; [left; reflexivity | exact Hv].
  - destruct (IH Hin) as [w [Hw Hj]]. exists w. split; [right; exact Hw | exact Hj].
Qed.

Lemma caveat_enables_iff a b : object_ok b ->
  (caveat_enables a b = true <-> fields_included a b).
Proof.
  intros Hb. apply object_ok_inv in Hb as [Hs _]. unfold caveat_enables.
  destruct a as [|[k v] a]; simpl is_nil; cbv iota.
  - split; [|reflexivity]. intros _ k v [].
  - destruct b as [|[k' v'] b]; simpl is_nil; cbv iota.
    + split; [discriminate|]. intros Hx. destruct (Hx k v (or_introl eq_refl)) as [w [[] _]].
    + destruct (obj_eqb ((k, v) :: a) ((k', v') :: b)) eqn:E.
      * split; [|reflexivity]. intros _. apply obj_eqb_included, E.
      * apply caveat_covered_iff, Hs.
Qed.

Lemma fields_included_refl a : object_ok a -> fields_included a a.
Proof.
  intros Ha k v Hin. apply object_ok_inv in Ha as [_ Hok]. exists v.
  split; [exact Hin | apply json_eq_refl, (Hok _ _ Hin)].
Qed.

Lemma fields_included_trans a b c : fields_included a b -> fields_included b c -> fields_included a c.
Proof.
  intros Hab Hbc k v Hin. destruct (Hab _ _ Hin) as [w [Hw Hj]]. destruct (Hbc _ _ Hw) as [w' [Hw' Hj']].
  exists w'. split; [exact Hw' | eapply json_eq_trans; eassumption].
Qed.

Lemma caveat_enables_refl a : object_ok a -> caveat_enables a a = true.
Proof. intros Ha. apply caveat_enables_iff; [exact Ha | apply fields_included_refl, Ha]. Qed.

Lemma caveat_enables_trans a b c : object_ok b -> object_ok c ->
  caveat_enables a b = true -> caveat_enables b c = true -> caveat_enables a c = true.
Proof.
  intros Hb Hc. rewrite !caveat_enables_iff by assumption. apply fields_included_trans.
Qed.

(* ---------------------------------------------------------------- resources *)

Section Resources.
  Context {S A : Type} (SO : scope_ops S) (AO : ability_ops A).

  Lemma uri_contains_iff (u v : resource_uri S) :
    uri_contains SO u v = true <->
    (u = Unscoped \/ exists x y, u = Scoped x /\ v = Scoped y /\ sc_contains SO x y = true).
  Proof.
    destruct u as [x|], v as [y|]; simpl; split; intros Hx; try reflexivity; try discriminate; auto.
    - right. exists x, y. auto.
    - destruct Hx as [Hx | [x' [y' [[= <-] [[= <-] Hx]]]]]; [discriminate | exact Hx].
    - destruct Hx as [Hx | [x' [y' [_ [Hx _]]]]]; discriminate.
  Qed.

  Lemma resource_contains_iff (a b : resource S) :
    resource_contains SO a b = true <->
    kind_of a = kind_of b /\ uri_contains SO (uri_of a) (uri_of b) = true.
  Proof.
    destruct a as [u|u|d u], b as [v|v|d' v]; simpl; try (split; [discriminate | intros [? _]; discriminate]).
    - tauto.
    - tauto.
    - destruct (bytes_eqb_spec d d').
      + subst. split; [auto | tauto].
      + split; [discriminate | intros [[= ?] _]; contradiction].
  Qed.

  Lemma resource_contains_spec (a b : resource S) :
    resource_contains SO a b = true <->
    covers SO a b.
  Proof. unfold covers. rewrite resource_contains_iff, uri_contains_iff. reflexivity. Qed.

  Lemma resource_contains_refl : scope_preorder SO -> forall a, resource_contains SO a a = true.
  Proof.
    intros [Hr _] a. apply resource_contains_spec. unfold covers. split; [reflexivity|].
    destruct (uri_of a) as [x|]; [right; exists x, x; auto | left; reflexivity].
  Qed.

  Lemma resource_contains_trans : scope_preorder SO -> forall a b c,
    resource_contains SO a b = true -> resource_contains SO b c = true -> resource_contains SO a c = true.
  Proof.
    intros [_ Ht] a b c. rewrite !resource_contains_spec. unfold covers.
    intros [K1 H1] [K2 H2]. split; [congruence|].
    destruct H1 as [H1 | [x [y [E1 [E2 H1]]]]]; [left; exact H1|].
    destruct H2 as [H2 | [y' [z [E3 [E4 H2]]]]]; [congruence|].
    right. exists x, z. rewrite E2 in E3. injection E3 as <-. eauto.
  Qed.

  Lemma ab_ge_iff (a b : A) : ab_ge AO a b = true <-> at_least AO a b.
  Proof. unfold ab_ge, at_least. destruct (ab_cmp AO a b); split; congruence. Qed.

  Lemma view_enables_iff (a b : view S A) :
    view_enables SO AO a b = true <->
    exists ca cb, v_caveat a = VObj ca /\ v_caveat b = VObj cb /\
      resource_contains SO (v_resource a) (v_resource b) = true /\
      at_least AO (v_ability a) (v_ability b) /\
      caveat_enables ca cb = true.
  Proof.
    unfold view_enables.
    destruct (v_caveat a) as [| | | | |ca] eqn:Ea; simpl;
      try (split; [discriminate | intros (ca' & cb' & Hx & _); discriminate]).
    destruct (v_caveat b) as [| | | | |cb] eqn:Eb; simpl;
      try (split; [discriminate | intros (ca' & cb' & _ & Hx & _); discriminate]).
    rewrite !andb_true_iff, ab_ge_iff. split.
    - intros [[H1 H2] H3]. exists ca, cb. auto.
    - intros (ca' & cb' & [= <-] & [= <-] & H1 & H2 & H3). auto.
  Qed.

  Lemma view_enables_refl : scope_preorder SO -> ability_preorder AO ->
    forall v m, v_caveat v = VObj m -> json_ok (v_caveat v) -> view_enables SO AO v v = true.
  Proof.
    intros HS [HAr _] v m E Hok. apply view_enables_iff. exists m, m.
    rewrite E in Hok. inversion Hok. subst.
    repeat split; auto; [apply resource_contains_refl, HS | apply caveat_enables_refl; assumption].
  Qed.

  Lemma view_enables_trans : scope_preorder SO -> ability_preorder AO ->
    forall a b c, json_ok (v_caveat b) -> json_ok (v_caveat c) ->
      view_enables SO AO a b = true -> view_enables SO AO b c = true -> view_enables SO AO a c = true.
  Proof.
    intros HS [_ HAt] a b c Hb Hc H1 H2.
    apply view_enables_iff in H1 as (ca & cb & Ea & Eb & R1 & A1 & C1).
    apply view_enables_iff in H2 as (cb' & cc & Eb' & Ec & R2 & A2 & C2).
    rewrite Eb in Eb'. injection Eb' as <-. rewrite Eb in Hb. rewrite Ec in Hc.
    inversion Hb. inversion Hc. subst.
    apply view_enables_iff. exists ca, cc. repeat split; auto.
    - eapply resource_contains_trans; eassumption.
    - eapply HAt; eassumption.
    - eapply caveat_enables_trans; [| |exact C1|exact C2]; assumption.
  Qed.

  Lemma view_enables_spec (a b : view S A) : json_ok (v_caveat b) ->
    (view_enables SO AO a b = true <->
     exists ca cb, v_caveat a = VObj ca /\ v_caveat b = VObj cb /\
       covers SO (v_resource a) (v_resource b) /\
       at_least AO (v_ability a) (v_ability b) /\
       fields_included ca cb).
  Proof.
    intros Hok. rewrite view_enables_iff. split.
    - intros (ca & cb & E1 & E2 & H1 & H2 & H3). exists ca, cb. rewrite E2 in Hok. inversion Hok. subst.
      rewrite resource_contains_spec in H1. rewrite caveat_enables_iff in H3 by assumption. auto.
    - intros (ca & cb & E1 & E2 & H1 & H2 & H3). exists ca, cb. rewrite E2 in Hok. inversion Hok. subst.
      rewrite resource_contains_spec, caveat_enables_iff by assumption. auto.
  Qed.

  Lemma scoped_not_wild a x b : uri_of a = Scoped x -> uri_of b = Unscoped -> resource_contains SO a b = false.
  Proof.
    intros E1 E2. destruct (resource_contains SO a b) eqn:E; [|reflexivity].
    apply resource_contains_spec in E as [_ [E | (y & z & _ & E & _)]]; congruence.
  Qed.
End Resources.

Lemma caveat_enables_consequences a :
  caveat_enables [] a = true /\ (a <> [] -> caveat_enables a [] = false).
Proof. split; [reflexivity|]. destruct a; [contradiction | reflexivity]. Qed.
