(** Facts about capabilities that enable each other and about wrapped keys. *)
From Coq Require Import Sorting.Sorted Floats.SpecFloat.
From Verif Require Import Prelude Ord SMap Value Url Capability Semantics Key KeyWrap Ucan Store Builder Chain Fixtures Spec SpecMutual OrdFacts ValueFacts CapFacts ReduceFacts FixtureFacts.

Lemma included_both a b : keys_increasing a -> keys_increasing b -> fields_included a b -> fields_included b a ->
  Forall2 (fun kv kv' => fst kv = fst kv' /\ json_eq (snd kv) (snd kv')) a b.
Proof.
  intros Ha. revert b. induction Ha as [|[k v] a Ha IH Hk]; intros b Hb Hab Hba.
  - destruct b as [|[k' v'] b]; [constructor|]. destruct (Hba k' v' (or_introl eq_refl)) as (w & [] & _).
  - destruct (Hab k v (or_introl eq_refl)) as (w & Hw & Hvw).
    inversion Hb as [|[k' v'] b' Hb' Hk']; subst; [destruct Hw|]. clear Hb. rename b' into b.
    destruct (Hba k' v' (or_introl eq_refl)) as (w' & Hw' & _).
    rewrite Forall_forall in Hk, Hk'.
    assert (k = k') as <-.
    { destruct Hw as [[= -> ->] | Hw]; [reflexivity|]. destruct Hw' as [[= -> ->] | Hw']; [reflexivity|].
      apply Hk' in Hw. apply Hk in Hw'. cbn [fst] in *. rewrite bytes_cmp_antisym, Hw in Hw'. discriminate. }
    assert (Hirr : forall x, bytes_cmp x x <> Lt).
    { intros x. rewrite (proj2 (bytes_cmp_eq x x) eq_refl). discriminate. }
    assert (w = v') as -> by (destruct Hw as [[= ->] | Hw]; [reflexivity | destruct (Hirr k (Hk' _ Hw))]).
    constructor; [auto|]. apply IH; [exact Hb'| |].
    + intros x y Hxy. destruct (Hab x y (or_intror Hxy)) as (z & [[= -> ->] | Hz] & Hyz).
      * destruct (Hirr x (Hk _ Hxy)).
      * exists z. auto.
    + intros x y Hxy. destruct (Hba x y (or_intror Hxy)) as (z & [[= -> ->] | Hz] & Hyz).
      * destruct (Hirr x (Hk' _ Hxy)).
      * exists z. auto.
Qed.

Lemma object_ok_sorted m : object_ok m -> keys_increasing m.
Proof. intros [m' H _]. exact H. Qed.

Lemma SFcompare_eq_sym f g : SFcompare f g = Some Eq -> SFcompare g f = Some Eq.
Proof.
  destruct f as [s|s| |s m e], g as [s'|s'| |s' m' e']; simpl; try discriminate; auto;
    try (destruct s; discriminate); try (destruct s'; discriminate); try (destruct s, s'; congruence).
  assert (forall a b, Pos.compare_cont Eq a b = Eq -> a = b) as HP.
  { intros a b. apply Pos.compare_eq. }
  destruct s, s'; try discriminate; destruct (Z.compare_spec e e'); try discriminate; subst; rewrite Z.compare_refl;
    destruct (Pos.compare_cont Eq m m') eqn:E1; try discriminate; apply HP in E1; subst; rewrite Pos.compare_cont_refl; reflexivity.
Qed.

Lemma json_eq_sym a b : json_eq a b -> json_eq b a.
Proof.
  revert b. induction a as [| b0 | n | s | l IH | m IH] using value_ind'; intros b Hab.
  - inversion Hab. constructor.
  - inversion Hab. constructor.
  - inversion Hab; subst; constructor. apply SFcompare_eq_sym. assumption.
  - inversion Hab. constructor.
  - inversion Hab as [| | | | | |? l' F|]. subst. constructor. clear Hab. revert l' F.
    induction IH as [|x l Px _ IHl]; intros l' F; inversion F; subst; constructor; auto.
  - inversion Hab as [| | | | | | |? m' F]. subst. constructor. clear Hab. revert m' F.
    induction IH as [|x m Px _ IHm]; intros m' F; [inversion F; constructor|].
    inversion F as [|? ? ? ? [E1 J1]]. subst. constructor; auto.
Qed.

Section Views.
  Context {S A : Type} (SO : scope_ops S) (AO : ability_ops A).

  Lemma covers_both a b : scope_antisymmetric SO -> covers SO a b -> covers SO b a -> a = b.
  Proof.
    intros Hs [Hk Hu] [_ Hu']. assert (uri_of a = uri_of b) as E.
    { destruct Hu as [Hu | (x & y & Hx & Hy & Hxy)], Hu' as [Hu' | (x' & y' & Hx' & Hy' & Hxy')]; try congruence.
      rewrite Hx, Hy. f_equal. apply Hs; [exact Hxy|]. congruence. }
    destruct a, b; cbn in Hk, E; try discriminate; congruence.
  Qed.

  Lemma mutual_same a b : scope_antisymmetric SO -> ability_antisymmetric AO ->
    json_ok (v_caveat a) -> json_ok (v_caveat b) ->
    view_enables SO AO a b = true -> view_enables SO AO b a = true -> same_capability a b.
  Proof.
    intros Hs Ha Hoa Hob Hab Hba.
    apply (view_enables_spec SO AO a b Hob) in Hab as (ca & cb & Ea & Eb & Hr & Hl & Hf).
    apply (view_enables_spec SO AO b a Hoa) in Hba as (cb' & ca' & Eb' & Ea' & Hr' & Hl' & Hf').
    rewrite Ea in Ea'. rewrite Eb in Eb'. injection Ea' as <-. injection Eb' as <-.
    split; [exact (covers_both _ _ Hs Hr Hr')|]. split; [exact (Ha _ _ Hl Hl')|].
    rewrite Ea, Eb in *. constructor. apply included_both; try assumption;
      apply object_ok_sorted; [inversion Hoa | inversion Hob]; assumption.
  Qed.

  Lemma json_eq_fields m m' : json_eq (VObj m) (VObj m') -> fields_included m m' /\ fields_included m' m.
  Proof.
    intros H. inversion H as [| | | | | |l1 l2 Hf E1 E2 | l1 l2 Hf E1 E2]; subst. clear H.
    induction Hf as [|[k v] [k' v'] m m' [Ek Ev] Hf [IH IH']]; [split; intros k v []|]. cbn [fst snd] in Ek, Ev. subst k'.
    split; intros x y [[= <- <-] | Hin].
    - exists v'. split; [left; reflexivity | exact Ev].
    - destruct (IH _ _ Hin) as (z & Hz & Hyz). exists z. split; [right; exact Hz | exact Hyz].
    - exists v. split; [left; reflexivity | exact (json_eq_sym _ _ Ev)].
    - destruct (IH' _ _ Hin) as (z & Hz & Hyz). exists z. split; [right; exact Hz | exact Hyz].
  Qed.

  Lemma same_enables a b m : scope_preorder SO -> ability_preorder AO -> v_caveat a = VObj m ->
    json_ok (v_caveat a) -> json_ok (v_caveat b) -> same_capability a b ->
    view_enables SO AO a b = true /\ view_enables SO AO b a = true.
  Proof.
    intros Hs Ha Em Hoa Hob (Er & El & Ec). rewrite Em in Ec.
    inversion Ec as [| | | | | |l1 l2 Hf E1 E2 | l1 l2 Hf E1 E2]; subst. symmetry in E2.
    rewrite E2 in Ec. apply json_eq_fields in Ec as [H1 H2].
    assert (covers SO (v_resource a) (v_resource a)) by (apply resource_contains_spec, (resource_contains_refl SO Hs)).
    split; apply view_enables_spec; [exact Hob | | exact Hoa |].
    - exists m, l2. rewrite <- Er, <- El. split; [exact Em|]. split; [exact E2|]. split; [assumption|]. split; [apply Ha | exact H1].
    - exists l2, m. rewrite <- Er, <- El. split; [exact E2|]. split; [exact Em|]. split; [assumption|]. split; [apply Ha | exact H2].
  Qed.

  Lemma report_no_repetition parse c r i j a b m : scope_preorder SO -> ability_preorder AO ->
    reduce SO AO parse c = Ok r -> i <> j -> nth_error r i = Some a -> nth_error r j = Some b ->
    v_caveat (i_capability a) = VObj m -> json_ok (v_caveat (i_capability a)) -> json_ok (v_caveat (i_capability b)) ->
    ~ same_capability (i_capability a) (i_capability b).
  Proof.
    intros Hs Ha Hr Hij Hi Hj Em Hoa Hob Hsame.
    destruct (same_enables _ _ _ Hs Ha Em Hoa Hob Hsame) as [H1 H2].
    destruct (Nat.lt_total i j) as [Hlt | [E | Hlt]]; [|exact (Hij E)|].
    - rewrite (report_order SO AO parse c r i j a b Hr Hlt Hi Hj) in H2. discriminate.
    - rewrite (report_order SO AO parse c r j i b a Hr Hlt Hj Hi) in H1. discriminate.
  Qed.
End Views.

Lemma email_antisymmetric : scope_antisymmetric email_scope /\ ability_antisymmetric email_ability.
Proof.
  split; [intros a b H _; apply bytes_eqb_eq, H|]. intros [] [] _ _. reflexivity.
Qed.
Lemma wnfs_antisymmetric : scope_antisymmetric wnfs_scope /\ ability_antisymmetric wnfs_ability.
Proof.
  split.
  - intros [o p] [o' p'] H H'. apply wnfs_contains_iff in H as [Eo H]. apply wnfs_contains_iff in H' as [_ H']. cbn [w_origin w_path] in *.
    subst o'. f_equal. destruct H as [-> | [r E]]; [reflexivity|]. destruct H' as [-> | [r' E']]; [reflexivity|].
    exfalso. change (B "/") with [x2f] in E, E'. apply (f_equal (@length byte)) in E. apply (f_equal (@length byte)) in E'. rewrite !app_length in E, E'. cbn [length] in E, E'. lia.
  - intros [] [] H H'; try reflexivity; cbv in H, H'; congruence.
Qed.

Lemma pointed k k' : points_to k k' -> k = k'.
Proof.
  induction 1 as [k | k k' _ IH | k k' _ IH]; [reflexivity| |]; rewrite IH; destruct k'; reflexivity.
Qed.
Lemma examples_antisymmetric :
  scope_antisymmetric email_scope /\ ability_antisymmetric email_ability /\
  scope_antisymmetric wnfs_scope /\ ability_antisymmetric wnfs_ability.
Proof.
  destruct email_antisymmetric, wnfs_antisymmetric. auto.
Qed.
