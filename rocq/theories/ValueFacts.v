(** Facts about JSON values. *)
From Coq Require Import Floats.SpecFloat Sorting.Sorted.
From Verif Require Export OrdFacts SMapFacts Utf8 Value Spec.

Section ValueInd.
  Variable P : value -> Prop.
  Hypothesis Hnull : P VNull.
  Hypothesis Hbool : forall b, P (VBool b).
  Hypothesis Hnum : forall n, P (VNum n).
  Hypothesis Hstr : forall s, P (VStr s).
  Hypothesis Harr : forall l, Forall P l -> P (VArr l).
  Hypothesis Hobj : forall m, Forall (fun kv => P (snd kv)) m -> P (VObj m).

  Fixpoint value_ind' (v : value) : P v :=
    match v with
    | VNull => Hnull
    | VBool b => Hbool b
    | VNum n => Hnum n
    | VStr s => Hstr s
    | VArr l => Harr l ((fix go l : Forall P l :=
                           match l with
                           | [] => Forall_nil _
                           | x :: l' => Forall_cons x (value_ind' x) (go l')
                           end) l)
    | VObj m => Hobj m ((fix go m : Forall (fun kv => P (snd kv)) m :=
                           match m with
                           | [] => Forall_nil _
                           | kv :: m' => Forall_cons kv (value_ind' (snd kv)) (go m')
                           end) m)
    end.
End ValueInd.

Fixpoint arr_eqb (l l' : list value) : bool :=
  match l, l' with
  | [], [] => true
  | x :: l, y :: l' => value_eqb x y && arr_eqb l l'
  | _, _ => false
  end.

Lemma value_eqb_arr l l' : value_eqb (VArr l) (VArr l') = arr_eqb l l'.
Proof.
  simpl. revert l'. induction l as [|x l IH]; intros [|y l']; simpl; auto;
    rewrite IH; reflexivity.
Qed.

Lemma value_eqb_obj m m' : value_eqb (VObj m) (VObj m') = obj_eqb m m'.
Proof.
  simpl. revert m'. induction m as [|[k x] m IH]; intros [|[k' y] m']; simpl; auto;
    rewrite IH; reflexivity.
Qed.

Lemma SFeqb_iff f g : SFeqb f g = true <-> SFcompare f g = Some Eq.
Proof. unfold SFeqb. destruct (SFcompare f g) as [[]|]; split; congruence. Qed.

Lemma number_eqb_iff m n : number_eqb m n = true <-> json_eq (VNum m) (VNum n).
Proof.
  destruct m, n; simpl; split; intros Hx; try discriminate; try (inversion Hx; fail).
  - apply N.eqb_eq in Hx. subst. constructor.
  - inversion Hx. apply N.eqb_refl.
  - apply Z.eqb_eq in Hx. subst. constructor.
  - inversion Hx. apply Z.eqb_refl.
  - constructor. apply SFeqb_iff. exact Hx.
  - inversion Hx. apply SFeqb_iff. assumption.
Qed.

Lemma value_eqb_iff a b : value_eqb a b = true <-> json_eq a b.
Proof.
  revert b. induction a as [| b0 | n | s | l IH | m IH] using value_ind'; intros v.
  - destruct v; simpl; split; intros Hx; try discriminate; try (inversion Hx; fail); constructor.
  - destruct v; simpl; split; intros Hx; try discriminate; try (inversion Hx; fail).
    + apply Bool.eqb_prop in Hx. subst. constructor.
    + inversion Hx. apply Bool.eqb_reflx.
  - destruct v as [| |n'| | |]; simpl; try (split; intros Hx; [discriminate | inversion Hx]; fail).
    apply number_eqb_iff.
  - destruct v; simpl; split; intros Hx; try discriminate; try (inversion Hx; fail).
    + apply bytes_eqb_eq in Hx. subst. constructor.
    + inversion Hx. apply bytes_eqb_refl.
  - destruct v as [| | | |l'|]; try (split; intros Hx; [discriminate | inversion Hx]; fail).
    rewrite value_eqb_arr. split; intros Hx.
    + constructor. revert l' Hx. induction IH as [|x l Px _ IHl]; intros [|y l'] Hx; try discriminate; [constructor|].
      simpl in Hx. apply andb_true_iff in Hx as [H1 H2]. constructor; [apply Px, H1 | apply IHl, H2].
    + inversion Hx as [| | | | | |? ? F|]. subst. clear Hx.
      revert IH. induction F as [|x y l l' Hxy _ IHF]; intros IH; [reflexivity|].
      inversion IH as [|? ? Px Pl]. subst. simpl. apply andb_true_iff. split; [apply Px, Hxy | apply IHF, Pl].
  - destruct v as [| | | | |m']; try (split; intros Hx; [discriminate | inversion Hx]; fail).
    rewrite value_eqb_obj. split; intros Hx.
    + constructor. revert m' Hx.
      induction IH as [|[k x] m Px _ IHm]; intros [|[k' y] m'] Hx; try discriminate; [constructor|].
      simpl in Hx. apply andb_true_iff in Hx as [H1 H2]. apply andb_true_iff in H1 as [H0 H1].
      apply bytes_eqb_eq in H0. constructor; [split; [exact H0 | apply Px, H1] | apply IHm, H2].
    + inversion Hx as [| | | | | | |? ? F]. subst. clear Hx.
      revert IH. induction F as [|[k x] [k' y] m m' [Hk Hxy] _ IHF]; intros IH; [reflexivity|].
      inversion IH as [|? ? Px Pl]. subst. simpl in *. subst k'. rewrite bytes_eqb_refl. simpl.
      apply andb_true_iff. split; [apply Px, Hxy | apply IHF, Pl].
Qed.

Lemma SFcompare_refl f : finite_float f -> SFcompare f f = Some Eq.
Proof.
  destruct f as [s|s| |s m e]; simpl; try contradiction; [reflexivity|]. intros _.
  destruct s; rewrite Z.compare_refl, ?Pos.compare_cont_refl; reflexivity.
Qed.

Lemma SFcompare_eq_trans f g h :
  SFcompare f g = Some Eq -> SFcompare g h = Some Eq -> SFcompare f h = Some Eq.
Proof.
  destruct f as [s|s| |s m e], g as [s'|s'| |s' m' e'], h as [s2|s2| |s2 m2 e2];
    simpl; try discriminate; auto; try (destruct s; discriminate); try (destruct s'; discriminate);
    try (destruct s, s'; discriminate); try (destruct s', s2; discriminate);
    try (destruct s, s', s2; congruence).
  assert (forall a b c, Pos.compare_cont c a b = Eq -> a = b /\ c = Eq) as HP.
  { intros a b c. rewrite Pos.compare_cont_spec. unfold Pos.switch_Eq.
    destruct (Pos.compare_spec a b); intros; try discriminate; auto. }
  assert (forall a b, Pos.compare_cont Eq a b = Eq -> a = b) as HP'.
  { intros a b Hx. apply HP in Hx. tauto. }
  destruct s, s'; try discriminate; destruct s2; try discriminate;
    destruct (Z.compare_spec e e'); try discriminate;
    destruct (Z.compare_spec e' e2); try discriminate;
    intros Hx Hy; subst; rewrite Z.compare_refl.
  - destruct (Pos.compare_cont Eq m m') eqn:E1; try discriminate.
    destruct (Pos.compare_cont Eq m' m2) eqn:E2; try discriminate.
    apply HP' in E1, E2. subst. rewrite Pos.compare_cont_refl. reflexivity.
  - destruct (Pos.compare_cont Eq m m') eqn:E1; try discriminate.
    destruct (Pos.compare_cont Eq m' m2) eqn:E2; try discriminate.
    apply HP' in E1, E2. subst. rewrite Pos.compare_cont_refl. reflexivity.
Qed.

Lemma json_eq_refl v : json_ok v -> json_eq v v.
Proof.
  induction v as [| b0 | n | s | l IH | m IH] using value_ind'; intros Hok; try constructor.
  - inversion Hok as [| |? Hn| | |]. subst. destruct n; constructor. apply SFcompare_refl. exact Hn.
  - inversion Hok as [| | | |? F|]. subst. clear Hok.
    induction IH as [|x l Px _ IHl]; [constructor|]. inversion F. subst. constructor; auto.
  - inversion Hok as [| | | | |? Ho]. inversion Ho as [? _ F]. subst. clear Hok Ho.
    induction IH as [|x m Px _ IHm]; [constructor|]. inversion F as [|? ? [_ Hx] ?]. subst. constructor; auto.
Qed.

Lemma json_eq_trans a b c : json_eq a b -> json_eq b c -> json_eq a c.
Proof.
  revert b c. induction a as [| b0 | n | s | l IH | m IH] using value_ind'; intros b c Hab Hbc.
  - inversion Hab. subst. exact Hbc.
  - inversion Hab. subst. exact Hbc.
  - inversion Hab; subst; try exact Hbc. inversion Hbc. subst. constructor.
    eapply SFcompare_eq_trans; eassumption.
  - inversion Hab. subst. exact Hbc.
  - inversion Hab as [| | | | | |? l' F|]. subst. inversion Hbc as [| | | | | |? l2 F2|]. subst. constructor.
    clear Hab Hbc. revert l' l2 F F2. induction IH as [|x l Px _ IHl]; intros l' l2 F F2.
    + inversion F. subst. inversion F2. constructor.
    + inversion F. subst. inversion F2. subst. constructor; eauto.
  - inversion Hab as [| | | | | | |? m' F]. subst. inversion Hbc as [| | | | | | |? m2 F2]. subst. constructor.
    clear Hab Hbc. revert m' m2 F F2. induction IH as [|x m Px _ IHm]; intros m' m2 F F2.
    + inversion F. subst. inversion F2. constructor.
    + inversion F as [|? ? ? ? [E1 J1]]. subst. inversion F2 as [|? ? ? ? [E2 J2]]. subst.
      constructor; [split; [congruence | eauto] | eauto].
Qed.

Lemma object_ok_inv m : object_ok m ->
  msorted m /\ forall k v, In (k, v) m -> utf8_valid k = true /\ json_ok v.
Proof.
  intros [m' Hs F]. split; [exact Hs|]. rewrite Forall_forall in F. intros k v Hin. apply (F _ Hin).
Qed.
