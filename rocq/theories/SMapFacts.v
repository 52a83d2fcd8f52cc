(** Facts about the sorted maps and sets of SMap.v. *)
From Coq Require Import Sorting.Sorted Sorting.Permutation.
From Verif Require Export OrdFacts SMap.

Section SMapFacts.
  Context {K : Type} `{OrdLaws K} {V : Type}.
  Implicit Types (m : list (K * V)) (k : K).

  (** Strictly increasing keys. *)
  Definition msorted m : Prop := StronglySorted (fun a b => cmp (fst a) (fst b) = Lt) m.

  Lemma msorted_nil : msorted [].
  Proof. constructor. Qed.

  Lemma msorted_tail a m : msorted (a :: m) -> msorted m.
  Proof. intros Hs. inversion Hs. assumption. Qed.

  Lemma msorted_head a m : msorted (a :: m) -> forall b, In b m -> cmp (fst a) (fst b) = Lt.
  Proof. intros Hs. inversion Hs as [|? ? _ F]. rewrite Forall_forall in F. exact F. Qed.

  Lemma mget_none_lt k m : (forall b, In b m -> cmp k (fst b) = Lt) -> mget k m = None.
  Proof.
    induction m as [|[k' v] m IH]; intros F; [reflexivity|].
    simpl. pose proof (F _ (or_introl eq_refl)) as E. simpl in E. rewrite E.
    apply IH. intros b Hb. apply F. right. exact Hb.
  Qed.

  Lemma mget_in k v m : mget k m = Some v -> In (k, v) m.
  Proof.
    induction m as [|[k' v'] m IH]; simpl; [discriminate|].
    destruct (cmp k k') eqn:E; auto.
    apply cmp_eq in E. subst. intros [= ->]. left. reflexivity.
  Qed.

  Lemma in_mget k v m : msorted m -> In (k, v) m -> mget k m = Some v.
  Proof.
    induction m as [|[k' v'] m IH]; intros Hs Hin; [contradiction|].
    simpl. destruct Hin as [E | Hin].
    - injection E as -> ->. rewrite cmp_refl. reflexivity.
    - pose proof (msorted_head _ _ Hs _ Hin) as E. simpl in E.
      assert (cmp k k' = Gt) as -> by (apply cmp_gt_lt; exact E).
      apply IH; [eapply msorted_tail; eassumption | assumption].
  Qed.

  Lemma mget_none k m : mget k m = None <-> forall v, ~ In (k, v) m.
  Proof.
    induction m as [|[k' v'] m IH]; simpl.
    - split; auto.
    - destruct (cmp k k') eqn:E.
      + apply cmp_eq in E. subst. split; [discriminate|]. intros F. exfalso. apply (F v'). auto.
      + rewrite IH. split.
        * intros F v [[= -> ->] | Hin]; [rewrite cmp_refl in E; discriminate | exact (F v Hin)].
        * intros F v Hin. apply (F v). auto.
      + rewrite IH. split.
        * intros F v [[= -> ->] | Hin]; [rewrite cmp_refl in E; discriminate | exact (F v Hin)].
        * intros F v Hin. apply (F v). auto.
  Qed.

  Lemma mget_minsert_eq k v m : mget k (minsert k v m) = Some v.
  Proof.
    induction m as [|[k' v'] m IH]; simpl; [rewrite cmp_refl; reflexivity|].
    destruct (cmp k k') eqn:E; simpl.
    - rewrite cmp_refl. reflexivity.
    - rewrite cmp_refl. reflexivity.
    - rewrite E. exact IH.
  Qed.

  Lemma mget_minsert_neq k k' v m : k <> k' -> mget k (minsert k' v m) = mget k m.
  Proof.
    intros Hne. induction m as [|[k2 v2] m IH]; simpl.
    - destruct (cmp k k') eqn:E; try reflexivity. apply cmp_eq in E. contradiction.
    - destruct (cmp k' k2) eqn:E2; simpl.
      + apply cmp_eq in E2. subst k2.
        destruct (cmp k k') eqn:E; try reflexivity. apply cmp_eq in E. contradiction.
      + destruct (cmp k k') eqn:E; try reflexivity. apply cmp_eq in E. contradiction.
      + destruct (cmp k k2); auto.
  Qed.

  Lemma minsert_in k v m x : In x (minsert k v m) -> x = (k, v) \/ In x m.
  Proof.
    induction m as [|[k' v'] m IH]; simpl; [intuition|].
    destruct (cmp k k'); simpl; intuition.
  Qed.

  Lemma minsert_sorted k v m : msorted m -> msorted (minsert k v m).
  Proof.
    induction m as [|[k' v'] m IH]; intros Hs; simpl.
    - repeat constructor.
    - pose proof (msorted_tail _ _ Hs) as Ht. pose proof (msorted_head _ _ Hs) as Hh.
      destruct (cmp k k') eqn:E.
      + apply cmp_eq in E. subst. constructor; [assumption|]. apply Forall_forall. exact Hh.
      + constructor; [assumption|]. constructor; [exact E|].
        apply Forall_forall. intros b Hb. simpl. eapply cmp_lt_trans; [exact E | apply (Hh _ Hb)].
      + constructor; [apply IH; assumption|]. apply Forall_forall. intros b Hb.
        apply minsert_in in Hb as [-> | Hb]; [apply cmp_gt_lt; exact E | apply (Hh _ Hb)].
  Qed.

  (** Sorted maps are determined by lookups. *)
  Lemma mget_ext m m' : msorted m -> msorted m' -> (forall k, mget k m = mget k m') -> m = m'.
  Proof.
    revert m'. induction m as [|[k v] m IH]; intros [|[k' v'] m'] Hs Hs' He.
    - reflexivity.
    - specialize (He k'). simpl in He. rewrite cmp_refl in He. discriminate.
    - specialize (He k). simpl in He. rewrite cmp_refl in He. discriminate.
    - assert (k = k') as <-.
      { destruct (cmp k k') eqn:E; [apply cmp_eq; exact E | |].
        - pose proof (He k) as Hk. simpl in Hk. rewrite cmp_refl, E in Hk.
          rewrite mget_none_lt in Hk; [discriminate|].
          intros b Hb. eapply cmp_lt_trans; [exact E | apply (msorted_head _ _ Hs' _ Hb)].
        - pose proof (He k') as Hk. apply cmp_gt_lt in E. simpl in Hk. rewrite cmp_refl, E in Hk.
          rewrite mget_none_lt in Hk; [discriminate|].
          intros b Hb. eapply cmp_lt_trans; [exact E | apply (msorted_head _ _ Hs _ Hb)]. }
      pose proof (He k) as Hk. simpl in Hk. rewrite cmp_refl in Hk. injection Hk as ->.
      f_equal. apply IH; [eapply msorted_tail; eassumption | eapply msorted_tail; eassumption |].
      intros k2. specialize (He k2). simpl in He. destruct (cmp k2 k) eqn:E; auto.
      apply cmp_eq in E. subst k2.
      rewrite !mget_none_lt; auto; intros b Hb;
        [apply (msorted_head _ _ Hs' _ Hb) | apply (msorted_head _ _ Hs _ Hb)].
  Qed.

  Lemma fold_minsert_sorted (l : list (K * V)) m :
    msorted m -> msorted (fold_left (fun m kv => minsert (fst kv) (snd kv) m) l m).
  Proof. revert m. induction l as [|a l IH]; intros m Hs; simpl; auto. apply IH, minsert_sorted, Hs. Qed.

  Lemma mof_list_sorted (l : list (K * V)) : msorted (mof_list l).
  Proof. apply fold_minsert_sorted, msorted_nil. Qed.

  (** Appending an entry with a greater key. *)
  Lemma minsert_snoc k v m : (forall b, In b m -> cmp (fst b) k = Lt) -> minsert k v m = m ++ [(k, v)].
  Proof.
    induction m as [|[k' v'] m IH]; intros F; [reflexivity|]. simpl.
    pose proof (F _ (or_introl eq_refl)) as E. simpl in E.
    assert (cmp k k' = Gt) as -> by (apply cmp_gt_lt; exact E).
    rewrite IH; [reflexivity|]. intros b Hb. apply F. right. exact Hb.
  Qed.

  Lemma fold_minsert_app m l :
    msorted (m ++ l) -> fold_left (fun m kv => minsert (fst kv) (snd kv) m) l m = m ++ l.
  Proof.
    revert m. induction l as [|[k v] l IH]; intros m Hs; simpl.
    - symmetry. apply app_nil_r.
    - rewrite minsert_snoc.
      + rewrite IH; rewrite <- app_assoc; [reflexivity | exact Hs].
      + intros b Hb. clear IH. induction m as [|a m IHm]; [contradiction|].
        destruct Hb as [<- | Hb].
        * apply (msorted_head _ _ Hs (k, v)). apply in_or_app. right. left. reflexivity.
        * apply IHm; [eapply msorted_tail; exact Hs | exact Hb].
  Qed.

  Lemma mof_list_id m : msorted m -> mof_list m = m.
  Proof. intros Hs. unfold mof_list. rewrite fold_minsert_app; [reflexivity | exact Hs]. Qed.

  (** The last entry for a key wins. *)
  Fixpoint last_for (k : K) (l : list (K * V)) (d : option V) : option V :=
    match l with
    | [] => d
    | (k', v) :: l' => last_for k l' (match cmp k k' with Eq => Some v | _ => d end)
    end.

  Lemma mget_fold l m k :
    mget k (fold_left (fun m kv => minsert (fst kv) (snd kv) m) l m) = last_for k l (mget k m).
  Proof.
    revert m. induction l as [|[k' v] l IH]; intros m; simpl; [reflexivity|].
    rewrite IH. f_equal. destruct (cmp k k') eqn:E.
    - apply cmp_eq in E. subst. apply mget_minsert_eq.
    - apply mget_minsert_neq. intros ->. rewrite cmp_refl in E. discriminate.
    - apply mget_minsert_neq. intros ->. rewrite cmp_refl in E. discriminate.
  Qed.

  Lemma mget_mof_list l k : mget k (mof_list l) = last_for k l None.
  Proof. apply mget_fold. Qed.

  Lemma msorted_keys_nodup m : msorted m -> NoDup (map fst m).
  Proof.
    induction m as [|a m IH]; intros Hs; simpl; constructor.
    - intros Hin. apply in_map_iff in Hin as [b [E Hb]].
      pose proof (msorted_head _ _ Hs _ Hb) as Hl. rewrite E, cmp_refl in Hl. discriminate.
    - apply IH. eapply msorted_tail, Hs.
  Qed.

  Lemma last_for_notin k l d : ~ In k (map fst l) -> last_for k l d = d.
  Proof.
    revert d. induction l as [|[k' v] l IH]; intros d Hn; simpl; [reflexivity|].
    simpl in Hn. rewrite IH by intuition.
    destruct (cmp k k') eqn:E; try reflexivity. apply cmp_eq in E. subst. exfalso. apply Hn. left. reflexivity.
  Qed.

  Lemma last_for_in_nodup k v l d : NoDup (map fst l) -> In (k, v) l -> last_for k l d = Some v.
  Proof.
    revert d. induction l as [|[k' v'] l IH]; intros d Hn Hin; simpl in *; [contradiction|].
    inversion Hn as [|? ? Hx Hn']. subst. destruct Hin as [[= -> ->] | Hin].
    - rewrite cmp_refl. apply last_for_notin. exact Hx.
    - auto.
  Qed.

  (** With distinct keys the order of insertion does not matter. *)
  Lemma mof_list_perm (l l' : list (K * V)) : NoDup (map fst l) -> Permutation l l' -> mof_list l = mof_list l'.
  Proof.
    intros Hn Hp. apply mget_ext; try apply mof_list_sorted. intros k. rewrite !mget_mof_list.
    assert (NoDup (map fst l')) as Hn' by (eapply Permutation_NoDup; [apply Permutation_map, Hp | exact Hn]).
    destruct (in_dec cmp_dec k (map fst l)) as [Hi | Hi].
    - apply in_map_iff in Hi as [[k2 v] [E Hi]]. simpl in E. subst k2.
      rewrite (last_for_in_nodup k v l None Hn Hi).
      symmetry. apply last_for_in_nodup; [exact Hn'|]. eapply Permutation_in; eassumption.
    - rewrite !last_for_notin; auto. intros Hi'. apply Hi.
      eapply Permutation_in; [apply Permutation_sym, Permutation_map, Hp | exact Hi'].
  Qed.
End SMapFacts.

Section MapValues.
  Context {K : Type} `{OrdLaws K} {V W : Type}.

  Lemma msorted_map (f : V -> W) (m : list (K * V)) :
    msorted m -> msorted (map (fun kv => (fst kv, f (snd kv))) m).
  Proof.
    induction m as [|[k v] m IH]; intros Hs; simpl; [constructor|]. constructor.
    - apply IH. eapply msorted_tail, Hs.
    - apply Forall_forall. intros b Hb. apply in_map_iff in Hb as [a [<- Ha]]. simpl.
      apply (msorted_head _ _ Hs _ Ha).
  Qed.

  Lemma msorted_keys (m : list (K * V)) (m' : list (K * W)) :
    map fst m = map fst m' -> msorted m -> msorted m'.
  Proof.
    revert m'. induction m as [|[k v] m IH]; intros [|[k' v'] m'] E Hs; try discriminate; [constructor|].
    simpl in E. injection E as -> E. constructor.
    - apply IH; [exact E|]. eapply msorted_tail, Hs.
    - apply Forall_forall. intros b Hb.
      assert (In (fst b) (map fst m)) as Hf by (rewrite E; apply in_map, Hb).
      apply in_map_iff in Hf as [a [Ea Ha]]. rewrite <- Ea. simpl.
      apply (msorted_head _ _ Hs _ Ha).
  Qed.

  Lemma mget_map (f : V -> W) k (m : list (K * V)) :
    mget k (map (fun kv => (fst kv, f (snd kv))) m) = option_map f (mget k m).
  Proof.
    induction m as [|[k' v] m IH]; simpl; [reflexivity|]. destruct (cmp k k'); auto.
  Qed.
End MapValues.

Section SSetFacts.
  Context {K : Type} `{OrdLaws K}.
  Implicit Types (s : list K) (k : K).

  Definition ssorted s : Prop := StronglySorted (fun a b => cmp a b = Lt) s.

  Lemma smem_in k s : smem k s = true <-> In k s.
  Proof.
    unfold smem. rewrite existsb_exists. split.
    - intros [x [Hx E]]. destruct (cmp k x) eqn:C; try discriminate. apply cmp_eq in C. subst. exact Hx.
    - intros Hi. exists k. split; [exact Hi|]. rewrite cmp_refl. reflexivity.
  Qed.

  Lemma sinsert_in k x s : In x (sinsert k s) <-> x = k \/ In x s.
  Proof.
    induction s as [|y s IH]; simpl; [intuition|].
    destruct (cmp k y) eqn:E; simpl.
    - apply cmp_eq in E. subst. intuition.
    - intuition.
    - rewrite IH. intuition.
  Qed.

  Lemma sinsert_sorted k s : ssorted s -> ssorted (sinsert k s).
  Proof.
    induction s as [|y s IH]; intros Hs; simpl; [repeat constructor|].
    inversion Hs as [|? ? Ht F]. subst. rewrite Forall_forall in F.
    destruct (cmp k y) eqn:E.
    - exact Hs.
    - constructor; [exact Hs|]. constructor; [exact E|].
      apply Forall_forall. intros b Hb. eapply cmp_lt_trans; [exact E | apply F, Hb].
    - constructor; [apply IH, Ht|]. apply Forall_forall. intros b Hb.
      apply sinsert_in in Hb as [-> | Hb]; [apply cmp_gt_lt; exact E | apply F, Hb].
  Qed.

  Lemma sextend_in x s add : In x (sextend s add) <-> In x s \/ In x add.
  Proof.
    unfold sextend. revert s. induction add as [|a add IH]; intros s; simpl; [intuition|].
    rewrite IH, sinsert_in. intuition.
  Qed.

  Lemma sextend_sorted s add : ssorted s -> ssorted (sextend s add).
  Proof.
    unfold sextend. revert s. induction add as [|a add IH]; intros s Hs; simpl; auto.
    apply IH, sinsert_sorted, Hs.
  Qed.

  (** Sorted sets are determined by membership. *)
  Lemma ssorted_ext s s' : ssorted s -> ssorted s' -> (forall x, In x s <-> In x s') -> s = s'.
  Proof.
    revert s'. induction s as [|a s IH]; intros [|b s'] Hs Hs' He.
    - reflexivity.
    - exfalso. apply (He b). left. reflexivity.
    - exfalso. apply (He a). left. reflexivity.
    - inversion Hs as [|? ? Ht F]. inversion Hs' as [|? ? Ht' F']. subst.
      rewrite Forall_forall in F, F'.
      assert (a = b) as <-.
      { destruct (proj1 (He a) (or_introl eq_refl)) as [E | Ha]; [auto|].
        destruct (proj2 (He b) (or_introl eq_refl)) as [E | Hb]; [auto|].
        exfalso. apply (cmp_lt_neq a a); [|reflexivity].
        eapply cmp_lt_trans; [apply F, Hb | apply F', Ha]. }
      f_equal. apply IH; auto. intros x. split; intros Hx.
      + destruct (proj1 (He x) (or_intror Hx)) as [E | ?]; auto. subst x.
        exfalso. apply (cmp_lt_neq a a); [|reflexivity]. apply F, Hx.
      + destruct (proj2 (He x) (or_intror Hx)) as [E | ?]; auto. subst x.
        exfalso. apply (cmp_lt_neq a a); [|reflexivity]. apply F', Hx.
  Qed.
End SSetFacts.
