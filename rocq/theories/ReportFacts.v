(** What a report is, exactly (C101, C102). *)
From Coq Require Import Sorting.Sorted.
From Verif Require Import Prelude Ord SMap Value Capability Semantics Ucan Chain Spec SpecReport OrdFacts SMapFacts ReduceFacts ProofSetFacts.

Section MergeExact.
  Context {S A : Type} (SO : scope_ops S) (AO : ability_ops A).
  Notation info := (info S A).
  Notation enables := (view_enables SO AO).
  Notation enabler := (enabler SO AO).
  Notation unenabled := (unenabled SO AO).
  Notation gathers := (gathers SO AO).
  Implicit Types (l rest work : list info) (x y z : info).

  Lemma nth_cap l l' i x : map i_capability l = map i_capability l' -> nth_error l i = Some x ->
    exists x', nth_error l' i = Some x' /\ i_capability x' = i_capability x.
  Proof.
    intros He Hi. apply (map_nth_error (fun x => i_capability x)) in Hi.
    change (map (fun x => i_capability x) l) with (map i_capability l) in Hi. rewrite He in Hi.
    rewrite nth_error_map in Hi. destruct (nth_error l' i) as [x'|]; [|discriminate]. injection Hi as Hi. eauto.
  Qed.

  Lemma enabler_caps l l' j i : map i_capability l = map i_capability l' -> enabler l j i -> enabler l' j i.
  Proof.
    intros He (Hlt & x & y & Hx & Hy & Hen & Hfirst).
    destruct (nth_cap _ _ _ _ He Hx) as (x' & Hx' & Cx), (nth_cap _ _ _ _ He Hy) as (y' & Hy' & Cy).
    split; [exact Hlt|]. exists x', y'. rewrite Cx, Cy. repeat (split; [assumption|]).
    intros k z Hk Hz. destruct (nth_cap _ _ _ _ (eq_sym He) Hz) as (z' & Hz' & <-). exact (Hfirst k z' Hk Hz').
  Qed.

  Lemma unenabled_caps l l' i : map i_capability l = map i_capability l' -> unenabled l i -> unenabled l' i.
  Proof.
    intros He (x & Hx & Hn). destruct (nth_cap _ _ _ _ He Hx) as (x' & Hx' & Cx).
    exists x'. split; [exact Hx'|]. intros k z Hk Hz. rewrite Cx.
    destruct (nth_cap _ _ _ _ (eq_sym He) Hz) as (z' & Hz' & <-). exact (Hn k z' Hk Hz').
  Qed.

  Lemma nth_snoc {T} (l : list T) (a : T) i (b : T) : nth_error (l ++ [a]) i = Some b <->
    nth_error l i = Some b \/ i = length l /\ b = a.
  Proof.
    destruct (Nat.lt_ge_cases i (length l)) as [H|H].
    - rewrite nth_error_app1 by exact H. split; [auto | intros [Hx|[-> _]]; [exact Hx | lia]].
    - rewrite nth_error_app2 by exact H. destruct (i - length l)%nat as [|k] eqn:E.
      + cbn [nth_error]. split; [intros [= ->]; right; split; [lia | reflexivity]|].
        intros [Hx|[_ ->]]; [|reflexivity]. assert (i < length l)%nat by (apply nth_error_Some; congruence). lia.
      + split; [destruct k; discriminate|]. intros [Hx|[-> _]]; [|lia].
        assert (i < length l)%nat by (apply nth_error_Some; congruence). lia.
  Qed.

  (** Adding an entry at the end. *)
  Lemma enabler_snoc l a j i : enabler (l ++ [a]) j i <-> enabler l j i \/
    j = length l /\ exists x, nth_error l i = Some x /\ enables (i_capability x) (i_capability a) = true /\
      forall k z, (k < i)%nat -> nth_error l k = Some z -> enables (i_capability z) (i_capability a) = false.
  Proof.
    split.
    - intros (Hlt & x & y & Hx & Hy & He & Hf). apply nth_snoc in Hy as [Hy | [-> ->]].
      + assert (j < length l)%nat by (apply nth_error_Some; congruence).
        apply nth_snoc in Hx as [Hx | [-> _]]; [|lia].
        left. split; [exact Hlt|]. exists x, y. repeat (split; [assumption|]). intros k z Hk Hz. apply (Hf k z Hk), nth_snoc. auto.
      + right. split; [reflexivity|]. apply nth_snoc in Hx as [Hx | [-> _]]; [|lia]. exists x.
        repeat (split; [assumption|]). intros k z Hk Hz. apply (Hf k z Hk), nth_snoc. auto.
    - intros [(Hlt & x & y & Hx & Hy & He & Hf) | (-> & x & Hx & He & Hf)].
      + assert (j < length l)%nat by (apply nth_error_Some; congruence).
        split; [exact Hlt|]. exists x, y. split; [apply nth_snoc; auto|]. split; [apply nth_snoc; auto|]. split; [exact He|].
        intros k z Hk Hz. apply nth_snoc in Hz as [Hz | [-> _]]; [exact (Hf k z Hk Hz) | lia].
      + assert (i < length l)%nat by (apply nth_error_Some; congruence).
        split; [assumption|]. exists x, a. split; [apply nth_snoc; auto|]. split; [apply nth_snoc; auto|]. split; [exact He|].
        intros k z Hk Hz. apply nth_snoc in Hz as [Hz | [-> _]]; [exact (Hf k z Hk Hz) | lia].
  Qed.

  Lemma unenabled_snoc l a i : unenabled (l ++ [a]) i <-> unenabled l i \/
    i = length l /\ forall z, In z l -> enables (i_capability z) (i_capability a) = false.
  Proof.
    split.
    - intros (x & Hx & Hn). apply nth_snoc in Hx as [Hx | [-> ->]].
      + left. exists x. split; [exact Hx|]. intros k z Hk Hz. apply (Hn k z Hk), nth_snoc. auto.
      + right. split; [reflexivity|]. intros z Hz. apply In_nth_error in Hz as [k Hk]. apply (Hn k z).
        * apply nth_error_Some. congruence.
        * apply nth_snoc. auto.
    - intros [(x & Hx & Hn) | [-> Hn]].
      + assert (i < length l)%nat by (apply nth_error_Some; congruence).
        exists x. split; [apply nth_snoc; auto|]. intros k z Hk Hz. apply nth_snoc in Hz as [Hz | [-> _]]; [exact (Hn k z Hk Hz) | lia].
      + exists a. split; [apply nth_snoc; auto|]. intros k z Hk Hz. apply nth_snoc in Hz as [Hz | [-> _]]; [|lia].
        apply Hn. eapply nth_error_In, Hz.
  Qed.

  Lemma unenabled_lt l i : unenabled l i -> (i < length l)%nat.
  Proof. intros (x & Hx & _). apply nth_error_Some. congruence. Qed.

  (** The first enabling entry absorbs. *)
  Lemma absorb_first x l l' : absorb SO AO x l = Some l' ->
    exists l1 r l2, l = l1 ++ r :: l2 /\ l' = l1 ++ absorbed r x :: l2 /\ enables (i_capability r) (i_capability x) = true /\
      forall z, In z l1 -> enables (i_capability z) (i_capability x) = false.
  Proof.
    revert l'. induction l as [|r l IH]; intros l' Ha; [discriminate|]. cbn [absorb] in Ha.
    destruct (enables (i_capability r) (i_capability x)) eqn:E.
    - injection Ha as <-. exists [], r, l. split; [reflexivity|]. split; [reflexivity|]. split; [exact E | intros z []].
    - destruct (absorb SO AO x l) as [l''|] eqn:Ea; [|discriminate]. injection Ha as <-.
      destruct (IH _ eq_refl) as (l1 & r' & l2 & -> & -> & He & Hn). exists (r :: l1), r', l2.
      split; [reflexivity|]. split; [reflexivity|]. split; [exact He|]. intros z [<- | Hz]; auto.
  Qed.

  Lemma gathers_lt l i o : gathers l i o -> (i < length l)%nat.
  Proof.
    intros H. induction H as [i x o Hx Ho | j i o (Hlt & _) _ IH]; [apply nth_error_Some; congruence | lia].
  Qed.

  Lemma gathers_keep l a i o : (forall z, In z l -> enables (i_capability z) (i_capability a) = false) ->
    gathers (l ++ [a]) i o <-> gathers l i o \/ i = length l /\ In o (i_originators a).
  Proof.
    intros Hn. split.
    - intros H. induction H as [i x o Hx Ho | j i o He _ IH].
      + apply nth_snoc in Hx as [Hx | [-> ->]]; [left; econstructor; eassumption | auto].
      + apply enabler_snoc in He as [He | (-> & x & Hx & He & _)].
        * destruct IH as [IH | [-> _]]; [left; eapply G_from; eassumption|].
          destruct He as (_ & _ & y & _ & Hy & _). assert (length l < length l)%nat by (apply nth_error_Some; congruence). lia.
        * rewrite (Hn x) in He; [discriminate | eapply nth_error_In, Hx].
    - intros [H | [-> Ho]].
      + induction H as [i x o Hx Ho | j i o He _ IH]; [eapply G_own; [apply nth_snoc; left; exact Hx | exact Ho]|].
        eapply G_from; [apply enabler_snoc; left; exact He | exact IH].
      + eapply G_own; [apply nth_snoc; right; auto | exact Ho].
  Qed.

  Lemma nth_mid {T} (l1 l2 : list T) (r : T) i (y : T) : nth_error (l1 ++ r :: l2) i = Some y <->
    i = length l1 /\ y = r \/ i <> length l1 /\ forall r', nth_error (l1 ++ r' :: l2) i = Some y.
  Proof.
    destruct (Nat.lt_trichotomy i (length l1)) as [H|[->|H]].
    - rewrite nth_error_app1 by exact H. split.
      + intros Hx. right. split; [lia|]. intros r'. rewrite nth_error_app1 by exact H. exact Hx.
      + intros [[-> _]|[_ Hx]]; [lia|]. specialize (Hx r). rewrite nth_error_app1 in Hx by exact H. exact Hx.
    - rewrite nth_error_app2, Nat.sub_diag by lia. cbn [nth_error]. split; [intros [= ->]; auto|].
      intros [[_ ->]|[H _]]; [reflexivity | congruence].
    - rewrite nth_error_app2 by lia. destruct (i - length l1)%nat as [|k] eqn:E; [lia|]. cbn [nth_error]. split.
      + intros Hx. right. split; [lia|]. intros r'. rewrite nth_error_app2, E by lia. exact Hx.
      + intros [[-> _]|[_ Hx]]; [lia|]. specialize (Hx r). rewrite nth_error_app2, E in Hx by lia. exact Hx.
  Qed.

  Lemma gathers_absorb l1 r l2 x i o : enables (i_capability r) (i_capability x) = true ->
    (forall z, In z l1 -> enables (i_capability z) (i_capability x) = false) -> (i < length (l1 ++ r :: l2))%nat ->
    gathers ((l1 ++ r :: l2) ++ [x]) i o <-> gathers (l1 ++ absorbed r x :: l2) i o.
  Proof.
    intros He Hn Hi. set (rest := l1 ++ r :: l2) in *. set (rest' := l1 ++ absorbed r x :: l2).
    assert (map i_capability rest = map i_capability rest') as Hc by (unfold rest, rest'; rewrite !map_app; reflexivity).
    assert (forall j i, enabler (rest ++ [x]) j i <-> enabler rest j i \/ j = length rest /\ i = length l1) as Hen.
    { intros j k. rewrite enabler_snoc. split; (intros [H | [-> H]]; [auto | right; split; [reflexivity|]]).
      - destruct H as (z & Hz & Hez & Hf). destruct (Nat.lt_trichotomy k (length l1)) as [Hk|[Hk|Hk]]; [|exact Hk|].
        + unfold rest in Hz. rewrite nth_error_app1 in Hz by exact Hk. rewrite (Hn z) in Hez; [discriminate | eapply nth_error_In, Hz].
        + specialize (Hf (length l1) r Hk). rewrite Hf in He; [discriminate|]. unfold rest. rewrite nth_error_app2, Nat.sub_diag by lia. reflexivity.
      - subst k. exists r. split; [unfold rest; rewrite nth_error_app2, Nat.sub_diag by lia; reflexivity|]. split; [exact He|].
        intros k z Hk Hz. unfold rest in Hz. rewrite nth_error_app1 in Hz by exact Hk. apply Hn. eapply nth_error_In, Hz. }
    assert (In o (i_originators x) -> gathers rest' (length l1) o) as Hgx.
    { intros Ho. eapply G_own; [unfold rest'; rewrite nth_error_app2, Nat.sub_diag by lia; reflexivity|].
      cbn [absorbed i_originators]. apply sextend_in. auto. }
    split.
    - intros H. assert ((i < length rest)%nat /\ gathers rest' i o \/ i = length rest /\ In o (i_originators x)) as [[_ G]|[E _]]; [|exact G | lia].
      clear Hi. induction H as [i y o Hy Ho | j i o He' _ IH].
      + apply nth_snoc in Hy as [Hy | [-> ->]]; [|auto]. left. split; [apply nth_error_Some; congruence|].
        unfold rest in Hy. apply nth_mid in Hy as [[-> ->] | [_ Hy]].
        * eapply G_own; [unfold rest'; rewrite nth_error_app2, Nat.sub_diag by lia; reflexivity|].
          cbn [absorbed i_originators]. apply sextend_in. auto.
        * eapply G_own; [apply Hy | exact Ho].
      + specialize (IH Hgx). apply Hen in He' as [He' | [-> ->]].
        * left. split; [destruct He' as (_ & z & _ & Hz & _); apply nth_error_Some; congruence|].
          destruct IH as [[_ IH] | [-> _]]; [eapply G_from; [eapply enabler_caps; [exact Hc | exact He'] | exact IH]|].
          destruct He' as (_ & _ & z & _ & Hz & _). assert (length rest < length rest)%nat by (apply nth_error_Some; congruence). lia.
        * left. split; [unfold rest; rewrite app_length; simpl; lia|]. destruct IH as [[IH _] | [_ IH]]; [lia | apply Hgx, IH].
    - intros H. clear Hi Hgx. induction H as [i y o Hy Ho | j i o He' _ IH].
      + unfold rest' in Hy. apply nth_mid in Hy as [[-> ->] | [_ Hy]].
        * cbn [absorbed i_originators] in Ho. apply sextend_in in Ho as [Ho | Ho].
          -- eapply G_own; [|exact Ho]. apply nth_snoc. left. unfold rest. rewrite nth_error_app2, Nat.sub_diag by lia. reflexivity.
          -- eapply G_from; [apply Hen; right; auto|]. eapply G_own; [apply nth_snoc; right; auto | exact Ho].
        * eapply G_own; [apply nth_snoc; left; apply Hy | exact Ho].
      + eapply G_from; [|exact IH]. apply Hen. left. eapply enabler_caps; [symmetry; exact Hc | exact He'].
  Qed.

  Lemma merge_loop_exact fuel : forall work merged, (length work <= fuel)%nat ->
    (forall x, In x work -> ssorted (i_originators x)) ->
    exists r, merge_loop SO AO fuel work merged = merged ++ r /\ merged_into SO AO work r.
  Proof.
    induction fuel as [|f IH]; intros work merged Hl Hs.
    - destruct work; [|simpl in Hl; lia]. exists []. split; [symmetry; apply app_nil_r|]. exists [].
      split; [constructor|]. split; [|constructor]. intros i. split; [intros []|]. intros (x & Hx & _). destruct i; discriminate.
    - cbn [merge_loop]. destruct (pop work) as [[rest x]|] eqn:E.
      2:{ apply pop_none in E as ->. exists []. split; [symmetry; apply app_nil_r|]. exists [].
          split; [constructor|]. split; [|constructor]. intros i. split; [intros []|]. intros (x & Hx & _). destruct i; discriminate. }
      apply pop_iff in E as ->. rewrite app_length in Hl. cbn [length] in Hl.
      destruct (absorb SO AO x rest) as [rest'|] eqn:Ea.
      + destruct (absorb_first _ _ _ Ea) as (l1 & r0 & l2 & -> & -> & He & Hn).
        assert (map i_capability (l1 ++ r0 :: l2) = map i_capability (l1 ++ absorbed r0 x :: l2)) as Hc by (rewrite !map_app; reflexivity).
        destruct (IH (l1 ++ absorbed r0 x :: l2) merged) as (r & Hr & is & Hsort & Hun & Hf).
        { rewrite app_length in *. simpl in *. lia. }
        { intros y Hy. apply in_app_or in Hy as [Hy | [<- | Hy]].
          - apply Hs. apply in_or_app. left. apply in_or_app. auto.
          - cbn [absorbed i_originators]. apply sextend_sorted, Hs. apply in_or_app. left. apply in_or_app. right. left. reflexivity.
          - apply Hs. apply in_or_app. left. apply in_or_app. right. right. exact Hy. }
        exists r. split; [exact Hr|]. exists is. split; [exact Hsort|]. split.
        * intros i. rewrite Hun, unenabled_snoc. split.
          -- intros H. left. eapply unenabled_caps; [symmetry; exact Hc | exact H].
          -- intros [H | [_ H]]; [eapply unenabled_caps; [exact Hc | exact H]|].
             rewrite (H r0) in He; [discriminate | apply in_or_app; right; left; reflexivity].
        * assert (forall i, In i (rev is) -> (i < length (l1 ++ r0 :: l2))%nat) as Hlt.
          { intros i Hi. apply in_rev, Hun, unenabled_lt in Hi. rewrite app_length in *. exact Hi. }
          clear Hr. revert Hlt. induction Hf as [|i y li lr (x' & Hx' & C1 & C2 & C3 & C4 & C5) _ IHf]; intros Hlt; [constructor|].
          constructor; [|apply IHf; intros; apply Hlt; right; assumption].
          assert (exists x0, nth_error ((l1 ++ r0 :: l2) ++ [x]) i = Some x0 /\ i_capability x0 = i_capability x' /\
            i_not_before x0 = i_not_before x' /\ i_expires_at x0 = i_expires_at x') as (x0 & H0 & D1 & D2 & D3).
          { apply nth_mid in Hx' as [[-> ->] | [_ Hx']].
            - exists r0. split; [|auto]. apply nth_snoc. left. rewrite nth_error_app2, Nat.sub_diag by lia. reflexivity.
            - exists x'. split; [|auto]. apply nth_snoc. left. apply Hx'. }
          exists x0. split; [exact H0|]. rewrite D1, D2, D3. repeat (split; [assumption|]).
          intros o. rewrite C5. symmetry. apply gathers_absorb; [exact He | exact Hn | apply Hlt; left; reflexivity].
      + pose proof (absorb_none SO AO _ _ Ea) as Hn.
        destruct (IH rest (merged ++ [x])) as (r & Hr & is & Hsort & Hun & Hf); [lia | intros y Hy; apply Hs, in_or_app; auto|].
        exists (x :: r). split; [rewrite Hr, <- app_assoc; reflexivity|]. exists (is ++ [length rest]). split; [|split].
        * assert (forall i, In i is -> (i < length rest)%nat) as Hlt by (intros i Hi; apply Hun, unenabled_lt in Hi; exact Hi).
          clear - Hsort Hlt. induction Hsort as [|a is Hs' IH' Ha]; [repeat constructor|]. cbn [app]. constructor.
          -- apply IH'. intros. apply Hlt. right. assumption.
          -- apply Forall_app. split; [exact Ha|]. constructor; [apply Hlt; left; reflexivity | constructor].
        * intros i. rewrite in_app_iff, Hun, unenabled_snoc. cbn [In]. split.
          -- intros [H | [<- | []]]; [auto | right; split; [reflexivity | exact Hn]].
          -- intros [H | [-> _]]; auto.
        * rewrite rev_app_distr. cbn [rev app]. constructor.
          -- exists x. split; [apply nth_snoc; auto|]. repeat (split; [reflexivity|]).
             split; [apply Hs, in_or_app; right; left; reflexivity|].
             intros o. rewrite gathers_keep by exact Hn. split; [auto|]. intros [H | [_ H]]; [|exact H]. apply gathers_lt in H. lia.
          -- assert (forall i, In i (rev is) -> (i < length rest)%nat) as Hlt by (intros i Hi; apply in_rev, Hun, unenabled_lt in Hi; exact Hi).
             clear Hr. revert Hlt. induction Hf as [|i y li lr (x' & Hx' & C1 & C2 & C3 & C4 & C5) _ IHf]; intros Hlt; [constructor|].
             constructor; [|apply IHf; intros; apply Hlt; right; assumption].
             exists x'. split; [apply nth_snoc; auto|]. repeat (split; [assumption|]).
             intros o. rewrite C5, gathers_keep by exact Hn. split; [auto|]. intros [H | [H _]]; [exact H|].
             specialize (Hlt i (or_introl eq_refl)). lia.
  Qed.

  Lemma merge_exact work : (forall x, In x work -> ssorted (i_originators x)) -> merged_into SO AO work (merge SO AO work).
  Proof.
    intros Hs. destruct (merge_loop_exact (length work) work [] (le_n _) Hs) as (r & Hr & Hm).
    unfold merge. rewrite Hr. exact Hm.
  Qed.
End MergeExact.

Lemma sorted_nats_ext : forall l l' : list nat, StronglySorted Nat.lt l -> StronglySorted Nat.lt l' ->
  (forall i, In i l <-> In i l') -> l = l'.
Proof.
  induction l as [|a l IH]; intros l' Hs Hs' He.
  - destruct l' as [|b l']; [reflexivity|]. destruct (proj2 (He b)). left. reflexivity.
  - destruct l' as [|b l']; [destruct (proj1 (He a)); left; reflexivity|].
    apply StronglySorted_inv in Hs as [Hs Ha]. apply StronglySorted_inv in Hs' as [Hs' Hb].
    rewrite Forall_forall in Ha, Hb. unfold Nat.lt in Ha, Hb.
    assert (a = b) as <-.
    { destruct (proj1 (He a) (or_introl eq_refl)) as [E | H1]; [congruence|].
      destruct (proj2 (He b) (or_introl eq_refl)) as [E | H2]; [congruence|].
      apply Hb in H1. apply Ha in H2. lia. }
    f_equal. apply IH; [assumption | assumption|]. intros i. split; intros Hi.
    + destruct (proj1 (He i) (or_intror Hi)) as [E | H]; [|exact H]. subst i. apply Ha in Hi. lia.
    + destruct (proj2 (He i) (or_intror Hi)) as [E | H]; [|exact H]. subst i. apply Hb in Hi. lia.
Qed.

Lemma Forall2_det {T U} (R : T -> U -> Prop) l : (forall a b b', R a b -> R a b' -> b = b') ->
  forall m m', Forall2 R l m -> Forall2 R l m' -> m = m'.
Proof.
  intros Hd m m' H. revert m'. induction H as [|a b l m Hab _ IH]; intros m' H'; inversion H'; subst; [reflexivity|].
  f_equal; [eapply Hd; eassumption | apply IH; assumption].
Qed.

Section ReportExact.
  Context {S A : Type} (SO : scope_ops S) (AO : ability_ops A) (parse : capability -> option (view S A)).
  Notation info := (info S A).
  Notation reduce := (reduce SO AO parse).

  Lemma info_eq (x y : info) : i_capability x = i_capability y -> i_not_before x = i_not_before y ->
    i_expires_at x = i_expires_at y -> ssorted (i_originators x) -> ssorted (i_originators y) ->
    (forall o, In o (i_originators x) <-> In o (i_originators y)) -> x = y.
  Proof.
    destruct x as [ox nx ex cx], y as [oy ny ey cy]. cbn [i_capability i_not_before i_expires_at i_originators].
    intros -> -> -> Hx Hy He. f_equal. apply ssorted_ext; assumption.
  Qed.

  Lemma merged_into_det work r r' : merged_into SO AO work r -> merged_into SO AO work r' -> r = r'.
  Proof.
    intros (is & Hs & Hu & Hf) (is' & Hs' & Hu' & Hf').
    assert (is' = is) as -> by (apply sorted_nats_ext; [assumption | assumption | intros i; rewrite Hu', Hu; reflexivity]).
    refine (Forall2_det _ _ _ _ _ Hf Hf'). clear Hf Hf'. intros i y y' (x & Hx & C1 & C2 & C3 & C4 & C5) (x' & Hx' & D1 & D2 & D3 & D4 & D5).
    rewrite Hx in Hx'. injection Hx' as <-. apply info_eq; [congruence | congruence | congruence | assumption | assumption |]. intros o. rewrite C5, D5. reflexivity.
  Qed.

  Lemma claims_read_exact u vs : claims_read parse u vs <-> vs = map_while parse (caps_iter (p_cap (u_payload u))).
  Proof.
    unfold claims_read. generalize (caps_iter (p_cap (u_payload u))). intros l. revert vs. induction l as [|a l IH]; intros vs; cbn [map_while].
    - split.
      + intros (t & rest & Hl & Hf & _). destruct t; [|discriminate]. inversion Hf. reflexivity.
      + intros ->. exists [], []. split; [reflexivity|]. split; [constructor | exact I].
    - split.
      + intros (t & rest & Hl & Hf & Hr). destruct t as [|b t].
        * cbn [app] in Hl. subst rest. inversion Hf. rewrite Hr. reflexivity.
        * injection Hl as -> Hl. inversion Hf as [|b' v t' vs' Hb Ht]; subst. rewrite Hb. f_equal.
          apply IH. exists t, rest. auto.
      + destruct (parse a) as [v|] eqn:E; intros ->.
        * destruct (proj2 (IH _) eq_refl) as (t & rest & -> & Hf & Hr). exists (a :: t), rest.
          split; [reflexivity|]. split; [constructor; assumption | exact Hr].
        * exists [], (a :: l). split; [reflexivity|]. split; [constructor | exact E].
  Qed.

  Lemma own_entries_det c own own' : own_entries SO AO parse c own -> own_entries SO AO parse c own' -> own = own'.
  Proof.
    intros (vs & Hv & Hf) (vs' & Hv' & Hf'). apply claims_read_exact in Hv, Hv'. subst vs vs'.
    refine (Forall2_det _ _ _ _ _ Hf Hf'). clear Hf Hf'. intros v x y (C1 & C2 & C3 & C4 & C5) (D1 & D2 & D3 & D4 & D5).
    apply info_eq; [congruence | congruence | congruence | assumption | assumption |]. intros o. rewrite C5, D5. reflexivity.
  Qed.

  Lemma passed_entries_det c p p' : passed_entries SO AO parse c p -> passed_entries SO AO parse c p' -> p = p'.
  Proof.
    intros (rs & Hf & ->) (rs' & Hf' & ->). f_equal. f_equal. refine (Forall2_det _ _ _ _ _ Hf Hf').
    intros i a b (q & Hq & Ha) (q' & Hq' & Hb). congruence.
  Qed.

  Lemma redelegated_exact u ps red rede : redelegated_infos u red (map reduce ps) = Ok rede ->
    passed_entries SO AO parse (Chain u ps red) rede.
  Proof.
    unfold redelegated_infos, passed_entries. cbn [c_ucan c_proofs c_redelegations]. revert rede.
    induction red as [|i red IH]; intros rede H; cbn [map rconcat] in H.
    - injection H as <-. exists []. split; [constructor | reflexivity].
    - unfold get_unwrap in H at 1. rewrite nth_error_map in H.
      destruct (nth_error ps (N.to_nat i)) as [p|] eqn:Ep; [|discriminate]. cbn [option_map] in H.
      destruct (reduce p) as [y| | |] eqn:Er; try discriminate. cbn [rbind] in H.
      destruct (rconcat (map (fun i => let? l := get_unwrap (map reduce ps) i in Ok (map (relabel u) l)) red)) as [z| | |] eqn:Ez; try discriminate.
      cbn [rbind] in H. injection H as <-. destruct (IH _ eq_refl) as (rs & Hf & ->). exists (y :: rs).
      split; [constructor; [exists p; auto | exact Hf]|]. cbn [concat]. rewrite map_app. reflexivity.
  Qed.

  Lemma reduce_is_report c r : reduce c = Ok r -> is_report SO AO parse c r.
  Proof.
    destruct c as [u ps red]. intros Hok.
    pose proof (reduce_ok_inv _ _ _ _ _ _ _ Hok) as (_ & _ & _ & _ & _ & Hps & _). split; [exact Hps|].
    cbn [Chain.reduce] in Hok.
    destruct (ancestral_infos red (map reduce ps)) as [anc| | |] eqn:Ea; try discriminate. cbn [rbind] in Hok.
    destruct (redelegated_infos u red (map reduce ps)) as [rede| | |] eqn:Er; try discriminate. cbn [rbind] in Hok.
    injection Hok as <-.
    pose proof (no_attenuated SO AO parse ps red anc Ea) as Hn0.
    assert (forall x, In x (self_infos SO AO parse u (length ps) anc) -> own_entry SO AO parse (Chain u ps red) x) as Hown.
    { intros x Hx. apply (self_infos_in SO AO parse u _ anc x Hn0) in Hx as [Hv Hx].
      split; [exact Hv|]. rewrite Hx. cbn [i_not_before i_expires_at i_originators i_capability c_ucan].
      split; [reflexivity|]. split; [reflexivity|]. split; [apply originators_of_sorted|]. split; [apply originators_of_ne|].
      exists anc. split; [|intros o; apply originators_of_spec].
      intros y. rewrite (ancestral_ok _ _ _ Ea y). split.
      - intros (i & w & Hi & Hw & Hy). rewrite nth_error_map in Hw. destruct (nth_error ps i) as [p|] eqn:Ep; [|discriminate].
        injection Hw as Hw. exists p, w. split; [exists i; auto | auto].
      - intros (p & w & (i & Hi & Hp) & Hw & Hy). exists i, w. split; [exact Hi|]. split; [|exact Hy].
        cbn [c_proofs] in Hp. rewrite nth_error_map, Hp. cbn [option_map]. rewrite Hw. reflexivity. }
    exists (self_infos SO AO parse u (length ps) anc), rede. split; [|split].
    - rewrite self_infos_alt in * by exact Hn0. eexists. split; [apply claims_read_exact; reflexivity|].
      cbn [c_ucan]. induction (map_while parse (caps_iter (p_cap (u_payload u)))) as [|v vs IHv]; [constructor|]. cbn [map]. constructor.
      + split; [reflexivity|]. split; [reflexivity|]. split; [reflexivity|]. split; [apply originators_of_sorted|].
        intros o. exact (own_credited SO AO parse (Chain u ps red) _ o (Hown _ (or_introl eq_refl))).
      + apply IHv. intros x Hx. apply Hown. right. exact Hx.
    - apply redelegated_exact, Er.
    - apply merge_exact. intros x Hx. apply in_app_or in Hx as [Hx | Hx].
      + apply Hown in Hx as (_ & _ & _ & Hs & _). exact Hs.
      + apply (redelegated_ok _ _ _ _ Er) in Hx as (i & y & z & _ & Hy & Hz & ->). cbn [relabel i_originators].
        rewrite nth_error_map in Hy. destruct (nth_error ps i) as [p|]; [|discriminate]. injection Hy as Hy.
        apply (report_originators SO AO parse p y z Hy Hz).
  Qed.

  Lemma report_exact c r : reduce c = Ok r <-> is_report SO AO parse c r.
  Proof.
    split; [apply reduce_is_report|]. intros [Hps (own & passed & Ho & Hp & Hm)].
    assert (exists r', reduce c = Ok r') as [r' Hr'].
    { apply reduce_total. intros d i Hs Hi. inversion Hs as [c' | c' pc d' Hin Hs']; subst.
      - destruct Hp as (rs & Hf & _). clear - Hf Hi. revert Hi. induction Hf as [|j y l rs (p & Hj & _) _ IH]; [contradiction|].
        intros [-> | Hi]; [|apply IH, Hi]. apply (f_equal (fun o => match o with Some _ => true | None => false end)) in Hj.
        match type of Hj with context [nth_error ?l ?k] => destruct (Nat.lt_ge_cases k (length l)) as [H | H]; [lia | apply nth_error_None in H; rewrite H in Hj; discriminate] end.
      - destruct (Hps pc Hin) as [y Hy]. eapply reduce_ok_exists; eassumption. }
    rewrite Hr'. f_equal. apply reduce_is_report in Hr' as [_ (own' & passed' & Ho' & Hp' & Hm')].
    rewrite (own_entries_det _ _ _ Ho' Ho), (passed_entries_det _ _ _ Hp' Hp) in Hm'.
    eapply merged_into_det; eassumption.
  Qed.

  (** C102: which capabilities are reported does not depend on the other proofs. *)
  Lemma merged_caps (w w' r r' : list info) : map i_capability w = map i_capability w' ->
    merged_into SO AO w r -> merged_into SO AO w' r' -> map i_capability r = map i_capability r'.
  Proof.
    intros He (is & Hs & Hu & Hf) (is' & Hs' & Hu' & Hf').
    assert (is' = is) as ->.
    { apply sorted_nats_ext; [assumption | assumption | intros i; rewrite Hu', Hu].
      split; apply unenabled_caps; [symmetry; exact He | exact He]. }
    clear - He Hf Hf'. revert r' Hf'. induction Hf as [|i y li r (x & Hx & C & _) _ IH]; intros r' Hf'; inversion Hf'; subst; [reflexivity|].
    cbn [map]. f_equal; [|apply IH; assumption]. destruct H1 as (x' & Hx' & C' & _).
    destruct (nth_cap _ _ _ _ He Hx) as (x'' & Hx'' & C''). congruence.
  Qed.

  Lemma own_caps c own : own_entries SO AO parse c own -> map i_capability own = map_while parse (caps_iter (p_cap (u_payload (c_ucan c)))).
  Proof.
    intros (vs & Hv & Hf). apply claims_read_exact in Hv as <-. induction Hf as [|v x vs own (C & _) _ IH]; [reflexivity|].
    cbn [map]. rewrite C, IH. reflexivity.
  Qed.

  Lemma passed_same c c' p p' : p_nbf (u_payload (c_ucan c)) = p_nbf (u_payload (c_ucan c')) -> p_exp (u_payload (c_ucan c)) = p_exp (u_payload (c_ucan c')) ->
    redelegated_proofs c = redelegated_proofs c' -> passed_entries SO AO parse c p -> passed_entries SO AO parse c' p' -> p = p'.
  Proof.
    intros Hn He Hr (rs & Hf & ->) (rs' & Hf' & ->). rewrite Hn, He. f_equal. f_equal. unfold redelegated_proofs in Hr. clear Hn He.
    revert Hr rs' Hf'. generalize (c_redelegations c'). induction Hf as [|i y l rs (q & Hq & Hy) _ IH]; intros [|j l'] Hr rs' Hf'; try discriminate.
    - inversion Hf'. reflexivity.
    - injection Hr as Hij Hr. inversion Hf' as [|j' y' l'' rs'' (q' & Hq' & Hy') Hrest]; subst. f_equal; [congruence|].
      exact (IH l' Hr rs'' Hrest).
  Qed.

  Lemma report_caps c c' r r' : c_ucan c = c_ucan c' -> redelegated_proofs c = redelegated_proofs c' ->
    reduce c = Ok r -> reduce c' = Ok r' -> map i_capability r = map i_capability r'.
  Proof.
    intros Hu Hr H H'. apply reduce_is_report in H as [_ (own & p & Ho & Hp & Hm)], H' as [_ (own' & p' & Ho' & Hp' & Hm')].
    revert Hm Hm'. apply merged_caps. rewrite !map_app, (own_caps _ _ Ho), (own_caps _ _ Ho'), Hu.
    rewrite (passed_same c c' p p'); [reflexivity | rewrite Hu; reflexivity | rewrite Hu; reflexivity | exact Hr | exact Hp | exact Hp'].
  Qed.
End ReportExact.

Section ReportSize.
  Context {S A : Type} (SO : scope_ops S) (AO : ability_ops A) (parse : capability -> option (view S A)).

  Lemma sorted_bounded (is : list nat) : StronglySorted Nat.lt is -> forall n, (forall i, In i is -> (i < n)%nat) -> (length is <= n)%nat.
  Proof.
    intros Hs n Hlt. assert (NoDup is) as Hn.
    { induction Hs as [|a is _ IH Ha]; constructor; [|apply IH; intros; apply Hlt; right; assumption].
      intros Hin. rewrite Forall_forall in Ha. specialize (Ha _ Hin). unfold Nat.lt in Ha. lia. }
    rewrite <- (seq_length n 0). apply NoDup_incl_length; [exact Hn|]. intros i Hi. apply in_seq. specialize (Hlt i Hi). lia.
  Qed.

  Lemma merged_length (w r : list (info S A)) : merged_into SO AO w r -> (length r <= length w)%nat.
  Proof.
    intros (is & Hs & Hu & Hf). assert (length (rev is) = length r) as Hl by (clear - Hf; induction Hf; simpl; congruence).
    rewrite rev_length in Hl. rewrite <- Hl. apply sorted_bounded; [exact Hs|]. intros i Hi. apply Hu in Hi as (x & Hx & _).
    apply nth_error_Some. congruence.
  Qed.

  Lemma map_while_length {T U} (f : T -> option U) l : (length (map_while f l) <= length l)%nat.
  Proof. induction l as [|a l IH]; simpl; [apply le_n|]. destruct (f a); simpl; lia. Qed.

  Lemma report_length u ps r : reduce SO AO parse (Chain u ps []) = Ok r -> (length r <= length (caps_iter (p_cap (u_payload u))))%nat.
  Proof.
    intros H. apply reduce_is_report in H as [_ (own & p & Ho & (rs & Hf & ->) & Hm)]. inversion Hf; subst. cbn [concat map] in Hm.
    rewrite app_nil_r in Hm. apply merged_length in Hm. etransitivity; [exact Hm|].
    apply own_caps in Ho. apply (f_equal (@length _)) in Ho. rewrite map_length in Ho. rewrite Ho. apply map_while_length.
  Qed.
End ReportSize.
