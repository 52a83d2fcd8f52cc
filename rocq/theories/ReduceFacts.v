(** Facts about the reduction of a chain to capabilities (C37, C45-C53, C73). *)
From Coq Require Import Relations.Relation_Operators Sorting.Sorted.
From Verif Require Export ChainFacts CapFacts CapMapFacts.

(** Induction over chains. *)
Lemma chain_induction (P : chain -> Prop) :
  (forall u ps red, (forall p, In p ps -> P p) -> P (Chain u ps red)) -> forall c, P c.
Proof.
  intros H. fix IH 1. intros [u ps red]. apply H.
  induction ps as [|p ps IHps]; intros q Hin; [destruct Hin|].
  destruct Hin as [<- | Hin]; [apply IH | apply IHps, Hin].
Qed.

Lemma combine_indices_from {T} (l : list T) k :
  forall i x, In (i, x) (combine (map N.of_nat (seq k (length l))) l) <->
  exists j, nth_error l j = Some x /\ i = N.of_nat (k + j).
Proof.
  revert k. induction l as [|a l IH]; intros k i x; cbn [length seq map combine].
  - split; [contradiction|]. intros (j & Hj & _). destruct j; discriminate.
  - cbn [In]. rewrite IH. split.
    + intros [[= <- <-] | (j & Hj & ->)]; [exists O; split; [reflexivity | f_equal; lia] | exists (S j); split; [exact Hj | f_equal; lia]].
    + intros ([|j] & Hj & ->); cbn [nth_error] in Hj.
      * left. injection Hj as ->. f_equal. f_equal. lia.
      * right. exists j. split; [exact Hj | f_equal; lia].
Qed.

Section Reduce.
  Context {S A : Type} (SO : scope_ops S) (AO : ability_ops A).
  Variable parse : capability -> option (view S A).

  Notation info := (info S A).
  Notation enables := (view_enables SO AO).
  Notation reduce := (reduce SO AO parse).

  (* ------------------------------------------------------------ res plumbing *)

  Lemma rconcat_ok {C} (l : list (res (list C))) r : rconcat l = Ok r ->
    forall x, In x r <-> exists y, In (Ok y) l /\ In x y.
  Proof.
    revert r. induction l as [|a l IH]; intros r Hr x; cbn [rconcat] in Hr.
    - injection Hr as <-. split; [contradiction|]. intros (y & [] & _).
    - destruct a as [y|e|q|]; try discriminate. cbn [rbind] in Hr.
      destruct (rconcat l) as [z|e|q|]; try discriminate. injection Hr as <-.
      rewrite in_app_iff, (IH z eq_refl x). split.
      + intros [Hy | (w & Hw & Hx)]; [exists y; split; [left; reflexivity | exact Hy] | exists w; split; [right|]; assumption].
      + intros (w & [[= ->] | Hw] & Hx); [left; exact Hx | right; exists w; auto].
  Qed.

  Lemma rconcat_all {C} (l : list (res (list C))) r : rconcat l = Ok r -> forall a, In a l -> exists y, a = Ok y.
  Proof.
    revert r. induction l as [|a l IH]; intros r Hr x Hin; [contradiction|]. cbn [rconcat] in Hr.
    destruct a as [y|e|q|]; try discriminate. cbn [rbind] in Hr.
    destruct (rconcat l) as [z|e|q|]; try discriminate.
    destruct Hin as [<- | Hin]; [eauto | eapply IH; eauto].
  Qed.

  Lemma rconcat_total {C} (l : list (res (list C))) : (forall a, In a l -> exists y, a = Ok y) -> exists r, rconcat l = Ok r.
  Proof.
    induction l as [|a l IH]; intros Hl; [eexists; reflexivity|]. cbn [rconcat].
    destruct (Hl a (or_introl eq_refl)) as [y ->]. cbn [rbind].
    destruct IH as [r ->]; [intros; apply Hl; right; assumption|]. eexists; reflexivity.
  Qed.

  (** The reports of the proofs and the two groups of entries made from them. *)
  Lemma ancestral_ok red (rs : list (res (list info))) anc : ancestral_infos red rs = Ok anc ->
    forall x, In x anc <-> exists i y, ~ In (N.of_nat i) red /\ nth_error rs i = Some (Ok y) /\ In x y.
  Proof.
    intros Ha x. unfold ancestral_infos in Ha. rewrite (rconcat_ok _ _ Ha x). split.
    - intros (y & Hin & Hx). apply in_map_iff in Hin as ([i r] & Hr & Hc). cbn [fst snd] in Hr.
      unfold indices in Hc. apply combine_indices_from in Hc as (j & Hj & ->).
      destruct (smem (N.of_nat (0 + j)) red) eqn:E; [injection Hr as <-; contradiction|].
      exists j, y. split; [|split; [congruence | exact Hx]].
      intros Hin. apply smem_in in Hin. simpl in E. congruence.
    - intros (i & y & Hn & Hi & Hx). exists y. split; [|exact Hx]. apply in_map_iff.
      exists (N.of_nat i, Ok y). split.
      + cbn [fst snd]. destruct (smem (N.of_nat i) red) eqn:E; [apply smem_in in E; contradiction | reflexivity].
      + unfold indices. apply combine_indices_from. exists i. split; [exact Hi | reflexivity].
  Qed.

  Lemma ancestral_each red (rs : list (res (list info))) anc i r : ancestral_infos red rs = Ok anc ->
    ~ In (N.of_nat i) red -> nth_error rs i = Some r -> exists y, r = Ok y.
  Proof.
    intros Ha Hn Hi. unfold ancestral_infos in Ha. apply (rconcat_all _ _ Ha). apply in_map_iff.
    exists (N.of_nat i, r). split.
    - cbn [fst snd]. destruct (smem (N.of_nat i) red) eqn:E; [apply smem_in in E; contradiction | reflexivity].
    - unfold indices. apply combine_indices_from. exists i. split; [exact Hi | reflexivity].
  Qed.

  Lemma redelegated_ok u red (rs : list (res (list info))) r : redelegated_infos u red rs = Ok r ->
    forall x, In x r <-> exists i y z, In (N.of_nat i) red /\ nth_error rs i = Some (Ok y) /\ In z y /\ x = relabel u z.
  Proof.
    intros Hr x. unfold redelegated_infos in Hr. rewrite (rconcat_ok _ _ Hr x). split.
    - intros (y & Hin & Hx). apply in_map_iff in Hin as (i & Hi & Hin).
      unfold get_unwrap in Hi. destruct (nth_error rs (N.to_nat i)) as [[w|e|q|]|] eqn:E; try discriminate.
      cbn [rbind] in Hi. injection Hi as <-. apply in_map_iff in Hx as (z & <- & Hz).
      exists (N.to_nat i), w, z. rewrite N2Nat.id. auto.
    - intros (i & y & z & Hi & Hn & Hz & ->). exists (map (relabel u) y). split; [|apply in_map, Hz].
      apply in_map_iff. exists (N.of_nat i). split; [|exact Hi].
      unfold get_unwrap. rewrite Nat2N.id, Hn. reflexivity.
  Qed.

  Lemma redelegated_each u red (rs : list (res (list info))) r i : redelegated_infos u red rs = Ok r ->
    In i red -> exists y, nth_error rs (N.to_nat i) = Some (Ok y).
  Proof.
    intros Hr Hi. unfold redelegated_infos in Hr.
    destruct (rconcat_all _ _ Hr (let? l := get_unwrap rs i in Ok (map (relabel u) l))) as [y Hy].
    { apply in_map_iff. exists i. auto. }
    unfold get_unwrap in Hy. destruct (nth_error rs (N.to_nat i)) as [[w|e|q|]|] eqn:E; try discriminate. eauto.
  Qed.

  (** A successful reduction, in terms of the reductions of the proofs. *)
  Lemma reduce_ok_inv u ps red r : reduce (Chain u ps red) = Ok r ->
    exists anc rede, r = merge SO AO (self_infos SO AO parse u (length ps) anc ++ rede) /\
      (forall x, In x anc <-> exists p y, attenuated (Chain u ps red) p /\ reduce p = Ok y /\ In x y) /\
      (forall x, In x rede <-> exists p y z, redelegated (Chain u ps red) p /\ reduce p = Ok y /\ In z y /\ x = relabel u z) /\
      (forall p, In p ps -> exists y, reduce p = Ok y) /\
      (forall i, In i red -> (i < N.of_nat (length ps))%N).
  Proof.
    intros Hr. cbn [Chain.reduce] in Hr.
    destruct (ancestral_infos red (map reduce ps)) as [anc|e|q|] eqn:Ea; try discriminate. cbn [rbind] in Hr.
    destruct (redelegated_infos u red (map reduce ps)) as [rede|e|q|] eqn:Er; try discriminate. cbn [rbind] in Hr.
    injection Hr as <-. exists anc, rede. split; [reflexivity|].
    assert (forall i y, nth_error (map reduce ps) i = Some y <-> exists p, nth_error ps i = Some p /\ reduce p = y) as Hn.
    { intros i y. rewrite nth_error_map. destruct (nth_error ps i) as [p|]; simpl; split.
      - intros [= <-]. eauto.
      - intros (p' & [= <-] & <-). reflexivity.
      - discriminate.
      - intros (p' & Hp & _). discriminate. }
    split; [|split; [|split]].
    - intros x. rewrite (ancestral_ok _ _ _ Ea x). split.
      + intros (i & y & Hi & Hy & Hx). apply Hn in Hy as (p & Hp & Hy). exists p, y. split; [exists i; auto | auto].
      + intros (p & y & (i & Hi & Hp) & Hy & Hx). exists i, y. split; [exact Hi|]. split; [apply Hn; exists p; auto | exact Hx].
    - intros x. rewrite (redelegated_ok _ _ _ _ Er x). split.
      + intros (i & y & z & Hi & Hy & Hz & Hx). apply Hn in Hy as (p & Hp & Hy). exists p, y, z. split; [exists i; auto | auto].
      + intros (p & y & z & (i & Hi & Hp) & Hy & Hz & Hx). exists i, y, z. split; [exact Hi|]. split; [apply Hn; exists p; auto | auto].
    - intros p Hin. apply In_nth_error in Hin as [i Hi].
      destruct (in_dec N.eq_dec (N.of_nat i) red) as [Hin | Hin].
      + destruct (redelegated_each _ _ _ _ _ Er Hin) as [y Hy]. rewrite Nat2N.id in Hy.
        apply Hn in Hy as (p' & Hp' & Hy). rewrite Hi in Hp'. injection Hp' as <-. eauto.
      + destruct (ancestral_each _ _ _ i (reduce p) Ea Hin) as [y Hy]; [apply Hn; eauto | eauto].
    - intros i Hin. destruct (redelegated_each _ _ _ _ _ Er Hin) as [y Hy].
      assert (N.to_nat i < length (map reduce ps))%nat as Hlt by (apply nth_error_Some; congruence).
      rewrite map_length in Hlt. lia.
  Qed.

  Lemma reduce_total c : redelegations_exist c -> exists r, reduce c = Ok r.
  Proof.
    induction c as [u ps red IH] using chain_induction. intros He.
    assert (forall p, In p ps -> exists r, reduce p = Ok r) as Hp.
    { intros p Hin. apply IH; [exact Hin|]. intros d i Hs Hi. apply He; [|exact Hi]. econstructor; [exact Hin | exact Hs]. }
    cbn [Chain.reduce].
    destruct (rconcat_total (map (fun ir => if smem (fst ir) red then Ok [] else snd ir)
      (combine (indices (length (map reduce ps))) (map reduce ps)))) as [anc Ha].
    { intros a Hin. apply in_map_iff in Hin as ([i r] & <- & Hc). cbn [fst snd].
      destruct (smem i red); [eauto|]. apply in_combine_r in Hc. apply in_map_iff in Hc as (p & <- & Hin). apply Hp, Hin. }
    unfold ancestral_infos. rewrite Ha. cbn [rbind].
    destruct (rconcat_total (map (fun i => let? l := get_unwrap (map reduce ps) i in Ok (map (relabel u) l)) red)) as [rd Hr].
    { intros a Hin. apply in_map_iff in Hin as (i & <- & Hi).
      specialize (He (Chain u ps red) i (Sub_self _) Hi). cbn [c_proofs] in He.
      unfold get_unwrap. rewrite nth_error_map.
      destruct (nth_error ps (N.to_nat i)) as [p|] eqn:En.
      - apply nth_error_In in En. destruct (Hp p En) as [y Hy]. cbn [option_map]. rewrite Hy. cbn [rbind]. eauto.
      - apply nth_error_None in En. lia. }
    unfold redelegated_infos. rewrite Hr. cbn [rbind]. eauto.
  Qed.

  Lemma reduce_ok_exists c r : reduce c = Ok r -> redelegations_exist c.
  Proof.
    revert r. induction c as [u ps red IH] using chain_induction. intros r Hr d i Hs Hi.
    apply reduce_ok_inv in Hr as (anc & rede & _ & _ & _ & Hp & Hred).
    inversion Hs as [c' | c' pc d' Hin Hs']; subst; [apply Hred, Hi|].
    destruct (Hp pc Hin) as [y Hy]. eapply IH; eassumption.
  Qed.

  (* ------------------------------------------------------------------ merging *)

  Lemma pop_iff {T} (l : list T) rest x : pop l = Some (rest, x) <-> l = rest ++ [x].
  Proof.
    revert rest x. induction l as [|a l IH]; intros rest x; cbn [pop].
    - split; [discriminate|]. intros Hx. destruct rest; discriminate.
    - destruct (pop l) as [[l' y]|] eqn:E.
      + assert (l = l' ++ [y]) as -> by (apply IH; reflexivity). split.
        * intros [= <- <-]. reflexivity.
        * intros Hx. rewrite app_comm_cons in Hx. apply app_inj_tail in Hx as [<- <-]. reflexivity.
      + assert (l = []) as ->.
        { destruct l as [|b l0] using rev_ind; [reflexivity|].
          assert (None = Some (l0, b)) as Hx by (apply (IH l0 b); reflexivity). discriminate. }
        split; [intros [= <- <-]; reflexivity|]. intros Hx. destruct rest as [|c rest]; [injection Hx as ->; reflexivity|].
        destruct rest; discriminate.
  Qed.

  Lemma pop_none {T} (l : list T) : pop l = None -> l = [].
  Proof.
    intros Hn. destruct l as [|b l0] using rev_ind; [reflexivity|].
    assert (pop (l0 ++ [b]) = Some (l0, b)) as Hx by (apply pop_iff; reflexivity). congruence.
  Qed.

  Definition absorbed (r x : info) : info :=
    mkInfo (sextend (i_originators r) (i_originators x)) (i_not_before r) (i_expires_at r) (i_capability r).

  Lemma absorb_some x l l' : absorb SO AO x l = Some l' ->
    exists l1 r l2, l = l1 ++ r :: l2 /\ l' = l1 ++ absorbed r x :: l2 /\
      enables (i_capability r) (i_capability x) = true.
  Proof.
    revert l'. induction l as [|r l IH]; intros l' Ha; [discriminate|]. cbn [absorb] in Ha.
    destruct (enables (i_capability r) (i_capability x)) eqn:E.
    - injection Ha as <-. exists [], r, l. auto.
    - destruct (absorb SO AO x l) as [l''|] eqn:Ea; [|discriminate]. injection Ha as <-.
      destruct (IH _ eq_refl) as (l1 & r' & l2 & -> & -> & He). exists (r :: l1), r', l2. auto.
  Qed.

  Lemma absorb_none x l : absorb SO AO x l = None -> forall r, In r l -> enables (i_capability r) (i_capability x) = false.
  Proof.
    induction l as [|r l IH]; intros Ha r' Hin; [contradiction|]. cbn [absorb] in Ha.
    destruct (enables (i_capability r) (i_capability x)) eqn:E; [discriminate|].
    destruct (absorb SO AO x l); [discriminate|]. destruct Hin as [<- | Hin]; [exact E | apply IH; auto].
  Qed.

  (** One step of the loop: the state is the remaining work and the merged entries. *)
  Inductive mstep : list info * list info -> list info * list info -> Prop :=
  | MS_absorb l1 r l2 x merged : enables (i_capability r) (i_capability x) = true ->
      mstep ((l1 ++ r :: l2) ++ [x], merged) (l1 ++ absorbed r x :: l2, merged)
  | MS_keep rest x merged : (forall r, In r rest -> enables (i_capability r) (i_capability x) = false) ->
      mstep (rest ++ [x], merged) (rest, merged ++ [x]).

  Lemma merge_loop_inv (P : list info * list info -> Prop) :
    (forall s s', mstep s s' -> P s -> P s') ->
    forall fuel work merged, (length work <= fuel)%nat -> P (work, merged) -> P ([], merge_loop SO AO fuel work merged).
  Proof.
    intros Hstep. induction fuel as [|f IH]; intros work merged Hl Hp.
    - destruct work; [exact Hp | simpl in Hl; lia].
    - cbn [merge_loop]. destruct (pop work) as [[rest x]|] eqn:E.
      + apply pop_iff in E as ->. rewrite app_length in Hl. simpl in Hl.
        destruct (absorb SO AO x rest) as [rest'|] eqn:Ea.
        * destruct (absorb_some _ _ _ Ea) as (l1 & r & l2 & -> & -> & He).
          apply IH; [rewrite app_length in *; simpl in *; lia|].
          eapply Hstep; [|exact Hp]. constructor. exact He.
        * apply IH; [lia|]. eapply Hstep; [|exact Hp]. constructor. apply absorb_none, Ea.
      + apply pop_none in E as ->. exact Hp.
  Qed.

  Lemma merge_inv (P : list info * list info -> Prop) work :
    (forall s s', mstep s s' -> P s -> P s') -> P (work, []) -> P ([], merge SO AO work).
  Proof. intros Hs Hp. exact (merge_loop_inv P Hs (length work) work [] (le_n _) Hp). Qed.

  Definition entries (s : list info * list info) : list info := fst s ++ snd s.

  (** Paths of enabling. *)
  Definition listed (work : list info) (v : view S A) : Prop := exists y, In y work /\ v = i_capability y.
  Definition path (work : list info) := clos_refl_trans (view S A) (fun v w => listed work v /\ listed work w /\ enables v w = true).

  Lemma path_enables (V : view S A -> Prop) work v w : transitive_on SO AO V -> (forall v', listed work v' -> V v') ->
    path work v w -> enables_or_is SO AO v w.
  Proof.
    intros Ht HV Hp. assert (v = w \/ V v /\ V w /\ enables v w = true) as [E | (_ & _ & E)]; [|left; exact E | right; exact E].
    induction Hp as [v w (Hv & Hw & Hvw) | v | v w z _ IH1 _ IH2]; [right; auto | left; reflexivity|].
    destruct IH1 as [-> | (V1 & V2 & H1)]; [exact IH2|]. destruct IH2 as [-> | (_ & V3 & H2)]; [right; auto|].
    right. split; [exact V1|]. split; [exact V3|]. apply (Ht v w z); assumption.
  Qed.

  (** Each entry comes from an entry of the work and only absorbed originators of
      entries it (transitively) enables. *)
  Lemma merge_sound work z : In z (merge SO AO work) ->
    exists y, In y work /\ i_capability z = i_capability y /\ i_not_before z = i_not_before y /\ i_expires_at z = i_expires_at y /\
      (forall o, In o (i_originators y) -> In o (i_originators z)) /\
      (forall o, In o (i_originators z) -> exists y', In y' work /\ In o (i_originators y') /\ path work (i_capability z) (i_capability y')).
  Proof.
    set (P := fun s : list info * list info => forall z, In z (entries s) ->
      exists y, In y work /\ i_capability z = i_capability y /\ i_not_before z = i_not_before y /\ i_expires_at z = i_expires_at y /\
      (forall o, In o (i_originators y) -> In o (i_originators z)) /\
      (forall o, In o (i_originators z) -> exists y', In y' work /\ In o (i_originators y') /\ path work (i_capability z) (i_capability y'))).
    intros Hz. assert (P ([], merge SO AO work)) as Hm; [|apply Hm; exact Hz]. clear Hz z.
    apply (merge_inv P).
    - intros s s' Hst HP. destruct Hst as [l1 r l2 x merged He | rest x merged Hn]; intros z Hz; unfold entries in *; cbn [fst snd] in *.
      + assert (z = absorbed r x \/ In z (((l1 ++ r :: l2) ++ [x]) ++ merged)) as [-> | Hin].
        { rewrite !in_app_iff in *. simpl in *. rewrite ?in_app_iff in *. simpl in *. intuition. }
        * destruct (HP r) as (y & Hy & E1 & E2 & E3 & H4 & H5).
          { unfold entries. cbn [fst snd]. rewrite !in_app_iff. simpl. rewrite ?in_app_iff. simpl. intuition. }
          destruct (HP x) as (y2 & Hy2 & F1 & F2 & F3 & F4 & F5).
          { unfold entries. cbn [fst snd]. rewrite !in_app_iff. simpl. rewrite ?in_app_iff. simpl. intuition. }
          exists y. unfold absorbed; cbn [i_capability i_not_before i_expires_at i_originators].
          split; [exact Hy|]. split; [exact E1|]. split; [exact E2|]. split; [exact E3|]. split.
          -- intros o Ho. apply sextend_in. left. apply H4, Ho.
          -- intros o Ho. apply sextend_in in Ho as [Ho | Ho]; [apply H5, Ho|].
             destruct (F5 o Ho) as (y' & Hy' & Ho' & Hp). exists y'. split; [exact Hy'|]. split; [exact Ho'|].
             apply rt_trans with (i_capability x); [apply rt_step; split; [exists y; auto | split; [exists y2; auto | exact He]] | exact Hp].
        * apply HP. exact Hin.
      + apply HP. unfold entries. cbn [fst snd]. rewrite !in_app_iff in *. simpl in *. intuition.
    - intros z Hz. unfold entries in Hz. cbn [fst snd] in Hz. rewrite app_nil_r in Hz.
      exists z. repeat split; auto. intros o Ho. exists z. split; [exact Hz|]. split; [exact Ho | apply rt_refl].
  Qed.

  (** Nothing is lost. *)
  Lemma merge_covers work y : In y work ->
    exists z, In z (merge SO AO work) /\ path work (i_capability z) (i_capability y) /\
      forall o, In o (i_originators y) -> In o (i_originators z).
  Proof.
    set (P := fun s : list info * list info => (forall z, In z (entries s) -> listed work (i_capability z)) /\ forall y, In y work ->
      exists z, In z (entries s) /\ path work (i_capability z) (i_capability y) /\
      forall o, In o (i_originators y) -> In o (i_originators z)).
    intros Hy. assert (P ([], merge SO AO work)) as [_ Hm]; [|apply Hm; exact Hy]. clear Hy y.
    apply (merge_inv P).
    - intros s s' Hst [HL HP]. split.
      { intros z Hz. destruct Hst as [l1 r l2 x merged He | rest x merged Hn]; unfold entries in *; cbn [fst snd] in *.
        - assert (z = absorbed r x \/ In z (((l1 ++ r :: l2) ++ [x]) ++ merged)) as [-> | Hin].
          { rewrite !in_app_iff in *. simpl in *. rewrite ?in_app_iff in *. simpl in *. intuition. }
          + apply (HL r). rewrite !in_app_iff. simpl. intuition.
          + apply HL, Hin.
        - apply HL. rewrite !in_app_iff in *. simpl in *. intuition. }
      intros y Hy. destruct (HP y Hy) as (z & Hz & Hp & Ho).
      destruct Hst as [l1 r l2 x merged He | rest x merged Hn]; unfold entries in *; cbn [fst snd] in *.
      + assert (z = r \/ z = x \/ In z ((l1 ++ absorbed r x :: l2) ++ merged)) as [-> | [-> | Hin]].
        { rewrite !in_app_iff in *. simpl in *. rewrite ?in_app_iff in *. simpl in *. intuition. }
        * exists (absorbed r x). split; [rewrite !in_app_iff; simpl; intuition|]. split; [exact Hp|].
          intros o Hoy. cbn [absorbed i_originators]. apply sextend_in. left. apply Ho, Hoy.
        * exists (absorbed r x). split; [rewrite !in_app_iff; simpl; intuition|].
          split; [apply rt_trans with (i_capability x); [apply rt_step; split; [|split; [|exact He]] | exact Hp]|].
          { apply (HL r). rewrite !in_app_iff. simpl. intuition. }
          { apply (HL x). rewrite !in_app_iff. simpl. intuition. }
          intros o Hoy. cbn [absorbed i_originators]. apply sextend_in. right. apply Ho, Hoy.
        * exists z. auto.
      + exists z. split; [rewrite !in_app_iff in *; simpl in *; intuition | auto].
    - split; [intros z Hz; unfold entries in Hz; cbn [fst snd] in Hz; rewrite app_nil_r in Hz; exists z; auto|].
      intros y Hy. exists y. split; [unfold entries; cbn [fst snd]; rewrite app_nil_r; exact Hy|]. split; [apply rt_refl | auto].
  Qed.

  (** No later entry of the result enables an earlier one. *)
  Lemma merge_order work : StronglySorted (fun a b => enables (i_capability b) (i_capability a) = false) (merge SO AO work).
  Proof.
    set (R := fun a b : info => enables (i_capability b) (i_capability a) = false).
    set (P := fun s : list info * list info => StronglySorted R (snd s) /\ forall a b, In a (snd s) -> In b (fst s) -> R a b).
    assert (P ([], merge SO AO work)) as [Hm _]; [|exact Hm].
    apply (merge_inv P).
    - intros s s' Hst [H1 H2]. destruct Hst as [l1 r l2 x merged He | rest x merged Hn]; unfold P; cbn [fst snd] in *.
      + split; [exact H1|]. intros a b Ha Hb. 
        assert (b = absorbed r x \/ In b ((l1 ++ r :: l2) ++ [x])) as [-> | Hb'].
        { rewrite !in_app_iff in *. simpl in *. rewrite ?in_app_iff in *. simpl in *. intuition. }
        * apply (H2 a r Ha). rewrite !in_app_iff. simpl. intuition.
        * apply H2; assumption.
      + split.
        * apply StronglySorted_app; [exact H1 | constructor; constructor|].
          intros a b Ha [<- | []]. apply H2; [exact Ha|]. apply in_or_app. right. left. reflexivity.
        * intros a b Ha Hb. apply in_app_or in Ha as [Ha | [<- | []]].
          -- apply H2; [exact Ha|]. apply in_or_app. left. exact Hb.
          -- apply Hn, Hb.
    - split; [constructor|]. intros a b [].
  Qed.

  (* ---------------------------------------------------------------- own claims *)

  Lemma map_while_in {T U} (f : T -> option U) l v : In v (map_while f l) <->
    exists before c after, l = before ++ c :: after /\ f c = Some v /\ forall c', In c' before -> f c' <> None.
  Proof.
    induction l as [|a l IH]; cbn [map_while].
    - split; [contradiction|]. intros (b & c & d & Hl & _). destruct b; discriminate.
    - destruct (f a) as [w|] eqn:E; cbn [In].
      + rewrite IH. split.
        * intros [<- | (b & c & d & -> & Hc & Hb)]; [exists [], a, l; repeat split; auto; intros c' []|].
          exists (a :: b), c, d. repeat split; auto. intros c' [<- | Hin]; [congruence | apply Hb, Hin].
        * intros ([|b0 b] & c & d & Hl & Hc & Hb); injection Hl as -> Hl.
          -- left. congruence.
          -- right. exists b, c, d. split; [exact Hl|]. split; [exact Hc|]. intros c' Hin. apply Hb. right. exact Hin.
      + split; [contradiction|]. intros ([|b0 b] & c & d & Hl & Hc & Hb); injection Hl as -> Hl; [congruence|].
        exfalso. apply (Hb b0 (or_introl eq_refl) E).
  Qed.

  Lemma originators_of_spec issuer anc v o : In o (originators_of SO AO issuer anc v) <->
    (exists i, In i anc /\ enables (i_capability i) v = true /\ In o (i_originators i)) \/
    o = issuer /\ (forall i, In i anc -> enables (i_capability i) v = true -> i_originators i = []).
  Proof.
    unfold originators_of.
    assert (forall l acc o, In o (fold_left (fun acc i => if enables (i_capability i) v then sextend acc (i_originators i) else acc) l acc) <->
      In o acc \/ exists i, In i l /\ enables (i_capability i) v = true /\ In o (i_originators i)) as Hf.
    { intros l. induction l as [|i l IH]; intros acc o'; cbn [fold_left].
      - split; [auto|]. intros [Ho | (i & [] & _)]. exact Ho.
      - rewrite IH. destruct (enables (i_capability i) v) eqn:E.
        + rewrite sextend_in. split.
          * intros [[Ho | Ho] | (j & Hj & He & Ho)]; [auto | right; exists i; split; [left; reflexivity | auto] | right; exists j; split; [right|]; auto].
          * intros [Ho | (j & [<- | Hj] & He & Ho)]; [auto | auto | right; exists j; auto].
        + split.
          * intros [Ho | (j & Hj & He & Ho)]; [auto | right; exists j; split; [right|]; auto].
          * intros [Ho | (j & [<- | Hj] & He & Ho)]; [auto | congruence | right; exists j; auto]. }
    specialize (Hf anc []). destruct (fold_left _ anc []) as [|o0 os] eqn:E.
    - cbn [sinsert In]. split.
      + intros [<- | []]. right. split; [reflexivity|]. intros i Hi He.
        destruct (i_originators i) as [|x xs] eqn:Ei; [reflexivity|]. exfalso. apply (proj2 (Hf x)).
        right. exists i. split; [exact Hi|]. split; [exact He|]. rewrite Ei. left. reflexivity.
      + intros [(i & Hi & He & Ho) | [-> _]]; [exfalso; apply (proj2 (Hf o)); right; exists i; auto | left; reflexivity].
    - rewrite Hf. split.
      + intros [[] | Hx]. left. exact Hx.
      + intros [Hx | [-> Hx]]; [right; exact Hx|]. exfalso.
        destruct (proj1 (Hf o0) (or_introl eq_refl)) as [[] | (i & Hi & He & Ho)]. rewrite (Hx i Hi He) in Ho. contradiction.
  Qed.

  (** The entries made from the UCAN's own claims. *)
  Lemma self_infos_in u n anc x : (n = O -> anc = []) -> In x (self_infos SO AO parse u n anc) <->
    heeded parse u (i_capability x) /\
    x = mkInfo (originators_of SO AO (p_iss (u_payload u)) anc (i_capability x)) (p_nbf (u_payload u)) (p_exp (u_payload u)) (i_capability x).
  Proof.
    intros Hn. unfold self_infos.
    assert (match n with
      | O => map (fun v => mkInfo (sinsert (p_iss (u_payload u)) []) (p_nbf (u_payload u)) (p_exp (u_payload u)) v)
               (map_while parse (caps_iter (p_cap (u_payload u))))
      | _ => map (fun v => mkInfo (originators_of SO AO (p_iss (u_payload u)) anc v) (p_nbf (u_payload u)) (p_exp (u_payload u)) v)
               (map_while parse (caps_iter (p_cap (u_payload u))))
      end = map (fun v => mkInfo (originators_of SO AO (p_iss (u_payload u)) anc v) (p_nbf (u_payload u)) (p_exp (u_payload u)) v)
               (map_while parse (caps_iter (p_cap (u_payload u))))) as ->.
    { destruct n; [rewrite (Hn eq_refl)|]; reflexivity. }
    rewrite in_map_iff. unfold heeded. split.
    - intros (v & <- & Hv). cbn [i_capability]. split; [apply map_while_in, Hv | reflexivity].
    - intros [Hv ->]. exists (i_capability x). split; [reflexivity | apply map_while_in, Hv].
  Qed.
End Reduce.

Lemma redelegated_in c pc : redelegated c pc -> In pc (c_proofs c).
Proof. intros (i & _ & Hi). eapply nth_error_In, Hi. Qed.
Lemma attenuated_in c pc : attenuated c pc -> In pc (c_proofs c).
Proof. intros (i & _ & Hi). eapply nth_error_In, Hi. Qed.

Lemma in_chain_root c : in_chain (c_ucan c) c.
Proof. exists c. split; [constructor | reflexivity]. Qed.
Lemma in_chain_proof u c pc : In pc (c_proofs c) -> in_chain u pc -> in_chain u c.
Proof. intros Hin (d & Hs & Hu). exists d. split; [econstructor; eassumption | exact Hu]. Qed.

Section Report.
  Context {S A : Type} (SO : scope_ops S) (AO : ability_ops A).
  Variable parse : capability -> option (view S A).

  Notation info := (info S A).
  Notation enables := (view_enables SO AO).
  Notation reduce := (reduce SO AO parse).
  Notation path := (path SO AO).

  Definition own_entry (c : chain) (x : info) : Prop :=
    heeded parse (c_ucan c) (i_capability x) /\
    i_not_before x = p_nbf (u_payload (c_ucan c)) /\ i_expires_at x = p_exp (u_payload (c_ucan c)) /\
    ssorted (i_originators x) /\ i_originators x <> [] /\
    exists anc, (forall y, In y anc <-> exists p r, attenuated c p /\ reduce p = Ok r /\ In y r) /\
      forall o, In o (i_originators x) <->
        (exists i, In i anc /\ enables (i_capability i) (i_capability x) = true /\ In o (i_originators i)) \/
        o = p_iss (u_payload (c_ucan c)) /\
        (forall i, In i anc -> enables (i_capability i) (i_capability x) = true -> i_originators i = []).

  Definition passed_entry (c : chain) (x : info) : Prop :=
    exists z, redelegated_entry SO AO parse c z /\ x = relabel (c_ucan c) z.

  Lemma originators_of_ne issuer anc v : originators_of SO AO issuer anc v <> [].
  Proof. unfold originators_of. destruct (fold_left _ anc []); discriminate. Qed.

  Lemma originators_of_sorted issuer anc v : ssorted (originators_of SO AO issuer anc v).
  Proof.
    unfold originators_of.
    assert (forall l acc, ssorted acc -> ssorted (fold_left (fun acc (i : info) => if enables (i_capability i) v then sextend acc (i_originators i) else acc) l acc)) as Hf.
    { intros l. induction l as [|i l IH]; intros acc Ha; [exact Ha|]. cbn [fold_left].
      apply IH. destruct (enables (i_capability i) v); [apply sextend_sorted, Ha | exact Ha]. }
    specialize (Hf anc []). destruct (fold_left _ anc []).
    - apply sinsert_sorted. constructor.
    - apply Hf. constructor.
  Qed.

  Lemma absorbed_sorted r x : ssorted (i_originators r) -> ssorted (i_originators (absorbed (S:=S) (A:=A) r x)).
  Proof. intros Hr. apply sextend_sorted, Hr. Qed.

  Lemma merge_sorted work : (forall x, In x work -> ssorted (i_originators x)) ->
    forall x, In x (merge SO AO work) -> ssorted (i_originators x).
  Proof.
    intros Hw. set (P := fun s : list info * list info => forall x, In x (entries s) -> ssorted (i_originators x)).
    assert (P ([], merge SO AO work)) as Hm; [|exact Hm].
    apply (merge_inv SO AO P).
    - intros s s' Hst HP x Hx. destruct Hst as [l1 r l2 y merged He | rest y merged Hn]; unfold entries in *; cbn [fst snd] in *.
      + assert (x = absorbed r y \/ In x (((l1 ++ r :: l2) ++ [y]) ++ merged)) as [-> | Hin].
        { rewrite !in_app_iff in *. simpl in *. rewrite ?in_app_iff in *. simpl in *. intuition. }
        * apply absorbed_sorted. apply HP. unfold entries. cbn [fst snd]. rewrite !in_app_iff. simpl. intuition.
        * apply HP. exact Hin.
      + apply HP. unfold entries. cbn [fst snd]. rewrite !in_app_iff in *. simpl in *. intuition.
    - intros x Hx. unfold entries in Hx. cbn [fst snd] in Hx. rewrite app_nil_r in Hx. apply Hw, Hx.
  Qed.

  (** The report is the merge of own and passed-on entries. *)
  Lemma reduce_merge c r : reduce c = Ok r ->
    exists work, r = merge SO AO work /\
      (forall x, In x work -> own_entry c x \/ passed_entry c x) /\
      (forall v, heeded parse (c_ucan c) v -> exists x, In x work /\ own_entry c x /\ i_capability x = v) /\
      (forall z, redelegated_entry SO AO parse c z -> In (relabel (c_ucan c) z) work).
  Proof.
    destruct c as [u ps red]. intros Hr. apply reduce_ok_inv in Hr as (anc & rede & -> & Ha & Hd & _ & _).
    exists (self_infos SO AO parse u (length ps) anc ++ rede). split; [reflexivity|].
    assert (length ps = O -> anc = []) as Hn.
    { intros Hl. destruct anc as [|x anc]; [reflexivity|]. exfalso.
      destruct (proj1 (Ha x) (or_introl eq_refl)) as (p & y & Hp & _). apply attenuated_in in Hp. cbn [c_proofs] in Hp.
      destruct ps; [contradiction | discriminate]. }
    assert (forall x, In x (self_infos SO AO parse u (length ps) anc) -> own_entry (Chain u ps red) x) as Hown.
    { intros x Hx. apply (self_infos_in SO AO parse u _ anc x Hn) in Hx as [Hv Hx].
      split; [exact Hv|]. rewrite Hx. cbn [i_not_before i_expires_at i_originators i_capability c_ucan].
      split; [reflexivity|]. split; [reflexivity|]. split; [apply originators_of_sorted|]. split; [apply originators_of_ne|].
      exists anc. split; [exact Ha|]. intros o. apply originators_of_spec. }
    split; [|split].
    - intros x Hx. apply in_app_or in Hx as [Hx | Hx]; [left; apply Hown, Hx|].
      right. apply Hd in Hx as (p & y & z & Hp & Hy & Hz & ->). exists z. split; [exists p, y; auto | reflexivity].
    - intros v Hv. cbn [c_ucan] in Hv.
      set (x := mkInfo (originators_of SO AO (p_iss (u_payload u)) anc v) (p_nbf (u_payload u)) (p_exp (u_payload u)) v).
      assert (In x (self_infos SO AO parse u (length ps) anc)) as Hx.
      { apply (self_infos_in SO AO parse u _ anc x Hn). split; [exact Hv | reflexivity]. }
      exists x. split; [apply in_or_app; left; exact Hx|]. split; [apply Hown, Hx | reflexivity].
    - intros z (p & y & Hp & Hy & Hz). apply in_or_app. right. apply Hd. exists p, y, z. auto.
  Qed.

  (** C45 *)
  Lemma report_lifetime c r x : reduce c = Ok r -> In x r ->
    i_not_before x = p_nbf (u_payload (c_ucan c)) /\ i_expires_at x = p_exp (u_payload (c_ucan c)).
  Proof.
    intros Hr Hx. destruct (reduce_merge c r Hr) as (work & -> & Hw & _ & _).
    destruct (merge_sound SO AO work x Hx) as (y & Hy & _ & -> & -> & _).
    destruct (Hw y Hy) as [(_ & H1 & H2 & _) | (z & _ & ->)]; [auto | split; reflexivity].
  Qed.

  (** C46 *)
  Lemma report_source c r x : reduce c = Ok r -> In x r ->
    heeded parse (c_ucan c) (i_capability x) \/
    exists z, redelegated_entry SO AO parse c z /\ i_capability z = i_capability x.
  Proof.
    intros Hr Hx. destruct (reduce_merge c r Hr) as (work & -> & Hw & _ & _).
    destruct (merge_sound SO AO work x Hx) as (y & Hy & E & _).
    destruct (Hw y Hy) as [(H1 & _) | (z & Hz & ->)]; [left; rewrite E; exact H1 | right; exists z; split; [exact Hz | symmetry; exact E]].
  Qed.

  Lemma report_passed_on c : forall r x, reduce c = Ok r -> In x r -> passed_on parse c (i_capability x).
  Proof.
    induction c as [u ps red IH] using chain_induction. intros r x Hr Hx.
    destruct (report_source _ _ _ Hr Hx) as [Hv | (z & (p & y & Hp & Hy & Hz) & E)].
    - apply PO_own, Hv.
    - apply PO_redelegated with p; [exact Hp|]. rewrite <- E. apply redelegated_in in Hp as Hin. apply (IH p Hin y z Hy Hz).
  Qed.

  Lemma passed_on_claimed c v : passed_on parse c v ->
    exists u cap, in_chain u c /\ claims u cap /\ parse cap = Some v /\ heeded parse u v.
  Proof.
    induction 1 as [c v Hv | c pc v Hp _ (u & cap & Hu & Hc & Hv & Hh)].
    - exists (c_ucan c). pose proof Hv as (b & cap & a & Hl & Hpc & _). exists cap.
      split; [apply in_chain_root|]. split; [|auto].
      assert (In cap (caps_iter (p_cap (u_payload (c_ucan c))))) as Hin by (rewrite Hl; apply in_or_app; right; left; reflexivity).
      apply claims_iter. exact Hin.
    - exists u, cap. split; [|auto]. eapply in_chain_proof; [apply redelegated_in, Hp | exact Hu].
  Qed.

  Lemma work_listed c work : (forall x, In x work -> own_entry c x \/ passed_entry c x) ->
    forall v, listed work v -> understood parse c v.
  Proof.
    intros Hw v (y & Hy & ->). destruct (Hw y Hy) as [(H1 & _) | (z & (p & r & Hp & Hr & Hz) & ->)].
    - exists (c_ucan c). split; [apply in_chain_root | exact H1].
    - cbn [relabel i_capability]. destruct (passed_on_claimed p _ (report_passed_on p r z Hr Hz)) as (u & cap & H1 & _ & _ & H2).
      exists u. split; [eapply in_chain_proof; [apply redelegated_in, Hp | exact H1] | exact H2].
  Qed.

  (** C47 *)
  Lemma report_originators c : forall r x, reduce c = Ok r -> In x r ->
    ssorted (i_originators x) /\ i_originators x <> [] /\
    forall o, In o (i_originators x) -> exists u, in_chain u c /\ p_iss (u_payload u) = o.
  Proof.
    induction c as [u ps red IH] using chain_induction. intros r x Hr Hx.
    set (c := Chain u ps red) in *.
    destruct (reduce_merge c r Hr) as (work & -> & Hw & _ & _).
    assert (forall y, In y work -> ssorted (i_originators y) /\ i_originators y <> [] /\
      forall o, In o (i_originators y) -> exists u, in_chain u c /\ p_iss (u_payload u) = o) as Hwork.
    { intros y Hy. destruct (Hw y Hy) as [(_ & _ & _ & Hs & Hne & anc & Ha & Ho) | (z & (p & rp & Hp & Hrp & Hz) & ->)].
      - split; [exact Hs|]. split; [exact Hne|]. intros o Hin. apply Ho in Hin as [(i & Hi & _ & Hin) | [-> _]].
        + apply Ha in Hi as (p & rp & Hp & Hrp & Hi). apply attenuated_in in Hp.
          destruct (IH p Hp rp i Hrp Hi) as (_ & _ & Hall). destruct (Hall o Hin) as (u' & Hu' & Ho').
          exists u'. split; [eapply in_chain_proof; eassumption | exact Ho'].
        + exists u. split; [apply in_chain_root | reflexivity].
      - apply redelegated_in in Hp. destruct (IH p Hp rp z Hrp Hz) as (H1 & H2 & Hall). cbn [relabel i_originators].
        split; [exact H1|]. split; [exact H2|]. intros o Hin. destruct (Hall o Hin) as (u' & Hu' & Ho').
        exists u'. split; [eapply in_chain_proof; eassumption | exact Ho']. }
    split; [apply (merge_sorted work); [intros; apply Hwork; assumption | exact Hx]|].
    destruct (merge_sound SO AO work x Hx) as (y & Hy & _ & _ & _ & Hsub & Hsup). split.
    - destruct (Hwork y Hy) as (_ & Hne & _). destruct (i_originators y) as [|o l]; [contradiction|].
      intros E. specialize (Hsub o (or_introl eq_refl)). rewrite E in Hsub. contradiction.
    - intros o Ho. destruct (Hsup o Ho) as (y' & Hy' & Ho' & _). destruct (Hwork y' Hy') as (_ & _ & Hall). apply Hall, Ho'.
  Qed.

  Lemma report_no_proofs u red r x : reduce (Chain u [] red) = Ok r -> In x r -> i_originators x = [p_iss (u_payload u)].
  Proof.
    intros Hr Hx. destruct (report_originators _ _ _ Hr Hx) as (Hs & Hne & Hall).
    apply ssorted_ext; [exact Hs | repeat constructor|].
    intros o. assert (forall o, In o (i_originators x) -> o = p_iss (u_payload u)) as Ho.
    { intros o' Hin. destruct (Hall o' Hin) as (u' & (d & Hd & Hu) & <-). inversion Hd; subst; [reflexivity | contradiction]. }
    split; [intros Hin; left; symmetry; apply Ho, Hin|].
    intros [<- | []]. destruct (i_originators x) as [|o' l]; [contradiction|]. left. apply Ho. left. reflexivity.
  Qed.

  (** C49 *)
  Lemma own_credited c x o : own_entry c x -> In o (i_originators x) <-> credited SO AO parse c (i_capability x) o.
  Proof.
    intros (_ & _ & _ & _ & _ & anc & Ha & Ho). rewrite Ho. unfold credited, enabling_entry. split.
    - intros [(i & Hi & He & Hin) | [-> Hn]].
      + left. exists i. split; [|exact Hin]. apply Ha in Hi as (p & r & Hp & Hr & Hi). exists p, r. auto.
      + right. split; [reflexivity|]. intros (i & p & r & Hp & Hr & Hi & He).
        destruct (report_originators p r i Hr Hi) as (_ & Hne & _). apply Hne, Hn; [apply Ha; exists p, r; auto | exact He].
    - intros [(i & (p & r & Hp & Hr & Hi & He) & Hin) | [-> Hn]].
      + left. exists i. split; [apply Ha; exists p, r; auto | auto].
      + right. split; [reflexivity|]. intros i Hi He. exfalso. apply Hn. exists i.
        apply Ha in Hi as (p & r & Hp & Hr & Hi). exists p, r. auto.
  Qed.

  Lemma report_covers_claim c r v : enabling_transitive SO AO parse c -> reduce c = Ok r -> heeded parse (c_ucan c) v ->
    exists x, In x r /\ enables_or_is SO AO (i_capability x) v /\ forall o, credited SO AO parse c v o -> In o (i_originators x).
  Proof.
    intros Ht Hr Hv. destruct (reduce_merge c r Hr) as (work & -> & Hw & Hown & _).
    destruct (Hown v Hv) as (y & Hy & Hoy & <-).
    destruct (merge_covers SO AO work y Hy) as (z & Hz & Hp & Ho). exists z. split; [exact Hz|].
    split; [apply (path_enables SO AO _ work _ _ Ht (work_listed c work Hw) Hp)|]. intros o Hc. apply Ho. apply (own_credited c y o Hoy), Hc.
  Qed.

  Lemma report_covers_redelegated c r z : enabling_transitive SO AO parse c -> reduce c = Ok r -> redelegated_entry SO AO parse c z ->
    exists x, In x r /\ enables_or_is SO AO (i_capability x) (i_capability z) /\
      forall o, In o (i_originators z) -> In o (i_originators x).
  Proof.
    intros Ht Hr Hz. destruct (reduce_merge c r Hr) as (work & -> & Hw & _ & Hrede).
    destruct (merge_covers SO AO work _ (Hrede z Hz)) as (x & Hx & Hp & Ho). exists x. split; [exact Hx|].
    split; [apply (path_enables SO AO _ work _ _ Ht (work_listed c work Hw) Hp) | exact Ho].
  Qed.

  (** Everything an entry reports comes from what it enables. *)
  Lemma report_originator_source c r x o : enabling_transitive SO AO parse c -> reduce c = Ok r -> In x r -> In o (i_originators x) ->
    exists v, enables_or_is SO AO (i_capability x) v /\
      (heeded parse (c_ucan c) v /\ credited SO AO parse c v o \/
       exists z, redelegated_entry SO AO parse c z /\ i_capability z = v /\ In o (i_originators z)).
  Proof.
    intros Ht Hr Hx Ho. destruct (reduce_merge c r Hr) as (work & -> & Hw & _ & _).
    destruct (merge_sound SO AO work x Hx) as (_ & _ & _ & _ & _ & _ & Hsup).
    destruct (Hsup o Ho) as (y & Hy & Hoy & Hp). exists (i_capability y). split; [apply (path_enables SO AO _ work _ _ Ht (work_listed c work Hw) Hp)|].
    destruct (Hw y Hy) as [Hown | (z & Hz & ->)].
    - left. split; [apply Hown | apply (own_credited c y o Hown), Hoy].
    - right. exists z. auto.
  Qed.

  (** C50 *)
  Lemma report_isolated_claim c r v : enabling_transitive SO AO parse c -> reduce c = Ok r -> heeded parse (c_ucan c) v ->
    (forall w, heeded parse (c_ucan c) w -> enables v w = true \/ enables w v = true -> w = v) ->
    (forall z, redelegated_entry SO AO parse c z ->
       i_capability z <> v /\ enables v (i_capability z) = false /\ enables (i_capability z) v = false) ->
    exists x, In x r /\ i_capability x = v /\ forall o, In o (i_originators x) <-> credited SO AO parse c v o.
  Proof.
    intros Ht Hr Hv Hiso Hz. destruct (report_covers_claim c r v Ht Hr Hv) as (x & Hx & He & Ho).
    assert (i_capability x = v) as Ex.
    { destruct He as [-> | He]; [reflexivity|].
      destruct (report_source c r x Hr Hx) as [Hs | (z & Hz' & E)]; [apply Hiso; auto|].
      destruct (Hz z Hz') as (_ & _ & Hf). rewrite E in Hf. congruence. }
    exists x. split; [exact Hx|]. split; [exact Ex|]. intros o. split; [|apply Ho].
    intros Hin. destruct (report_originator_source c r x o Ht Hr Hx Hin) as (w & Hw & [[Hh Hc] | (z & Hz' & E & Hoz)]).
    - rewrite Ex in Hw. destruct Hw as [<- | Hw]; [exact Hc|]. rewrite <- (Hiso w Hh (or_introl Hw)). exact Hc.
    - exfalso. destruct (Hz z Hz') as (H1 & H2 & _). subst w. rewrite Ex in Hw. destruct Hw as [Hw | Hw]; [apply H1; auto | congruence].
  Qed.

  (** C48, where enabling among the claims is mutual *)
  Lemma report_claimed_by c : forall r x o, enabling_transitive SO AO parse c -> mutual_enabling SO AO parse c ->
    reduce c = Ok r -> In x r -> In o (i_originators x) -> claimed_by SO AO parse c o (i_capability x).
  Proof.
    induction c as [u ps red IH] using chain_induction. intros r x o Ht Hm Hr Hx Ho.
    set (c := Chain u ps red) in *.
    assert (forall p, In p ps -> mutual_enabling SO AO parse p) as Hmp.
    { intros p Hp u1 u2 v w H1 H2. apply Hm; eapply in_chain_proof; eassumption. }
    assert (forall p, In p ps -> enabling_transitive SO AO parse p) as Htp.
    { intros p Hp v w z (u1 & H1 & H1') (u2 & H2 & H2') (u3 & H3 & H3').
      apply Ht; [exists u1 | exists u2 | exists u3]; (split; [eapply in_chain_proof; eassumption | assumption]). }
    assert (forall w w' w'', understood parse c w -> understood parse c w' -> understood parse c w'' ->
      enables_or_is SO AO w w' -> enables_or_is SO AO w' w'' -> enables_or_is SO AO w w'') as Htr.
    { intros w w' w'' K1 K2 K3 [-> | H1] [-> | H2]; [left; reflexivity | right; exact H2 | right; exact H1|].
      right. apply (Ht w w' w''); assumption. }
    destruct (report_originator_source c r x o Ht Hr Hx Ho) as (v & Hv & Hsrc).
    assert (exists u', in_chain u' c /\ heeded parse u' (i_capability x)) as (ux & Hux & Hhx).
    { destruct (passed_on_claimed c _ (report_passed_on c r x Hr Hx)) as (u' & cap & H1 & _ & _ & H2). eauto. }
    assert ((exists u', in_chain u' c /\ heeded parse u' v) -> enables_or_is SO AO v (i_capability x)) as Hback.
    { intros (uv & Huv & Hhv). destruct Hv as [<- | Hv]; [left; reflexivity|]. right. apply (Hm ux uv); assumption. }
    assert (forall p rp z, In p ps -> reduce p = Ok rp -> In z rp -> understood parse c (i_capability z)) as Hzu.
    { intros p rp z Hp Hrp Hz. destruct (passed_on_claimed p _ (report_passed_on p rp z Hrp Hz)) as (u' & cap & H1 & _ & _ & H2).
      exists u'. split; [eapply in_chain_proof; eassumption | exact H2]. }
    assert (forall p rp z, In p ps -> reduce p = Ok rp -> In z rp -> In o (i_originators z) ->
      enables_or_is SO AO (i_capability z) (i_capability x) -> claimed_by SO AO parse c o (i_capability x)) as Hsub.
    { intros p rp z Hp Hrp Hz Hoz Hzx. destruct (IH p Hp rp z o (Htp p Hp) (Hmp p Hp) Hrp Hz Hoz) as (u' & w & H1 & H2 & H3 & H4).
      exists u', w. split; [eapply in_chain_proof; eassumption|]. split; [exact H2|]. split; [exact H3|].
      apply (Htr w (i_capability z)); [exists u'; split; [eapply in_chain_proof; eassumption | exact H3] | apply (Hzu p rp); assumption | exists ux; auto | exact H4 | exact Hzx]. }
    destruct Hsrc as [[Hh Hc] | (z & (p & rp & Hp & Hrp & Hz) & E & Hoz)].
    - assert (enables_or_is SO AO v (i_capability x)) as Hvx by (apply Hback; exists u; split; [apply in_chain_root | exact Hh]).
      destruct Hc as [(i & (p & rp & Hp & Hrp & Hi & He) & Hoi) | [-> _]].
      + apply attenuated_in in Hp. apply (Hsub p rp i); auto.
        apply (Htr _ v); [apply (Hzu p rp); assumption | exists u; split; [apply in_chain_root | exact Hh] | exists ux; auto | right; exact He | exact Hvx].
      + exists u, v. split; [apply in_chain_root|]. split; [reflexivity|]. auto.
    - apply redelegated_in in Hp as Hin. apply (Hsub p rp z); auto. rewrite E. apply Hback.
      destruct (passed_on_claimed p _ (report_passed_on p rp z Hrp Hz)) as (u' & cap & H1 & _ & _ & H2). rewrite E in H2.
      exists u'. split; [eapply in_chain_proof; eassumption | exact H2].
  Qed.

  (** C51 *)
  Lemma report_order c r i j a b : reduce c = Ok r -> (i < j)%nat ->
    nth_error r i = Some a -> nth_error r j = Some b -> enables (i_capability b) (i_capability a) = false.
  Proof.
    intros Hr Hij Ha Hb. destruct (reduce_merge c r Hr) as (work & -> & _).
    pose proof (merge_order SO AO work) as Hs. clear Hr. revert i j Hij Ha Hb.
    induction Hs as [|x l Hs IH Hf]; intros i j Hij Ha Hb; [destruct i; discriminate|].
    destruct j as [|j]; [lia|]. destruct i as [|i]; cbn [nth_error] in *.
    - injection Ha as <-. rewrite Forall_forall in Hf. apply Hf. eapply nth_error_In, Hb.
    - apply (IH i j); [lia | assumption | assumption].
  Qed.

  Lemma report_antichain c r i j a b : mutual_enabling SO AO parse c -> reduce c = Ok r -> i <> j ->
    nth_error r i = Some a -> nth_error r j = Some b -> enables (i_capability b) (i_capability a) = false.
  Proof.
    intros Hm Hr Hij Ha Hb. destruct (Nat.lt_ge_cases i j) as [Hlt | Hge]; [eapply report_order; eassumption|].
    destruct (enables (i_capability b) (i_capability a)) eqn:E; [|reflexivity].
    assert (forall x k, nth_error r k = Some x -> exists u, in_chain u c /\ heeded parse u (i_capability x)) as Hh.
    { intros x k Hx. apply nth_error_In in Hx.
      destruct (passed_on_claimed c _ (report_passed_on c r x Hr Hx)) as (u & _ & H1 & _ & _ & H2). eauto. }
    destruct (Hh a i Ha) as (ua & Hua & Hha). destruct (Hh b j Hb) as (ub & Hub & Hhb).
    rewrite <- (report_order c r j i b a Hr ltac:(lia) Hb Ha). symmetry. apply (Hm ub ua); assumption.
  Qed.

  (** C52 *)
  Lemma heeded_all u cap v : (forall cap', claims u cap' -> parse cap' <> None) -> claims u cap -> parse cap = Some v -> heeded parse u v.
  Proof.
    intros Hall Hc Hv. apply claims_iter in Hc. apply in_split in Hc as (b & a & E). exists b, cap, a.
    split; [exact E|]. split; [exact Hv|]. intros c' Hin. apply Hall. apply claims_iter. rewrite E. apply in_or_app. left. exact Hin.
  Qed.
End Report.

(* ------------------------------------------------- accepted chains and reports *)

Lemma from_ucan_valid E nt slice fuel u st c st' : with_parser slice st -> from_ucan E nt fuel u st = (Ok c, st') ->
  c_ucan c = u /\ valid_chain E nt slice (ticks_between st st') (reads_between st st') c.
Proof.
  intros Hp Hr. split; [eapply from_ucan_root, Hr|]. eapply from_ucan_sound; eauto.
Qed.

Lemma valid_redelegations E nt slice T R c : valid_chain E nt slice T R c -> redelegations_exist c.
Proof.
  intros Hv d i Hs Hi. apply (valid_sub _ _ _ _ _ _ _ Hv) in Hs. inversion Hs as [u ps red _ _ _ Hr _]; subst.
  simpl in *. apply Hr, Hi.
Qed.

Lemma accepted_reduces {S A} (SO : scope_ops S) (AO : ability_ops A) parse E nt slice fuel u st c st' :
  with_parser slice st -> from_ucan E nt fuel u st = (Ok c, st') -> exists r, reduce SO AO parse c = Ok r.
Proof.
  intros Hp Hr. apply reduce_total. eapply valid_redelegations. eapply (from_ucan_valid E nt slice); eassumption.
Qed.

Lemma missing_index_rejected E nt slice fuel u st c cap i : with_parser slice st ->
  claims u cap -> names_proof (e_ext E) cap i -> (N.of_nat (length (cited u)) <= i)%N ->
  fst (from_ucan E nt fuel u st) <> Ok c.
Proof.
  intros Hp Hc Hn Hle Hok. destruct (from_ucan E nt fuel u st) as [r st'] eqn:Er. simpl in Hok. subst r.
  destruct (from_ucan_valid _ _ _ _ _ _ _ _ Hp Er) as [Hu Hv].
  pose proof (valid_proof_count _ _ _ _ _ _ _ Hv (Sub_self c)) as Hlen.
  inversion Hv as [u' ps red _ _ _ Hr _]; subst. simpl in *.
  destruct Hr as (_ & Hin & Hlt). specialize (Hlt i (proj2 (Hin i) (ex_intro _ cap (conj Hc Hn)))). lia.
Qed.

Lemma report_window {S A} (SO : scope_ops S) (AO : ability_ops A) parse E nt slice fuel u st c st' r x d t :
  with_parser slice st -> from_ucan E nt fuel u st = (Ok c, st') -> reduce SO AO parse c = Ok r -> In x r -> sub_chain d c ->
  (forall b, i_not_before x = Some b -> (Z.of_N b <= t)%Z) -> (forall e, i_expires_at x = Some e -> (t <= Z.of_N e)%Z) ->
  live_at (u_payload (c_ucan d)) t.
Proof.
  intros Hp Hf Hr Hx Hs Hb He. destruct (report_lifetime SO AO parse c r x Hr Hx) as [E1 E2].
  eapply lifetime_within_live; [eapply valid_lifetime; [|exact Hs]|].
  - eapply (from_ucan_valid E nt slice); eassumption.
  - split; [rewrite <- E1; exact Hb | rewrite <- E2; exact He].
Qed.

(** Preorders on scopes and abilities and JSON caveats make enabling transitive. *)
Lemma preorders_transitive {S A} (SO : scope_ops S) (AO : ability_ops A) parse c :
  scope_preorder SO -> ability_preorder AO -> (forall v, understood parse c v -> json_ok (v_caveat v)) ->
  enabling_transitive SO AO parse c.
Proof. intros HS HA Hj v w z _ Hw Hz. apply view_enables_trans; auto. Qed.

Section MoreReport.
  Context {S A : Type} (SO : scope_ops S) (AO : ability_ops A).
  Variable parse : capability -> option (view S A).

  (** C50 *)
  Lemma report_unproved_claim c r v :
    enabling_transitive SO AO parse c -> reduce SO AO parse c = Ok r -> heeded parse (c_ucan c) v ->
    (forall pc q i, attenuated c pc -> reduce SO AO parse pc = Ok q -> In i q -> view_enables SO AO (i_capability i) v = false) ->
    exists x, In x r /\ enables_or_is SO AO (i_capability x) v /\ In (p_iss (u_payload (c_ucan c))) (i_originators x).
  Proof.
    intros Ht Hr Hv Hn. destruct (report_covers_claim SO AO parse c r v Ht Hr Hv) as (x & Hx & He & Ho).
    exists x. split; [exact Hx|]. split; [exact He|]. apply Ho. right. split; [reflexivity|].
    intros (i & pc & q & Hp & Hq & Hi & E). rewrite (Hn pc q i Hp Hq Hi) in E. discriminate.
  Qed.

  (** C52 *)
  Lemma report_covers_understood c r cap v :
    enabling_transitive SO AO parse c -> reduce SO AO parse c = Ok r ->
    (forall cap', claims (c_ucan c) cap' -> parse cap' <> None) -> claims (c_ucan c) cap -> parse cap = Some v ->
    exists x, In x r /\ enables_or_is SO AO (i_capability x) v.
  Proof.
    intros Ht Hr Hall Hc Hv. destruct (report_covers_claim SO AO parse c r v Ht Hr) as (x & Hx & He & _); [|eauto].
    apply (heeded_all parse (c_ucan c) cap); assumption.
  Qed.

  (** C73 *)
  Lemma pure_redelegation_source c r x : reduce SO AO parse c = Ok r -> (forall v, ~ heeded parse (c_ucan c) v) -> In x r ->
    exists z, redelegated_entry SO AO parse c z /\ i_capability z = i_capability x.
  Proof.
    intros Hr Hn Hx. destruct (report_source SO AO parse c r x Hr Hx) as [Hh | Hz]; [destruct (Hn _ Hh) | exact Hz].
  Qed.

  Lemma pure_redelegation_originators c r x o : enabling_transitive SO AO parse c -> reduce SO AO parse c = Ok r ->
    (forall v, ~ heeded parse (c_ucan c) v) -> In x r -> In o (i_originators x) ->
    exists z, redelegated_entry SO AO parse c z /\ enables_or_is SO AO (i_capability x) (i_capability z) /\ In o (i_originators z).
  Proof.
    intros Ht Hr Hn Hx Ho. destruct (report_originator_source SO AO parse c r x o Ht Hr Hx Ho) as (v & He & [[Hh _] | (z & Hz & <- & Hoz)]);
      [destruct (Hn _ Hh)|]. exists z. auto.
  Qed.
End MoreReport.
