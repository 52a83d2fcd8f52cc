(** Facts about capability maps, data.rs (C04-C07). *)
From Coq Require Import Sorting.Sorted Sorting.Permutation.
From Verif Require Export CapFacts.

(** The caveats listed for a resource and ability. *)
Definition lookup2 (r a : bytes) (m : capabilities) : list value :=
  match mget r m with
  | Some abs => match mget a abs with Some cs => cs | None => [] end
  | None => []
  end.

(** No resource without abilities, no ability without caveats. *)
Definition caps_full (m : capabilities) : Prop :=
  forall r abs, In (r, abs) m -> abs <> [] /\ forall a cs, In (a, cs) abs -> cs <> [].

Lemma ability_caps_map r ac : ability_caps r ac = map (fun c => mkCap r (fst ac) c) (snd ac).
Proof. unfold ability_caps. destruct (snd ac); reflexivity. Qed.

Lemma caps_iter_in m c :
  In c (caps_iter m) <->
  exists abs cs, In (cap_resource c, abs) m /\ In (cap_ability c, cs) abs /\ In (cap_caveat c) cs.
Proof.
  unfold caps_iter. rewrite in_flat_map. split.
  - intros [[r abs] [Hr Hc]]. apply in_flat_map in Hc as [[a cs] [Ha Hc]].
    rewrite ability_caps_map in Hc. apply in_map_iff in Hc as [v [<- Hv]]. simpl in *.
    exists abs, cs. auto.
  - intros (abs & cs & Hr & Ha & Hv). exists (cap_resource c, abs). split; [exact Hr|].
    apply in_flat_map. exists (cap_ability c, cs). split; [exact Ha|].
    rewrite ability_caps_map. apply in_map_iff. exists (cap_caveat c). split; [destruct c; reflexivity | exact Hv].
Qed.

(* ------------------------------------------------------------- filter lemmas *)

Lemma same_key_iff r a c : same_key r a c = true <-> cap_resource c = r /\ cap_ability c = a.
Proof. unfold same_key. rewrite andb_true_iff, !bytes_eqb_eq. reflexivity. Qed.

Lemma filter_none {T} (f : T -> bool) l : (forall x, In x l -> f x = false) -> filter f l = [].
Proof.
  induction l as [|x l IH]; intros Hf; [reflexivity|]. simpl.
  rewrite (Hf x) by (left; reflexivity). apply IH. intros y Hy. apply Hf. right. exact Hy.
Qed.

Lemma filter_all {T} (f : T -> bool) l : (forall x, In x l -> f x = true) -> filter f l = l.
Proof.
  induction l as [|x l IH]; intros Hf; [reflexivity|]. simpl.
  rewrite (Hf x) by (left; reflexivity). f_equal. apply IH. intros y Hy. apply Hf. right. exact Hy.
Qed.

Lemma filter_ability_caps r a r' ac :
  filter (same_key r a) (ability_caps r' ac) =
  if bytes_eqb r' r && bytes_eqb (fst ac) a then map (mkCap r a) (snd ac) else [].
Proof.
  rewrite ability_caps_map. destruct (bytes_eqb_spec r' r) as [E|E].
  - destruct (bytes_eqb_spec (fst ac) a) as [E2|E2]; simpl.
    + subst. apply filter_all. intros x Hx. apply in_map_iff in Hx as [v [<- _]].
      apply same_key_iff. auto.
    + apply filter_none. intros x Hx. apply in_map_iff in Hx as [v [<- _]].
      apply not_true_is_false. rewrite same_key_iff. simpl. tauto.
  - simpl. apply filter_none. intros x Hx. apply in_map_iff in Hx as [v [<- _]].
    apply not_true_is_false. rewrite same_key_iff. simpl. tauto.
Qed.

Lemma filter_abilities r a abs : msorted abs ->
  filter (same_key r a) (flat_map (ability_caps r) abs) =
  map (mkCap r a) (match mget a abs with Some cs => cs | None => [] end).
Proof.
  induction abs as [|[a' cs] abs IH]; intros Hs; [reflexivity|].
  cbn [flat_map]. rewrite filter_app, filter_ability_caps, bytes_eqb_refl. cbn [fst snd andb].
  rewrite IH by (eapply msorted_tail, Hs). simpl mget.
  destruct (bytes_eqb_spec a' a) as [->|Hne].
  - change (cmp a a) with (bytes_cmp a a). rewrite (proj2 (bytes_cmp_eq a a) eq_refl).
    rewrite mget_none_lt.
    + simpl. apply app_nil_r.
    + intros b Hb. apply (msorted_head _ _ Hs _ Hb).
  - simpl. destruct (cmp a a') eqn:E; try reflexivity. apply cmp_eq in E. congruence.
Qed.

Lemma filter_abilities_other r a r' abs : r' <> r ->
  filter (same_key r a) (flat_map (ability_caps r') abs) = [].
Proof.
  intros Hne. apply filter_none. intros x Hx. apply in_flat_map in Hx as [ac [_ Hx]].
  rewrite ability_caps_map in Hx. apply in_map_iff in Hx as [v [<- _]].
  apply not_true_is_false. rewrite same_key_iff. simpl. tauto.
Qed.

Lemma filter_caps_iter r a m : caps_sorted m ->
  filter (same_key r a) (caps_iter m) = map (mkCap r a) (lookup2 r a m).
Proof.
  intros [Hm Habs]. unfold lookup2. induction m as [|[r' abs] m IH]; [reflexivity|].
  unfold caps_iter. cbn [flat_map fst snd]. rewrite filter_app. fold (caps_iter m).
  assert (msorted ((r', abs) :: m)) as Hs by exact Hm.
  rewrite IH; [|eapply msorted_tail, Hs|intros r2 abs2 Hin; apply (Habs r2), in_cons, Hin].
  simpl mget. destruct (cmp r r') eqn:E.
  - apply cmp_eq in E. subst r'. rewrite filter_abilities by (apply (Habs r); left; reflexivity).
    rewrite (mget_none_lt r m); [apply app_nil_r|]. intros b Hb. apply (msorted_head _ _ Hs _ Hb).
  - rewrite filter_abilities_other; [reflexivity|]. intros ->. rewrite cmp_refl in E. discriminate.
  - rewrite filter_abilities_other; [reflexivity|]. intros ->. rewrite cmp_refl in E. discriminate.
Qed.

Lemma filter_cons_split {T} (f : T -> bool) l c r :
  filter f l = c :: r -> exists l1 l2, l = l1 ++ c :: l2 /\ filter f l1 = [] /\ filter f l2 = r /\ f c = true.
Proof.
  induction l as [|x l IH]; simpl; [discriminate|]. destruct (f x) eqn:E.
  - intros [= -> <-]. exists [], l. auto.
  - intros Hx. destruct (IH Hx) as (l1 & l2 & -> & H1 & H2 & H3).
    exists (x :: l1), l2. simpl. rewrite E. auto.
Qed.

Lemma filters_permutation l l' :
  (forall r a, filter (same_key r a) l = filter (same_key r a) l') -> Permutation l l'.
Proof.
  revert l'. induction l as [|c l IH]; intros l' Hf.
  - destruct l' as [|x l']; [constructor|]. specialize (Hf (cap_resource x) (cap_ability x)).
    simpl in Hf. assert (same_key (cap_resource x) (cap_ability x) x = true) as E by (apply same_key_iff; auto).
    rewrite E in Hf. discriminate.
  - pose proof (Hf (cap_resource c) (cap_ability c)) as Hc. simpl in Hc.
    assert (same_key (cap_resource c) (cap_ability c) c = true) as E by (apply same_key_iff; auto).
    rewrite E in Hc. symmetry in Hc. apply filter_cons_split in Hc as (l1 & l2 & -> & H1 & H2 & _).
    apply Permutation_cons_app. apply IH. intros r a. specialize (Hf r a). simpl in Hf.
    rewrite filter_app in *. simpl in Hf. destruct (same_key r a c) eqn:Ec; [|exact Hf].
    apply same_key_iff in Ec as [<- <-]. rewrite H1, H2. reflexivity.
Qed.

(* ------------------------------------------------------------------ sortedness *)

Lemma StronglySorted_app {T} (R : T -> T -> Prop) l1 l2 :
  StronglySorted R l1 -> StronglySorted R l2 -> (forall x y, In x l1 -> In y l2 -> R x y) ->
  StronglySorted R (l1 ++ l2).
Proof.
  intros H1 H2 Hc. induction H1 as [|x l1 Hs IH F]; [exact H2|]. simpl. constructor.
  - apply IH. intros a b Ha Hb. apply Hc; [right; exact Ha | exact Hb].
  - apply Forall_app. split; [exact F|]. apply Forall_forall. intros y Hy. apply Hc; [left; reflexivity | exact Hy].
Qed.

Lemma key_le_refl_same c d : cap_resource c = cap_resource d -> cap_ability c = cap_ability d -> key_le c d.
Proof.
  intros E1 E2. unfold key_le. rewrite E1, E2.
  rewrite (proj2 (bytes_cmp_eq _ _) eq_refl), (proj2 (bytes_cmp_eq _ _) eq_refl). discriminate.
Qed.

Lemma caps_iter_sorted m : caps_sorted m -> StronglySorted key_le (caps_iter m).
Proof.
  intros [Hm Habs]. induction m as [|[r abs] m IH]; [constructor|].
  unfold caps_iter. cbn [flat_map fst snd]. fold (caps_iter m).
  assert (msorted ((r, abs) :: m)) as Hs by exact Hm.
  apply StronglySorted_app.
  - assert (msorted abs) as Ha by (apply (Habs r); left; reflexivity). clear - Ha.
    induction abs as [|[a cs] abs IH]; [constructor|]. cbn [flat_map]. apply StronglySorted_app.
    + rewrite ability_caps_map. simpl. clear. induction cs as [|c cs IH]; [constructor|].
      simpl. constructor; [exact IH|]. apply Forall_forall. intros x Hx.
      apply in_map_iff in Hx as [v [<- _]]. apply key_le_refl_same; reflexivity.
    + apply IH. eapply msorted_tail, Ha.
    + intros x y Hx Hy. rewrite ability_caps_map in Hx. apply in_map_iff in Hx as [v [<- _]].
      apply in_flat_map in Hy as [[a' cs'] [Hin Hy]]. rewrite ability_caps_map in Hy.
      apply in_map_iff in Hy as [w [<- _]]. unfold key_le. simpl.
      rewrite (proj2 (bytes_cmp_eq _ _) eq_refl).
      pose proof (msorted_head _ _ Ha _ Hin) as E. simpl in E. unfold cmp, Ord_bytes in E. rewrite E. discriminate.
  - apply IH; [eapply msorted_tail, Hs|]. intros r2 abs2 Hin. apply (Habs r2), in_cons, Hin.
  - intros x y Hx Hy. apply in_flat_map in Hx as [ac [_ Hx]]. rewrite ability_caps_map in Hx.
    apply in_map_iff in Hx as [v [<- _]]. apply caps_iter_in in Hy as (abs' & cs & Hin & _).
    pose proof (msorted_head _ _ Hs _ Hin) as E. simpl in E. unfold key_le. simpl.
    unfold cmp, Ord_bytes in E. rewrite E. exact I.
Qed.

(* -------------------------------------------------------------- caps_of_list *)

Lemma is_object_iff v : is_object v = true <-> object_caveat v.
Proof.
  unfold object_caveat. destruct v; simpl; split; intros Hx; try discriminate; try (destruct Hx; discriminate).
  - eexists. reflexivity.
  - reflexivity.
Qed.

Lemma caps_add_ok m c : object_caveat (cap_caveat c) -> exists m', caps_add m c = Ok m'.
Proof. intros Ho. unfold caps_add. apply is_object_iff in Ho. rewrite Ho. simpl. eexists. reflexivity. Qed.

Lemma caps_add_err m c : ~ object_caveat (cap_caveat c) -> caps_add m c = Err ECaveatNotObject.
Proof.
  intros Ho. unfold caps_add. destruct (is_object (cap_caveat c)) eqn:E; [|reflexivity].
  apply is_object_iff in E. contradiction.
Qed.

Definition caps_objects (m : capabilities) : Prop :=
  forall r abs, In (r, abs) m -> forall a cs, In (a, cs) abs -> forall c, In c cs -> object_caveat c.

Lemma keys_increasing_msorted {V} (m : list (bytes * V)) : keys_increasing m <-> msorted m.
Proof. split; exact (fun h => h). Qed.

Lemma caps_add_spec m c m' : caps_sorted m -> caps_full m -> caps_objects m -> caps_add m c = Ok m' ->
  object_caveat (cap_caveat c) /\ caps_sorted m' /\ caps_full m' /\ caps_objects m' /\
  (forall r a, lookup2 r a m' =
     lookup2 r a m ++ (if same_key r a c then [cap_caveat c] else [])).
Proof.
  intros [Hm Habs] Hfull Hobj Hadd. unfold caps_add in Hadd.
  destruct (is_object (cap_caveat c)) eqn:Eo; [|discriminate]. simpl in Hadd.
  apply is_object_iff in Eo.
  set (abs0 := match mget (cap_resource c) m with Some r => r | None => [] end) in *.
  set (cs0 := match mget (cap_ability c) abs0 with Some v => v ++ [cap_caveat c] | None => [cap_caveat c] end) in *.
  injection Hadd as <-.
  assert (msorted abs0) as Hs0.
  { unfold abs0. destruct (mget (cap_resource c) m) eqn:E; [|constructor]. eapply Habs, mget_in, E. }
  assert (forall a cs, In (a, cs) abs0 -> cs <> [] /\ forall v, In v cs -> object_caveat v) as Hcs0.
  { unfold abs0. destruct (mget (cap_resource c) m) eqn:E; [|intros ? ? []].
    apply mget_in in E. intros k cs Hin. split; [apply (proj2 (Hfull _ _ E) _ _ Hin) | apply (Hobj _ _ E _ _ Hin)]. }
  assert (cs0 <> [] /\ forall v, In v cs0 -> object_caveat v) as Hc0.
  { unfold cs0. destruct (mget (cap_ability c) abs0) eqn:E.
    - split; [destruct l; discriminate|]. intros v Hv. apply in_app_or in Hv as [Hv | [<- | []]]; [|exact Eo].
      apply mget_in in E. apply (proj2 (Hcs0 _ _ E)), Hv.
    - split; [discriminate|]. intros v [<- | []]. exact Eo. }
  split; [exact Eo|]. split; [|split; [|split]].
  - split.
    + apply minsert_sorted. exact Hm.
    + intros r abs Hin. apply minsert_in in Hin as [[= -> ->] | Hin]; [|eapply Habs, Hin].
      apply minsert_sorted, Hs0.
  - intros r abs Hin. apply minsert_in in Hin as [[= -> ->] | Hin]; [|eapply Hfull, Hin].
    split.
    + intros E. pose proof (mget_minsert_eq (cap_ability c) cs0 abs0) as Hg. rewrite E in Hg. discriminate.
    + intros a cs Hin. apply minsert_in in Hin as [[= -> ->] | Hin]; [apply Hc0 | apply (Hcs0 _ _ Hin)].
  - intros r abs Hin. apply minsert_in in Hin as [[= -> ->] | Hin]; [|eapply Hobj, Hin].
    intros a cs Hin. apply minsert_in in Hin as [[= -> ->] | Hin]; [apply Hc0 | apply (Hcs0 _ _ Hin)].
  - intros r a. unfold lookup2. destruct (bytes_dec r (cap_resource c)) as [->|Hr].
    + rewrite mget_minsert_eq. unfold abs0 in cs0 |- *.
      destruct (bytes_dec a (cap_ability c)) as [->|Ha].
      * rewrite mget_minsert_eq. assert (same_key (cap_resource c) (cap_ability c) c = true) as -> by (apply same_key_iff; auto).
        unfold cs0. destruct (mget (cap_resource c) m) as [abs|]; [|reflexivity].
        destruct (mget (cap_ability c) abs); reflexivity.
      * rewrite mget_minsert_neq by exact Ha.
        assert (same_key (cap_resource c) a c = false) as ->.
        { apply not_true_is_false. rewrite same_key_iff. intuition. }
        rewrite app_nil_r. destruct (mget (cap_resource c) m); reflexivity.
    + rewrite mget_minsert_neq by exact Hr.
      assert (same_key r a c = false) as ->.
      { apply not_true_is_false. rewrite same_key_iff. intuition. }
      rewrite app_nil_r. reflexivity.
Qed.

Lemma caps_add_all_spec l : forall m m', caps_sorted m -> caps_full m -> caps_objects m -> caps_add_all m l = Ok m' ->
  (forall c, In c l -> object_caveat (cap_caveat c)) /\ caps_sorted m' /\ caps_full m' /\ caps_objects m' /\
  (forall r a, lookup2 r a m' = lookup2 r a m ++ map cap_caveat (filter (same_key r a) l)).
Proof.
  induction l as [|c l IH]; intros m m' Hs Hf Ho Hadd; simpl in Hadd.
  - injection Hadd as <-. split; [intros c []|]. split; [exact Hs|]. split; [exact Hf|]. split; [exact Ho|].
    intros r a. symmetry. apply app_nil_r.
  - destruct (caps_add m c) as [m1| | |] eqn:E; try discriminate. simpl in Hadd.
    apply caps_add_spec in E as (Hc & Hs1 & Hf1 & Ho1 & Hl1); try assumption.
    apply (IH m1 m' Hs1 Hf1 Ho1) in Hadd as (Hc2 & Hs2 & Hf2 & Ho2 & Hl2).
    split; [|split; [exact Hs2 | split; [exact Hf2 | split; [exact Ho2|]]]].
    + intros x [<- | Hx]; auto.
    + intros r a. rewrite Hl2, Hl1, <- app_assoc. f_equal. simpl. destruct (same_key r a c); reflexivity.
Qed.

Lemma caps_check_iff m m' : caps_check m = Ok m' <-> m' = m /\ forall r abs, In (r, abs) m -> abs <> [].
Proof.
  unfold caps_check. match goal with |- context [if ?b then _ else _] => destruct b eqn:E end.
  - rewrite forallb_forall in E. split.
    + intros [= <-]. split; [reflexivity|]. intros r abs Hin. specialize (E _ Hin). simpl in E. destruct abs; discriminate.
    + intros [-> _]. reflexivity.
  - split; [discriminate|]. intros [-> Hne]. exfalso. apply not_true_iff_false in E. apply E.
    apply forallb_forall. intros [r abs] Hin. specialize (Hne _ _ Hin). simpl. destruct abs; [contradiction | reflexivity].
Qed.

Lemma caps_full_check m : caps_full m -> caps_check m = Ok m.
Proof. intros Hf. apply caps_check_iff. split; [reflexivity|]. intros r abs Hin. apply (Hf _ _ Hin). Qed.

Lemma nil_caps_ok : caps_sorted [] /\ caps_full [] /\ caps_objects [].
Proof. repeat split; try constructor; try (intros ? ? []); contradiction. Qed.

Lemma caps_of_list_spec l m : caps_of_list l = Ok m ->
  (forall c, In c l -> object_caveat (cap_caveat c)) /\ caps_sorted m /\ caps_full m /\ caps_objects m /\
  (forall r a, lookup2 r a m = map cap_caveat (filter (same_key r a) l)).
Proof.
  unfold caps_of_list. destruct (caps_add_all [] l) as [m'| | |] eqn:E; try discriminate. simpl.
  destruct nil_caps_ok as (H1 & H2 & H3).
  apply caps_add_all_spec in E as (Hc & Hs & Hf & Ho & Hl); try assumption.
  rewrite (caps_full_check m' Hf). intros [= <-]. auto.
Qed.

Lemma caps_of_list_ok l : (forall c, In c l -> object_caveat (cap_caveat c)) -> exists m, caps_of_list l = Ok m.
Proof.
  intros Ho. assert (forall m, exists m', caps_add_all m l = Ok m') as Hall.
  { induction l as [|c l IH]; intros m; simpl; [eexists; reflexivity|].
    destruct (caps_add_ok m c (Ho c (or_introl eq_refl))) as [m1 ->]. simpl.
    apply IH. intros x Hx. apply Ho. right. exact Hx. }
  destruct (Hall []) as [m' E]. unfold caps_of_list. rewrite E. simpl.
  destruct nil_caps_ok as (H1 & H2 & H3).
  apply caps_add_all_spec in E as (_ & _ & Hf & _); try assumption.
  rewrite (caps_full_check m' Hf). eexists. reflexivity.
Qed.

Lemma caps_of_list_err l c : In c l -> ~ object_caveat (cap_caveat c) -> caps_of_list l = Err ECaveatNotObject.
Proof.
  intros Hin Hn. assert (forall m, caps_add_all m l = Err ECaveatNotObject) as Hall.
  { induction l as [|d l IH]; intros m; [contradiction|]. simpl.
    destruct (is_object (cap_caveat d)) eqn:E.
    - apply is_object_iff in E. destruct (caps_add_ok m d E) as [m1 ->]. simpl.
      destruct Hin as [-> | Hin]; [contradiction | apply IH, Hin].
    - rewrite caps_add_err; [reflexivity|]. rewrite <- is_object_iff. congruence. }
  unfold caps_of_list. rewrite Hall. reflexivity.
Qed.

Lemma filter_map_back r a l : map (mkCap r a) (map cap_caveat (filter (same_key r a) l)) = filter (same_key r a) l.
Proof.
  rewrite map_map. rewrite <- map_id. apply map_ext_in. intros c Hc. apply filter_In in Hc as [_ Hc].
  apply same_key_iff in Hc as [<- <-]. destruct c. reflexivity.
Qed.

(** C04 *)
Lemma caps_of_list_filter l m r a : caps_of_list l = Ok m ->
  filter (same_key r a) (caps_iter m) = filter (same_key r a) l.
Proof.
  intros E. apply caps_of_list_spec in E as (_ & Hs & _ & _ & Hl).
  rewrite filter_caps_iter by exact Hs. rewrite Hl. apply filter_map_back.
Qed.

Lemma caps_of_list_iter l m : caps_of_list l = Ok m ->
  Permutation (caps_iter m) l /\ StronglySorted key_le (caps_iter m) /\
  forall r a, filter (same_key r a) (caps_iter m) = filter (same_key r a) l.
Proof.
  intros E. assert (forall r a, filter (same_key r a) (caps_iter m) = filter (same_key r a) l) as Hf
    by (intros; apply caps_of_list_filter, E).
  split; [apply filters_permutation, Hf | split; [|exact Hf]].
  apply caps_iter_sorted. apply caps_of_list_spec in E. tauto.
Qed.

(** Capability maps without empty parts are determined by their lookups. *)
Lemma lookup2_ext m m' : caps_sorted m -> caps_sorted m' -> caps_full m -> caps_full m' ->
  (forall r a, lookup2 r a m = lookup2 r a m') -> m = m'.
Proof.
  intros [Hm Ha] [Hm' Ha'] Hf Hf' Hl. apply mget_ext; try assumption. intros r.
  assert (forall n n' : capabilities, (forall r abs, In (r, abs) n -> keys_increasing abs) -> caps_full n ->
            (forall r a, lookup2 r a n = lookup2 r a n') ->
            forall abs, mget r n = Some abs -> exists abs', mget r n' = Some abs') as Hsome.
  { intros n n' Hn Hfn Hln abs E. pose proof (mget_in _ _ _ E) as Hin.
    destruct (Hfn _ _ Hin) as [Hne Hcs]. destruct abs as [|[a cs] abs]; [contradiction|].
    specialize (Hln r a). unfold lookup2 in Hln. rewrite E in Hln. simpl in Hln.
    unfold cmp, Ord_bytes in Hln. rewrite (proj2 (bytes_cmp_eq a a) eq_refl) in Hln.
    destruct (mget r n') as [abs'|]; [eexists; reflexivity|].
    exfalso. apply (Hcs a cs); [left; reflexivity | exact Hln]. }
  destruct (mget r m) as [abs|] eqn:E.
  - destruct (Hsome m m' Ha Hf Hl _ E) as [abs' E']. rewrite E'. f_equal.
    pose proof (mget_in _ _ _ E) as Hin. pose proof (mget_in _ _ _ E') as Hin'.
    apply mget_ext; [eapply Ha, Hin | eapply Ha', Hin'|]. intros a.
    specialize (Hl r a). unfold lookup2 in Hl. rewrite E, E' in Hl.
    destruct (mget a abs) as [cs|] eqn:F, (mget a abs') as [cs'|] eqn:F'; auto.
    + congruence.
    + exfalso. apply (proj2 (Hf _ _ Hin) a cs); [apply mget_in, F | exact Hl].
    + exfalso. apply (proj2 (Hf' _ _ Hin') a cs'); [apply mget_in, F' | symmetry; exact Hl].
  - destruct (mget r m') as [abs'|] eqn:E'; [|reflexivity].
    destruct (Hsome m' m Ha' Hf' (fun r a => eq_sym (Hl r a)) _ E') as [abs E2]. congruence.
Qed.

(** C06 *)
Lemma caps_iter_roundtrip m : caps_sorted m -> caps_full m -> caps_objects m -> caps_of_list (caps_iter m) = Ok m.
Proof.
  intros Hs Hf Ho.
  destruct (caps_of_list_ok (caps_iter m)) as [m' E].
  { intros c Hc. apply caps_iter_in in Hc as (abs & cs & H1 & H2 & H3). eapply Ho; eassumption. }
  rewrite E. f_equal. apply caps_of_list_spec in E as (_ & Hs' & Hf' & _ & Hl).
  symmetry. apply lookup2_ext; auto. intros r a. rewrite Hl, filter_caps_iter by exact Hs.
  rewrite map_map. simpl. symmetry. apply map_id.
Qed.

(* ------------------------------------------------------------- caps_of_value *)

Lemma caveats_of_array_iff l r : caveats_of_array l = Ok r <-> r = l /\ forall c, In c l -> object_caveat c.
Proof.
  revert r. induction l as [|v l IH]; intros r; simpl.
  - split; [intros [= <-]; split; [reflexivity | intros c []] | intros [-> _]; reflexivity].
  - destruct (is_object v) eqn:E; simpl.
    + apply is_object_iff in E. destruct (caveats_of_array l) as [r'| | |] eqn:El; simpl.
      * destruct (proj1 (IH r') eq_refl) as [-> Ho]. split.
        -- intros [= <-]. split; [reflexivity|]. intros c [<- | Hc]; auto.
        -- intros [-> _]. reflexivity.
      * split; [discriminate|]. intros [-> Ho].
        assert (Err e = Ok l) by (apply IH; split; [reflexivity | intros; apply Ho; right; assumption]). discriminate.
      * split; [discriminate|]. intros [-> Ho].
        assert (@Panic (list value) p = Ok l) by (apply IH; split; [reflexivity | intros; apply Ho; right; assumption]). discriminate.
      * split; [discriminate|]. intros [-> Ho].
        assert (@Diverged (list value) = Ok l) by (apply IH; split; [reflexivity | intros; apply Ho; right; assumption]). discriminate.
    + split; [discriminate|]. intros [-> Ho].
      assert (object_caveat v) as Hv by (apply Ho; left; reflexivity). apply is_object_iff in Hv. congruence.
Qed.

Definition abs_json (abs : abilities) : list (bytes * value) := map (fun av => (fst av, VArr (snd av))) abs.
Definition caps_json (m : capabilities) : list (bytes * value) :=
  map (fun ra => (fst ra, VObj (abs_json (snd ra)))) m.

Lemma abilities_of_object_ok acc o a :
  abilities_of_object acc o = Ok a <->
  exists abs, o = abs_json abs /\ a = fold_left (fun m kv => minsert (fst kv) (snd kv) m) abs acc /\
              forall k cs, In (k, cs) abs -> forall c, In c cs -> object_caveat c.
Proof.
  revert acc. induction o as [|[k v] o IH]; intros acc; simpl.
  - split.
    + intros [= <-]. exists []. split; [reflexivity | split; [reflexivity | intros ? ? []]].
    + intros (abs & E & -> & _). destruct abs; [reflexivity | discriminate].
  - split.
    + destruct v as [| | | |l|]; try discriminate.
      destruct (caveats_of_array l) as [cs| | |] eqn:El; try discriminate. simpl.
      apply caveats_of_array_iff in El as [-> Ho]. intros Hx. apply IH in Hx as (abs & -> & -> & Ha).
      exists ((k, l) :: abs). split; [reflexivity | split; [reflexivity|]].
      intros k' cs [[= <- <-] | Hin]; [exact Ho | apply (Ha _ _ Hin)].
    + intros (abs & E & -> & Ha). destruct abs as [|[k' cs] abs]; [discriminate|].
      simpl in E. injection E as -> -> ->.
      assert (caveats_of_array cs = Ok cs) as ->.
      { apply caveats_of_array_iff. split; [reflexivity|]. apply (Ha k' cs). left. reflexivity. }
      simpl. apply IH. exists abs. split; [reflexivity | split; [reflexivity|]].
      intros k cs' Hin. apply (Ha k cs'). right. exact Hin.
Qed.

Lemma abs_json_sorted abs : msorted (abs_json abs) <-> msorted abs.
Proof.
  split; apply msorted_keys; unfold abs_json; rewrite map_map; reflexivity.
Qed.

Lemma resources_of_object_ok acc o m : (forall k v, In (k, VObj v) o -> msorted v) ->
  (resources_of_object acc o = Ok m <->
   exists rs, o = caps_json rs /\ m = fold_left (fun m kv => minsert (fst kv) (snd kv) m) rs acc /\
              caps_objects rs).
Proof.
  revert acc. induction o as [|[k v] o IH]; intros acc Hsort; simpl.
  - split.
    + intros [= <-]. exists []. split; [reflexivity | split; [reflexivity | intros ? ? []]].
    + intros (abs & E & -> & _). destruct abs; [reflexivity | discriminate].
  - split.
    + destruct v as [| | | | |ao]; try discriminate.
      destruct (abilities_of_object [] ao) as [a| | |] eqn:Ea; try discriminate. simpl.
      apply abilities_of_object_ok in Ea as (abs & -> & -> & Ha).
      assert (msorted abs) as Hs.
      { apply abs_json_sorted, (Hsort k). left. reflexivity. }
      fold (@mof_list bytes _ _ abs). rewrite (mof_list_id abs Hs).
      intros Hx. apply IH in Hx as (rs & -> & -> & Hr); [|intros k' v' Hin; apply (Hsort k'); right; exact Hin].
      exists ((k, abs) :: rs). split; [reflexivity | split; [reflexivity|]].
      intros r abs' [[= <- <-] | Hin]; [exact Ha | apply (Hr _ _ Hin)].
    + intros (rs & E & -> & Hr). destruct rs as [|[k' abs] rs]; [discriminate|].
      simpl in E. injection E as -> -> ->.
      assert (msorted abs) as Hs.
      { apply abs_json_sorted, (Hsort k'). left. reflexivity. }
      assert (abilities_of_object [] (abs_json abs) = Ok abs) as ->.
      { apply abilities_of_object_ok. exists abs. split; [reflexivity | split].
        - fold (@mof_list bytes _ _ abs). symmetry. apply mof_list_id, Hs.
        - apply (Hr k' abs). left. reflexivity. }
      simpl. apply IH; [intros k v' Hin; apply (Hsort k); right; exact Hin|].
      exists rs. split; [reflexivity | split; [reflexivity|]].
      intros r abs' Hin. apply (Hr r abs'). right. exact Hin.
Qed.

Lemma caps_json_sorted m : msorted (caps_json m) <-> msorted m.
Proof. split; apply msorted_keys; unfold caps_json; rewrite map_map; reflexivity. Qed.

(** C07 *)
Lemma caps_of_value_iff v m : json_ok v ->
  (caps_of_value v = Ok m <-> v = json_of_caps m /\ caps_shape m).
Proof.
  intros Hok.
  assert (forall o, v = VObj o -> msorted o /\ forall k w, In (k, VObj w) o -> msorted w) as Hsort.
  { intros o ->. inversion Hok as [| | | | |? Ho]. subst. apply object_ok_inv in Ho as [Hs Hv].
    split; [exact Hs|]. intros k w Hin. destruct (Hv _ _ Hin) as [_ Hw]. inversion Hw as [| | | | |? Ho']. subst.
    apply object_ok_inv in Ho' as [Hs' _]. exact Hs'. }
  unfold caps_of_value. change (json_of_caps m) with (VObj (caps_json m)). split.
  - destruct v as [| | | | |o]; try discriminate. destruct (Hsort o eq_refl) as [Hs Hsub].
    destruct (resources_of_object [] o) as [m'| | |] eqn:E; try discriminate. simpl.
    apply resources_of_object_ok in E as (rs & -> & -> & Hr); [|exact Hsub].
    fold (@mof_list bytes _ _ rs). rewrite mof_list_id by (apply caps_json_sorted, Hs).
    intros Hc. apply caps_check_iff in Hc as [-> Hne]. split; [reflexivity|].
    intros r abs Hin. split; [apply (Hne _ _ Hin) | apply (Hr _ _ Hin)].
  - intros [-> Hshape]. destruct (Hsort _ eq_refl) as [Hs Hsub].
    assert (resources_of_object [] (caps_json m) = Ok m) as ->.
    { apply resources_of_object_ok; [exact Hsub|]. exists m. split; [reflexivity | split].
      - fold (@mof_list bytes _ _ m). symmetry. apply mof_list_id, caps_json_sorted, Hs.
      - intros r abs Hin. apply (Hshape _ _ Hin). }
    simpl. apply caps_check_iff. split; [reflexivity|]. intros r abs Hin. apply (Hshape _ _ Hin).
Qed.

Lemma caps_of_list_fails_iff l :
  (exists e, caps_of_list l = Err e) <-> exists c, In c l /\ ~ object_caveat (cap_caveat c).
Proof.
  split.
  - intros [e E]. destruct (forallb (fun c => is_object (cap_caveat c)) l) eqn:F.
    + rewrite forallb_forall in F. destruct (caps_of_list_ok l) as [m Hm]; [|congruence].
      intros c Hc. apply is_object_iff, F, Hc.
    + clear E. induction l as [|c l IH]; [discriminate|]. simpl in F. apply andb_false_iff in F as [F | F].
      * exists c. split; [left; reflexivity|]. rewrite <- is_object_iff. congruence.
      * destruct (IH F) as (d & Hd & Hn). exists d. split; [right; exact Hd | exact Hn].
  - intros (c & Hin & Hn). exists ECaveatNotObject. eapply caps_of_list_err; eassumption.
Qed.

Lemma caps_of_list_total l : (exists m, caps_of_list l = Ok m) \/ caps_of_list l = Err ECaveatNotObject.
Proof.
  destruct (forallb (fun c => is_object (cap_caveat c)) l) eqn:F.
  - left. apply caps_of_list_ok. rewrite forallb_forall in F. intros c Hc. apply is_object_iff, F, Hc.
  - right. assert (exists c, In c l /\ ~ object_caveat (cap_caveat c)) as (c & Hc & Hn).
    { induction l as [|c l IH]; [discriminate|]. simpl in F. apply andb_false_iff in F as [F | F].
      - exists c. split; [left; reflexivity|]. rewrite <- is_object_iff. congruence.
      - destruct (IH F) as (d & Hd & Hn). exists d. split; [right; exact Hd | exact Hn]. }
    eapply caps_of_list_err; eassumption.
Qed.

Lemma caps_roundtrip m : caps_sorted m -> caps_shape m -> no_empty_caveats m -> caps_of_list (caps_iter m) = Ok m.
Proof.
  intros Hs Hsh Hne. apply caps_iter_roundtrip; [exact Hs| |].
  - intros r abs Hin. split; [apply (Hsh _ _ Hin) | apply (Hne _ _ Hin)].
  - intros r abs Hin. apply (Hsh _ _ Hin).
Qed.
