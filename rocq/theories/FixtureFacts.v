(** Facts about the example semantics (C97, C98). *)
From Verif Require Import Prelude Ord Base58 Value Semantics Fixtures Chain Spec OrdFacts TokenFacts SignFacts ReduceFacts.

Lemma parts_contain_iff a : forall b, parts_contain a b = true <-> exists r, b = a ++ r.
Proof.
  induction a as [|x a IH]; intros b; cbn [parts_contain].
  - split; [intros _; exists b; reflexivity | reflexivity].
  - destruct b as [|y b]; [split; [discriminate | intros [r [=]]]|].
    destruct (bytes_eqb x y) eqn:E; cbn [negb].
    + apply bytes_eqb_eq in E. subst y. rewrite IH. split.
      * intros [r ->]. exists r. reflexivity.
      * intros [r [= ->]]. exists r. reflexivity.
    + split; [discriminate|]. intros [r [= -> _]]. rewrite bytes_eqb_refl in E. discriminate.
Qed.

Lemma join_app sep a b : a <> [] -> b <> [] -> join sep (a ++ b) = join sep a ++ sep :: join sep b.
Proof.
  intros Ha Hb. induction a as [|x a IH]; [contradiction|]. destruct a as [|y a].
  - cbn [app join]. destruct b; [contradiction|]. reflexivity.
  - change ((x :: y :: a) ++ b) with (x :: (y :: a) ++ b). cbn [join]. rewrite IH by discriminate.
    destruct ((y :: a) ++ b) eqn:E; [discriminate|]. cbn [app]. rewrite <- app_assoc. reflexivity.
Qed.

Lemma split_on_slash d r : split_on x2f (d ++ x2f :: r) = split_on x2f d ++ split_on x2f r.
Proof.
  destruct (split_on_app_any x2f d (x2f :: r)) as (l & x & y & m & H1 & H2 & ->).
  cbn [split_on] in H2. pose proof (split_on_nonnil x2f r).
  destruct (split_on x2f r) as [|z n]; [contradiction|]. rewrite byte_eqb_refl in H2. injection H2 as <- <-.
  rewrite app_nil_r, H1, <- app_assoc. reflexivity.
Qed.

Lemma path_contains_iff d e : parts_contain (split_on x2f d) (split_on x2f e) = true <-> e = d \/ exists r, e = d ++ x2f :: r.
Proof.
  rewrite parts_contain_iff. split.
  - intros [r Hr]. destruct (split_on_join x2f d) as [Hd _], (split_on_join x2f e) as [He _].
    rewrite Hr in He. destruct r as [|p r].
    + left. rewrite app_nil_r, Hd in He. congruence.
    + right. rewrite join_app, Hd in He; [|apply split_on_nonnil | discriminate]. eauto.
  - intros [->|[r ->]]; [exists []; symmetry; apply app_nil_r|]. rewrite split_on_slash. eauto.
Qed.

Lemma wnfs_contains_iff a b : sc_contains wnfs_scope a b = true <->
  w_origin a = w_origin b /\ (w_path b = w_path a \/ exists r, w_path b = w_path a ++ B "/" ++ r).
Proof.
  cbn [sc_contains wnfs_scope]. destruct (bytes_eqb (w_origin a) (w_origin b)) eqn:E; cbn [negb].
  - apply bytes_eqb_eq in E. rewrite path_contains_iff. change (B "/") with [x2f]. tauto.
  - split; [discriminate|]. intros [H _]. rewrite H, bytes_eqb_refl in E. discriminate.
Qed.

Lemma wnfs_preorder : scope_preorder wnfs_scope.
Proof.
  split.
  - intros a. apply wnfs_contains_iff. auto.
  - intros a b c. rewrite !wnfs_contains_iff. intros [H1 H2] [H3 H4]. split; [congruence|].
    destruct H2 as [H2|[r H2]]; rewrite H2 in H4; [exact H4|]. right. destruct H4 as [H4|[q H4]]; [eauto|].
    exists (r ++ B "/" ++ q). rewrite H4, <- !app_assoc. reflexivity.
Qed.

Lemma email_preorder : scope_preorder email_scope.
Proof.
  split; cbn [sc_contains email_scope].
  - intros a. apply bytes_eqb_refl.
  - intros a b c H1 H2. apply bytes_eqb_eq in H1, H2. subst. apply bytes_eqb_refl.
Qed.

Lemma email_abilities : ability_preorder email_ability.
Proof. split; intros; intros [=]. Qed.

Lemma wnfs_at_least_iff a b : at_least wnfs_ability a b <-> (wnfs_rank b <= wnfs_rank a)%N.
Proof. unfold at_least. cbn [ab_cmp wnfs_ability]. destruct (N.compare_spec (wnfs_rank a) (wnfs_rank b)); split; intros; try discriminate; try lia; congruence. Qed.

Lemma wnfs_abilities : ability_preorder wnfs_ability.
Proof.
  split.
  - intros a. apply wnfs_at_least_iff. lia.
  - intros a b c. rewrite !wnfs_at_least_iff. lia.
Qed.

(** The level with a name. *)
Lemma wnfs_names a b : ab_of_string wnfs_ability (ab_to_string wnfs_ability a) = Some b <-> a = b.
Proof. destruct a; (split; [intros [= <-]; reflexivity | intros <-; reflexivity]). Qed.

Lemma wnfs_level_order a b : at_least wnfs_ability a b <-> a = b \/ exists before between after,
  [WSuperUser; WOverwrite; WSoftDelete; WRevise; WCreate] = before ++ a :: between ++ b :: after.
Proof.
  rewrite wnfs_at_least_iff. split.
  - destruct a, b; cbn [wnfs_rank]; intros H; try lia; try (left; reflexivity); right.
    + exists [WSuperUser; WOverwrite; WSoftDelete], [], []. reflexivity.
    + exists [WSuperUser; WOverwrite], [WRevise], []. reflexivity.
    + exists [WSuperUser; WOverwrite], [], [WCreate]. reflexivity.
    + exists [WSuperUser], [WSoftDelete; WRevise], []. reflexivity.
    + exists [WSuperUser], [WSoftDelete], [WCreate]. reflexivity.
    + exists [WSuperUser], [], [WRevise; WCreate]. reflexivity.
    + exists [], [WOverwrite; WSoftDelete; WRevise], []. reflexivity.
    + exists [], [WOverwrite; WSoftDelete], [WCreate]. reflexivity.
    + exists [], [WOverwrite], [WRevise; WCreate]. reflexivity.
    + exists [], [], [WSoftDelete; WRevise; WCreate]. reflexivity.
  - intros [->|(b1 & b2 & b3 & H)]; [lia|].
    destruct b1 as [|x1 [|x2 [|x3 [|x4 [|x5 b1]]]]]; cbn [app] in H; try discriminate;
    destruct b2 as [|y1 [|y2 [|y3 [|y4 b2]]]]; cbn [app] in H; try discriminate; injection H; intros; subst;
    repeat match goal with H : [] = ?l ++ _ :: _ |- _ => destruct l; discriminate | H : [] = _ :: _ |- _ => discriminate end; cbn [wnfs_rank]; lia.
Qed.

Lemma wnfs_claims_covered parse c r v : (forall w, understood parse c w -> json_ok (v_caveat w)) ->
  reduce wnfs_scope wnfs_ability parse c = Ok r -> heeded parse (c_ucan c) v ->
  exists x, In x r /\ enables_or_is wnfs_scope wnfs_ability (i_capability x) v /\
    forall o, credited wnfs_scope wnfs_ability parse c v o -> In o (i_originators x).
Proof. intros Hj. apply report_covers_claim, preorders_transitive; [exact wnfs_preorder | exact wnfs_abilities | exact Hj]. Qed.

Lemma wnfs_below o p r : sc_contains wnfs_scope (mkWnfs o p) (mkWnfs o (p ++ B "/" ++ r)) = true.
Proof. apply wnfs_contains_iff. cbn [w_origin w_path]. split; [reflexivity | right; exists r; reflexivity]. Qed.

Lemma wnfs_trailing_slash : ~ (forall o p r, sc_contains wnfs_scope (mkWnfs o (p ++ B "/")) (mkWnfs o (p ++ B "/" ++ r)) = true) /\
  exists whole public,
    sc_of_url wnfs_scope whole = Some (mkWnfs (B "alice.fission.name") (B "/")) /\
    sc_of_url wnfs_scope public = Some (mkWnfs (B "alice.fission.name") (B "/public")) /\
    sc_contains wnfs_scope (mkWnfs (B "alice.fission.name") (B "/")) (mkWnfs (B "alice.fission.name") (B "/public")) = false.
Proof.
  split; [intros H; specialize (H (B "h") (B "/public") (B "a")); vm_compute in H; discriminate|].
  exists (mkUrl (B "wnfs") (B "/") (Some (B "alice.fission.name"))),
         (mkUrl (B "wnfs") (B "/public") (Some (B "alice.fission.name"))).
  vm_compute. repeat split.
Qed.
