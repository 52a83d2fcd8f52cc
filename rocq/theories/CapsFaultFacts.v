(** Facts about faulty JSON of capabilities and about the texts of the example semantics. *)
From Verif Require Import Prelude Ord SMap Base58 Value Capability Semantics Url Fixtures Spec SpecCaps OrdFacts SMapFacts CapFacts CapMapFacts.

Lemma not_object v : is_object v = false <-> ~ object_caveat v.
Proof.
  rewrite <- not_true_iff_false. split; intros H H'; apply H; apply is_object_iff; exact H'.
Qed.

Lemma caveats_fault l e : caveats_of_array l = Err e <-> e = ECaveatNotObject /\ exists x, In x l /\ ~ object_caveat x.
Proof.
  induction l as [|v l IH]; cbn [caveats_of_array].
  - split; [discriminate | intros (_ & x & [] & _)].
  - destruct (is_object v) eqn:E; cbn [negb].
    + destruct (caveats_of_array l) as [r|e'|p|] eqn:El; cbn [rbind].
      * split; [discriminate|]. intros (-> & x & [<-|Hin] & Hx); [apply not_object in Hx; congruence|].
        apply caveats_of_array_iff in El as [_ El]. destruct (Hx (El _ Hin)).
      * rewrite IH. split; [intros (-> & x & Hin & Hx); split; [reflexivity|]; exists x; split; [right; exact Hin | exact Hx]|].
        intros (-> & x & [<-|Hin] & Hx); [apply not_object in Hx; congruence|]. split; [reflexivity|]. exists x. auto.
      * exfalso. clear IH. revert El. clear. induction l as [|w l IH]; [discriminate|]. cbn [caveats_of_array].
        destruct (negb (is_object w)); [discriminate|]. destruct (caveats_of_array l); try discriminate. exact IH.
      * exfalso. clear IH. revert El. clear. induction l as [|w l IH]; [discriminate|]. cbn [caveats_of_array].
        destruct (negb (is_object w)); [discriminate|]. destruct (caveats_of_array l); try discriminate. exact IH.
    + split; [intros [= <-]; split; [reflexivity|]; exists v; split; [left; reflexivity | apply not_object, E]|].
      intros [-> _]. reflexivity.
Qed.

Lemma caveats_good l : (exists r, caveats_of_array l = Ok r) <-> good_caveats (VArr l).
Proof.
  split.
  - intros [r H]. apply caveats_of_array_iff in H as [_ H]. exists l. split; [reflexivity | apply Forall_forall, H].
  - intros (l' & [= <-] & H). exists l. apply caveats_of_array_iff. split; [reflexivity | apply Forall_forall, H].
Qed.
Lemma caveats_total l : (exists r, caveats_of_array l = Ok r) \/ (exists e, caveats_of_array l = Err e).
Proof.
  induction l as [|v l IH]; [left; eexists; reflexivity|]. cbn [caveats_of_array].
  destruct (negb (is_object v)); [right; eexists; reflexivity|]. destruct IH as [[r ->] | [e ->]]; [left | right]; eexists; reflexivity.
Qed.

(** Well-formed entries only change the accumulator. *)
Lemma abilities_skip b : Forall (fun kv => good_caveats (snd kv)) b -> forall acc, exists acc', forall c,
  abilities_of_object acc (b ++ c) = abilities_of_object acc' c.
Proof.
  induction 1 as [|[k y] b (l & Hy & Hl) Hb IH]; intros acc; [exists acc; reflexivity|]. cbn [snd] in Hy. subst y.
  destruct (IH (minsert k l acc)) as [acc' E]. exists acc'. intros c. cbn [app abilities_of_object].
  rewrite (proj2 (caveats_of_array_iff l l)) by (split; [reflexivity | apply Forall_forall, Hl]). apply E.
Qed.
Lemma resources_skip b : Forall (fun kv => good_resource (snd kv)) b -> forall acc, exists acc', forall c,
  resources_of_object acc (b ++ c) = resources_of_object acc' c.
Proof.
  induction 1 as [|[k x] b (o & Hx & Ho) Hb IH]; intros acc; [exists acc; reflexivity|]. cbn [snd] in Hx. subst x.
  destruct (abilities_skip o Ho []) as [a Ea]. specialize (Ea []). rewrite app_nil_r in Ea. cbn [abilities_of_object] in Ea.
  destruct (IH (minsert k a acc)) as [acc' E]. exists acc'. intros c. cbn [app resources_of_object]. rewrite Ea. apply E.
Qed.

Lemma abilities_outcome o : forall acc,
  (Forall (fun kv => good_caveats (snd kv)) o /\ exists a, abilities_of_object acc o = Ok a) \/
  (exists b a y c, o = b ++ (a, y) :: c /\ Forall (fun kv => good_caveats (snd kv)) b /\ (forall l, y <> VArr l) /\ abilities_of_object acc o = Err ECaveatsNotArray) \/
  (exists b a l x c, o = b ++ (a, VArr l) :: c /\ Forall (fun kv => good_caveats (snd kv)) b /\ In x l /\ ~ object_caveat x /\ abilities_of_object acc o = Err ECaveatNotObject).
Proof.
  induction o as [|[k y] o IH]; intros acc; [left; split; [constructor | eexists; reflexivity]|].
  assert ((forall l, y <> VArr l) \/ exists l, y = VArr l) as [Hn | [l ->]].
  { destruct y; try (left; intros ? ?; discriminate). right. eexists. reflexivity. }
  - right. left. exists [], k, y, o. split; [reflexivity|]. split; [constructor|]. split; [exact Hn|].
    cbn [abilities_of_object]. destruct y; try reflexivity. destruct (Hn l eq_refl).
  - cbn [abilities_of_object]. destruct (caveats_total l) as [[r Hr] | [e He]].
    + rewrite Hr. cbn [rbind]. assert (Hg : good_caveats (VArr l)) by (apply caveats_good; eauto).
      destruct (IH (minsert k r acc)) as [[Ho Ha] | [(b & a & y & c & -> & Hb & Hy & He) | (b & a & l' & x & c & -> & Hb & Hx & Hx' & He)]].
      * left. split; [constructor; assumption | exact Ha].
      * right. left. exists ((k, VArr l) :: b), a, y, c. split; [reflexivity|]. split; [constructor; assumption | auto].
      * right. right. exists ((k, VArr l) :: b), a, l', x, c. split; [reflexivity|]. split; [constructor; assumption | auto].
    + rewrite He. cbn [rbind]. apply caveats_fault in He as (-> & x & Hx & Hx'). right. right.
      exists [], k, l, x, o. split; [reflexivity|]. split; [constructor | auto].
Qed.

Lemma resources_outcome m : forall acc,
  (Forall (fun kv => good_resource (snd kv)) m /\ exists r, resources_of_object acc m = Ok r) \/
  (exists e, caps_fault (VObj m) e /\ e <> ENoAbilities /\ resources_of_object acc m = Err e).
Proof.
  induction m as [|[k x] m IH]; intros acc; [left; split; [constructor | eexists; reflexivity]|].
  assert ((forall o, x <> VObj o) \/ exists o, x = VObj o) as [Hn | [o ->]].
  { destruct x; try (left; intros ? ?; discriminate). right. eexists. reflexivity. }
  - right. exists EAbilitiesNotObject. split; [apply (CF_abilities [] k x m); [constructor | exact Hn]|]. split; [discriminate|].
    cbn [resources_of_object]. destruct x; try reflexivity. destruct (Hn _ eq_refl).
  - cbn [resources_of_object].
    destruct (abilities_outcome o []) as [[Ho [a Ha]] | [(b & a & y & c & -> & Hb & Hy & He) | (b & a & l' & x & c & -> & Hb & Hx & Hx' & He)]].
    + rewrite Ha. cbn [rbind]. assert (Hg : good_resource (VObj o)) by (exists o; auto).
      destruct (IH (minsert k a acc)) as [[Hm Hr] | (e & Hf & Hne & He)].
      * left. split; [constructor; assumption | exact Hr].
      * right. exists e. split; [|auto]. remember (VObj m) as v eqn:Ev. destruct Hf as [v Hv | bf r x af Hbf Hx | bf r b a' y c af Hbf Hb Hy | bf r b a' l x c af Hbf Hb Hx Hx' | m' r _ _].
        -- subst v. destruct (Hv m eq_refl).
        -- injection Ev as <-. apply (CF_abilities ((k, VObj o) :: bf)); [constructor; assumption | exact Hx].
        -- injection Ev as <-. apply (CF_caveats ((k, VObj o) :: bf)); [constructor; assumption | exact Hb | exact Hy].
        -- injection Ev as <-. apply (CF_caveat ((k, VObj o) :: bf) r b a' l x); [constructor; assumption | exact Hb | exact Hx | exact Hx'].
        -- congruence.
    + rewrite He. right. exists ECaveatsNotArray. split; [|split; [discriminate | reflexivity]].
      apply (CF_caveats [] k b a y c m); [constructor | exact Hb | exact Hy].
    + rewrite He. right. exists ECaveatNotObject. split; [|split; [discriminate | reflexivity]].
      apply (CF_caveat [] k b a l' x c m); [constructor | exact Hb | exact Hx | exact Hx'].
Qed.

Lemma caps_check_outcome m : caps_check m = Ok m \/ caps_check m = Err ENoAbilities.
Proof. unfold caps_check. match goal with |- context [if ?b then _ else _] => destruct b end; auto. Qed.

Lemma caps_fault_iff v e : json_ok v -> (caps_of_value v = Err e <-> caps_fault v e).
Proof.
  intros Hok. split.
  - assert ((forall m, v <> VObj m) \/ exists m, v = VObj m) as [Hn | [m ->]].
    { destruct v; try (left; intros ? ?; discriminate). right. eexists. reflexivity. }
    + intros H. assert (e = ECapsNotObject) as ->; [|apply CF_capabilities, Hn].
      destruct v; try (injection H as <-; reflexivity). destruct (Hn _ eq_refl).
    + cbn [caps_of_value]. destruct (resources_outcome m []) as [[Hm [r Hr]] | (e' & Hf & _ & He)].
      * rewrite Hr. cbn [rbind]. intros Hc. assert (e = ENoAbilities) as -> by (destruct (caps_check_outcome r); congruence).
        destruct (existsb (fun kv => match snd kv with VObj [] => true | _ => false end) m) eqn:Ex.
        { apply existsb_exists in Ex as ([k x] & Hin & Hx). cbn [snd] in Hx. destruct x as [| | | | |[|]]; try discriminate.
          apply (CF_none m k); assumption. }
        exfalso. 
        assert (exists c, VObj m = json_of_caps c /\ caps_shape c) as (c & Ev & Hs).
        { assert (forall m', Forall (fun kv => good_resource (snd kv)) m' -> existsb (fun kv => match snd kv with VObj [] => true | _ => false end) m' = false ->
            exists c, VObj m' = json_of_caps c /\ caps_shape c) as H; [|exact (H m Hm Ex)].
          clear. induction m' as [|[k x] m IH]; intros Hg Ex.
          - exists []. split; [reflexivity | intros r abs []].
          - cbn [existsb snd] in Ex. apply orb_false_iff in Ex as [Ex Ex']. apply Forall_cons_iff in Hg as [(o & Hx & Ho) Hg]. cbn [snd] in Hx. subst x.
            destruct (IH Hg Ex') as (c & Ec & Hc). 
            assert (exists abs, o = abs_json abs /\ forall a cs, In (a, cs) abs -> forall y, In y cs -> object_caveat y) as (abs & -> & Ha).
            { clear - Ho. induction Ho as [|[a y] o (l & Hy & Hl) _ (abs & -> & Ha)]; [exists []; split; [reflexivity | intros a cs []]|].
              cbn [snd] in Hy. subst y. exists ((a, l) :: abs). split; [reflexivity|].
              intros a' cs [[= <- <-] | Hin]; [rewrite Forall_forall in Hl; exact Hl | exact (Ha _ _ Hin)]. }
            exists ((k, abs) :: c). injection Ec as ->. split; [reflexivity|].
            intros r' abs' [[= <- <-] | Hin]; [|exact (Hc _ _ Hin)]. split; [intros ->; discriminate | exact Ha]. }
        pose proof (proj2 (caps_of_value_iff (VObj m) c Hok) (conj Ev Hs)) as Hgood. cbn [caps_of_value] in Hgood. rewrite Hr in Hgood. cbn [rbind] in Hgood. congruence.
      * rewrite He. cbn [rbind]. intros [= <-]. exact Hf.
  - intros Hf. destruct Hf as [v Hv | bf r x af Hbf Hx | bf r b a y c af Hbf Hb Hy | bf r b a l x c af Hbf Hb Hx Hx' | m r Hm Hin].
    + destruct v; try reflexivity. destruct (Hv _ eq_refl).
    + cbn [caps_of_value]. destruct (resources_skip bf Hbf []) as [acc E]. rewrite E. cbn [resources_of_object].
      destruct x; try reflexivity. destruct (Hx _ eq_refl).
    + cbn [caps_of_value]. destruct (resources_skip bf Hbf []) as [acc E]. rewrite E. cbn [resources_of_object].
      destruct (abilities_skip b Hb []) as [acc' E']. rewrite E'. cbn [abilities_of_object]. destruct y; try reflexivity. destruct (Hy _ eq_refl).
    + cbn [caps_of_value]. destruct (resources_skip bf Hbf []) as [acc E]. rewrite E. cbn [resources_of_object].
      destruct (abilities_skip b Hb []) as [acc' E']. rewrite E'. cbn [abilities_of_object].
      rewrite (proj2 (caveats_fault l ECaveatNotObject)) by eauto. reflexivity.
    + destruct (caps_of_value (VObj m)) as [c|e|p|] eqn:Ev.
      * exfalso. apply caps_of_value_iff in Ev as [Ev Hs]; [|exact Hok]. injection Ev as ->. unfold json_of_caps in Hin.
        apply in_map_iff in Hin as ([r' abs] & [= <- Ea] & Hin). apply Hs in Hin as [Hin _]. destruct abs; [congruence | discriminate].
      * cbn [caps_of_value] in Ev. destruct (resources_skip m Hm []) as [acc E]. specialize (E []). rewrite app_nil_r in E. rewrite E in Ev.
        cbn [resources_of_object rbind] in Ev. destruct (caps_check_outcome acc); congruence.
      * exfalso. cbn [caps_of_value] in Ev. destruct (resources_skip m Hm []) as [acc E]. specialize (E []). rewrite app_nil_r in E. rewrite E in Ev.
        cbn [resources_of_object rbind] in Ev. destruct (caps_check_outcome acc); congruence.
      * exfalso. cbn [caps_of_value] in Ev. destruct (resources_skip m Hm []) as [acc E]. specialize (E []). rewrite app_nil_r in E. rewrite E in Ev.
        cbn [resources_of_object rbind] in Ev. destruct (caps_check_outcome acc); congruence.
Qed.

Lemma caps_of_value_total v : (exists m, caps_of_value v = Ok m) \/ (exists e, caps_of_value v = Err e).
Proof.
  destruct v as [| | | | |m]; try (right; eexists; reflexivity). cbn [caps_of_value].
  destruct (resources_outcome m []) as [[_ [r ->]] | (e & _ & _ & ->)]; cbn [rbind]; [|right; eauto].
  destruct (caps_check_outcome r) as [-> | ->]; eauto.
Qed.

(* ---------------------------------------------------------------- C121 *)

Lemma email_url u s : sc_of_url email_scope u = Some s <-> url_scheme u = B "mailto" /\ s = url_path u.
Proof.
  cbn [sc_of_url email_scope]. destruct (bytes_eqb (url_scheme u) (B "mailto")) eqn:E.
  - apply bytes_eqb_eq in E. split; [intros [= <-]; auto | intros [_ ->]; reflexivity].
  - split; [discriminate|]. intros [H _]. rewrite H, bytes_eqb_refl in E. discriminate.
Qed.
Lemma wnfs_url u s : sc_of_url wnfs_scope u = Some s <-> url_scheme u = B "wnfs" /\ url_host u = Some (w_origin s) /\ w_path s = url_path u.
Proof.
  cbn [sc_of_url wnfs_scope]. destruct (url_host u) as [h|]; [|split; [discriminate | intros (_ & H & _); discriminate]].
  destruct (bytes_eqb (url_scheme u) (B "wnfs")) eqn:E.
  - apply bytes_eqb_eq in E. split; [intros [= <-]; auto | intros (_ & [= ->] & <-); destruct s; reflexivity].
  - split; [discriminate|]. intros [H _]. rewrite H, bytes_eqb_refl in E. discriminate.
Qed.
Lemma email_ability_text t a : ab_of_string email_ability t = Some a <-> t = B "email/send".
Proof.
  cbn [ab_of_string email_ability]. destruct (bytes_eqb t (B "email/send")) eqn:E.
  - apply bytes_eqb_eq in E. destruct a. split; auto.
  - split; [discriminate|]. intros ->. rewrite bytes_eqb_refl in E. discriminate.
Qed.
Lemma wnfs_ability_text t l : ab_of_string wnfs_ability t = Some l <-> In (t, l) wnfs_table.
Proof.
  cbn [ab_of_string wnfs_ability]. unfold wnfs_table. split.
  - repeat (match goal with |- (if bytes_eqb t ?x then _ else _) = _ -> _ => destruct (bytes_eqb t x) eqn:?E end;
      [apply bytes_eqb_eq in E; intros [= <-]; rewrite E; cbn [In]; tauto | clear E]). discriminate.
  - cbn [In]. intros H. decompose [or] H; try contradiction; match goal with E : (_, _) = _ |- _ => injection E as <- <- end; reflexivity.
Qed.
Lemma wnfs_ability_print l : In (ab_to_string wnfs_ability l, l) wnfs_table.
Proof. destruct l; cbn; tauto. Qed.
Lemma email_scope_facts u s t :
  (sc_of_url email_scope u = Some s <-> url_scheme u = B "mailto" /\ s = url_path u) /\
  (sc_contains email_scope s t = true <-> s = t) /\
  sc_to_string email_scope s = B "mailto:" ++ s.
Proof. split; [apply email_url|]. split; [apply bytes_eqb_eq | reflexivity]. Qed.
Lemma email_ability_facts t a b :
  (ab_of_string email_ability t = Some a <-> t = B "email/send") /\
  ab_to_string email_ability a = B "email/send" /\ at_least email_ability a b.
Proof. split; [apply email_ability_text|]. split; [reflexivity|]. cbv. discriminate. Qed.

Lemma caveat_outcome v r : caveat_of_value v = r <-> (exists m, v = VObj m /\ r = Ok m) \/ (~ object_caveat v /\ r = Err ECaveatNotObject).
Proof.
  split.
  - intros <-. destruct v; try (right; split; [intros [m H]; discriminate | reflexivity]). left. eauto.
  - intros [(m & -> & ->) | [Hn ->]]; [reflexivity|]. destruct v; try reflexivity. destruct Hn. eexists. reflexivity.
Qed.
