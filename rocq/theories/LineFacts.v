(** Facts about lines of delegations and the work of a validation. *)
From Verif Require Import Prelude Ord SMap Utf8 Value Cid Ext Json Capability Semantics Key Ucan Store Chain
  Spec SpecChain SpecWire SpecJson SpecCost SpecLine OrdFacts SMapFacts DidFacts TimeFacts ChainFacts ReduceFacts CostFacts JsonGrammarFacts.

(* ---------------------------------------------------------------- C116 *)

Section Line.
  Context {S A : Type} (SO : scope_ops S) (AO : ability_ops A) (parse : capability -> option (view S A)).

  Lemma sole_claim_caps u v : sole_claim parse u v -> map_while parse (caps_iter (p_cap (u_payload u))) = [v].
  Proof. intros (cap & Hc & Hv). rewrite Hc. cbn. destruct cap as [r a n]. cbn in *. rewrite Hv. reflexivity. Qed.

  Lemma line_nonempty l c : line parse l c -> exists u v l', l = (u, v) :: l' /\ c_ucan c = u.
  Proof. intros H. destruct H; do 3 eexists; split; reflexivity. Qed.

  Lemma line_report l c : line parse l c -> exists u v l' o, l = (u, v) :: l' /\ goes_back_to SO AO l o /\
    reduce SO AO parse c = Ok [mkInfo [o] (p_nbf (u_payload u)) (p_exp (u_payload u)) v].
  Proof.
    induction 1 as [u v Hs | u v l c Hs Hl (u' & v' & l' & o & -> & Ho & Hr)].
    - exists u, v, [], (p_iss (u_payload u)). split; [reflexivity|]. split; [constructor|].
      cbn [reduce map length self_infos]. unfold ancestral_infos, redelegated_infos. cbn [map length indices seq combine rconcat app].
      rewrite (sole_claim_caps u v Hs). reflexivity.
    - cbn [reduce map length]. rewrite Hr. unfold ancestral_infos, redelegated_infos, indices.
      cbn [map length seq combine rconcat fst snd app self_infos]. change (smem (N.of_nat 0) []) with false.
      cbn [rbind app self_infos]. rewrite (sole_claim_caps u v Hs). cbn [map app].
      unfold originators_of. cbn [fold_left i_capability i_originators].
      destruct (view_enables SO AO v' v) eqn:Hen.
      + exists u, v, ((u', v') :: l'), o. split; [reflexivity|]. split; [apply GB_on; assumption|]. reflexivity.
      + exists u, v, ((u', v') :: l'), (p_iss (u_payload u)). split; [reflexivity|]. split; [apply GB_here; assumption|]. reflexivity.
  Qed.

  Lemma goes_back_to_fun l o o' : goes_back_to SO AO l o -> goes_back_to SO AO l o' -> o = o'.
  Proof.
    intros H. revert o'. induction H as [u v | u v u' v' l He | u v u' v' l o He Ho IH]; intros o' H'; inversion H'; subst; try congruence. auto.
  Qed.

  Lemma line_report_iff u v l c r : line parse ((u, v) :: l) c ->
    (reduce SO AO parse c = Ok r <->
     exists o, goes_back_to SO AO ((u, v) :: l) o /\ r = [mkInfo [o] (p_nbf (u_payload u)) (p_exp (u_payload u)) v]).
  Proof.
    intros Hl. destruct (line_report _ _ Hl) as (u' & v' & l' & o & E & Ho & Hr). injection E as <- <- <-. rewrite Hr. split.
    - intros [= <-]. exists o. auto.
    - intros (o' & Ho' & ->). rewrite (goes_back_to_fun _ _ _ Ho Ho'). reflexivity.
  Qed.

  Lemma attenuating_first l u v : attenuating SO AO (l ++ [(u, v)]) -> goes_back_to SO AO (l ++ [(u, v)]) (p_iss (u_payload u)).
  Proof.
    induction l as [|[w x] l IH]; cbn [app]; intros H; [constructor|].
    destruct (l ++ [(u, v)]) as [|[w' x'] l'] eqn:El; [destruct l; discriminate|].
    assert (view_enables SO AO x' x = true /\ attenuating SO AO ((w', x') :: l')) as [He Ht] by (inversion H; subst; auto).
    apply GB_on; [exact He | apply IH, Ht].
  Qed.

  Lemma line_attenuating u v l w x c : line parse ((u, v) :: l ++ [(w, x)]) c -> attenuating SO AO ((u, v) :: l ++ [(w, x)]) ->
    reduce SO AO parse c = Ok [mkInfo [p_iss (u_payload w)] (p_nbf (u_payload u)) (p_exp (u_payload u)) v].
  Proof.
    intros Hl Ha. apply (line_report_iff u v (l ++ [(w, x)])); [exact Hl|].
    exists (p_iss (u_payload w)). split; [exact (attenuating_first ((u, v) :: l) w x Ha) | reflexivity].
  Qed.
End Line.

(* ---------------------------------------------------------------- C117 *)

Lemma readings_app nt l l' : readings nt (l ++ l') = (readings nt l + readings nt l')%nat.
Proof. unfold readings. rewrite map_app, list_sum_app. reflexivity. Qed.
Lemma issuers_app l l' : issuers (l ++ l') = issuers l ++ issuers l'.
Proof. apply map_app. Qed.

Lemma validate_exact E nt slice dids u st st' : v_parser st = parser_after slice dids ->
  (validate E u nt st = (Ok tt, st') <-> passes E nt slice (v_ticks st) u /\ st' = state_after slice dids nt st [u] 0).
Proof.
  intros Hp. assert (Hw : with_parser slice st) by (exists dids; exact Hp).
  assert (Hst : forall s, validate E u nt st = (Ok tt, s) -> s = state_after slice dids nt st [u] 0).
  { intros s H. unfold validate in H. apply bind_ok in H as (ex & s1 & H1 & H). destruct ex; [discriminate|].
    apply bind_ok in H as (ea & s2 & H2 & H). destruct ea; [discriminate|].
    assert (s1 = mkState (v_parser st) (v_ticks st + expiry_readings nt u) (v_reads st) (v_checks st)) as ->.
    { unfold is_expired, expiry_readings in *. destruct (p_exp (u_payload u)).
      - destruct nt; apply bind_ok in H1 as (t & s0 & Ht & H1); injection Ht as _ <-; injection H1 as _ <-; destruct st; cbn; rewrite ?Nat.add_0_r, ?Nat.add_1_r; reflexivity.
      - injection H1 as <-. destruct st; cbn; rewrite ?Nat.add_0_r; reflexivity. }
    assert (s2 = mkState (v_parser st) (v_ticks st + expiry_readings nt u + start_readings u) (v_reads st) (v_checks st)) as ->.
    { unfold is_too_early, start_readings in *. destruct (p_nbf (u_payload u)).
      - apply bind_ok in H2 as (t & s0 & Ht & H2); injection Ht as _ <-; injection H2 as _ <-; cbn; rewrite ?Nat.add_1_r; reflexivity.
      - injection H2 as <-. rewrite Nat.add_0_r. reflexivity. }
    unfold check_signature in H. apply bind_ok in H as (k & s3 & H3 & H). unfold verify in H. injection H as _ <-.
    unfold parse_did in H3. cbn [v_parser v_ticks v_reads v_checks] in H3. rewrite Hp in H3.
    pose proof (parser_after_snoc slice dids (p_iss (u_payload u))) as Hs.
    destruct (did_parse (parser_after slice dids) (p_iss (u_payload u))) as [r p]. cbn [snd] in Hs. injection H3 as _ <-.
    unfold state_after, readings, issuers. cbn [v_parser v_ticks v_reads v_checks map list_sum fold_right length].
    rewrite Hs. f_equal; lia. }
  assert (Hok : fst (validate E u nt st) = Ok tt <-> passes E nt slice (v_ticks st) u).
  { rewrite validate_ok_iff, (with_parser_signed slice st u Hw). unfold passes, expiry_time, start_time, expiry_readings.
    destruct (p_exp (u_payload u)), nt; rewrite ?Nat.add_0_r, ?Nat.add_1_r; reflexivity. }
  split.
  - intros H. split; [apply Hok; rewrite H; reflexivity | exact (Hst _ H)].
  - intros [H ->]. apply Hok in H. destruct (validate E u nt st) as [r s] eqn:Ev. cbn [fst] in H. subst r. rewrite (Hst _ eq_refl). reflexivity.
Qed.

Lemma answers_exact E c st u token st' : require_token E c st = (Ok token, st') /\ parse_token (e_ext E) token = Ok u ->
  answers E (v_reads st) c u /\ st' = mkState (v_parser st) (v_ticks st) (S (v_reads st)) (v_checks st).
Proof.
  intros [Hr Hp]. apply require_token_ok in Hr as (H1 & H2 & H3 & ->). split; [|reflexivity]. split; [exact H1|].
  exists token. split; [exact H2|]. split; [apply utf8_valid_iff, H3 | apply token_grammar_iff, Hp].
Qed.
Lemma answers_read E c st u : answers E (v_reads st) c u -> exists token,
  require_token E c st = (Ok token, mkState (v_parser st) (v_ticks st) (S (v_reads st)) (v_checks st)) /\ parse_token (e_ext E) token = Ok u.
Proof.
  intros (H1 & token & H2 & H3 & H4). exists token. split; [|apply token_grammar_iff, H4].
  apply require_token_ok. split; [exact H1|]. split; [exact H2|]. split; [apply utf8_valid_iff, H3 | reflexivity].
Qed.

Lemma links_length c : length (links c) = S (length (tl (links c))).
Proof. destruct c. reflexivity. Qed.

Lemma state_after_app slice dids nt st l l' n n' :
  state_after slice (dids ++ issuers l) nt (state_after slice dids nt st l n) l' n' = state_after slice dids nt st (l ++ l') (n + n').
Proof.
  unfold state_after. cbn [v_parser v_ticks v_reads v_checks]. rewrite issuers_app, readings_app, app_length, app_assoc. f_equal; lia.
Qed.

Lemma mmap_exact E nt slice f u :
  (forall u st dids c st', v_parser st = parser_after slice dids -> from_ucan E nt f u st = (Ok c, st') ->
     c_ucan c = u /\ (levels c <= f)%nat /\ accepted E nt slice (v_ticks st) (v_reads st) c /\ st' = state_after slice dids nt st (links c) (length (tl (links c)))) ->
  forall texts st dids ps st', v_parser st = parser_after slice dids -> mmap (build_proof E (from_ucan E nt f) u) texts st = (Ok ps, st') ->
    (fold_right Nat.max 0 (map levels ps) <= f)%nat /\ accepted_proofs E nt slice u (v_ticks st) (v_reads st) texts ps /\
    st' = state_after slice dids nt st (flat_map links ps) (length (flat_map links ps)).
Proof.
  intros IH. induction texts as [|t texts IHt]; intros st dids ps st' Hp Hm.
  - injection Hm as <- <-. split; [cbn; lia|]. split; [constructor|].
    destruct st; unfold state_after; cbn in *. rewrite app_nil_r, !Nat.add_0_r, Hp. reflexivity.
  - cbn [mmap] in Hm. apply bind_ok in Hm as (pc & s2 & H1 & Hm). apply bind_ok in Hm as (pcs & s3 & H2 & Hm). injection Hm as <- <-.
    apply build_proof_ok in H1 as (cd & token & pu & s0 & Hcd & Hr & Hpt & Hrec & Hl).
    destruct (answers_exact _ _ _ _ _ _ (conj Hr Hpt)) as [Ha ->].
    apply (IH _ _ dids) in Hrec as (Hu & Hlv & Hacc & ->); [|exact Hp]. cbn [v_ticks v_reads] in Hacc. subst pu.
    set (s1 := mkState (v_parser st) (v_ticks st) (S (v_reads st)) (v_checks st)) in *.
    apply (IHt _ (dids ++ issuers (links pc))) in H2 as (Hlv' & Hacc' & ->); [|reflexivity].
    cbn [v_ticks v_reads state_after s1] in Hacc'. rewrite (Nat.add_succ_l (v_reads st)), <- Nat.add_succ_r, <- links_length in Hacc'.
    split; [cbn [map fold_right]; lia|]. split.
    + eapply Accepted_proof; eassumption.
    + rewrite state_after_app. cbn [flat_map]. unfold state_after, s1. cbn [v_parser v_ticks v_reads v_checks].
      rewrite app_length. pose proof (links_length pc). f_equal. lia.
Qed.

Lemma accepted_sound E nt slice fuel : forall u st dids c st', v_parser st = parser_after slice dids -> from_ucan E nt fuel u st = (Ok c, st') ->
  c_ucan c = u /\ (levels c <= fuel)%nat /\ accepted E nt slice (v_ticks st) (v_reads st) c /\
  st' = state_after slice dids nt st (links c) (length (tl (links c))).
Proof.
  induction fuel as [|f IH]; intros u st dids c st' Hp H; [discriminate|].
  apply from_ucan_ok in H as (s1 & proofs & red & Hv & Hm & Hred & ->).
  apply (validate_exact E nt slice dids) in Hv as [Hv ->]; [|exact Hp].
  apply (mmap_exact E nt slice f u IH _ _ (dids ++ issuers [u])) in Hm as (Hlv & Hacc & ->); [|reflexivity].
  split; [reflexivity|]. split; [cbn [levels]; lia|]. split.
  - constructor; [exact Hv | | exact Hred]. cbn [state_after v_ticks v_reads] in Hacc. rewrite (Nat.add_0_r (v_reads st)) in Hacc. exact Hacc.
  - rewrite state_after_app. reflexivity.
Qed.

Scheme accepted_mut := Minimality for accepted Sort Prop with accepted_proofs_mut := Minimality for accepted_proofs Sort Prop.

Lemma accepted_complete E nt slice t r c : accepted E nt slice t r c -> forall fuel st dids, v_parser st = parser_after slice dids ->
  v_ticks st = t -> v_reads st = r -> (levels c <= fuel)%nat ->
  from_ucan E nt fuel (c_ucan c) st = (Ok c, state_after slice dids nt st (links c) (length (tl (links c)))).
Proof.
  revert t r c. apply (accepted_mut E nt slice
    (fun t r c => forall fuel st dids, v_parser st = parser_after slice dids ->
       v_ticks st = t -> v_reads st = r -> (levels c <= fuel)%nat ->
       from_ucan E nt fuel (c_ucan c) st = (Ok c, state_after slice dids nt st (links c) (length (tl (links c)))))
    (fun u t r texts ps => forall f st dids, v_parser st = parser_after slice dids ->
       v_ticks st = t -> v_reads st = r -> (fold_right Nat.max 0 (map levels ps) <= f)%nat ->
       mmap (build_proof E (from_ucan E nt f) u) texts st = (Ok ps, state_after slice dids nt st (flat_map links ps) (length (flat_map links ps))))).
  - intros t r u proofs red Hpass _ IH Hred fuel st dids Hp Ht Hr Hf. cbn [levels] in Hf. destruct fuel as [|f]; [lia|].
    cbn [c_ucan]. apply from_ucan_ok. exists (state_after slice dids nt st [u] 0), proofs, red. split.
    { apply (validate_exact E nt slice dids u st _ Hp). rewrite Ht. split; [exact Hpass | reflexivity]. }
    split; [|split; [exact Hred | reflexivity]].
    rewrite (IH f _ (dids ++ issuers [u])); [|reflexivity|cbn [state_after v_ticks]; lia|cbn [state_after v_reads]; lia|lia].
    rewrite state_after_app. reflexivity.
  - intros u t r f st dids Hp _ _ _. cbn [mmap flat_map length]. unfold ret, state_after. destruct st. cbn in *.
    rewrite app_nil_r, !Nat.add_0_r, Hp. reflexivity.
  - intros u t r text c pc texts proofs Hc Ha Hl _ IH _ IHs f st dids Hp Ht Hr Hf. cbn [map fold_right] in Hf. subst t r.
    destruct (answers_read _ _ _ _ Ha) as (token & Hrt & Hpt).
    set (s1 := mkState (v_parser st) (v_ticks st) (S (v_reads st)) (v_checks st)) in *.
    cbn [mmap]. apply bind_ok. exists pc, (state_after slice dids nt s1 (links pc) (length (tl (links pc)))). split.
    { apply build_proof_ok. exists c, token, (c_ucan pc), s1. split; [exact Hc|]. split; [exact Hrt|]. split; [exact Hpt|].
      split; [apply IH; [exact Hp | reflexivity | reflexivity | lia] | exact Hl]. }
    apply bind_ok. eexists proofs, _. split.
    { apply (IHs f _ (dids ++ issuers (links pc))); [reflexivity | reflexivity | | lia].
      cbn [state_after v_reads s1]. rewrite (links_length pc). lia. }
    unfold ret. rewrite state_after_app. cbn [flat_map]. unfold state_after, s1. cbn [v_parser v_ticks v_reads v_checks].
    do 2 f_equal. rewrite app_length, (links_length pc). lia.
Qed.

Lemma from_ucan_exact E nt slice dids fuel u st c st' : v_parser st = parser_after slice dids ->
  (from_ucan E nt fuel u st = (Ok c, st') <->
   u = c_ucan c /\ (levels c <= fuel)%nat /\ accepted E nt slice (v_ticks st) (v_reads st) c /\
   st' = state_after slice dids nt st (links c) (length (links c) - 1)).
Proof.
  intros Hp. assert (length (links c) - 1 = length (tl (links c)))%nat as -> by (rewrite (links_length c); lia). split.
  - intros H. destruct (accepted_sound _ _ _ _ _ _ _ _ _ Hp H) as (<- & H1 & H2 & H3). auto.
  - intros (-> & H1 & H2 & ->). eapply accepted_complete; [exact H2 | exact Hp | reflexivity | reflexivity | exact H1].
Qed.

Lemma from_token_exact E nt slice dids fuel token st c st' : v_parser st = parser_after slice dids ->
  (from_token E nt fuel token st = (Ok c, st') <->
   token_grammar (e_ext E) token (c_ucan c) /\ (levels c <= fuel)%nat /\ accepted E nt slice (v_ticks st) (v_reads st) c /\
   st' = state_after slice dids nt st (links c) (length (links c) - 1)).
Proof.
  intros Hp. unfold from_token. rewrite bind_ok. rewrite <- token_grammar_iff. split.
  - intros (u & s1 & Hl & H). apply lift_ok in Hl as [Hl ->]. apply (from_ucan_exact _ _ _ _ _ _ _ _ _ Hp) in H as (-> & H). auto.
  - intros (Ht & H). exists (c_ucan c), st. split; [apply lift_ok; auto|]. apply (from_ucan_exact _ _ _ _ _ _ _ _ _ Hp). auto.
Qed.

Lemma from_cid_exact E nt slice dids fuel d st c st' : v_parser st = parser_after slice dids ->
  (from_cid E nt fuel d st = (Ok c, st') <->
   answers E (v_reads st) d (c_ucan c) /\ (levels c <= fuel)%nat /\ accepted E nt slice (v_ticks st) (S (v_reads st)) c /\
   st' = state_after slice dids nt st (links c) (length (links c))).
Proof.
  intros Hp. unfold from_cid. rewrite bind_ok.
  set (s1 := mkState (v_parser st) (v_ticks st) (S (v_reads st)) (v_checks st)).
  assert (Hs : state_after slice dids nt s1 (links c) (length (links c) - 1) = state_after slice dids nt st (links c) (length (links c))).
  { unfold state_after, s1. cbn [v_parser v_ticks v_reads v_checks]. rewrite (links_length c). f_equal. lia. }
  split.
  - intros (token & s & Hr & H). pose proof Hr as Hr'. apply require_token_ok in Hr' as (_ & _ & _ & ->). fold s1 in Hr, H.
    apply (from_token_exact E nt slice dids) in H as (Ht & H1 & H2 & H3); [|exact Hp].
    apply token_grammar_iff in Ht. destruct (answers_exact _ _ _ _ _ _ (conj Hr Ht)) as [Ha _].
    split; [exact Ha|]. split; [exact H1|]. split; [exact H2|]. rewrite H3. exact Hs.
  - intros (Ha & H1 & H2 & ->). destruct (answers_read _ _ _ _ Ha) as (token & Hr & Ht). fold s1 in Hr.
    exists token, s1. split; [exact Hr|]. apply (from_token_exact E nt slice dids); [exact Hp|].
    split; [apply token_grammar_iff, Ht|]. split; [exact H1|]. split; [exact H2 | symmetry; exact Hs].
Qed.

(** Each link with the answers used for it. *)
Lemma accepted_links E nt slice t r c : accepted E nt slice t r c -> forall l u l', links c = l ++ u :: l' ->
  passes E nt slice (t + readings nt l) u /\ (l <> [] -> exists d, answers E (r + length l - 1) d u).
Proof.
  revert t r c. apply (accepted_mut E nt slice
    (fun t r c => forall l u l', links c = l ++ u :: l' ->
       passes E nt slice (t + readings nt l) u /\ (l <> [] -> exists d, answers E (r + length l - 1) d u))
    (fun w t r texts ps => forall l u l', flat_map links ps = l ++ u :: l' ->
       passes E nt slice (t + readings nt l) u /\ exists d, answers E (r + length l) d u)).
  - intros t r u proofs red Hp _ IH _ [|w l] x l' El; cbn [links app] in El.
    + injection El as <- _. cbn. rewrite Nat.add_0_r. split; [exact Hp | contradiction].
    + injection El as -> El. apply IH in El as [H1 H2]. change (w :: l) with ([w] ++ l). rewrite readings_app, app_length. cbn [length].
      split; [rewrite Nat.add_assoc; exact H1|]. intros _. replace (r + (1 + length l) - 1)%nat with (r + length l)%nat by lia. exact H2.
  - intros w t r l u l' El. destruct l; discriminate.
  - intros w t r text c pc texts proofs _ Ha _ _ IH _ IHs l u l' El. cbn [flat_map] in El.
    destruct (app_eq_app _ _ _ _ El) as (m & [[E1 E2] | [E1 E2]]).
    + destruct m as [|y m].
      * rewrite app_nil_r in E1. cbn [app] in E2. symmetry in E2. destruct (IHs [] u l' E2) as [H1 H2].
        rewrite <- E1. cbn [length] in H2. rewrite Nat.add_0_r in H2. rewrite (Nat.add_0_r _) in H1. split; [exact H1 | exact H2].
      * cbn [app] in E2. injection E2 as <- E2. destruct (IH l u m E1) as [H1 H2]. split; [exact H1|].
        destruct l as [|y l].
        -- cbn [length]. rewrite Nat.add_0_r. exists c. destruct pc as [pu pps pr]. cbn [links app c_ucan] in *. injection E1 as -> _. exact Ha.
        -- destruct H2 as [d H2]; [discriminate|]. exists d. replace (r + length (y :: l))%nat with (S r + length (y :: l) - 1)%nat by (cbn [length]; lia). exact H2.
    + destruct (IHs m u l' E2) as [H1 H2]. rewrite E1, readings_app, app_length, !Nat.add_assoc. split; [exact H1 | exact H2].
Qed.
