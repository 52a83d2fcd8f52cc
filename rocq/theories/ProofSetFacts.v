(** Which proofs a report depends on (C99, C100). *)
From Verif Require Import Prelude Ord SMap Value Capability Semantics Ucan Chain Spec OrdFacts SMapFacts ReduceFacts.

Section ProofSet.
  Context {S A : Type} (SO : scope_ops S) (AO : ability_ops A) (parse : capability -> option (view S A)).

  Lemma originators_same_set issuer anc anc' v : (forall x, In x anc <-> In x anc') ->
    originators_of SO AO issuer anc v = originators_of SO AO issuer anc' v.
  Proof.
    intros He. apply ssorted_ext; [apply originators_of_sorted | apply originators_of_sorted |].
    intros o. rewrite !originators_of_spec. split.
    - intros [(i & Hi & Hr) | [Ho Hi]]; [left; exists i; split; [apply He, Hi | exact Hr] |
        right; split; [exact Ho | intros i Hin; apply Hi, He, Hin]].
    - intros [(i & Hi & Hr) | [Ho Hi]]; [left; exists i; split; [apply He, Hi | exact Hr] |
        right; split; [exact Ho | intros i Hin; apply Hi, He, Hin]].
  Qed.

  Lemma self_infos_alt u n anc : (n = O -> anc = []) -> self_infos SO AO parse u n anc =
    map (fun v => mkInfo (originators_of SO AO (p_iss (u_payload u)) anc v) (p_nbf (u_payload u)) (p_exp (u_payload u)) v)
        (map_while parse (caps_iter (p_cap (u_payload u)))).
  Proof. intros Hn. unfold self_infos. destruct n; [rewrite (Hn eq_refl)|]; reflexivity. Qed.

  Lemma self_infos_same_set u n n' anc anc' : (n = O -> anc = []) -> (n' = O -> anc' = []) -> (forall x, In x anc <-> In x anc') ->
    self_infos SO AO parse u n anc = self_infos SO AO parse u n' anc'.
  Proof.
    intros Hn Hn' He. rewrite !self_infos_alt by assumption. apply map_ext. intros v.
    f_equal. apply originators_same_set, He.
  Qed.

  Lemma redelegated_map u red ps : redelegated_infos u red (map (reduce SO AO parse) ps) =
    rconcat (map (fun o => let? l := match o with Some c => reduce SO AO parse c | None => Panic PReduceUnwrap end in Ok (map (relabel u) l))
      (map (fun i => nth_error ps (N.to_nat i)) red)).
  Proof.
    unfold redelegated_infos. rewrite map_map. f_equal. apply map_ext. intros i. unfold get_unwrap. rewrite nth_error_map.
    destruct (nth_error ps (N.to_nat i)); reflexivity.
  Qed.

  Lemma attenuated_or_redelegated u ps red p : In p ps -> attenuated (Chain u ps red) p \/ redelegated (Chain u ps red) p.
  Proof.
    intros Hin. apply In_nth_error in Hin as [i Hi].
    destruct (in_dec N.eq_dec (N.of_nat i) red) as [H | H]; [right | left]; exists i; auto.
  Qed.

  Lemma no_attenuated ps red anc : ancestral_infos red (map (reduce SO AO parse) ps) = Ok anc -> length ps = O -> anc = [].
  Proof. intros Ha Hl. destruct ps; [|discriminate]. cbn in Ha. congruence. Qed.

  Lemma same_proofs_report u ps red ps' red' r :
    (forall p, attenuated (Chain u ps red) p <-> attenuated (Chain u ps' red') p) ->
    map (fun i => nth_error ps (N.to_nat i)) red = map (fun i => nth_error ps' (N.to_nat i)) red' ->
    reduce SO AO parse (Chain u ps red) = Ok r -> reduce SO AO parse (Chain u ps' red') = Ok r.
  Proof.
    intros Ha Hr Hok. pose proof (reduce_ok_inv _ _ _ _ _ _ _ Hok) as (_ & _ & _ & _ & _ & Hps & _).
    cbn [reduce] in *. rewrite redelegated_map in Hok |- *. rewrite <- Hr.
    destruct (ancestral_infos red (map (reduce SO AO parse) ps)) as [anc|e|q|] eqn:Ea; try discriminate. cbn [rbind] in Hok.
    assert (exists anc', ancestral_infos red' (map (reduce SO AO parse) ps') = Ok anc') as [anc' Ea'].
    { apply rconcat_total. intros a Hin. apply in_map_iff in Hin as ([i w] & <- & Hc). cbn [fst snd].
      destruct (smem i red') eqn:Es; [eauto|]. unfold indices in Hc. apply combine_indices_from in Hc as (j & Hj & ->).
      rewrite nth_error_map in Hj. destruct (nth_error ps' j) as [p|] eqn:Ep; [|discriminate]. injection Hj as <-.
      apply Hps. assert (attenuated (Chain u ps red) p) as (k & _ & Hk).
      { apply Ha. exists j. split; [|exact Ep]. intros H. cbn [c_redelegations] in H. apply smem_in in H. change (0 + j)%nat with j in Es. rewrite H in Es. discriminate. }
      cbn [c_proofs] in Hk. eapply nth_error_In, Hk. }
    rewrite Ea'. cbn [rbind].
    destruct (rconcat _) as [rede|e|q|]; try discriminate. cbn [rbind] in *. injection Hok as <-. do 3 f_equal.
    apply self_infos_same_set; [eapply no_attenuated, Ea' | eapply no_attenuated, Ea |].
    intros x. rewrite (ancestral_ok _ _ _ Ea' x), (ancestral_ok _ _ _ Ea x).
    assert (forall qs rd, (exists i y, ~ In (N.of_nat i) rd /\ nth_error (map (reduce SO AO parse) qs) i = Some (Ok y) /\ In x y) <->
      exists p y, attenuated (Chain u qs rd) p /\ reduce SO AO parse p = Ok y /\ In x y) as Hq.
    { intros qs rd. split.
      - intros (i & y & Hi & Hn & Hx). rewrite nth_error_map in Hn. destruct (nth_error qs i) as [p|] eqn:Ep; [|discriminate].
        injection Hn as Hn. exists p, y. split; [exists i; auto | auto].
      - intros (p & y & (i & Hi & Hp) & Hn & Hx). exists i, y. cbn [c_proofs c_redelegations] in *. rewrite nth_error_map, Hp. cbn [option_map]. rewrite Hn. auto. }
    rewrite !Hq. split; intros (p & y & Hp & Hx); exists p, y; (split; [apply Ha, Hp | exact Hx]).
  Qed.

  (** Without redelegations the proofs matter as a set only. *)
  Lemma proof_set_report u ps ps' r : (forall p, In p ps <-> In p ps') ->
    reduce SO AO parse (Chain u ps []) = Ok r -> reduce SO AO parse (Chain u ps' []) = Ok r.
  Proof.
    intros He. apply same_proofs_report; [|reflexivity].
    assert (forall qs p, attenuated (Chain u qs []) p <-> In p qs) as Hq.
    { intros qs p. split; [apply attenuated_in|]. intros Hin. apply In_nth_error in Hin as [i Hi]. exists i. split; [intros [] | exact Hi]. }
    intros p. rewrite !Hq. apply He.
  Qed.

  (** Citing once more, at the end, a proof that is cited without redelegation. *)
  Lemma repeated_proof_report u ps red p r : attenuated (Chain u ps red) p ->
    reduce SO AO parse (Chain u ps red) = Ok r -> reduce SO AO parse (Chain u (ps ++ [p]) red) = Ok r.
  Proof.
    intros Hp Hok. pose proof (reduce_ok_inv _ _ _ _ _ _ _ Hok) as (_ & _ & _ & _ & _ & _ & Hred).
    revert Hok. apply same_proofs_report.
    - intros q. split.
      + intros (i & Hi & Hn). exists i. split; [exact Hi|]. cbn [c_proofs] in *. rewrite nth_error_app1; [exact Hn|].
        apply nth_error_Some. congruence.
      + intros (i & Hi & Hn). cbn [c_proofs c_redelegations] in *. destruct (Nat.lt_ge_cases i (length ps)) as [Hl|Hl].
        * rewrite nth_error_app1 in Hn by exact Hl. exists i. auto.
        * rewrite nth_error_app2 in Hn by exact Hl. destruct (i - length ps)%nat as [|k] eqn:Ek; [|destruct k; discriminate].
          injection Hn as <-. exact Hp.
    - apply map_ext_in. intros i Hi. specialize (Hred i Hi). rewrite nth_error_app1; [reflexivity | lia].
  Qed.
End ProofSet.
