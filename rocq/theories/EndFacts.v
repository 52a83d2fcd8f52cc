(** Facts for the end-to-end properties. *)
From Coq Require Import Sorting.Sorted Sorting.Permutation.
From Verif Require Export ChainMoreFacts BuilderFacts TokenFacts SpecBuilder SpecEnd.

Lemma known_signed X slice rng s u : known_key slice (s_issuer s) -> sign X rng s = Ok u -> signed_by_issuer (did_parser_new slice) u.
Proof.
  intros (did & k' & H1 & H2 & H3) Hs. apply sign_iff in Hs as (_ & Hp & _ & Hg).
  apply ucan_payload_iff in Hp as (_ & Hi & _). exists k'. split; [|apply H3, Hg]. congruence.
Qed.

(** A memory store does not change by itself. *)
Lemma holds_writes_steady E ops t : holds_writes E ops -> (forall n, e_clock E n = t) -> steady E.
Proof. intros Hh Hc. split; [intros n m; rewrite !Hc; reflexivity | intros n m c; rewrite !Hh; reflexivity]. Qed.

Lemma accepted_iff E slice c : steady E -> accepted E slice c <-> valid_chain E None slice (fun _ => True) (fun _ => True) c.
Proof.
  intros Hs. split.
  - intros Ha. assert (with_parser slice (mkState (did_parser_new slice) 0 0 0)) as Hp by (exists []; reflexivity).
    specialize (Ha _ Hp). apply (chain_accepted_iff _ _ slice _ _ _ Hs Hp) in Ha. apply Ha.
  - intros Hv st Hp. apply (chain_accepted_iff _ _ slice _ _ _ Hs Hp). auto.
Qed.

Lemma Forall2_map_l {A C D} (f : A -> C) (P : C -> D -> Prop) l l' :
  Forall2 (fun a d => P (f a) d) l l' -> Forall2 P (map f l) l'.
Proof. intros Hf. induction Hf; constructor; auto. Qed.

Lemma Forall2_len {A C} (P : A -> C -> Prop) l l' : Forall2 P l l' -> length l = length l'.
Proof. intros Hf. induction Hf; simpl; congruence. Qed.

(** What the builder makes from accepted proofs is accepted. *)
Lemma built_accepted E slice sops t0 t rng ops s u chains :
  holds_writes E sops -> collision_free (e_ext E) sops -> (forall n, e_clock E n = t0) ->
  word (N.of_nat (length ops)) -> build (e_ext E) t (builder_run (e_ext E) ops) = Ok s -> sign (e_ext E) rng s = Ok u ->
  known_key slice (s_issuer s) -> live_at (u_payload u) (Z.of_N t0) ->
  Forall2 (fun p pc => snd (fst p) = None /\ c_ucan pc = fst (fst p) /\ stored (e_ext E) sops (fst (fst p)) /\
                       linked u (fst (fst p)) /\ accepted E slice pc) (proofs_added ops) chains ->
  (forall cap i, claimed_explicitly ops cap -> names_proof (e_ext E) cap i -> (i < N.of_nat (length chains))%N) ->
  exists red, accepted E slice (Chain u chains red).
Proof.
  intros Hh Hcf Hck Hw Hb Hs Hk Hl Hf Hx.
  assert (steady E) as Hst by (eapply holds_writes_steady; eassumption).
  pose proof (build_described _ _ _ _ Hw Hb) as Hd.
  assert (length chains = length (proofs_added ops)) as Hlen by (symmetry; eapply Forall2_len, Hf).
  destruct (redelegations_from_total (e_ext E) (length chains) (caps_iter (p_cap (u_payload u))) []) as [red Hred].
  { intros i c Hc Hn. apply claims_iter in Hc. apply (signed_claims _ _ _ _ _ Hs) in Hc. rewrite (de_claims _ _ _ _ Hd) in Hc.
    apply claims_added_in in Hc as [Hc | (j & a & h & Hj & ->)]; [eapply Hx; eassumption|].
    assert (j < length (proofs_added ops))%nat as Hlt by (apply nth_error_Some; congruence).
    pose proof (proofs_added_length ops). apply delegation_names in Hn; [|unfold word in *; cbn; lia]. subst i. cbn. lia. }
  exists red. apply accepted_iff; [exact Hst|]. constructor.
  - split; [|split].
    + intros e He. exists 0%nat. split; [exact I|]. rewrite Hck. apply N2Z.inj_le. apply Hl, He.
    + intros b Hbf. exists 0%nat. split; [exact I|]. rewrite Hck. apply N2Z.inj_le. apply Hl, Hbf.
    + eapply known_signed; eassumption.
  - rewrite (signed_cited _ _ _ _ Hs), (de_proofs _ _ _ _ Hd). apply Forall2_map_l.
    eapply Forall2_impl; [|exact Hf]. intros [[a h] d] pc. cbn [fst snd]. intros (-> & -> & (K1 & K2 & K3) & _).
    rewrite <- proof_text_citation. apply (cited_proof_resolves (e_ext E) E sops); try assumption. reflexivity.
  - intros pc Hin. destruct (Forall2_in_r _ _ _ _ Hf Hin) as ([[a h] d] & _ & _ & Ha & _ & Hlk & _). cbn [fst snd] in *. rewrite Ha. exact Hlk.
  - apply redelegates_iff, Hred.
  - intros pc Hin. destruct (Forall2_in_r _ _ _ _ Hf Hin) as ([[a h] d] & _ & _ & _ & _ & _ & Ha). apply accepted_iff; assumption.
Qed.

(* ---------------------------------------------------------------- hand-overs *)

Lemma handed_root X slice c0 us leaf : handed_down X slice (c_ucan c0) us leaf -> c_ucan (handed_chain c0 us leaf) = leaf.
Proof. intros Hh. inversion Hh; reflexivity. Qed.

Lemma handed_accepted E slice sops t0 c0 us leaf :
  holds_writes E sops -> collision_free (e_ext E) sops -> (forall n, e_clock E n = t0) ->
  handed_down (e_ext E) slice (c_ucan c0) us leaf -> (forall u, In u us -> stored (e_ext E) sops u) ->
  live_at (u_payload leaf) (Z.of_N t0) -> accepted E slice c0 -> accepted E slice (handed_chain c0 us leaf).
Proof.
  intros Hh Hcf Hck Hd. induction Hd as [|us u ops t rng s u' Hd IH Hp Hc Hw Hb Hs Hk Hlk]; intros Hst Hl Ha; [exact Ha|].
  cbn [handed_chain].
  assert (accepted E slice (handed_chain c0 us u)) as Ha'.
  { apply IH; [intros; apply Hst; right; assumption | eapply lifetime_within_live; [apply Hlk | exact Hl] | exact Ha]. }
  assert (Forall2 (fun p pc => snd (fst p) = None /\ c_ucan pc = fst (fst p) /\ stored (e_ext E) sops (fst (fst p)) /\
                   linked u' (fst (fst p)) /\ accepted E slice pc) (proofs_added ops) [handed_chain c0 us u]) as Hf.
  { rewrite Hp. constructor; [|constructor]. cbn [fst snd]. split; [reflexivity|]. split; [eapply handed_root, Hd|].
    split; [apply Hst; left; reflexivity|]. split; [exact Hlk | exact Ha']. }
  pose proof (build_described _ _ _ _ Hw Hb) as Hdes.
  assert (forall c, claims u' c <-> c = delegation_of 0) as Hcl.
  { intros c. rewrite (signed_claims _ _ _ _ _ Hs), (de_claims _ _ _ _ Hdes), Hc. simpl. intuition congruence. }
  assert (word 0) as Hw0 by (unfold word; lia).
  destruct (built_accepted E slice sops t0 t rng ops s u' _ Hh Hcf Hck Hw Hb Hs Hk Hl Hf) as [red Hred].
  { intros cap i He Hn. cbn [length]. assert (In cap (claims_added 0 ops)) as Hin by (apply claims_added_in; left; exact He).
    rewrite Hc in Hin. destruct Hin as [<-|[]]. apply delegation_names in Hn; [|exact Hw0]. subst i. cbn. lia. }
  replace [0%N] with red; [exact Hred|].
  assert (steady E) as Hsteady by (eapply holds_writes_steady; eassumption).
  apply accepted_iff in Hred; [|exact Hsteady]. inversion Hred as [? ? ? _ _ _ (R1 & R2 & _) _]; subst.
  apply ssorted_ext; [apply ssorted_lt, R1 | repeat constructor|].
  intros i. rewrite R2. split.
  - intros (c & Hcc & Hn). apply Hcl in Hcc. subst c. apply delegation_names in Hn; [|exact Hw0]. left. symmetry. exact Hn.
  - intros [<-|[]]. exists (delegation_of 0). split; [apply Hcl; reflexivity | apply delegation_names; [exact Hw0 | reflexivity]].
Qed.

(* ------------------------------------------------------------------- reports *)

Section Report.
  Context {S A : Type} (SO : scope_ops S) (AO : ability_ops A).
  Variable parse : capability -> option (view S A).

  Lemma pop_snoc {C} (l : list C) x : pop (l ++ [x]) = Some (l, x).
  Proof. induction l as [|a l IH]; [reflexivity|]. cbn [app pop]. rewrite IH. reflexivity. Qed.

  Lemma absorb_none x l : (forall r, In r l -> view_enables SO AO (i_capability r) (i_capability x) = false) -> absorb SO AO x l = None.
  Proof.
    induction l as [|r l IH]; intros Hn; [reflexivity|]. cbn [absorb]. rewrite (Hn r (or_introl eq_refl)), IH; [reflexivity|].
    intros q Hq. apply Hn. right. exact Hq.
  Qed.

  Lemma merge_loop_antichain : forall l fuel m, (length l <= fuel)%nat -> antichain SO AO l -> merge_loop SO AO fuel l m = m ++ rev l.
  Proof.
    intros l. induction l as [|x l IH] using rev_ind; intros fuel m Hf Ha.
    - destruct fuel; cbn [merge_loop pop]; rewrite app_nil_r; reflexivity.
    - rewrite app_length in Hf. cbn [length] in Hf. destruct fuel as [|f]; [lia|]. cbn [merge_loop]. rewrite pop_snoc.
      rewrite absorb_none.
      + rewrite IH; [|lia|].
        * rewrite rev_app_distr, <- app_assoc. reflexivity.
        * intros i j a b Hi Hj. apply Ha; rewrite nth_error_app1; try assumption; apply nth_error_Some; congruence.
      + intros r Hr. apply In_nth_error in Hr as [i Hi]. apply (Ha i (length l)).
        * rewrite nth_error_app1; [exact Hi | apply nth_error_Some; congruence].
        * rewrite nth_error_app2, Nat.sub_diag by lia. reflexivity.
        * assert (i < length l)%nat by (apply nth_error_Some; congruence). lia.
  Qed.

  Lemma merge_antichain l : antichain SO AO l -> merge SO AO l = rev l.
  Proof. intros Ha. unfold merge. rewrite merge_loop_antichain; [reflexivity | lia | exact Ha]. Qed.

  Lemma antichain_perm l l' : Permutation l l' -> antichain SO AO l -> antichain SO AO l'.
  Proof.
    intros Hp Ha i j a b Hi Hj Hij. apply Permutation_nth_error in Hp as (_ & f & Hinj & Hf).
    rewrite Hf in Hi, Hj. eapply Ha; [exact Hi | exact Hj|]. intros E. apply Hij, Hinj, E.
  Qed.

  Lemma antichain_window u l : antichain SO AO l -> antichain SO AO (map (within_window u) l).
  Proof.
    intros Ha i j a b Hi Hj Hij. rewrite nth_error_map in Hi, Hj.
    destruct (nth_error l i) as [a0|] eqn:E1; [|discriminate]. destruct (nth_error l j) as [b0|] eqn:E2; [|discriminate].
    injection Hi as <-. injection Hj as <-. cbn [within_window i_capability]. eapply Ha; eassumption.
  Qed.

  Lemma relay_report u c r : (forall cap, claims u cap -> parse cap = None) -> reduce SO AO parse c = Ok r ->
    reduce SO AO parse (Chain u [c] [0%N]) = Ok (merge SO AO (map (within_window u) r)).
  Proof.
    intros Hn Hr. cbn [reduce map length]. rewrite Hr.
    unfold ancestral_infos, redelegated_infos, indices. cbn [length seq map combine fst snd].
    replace (smem (N.of_nat 0) [0%N]) with true by reflexivity. cbn [rconcat rbind app].
    unfold get_unwrap. cbn [N.to_nat nth_error rbind rconcat]. rewrite app_nil_r.
    replace (self_infos SO AO parse u 1 []) with (@nil (info S A)); [reflexivity|].
    unfold self_infos. destruct (caps_iter (p_cap (u_payload u))) as [|cap l] eqn:E; [reflexivity|]. cbn [map_while].
    rewrite Hn; [reflexivity|]. apply claims_iter. rewrite E. left. reflexivity.
  Qed.

  Lemma handed_report X slice c0 us leaf r0 : handed_down X slice (c_ucan c0) us leaf ->
    parse (delegation_of 0) = None -> reduce SO AO parse c0 = Ok r0 -> antichain SO AO r0 ->
    exists r, reduce SO AO parse (handed_chain c0 us leaf) = Ok r /\ Permutation r (map (within_window leaf) r0).
  Proof.
    intros Hd Hp Hr Ha. induction Hd as [|us u ops t rng s u' Hd IH Hpr Hc Hw Hb Hs Hk Hlk].
    - exists r0. split; [exact Hr|]. replace (map (within_window (c_ucan c0)) r0) with r0; [reflexivity|].
      rewrite <- (map_id r0) at 1. apply map_ext_in. intros x Hx.
      destruct (report_lifetime SO AO parse c0 r0 x Hr Hx) as [H1 H2]. unfold within_window. rewrite <- H1, <- H2. destruct x; reflexivity.
    - destruct IH as (r & Hred & Hperm). cbn [handed_chain].
      pose proof (build_described _ _ _ _ Hw Hb) as Hdes.
      exists (merge SO AO (map (within_window u') r)). split.
      + apply relay_report; [|exact Hred]. intros cap Hcl. apply (signed_claims _ _ _ _ _ Hs) in Hcl.
        rewrite (de_claims _ _ _ _ Hdes), Hc in Hcl. destruct Hcl as [<-|[]]. exact Hp.
      + rewrite merge_antichain.
        * rewrite <- Permutation_rev, (Permutation_map (within_window u') Hperm), map_map. reflexivity.
        * apply antichain_window. eapply antichain_perm; [apply Permutation_sym, Hperm|]. apply antichain_window, Ha.
  Qed.
End Report.
