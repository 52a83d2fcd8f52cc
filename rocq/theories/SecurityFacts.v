(** Proofs about whose authority a report rests on. *)
From Verif Require Import Prelude Ord OrdFacts SMap SMapFacts BaseN Value Ext Json Url Capability Semantics Key Ucan Store Builder Chain
  Spec SpecSecurity CapFacts ChainFacts ReduceFacts SignFacts.

Section Trail.
  Context {S A : Type} (SO : scope_ops S) (AO : ability_ops A).
  Variable parse : capability -> option (view S A).

  Lemma genuine_originator c : forall r x, reduce SO AO parse c = Ok r -> In x r ->
    exists o, In o (i_originators x) /\ trail SO AO parse c (i_capability x) o.
  Proof.
    induction c as [u ps red IH] using chain_induction. intros r x Hr Hx. set (c := Chain u ps red) in *.
    destruct (reduce_merge SO AO parse c r Hr) as (work & -> & Hw & _ & _).
    destruct (merge_sound SO AO work x Hx) as (y & Hy & E & _ & _ & Hsub & _). rewrite E.
    destruct (Hw y Hy) as [Hown | (z & (p & rp & Hp & Hrp & Hz) & ->)].
    - pose proof Hown as (Hh & _ & _ & _ & Hne & _).
      destruct (i_originators y) as [|o1 l] eqn:El; [contradiction|].
      assert (In o1 (i_originators y)) as Ho1 by (rewrite El; left; reflexivity).
      apply (own_credited SO AO parse c y o1 Hown) in Ho1 as [(i & (p & rp & Hp & Hrp & Hi & He) & _) | [-> Hn]].
      + apply attenuated_in in Hp as Hin. destruct (IH p Hin rp i Hrp Hi) as (o & Ho & Ht).
        exists o. split; [|apply (Tr_enabled SO AO parse c p _ (i_capability i)); assumption].
        apply Hsub. rewrite <- El. apply (own_credited SO AO parse c y o Hown). left. exists i. split; [exists p, rp; auto | exact Ho].
      + exists (p_iss (u_payload (c_ucan c))). split; [|apply Tr_claim, Hh].
        apply Hsub. rewrite <- El. apply (own_credited SO AO parse c y _ Hown). right. split; [reflexivity | exact Hn].
    - apply redelegated_in in Hp as Hin. destruct (IH p Hin rp z Hrp Hz) as (o & Ho & Ht).
      exists o. split; [apply Hsub, Ho | eapply Tr_redelegated; [exact Hp | exact Ht]].
  Qed.

  Lemma sole_originator c r x o : reduce SO AO parse c = Ok r -> In x r -> i_originators x = [o] ->
    trail SO AO parse c (i_capability x) o.
  Proof.
    intros Hr Hx Ho. destruct (genuine_originator c r x Hr Hx) as (o' & Hin & Ht). rewrite Ho in Hin.
    destruct Hin as [<- | []]. exact Ht.
  Qed.

  Lemma trail_understood c v o : trail SO AO parse c v o -> understood parse c v.
  Proof.
    induction 1 as [c v Hh | c pc v w o Hh Hp _ _ _ | c pc v o Hp _ (u & Hu & Hh)].
    - exists (c_ucan c). split; [apply in_chain_root | exact Hh].
    - exists (c_ucan c). split; [apply in_chain_root | exact Hh].
    - exists u. split; [eapply in_chain_proof; [apply redelegated_in, Hp | exact Hu] | exact Hh].
  Qed.

  Lemma transitive_proof c pc : In pc (c_proofs c) -> enabling_transitive SO AO parse c -> enabling_transitive SO AO parse pc.
  Proof.
    intros Hin Ht v w z (u1 & H1 & H1') (u2 & H2 & H2') (u3 & H3 & H3').
    apply Ht; [exists u1 | exists u2 | exists u3]; (split; [eapply in_chain_proof; eassumption | assumption]).
  Qed.

  Lemma trail_claimed_by c v o : trail SO AO parse c v o -> enabling_transitive SO AO parse c -> claimed_by SO AO parse c o v.
  Proof.
    induction 1 as [c v Hh | c pc v w o Hh Hp Htr IH He | c pc v o Hp Htr IH]; intros Ht.
    - exists (c_ucan c), v. split; [apply in_chain_root|]. split; [reflexivity|]. split; [exact Hh | left; reflexivity].
    - apply attenuated_in in Hp. destruct (IH (transitive_proof c pc Hp Ht)) as (u & z & Hu & Hi & Hz & Hzw).
      exists u, z. split; [eapply in_chain_proof; eassumption|]. split; [exact Hi|]. split; [exact Hz|]. right.
      destruct Hzw as [-> | Hzw]; [exact He|]. apply (Ht z w v); [| | |exact Hzw | exact He].
      + exists u. split; [eapply in_chain_proof; eassumption | exact Hz].
      + destruct (trail_understood pc w o Htr) as (u' & Hu' & Hw). exists u'. split; [eapply in_chain_proof; eassumption | exact Hw].
      + exists (c_ucan c). split; [apply in_chain_root | exact Hh].
    - apply redelegated_in in Hp. destruct (IH (transitive_proof c pc Hp Ht)) as (u & z & Hu & Hi & Hz & Hzw).
      exists u, z. split; [eapply in_chain_proof; eassumption | auto].
  Qed.

  Lemma sole_originator_claimed c r x o : enabling_transitive SO AO parse c -> reduce SO AO parse c = Ok r -> In x r ->
    i_originators x = [o] -> claimed_by SO AO parse c o (i_capability x).
  Proof. intros Ht Hr Hx Ho. eapply trail_claimed_by, Ht. eapply sole_originator; eassumption. Qed.

  Lemma some_originator_claimed c r x : enabling_transitive SO AO parse c -> reduce SO AO parse c = Ok r -> In x r ->
    exists o, In o (i_originators x) /\ claimed_by SO AO parse c o (i_capability x).
  Proof.
    intros Ht Hr Hx. destruct (genuine_originator c r x Hr Hx) as (o & Ho & Htr). exists o.
    split; [exact Ho | apply trail_claimed_by; assumption].
  Qed.
End Trail.

(* ------------------------------------------------------------- with signatures *)

Lemma parsed_authentic X slice signed t u : unforgeable slice signed -> parse_token X t = Ok u ->
  signed_by_issuer (did_parser_new slice) u -> authentic X signed u.
Proof.
  intros Hf Hp (k & Hk & Hv). apply parse_token_covers in Hp as (H & P & S & rest & hj & pj & _ & _ & _ & _ & _ & Hd & -> & _ & -> & Hpl & _).
  exists hj, pj. split; [|exact Hpl]. rewrite <- Hd. apply (Hf _ k _ _ Hk Hv).
Qed.

(** Every UCAN of the chain was parsed from a token. *)
Lemma valid_parsed E nt slice T R c t : valid_chain E nt slice T R c -> parse_token (e_ext E) t = Ok (c_ucan c) ->
  forall d, sub_chain d c -> exists t', parse_token (e_ext E) t' = Ok (c_ucan d).
Proof.
  intros Hv Ht d Hs. revert t Ht Hv. induction Hs as [c | d pc c Hin Hs IH]; intros t Ht Hv; [eauto|].
  inversion Hv as [u ps red _ Hf _ _ Hps]; subst. cbn [c_proofs] in Hin.
  apply In_nth_error in Hin as (i & Hi).
  assert (exists text, resolves E R text (c_ucan pc)) as (text & cid & n & token & _ & _ & _ & _ & _ & Htok).
  { clear - Hf Hi. revert i Hi. induction Hf as [|a b l l' Hab _ IH]; intros [|i] Hi; try discriminate.
    - injection Hi as <-. eauto.
    - eauto. }
  apply (IH token Htok), Hps. eapply nth_error_In, Hi.
Qed.

Lemma accepted_authentic E nt slice signed T R c t d : unforgeable slice signed -> valid_chain E nt slice T R c ->
  parse_token (e_ext E) t = Ok (c_ucan c) -> sub_chain d c -> authentic (e_ext E) signed (c_ucan d).
Proof.
  intros Hf Hv Ht Hs. destruct (valid_parsed E nt slice T R c t Hv Ht d Hs) as (t' & Ht').
  eapply parsed_authentic; [exact Hf | exact Ht'|].
  apply (valid_in_chain _ _ _ _ _ _ _ Hv). exists d. split; [exact Hs | reflexivity].
Qed.

Lemma from_token_inv E nt fuel token st c st' : from_token E nt fuel token st = (Ok c, st') ->
  exists u, parse_token (e_ext E) token = Ok u /\ from_ucan E nt fuel u st = (Ok c, st').
Proof.
  unfold from_token, bind, lift. destruct (parse_token (e_ext E) token) as [u|e|p|] eqn:Et; try discriminate. intros H. exists u. auto.
Qed.

Lemma Forall2_nth_r {A B} (P : A -> B -> Prop) l l' : Forall2 P l l' -> forall i b, nth_error l' i = Some b ->
  exists a, nth_error l i = Some a /\ P a b.
Proof.
  induction 1 as [|a b l l' Hab _ IH]; intros [|i] b0 Hi; try discriminate.
  - injection Hi as <-. exists a. auto.
  - apply IH, Hi.
Qed.

Lemma resolves_any E R text u : resolves E R text u -> resolves E (fun _ => True) text u.
Proof. intros (c & n & t & H1 & H2 & _ & H3). exists c, n, t. auto. Qed.

Section Authority.
  Context {S A : Type} (SO : scope_ops S) (AO : ability_ops A).
  Variable parse : capability -> option (view S A).

  Lemma trail_authority E nt slice signed T R c v o : trail SO AO parse c v o ->
    valid_chain E nt slice T R c -> (forall d, sub_chain d c -> authentic (e_ext E) signed (c_ucan d)) ->
    authority SO AO parse E signed (c_ucan c) v o.
  Proof.
    induction 1 as [c v Hh | c pc v w o Hh Hp Htr IH He | c pc v o Hp Htr IH]; intros Hv Ha.
    - apply Au_claim; [apply Ha; constructor | exact Hh].
    - destruct Hp as (i & _ & Hi). inversion Hv as [u ps red _ Hf Hl _ Hps]; subst. cbn [c_proofs c_ucan] in *.
      pose proof (nth_error_In _ _ Hi) as Hin.
      destruct (Forall2_nth_r _ _ _ Hf i pc Hi) as (text & Ht & Hr).
      apply (Au_enabled SO AO parse E signed u (c_ucan pc) v w); auto.
      + apply (Ha (Chain u ps red)). constructor.
      + exists text. split; [eapply nth_error_In, Ht | eapply resolves_any, Hr].
      + apply IH; [apply Hps, Hin|]. intros d Hd. apply Ha. econstructor; [exact Hin | exact Hd].
    - destruct Hp as (i & Hred & Hi). inversion Hv as [u ps red _ Hf Hl Hrd Hps]; subst. cbn [c_proofs c_ucan c_redelegations] in *.
      pose proof (nth_error_In _ _ Hi) as Hin.
      destruct (Forall2_nth_r _ _ _ Hf i pc Hi) as (text & Ht & Hr).
      destruct Hrd as (_ & Hrd & _). apply Hrd in Hred as (cap & Hc & Hn).
      apply (Au_redelegated SO AO parse E signed u (c_ucan pc) cap (N.of_nat i) text); auto.
      + apply (Ha (Chain u ps red)). constructor.
      + rewrite Nnat.Nat2N.id. exact Ht.
      + eapply resolves_any, Hr.
      + apply IH; [apply Hps, Hin|]. intros d Hd. apply Ha. econstructor; [exact Hin | exact Hd].
  Qed.

  Lemma from_token_valid E nt slice fuel token st c st' : with_parser slice st -> from_token E nt fuel token st = (Ok c, st') ->
    parse_token (e_ext E) token = Ok (c_ucan c) /\
    valid_chain E nt slice (ticks_between st st') (reads_between st st') c.
  Proof.
    intros Hp Hr. apply from_token_inv in Hr as (u & Ht & Hr). apply (from_ucan_valid E nt slice) in Hr as [<- Hv]; auto.
  Qed.

  Lemma report_has_authority E nt slice signed fuel token st c st' r x : unforgeable slice signed -> with_parser slice st ->
    from_token E nt fuel token st = (Ok c, st') -> reduce SO AO parse c = Ok r -> In x r ->
    exists u o, parse_token (e_ext E) token = Ok u /\ In o (i_originators x) /\ authority SO AO parse E signed u (i_capability x) o.
  Proof.
    intros Hf Hp Hr Hred Hx. destruct (from_token_valid E nt slice _ _ _ _ _ Hp Hr) as [Ht Hv].
    destruct (genuine_originator SO AO parse c r x Hred Hx) as (o & Ho & Htr). exists (c_ucan c), o.
    split; [exact Ht|]. split; [exact Ho|]. eapply trail_authority; [exact Htr | exact Hv|].
    intros d Hd. eapply accepted_authentic; eassumption.
  Qed.

  Lemma originators_signed E nt slice signed fuel token st c st' r x o : unforgeable slice signed -> with_parser slice st ->
    from_token E nt fuel token st = (Ok c, st') -> reduce SO AO parse c = Ok r -> In x r -> In o (i_originators x) ->
    exists u, in_chain u c /\ p_iss (u_payload u) = o /\ authentic (e_ext E) signed u.
  Proof.
    intros Hf Hp Hr Hred Hx Ho. destruct (from_token_valid E nt slice _ _ _ _ _ Hp Hr) as [Ht Hv].
    destruct (report_originators SO AO parse c r x Hred Hx) as (_ & _ & Hall).
    destruct (Hall o Ho) as (u & Hu & Hi). exists u. split; [exact Hu|]. split; [exact Hi|].
    destruct Hu as (d & Hd & <-). eapply accepted_authentic; eassumption.
  Qed.

  Lemma sole_originator_signed E nt slice signed fuel token st c st' r x o : unforgeable slice signed -> with_parser slice st ->
    enabling_transitive SO AO parse c ->
    from_token E nt fuel token st = (Ok c, st') -> reduce SO AO parse c = Ok r -> In x r -> i_originators x = [o] ->
    exists u w, p_iss (u_payload u) = o /\ authentic (e_ext E) signed u /\ heeded parse u w /\ enables_or_is SO AO w (i_capability x).
  Proof.
    intros Hf Hp Htr Hr Hred Hx Ho. destruct (from_token_valid E nt slice _ _ _ _ _ Hp Hr) as [Ht Hv].
    destruct (sole_originator_claimed SO AO parse c r x o Htr Hred Hx Ho) as (u & w & (d & Hd & <-) & Hi & Hh & He).
    exists (c_ucan d), w. split; [exact Hi|]. split; [eapply accepted_authentic; eassumption | auto].
  Qed.
End Authority.
