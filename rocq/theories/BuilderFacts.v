(** Facts about the builder. *)
From Coq Require Import Sorting.Permutation Sorting.Sorted.
From Verif Require Import Prelude Ord SMap BaseN Base58 Value Cid Url Ext Caveat Capability Semantics Key Json Ucan Store Builder Chain Spec SpecBuilder
  OrdFacts SMapFacts ValueFacts CapFacts CapMapFacts BaseNFacts Base58Facts CidFacts ChainFacts TokenFacts SignFacts SemanticsFacts.

(* ----------------------------------------------------------------- last_such *)

Lemma last_such_unique {A C} (f : A -> option C) l o o' : last_such f l o -> last_such f l o' -> o = o'.
Proof.
  assert (Hno : forall c, last_such f l (Some c) -> last_such f l None -> False).
  { intros c (b & a & r & -> & Hf & _) H. specialize (H a). rewrite Hf in H.
    discriminate H. apply in_or_app. right. left. reflexivity. }
  destruct o as [c|], o' as [c'|]; intros H H'; [|destruct (Hno c H H')|destruct (Hno c' H' H)|reflexivity].
  destruct H as (b & a & r & E & Hf & Hr), H' as (b' & a' & r' & E' & Hf' & Hr'). rewrite E in E'. clear E Hno.
  revert b' E'. induction b as [|x b IH]; intros b' E.
  - destruct b' as [|y b']; cbn [app] in E; injection E as -> E.
    + rewrite Hf in Hf'. exact Hf'.
    + specialize (Hr a'). rewrite Hf' in Hr. discriminate Hr. rewrite E. apply in_or_app. right. left. reflexivity.
  - destruct b' as [|y b']; cbn [app] in E; injection E as -> E.
    + specialize (Hr' a). rewrite Hf in Hr'. discriminate Hr'. rewrite <- E. apply in_or_app. right. left. reflexivity.
    + exact (IH b' E).
Qed.

Lemma last_such_snoc {A C} (f : A -> option C) l a o : last_such f l o ->
  last_such f (l ++ [a]) (match f a with Some c => Some c | None => o end).
Proof.
  intros H. destruct (f a) as [c|] eqn:E.
  - exists l, a, []. split; [reflexivity | split; [exact E | intros x []]].
  - destruct o as [c|].
    + destruct H as (b & x & r & -> & Hf & Hr). exists b, x, (r ++ [a]).
      split; [rewrite <- app_assoc; reflexivity | split; [exact Hf|]].
      intros y Hy. apply in_app_or in Hy as [Hy|[<-|[]]]; [apply Hr; exact Hy | exact E].
    + intros y Hy. apply in_app_or in Hy as [Hy|[<-|[]]]; [apply H; exact Hy | exact E].
Qed.

Lemma last_such_some_in {A C} (f : A -> option C) l : (exists c, last_such f l (Some c)) <-> exists a, In a l /\ f a <> None.
Proof.
  split.
  - intros (c & b & a & r & -> & Hf & _). exists a. split; [apply in_or_app; right; left; reflexivity | congruence].
  - induction l as [|x l IH] using rev_ind; intros (a & Hin & Ha); [destruct Hin|].
    destruct (f x) as [c|] eqn:E.
    + exists c, l, x, []. split; [reflexivity | split; [exact E | intros y []]].
    + apply in_app_or in Hin as [Hin|[->|[]]]; [|congruence].
      destruct IH as (c & b & y & r & -> & Hf & Hr); [exists a; auto|].
      exists c, b, y, (r ++ [x]). split; [rewrite <- app_assoc; reflexivity | split; [exact Hf|]].
      intros z Hz. apply in_app_or in Hz as [Hz|[<-|[]]]; [apply Hr; exact Hz | exact E].
Qed.

(* ----------------------------------------------------------------- the calls *)

Lemma builder_run_snoc X ops o : builder_run X (ops ++ [o]) = builder_step X (builder_run X ops) o.
Proof. unfold builder_run. rewrite fold_left_app. reflexivity. Qed.

Lemma last_call {C} (f : builder_op -> option C) (get : builder -> option C) X :
  get builder_default = None ->
  (forall b o, get (builder_step X b o) = match f o with Some c => Some c | None => get b end) ->
  forall ops, last_such f ops (get (builder_run X ops)).
Proof.
  intros H0 Hs ops. induction ops as [|o ops IH] using rev_ind.
  - unfold builder_run. cbn [fold_left]. rewrite H0. intros x [].
  - rewrite builder_run_snoc, Hs. apply last_such_snoc. exact IH.
Qed.

Ltac by_call := intros [iss aud caps life exp nbf fct prf nonce] o; destruct o as [ | | | | | ? [?|] | | | | | ]; reflexivity.

Lemma run_issuer X ops : last_such sets_issuer ops (b_issuer (builder_run X ops)).
Proof. apply last_call; [reflexivity | by_call]. Qed.
Lemma run_audience X ops : last_such sets_audience ops (b_audience (builder_run X ops)).
Proof. apply last_call; [reflexivity | by_call]. Qed.
Lemma run_lifetime X ops : last_such sets_lifetime ops (b_lifetime (builder_run X ops)).
Proof. apply last_call; [reflexivity | by_call]. Qed.
Lemma run_expiration X ops : last_such sets_expiration ops (b_expiration (builder_run X ops)).
Proof. apply last_call; [reflexivity | by_call]. Qed.
Lemma run_not_before X ops : last_such sets_not_before ops (b_not_before (builder_run X ops)).
Proof. apply last_call; [reflexivity | by_call]. Qed.

Lemma run_fact X ops k : last_such (sets_fact k) ops (mget k (b_facts (builder_run X ops))).
Proof.
  apply (last_call (sets_fact k) (fun b => mget k (b_facts b))); [reflexivity|].
  intros [iss aud caps life exp nbf fct prf nonce] o. destruct o as [ | | | | | k' [v|] | | | | | ]; try reflexivity.
  cbn [builder_step b_facts sets_fact]. destruct (bytes_eqb k' k) eqn:E.
  - apply bytes_eqb_eq in E. subst k'. apply mget_minsert_eq.
  - apply bytes_eqb_neq in E. apply mget_minsert_neq. congruence.
Qed.

Lemma run_facts_sorted X ops : msorted (b_facts (builder_run X ops)).
Proof. exact (builder_run_facts X ops builder_default (SSorted_nil _)). Qed.

Lemma run_facts_in X ops k v : In (k, v) (b_facts (builder_run X ops)) <-> last_such (sets_fact k) ops (Some v).
Proof.
  split; intros H.
  - apply in_mget in H; [|apply run_facts_sorted]. rewrite <- H. apply run_fact.
  - apply mget_in. eapply last_such_unique; [apply run_fact | exact H].
Qed.

Lemma run_nonce X ops : b_add_nonce (builder_run X ops) = true <-> In WithNonce ops.
Proof.
  induction ops as [|o ops IH] using rev_ind; [split; [discriminate | intros []]|].
  rewrite builder_run_snoc, in_app_iff, <- IH.
  destruct (builder_run X ops) as [iss aud caps life exp nbf fct prf nonce].
  destruct o as [ | | | | | k' [v|] | | | | | ]; cbn [builder_step b_add_nonce In]; intuition congruence.
Qed.

Lemma proof_text_citation X a h : proof_text X a h = citation X a h.
Proof. reflexivity. Qed.

Definition citations (X : ext) (ops : list builder_op) : list bytes :=
  map (fun p => citation X (fst (fst p)) (snd (fst p))) (proofs_added ops).

Lemma fold_proofs X ops : forall b, b_proofs (fold_left (builder_step X) ops b) = b_proofs b ++ citations X ops.
Proof.
  induction ops as [|o ops IH]; intros b; [rewrite app_nil_r; reflexivity|].
  cbn [fold_left]. rewrite IH. unfold citations, proofs_added. cbn [flat_map]. rewrite map_app, app_assoc. f_equal.
  destruct b as [iss aud caps life exp nbf fct prf nonce].
  destruct o as [ | | | | | k' [v|] | | | | | ]; cbn [builder_step b_proofs adds_proof map fst snd]; rewrite ?app_nil_r; reflexivity.
Qed.

Lemma run_proofs X ops : b_proofs (builder_run X ops) = citations X ops.
Proof. unfold builder_run. rewrite fold_proofs. reflexivity. Qed.

Lemma citations_length X ops : length (citations X ops) = length (proofs_added ops).
Proof. apply map_length. Qed.

Lemma proofs_added_length ops : (length (proofs_added ops) <= length ops)%nat.
Proof.
  unfold proofs_added. induction ops as [|o ops IH]; [apply le_n|]. cbn [flat_map length]. rewrite app_length.
  destruct o; cbn [adds_proof length]; lia.
Qed.

Lemma proofs_added_app a b : proofs_added (a ++ b) = proofs_added a ++ proofs_added b.
Proof. apply flat_map_app. Qed.

(** The calls fit in a machine word. *)
Definition few (ops : list builder_op) : Prop := word (N.of_nat (length ops)).

Lemma delegating_step X b a h : word (N.of_nat (length (b_proofs b))) ->
  b_capabilities (builder_step X b (DelegatingFrom a h)) = b_capabilities b ++ [delegation_of (length (b_proofs b))].
Proof.
  intros Hw. destruct b as [iss aud caps life exp nbf fct prf nonce]. cbn [builder_step b_capabilities b_proofs] in *.
  rewrite app_length. cbn [length]. replace (length prf + 1 - 1)%nat with (length prf) by lia.
  rewrite parse_index by exact Hw. reflexivity.
Qed.

Lemma fold_claims X ops : forall b, word (N.of_nat (length (b_proofs b) + length ops)) ->
  b_capabilities (fold_left (builder_step X) ops b) = b_capabilities b ++ claims_added (length (b_proofs b)) ops.
Proof.
  unfold word. induction ops as [|o ops IH]; intros b Hw; [rewrite app_nil_r; reflexivity|].
  cbn [fold_left]. cbn [length] in Hw.
  assert (Hl : (length (b_proofs b) <= length (b_proofs (builder_step X b o)) <= length (b_proofs b) + 1)%nat).
  { destruct b as [iss aud caps life exp nbf fct prf nonce].
    destruct o as [ | | | | | k' [v|] | | | | | ]; cbn [builder_step b_proofs]; rewrite ?app_length; cbn [length]; lia. }
  rewrite IH by lia.
  destruct o as [ | | | | | k' [v|] | | | | |a h ].
  12: { rewrite delegating_step by (unfold word; lia). rewrite <- app_assoc. cbn [app claims_added].
        destruct b as [iss aud caps life exp nbf fct prf nonce]. cbn [builder_step b_proofs]. rewrite app_length.
        cbn [length]. rewrite Nat.add_1_r. reflexivity. }
  all: destruct b as [iss aud caps life exp nbf fct prf nonce]; cbn [builder_step b_capabilities b_proofs claims_added];
    rewrite ?app_length, <- ?app_assoc; cbn [length app]; rewrite ?Nat.add_1_r; reflexivity.
Qed.

Lemma run_claims X ops : few ops -> b_capabilities (builder_run X ops) = claims_added 0 ops.
Proof. intros Hw. unfold builder_run. rewrite fold_claims; [reflexivity | exact Hw]. Qed.

(* ---------------------------------------------------------------------- build *)

Lemma u64_add_ok X t l e : u64_add X t l = Ok e <->
  e = ((t + l) mod 18446744073709551616)%N /\ ((t + l < 18446744073709551616)%N \/ x_overflow_checks X = false).
Proof.
  unfold u64_add. change u64_max with 18446744073709551615%N. change (2 ^ 64)%N with 18446744073709551616%N.
  destruct (N.leb_spec (t + l) 18446744073709551615).
  - rewrite N.mod_small by lia. split; [intros [= <-]; split; [reflexivity | left; lia] | intros [-> _]; reflexivity].
  - destruct (x_overflow_checks X).
    + split; [discriminate | intros [_ [|]]; [lia | discriminate]].
    + split; [intros [= <-]; auto | intros [-> _]; reflexivity].
Qed.

Lemma implied_expiration_ok X t ops exp : implied_expiration X t (builder_run X ops) = Ok exp <-> implied_expiry X t ops exp.
Proof.
  pose proof (run_expiration X ops) as He. pose proof (run_lifetime X ops) as Hl.
  unfold implied_expiration, implied_expiry. split.
  - destruct (b_expiration (builder_run X ops)) as [e|].
    + intros [= <-]. left. exists e. auto.
    + destruct (b_lifetime (builder_run X ops)) as [l|].
      * destruct (u64_add X t l) as [e| | |] eqn:E; try discriminate. cbn [rbind]. intros [= <-].
        apply u64_add_ok in E as [-> E]. right. split; [exact He|]. right. exists l. auto.
      * intros [= <-]. right. split; [exact He|]. left. auto.
  - intros [(e & H & ->) | [H [[H' ->] | (l & H' & -> & Ho)]]].
    + rewrite (last_such_unique _ _ _ _ He H). reflexivity.
    + rewrite (last_such_unique _ _ _ _ He H), (last_such_unique _ _ _ _ Hl H'). reflexivity.
    + rewrite (last_such_unique _ _ _ _ He H), (last_such_unique _ _ _ _ Hl H').
      rewrite (proj2 (u64_add_ok X t l _) (conj eq_refl Ho)). reflexivity.
Qed.

Lemma build_iff X t ops s : few ops -> build X t (builder_run X ops) = Ok s <-> described X t ops s.
Proof.
  intros Hw. pose proof (run_issuer X ops) as Hi. pose proof (run_audience X ops) as Ha.
  pose proof (implied_expiration_ok X t ops) as He. unfold build. split.
  - destruct (b_issuer (builder_run X ops)) as [k|]; [|discriminate].
    destruct (b_audience (builder_run X ops)) as [a|]; [|discriminate].
    destruct (implied_expiration X t (builder_run X ops)) as [exp| | |]; try discriminate. cbn [rbind].
    intros H. injection H as <-. constructor; cbn [s_issuer s_audience s_expiration s_not_before s_facts s_capabilities s_proofs s_add_nonce].
    + exact Hi.
    + exact Ha.
    + apply He. reflexivity.
    + apply run_not_before.
    + apply keys_increasing_msorted, run_facts_sorted.
    + intros k0 v. apply run_facts_in.
    + apply run_claims, Hw.
    + apply run_proofs.
    + apply run_nonce.
  - intros [H1 H2 H3 H4 H5 H6 H7 H8 H9].
    rewrite (last_such_unique _ _ _ _ Hi H1), (last_such_unique _ _ _ _ Ha H2).
    rewrite (proj2 (He (s_expiration s)) H3). cbn [rbind]. f_equal.
    destruct s as [iss aud caps exp nbf fct prf nonce]. cbn [s_issuer s_audience s_expiration s_not_before s_facts s_capabilities s_proofs s_add_nonce] in *.
    f_equal.
    + rewrite H7. apply run_claims, Hw.
    + exact (last_such_unique _ _ _ _ (run_not_before X ops) H4).
    + apply mget_ext; [apply run_facts_sorted | apply keys_increasing_msorted, H5|].
      intros k. destruct (mget k (b_facts (builder_run X ops))) as [v|] eqn:E1.
      * symmetry. apply in_mget; [apply keys_increasing_msorted, H5|]. apply H6. rewrite <- E1. apply run_fact.
      * symmetry. apply mget_none. intros v Hin. apply H6 in Hin.
        pose proof (last_such_unique _ _ _ _ (run_fact X ops k) Hin). congruence.
    + rewrite H8. apply run_proofs.
    + apply eq_true_iff_eq. rewrite H9. apply run_nonce.
Qed.

Lemma build_missing_issuer X t ops : build X t (builder_run X ops) = Err EMissingIssuer <-> forall k, ~ In (IssuedBy k) ops.
Proof.
  pose proof (run_issuer X ops) as Hi. unfold build. split.
  - destruct (b_issuer (builder_run X ops)) as [k|].
    + destruct (b_audience (builder_run X ops)); [|discriminate].
      unfold implied_expiration. destruct (b_expiration (builder_run X ops)); [discriminate|].
      destruct (b_lifetime (builder_run X ops)) as [l|]; [|discriminate]. unfold u64_add.
      destruct (t + l <=? u64_max)%N; [discriminate|]. destruct (x_overflow_checks X); discriminate.
    + intros _ k Hin. specialize (Hi _ Hin). discriminate.
  - intros H. destruct (b_issuer (builder_run X ops)) as [k|]; [|reflexivity].
    destruct Hi as (b & o & r & -> & Ho & _). destruct o; try discriminate.
    destruct (H k0). apply in_or_app. right. left. reflexivity.
Qed.

Lemma build_missing_audience X t ops : build X t (builder_run X ops) = Err EMissingAudience <->
  (exists k, In (IssuedBy k) ops) /\ forall a, ~ In (ForAudience a) ops.
Proof.
  pose proof (run_issuer X ops) as Hi. pose proof (run_audience X ops) as Ha. unfold build. split.
  - destruct (b_issuer (builder_run X ops)) as [k|]; [|discriminate].
    destruct (b_audience (builder_run X ops)) as [a|].
    + unfold implied_expiration. destruct (b_expiration (builder_run X ops)); [discriminate|].
      destruct (b_lifetime (builder_run X ops)) as [l|]; [|discriminate]. unfold u64_add.
      destruct (t + l <=? u64_max)%N; [discriminate|]. destruct (x_overflow_checks X); discriminate.
    + intros _. split; [|intros a Hin; specialize (Ha _ Hin); discriminate].
      destruct Hi as (b & o & r & -> & Ho & _). destruct o; try discriminate. exists k0. apply in_or_app. right. left. reflexivity.
  - intros [[k Hk] H]. destruct (b_issuer (builder_run X ops)) as [k'|]; [|specialize (Hi _ Hk); discriminate].
    destruct (b_audience (builder_run X ops)) as [a|]; [|reflexivity].
    destruct Ha as (b & o & r & -> & Ho & _). destruct o; try discriminate.
    destruct (H a0). apply in_or_app. right. left. reflexivity.
Qed.

(** [build] succeeds iff issuer and audience are set, unless the lifetime overflows and the build checks. *)
Lemma build_succeeds_iff X t ops : (exists s, build X t (builder_run X ops) = Ok s) <->
  (exists k, In (IssuedBy k) ops) /\ (exists a, In (ForAudience a) ops) /\
  ~ (last_such sets_expiration ops None /\ x_overflow_checks X = true /\
     exists l, last_such sets_lifetime ops (Some l) /\ (18446744073709551616 <= t + l)%N).
Proof.
  pose proof (run_issuer X ops) as Hi. pose proof (run_audience X ops) as Ha.
  pose proof (run_expiration X ops) as He. pose proof (run_lifetime X ops) as Hl.
  assert (Ii : (exists k, In (IssuedBy k) ops) <-> b_issuer (builder_run X ops) <> None).
  { split.
    - intros [k Hk] E. rewrite E in Hi. specialize (Hi _ Hk). discriminate.
    - destruct (b_issuer (builder_run X ops)) as [k|]; [|congruence]. intros _.
      destruct Hi as (b & o & r & -> & Ho & _). destruct o; try discriminate. exists k0. apply in_or_app. right. left. reflexivity. }
  assert (Ia : (exists a, In (ForAudience a) ops) <-> b_audience (builder_run X ops) <> None).
  { split.
    - intros [k Hk] E. rewrite E in Ha. specialize (Ha _ Hk). discriminate.
    - destruct (b_audience (builder_run X ops)) as [k|]; [|congruence]. intros _.
      destruct Ha as (b & o & r & -> & Ho & _). destruct o; try discriminate. exists a. apply in_or_app. right. left. reflexivity. }
  rewrite Ii, Ia. clear Ii Ia Hi Ha. unfold build.
  destruct (b_issuer (builder_run X ops)) as [k|]; [|split; [intros [s H]; discriminate | intros [H _]; congruence]].
  destruct (b_audience (builder_run X ops)) as [a|]; [|split; [intros [s H]; discriminate | intros [_ [H _]]; congruence]].
  unfold implied_expiration. destruct (b_expiration (builder_run X ops)) as [e|].
  { split; [|intros _; eexists; reflexivity]. intros _. split; [discriminate | split; [discriminate|]].
    intros [H _]. discriminate (last_such_unique _ _ _ _ He H). }
  destruct (b_lifetime (builder_run X ops)) as [l|].
  2: { split; [|intros _; eexists; reflexivity]. intros _. split; [discriminate | split; [discriminate|]].
       intros (_ & _ & l & H & _). discriminate (last_such_unique _ _ _ _ Hl H). }
  split.
  - intros [s H]. split; [discriminate | split; [discriminate|]]. intros (_ & Hc & l' & Hl' & Hov).
    pose proof (last_such_unique _ _ _ _ Hl Hl') as E. injection E as <-.
    destruct (u64_add X t l) as [e| | |] eqn:E; try discriminate. apply u64_add_ok in E as [_ [E|E]]; [lia | congruence].
  - intros (_ & _ & H).
    assert (E : u64_add X t l = Ok ((t + l) mod 18446744073709551616)%N).
    { apply u64_add_ok. split; [reflexivity|]. destruct (N.ltb_spec (t + l) 18446744073709551616) as [|L]; [left; assumption|].
      right. destruct (x_overflow_checks X); [|reflexivity]. destruct H. split; [exact He | split; [reflexivity | exists l; auto]]. }
    rewrite E. cbn [rbind]. eexists. reflexivity.
Qed.

(* --------------------------------------------------------------- delegating *)

Lemma claims_added_app n a b : claims_added n (a ++ b) = claims_added n a ++ claims_added (n + length (proofs_added a)) b.
Proof.
  revert n. induction a as [|o a IH]; intros n; cbn [app].
  - cbn. rewrite Nat.add_0_r. reflexivity.
  - unfold proofs_added. cbn [flat_map]. fold (proofs_added a). rewrite app_length.
    destruct o; cbn [claims_added adds_proof length]; rewrite ?IH, <- ?app_assoc; cbn [app Nat.add]; rewrite <- ?plus_n_Sm; reflexivity.
Qed.

Lemma few_app a b : few (a ++ b) -> few a /\ few b.
Proof. unfold few, word. rewrite app_length. lia. Qed.

Lemma delegating_from_points X before a h after : few (before ++ DelegatingFrom a h :: after) ->
  exists i, i = length (b_proofs (builder_run X before)) /\
    b_proofs (builder_run X (before ++ [DelegatingFrom a h])) = b_proofs (builder_run X before) ++ [citation X a h] /\
    b_capabilities (builder_run X (before ++ [DelegatingFrom a h])) = b_capabilities (builder_run X before) ++ [delegation_of i] /\
    names_proof X (delegation_of i) (N.of_nat i) /\
    (forall j, names_proof X (delegation_of i) j -> j = N.of_nat i) /\
    nth_error (b_proofs (builder_run X (before ++ DelegatingFrom a h :: after))) i = Some (citation X a h) /\
    In (delegation_of i) (b_capabilities (builder_run X (before ++ DelegatingFrom a h :: after))).
Proof.
  intros Hw. pose proof Hw as Hw'. change (DelegatingFrom a h :: after) with ([DelegatingFrom a h] ++ after) in Hw'.
  rewrite app_assoc in Hw'. apply few_app in Hw' as [Hw1 _]. pose proof (few_app _ _ Hw1) as [Hw0 _].
  exists (length (proofs_added before)). rewrite !run_proofs, !run_claims by assumption. rewrite citations_length.
  split; [reflexivity|].
  assert (Hi : word (N.of_nat (length (proofs_added before)))).
  { pose proof (proofs_added_length before). unfold few, word in *. lia. }
  split; [unfold citations; rewrite proofs_added_app, map_app; reflexivity|].
  split; [rewrite claims_added_app; reflexivity|].
  split; [apply names_index; exact Hi|].
  split.
  { intros j (_ & uri & Hu & _ & Hp). unfold delegation_of in Hu. cbn [cap_resource] in Hu. rewrite parse_prf_url in Hu.
    injection Hu as <-. cbn [url_path] in Hp. rewrite parse_usize_print in Hp by exact Hi. congruence. }
  split.
  - unfold citations. rewrite proofs_added_app, map_app. rewrite nth_error_app2; rewrite map_length; [|apply le_n].
    rewrite Nat.sub_diag. reflexivity.
  - rewrite claims_added_app. apply in_or_app. right. left. reflexivity.
Qed.

(** Later calls keep what was there. *)
Lemma later_calls_keep X before after i text : nth_error (b_proofs (builder_run X before)) i = Some text ->
  nth_error (b_proofs (builder_run X (before ++ after))) i = Some text.
Proof.
  rewrite !run_proofs. intros H. unfold citations in *. rewrite proofs_added_app, map_app.
  rewrite nth_error_app1; [exact H|]. apply nth_error_Some. congruence.
Qed.

(** What the claims added are. *)
Lemma claims_added_in ops : forall n c, In c (claims_added n ops) <->
  claimed_explicitly ops c \/
  exists i a h, nth_error (proofs_added ops) i = Some (a, h, true) /\ c = delegation_of (n + i).
Proof.
  induction ops as [|o ops IH]; intros n c.
  - cbn. split; [intros []|]. intros [[[]|(l & [] & _)] | (i & a & h & H & _)]. destruct i; discriminate.
  - assert (Hx : claimed_explicitly (o :: ops) c <->
      (o = ClaimingCapability c \/ exists l, o = ClaimingCapabilities l /\ In c l) \/ claimed_explicitly ops c).
    { unfold claimed_explicitly. cbn [In]. split.
      - intros [[H|H] | (l & [H|H] & Hl)]; eauto 6.
      - intros [[H|(l & H & Hl)] | [H|(l & H & Hl)]]; eauto 6. }
    rewrite Hx. unfold proofs_added. cbn [flat_map]. fold (proofs_added ops).
    destruct o as [ | | | | | k' v | |a h |c' |l |a h ]; cbn [claims_added adds_proof app].
    1-7: rewrite IH; split; [intros [H|H]; [left; right; exact H | right; exact H]
           | intros [[[H|(l & H & _)]|H]|H]; try discriminate H; [left; exact H | right; exact H]].
    + rewrite IH. split.
      * intros [H|(i & a' & h' & H & ->)]; [left; right; exact H|]. right. exists (S i), a', h'. split; [exact H | f_equal; lia].
      * intros [[[H|(l & H & _)]|H]|(i & a' & h' & H & ->)]; try discriminate H; [left; exact H|].
        right. destruct i as [|i]; [discriminate|]. exists i, a', h'. split; [exact H | f_equal; lia].
    + cbn [In]. rewrite IH. split.
      * intros [->|[H|H]]; [left; left; left; reflexivity | left; right; exact H | right; exact H].
      * intros [[[H|(l & H & _)]|H]|H]; try discriminate H; [left; congruence | right; left; exact H | right; right; exact H].
    + rewrite in_app_iff, IH. split.
      * intros [H|[H|H]]; [left; left; right; exists l; auto | left; right; exact H | right; exact H].
      * intros [[[H|(l' & H & Hl)]|H]|H]; try discriminate H; [left; congruence | right; left; exact H | right; right; exact H].
    + cbn [In]. rewrite IH. split.
      * intros [<-|[H|(i & a' & h' & H & ->)]].
        -- right. exists 0%nat, a, h. split; [reflexivity | f_equal; lia].
        -- left; right; exact H.
        -- right. exists (S i), a', h'. split; [exact H | f_equal; lia].
      * intros [[[H|(l & H & _)]|H]|(i & a' & h' & H & ->)]; try discriminate H; [right; left; exact H|].
        destruct i as [|i]; [left; f_equal; lia|]. right. right. exists i, a', h'. split; [exact H | f_equal; lia].
Qed.

Lemma signed_claims X rng s u c : sign X rng s = Ok u -> claims u c <-> In c (s_capabilities s).
Proof.
  intros H. apply sign_iff in H as (_ & Hp & _). apply ucan_payload_iff in Hp as (_ & _ & _ & _ & _ & _ & Hc & _).
  rewrite <- claims_iter. apply caps_of_list_iter in Hc as (Hperm & _).
  split; intros H; eapply Permutation_in; [exact Hperm | exact H | apply Permutation_sym, Hperm | exact H].
Qed.

Lemma signed_cited X rng s u : sign X rng s = Ok u -> cited u = s_proofs s.
Proof.
  intros H. apply sign_iff in H as (_ & Hp & _). apply ucan_payload_iff in Hp as (_ & _ & _ & _ & _ & _ & _ & _ & Hc).
  unfold cited. rewrite Hc. destruct (s_proofs s); reflexivity.
Qed.

Lemma build_described X t ops s : few ops -> build X t (builder_run X ops) = Ok s -> described X t ops s.
Proof. intros Hw. apply build_iff, Hw. Qed.

Lemma delegation_names X i j : word (N.of_nat i) -> names_proof X (delegation_of i) j <-> j = N.of_nat i.
Proof.
  intros Hi. split.
  - intros (_ & uri & Hu & _ & Hp). unfold delegation_of in Hu. cbn [cap_resource] in Hu. rewrite parse_prf_url in Hu.
    injection Hu as <-. cbn [url_path] in Hp. rewrite parse_usize_print in Hp by exact Hi. congruence.
  - intros ->. apply names_index. exact Hi.
Qed.

Lemma built_redelegations E t rng ops s u nt fuel st c st' : few ops ->
  build (e_ext E) t (builder_run (e_ext E) ops) = Ok s -> sign (e_ext E) rng s = Ok u ->
  from_ucan E nt fuel u st = (Ok c, st') ->
  (forall i, In (N.of_nat i) (c_redelegations c) <->
     (exists a h, nth_error (proofs_added ops) i = Some (a, h, true)) \/
     (exists cap, claimed_explicitly ops cap /\ names_proof (e_ext E) cap (N.of_nat i))).
Proof.
  intros Hw Hb Hs Hr i. apply accepted_redelegates in Hr as (_ & Hi & _). rewrite Hi.
  apply build_described in Hb; [|exact Hw]. split.
  - intros (cap & Hc & Hn). apply (signed_claims _ _ _ _ _ Hs) in Hc. rewrite (de_claims _ _ _ _ Hb) in Hc.
    apply claims_added_in in Hc as [Hc | (j & a & h & Hj & ->)]; [right; exists cap; auto|].
    assert (Hwj : word (N.of_nat (0 + j))).
    { assert (j < length (proofs_added ops))%nat by (apply nth_error_Some; congruence).
      pose proof (proofs_added_length ops). unfold few, word in *. cbn. lia. }
    apply delegation_names in Hn; [|exact Hwj]. apply Nat2N.inj in Hn. cbn in Hn. subst j. left. eauto.
  - intros [(a & h & Hj) | (cap & Hc & Hn)].
    + exists (delegation_of (0 + i)). split.
      * apply (signed_claims _ _ _ _ _ Hs). rewrite (de_claims _ _ _ _ Hb). apply claims_added_in. right. eauto.
      * apply delegation_names; [|reflexivity].
        assert (i < length (proofs_added ops))%nat by (apply nth_error_Some; congruence).
        pose proof (proofs_added_length ops). unfold few, word in *. cbn. lia.
    + exists cap. split; [|exact Hn]. apply (signed_claims _ _ _ _ _ Hs). rewrite (de_claims _ _ _ _ Hb).
      apply claims_added_in. left. exact Hc.
Qed.

Lemma built_proofs E t rng ops s u nt slice fuel st c st' : few ops ->
  build (e_ext E) t (builder_run (e_ext E) ops) = Ok s -> sign (e_ext E) rng s = Ok u ->
  with_parser slice st -> from_ucan E nt fuel u st = (Ok c, st') ->
  length (c_proofs c) = length (proofs_added ops) /\
  forall i a h d pc, nth_error (proofs_added ops) i = Some (a, h, d) -> nth_error (c_proofs c) i = Some pc ->
    resolves E (reads_between st st') (citation (e_ext E) a h) (c_ucan pc).
Proof.
  intros Hw Hb Hs Hp Hr.
  assert (Hroot : c_ucan c = u) by exact (from_ucan_root _ _ _ _ _ _ _ Hr).
  assert (Hv : valid_chain E nt slice (ticks_between st st') (reads_between st st') c)
    by (eapply from_ucan_sound; eauto).
  apply build_described in Hb; [|exact Hw].
  assert (Hc : cited (c_ucan c) = citations (e_ext E) ops).
  { rewrite Hroot, (signed_cited _ _ _ _ Hs). exact (de_proofs _ _ _ _ Hb). }
  split.
  - rewrite (valid_proof_count _ _ _ _ _ _ _ Hv (Sub_self c)), Hc. apply citations_length.
  - intros i a h d pc Hi Hpc.
    destruct (valid_proof_nth _ _ _ _ _ _ _ _ _ Hv (Sub_self c) Hpc) as (text & Ht & Hres).
    rewrite Hc in Ht. unfold citations in Ht.
    rewrite (map_nth_error _ _ _ Hi) in Ht. injection Ht as <-. exact Hres.
Qed.

(* -------------------------------------------------------------------- lifetime *)

Lemma lifetime_expiry X t ops s l : few ops -> build X t (builder_run X ops) = Ok s ->
  last_such sets_expiration ops None -> last_such sets_lifetime ops (Some l) -> word t -> word l ->
  ((t + l < 18446744073709551616)%N -> s_expiration s = Some (t + l)%N) /\
  ((18446744073709551616 <= t + l)%N -> exists e, s_expiration s = Some e /\ (e < t)%N).
Proof.
  intros Hw Hb He Hl Ht Hlw. apply build_described in Hb; [|exact Hw].
  destruct (de_expiration _ _ _ _ Hb) as [(e & H & _) | [_ [[H _] | (l' & H & Heq & Ho)]]].
  - discriminate (last_such_unique _ _ _ _ He H).
  - discriminate (last_such_unique _ _ _ _ Hl H).
  - pose proof (last_such_unique _ _ _ _ Hl H) as E. injection E as <-. rewrite Heq. unfold word in *. split; intros Hov.
    + rewrite N.mod_small by exact Hov. reflexivity.
    + eexists. split; [reflexivity|].
      replace (t + l)%N with ((t + l - 18446744073709551616) + 1 * 18446744073709551616)%N by lia.
      rewrite N.mod_add by lia. rewrite N.mod_small by lia. lia.
Qed.

Lemma build_panic X t b p : build X t b = Panic p <->
  p = PAddOverflow /\ (exists k, b_issuer b = Some k) /\ (exists a, b_audience b = Some a) /\ b_expiration b = None /\
  x_overflow_checks X = true /\ exists l, b_lifetime b = Some l /\ (18446744073709551616 <= t + l)%N.
Proof.
  assert (Hu : forall l q, u64_add X t l = Panic q <-> q = PAddOverflow /\ x_overflow_checks X = true /\ (18446744073709551616 <= t + l)%N).
  { intros l q. unfold u64_add. change u64_max with 18446744073709551615%N.
    destruct (N.leb_spec (t + l) 18446744073709551615).
    - split; [discriminate | lia].
    - destruct (x_overflow_checks X); split; [intros [= <-]; split; [reflexivity | split; [reflexivity | lia]]
        | intros [-> _]; reflexivity | discriminate | intros (_ & ? & _); discriminate]. }
  assert (Ho : forall l e, u64_add X t l <> Err e /\ u64_add X t l <> Diverged).
  { intros l e. unfold u64_add. destruct (t + l <=? u64_max)%N; [split; discriminate|].
    destruct (x_overflow_checks X); split; discriminate. }
  unfold build, implied_expiration. destruct (b_issuer b) as [k|].
  2: { split; [discriminate | intros (_ & [k Hk] & _); discriminate]. }
  destruct (b_audience b) as [a|].
  2: { split; [discriminate | intros (_ & _ & [k' Hk] & _); discriminate]. }
  destruct (b_expiration b) as [e|].
  { cbn [rbind]. split; [discriminate | intros (_ & _ & _ & H & _); discriminate]. }
  destruct (b_lifetime b) as [l|].
  2: { cbn [rbind]. split; [discriminate | intros (_ & _ & _ & _ & _ & l & H & _); discriminate]. }
  split.
  - destruct (u64_add X t l) as [e|e|q|] eqn:E; cbn [rbind]; try discriminate. intros [= <-].
    apply Hu in E as (-> & Hc & Hl). split; [reflexivity|]. split; [eauto|]. split; [eauto|]. eauto 6.
  - intros (-> & _ & _ & _ & Hc & l' & Hl & Hge). injection Hl as <-.
    rewrite (proj2 (Hu l PAddOverflow) (conj eq_refl (conj Hc Hge))). reflexivity.
Qed.

Lemma issuer_set X ops : (exists k, b_issuer (builder_run X ops) = Some k) <-> exists k, In (IssuedBy k) ops.
Proof.
  pose proof (run_issuer X ops) as H. destruct (b_issuer (builder_run X ops)) as [k|].
  - split; [|eauto]. intros _. destruct H as (b & o & r & -> & Ho & _). destruct o; try discriminate.
    eexists. apply in_or_app. right. left. reflexivity.
  - split; [intros [k Hk]; discriminate|]. intros [k Hk]. specialize (H _ Hk). discriminate.
Qed.

Lemma audience_set X ops : (exists a, b_audience (builder_run X ops) = Some a) <-> exists a, In (ForAudience a) ops.
Proof.
  pose proof (run_audience X ops) as H. destruct (b_audience (builder_run X ops)) as [k|].
  - split; [|eauto]. intros _. destruct H as (b & o & r & -> & Ho & _). destruct o; try discriminate.
    eexists. apply in_or_app. right. left. reflexivity.
  - split; [intros [k Hk]; discriminate|]. intros [k Hk]. specialize (H _ Hk). discriminate.
Qed.

Lemma last_such_eq {A C} (f : A -> option C) l o o' : last_such f l o -> o = o' <-> last_such f l o'.
Proof. intros H. split; [intros <-; exact H | apply last_such_unique, H]. Qed.

Lemma lifetime_aborts_iff X t ops p : build X t (builder_run X ops) = Panic p <->
  p = PAddOverflow /\ (exists k, In (IssuedBy k) ops) /\ (exists a, In (ForAudience a) ops) /\
  last_such sets_expiration ops None /\ x_overflow_checks X = true /\
  exists l, last_such sets_lifetime ops (Some l) /\ (18446744073709551616 <= t + l)%N.
Proof.
  rewrite build_panic, issuer_set, audience_set, (last_such_eq _ _ _ None (run_expiration X ops)).
  assert (H : (exists l, b_lifetime (builder_run X ops) = Some l /\ (18446744073709551616 <= t + l)%N) <->
              (exists l, last_such sets_lifetime ops (Some l) /\ (18446744073709551616 <= t + l)%N)).
  { split; intros (l & Hl & Hge); exists l; (split; [|exact Hge]);
      apply (last_such_eq _ _ _ (Some l) (run_lifetime X ops)); exact Hl. }
  rewrite H. reflexivity.
Qed.

(* --------------------------------------------------------------------- signing *)

Lemma sign_aborts_iff X rng s : (forall p, key_did (s_issuer s) <> Panic p) ->
  (forall d p, key_sign (s_issuer s) d <> Panic p) ->
  ((exists p, sign X rng s = Panic p) <->
   (exists e, key_did (s_issuer s) = Err e) \/
   ((exists did, key_did (s_issuer s) = Ok did) /\ exists c, In c (s_capabilities s) /\ ~ object_caveat (cap_caveat c))).
Proof.
  intros Hd Hk. unfold sign, ucan_payload. destruct (key_did (s_issuer s)) as [did|e|p|] eqn:E.
  - cbn [rbind]. destruct (caps_of_list_total (s_capabilities s)) as [[m Hm]|Hm]; rewrite Hm; cbn [rbind].
    + destruct (key_sign (s_issuer s) _) as [g|e|p|] eqn:Es; cbn [rbind].
      * split; [intros [p H]; discriminate|]. intros [[e H]|[_ (c & Hc & Hn)]]; [discriminate|].
        destruct (proj2 (caps_of_list_fails_iff (s_capabilities s))) as [e He]; [exists c; auto | congruence].
      * split; [intros [p H]; discriminate|]. intros [[e' H]|[_ (c & Hc & Hn)]]; [discriminate|].
        destruct (proj2 (caps_of_list_fails_iff (s_capabilities s))) as [e' He]; [exists c; auto | congruence].
      * destruct (Hk _ _ Es).
      * split; [intros [p H]; discriminate|]. intros [[e' H]|[_ (c & Hc & Hn)]]; [discriminate|].
        destruct (proj2 (caps_of_list_fails_iff (s_capabilities s))) as [e' He]; [exists c; auto | congruence].
    + split; [|intros _; eexists; reflexivity]. intros _. right. split; [eauto|].
      apply caps_of_list_fails_iff. eauto.
  - cbn [rbind]. split; [intros _; left; eauto | intros _; eexists; reflexivity].
  - destruct (Hd p eq_refl).
  - cbn [rbind]. split; [intros [p H]; discriminate|]. intros [[e H]|[[did H] _]]; discriminate.
Qed.

Lemma sign_reports X rng s did : key_did (s_issuer s) = Ok did ->
  (forall c, In c (s_capabilities s) -> object_caveat (cap_caveat c)) ->
  (forall d, (exists g, key_sign (s_issuer s) d = Ok g) \/ (exists e, key_sign (s_issuer s) d = Err e)) ->
  (exists u, sign X rng s = Ok u) \/ (exists d e, key_sign (s_issuer s) d = Err e /\ sign X rng s = Err e).
Proof.
  intros Hd Ho Hk. destruct (caps_of_list_ok _ Ho) as [m Hm]. unfold sign, ucan_payload. rewrite Hd, Hm. cbn [rbind].
  match goal with |- context[key_sign _ ?d] => destruct (Hk d) as [[g E]|[e E]] end; rewrite E; cbn [rbind].
  - left. eexists. reflexivity.
  - right. eexists. exists e. split; [exact E | reflexivity].
Qed.

(* ----------------------------------------------------------------------- nonce *)

Lemma b64_length_32 bs : length bs = 32%nat -> length (b64_encode bs) = 43%nat.
Proof. intros H. pose proof (b64_encode_length bs). rewrite H in H0. lia. Qed.

Lemma built_nonce X t ops s rng u : few ops -> build X t (builder_run X ops) = Ok s -> sign X rng s = Ok u ->
  (p_nnc (u_payload u) <> None <-> In WithNonce ops) /\
  (forall n, p_nnc (u_payload u) = Some n -> b64_decode n = Some rng).
Proof.
  intros Hw Hb Hs. apply build_described in Hb; [|exact Hw]. pose proof (de_nonce _ _ _ _ Hb) as Hn.
  apply sign_iff in Hs as (_ & Hp & _). apply ucan_payload_iff in Hp as (_ & _ & _ & _ & _ & H & _). rewrite H.
  destruct (s_add_nonce s); split.
  - split; [intros _; apply Hn; reflexivity | discriminate].
  - intros n [= <-]. apply b64_roundtrip.
  - split; [congruence|]. intros Hin. apply Hn in Hin. discriminate.
  - discriminate.
Qed.

Lemma nonce_form X rng s u n : sign X rng s = Ok u -> length rng = 32%nat -> p_nnc (u_payload u) = Some n ->
  length n = 43%nat /\ (forall c, In c n -> In c base64url_alphabet) /\ b64_decode n = Some rng.
Proof.
  intros Hs Hl Hn. apply sign_iff in Hs as (_ & Hp & _). apply ucan_payload_iff in Hp as (_ & _ & _ & _ & _ & H & _).
  rewrite H in Hn. destruct (s_add_nonce s); [|discriminate]. injection Hn as <-.
  split; [apply b64_length_32, Hl | split; [apply b64_encode_in | apply b64_roundtrip]].
Qed.

Lemma nonce_distinct X rng rng' s s' u u' n : sign X rng s = Ok u -> sign X rng' s' = Ok u' ->
  p_nnc (u_payload u) = Some n -> p_nnc (u_payload u') = Some n -> rng = rng'.
Proof.
  intros Hs Hs' Hn Hn'.
  apply sign_iff in Hs as (_ & Hp & _). apply ucan_payload_iff in Hp as (_ & _ & _ & _ & _ & H & _).
  apply sign_iff in Hs' as (_ & Hp' & _). apply ucan_payload_iff in Hp' as (_ & _ & _ & _ & _ & H' & _).
  rewrite H in Hn. rewrite H' in Hn'. destruct (s_add_nonce s); [|discriminate]. destruct (s_add_nonce s'); [|discriminate].
  apply b64_encode_inj. congruence.
Qed.

(* ----------------------------------------------------------------------- order *)

Lemma order_same_report {S A} (SO : scope_ops S) (AO : ability_ops A) parse X t rng before adds adds' after u u' proofs red :
  Permutation adds adds' -> ForallOrdPairs independent adds ->
  (let? s := build X t (builder_run X (before ++ map addition_op adds ++ after)) in sign X rng s) = Ok u ->
  (let? s := build X t (builder_run X (before ++ map addition_op adds' ++ after)) in sign X rng s) = Ok u' ->
  reduce SO AO parse (Chain u proofs red) = reduce SO AO parse (Chain u' proofs red).
Proof.
  intros Hp Hi Hu Hu'. rewrite (canonical_text X t rng before adds adds' after Hp Hi) in Hu. rewrite Hu in Hu'.
  assert (E : u = u') by (pose proof (f_equal (fun r => match r with Ok w => w | _ => u end) Hu') as E; exact E).
  rewrite E. reflexivity.
Qed.
