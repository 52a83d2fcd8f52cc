(** Facts for C76-C82. *)
From Coq Require Import Sorting.Sorted.
From Verif Require Export ChainFacts StoreFacts ReduceFacts SpecChain.

(* -------------------------------------------------------- reruns that agree *)

(** Where [m] succeeds, [m'] does the same. *)
Definition redoes {A} (m m' : M A) : Prop := forall st a st', m st = (Ok a, st') -> m' st = (Ok a, st').

Lemma redoes_refl {A} (m : M A) : redoes m m.
Proof. intros st a st' E. exact E. Qed.
Lemma redoes_bind {A C} (m m' : M A) (f f' : A -> M C) :
  redoes m m' -> (forall a, redoes (f a) (f' a)) -> redoes (bind m f) (bind m' f').
Proof.
  intros Hm Hf st b st' Hb. apply bind_ok in Hb as (a & s1 & H1 & H2). apply bind_ok.
  exists a, s1. split; [apply Hm, H1 | apply Hf, H2].
Qed.
Lemma redoes_mmap {A C} (f f' : A -> M C) l : (forall a, redoes (f a) (f' a)) -> redoes (mmap f l) (mmap f' l).
Proof.
  intros Hf. induction l as [|a l IH]; cbn [mmap]; [apply redoes_refl|].
  apply redoes_bind; [apply Hf|]. intros c. apply redoes_bind; [exact IH|]. intros cs. apply redoes_refl.
Qed.

(* ---------------------------------------------------------------- C76: time *)

Lemma is_expired_some E u t st :
  is_expired E u (Some t) st = (Ok (match p_exp (u_payload u) with Some e => (e <? t)%N | None => false end), st).
Proof. unfold is_expired. destruct (p_exp (u_payload u)); reflexivity. Qed.

Lemma validate_retime E u t t' st st' : unexpired (u_payload u) t' ->
  validate E u (Some t) st = (Ok tt, st') -> validate E u (Some t') st = (Ok tt, st').
Proof.
  intros Hu. unfold validate. unfold bind at 1. rewrite is_expired_some. unfold bind at 2. rewrite is_expired_some.
  apply unexpired_iff in Hu. rewrite Hu.
  destruct (match p_exp (u_payload u) with Some e => (e <? t)%N | None => false end); [discriminate|]. auto.
Qed.

Lemma validate_retime_expired E u t' st : ~ unexpired (u_payload u) t' ->
  validate E u (Some t') st = (Err EExpired, st).
Proof.
  intros Hu. unfold validate, bind. rewrite is_expired_some. rewrite unexpired_iff in Hu.
  destruct (match p_exp (u_payload u) with Some e => (e <? t')%N | None => false end); [reflexivity | contradiction].
Qed.

Lemma lifetime_within_unexpired p q t : lifetime_within p q -> unexpired p t -> unexpired q t.
Proof. intros [_ H] Hu e He. destruct (H e He) as (e' & He' & Hle). specialize (Hu e' He'). lia. Qed.

Lemma retime E t t' fuel : forall u st c st', unexpired (u_payload u) t' ->
  from_ucan E (Some t) fuel u st = (Ok c, st') -> from_ucan E (Some t') fuel u st = (Ok c, st').
Proof.
  induction fuel as [|f IH]; intros u st c st' Hu Hr; [discriminate|].
  rewrite from_ucan_S in *. apply bind_ok in Hr as ([] & s1 & H1 & Hr). apply bind_ok in Hr as (ps & s2 & H2 & Hr).
  apply bind_ok. exists tt, s1. split; [eapply validate_retime; eassumption|]. apply bind_ok. exists ps, s2. split; [|exact Hr].
  clear Hr H1. revert s1 ps s2 H2. induction (cited u) as [|a l IHl]; intros s1 ps s2 H2; [exact H2|].
  cbn [mmap] in *. apply bind_ok in H2 as (c1 & s3 & H3 & H2). apply bind_ok in H2 as (cs & s4 & H4 & H2).
  apply bind_ok. exists c1, s3. split; [|apply bind_ok; exists cs, s4; split; [apply IHl, H4 | exact H2]].
  clear H2 H4 IHl. unfold build_proof in *.
  apply bind_ok in H3 as (d & r1 & E1 & H3). apply bind_ok in H3 as (tok & r2 & E2 & H3).
  apply bind_ok in H3 as (pu & r3 & E3 & H3). apply bind_ok in H3 as (pc & r4 & E4 & H3).
  apply bind_ok in H3 as ([] & r5 & E5 & H3).
  apply bind_ok. exists d, r1. split; [exact E1|]. apply bind_ok. exists tok, r2. split; [exact E2|].
  apply bind_ok. exists pu, r3. split; [exact E3|]. apply bind_ok. exists pc, r4. split.
  - apply IH; [|exact E4]. apply lift_ok in E5 as [E5 _]. apply validate_link_iff in E5 as [_ Hw].
    rewrite (from_ucan_root _ _ _ _ _ _ _ E4) in Hw. eapply lifetime_within_unexpired; eassumption.
  - apply bind_ok. exists tt, r5. split; [exact E5 | exact H3].
Qed.

Lemma supplied_time E fuel u st c st' t t' : from_ucan E (Some t) fuel u st = (Ok c, st') ->
  (unexpired (u_payload u) t' -> from_ucan E (Some t') fuel u st = (Ok c, st')) /\
  (~ unexpired (u_payload u) t' -> from_ucan E (Some t') fuel u st = (Err EExpired, st)).
Proof.
  intros Hr. split; intros Hu; [eapply retime; eassumption|].
  destruct fuel as [|f]; [discriminate|]. rewrite from_ucan_S. unfold bind at 1. rewrite validate_retime_expired by exact Hu. reflexivity.
Qed.

(** With the machine clock. *)
Lemma valid_chain_retime E slice t t' T T' R c : (exists n, T' n : Prop) ->
  live_at (u_payload (c_ucan c)) (Z.of_N t') ->
  valid_chain (at_time E t) None slice T R c -> valid_chain (at_time E t') None slice T' R c.
Proof.
  intros [n0 Hn0]. intros Hl Hv. revert Hl. induction Hv as [u ps red Hn Hres Hlk Hred _ IH]. cbn [c_ucan]. intros Hl.
  constructor.
  - destruct Hn as (_ & _ & Hs). split; [|split; [|exact Hs]].
    + intros e He. exists n0. split; [exact Hn0|]. simpl. apply N2Z.inj_le. apply Hl, He.
    + intros b Hb. exists n0. split; [exact Hn0|]. simpl. apply N2Z.inj_le. apply Hl, Hb.
  - exact Hres.
  - exact Hlk.
  - exact Hred.
  - intros pc Hin. apply IH; [exact Hin|]. eapply lifetime_within_live; [|exact Hl]. apply (Hlk pc Hin).
Qed.

Lemma valid_chain_live E slice t T R c : valid_chain (at_time E t) None slice T R c -> live_at (u_payload (c_ucan c)) (Z.of_N t).
Proof.
  intros Hv. destruct Hv as [u ps red (H1 & H2 & _) _ _ _ _]. cbn [c_ucan]. split.
  - intros b Hb. destruct (H2 b Hb) as (n & _ & Hle). simpl in Hle. lia.
  - intros e He. destruct (H1 e He) as (n & _ & Hle). simpl in Hle. lia.
Qed.

Lemma window_of_acceptance E slice u c st t t' : steady_store E -> with_parser slice st ->
  (exists fuel, fst (from_ucan (at_time E t) None fuel u st) = Ok c) ->
  ((exists fuel, fst (from_ucan (at_time E t') None fuel u st) = Ok c) <-> live_at (u_payload u) (Z.of_N t')).
Proof.
  intros Hst Hp Ha.
  assert (forall s, steady (at_time E s)) as Hs by (intros s; split; [reflexivity | exact Hst]).
  apply (chain_accepted_iff _ _ slice u c st (Hs _) Hp) in Ha. rewrite (chain_accepted_iff _ None slice u c st (Hs t') Hp).
  destruct Ha as [<- Ha]. split.
  - intros [_ Hv]. eapply valid_chain_live, Hv.
  - intros Hl. split; [reflexivity|]. eapply valid_chain_retime; [exists 0%nat; exact I | exact Hl | exact Ha].
Qed.

(** The chain found does not depend on the time. *)
Lemma valid_chain_unique E nt nt' slice slice' T T' R R' (Hst : steady_store E) c :
  forall E', e_ext E' = e_ext E -> (forall n d, e_read E' n d = e_read E n d) ->
  forall c', c_ucan c = c_ucan c' -> valid_chain E nt slice T R c -> valid_chain E' nt' slice' T' R' c' -> c = c'.
Proof.
  intros E' Hx Hrd c' Hc Hv. revert c' Hc. induction Hv as [u ps red _ Hres _ Hred _ IH]. intros c' Hc Hv'.
  destruct Hv' as [u' ps' red' _ Hres' _ Hred' Hps']. cbn [c_ucan] in Hc. subst u'.
  assert (ps = ps') as Hps.
  { clear Hred Hred'. revert ps' Hres' Hps'. induction Hres as [|text pc l ps Hr Hres IHl]; intros ps' Hres' Hps'; inversion Hres' as [|? pc' ? ps'' Hr' Hres'']; subst; [reflexivity|].
    f_equal.
    - apply IH; [left; reflexivity | | apply Hps'; left; reflexivity].
      destruct Hr as (d & n & tok & P1 & P2 & _ & P3 & _ & P4), Hr' as (d' & n' & tok' & Q1 & Q2 & _ & Q3 & _ & Q4).
      rewrite Hx in *. assert (d' = d) by congruence. subst d'. rewrite Hrd, (Hst n' n) in Q3.
      assert (tok' = tok) by congruence. subst tok'. congruence.
    - apply IHl; [intros; apply IH; [right; assumption | assumption | assumption] | exact Hres'' | intros; apply Hps'; right; assumption]. }
  subst ps'. f_equal.
  destruct Hred as (S1 & R1 & _), Hred' as (S2 & R2 & _). rewrite Hx in R2.
  apply ssorted_lt in S1. apply ssorted_lt in S2. apply (ssorted_ext red red' S1 S2).
  intros i. rewrite R1, R2. reflexivity.
Qed.

Lemma time_independent_chain E slice slice' u c c' st st' nt nt' t t' f f' : steady_store E ->
  with_parser slice st -> with_parser slice' st' ->
  fst (from_ucan (at_time E t) nt f u st) = Ok c -> fst (from_ucan (at_time E t') nt' f' u st') = Ok c' -> c = c'.
Proof.
  intros Hst Hp Hp' H1 H2.
  destruct (from_ucan (at_time E t) nt f u st) as [r1 s1] eqn:E1, (from_ucan (at_time E t') nt' f' u st') as [r2 s2] eqn:E2.
  cbn [fst] in *. subst.
  destruct (from_ucan_valid _ _ _ _ _ _ _ _ Hp E1) as [Hc V1]. destruct (from_ucan_valid _ _ _ _ _ _ _ _ Hp' E2) as [Hc' V2].
  eapply (valid_chain_unique (at_time E t) nt nt' slice slice' _ _ _ _ Hst c (at_time E t'));
    [reflexivity | reflexivity | congruence | exact V1 | exact V2].
Qed.

(* -------------------------------------------------------- C77: more blocks *)

Lemma grown_validate E E' u nt : grown E E' -> redoes (validate E u nt) (validate E' u nt).
Proof.
  intros (Hx & Hc & _).
  assert (forall st, now E' st = now E st) as Hn by (intros st; unfold now; rewrite Hc; reflexivity).
  assert (forall st, is_expired E' u nt st = is_expired E u nt st) as H1.
  { intros st. unfold is_expired. destruct (p_exp (u_payload u)); [|reflexivity].
    destruct nt; [reflexivity|]. unfold bind. rewrite Hn. reflexivity. }
  assert (forall st, is_too_early E' u st = is_too_early E u st) as H2.
  { intros st. unfold is_too_early. destruct (p_nbf (u_payload u)); [|reflexivity]. unfold bind. rewrite Hn. reflexivity. }
  intros st a st' Hv. unfold validate in *. unfold bind in *. rewrite H1.
  destruct (is_expired E u nt st) as [[[]| | |] s]; try exact Hv. rewrite H2. exact Hv.
Qed.

Lemma grown_require E E' c : grown E E' -> redoes (require_token E c) (require_token E' c).
Proof.
  intros (Hx & _ & Hr) st token st' Ht. apply require_token_ok in Ht. apply require_token_ok.
  destruct Ht as (H1 & H2 & H3 & H4). auto.
Qed.

Lemma grown_from_ucan E E' nt fuel : grown E E' -> forall u, redoes (from_ucan E nt fuel u) (from_ucan E' nt fuel u).
Proof.
  intros Hg. pose proof Hg as (Hx & _). induction fuel as [|f IH]; intros u; [apply redoes_refl|]. rewrite !from_ucan_S. rewrite Hx.
  apply redoes_bind; [apply grown_validate, Hg|]. intros _. apply redoes_bind; [|intros ps; apply redoes_refl].
  apply redoes_mmap. intros text. unfold build_proof. rewrite Hx.
  apply redoes_bind; [apply redoes_refl|]. intros c. apply redoes_bind; [apply grown_require, Hg|]. intros tok.
  apply redoes_bind; [apply redoes_refl|]. intros pu. apply redoes_bind; [apply IH|]. intros pc. apply redoes_refl.
Qed.

Lemma growing_keeps E E' nt fuel u st c st' : grown E E' ->
  from_ucan E nt fuel u st = (Ok c, st') -> from_ucan E' nt fuel u st = (Ok c, st').
Proof. intros Hg. apply grown_from_ucan, Hg. Qed.

Lemma written_app a b x : written (a ++ b) x <-> written a x \/ written b x.
Proof. unfold written. rewrite in_app_iff. reflexivity. Qed.

Lemma memory_grown E E' ops more : e_ext E' = e_ext E -> (forall n, e_clock E' n = e_clock E n) ->
  holds_writes E ops -> holds_writes E' (ops ++ more) -> collision_free (e_ext E) (ops ++ more) -> grown E E'.
Proof.
  intros Hx Hc He He' Hcf. split; [exact Hx|]. split; [exact Hc|]. intros n c x Hr. rewrite He in Hr. rewrite He', Hx.
  unfold mem_read in Hr. destruct (hget c (snd (store_run (e_ext E) [] ops))) as [b|] eqn:Eh; [|discriminate].
  destruct (mem_read_content (e_ext E) ops c b) as [Hw Hb]; [unfold mem_read; rewrite Eh; reflexivity|].
  pose proof (mem_read_written (e_ext E) (ops ++ more) b Hcf) as Hm. rewrite written_app in Hm.
  rewrite Hb in Hm. rewrite (Hm (or_introl Hw)). exact Hr.
Qed.

(* -------------------------------------------------------------- C78: aborts *)

Lemma bind_panic {A C} (m : M A) (f : A -> M C) st p st' : bind m f st = (Panic p, st') ->
  m st = (Panic p, st') \/ exists a s1, m st = (Ok a, s1) /\ f a s1 = (Panic p, st').
Proof.
  unfold bind. destruct (m st) as [[a|e|q|] s1]; try discriminate.
  - right. exists a, s1. auto.
  - intros [= <- <-]. left. reflexivity.
Qed.

Lemma resolve_panic (slice : list (bytes * ctor)) did p : (forall m c bs q, In (m, c) slice -> c bs <> Panic q) ->
  resolve (mof_list slice) did = Panic p -> p = PDidSlice /\ short_did did.
Proof.
  intros Hc. unfold resolve. destruct (strip_prefix did_key_prefix did) as [rest|] eqn:Ep; [|discriminate].
  destruct (b58_decode rest) as [bs|] eqn:Eb; [|discriminate].
  assert (did = did_key_text bs) as Ed by (apply did_text_decode; exists rest; auto).
  destruct bs as [|m0 [|m1 tl]].
  - intros [= <-]. split; [reflexivity|]. exists []. split; [simpl; lia | exact Ed].
  - intros [= <-]. split; [reflexivity|]. exists [m0]. split; [simpl; lia | exact Ed].
  - destruct (mget [m0; m1] (mof_list slice)) as [c|] eqn:Em; [|discriminate].
    intros Hp. exfalso. apply registered_iff in Em as (b & a & -> & _).
    eapply Hc; [|exact Hp]. apply in_or_app. right. left. reflexivity.
Qed.

Lemma short_did_panics slice dids did : short_did did -> did_parse (parser_after slice dids) did = (Panic PDidSlice, parser_after slice dids).
Proof.
  intros (bs & Hl & ->).
  assert (fst (did_parse (parser_after slice dids) (did_key_text bs)) = Panic PDidSlice) as Hf.
  { rewrite parser_after_resolve, resolve_text. destruct bs as [|? [|? ?]]; try reflexivity. simpl in Hl. lia. }
  rewrite (surjective_pairing (did_parse _ _)), Hf, did_parse_fail; [reflexivity|]. rewrite Hf. discriminate.
Qed.

Lemma validate_panic E slice u nt st p st' : well_behaved E slice -> with_parser slice st ->
  validate E u nt st = (Panic p, st') -> p = PDidSlice /\ short_did (p_iss (u_payload u)).
Proof.
  intros (_ & Hc & Hk) Hp Hv. unfold validate in Hv.
  assert (proper_m slice (is_expired E u nt)) as P1.
  { unfold is_expired. destruct (p_exp (u_payload u)); [|auto with proper]. apply proper_bind; auto with proper. destruct nt; auto with proper. }
  assert (proper_m slice (is_too_early E u)) as P2.
  { unfold is_too_early. destruct (p_nbf (u_payload u)); [|auto with proper]. apply proper_bind; auto with proper. }
  apply bind_panic in Hv as [Hv | (b & s1 & H1 & Hv)].
  { exfalso. unfold is_expired in Hv. destruct (p_exp (u_payload u)); [|discriminate]. destruct nt; discriminate. }
  destruct b; [discriminate|]. apply bind_panic in Hv as [Hv | (b & s2 & H2 & Hv)].
  { exfalso. unfold is_too_early in Hv. destruct (p_nbf (u_payload u)); discriminate. }
  destruct b; [discriminate|].
  assert (with_parser slice s2) as [dids Hd].
  { specialize (P2 s1). rewrite H2 in P2. apply P2. specialize (P1 st). rewrite H1 in P1. apply P1, Hp. }
  unfold check_signature in Hv. apply bind_panic in Hv as [Hv | (k & s3 & H3 & Hv)].
  - unfold parse_did in Hv. rewrite Hd in Hv.
    destruct (did_parse (parser_after slice dids) (p_iss (u_payload u))) as [r q] eqn:Er.
    injection Hv as -> _. pose proof (parser_after_resolve slice dids (p_iss (u_payload u))) as Hf. rewrite Er in Hf.
    symmetry in Hf. exact (resolve_panic slice _ _ Hc Hf).
  - exfalso. unfold parse_did in H3. rewrite Hd in H3.
    destruct (did_parse (parser_after slice dids) (p_iss (u_payload u))) as [r q] eqn:Er. injection H3 as -> _.
    assert (fst (did_parse (parser_after slice dids) (p_iss (u_payload u))) = Ok k) as Hok by (rewrite Er; reflexivity).
    apply did_parse_ok_iff in Hok as (m & c & rest & _ & _ & (b & a & -> & _) & Hcr).
    injection Hv as Hv _. eapply Hk; [|exact Hcr | exact Hv]. apply in_or_app. right. left. reflexivity.
Qed.

Lemma require_token_panic E slice c st p st' : well_behaved E slice -> require_token E c st <> (Panic p, st').
Proof.
  intros (HR & _) Hr. unfold require_token, read_token, bind, store_read, lift in Hr.
  destruct (negb (cid_codec c =? raw_codec)%N); [discriminate|].
  specialize (HR (v_reads st) c). destruct (e_read E (v_reads st) c) as [[[]|]|e|q|]; simpl in *; try discriminate; [|eapply HR; reflexivity].
  match type of Hr with context [utf8_valid ?b] => destruct (utf8_valid b) end; discriminate.
Qed.

Lemma parse_token_panic X t p : parse_token X t <> Panic p.
Proof.
  unfold parse_token, rbind, ok_or.
  destruct (split_on x2e t) as [|a [|b l]]; try discriminate;
  repeat match goal with |- context [match ?o with Some _ => _ | None => _ end] => destruct o; try discriminate end.
Qed.

Lemma redelegations_panic X n l p : forall acc, redelegations_from X n acc l <> Panic p.
Proof.
  induction l as [|c l IH]; intros acc; [discriminate|]. cbn [redelegations_from].
  destruct (parse_proof_cap X c) as [v|]; [|apply IH].
  destruct (v_resource v) as [[[m|]|]| |]; try apply IH. destruct (m <? N.of_nat n)%N; [apply IH | discriminate].
Qed.

Lemma lift_panic {A} (r : res A) st p st' : lift r st = (Panic p, st') -> r = Panic p.
Proof. intros E. injection E as E _. exact E. Qed.

Lemma chain_abort E nt slice fuel : well_behaved E slice -> forall u st p st', with_parser slice st ->
  from_ucan E nt fuel u st = (Panic p, st') ->
  p = PDidSlice /\ exists v, reachable E u v /\ short_did (p_iss (u_payload v)).
Proof.
  intros HW. induction fuel as [|f IH]; intros u st p st' Hp Hr; [discriminate|].
  rewrite from_ucan_S in Hr. apply bind_panic in Hr as [Hv | ([] & s1 & H1 & Hr)].
  { destruct (validate_panic _ _ _ _ _ _ _ HW Hp Hv) as [-> Hs]. split; [reflexivity|]. exists u. split; [constructor | exact Hs]. }
  assert (with_parser slice s1) as Hp1 by (pose proof (proper_validate slice E u nt st) as Hq; rewrite H1 in Hq; apply Hq, Hp).
  apply bind_panic in Hr as [Hm | (ps & s2 & _ & Hr)].
  2:{ exfalso. apply bind_panic in Hr as [Hr | (red & s3 & _ & Hr)]; [|discriminate].
      apply lift_panic in Hr. eapply redelegations_panic, Hr. }
  clear H1. assert (forall text, In text (cited u) -> In text (cited u)) as Hsub by auto. revert Hsub Hm. generalize (cited u) at 1 3.
  intros l. revert s1 Hp1. induction l as [|text l IHl]; intros s1 Hp1 Hsub Hm; [discriminate|].
  cbn [mmap] in Hm. apply bind_panic in Hm as [Hm | (pc & s2 & H2 & Hm)].
  - unfold build_proof in Hm. apply bind_panic in Hm as [Hm | (d & r1 & E1 & Hm)].
    { exfalso. apply lift_panic in Hm. destruct (parse_cid (e_ext E) text); discriminate. }
    apply lift_ok in E1 as [E1 ->]. apply ok_or_ok in E1.
    apply bind_panic in Hm as [Hm | (tok & r2 & E2 & Hm)]; [exfalso; eapply require_token_panic; eassumption|].
    apply bind_panic in Hm as [Hm | (pu & r3 & E3 & Hm)]; [exfalso; apply lift_panic in Hm; eapply parse_token_panic, Hm|].
    apply lift_ok in E3 as [E3 ->].
    apply bind_panic in Hm as [Hm | (pc & r4 & E4 & Hm)].
    + assert (with_parser slice r2) as Hp2 by (pose proof (proper_require_token slice E d s1) as Hq; rewrite E2 in Hq; apply Hq, Hp1).
      destruct (IH pu r2 p st' Hp2 Hm) as (-> & v & Hv & Hs). split; [reflexivity|]. exists v. split; [|exact Hs].
      apply require_token_ok in E2 as (K1 & K2 & K3 & _). econstructor; [|exact Hv].
      exists text. split; [apply Hsub; left; reflexivity|]. exists d, (v_reads s1), tok. repeat split; auto.
    + exfalso. apply bind_panic in Hm as [Hm | ([] & r5 & _ & Hm)]; [|discriminate]. apply lift_panic in Hm.
      unfold validate_link_to in Hm. destruct (bytes_eqb _ _); [destruct (lifetime_encompasses _ _)|]; discriminate.
  - apply bind_panic in Hm as [Hm | (cs & s3 & _ & Hm)]; [|discriminate].
    apply (IHl s2); [|intros; apply Hsub; right; assumption | exact Hm].
    pose proof (proper_build_proof slice E (from_ucan E nt f) u text (proper_from_ucan slice E nt f) s1) as Hq.
    rewrite H2 in Hq. apply Hq, Hp1.
Qed.

(** The abort happens before any signature is looked at. *)
Lemma short_issuer_aborts E nt slice fuel u st : with_parser slice st ->
  unexpired (u_payload u) (expiry_time E nt st) -> started (u_payload u) (start_time E (u_payload u) nt st) ->
  short_did (p_iss (u_payload u)) -> fst (from_ucan E nt (S fuel) u st) = Panic PDidSlice.
Proof.
  intros [dids Hd] Hu Hs Hi. rewrite from_ucan_S. unfold bind at 1.
  pose proof (validate_signature E u nt st Hu Hs) as Hv. rewrite Hd, short_did_panics in Hv by exact Hi.
  cbn [fst rbind] in Hv. destruct (validate E u nt st) as [r s]. cbn [fst] in Hv. subst r. reflexivity.
Qed.

Lemma standard_well_behaved E slice : (forall n c p, e_read E n c <> Panic p) ->
  (forall m c, In (m, c) slice -> standard_ctor m c) -> well_behaved E slice.
Proof.
  intros Hr Hs. split; [exact Hr|]. split.
  - intros m c bs p Hin. destruct (Hs m c Hin); unfold bytes_to_ed25519_key, bytes_to_p256_key, bytes_to_rsa_key, ok_or, rbind;
      destruct (cr_decode C bs); discriminate.
  - intros m c bs k d s p Hin. destruct (Hs m c Hin); unfold bytes_to_ed25519_key, bytes_to_p256_key, bytes_to_rsa_key, ok_or, rbind;
      destruct (cr_decode C bs); try discriminate; intros [= <-]; cbn [key_verify ed25519_key p256_key rsa_key]; unfold km_verify;
      destruct (cr_verify _ _ _ _); discriminate.
Qed.

(* ------------------------------------------------------- C79: content and CID *)

Lemma memory_chain_content E nt slice fuel u st c st' d i pc : memory_backed E -> with_parser slice st ->
  from_ucan E nt fuel u st = (Ok c, st') -> sub_chain d c -> nth_error (c_proofs d) i = Some pc ->
  exists text token, nth_error (cited (c_ucan d)) i = Some text /\
    parse_cid (e_ext E) text = Some (cid_new_v1 85 30 (x_hash (e_ext E) 30 token)) /\
    parse_token (e_ext E) token = Ok (c_ucan pc).
Proof.
  intros Hm Hp Hr Hs Hn. destruct (valid_proof_nth _ _ _ _ _ _ _ _ _ (proj2 (from_ucan_valid _ _ _ _ _ _ _ _ Hp Hr)) Hs Hn) as (text & Ht & Hres).
  destruct (memory_resolves _ _ _ _ Hm Hres) as (token & H1 & H2). exists text, token. auto.
Qed.

(* ------------------------------------------------ C80, C81: what is looked at *)

Lemma same_links_valid E nt slice T R u u' ps red : same_links (e_ext E) u u' -> signed_by_issuer (did_parser_new slice) u' ->
  valid_chain E nt slice T R (Chain u ps red) -> valid_chain E nt slice T R (Chain u' ps red).
Proof.
  intros (H1 & H2 & H3 & H4 & H5) Hs Hv. inversion Hv as [? ? ? (V1 & V2 & _) V3 V4 (V5 & V6 & V7) V8]; subst. constructor.
  - split; [rewrite <- H2; exact V1|]. split; [rewrite <- H3; exact V2 | exact Hs].
  - rewrite <- H4. exact V3.
  - intros pc Hin. destruct (V4 pc Hin) as [A1 [A2 A3]]. unfold linked, lifetime_within. rewrite <- H1, <- H2, <- H3. auto.
  - split; [exact V5|]. split; [|exact V7]. intros i. rewrite <- H5. apply V6.
  - exact V8.
Qed.

Lemma same_links_sym X u u' : same_links X u u' -> same_links X u' u.
Proof. intros (H1 & H2 & H3 & H4 & H5). repeat split; try congruence; apply H5. Qed.

Lemma same_links_accepted E nt slice st u u' ps red : steady E -> with_parser slice st ->
  same_links (e_ext E) u u' -> signed_by_issuer (did_parser_new slice) u -> signed_by_issuer (did_parser_new slice) u' ->
  ((exists fuel, fst (from_ucan E nt fuel u st) = Ok (Chain u ps red)) <->
   (exists fuel, fst (from_ucan E nt fuel u' st) = Ok (Chain u' ps red))).
Proof.
  intros Hst Hp Hl Hs Hs'. rewrite !(chain_accepted_iff _ _ slice _ _ _ Hst Hp). cbn [c_ucan].
  split; intros [_ Hv]; (split; [reflexivity|]).
  - eapply same_links_valid; [exact Hl | exact Hs' | exact Hv].
  - eapply same_links_valid; [apply same_links_sym, Hl | exact Hs | exact Hv].
Qed.

(* --------------------------------------------------------- C82: empty windows *)

Lemma never_live_iff p : never_live p <-> exists b e, p_nbf p = Some b /\ p_exp p = Some e /\ (e < b)%N.
Proof.
  unfold never_live, live_at. split.
  - intros Hn. destruct (p_nbf p) as [b|].
    + destruct (p_exp p) as [e|].
      * exists b, e. split; [reflexivity|]. split; [reflexivity|]. destruct (N.lt_ge_cases e b) as [|Hge]; [assumption|].
        exfalso. apply (Hn (Z.of_N b)). split; intros x [= <-]; lia.
      * exfalso. apply (Hn (Z.of_N b)). split; [intros x [= <-]; lia | discriminate].
    + destruct (p_exp p) as [e|]; exfalso.
      * apply (Hn (Z.of_N e)). split; [discriminate | intros x [= <-]; lia].
      * apply (Hn 0%Z). split; discriminate.
  - intros (b & e & -> & -> & Hlt) t [H1 H2]. specialize (H1 b eq_refl). specialize (H2 e eq_refl). lia.
Qed.

(** Rejected by the machine clock as long as it does not advance during the run. *)
Lemma never_live_rejected E slice fuel u st c st' w : (forall n m, e_clock E n = e_clock E m) -> with_parser slice st ->
  from_ucan E None fuel u st = (Ok c, st') -> in_chain w c -> ~ never_live (u_payload w).
Proof.
  intros Hc Hp Hr Hw Hn. destruct (valid_in_chain _ _ _ _ _ _ _ (proj2 (from_ucan_valid _ _ _ _ _ _ _ _ Hp Hr)) Hw) as (H1 & H2 & _).
  apply never_live_iff in Hn as (b & e & Hb & He & Hlt).
  destruct (H1 e He) as (n & _ & L1). destruct (H2 b Hb) as (m & _ & L2). rewrite (Hc n m) in L1. lia.
Qed.

(** In general some UCAN of an accepted chain is live at one reading or the clock passed over its window. *)
Lemma accepted_leaf_empty_window E nt slice fuel u st c st' w : with_parser slice st ->
  from_ucan E nt fuel u st = (Ok c, st') -> in_chain w c -> never_live (u_payload w) -> never_live (u_payload u).
Proof.
  intros Hp Hr (d & Hs & <-) Hn t Hl.
  destruct (from_ucan_valid _ _ _ _ _ _ _ _ Hp Hr) as [<- Hv].
  apply (Hn t). eapply lifetime_within_live; [|exact Hl]. eapply valid_lifetime; eassumption.
Qed.

Lemma only_issuer {S A} (SO : scope_ops S) (AO : ability_ops A) parse c r v :
  enabling_transitive SO AO parse c -> reduce SO AO parse c = Ok r -> heeded parse (c_ucan c) v ->
  (forall w, heeded parse (c_ucan c) w -> view_enables SO AO v w = true \/ view_enables SO AO w v = true -> w = v) ->
  (forall z, redelegated_entry SO AO parse c z ->
     i_capability z <> v /\ view_enables SO AO v (i_capability z) = false /\ view_enables SO AO (i_capability z) v = false) ->
  (forall pc q i, attenuated c pc -> reduce SO AO parse pc = Ok q -> In i q -> view_enables SO AO (i_capability i) v = false) ->
  exists x, In x r /\ i_capability x = v /\ i_originators x = [p_iss (u_payload (c_ucan c))].
Proof.
  intros Ht Hr Hh Hiso Hred Hno. destruct (report_isolated_claim SO AO parse c r v Ht Hr Hh Hiso Hred) as (x & Hx & Hv & Ho).
  exists x. split; [exact Hx|]. split; [exact Hv|].
  destruct (report_originators SO AO parse c r x Hr Hx) as (Hs & Hne & _).
  assert (forall o, In o (i_originators x) <-> o = p_iss (u_payload (c_ucan c))) as Ho'.
  { intros o. rewrite Ho. unfold credited. split.
    - intros [(i & (pc & q & H1 & H2 & H3 & H4) & _) | [-> _]]; [|reflexivity].
      rewrite (Hno pc q i H1 H2 H3) in H4. discriminate.
    - intros ->. right. split; [reflexivity|]. intros (i & pc & q & H1 & H2 & H3 & H4).
      rewrite (Hno pc q i H1 H2 H3) in H4. discriminate. }
  apply ssorted_ext; [exact Hs | repeat constructor|]. intros o. rewrite Ho'. simpl. intuition congruence.
Qed.
