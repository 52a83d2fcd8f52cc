(** Facts about proof chains (C32-C39). *)
From Coq Require Import Sorting.Sorted.
From Verif Require Export DidFacts TimeFacts Url Ext Cid Json Semantics Store Chain.

Lemma Forall2_impl {A C} (P Q : A -> C -> Prop) l l' :
  (forall a c, P a c -> Q a c) -> Forall2 P l l' -> Forall2 Q l l'.
Proof. intros Hpq Hf. induction Hf; constructor; auto. Qed.

Lemma StronglySorted_sub {A} (P Q : A -> A -> Prop) l :
  (forall a b, P a b -> Q a b) -> StronglySorted P l -> StronglySorted Q l.
Proof.
  intros Hpq Hs. induction Hs as [|a l Hs IH Hf]; constructor; auto.
  eapply Forall_impl; [|exact Hf]. apply Hpq.
Qed.

(* --------------------------------------------------------------- the monad *)

Lemma bind_ok {A C} (m : M A) (f : A -> M C) st b st' :
  bind m f st = (Ok b, st') <-> exists a st1, m st = (Ok a, st1) /\ f a st1 = (Ok b, st').
Proof.
  unfold bind. destruct (m st) as [[a|e|q|] st1].
  - split; [intros Hx; exists a, st1; auto | intros (a' & st1' & [= <- <-] & Hx); exact Hx].
  - split; [discriminate | intros (a' & st1' & Hx & _); discriminate].
  - split; [discriminate | intros (a' & st1' & Hx & _); discriminate].
  - split; [discriminate | intros (a' & st1' & Hx & _); discriminate].
Qed.

(** [st'] may follow [st]. *)
Definition follows (slice : list (bytes * ctor)) (st st' : vstate) : Prop :=
  (with_parser slice st -> with_parser slice st') /\
  (v_ticks st <= v_ticks st')%nat /\ (v_reads st <= v_reads st')%nat.

Lemma follows_refl slice st : follows slice st st.
Proof. repeat split; auto. Qed.

Lemma follows_trans slice a b c : follows slice a b -> follows slice b c -> follows slice a c.
Proof. intros (H1 & H2 & H3) (K1 & K2 & K3). repeat split; [auto | lia | lia]. Qed.

Definition proper_m {A} slice (m : M A) : Prop := forall st, follows slice st (snd (m st)).

Lemma proper_ret {A} slice (a : A) : proper_m slice (ret a).
Proof. intros st. apply follows_refl. Qed.
Lemma proper_lift {A} slice (r : res A) : proper_m slice (lift r).
Proof. intros st. apply follows_refl. Qed.
Lemma proper_bind {A C} slice (m : M A) (f : A -> M C) :
  proper_m slice m -> (forall a, proper_m slice (f a)) -> proper_m slice (bind m f).
Proof.
  intros Hm Hf st. unfold bind. specialize (Hm st). destruct (m st) as [[a|e|q|] st1]; try exact Hm.
  eapply follows_trans; [exact Hm | apply Hf].
Qed.
Lemma proper_now slice E : proper_m slice (now E).
Proof. intros st. repeat split; simpl; auto. Qed.

Lemma parser_after_snoc slice dids did :
  snd (did_parse (parser_after slice dids) did) = parser_after slice (dids ++ [did]).
Proof. unfold parser_after. rewrite fold_left_app. reflexivity. Qed.

Lemma proper_parse_did slice did : proper_m slice (parse_did did).
Proof.
  intros st. unfold parse_did. destruct (did_parse (v_parser st) did) as [r p] eqn:E.
  repeat split; simpl; auto. intros [dids Hp]. exists (dids ++ [did]). simpl.
  rewrite <- parser_after_snoc, <- Hp, E. reflexivity.
Qed.
Lemma proper_verify slice k d s : proper_m slice (verify k d s).
Proof. intros st. repeat split; simpl; auto. Qed.
Lemma proper_store_read slice E c : proper_m slice (store_read E c).
Proof. intros st. repeat split; simpl; auto. Qed.

Create HintDb proper.
#[global] Hint Resolve proper_ret proper_lift proper_bind proper_now proper_parse_did proper_verify proper_store_read : proper.

Lemma proper_validate slice E u nt : proper_m slice (validate E u nt).
Proof.
  unfold validate, is_expired, is_too_early, check_signature.
  apply proper_bind.
  - destruct (p_exp (u_payload u)); auto with proper. apply proper_bind; auto with proper.
    destruct nt; auto with proper.
  - intros [|]; auto with proper. apply proper_bind.
    + destruct (p_nbf (u_payload u)); auto with proper.
    + intros [|]; auto with proper.
Qed.

Lemma proper_require_token slice E c : proper_m slice (require_token E c).
Proof.
  unfold require_token, read_token. apply proper_bind.
  - destruct (negb _); auto with proper.
  - intros [t|]; auto with proper.
Qed.

Lemma proper_mmap {A C} slice (f : A -> M C) l : (forall a, proper_m slice (f a)) -> proper_m slice (mmap f l).
Proof. intros Hf. induction l as [|a l IH]; simpl; auto with proper. Qed.

Lemma proper_build_proof slice E rec u t : (forall pu, proper_m slice (rec pu)) -> proper_m slice (build_proof E rec u t).
Proof.
  intros Hr. unfold build_proof.
  repeat (apply proper_bind; [auto using proper_require_token with proper | intros ?]). auto with proper.
Qed.

Lemma proper_from_ucan slice E nt fuel u : proper_m slice (from_ucan E nt fuel u).
Proof.
  revert u. induction fuel as [|f IH]; intros u; simpl; [auto with proper|].
  apply proper_bind; [apply proper_validate|]. intros _.
  apply proper_bind.
  - destruct (p_prf (u_payload u)); auto with proper. apply proper_mmap. intros a. apply proper_build_proof, IH.
  - intros proofs. auto with proper.
Qed.

(** Sequences of successful steps. *)
Lemma mmap_ok {A C} slice (f : A -> M C) l : (forall a, proper_m slice (f a)) -> forall st cs st',
  mmap f l st = (Ok cs, st') ->
  Forall2 (fun a c => exists s1 s2, follows slice st s1 /\ f a s1 = (Ok c, s2) /\ follows slice s2 st') l cs.
Proof.
  intros Hf. induction l as [|a l IH]; intros st cs st' Hm.
  - injection Hm as <- <-. constructor.
  - cbn [mmap] in Hm. apply bind_ok in Hm as (c & s1 & H1 & Hm). apply bind_ok in Hm as (cs' & s2 & H2 & Hm).
    injection Hm as <- <-. constructor.
    + exists st, s1. split; [apply follows_refl|]. split; [exact H1|].
      pose proof (proper_mmap slice f l Hf s1) as Hp. rewrite H2 in Hp. exact Hp.
    + apply IH in H2. eapply Forall2_impl; [|exact H2]. intros x y (t1 & t2 & F1 & Fx & F2).
      exists t1, t2. split; [|auto]. eapply follows_trans; [|exact F1].
      pose proof (Hf a st) as Hp. rewrite H1 in Hp. exact Hp.
Qed.

(* ------------------------------------------------------------ redelegations *)

Lemma parse_proof_index X c i :
  (exists v, parse_proof_cap X c = Some v /\ v_resource v = RPlain (Scoped (Index i))) <-> names_proof X c i.
Proof.
  unfold parse_proof_cap, parse_capability, parse_cap, names_proof, parse_resource.
  split.
  - intros (v & Hv & Hr). destruct (parse_url X (cap_resource c)) as [uri|]; [|discriminate].
    destruct (bytes_eqb_spec (url_scheme uri) (B "my")) as [Em|Em].
    { destruct (bytes_eqb (url_path uri) (B "*")); simpl in Hv.
      - destruct (bytes_eqb (cap_ability c) (B "ucan/DELEGATE")); [|discriminate]. injection Hv as <-. discriminate.
      - rewrite Em in Hv. simpl in Hv. discriminate. }
    destruct (bytes_eqb_spec (url_scheme uri) (B "as")) as [Ea|Ea].
    { destruct (extract_did (url_path uri)) as [[d r]|]; [|discriminate].
      destruct (parse_url X r) as [u2|]; [|discriminate].
      destruct (if bytes_eqb (url_path u2) (B "*") then _ else _); [|discriminate].
      simpl in Hv. destruct (bytes_eqb (cap_ability c) (B "ucan/DELEGATE")); [|discriminate].
      injection Hv as <-. discriminate. }
    destruct (bytes_eqb_spec (url_path uri) (B "*")) as [Es|Es].
    { simpl in Hv. destruct (bytes_eqb (cap_ability c) (B "ucan/DELEGATE")); [|discriminate]. injection Hv as <-. discriminate. }
    simpl in Hv. unfold proof_selection_of_string in Hv.
    destruct (bytes_eqb_spec (url_scheme uri) (B "prf")) as [Ep|Ep]; [|discriminate].
    destruct (bytes_eqb (url_path uri) (B "*")); simpl in Hv.
    { destruct (bytes_eqb (cap_ability c) (B "ucan/DELEGATE")); [|discriminate]. injection Hv as <-. discriminate. }
    destruct (parse_usize (url_path uri)) as [n|] eqn:Eu; [|discriminate].
    destruct (bytes_eqb_spec (cap_ability c) (B "ucan/DELEGATE")) as [Ed|Ed]; [|discriminate].
    injection Hv as <-. simpl in Hr. injection Hr as ->. split; [exact Ed|]. exists uri. auto.
  - intros (Ed & uri & Eu & Ep & En). rewrite Eu. rewrite Ep, Ed.
    assert (url_path uri <> B "*") as Hs by (intros E; rewrite E in En; discriminate).
    apply bytes_eqb_neq in Hs. change (bytes_eqb (B "prf") (B "my")) with false. change (bytes_eqb (B "prf") (B "as")) with false.
    cbv iota. rewrite Hs. cbn [sc_of_url proof_scope]. rewrite Ep. change (bytes_eqb (B "prf") (B "prf")) with true.
    cbv iota. unfold proof_selection_of_string. rewrite Hs, En. cbn. eexists. split; reflexivity.
Qed.

Lemma parse_proof_all X c v : parse_proof_cap X c = Some v -> v_resource v <> RPlain (Scoped All).
Proof.
  unfold parse_proof_cap, parse_capability, parse_cap, parse_resource.
  destruct (parse_url X (cap_resource c)) as [uri|]; [|discriminate].
  destruct (ab_of_string proof_ability (cap_ability c)) as [a|]; [|destruct (if bytes_eqb (url_scheme uri) _ then _ else _); discriminate].
  destruct (bytes_eqb (url_scheme uri) (B "my")).
  { destruct (bytes_eqb (url_path uri) (B "*")); [intros [= <-]; discriminate|].
    destruct (sc_of_url proof_scope uri); [|discriminate]. intros [= <-]. discriminate. }
  destruct (bytes_eqb (url_scheme uri) (B "as")).
  { destruct (extract_did (url_path uri)) as [[d r]|]; [|discriminate].
    destruct (parse_url X r) as [u2|]; [|discriminate].
    destruct (if bytes_eqb (url_path u2) (B "*") then _ else _); [|discriminate]. intros [= <-]. discriminate. }
  destruct (bytes_eqb (url_path uri) (B "*")) eqn:Es; [intros [= <-]; discriminate|].
  simpl. destruct (bytes_eqb (url_scheme uri) (B "prf")); [|discriminate].
  unfold proof_selection_of_string. rewrite Es. destruct (parse_usize (url_path uri)); [|discriminate].
  intros [= <-]. discriminate.
Qed.

Lemma redelegations_from_ok X n l : forall acc red,
  redelegations_from X n acc l = Ok red ->
  (ssorted acc -> ssorted red) /\
  (forall i, In i red <-> In i acc \/ exists c, In c l /\ names_proof X c i) /\
  (forall i c, In c l -> names_proof X c i -> (i < N.of_nat n)%N).
Proof.
  induction l as [|c l IH]; intros acc red Hr.
  - injection Hr as <-. split; [auto|]. split.
    + intros i. split; [auto|]. intros [Hi | (c & [] & _)]. exact Hi.
    + intros i c [].
  - cbn [redelegations_from] in Hr.
    assert (forall i, names_proof X c i \/ ~ names_proof X c i) as Hdec.
    { intros i. rewrite <- parse_proof_index. destruct (parse_proof_cap X c) as [v|].
      - destruct (v_resource v) as [[[m|]|]| |] eqn:Ev.
        + destruct (N.eq_dec m i) as [->|Hne]; [left; eauto|].
          right. intros (v' & [= <-] & Hv). rewrite Ev in Hv. injection Hv as Hv. contradiction.
        + right. intros (v' & [= <-] & Hv). congruence.
        + right. intros (v' & [= <-] & Hv). congruence.
        + right. intros (v' & [= <-] & Hv). congruence.
        + right. intros (v' & [= <-] & Hv). congruence.
      - right. intros (v' & Hx & _). discriminate. }
    assert ((forall i, ~ names_proof X c i) -> redelegations_from X n acc l = Ok red ->
      (ssorted acc -> ssorted red) /\
      (forall i, In i red <-> In i acc \/ exists c', In c' (c :: l) /\ names_proof X c' i) /\
      (forall i c', In c' (c :: l) -> names_proof X c' i -> (i < N.of_nat n)%N)) as Hskip.
    { intros Hn Hr'. apply IH in Hr' as (H1 & H2 & H3). split; [exact H1|]. split.
      - intros i. rewrite H2. split.
        + intros [Hi | (c' & Hc & Hi)]; [auto | right; exists c'; split; [right|]; assumption].
        + intros [Hi | (c' & [<- | Hc] & Hi)]; [auto | exfalso; apply (Hn i Hi) | right; exists c'; auto].
      - intros i c' [<- | Hc] Hi; [exfalso; apply (Hn i Hi) | eapply H3; eassumption]. }
    destruct (parse_proof_cap X c) as [v|] eqn:Ep.
    2:{ apply Hskip; [|exact Hr]. intros i Hi. apply parse_proof_index in Hi as (v & Hv & _). congruence. }
    destruct (v_resource v) as [[[m|]|]| |] eqn:Ev.
    + destruct (m <? N.of_nat n)%N eqn:El; [|discriminate].
      assert (forall i, names_proof X c i <-> i = m) as Hm.
      { intros i. rewrite <- parse_proof_index. split.
        - intros (v' & Hv' & Hi). rewrite Ep in Hv'. injection Hv' as <-. rewrite Ev in Hi. congruence.
        - intros ->. exists v. auto. }
      apply IH in Hr as (H1 & H2 & H3). split; [intros Ha; apply H1, sinsert_sorted, Ha|]. split.
      * intros i. rewrite H2, sinsert_in. split.
        -- intros [[-> | Hi] | (c' & Hc & Hi)]; [right | left; exact Hi | right].
           ++ exists c. split; [left; reflexivity | apply Hm; reflexivity].
           ++ exists c'. split; [right; exact Hc | exact Hi].
        -- intros [Hi | (c' & [<- | Hc] & Hi)]; [auto | left; left; apply Hm, Hi | right; exists c'; auto].
      * intros i c' [<- | Hc] Hi; [apply Hm in Hi; subst; lia | eapply H3; eassumption].
    + exfalso. eapply parse_proof_all; eassumption.
    + apply Hskip; [|exact Hr]. intros i Hi. apply parse_proof_index in Hi as (v' & Hv & Hi). congruence.
    + apply Hskip; [|exact Hr]. intros i Hi. apply parse_proof_index in Hi as (v' & Hv & Hi). congruence.
    + apply Hskip; [|exact Hr]. intros i Hi. apply parse_proof_index in Hi as (v' & Hv & Hi). congruence.
Qed.

Lemma redelegations_from_total X n l : forall acc,
  (forall i c, In c l -> names_proof X c i -> (i < N.of_nat n)%N) ->
  exists red, redelegations_from X n acc l = Ok red.
Proof.
  induction l as [|c l IH]; intros acc Hl; [eexists; reflexivity|]. cbn [redelegations_from].
  assert (forall acc', exists red, redelegations_from X n acc' l = Ok red) as Hr.
  { intros acc'. apply IH. intros i c' Hc. apply Hl. right. exact Hc. }
  destruct (parse_proof_cap X c) as [v|] eqn:Ep; [|apply Hr].
  destruct (v_resource v) as [[[m|]|]| |] eqn:Ev; try apply Hr.
  assert (m < N.of_nat n)%N as Hm; [|apply N.ltb_lt in Hm; rewrite Hm; apply Hr].
  apply (Hl m c); [left; reflexivity|]. apply parse_proof_index. exists v. auto.
Qed.

Lemma redelegations_from_err X n l : forall acc,
  (exists i c, In c l /\ names_proof X c i /\ (N.of_nat n <= i)%N) ->
  redelegations_from X n acc l = Err ENoProofAtIndex.
Proof.
  induction l as [|c l IH]; intros acc (i & c' & Hc & Hn & Hi); [contradiction|].
  cbn [redelegations_from]. destruct Hc as [-> | Hc].
  - apply parse_proof_index in Hn as (v & -> & ->). destruct (N.ltb_spec i (N.of_nat n)); [lia | reflexivity].
  - assert (forall acc', redelegations_from X n acc' l = Err ENoProofAtIndex) as Hr by (intros acc'; apply IH; eauto).
    destruct (parse_proof_cap X c) as [v|]; [|apply Hr].
    destruct (v_resource v) as [[[m|]|]| |]; try apply Hr.
    destruct (m <? N.of_nat n)%N; [apply Hr | reflexivity].
Qed.

Lemma claims_iter u c : In c (caps_iter (p_cap (u_payload u))) <-> claims u c.
Proof. apply caps_iter_in. Qed.

Lemma ssorted_lt (l : list N) : ssorted l <-> StronglySorted N.lt l.
Proof.
  unfold ssorted. split; intros Hs; (eapply StronglySorted_sub; [|exact Hs]); intros a b; simpl; apply N.compare_lt_iff.
Qed.

Lemma redelegates_iff X u n red :
  redelegations_from X n [] (caps_iter (p_cap (u_payload u))) = Ok red <-> redelegates X u n red.
Proof.
  split.
  - intros Hr. apply redelegations_from_ok in Hr as (H1 & H2 & H3). split; [apply ssorted_lt, H1; constructor|].
    assert (forall i, In i red <-> exists c, claims u c /\ names_proof X c i) as Hi.
    { intros i. rewrite H2. split.
      - intros [[] | (c & Hc & Hn)]. exists c. split; [apply claims_iter, Hc | exact Hn].
      - intros (c & Hc & Hn). right. exists c. split; [apply claims_iter, Hc | exact Hn]. }
    split; [exact Hi|]. intros i Hin. apply Hi in Hin as (c & Hc & Hn). eapply H3; [apply claims_iter, Hc | exact Hn].
  - intros (H1 & H2 & H3).
    destruct (redelegations_from_total X n (caps_iter (p_cap (u_payload u))) []) as [red' Hr].
    { intros i c Hc Hn. apply H3, H2. exists c. split; [apply claims_iter, Hc | exact Hn]. }
    rewrite Hr. f_equal. apply redelegations_from_ok in Hr as (K1 & K2 & _).
    apply ssorted_ext; [apply K1; constructor | apply ssorted_lt, H1|].
    intros i. rewrite K2, H2. split.
    + intros [[] | (c & Hc & Hn)]. exists c. split; [apply claims_iter, Hc | exact Hn].
    + intros (c & Hc & Hn). right. exists c. split; [apply claims_iter, Hc | exact Hn].
Qed.

(* --------------------------------------------------------------- soundness *)

Lemma with_parser_signed slice st u : with_parser slice st ->
  (signed_by_issuer (v_parser st) u <-> signed_by_issuer (did_parser_new slice) u).
Proof.
  intros [dids Hp]. unfold signed_by_issuer. rewrite Hp, cache_invisible. reflexivity.
Qed.

Lemma validate_run E u nt st st' : validate E u nt st = (Ok tt, st') ->
  (forall e, p_exp (u_payload u) = Some e ->
     match nt with Some t => (t <= e)%N | None => exists n, ticks_between st st' n /\ (e_clock E n <= e)%N end) /\
  (forall b, p_nbf (u_payload u) = Some b -> exists n, ticks_between st st' n /\ (b <= e_clock E n)%N).
Proof.
  unfold validate. intros Hv. apply bind_ok in Hv as (ex & s1 & Hex & Hv).
  destruct ex; [discriminate|]. apply bind_ok in Hv as (ea & s2 & Hea & Hv). destruct ea; [discriminate|].
  assert (v_ticks s2 <= v_ticks st')%nat as H2.
  { pose proof (proper_bind [] (parse_did (p_iss (u_payload u))) (fun k => verify k (u_signed_data u) (u_signature u))
      (proper_parse_did _ _) (fun _ => proper_verify _ _ _ _) s2) as Hp.
    unfold check_signature in Hv. rewrite Hv in Hp. destruct Hp as (_ & Hp & _). exact Hp. }
  unfold is_expired in Hex. unfold is_too_early in Hea.
  assert (v_ticks st <= v_ticks s1 /\ (p_nbf (u_payload u) <> None -> v_ticks s1 < v_ticks s2) /\ v_ticks s1 <= v_ticks s2)%nat
    as (H0 & H1 & H1').
  { split; [|split].
    - destruct (p_exp (u_payload u)); [|injection Hex as <-; lia].
      apply bind_ok in Hex as (t & s' & Ht & Hx). injection Hx as _ <-.
      destruct nt; injection Ht as _ <-; simpl; lia.
    - intros Hn. destruct (p_nbf (u_payload u)); [|contradiction].
      apply bind_ok in Hea as (t & s' & Ht & Hx). injection Hx as _ <-. injection Ht as _ <-. simpl. lia.
    - destruct (p_nbf (u_payload u)); [|injection Hea as <-; lia].
      apply bind_ok in Hea as (t & s' & Ht & Hx). injection Hx as _ <-. injection Ht as _ <-. simpl. lia. }
  split.
  - intros e He. rewrite He in Hex. apply bind_ok in Hex as (t & s' & Ht & Hx). injection Hx as Hlt <-.
    apply N.ltb_ge in Hlt. destruct nt as [t0|]; injection Ht as <- <-; [exact Hlt|].
    exists (v_ticks st). split; [|exact Hlt]. unfold ticks_between. simpl in *. lia.
  - intros b Hb. rewrite Hb in Hea, H1. apply bind_ok in Hea as (t & s' & Ht & Hx).
    injection Hx as Hlt <-. apply N.ltb_ge in Hlt. injection Ht as <- <-.
    exists (v_ticks s1). split; [|exact Hlt]. unfold ticks_between. simpl in *. lia.
Qed.

Lemma validate_sound slice E u nt st st' (T : nat -> Prop) : with_parser slice st ->
  validate E u nt st = (Ok tt, st') -> (forall n, ticks_between st st' n -> T n) ->
  valid_now E nt slice T u.
Proof.
  intros Hp Hv HT. destruct (validate_run _ _ _ _ _ Hv) as [H1 H2]. split; [|split].
  - intros e He. specialize (H1 _ He). destruct nt; [exact H1|]. destruct H1 as (n & Hn & Hc). exists n. auto.
  - intros b Hb. destruct (H2 _ Hb) as (n & Hn & Hc). exists n. auto.
  - apply (with_parser_signed _ st); [exact Hp|].
    pose proof (validate_ok_iff E u nt st) as Hi. rewrite Hv in Hi. apply Hi. reflexivity.
Qed.

Lemma require_token_ok E c st token st' : require_token E c st = (Ok token, st') <->
  cid_codec c = 85%N /\ e_read E (v_reads st) c = Ok (Some (IBytes token)) /\ utf8_valid token = true /\
  st' = mkState (v_parser st) (v_ticks st) (S (v_reads st)) (v_checks st).
Proof.
  unfold require_token, read_token, raw_codec. rewrite bind_ok. split.
  - intros (r & s1 & Hr & Ht). destruct (N.eqb_spec (cid_codec c) 85) as [Ec|Ec]; [|discriminate].
    cbn [negb] in Hr. apply bind_ok in Hr as (x & s2 & Hs & Hx).
    unfold store_read in Hs. injection Hs as Hs <-. unfold lift in Hx.
    destruct x as [[| | | | |b| | |]|]; try discriminate. cbn [token_of_read] in Hx.
    destruct (utf8_valid b) eqn:Eu; [|discriminate]. injection Hx as <- <-. injection Ht as <- <-. auto.
  - intros (Ec & Er & Eu & ->). exists (Some token), (mkState (v_parser st) (v_ticks st) (S (v_reads st)) (v_checks st)).
    split; [|reflexivity]. rewrite Ec. cbn [N.eqb negb]. apply bind_ok.
    exists (Some (IBytes token)), (mkState (v_parser st) (v_ticks st) (S (v_reads st)) (v_checks st)).
    split; [unfold store_read; rewrite Er; reflexivity|]. cbn [token_of_read lift]. rewrite Eu. reflexivity.
Qed.

Lemma lift_ok {A} (r : res A) st a st' : lift r st = (Ok a, st') <-> r = Ok a /\ st' = st.
Proof. unfold lift. split; [intros [= -> <-]; auto | intros [-> ->]; reflexivity]. Qed.

Lemma ok_or_ok {A} (o : option A) e a : ok_or o e = Ok a <-> o = Some a.
Proof. destruct o; split; simpl; congruence. Qed.

Lemma lifetime_within_iff a b : lifetime_encompasses a b = true <-> lifetime_within (u_payload b) (u_payload a).
Proof.
  unfold lifetime_encompasses, lifetime_begins_before, lifetime_ends_after, lifetime_within.
  rewrite andb_true_iff. split.
  - intros [H1 H2]. split.
    + intros n E. rewrite E in H1. destruct (p_nbf (u_payload b)) as [m|]; [|discriminate].
      exists m. split; [reflexivity | lia].
    + intros n E. rewrite E in H2. destruct (p_exp (u_payload b)) as [m|]; [|discriminate].
      exists m. split; [reflexivity | lia].
  - intros [H1 H2]. split.
    + destruct (p_nbf (u_payload a)) as [n|]; [|reflexivity]. destruct (H1 n eq_refl) as (m & -> & Hle). lia.
    + destruct (p_exp (u_payload a)) as [n|]; [|reflexivity]. destruct (H2 n eq_refl) as (m & -> & Hle). lia.
Qed.

Lemma validate_link_iff pu u : validate_link_to pu u = Ok tt <-> linked u pu.
Proof.
  unfold validate_link_to, linked. destruct (bytes_eqb_spec (p_aud (u_payload pu)) (p_iss (u_payload u))) as [E|E].
  - rewrite <- lifetime_within_iff. destruct (lifetime_encompasses pu u); split; try discriminate; auto.
    intros [_ ?]. discriminate.
  - split; [discriminate|]. intros [? _]. contradiction.
Qed.

Lemma build_proof_ok E rec u text st pc st' : build_proof E rec u text st = (Ok pc, st') <->
  exists c token pu st1,
    parse_cid (e_ext E) text = Some c /\ require_token E c st = (Ok token, st1) /\
    parse_token (e_ext E) token = Ok pu /\ rec pu st1 = (Ok pc, st') /\ linked u (c_ucan pc).
Proof.
  unfold build_proof. rewrite bind_ok. split.
  - intros (c & s1 & Hc & Hx). apply lift_ok in Hc as [Hc ->]. apply ok_or_ok in Hc.
    apply bind_ok in Hx as (token & s2 & Ht & Hx). apply bind_ok in Hx as (pu & s3 & Hp & Hx).
    apply lift_ok in Hp as [Hp ->]. apply bind_ok in Hx as (pc' & s4 & Hr & Hx).
    apply bind_ok in Hx as ([] & s5 & Hl & Hx). apply lift_ok in Hl as [Hl ->].
    injection Hx as <- <-. apply validate_link_iff in Hl.
    exists c, token, pu, s2. auto.
  - intros (c & token & pu & s2 & Hc & Ht & Hp & Hr & Hl). exists c, st.
    split; [apply lift_ok; split; [apply ok_or_ok, Hc | reflexivity]|].
    apply bind_ok. exists token, s2. split; [exact Ht|].
    apply bind_ok. exists pu, s2. split; [apply lift_ok; auto|].
    apply bind_ok. exists pc, st'. split; [exact Hr|].
    apply bind_ok. exists tt, st'. split; [|reflexivity]. apply lift_ok. split; [apply validate_link_iff, Hl | reflexivity].
Qed.

Definition proof_loop E nt f u : M (list chain) :=
  match p_prf (u_payload u) with
  | Some l => mmap (build_proof E (from_ucan E nt f) u) l
  | None => ret []
  end.

Lemma proof_loop_cited E nt f u : proof_loop E nt f u = mmap (build_proof E (from_ucan E nt f) u) (cited u).
Proof. unfold proof_loop, cited. destruct (p_prf (u_payload u)); reflexivity. Qed.

Lemma from_ucan_S E nt f u : from_ucan E nt (S f) u =
  (let! _ := validate E u nt in
   let! proofs := mmap (build_proof E (from_ucan E nt f) u) (cited u) in
   let! red := lift (redelegations_from (e_ext E) (length proofs) [] (caps_iter (p_cap (u_payload u)))) in
   ret (Chain u proofs red)).
Proof. rewrite <- proof_loop_cited. reflexivity. Qed.

Lemma from_ucan_ok E nt f u st c st' : from_ucan E nt (S f) u st = (Ok c, st') <->
  exists st1 proofs red, validate E u nt st = (Ok tt, st1) /\
    mmap (build_proof E (from_ucan E nt f) u) (cited u) st1 = (Ok proofs, st') /\
    redelegates (e_ext E) u (length proofs) red /\ c = Chain u proofs red.
Proof.
  rewrite from_ucan_S, bind_ok. split.
  - intros ([] & s1 & Hv & Hx). apply bind_ok in Hx as (proofs & s2 & Hm & Hx).
    apply bind_ok in Hx as (red & s3 & Hr & Hx). apply lift_ok in Hr as [Hr ->].
    injection Hx as <- <-. apply redelegates_iff in Hr. exists s1, proofs, red. auto.
  - intros (s1 & proofs & red & Hv & Hm & Hr & ->). exists tt, s1. split; [exact Hv|].
    apply bind_ok. exists proofs, st'. split; [exact Hm|].
    apply bind_ok. exists red, st'. split; [|reflexivity]. apply lift_ok. split; [apply redelegates_iff, Hr | reflexivity].
Qed.

Lemma from_ucan_root E nt fuel u st c st' : from_ucan E nt fuel u st = (Ok c, st') -> c_ucan c = u.
Proof.
  destruct fuel as [|f]; [discriminate|]. intros Hr. apply from_ucan_ok in Hr as (s1 & ps & red & _ & _ & _ & ->). reflexivity.
Qed.

Lemma Forall2_in_r {A C} (P : A -> C -> Prop) l l' c : Forall2 P l l' -> In c l' -> exists a, In a l /\ P a c.
Proof.
  intros Hf. induction Hf as [|a b l l' Hp _ IH]; [contradiction|].
  intros [<- | Hin]; [exists a; split; [left; reflexivity | exact Hp]|].
  destruct (IH Hin) as (a' & Ha & Hc). exists a'. split; [right; exact Ha | exact Hc].
Qed.

Lemma from_ucan_sound E nt slice fuel : forall u st c st' (T R : nat -> Prop),
  with_parser slice st -> from_ucan E nt fuel u st = (Ok c, st') ->
  (forall n, ticks_between st st' n -> T n) -> (forall n, reads_between st st' n -> R n) ->
  valid_chain E nt slice T R c.
Proof.
  induction fuel as [|f IH]; intros u st c st' T R Hp Hr HT HR; [discriminate|].
  apply from_ucan_ok in Hr as (s1 & proofs & red & Hv & Hm & Hred & ->).
  pose proof (proper_validate slice E u nt st) as Hfv. rewrite Hv in Hfv. cbn [snd] in Hfv.
  pose proof (proper_mmap slice _ (cited u)
    (fun a => proper_build_proof slice E _ u a (proper_from_ucan slice E nt f)) s1) as Hfm.
  rewrite Hm in Hfm. cbn [snd] in Hfm.
  apply (mmap_ok slice) in Hm; [|intros a; apply proper_build_proof, proper_from_ucan].
  assert (Forall2 (fun text pc => resolves E R text (c_ucan pc) /\ linked u (c_ucan pc) /\ valid_chain E nt slice T R pc)
            (cited u) proofs) as Hall.
  { eapply Forall2_impl; [|exact Hm]. intros text pc (t1 & t2 & F1 & Hb & F2).
    apply build_proof_ok in Hb as (cd & token & pu & t3 & Hc & Ht & Hpu & Hrec & Hl).
    pose proof Ht as Ht'. apply require_token_ok in Ht' as (H1 & H2 & H3 & H4).
    pose proof (proper_from_ucan slice E nt f pu t3) as F3. rewrite Hrec in F3. cbn [snd] in F3.
    pose proof (proper_require_token slice E cd t1) as F4. rewrite Ht in F4. cbn [snd] in F4.
    assert (follows slice st t1) as F5 by (eapply follows_trans; eassumption).
    split; [|split; [exact Hl|]].
    - exists cd, (v_reads t1), token. rewrite (from_ucan_root _ _ _ _ _ _ _ Hrec).
      repeat split; auto. apply HR. unfold reads_between.
      destruct F5 as (_ & _ & F5). destruct F2 as (_ & _ & F2). destruct F3 as (_ & _ & F3).
      rewrite H4 in F3. simpl in F3. lia.
    - eapply IH; [|exact Hrec | |].
      + apply F4, F5, Hp.
      + intros n [Hn1 Hn2]. apply HT. unfold ticks_between.
        destruct F5 as (_ & F5 & _). destruct F2 as (_ & F2 & _). destruct F4 as (_ & F4 & _). lia.
      + intros n [Hn1 Hn2]. apply HR. unfold reads_between.
        destruct F5 as (_ & _ & F5). destruct F2 as (_ & _ & F2). destruct F4 as (_ & _ & F4). lia. }
  constructor.
  - eapply validate_sound; [exact Hp | exact Hv|]. intros n [H1 H2]. apply HT. unfold ticks_between.
    destruct Hfm as (_ & Hfm & _). lia.
  - eapply Forall2_impl; [|exact Hall]. intros a b (H1 & _). exact H1.
  - intros pc Hin. destruct (Forall2_in_r _ _ _ _ Hall Hin) as (a & _ & _ & Hl & _). exact Hl.
  - exact Hred.
  - intros pc Hin. destruct (Forall2_in_r _ _ _ _ Hall Hin) as (a & _ & _ & _ & Hc). exact Hc.
Qed.

(* ------------------------------------------------------------- completeness *)

Lemma validate_complete slice E u nt st T : steady E -> with_parser slice st ->
  valid_now E nt slice T u -> exists st', validate E u nt st = (Ok tt, st').
Proof.
  intros [Hc _] Hp (H1 & H2 & H3).
  assert (fst (validate E u nt st) = Ok tt) as Hv.
  { apply validate_ok_iff. split; [|split].
    - intros e He. specialize (H1 _ He). unfold expiry_time. destruct nt; [exact H1|].
      destruct H1 as (n & _ & Hn). rewrite (Hc _ n). exact Hn.
    - intros b Hb. destruct (H2 _ Hb) as (n & _ & Hn). unfold start_time.
      destruct (p_exp (u_payload u)), nt; rewrite (Hc _ n); exact Hn.
    - apply (with_parser_signed slice); assumption. }
  destruct (validate E u nt st) as [r s]. simpl in Hv. subst. eauto.
Qed.

Fixpoint height (c : chain) : nat :=
  let 'Chain _ ps _ := c in S (fold_right Nat.max 0 (map height ps)).

Lemma height_proof pc ps : In pc ps -> (height pc <= fold_right Nat.max 0 (map height ps))%nat.
Proof. induction ps as [|p ps IH]; simpl; [contradiction|]. intros [-> | Hin]; [lia | specialize (IH Hin); lia]. Qed.

Lemma mmap_complete {A C} slice (f : A -> M C) l cs : (forall a, proper_m slice (f a)) ->
  Forall2 (fun a c => forall st, with_parser slice st -> exists st', f a st = (Ok c, st')) l cs ->
  forall st, with_parser slice st -> exists st', mmap f l st = (Ok cs, st').
Proof.
  intros Hf Hall. induction Hall as [|a c l cs Hac _ IH]; intros st Hp; [exists st; reflexivity|].
  destruct (Hac st Hp) as [s1 H1]. pose proof (Hf a st) as Hfa. rewrite H1 in Hfa. cbn [snd] in Hfa.
  destruct (IH s1 (proj1 Hfa Hp)) as [s2 H2]. exists s2. cbn [mmap].
  apply bind_ok. exists c, s1. split; [exact H1|]. apply bind_ok. exists cs, s2. split; [exact H2 | reflexivity].
Qed.

Lemma from_ucan_complete E nt slice T R c : steady E -> valid_chain E nt slice T R c ->
  forall fuel st, (height c <= fuel)%nat -> with_parser slice st ->
  exists st', from_ucan E nt fuel (c_ucan c) st = (Ok c, st').
Proof.
  intros HE Hv. induction Hv as [u proofs red Hnow Hcite Hlink Hred Hsub IH].
  intros fuel st Hh Hp. cbn [height] in Hh. destruct fuel as [|f]; [lia|].
  destruct (validate_complete slice E u nt st T HE Hp Hnow) as [s1 Hs1].
  pose proof (proper_validate slice E u nt st) as Hfv. rewrite Hs1 in Hfv. cbn [snd] in Hfv.
  assert (forall ps l, Forall2 (fun text pc => resolves E R text (c_ucan pc)) l ps ->
    (forall pc, In pc ps -> In pc proofs) ->
    Forall2 (fun a c => forall st, with_parser slice st ->
       exists st', build_proof E (from_ucan E nt f) u a st = (Ok c, st')) l ps) as Hb.
  { intros ps l Hf. induction Hf as [|text pc l ps (cd & n & token & H1 & H2 & _ & H4 & H5 & H6) _ IHf]; intros Hin; constructor.
    - intros st0 Hp0. pose proof (Hin pc (or_introl eq_refl)) as Hpc.
      set (st1 := mkState (v_parser st0) (v_ticks st0) (S (v_reads st0)) (v_checks st0)).
      assert (with_parser slice st1) as Hp1 by exact Hp0.
      destruct (IH pc Hpc f st1) as [s2 Hs2]; [|exact Hp1|].
      { pose proof (height_proof _ _ Hpc). lia. }
      exists s2. apply build_proof_ok. exists cd, token, (c_ucan pc), st1.
      split; [exact H1|]. split.
      + apply require_token_ok. rewrite (proj2 HE (v_reads st0) n). auto.
      + split; [exact H6|]. split; [exact Hs2 | apply Hlink, Hpc].
    - apply IHf. intros pc' Hpc'. apply Hin. right. exact Hpc'. }
  destruct (mmap_complete slice (build_proof E (from_ucan E nt f) u) (cited u) proofs) with (st := s1) as [s2 Hs2].
  - intros a. apply proper_build_proof, proper_from_ucan.
  - apply Hb; auto.
  - apply (proj1 Hfv Hp).
  - exists s2. apply from_ucan_ok. exists s1, proofs, red. auto.
Qed.

Lemma chain_accepted_iff E nt slice u c st : steady E -> with_parser slice st ->
  ((exists fuel, fst (from_ucan E nt fuel u st) = Ok c) <->
   c_ucan c = u /\ valid_chain E nt slice (fun _ => True) (fun _ => True) c).
Proof.
  intros HE Hp. split.
  - intros [fuel Hf]. destruct (from_ucan E nt fuel u st) as [r st'] eqn:Er. simpl in Hf. subst.
    split; [eapply from_ucan_root, Er|]. eapply from_ucan_sound; try eassumption; auto.
  - intros [<- Hv]. destruct (from_ucan_complete _ _ _ _ _ _ HE Hv (height c) st (le_n _) Hp) as [st' Hs].
    exists (height c). rewrite Hs. reflexivity.
Qed.

(* ------------------------------------------------- what a valid chain contains *)

Lemma valid_sub E nt slice T R c d : valid_chain E nt slice T R c -> sub_chain d c -> valid_chain E nt slice T R d.
Proof.
  intros Hv Hs. induction Hs as [c | d pc c Hin Hs IH]; [exact Hv|].
  apply IH. inversion Hv; subst. simpl in Hin. auto.
Qed.

Lemma valid_in_chain E nt slice T R c u : valid_chain E nt slice T R c -> in_chain u c -> valid_now E nt slice T u.
Proof.
  intros Hv (d & Hs & <-). apply (valid_sub _ _ _ _ _ _ _ Hv) in Hs. inversion Hs; subst. assumption.
Qed.

Lemma valid_link E nt slice T R c d pc : valid_chain E nt slice T R c -> sub_chain d c -> In pc (c_proofs d) ->
  linked (c_ucan d) (c_ucan pc).
Proof.
  intros Hv Hs Hin. apply (valid_sub _ _ _ _ _ _ _ Hv) in Hs. inversion Hs; subst. auto.
Qed.

Lemma lifetime_within_refl p : lifetime_within p p.
Proof. split; intros b Hb; exists b; split; auto; lia. Qed.

Lemma lifetime_within_trans p q r : lifetime_within p q -> lifetime_within q r -> lifetime_within p r.
Proof.
  intros [H1 H2] [K1 K2]. split; intros b Hb.
  - destruct (K1 _ Hb) as (b1 & E1 & L1). destruct (H1 _ E1) as (b2 & E2 & L2). exists b2. split; [exact E2 | lia].
  - destruct (K2 _ Hb) as (b1 & E1 & L1). destruct (H2 _ E1) as (b2 & E2 & L2). exists b2. split; [exact E2 | lia].
Qed.

Lemma valid_lifetime E nt slice T R c d : valid_chain E nt slice T R c -> sub_chain d c ->
  lifetime_within (u_payload (c_ucan c)) (u_payload (c_ucan d)).
Proof.
  intros Hv Hs. induction Hs as [c | d pc c Hin Hs IH]; [apply lifetime_within_refl|].
  inversion Hv; subst. simpl in *. eapply lifetime_within_trans; [|apply IH; auto].
  match goal with H : forall pc, In pc _ -> linked _ _ |- _ => apply (H _ Hin) end.
Qed.

(** [lifetime_within] is containment of the sets of instants. *)
Lemma lifetime_within_live p q : lifetime_within p q -> forall t, live_at p t -> live_at q t.
Proof.
  intros [H1 H2] t [L1 L2]. split; intros b Hb.
  - destruct (H1 _ Hb) as (b' & E & Hle). specialize (L1 _ E). lia.
  - destruct (H2 _ Hb) as (b' & E & Hle). specialize (L2 _ E). lia.
Qed.

Lemma sub_trans a b c : sub_chain a b -> sub_chain b c -> sub_chain a c.
Proof. intros Hab Hbc. induction Hbc as [b | b pc c Hin _ IH]; [exact Hab|]. econstructor; eauto. Qed.

(* -------------------------------------------------------------- the store's part *)

Lemma valid_proof_nth E nt slice T R c d i pc : valid_chain E nt slice T R c -> sub_chain d c ->
  nth_error (c_proofs d) i = Some pc ->
  exists text, nth_error (cited (c_ucan d)) i = Some text /\ resolves E R text (c_ucan pc).
Proof.
  intros Hv Hs Hn. apply (valid_sub _ _ _ _ _ _ _ Hv) in Hs. inversion Hs as [u ps red _ Hf _ _ _]; subst.
  simpl in *. clear - Hf Hn. revert i Hn. induction Hf as [|text p l ps Hr _ IH]; intros i Hn.
  - destruct i; discriminate.
  - destruct i as [|i]; simpl in *; [injection Hn as <-; eauto | apply IH, Hn].
Qed.

Lemma valid_proof_count E nt slice T R c d : valid_chain E nt slice T R c -> sub_chain d c ->
  length (c_proofs d) = length (cited (c_ucan d)).
Proof.
  intros Hv Hs. apply (valid_sub _ _ _ _ _ _ _ Hv) in Hs. inversion Hs as [u ps red _ Hf _ _ _]; subst.
  simpl. clear - Hf. induction Hf; simpl; congruence.
Qed.

(* ---------------------------------------------------------- parser histories *)

Definition sim (E : env) slice (a b : vstate) : Prop :=
  with_parser slice a /\ with_parser slice b /\ (steady E \/ v_ticks a = v_ticks b /\ v_reads a = v_reads b).

Definition resp {A} (E : env) slice (m : M A) : Prop :=
  forall a b, sim E slice a b -> fst (m a) = fst (m b) /\ sim E slice (snd (m a)) (snd (m b)).

Lemma resp_ret {A} E slice (a : A) : resp E slice (ret a).
Proof. intros x y Hs. split; [reflexivity | exact Hs]. Qed.
Lemma resp_lift {A} E slice (r : res A) : resp E slice (lift r).
Proof. intros x y Hs. split; [reflexivity | exact Hs]. Qed.
Lemma resp_bind {A C} E slice (m : M A) (f : A -> M C) :
  resp E slice m -> (forall a, resp E slice (f a)) -> resp E slice (bind m f).
Proof.
  intros Hm Hf x y Hs. destruct (Hm x y Hs) as [He Hs']. unfold bind.
  destruct (m x) as [r sx], (m y) as [r' sy]. simpl in He, Hs'. subst r'.
  destruct r; try (split; [reflexivity | exact Hs']). apply Hf, Hs'.
Qed.
Lemma resp_now E slice : resp E slice (now E).
Proof.
  intros x y (H1 & H2 & H3). unfold now. cbn [fst snd]. split.
  - destruct H3 as [[Hc _] | [-> _]]; [rewrite (Hc _ (v_ticks y)); reflexivity | reflexivity].
  - split; [exact H1|]. split; [exact H2|]. destruct H3 as [H3 | [H3 H4]]; [left; exact H3 | right; simpl; auto].
Qed.
Lemma resp_store_read E slice c : resp E slice (store_read E c).
Proof.
  intros x y (H1 & H2 & H3). unfold store_read. cbn [fst snd]. split.
  - destruct H3 as [[_ Hc] | [_ ->]]; [apply Hc | reflexivity].
  - split; [exact H1|]. split; [exact H2|]. destruct H3 as [H3 | [H3 H4]]; [left; exact H3 | right; simpl; auto].
Qed.
Lemma resp_verify E slice k d s : resp E slice (verify k d s).
Proof. intros x y Hs. split; [reflexivity | exact Hs]. Qed.
Lemma resp_parse_did E slice did : resp E slice (parse_did did).
Proof.
  intros x y (H1 & H2 & H3). split.
  - destruct H1 as [d1 H1], H2 as [d2 H2]. unfold parse_did. rewrite H1, H2.
    pose proof (cache_invisible slice d1 did) as E1. pose proof (cache_invisible slice d2 did) as E2.
    destruct (did_parse (parser_after slice d1) did), (did_parse (parser_after slice d2) did). simpl in *. congruence.
  - pose proof (proper_parse_did slice did x) as [P1 _]. pose proof (proper_parse_did slice did y) as [P2 _].
    split; [auto|]. split; [auto|]. destruct H3 as [H3 | [H3 H4]]; [left; exact H3|]. right.
    unfold parse_did. destruct (did_parse (v_parser x) did), (did_parse (v_parser y) did). simpl. auto.
Qed.

Create HintDb resp.
#[global] Hint Resolve resp_ret resp_lift resp_bind resp_now resp_store_read resp_verify resp_parse_did : resp.

Lemma resp_from_ucan E slice nt fuel u : resp E slice (from_ucan E nt fuel u).
Proof.
  revert u. induction fuel as [|f IH]; intros u; [apply resp_lift|]. rewrite from_ucan_S.
  assert (resp E slice (validate E u nt)) as Hv.
  { unfold validate, is_expired, is_too_early, check_signature. apply resp_bind.
    - destruct (p_exp (u_payload u)); auto with resp. apply resp_bind; auto with resp. destruct nt; auto with resp.
    - intros [|]; auto with resp. apply resp_bind; [destruct (p_nbf (u_payload u)); auto with resp|].
      intros [|]; auto with resp. }
  apply resp_bind; [exact Hv|]. intros _. apply resp_bind; [|auto with resp].
  induction (cited u) as [|t l IHl]; cbn [mmap]; [auto with resp|].
  apply resp_bind; [|auto with resp].
  unfold build_proof, require_token, read_token.
  repeat (first [apply resp_bind; [|intros ?] | apply resp_lift | apply resp_ret | apply resp_store_read | apply IH]).
  - destruct (negb _); auto with resp.
  - match goal with |- resp _ _ (match ?o with Some _ => _ | None => _ end) => destruct o end; auto with resp.
Qed.

Lemma chain_history E slice nt fuel u a b :
  with_parser slice a -> with_parser slice b ->
  steady E \/ v_ticks a = v_ticks b /\ v_reads a = v_reads b ->
  fst (from_ucan E nt fuel u a) = fst (from_ucan E nt fuel u b).
Proof. intros Ha Hb Hs. apply (resp_from_ucan E slice). split; [exact Ha | split; assumption]. Qed.

Lemma after_runs_parser E slice runs st : with_parser slice st -> with_parser slice (after_runs E runs st).
Proof.
  revert st. induction runs as [|[[t f] u] runs IH]; intros st Hp; [exact Hp|]. simpl.
  apply IH. apply proper_from_ucan. exact Hp.
Qed.

(* -------------------------------------------------------------- termination *)

Definition refines {A} (m m' : M A) : Prop := forall st, fst (m st) <> Diverged -> m' st = m st.

Lemma refines_refl {A} (m : M A) : refines m m.
Proof. intros st _. reflexivity. Qed.

Lemma refines_bind {A C} (m m' : M A) (f f' : A -> M C) :
  refines m m' -> (forall a, refines (f a) (f' a)) -> refines (bind m f) (bind m' f').
Proof.
  intros Hm Hf st Hd. unfold bind in *.
  assert (fst (m st) <> Diverged) as Hn by (intros E; apply Hd; destruct (m st) as [[] ?]; simpl in *; congruence).
  rewrite (Hm st Hn). destruct (m st) as [[a|e|p|] s]; try reflexivity. apply Hf, Hd.
Qed.

Lemma refines_mmap {A C} (f f' : A -> M C) l : (forall a, refines (f a) (f' a)) -> refines (mmap f l) (mmap f' l).
Proof.
  intros Hf. induction l as [|a l IH]; cbn [mmap]; [apply refines_refl|].
  apply refines_bind; [apply Hf|]. intros c. apply refines_bind; [exact IH|]. intros cs. apply refines_refl.
Qed.

Lemma refines_build_proof E rec rec' u t : (forall pu, refines (rec pu) (rec' pu)) ->
  refines (build_proof E rec u t) (build_proof E rec' u t).
Proof.
  intros Hr. unfold build_proof.
  apply refines_bind; [apply refines_refl|]. intros c. apply refines_bind; [apply refines_refl|]. intros tok.
  apply refines_bind; [apply refines_refl|]. intros pu. apply refines_bind; [apply Hr|]. intros pc. apply refines_refl.
Qed.

Lemma refines_fuel E nt f : forall u, refines (from_ucan E nt f u) (from_ucan E nt (S f) u).
Proof.
  induction f as [|f IH]; intros u.
  - intros st Hd. exfalso. apply Hd. reflexivity.
  - rewrite (from_ucan_S E nt f), (from_ucan_S E nt (S f)).
    apply refines_bind; [apply refines_refl|]. intros _.
    apply refines_bind; [apply refines_mmap; intros a; apply refines_build_proof, IH|]. intros ps. apply refines_refl.
Qed.

Lemma refines_fuel_le E nt f f' u : (f <= f')%nat -> refines (from_ucan E nt f u) (from_ucan E nt f' u).
Proof.
  intros Hle. induction Hle as [|f' Hle IH]; [apply refines_refl|].
  intros st Hd. rewrite <- (IH st Hd). apply refines_fuel. rewrite (IH st Hd). exact Hd.
Qed.

Definition halts {A} (m : nat -> M A) (st : vstate) : Prop :=
  exists f r st', r <> Diverged /\ forall f', (f <= f')%nat -> m f' st = (r, st').

Lemma halts_from_ucan_once E nt u st f : fst (from_ucan E nt f u st) <> Diverged -> halts (fun f => from_ucan E nt f u) st.
Proof.
  intros Hd. exists f, (fst (from_ucan E nt f u st)), (snd (from_ucan E nt f u st)). split; [exact Hd|].
  intros f' Hle. rewrite (refines_fuel_le E nt f f' u Hle st Hd). apply surjective_pairing.
Qed.

Lemma halts_const {A} (m : M A) st : fst (m st) <> Diverged -> halts (fun _ => m) st.
Proof. intros Hd. exists O, (fst (m st)), (snd (m st)). split; [exact Hd|]. intros. apply surjective_pairing. Qed.

Lemma halts_ext {A} (m m' : nat -> M A) st : (forall f, m f = m' f) -> halts m' st -> halts m st.
Proof.
  intros He (f & r & s & Hr & Hf). exists f, r, s. split; [exact Hr|]. intros f' Hle. rewrite He. apply Hf, Hle.
Qed.

Lemma halts_bind {A C} (m : nat -> M A) (f : A -> nat -> M C) st : halts m st ->
  (forall a st', (exists n, m n st = (Ok a, st')) -> halts (f a) st') ->
  halts (fun n => bind (m n) (fun a => f a n)) st.
Proof.
  intros (n & r & s1 & Hr & Hm) Hf. destruct r as [a|e|p|]; [| | |contradiction].
  - destruct (Hf a s1) as (k & r & s2 & Hr2 & H2); [exists n; apply Hm; lia|].
    exists (Nat.max n k), r, s2. split; [exact Hr2|]. intros f' Hle. unfold bind. rewrite Hm by lia. apply H2. lia.
  - exists n, (Err e), s1. split; [discriminate|]. intros f' Hle. unfold bind. rewrite Hm by lia. reflexivity.
  - exists n, (Panic p), s1. split; [discriminate|]. intros f' Hle. unfold bind. rewrite Hm by lia. reflexivity.
Qed.

Lemma responsive_parse E slice p did dids : responsive E slice -> p = parser_after slice dids ->
  fst (did_parse p did) <> Diverged /\
  (forall k d s, fst (did_parse p did) = Ok k -> key_verify k d s <> Diverged).
Proof.
  intros (_ & Hc & Hk) ->. rewrite cache_invisible. split.
  - unfold did_parse. destruct (strip_prefix did_key_prefix did) as [rest|]; [|discriminate].
    simpl. destruct (b58_decode rest) as [[|m0 [|m1 tl]]|]; try discriminate.
    match goal with |- context [mget ?a ?b] => destruct (mget a b) as [c|] eqn:Em end; [|discriminate].
    assert (In ([m0; m1], c) slice) as Hin.
    { apply registered_iff in Em as (b & a & -> & _). apply in_or_app. right. left. reflexivity. }
    specialize (Hc _ _ tl Hin). destruct (c tl); try discriminate; [|contradiction].
    cbn [fst]. match goal with |- ok_or ?o _ <> _ => destruct o end; discriminate.
  - intros k d s Hok. change (did_parser_new slice) with (parser_after slice []) in Hok.
    apply did_parse_ok_iff in Hok as (m & c & rest & _ & _ & (b & a & -> & _) & Hcr).
    eapply Hk; [|exact Hcr]. apply in_or_app. right. left. reflexivity.
Qed.

Lemma halts_mmap {A C} (f : nat -> A -> M C) slice l : (forall n a, proper_m slice (f n a)) ->
  (forall a st, In a l -> with_parser slice st -> halts (fun n => f n a) st) ->
  forall st, with_parser slice st -> halts (fun n => mmap (f n) l) st.
Proof.
  intros Hp Hf. induction l as [|a l IH]; intros st Hs; cbn [mmap].
  - apply halts_const. discriminate.
  - apply (halts_bind (fun n => f n a) (fun c n => let! cs := mmap (f n) l in ret (c :: cs))).
    + apply Hf; [left; reflexivity | exact Hs].
    + intros c st' [n Hn]. apply (halts_bind (fun n => mmap (f n) l) (fun cs _ => ret (c :: cs))).
      * apply IH; [intros; apply Hf; [right|]; assumption|].
        pose proof (Hp n a st) as [Hw _]. rewrite Hn in Hw. apply Hw, Hs.
      * intros cs s2 _. apply halts_const. discriminate.
Qed.

Lemma validate_returns E slice u nt st : responsive E slice -> with_parser slice st -> fst (validate E u nt st) <> Diverged.
Proof.
  intros HR Hp. unfold validate.
  assert (proper_m slice (is_expired E u nt) /\ forall st, fst (is_expired E u nt st) <> Diverged) as [P1 N1].
  { unfold is_expired. destruct (p_exp (u_payload u)); [|split; [auto with proper | discriminate]].
    split; [|destruct nt; discriminate]. apply proper_bind; auto with proper. destruct nt; auto with proper. }
  assert (proper_m slice (is_too_early E u) /\ forall st, fst (is_too_early E u st) <> Diverged) as [P2 N2].
  { unfold is_too_early. destruct (p_nbf (u_payload u)); [|split; [auto with proper | discriminate]].
    split; [|discriminate]. apply proper_bind; auto with proper. }
  unfold bind at 1. specialize (P1 st). specialize (N1 st). destruct (is_expired E u nt st) as [[[|]|e|q|] s1]; try discriminate; [|contradiction].
  unfold bind at 1. specialize (P2 s1). specialize (N2 s1). destruct (is_too_early E u s1) as [[[|]|e|q|] s2]; try discriminate; [|contradiction].
  assert (with_parser slice s2) as [dids Hd] by (apply P2, P1, Hp).
  destruct (responsive_parse E slice (v_parser s2) (p_iss (u_payload u)) dids HR Hd) as [H1 H2].
  unfold check_signature, bind, parse_did. destruct (did_parse (v_parser s2) (p_iss (u_payload u))) as [[k|e|q|] p]; simpl in *; try discriminate; [|contradiction].
  apply H2. reflexivity.
Qed.

Lemma require_token_returns E slice c st : responsive E slice -> fst (require_token E c st) <> Diverged.
Proof.
  intros (HR & _). unfold require_token, read_token, bind, store_read, lift.
  destruct (negb (cid_codec c =? raw_codec)%N); [discriminate|].
  specialize (HR (v_reads st) c). destruct (e_read E (v_reads st) c) as [[[]|]|e|q|]; simpl in *; try discriminate; [|contradiction].
  match goal with |- context [utf8_valid ?b] => destruct (utf8_valid b) end; discriminate.
Qed.

Lemma parse_token_returns X t : parse_token X t <> Diverged.
Proof.
  unfold parse_token, rbind, ok_or.
  destruct (split_on x2e t) as [|a [|b l]]; try discriminate;
  repeat match goal with |- context [match ?o with Some _ => _ | None => _ end] => destruct o; try discriminate end.
Qed.

Lemma redelegations_returns X n l : forall acc, redelegations_from X n acc l <> Diverged.
Proof.
  induction l as [|c l IH]; intros acc; [discriminate|]. cbn [redelegations_from].
  destruct (parse_proof_cap X c) as [v|]; [|apply IH].
  destruct (v_resource v) as [[[m|]|]| |]; try apply IH. destruct (m <? N.of_nat n)%N; [apply IH | discriminate].
Qed.

Lemma chain_terminates E slice nt u : responsive E slice -> Acc (cites E) u ->
  forall st, with_parser slice st -> halts (fun f => from_ucan E nt f u) st.
Proof.
  intros HR Ha. induction Ha as [u _ IH]. intros st Hp.
  assert (halts (fun f => from_ucan E nt (S f) u) st) as (f & r & s & Hr & Hf).
  2:{ exists (S f), r, s. split; [exact Hr|]. intros f' Hle. destruct f' as [|f']; [lia|]. apply Hf. lia. }
  apply (halts_ext _ _ st (fun f => from_ucan_S E nt f u)).
  apply (halts_bind (fun _ => validate E u nt)).
  - apply halts_const, (validate_returns _ slice); assumption.
  - intros [] s1 [_ H1]. pose proof (proper_validate slice E u nt st) as [Hw _]. rewrite H1 in Hw. specialize (Hw Hp). cbn [snd] in Hw.
    apply (halts_bind (fun n => mmap (build_proof E (from_ucan E nt n) u) (cited u))).
    + apply (halts_mmap (fun n => build_proof E (from_ucan E nt n) u) slice).
      * intros n a. apply proper_build_proof, proper_from_ucan.
      * intros text s2 Hin Hp2. unfold build_proof.
        apply (halts_bind (fun _ => lift _)); [apply halts_const; destruct (parse_cid (e_ext E) text); discriminate|].
        intros c s3 [_ Hc]. apply lift_ok in Hc as [Hc ->]. apply ok_or_ok in Hc.
        apply (halts_bind (fun _ => require_token E c)); [apply halts_const, (require_token_returns _ slice), HR|].
        intros token s4 [_ Ht]. pose proof (proper_require_token slice E c s2) as [Hw4 _]. rewrite Ht in Hw4. specialize (Hw4 Hp2).
        apply (halts_bind (fun _ => lift (parse_token (e_ext E) token))); [apply halts_const, parse_token_returns|].
        intros pu s5 [_ Hpu]. apply lift_ok in Hpu as [Hpu ->].
        apply (halts_bind (fun n => from_ucan E nt n pu)).
        -- apply IH; [|exact Hw4]. apply require_token_ok in Ht as (K1 & K2 & K3 & _).
           exists text. split; [exact Hin|]. exists c, (v_reads s2), token. repeat split; auto.
        -- intros pc s6 _. apply (halts_const (let! _ := lift (validate_link_to (c_ucan pc) u) in ret pc)).
           unfold bind, lift, validate_link_to. destruct (bytes_eqb _ _); [destruct (lifetime_encompasses _ _)|]; discriminate.
      * exact Hw.
    + intros ps s2 _. apply (halts_const (let! red := lift (redelegations_from (e_ext E) (length ps) [] (caps_iter (p_cap (u_payload u)))) in ret (Chain u ps red))).
      unfold bind, lift. pose proof (redelegations_returns (e_ext E) (length ps) (caps_iter (p_cap (u_payload u))) []) as Hd.
      destruct (redelegations_from _ _ _ _); try discriminate. contradiction.
Qed.

(** A UCAN that the store returns as its own first proof. *)
Lemma self_citing_diverges E slice nt T R u text rest : steady E ->
  valid_now E nt slice T u -> cited u = text :: rest -> resolves E R text u ->
  forall fuel st, with_parser slice st -> fst (from_ucan E nt fuel u st) = Diverged.
Proof.
  intros HE Hv Hc (cd & n & token & H1 & H2 & _ & H4 & H5 & H6) fuel.
  induction fuel as [|f IH]; intros st Hp; [reflexivity|]. rewrite from_ucan_S.
  destruct (validate_complete slice E u nt st T HE Hp Hv) as [s1 Hs1].
  unfold bind at 1. rewrite Hs1. pose proof (proper_validate slice E u nt st) as [Hw _]. rewrite Hs1 in Hw. specialize (Hw Hp).
  rewrite Hc. cbn [mmap]. unfold bind at 1. unfold bind at 1. unfold build_proof.
  unfold bind at 1. rewrite H1. cbn [ok_or lift].
  unfold bind at 1.
  assert (require_token E cd s1 = (Ok token, mkState (v_parser s1) (v_ticks s1) (S (v_reads s1)) (v_checks s1))) as Ht.
  { apply require_token_ok. rewrite (proj2 HE (v_reads s1) n). auto. }
  rewrite Ht. unfold bind at 1. rewrite H6. cbn [lift]. unfold bind at 1.
  match goal with |- context [from_ucan E nt f u ?s] => specialize (IH s Hw); destruct (from_ucan E nt f u s) as [r s'] end.
  simpl in IH. subst r. reflexivity.
Qed.
