(** Proofs about instants (C171-C172). *)
From Verif Require Import Prelude Ord SMap Value Cid Ext Json Capability Semantics Key Ucan Store Builder Chain RealTime
  Spec SpecBuilder SpecChain SpecRealTime OrdFacts TimeFacts BuilderFacts ChainFacts ChainMoreFacts.

Lemma read_clock_iff t s : read_clock t = Some s <-> during t s.
Proof.
  unfold read_clock, during, second. destruct (t <? 0)%Z eqn:E.
  - apply Z.ltb_lt in E. split; [discriminate|]. intros [H _]. lia.
  - apply Z.ltb_ge in E. pose proof (Z.div_mod t 1000000000 ltac:(lia)) as Hd. pose proof (Z.mod_pos_bound t 1000000000 ltac:(lia)) as Hm.
    pose proof (Z.div_pos t 1000000000 E ltac:(lia)) as Hp. remember (t / 1000000000)%Z as q. split.
    + intros [= <-]. rewrite Z2N.id by exact Hp. lia.
    + intros H. f_equal. lia.
Qed.
Lemma read_clock_none t : read_clock t = None <-> (t < 0)%Z.
Proof. unfold read_clock. destruct (t <? 0)%Z eqn:E; [apply Z.ltb_lt in E | apply Z.ltb_ge in E]; split; intros H; try discriminate; try reflexivity; lia. Qed.
Lemma during_some t : (0 <= t)%Z -> exists s, during t s.
Proof. intros H. destruct (read_clock t) as [s|] eqn:E; [exists s; apply read_clock_iff, E | apply read_clock_none in E; lia]. Qed.
Lemma during_le t s b : during t s -> ((b <= s)%N <-> (Z.of_N b * second <= t)%Z).
Proof. unfold during, second. lia. Qed.
Lemma during_ge t s e : during t s -> ((s <= e)%N <-> (t < (Z.of_N e + 1) * second)%Z).
Proof. unfold during, second. lia. Qed.
Lemma live_real_iff p t s : during t s -> (live_real p t <-> live_at p (Z.of_N s)).
Proof.
  intros Hd. unfold live_real, live_at. split; intros [H1 H2]; split; intros x Hx.
  - apply N2Z.inj_le. apply (during_le t s x Hd), H1, Hx.
  - apply N2Z.inj_le. apply (during_ge t s x Hd), H2, Hx.
  - apply (during_le t s x Hd). apply N2Z.inj_le. apply H1, Hx.
  - apply (during_ge t s x Hd). apply N2Z.inj_le. apply H2, Hx.
Qed.

Theorem real_validation E clock u nt st : (forall n, during (clock n) (e_clock E n)) -> real_validate clock u nt st = Some (fst (validate E u nt st)).
Proof.
  intros Hc. assert (forall n, read_clock (clock n) = Some (e_clock E n)) as Hr by (intros n; apply read_clock_iff, Hc).
  rewrite validate_eq. unfold real_validate, real_expired, real_too_early, expiry_time, start_time.
  destruct (p_exp (u_payload u)) as [e|], nt as [s|], (p_nbf (u_payload u)) as [b|]; rewrite ?Hr;
    repeat match goal with |- context [(?x <? ?y)%N] => destruct (x <? y)%N end; reflexivity.
Qed.
Theorem real_aborts t u nt st : real_validate (fun _ => t) u nt st = None <->
  (t < 0)%Z /\ ((p_exp (u_payload u) <> None /\ nt = None) \/
    (p_nbf (u_payload u) <> None /\ forall e s, p_exp (u_payload u) = Some e -> nt = Some s -> (s <= e)%N)).
Proof.
  unfold real_validate, real_expired, real_too_early.
  destruct (read_clock t) as [r|] eqn:Er.
  - assert (~ (t < 0)%Z) as Hn by (intros H; apply read_clock_none in H; congruence).
    split; [|intros [H _]; contradiction]. intros H. exfalso.
    destruct (p_exp (u_payload u)) as [e|], nt as [s|], (p_nbf (u_payload u)) as [b|];
      repeat match type of H with context [(?x <? ?y)%N] => destruct (x <? y)%N end; discriminate.
  - apply read_clock_none in Er. split.
    + intros H. split; [exact Er|]. destruct (p_exp (u_payload u)) as [e|], nt as [s|];
        [right | left; split; [discriminate | reflexivity] | right | right].
      all: split; [intros Hb; rewrite Hb in H; try (destruct (e <? s)%N); discriminate|]; intros e' s' He Hs; try discriminate.
      injection He as <-. injection Hs as <-. destruct (e <? s)%N eqn:El; [discriminate | apply N.ltb_ge in El; exact El].
    + intros [_ [[He ->] | [Hb Hes]]].
      * destruct (p_exp (u_payload u)) as [e|]; [reflexivity | contradiction].
      * destruct (p_exp (u_payload u)) as [e|], nt as [s|], (p_nbf (u_payload u)) as [b|]; try contradiction; try reflexivity.
        rewrite (proj2 (N.ltb_ge e s) (Hes e s eq_refl eq_refl)). reflexivity.
Qed.
Theorem real_live t u st : real_validate (fun _ => t) u None st = Some (Ok tt) <->
  live_real (u_payload u) t /\ signed_by_issuer (v_parser st) u /\ ((0 <= t)%Z \/ unbounded (u_payload u)).
Proof.
  destruct (Z_lt_le_dec t 0) as [Hlt|Hge].
  - split.
    + intros H. assert (unbounded (u_payload u)) as [Hb He].
      { assert (real_validate (fun _ => t) u None st <> None) as Hn by congruence. rewrite real_aborts in Hn. unfold unbounded.
        destruct (p_nbf (u_payload u)), (p_exp (u_payload u)); try (split; reflexivity); exfalso; apply Hn; split; try exact Hlt;
          [left | right | left]; split; try discriminate; try reflexivity. }
      split; [split; intros x Hx; congruence|]. split; [|right; split; assumption]. unfold real_validate, real_expired, real_too_early in H. rewrite Hb, He in H.
      injection H as H. apply check_signature_ok, H.
    + intros (_ & Hs & [H | [Hb He]]); [lia|]. unfold real_validate, real_expired, real_too_early. rewrite Hb, He. f_equal. apply check_signature_ok, Hs.
  - destruct (during_some t Hge) as [s Hs].
    pose (E := mkEnv (mkExt (fun _ => []) (fun _ => None) false false (fun _ _ => None) (fun _ _ => None) (fun _ _ => []) false) (fun _ : nat => s) (fun _ _ => Ok None)).
    rewrite (real_validation E (fun _ => t) u None st (fun _ => Hs)).
    assert (Some (fst (validate E u None st)) = Some (Ok tt) <-> fst (validate E u None st) = Ok tt) as -> by (split; [intros [= ->]; reflexivity | intros ->; reflexivity]).
    rewrite validate_ok_iff, (live_real_iff _ _ _ Hs). unfold live_at, unexpired, started.
    replace (expiry_time E None st) with s by reflexivity. replace (start_time E (u_payload u) None st) with s by (unfold start_time; destruct (p_exp (u_payload u)); reflexivity).
    split.
    + intros (H1 & H2 & H3). split; [split; intros x Hx; apply N2Z.inj_le; auto|]. auto.
    + intros ((H1 & H2) & H3 & _). split; [intros x Hx; apply N2Z.inj_le, H2, Hx|]. split; [intros x Hx; apply N2Z.inj_le, H1, Hx | exact H3].
Qed.
Theorem real_chain E slice u c st t s t' s' : steady_store E -> with_parser slice st -> during t s -> during t' s' ->
  (exists fuel, fst (from_ucan (at_time E s) None fuel u st) = Ok c) ->
  live_real (u_payload u) t /\ ((exists fuel, fst (from_ucan (at_time E s') None fuel u st) = Ok c) <-> live_real (u_payload u) t').
Proof.
  intros HE Hp Hs Hs' Ha. split.
  - apply (live_real_iff _ _ _ Hs). apply (window_of_acceptance E slice u c st s s HE Hp Ha). exact Ha.
  - rewrite (live_real_iff _ _ _ Hs'). exact (window_of_acceptance E slice u c st s s' HE Hp Ha).
Qed.

Lemma sign_bounds X rng s u : sign X rng s = Ok u -> p_exp (u_payload u) = s_expiration s /\ p_nbf (u_payload u) = s_not_before s.
Proof.
  intros H. assert (ucan_payload rng s = Ok (u_payload u)) as Hp.
  { unfold sign in H. destruct (ucan_payload rng s) as [p|e|p|]; try discriminate. cbv beta iota zeta in H. cbn [rbind] in H.
    destruct (key_sign _ _) as [g| | |]; try discriminate. injection H as <-. reflexivity. }
  unfold ucan_payload in Hp. destruct (key_did (s_issuer s)) as [d| | |]; try discriminate. cbn [rbind] in Hp.
  destruct (caps_of_list (s_capabilities s)) as [m| | |]; try discriminate. injection Hp as Hp. rewrite <- Hp. split; reflexivity.
Qed.
Lemma real_build_reads X t ops l : last_such sets_expiration ops None -> last_such sets_lifetime ops (Some l) ->
  (exists k, In (IssuedBy k) ops) -> (exists a, In (ForAudience a) ops) ->
  real_build X t (builder_run X ops) = let?? s := read_clock t in Some (build X s (builder_run X ops)).
Proof.
  intros He Hl (k & Hk) (a & Ha). unfold real_build.
  rewrite <- (last_such_unique _ _ _ _ He (run_expiration X ops)), <- (last_such_unique _ _ _ _ Hl (run_lifetime X ops)).
  pose proof (run_issuer X ops) as Hi. pose proof (run_audience X ops) as Hj.
  destruct (b_issuer (builder_run X ops)); [|discriminate (Hi _ Hk)]. destruct (b_audience (builder_run X ops)); [|discriminate (Hj _ Ha)]. reflexivity.
Qed.
Theorem real_build_aborts X t ops : real_build X t (builder_run X ops) = None <->
  (t < 0)%Z /\ (exists k, In (IssuedBy k) ops) /\ (exists a, In (ForAudience a) ops) /\ last_such sets_expiration ops None /\ exists l, last_such sets_lifetime ops (Some l).
Proof.
  split.
  - intros H. unfold real_build in H. pose proof (run_issuer X ops) as Hi. pose proof (run_audience X ops) as Hj.
    pose proof (run_expiration X ops) as He. pose proof (run_lifetime X ops) as Hl.
    destruct (b_issuer (builder_run X ops)) as [k|]; [|discriminate]. destruct (b_audience (builder_run X ops)) as [a|]; [|discriminate].
    destruct (b_expiration (builder_run X ops)); [discriminate|]. destruct (b_lifetime (builder_run X ops)) as [l|]; [|discriminate].
    destruct (read_clock t) eqn:Er; [discriminate|]. apply read_clock_none in Er. split; [exact Er|].
    destruct Hi as (b1 & o1 & a1 & -> & F1 & _). split; [exists k; apply in_or_app; right; left; destruct o1; try discriminate; injection F1 as ->; reflexivity|].
    destruct Hj as (b2 & o2 & a2 & E2 & F2 & _). split; [exists a; rewrite E2; apply in_or_app; right; left; destruct o2; try discriminate; injection F2 as ->; reflexivity|].
    split; [exact He | exists l; exact Hl].
  - intros (Ht & Hk & Ha & He & l & Hl). rewrite (real_build_reads X t ops l He Hl Hk Ha). apply read_clock_none in Ht. rewrite Ht. reflexivity.
Qed.
Theorem real_lifetime X t ops l sg rng u : word (N.of_nat (length ops)) -> real_build X t (builder_run X ops) = Some (Ok sg) -> sign X rng sg = Ok u ->
  last_such sets_expiration ops None -> last_such sets_lifetime ops (Some l) -> last_such sets_not_before ops None ->
  (t + Z.of_N l * second < 18446744073709551616 * second)%Z ->
  (forall t', (t' <= t + Z.of_N l * second)%Z -> live_real (u_payload u) t') /\
  (forall t', (t + (Z.of_N l + 1) * second <= t')%Z -> ~ live_real (u_payload u) t').
Proof.
  intros Hw Hb Hs He Hl Hn Hfit.
  assert (exists s, read_clock t = Some s /\ build X s (builder_run X ops) = Ok sg) as (s & Hr & Hb').
  { unfold real_build in Hb. rewrite <- (last_such_unique _ _ _ _ He (run_expiration X ops)), <- (last_such_unique _ _ _ _ Hl (run_lifetime X ops)) in Hb.
    unfold build in Hb |- *. destruct (b_issuer (builder_run X ops)); [|discriminate]. destruct (b_audience (builder_run X ops)); [|discriminate].
    destruct (read_clock t) as [s|]; [|discriminate]. exists s. split; [reflexivity|]. injection Hb as Hb. exact Hb. }
  apply read_clock_iff in Hr. assert (s + l < 18446744073709551616)%N as Hsum by (unfold during, second in *; lia).
  destruct (lifetime_expiry X s ops sg l Hw Hb' He Hl ltac:(unfold word; lia) ltac:(unfold word; lia)) as [Hexp _]. specialize (Hexp Hsum).
  destruct (sign_bounds X rng sg u Hs) as [P1 P2]. apply build_described in Hb'; [|exact Hw].
  pose proof (last_such_unique _ _ _ _ Hn (de_not_before _ _ _ _ Hb')) as Hnb. rewrite <- Hnb in P2. rewrite Hexp in P1.
  unfold live_real. rewrite P1, P2. unfold during, second in *. split.
  - intros t' Ht. split; [discriminate|]. intros e [= <-]. lia.
  - intros t' Ht [_ H]. specialize (H _ eq_refl). lia.
Qed.

Lemma valid_chain_in E nt slice T R c v : valid_chain E nt slice T R c -> in_chain v c -> valid_now E nt slice T v.
Proof.
  intros Hv (d & Hs & <-). revert Hv. induction Hs as [d | d pc e Hin _ IH]; intros Hv; destruct Hv as [u ps red Hn _ _ _ Hps]; [exact Hn | exact (IH (Hps pc Hin))].
Qed.
Theorem real_moving E slice fuel u st c st' clock t0 t1 v : with_parser slice st -> (forall n, during (clock n) (e_clock E n)) ->
  (forall n, ticks_between st st' n -> (t0 <= clock n <= t1)%Z) -> from_ucan E None fuel u st = (Ok c, st') -> in_chain v c ->
  (forall b, p_nbf (u_payload v) = Some b -> (Z.of_N b * second <= t1)%Z) /\ (forall e, p_exp (u_payload v) = Some e -> (t0 < (Z.of_N e + 1) * second)%Z).
Proof.
  intros Hp Hc Ht Hf Hv. destruct (from_ucan_valid _ _ _ _ _ _ _ _ Hp Hf) as [_ Hval]. destruct (valid_chain_in _ _ _ _ _ _ _ Hval Hv) as (H1 & H2 & _). split.
  - intros b Hb. destruct (H2 b Hb) as (n & Hn & Hle). specialize (Ht n Hn). apply (during_le _ _ b (Hc n)) in Hle. lia.
  - intros e He. destruct (H1 e He) as (n & Hn & Hle). specialize (Ht n Hn). apply (during_ge _ _ e (Hc n)) in Hle. lia.
Qed.
