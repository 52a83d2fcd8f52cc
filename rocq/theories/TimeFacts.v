(** Facts about validation and lifetimes, ucan.rs:69-152 (C13-C15). *)
From Verif Require Export CapFacts Key Ucan.

(** One step of validation as equations. *)
Lemma is_expired_eq E u nt st :
  is_expired E u nt st =
  (Ok (match p_exp (u_payload u) with Some e => (e <? expiry_time E nt st)%N | None => false end),
   match p_exp (u_payload u), nt with
   | Some _, None => mkState (v_parser st) (S (v_ticks st)) (v_reads st) (v_checks st)
   | _, _ => st
   end).
Proof.
  unfold is_expired, expiry_time. destruct (p_exp (u_payload u)); [|reflexivity].
  destruct nt; reflexivity.
Qed.

Lemma is_too_early_eq E u st :
  is_too_early E u st =
  (Ok (match p_nbf (u_payload u) with Some b => (e_clock E (v_ticks st) <? b)%N | None => false end),
   match p_nbf (u_payload u) with
   | Some _ => mkState (v_parser st) (S (v_ticks st)) (v_reads st) (v_checks st)
   | None => st
   end).
Proof. unfold is_too_early. destruct (p_nbf (u_payload u)); reflexivity. Qed.

(** The signature part only depends on the parser. *)
Lemma check_signature_fst u st st' : v_parser st = v_parser st' ->
  fst (check_signature u st) = fst (check_signature u st').
Proof.
  intros Hp. unfold check_signature, bind, parse_did. rewrite <- Hp.
  destruct (did_parse (v_parser st) (p_iss (u_payload u))) as [[k|e|q|] p]; reflexivity.
Qed.

Lemma check_signature_ok u st :
  fst (check_signature u st) = Ok tt <-> signed_by_issuer (v_parser st) u.
Proof.
  unfold check_signature, bind, parse_did, signed_by_issuer.
  destruct (did_parse (v_parser st) (p_iss (u_payload u))) as [[k|e|q|] p]; simpl; split.
  - intros Hv. exists k. auto.
  - intros (k' & [= <-] & Hv). exact Hv.
  - discriminate.
  - intros (k' & Hx & _). discriminate.
  - discriminate.
  - intros (k' & Hx & _). discriminate.
  - discriminate.
  - intros (k' & Hx & _). discriminate.
Qed.

Lemma validate_eq E u nt st :
  fst (validate E u nt st) =
  if match p_exp (u_payload u) with Some e => (e <? expiry_time E nt st)%N | None => false end
  then Err EExpired
  else if match p_nbf (u_payload u) with Some b => (start_time E (u_payload u) nt st <? b)%N | None => false end
  then Err ETooEarly
  else fst (check_signature u st).
Proof.
  unfold validate. unfold bind at 1. rewrite is_expired_eq.
  destruct (match p_exp (u_payload u) with Some e => _ | None => false end); [reflexivity|].
  unfold bind. rewrite is_too_early_eq. unfold start_time.
  set (st1 := match p_exp (u_payload u) with Some _ => _ | None => _ end).
  assert (v_ticks st1 = match p_exp (u_payload u), nt with Some _, None => S (v_ticks st) | _, _ => v_ticks st end) as Ht
    by (unfold st1; destruct (p_exp (u_payload u)), nt; reflexivity).
  assert (v_parser st1 = v_parser st) as Hp
    by (unfold st1; destruct (p_exp (u_payload u)), nt; reflexivity).
  assert (e_clock E (v_ticks st1) = match p_exp (u_payload u), nt with
            | Some _, None => e_clock E (S (v_ticks st)) | _, _ => e_clock E (v_ticks st) end) as Hc
    by (rewrite Ht; destruct (p_exp (u_payload u)), nt; reflexivity).
  rewrite <- Hc. destruct (p_nbf (u_payload u)) as [b|].
  - destruct (e_clock E (v_ticks st1) <? b)%N; [reflexivity|]. apply check_signature_fst. exact Hp.
  - apply check_signature_fst. exact Hp.
Qed.

Lemma unexpired_iff p t :
  unexpired p t <-> match p_exp p with Some e => (e <? t)%N | None => false end = false.
Proof.
  unfold unexpired. destruct (p_exp p) as [e|]; split; intros Hx; try discriminate; auto.
  - specialize (Hx e eq_refl). apply N.ltb_ge. exact Hx.
  - intros e' [= <-]. apply N.ltb_ge. exact Hx.
Qed.

Lemma started_iff p t :
  started p t <-> match p_nbf p with Some b => (t <? b)%N | None => false end = false.
Proof.
  unfold started. destruct (p_nbf p) as [e|]; split; intros Hx; try discriminate; auto.
  - specialize (Hx e eq_refl). apply N.ltb_ge. exact Hx.
  - intros e' [= <-]. apply N.ltb_ge. exact Hx.
Qed.

Lemma validate_ok_iff E u nt st :
  fst (validate E u nt st) = Ok tt <->
  unexpired (u_payload u) (expiry_time E nt st) /\
  started (u_payload u) (start_time E (u_payload u) nt st) /\
  signed_by_issuer (v_parser st) u.
Proof.
  rewrite validate_eq, unexpired_iff, started_iff, <- check_signature_ok.
  destruct (match p_exp (u_payload u) with Some e => _ | None => false end); [split; [discriminate | intros [? _]; discriminate]|].
  destruct (match p_nbf (u_payload u) with Some e => _ | None => false end); [split; [discriminate | intros [_ [? _]]; discriminate]|].
  tauto.
Qed.

Lemma validate_expired E u nt st :
  ~ unexpired (u_payload u) (expiry_time E nt st) -> fst (validate E u nt st) = Err EExpired.
Proof.
  rewrite validate_eq, unexpired_iff.
  destruct (match p_exp (u_payload u) with Some e => _ | None => false end); [reflexivity | contradiction].
Qed.

Lemma validate_early E u nt st :
  unexpired (u_payload u) (expiry_time E nt st) ->
  ~ started (u_payload u) (start_time E (u_payload u) nt st) -> fst (validate E u nt st) = Err ETooEarly.
Proof.
  rewrite validate_eq, unexpired_iff, started_iff. intros ->.
  destruct (match p_nbf (u_payload u) with Some e => _ | None => false end); [reflexivity | contradiction].
Qed.

(** Otherwise the outcome is that of resolving the issuer and verifying. *)
Lemma validate_signature E u nt st :
  unexpired (u_payload u) (expiry_time E nt st) ->
  started (u_payload u) (start_time E (u_payload u) nt st) ->
  fst (validate E u nt st) =
  (let? k := fst (did_parse (v_parser st) (p_iss (u_payload u))) in
   key_verify k (u_signed_data u) (u_signature u)).
Proof.
  rewrite validate_eq, unexpired_iff, started_iff. intros -> ->.
  unfold check_signature, bind, parse_did.
  destruct (did_parse (v_parser st) (p_iss (u_payload u))) as [[k|e|q|] p]; reflexivity.
Qed.

(* --------------------------------------------------------------- lifetimes *)

Lemma begins_before_iff a b :
  lifetime_begins_before a b = true <->
  forall t, (forall n, p_nbf (u_payload b) = Some n -> (Z.of_N n <= t)%Z) ->
            (forall n, p_nbf (u_payload a) = Some n -> (Z.of_N n <= t)%Z).
Proof.
  unfold lifetime_begins_before.
  destruct (p_nbf (u_payload a)) as [na|], (p_nbf (u_payload b)) as [nb|].
  - rewrite N.leb_le. split.
    + intros Hx t Hb n [= <-]. specialize (Hb _ eq_refl). lia.
    + intros Hx. assert (Z.of_N na <= Z.of_N nb)%Z; [|lia]. apply (Hx (Z.of_N nb)); [|reflexivity]. intros n [= <-]. lia.
  - split; [discriminate|]. intros Hx. exfalso.
    assert (Z.of_N na <= -1)%Z; [|lia]. apply (Hx (-1)%Z); [discriminate | reflexivity].
  - split; [|reflexivity]. discriminate.
  - split; [|reflexivity]. discriminate.
Qed.

Lemma ends_after_iff a b :
  lifetime_ends_after a b = true <->
  forall t, (forall n, p_exp (u_payload b) = Some n -> (t <= Z.of_N n)%Z) ->
            (forall n, p_exp (u_payload a) = Some n -> (t <= Z.of_N n)%Z).
Proof.
  unfold lifetime_ends_after.
  destruct (p_exp (u_payload a)) as [na|], (p_exp (u_payload b)) as [nb|].
  - rewrite N.leb_le. split.
    + intros Hx t Hb n [= <-]. specialize (Hb _ eq_refl). lia.
    + intros Hx. assert (Z.of_N nb <= Z.of_N na)%Z; [|lia]. apply (Hx (Z.of_N nb)); [|reflexivity]. intros n [= <-]. lia.
  - split; [discriminate|]. intros Hx. exfalso.
    assert (Z.of_N na + 1 <= Z.of_N na)%Z; [|lia]. apply (Hx (Z.of_N na + 1)%Z); [discriminate | reflexivity].
  - split; [|reflexivity]. discriminate.
  - split; [|reflexivity]. discriminate.
Qed.

(** Inclusion holds whether or not the other lifetime is empty. *)
Lemma lifetime_encompasses_live a b t :
  lifetime_encompasses a b = true -> live_at (u_payload b) t -> live_at (u_payload a) t.
Proof.
  unfold lifetime_encompasses. rewrite andb_true_iff, begins_before_iff, ends_after_iff.
  intros [H1 H2] [Hb He]. split; auto.
Qed.

Lemma lifetime_encompasses_iff a b :
  (exists t, live_at (u_payload b) t) ->
  (lifetime_encompasses a b = true <->
   forall t, live_at (u_payload b) t -> live_at (u_payload a) t).
Proof.
  intros [t0 [Hb0 He0]]. split.
  - intros Henc t. apply lifetime_encompasses_live, Henc.
  - intros Hx. unfold lifetime_encompasses. rewrite andb_true_iff, begins_before_iff, ends_after_iff. split.
    + intros t Hb n Hn. destruct (Hx (Z.min t t0)) as [H1 _].
      * split; [intros m Hm; specialize (Hb _ Hm); specialize (Hb0 _ Hm); lia | intros m Hm; specialize (He0 _ Hm); lia].
      * specialize (H1 _ Hn). lia.
    + intros t He n Hn. destruct (Hx (Z.max t t0)) as [_ H1].
      * split; [intros m Hm; specialize (Hb0 _ Hm); lia | intros m Hm; specialize (He _ Hm); specialize (He0 _ Hm); lia].
      * specialize (H1 _ Hn). lia.
Qed.

Lemma lifetime_encompasses_refl a : lifetime_encompasses a a = true.
Proof.
  unfold lifetime_encompasses, lifetime_begins_before, lifetime_ends_after.
  destruct (p_nbf (u_payload a)), (p_exp (u_payload a)); rewrite ?N.leb_refl; reflexivity.
Qed.

Lemma lifetime_encompasses_trans a b c :
  lifetime_encompasses a b = true -> lifetime_encompasses b c = true -> lifetime_encompasses a c = true.
Proof.
  unfold lifetime_encompasses, lifetime_begins_before, lifetime_ends_after.
  destruct (p_nbf (u_payload a)), (p_nbf (u_payload b)), (p_nbf (u_payload c)),
    (p_exp (u_payload a)), (p_exp (u_payload b)), (p_exp (u_payload c)); simpl; try discriminate; lia.
Qed.


Lemma validate_supplied_time E u t b st :
  p_nbf (u_payload u) = Some b -> (t < b)%N ->
  (start_time E (u_payload u) (Some t) st <= t)%N ->
  fst (validate E u (Some t) st) <> Ok tt.
Proof.
  intros Hb Hlt Hst Hok. apply validate_ok_iff in Hok as (_ & Hs & _).
  specialize (Hs _ Hb). lia.
Qed.
