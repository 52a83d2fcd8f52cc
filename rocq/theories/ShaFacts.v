(** Proofs about SHA-256 (C137). *)
From Coq Require Import ZArith.Znumtheory.
From Verif Require Import Prelude Cbor Sha256 Spec SpecWire SpecCbor SpecSha OrdFacts Base58Facts CborFacts.
Local Open Scope N_scope.

(* ------------------------------------------------------------------- bits *)

Lemma some_eq {A} (a b : A) : Some a = Some b -> a = b.
Proof. intros H. exact (f_equal (fun o => match o with Some x => x | None => a end) H). Qed.
Lemma testbit_high x n i : x < 2 ^ n -> n <= i -> N.testbit x i = false.
Proof. intros Hx Hi. rewrite <- (N.mod_small x (2 ^ n) Hx). apply N.mod_pow2_bits_high, Hi. Qed.

Definition word_upto (n : nat) (f : nat -> bool) : N :=
  fold_right N.add 0 (map (fun i => if f i then 2 ^ N.of_nat i else 0) (seq 0 n)).
Lemma fold_add_app l1 l2 : fold_right N.add 0 (l1 ++ l2) = fold_right N.add 0 l1 + fold_right N.add 0 l2.
Proof. induction l1 as [|a l IH]; cbn [app fold_right]; [reflexivity|]. rewrite IH. lia. Qed.
Lemma word_upto_S n f : word_upto (S n) f = word_upto n f + (if f n then 2 ^ N.of_nat n else 0).
Proof. unfold word_upto. rewrite seq_S, map_app, fold_add_app. cbn [map fold_right Nat.add]. lia. Qed.
Lemma word_upto_bound n f : word_upto n f < 2 ^ N.of_nat n.
Proof.
  induction n as [|n IH]; [reflexivity|]. rewrite word_upto_S, Nat2N.inj_succ, N.pow_succ_r by lia. destruct (f n); lia.
Qed.
Lemma word_upto_bit n f : forall i, bit (word_upto n f) i = (i <? n)%nat && f i.
Proof.
  unfold bit. induction n as [|n IH]; intros i.
  - cbn. reflexivity.
  - rewrite word_upto_S. pose proof (word_upto_bound n f) as Hb.
    assert (word_upto n f + (if f n then 2 ^ N.of_nat n else 0) = word_upto n f + N.b2n (f n) * 2 ^ N.of_nat n) as ->
      by (destruct (f n); cbn [N.b2n]; lia).
    destruct (Nat.ltb_spec i (S n)) as [Hi|Hi]; cbn [andb].
    + destruct (Nat.eq_dec i n) as [->|Hne].
      * rewrite N.testbit_eqb. rewrite N.div_add by (apply N.pow_nonzero; discriminate). rewrite N.div_small by exact Hb.
        cbn [N.add]. destruct (f n); reflexivity.
      * rewrite <- (N.mod_pow2_bits_low _ (N.of_nat n)) by lia. rewrite N.mod_add by (apply N.pow_nonzero; discriminate).
        rewrite N.mod_small by exact Hb. rewrite IH. destruct (Nat.ltb_spec i n); [reflexivity | lia].
    + apply testbit_high with (N.of_nat (S n)); [|lia].
      rewrite Nat2N.inj_succ, N.pow_succ_r by lia. destruct (f n); cbn [N.b2n]; lia.
Qed.
Lemma word_of_bit f i : bit (word_of f) i = (i <? 32)%nat && f i.
Proof. apply (word_upto_bit 32). Qed.
Lemma word_of_bound f : word_of f < 2 ^ 32.
Proof. apply (word_upto_bound 32). Qed.
Lemma bit_high x i : x < 2 ^ 32 -> (32 <= i)%nat -> bit x i = false.
Proof.
  intros Hx Hi. apply testbit_high with 32; [exact Hx | lia].
Qed.
Lemma word_of_eq x f : x < 2 ^ 32 -> (forall i, (i < 32)%nat -> bit x i = f i) -> x = word_of f.
Proof.
  intros Hx Hf. apply N.bits_inj. intros n. rewrite <- (N2Nat.id n). fold (bit x (N.to_nat n)) (bit (word_of f) (N.to_nat n)).
  rewrite word_of_bit. destruct (Nat.ltb_spec (N.to_nat n) 32) as [H|H]; cbn [andb]; [apply Hf, H | apply bit_high; assumption].
Qed.
Lemma bits_bound x : (forall i, (32 <= i)%nat -> bit x i = false) -> x < 2 ^ 32.
Proof.
  intros H. destruct (N.lt_ge_cases x (2 ^ 32)) as [|Hge]; [assumption|]. exfalso.
  assert (0 < x) as H0 by (apply N.lt_le_trans with (2 ^ 32); [reflexivity | exact Hge]).
  specialize (H (N.to_nat (N.log2 x))). unfold bit in H. rewrite N2Nat.id, N.bit_log2 in H by lia.
  assert (32 <= N.log2 x) by (apply N.log2_le_pow2; assumption). discriminate H. lia.
Qed.

Lemma low32_mod x : low32 x = x mod 2 ^ 32.
Proof. unfold low32. exact (N.land_ones x 32). Qed.
Lemma low32_bound x : low32 x < 2 ^ 32.
Proof. rewrite low32_mod. apply N.mod_lt. discriminate. Qed.
Lemma add32_mod x y : add32 x y = (x + y) mod 2 ^ 32.
Proof. apply low32_mod. Qed.
Lemma add32_bound x y : add32 x y < 2 ^ 32.
Proof. apply low32_bound. Qed.

Lemma rotr_bit k x i : x < 2 ^ 32 -> (0 < k < 32)%nat -> (i < 32)%nat -> bit (rotr (N.of_nat k) x) i = turned k x i.
Proof.
  intros Hx Hk Hi. unfold rotr, turned, bit. rewrite N.lor_spec, N.shiftr_spec by lia. rewrite low32_mod.
  rewrite N.mod_pow2_bits_low by lia.
  destruct (Nat.lt_ge_cases (i + k) 32) as [H|H].
  - rewrite N.shiftl_spec_low by lia. rewrite orb_false_r. f_equal. rewrite Nat.mod_small by exact H. lia.
  - rewrite N.shiftl_spec_high by lia. replace (N.of_nat i + N.of_nat k) with (N.of_nat (i + k)) by lia.
    fold (bit x (i + k)). rewrite (bit_high x (i + k)) by assumption. cbn [orb]. f_equal.
    replace (i + k)%nat with (i + k - 32 + 1 * 32)%nat by lia. rewrite Nat.mod_add by discriminate. rewrite Nat.mod_small by lia. lia.
Qed.
Lemma rotr_bound k x : x < 2 ^ 32 -> (0 < k < 32)%nat -> rotr (N.of_nat k) x < 2 ^ 32.
Proof.
  intros Hx Hk. apply bits_bound. intros i Hi. unfold rotr, bit. rewrite N.lor_spec, N.shiftr_spec by lia.
  replace (N.of_nat i + N.of_nat k) with (N.of_nat (i + k)) by lia. fold (bit x (i + k)) (bit (low32 (N.shiftl x (32 - N.of_nat k))) i).
  rewrite !bit_high by (auto using low32_bound || lia). reflexivity.
Qed.
Lemma shiftr_bit k x i : x < 2 ^ 32 -> bit (N.shiftr x (N.of_nat k)) i = moved k x i.
Proof.
  intros Hx. unfold moved. change (bit (N.shiftr x (N.of_nat k)) i) with (N.testbit (N.shiftr x (N.of_nat k)) (N.of_nat i)). rewrite N.shiftr_spec by lia.
  replace (N.of_nat i + N.of_nat k) with (N.of_nat (i + k)) by lia. fold (bit x (i + k)).
  destruct (Nat.ltb_spec (i + k) 32); cbn [andb]; [reflexivity | apply bit_high; assumption].
Qed.
Lemma lxor_bound x y : x < 2 ^ 32 -> y < 2 ^ 32 -> N.lxor x y < 2 ^ 32.
Proof. intros Hx Hy. apply bits_bound. intros i Hi. unfold bit. rewrite N.lxor_spec. fold (bit x i) (bit y i). rewrite !bit_high by assumption. reflexivity. Qed.
Lemma land_bound x y : x < 2 ^ 32 -> N.land x y < 2 ^ 32.
Proof. intros Hx. apply bits_bound. intros i Hi. unfold bit. rewrite N.land_spec. fold (bit x i). rewrite bit_high by assumption. reflexivity. Qed.
Lemma ldiff_bound x y : x < 2 ^ 32 -> N.ldiff x y < 2 ^ 32.
Proof. intros Hx. apply bits_bound. intros i Hi. unfold bit. rewrite N.ldiff_spec. fold (bit x i). rewrite bit_high by assumption. reflexivity. Qed.
Lemma shiftr_bound k x : x < 2 ^ 32 -> N.shiftr x (N.of_nat k) < 2 ^ 32.
Proof. intros Hx. apply bits_bound. intros i Hi. rewrite shiftr_bit by exact Hx. unfold moved. destruct (Nat.ltb_spec (i + k) 32); [lia | reflexivity]. Qed.

Lemma ch_choice x y z : x < 2 ^ 32 -> y < 2 ^ 32 -> z < 2 ^ 32 -> sha_ch x y z = choice x y z.
Proof.
  intros Hx Hy Hz. apply word_of_eq; [apply lxor_bound; [apply land_bound | apply ldiff_bound]; assumption|].
  intros i _. unfold bit, sha_ch. rewrite N.lxor_spec, N.land_spec, N.ldiff_spec. destruct (N.testbit x _), (N.testbit y _), (N.testbit z _); reflexivity.
Qed.
Lemma maj_majority x y z : x < 2 ^ 32 -> y < 2 ^ 32 -> z < 2 ^ 32 -> sha_maj x y z = majority x y z.
Proof.
  intros Hx Hy Hz. apply word_of_eq; [repeat apply lxor_bound; apply land_bound; assumption|].
  intros i _. unfold bit, sha_maj. rewrite !N.lxor_spec, !N.land_spec. destruct (N.testbit x _), (N.testbit y _), (N.testbit z _); reflexivity.
Qed.
Lemma three_turned a b c x : x < 2 ^ 32 -> (0 < a < 32)%nat -> (0 < b < 32)%nat -> (0 < c < 32)%nat ->
  N.lxor (N.lxor (rotr (N.of_nat a) x) (rotr (N.of_nat b) x)) (rotr (N.of_nat c) x) =
  word_of (fun i => xorb (turned a x i) (xorb (turned b x i) (turned c x i))).
Proof.
  intros Hx Ha Hb Hc. apply word_of_eq; [repeat apply lxor_bound; apply rotr_bound; assumption|].
  intros i Hi. rewrite <- xorb_assoc, <- !rotr_bit by assumption. unfold bit. rewrite !N.lxor_spec. reflexivity.
Qed.
Lemma two_turned a b c x : x < 2 ^ 32 -> (0 < a < 32)%nat -> (0 < b < 32)%nat ->
  N.lxor (N.lxor (rotr (N.of_nat a) x) (rotr (N.of_nat b) x)) (N.shiftr x (N.of_nat c)) =
  word_of (fun i => xorb (turned a x i) (xorb (turned b x i) (moved c x i))).
Proof.
  intros Hx Ha Hb. apply word_of_eq; [apply lxor_bound; [apply lxor_bound; apply rotr_bound | apply shiftr_bound]; assumption|].
  intros i Hi. rewrite <- xorb_assoc, <- !rotr_bit, <- shiftr_bit by assumption. unfold bit. rewrite !N.lxor_spec. reflexivity.
Qed.
Lemma big_sigma0_sum x : x < 2 ^ 32 -> big_sigma0 x = sum0 x.
Proof. intros Hx. refine (three_turned 2 13 22 x Hx _ _ _); clear; lia. Qed.
Lemma big_sigma1_sum x : x < 2 ^ 32 -> big_sigma1 x = sum1 x.
Proof. intros Hx. refine (three_turned 6 11 25 x Hx _ _ _); clear; lia. Qed.
Lemma small_sigma0_mix x : x < 2 ^ 32 -> small_sigma0 x = mix0 x.
Proof. intros Hx. refine (two_turned 7 18 3 x Hx _ _); clear; lia. Qed.
Lemma small_sigma1_mix x : x < 2 ^ 32 -> small_sigma1 x = mix1 x.
Proof. intros Hx. refine (two_turned 17 19 10 x Hx _ _); clear; lia. Qed.

(* -------------------------------------------------------------- constants *)

Fixpoint upto (n : nat) : list N := match n with O => [] | S n' => upto n' ++ [N.of_nat n'] end.
Lemma in_upto n q : In q (upto n) <-> q < N.of_nat n.
Proof.
  induction n as [|n IH]; cbn [upto]; [split; [intros [] | lia]|]. rewrite in_app_iff, IH. cbn [In].
  split; [intros [H | [<- | []]]; lia | intros H; destruct (N.eq_dec q (N.of_nat n)) as [->|]; [right; left; reflexivity | left; lia]].
Qed.
Lemma nodup_upto n : NoDup (upto n).
Proof.
  induction n as [|n IH]; cbn [upto]; [constructor|]. apply NoDup_rev in IH. rewrite <- (rev_involutive (upto n ++ [N.of_nat n])).
  apply NoDup_rev. rewrite rev_app_distr. cbn [rev app]. constructor; [|exact IH]. rewrite <- in_rev, in_upto. lia.
Qed.
Definition primeb (q : N) : bool :=
  (2 <=? q) && forallb (fun d => negb (q mod d =? 0)) (skipn 2 (upto (N.to_nat q))).
Lemma upto_two k : exists r, upto (S (S k)) = 0 :: 1 :: r.
Proof. induction k as [|k [r IHk]]; [exists []; reflexivity|]. exists (r ++ [N.of_nat (S (S k))]). cbn [upto] in *. rewrite IHk. reflexivity. Qed.
Lemma skipn_upto n d : In d (skipn 2 (upto n)) <-> 2 <= d < N.of_nat n.
Proof.
  split.
  - intros H. split.
    + destruct (N.lt_ge_cases d 2) as [Hlt|]; [|assumption]. exfalso.
      destruct n as [|[|n]]; [exact H | exact H|].
      destruct (upto_two n) as [r Hr]. pose proof (nodup_upto (S (S n))) as Hn. rewrite Hr in *. cbn [skipn] in H.
      inversion Hn as [|? ? Hn0 Hn1]; subst. inversion Hn1 as [|? ? Hn2 _]; subst.
      assert (d = 0 \/ d = 1) as [-> | ->] by lia; [apply Hn0; right; exact H | exact (Hn2 H)].
    + apply in_upto. rewrite <- (firstn_skipn 2 (upto n)). apply in_or_app. right. exact H.
  - intros [H2 Hn]. apply in_upto in Hn. rewrite <- (firstn_skipn 2 (upto n)) in Hn. apply in_app_or in Hn as [H|H]; [|exact H]. exfalso.
    assert (forall x, In x (firstn 2 (upto n)) -> x < 2) as Hs.
    { intros x. destruct n as [|n]; [intros []|]. destruct n as [|k]; [intros [<- | []]; reflexivity|].
      destruct (upto_two k) as [r ->].
      intros [<- | [<- | []]]; reflexivity. }
    specialize (Hs d H). lia.
Qed.
Lemma primeb_iff q : primeb q = true <-> prime (Z.of_N q).
Proof.
  unfold primeb. rewrite andb_true_iff, N.leb_le, forallb_forall. split.
  - intros [H2 H]. apply prime_alt. split; [lia|]. intros n Hn Hd. specialize (H (Z.to_N n)).
    rewrite skipn_upto, N2Nat.id in H. specialize (H ltac:(lia)).
    apply negb_true_iff, N.eqb_neq in H. apply H. apply N2Z.inj. rewrite N2Z.inj_mod by lia. rewrite Z2N.id by lia.
    apply Z.mod_divide; [lia | exact Hd].
  - intros H. apply prime_alt in H as [H2 H]. split; [lia|]. intros d Hd. rewrite skipn_upto, N2Nat.id in Hd.
    apply negb_true_iff, N.eqb_neq. intros E. apply (H (Z.of_N d)); [lia|]. apply Z.mod_divide; [lia|].
    rewrite <- N2Z.inj_mod by lia. rewrite E. reflexivity.
Qed.

Lemma filter_upto_nth f n : forall i p, nth_error (filter f (upto n)) i = Some p ->
  p < N.of_nat n /\ f p = true /\ length (filter f (upto (N.to_nat p))) = i.
Proof.
  induction n as [|n IH]; intros i p H; cbn [upto] in H.
  - destruct i; discriminate H.
  - rewrite filter_app in H. destruct (Nat.lt_ge_cases i (length (filter f (upto n)))) as [Hl|Hl].
    + rewrite nth_error_app1 in H by exact Hl. destruct (IH i p H) as [Hp HR]. split; [lia | exact HR].
    + rewrite nth_error_app2 in H by exact Hl. cbn [filter] in H. destruct (f (N.of_nat n)) eqn:Ef; [|destruct (i - _)%nat; discriminate H].
      destruct (i - length (filter f (upto n)))%nat as [|j] eqn:Ei; [|destruct j; discriminate H].
      cbn [nth_error] in H. apply some_eq in H. subst p. split; [lia|]. split; [exact Ef|]. rewrite Nat2N.id. lia.
Qed.
Lemma nth_prime_intro i p : primeb p = true -> length (filter primeb (upto (N.to_nat p))) = i -> nth_prime i p.
Proof.
  intros Hp Hl. split; [apply primeb_iff, Hp|]. exists (filter primeb (upto (N.to_nat p))). split; [apply NoDup_filter, nodup_upto|].
  split; [exact Hl|]. intros q. rewrite filter_In, in_upto, N2Nat.id, primeb_iff. reflexivity.
Qed.
Lemma nth_prime_lt i p p' : nth_prime i p -> nth_prime i p' -> ~ p < p'.
Proof.
  intros [Hp (l & Hn & Hl & HI)] [_ (l' & Hn' & Hl' & HI')] Hlt.
  assert (S i <= i)%nat; [|lia]. rewrite <- Hl at 1. rewrite <- Hl' at 1. change (S (length l)) with (length (p :: l)).
  apply NoDup_incl_length.
  - constructor; [|exact Hn]. rewrite HI. lia.
  - intros q [<- | Hq]; apply HI'; [split; assumption|]. apply HI in Hq as [Hq Hq']. split; [lia | exact Hq'].
Qed.
Lemma nth_prime_unique i p p' : nth_prime i p -> nth_prime i p' -> p = p'.
Proof. intros H H'. pose proof (nth_prime_lt i p p' H H'). pose proof (nth_prime_lt i p' p H' H). lia. Qed.

Lemma root_fraction_unique d p k k' : d <> 0 -> root_fraction d p k -> root_fraction d p k' -> k = k'.
Proof.
  intros Hd [Hk (w & H1 & H2)] [Hk' (w' & H1' & H2')].
  assert (w * 2 ^ 32 + k < w' * 2 ^ 32 + k' + 1) as HA.
  { apply (N.pow_lt_mono_l_iff _ _ d Hd). eapply N.le_lt_trans; eassumption. }
  assert (w' * 2 ^ 32 + k' < w * 2 ^ 32 + k + 1) as HB.
  { apply (N.pow_lt_mono_l_iff _ _ d Hd). eapply N.le_lt_trans; eassumption. }
  clear H1 H2 H1' H2'. revert Hk Hk' HA HB. generalize (2 ^ 32). intros b Hk Hk' HA HB.
  assert (w * b + k = w' * b + k') as E by lia.
  assert ((w * b + k) mod b = (w' * b + k') mod b) as E' by (rewrite E; reflexivity).
  rewrite !(N.add_comm (_ * b)), !N.mod_add, !N.mod_small in E' by lia. exact E'.
Qed.
Definition fraction_check (d p k : N) : bool :=
  (k <? 2 ^ 32) && existsb (fun w => ((w * 2 ^ 32 + k) ^ d <=? p * 2 ^ (32 * d)) && (p * 2 ^ (32 * d) <? (w * 2 ^ 32 + k + 1) ^ d)) (upto 18).
Lemma fraction_check_ok d p k : fraction_check d p k = true -> root_fraction d p k.
Proof.
  unfold fraction_check. rewrite andb_true_iff, N.ltb_lt, existsb_exists. intros [Hk (w & _ & H)].
  apply andb_true_iff in H as [H1 H2]. apply N.leb_le in H1. apply N.ltb_lt in H2. split; [exact Hk|]. exists w. split; assumption.
Qed.

Definition first_primes : list N := filter primeb (upto 312).
Lemma constants_check : forallb (fun '(p, k) => fraction_check 3 p k) (combine first_primes sha_k) = true /\
  length first_primes = 64%nat.
Proof. split; vm_compute; reflexivity. Qed.
Lemma first_primes_def : first_primes = filter primeb (upto 312).
Proof. unfold first_primes. reflexivity. Qed.
Lemma sha_k_length : length sha_k = 64%nat.
Proof. reflexivity. Qed.
Definition sha_list (s : sha_state) : list N := [sha_a s; sha_b s; sha_c s; sha_d s; sha_e s; sha_f s; sha_g s; sha_h s].
Lemma initial_check : forallb (fun '(p, h) => fraction_check 2 p h) (combine first_primes (sha_list sha_init)) = true.
Proof. vm_compute. reflexivity. Qed.

Lemma nth_combine (q l : list N) : forall i p, nth_error q i = Some p -> (i < length l)%nat -> In (p, nth i l 0) (combine q l).
Proof.
  revert q. induction l as [|a l IH]; intros q i p Ep Hi; [cbn in Hi; lia|]. destruct q as [|b q]; [destruct i; discriminate Ep|].
  destruct i as [|i]; cbn [combine nth_error nth] in *; [apply some_eq in Ep; subst; left; reflexivity|].
  right. apply IH; [exact Ep | cbn [length] in Hi; lia].
Qed.
Lemma fraction_nth d q n l i : q = filter primeb (upto n) -> length q = 64%nat ->
  forallb (fun '(p, k) => fraction_check d p k) (combine q l) = true ->
  (i < length l)%nat -> (i < 64)%nat -> exists p, nth_prime i p /\ root_fraction d p (nth i l 0).
Proof.
  intros Hq Hl H Hi H64.
  destruct (nth_error q i) as [p|] eqn:Ep; [|apply nth_error_None in Ep; lia].
  pose proof Ep as Ep'. rewrite Hq in Ep'. destruct (filter_upto_nth _ _ _ _ Ep') as (_ & Hp & Hc). exists p. split; [apply nth_prime_intro; assumption|].
  apply fraction_check_ok. rewrite forallb_forall in H. apply (H (p, nth i l 0)). apply nth_combine; assumption.
Qed.
Lemma round_constant_nth t : (t < 64)%nat -> round_constant t (nth t sha_k 0).
Proof. intros Ht. apply (fraction_nth 3 first_primes 312 sha_k t first_primes_def (proj2 constants_check) (proj1 constants_check)); [rewrite sha_k_length|]; exact Ht. Qed.
Lemma round_constant_unique t k k' : round_constant t k -> round_constant t k' -> k = k'.
Proof.
  intros (p & Hp & Hk) (p' & Hp' & Hk'). assert (p' = p) as -> by (eapply nth_prime_unique; eassumption).
  eapply root_fraction_unique; [|eassumption..]. discriminate.
Qed.
Lemma initial_value_iff h : initial_value h <-> h = sha_list sha_init.
Proof.
  assert (forall i, (i < 8)%nat -> initial_word i (nth i (sha_list sha_init) 0)) as HI.
  { intros i Hi. refine (fraction_nth 2 first_primes 312 (sha_list sha_init) i first_primes_def (proj2 constants_check) initial_check Hi _). lia. }
  split; [|intros ->; split; [reflexivity | exact HI]]. intros [Hl Hh].
  apply (nth_ext _ _ 0 0); [exact Hl|]. intros i Hi. rewrite Hl in Hi.
  destruct (Hh i Hi) as (p & Hp & Hk). destruct (HI i Hi) as (p' & Hp' & Hk').
  assert (p' = p) as -> by (eapply nth_prime_unique; eassumption). eapply root_fraction_unique; [|eassumption..]. discriminate.
Qed.

(* ----------------------------------------------------------------- rounds *)

Definition small (s : sha_state) : Prop := Forall (fun x => x < 2 ^ 32) (sha_list s).
Lemma small_state a b c d e f g h : a < 2 ^ 32 -> b < 2 ^ 32 -> c < 2 ^ 32 -> d < 2 ^ 32 -> e < 2 ^ 32 -> f < 2 ^ 32 -> g < 2 ^ 32 ->
  h < 2 ^ 32 -> small (mkSha a b c d e f g h).
Proof. intros. repeat constructor; assumption. Qed.
Lemma small_parts s : small s -> sha_a s < 2 ^ 32 /\ sha_b s < 2 ^ 32 /\ sha_c s < 2 ^ 32 /\ sha_d s < 2 ^ 32 /\
  sha_e s < 2 ^ 32 /\ sha_f s < 2 ^ 32 /\ sha_g s < 2 ^ 32 /\ sha_h s < 2 ^ 32.
Proof. unfold small, sha_list. rewrite !Forall_cons_iff. intuition. Qed.
Lemma small_round k w s : small s -> small (sha_round k w s).
Proof. intros H. apply small_parts in H as (? & ? & ? & ? & ? & ? & ? & ?). apply small_state; auto using add32_bound. Qed.
Lemma small_sum s t : small (sha_sum s t).
Proof. apply small_state; apply add32_bound. Qed.

Lemma add_mod_l a b m : m <> 0 -> (a mod m + b) mod m = (a + b) mod m.
Proof. intros. apply N.add_mod_idemp_l. assumption. Qed.
Lemma add_mod_r a b m : m <> 0 -> (a + b mod m) mod m = (a + b) mod m.
Proof. intros. apply N.add_mod_idemp_r. assumption. Qed.

Lemma add4 a b c d : add32 (add32 (add32 a b) c) d = (a + b + c + d) mod 2 ^ 32.
Proof. rewrite !add32_mod. rewrite (add_mod_l (a + b) c), (add_mod_l (a + b + c) d) by discriminate. reflexivity. Qed.
Lemma add5 a b c d e : add32 (add32 (add32 (add32 a b) c) d) e = (a + b + c + d + e) mod 2 ^ 32.
Proof. rewrite (add4 a b c d), add32_mod, add_mod_l by discriminate. reflexivity. Qed.
Lemma sha_round_spec k w s : small s -> round k w (sha_list s) (sha_list (sha_round k w s)).
Proof.
  intros H. apply small_parts in H as (Ha & Hb & Hc & Hd & He & Hf & Hg & Hh). unfold sha_round, sha_list at 2. cbn [sha_a sha_b sha_c sha_d sha_e sha_f sha_g sha_h].
  rewrite (ch_choice _ _ _ He Hf Hg), (maj_majority _ _ _ Ha Hb Hc), (big_sigma0_sum _ Ha), (big_sigma1_sum _ He), !(add5 (sha_h s)), !add32_mod.
  rewrite !add_mod_l, !add_mod_r by discriminate. constructor; reflexivity.
Qed.
Lemma round_fun k w s t t' : round k w s t -> round k w s t' -> t = t'.
Proof.
  intros H H'. inversion H as [a b c d e f g h t1 t2 E1 E2 Es Et]. subst s t. inversion H' as [a' b' c' d' e' f' g' h' t1' t2' E1' E2' Es' Et']. subst. reflexivity.
Qed.

(** The words of a block's schedule. *)
Fixpoint window (m : list N) (t : nat) : list N :=
  match t with
  | O => m
  | S t' => let p := window m t' in
      tl p ++ [add32 (add32 (add32 (small_sigma1 (nth 14 p 0)) (nth 9 p 0)) (small_sigma0 (nth 1 p 0))) (nth 0 p 0)]
  end.
Definition word (m : list N) (t : nat) : N := nth 0 (window m t) 0.
Lemma window_length m t : length m = 16%nat -> length (window m t) = 16%nat.
Proof.
  intros Hm. induction t as [|t IH]; [exact Hm|]. cbn [window]. rewrite app_length. cbn [length].
  destruct (window m t) as [|x l]; [discriminate IH|]. cbn [tl length] in *. lia.
Qed.
Lemma window_nth m : length m = 16%nat -> forall i t, (i < 16)%nat -> nth i (window m t) 0 = word m (t + i).
Proof.
  intros Hm. induction i as [|i IH]; intros t Hi; [rewrite Nat.add_0_r; reflexivity|].
  replace (t + S i)%nat with (S t + i)%nat by lia. rewrite <- IH by lia. cbn [window]. pose proof (window_length m t Hm) as Hl.
  destruct (window m t) as [|x l]; [discriminate Hl|]. cbn [tl nth length] in *. rewrite app_nth1 by lia. reflexivity.
Qed.
Lemma word_small m : length m = 16%nat -> Forall (fun x => x < 2 ^ 32) m -> forall t, word m t < 2 ^ 32.
Proof.
  intros Hm Hs t. assert (Forall (fun x => x < 2 ^ 32) (window m t)) as H.
  { induction t as [|t IH]; [exact Hs|]. cbn [window]. apply Forall_app. split; [|repeat constructor; apply add32_bound].
    destruct (window m t) as [|x l]; [constructor|]. inversion IH. assumption. }
  unfold word. destruct (window m t) as [|x l]; [reflexivity|]. inversion H. assumption.
Qed.
Lemma word_first m t : length m = 16%nat -> (t < 16)%nat -> word m t = nth t m 0.
Proof. intros Hm Ht. symmetry. apply (window_nth m Hm t 0 Ht). Qed.
Lemma word_next m t : length m = 16%nat -> Forall (fun x => x < 2 ^ 32) m -> (16 <= t)%nat ->
  word m t = (mix1 (word m (t - 2)) + word m (t - 7) + mix0 (word m (t - 15)) + word m (t - 16)) mod 2 ^ 32.
Proof.
  intros Hm Hs Ht. pose proof (word_small m Hm Hs) as Hw. remember (t - 16)%nat as u eqn:Eu.
  replace t with (S u + 15)%nat at 1 by lia. rewrite <- (window_nth m Hm 15 (S u)) by lia. cbn [window].
  pose proof (window_length m u Hm) as Hl. rewrite app_nth2 by (destruct (window m u); cbn [tl length] in *; lia).
  replace (15 - length (tl (window m u)))%nat with O by (destruct (window m u); cbn [tl length] in *; lia). cbn [nth].
  rewrite !(window_nth m Hm) by lia. rewrite small_sigma1_mix, small_sigma0_mix by apply Hw. rewrite add4.
  replace (t - 2)%nat with (u + 14)%nat by lia. replace (t - 7)%nat with (u + 9)%nat by lia. replace (t - 15)%nat with (u + 1)%nat by lia.
  rewrite Nat.add_0_r. reflexivity.
Qed.

Lemma be4 b0 b1 b2 b3 : be_value [b0; b1; b2; b3] < 2 ^ 32.
Proof. exact (be_value_bound [b0; b1; b2; b3]). Qed.
Lemma sha_words_spec n : forall s, length s = (4 * n)%nat ->
  length (sha_words s) = n /\ Forall (fun x => x < 2 ^ 32) (sha_words s) /\
  forall t, (t < n)%nat -> be_number 4 (nth t (sha_words s) 0) (firstn 4 (skipn (4 * t) s)).
Proof.
  induction n as [|n IH]; intros s Hs.
  - destruct s; [|discriminate Hs]. cbn [sha_words]. split; [reflexivity|]. split; [constructor|]. intros t Ht. lia.
  - destruct s as [|b0 [|b1 [|b2 [|b3 r]]]]; cbn [length] in Hs; try lia.
    destruct (IH r ltac:(lia)) as (Hl & Hf & Hn). cbn [sha_words]. split; [cbn [length]; lia|].
    split; [constructor; [apply be4 | exact Hf]|]. intros t Ht. destruct t as [|t]; [exact (be_number_value [b0; b1; b2; b3])|].
    replace (4 * S t)%nat with (S (S (S (S (4 * t)))))%nat by lia. cbn [skipn nth]. apply Hn. lia.
Qed.
Lemma be_number_fun k n n' bs : be_number k n bs -> be_number k n' bs -> n = n'.
Proof. intros [_ <-] [_ <-]. reflexivity. Qed.

Lemma schedule_word block : length block = 64%nat -> schedule block (word (sha_words block)).
Proof.
  intros Hb. destruct (sha_words_spec 16 block Hb) as (Hl & Hf & Hn). split.
  - intros t Ht. rewrite word_first by assumption. apply Hn, Ht.
  - intros t Ht. apply word_next; [assumption | assumption | lia].
Qed.
Lemma schedule_fun block w w' : schedule block w -> schedule block w' -> forall t, (t < 64)%nat -> w t = w' t.
Proof.
  intros [H1 H2] [H1' H2'] t. induction t as [t IH] using lt_wf_ind. intros Ht.
  destruct (Nat.lt_ge_cases t 16) as [Hlt|Hge]; [eapply be_number_fun; [apply H1 | apply H1']; exact Hlt|].
  rewrite H2, H2' by lia. rewrite !IH by lia. reflexivity.
Qed.

Fixpoint run_of (m : list N) (s : sha_state) (t : nat) : sha_state :=
  match t with O => s | S t' => sha_round (nth t' sha_k 0) (word m t') (run_of m s t') end.
Lemma run_small m s t : small s -> small (run_of m s t).
Proof. intros H. induction t as [|t IH]; [exact H | cbn [run_of]; apply small_round, IH]. Qed.
Lemma sha_rounds_run m s ks' : forall ks, sha_k = ks ++ ks' ->
  sha_rounds ks' (window m (length ks)) (run_of m s (length ks)) = run_of m s 64.
Proof.
  induction ks' as [|k ks' IH]; intros ks E.
  - cbn [sha_rounds]. rewrite app_nil_r in E. rewrite <- E, sha_k_length. reflexivity.
  - specialize (IH (ks ++ [k])). rewrite app_length, <- app_assoc in IH. cbn [length app] in IH. rewrite Nat.add_1_r in IH. specialize (IH E).
    assert (nth (length ks) sha_k 0 = k) as Ek by (rewrite E, app_nth2, Nat.sub_diag by lia; reflexivity).
    cbn [window run_of] in IH. rewrite Ek in IH. cbn [sha_rounds]. exact IH.
Qed.

Lemma compress_spec block s : length block = 64%nat -> small s -> compressed block (sha_list s) (sha_list (sha_compress s block)).
Proof.
  intros Hb Hs. exists (word (sha_words block)), (fun t => sha_list (run_of (sha_words block) s t)).
  split; [apply schedule_word, Hb|]. split; [reflexivity|]. split.
  - intros t Ht. exists (nth t sha_k 0). split; [apply round_constant_nth, Ht|]. cbn [run_of]. apply sha_round_spec, run_small, Hs.
  - split; [|reflexivity]. unfold sha_compress. rewrite (sha_rounds_run (sha_words block) s sha_k [] eq_refl : sha_rounds sha_k (sha_words block) s = _).
    generalize (run_of (sha_words block) s 64). intros r. unfold sha_list, sha_sum. cbn [sha_a sha_b sha_c sha_d sha_e sha_f sha_g sha_h combine].
    rewrite !add32_mod. repeat constructor.
Qed.
Lemma forall2_pairs_fun (s' s'' : list N) l : length s' = length s'' ->
  Forall2 (fun x '(u, v) => x = (u + v) mod 2 ^ 32) s' l -> Forall2 (fun x '(u, v) => x = (u + v) mod 2 ^ 32) s'' l -> s' = s''.
Proof.
  intros _ H. revert s''. induction H as [|x [u v] s' l Hx H IH]; intros s'' H''; inversion H''; subst; [reflexivity|]. f_equal. apply IH. assumption.
Qed.
Lemma compressed_fun block s s' s'' : compressed block s s' -> compressed block s s'' -> s' = s''.
Proof.
  intros (w & run & Hw & H0 & Hr & HF & Hl) (w' & run' & Hw' & H0' & Hr' & HF' & Hl').
  assert (forall t, (t <= 64)%nat -> run t = run' t) as HE.
  { induction t as [|t IH]; intros Ht; [congruence|]. destruct (Hr t Ht) as (k & Hk & HR). destruct (Hr' t Ht) as (k' & Hk' & HR').
    assert (k' = k) as -> by (eapply round_constant_unique; eassumption). rewrite <- IH in HR' by lia. rewrite (schedule_fun _ _ _ Hw Hw' t Ht) in HR.
    eapply round_fun; eassumption. }
  rewrite <- (HE 64%nat) in HF' by lia. eapply forall2_pairs_fun; [congruence | exact HF | exact HF'].
Qed.

Lemma blocks_spec blocks : Forall (fun b => length b = 64%nat) blocks -> forall s, small s ->
  compressed_all blocks (sha_list s) (sha_list (sha_blocks (length blocks) (concat blocks) s)) /\ small (sha_blocks (length blocks) (concat blocks) s).
Proof.
  induction 1 as [|b bs Hb _ IH]; intros s Hs; cbn [length concat sha_blocks]; [split; [constructor | exact Hs]|].
  rewrite firstn_app, skipn_app, Hb, Nat.sub_diag, firstn_all2, skipn_all2 by lia. cbn [firstn skipn app]. rewrite app_nil_r.
  destruct (IH (sha_compress s b) (small_sum _ _)) as [HA HB]. split; [|exact HB]. econstructor; [exact Hb | apply compress_spec; assumption | exact HA].
Qed.
Lemma compressed_all_fun blocks : forall s s' s'', compressed_all blocks s s' -> compressed_all blocks s s'' -> s' = s''.
Proof.
  induction blocks as [|b bs IH]; intros s s' s'' H H'; inversion H; subst; inversion H'; subst; [reflexivity|].
  eapply IH; [eassumption|]. match goal with A : compressed b s ?x, B : compressed b s ?y |- _ => rewrite (compressed_fun _ _ _ _ A B) end. assumption.
Qed.
Lemma compressed_all_lengths blocks s s' : compressed_all blocks s s' -> Forall (fun b => length b = 64%nat) blocks.
Proof. induction 1; constructor; assumption. Qed.

(* ---------------------------------------------------------------- padding *)

Lemma be_bytes_mod k : forall n, be_bytes k (n mod 256 ^ N.of_nat k) = be_bytes k n.
Proof.
  induction k as [|k IH]; intros n; [reflexivity|]. cbn [be_bytes]. rewrite Nat2N.inj_succ, N.pow_succ_r by lia.
  assert (256 ^ N.of_nat k <> 0) as Hk by (apply N.pow_nonzero; discriminate).
  rewrite N.mod_mul_r by (discriminate || exact Hk). f_equal.
  - rewrite (N.mul_comm 256), N.div_add by discriminate. rewrite N.div_small by (apply N.mod_lt; discriminate). cbn [N.add]. apply IH.
  - f_equal. unfold byteN. rewrite (N.mul_comm 256), N.mod_add by discriminate. rewrite N.mod_mod by discriminate. reflexivity.
Qed.
Lemma zeros_repeat z : Forall (eq x00) z -> z = repeat x00 (length z).
Proof. induction 1 as [|x l <- _ IH]; [reflexivity|]. cbn [length repeat]. f_equal. exact IH. Qed.
Lemma padded_iff m p : padded m p <-> p = sha_pad m.
Proof.
  unfold sha_pad. assert (forall n, be_number 8 (n mod 2 ^ 64) (be_bytes 8 n)) as HB.
  { intros n. apply be_number_iff. split; [symmetry; apply (be_bytes_mod 8)|]. apply N.mod_lt. discriminate. }
  pose proof (Nat.div_mod (length m) 64 ltac:(discriminate)) as Hdm. pose proof (Nat.mod_upper_bound (length m) 64 ltac:(discriminate)) as Hr.
  assert ((119 - length m mod 64) mod 64 = if (length m mod 64 <? 56)%nat then 55 - length m mod 64 else 119 - length m mod 64)%nat as Hz.
  { destruct (Nat.ltb_spec (length m mod 64) 56).
    - replace (119 - length m mod 64)%nat with (55 - length m mod 64 + 1 * 64)%nat by lia. rewrite Nat.mod_add by discriminate. apply Nat.mod_small. lia.
    - apply Nat.mod_small. lia. }
  split.
  - intros (z & l & -> & Hf & Hl & (n & Hn) & HN). do 2 f_equal. apply be_number_iff in HN as [HN _]. pose proof (be_length 8 ((8 * N.of_nat (length m)) mod 2 ^ 64)) as Hlen.
    rewrite <- HN in Hlen. rewrite (be_bytes_mod 8 (8 * N.of_nat (length m)) : be_bytes 8 ((8 * N.of_nat (length m)) mod 2 ^ 64) = _) in HN.
    rewrite HN. f_equal. rewrite (zeros_repeat z Hf). f_equal. rewrite Hz.
    rewrite !app_length in Hn. cbn [length] in Hn. rewrite Hlen in Hn. destruct (Nat.ltb_spec (length m mod 64) 56); lia.
  - intros ->. do 2 eexists. split; [reflexivity|]. split; [|split; [|split; [|apply HB]]].
    + apply Forall_forall. intros x Hx. symmetry. eapply repeat_spec. exact Hx.
    + rewrite repeat_length. apply Nat.mod_upper_bound. discriminate.
    + rewrite !app_length, repeat_length, be_length, Hz. cbn [length].
      destruct (Nat.ltb_spec (length m mod 64) 56); [exists (length m / 64 + 1)%nat | exists (length m / 64 + 2)%nat]; lia.
Qed.

(** A multiple of 64 bytes is a list of blocks. *)
Lemma cut_blocks n : forall p : bytes, length p = (64 * n)%nat ->
  exists blocks, concat blocks = p /\ length blocks = n /\ Forall (fun b => length b = 64%nat) blocks.
Proof.
  induction n as [|n IH]; intros p Hp.
  - exists []. destruct p; [|cbn in Hp; lia]. repeat split. constructor.
  - destruct (IH (skipn 64 p)) as (bs & Hc & Hl & Hf); [rewrite skipn_length; lia|]. exists (firstn 64 p :: bs).
    cbn [concat length]. rewrite Hc, firstn_skipn. split; [reflexivity|]. split; [lia|]. constructor; [rewrite firstn_length; lia | exact Hf].
Qed.
Lemma concat_length blocks : Forall (fun b : bytes => length b = 64%nat) blocks -> length (concat blocks) = (64 * length blocks)%nat.
Proof. induction 1 as [|b bs Hb _ IH]; [reflexivity|]. cbn [concat length]. rewrite app_length, IH, Hb. lia. Qed.

Lemma small_init : small sha_init.
Proof. repeat constructor. Qed.
Lemma words_of l d : Forall (fun x => x < 2 ^ 32) l ->
  ((exists words, Forall2 (be_number 4) l words /\ d = concat words) <-> d = flat_map (be_bytes 4) l).
Proof.
  intros Hs. split.
  - intros (ws & HF & ->). clear Hs. induction HF as [|x w l ws Hx _ IH]; [reflexivity|]. cbn [concat flat_map]. rewrite IH. f_equal.
    apply be_number_iff in Hx as [-> _]. reflexivity.
  - intros ->. exists (map (be_bytes 4) l). split; [|apply flat_map_concat_map]. induction Hs as [|x l Hx _ IH]; [constructor|].
    cbn [map]. constructor; [|exact IH]. apply be_number_iff. split; [reflexivity | exact Hx].
Qed.

Lemma sha256_iff m d : sha256_of m d <-> d = sha256 m.
Proof.
  unfold sha256_of, sha256. split.
  - intros (blocks & h0 & h & words & Hp & Hi & Hc & Hw & Hd). apply padded_iff in Hp. apply initial_value_iff in Hi. subst h0.
    pose proof (compressed_all_lengths _ _ _ Hc) as Hl. destruct (blocks_spec blocks Hl sha_init small_init) as [Hc' Hs].
    rewrite <- Hp, (concat_length blocks Hl), Nat.mul_comm, Nat.div_mul by discriminate.
    rewrite (compressed_all_fun _ _ _ _ Hc Hc') in Hw. apply (proj1 (words_of _ d Hs)). exists words. split; assumption.
  - intros Hd. assert (padded m (sha_pad m)) as Hp by (apply padded_iff; reflexivity). pose proof Hp as (z & l & _ & _ & _ & (n & Hn) & _).
    destruct (cut_blocks n (sha_pad m) Hn) as (blocks & Hb & Hlen & Hl). destruct (blocks_spec blocks Hl sha_init small_init) as [Hc Hs].
    rewrite Hn, Nat.mul_comm, Nat.div_mul, <- Hlen, <- Hb in Hd by discriminate.
    destruct (proj2 (words_of _ d Hs) Hd) as (words & HF & Hd').
    exists blocks, (sha_list sha_init), (sha_list (sha_blocks (length blocks) (concat blocks) sha_init)), words.
    rewrite Hb. split; [exact Hp|]. split; [apply initial_value_iff; reflexivity|]. rewrite <- Hb. split; [exact Hc|]. split; [exact HF | exact Hd'].
Qed.
Lemma sha256_length m : length (sha256 m) = 32%nat.
Proof. unfold sha256. cbn [flat_map]. rewrite !app_length, !be_length. reflexivity. Qed.
