(** Proofs about SHA-512 (C144). *)
From Coq Require Import ZArith.Znumtheory.
From Verif Require Import Prelude Cbor Sha512 Spec SpecWire SpecCbor SpecSha SpecSha512 OrdFacts Base58Facts CborFacts ShaFacts.
Local Open Scope N_scope.

(* ------------------------------------------------------------------- bits *)

Lemma word_of_bit f i : bit (word_of5 f) i = (i <? 64)%nat && f i.
Proof. exact (word_upto_bit 64 f i). Qed.
Lemma word_of_bound f : word_of5 f < 2 ^ 64.
Proof. exact (word_upto_bound 64 f). Qed.
Lemma bit_high x i : x < 2 ^ 64 -> (64 <= i)%nat -> bit x i = false.
Proof.
  intros Hx Hi. apply testbit_high with 64; [exact Hx | lia].
Qed.
Lemma word_of_eq x f : x < 2 ^ 64 -> (forall i, (i < 64)%nat -> bit x i = f i) -> x = word_of5 f.
Proof.
  intros Hx Hf. apply N.bits_inj. intros n. rewrite <- (N2Nat.id n). fold (bit x (N.to_nat n)) (bit (word_of5 f) (N.to_nat n)).
  rewrite word_of_bit. destruct (Nat.ltb_spec (N.to_nat n) 64) as [H|H]; cbn [andb]; [apply Hf, H | apply bit_high; assumption].
Qed.
Lemma bits_bound x : (forall i, (64 <= i)%nat -> bit x i = false) -> x < 2 ^ 64.
Proof.
  intros H. destruct (N.lt_ge_cases x (2 ^ 64)) as [|Hge]; [assumption|]. exfalso.
  assert (0 < x) as H0 by (apply N.lt_le_trans with (2 ^ 64); [reflexivity | exact Hge]).
  specialize (H (N.to_nat (N.log2 x))). unfold bit in H. rewrite N2Nat.id, N.bit_log2 in H by lia.
  assert (64 <= N.log2 x) by (apply N.log2_le_pow2; assumption). discriminate H. lia.
Qed.

Lemma low32_mod x : low64 x = x mod 2 ^ 64.
Proof. unfold low64. exact (N.land_ones x 64). Qed.
Lemma low32_bound x : low64 x < 2 ^ 64.
Proof. rewrite low32_mod. apply N.mod_lt. discriminate. Qed.
Lemma add32_mod x y : add64 x y = (x + y) mod 2 ^ 64.
Proof. apply low32_mod. Qed.
Lemma add32_bound x y : add64 x y < 2 ^ 64.
Proof. apply low32_bound. Qed.

Lemma rotr_bit k x i : x < 2 ^ 64 -> (0 < k < 64)%nat -> (i < 64)%nat -> bit (rotr64 (N.of_nat k) x) i = turned5 k x i.
Proof.
  intros Hx Hk Hi. unfold rotr64, turned5, bit. rewrite N.lor_spec, N.shiftr_spec by lia. rewrite low32_mod.
  rewrite N.mod_pow2_bits_low by lia.
  destruct (Nat.lt_ge_cases (i + k) 64) as [H|H].
  - rewrite N.shiftl_spec_low by lia. rewrite orb_false_r. f_equal. rewrite Nat.mod_small by exact H. lia.
  - rewrite N.shiftl_spec_high by lia. replace (N.of_nat i + N.of_nat k) with (N.of_nat (i + k)) by lia.
    fold (bit x (i + k)). rewrite (bit_high x (i + k)) by assumption. cbn [orb]. f_equal.
    replace (i + k)%nat with (i + k - 64 + 1 * 64)%nat by lia. rewrite Nat.mod_add by discriminate. rewrite Nat.mod_small by lia. lia.
Qed.
Lemma rotr_bound k x : x < 2 ^ 64 -> (0 < k < 64)%nat -> rotr64 (N.of_nat k) x < 2 ^ 64.
Proof.
  intros Hx Hk. apply bits_bound. intros i Hi. unfold rotr64, bit. rewrite N.lor_spec, N.shiftr_spec by lia.
  replace (N.of_nat i + N.of_nat k) with (N.of_nat (i + k)) by lia. fold (bit x (i + k)) (bit (low64 (N.shiftl x (64 - N.of_nat k))) i).
  rewrite !bit_high by (auto using low32_bound || lia). reflexivity.
Qed.
Lemma shiftr_bit k x i : x < 2 ^ 64 -> bit (N.shiftr x (N.of_nat k)) i = moved5 k x i.
Proof.
  intros Hx. unfold moved5. change (bit (N.shiftr x (N.of_nat k)) i) with (N.testbit (N.shiftr x (N.of_nat k)) (N.of_nat i)). rewrite N.shiftr_spec by lia.
  replace (N.of_nat i + N.of_nat k) with (N.of_nat (i + k)) by lia. fold (bit x (i + k)).
  destruct (Nat.ltb_spec (i + k) 64); cbn [andb]; [reflexivity | apply bit_high; assumption].
Qed.
Lemma lxor_bound x y : x < 2 ^ 64 -> y < 2 ^ 64 -> N.lxor x y < 2 ^ 64.
Proof. intros Hx Hy. apply bits_bound. intros i Hi. unfold bit. rewrite N.lxor_spec. fold (bit x i) (bit y i). rewrite !bit_high by assumption. reflexivity. Qed.
Lemma land_bound x y : x < 2 ^ 64 -> N.land x y < 2 ^ 64.
Proof. intros Hx. apply bits_bound. intros i Hi. unfold bit. rewrite N.land_spec. fold (bit x i). rewrite bit_high by assumption. reflexivity. Qed.
Lemma ldiff_bound x y : x < 2 ^ 64 -> N.ldiff x y < 2 ^ 64.
Proof. intros Hx. apply bits_bound. intros i Hi. unfold bit. rewrite N.ldiff_spec. fold (bit x i). rewrite bit_high by assumption. reflexivity. Qed.
Lemma shiftr_bound k x : x < 2 ^ 64 -> N.shiftr x (N.of_nat k) < 2 ^ 64.
Proof. intros Hx. apply bits_bound. intros i Hi. rewrite shiftr_bit by exact Hx. unfold moved5. destruct (Nat.ltb_spec (i + k) 64); [lia | reflexivity]. Qed.

Lemma ch_choice x y z : x < 2 ^ 64 -> y < 2 ^ 64 -> z < 2 ^ 64 -> sha5_ch x y z = choice5 x y z.
Proof.
  intros Hx Hy Hz. apply word_of_eq; [apply lxor_bound; [apply land_bound | apply ldiff_bound]; assumption|].
  intros i _. unfold bit, sha5_ch. rewrite N.lxor_spec, N.land_spec, N.ldiff_spec. destruct (N.testbit x _), (N.testbit y _), (N.testbit z _); reflexivity.
Qed.
Lemma maj_majority x y z : x < 2 ^ 64 -> y < 2 ^ 64 -> z < 2 ^ 64 -> sha5_maj x y z = majority5 x y z.
Proof.
  intros Hx Hy Hz. apply word_of_eq; [repeat apply lxor_bound; apply land_bound; assumption|].
  intros i _. unfold bit, sha5_maj. rewrite !N.lxor_spec, !N.land_spec. destruct (N.testbit x _), (N.testbit y _), (N.testbit z _); reflexivity.
Qed.
Lemma three_turned a b c x : x < 2 ^ 64 -> (0 < a < 64)%nat -> (0 < b < 64)%nat -> (0 < c < 64)%nat ->
  N.lxor (N.lxor (rotr64 (N.of_nat a) x) (rotr64 (N.of_nat b) x)) (rotr64 (N.of_nat c) x) =
  word_of5 (fun i => xorb (turned5 a x i) (xorb (turned5 b x i) (turned5 c x i))).
Proof.
  intros Hx Ha Hb Hc. apply word_of_eq; [repeat apply lxor_bound; apply rotr_bound; assumption|].
  intros i Hi. rewrite <- xorb_assoc, <- !rotr_bit by assumption. unfold bit. rewrite !N.lxor_spec. reflexivity.
Qed.
Lemma two_turned a b c x : x < 2 ^ 64 -> (0 < a < 64)%nat -> (0 < b < 64)%nat ->
  N.lxor (N.lxor (rotr64 (N.of_nat a) x) (rotr64 (N.of_nat b) x)) (N.shiftr x (N.of_nat c)) =
  word_of5 (fun i => xorb (turned5 a x i) (xorb (turned5 b x i) (moved5 c x i))).
Proof.
  intros Hx Ha Hb. apply word_of_eq; [apply lxor_bound; [apply lxor_bound; apply rotr_bound | apply shiftr_bound]; assumption|].
  intros i Hi. rewrite <- xorb_assoc, <- !rotr_bit, <- shiftr_bit by assumption. unfold bit. rewrite !N.lxor_spec. reflexivity.
Qed.
Lemma big_sigma0_sum x : x < 2 ^ 64 -> big_sigma5_0 x = sum5_0 x.
Proof. intros Hx. refine (three_turned 28 34 39 x Hx _ _ _); clear; lia. Qed.
Lemma big_sigma1_sum x : x < 2 ^ 64 -> big_sigma5_1 x = sum5_1 x.
Proof. intros Hx. refine (three_turned 14 18 41 x Hx _ _ _); clear; lia. Qed.
Lemma small_sigma0_mix x : x < 2 ^ 64 -> small_sigma5_0 x = mix5_0 x.
Proof. intros Hx. refine (two_turned 1 8 7 x Hx _ _); clear; lia. Qed.
Lemma small_sigma1_mix x : x < 2 ^ 64 -> small_sigma5_1 x = mix5_1 x.
Proof. intros Hx. refine (two_turned 19 61 6 x Hx _ _); clear; lia. Qed.

(* -------------------------------------------------------------- constants *)

Lemma root_fraction_unique d p k k' : d <> 0 -> root_fraction5 d p k -> root_fraction5 d p k' -> k = k'.
Proof.
  intros Hd [Hk (w & H1 & H2)] [Hk' (w' & H1' & H2')].
  assert (w * 2 ^ 64 + k < w' * 2 ^ 64 + k' + 1) as HA.
  { apply (N.pow_lt_mono_l_iff _ _ d Hd). eapply N.le_lt_trans; eassumption. }
  assert (w' * 2 ^ 64 + k' < w * 2 ^ 64 + k + 1) as HB.
  { apply (N.pow_lt_mono_l_iff _ _ d Hd). eapply N.le_lt_trans; eassumption. }
  clear H1 H2 H1' H2'. revert Hk Hk' HA HB. generalize (2 ^ 64). intros b Hk Hk' HA HB.
  assert (w * b + k = w' * b + k') as E by lia.
  assert ((w * b + k) mod b = (w' * b + k') mod b) as E' by (rewrite E; reflexivity).
  rewrite !(N.add_comm (_ * b)), !N.mod_add, !N.mod_small in E' by lia. exact E'.
Qed.
Definition fraction_check (d p k : N) : bool :=
  (k <? 2 ^ 64) && existsb (fun w => ((w * 2 ^ 64 + k) ^ d <=? p * 2 ^ (64 * d)) && (p * 2 ^ (64 * d) <? (w * 2 ^ 64 + k + 1) ^ d)) (upto 18).
Lemma fraction_check_ok d p k : fraction_check d p k = true -> root_fraction5 d p k.
Proof.
  unfold fraction_check. rewrite andb_true_iff, N.ltb_lt, existsb_exists. intros [Hk (w & _ & H)].
  apply andb_true_iff in H as [H1 H2]. apply N.leb_le in H1. apply N.ltb_lt in H2. split; [exact Hk|]. exists w. split; assumption.
Qed.

Definition first_primes : list N := filter primeb (upto 410).
Lemma constants_check : forallb (fun '(p, k) => fraction_check 3 p k) (combine first_primes sha5_k) = true /\
  length first_primes = 80%nat.
Proof. split; vm_compute; reflexivity. Qed.
Lemma first_primes_def : first_primes = filter primeb (upto 410).
Proof. unfold first_primes. reflexivity. Qed.
Lemma sha_k_length : length sha5_k = 80%nat.
Proof. reflexivity. Qed.
Definition sha_list (s : sha5_state) : list N := [sha5_a s; sha5_b s; sha5_c s; sha5_d s; sha5_e s; sha5_f s; sha5_g s; sha5_h s].
Lemma initial_check : forallb (fun '(p, h) => fraction_check 2 p h) (combine first_primes (sha_list sha5_init)) = true.
Proof. vm_compute. reflexivity. Qed.

Lemma fraction_nth d q n l i : q = filter primeb (upto n) -> length q = 80%nat ->
  forallb (fun '(p, k) => fraction_check d p k) (combine q l) = true ->
  (i < length l)%nat -> (i < 80)%nat -> exists p, nth_prime i p /\ root_fraction5 d p (nth i l 0).
Proof.
  intros Hq Hl H Hi H80.
  destruct (nth_error q i) as [p|] eqn:Ep; [|apply nth_error_None in Ep; lia].
  pose proof Ep as Ep'. rewrite Hq in Ep'. destruct (filter_upto_nth _ _ _ _ Ep') as (_ & Hp & Hc). exists p. split; [apply nth_prime_intro; assumption|].
  apply fraction_check_ok. rewrite forallb_forall in H. apply (H (p, nth i l 0)). apply nth_combine; assumption.
Qed.
Lemma round_constant_nth t : (t < 80)%nat -> round_constant5 t (nth t sha5_k 0).
Proof. intros Ht. apply (fraction_nth 3 first_primes 410 sha5_k t first_primes_def (proj2 constants_check) (proj1 constants_check)); [rewrite sha_k_length|]; exact Ht. Qed.
Lemma round_constant_unique t k k' : round_constant5 t k -> round_constant5 t k' -> k = k'.
Proof.
  intros (p & Hp & Hk) (p' & Hp' & Hk'). assert (p' = p) as -> by (eapply nth_prime_unique; eassumption).
  eapply root_fraction_unique; [|eassumption..]. discriminate.
Qed.
Lemma initial_value_iff h : initial_value5 h <-> h = sha_list sha5_init.
Proof.
  assert (forall i, (i < 8)%nat -> initial_word5 i (nth i (sha_list sha5_init) 0)) as HI.
  { intros i Hi. refine (fraction_nth 2 first_primes 410 (sha_list sha5_init) i first_primes_def (proj2 constants_check) initial_check Hi _). lia. }
  split; [|intros ->; split; [reflexivity | exact HI]]. intros [Hl Hh].
  apply (nth_ext _ _ 0 0); [exact Hl|]. intros i Hi. rewrite Hl in Hi.
  destruct (Hh i Hi) as (p & Hp & Hk). destruct (HI i Hi) as (p' & Hp' & Hk').
  assert (p' = p) as -> by (eapply nth_prime_unique; eassumption). eapply root_fraction_unique; [|eassumption..]. discriminate.
Qed.

(* ----------------------------------------------------------------- rounds *)

Definition small (s : sha5_state) : Prop := Forall (fun x => x < 2 ^ 64) (sha_list s).
Lemma small_state a b c d e f g h : a < 2 ^ 64 -> b < 2 ^ 64 -> c < 2 ^ 64 -> d < 2 ^ 64 -> e < 2 ^ 64 -> f < 2 ^ 64 -> g < 2 ^ 64 ->
  h < 2 ^ 64 -> small (mkSha5 a b c d e f g h).
Proof. intros. repeat constructor; assumption. Qed.
Lemma small_parts s : small s -> sha5_a s < 2 ^ 64 /\ sha5_b s < 2 ^ 64 /\ sha5_c s < 2 ^ 64 /\ sha5_d s < 2 ^ 64 /\
  sha5_e s < 2 ^ 64 /\ sha5_f s < 2 ^ 64 /\ sha5_g s < 2 ^ 64 /\ sha5_h s < 2 ^ 64.
Proof. unfold small, sha_list. rewrite !Forall_cons_iff. intuition. Qed.
Lemma small_round k w s : small s -> small (sha5_round k w s).
Proof. intros H. apply small_parts in H as (? & ? & ? & ? & ? & ? & ? & ?). apply small_state; auto using add32_bound. Qed.
Lemma small_sum s t : small (sha5_sum s t).
Proof. apply small_state; apply add32_bound. Qed.

Lemma add4 a b c d : add64 (add64 (add64 a b) c) d = (a + b + c + d) mod 2 ^ 64.
Proof. rewrite !add32_mod. rewrite (add_mod_l (a + b) c), (add_mod_l (a + b + c) d) by discriminate. reflexivity. Qed.
Lemma add5 a b c d e : add64 (add64 (add64 (add64 a b) c) d) e = (a + b + c + d + e) mod 2 ^ 64.
Proof. rewrite (add4 a b c d), add32_mod, add_mod_l by discriminate. reflexivity. Qed.
Lemma sha_round_spec k w s : small s -> round5 k w (sha_list s) (sha_list (sha5_round k w s)).
Proof.
  intros H. apply small_parts in H as (Ha & Hb & Hc & Hd & He & Hf & Hg & Hh). unfold sha5_round, sha_list at 2. cbn [sha5_a sha5_b sha5_c sha5_d sha5_e sha5_f sha5_g sha5_h].
  rewrite (ch_choice _ _ _ He Hf Hg), (maj_majority _ _ _ Ha Hb Hc), (big_sigma0_sum _ Ha), (big_sigma1_sum _ He), !(add5 (sha5_h s)), !add32_mod.
  rewrite !add_mod_l, !add_mod_r by discriminate. constructor; reflexivity.
Qed.
Lemma round_fun k w s t t' : round5 k w s t -> round5 k w s t' -> t = t'.
Proof.
  intros H H'. inversion H as [a b c d e f g h t1 t2 E1 E2 Es Et]. subst s t. inversion H' as [a' b' c' d' e' f' g' h' t1' t2' E1' E2' Es' Et']. subst. reflexivity.
Qed.

(** The words of a block's schedule5. *)
Fixpoint window (m : list N) (t : nat) : list N :=
  match t with
  | O => m
  | S t' => let p := window m t' in
      tl p ++ [add64 (add64 (add64 (small_sigma5_1 (nth 14 p 0)) (nth 9 p 0)) (small_sigma5_0 (nth 1 p 0))) (nth 0 p 0)]
  end.
Definition word (m : list N) (t : nat) : N := nth 0 (window m t) 0.
Lemma window_length m t : length m = 16%nat -> length (window m t) = 16%nat.
Proof.
  intros Hm. induction t as [|t IH]; [exact Hm|]. cbn [window]. rewrite app_length. cbn [length].
  destruct (window m t) as [|x l]; [discriminate IH|]. cbn [tl length] in *. lia.
Qed.
Lemma window_nth m : length m = 16%nat -> forall i t, (i < 16)%nat -> nth i (window m t) 0 = word m (t + i).
Proof.
  intros Hm. induction i as [|i IH]; intros t Hi; [rewrite Nat.add_0_r; reflexivity|].
  replace (t + S i)%nat with (S t + i)%nat by lia. rewrite <- IH by lia. cbn [window]. pose proof (window_length m t Hm) as Hl.
  destruct (window m t) as [|x l]; [discriminate Hl|]. cbn [tl nth length] in *. rewrite app_nth1 by lia. reflexivity.
Qed.
Lemma word_small m : length m = 16%nat -> Forall (fun x => x < 2 ^ 64) m -> forall t, word m t < 2 ^ 64.
Proof.
  intros Hm Hs t. assert (Forall (fun x => x < 2 ^ 64) (window m t)) as H.
  { induction t as [|t IH]; [exact Hs|]. cbn [window]. apply Forall_app. split; [|repeat constructor; apply add32_bound].
    destruct (window m t) as [|x l]; [constructor|]. inversion IH. assumption. }
  unfold word. destruct (window m t) as [|x l]; [reflexivity|]. inversion H. assumption.
Qed.
Lemma word_first m t : length m = 16%nat -> (t < 16)%nat -> word m t = nth t m 0.
Proof. intros Hm Ht. symmetry. apply (window_nth m Hm t 0 Ht). Qed.
Lemma word_next m t : length m = 16%nat -> Forall (fun x => x < 2 ^ 64) m -> (16 <= t)%nat ->
  word m t = (mix5_1 (word m (t - 2)) + word m (t - 7) + mix5_0 (word m (t - 15)) + word m (t - 16)) mod 2 ^ 64.
Proof.
  intros Hm Hs Ht. pose proof (word_small m Hm Hs) as Hw. remember (t - 16)%nat as u eqn:Eu.
  replace t with (S u + 15)%nat at 1 by lia. rewrite <- (window_nth m Hm 15 (S u)) by lia. cbn [window].
  pose proof (window_length m u Hm) as Hl. rewrite app_nth2 by (destruct (window m u); cbn [tl length] in *; lia).
  replace (15 - length (tl (window m u)))%nat with O by (destruct (window m u); cbn [tl length] in *; lia). cbn [nth].
  rewrite !(window_nth m Hm) by lia. rewrite small_sigma1_mix, small_sigma0_mix by apply Hw. rewrite add4.
  replace (t - 2)%nat with (u + 14)%nat by lia. replace (t - 7)%nat with (u + 9)%nat by lia. replace (t - 15)%nat with (u + 1)%nat by lia.
  rewrite Nat.add_0_r. reflexivity.
Qed.

Lemma be8 b0 b1 b2 b3 b4 b5 b6 b7 : be_value [b0; b1; b2; b3; b4; b5; b6; b7] < 2 ^ 64.
Proof. exact (be_value_bound [b0; b1; b2; b3; b4; b5; b6; b7]). Qed.
Lemma sha_words_spec n : forall s, length s = (8 * n)%nat ->
  length (sha5_words s) = n /\ Forall (fun x => x < 2 ^ 64) (sha5_words s) /\
  forall t, (t < n)%nat -> be_number 8 (nth t (sha5_words s) 0) (firstn 8 (skipn (8 * t) s)).
Proof.
  induction n as [|n IH]; intros s Hs.
  - destruct s; [|discriminate Hs]. cbn [sha5_words]. split; [reflexivity|]. split; [constructor|]. intros t Ht. lia.
  - destruct s as [|b0 [|b1 [|b2 [|b3 [|b4 [|b5 [|b6 [|b7 r]]]]]]]]; cbn [length] in Hs; try lia.
    destruct (IH r ltac:(lia)) as (Hl & Hf & Hn). cbn [sha5_words]. split; [cbn [length]; lia|].
    split; [constructor; [apply be8 | exact Hf]|]. intros t Ht. destruct t as [|t]; [exact (be_number_value [b0; b1; b2; b3; b4; b5; b6; b7])|].
    replace (8 * S t)%nat with (S (S (S (S (S (S (S (S (8 * t)))))))))%nat by lia. cbn [skipn nth]. apply Hn. lia.
Qed.
Lemma schedule_word block : length block = 128%nat -> schedule5 block (word (sha5_words block)).
Proof.
  intros Hb. destruct (sha_words_spec 16 block Hb) as (Hl & Hf & Hn). split.
  - intros t Ht. rewrite word_first by assumption. apply Hn, Ht.
  - intros t Ht. apply word_next; [assumption | assumption | lia].
Qed.
Lemma schedule_fun block w w' : schedule5 block w -> schedule5 block w' -> forall t, (t < 80)%nat -> w t = w' t.
Proof.
  intros [H1 H2] [H1' H2'] t. induction t as [t IH] using lt_wf_ind. intros Ht.
  destruct (Nat.lt_ge_cases t 16) as [Hlt|Hge]; [eapply be_number_fun; [apply H1 | apply H1']; exact Hlt|].
  rewrite H2, H2' by lia. rewrite !IH by lia. reflexivity.
Qed.

Fixpoint run_of (m : list N) (s : sha5_state) (t : nat) : sha5_state :=
  match t with O => s | S t' => sha5_round (nth t' sha5_k 0) (word m t') (run_of m s t') end.
Lemma run_small m s t : small s -> small (run_of m s t).
Proof. intros H. induction t as [|t IH]; [exact H | cbn [run_of]; apply small_round, IH]. Qed.
Lemma sha_rounds_run m s ks' : forall ks, sha5_k = ks ++ ks' ->
  sha5_rounds ks' (window m (length ks)) (run_of m s (length ks)) = run_of m s 80.
Proof.
  induction ks' as [|k ks' IH]; intros ks E.
  - cbn [sha5_rounds]. rewrite app_nil_r in E. rewrite <- E, sha_k_length. reflexivity.
  - specialize (IH (ks ++ [k])). rewrite app_length, <- app_assoc in IH. cbn [length app] in IH. rewrite Nat.add_1_r in IH. specialize (IH E).
    assert (nth (length ks) sha5_k 0 = k) as Ek by (rewrite E, app_nth2, Nat.sub_diag by lia; reflexivity).
    cbn [window run_of] in IH. rewrite Ek in IH. cbn [sha5_rounds]. exact IH.
Qed.

Lemma compress_spec block s : length block = 128%nat -> small s -> compressed5 block (sha_list s) (sha_list (sha5_compress s block)).
Proof.
  intros Hb Hs. exists (word (sha5_words block)), (fun t => sha_list (run_of (sha5_words block) s t)).
  split; [apply schedule_word, Hb|]. split; [reflexivity|]. split.
  - intros t Ht. exists (nth t sha5_k 0). split; [apply round_constant_nth, Ht|]. cbn [run_of]. apply sha_round_spec, run_small, Hs.
  - split; [|reflexivity]. unfold sha5_compress. rewrite (sha_rounds_run (sha5_words block) s sha5_k [] eq_refl : sha5_rounds sha5_k (sha5_words block) s = _).
    generalize (run_of (sha5_words block) s 80). intros r. unfold sha_list, sha5_sum. cbn [sha5_a sha5_b sha5_c sha5_d sha5_e sha5_f sha5_g sha5_h combine].
    rewrite !add32_mod. repeat constructor.
Qed.
Lemma forall2_pairs_fun (s' s'' : list N) l : length s' = length s'' ->
  Forall2 (fun x '(u, v) => x = (u + v) mod 2 ^ 64) s' l -> Forall2 (fun x '(u, v) => x = (u + v) mod 2 ^ 64) s'' l -> s' = s''.
Proof.
  intros _ H. revert s''. induction H as [|x [u v] s' l Hx H IH]; intros s'' H''; inversion H''; subst; [reflexivity|]. f_equal. apply IH. assumption.
Qed.
Lemma compressed_fun block s s' s'' : compressed5 block s s' -> compressed5 block s s'' -> s' = s''.
Proof.
  intros (w & run & Hw & H0 & Hr & HF & Hl) (w' & run' & Hw' & H0' & Hr' & HF' & Hl').
  assert (forall t, (t <= 80)%nat -> run t = run' t) as HE.
  { induction t as [|t IH]; intros Ht; [congruence|]. destruct (Hr t Ht) as (k & Hk & HR). destruct (Hr' t Ht) as (k' & Hk' & HR').
    assert (k' = k) as -> by (eapply round_constant_unique; eassumption). rewrite <- IH in HR' by lia. rewrite (schedule_fun _ _ _ Hw Hw' t Ht) in HR.
    eapply round_fun; eassumption. }
  rewrite <- (HE 80%nat) in HF' by lia. eapply forall2_pairs_fun; [congruence | exact HF | exact HF'].
Qed.

Lemma blocks_spec blocks : Forall (fun b => length b = 128%nat) blocks -> forall s, small s ->
  compressed_all5 blocks (sha_list s) (sha_list (sha5_blocks (length blocks) (concat blocks) s)) /\ small (sha5_blocks (length blocks) (concat blocks) s).
Proof.
  induction 1 as [|b bs Hb _ IH]; intros s Hs; cbn [length concat sha5_blocks]; [split; [constructor | exact Hs]|].
  rewrite firstn_app, skipn_app, Hb, Nat.sub_diag, firstn_all2, skipn_all2 by lia. cbn [firstn skipn app]. rewrite app_nil_r.
  destruct (IH (sha5_compress s b) (small_sum _ _)) as [HA HB]. split; [|exact HB]. econstructor; [exact Hb | apply compress_spec; assumption | exact HA].
Qed.
Lemma compressed_all_fun blocks : forall s s' s'', compressed_all5 blocks s s' -> compressed_all5 blocks s s'' -> s' = s''.
Proof.
  induction blocks as [|b bs IH]; intros s s' s'' H H'; inversion H; subst; inversion H'; subst; [reflexivity|].
  eapply IH; [eassumption|]. match goal with A : compressed5 b s ?x, B : compressed5 b s ?y |- _ => rewrite (compressed_fun _ _ _ _ A B) end. assumption.
Qed.
Lemma compressed_all_lengths blocks s s' : compressed_all5 blocks s s' -> Forall (fun b => length b = 128%nat) blocks.
Proof. induction 1; constructor; assumption. Qed.

(* ---------------------------------------------------------------- padding *)

Lemma padded_iff m p : padded5 m p <-> p = sha5_pad m.
Proof.
  unfold sha5_pad. assert (forall n, be_number 16 (n mod 2 ^ 128) (be_bytes 16 n)) as HB.
  { intros n. apply be_number_iff. split; [symmetry; apply (be_bytes_mod 16)|]. apply N.mod_lt. discriminate. }
  pose proof (Nat.div_mod (length m) 128 ltac:(discriminate)) as Hdm. pose proof (Nat.mod_upper_bound (length m) 128 ltac:(discriminate)) as Hr.
  assert ((239 - length m mod 128) mod 128 = if (length m mod 128 <? 112)%nat then 111 - length m mod 128 else 239 - length m mod 128)%nat as Hz.
  { destruct (Nat.ltb_spec (length m mod 128) 112).
    - replace (239 - length m mod 128)%nat with (111 - length m mod 128 + 1 * 128)%nat by lia. rewrite Nat.mod_add by discriminate. apply Nat.mod_small. lia.
    - apply Nat.mod_small. lia. }
  split.
  - intros (z & l & -> & Hf & Hl & (n & Hn) & HN). do 2 f_equal. apply be_number_iff in HN as [HN _]. pose proof (be_length 16 ((8 * N.of_nat (length m)) mod 2 ^ 128)) as Hlen.
    rewrite <- HN in Hlen. rewrite (be_bytes_mod 16 (8 * N.of_nat (length m)) : be_bytes 16 ((8 * N.of_nat (length m)) mod 2 ^ 128) = _) in HN.
    rewrite HN. f_equal. rewrite (zeros_repeat z Hf). f_equal. rewrite Hz.
    rewrite !app_length in Hn. cbn [length] in Hn. rewrite Hlen in Hn. destruct (Nat.ltb_spec (length m mod 128) 112); lia.
  - intros ->. do 2 eexists. split; [reflexivity|]. split; [|split; [|split; [|apply HB]]].
    + apply Forall_forall. intros x Hx. symmetry. eapply repeat_spec. exact Hx.
    + rewrite repeat_length. apply Nat.mod_upper_bound. discriminate.
    + rewrite !app_length, repeat_length, be_length, Hz. cbn [length].
      destruct (Nat.ltb_spec (length m mod 128) 112); [exists (length m / 128 + 1)%nat | exists (length m / 128 + 2)%nat]; lia.
Qed.

(** A multiple of 128 bytes is a list of blocks. *)
Lemma cut_blocks n : forall p : bytes, length p = (128 * n)%nat ->
  exists blocks, concat blocks = p /\ length blocks = n /\ Forall (fun b => length b = 128%nat) blocks.
Proof.
  induction n as [|n IH]; intros p Hp.
  - exists []. destruct p; [|cbn in Hp; lia]. repeat split. constructor.
  - destruct (IH (skipn 128 p)) as (bs & Hc & Hl & Hf); [rewrite skipn_length; lia|]. exists (firstn 128 p :: bs).
    cbn [concat length]. rewrite Hc, firstn_skipn. split; [reflexivity|]. split; [lia|]. constructor; [rewrite firstn_length; lia | exact Hf].
Qed.
Lemma concat_length blocks : Forall (fun b : bytes => length b = 128%nat) blocks -> length (concat blocks) = (128 * length blocks)%nat.
Proof. induction 1 as [|b bs Hb _ IH]; [reflexivity|]. cbn [concat length]. rewrite app_length, IH, Hb. lia. Qed.

Lemma small_init : small sha5_init.
Proof. repeat constructor. Qed.
Lemma words_of l d : Forall (fun x => x < 2 ^ 64) l ->
  ((exists words, Forall2 (be_number 8) l words /\ d = concat words) <-> d = flat_map (be_bytes 8) l).
Proof.
  intros Hs. split.
  - intros (ws & HF & ->). clear Hs. induction HF as [|x w l ws Hx _ IH]; [reflexivity|]. cbn [concat flat_map]. rewrite IH. f_equal.
    apply be_number_iff in Hx as [-> _]. reflexivity.
  - intros ->. exists (map (be_bytes 8) l). split; [|apply flat_map_concat_map]. induction Hs as [|x l Hx _ IH]; [constructor|].
    cbn [map]. constructor; [|exact IH]. apply be_number_iff. split; [reflexivity | exact Hx].
Qed.

Lemma sha512_iff m d : sha512_of m d <-> d = sha512 m.
Proof.
  unfold sha512_of, sha512. split.
  - intros (blocks & h0 & h & words & Hp & Hi & Hc & Hw & Hd). apply padded_iff in Hp. apply initial_value_iff in Hi. subst h0.
    pose proof (compressed_all_lengths _ _ _ Hc) as Hl. destruct (blocks_spec blocks Hl sha5_init small_init) as [Hc' Hs].
    rewrite <- Hp, (concat_length blocks Hl), Nat.mul_comm, Nat.div_mul by discriminate.
    rewrite (compressed_all_fun _ _ _ _ Hc Hc') in Hw. apply (proj1 (words_of _ d Hs)). exists words. split; assumption.
  - intros Hd. assert (padded5 m (sha5_pad m)) as Hp by (apply padded_iff; reflexivity). pose proof Hp as (z & l & _ & _ & _ & (n & Hn) & _).
    destruct (cut_blocks n (sha5_pad m) Hn) as (blocks & Hb & Hlen & Hl). destruct (blocks_spec blocks Hl sha5_init small_init) as [Hc Hs].
    rewrite Hn, Nat.mul_comm, Nat.div_mul, <- Hlen, <- Hb in Hd by discriminate.
    destruct (proj2 (words_of _ d Hs) Hd) as (words & HF & Hd').
    exists blocks, (sha_list sha5_init), (sha_list (sha5_blocks (length blocks) (concat blocks) sha5_init)), words.
    rewrite Hb. split; [exact Hp|]. split; [apply initial_value_iff; reflexivity|]. rewrite <- Hb. split; [exact Hc|]. split; [exact HF | exact Hd'].
Qed.
Lemma sha512_length m : length (sha512 m) = 64%nat.
Proof. unfold sha512. cbn [flat_map]. rewrite !app_length, !be_length. reflexivity. Qed.
