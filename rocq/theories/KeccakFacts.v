(** Proofs about SHA-3 and Keccak (C166). *)
From Verif Require Import Prelude Cbor Sha512 Ed25519 Blake3 Blake2b Keccak Spec SpecWire SpecCbor SpecSha SpecSha512 SpecEd SpecBlake2 SpecKeccak OrdFacts Base58Facts CborFacts ShaFacts EdTextFacts Blake3Facts Blake3TreeFacts Sha512Facts Blake2Facts.
Local Open Scope N_scope.

(* ------------------------------------------------------------------ the permutation *)

Definition rep (A : kstate) (a : list N) : Prop :=
  words5_ok 25 a /\ forall x y z, (x < 5)%nat -> (y < 5)%nat -> (z < 64)%nat -> bit (nth (5 * y + x)%nat a 0) z = A x y z.

Lemma nth_tab (f : nat -> N) n i : (i < n)%nat -> nth i (map f (seq 0 n)) 0 = f i.
Proof.
  intros Hi. rewrite (nth_indep _ 0 (f O)) by (rewrite map_length, seq_length; exact Hi). rewrite map_nth, seq_nth by exact Hi. reflexivity.
Qed.
Lemma tab_ok (f : nat -> N) n : (forall i, (i < n)%nat -> f i < 2 ^ 64) -> words5_ok n (map f (seq 0 n)).
Proof.
  intros H. apply nth_list5_ok; [|rewrite map_length; apply seq_length]. apply Forall_forall. intros v Hv. apply in_map_iff in Hv. destruct Hv as (i & <- & Hi).
  apply in_seq in Hi. apply H. lia.
Qed.
Lemma lane_div x y : (x < 5)%nat -> ((5 * y + x) / 5 = y /\ (5 * y + x) mod 5 = x)%nat.
Proof.
  intros Hx. replace (5 * y + x)%nat with (x + y * 5)%nat by lia. rewrite Nat.div_add, Nat.mod_add by discriminate.
  rewrite Nat.div_small, Nat.mod_small by exact Hx. split; reflexivity.
Qed.
Lemma lane_mod x y k : ((5 * y + x + k) mod 5 = (x + k) mod 5)%nat.
Proof. replace (5 * y + x + k)%nat with (x + k + y * 5)%nat by lia. apply Nat.mod_add. discriminate. Qed.
Lemma lxor_bit u v i : bit (N.lxor u v) i = xorb (bit u i) (bit v i).
Proof. apply N.lxor_spec. Qed.

Lemma rotl_bound r x : x < 2 ^ 64 -> (0 < r < 64)%nat -> rotl64 (N.of_nat r) x < 2 ^ 64.
Proof. intros Hx Hr. unfold rotl64. replace (64 - N.of_nat r) with (N.of_nat (64 - r)) by lia. apply rotr_bound; [exact Hx | lia]. Qed.
Lemma rotl_bit r x i : x < 2 ^ 64 -> (0 < r < 64)%nat -> (i < 64)%nat -> bit (rotl64 (N.of_nat r) x) i = bit x ((i + (64 - r)) mod 64).
Proof. intros Hx Hr Hi. unfold rotl64. replace (64 - N.of_nat r) with (N.of_nat (64 - r)) by lia. apply rotr_bit; [exact Hx | lia | exact Hi]. Qed.
Definition turned_lane (off : nat) (v : N) : N := if (off mod 64 =? 0)%nat then v else rotl64 (N.of_nat (off mod 64)) v.
Lemma turned_lane_bound off v : v < 2 ^ 64 -> turned_lane off v < 2 ^ 64.
Proof.
  intros Hv. unfold turned_lane. pose proof (Nat.mod_upper_bound off 64 ltac:(discriminate)). destruct (Nat.eqb_spec (off mod 64) 0); [exact Hv|].
  apply rotl_bound; [exact Hv | lia].
Qed.
Lemma turned_lane_bit off v z : v < 2 ^ 64 -> (off <= 384)%nat -> (z < 64)%nat -> bit (turned_lane off v) z = bit v ((z + 384 - off) mod 64).
Proof.
  intros Hv Ho Hz. unfold turned_lane. pose proof (Nat.mod_upper_bound off 64 ltac:(discriminate)) as Hm.
  pose proof (Nat.div_mod off 64 ltac:(discriminate)) as Hd. set (q := (off / 64)%nat) in *. set (r := (off mod 64)%nat) in *. clearbody q r.
  destruct (Nat.eqb_spec r 0) as [E|E].
  - replace (z + 384 - off)%nat with (z + (6 - q) * 64)%nat by lia. rewrite Nat.mod_add by discriminate. rewrite Nat.mod_small by exact Hz. reflexivity.
  - rewrite rotl_bit by (assumption || lia). replace (z + 384 - off)%nat with (z + (64 - r) + (5 - q) * 64)%nat by lia.
    rewrite Nat.mod_add by discriminate. reflexivity.
Qed.

Definition column (a : list N) (x : nat) : N :=
  N.lxor (nth x a 0) (N.lxor (nth (x + 5)%nat a 0) (N.lxor (nth (x + 10)%nat a 0) (N.lxor (nth (x + 15)%nat a 0) (nth (x + 20)%nat a 0)))).
Lemma column_bound a x : words5_ok 25 a -> column a x < 2 ^ 64.
Proof. intros [_ H]. unfold column. repeat (apply lxor_bound; [apply H|]). apply H. Qed.
Lemma theta_rep A a : rep A a -> rep (theta A) (k_theta a).
Proof.
  intros [Ha R]. set (d := map (fun x => N.lxor (column a ((x + 4) mod 5)%nat) (rotl64 1 (column a ((x + 1) mod 5)%nat))) (seq 0 5)).
  change (k_theta a) with (map (fun i => N.lxor (nth i a 0) (nth (i mod 5)%nat d 0)) (seq 0 25)). assert (words5_ok 5 d) as Hd.
  { apply tab_ok. intros i _. apply lxor_bound; [apply column_bound, Ha | apply (rotl_bound 1); [apply column_bound, Ha | lia]]. }
  assert (forall x z, (x < 5)%nat -> (z < 64)%nat -> bit (column a x) z = xorb (A x 0%nat z) (xorb (A x 1%nat z) (xorb (A x 2%nat z) (xorb (A x 3%nat z) (A x 4%nat z))))) as C.
  { intros x z Hx Hz. unfold column. rewrite !lxor_bit. rewrite <- !R by (assumption || lia).
    replace (x + 5)%nat with (5 * 1 + x)%nat by lia. replace (x + 10)%nat with (5 * 2 + x)%nat by lia.
    replace (x + 15)%nat with (5 * 3 + x)%nat by lia. replace (x + 20)%nat with (5 * 4 + x)%nat by lia. reflexivity. }
  split.
  - apply tab_ok. intros i _. apply lxor_bound; [apply Ha | apply Hd].
  - intros x y z Hx Hy Hz. rewrite nth_tab by lia. rewrite (proj2 (lane_div x y Hx)). unfold d. rewrite nth_tab by exact Hx.
    rewrite !lxor_bit. rewrite (rotl_bit 1) by (try apply column_bound; assumption || lia). change (64 - 1)%nat with 63%nat.
    rewrite R by assumption. rewrite !C by (try apply Nat.mod_upper_bound; assumption || discriminate). reflexivity.
Qed.

Lemma five (P : nat -> Prop) : P 0%nat -> P 1%nat -> P 2%nat -> P 3%nat -> P 4%nat -> forall x, (x < 5)%nat -> P x.
Proof. intros. do 5 (destruct x as [|x]; [assumption|]). lia. Qed.
Lemma rho_pi_lane a x y : length a = 25%nat -> (x < 5)%nat -> (y < 5)%nat ->
  nth (5 * y + x)%nat (k_rho_pi a) 0 = turned_lane (offset ((x + 3 * y) mod 5) x) (nth (5 * x + (x + 3 * y) mod 5)%nat a 0).
Proof.
  intros Hl Hx Hy. do 25 (destruct a as [|? a]; [discriminate Hl|]). destruct a as [|? a]; [|discriminate Hl].
  revert x Hx. apply five; revert y Hy; apply five; lazy -[rotl64]; reflexivity.
Qed.
Lemma rho_pi_length a : length (k_rho_pi a) = length a.
Proof.
  unfold k_rho_pi. generalize (combine k_pi k_rho), (nth 1 a 0). intros l last. revert last a.
  induction l as [|[j r] l IH]; intros last a; [reflexivity|]. cbn [fold_left]. rewrite IH. apply upd_length.
Qed.
Lemma offset_small : forall x, (x < 5)%nat -> forall y, (y < 5)%nat -> (offset x y <= 384)%nat.
Proof. apply (five (fun x => forall y, (y < 5)%nat -> (offset x y <= 384)%nat)); apply five; apply Nat.leb_le; vm_compute; reflexivity. Qed.
Lemma rho_pi_rep A a : rep A a -> rep (pi (rho A)) (k_rho_pi a).
Proof.
  intros [[Hl Hs] R]. split.
  - split; [rewrite rho_pi_length; exact Hl|]. intros i. destruct (Nat.lt_ge_cases i 25) as [Hi|Hi].
    + rewrite (Nat.div_mod i 5) by discriminate. rewrite rho_pi_lane by (exact Hl || (apply Nat.mod_upper_bound; discriminate) || (apply Nat.div_lt_upper_bound; lia)).
      apply turned_lane_bound, Hs.
    + rewrite nth_overflow by (rewrite rho_pi_length; lia). reflexivity.
  - intros x y z Hx Hy Hz. rewrite rho_pi_lane by assumption. assert ((x + 3 * y) mod 5 < 5)%nat as Hm by (apply Nat.mod_upper_bound; discriminate).
    rewrite turned_lane_bit by (try apply offset_small; try apply Hs; assumption). unfold pi, rho. apply R; try assumption. apply Nat.mod_upper_bound. discriminate.
Qed.

Lemma chi_rep A a : rep A a -> rep (chi A) (k_chi a).
Proof.
  intros [Ha R]. split.
  - apply tab_ok. intros i _. apply lxor_bound; [apply Ha | apply ldiff_bound, Ha].
  - intros x y z Hx Hy Hz. unfold k_chi. rewrite nth_tab by lia. rewrite (proj1 (lane_div x y Hx)), !lane_mod. rewrite lxor_bit.
    unfold bit at 2. rewrite N.ldiff_spec. fold (bit (nth (5 * y + (x + 2) mod 5)%nat a 0) z) (bit (nth (5 * y + (x + 1) mod 5)%nat a 0) z).
    rewrite !R by (try apply Nat.mod_upper_bound; assumption || discriminate). unfold chi. rewrite xorb_true_r. f_equal. apply andb_comm.
Qed.

Lemma k_rc_bound r : nth r k_rc 0 < 2 ^ 64.
Proof. do 24 (destruct r as [|r]; [reflexivity|]). destruct r; reflexivity. Qed.
Lemma k_rc_bit r z : (r < 24)%nat -> (z < 64)%nat -> bit (nth r k_rc 0) z = round_bit r z.
Proof.
  intros Hr Hz. assert (forallb (fun r => forallb (fun z => Bool.eqb (bit (nth r k_rc 0) z) (round_bit r z)) (seq 0 64)) (seq 0 24) = true) as H by (vm_compute; reflexivity).
  rewrite forallb_forall in H. specialize (H r). rewrite forallb_forall in H. apply Bool.eqb_prop. apply H; apply in_seq; lia.
Qed.
Lemma iota_rep A a r : (r < 24)%nat -> rep A a -> rep (iota r A) (k_iota (nth r k_rc 0) a).
Proof.
  intros Hr [Ha R]. unfold k_iota. split.
  - apply upd_ok; [exact Ha | lia | apply lxor_bound; [apply Ha | apply k_rc_bound]].
  - intros x y z Hx Hy Hz. rewrite nth_upd by (destruct Ha as [-> _]; lia). unfold iota.
    destruct (Nat.eqb_spec (5 * y + x) 0) as [E|E].
    + assert (x = O) as -> by lia. assert (y = O) as -> by lia. cbn [Nat.eqb andb]. rewrite lxor_bit, k_rc_bit by assumption. f_equal. apply (R 0%nat 0%nat); assumption || lia.
    + rewrite R by assumption. destruct (Nat.eqb_spec x 0); [|reflexivity]. destruct (Nat.eqb_spec y 0); [lia | reflexivity].
Qed.
Lemma k_rc_seq : k_rc = map (fun r => nth r k_rc 0) (seq 0 24).
Proof. reflexivity. Qed.
Lemma f1600_rep A a : rep A a -> rep (keccak_f A) (k_f1600 a).
Proof.
  intros H. unfold k_f1600, keccak_f. rewrite k_rc_seq.
  assert (Forall (fun r => (r < 24)%nat) (seq 0 24)) as F by (apply Forall_forall; intros r Hr; apply in_seq in Hr; lia).
  revert A a H F. induction (seq 0 24) as [|r l IH]; intros A a H F; [exact H|]. rewrite map_cons, !fold_cons. inversion F; subst. apply IH; [|assumption].
  apply iota_rep; [assumption|]. apply chi_rep, rho_pi_rep, theta_rep, H.
Qed.

(* ------------------------------------------------------------------ bits and bytes *)

Lemma byte_bits_cons c m : byte_bits (c :: m) = map (fun i => N.testbit (bN c) (N.of_nat i)) (seq 0 8) ++ byte_bits m.
Proof. reflexivity. Qed.
Lemma byte_bits_app m m' : byte_bits (m ++ m') = byte_bits m ++ byte_bits m'.
Proof. apply flat_map_app. Qed.
Lemma byte_bits_length m : length (byte_bits m) = (8 * length m)%nat.
Proof. induction m as [|c m IH]; [reflexivity|]. rewrite byte_bits_cons, app_length, map_length, seq_length, IH. cbn [length]. lia. Qed.
Lemma nth_bits (f : nat -> bool) n i : (i < n)%nat -> nth i (map f (seq 0 n)) false = f i.
Proof.
  intros Hi. rewrite (nth_indep _ false (f O)) by (rewrite map_length, seq_length; exact Hi). rewrite map_nth, seq_nth by exact Hi. reflexivity.
Qed.

Lemma le_value_cons c m : le_value (c :: m) = bN c + 256 * le_value m.
Proof. unfold le_value. cbn [rev]. rewrite be_value_snoc. lia. Qed.
Lemma byte_bits_value m : forall i, nth i (byte_bits m) false = bit (le_value m) i.
Proof.
  induction m as [|c m IH]; intros i.
  - destruct i; reflexivity.
  - rewrite byte_bits_cons, le_value_cons. pose proof (bN_bound c) as Hc. unfold bit.
    destruct (Nat.lt_ge_cases i 8) as [Hi|Hi].
    + rewrite app_nth1 by (rewrite map_length, seq_length; exact Hi). rewrite nth_bits by exact Hi.
      rewrite <- (N.mod_pow2_bits_low (bN c + 256 * le_value m) 8 (N.of_nat i)) by lia. change (2 ^ 8) with 256.
      replace (bN c + 256 * le_value m) with (bN c + le_value m * 256) by lia. rewrite N.mod_add, N.mod_small by (discriminate || exact Hc). reflexivity.
    + rewrite app_nth2 by (rewrite map_length, seq_length; exact Hi). rewrite map_length, seq_length, IH. unfold bit.
      replace (N.of_nat i) with (N.of_nat (i - 8) + 8) by lia. rewrite <- N.div_pow2_bits. change (2 ^ 8) with 256.
      replace (bN c + 256 * le_value m) with (bN c + le_value m * 256) by lia. rewrite N.div_add, N.div_small by (discriminate || exact Hc). reflexivity.
Qed.
Lemma byte_bits_inj m m' : byte_bits m = byte_bits m' -> m = m'.
Proof.
  intros E. assert (length m = length m') as El by (pose proof (f_equal (@length bool) E) as H; rewrite !byte_bits_length in H; lia).
  assert (le_value m = le_value m') as Ev.
  { apply N.bits_inj. intros n. rewrite <- (N2Nat.id n). change (bit (le_value m) (N.to_nat n) = bit (le_value m') (N.to_nat n)).
    rewrite <- !byte_bits_value, E. reflexivity. }
  pose proof (le_number_value m) as H. pose proof (le_number_value m') as H'. rewrite <- El, <- Ev in H'.
  apply le_number_bytes in H, H'. destruct H as [-> _], H' as [-> _]. reflexivity.
Qed.
Lemma eight_more n (b : bytes) : length b = (8 * S n)%nat ->
  exists b0 b1 b2 b3 b4 b5 b6 b7 r, b = [b0; b1; b2; b3; b4; b5; b6; b7] ++ r /\ length r = (8 * n)%nat.
Proof.
  intros H. do 8 (destruct b as [|? b]; [cbn [length] in H; lia|]). do 9 eexists. split; [reflexivity|]. cbn [length] in H. lia.
Qed.
Lemma word_bits n : forall b i z, length b = (8 * n)%nat -> (z < 64)%nat -> nth (64 * i + z)%nat (byte_bits b) false = bit (nth i (b2_words b) 0) z.
Proof.
  induction n as [|n IH]; intros b i z Hl Hz.
  - destruct b; [|discriminate Hl]. cbn [byte_bits flat_map b2_words]. rewrite !nth_overflow by (cbn [length]; lia). reflexivity.
  - destruct (eight_more n b Hl) as (b0 & b1 & b2 & b3 & b4 & b5 & b6 & b7 & r & -> & Hr). rewrite byte_bits_app.
    change (b2_words ([b0; b1; b2; b3; b4; b5; b6; b7] ++ r)) with (le_value [b0; b1; b2; b3; b4; b5; b6; b7] :: b2_words r).
    destruct i as [|i]; cbn [nth].
    + rewrite app_nth1 by (rewrite byte_bits_length; cbn [length]; lia). apply byte_bits_value.
    + rewrite app_nth2 by (rewrite byte_bits_length; cbn [length]; lia). rewrite byte_bits_length. cbn [length].
      replace (64 * S i + z - 8 * 8)%nat with (64 * i + z)%nat by lia. apply IH; assumption.
Qed.
Lemma words_bound n : forall b, length b = (8 * n)%nat -> Forall (fun x => x < 2 ^ 64) (b2_words b).
Proof.
  induction n as [|n IH]; intros b Hl; [destruct b; [constructor | discriminate Hl]|].
  destruct (eight_more n b Hl) as (b0 & b1 & b2 & b3 & b4 & b5 & b6 & b7 & r & -> & Hr).
  change (b2_words ([b0; b1; b2; b3; b4; b5; b6; b7] ++ r)) with (le_value [b0; b1; b2; b3; b4; b5; b6; b7] :: b2_words r).
  constructor; [|apply IH, Hr]. apply (le_value_bound [b0; b1; b2; b3; b4; b5; b6; b7]).
Qed.
Lemma words_back l : Forall (fun x => x < 2 ^ 64) l -> b2_words (flat_map (le_bytes 8) l) = l /\ length (flat_map (le_bytes 8) l) = (8 * length l)%nat.
Proof.
  induction 1 as [|x l Hx Hf [IH IL]]; [split; reflexivity|]. cbn [flat_map length]. pose proof (le_bytes_length 8 x) as Hl.
  assert (le_value (le_bytes 8 x) = x) as Ev by (apply le_number_iff with (k := 8%nat), le_number_bytes; split; [reflexivity | exact Hx]).
  split; [|rewrite app_length, Hl, IL; lia].
  destruct (eight_more 0 (le_bytes 8 x) Hl) as (b0 & b1 & b2 & b3 & b4 & b5 & b6 & b7 & r & E & Hr). destruct r; [|discriminate Hr]. rewrite app_nil_r in E.
  rewrite E in Ev |- *. change (le_value [b0; b1; b2; b3; b4; b5; b6; b7] :: b2_words (flat_map (le_bytes 8) l) = x :: l). rewrite Ev, IH. reflexivity.
Qed.

(* ------------------------------------------------------------------ the sponge *)

Lemma absorb_rep A a b n : length b = (8 * n)%nat -> rep A a ->
  rep (keccak_f (fun x y z => xorb (A x y z) (nth (64 * (5 * y + x) + z)%nat (byte_bits b) false))) (k_absorb a b).
Proof.
  intros Hl [Ha R]. apply f1600_rep. split.
  - apply tab_ok. intros i _. apply lxor_bound; [apply Ha|]. pose proof (words_bound n b Hl) as Hw.
    apply (nth_list5_ok _ _ Hw eq_refl).
  - intros x y z Hx Hy Hz. rewrite nth_tab by lia. rewrite lxor_bit, R by assumption. f_equal. symmetry. apply word_bits with n; assumption.
Qed.
Lemma blocks_rep rate : forall n p A a, length p = (n * (8 * rate))%nat -> rep A a ->
  exists blocks, byte_bits p = concat blocks /\ Forall (fun b => length b = (64 * rate)%nat) blocks /\ rep (absorbed A blocks) (k_blocks n (8 * rate) p a).
Proof.
  induction n as [|n IH]; intros p A a Hp HA.
  - exists []. destruct p; [|discriminate Hp]. split; [reflexivity|]. split; [constructor | exact HA].
  - assert (length (firstn (8 * rate) p) = (8 * rate)%nat) as Hf by (apply firstn_length_le; lia).
    destruct (IH (skipn (8 * rate) p) _ _ ltac:(rewrite skipn_length; lia) (absorb_rep A a _ rate Hf HA)) as (bs & E & F & R).
    exists (byte_bits (firstn (8 * rate) p) :: bs). cbn [concat absorbed k_blocks]. rewrite <- E, <- byte_bits_app, firstn_skipn. split; [reflexivity|].
    split; [constructor; [rewrite byte_bits_length; lia | exact F] | exact R].
Qed.
Lemma same_concat (r : nat) : forall bs bs' : list (list bool), (0 < r)%nat -> Forall (fun b => length b = r) bs -> Forall (fun b => length b = r) bs' ->
  concat bs = concat bs' -> bs = bs'.
Proof.
  induction bs as [|b bs IH]; intros [|b' bs'] Hr F F' E; [reflexivity | | |]; cbn [concat] in E.
  - inversion F'; subst. apply (f_equal (@length bool)) in E. rewrite app_length in E. cbn [length] in E. lia.
  - inversion F; subst. apply (f_equal (@length bool)) in E. rewrite app_length in E. cbn [length] in E. lia.
  - inversion F; subst. inversion F'; subst. assert (b = b' /\ concat bs = concat bs') as [-> E'].
    { split; [apply (f_equal (firstn (length b))) in E | apply (f_equal (skipn (length b))) in E].
      - rewrite firstn_app, Nat.sub_diag, firstn_all, firstn_O, app_nil_r in E. rewrite firstn_app in E.
        replace (length b) with (length b') in E at 1 2 by congruence. rewrite Nat.sub_diag, firstn_all, firstn_O, app_nil_r in E. exact E.
      - rewrite skipn_app, Nat.sub_diag, skipn_all in E. cbn [skipn app] in E. rewrite skipn_app in E.
        replace (length b) with (length b') in E at 1 2 by congruence. rewrite Nat.sub_diag, skipn_all in E. exact E. }
    f_equal. apply IH; auto.
Qed.
Lemma padded_unique r M P P' : padded_bits r M P -> padded_bits r M P' -> P = P'.
Proof.
  intros (j & k & Hj & -> & L) (j' & k' & Hj' & -> & L'). rewrite !app_length, repeat_length in L, L'. cbn [length] in L, L'.
  assert (j = j') as ->; [|reflexivity].
  assert (k = k') as -> by nia. lia.
Qed.
Lemma zero_bits n : byte_bits (repeat x00 n) = repeat false (8 * n).
Proof.
  induction n as [|n IH]; [reflexivity|]. cbn [repeat]. rewrite byte_bits_cons, IH. replace (8 * S n)%nat with (8 + 8 * n)%nat by lia.
  rewrite repeat_app. reflexivity.
Qed.
Definition suffix_of (ds : N) (s : list bool) : Prop := (ds = 6 /\ s = [false; true]) \/ (ds = 1 /\ s = []).
Lemma pad_length rate ds m : (1 < rate)%nat -> length (k_pad rate ds m) = ((length m / rate + 1) * rate)%nat.
Proof.
  intros Hr. unfold k_pad. cbv zeta. pose proof (Nat.mod_upper_bound (length m) rate ltac:(lia)) as Hm. pose proof (Nat.div_mod (length m) rate ltac:(lia)) as Hd.
  set (q := (length m / rate)%nat) in *. set (t := (length m mod rate)%nat) in *. clearbody q t.
  rewrite app_length. assert (length (if (rate - t =? 1)%nat then [byteN (N.lor ds 128)] else byteN ds :: repeat x00 (rate - t - 2) ++ [x80]) = rate - t)%nat as ->.
  { destruct (Nat.eqb_spec (rate - t) 1); [cbn [length]; lia|]. cbn [length]. rewrite app_length, repeat_length. cbn [length]. lia. }
  nia.
Qed.
Lemma pad_padded rate ds s m : (1 < rate)%nat -> suffix_of ds s -> padded_bits (8 * rate) (byte_bits m ++ s) (byte_bits (k_pad rate ds m)).
Proof.
  intros Hr Hs. pose proof (pad_length rate ds m Hr) as HL. revert HL. unfold k_pad. cbv zeta.
  pose proof (Nat.mod_upper_bound (length m) rate ltac:(lia)) as Hm. set (q := (rate - length m mod rate)%nat).
  assert (0 < q <= rate)%nat as Hq by lia. clearbody q.
  set (t := if (q =? 1)%nat then _ else _). intros HL.
  assert (exists j, (j < 8 * q)%nat /\ byte_bits t = s ++ [true] ++ repeat false j ++ [true]) as (j & Hj & Et).
  { unfold t. destruct (Nat.eqb_spec q 1) as [->|Hq1].
    - destruct Hs as [[-> ->] | [-> ->]]; [exists 4%nat | exists 6%nat]; split; try lia; reflexivity.
    - assert (byte_bits (repeat x00 (q - 2) ++ [x80]) = repeat false (8 * (q - 2) + 7) ++ [true]) as E.
      { rewrite byte_bits_app, zero_bits, repeat_app, <- app_assoc. reflexivity. }
      destruct Hs as [[-> ->] | [-> ->]]; [exists (5 + (8 * (q - 2) + 7))%nat | exists (7 + (8 * (q - 2) + 7))%nat]; (split; [lia|]);
        rewrite byte_bits_cons, E; reflexivity. }
  clearbody t. exists j, (length m / rate + 1)%nat. split; [lia|]. split; [rewrite byte_bits_app, Et, app_assoc; reflexivity|].
  rewrite byte_bits_length, HL. lia.
Qed.
Lemma rep_zero : rep (fun _ _ _ => false) (repeat 0 25).
Proof.
  assert (forall i, nth i (repeat 0 25) 0 = 0) as H by (intros i; do 25 (destruct i as [|i]; [reflexivity|]); destruct i; reflexivity).
  split; [split; [reflexivity|]; intros i; rewrite H; reflexivity|]. intros. rewrite H. reflexivity.
Qed.
Lemma byte_bits_firstn n : forall m, byte_bits (firstn n m) = firstn (8 * n) (byte_bits m).
Proof.
  induction n as [|n IH]; intros m; [reflexivity|]. destruct m as [|c m]; [rewrite firstn_nil; reflexivity|]. cbn [firstn].
  rewrite !byte_bits_cons, IH. replace (8 * S n)%nat with (8 + 8 * n)%nat by lia. reflexivity.
Qed.
Lemma nth_firstn_bits (l : list bool) : forall n i, (i < n)%nat -> nth i (firstn n l) false = nth i l false.
Proof.
  induction l as [|x l IH]; intros n i Hi; [rewrite firstn_nil; reflexivity|]. destruct n as [|n]; [lia|]. destruct i as [|i]; [reflexivity|].
  cbn [firstn nth]. apply IH. lia.
Qed.
Lemma out_bits A a n : (n <= 200)%nat -> rep A a ->
  byte_bits (firstn n (flat_map (le_bytes 8) a)) = map (fun i => A (i / 64 mod 5)%nat (i / 64 / 5)%nat (i mod 64)%nat) (seq 0 (8 * n)).
Proof.
  intros Hn [Ha R]. pose proof (words5_ok_Forall _ _ Ha) as Hf. destruct (words_back a Hf) as [W L]. destruct Ha as [Hl _]. rewrite Hl in L.
  assert (length (firstn (8 * n) (byte_bits (flat_map (le_bytes 8) a))) = 8 * n)%nat as HL by (apply firstn_length_le; rewrite byte_bits_length, L; lia).
  rewrite byte_bits_firstn. apply nth_ext with (d := false) (d' := false); [rewrite map_length, seq_length; exact HL|]. rewrite HL. intros i Hi.
  rewrite nth_bits by exact Hi. rewrite nth_firstn_bits by exact Hi.
  pose proof (Nat.div_mod i 64 ltac:(discriminate)) as Hd. pose proof (Nat.mod_upper_bound i 64 ltac:(discriminate)) as Hm.
  assert (i / 64 < 25)%nat as Hi2 by (apply Nat.div_lt_upper_bound; lia).
  rewrite Hd at 1. rewrite (word_bits 25) by assumption. rewrite W. set (w := (i / 64)%nat) in *. set (z := (i mod 64)%nat) in *. clearbody w z. clear Hd.
  rewrite (Nat.div_mod w 5) at 1 by discriminate. apply R; [apply Nat.mod_upper_bound; discriminate | apply Nat.div_lt_upper_bound; lia | exact Hm].
Qed.
Theorem sponge_iff ds s n m d : suffix_of ds s -> (0 < n <= 96)%nat -> (n mod 4 = 0)%nat ->
  (sponge (1600 - 16 * n) (8 * n) (byte_bits m ++ s) (byte_bits d) <-> d = keccak ds n m).
Proof.
  intros Hs Hn H4. pose proof (Nat.div_mod n 4 ltac:(discriminate)) as Hd. rewrite H4 in Hd. set (k := (n / 4)%nat) in *. clearbody k. clear H4.
  assert (n = 4 * k)%nat as -> by lia. clear Hd. unfold keccak. cbv zeta.
  replace (200 - 2 * (4 * k))%nat with (8 * (25 - k))%nat by lia. replace (1600 - 16 * (4 * k))%nat with (64 * (25 - k))%nat by lia.
  set (rate := (25 - k)%nat). assert (0 < rate)%nat as Hr by lia. clearbody rate. set (p := k_pad (8 * rate) ds m).
  pose proof (pad_padded (8 * rate) ds s m ltac:(lia) Hs) as HP. replace (8 * (8 * rate))%nat with (64 * rate)%nat in HP by lia. fold p in HP.
  pose proof (pad_length (8 * rate) ds m ltac:(lia)) as HL. fold p in HL.
  assert (length p = length p / (8 * rate) * (8 * rate))%nat as HL2 by (rewrite HL, Nat.div_mul by lia; reflexivity).
  destruct (blocks_rep rate _ p _ _ HL2 rep_zero) as (bs & E & F & R).
  pose proof (out_bits _ _ (4 * k) ltac:(lia) R) as HO. split.
  - intros (P & bs' & HP' & E' & F' & Ed). rewrite (padded_unique _ _ _ _ HP' HP), E in E'.
    apply same_concat with (r := (64 * rate)%nat) in E'; [|lia | exact F | exact F']. subst bs'. apply byte_bits_inj. rewrite Ed, HO. reflexivity.
  - intros ->. exists (byte_bits p), bs. split; [exact HP|]. split; [exact E|]. split; [exact F | exact HO].
Qed.
Definition digest_length (n : nat) : Prop := In n [28; 32; 48; 64]%nat.
Lemma digest_lengths n : digest_length n -> (0 < n <= 96)%nat /\ (n mod 4 = 0)%nat.
Proof. intros [<- | [<- | [<- | [<- | []]]]]; split; reflexivity || lia. Qed.
Theorem sha3_iff n m d : digest_length n -> (sha3_of n m d <-> d = sha3 n m).
Proof. intros Hn. destruct (digest_lengths n Hn). apply sponge_iff; try assumption. left. split; reflexivity. Qed.
Theorem keccak_iff n m d : digest_length n -> (keccak_of n m d <-> d = keccak_old n m).
Proof.
  intros Hn. destruct (digest_lengths n Hn). unfold keccak_of. rewrite <- (app_nil_r (byte_bits m)). apply sponge_iff; try assumption. right. split; reflexivity.
Qed.
