From Coq Require Import Floats.SpecFloat.
From Verif Require Import Prelude Ord Base58 Value Ext Json Double Spec SpecWire SpecDouble OrdFacts Base58Facts WireFacts JsonFacts JsonGrammarFacts DoubleFacts.
Local Open Scope Z_scope.

(* -------------------------------------------------- equal fractions round equally *)

Lemma away_scale c n d f : 0 < c -> away (n * c) (d * c) f = c * away n d f.
Proof.
  intros Hc. unfold away. replace (n * c * 2 ^ 1074 - d * c * scaled f) with (c * (n * 2 ^ 1074 - d * scaled f)) by ring.
  rewrite Z.abs_mul, (Z.abs_eq c) by lia. reflexivity.
Qed.

Lemma nearest_scale c n d f : 0 < c -> (nearest (n * c) (d * c) f <-> nearest n d f).
Proof.
  intros Hc. unfold nearest.
  assert (Z.abs (n * c) < d * c * ((2 ^ 54 - 1) * 2 ^ 970) <-> Z.abs n < d * ((2 ^ 54 - 1) * 2 ^ 970)) as ->.
  { rewrite Z.abs_mul, (Z.abs_eq c) by lia. generalize ((2 ^ 54 - 1) * 2 ^ 970). intros l. replace (d * c * l) with (d * l * c) by ring. split; intros H; nia. }
  assert ((forall g, finite_float g -> away (n * c) (d * c) f <= away (n * c) (d * c) g) <-> (forall g, finite_float g -> away n d f <= away n d g)) as ->.
  { split; intros H g Hg; specialize (H g Hg); rewrite !away_scale in * by exact Hc; nia. }
  assert ((forall g, finite_float g -> scaled g <> scaled f -> away (n * c) (d * c) g = away (n * c) (d * c) f -> Z.even (significand f) = true) <->
    (forall g, finite_float g -> scaled g <> scaled f -> away n d g = away n d f -> Z.even (significand f) = true)) as ->.
  { split; intros H g Hg Hs E; apply (H g Hg Hs); rewrite !away_scale in * by exact Hc; nia. }
  reflexivity.
Qed.

Lemma option_eq {T} (a b : option T) : (forall x, a = Some x <-> b = Some x) -> a = b.
Proof. intros H. destruct a as [x|]; [symmetry; apply H; reflexivity|]. destruct b as [y|]; [apply H; reflexivity | reflexivity]. Qed.

Lemma round_ratio_scale neg c n d : 0 < c -> 0 <= n -> 0 < d -> round_ratio neg (n * c) (d * c) = round_ratio neg n d.
Proof.
  intros Hc Hn Hd. apply option_eq. intros f. rewrite !round_iff by (try apply Z.mul_nonneg_nonneg; try apply Z.mul_pos_pos; lia).
  replace (signed neg (n * c)) with (signed neg n * c) by (unfold signed; destruct neg; ring). rewrite nearest_scale by exact Hc. reflexivity.
Qed.

Lemma ten_pos i : 0 <= i -> 0 < 10 ^ i.
Proof. intros H. apply Z.pow_pos_nonneg; lia. Qed.

(** [m * 10^i] with exponent [k] is [m] with exponent [k + i]. *)
Lemma round_decimal_shift neg m i k : 0 <= m -> 0 <= i -> round_decimal neg (m * 10 ^ i) k = round_decimal neg m (k + i).
Proof.
  intros Hm Hi. unfold round_decimal.
  set (t := 10 ^ (Z.max 0 (- k) - Z.max 0 (- (k + i)))).
  assert (0 < t) as Ht by (apply ten_pos; lia).
  assert (10 ^ Z.max 0 (- k) = 10 ^ Z.max 0 (- (k + i)) * t) as ->.
  { unfold t. rewrite <- Z.pow_add_r by lia. f_equal. lia. }
  assert (m * 10 ^ i * 10 ^ Z.max 0 k = m * 10 ^ Z.max 0 (k + i) * t) as ->.
  { unfold t. rewrite <- !Z.mul_assoc, <- !Z.pow_add_r by lia. f_equal. f_equal. lia. }
  apply round_ratio_scale; [exact Ht | apply Z.mul_nonneg_nonneg; [exact Hm | apply Z.pow_nonneg; lia] | apply ten_pos; lia].
Qed.

(* ------------------------------------------------------------------- spacing *)

(** Doubles are at least one part in 2^53 apart. *)
Lemma spacing f g : finite_float f -> finite_float g -> magnitude f <> magnitude g -> magnitude f <= Z.abs (magnitude f - magnitude g) * 2 ^ 53.
Proof.
  intros Hf Hg Hne. destruct f as [z| | |z p e]; cbn [finite_float] in Hf; try contradiction; [cbn [magnitude]; lia|].
  set (f := S754_finite z p e) in *. assert (finite_float f) as Hf' by exact Hf. apply bounded_shaped in Hf as (Hp & He & Hn).
  pose proof (pow_pos (e + 1074) ltac:(lia)) as H2. assert (magnitude f = Zpos p * 2 ^ (e + 1074)) as Ef by reflexivity.
  assert (forall s, 0 <= s -> 2 ^ s * 2 ^ 53 >= magnitude f -> (exists i, magnitude f = i * 2 ^ s) -> (exists j, magnitude g = j * 2 ^ s) -> magnitude f <= Z.abs (magnitude f - magnitude g) * 2 ^ 53) as Hgrid.
  { intros s Hs Hb (i & Ei) (j & Ej). pose proof (pow_pos s Hs) as Hps. assert (i <> j) as Hij by (intros ->; apply Hne; rewrite Ei, Ej; reflexivity).
    assert (2 ^ s <= Z.abs (magnitude f - magnitude g)) as H.
    { rewrite Ei, Ej, <- Z.mul_sub_distr_r, Z.abs_mul, (Z.abs_eq (2 ^ s)) by lia. nia. }
    assert (2 ^ s * 2 ^ 53 <= Z.abs (magnitude f - magnitude g) * 2 ^ 53) by (apply Z.mul_le_mono_nonneg_r; lia). lia. }
  destruct (magnitude_grid g (e + 1074) Hg ltac:(lia)) as [(j & Hj & Ej) | [Hs Hlt]].
  - apply (Hgrid (e + 1074)); [lia | | eauto | eauto]. rewrite Ef, Z.mul_comm. apply Z.le_ge, Z.mul_le_mono_nonneg_r; lia.
  - destruct Hn as [-> | Hn]; [lia|].
    destruct (Z.eq_dec (Zpos p) (2 ^ 52)) as [E52 | E52].
    + destruct (magnitude_grid g (e + 1073) Hg ltac:(lia)) as [(j & Hj & Ej) | [Hs' Hlt']].
      * assert (2 ^ (e + 1074) = 2 * 2 ^ (e + 1073)) as Epw by (replace (e + 1074) with (1 + (e + 1073)) by lia; rewrite Z.pow_add_r by lia; reflexivity).
        apply (Hgrid (e + 1073)); [lia | | exists (2 * Zpos p); rewrite Ef, Epw; ring | eauto].
        rewrite Ef, Epw, E52. change (2 ^ 53) with (2 ^ 52 * 2). set (w := 2 ^ (e + 1073)). lia.
      * assert (2 ^ (e + 1074) = 2 * 2 ^ (e + 1073)) as Epw by (replace (e + 1074) with (1 + (e + 1073)) by lia; rewrite Z.pow_add_r by lia; reflexivity).
        rewrite Ef, Epw, E52. pose proof (pow_pos (e + 1073) ltac:(lia)) as Hw. revert Hlt' Hw. generalize (2 ^ (e + 1073)) (magnitude g). intros w y Hlt' Hw. lia.
    + rewrite Ef in *. revert Hlt H2. generalize (2 ^ (e + 1074)) (magnitude g). intros w y Hlt H2.
      assert ((2 ^ 52 + 1) * w <= Zpos p * w) by (apply Z.mul_le_mono_nonneg_r; lia).
      assert (Zpos p * w <= 2 ^ 53 * w) by (apply Z.mul_le_mono_nonneg_r; lia). lia.
Qed.

(** A number within one part in 2^54 of a double reads as it. *)
Lemma close_reads neg n d f : 0 <= n -> 0 < d -> finite_float f -> negative f = neg ->
  Z.abs (n * 2 ^ unit_exp - d * magnitude f) * 2 ^ 54 < d * magnitude f -> round_ratio neg n d = Some f.
Proof.
  intros Hn Hd Hf Hs Hc. pose proof U_pos as HU. pose proof (magnitude_nonneg f Hf) as HF. apply round_iff; [exact Hn | exact Hd|]. split; [|exact Hs].
  assert (Z.abs (signed neg n) = n) as Ea by (unfold signed; destruct neg; lia).
  split; [exact Hf|]. split.
  { rewrite Ea. apply limit_scaled. 
    assert (magnitude f <= (2 ^ 54 - 2) * 2 ^ 2044) as Hmax.
    { destruct f as [z| | |z p e]; cbn [finite_float magnitude] in *; try contradiction; [apply Z.mul_nonneg_nonneg; [discriminate | apply Z.pow_nonneg; lia]|].
      apply bounded_shaped in Hf as (Hp & He & _). replace ((2 ^ 54 - 2) * 2 ^ 2044) with ((2 ^ 53 - 1) * (2 ^ 1 * 2 ^ 2044)) by (change (2 ^ 54 - 2) with ((2 ^ 53 - 1) * 2 ^ 1); ring).
      rewrite <- Z.pow_add_r by lia. change (1 + 2044) with 2045. apply Z.mul_le_mono_nonneg; [lia | lia | apply Z.pow_nonneg; lia | apply Z.pow_le_mono_r; lia]. }
    pose proof (pow_pos 2044 ltac:(lia)) as HP. clear - Hd Hc HF Hmax HP. revert Hc HF Hmax HP. generalize (2 ^ 2044) (magnitude f) (n * 2 ^ unit_exp). intros P F N Hc HF Hmax HP.
    assert (d * F <= d * ((2 ^ 54 - 2) * P)) as H1 by (apply Z.mul_le_mono_nonneg_l; lia).
    replace (d * ((2 ^ 54 - 2) * P)) with ((2 ^ 54 - 2) * (d * P)) in H1 by ring. replace (d * ((2 ^ 54 - 1) * P)) with ((2 ^ 54 - 1) * (d * P)) by ring.
    assert (0 < d * P) as H2 by (apply Z.mul_pos_pos; assumption). revert Hc H1 H2. generalize (d * F) (d * P). intros x y Hc H1 H2. lia. }
  assert (forall g, finite_float g -> scaled g <> scaled f -> away (signed neg n) d f < away (signed neg n) d g) as Hlt.
  { intros g Hg Hne. subst neg. rewrite away_same.
    destruct (Z.eq_dec (magnitude g) (magnitude f)) as [Em | Em].
    - assert (negative g <> negative f) as Hsg by (intros Es; apply Hne; rewrite !scaled_magnitude, Es, Em; reflexivity).
      assert (0 <= n * 2 ^ unit_exp) as HN by (apply Z.mul_nonneg_nonneg; lia). assert (0 <= d * magnitude f) as HdF by (apply Z.mul_nonneg_nonneg; lia).
      assert (away (signed (negative f) n) d g = n * 2 ^ unit_exp + d * magnitude f) as Eg.
      { unfold away. change 1074 with unit_exp. rewrite scaled_magnitude, Em. unfold signed. clear - Hsg HN HdF.
        destruct (negative f), (negative g); try congruence; rewrite ?Z.mul_opp_l, ?Z.mul_opp_r; lia. }
      rewrite Eg. clear - Hc HN HdF. lia.
    - pose proof (away_magnitude (negative f) n d g Hn Hd Hg) as Hag. eapply Z.lt_le_trans; [|exact Hag]. clear Hag.
      pose proof (spacing f g Hf Hg (not_eq_sym Em)) as Hsp.
      assert (d * magnitude f <= Z.abs (d * magnitude f - d * magnitude g) * 2 ^ 53) as H1.
      { rewrite <- Z.mul_sub_distr_l, Z.abs_mul, (Z.abs_eq d), <- Z.mul_assoc by lia. apply Z.mul_le_mono_nonneg_l; lia. }
      clear - Hc H1. revert Hc H1. generalize (d * magnitude f) (d * magnitude g) (n * 2 ^ unit_exp). intros x y N Hc H1. lia. }
  split.
  - intros g Hg. destruct (Z.eq_dec (scaled g) (scaled f)) as [E | E]; [unfold away; rewrite E; apply Z.le_refl | apply Z.lt_le_incl, Hlt; assumption].
  - intros g Hg Hne E. specialize (Hlt g Hg Hne). lia.
Qed.

(* --------------------------------------------------------------------- decades *)

Lemma bisect_spec n d fuel : forall lo hi, hi - lo = 2 ^ Z.of_nat fuel -> below n d lo = false -> below n d hi = true ->
  lo < bisect fuel n d lo hi <= hi /\ below n d (bisect fuel n d lo hi - 1) = false /\ below n d (bisect fuel n d lo hi) = true.
Proof.
  induction fuel as [|fuel IH]; intros lo hi Hw Hlo Hhi; cbn [bisect].
  - change (2 ^ Z.of_nat 0) with 1 in Hw. replace (hi - 1) with lo by lia. split; [lia | auto].
  - rewrite Nat2Z.inj_succ, Z.pow_succ_r in Hw by lia. pose proof (pow_pos (Z.of_nat fuel) ltac:(lia)) as Hp. assert ((lo + hi) / 2 = lo + 2 ^ Z.of_nat fuel) as ->.
    { replace (lo + hi) with ((lo + 2 ^ Z.of_nat fuel) * 2) by lia. apply Z.div_mul. lia. }
    destruct (below n d (lo + 2 ^ Z.of_nat fuel)) eqn:E.
    + destruct (IH lo (lo + 2 ^ Z.of_nat fuel) ltac:(lia) Hlo E) as [H1 H2]. split; [lia | exact H2].
    + destruct (IH (lo + 2 ^ Z.of_nat fuel) hi ltac:(lia) E Hhi) as [H1 H2]. split; [lia | exact H2].
Qed.

(** Powers of ten can be moved from side to side. *)
Lemma ten_le_up x y i j t : 0 <= i -> 0 <= j -> 0 <= t -> (x * 10 ^ i <= y * 10 ^ j <-> x * 10 ^ (i + t) <= y * 10 ^ (j + t)).
Proof.
  intros Hi Hj Ht. rewrite !Z.pow_add_r by lia. rewrite !Z.mul_assoc. pose proof (ten_pos t Ht) as HT.
  split; intros H; [apply Z.mul_le_mono_nonneg_r; lia | apply (Zmult_le_reg_r _ _ (10 ^ t)); lia].
Qed.
Lemma ten_le_shift x y i j i' j' : 0 <= i -> 0 <= j -> 0 <= i' -> 0 <= j' -> i - j = i' - j' -> (x * 10 ^ i <= y * 10 ^ j <-> x * 10 ^ i' <= y * 10 ^ j').
Proof.
  intros Hi Hj Hi' Hj' E. destruct (Z.le_ge_cases i i') as [L|L].
  - rewrite (ten_le_up x y i j (i' - i)) by lia. replace (i + (i' - i)) with i' by lia. replace (j + (i' - i)) with j' by lia. reflexivity.
  - rewrite (ten_le_up x y i' j' (i - i')) by lia. replace (i' + (i - i')) with i by lia. replace (j' + (i - i')) with j by lia. reflexivity.
Qed.

Definition num (p : positive) (e : Z) : Z := Zpos p * 2 ^ Z.max 0 e.
Definition den (e : Z) : Z := 2 ^ Z.max 0 (- e).

Lemma num_pos p e : 0 < num p e.
Proof. unfold num. apply Z.mul_pos_pos; [lia | apply pow_pos; lia]. Qed.
Lemma den_pos e : 0 < den e.
Proof. unfold den. apply pow_pos. lia. Qed.

Lemma decade_spec p e : shaped (Zpos p) e -> let E := decade (num p e) (den e) in
  -400 < E /\ (forall k, den e * 10 ^ Z.max 0 k * 10 ^ Z.max 0 (E - 1 - k) <= num p e * 10 ^ Z.max 0 (- k) * 10 ^ Z.max 0 (k - (E - 1))) /\
  (forall k, num p e * 10 ^ Z.max 0 (- k) * 10 ^ Z.max 0 (k - E) < den e * 10 ^ Z.max 0 k * 10 ^ Z.max 0 (E - k)).
Proof.
  intros (Hp & He & _) E. pose proof (num_pos p e) as Hn. pose proof (den_pos e) as Hd.
  assert (below (num p e) (den e) (-400) = false) as Hlo.
  { apply Z.ltb_ge. change (10 ^ Z.max 0 (-400)) with 1. change (Z.max 0 (- -400)) with 400. rewrite Z.mul_1_r. apply Z.le_trans with (2 ^ 1074); [apply Z.pow_le_mono_r; lia|].
    apply Z.le_trans with (1 * 10 ^ 400); [vm_compute; discriminate | apply Z.mul_le_mono_nonneg_r; [apply Z.pow_nonneg|]; lia]. }
  assert (below (num p e) (den e) 624 = true) as Hhi.
  { apply Z.ltb_lt. change (10 ^ Z.max 0 (- 624)) with 1. change (Z.max 0 624) with 624. rewrite Z.mul_1_r. apply Z.lt_le_trans with (1 * 10 ^ 624); [|apply Z.mul_le_mono_nonneg_r; [apply Z.pow_nonneg; lia | lia]].
    apply Z.le_lt_trans with (2 ^ 1024); [|vm_compute; reflexivity].
    unfold num. change 1024 with (53 + 971). rewrite Z.pow_add_r by lia. apply Z.mul_le_mono_nonneg; [lia | lia | apply Z.pow_nonneg; lia | apply Z.pow_le_mono_r; lia]. }
  destruct (bisect_spec (num p e) (den e) 10 (-400) 624 eq_refl Hlo Hhi) as (Hr & H1 & H2). change (bisect 10 (num p e) (den e) (-400) 624) with E in Hr, H1, H2. clearbody E. clear Hlo Hhi Hp He Hn Hd.
  unfold below in H1, H2. apply Z.ltb_ge in H1. apply Z.ltb_lt in H2. split; [clear - Hr; lia|]. split; intros k.
  - rewrite <- !Z.mul_assoc, <- !Z.pow_add_r by lia. refine (proj1 (ten_le_shift (den e) (num p e) (Z.max 0 (E - 1)) (Z.max 0 (- (E - 1))) (Z.max 0 k + Z.max 0 (E - 1 - k)) (Z.max 0 (- k) + Z.max 0 (k - (E - 1))) _ _ _ _ _) H1); clear; lia.
  - rewrite <- !Z.mul_assoc, <- !Z.pow_add_r by lia. apply Z.nle_gt. intros H. apply Z.nle_gt in H2. apply H2.
    refine (proj1 (ten_le_shift (den e) (num p e) (Z.max 0 k + Z.max 0 (E - k)) (Z.max 0 (- k) + Z.max 0 (k - E)) (Z.max 0 E) (Z.max 0 (- E)) _ _ _ _ _) H); clear; lia.
Qed.
