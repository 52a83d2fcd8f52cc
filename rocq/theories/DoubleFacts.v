From Coq Require Import Floats.SpecFloat Zpower.
From Verif Require Import Prelude Ord Base58 Value Ext Json Double Spec SpecWire SpecDouble OrdFacts Base58Facts WireFacts JsonFacts JsonGrammarFacts.
Local Open Scope Z_scope.

(* -------------------------------------------------------------- canonical doubles *)

Lemma pow_pos s : 0 <= s -> 0 < 2 ^ s.
Proof. intros H. apply Z.pow_pos_nonneg; lia. Qed.

Lemma digits2_log m : Zpos (digits2_pos m) = Z.log2 (Zpos m) + 1.
Proof.
  induction m as [m IH|m IH|]; cbn [digits2_pos]; [| |reflexivity].
  - rewrite Pos2Z.inj_succ, IH, Pos2Z.inj_xI, Z.log2_succ_double by lia. lia.
  - rewrite Pos2Z.inj_succ, IH, Pos2Z.inj_xO, Z.log2_double by lia. lia.
Qed.

(** Significand below 2^53, at its full length unless the exponent is the smallest. *)
Definition shaped (m e : Z) : Prop := 0 < m < 2 ^ 53 /\ -1074 <= e <= 971 /\ (e = -1074 \/ 2 ^ 52 <= m).

Lemma bounded_shaped p e : bounded 53 1024 p e = true <-> shaped (Zpos p) e.
Proof.
  unfold bounded, canonical_mantissa, fexp, SpecFloat.emin, shaped. rewrite andb_true_iff, Z.leb_le, digits2_log.
  rewrite <- Zeq_is_eq_bool. change (1024 - 53) with 971. change (3 - 1024 - 53) with (-1074).
  pose proof (Z.log2_spec (Zpos p) ltac:(lia)) as [L1 L2]. pose proof (Z.log2_nonneg (Zpos p)) as L0. set (l := Z.log2 (Zpos p)) in *.
  split.
  - intros [H1 H2]. assert (l <= 52) as Hl by lia. assert (2 ^ Z.succ l <= 2 ^ 53) by (apply Z.pow_le_mono_r; lia).
    split; [lia|]. split; [lia|]. destruct (Z.eq_dec e (-1074)) as [E|E]; [left; exact E|]. right. replace l with 52 in L1 by lia. exact L1.
  - intros (H1 & H2 & H3). split; [|lia].
    assert (l < 53) as Hl by (apply (Z.pow_lt_mono_r_iff 2); lia).
    destruct H3 as [-> | H3]; [lia|]. assert (52 < Z.succ l) by (apply (Z.pow_lt_mono_r_iff 2); lia). lia.
Qed.

Lemma shaped_unique m1 e1 m2 e2 : shaped m1 e1 -> shaped m2 e2 -> m1 * 2 ^ (e1 + 1074) = m2 * 2 ^ (e2 + 1074) -> m1 = m2 /\ e1 = e2.
Proof.
  assert (forall a x b y, shaped a x -> shaped b y -> a * 2 ^ (x + 1074) = b * 2 ^ (y + 1074) -> x < y -> False) as H.
  { intros a x b y (Ha & Hx & _) (Hb & Hy & Hb') E Hlt. destruct Hb' as [-> | Hb']; [lia|].
    replace (y + 1074) with ((x + 1074) + (y - x)) in E by lia. rewrite (Z.pow_add_r 2 (x + 1074) (y - x)) in E by lia.
    assert (a = b * 2 ^ (y - x)) as E2.
    { apply (Z.mul_reg_r _ _ (2 ^ (x + 1074))); [pose proof (pow_pos (x + 1074) ltac:(lia)); lia|]. rewrite E. ring. }
    assert (2 <= 2 ^ (y - x)) as H2 by (change 2 with (2 ^ 1) at 1; apply Z.pow_le_mono_r; lia).
    assert (2 ^ 53 = 2 ^ 52 * 2) as H3 by reflexivity. nia. }
  intros H1 H2 E. destruct (Z.lt_trichotomy e1 e2) as [L | [-> | L]].
  - exfalso. exact (H _ _ _ _ H1 H2 E L).
  - split; [|reflexivity]. apply (Z.mul_reg_r _ _ (2 ^ (e2 + 1074))); [|exact E]. pose proof (pow_pos (e2 + 1074)). destruct H1 as (_ & ? & _). lia.
  - exfalso. exact (H _ _ _ _ H2 H1 (eq_sym E) L).
Qed.

(** A double by sign and magnitude. *)
Definition magnitude (f : f64) : Z := match f with S754_finite _ m e => Zpos m * 2 ^ (e + 1074) | _ => 0 end.
Lemma scaled_magnitude f : scaled f = if negative f then - magnitude f else magnitude f.
Proof. destruct f as [[]|[]| |[] m e]; try reflexivity. unfold scaled, magnitude, negative. rewrite <- Z.mul_opp_l. reflexivity. Qed.
Lemma magnitude_nonneg f : finite_float f -> 0 <= magnitude f.
Proof. destruct f; cbn [finite_float magnitude]; lia. Qed.

Lemma double_unique f g : finite_float f -> finite_float g -> negative f = negative g -> magnitude f = magnitude g -> f = g.
Proof.
  assert (forall m e, bounded 53 1024 m e = true -> 0 < Zpos m * 2 ^ (e + 1074)) as Hp.
  { intros m e H. apply bounded_shaped in H as (H & He & _). pose proof (pow_pos (e + 1074)). nia. }
  intros Hf Hg Hs Hm. destruct f as [s| | |s m e]; cbn [finite_float negative magnitude] in *; try contradiction; destruct g as [s'| | |s' m' e']; cbn [finite_float negative magnitude] in *; try contradiction.
  - congruence.
  - specialize (Hp _ _ Hg). lia.
  - specialize (Hp _ _ Hf). lia.
  - apply bounded_shaped in Hf, Hg. destruct (shaped_unique _ _ _ _ Hf Hg Hm) as [E ->]. congruence.
Qed.

(** Any double is a multiple of 2^s or below 2^52 times that. *)
Lemma magnitude_grid f s : finite_float f -> 0 <= s -> (exists j, 0 <= j /\ magnitude f = j * 2 ^ s) \/ (0 < s /\ magnitude f < 2 ^ 52 * 2 ^ s).
Proof.
  intros Hf Hs. destruct f as [z| | |z m e]; cbn [finite_float magnitude] in *; try contradiction; [left; exists 0; lia|].
  apply bounded_shaped in Hf as (Hm & He & _). destruct (Z.le_gt_cases s (e + 1074)) as [L|L].
  - left. exists (Zpos m * 2 ^ (e + 1074 - s)). split; [pose proof (pow_pos (e + 1074 - s)); nia|].
    rewrite <- Z.mul_assoc, <- Z.pow_add_r by lia. f_equal. f_equal. lia.
  - right. split; [lia|]. assert (2 ^ (e + 1074) * 2 <= 2 ^ s) as H.
    { replace (2 ^ (e + 1074) * 2) with (2 ^ (e + 1074 + 1)) by (rewrite Z.pow_add_r by lia; reflexivity). apply Z.pow_le_mono_r; lia. }
    pose proof (pow_pos (e + 1074) ltac:(lia)). assert (2 ^ 53 = 2 ^ 52 * 2) by reflexivity. nia.
Qed.

Lemma nonneg_factor a b : 0 < b -> 0 <= a * b -> 0 <= a.
Proof. intros Hb H. apply (Z.mul_nonneg_cancel_r a b Hb), H. Qed.

(** The significand of a double on the grid. *)
Lemma grid_significand h i s : finite_float h -> 0 <= s -> magnitude h = i * 2 ^ s -> i < 2 ^ 53 -> 0 <= i -> s = 0 \/ 2 ^ 52 <= i -> significand h = i.
Proof.
  intros Hh Hs Ei Hi Hi0 Hi'. pose proof (pow_pos s Hs) as Hp. destruct h as [z| | |z p e]; cbn [finite_float magnitude significand] in *; try contradiction.
  - symmetry in Ei. apply Z.eq_mul_0 in Ei as [Ei | Ei]; lia.
  - apply bounded_shaped in Hh. assert (0 < Zpos p * 2 ^ (e + 1074)) as H0.
    { apply Z.mul_pos_pos; [lia|]. apply pow_pos. destruct Hh as (_ & He' & _). lia. }
    assert (0 < i) as Hi1 by (destruct (Z.eq_dec i 0) as [->|]; [rewrite Z.mul_0_l in Ei|]; lia). clear H0.
    assert (s - 1074 <= 971 \/ 971 < s - 1074) as [L|L] by lia.
    + destruct (shaped_unique (Zpos p) e i (s - 1074) Hh) as [Hx _]; [|replace (s - 1074 + 1074) with s by lia; exact Ei | exact Hx].
      split; [lia|]. split; [lia|]. destruct Hi'; [left; lia | right; assumption].
    + exfalso. destruct Hi' as [Hi'|Hi']; [lia|]. destruct Hh as (Hm & He' & _).
      assert (2 ^ (e + 1074) * 2 <= 2 ^ s) as Hpw.
      { replace (2 ^ (e + 1074) * 2) with (2 ^ (e + 1074 + 1)) by (rewrite Z.pow_add_r by lia; reflexivity). apply Z.pow_le_mono_r; lia. }
      pose proof (pow_pos (e + 1074) ltac:(lia)) as He1. clear He' L Hs.
      assert (Zpos p * 2 ^ (e + 1074) < 2 ^ 53 * 2 ^ (e + 1074)) as H1 by (apply Z.mul_lt_mono_pos_r; lia).
      assert (2 ^ 52 * 2 ^ s <= i * 2 ^ s) as H2 by (apply Z.mul_le_mono_nonneg_r; lia). lia.
Qed.

(* ---------------------------------------------------------- integers and halves *)

Lemma half_even_spec q r d : 0 <= r < d -> let m := half_even q r d in
  (m = q \/ m = q + 1) /\ 2 * Z.abs (q * d + r - m * d) <= d /\
  (2 * Z.abs (q * d + r - m * d) = d -> Z.even m = true).
Proof.
  intros H m. subst m. unfold half_even. destruct (Z.compare_spec (2 * r) d) as [E|E|E].
  - destruct (Z.even q) eqn:Ev; [split; [left; reflexivity|]; split; [nia | intros _; exact Ev]|].
    split; [right; reflexivity|]. split; [nia|]. intros _. replace (q + 1) with (Z.succ q) by lia. rewrite Z.even_succ, <- Z.negb_even, Ev. reflexivity.
  - split; [left; reflexivity|]. split; [nia|]. nia.
  - split; [right; reflexivity|]. split; [nia|]. nia.
Qed.

(** The closest integer is closer than any other. *)
Lemma closest_int N m j D : 0 < D -> 2 * Z.abs (N - m * D) <= D -> Z.abs (N - m * D) <= Z.abs (N - j * D).
Proof.
  intros HD H. destruct (Z.eq_dec j m) as [->|E]; [lia|].
  assert (D <= Z.abs ((m - j) * D)) as Hd by (rewrite Z.abs_mul; nia).
  replace (N - j * D) with ((N - m * D) + (m - j) * D) by ring. lia.
Qed.
Lemma closest_int_tie N m j D : 0 < D -> 2 * Z.abs (N - m * D) <= D -> j <> m -> Z.abs (N - j * D) = Z.abs (N - m * D) ->
  2 * Z.abs (N - m * D) = D /\ (j = m + 1 \/ j = m - 1).
Proof.
  intros HD H E Ht. assert (N - j * D = (N - m * D) + (m - j) * D) as E1 by ring. assert (Z.abs ((m - j) * D) = Z.abs (m - j) * D) as E2 by (rewrite Z.abs_mul; nia).
  assert (Z.abs (m - j) * D <= 2 * Z.abs (N - m * D)) as H1 by lia. assert (Z.abs (m - j) <= 1) by nia. split; nia.
Qed.

(* -------------------------------------------------------------------- rounding *)

Lemma range_arith N D T d q m s : 0 < D -> (m = q \/ m = q + 1) -> 2 * Z.abs (N - m * D) <= D -> (2 * Z.abs (N - m * D) = D -> Z.even m = true) ->
  0 <= q -> q < 2 ^ 53 -> (s = 0 \/ 2 ^ 52 <= q) -> q * D <= N < (q + 1) * D -> 0 < d ->
  (s <= 2044 -> D <= d * T) -> (s = 2045 -> D = 2 ^ 1 * (d * T)) -> (2045 < s -> 4 * (d * T) <= D) ->
  (N < d * ((2 ^ 54 - 1) * T) <-> m = 0 \/ s <= 2044 \/ s = 2045 /\ m < 2 ^ 53).
Proof.
  intros HD Hm1 Hm2 Hm3 Hq0 Hq Hs0 Hqq Hd H1 H2 H3. replace (d * ((2 ^ 54 - 1) * T)) with ((2 ^ 54 - 1) * (d * T)) by ring. revert H1 H2 H3. generalize (d * T). intros P H1 H2 H3.
  destruct (Z.le_gt_cases s 2044) as [L|L].
  - split; [auto|]. intros _. specialize (H1 L). assert ((q + 1) * D <= 2 ^ 53 * D) as H by (apply Z.mul_le_mono_nonneg_r; clear -HD Hq; lia). clear -H H1 Hqq HD. lia.
  - destruct Hs0 as [E | Hs0]; [clear -E L; lia|]. destruct (Z.eq_dec s 2045) as [E|E].
    + specialize (H2 E). change (2 ^ 1) with 2 in H2. clear H1 H3.
      assert (N < (2 ^ 54 - 1) * P <-> m < 2 ^ 53) as ->.
      { destruct (Z.eq_dec q (2 ^ 53 - 1)) as [-> | Eq].
        - destruct Hm1 as [-> | ->].
          + assert (2 * Z.abs (N - (2 ^ 53 - 1) * D) <> D) as Hne by (intros Et; apply Hm3 in Et; discriminate). clear -Hm2 Hne H2 HD. subst D. split; [reflexivity|]. intros _. lia.
          + clear -Hm2 H2 HD. subst D. split; [|intros H; discriminate H]. intros H. exfalso. lia.
        - assert ((q + 1) * D <= (2 ^ 53 - 1) * D) as H by (apply Z.mul_le_mono_nonneg_r; clear -HD Hq Eq; lia). split; intros _; [clear -Hm1 Hq Eq; lia|].
          clear -H Hqq H2 HD. subst D. lia. }
      split; [auto|]. intros [H | [H | [_ H]]]; [rewrite H; reflexivity | clear -H L; lia | exact H].
    + split; [|clear -L E Hm1 Hs0; lia]. intros H. exfalso. assert (4 * P <= D) as HG by (apply H3; clear -L E; lia).
      assert (2 ^ 52 * D <= q * D) as H4 by (apply Z.mul_le_mono_nonneg_r; clear -HD Hs0; lia). clear -HG H4 H Hqq HD. lia.
Qed.

Section Round.
Variables (n d : Z).
Hypotheses (Hn : 0 <= n) (Hd : 0 < d).
Local Notation U := (2 ^ unit_exp).
Local Notation NN := (n * U).
Definition step : Z := Z.max 0 (Z.log2 (NN / d) - 52).
Local Notation DD := (d * 2 ^ step).
Local Notation qq := (NN / DD).
Local Notation mm := (half_even qq (NN mod DD) DD).

Lemma U_pos : 0 < U.
Proof. apply pow_pos. unfold unit_exp. lia. Qed.
Lemma NN_nonneg : 0 <= NN.
Proof. pose proof U_pos. nia. Qed.
Lemma step_nonneg : 0 <= step.
Proof. unfold step. lia. Qed.
Lemma DD_pos : 0 < DD.
Proof. pose proof (pow_pos step step_nonneg). nia. Qed.

Lemma qq_range : 0 <= qq < 2 ^ 53 /\ (step = 0 \/ 2 ^ 52 <= qq).
Proof.
  pose proof NN_nonneg as HN. pose proof (pow_pos step step_nonneg) as Hs. rewrite <- Z.div_div by lia.
  assert (0 <= NN / d) as Ht by (apply Z.div_pos; lia). set (t := NN / d) in *.
  destruct (Z.eq_dec t 0) as [E|E].
  - rewrite E. unfold step. fold t. rewrite E. cbn. split; [split; reflexivity || lia | left; reflexivity].
  - pose proof (Z.log2_spec t ltac:(lia)) as [L1 L2]. assert (step = Z.max 0 (Z.log2 t - 52)) as Es by reflexivity.
    destruct (Z.le_gt_cases (Z.log2 t) 52) as [L|L].
    + assert (step = 0) as -> by lia. change (2 ^ 0) with 1. rewrite Z.div_1_r. split; [|left; reflexivity].
      assert (2 ^ Z.succ (Z.log2 t) <= 2 ^ 53) by (apply Z.pow_le_mono_r; lia). lia.
    + assert (step = Z.log2 t - 52) as E2 by lia. rewrite E2 in *. split; [split|right].
      * apply Z.div_pos; lia.
      * apply Z.div_lt_upper_bound; [lia|]. rewrite <- Z.pow_add_r by lia. replace (Z.log2 t - 52 + 53) with (Z.succ (Z.log2 t)) by lia. exact L2.
      * apply Z.div_le_lower_bound; [lia|]. rewrite <- Z.pow_add_r by lia. replace (Z.log2 t - 52 + 52) with (Z.log2 t) by lia. exact L1.
Qed.

Lemma mm_spec : (mm = qq \/ mm = qq + 1) /\ 2 * Z.abs (NN - mm * DD) <= DD /\ (2 * Z.abs (NN - mm * DD) = DD -> Z.even mm = true).
Proof.
  pose proof DD_pos as HD. pose proof (Z.mod_pos_bound NN DD HD) as Hr. pose proof (half_even_spec qq (NN mod DD) DD Hr) as H. cbv zeta in H.
  pose proof (Z.div_mod NN DD ltac:(lia)) as E. set (r := NN mod DD) in *. set (q := qq) in *.
  replace NN with (q * DD + r) by (rewrite E; ring). exact H.
Qed.

Lemma qq_le : qq * DD <= NN < (qq + 1) * DD.
Proof. pose proof DD_pos as HD. pose proof (Z.mod_pos_bound NN DD HD). pose proof (Z.div_mod NN DD ltac:(lia)). nia. Qed.

(** No double's magnitude is closer than [mm * 2^step], and those as close are multiples of 2^step. *)
Lemma grid_closest f : finite_float f -> Z.abs (NN - mm * DD) <= Z.abs (NN - d * magnitude f) /\
  (magnitude f <> mm * 2 ^ step -> Z.abs (NN - d * magnitude f) = Z.abs (NN - mm * DD) ->
   2 * Z.abs (NN - mm * DD) = DD /\ exists j, magnitude f = j * 2 ^ step /\ (j = mm + 1 \/ j = mm - 1) /\ (j = qq \/ j = qq + 1)).
Proof.
  intros Hf. pose proof DD_pos as HD. destruct mm_spec as (_ & Hm & _). set (m := mm) in *. pose proof (pow_pos step step_nonneg) as Hs.
  destruct (magnitude_grid f step Hf step_nonneg) as [(j & Hj & Ej) | [Hpos Hlt]].
  - replace (d * magnitude f) with (j * DD) by (rewrite Ej; ring). split; [apply closest_int; assumption|]. intros Hne Ht.
    assert (j <> m) as Hjm by (intros ->; apply Hne; exact Ej).
    destruct (closest_int_tie _ _ _ _ HD Hm Hjm Ht) as [H1 H2]. split; [exact H1|]. exists j. split; [exact Ej|]. split; [exact H2|].
    pose proof qq_le as Hqq. destruct mm_spec as ([Em | Em] & _); fold m in Em; destruct H2 as [-> | ->]; rewrite Em in *; [right; reflexivity | exfalso; nia | exfalso; nia | left; lia].
  - destruct qq_range as [_ [E | Hq]]; [lia|]. pose proof qq_le as Hqq.
    assert (Z.abs (NN - m * DD) <= Z.abs (NN - 2 ^ 52 * DD)) as H1 by (apply closest_int; assumption).
    assert (Z.abs (NN - 2 ^ 52 * DD) < Z.abs (NN - d * magnitude f)) as H2.
    { assert (2 ^ 52 * DD <= qq * DD) by nia. assert (d * magnitude f < 2 ^ 52 * DD) by nia. lia. }
    split; [lia|]. intros _ Ht. lia.
Qed.

Local Notation limit := ((2 ^ 54 - 1) * 2 ^ 970).
Lemma limit_scaled : n < d * limit <-> NN < d * ((2 ^ 54 - 1) * 2 ^ 2044).
Proof.
  pose proof U_pos as HU. assert (2 ^ 2044 = 2 ^ 970 * U) as -> by (unfold unit_exp; rewrite <- Z.pow_add_r by lia; reflexivity).
  replace (d * ((2 ^ 54 - 1) * (2 ^ 970 * U))) with (d * limit * U) by ring. generalize (d * limit). intros x. split; intros H; nia.
Qed.

(** Where the result is in range. *)
Lemma in_range : n < d * limit <-> mm = 0 \/ step <= 2044 \/ step = 2045 /\ mm < 2 ^ 53.
Proof.
  rewrite limit_scaled. pose proof DD_pos as HD. destruct mm_spec as (Hm1 & Hm2 & Hm3). destruct qq_range as [[Hq0 Hq] Hs0]. pose proof qq_le as Hqq.
  assert (forall a, 0 <= a -> step = a + 2044 -> DD = 2 ^ a * (d * 2 ^ 2044)) as Hge.
  { intros a Ha E. rewrite E, Z.pow_add_r by (clear -Ha; lia). apply Z.mul_shuffle3. }
  apply (range_arith NN DD (2 ^ 2044) d qq mm step); try assumption.
  - intros L. apply Z.mul_le_mono_nonneg_l; [clear -Hd; lia | apply Z.pow_le_mono_r; [reflexivity | exact L]].
  - intros E. apply (Hge 1); [discriminate | exact E].
  - intros L. rewrite (Hge (step - 2044)) by (clear -L; lia). apply Z.mul_le_mono_nonneg_r.
    + apply Z.mul_nonneg_nonneg; [clear -Hd; lia | apply Z.pow_nonneg; discriminate].
    + change 4 with (2 ^ 2). apply Z.pow_le_mono_r; clear -L; lia.
Qed.

Lemma round_facts neg : match round_ratio neg n d with
  | Some f => n < d * limit /\ finite_float f /\ negative f = neg /\ magnitude f = mm * 2 ^ step /\ (Z.even mm = true -> Z.even (significand f) = true)
  | None => ~ n < d * limit
  end.
Proof.
  unfold round_ratio. cbv zeta. fold step. pose proof in_range as HR. destruct mm_spec as (Hm1 & _ & _). destruct qq_range as [[Hq0 Hq] Hs0]. pose proof step_nonneg as Hs.
  generalize dependent mm. intros m HR Hm1. set (q := qq) in *.
  destruct (Z.eqb_spec m (2 ^ 53)) as [E|E].
  - change (2 ^ 52) with (Zpos (2 ^ 52)) at 1. cbv iota. destruct (Z.leb_spec (step + 1) 2045) as [L|L].
    + split; [apply HR; right; left; clear -L; lia|]. split; [apply bounded_shaped; unfold shaped, unit_exp; split; [split; reflexivity|]; split; [clear -L Hs; lia | right; apply Z.le_refl]|].
      split; [reflexivity|]. split; [|reflexivity]. cbn [magnitude]. rewrite E. unfold unit_exp. replace (step + 1 - 1074 + 1074) with (1 + step) by lia. rewrite Z.pow_add_r by lia. 
      change (2 ^ 53) with (Zpos (2 ^ 52) * 2 ^ 1). ring.
    + intros H0. apply HR in H0 as [H | [H | [H H']]]; [rewrite E in H; discriminate | clear -H L; lia | clear -H L H' E; lia].
  - destruct m as [|p|p]; [| |clear -Hm1 Hq0; lia].
    + split; [apply HR; left; reflexivity|]. split; [exact I|]. split; [reflexivity|]. split; reflexivity.
    + destruct (Z.leb_spec step 2045) as [L|L].
      * split; [apply HR; right; destruct (Z.eq_dec step 2045) as [K|K]; [right; split; [exact K | clear -Hm1 Hq E; lia] | left; clear -L K; lia]|].
        split; [apply bounded_shaped; unfold shaped, unit_exp; clear -Hm1 Hq Hq0 E L Hs Hs0; lia|]. split; [reflexivity|]. split; [|auto].
        cbn [magnitude]. unfold unit_exp. f_equal. f_equal. lia.
      * intros H0. apply HR in H0 as [H | [H | [H H']]]; [discriminate | clear -H L; lia | clear -H L; lia].
Qed.
End Round.

(** Both signs. *)
Definition signed (neg : bool) (n : Z) : Z := if neg then - n else n.

Lemma away_magnitude neg n d f : 0 <= n -> 0 < d -> finite_float f -> Z.abs (n * 2 ^ unit_exp - d * magnitude f) <= away (signed neg n) d f.
Proof.
  intros Hn Hd Hf. unfold away. change 1074 with unit_exp. rewrite scaled_magnitude. pose proof (magnitude_nonneg f Hf) as Hm. pose proof U_pos as HU.
  assert (0 <= n * 2 ^ unit_exp) by nia. assert (0 <= d * magnitude f) by nia. unfold signed.
  destruct neg, (negative f); rewrite ?Z.mul_opp_l, ?Z.mul_opp_r; lia.
Qed.
Lemma away_same n d f : away (signed (negative f) n) d f = Z.abs (n * 2 ^ unit_exp - d * magnitude f).
Proof.
  unfold away. change 1074 with unit_exp. rewrite scaled_magnitude. unfold signed. destruct (negative f); rewrite ?Z.mul_opp_l, ?Z.mul_opp_r; lia.
Qed.

Lemma round_nearest neg n d f : 0 <= n -> 0 < d -> round_ratio neg n d = Some f -> nearest (signed neg n) d f /\ negative f = neg.
Proof.
  intros Hn Hd E. pose proof (round_facts n d Hn Hd neg) as H. rewrite E in H. destruct H as (Hr & Hf & Hs & Hm & He). split; [|exact Hs].
  assert (Z.abs (signed neg n) = n) as Ea by (unfold signed; destruct neg; lia). subst neg.
  split; [exact Hf|]. split; [rewrite Ea; exact Hr|]. clear Hr Ea E.
  assert (away (signed (negative f) n) d f = Z.abs (n * 2 ^ unit_exp - half_even (n * 2 ^ unit_exp / (d * 2 ^ step n d)) ((n * 2 ^ unit_exp) mod (d * 2 ^ step n d)) (d * 2 ^ step n d) * (d * 2 ^ step n d))) as Ef.
  { rewrite away_same, Hm. f_equal. ring. }
  pose proof (grid_closest n d Hn Hd) as Hg. pose proof (mm_spec n d Hd) as (_ & _ & Hev).
  revert Ef Hg Hev Hm He. set (m := half_even _ _ _). intros Ef Hg Hev Hm He. split.
  - intros g Hfg. rewrite Ef. pose proof (away_magnitude (negative f) n d g Hn Hd Hfg). specialize (Hg g Hfg). lia.
  - intros g Hfg Hne Ht. apply He, Hev. destruct (Hg g Hfg) as [H1 H2]. rewrite Ef in Ht. pose proof (away_magnitude (negative f) n d g Hn Hd Hfg) as H3.
    destruct (Z.eq_dec (magnitude g) (m * 2 ^ step n d)) as [Em | Em]; [|apply H2; [exact Em | lia]].
    (* the same magnitude with the other sign: then the number is as close to zero *)
    exfalso. assert (negative g <> negative f) as Hs by (intros Es; apply Hne; rewrite !scaled_magnitude, Es, Em, Hm; reflexivity).
    pose proof (pow_pos (step n d) (step_nonneg n d Hd)) as Hp. pose proof U_pos as HU.
    specialize (Hg (S754_zero false) I). cbn [magnitude] in Hg. destruct Hg as [Hg _]. rewrite Z.mul_0_r, Z.sub_0_r in Hg.
    assert (0 <= n * 2 ^ unit_exp) as HN by (apply Z.mul_nonneg_nonneg; lia). assert (0 <= magnitude g) as Hmg by (apply magnitude_nonneg, Hfg).
    assert (0 <= d * magnitude g) as H4 by (apply Z.mul_nonneg_nonneg; lia).
    assert (away (signed (negative f) n) d g = n * 2 ^ unit_exp + d * magnitude g) as Eg.
    { unfold away. change 1074 with unit_exp. rewrite scaled_magnitude. unfold signed. clear - Hs HN H4.
      destruct (negative f), (negative g); try congruence; rewrite ?Z.mul_opp_l, ?Z.mul_opp_r; lia. }
    rewrite Eg in Ht. replace (m * (d * 2 ^ step n d)) with (d * magnitude g) in Ht, Hg by (rewrite Em; ring).
    assert (d * magnitude g = 0) as H5 by (clear - Ht Hg HN H4; lia). assert (magnitude g = 0) as H6 by (apply Z.eq_mul_0 in H5 as [H5 | H5]; [lia | exact H5]).
    apply Hne. rewrite !scaled_magnitude, Hm, <- Em, H6. destruct (negative g), (negative f); reflexivity.
Qed.

(** Rounding is what [nearest] says. *)
Lemma round_iff neg n d f : 0 <= n -> 0 < d -> (round_ratio neg n d = Some f <-> nearest (signed neg n) d f /\ negative f = neg).
Proof.
  intros Hn Hd. split; [apply round_nearest; assumption|]. intros [(Hf & Hr & Hc & He) Hs].
  assert (Z.abs (signed neg n) = n) as Ea by (unfold signed; destruct neg; lia). rewrite Ea in Hr.
  pose proof (round_facts n d Hn Hd neg) as H. destruct (round_ratio neg n d) as [c|] eqn:E; [|contradiction]. f_equal. clear Hr Ea.
  destruct (round_nearest _ _ _ _ Hn Hd E) as [(Hfc & _ & Hcc & Hec) Hsc]. destruct H as (_ & _ & _ & Hm & _).
  assert (away (signed neg n) d f = away (signed neg n) d c) as Ht by (pose proof (Hc c Hfc); pose proof (Hcc f Hf); lia).
  destruct (Z.eq_dec (magnitude f) (magnitude c)) as [Em | Em]; [apply double_unique; congruence|]. exfalso.
  assert (scaled f <> scaled c) as Hne by (rewrite !scaled_magnitude, Hs, Hsc; destruct neg; lia).
  pose proof (He c Hfc (not_eq_sym Hne) (eq_sym Ht)) as Ef. pose proof (Hec f Hf Hne Ht) as Ec.
  pose proof (grid_closest n d Hn Hd f Hf) as [_ Hg]. rewrite <- Hs in Ht at 1. rewrite <- Hsc in Ht. rewrite !away_same in Ht.
  pose proof (mm_spec n d Hd) as (Hmq & _ & _). pose proof (qq_range n d Hn Hd) as (Hq & Hq'). pose proof (step_nonneg n d Hd) as Hst.
  revert Hm Hg Hmq. set (m := half_even _ _ _). set (q := n * 2 ^ unit_exp / (d * 2 ^ step n d)) in *. intros Hm Hg Hmq.
  destruct Hg as (_ & j & Ej & Hj & Hjq); [congruence | rewrite Ht, Hm; f_equal; ring|].
  pose proof (fun h i Hh Ei => grid_significand h i (step n d) Hh Hst Ei) as Hsig.
  pose proof (magnitude_nonneg f Hf) as Hf0. pose proof (pow_pos (step n d) Hst) as Hp2.
  assert (0 <= j) as Hj0 by (apply (nonneg_factor _ _ Hp2); rewrite <- Ej; exact Hf0).
  pose proof (Hsig c m Hfc Hm) as Sc. pose proof (Hsig f j Hf Ej) as Sf.
  clear Hsig Hm Ej Ht Hc He Hcc Hec Hne Em Hd Hn Hf0 Hp2. clearbody m q. set (st := step n d) in *. clearbody st.
  assert (Z.even j = true -> Z.even m = true -> False) as Hpar.
  { intros H1 H2. destruct Hj as [-> | ->].
    - replace (m + 1) with (Z.succ m) in H1 by lia. rewrite Z.even_succ, <- Z.negb_even, H2 in H1. discriminate.
    - replace (m - 1) with (Z.pred m) in H1 by lia. rewrite Z.even_pred, <- Z.negb_even, H2 in H1. discriminate. }
  destruct (Z.eq_dec j (2 ^ 53)) as [Ej2 | Ej2].
  { assert (m = 2 ^ 53 - 1) as Em2 by lia. rewrite Sc in Ec by (clear Sf; lia). rewrite Em2 in Ec. discriminate. }
  destruct (Z.eq_dec m (2 ^ 53)) as [Em2 | Em2].
  { assert (j = 2 ^ 53 - 1) as Ej3 by lia. rewrite Sf in Ef by (clear Sc; lia). rewrite Ej3 in Ef. discriminate. }
  apply Hpar.
  - rewrite <- Sf by (clear Sc Sf; lia). exact Ef.
  - rewrite <- Sc by (clear Sf Sc; lia). exact Ec.
Qed.

(* ---------------------------------------------------------------------- texts *)

Lemma digits_value_dec d : digits_value d = Z.of_N (dec_value d).
Proof. unfold digits_value. rewrite dec_value_place. reflexivity. Qed.

Lemma stops_nil : stops [].
Proof. exact I. Qed.

Lemma read_decimal_iff t neg m k : read_decimal t = Some (neg, m, k) <-> number_value t neg m k.
Proof.
  split.
  - intros H. unfold read_decimal in H.
    assert (exists sign s, t = sign ++ s /\ (sign = [] \/ sign = B "-") /\
      split_sign t = (match sign with [] => false | _ => true end, s)) as (sign & s & Et & Hsign & Em).
    { destruct t as [|c t]; [exists [], []; auto|]. destruct (Byte.eqb c x2d) eqn:E.
      - apply byte_eqb_eq in E. subst c. exists (B "-"), t. auto.
      - apply byte_eqb_neq in E. exists [], (c :: t). split; [reflexivity|]. split; [auto|]. destruct c; (reflexivity || congruence). }
    rewrite Em in H. destruct (lex_int s) as [[d s1]|] eqn:E1; [|discriminate]. destruct (lex_frac s1) as [[fr s2]|] eqn:E2; [|discriminate].
    destruct (lex_exp s2) as [[ex s3]|] eqn:E3; [|discriminate]. destruct s3; [|discriminate]. injection H as Hneg Hm Hk.
    apply lex_int_spec in E1 as [-> [Hd Hz]]. apply lex_frac_spec in E2 as [-> Hf]. apply lex_exp_spec in E3 as [-> He].
    exists sign, d, fr, (tl fr), ex, (exp_value ex). split; [rewrite app_nil_r in Et; exact Et|].
    split; [destruct Hsign as [-> | ->]; [left | right]; auto|]. split; [exact Hd|]. split; [exact Hz|].
    split; [destruct Hf as [-> | (x & -> & Hx)]; [left | right]; auto|].
    split. { destruct He as [-> | (e & sg & x & -> & He & Hsg & Hx)]; [left; auto|]. right. exists e, sg, x. split; [reflexivity|]. split; [exact He|]. split; [exact Hx|].
      rewrite digits_value_dec. assert (exists c, e = [c]) as (c & ->) by (destruct He as [-> | ->]; eexists; reflexivity).
      destruct Hsg as [-> | [-> | ->]]; [left | left | right]; (split; [auto|]).
      - cbn [app exp_value]. destruct Hx as [_ Hx]. destruct x as [|b x]; [reflexivity|]. inversion Hx as [|? ? Hb _]; subst. destruct b; try reflexivity; exfalso; revert Hb; cbn; lia.
      - reflexivity.
      - reflexivity. }
    split; [rewrite digits_value_dec; symmetry; exact Hm | symmetry; exact Hk].
  - intros (sign & int & frac & fd & exp & x & -> & Hs & Hd & Hz & Hf & He & -> & ->).
    assert (point_text frac) as Hf' by (destruct Hf as [[-> _] | [-> H]]; [left; reflexivity | right; eauto]).
    assert (exponent_text exp) as He' by (destruct He as [[-> _] | (e & sg & d & -> & H1 & H2 & H3)]; [left; reflexivity | right; exists e, sg, d; split; [reflexivity|]; split; [exact H1|]; split; [tauto | exact H2]]).
    destruct (lex_number int frac exp [] stops_nil (conj Hd Hz) Hf' He') as (E1 & E2 & E3). rewrite !app_nil_r in E1, E2, E3.
    assert (tl frac = fd) as Etl by (destruct Hf as [[-> ->] | [-> _]]; reflexivity).
    assert (exp_value exp = x) as Ex.
    { destruct He as [[-> ->] | (e & sg & d & -> & He & Hx & Hv)]; [reflexivity|]. rewrite digits_value_dec in Hv.
      assert (exists c, e = [c]) as (c & ->) by (destruct He as [-> | ->]; eexists; reflexivity). cbn [app].
      destruct Hv as [[[-> | ->] ->] | [-> ->]]; [|reflexivity|reflexivity].
      cbn [app exp_value]. destruct Hx as [_ Hx]. destruct d as [|b d]; [reflexivity|]. inversion Hx as [|? ? Hb _]; subst. destruct b; try reflexivity; exfalso; revert Hb; cbn; lia. }
    unfold read_decimal.
    assert (split_sign (sign ++ int ++ frac ++ exp) = (neg, int ++ frac ++ exp)) as ->.
    { destruct Hs as [[-> ->] | [-> ->]]; [|reflexivity]. cbn [app]. destruct Hd as [Hne Hd]. destruct int as [|b int]; [contradiction|]. inversion Hd as [|? ? Hb _]; subst.
      cbn [app]. destruct b; try reflexivity; exfalso; revert Hb; cbn; lia. }
    rewrite E1, E2, E3, Etl, Ex, digits_value_dec. reflexivity.
Qed.

Lemma ten_den_pos k : 0 < ten_den k.
Proof. unfold ten_den. apply Z.pow_pos_nonneg; lia. Qed.

Lemma signed_ten neg m k : signed neg (ten_num m k) = ten_num (signed neg m) k.
Proof. unfold signed, ten_num. destruct neg; ring. Qed.

Lemma digits_value_nonneg d : 0 <= digits_value d.
Proof. unfold digits_value. lia. Qed.

Lemma number_value_nonneg t neg m k : number_value t neg m k -> 0 <= m.
Proof. intros (? & ? & ? & ? & ? & ? & _ & _ & _ & _ & _ & _ & -> & _). apply digits_value_nonneg. Qed.

Lemma round_decimal_iff neg m k f : 0 <= m -> (round_decimal neg m k = Some f <-> nearest (ten_num (signed neg m) k) (ten_den k) f /\ negative f = neg).
Proof.
  intros Hm. unfold round_decimal. fold (ten_num m k) (ten_den k). rewrite <- signed_ten. apply round_iff; [|apply ten_den_pos].
  unfold ten_num. apply Z.mul_nonneg_nonneg; [exact Hm | apply Z.pow_nonneg; lia].
Qed.

(** Reading is correct rounding of the number the text says. *)
Lemma double_parse_iff t f : double_parse t = Some f <->
  exists neg m k, number_value t neg m k /\ nearest (ten_num (if neg then - m else m) k) (ten_den k) f /\ negative f = neg.
Proof.
  unfold double_parse. split.
  - destruct (read_decimal t) as [[[neg m] k]|] eqn:E; [|discriminate]. intros H. apply read_decimal_iff in E. exists neg, m, k. split; [exact E|].
    apply round_decimal_iff; [apply (number_value_nonneg _ _ _ _ E) | exact H].
  - intros (neg & m & k & E & H). pose proof (number_value_nonneg _ _ _ _ E) as Hm. apply read_decimal_iff in E. rewrite E. apply round_decimal_iff; assumption.
Qed.
