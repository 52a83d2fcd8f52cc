From Coq Require Import Floats.SpecFloat.
From Verif Require Import Prelude Ord Base58 Value Ext Json Double Spec SpecWire SpecDouble OrdFacts Base58Facts WireFacts JsonFacts JsonGrammarFacts DoubleFacts DoublePrintFacts.
Local Open Scope Z_scope.

(* ------------------------------------------ what reads as a double is an interval *)

Lemma nearest_between n1 n2 n3 d f : 0 < d -> n1 <= n2 <= n3 -> nearest n1 d f -> nearest n3 d f -> nearest n2 d f.
Proof.
  intros Hd Hn (Hf & R1 & C1 & E1) (_ & R3 & C3 & E3). pose proof (pow_pos 1074 ltac:(lia)) as HU.
  assert (n1 * 2 ^ 1074 <= n2 * 2 ^ 1074) as H1 by (apply Z.mul_le_mono_nonneg_r; lia).
  assert (n2 * 2 ^ 1074 <= n3 * 2 ^ 1074) as H2 by (apply Z.mul_le_mono_nonneg_r; lia).
  split; [exact Hf|]. split; [clear - Hn R1 R3; revert R1 R3; generalize (d * ((2 ^ 54 - 1) * 2 ^ 970)); intros l R1 R3; lia|].
  clear R1 R3. split; intros g Hg; specialize (C1 g Hg); specialize (C3 g Hg); specialize (E1 g Hg); specialize (E3 g Hg); unfold away in *;
    revert H1 H2 C1 C3 E1 E3; generalize (n1 * 2 ^ 1074) (n2 * 2 ^ 1074) (n3 * 2 ^ 1074); intros N1 N2 N3 H1 H2 C1 C3 E1 E3.
  - generalize dependent (d * scaled f). generalize dependent (d * scaled g). intros. clear - H1 H2 C1 C3. lia.
  - intros Hs Ht. assert (d * scaled g <> d * scaled f) as Hds by (intros E; apply Hs, (Z.mul_reg_l _ _ d); [lia | exact E]).
    specialize (E1 Hs). specialize (E3 Hs). generalize dependent (d * scaled f). generalize dependent (d * scaled g). intros x y C1 C3 E1 E3 Ht Hds.
    destruct (Z.eq_dec (Z.abs (N1 - x)) (Z.abs (N1 - y))) as [E|E]; [exact (E1 E)|].
    destruct (Z.eq_dec (Z.abs (N3 - x)) (Z.abs (N3 - y))) as [E'|E']; [exact (E3 E')|]. clear E1 E3. exfalso. lia.
Qed.

Lemma round_between neg n1 d1 n2 d2 n3 d3 f : 0 <= n1 -> 0 < d1 -> 0 <= n2 -> 0 < d2 -> 0 <= n3 -> 0 < d3 -> n1 * d2 <= n2 * d1 -> n2 * d3 <= n3 * d2 ->
  round_ratio neg n1 d1 = Some f -> round_ratio neg n3 d3 = Some f -> round_ratio neg n2 d2 = Some f.
Proof.
  intros Hn1 Hd1 Hn2 Hd2 Hn3 Hd3 L1 L2 R1 R3.
  assert (0 < d2 * d3) as P1 by (apply Z.mul_pos_pos; assumption). assert (0 < d1 * d3) as P2 by (apply Z.mul_pos_pos; assumption). assert (0 < d1 * d2) as P3 by (apply Z.mul_pos_pos; assumption).
  rewrite <- (round_ratio_scale neg (d2 * d3)) in R1 by assumption. rewrite <- (round_ratio_scale neg (d1 * d2)) in R3 by assumption.
  rewrite <- (round_ratio_scale neg (d1 * d3)) by assumption.
  replace (d3 * (d1 * d2)) with (d1 * (d2 * d3)) in R3 by ring. replace (d2 * (d1 * d3)) with (d1 * (d2 * d3)) by ring.
  assert (0 < d1 * (d2 * d3)) as PD by (apply Z.mul_pos_pos; assumption).
  assert (n1 * (d2 * d3) <= n2 * (d1 * d3)) as M1.
  { replace (n1 * (d2 * d3)) with (n1 * d2 * d3) by ring. replace (n2 * (d1 * d3)) with (n2 * d1 * d3) by ring. apply Z.mul_le_mono_nonneg_r; lia. }
  assert (n2 * (d1 * d3) <= n3 * (d1 * d2)) as M2.
  { replace (n2 * (d1 * d3)) with (n2 * d3 * d1) by ring. replace (n3 * (d1 * d2)) with (n3 * d2 * d1) by ring. apply Z.mul_le_mono_nonneg_r; lia. }
  assert (0 <= n1 * (d2 * d3)) as Q1 by (apply Z.mul_nonneg_nonneg; lia). revert R1 R3 M1 M2 Q1 PD.
  generalize (n1 * (d2 * d3)) (n2 * (d1 * d3)) (n3 * (d1 * d2)) (d1 * (d2 * d3)). clear. intros c b a D R1 R3 L1 L2 Q HD.
  apply round_iff in R1 as [R1 S1]; [|lia|exact HD]. apply round_iff in R3 as [R3 S3]; [|lia|exact HD]. apply round_iff; [lia | exact HD|]. split; [|exact S1].
  destruct neg; cbn [signed] in *; [apply (nearest_between (- a) _ (- c)) | apply (nearest_between c _ a)]; try assumption; lia.
Qed.

(* -------------------------------------------------------------------- one double *)

Lemma rescale nn dd U M u v w : 0 <= dd -> 0 <= U -> nn * U = dd * M ->
  dd * (v * M) = nn * v * U /\ dd * Z.abs (w * u * U - v * M) = Z.abs (nn * v - w * (dd * u)) * U.
Proof.
  intros Hd HU E. assert (dd * (v * M) = nn * v * U) as E1 by (replace (dd * (v * M)) with (dd * M * v) by ring; rewrite <- E; ring). split; [exact E1|].
  rewrite <- (Z.abs_eq dd) at 1 by exact Hd. rewrite <- (Z.abs_eq U) at 2 by exact HU. rewrite <- !Z.abs_mul, Z.mul_sub_distr_l, E1.
  replace (dd * (w * u * U) - nn * v * U) with (- ((nn * v - w * (dd * u)) * U)) by ring. apply Z.abs_opp.
Qed.

Lemma tie_int a b m j : 0 < b -> Z.abs (a - m * b) = Z.abs (a - j * b) -> j <> m -> Z.abs (a - m * b) < b -> j = m + 1 \/ j = m - 1.
Proof.
  intros Hb E Hj L. assert (Z.abs (m - j) * b = Z.abs (m * b - j * b)) as E1 by (rewrite <- Z.mul_sub_distr_r, Z.abs_mul, (Z.abs_eq b); lia).
  assert (Z.abs (m - j) * b < 2 * b) as L2 by lia. apply Z.mul_lt_mono_pos_r in L2; lia.
Qed.

Section One.
  Variables (neg : bool) (p : positive) (e : Z).
  Hypothesis Hsh : shaped (Zpos p) e.
  Let f := S754_finite neg p e.
  Let nn := num p e.
  Let dd := den e.
  Let E := decade nn dd.

  Lemma fin_f : finite_float f.
  Proof. apply bounded_shaped, Hsh. Qed.

  Lemma ratio_magnitude : nn * 2 ^ unit_exp = dd * magnitude f.
  Proof.
    destruct Hsh as (_ & He & _). unfold nn, dd, num, den. cbn [magnitude f].
    replace (2 ^ Z.max 0 (- e) * (Zpos p * 2 ^ (e + 1074))) with (Zpos p * (2 ^ Z.max 0 (- e) * 2 ^ (e + 1074))) by ring.
    rewrite <- Z.mul_assoc, <- !Z.pow_add_r by (unfold unit_exp; lia). unfold unit_exp. f_equal. f_equal. lia.
  Qed.

  Lemma exact_reads : round_ratio neg nn dd = Some f.
  Proof.
    pose proof (num_pos p e) as Hn. pose proof (den_pos e) as Hd. apply close_reads; [unfold nn; lia | exact Hd | exact fin_f | reflexivity|].
    rewrite ratio_magnitude, Z.sub_diag. cbn [Z.abs Z.mul]. rewrite <- ratio_magnitude. apply Z.mul_pos_pos; [exact Hn | exact U_pos].
  Qed.

  Definition aa (k : Z) : Z := nn * 10 ^ Z.max 0 (- k).
  Definition bb (k : Z) : Z := dd * 10 ^ Z.max 0 k.
  Lemma bb_pos k : 0 < bb k.
  Proof. apply Z.mul_pos_pos; [apply den_pos | apply ten_pos; lia]. Qed.
  Lemma aa_pos k : 0 < aa k.
  Proof. apply Z.mul_pos_pos; [apply num_pos | apply ten_pos; lia]. Qed.

  (** [m * 10^k] reads as the double. *)
  Definition R (m k : Z) : Prop := 0 <= m /\ round_decimal neg m k = Some f.

  Lemma reads_back_iff m k : 0 <= m -> (reads_back neg p e m k = true <-> R m k).
  Proof.
    intros Hm. unfold reads_back, R. split.
    - destruct (round_decimal neg m k) as [[| | |s q g]|] eqn:Er; try discriminate. rewrite andb_true_iff, Pos.eqb_eq, Z.eqb_eq. intros [-> ->]. split; [exact Hm|].
      apply round_decimal_iff in Er as [_ Es]; [|exact Hm]. cbn [negative] in Es. subst s. reflexivity.
    - intros [_ ->]. unfold f. rewrite Pos.eqb_refl, Z.eqb_refl. reflexivity.
  Qed.

  Lemma R_shift m i k : 0 <= m -> 0 <= i -> (R (m * 10 ^ i) k <-> R m (k + i)).
  Proof.
    intros Hm Hi. unfold R. rewrite round_decimal_shift by assumption. pose proof (ten_pos i Hi). split; intros [_ H']; (split; [try apply Z.mul_nonneg_nonneg; lia | exact H']).
  Qed.

  Lemma R_between m1 m2 m3 k : m1 <= m2 <= m3 -> R m1 k -> R m3 k -> R m2 k.
  Proof.
    intros H [H1 R1] [_ R3]. split; [lia|]. unfold round_decimal in *. pose proof (ten_pos (Z.max 0 k) ltac:(lia)) as P. pose proof (ten_pos (Z.max 0 (- k)) ltac:(lia)) as Q.
    revert R1 R3 P Q. generalize (10 ^ Z.max 0 k) (10 ^ Z.max 0 (- k)). intros u v R1 R3 P Q.
    assert (m1 * u <= m2 * u) by (apply Z.mul_le_mono_nonneg_r; lia). assert (m2 * u <= m3 * u) by (apply Z.mul_le_mono_nonneg_r; lia).
    assert (0 <= m1 * u) by (apply Z.mul_nonneg_nonneg; lia).
    apply (round_between neg (m1 * u) v _ _ (m3 * u) v); try assumption; try lia; apply Z.mul_le_mono_nonneg_r; lia.
  Qed.

  Lemma R_below m1 m2 k : m1 <= m2 -> m2 * bb k <= aa k -> R m1 k -> R m2 k.
  Proof.
    intros H L [H1 R1]. split; [lia|]. unfold round_decimal, aa, bb in *. pose proof (ten_pos (Z.max 0 k) ltac:(lia)) as P. pose proof (ten_pos (Z.max 0 (- k)) ltac:(lia)) as Q.
    revert R1 L P Q. generalize (10 ^ Z.max 0 k) (10 ^ Z.max 0 (- k)). intros u v R1 L P Q.
    pose proof (num_pos p e) as Hn. pose proof (den_pos e) as Hd. fold nn in Hn. fold dd in Hd.
    assert (m1 * u <= m2 * u) by (apply Z.mul_le_mono_nonneg_r; lia). assert (0 <= m1 * u) by (apply Z.mul_nonneg_nonneg; lia).
    assert (m1 * u * v <= m2 * u * v) as L1 by (apply Z.mul_le_mono_nonneg_r; lia). assert (m2 * u * dd <= nn * v) as L2 by (replace (m2 * u * dd) with (m2 * (dd * u)) by ring; exact L).
    apply (round_between neg (m1 * u) v _ _ nn dd); [lia | lia | lia | lia | lia | lia | exact L1 | exact L2 | exact R1 | exact exact_reads].
  Qed.
  Lemma R_above m1 m2 k : m1 <= m2 -> 0 <= m1 -> aa k <= m1 * bb k -> R m2 k -> R m1 k.
  Proof.
    intros H H0 L [H1 R1]. split; [lia|]. unfold round_decimal, aa, bb in *. pose proof (ten_pos (Z.max 0 k) ltac:(lia)) as P. pose proof (ten_pos (Z.max 0 (- k)) ltac:(lia)) as Q.
    revert R1 L P Q. generalize (10 ^ Z.max 0 k) (10 ^ Z.max 0 (- k)). intros u v R1 L P Q.
    pose proof (num_pos p e) as Hn. pose proof (den_pos e) as Hd. fold nn in Hn. fold dd in Hd.
    assert (m1 * u <= m2 * u) by (apply Z.mul_le_mono_nonneg_r; lia). assert (0 <= m1 * u) by (apply Z.mul_nonneg_nonneg; lia).
    assert (m1 * u * v <= m2 * u * v) as L1 by (apply Z.mul_le_mono_nonneg_r; lia). assert (nn * v <= m1 * u * dd) as L2 by (replace (m1 * u * dd) with (m1 * (dd * u)) by ring; exact L).
    apply (round_between neg nn dd _ _ (m2 * u) v); [lia | lia | lia | lia | lia | lia | exact L2 | exact L1 | exact exact_reads | exact R1].
  Qed.

  Definition qq (k : Z) : Z := aa k / bb k.
  Lemma qq_spec k : qq k * bb k <= aa k < (qq k + 1) * bb k.
  Proof. pose proof (bb_pos k). pose proof (Z.div_mod (aa k) (bb k) ltac:(lia)). pose proof (Z.mod_pos_bound (aa k) (bb k) ltac:(lia)). unfold qq. nia. Qed.

  Lemma decade_low c : 1 <= c -> 10 ^ (c - 1) * bb (E - c) <= aa (E - c).
  Proof.
    intros Hc. destruct (decade_spec p e Hsh) as (_ & Hlo & _). fold nn dd E in Hlo. specialize (Hlo (E - c)).
    replace (E - 1 - (E - c)) with (c - 1) in Hlo by lia. replace (E - c - (E - 1)) with (1 - c) in Hlo by lia. replace (Z.max 0 (1 - c)) with 0 in Hlo by lia. replace (Z.max 0 (c - 1)) with (c - 1) in Hlo by lia.
    change (10 ^ 0) with 1 in Hlo. rewrite Z.mul_1_r in Hlo. unfold aa, bb. rewrite Z.mul_comm. exact Hlo.
  Qed.
  Lemma decade_high c : 1 <= c -> aa (E - c) < 10 ^ c * bb (E - c).
  Proof.
    intros Hc. destruct (decade_spec p e Hsh) as (_ & _ & Hhi). fold nn dd E in Hhi. specialize (Hhi (E - c)).
    replace (E - (E - c)) with c in Hhi by lia. replace (E - c - E) with (- c) in Hhi by lia. replace (Z.max 0 (- c)) with 0 in Hhi by lia. replace (Z.max 0 c) with c in Hhi by lia.
    change (10 ^ 0) with 1 in Hhi. rewrite Z.mul_1_r in Hhi. unfold aa, bb. rewrite (Z.mul_comm (10 ^ c)). exact Hhi.
  Qed.

  Lemma qq_decade c : 1 <= c -> 10 ^ (c - 1) <= qq (E - c) < 10 ^ c.
  Proof.
    intros Hc. pose proof (bb_pos (E - c)) as Hb. split.
    - apply Z.div_le_lower_bound; [exact Hb|]. rewrite Z.mul_comm. apply decade_low, Hc.
    - apply Z.div_lt_upper_bound; [exact Hb|]. rewrite Z.mul_comm. apply decade_high, Hc.
  Qed.
  Lemma qq_nonneg c : 1 <= c -> 0 <= qq (E - c).
  Proof. intros Hc. pose proof (qq_decade c Hc). pose proof (ten_pos (c - 1) ltac:(lia)). lia. Qed.

  (** Decimals of [c] digits with an exponent below the grid lie below the double. *)
  Lemma lower c m k : 1 <= c -> m < 10 ^ c -> k < E - c -> m < qq (E - c) * 10 ^ (E - c - k) /\ qq (E - c) * 10 ^ (E - c - k) * bb k <= aa k.
  Proof.
    intros Hc Hm L. pose proof (qq_decade c Hc) as Hq. pose proof (qq_nonneg c Hc) as Hq0. pose proof (qq_spec (E - c)) as [Hs _]. set (q := qq (E - c)) in *. split.
    - apply Z.lt_le_trans with (10 ^ (c - 1) * 10 ^ 1); [rewrite <- Z.pow_add_r by lia; replace (c - 1 + 1) with c by lia; lia|].
      apply Z.mul_le_mono_nonneg; [apply Z.pow_nonneg; lia | lia | apply Z.pow_nonneg; lia | apply Z.pow_le_mono_r; lia].
    - unfold aa, bb in *. rewrite Z.mul_assoc in Hs. rewrite Z.mul_shuffle1, <- Z.pow_add_r by lia. eapply ten_le_shift; [| | | | |exact Hs]; lia.
  Qed.

  (** No decimal of [c] digits reads as the double if the two neighbours do not. *)
  Lemma neighbours c m k : 1 <= c -> m < 10 ^ c -> R m k -> R (qq (E - c)) (E - c) \/ R (qq (E - c) + 1) (E - c).
  Proof.
    intros Hc Hm HR. pose proof (qq_decade c Hc) as Hq. pose proof (qq_nonneg c Hc) as Hq0. set (q := qq (E - c)) in *. pose proof (qq_spec (E - c)) as Hs. fold q in Hs.
    assert (0 <= m) as Hm0 by apply HR.
    destruct (Z.le_gt_cases (E - c) k) as [L|L].
    - assert (R (m * 10 ^ (k - (E - c))) (E - c)) as HR' by (apply R_shift; [exact Hm0 | lia|]; replace (E - c + (k - (E - c))) with k by lia; exact HR).
      set (j := m * 10 ^ (k - (E - c))) in *. destruct (Z.le_gt_cases j q) as [Lj|Lj].
      + left. apply (R_below j); [exact Lj | apply Hs | exact HR'].
      + right. apply (R_above _ j); [lia | lia | lia | exact HR'].
    - left. destruct (lower c m k Hc Hm L) as [H1 H2]. fold q in H1, H2. replace (E - c) with (k + (E - c - k)) by lia. apply R_shift; [exact Hq0 | lia|].
      apply (R_below m); [lia | exact H2 | exact HR].
  Qed.

  (** Seventeen digits are enough. *)
  Definition near k := half_even (qq k) (aa k mod bb k) (bb k).
  Lemma near_spec k : (near k = qq k \/ near k = qq k + 1) /\ 2 * Z.abs (aa k - near k * bb k) <= bb k /\ (2 * Z.abs (aa k - near k * bb k) = bb k -> Z.even (near k) = true).
  Proof.
    pose proof (bb_pos k) as Hb. pose proof (Z.mod_pos_bound (aa k) (bb k) Hb) as Hr. pose proof (Z.div_mod (aa k) (bb k) ltac:(lia)) as Ed.
    pose proof (half_even_spec (qq k) (aa k mod bb k) (bb k) Hr) as H. cbv zeta in H. fold (near k) in H. rewrite Z.mul_comm in Ed. fold (qq k) in Ed. rewrite <- Ed in H. exact H.
  Qed.

  Lemma enough : R (near (E - 17)) (E - 17).
  Proof.
    set (k := E - 17). destruct (near_spec k) as (H1 & H2 & _). pose proof (qq_nonneg 17 ltac:(lia)) as Hq. fold k in Hq. pose proof (decade_low 17 ltac:(lia)) as Hlo. fold k in Hlo.
    pose proof (bb_pos k) as Hb. pose proof (den_pos e) as Hd. fold dd in Hd. pose proof U_pos as HU. set (w := near k) in *.
    split; [lia|]. unfold round_decimal. pose proof (ten_pos (Z.max 0 k) ltac:(lia)) as P. pose proof (ten_pos (Z.max 0 (- k)) ltac:(lia)) as Q.
    apply close_reads; [apply Z.mul_nonneg_nonneg; lia | exact Q | exact fin_f | reflexivity|].
    apply (Z.mul_lt_mono_pos_l dd); [exact Hd|].
    destruct (rescale nn dd (2 ^ unit_exp) (magnitude f) (10 ^ Z.max 0 k) (10 ^ Z.max 0 (- k)) w) as [-> X2]; [lia | lia | exact ratio_magnitude|].
    rewrite Z.mul_assoc, X2, <- Z.mul_assoc, (Z.mul_comm (2 ^ unit_exp)), Z.mul_assoc. fold (aa k) (bb k).
    apply Z.mul_lt_mono_pos_r; [exact HU|]. change (10 ^ (17 - 1)) with 10000000000000000 in Hlo. change (2 ^ 54) with 18014398509481984.
    clear - H2 Hlo Hb. generalize dependent (aa k). generalize dependent (w * bb k). intros x a H2 Hlo. lia.
  Qed.

  (** What the search finds. *)
  Record found (m c : Z) : Prop := mkFound {
    fo_range : 1 <= c <= 17;
    fo_reads : R m (E - c);
    fo_near : m = qq (E - c) \/ m = qq (E - c) + 1;
    fo_close : forall j, R j (E - c) -> Z.abs (aa (E - c) - m * bb (E - c)) <= Z.abs (aa (E - c) - j * bb (E - c));
    fo_even : forall j, R j (E - c) -> j <> m -> Z.abs (aa (E - c) - m * bb (E - c)) = Z.abs (aa (E - c) - j * bb (E - c)) -> Z.even m = true;
    fo_least : forall i, 1 <= i < c -> ~ R (qq (E - i)) (E - i) /\ ~ R (qq (E - i) + 1) (E - i) }.

  Lemma shortest_found fuel : forall c, 1 <= c -> c + Z.of_nat fuel = 18 -> (0 < fuel)%nat ->
    (forall i, 1 <= i < c -> ~ R (qq (E - i)) (E - i) /\ ~ R (qq (E - i) + 1) (E - i)) ->
    exists m c', shortest fuel neg p e E c = Some (m, E - c') /\ found m c'.
  Proof.
    induction fuel as [|fuel IH]; intros c Hc Hsum Hpos Hless; [lia|]. cbn [shortest].
    change (Zpos p * 2 ^ Z.max 0 e) with nn. change (2 ^ Z.max 0 (- e)) with dd. fold (aa (E - c)) (bb (E - c)) (qq (E - c)) (near (E - c)).
    destruct (near_spec (E - c)) as (Hn1 & Hn2 & Hn3). pose proof (qq_nonneg c Hc) as Hq0. pose proof (qq_spec (E - c)) as Hqs. pose proof (bb_pos (E - c)) as Hb.
    set (q := qq (E - c)) in *. set (w := near (E - c)) in *. set (a := aa (E - c)) in *. set (b := bb (E - c)) in *.
    destruct (reads_back neg p e w (E - c)) eqn:Ew.
    { apply reads_back_iff in Ew; [|lia]. exists w, c. split; [reflexivity|]. split; try assumption; [lia | |].
      - intros j _. apply closest_int; assumption.
      - intros j _ Hj Ht. apply Hn3. symmetry in Ht. exact (proj1 (closest_int_tie _ _ _ _ Hb Hn2 Hj Ht)). }
    assert (~ R w (E - c)) as Nw by (intros H; apply reads_back_iff in H; [congruence | lia]). clear Ew.
    set (v := if w =? q then q + 1 else q). assert (w = q /\ v = q + 1 \/ w = q + 1 /\ v = q) as Hv.
    { unfold v. destruct (Z.eqb_spec w q) as [H|H]; [left; auto | right; split; [|reflexivity]]. destruct Hn1 as [H1|H1]; [contradiction | exact H1]. }
    destruct (reads_back neg p e v (E - c)) eqn:Ev.
    { apply reads_back_iff in Ev; [|lia]. assert (forall j, R j (E - c) -> if w =? q then v <= j else j <= v) as Hside.
      { intros j Hj. destruct Hv as [[Hw Hv] | [Hw Hv]].
        - rewrite Hw, Z.eqb_refl. destruct (Z.le_gt_cases v j) as [L|L]; [exact L|]. exfalso. apply Nw. apply (R_below j); [lia | rewrite Hw; apply Hqs | exact Hj].
        - rewrite (proj2 (Z.eqb_neq w q)) by lia. destruct (Z.le_gt_cases j v) as [L|L]; [exact L|]. exfalso. apply Nw. apply (R_above _ j); [lia | lia | rewrite Hw; fold a b; lia | exact Hj]. }
      exists v, c. split; [reflexivity|]. split; try assumption; [lia | destruct Hv as [[_ Hv] | [_ Hv]]; auto | |].
      - intros j Hj. specialize (Hside j Hj). fold a b. destruct Hv as [[Hw Hv] | [Hw Hv]].
        + rewrite Hw, Z.eqb_refl in Hside. assert (v * b <= j * b) by (apply Z.mul_le_mono_nonneg_r; lia). assert (a < v * b) by (rewrite Hv; lia). lia.
        + rewrite (proj2 (Z.eqb_neq w q)) in Hside by lia. assert (j * b <= v * b) by (apply Z.mul_le_mono_nonneg_r; lia). assert (v * b <= a) by (rewrite Hv; lia). lia.
      - intros j Hj Hne Ht. exfalso. specialize (Hside j Hj). fold a b in Ht. destruct Hv as [[Hw Hv] | [Hw Hv]].
        + rewrite Hw, Z.eqb_refl in Hside. assert ((v + 1) * b <= j * b) by (apply Z.mul_le_mono_nonneg_r; lia). assert (a < v * b) by (rewrite Hv; lia). lia.
        + rewrite (proj2 (Z.eqb_neq w q)) in Hside by lia. assert ((j + 1) * b <= v * b) by (apply Z.mul_le_mono_nonneg_r; lia). assert (v * b <= a) by (rewrite Hv; lia). lia. }
    assert (~ R v (E - c)) as Nv by (intros H; apply reads_back_iff in H; [congruence | lia]). clear Ev.
    destruct fuel as [|fuel].
    - exfalso. apply Nw. assert (c = 17) as E17 by lia. unfold w. rewrite E17. exact enough.
    - apply (IH (c + 1)); [lia | lia | lia|]. intros i Hi. destruct (Z.eq_dec i c) as [->|Hic]; [|apply Hless; lia].
      fold q. destruct Hv as [[Hw Hv] | [Hw Hv]]; rewrite Hw in Nw; rewrite Hv in Nv; split; assumption.
  Qed.

  Lemma search : exists m c, shortest 17 neg p e E 1 = Some (m, E - c) /\ found m c.
  Proof. apply shortest_found; [lia | reflexivity | lia|]. intros i Hi. lia. Qed.

  (** Nothing shorter reads as the double. *)
  Lemma found_shortest m c m' k' c' : found m c -> R m' k' -> m' < 10 ^ c' -> c <= c'.
  Proof.
    intros H HR Hm. destruct (Z.le_gt_cases c c') as [L|L]; [exact L|]. exfalso.
    destruct (Z.le_gt_cases 1 c') as [L1|L1].
    - destruct (fo_least _ _ H c' ltac:(lia)) as [N1 N2]. destruct (neighbours c' m' k' L1 Hm HR); contradiction.
    - assert (m' = 0) as ->.
      { assert (0 <= m') by apply HR. destruct (Z.eq_dec c' 0) as [->|]; [change (10 ^ 0) with 1 in Hm; lia|]. rewrite Z.pow_neg_r in Hm by lia. lia. }
      destruct HR as [_ HR]. apply round_decimal_iff in HR as [HR _]; [|lia]. destruct HR as (_ & _ & Hcl & _).
      specialize (Hcl (S754_zero false) I). unfold away in Hcl. rewrite scaled_magnitude in Hcl. cbn [scaled] in Hcl.
      pose proof (ten_den_pos k') as Ht. pose proof ratio_magnitude as Hrm. pose proof (num_pos p e) as Hn. fold nn in Hn. pose proof (den_pos e) as Hd. fold dd in Hd. pose proof U_pos as HU.
      assert (0 < nn * 2 ^ unit_exp) as Hx by (apply Z.mul_pos_pos; assumption). rewrite Hrm in Hx.
      assert (0 < magnitude f) as HM by (apply (Z.mul_pos_cancel_l dd); assumption).
      assert (0 < ten_den k' * magnitude f) as HT by (apply Z.mul_pos_pos; assumption).
      assert (signed neg 0 = 0) as E0 by (unfold signed; case neg; reflexivity). unfold ten_num in Hcl. rewrite E0 in Hcl. clear E0. rewrite !Z.mul_0_l, Z.mul_0_r in Hcl.
      revert Hcl HT. case (negative f); rewrite ?Z.mul_opp_r; generalize (ten_den k' * magnitude f); clear; intros; lia.
  Qed.


  (** Distances, on two grids. *)
  Definition T (k : Z) : Z := 10 ^ Z.max 0 (- k).
  Definition D (m k : Z) : Z := Z.abs (aa k - m * bb k).
  Lemma T_pos k : 0 < T k.
  Proof. apply ten_pos. lia. Qed.
  Lemma D_shift m i k : 0 <= i -> D (m * 10 ^ i) k * T (k + i) = D m (k + i) * T k.
  Proof.
    intros Hi. unfold D. pose proof (T_pos k) as H1. pose proof (T_pos (k + i)) as H2. rewrite <- (Z.abs_eq (T (k + i))) at 1 by lia. rewrite <- (Z.abs_eq (T k)) at 1 by lia.
    rewrite <- !Z.abs_mul. f_equal. unfold aa, bb, T.
    assert (10 ^ i * 10 ^ Z.max 0 k * 10 ^ Z.max 0 (- (k + i)) = 10 ^ Z.max 0 (k + i) * 10 ^ Z.max 0 (- k)) as Ep by (rewrite <- !Z.pow_add_r by lia; f_equal; lia).
    generalize dependent (10 ^ i). generalize (10 ^ Z.max 0 k) (10 ^ Z.max 0 (- (k + i))) (10 ^ Z.max 0 (k + i)) (10 ^ Z.max 0 (- k)) nn dd. clear.
    intros a b c d n g t Ep. replace ((n * d - m * t * (g * a)) * b) with (n * d * b - m * g * (t * a * b)) by ring. rewrite Ep. ring.
  Qed.

  Lemma found_closest m c m' k' : found m c -> R m' k' -> m' < 10 ^ c -> D m (E - c) * T k' <= D m' k' * T (E - c).
  Proof.
    intros H HR Hm. pose proof (fo_range _ _ H) as Hc. pose proof (T_pos k') as Tk. pose proof (T_pos (E - c)) as Tc. assert (0 <= m') as Hm0 by apply HR.
    destruct (Z.le_gt_cases (E - c) k') as [L|L].
    - assert (R (m' * 10 ^ (k' - (E - c))) (E - c)) as HR' by (apply R_shift; [exact Hm0 | lia|]; replace (E - c + (k' - (E - c))) with k' by lia; exact HR).
      pose proof (fo_close _ _ H _ HR') as Hcl. pose proof (D_shift m' (k' - (E - c)) (E - c) ltac:(lia)) as Es. replace (E - c + (k' - (E - c))) with k' in Es by lia.
      rewrite <- Es. apply Z.mul_le_mono_nonneg_r; [lia | exact Hcl].
    - destruct (lower c m' k' ltac:(lia) Hm L) as [H1 H2]. pose proof (qq_nonneg c ltac:(lia)) as Hq0. set (i := E - c - k') in *. set (q := qq (E - c)) in *.
      assert (k' + i = E - c) as Ek by (unfold i; lia).
      assert (R q (E - c)) as Rq by (rewrite <- Ek; apply R_shift; [exact Hq0 | lia|]; apply (R_below m'); [lia | exact H2 | exact HR]).
      apply Z.le_trans with (D q (E - c) * T k'); [apply Z.mul_le_mono_nonneg_r; [lia | exact (fo_close _ _ H _ Rq)]|].
      rewrite <- Ek at 1. rewrite <- (D_shift q i k') by lia. rewrite Ek. apply Z.mul_le_mono_nonneg_r; [lia|].
      unfold D. pose proof (bb_pos k') as Hb. assert (m' * bb k' <= q * 10 ^ i * bb k') by (apply Z.mul_le_mono_nonneg_r; lia). lia.
  Qed.

  Lemma found_tie m c m' k' : found m c -> R m' k' -> m' < 10 ^ c -> D m (E - c) * T k' = D m' k' * T (E - c) ->
    exists j, 0 <= k' - (E - c) /\ j = m' * 10 ^ (k' - (E - c)) /\ (j <> m -> Z.even m = true /\ (j = m + 1 \/ j = m - 1)).
  Proof.
    intros H HR Hm Ht. pose proof (fo_range _ _ H) as Hc. pose proof (T_pos k') as Tk. pose proof (T_pos (E - c)) as Tc. assert (0 <= m') as Hm0 by apply HR.
    destruct (Z.le_gt_cases (E - c) k') as [L|L].
    - assert (R (m' * 10 ^ (k' - (E - c))) (E - c)) as HR' by (apply R_shift; [exact Hm0 | lia|]; replace (E - c + (k' - (E - c))) with k' by lia; exact HR).
      pose proof (D_shift m' (k' - (E - c)) (E - c) ltac:(lia)) as Es. replace (E - c + (k' - (E - c))) with k' in Es by lia.
      set (j := m' * 10 ^ (k' - (E - c))) in *. exists j. split; [lia|]. split; [reflexivity|]. intros Hj.
      assert (D m (E - c) = D j (E - c)) as Ed by (apply (Z.mul_reg_r _ _ (T k')); [lia|]; rewrite Es; exact Ht).
      split; [exact (fo_even _ _ H j HR' Hj Ed)|].
      pose proof (bb_pos (E - c)) as Hb. pose proof (qq_spec (E - c)) as Hq. pose proof (qq_nonneg c ltac:(lia)) as Hq0. unfold D in Ed. apply (tie_int (aa (E - c)) (bb (E - c))); [exact Hb | exact Ed | exact Hj|].
      destruct (fo_near _ _ H) as [En | En]; [rewrite <- En in Hq; lia|].
      destruct (Z.eq_dec (aa (E - c)) (qq (E - c) * bb (E - c))) as [Ea | Ea]; [|rewrite En in *; lia]. exfalso.
      assert (R (qq (E - c)) (E - c)) as Rq.
      { destruct (Z.le_gt_cases j (qq (E - c))) as [Lj|Lj]; [apply (R_below j); [exact Lj | lia | exact HR']|]. apply (R_above _ j); [lia | lia | lia | exact HR']. }
      pose proof (fo_close _ _ H _ Rq) as Hcl. rewrite En in Hcl. lia.
    - exfalso. destruct (lower c m' k' ltac:(lia) Hm L) as [H1 H2]. pose proof (qq_nonneg c ltac:(lia)) as Hq0. set (i := E - c - k') in *. set (q := qq (E - c)) in *.
      assert (k' + i = E - c) as Ek by (unfold i; lia).
      assert (R q (E - c)) as Rq by (rewrite <- Ek; apply R_shift; [exact Hq0 | lia|]; apply (R_below m'); [lia | exact H2 | exact HR]).
      assert (D m (E - c) * T k' <= D q (E - c) * T k') as L1 by (apply Z.mul_le_mono_nonneg_r; [lia | exact (fo_close _ _ H _ Rq)]).
      rewrite <- Ek in L1 at 2. rewrite <- (D_shift q i k') in L1 by lia. rewrite Ek in L1.
      assert (D (q * 10 ^ i) k' < D m' k') as L2.
      { unfold D. pose proof (bb_pos k') as Hb. assert (m' * bb k' < q * 10 ^ i * bb k') by (apply Z.mul_lt_mono_pos_r; lia). lia. }
      apply (Z.mul_lt_mono_pos_r (T (E - c))) in L2; [|exact Tc]. lia.
  Qed.

  (** The digits found do not end in a zero, but for the ten of a decade. *)
  Lemma found_tight m c i : found m c -> m = 10 * i -> m = 10 /\ c = 1.
  Proof.
    intros H Em. pose proof (fo_range _ _ H) as Hc. pose proof (qq_decade c ltac:(lia)) as Hq. pose proof (fo_reads _ _ H) as HR. pose proof (ten_pos (c - 1) ltac:(lia)) as H0.
    assert (10 ^ (c - 1) <= m <= 10 ^ c) as Hm by (destruct (fo_near _ _ H); lia).
    assert (R i (E - c + 1)) as Hi by (apply R_shift; [lia | lia|]; change (10 ^ 1) with 10; rewrite Z.mul_comm, <- Em; exact HR).
    assert (10 ^ c = 10 * 10 ^ (c - 1)) as Ec by (replace c with (1 + (c - 1)) at 1 by lia; rewrite Z.pow_add_r by lia; reflexivity).
    destruct (Z.eq_dec i (10 ^ (c - 1))) as [Ei | Ei].
    - assert (R 1 (E - c + 1 + (c - 1))) as H1 by (apply R_shift; [lia | lia|]; rewrite Z.mul_1_l, <- Ei; exact Hi).
      pose proof (found_shortest m c 1 _ 1 H H1 ltac:(reflexivity)). assert (c = 1) as -> by lia. change (10 ^ (1 - 1)) with 1 in Ei. lia.
    - pose proof (found_shortest m c i _ (c - 1) H Hi ltac:(lia)). lia.
  Qed.
End One.
