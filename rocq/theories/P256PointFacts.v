(** Points of P-256: the trail to the order of the base point, every point as a multiple of it, the points of SpecP256.v
    and those of P256.v. *)
From Coq Require Import ZArith.Znumtheory ZArith.Zpow_facts Ring Field.
From Verif Require Import Prelude FastMul OrdFacts Cbor Spec SpecWire SpecCbor SpecSha SpecP256 P256 RsaFacts PrimeFacts WeierFacts P256OrderFacts P256FieldFacts.
Local Open Scope Z_scope.

(* ---------------------------------------------------------------- the base point *)

Lemma psi_3 : psi 3 = (1 + 1 + 1)%G.
Proof. change 3 with (1 + 1 + 1). rewrite !psi_add. reflexivity. Qed.
Lemma psi_2 : psi 2 = (1 + 1)%G.
Proof. change 2 with (1 + 1). rewrite !psi_add. reflexivity. Qed.
Lemma qbase_on : gon (Some (psi trail_bx, psi trail_by)).
Proof. cbn [gon won]. unfold gon, won, ga, gb. rewrite <- !psi_mul, <- !psi_add. apply psi_eq, q_base_on. Qed.
Definition qbase : qpt := mkQpt (Some (psi trail_bx, psi trail_by)) qbase_on.

Lemma psi_by_q k : psi (by_q k) = psi 0.
Proof. rewrite by_q_eq, psi_divide, Z.sub_0_r. exists k. reflexivity. Qed.
Lemma line_third l x y x2 k1 k2 x' y' : line_ok l x y x2 k1 k2 x' y' = true ->
  gthird (psi l) (psi x) (psi y) (psi x2) = Some (psi x', psi y').
Proof.
  unfold line_ok, gthird. rewrite !zmul_eq. intros H. apply andb_true_iff in H as [H1 H2]. apply Z.eqb_eq, (f_equal psi) in H1, H2.
  rewrite !psi_sub, psi_mul, psi_by_q in H1. rewrite !psi_sub, psi_mul, psi_sub, psi_by_q in H2. apply gsub_zero in H1, H2.
  rewrite H1, H2. reflexivity.
Qed.
Lemma not_opposed_twice x y : gon (Some (x, y)) -> ~ gopposed x y x y.
Proof.
  intros H [_ E]. apply (g_twice y); [exact (g_y_nonzero x y H)|]. rewrite E at 1. ring.
Qed.
Lemma twice_step P x y l k0 k1 k2 x' y' : qp P = Some (psi x, psi y) ->
  (l * (2 * y) - (3 * (x * x) - 3) =? by_q k0) = true -> line_ok l x y x k1 k2 x' y' = true -> qp (qadd P P) = Some (psi x', psi y').
Proof.
  intros E H HL. pose proof (qp_on P) as Hon. rewrite E in Hon. cbn [qadd qp]. rewrite E. rewrite <- (line_third _ _ _ _ _ _ _ _ HL).
  apply geadd_slope; [exact Hon | exact Hon | exact (not_opposed_twice _ _ Hon)|].
  apply Z.eqb_eq, (f_equal psi) in H. rewrite psi_sub, psi_by_q in H. apply gsub_zero in H.
  rewrite !psi_sub, !psi_mul, psi_2, psi_3 in H. split; [ring|]. rewrite ga_three.
  transitivity (psi l * ((1 + 1) * psi y))%G; [ring|]. rewrite H. ring.
Qed.
Lemma line_step P Q x y bx by' l k0 k1 k2 x' y' : qp P = Some (psi x, psi y) -> qp Q = Some (psi bx, psi by') ->
  psi x <> psi bx -> (l * (x - bx) - (y - by') =? by_q k0) = true -> line_ok l x y bx k1 k2 x' y' = true ->
  qp (qadd P Q) = Some (psi x', psi y').
Proof.
  intros EP EQ Hx H HL. pose proof (qp_on P) as HP. pose proof (qp_on Q) as HQ. rewrite EP in HP. rewrite EQ in HQ.
  cbn [qadd qp]. rewrite EP, EQ. rewrite <- (line_third _ _ _ _ _ _ _ _ HL).
  apply geadd_slope; [exact HP | exact HQ | intros [K _]; exact (Hx K)|].
  apply Z.eqb_eq, (f_equal psi) in H. rewrite psi_sub, psi_by_q in H. apply gsub_zero in H. rewrite psi_mul, !psi_sub in H.
  split; [symmetry; exact H|]. apply (gcancel _ _ (psi x - psi bx)%G); [intros K; apply Hx, gsub_zero, K|].
  unfold gon, won in HP, HQ. set (X := psi x) in *. set (Y := psi y) in *. set (X2 := psi bx) in *. set (Y2 := psi by') in *.
  transitivity ((psi l * (X - X2)) * (Y + Y2))%G; [ring|]. rewrite H. transitivity (Y * Y - Y2 * Y2)%G; [ring|]. rewrite HP, HQ. ring.
Qed.

Definition nN : N := Z.to_N q_n.
Lemma trail_sound steps : reduced steps = true -> forall x y n P x' y' n', 0 <= x < q_p -> qp P = Some (psi x, psi y) -> 1 <= n ->
  P = qtimes (Z.to_N n) qbase -> trail steps x y n = Some (x', y', n') ->
  exists P', qp P' = Some (psi x', psi y') /\ P' = qtimes (Z.to_N n') qbase.
Proof.
  pose proof q_base_range as [Hbx _].
  assert (forall x, 0 <= x < q_p -> negb (x =? trail_bx) = true -> psi x <> psi trail_bx) as Hne.
  { intros x Hx H E. apply psi_small in E; [|exact Hx | lia]. rewrite E, Z.eqb_refl in H. discriminate. }
  assert (forall x y, in_field x y = true -> 0 <= x < q_p) as Hin.
  { intros x y H. unfold in_field in H. rewrite by_q_eq in H. lia. }
  induction steps as [|s rest IH]; cbn [trail]; intros HR x y n P x' y' n' Hx HP Hn En H.
  - apply (f_equal (fun o => match o with Some t => t | None => (0, 0, 0) end)) in H.
    apply pair_equal_spec in H as [H <-]. apply pair_equal_spec in H as [<- <-]. exists P. auto.
  - unfold reduced in HR. cbn [forallb] in HR. apply andb_true_iff in HR as [Hs HR].
    destruct s as [l k0 k1 k2 u v | l k0 k1 k2 u v | l k0 k1 k2 u v]; apply Hin in Hs; rewrite !zmul_eq in H.
    + destruct (_ =? _) eqn:E0 in H; [|discriminate]. cbn [andb] in H. destruct (line_ok l x y x k1 k2 u v) eqn:EL; [|discriminate].
      apply (IH HR u v (2 * n) (qadd P P) x' y' n'); [exact Hs | exact (twice_step _ _ _ _ _ _ _ _ _ HP E0 EL) | lia | | exact H].
      rewrite Z2N.inj_mul, qtimes_mul, <- En by lia. symmetry. exact (qtimes_2 P).
    + destruct (negb (x =? trail_bx)) eqn:Ex; [|discriminate]. cbn [andb] in H.
      destruct (_ =? _) eqn:E0 in H; [|discriminate]. cbn [andb] in H. destruct (line_ok l x y trail_bx k1 k2 u v) eqn:EL; [|discriminate].
      apply (IH HR u v (n + 1) (qadd P qbase) x' y' n'); [exact Hs | exact (line_step P qbase x y trail_bx trail_by l k0 k1 k2 u v HP eq_refl (Hne _ Hx Ex) E0 EL) | lia | | exact H].
      rewrite Z2N.inj_add, qtimes_add, <- En by lia. f_equal. symmetry. exact (qtimes_1 qbase).
    + destruct (Z.ltb_spec 1 n) as [Hn1|]; [|discriminate]. cbn [andb] in H.
      destruct (negb (x =? trail_bx)) eqn:Ex; [|discriminate]. cbn [andb] in H.
      destruct (_ =? _) eqn:E0 in H; [|discriminate]. cbn [andb] in H. destruct (line_ok l x y trail_bx k1 k2 u v) eqn:EL; [|discriminate].
      apply (IH HR u v (n - 1) (qadd P (qneg qbase)) x' y' n'); [exact Hs | | lia | | exact H].
      * refine (line_step _ (qneg qbase) x y trail_bx (- trail_by) l k0 k1 k2 u v HP _ (Hne _ Hx Ex) _ EL).
        -- cbn [qneg qp geneg wneg qbase]. unfold geneg, wneg. rewrite psi_opp. reflexivity.
        -- rewrite Z.sub_opp_r. exact E0.
      * replace n with ((n - 1) + 1) in En by lia. rewrite Z2N.inj_add, qtimes_add, (qtimes_1 qbase : qtimes (Z.to_N 1) qbase = qbase) in En by lia.
        rewrite En, qadd_assoc, qadd_neg. apply qadd_0_r.
Qed.
Lemma base_order : qtimes nN qbase = qzero.
Proof.
  pose proof q_base_range as [Hbx Hby]. pose proof q_n_big as Hn.
  destruct (trail_sound trail_steps trail_field trail_bx trail_by 1 qbase trail_bx (q_p - trail_by) (q_n - 1)) as (P & HP & E);
    [lia | reflexivity | lia | symmetry; exact (qtimes_1 qbase) | exact trail_to_n|].
  unfold nN. replace q_n with ((q_n - 1) + 1) by lia. rewrite Z2N.inj_add, qtimes_add, (qtimes_1 qbase : qtimes (Z.to_N 1) qbase = qbase), <- E by lia.
  assert (P = qneg qbase) as ->.
  { apply qp_eq. rewrite HP. cbn [qneg qp qbase]. unfold geneg, wneg. do 2 f_equal. rewrite <- psi_opp. apply psi_divide.
    exists 1. ring. }
  rewrite qadd_comm. apply qadd_neg.
Qed.
Lemma nN_pos : (200000 < nN)%N.
Proof. unfold nN. pose proof q_n_big. lia. Qed.
Lemma nN_Z : Z.of_N nN = q_n.
Proof. unfold nN. pose proof q_n_big. lia. Qed.
Lemma base_mod n : qtimes (n mod nN) qbase = qtimes n qbase.
Proof. apply qtimes_mod; [pose proof nN_pos; lia | exact base_order]. Qed.
Lemma qbase_nonzero : qbase <> qzero.
Proof. intros E. apply (f_equal qp) in E. discriminate E. Qed.

(** Different multiples below the order are different. *)
Lemma nN_coprime k : (0 < k < nN)%N -> N.gcd nN k = 1%N.
Proof.
  intros Hk. pose proof (N.gcd_divide_l nN k) as Hl. pose proof (N.gcd_divide_r nN k) as Hr. set (g := N.gcd nN k) in *.
  assert (Z.of_N g | q_n) as Hd. { destruct Hl as [c Hc]. exists (Z.of_N c). rewrite <- nN_Z, Hc. lia. }
  assert (0 < g)%N as Hg. { destruct Hl as [c Hc]. pose proof nN_pos. destruct g; lia. }
  assert (g <= k)%N as Hgk. { apply N.divide_pos_le; [lia | exact Hr]. }
  pose proof (prime_divisors q_n q_n_prime _ Hd) as HD. pose proof nN_Z. lia.
Qed.
Lemma times_inj k k' : (k < nN)%N -> (k' < nN)%N -> qtimes k qbase = qtimes k' qbase -> k = k'.
Proof.
  assert (forall a b, (a <= b < nN)%N -> qtimes a qbase = qtimes b qbase -> a = b) as K.
  { intros a b Hab E. destruct (N.eq_dec a b) as [|Hne]; [assumption|]. exfalso. apply qbase_nonzero.
    apply (qtimes_coprime nN (b - a) qbase); [apply nN_coprime; lia | exact base_order|].
    apply (qadd_cancel (qtimes a qbase)). rewrite <- qtimes_add, qadd_0_r. replace (a + (b - a))%N with b by lia. symmetry. exact E. }
  intros Hk Hk' E. destruct (N.le_ge_cases k k') as [H|H]; [apply K; [lia | exact E] | symmetry; apply K; [lia | symmetry; exact E]].
Qed.

(* ---------------------------------------------------------------- every point is a multiple of the base point *)

Definition in_base (P : qpt) : Prop := exists k, P = qtimes k qbase.
Lemma in_base_add P Q : in_base P -> in_base Q -> in_base (qadd P Q).
Proof. intros [k ->] [k' ->]. exists (k + k')%N. symmetry. apply qtimes_add. Qed.
Lemma in_base_neg P : in_base P -> in_base (qneg P).
Proof.
  intros [k ->]. exists (k * (nN - 1))%N. symmetry. apply qneg_unique. rewrite <- qtimes_add.
  replace (k + k * (nN - 1))%N with (k * nN)%N by (pose proof nN_pos; nia). rewrite qtimes_mul, base_order. apply qtimes_zero.
Qed.
Lemma in_base_shift X Y k k' : qadd (qtimes k qbase) X = qadd (qtimes k' qbase) Y -> in_base (qadd X (qneg Y)).
Proof.
  intros E. assert (qadd X (qneg Y) = qadd (qtimes k' qbase) (qneg (qtimes k qbase))) as ->.
  { apply (qadd_cancel (qtimes k qbase)). rewrite <- qadd_assoc, E. rewrite (qadd_assoc (qtimes k' qbase)), qadd_neg, qadd_0_r.
    rewrite (qadd_comm (qtimes k qbase)), qadd_assoc, (qadd_comm (qneg _)), qadd_neg, qadd_0_r. reflexivity. }
  apply in_base_add; [exists k'; reflexivity | apply in_base_neg; exists k; reflexivity].
Qed.

(** No point has order two. *)
Lemma no_half P : qadd P P = qzero -> P = qzero.
Proof.
  intros E. apply qneg_unique in E. apply qp_eq. apply (f_equal qp) in E. cbn [qneg qp qzero] in *. pose proof (qp_on P) as H.
  destruct (qp P) as [[x y]|]; [|reflexivity]. unfold geneg, wneg in E. exfalso. apply (not_opposed_twice x y H).
  split; [reflexivity|]. exact (f_equal (fun o : gpt => match o with Some t => snd t | None => y end) E).
Qed.

(** Points as numbers up to 2 p. *)
Definition code (P : qpt) : Z := match qp P with None => 2 * q_p | Some (x, y) => 2 * qv x + qv y mod 2 end.
Lemma code_range P : 0 <= code P < 2 * q_p + 1.
Proof.
  unfold code. pose proof q_p_pos. destruct (qp P) as [[x y]|]; [|lia]. pose proof (qv_range x). pose proof (Z.mod_pos_bound (qv y) 2). lia.
Qed.
Lemma qv_opp y : y <> psi 0 -> qv (gopp y) = q_p - qv y.
Proof.
  intros Hy. pose proof (qv_range y) as Hr. assert (qv y <> 0) as H0. { intros E. apply Hy. rewrite <- (psi_qv y), E. reflexivity. }
  rewrite <- (psi_qv y) at 1. rewrite <- psi_opp. transitivity (qv (psi (q_p - qv y))); [|apply qv_small; lia].
  f_equal. apply psi_divide. exists (- 1). ring.
Qed.
Lemma q_p_mod : q_p mod 2 = 1.
Proof. rewrite Zmod_odd, q_p_odd. reflexivity. Qed.
Lemma parity_opp y : y <> psi 0 -> qv (gopp y) mod 2 <> qv y mod 2.
Proof.
  intros Hy E. rewrite (qv_opp y Hy) in E. pose proof q_p_mod as Hp. clear -E Hp.
  rewrite Zminus_mod, Hp in E. pose proof (Z.mod_pos_bound (qv y) 2 eq_refl) as Hb.
  assert (forall r, 0 <= r < 2 -> (1 - r) mod 2 <> r) as K by (intros r Hr; assert (r = 0 \/ r = 1) as [-> | ->] by lia; discriminate).
  change (1 mod 2) with 1 in E. exact (K _ Hb E).
Qed.
Lemma code_inj P Q : code P = code Q -> P = Q.
Proof.
  intros E. apply qp_eq. unfold code in E. pose proof (qp_on P) as HP. pose proof (qp_on Q) as HQ.
  destruct (qp P) as [[x y]|], (qp Q) as [[u v]|]; [ | | |reflexivity].
  - pose proof (Z.mod_pos_bound (qv y) 2 eq_refl). pose proof (Z.mod_pos_bound (qv v) 2 eq_refl).
    assert (qv x = qv u) as Ex by lia. apply qv_inj in Ex. subst u. assert (qv y mod 2 = qv v mod 2) as Ey by lia.
    destruct (g_same_x x y v HP HQ) as [-> | ->]; [reflexivity|]. exfalso. exact (parity_opp _ (g_y_nonzero _ _ HQ) Ey).
  - pose proof (qv_range x). pose proof (Z.mod_pos_bound (qv y) 2 eq_refl). lia.
  - pose proof (qv_range u). pose proof (Z.mod_pos_bound (qv v) 2 eq_refl). lia.
Qed.

Lemma nodup_map {A B : Type} (g : A -> B) l : (forall x y, In x l -> In y l -> g x = g y -> x = y) -> NoDup l -> NoDup (map g l).
Proof.
  intros Hg HN. induction HN as [|x l Hx HN IH]; [constructor|]. cbn [map]. constructor.
  - intros K. apply in_map_iff in K as (y & E & Hy). apply Hx. rewrite (Hg x y); [exact Hy | left; reflexivity | right; exact Hy | symmetry; exact E].
  - apply IH. intros u v Hu Hv. apply Hg; right; assumption.
Qed.
Lemma pigeon (a b : Z) (f : Z -> Z) : 0 <= a -> 0 <= b -> (forall i, 0 <= i < a -> 0 <= f i < b) ->
  (forall i j, 0 <= i < a -> 0 <= j < a -> f i = f j -> i = j) -> a <= b.
Proof.
  intros Ha Hb Hr Hi. set (l := map (fun i => f (Z.of_nat i)) (seq 0 (Z.to_nat a))). set (l' := map Z.of_nat (seq 0 (Z.to_nat b))).
  assert (NoDup l) as HN.
  { apply nodup_map; [|apply seq_NoDup]. intros i j Hi1 Hj1 E. apply in_seq in Hi1, Hj1. apply Nat2Z.inj. apply Hi; [lia | lia | exact E]. }
  assert (incl l l') as HI.
  { intros z Hz. apply in_map_iff in Hz as (i & <- & Hin). apply in_seq in Hin. specialize (Hr (Z.of_nat i) ltac:(lia)).
    apply in_map_iff. exists (Z.to_nat (f (Z.of_nat i))). split; [lia|]. apply in_seq. lia. }
  pose proof (NoDup_incl_length HN HI) as HL. unfold l, l' in HL. rewrite !map_length, !seq_length in HL. lia.
Qed.

Lemma half_in_base P : in_base (qadd P P) -> in_base P.
Proof.
  intros [k E]. set (h := ((nN + 1) / 2)%N). assert (2 * h = nN + 1)%N as Hh.
  { unfold h. assert ((nN + 1) mod 2 = 0)%N as Hm.
    { rewrite <- N.bit0_mod. rewrite N.bit0_odd, N.add_1_r, N.odd_succ.
      rewrite <- (N2Z.id nN), nN_Z. pose proof q_n_odd as Ho. rewrite <- nN_Z in Ho. rewrite <- nN_Z, N2Z.id.
      destruct nN as [|[|p|]]; reflexivity || discriminate Ho. }
    pose proof (N.div_mod (nN + 1) 2 ltac:(discriminate)) as Hd. rewrite Hm in Hd. lia. }
  exists (h * k)%N. apply qadd_neg_iff, no_half. rewrite qadd_swap, <- qneg_add, <- qtimes_add.
  replace (h * k + h * k)%N with (2 * h * k)%N by lia. rewrite Hh, N.mul_comm, qtimes_mul, qtimes_add, base_order, qadd_0_l, qtimes_1, E.
  apply qadd_neg.
Qed.
Lemma in_base_dec P : {in_base P} + {~ in_base P}.
Proof.
  destruct (in_dec Z.eq_dec (code P) (map (fun i => code (qtimes (N.of_nat i) qbase)) (seq 0 (N.to_nat nN)))) as [H|H].
  - left. apply in_map_iff in H as (i & E & _). exists (N.of_nat i). symmetry. apply code_inj, E.
  - right. intros [k E]. apply H. apply in_map_iff. exists (N.to_nat (k mod nN)). split.
    + rewrite N2Nat.id, base_mod, <- E. reflexivity.
    + apply in_seq. pose proof (N.mod_lt k nN) as Hm. pose proof nN_pos. lia.
Qed.
Lemma three_cosets P : ~ in_base P -> in_base (qadd P P).
Proof.
  intros HP. destruct (in_base_dec (qadd P P)) as [H|H]; [exact H|]. exfalso.
  pose proof q_p_n as Hpn. pose proof q_n_big as Hn. pose proof q_p_pos as Hp.
  set (f := fun i : Z => code (qadd (qtimes (Z.to_N (i mod q_n)) qbase) (qtimes (Z.to_N (i / q_n)) P))).
  cut (3 * q_n <= 2 * q_p + 1); [lia|]. apply (pigeon (3 * q_n) (2 * q_p + 1) f); [lia | lia | intros i _; apply code_range|].
  intros i j Hi Hj E. apply code_inj in E.
  assert (forall i, 0 <= i < 3 * q_n -> 0 <= i mod q_n < q_n /\ (i / q_n = 0 \/ i / q_n = 1 \/ i / q_n = 2) /\ i = q_n * (i / q_n) + i mod q_n) as Hdiv.
  { clear -Hn. intros i Hi. pose proof (Z.mod_pos_bound i q_n ltac:(lia)) as Hm. pose proof (Z.div_mod i q_n ltac:(lia)) as Hd.
    split; [exact Hm|]. split; [|exact Hd]. set (d := i / q_n) in *. set (r := i mod q_n) in *. clearbody d r.
    assert (0 <= d) by nia. assert (d < 3) by nia. lia. }
  destruct (Hdiv i Hi) as (Hmi & Hdi & Ei). destruct (Hdiv j Hj) as (Hmj & Hdj & Ej).
  set (a := i / q_n) in *. set (b := j / q_n) in *. set (k := i mod q_n) in *. set (m := j mod q_n) in *. clearbody a b k m. clear Hdiv f.
  assert (forall c d, in_base (qadd (qtimes c P) (qneg (qtimes d P))) -> (c = d + 1 \/ c = d + 2)%N -> False) as Hup.
  { intros c d HB [-> | ->].
    - apply HP. replace P with (qadd (qtimes (d + 1) P) (qneg (qtimes d P))); [exact HB|].
      rewrite N.add_comm, qtimes_add, qadd_assoc, qadd_neg, qadd_0_r. apply qtimes_1.
    - apply H. rewrite <- qtimes_2. replace (qtimes 2 P) with (qadd (qtimes (d + 2) P) (qneg (qtimes d P))); [exact HB|].
      rewrite N.add_comm, qtimes_add, qadd_assoc, qadd_neg, qadd_0_r. reflexivity. }
  pose proof (in_base_shift _ _ _ _ E) as H1. pose proof (in_base_shift _ _ _ _ (eq_sym E)) as H2.
  assert (a = b) as Eab.
  { destruct Hdi as [-> | [-> | ->]], Hdj as [-> | [-> | ->]]; try reflexivity; exfalso;
      (apply (Hup _ _ H1); (left; reflexivity) || (right; reflexivity)) || (apply (Hup _ _ H2); (left; reflexivity) || (right; reflexivity)). }
  subst b. assert (qtimes (Z.to_N k) qbase = qtimes (Z.to_N m) qbase) as Ek.
  { apply (qadd_cancel (qtimes (Z.to_N a) P)). rewrite (qadd_comm _ (qtimes (Z.to_N k) qbase)), (qadd_comm _ (qtimes (Z.to_N m) qbase)). exact E. }
  apply times_inj in Ek; [|unfold nN; lia | unfold nN; lia]. apply Z2N.inj in Ek; lia.
Qed.
(** Every point is a multiple of the base point. *)
Lemma all_in_base P : in_base P.
Proof. destruct (in_base_dec P) as [H|H]; [exact H|]. apply half_in_base, three_cosets, H. Qed.
Lemma all_order P : qtimes nN P = qzero.
Proof. destruct (all_in_base P) as [k ->]. rewrite qtimes_comm, base_order. apply qtimes_zero. Qed.
Lemma all_mod n P : qtimes (n mod nN) P = qtimes n P.
Proof. apply qtimes_mod; [pose proof nN_pos; lia | apply all_order]. Qed.

(* ---------------------------------------------------------------- the points of SpecP256.v *)

Lemma pmod_iff a b : pmod a b <-> psi a = psi b.
Proof. unfold pmod. rewrite p256_prime_eq. symmetry. apply psi_divide. Qed.
Definition gp (P : gpt) : option (Z * Z) := match P with None => None | Some (x, y) => Some (qv x, qv y) end.
Definition pp (P : qpt) : option (Z * Z) := gp (qp P).
Lemma gp_inj P Q : gp P = gp Q -> P = Q.
Proof.
  destruct P as [[x y]|], Q as [[u v]|]; cbn [gp]; intros E; try discriminate; [|reflexivity].
  apply (f_equal (fun o => match o with Some t => t | None => (0, 0) end)) in E. apply pair_equal_spec in E as [E1 E2].
  apply qv_inj in E1, E2. subst. reflexivity.
Qed.
Lemma pp_inj P Q : pp P = pp Q -> P = Q.
Proof. intros E. apply qp_eq, gp_inj, E. Qed.
Lemma p_pair_iff x y : p_pair (x, y) <-> 0 <= x < q_p /\ 0 <= y < q_p /\ gon (Some (psi x, psi y)).
Proof.
  unfold p_pair, gon, won. cbn [fst snd]. rewrite p256_prime_eq, pmod_iff, psi_mul, psi_add, psi_sub, !psi_mul, p256_b_eq, ga_three, psi_3.
  fold gb. split; intros (Hx & Hy & H); (split; [exact Hx|]; split; [exact Hy|]); rewrite H; ring.
Qed.
Lemma pp_point P : p_point (pp P).
Proof.
  intros [x y] E. pose proof (qp_on P) as H. unfold pp in E. destruct (qp P) as [[u v]|]; cbn [gp] in E; [|discriminate].
  apply (f_equal (fun o => match o with Some t => t | None => (0, 0) end)) in E. apply pair_equal_spec in E as [<- <-].
  apply p_pair_iff. rewrite !psi_qv. split; [apply qv_range|]. split; [apply qv_range | exact H].
Qed.
Lemma point_pp R : p_point R -> exists P, R = pp P.
Proof.
  destruct R as [[x y]|]; intros H; [|exists qzero; reflexivity]. specialize (H _ eq_refl). apply p_pair_iff in H as (Hx & Hy & H).
  exists (mkQpt _ H). unfold pp. cbn [qp gp]. rewrite !qv_small by assumption. reflexivity.
Qed.
Lemma pair_pp xy : p_pair xy -> exists P, Some xy = pp P.
Proof. intros H. apply point_pp. intros xy' E. apply (f_equal (fun o => match o with Some t => t | None => xy end)) in E. subst. exact H. Qed.
Lemma pp_base : pp qbase = p_base.
Proof.
  rewrite p_base_eq. unfold pp. cbn [qbase qp gp]. destruct q_base_range as [Hx Hy]. rewrite !qv_small by lia. reflexivity.
Qed.
Lemma pp_zero : pp qzero = None.
Proof. reflexivity. Qed.

Lemma third_iff l x1 y1 x2 R : p_third l x1 y1 x2 R <-> Some R = gp (gthird (psi l) (psi x1) (psi y1) (psi x2)).
Proof.
  destruct R as [x y]. unfold p_third, gthird. cbn [fst snd gp]. rewrite p256_prime_eq, !pmod_iff, !psi_sub, !psi_mul, !psi_sub.
  set (X := (psi l * psi l - psi x1 - psi x2)%G). split.
  - intros (Hx & Hy & E1 & E2). rewrite E1 in E2. f_equal. apply pair_equal_spec. split.
    + rewrite <- E1. symmetry. apply qv_small, Hx.
    + rewrite <- E2. symmetry. apply qv_small, Hy.
  - intros E. apply (f_equal (fun o => match o with Some t => t | None => (0, 0) end)) in E. apply pair_equal_spec in E as [-> ->].
    rewrite !psi_qv. repeat split; apply qv_range.
Qed.
Lemma gslope_tangent l x y : (l * ((1 + 1) * y) = (1 + 1 + 1) * (x * x) - (1 + 1 + 1))%G -> gslope l x y x y.
Proof. intros H. split; [ring|]. rewrite ga_three. transitivity (l * ((1 + 1) * y))%G; [ring|]. rewrite H. ring. Qed.
Lemma gslope_chord l x1 y1 x2 y2 : gon (Some (x1, y1)) -> gon (Some (x2, y2)) -> x1 <> x2 -> (l * (x2 - x1) = y2 - y1)%G -> gslope l x1 y1 x2 y2.
Proof.
  intros H1 H2 Hx H. assert (y1 - y2 = l * (x1 - x2))%G as E. { transitivity (- (y2 - y1))%G; [ring|]. rewrite <- H. ring. }
  split; [exact E|]. apply (gcancel _ _ (x1 - x2)%G); [intros K; apply Hx, gsub_zero, K|].
  transitivity ((l * (x1 - x2)) * (y1 + y2))%G; [ring|]. rewrite <- E. unfold gon, won in H1, H2.
  transitivity (y1 * y1 - y2 * y2)%G; [ring|]. rewrite H1, H2. ring.
Qed.

Lemma p_sum_iff P Q R : p_sum (pp P) (pp Q) R <-> R = pp (qadd P Q).
Proof.
  pose proof (qp_on P) as HP. pose proof (qp_on Q) as HQ. unfold pp. cbn [qadd qp].
  destruct (qp P) as [[x1 y1]|]; [destruct (qp Q) as [[x2 y2]|]|].
  - cbn [gp]. split.
    + intros H. inversion H as [ | | x y y' Hy E1 E2 E3 | a1 b1 a2 b2 l R' Hx Hl HR E1 E2 E3 | x y l R' Hy Hl HR E1 E2 E3]; clear H; subst.
      * apply pmod_iff in Hy. rewrite psi_add, !psi_qv in Hy. symmetry.
        match goal with H : qv x1 = qv x2 |- _ => apply qv_inj in H; subst x2 | H : qv x2 = qv x1 |- _ => apply qv_inj in H; subst x2 end.
        rewrite geadd_opposed; [reflexivity | exact HP|]. split; [reflexivity|]. apply gsub_zero. transitivity (y1 + y2)%G; [ring | exact Hy].
      * apply pmod_iff in Hl. rewrite psi_mul, !psi_sub, !psi_qv in Hl. apply third_iff in HR. rewrite !psi_qv in HR. rewrite HR. f_equal. symmetry.
        assert (x1 <> x2) as Hne by (intros ->; apply Hx; reflexivity).
        apply geadd_slope; [exact HP | exact HQ | intros [K _]; exact (Hne K) | apply gslope_chord; assumption].
      * match goal with H : qv x1 = qv x2 |- _ => apply qv_inj in H; subst x2 | H : qv x2 = qv x1 |- _ => apply qv_inj in H; subst x2 end.
        match goal with H : qv y1 = qv y2 |- _ => apply qv_inj in H; subst y2 | H : qv y2 = qv y1 |- _ => apply qv_inj in H; subst y2 end.
        apply pmod_iff in Hl. rewrite psi_sub, !psi_mul, !psi_qv, psi_2, psi_3 in Hl. apply third_iff in HR. rewrite !psi_qv in HR. rewrite HR. f_equal. symmetry.
        apply geadd_slope; [exact HP | exact HP | exact (not_opposed_twice _ _ HP) | apply gslope_tangent, Hl].
    + intros ->. destruct (QF_dec x1 x2) as [->|Hx].
      * destruct (g_same_x _ _ _ HP HQ) as [-> | Hy].
        -- set (l := qv (((1 + 1 + 1) * (x2 * x2) - (1 + 1 + 1)) / ((1 + 1) * y2))%G).
           assert (gslope (psi l) x2 y2 x2 y2) as HS.
           { apply gslope_tangent. unfold l. rewrite psi_qv. field. split; [exact (g_y_nonzero _ _ HP) | exact g_two]. }
           rewrite (geadd_slope _ _ _ _ _ HP HP (not_opposed_twice _ _ HP) HS).
           destruct (gp (gthird (psi l) x2 y2 x2)) as [R|] eqn:E; [|discriminate E]. apply Sum_tangent with (l := l).
           ++ rewrite pmod_iff, psi_qv. exact (g_y_nonzero _ _ HP).
           ++ apply pmod_iff. rewrite psi_sub, !psi_mul, !psi_qv, psi_2, psi_3. unfold l. rewrite psi_qv. field. split; [exact (g_y_nonzero _ _ HP) | exact g_two].
           ++ apply third_iff. rewrite !psi_qv. symmetry. exact E.
        -- rewrite geadd_opposed; [|exact HP | split; [reflexivity | exact Hy]]. apply Sum_opposite. apply pmod_iff. rewrite psi_add, !psi_qv, Hy. ring.
      * assert (x2 - x1 <> 0)%G as Hd by (intros K; apply Hx; symmetry; apply gsub_zero, K).
        set (l := qv ((y2 - y1) / (x2 - x1))%G).
        assert (psi l * (x2 - x1) = y2 - y1)%G as El by (unfold l; rewrite psi_qv; field; exact Hd).
        rewrite (geadd_slope (psi l) _ _ _ _ HP HQ); [|intros [K _]; exact (Hx K) | apply gslope_chord; assumption].
        destruct (gp (gthird (psi l) x1 y1 x2)) as [R|] eqn:E; [|discriminate E]. apply Sum_chord with (l := l).
        -- intros K. apply Hx, qv_inj, K.
        -- apply pmod_iff. rewrite psi_mul, !psi_sub, !psi_qv. exact El.
        -- apply third_iff. rewrite !psi_qv. symmetry. exact E.
  - cbn [gp geadd wadd]. split; [|intros ->; apply Sum_zero_r]. intros H. inversion H; subst; reflexivity.
  - cbn [gp]. change (geadd None (qp Q)) with (qp Q). split; [|intros ->; apply Sum_zero_l]. intros H. inversion H; subst; reflexivity || assumption.
Qed.
Lemma p_multiple_iff n P R : p_multiple (pp P) n R <-> R = pp (qtimes n P).
Proof.
  revert R. induction n as [|n IH] using N.peano_ind; intros R.
  - split; [|intros ->; apply PM_zero]. intros H. inversion H as [|m ? ? ? ? E]; [reflexivity | destruct (N.neq_succ_0 m E)].
  - rewrite qtimes_S. split.
    + intros H. inversion H as [E|m R' ? HM HS E]; [destruct (N.neq_succ_0 n (eq_sym E))|]. apply N.succ_inj in E. subst.
      apply IH in HM. subst R'. apply p_sum_iff, HS.
    + intros ->. apply PM_more with (pp (qtimes n P)); [apply IH; reflexivity | apply p_sum_iff; reflexivity].
Qed.
