(** Proving primes by certificates (Pocklington), and the field of residues modulo a prime. *)
From Coq Require Import ZArith.Znumtheory ZArith.Zpow_facts Field Eqdep_dec Bool.
From Verif Require Import Prelude FastMul RsaFacts.
Local Open Scope Z_scope.

(* ------------------------------------------------------------- Pocklington *)

Lemma prime_divisor n : 1 < n -> exists r, prime r /\ (r | n).
Proof.
  intros Hn. assert (0 <= n) as H0 by lia. revert Hn. pattern n. apply Z_lt_induction; [|exact H0]. clear n H0. intros n IH Hn.
  destruct (prime_dec n) as [Hp|Hp]; [exists n; split; [exact Hp | apply Z.divide_refl]|].
  apply not_prime_divide in Hp as (m & Hm & Hd); [|lia]. destruct (IH m ltac:(lia) ltac:(lia)) as (r & Hr & Hrm).
  exists r. split; [exact Hr | apply Z.divide_trans with m; assumption].
Qed.
Lemma small_prime_divisor n : 1 < n -> ~ prime n -> exists r, prime r /\ (r | n) /\ r * r <= n.
Proof.
  intros Hn Hp. apply not_prime_divide in Hp as (m & Hm & [k Hk]); [|lia]. assert (1 < k < n) by nia.
  destruct (Z_le_gt_dec m k) as [Hmk|Hmk].
  - destruct (prime_divisor m ltac:(lia)) as (r & Hr & Hd). exists r. split; [exact Hr|]. split; [apply Z.divide_trans with m; [exact Hd | exists k; lia]|].
    apply Z.divide_pos_le in Hd; [|lia]. destruct Hr as [Hr _]. nia.
  - destruct (prime_divisor k ltac:(lia)) as (r & Hr & Hd). exists r. split; [exact Hr|]. split; [apply Z.divide_trans with k; [exact Hd | exists m; lia]|].
    apply Z.divide_pos_le in Hd; [|lia]. destruct Hr as [Hr _]. nia.
Qed.

Lemma pow_mod_one b m e : 1 < m -> 0 <= e -> b mod m = 1 -> b ^ e mod m = 1.
Proof. intros Hm He Hb. rewrite Zpower_mod, Hb, Z.pow_1_l by lia. apply Z.mod_1_l. lia. Qed.

Lemma positive_inverse q m : rel_prime q m -> 0 < m -> 0 < q -> exists s w, 0 < s /\ 0 <= w /\ s * q = 1 + w * m.
Proof.
  intros Hrel Hm Hq. destruct (rel_prime_bezout _ _ Hrel) as [s t Hst]. pose proof (Z.mod_pos_bound s m Hm) as Hs.
  pose proof (Z.div_mod s m ltac:(lia)) as Hd. set (x := s / m) in *. set (y := s mod m) in *. clearbody x y.
  exists (y + m), (- t - x * q + q). assert ((y + m) * q = 1 + (- t - x * q + q) * m) as E by lia. split; [lia|]. split; [|exact E].
  assert (0 < (y + m) * q) by (apply Z.mul_pos_pos; lia). set (w := - t - x * q + q) in *. clearbody w.
  destruct (Z.lt_ge_cases w 0) as [Hw|Hw]; [|exact Hw]. assert (w * m < 0) by (apply Z.mul_neg_pos; lia). lia.
Qed.

(** A prime factor [q] of n - 1 with a base [a] forces the prime divisors of n into 1 modulo q. *)
Lemma pocklington_step n q R a r : 1 < n -> prime q -> n - 1 = q * R -> 0 <= R -> a ^ (n - 1) mod n = 1 ->
  (exists u v, u * (a ^ R - 1) + v * n = 1) -> prime r -> (r | n) -> (q | r - 1).
Proof.
  intros Hn Hq HR HR0 Ha (u & v & Hu) Hr Hrn. pose proof Hr as [Hr1 _]. pose proof Hq as [Hq1 _].
  assert (0 <= q /\ 0 < q /\ 0 < r /\ 0 < n /\ 0 < r - 1 /\ 0 <= r - 1 /\ r <> 0) as (Hq0 & Hq2 & Hr2 & Hn2 & Hr3 & Hr4 & Hr5) by (clear -Hr1 Hq1 Hn; lia).
  destruct (Zdivide_dec q (r - 1)) as [Hd|Hd]; [exact Hd|]. exfalso.
  assert (rel_prime q (r - 1)) as Hrel by (apply prime_rel_prime; assumption).
  assert (Hb : (a ^ R) ^ q mod r = 1).
  { rewrite <- Z.pow_mul_r by assumption. rewrite (Z.mul_comm R), <- HR, (Zmod_div_mod r n), Ha by assumption. apply Z.mod_1_l, Hr1. }
  set (b := a ^ R) in *. clearbody b.
  assert (Hnd : ~ (r | b)).
  { intros H. apply Z.mod_divide in H; [|exact Hr5]. rewrite Zpower_mod, H, Z.pow_0_l in Hb by assumption. rewrite Z.mod_0_l in Hb by assumption. discriminate. }
  pose proof (fermat r Hr b Hnd) as HF.
  destruct (positive_inverse q (r - 1)) as (s & w & Hs & Hw0 & Hw); [exact Hrel | exact Hr3 | exact Hq2|].
  assert (0 <= s) as Hs0 by (apply Z.lt_le_incl, Hs).
  assert (b ^ (s * q) mod r = 1) as H1.
  { rewrite Z.mul_comm, Z.pow_mul_r by assumption. apply pow_mod_one; assumption. }
  rewrite Hw, Z.pow_add_r, Z.pow_1_r, Z.mul_comm, (Z.mul_comm w), Z.pow_mul_r in H1
    by (assumption || discriminate || (apply Z.mul_nonneg_nonneg; assumption)).
  rewrite Zmult_mod, (pow_mod_one _ r w Hr1 Hw0 HF), Z.mul_1_l, Z.mod_mod in H1 by assumption.
  assert ((r | b - 1)) as Hd1. { apply Z.mod_divide; [exact Hr5|]. rewrite Zminus_mod, H1, Z.mod_1_l by assumption. apply Z.mod_0_l, Hr5. }
  assert ((r | 1)) as H2. { rewrite <- Hu. apply Z.divide_add_r; apply Z.divide_mul_r; assumption. }
  apply Z.divide_1_r in H2. clear -H2 Hr1. lia.
Qed.

(** One factor above the square root. *)
Lemma pocklington n q R a : 1 < n -> prime q -> n - 1 = q * R -> 0 <= R < q -> a ^ (n - 1) mod n = 1 ->
  (exists u v, u * (a ^ R - 1) + v * n = 1) -> prime n.
Proof.
  intros Hn Hq HR HR0 Ha Hg. destruct (prime_dec n) as [Hp|Hp]; [exact Hp|]. exfalso.
  apply small_prime_divisor in Hp as (r & Hr & Hrn & Hle); [|lia].
  pose proof (pocklington_step n q R a r Hn Hq HR ltac:(lia) Ha Hg Hr Hrn) as Hd. destruct Hr as [Hr1 _].
  apply Z.divide_pos_le in Hd; [|lia]. nia.
Qed.
(** Two factors. *)
Lemma pocklington2 n q q' R R' a : 1 < n -> prime q -> prime q' -> q <> q' -> n - 1 = q * R -> n - 1 = q' * R' -> n < q * q' * (q * q') ->
  a ^ (n - 1) mod n = 1 -> (exists u v, u * (a ^ R - 1) + v * n = 1) -> (exists u v, u * (a ^ R' - 1) + v * n = 1) -> prime n.
Proof.
  intros Hn Hq Hq' Hne HR HR' Hlt Ha Hg Hg'. pose proof Hq as [Hq1 _]. pose proof Hq' as [Hq1' _].
  destruct (prime_dec n) as [Hp|Hp]; [exact Hp|]. exfalso.
  apply small_prime_divisor in Hp as (r & Hr & Hrn & Hle); [|lia].
  pose proof (pocklington_step n q R a r Hn Hq HR ltac:(nia) Ha Hg Hr Hrn) as [k Hk].
  pose proof (pocklington_step n q' R' a r Hn Hq' HR' ltac:(nia) Ha Hg' Hr Hrn) as Hd'. destruct Hr as [Hr1 _].
  rewrite Hk in Hd'. apply prime_mult in Hd' as [Hd'|Hd']; [| |exact Hq'].
  - destruct Hd' as [j ->]. clear -Hk Hle Hlt Hq1 Hq1' Hr1. assert (0 < q * q') as Hm by (apply Z.mul_pos_pos; lia).
    replace (j * q' * q) with (j * (q * q')) in Hk by lia. set (m := q * q') in *. clearbody m.
    assert (0 < j). { destruct (Z.lt_ge_cases 0 j) as [H|H]; [exact H|]. pose proof (Z.mul_nonpos_nonneg j m H). lia. }
    assert (m < r) by nia. assert (m * m < r * r) by nia. lia.
  - apply prime_div_prime in Hd'; [congruence | exact Hq' | exact Hq].
Qed.

(** Powers by squaring, with the quotients of the reductions given. *)
Fixpoint chain (n a : Z) (steps : list (bool * Z)) (y : Z) : Z :=
  match steps with
  | [] => y
  | (b, k) :: steps' => chain n a steps' ((if b : bool then zmul a (zmul y y) else zmul y y) - zmul k n)
  end.
Fixpoint chain_exp (steps : list (bool * Z)) (e : Z) : Z :=
  match steps with
  | [] => e
  | (b, _) :: steps' => chain_exp steps' (2 * e + (if b : bool then 1 else 0))
  end.
Lemma chain_spec n a steps : n <> 0 -> forall e y, 0 <= e -> a ^ e mod n = y mod n ->
  0 <= chain_exp steps e /\ a ^ chain_exp steps e mod n = chain n a steps y mod n.
Proof.
  intros Hn. induction steps as [|[b k] steps IH]; intros e y He E; [split; assumption|]. cbn [chain chain_exp]. rewrite !zmul_eq. apply IH.
  - destruct b; lia.
  - replace ((if b then a * (y * y) else y * y) - k * n) with ((if b then a * (y * y) else y * y) + (- k) * n) by lia.
    rewrite Z.mod_add by exact Hn. destruct b.
    + replace (2 * e + 1) with (1 + (e + e)) by lia. rewrite !Z.pow_add_r, Z.pow_1_r by lia.
      rewrite (Zmult_mod a), (Zmult_mod (a ^ e)), E, <- (Zmult_mod y), <- Zmult_mod. reflexivity.
    + replace (2 * e + 0) with (e + e) by lia. rewrite Z.pow_add_r by lia. rewrite (Zmult_mod (a ^ e)), E, <- Zmult_mod. reflexivity.
Qed.
Lemma chain_pow n a steps e y : n <> 0 -> chain_exp steps 0 = e -> chain n a steps 1 = y -> a ^ e mod n = y mod n.
Proof. intros Hn <- <-. apply chain_spec; [exact Hn | lia | rewrite Z.pow_0_r; reflexivity]. Qed.

(* ----------------------------------------------------------- residues, a field *)

Section Residues.
  Variable p : Z.
  Hypothesis Hp : prime p.
  Let p1 : 1 < p.
  Proof. destruct Hp. lia. Qed.
  Let p0 : p <> 0.
  Proof. pose proof p1. lia. Qed.

  Record res_mod := mkRes { rv : Z; rv_ok : (rv mod p =? rv) = true }.
  Lemma rv_mod x : rv x mod p = rv x.
  Proof. apply Z.eqb_eq, rv_ok. Qed.
  Lemma rv_range x : 0 <= rv x < p.
  Proof. rewrite <- rv_mod. apply Z.mod_pos_bound. pose proof p1. lia. Qed.
  Lemma res_eq x y : rv x = rv y -> x = y.
  Proof. destruct x as [x Hx], y as [y Hy]. cbn [rv]. intros <-. f_equal. apply UIP_dec, bool_dec. Qed.
  Definition of_Z (z : Z) : res_mod := mkRes (z mod p) (proj2 (Z.eqb_eq _ _) (Z.mod_mod z p p0)).
  Lemma rv_of z : rv (of_Z z) = z mod p.
  Proof. reflexivity. Qed.
  Lemma of_rv x : of_Z (rv x) = x.
  Proof. apply res_eq. rewrite rv_of. apply rv_mod. Qed.
  Lemma of_eq a b : of_Z a = of_Z b <-> a mod p = b mod p.
  Proof. split; [intros E; apply (f_equal rv) in E; exact E | intros E; apply res_eq; exact E]. Qed.
  Lemma of_mod z : of_Z (z mod p) = of_Z z.
  Proof. apply of_eq, Z.mod_mod, p0. Qed.

  Definition radd x y := of_Z (rv x + rv y).
  Definition rmul x y := of_Z (rv x * rv y).
  Definition rsub x y := of_Z (rv x - rv y).
  Definition ropp x := of_Z (- rv x).
  Definition rinv x := of_Z (rv x ^ (p - 2)).
  Definition rdiv x y := rmul x (rinv y).

  Lemma of_add a b : of_Z (a + b) = radd (of_Z a) (of_Z b).
  Proof. apply of_eq. rewrite !rv_of. apply Zplus_mod. Qed.
  Lemma of_mul a b : of_Z (a * b) = rmul (of_Z a) (of_Z b).
  Proof. apply of_eq. rewrite !rv_of. apply Zmult_mod. Qed.
  Lemma of_sub a b : of_Z (a - b) = rsub (of_Z a) (of_Z b).
  Proof. apply of_eq. rewrite !rv_of. apply Zminus_mod. Qed.
  Lemma of_opp a : of_Z (- a) = ropp (of_Z a).
  Proof. apply of_eq. rewrite rv_of. replace (- a) with (0 - a) by lia. replace (- (a mod p)) with (0 - a mod p) by lia. symmetry. apply Zminus_mod_idemp_r. Qed.

  Lemma res_ind (P : res_mod -> Prop) : (forall z, P (of_Z z)) -> forall x, P x.
  Proof. intros H x. rewrite <- of_rv. apply H. Qed.
  Lemma zero_iff z : of_Z z = of_Z 0 <-> (p | z).
  Proof. rewrite of_eq, Z.mod_0_l by exact p0. apply Z.mod_divide, p0. Qed.

  Lemma residue_ring : ring_theory (of_Z 0) (of_Z 1) radd rmul rsub ropp eq.
  Proof.
    constructor; intros; repeat match goal with x : res_mod |- _ => revert x; apply res_ind; intros ? end;
      rewrite <- ?of_opp, <- ?of_sub, <- ?of_add, <- ?of_mul, <- ?of_add, <- ?of_mul, <- ?of_add; f_equal; lia.
  Qed.
  Lemma residue_field : field_theory (of_Z 0) (of_Z 1) radd rmul rsub ropp rdiv rinv eq.
  Proof.
    constructor; [exact residue_ring | | reflexivity|].
    - intros E. apply of_eq in E. rewrite Z.mod_0_l, Z.mod_1_l in E by (exact p1 || exact p0). discriminate.
    - apply (res_ind (fun x => x <> of_Z 0 -> rmul (rinv x) x = of_Z 1)). intros z Hz. pose proof p1. apply of_eq. unfold rinv. rewrite !rv_of, Zmult_mod_idemp_l, <- Zmult_mod_idemp_r.
      rewrite zero_iff in Hz. rewrite Z.mod_mod by exact p0. rewrite Zmult_mod_idemp_r.
      rewrite <- Zmult_mod_idemp_l, <- Zpower_mod, Zmult_mod_idemp_l by lia. rewrite Z.mul_comm, <- Z.pow_succ_r by lia.
      replace (Z.succ (p - 2)) with (p - 1) by lia. rewrite Z.mod_1_l by exact p1. apply fermat; [exact Hp | exact Hz].
  Qed.
  Lemma res_dec (x y : res_mod) : {x = y} + {x <> y}.
  Proof. destruct (Z.eq_dec (rv x) (rv y)) as [E|E]; [left; apply res_eq, E | right; intros ->; apply E; reflexivity]. Qed.
End Residues.
