(** The field and the group behind P256.v: residues modulo the prime, and the points of the curve over them. *)
From Coq Require Import ZArith.Znumtheory ZArith.Zpow_facts Ring Field Eqdep_dec.
From Verif Require Import Prelude OrdFacts P256 SpecP256 RsaFacts PrimeFacts WeierFacts P256PrimeFacts P256OrderFacts.
Local Open Scope Z_scope.

(* ------------------------------------------------------------------ the field *)

Lemma q_prime : prime q_p.
Proof. exact prime_p256. Qed.
Lemma q_n_prime : prime q_n.
Proof. exact prime_n256. Qed.
Lemma q_p_pos : 2 < q_p.
Proof. reflexivity. Qed.
Lemma q_p_big : 200000 < q_p.
Proof. reflexivity. Qed.
Lemma q_n_big : 200000 < q_n.
Proof. reflexivity. Qed.
Lemma q_p_odd : Z.odd q_p = true.
Proof. reflexivity. Qed.
Lemma q_n_odd : Z.odd q_n = true.
Proof. reflexivity. Qed.
Lemma q_n_p : q_n < q_p.
Proof. reflexivity. Qed.
Lemma q_p_n : 2 * q_p + 1 < 3 * q_n.
Proof. reflexivity. Qed.
Lemma q_p_le : q_p < 256 ^ 32.
Proof. reflexivity. Qed.
Lemma q_inv_power : 0xffffffff00000001000000000000000000000000fffffffffffffffffffffffd = q_p - 2.
Proof. reflexivity. Qed.
Lemma q_ninv_power : 0xffffffff00000000ffffffffffffffffbce6faada7179e84f3b9cac2fc63254f = q_n - 2.
Proof. reflexivity. Qed.
Lemma q_sqrt_power : 4 * 0x3fffffffc0000000400000000000000000000000400000000000000000000000 = q_p + 1.
Proof. reflexivity. Qed.
(** A root of t^2 + b t + 1, and the third part of p - 1. *)
Definition q_t : Z := 0xe6bc85a78096c1f9b695d42f2c755e0275c2a78c319ffe2632a254c7351713cf.
Definition q_h : Z := 38597363070118749587565815649802524510028714471763438065177877102955699284650.
Definition q_w : Z := 80768483248157236106747038522432628956378793144262492973261479290122044592944.
Lemma q_t_root : (q_t * q_t + q_b * q_t + 1) mod q_p = 0 mod q_p.
Proof. vm_compute. reflexivity. Qed.
Lemma q_t_nonzero : q_t mod q_p <> 0 mod q_p.
Proof. vm_compute. discriminate. Qed.
Lemma q_t_cube : q_t ^ q_h mod q_p = q_w.
Proof. exact noncube_p256. Qed.
Lemma q_w_one : q_w <> 1.
Proof. discriminate. Qed.
Lemma q_third : q_p - 1 = 3 * q_h.
Proof. reflexivity. Qed.
Lemma q_h_pos : 0 < q_h.
Proof. reflexivity. Qed.
Lemma q_b_four : (q_b * q_b) mod q_p <> 4 mod q_p.
Proof. vm_compute. discriminate. Qed.
Lemma q_b_range : 0 < q_b < q_p.
Proof. split; reflexivity. Qed.
Lemma q_base_on : (trail_by * trail_by) mod q_p = (trail_bx * trail_bx * trail_bx + - (3) * trail_bx + q_b) mod q_p.
Proof. vm_compute. reflexivity. Qed.
Lemma q_base_eq : q_base = (trail_bx, trail_by).
Proof. reflexivity. Qed.
Lemma q_base_range : 0 < trail_bx < q_p /\ 0 < trail_by < q_p.
Proof. repeat split. Qed.
Lemma p_base_eq : p_base = Some (trail_bx, trail_by).
Proof. reflexivity. Qed.
Lemma trail_to_n : trail trail_steps trail_bx trail_by 1 = Some (trail_bx, q_p - trail_by, q_n - 1).
Proof. exact trail_end. Qed.
Lemma trail_field : reduced trail_steps = true.
Proof. exact trail_reduced. Qed.
Lemma by_q_eq k : by_q k = k * q_p.
Proof.
  unfold by_q, q_p. rewrite !Z.shiftl_mul_pow2 by discriminate.
  change 0xffffffff00000001000000000000000000000000ffffffffffffffffffffffff with (2 ^ 256 - 2 ^ 224 + 2 ^ 192 + 2 ^ 96 - 1). ring.
Qed.
Lemma p256_prime_eq : p256_prime = q_p.
Proof. reflexivity. Qed.
Lemma p256_order_eq : p256_order = q_n.
Proof. reflexivity. Qed.
Lemma p256_b_eq : p256_b = q_b.
Proof. reflexivity. Qed.
Global Opaque q_p q_n q_b q_t q_h q_w trail_bx trail_by trail_steps.

Definition QF : Type := res_mod q_p.
Definition psi : Z -> QF := of_Z q_p q_prime.
Definition gadd : QF -> QF -> QF := radd q_p q_prime.
Definition gmul : QF -> QF -> QF := rmul q_p q_prime.
Definition gsub : QF -> QF -> QF := rsub q_p q_prime.
Definition gopp : QF -> QF := ropp q_p q_prime.
Definition gdiv : QF -> QF -> QF := rdiv q_p q_prime.
Definition ginv : QF -> QF := rinv q_p q_prime.
Definition qv : QF -> Z := rv q_p.

Lemma QF_field : field_theory (psi 0) (psi 1) gadd gmul gsub gopp gdiv ginv eq.
Proof. exact (residue_field q_p q_prime). Qed.
Lemma QF_dec (x y : QF) : {x = y} + {x <> y}.
Proof. exact (res_dec q_p x y). Qed.
Lemma psi_add a b : psi (a + b) = gadd (psi a) (psi b).
Proof. exact (of_add q_p q_prime a b). Qed.
Lemma psi_mul a b : psi (a * b) = gmul (psi a) (psi b).
Proof. exact (of_mul q_p q_prime a b). Qed.
Lemma psi_sub a b : psi (a - b) = gsub (psi a) (psi b).
Proof. exact (of_sub q_p q_prime a b). Qed.
Lemma psi_opp a : psi (- a) = gopp (psi a).
Proof. exact (of_opp q_p q_prime a). Qed.
Lemma psi_mod a : psi (a mod q_p) = psi a.
Proof. exact (of_mod q_p q_prime a). Qed.
Lemma psi_eq a b : psi a = psi b <-> a mod q_p = b mod q_p.
Proof. exact (of_eq q_p q_prime a b). Qed.
Lemma psi_qv x : psi (qv x) = x.
Proof. exact (of_rv q_p q_prime x). Qed.
Lemma qv_psi a : qv (psi a) = a mod q_p.
Proof. exact (rv_of q_p q_prime a). Qed.
Lemma qv_small a : 0 <= a < q_p -> qv (psi a) = a.
Proof. intros H. rewrite qv_psi. apply Z.mod_small, H. Qed.
Lemma qv_range x : 0 <= qv x < q_p.
Proof. exact (rv_range q_p q_prime x). Qed.
Lemma qv_inj x y : qv x = qv y -> x = y.
Proof. exact (res_eq q_p x y). Qed.
Lemma psi_divide a b : psi a = psi b <-> (q_p | a - b).
Proof.
  rewrite <- (zero_iff q_p q_prime). fold (psi (a - b)) (psi 0). rewrite psi_sub. split.
  - intros ->. apply (we_zero_sub _ _ _ _ _ _ _ _ _ QF_field). reflexivity.
  - apply (we_sub_zero _ _ _ _ _ _ _ _ _ QF_field).
Qed.
Lemma psi_small a b : 0 <= a < q_p -> 0 <= b < q_p -> psi a = psi b -> a = b.
Proof. intros Ha Hb H. apply psi_eq in H. rewrite !Z.mod_small in H by assumption. exact H. Qed.

Declare Scope qf_scope.
Delimit Scope qf_scope with G.
Notation "0" := (psi 0) : qf_scope.
Notation "1" := (psi 1) : qf_scope.
Infix "+" := gadd : qf_scope.
Infix "*" := gmul : qf_scope.
Infix "-" := gsub : qf_scope.
Infix "/" := gdiv : qf_scope.
Notation "- x" := (gopp x) : qf_scope.
Add Field QF_field_tac : QF_field.


Lemma g_two : (1 + 1 <> 0)%G.
Proof. rewrite <- psi_add. intros E. apply psi_eq in E. pose proof q_p_pos. rewrite !Z.mod_small in E by lia. discriminate. Qed.
Lemma gzero a b : (a * b = 0)%G -> a = psi 0 \/ b = psi 0.
Proof. exact (we_mul_zero _ _ _ _ _ _ _ _ _ QF_field QF_dec a b). Qed.
Lemma gsub_zero a b : (a - b = 0)%G -> a = b.
Proof. exact (we_sub_zero _ _ _ _ _ _ _ _ _ QF_field a b). Qed.
Lemma gzero_sub a b : a = b -> (a - b = 0)%G.
Proof. exact (we_zero_sub _ _ _ _ _ _ _ _ _ QF_field a b). Qed.
Lemma gcancel a b c : c <> psi 0 -> (c * a = c * b)%G -> a = b.
Proof. exact (we_cancel _ _ _ _ _ _ _ _ _ QF_field QF_dec a b c). Qed.
Lemma psi_pow_eq a b e : 0 <= e -> psi a = psi b -> psi (a ^ e) = psi (b ^ e).
Proof. intros He H. apply psi_eq in H. apply psi_eq. pose proof q_p_pos. rewrite (Zpower_mod a), (Zpower_mod b), H by lia. reflexivity. Qed.
Lemma q_fermat a : psi a <> psi 0 -> psi (a ^ (q_p - 1)) = psi 1.
Proof.
  intros Ha. apply psi_eq. pose proof q_p_pos. rewrite (Z.mod_small 1) by lia. apply fermat; [exact q_prime|].
  intros Hd. apply Ha. apply psi_divide. rewrite Z.sub_0_r. exact Hd.
Qed.

Definition ga : QF := psi (- (3)).
Definition gb : QF := psi q_b.
Lemma ga_three : (ga = - (1 + 1 + 1))%G.
Proof. unfold ga. rewrite psi_opp. change 3 with (1 + 1 + 1). rewrite !psi_add. reflexivity. Qed.
Lemma t_root : (psi q_t * psi q_t + gb * psi q_t + 1 = 0)%G.
Proof. unfold gb. rewrite <- !psi_mul, <- !psi_add. apply psi_eq, q_t_root. Qed.

(** The cubic has no root: otherwise q_t were a cube. *)
Lemma g_no_root x : (x * x * x + ga * x + gb <> 0)%G.
Proof.
  rewrite ga_three. intros E.
  assert (gb = (1 + 1 + 1) * x - x * x * x)%G as Eb.
  { apply gsub_zero. transitivity (x * x * x + - (1 + 1 + 1) * x + gb)%G; [ring | exact E]. }
  assert (x * x - 1 <> 0)%G as Hx.
  { intros Ex. apply gsub_zero in Ex. apply q_b_four. apply psi_eq. rewrite psi_mul. fold gb. rewrite Eb.
    change 4 with ((1 + 1) * (1 + 1)). rewrite psi_mul, psi_add.
    transitivity ((x * x) * (1 + 1 + 1 - x * x) * (1 + 1 + 1 - x * x))%G; [ring|]. rewrite Ex. ring. }
  set (u := ((psi q_t + x) / (x * x - 1))%G).
  assert (u * (x * x - 1) = psi q_t + x)%G as Eu by (unfold u; field; exact Hx).
  assert (u * u - x * u + 1 = 0)%G as E2.
  { apply (gcancel _ _ _ Hx). apply (gcancel _ _ _ Hx).
    transitivity ((u * (x * x - 1)) * (u * (x * x - 1)) - x * (u * (x * x - 1)) * (x * x - 1) + (x * x - 1) * (x * x - 1))%G; [ring|].
    rewrite Eu. transitivity (psi q_t * psi q_t + ((1 + 1 + 1) * x - x * x * x) * psi q_t + 1)%G; [ring|]. rewrite <- Eb, t_root. ring. }
  assert (u * (u * u) = psi q_t)%G as E3.
  { assert (u * u = x * u - 1)%G as Es.
    { apply gsub_zero. transitivity (u * u - x * u + 1)%G; [ring | exact E2]. }
    rewrite Es. transitivity (x * (u * u) - u)%G; [ring|]. rewrite Es. transitivity (u * (x * x - 1) - x)%G; [ring|]. rewrite Eu. ring. }
  set (z := qv u). assert (psi z = u) as Ez by apply psi_qv.
  assert (psi (z ^ 3) = psi q_t) as E4.
  { change 3 with (1 + (1 + 1)). rewrite !Z.pow_add_r, !Z.pow_1_r, !psi_mul, Ez by discriminate. exact E3. }
  assert (psi z <> psi 0) as Hz.
  { intros E0. apply q_t_nonzero. apply psi_eq. rewrite <- E3, <- Ez, E0. ring. }
  pose proof (q_fermat z Hz) as Hf. assert (0 <= q_h) as Hh by (pose proof q_h_pos; lia).
  rewrite q_third, Z.pow_mul_r in Hf by (discriminate || exact Hh). rewrite (psi_pow_eq _ _ _ Hh E4) in Hf.
  apply psi_eq in Hf. rewrite q_t_cube in Hf. apply q_w_one. rewrite Hf. apply Z.mod_small. pose proof q_p_pos. lia.
Qed.

(* ------------------------------------------------------------------ the group *)

Definition gpt : Type := option (QF * QF).
Definition gon : gpt -> Prop := won QF gadd gmul ga gb.
Definition geadd : gpt -> gpt -> gpt := wadd QF (psi 1) gadd gmul gsub gdiv QF_dec ga.
Definition geneg : gpt -> gpt := wneg QF gopp.
Definition gslope (l x1 y1 x2 y2 : QF) : Prop := (y1 - y2 = l * (x1 - x2))%G /\ (l * (y1 + y2) = x1 * x1 + x1 * x2 + x2 * x2 + ga)%G.
Definition gopposed (x1 y1 x2 y2 : QF) : Prop := x1 = x2 /\ y1 = gopp y2.
Definition gthird (l x1 y1 x2 : QF) : gpt := let x3 := (l * l - x1 - x2)%G in Some (x3, (l * (x1 - x3) - y1)%G).

Record qpt := mkQpt { qp : gpt; qp_on : gon qp }.
Lemma qp_eq P Q : qp P = qp Q -> P = Q.
Proof.
  destruct P as [P HP], Q as [Q HQ]. cbn [qp]. intros <-. f_equal. destruct P as [[x y]|]; unfold gon, won in *.
  - apply (UIP_dec QF_dec).
  - destruct HP, HQ. reflexivity.
Qed.
Definition qzero : qpt := mkQpt None I.
Definition qneg (P : qpt) : qpt := mkQpt (geneg (qp P)) (wneg_on _ _ _ _ _ _ _ _ _ QF_field ga gb (qp P) (qp_on P)).
Lemma geadd_on P Q : gon P -> gon Q -> gon (geadd P Q).
Proof. exact (wadd_on _ _ _ _ _ _ _ _ _ QF_field QF_dec ga gb g_two g_no_root P Q). Qed.
Definition qadd (P Q : qpt) : qpt := mkQpt (geadd (qp P) (qp Q)) (geadd_on _ _ (qp_on P) (qp_on Q)).
Lemma qadd_assoc P Q R : qadd (qadd P Q) R = qadd P (qadd Q R).
Proof. apply qp_eq. exact (wadd_assoc _ _ _ _ _ _ _ _ _ QF_field QF_dec ga gb g_two g_no_root _ _ _ (qp_on P) (qp_on Q) (qp_on R)). Qed.
Lemma qadd_comm P Q : qadd P Q = qadd Q P.
Proof. apply qp_eq. exact (wadd_comm _ _ _ _ _ _ _ _ _ QF_field QF_dec ga gb g_two g_no_root _ _ (qp_on P) (qp_on Q)). Qed.
Lemma qadd_0_l P : qadd qzero P = P.
Proof. apply qp_eq. reflexivity. Qed.
Lemma qadd_0_r P : qadd P qzero = P.
Proof. rewrite qadd_comm. apply qadd_0_l. Qed.
Lemma qadd_neg P : qadd P (qneg P) = qzero.
Proof. apply qp_eq. exact (wadd_neg _ _ _ _ _ _ _ _ _ QF_field QF_dec ga gb g_two g_no_root _ (qp_on P)). Qed.
(** Sums by slope. *)
Lemma geadd_slope l x1 y1 x2 y2 : gon (Some (x1, y1)) -> gon (Some (x2, y2)) -> ~ gopposed x1 y1 x2 y2 -> gslope l x1 y1 x2 y2 ->
  geadd (Some (x1, y1)) (Some (x2, y2)) = gthird l x1 y1 x2.
Proof. exact (wadd_slope _ _ _ _ _ _ _ _ _ QF_field QF_dec ga gb g_two g_no_root l x1 y1 x2 y2). Qed.
Lemma geadd_opposed x1 y1 x2 y2 : gon (Some (x1, y1)) -> gopposed x1 y1 x2 y2 -> geadd (Some (x1, y1)) (Some (x2, y2)) = None.
Proof. exact (wadd_opposed _ _ _ _ _ _ _ _ _ QF_field QF_dec ga gb g_two g_no_root x1 y1 x2 y2). Qed.
Lemma g_y_nonzero x y : gon (Some (x, y)) -> y <> psi 0.
Proof. exact (y_nonzero _ _ _ _ _ _ _ _ _ QF_field ga gb g_no_root x y). Qed.
Lemma g_same_x x y1 y2 : gon (Some (x, y1)) -> gon (Some (x, y2)) -> y1 = y2 \/ y1 = gopp y2.
Proof. exact (same_x _ _ _ _ _ _ _ _ _ QF_field QF_dec ga gb x y1 y2). Qed.
Lemma g_twice y : y <> psi 0 -> (y + y <> 0)%G.
Proof. exact (twice_nonzero _ _ _ _ _ _ _ _ _ QF_field QF_dec g_two y). Qed.
Lemma qneg_unique P Q : qadd P Q = qzero -> Q = qneg P.
Proof. intros E. rewrite <- (qadd_0_l Q), <- (qadd_neg P), (qadd_comm P), qadd_assoc, E, qadd_0_r. reflexivity. Qed.
Lemma qadd_cancel P Q R : qadd P Q = qadd P R -> Q = R.
Proof.
  intros E. rewrite <- (qadd_0_l Q), <- (qadd_0_l R), <- (qadd_neg P), (qadd_comm P (qneg P)), !qadd_assoc, E. reflexivity.
Qed.
Lemma qadd_swap P Q R S : qadd (qadd P Q) (qadd R S) = qadd (qadd P R) (qadd Q S).
Proof. rewrite !qadd_assoc. f_equal. rewrite <- !qadd_assoc, (qadd_comm Q R). reflexivity. Qed.
Lemma qneg_add P Q : qneg (qadd P Q) = qadd (qneg P) (qneg Q).
Proof. symmetry. apply qneg_unique. rewrite qadd_swap, !qadd_neg. apply qadd_0_l. Qed.
Lemma qneg_neg P : qneg (qneg P) = P.
Proof. symmetry. apply qneg_unique. rewrite qadd_comm. apply qadd_neg. Qed.
Lemma qneg_zero : qneg qzero = qzero.
Proof. symmetry. apply qneg_unique. apply qadd_0_l. Qed.
Lemma qadd_neg_iff P Q : qadd P (qneg Q) = qzero <-> P = Q.
Proof.
  split; [|intros ->; apply qadd_neg]. intros E. rewrite qadd_comm in E. apply qneg_unique in E. rewrite E, qneg_neg. reflexivity.
Qed.


Definition qtimes (n : N) (P : qpt) : qpt := N.iter n (qadd P) qzero.
Lemma qtimes_0 P : qtimes 0 P = qzero.
Proof. reflexivity. Qed.
Lemma qtimes_S n P : qtimes (N.succ n) P = qadd P (qtimes n P).
Proof. apply N.iter_succ. Qed.
Lemma qtimes_1 P : qtimes 1 P = P.
Proof. change 1%N with (N.succ 0). rewrite qtimes_S. apply qadd_0_r. Qed.
Lemma qtimes_add m n P : qtimes (m + n) P = qadd (qtimes m P) (qtimes n P).
Proof.
  induction m as [|m IH] using N.peano_ind; [rewrite N.add_0_l, qtimes_0, qadd_0_l; reflexivity|].
  rewrite N.add_succ_l, !qtimes_S, IH, qadd_assoc. reflexivity.
Qed.
Lemma qtimes_mul m n P : qtimes (m * n) P = qtimes m (qtimes n P).
Proof.
  induction m as [|m IH] using N.peano_ind; [reflexivity|]. rewrite N.mul_succ_l, qtimes_add, qtimes_S, IH. apply qadd_comm.
Qed.
Lemma qtimes_qadd n P Q : qtimes n (qadd P Q) = qadd (qtimes n P) (qtimes n Q).
Proof.
  induction n as [|n IH] using N.peano_ind; [symmetry; apply qadd_0_l|]. rewrite !qtimes_S, IH. apply qadd_swap.
Qed.
Lemma qtimes_zero n : qtimes n qzero = qzero.
Proof. induction n as [|n IH] using N.peano_ind; [reflexivity|]. rewrite qtimes_S, IH. apply qadd_0_l. Qed.
Lemma qtimes_neg n P : qtimes n (qneg P) = qneg (qtimes n P).
Proof. apply qneg_unique. rewrite <- qtimes_qadd, qadd_neg. apply qtimes_zero. Qed.
Lemma qtimes_2 P : qtimes 2 P = qadd P P.
Proof. change 2%N with (N.succ 1). rewrite qtimes_S, qtimes_1. reflexivity. Qed.
Lemma qtimes_mod n m P : m <> 0%N -> qtimes m P = qzero -> qtimes (n mod m) P = qtimes n P.
Proof.
  intros Hm E. rewrite (N.div_mod n m Hm) at 2. rewrite qtimes_add, N.mul_comm, qtimes_mul, E, qtimes_zero. symmetry. apply qadd_0_l.
Qed.
Lemma qtimes_comm m n P : qtimes m (qtimes n P) = qtimes n (qtimes m P).
Proof. rewrite <- !qtimes_mul, N.mul_comm. reflexivity. Qed.

(** a point annihilated by two coprime numbers *)
Lemma qtimes_bezout m n P : N.Bezout m n 1 -> qtimes m P = qzero -> qtimes n P = qzero -> P = qzero.
Proof.
  intros (a & b & E) Hm Hn. apply (f_equal (fun k => qtimes k P)) in E.
  rewrite qtimes_add, !qtimes_mul, Hm, Hn, !qtimes_zero, qadd_0_r, qtimes_1 in E. symmetry. exact E.
Qed.
Lemma qtimes_coprime m n P : N.gcd m n = 1%N -> qtimes m P = qzero -> qtimes n P = qzero -> P = qzero.
Proof.
  intros Hg Hm Hn. destruct (N.gcd_bezout m n) as [H|H]; rewrite Hg in H.
  - exact (qtimes_bezout m n P H Hm Hn).
  - exact (qtimes_bezout n m P H Hn Hm).
Qed.
