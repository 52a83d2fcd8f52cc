(** The field and the group behind Ed25519.v: residues modulo 2^255 - 19, and the points of the curve over them. *)
From Coq Require Import ZArith.Znumtheory ZArith.Zpow_facts Ring Field Eqdep_dec.
From Verif Require Import Prelude OrdFacts Ed25519 SpecEd RsaFacts PrimeFacts EdwardsFacts EdPrimeFacts EdOrderFacts.
Local Open Scope Z_scope.

(* ------------------------------------------------------------------ the field *)

Lemma ed_prime : prime ed_p.
Proof. exact prime_25519. Qed.
Lemma ed_p_pos : 2 < ed_p.
Proof. reflexivity. Qed.
Lemma ed_p_big : 200000 < ed_p.
Proof. reflexivity. Qed.
Lemma ed_p_odd : Z.odd ed_p = true.
Proof. reflexivity. Qed.
Lemma ed_i_square : (ed_i * ed_i) mod ed_p = (- (1)) mod ed_p.
Proof. vm_compute. reflexivity. Qed.
Lemma ed_d_ratio : (121666 * ed_d) mod ed_p = (- 121665) mod ed_p.
Proof. vm_compute. reflexivity. Qed.
(** (p - 1) / 2 *)
Definition ed_h : Z := 28948022309329048855892746252171976963317496166410141009864396001978282409974.
Lemma ed_half : ed_p - 1 = 2 * ed_h.
Proof. reflexivity. Qed.
Lemma ed_d_residue : 14802493890 ^ ed_h mod ed_p = ed_p - 1.
Proof. exact nonresidue_25519. Qed.

Lemma p25519_eq : p25519 = ed_p.
Proof. reflexivity. Qed.
Lemma l25519_eq : l25519 = ed_l.
Proof. reflexivity. Qed.
Lemma ed_p_le : ed_p <= 2 ^ 255.
Proof. discriminate. Qed.
Lemma ed_p_lt : 2 ^ 255 < 2 * ed_p.
Proof. reflexivity. Qed.
Lemma ed_l_le : ed_l < 2 ^ 253.
Proof. reflexivity. Qed.
Lemma ed_l_prime : prime ed_l.
Proof. exact prime_order. Qed.
Lemma ed_l_big : 2 ^ 252 < ed_l.
Proof. reflexivity. Qed.
Lemma by_p_eq k : by_p k = k * ed_p.
Proof. unfold by_p, ed_p. rewrite Z.shiftl_mul_pow2 by discriminate. change (2 ^ 255) with (57896044618658097711785492504343953926634992332820282019728792003956564819949 + 19). ring. Qed.
Lemma ed_base_eq : ed_base = (walk_bx, walk_by, 1, (walk_bx * walk_by) mod ed_p).
Proof. vm_compute. reflexivity. Qed.
Lemma walk_on : (walk_bx * walk_bx - walk_by * walk_by + 1 + ed_d * walk_bx * walk_bx * walk_by * walk_by) mod ed_p = 0 mod ed_p.
Proof. vm_compute. reflexivity. Qed.
Lemma walk_c_eq : walk_c mod ed_p = (ed_d * walk_bx * walk_by) mod ed_p.
Proof. vm_compute. reflexivity. Qed.
Lemma walk_five : (5 * walk_by) mod ed_p = 4 mod ed_p.
Proof. vm_compute. reflexivity. Qed.
Lemma walk_even : Z.even walk_bx = true.
Proof. reflexivity. Qed.
Lemma walk_range : 0 < walk_bx < ed_p /\ 0 < walk_by < ed_p.
Proof. repeat split. Qed.
Lemma walk_to_l : walk walk_steps walk_bx walk_by 1 = Some (0, 1, ed_l).
Proof. exact walk_end. Qed.
Lemma ed_h_even : exists q, ed_h = 2 * q /\ 0 < q /\ q = 2 * 7237005577332262213973186563042994240829374041602535252466099000494570602493 + 1.
Proof. exists 14474011154664524427946373126085988481658748083205070504932198000989141204987. repeat split. Qed.
Lemma ed_inv_power : 57896044618658097711785492504343953926634992332820282019728792003956564819947 = ed_p - 2.
Proof. reflexivity. Qed.
Lemma ed_h_pos : 0 < ed_h.
Proof. reflexivity. Qed.
Global Opaque ed_p ed_d ed_i ed_l ed_h walk_bx walk_by walk_c walk_steps.

Definition FF : Type := res_mod ed_p.
Definition phi : Z -> FF := of_Z ed_p ed_prime.
Definition fadd : FF -> FF -> FF := radd ed_p ed_prime.
Definition fmul : FF -> FF -> FF := rmul ed_p ed_prime.
Definition fsub : FF -> FF -> FF := rsub ed_p ed_prime.
Definition fopp : FF -> FF := ropp ed_p ed_prime.
Definition fdiv : FF -> FF -> FF := rdiv ed_p ed_prime.
Definition finv : FF -> FF := rinv ed_p ed_prime.
Definition zv : FF -> Z := rv ed_p.

Lemma FF_field : field_theory (phi 0) (phi 1) fadd fmul fsub fopp fdiv finv eq.
Proof. exact (residue_field ed_p ed_prime). Qed.
Lemma FF_dec (x y : FF) : {x = y} + {x <> y}.
Proof. exact (res_dec ed_p x y). Qed.
Lemma phi_add a b : phi (a + b) = fadd (phi a) (phi b).
Proof. exact (of_add ed_p ed_prime a b). Qed.
Lemma phi_mul a b : phi (a * b) = fmul (phi a) (phi b).
Proof. exact (of_mul ed_p ed_prime a b). Qed.
Lemma phi_sub a b : phi (a - b) = fsub (phi a) (phi b).
Proof. exact (of_sub ed_p ed_prime a b). Qed.
Lemma phi_opp a : phi (- a) = fopp (phi a).
Proof. exact (of_opp ed_p ed_prime a). Qed.
Lemma phi_mod a : phi (a mod ed_p) = phi a.
Proof. exact (of_mod ed_p ed_prime a). Qed.
Lemma phi_eq a b : phi a = phi b <-> a mod ed_p = b mod ed_p.
Proof. exact (of_eq ed_p ed_prime a b). Qed.
Lemma phi_zv x : phi (zv x) = x.
Proof. exact (of_rv ed_p ed_prime x). Qed.
Lemma zv_phi a : zv (phi a) = a mod ed_p.
Proof. exact (rv_of ed_p ed_prime a). Qed.
Lemma zv_small a : 0 <= a < ed_p -> zv (phi a) = a.
Proof. intros H. rewrite zv_phi. apply Z.mod_small, H. Qed.
Lemma zv_range x : 0 <= zv x < ed_p.
Proof. exact (rv_range ed_p ed_prime x). Qed.
Lemma zv_inj x y : zv x = zv y -> x = y.
Proof. exact (res_eq ed_p x y). Qed.
Lemma phi_divide a b : phi a = phi b <-> (ed_p | a - b).
Proof.
  rewrite <- (zero_iff ed_p ed_prime). fold (phi (a - b)) (phi 0). rewrite phi_sub. split.
  - intros ->. apply (sub_zero_r _ _ _ _ _ _ _ _ _ FF_field). reflexivity.
  - apply (sub_zero _ _ _ _ _ _ _ _ _ FF_field).
Qed.
Lemma phi_small a b : 0 <= a < ed_p -> 0 <= b < ed_p -> phi a = phi b -> a = b.
Proof. intros Ha Hb H. apply phi_eq in H. rewrite !Z.mod_small in H by assumption. exact H. Qed.

Declare Scope ff_scope.
Delimit Scope ff_scope with F.
Notation "0" := (phi 0) : ff_scope.
Notation "1" := (phi 1) : ff_scope.
Infix "+" := fadd : ff_scope.
Infix "*" := fmul : ff_scope.
Infix "-" := fsub : ff_scope.
Infix "/" := fdiv : ff_scope.
Notation "- x" := (fopp x) : ff_scope.
Add Field FF_field_tac : FF_field.

Definition fd : FF := phi ed_d.
Definition fi : FF := phi ed_i.
Lemma fi_square : (fi * fi = - (1))%F.
Proof. unfold fi. rewrite <- phi_mul, <- phi_opp. apply phi_eq, ed_i_square. Qed.
Lemma f_two : (1 + 1 <> 0)%F.
Proof. rewrite <- phi_add. intros E. apply phi_eq in E. pose proof ed_p_pos. rewrite !Z.mod_small in E by lia. discriminate. Qed.
Lemma fd_ratio : (phi 121666 * fd = - phi 121665)%F.
Proof. unfold fd. rewrite <- phi_mul, <- phi_opp. apply phi_eq, ed_d_ratio. Qed.

Lemma fzero a b : (a * b = 0)%F -> a = phi 0 \/ b = phi 0.
Proof. exact (mul_zero _ _ _ _ _ _ _ _ _ FF_field FF_dec a b). Qed.
Lemma fsub_zero a b : (a - b = 0)%F -> a = b.
Proof. exact (sub_zero _ _ _ _ _ _ _ _ _ FF_field a b). Qed.
Lemma fzero_sub a b : a = b -> (a - b = 0)%F.
Proof. exact (sub_zero_r _ _ _ _ _ _ _ _ _ FF_field a b). Qed.
Lemma fcancel a b c : c <> phi 0 -> (c * a = c * b)%F -> a = b.
Proof.
  intros Hc E. apply fsub_zero. destruct (fzero c (a - b)%F) as [H|H]; [|contradiction | exact H].
  transitivity (c * a - c * b)%F; [ring|]. rewrite E. ring.
Qed.

Lemma phi_pow_eq a b e : 0 <= e -> phi a = phi b -> phi (a ^ e) = phi (b ^ e).
Proof. intros He H. apply phi_eq in H. apply phi_eq. pose proof ed_p_pos. rewrite (Zpower_mod a), (Zpower_mod b), H by lia. reflexivity. Qed.
Lemma ed_fermat a : phi a <> phi 0 -> phi (a ^ (ed_p - 1)) = phi 1.
Proof.
  intros Ha. apply phi_eq. pose proof ed_p_pos. rewrite (Z.mod_small 1) by lia. apply fermat; [exact ed_prime|].
  intros Hd. apply Ha. apply phi_divide. rewrite Z.sub_0_r. exact Hd.
Qed.

(** d has no square root *)
Lemma fd_nonsquare s : (s * s <> fd)%F.
Proof.
  intros E. set (z := 121666 * zv s * ed_i).
  assert (phi (z * z) = phi 14802493890) as Ez.
  { change 14802493890 with (121666 * 121665). unfold z. rewrite !phi_mul, phi_zv. fold fi.
    transitivity ((s * s) * (fi * fi) * (phi 121666 * phi 121666))%F; [ring|]. rewrite E, fi_square.
    transitivity (- (phi 121666 * fd) * phi 121666)%F; [ring|]. rewrite fd_ratio. ring. }
  assert (phi z <> phi 0) as Hz.
  { intros E0. rewrite phi_mul, E0 in Ez. assert (phi 14802493890 = phi 0) as E1 by (rewrite <- Ez; ring).
    apply (phi_pow_eq _ _ ed_h) in E1; [|pose proof ed_h_pos; lia].
    apply phi_eq in E1. rewrite ed_d_residue, Z.pow_0_l in E1 by exact ed_h_pos. clear -E1. pose proof ed_p_pos. rewrite Z.mod_0_l in E1 by lia. lia. }
  pose proof (ed_fermat z Hz) as Hf. assert (0 <= ed_h) as Hh by (pose proof ed_h_pos; lia).
  rewrite ed_half, Z.pow_mul_r, Z.pow_2_r in Hf by (discriminate || exact Hh).
  rewrite (phi_pow_eq _ _ _ Hh Ez) in Hf. apply phi_eq in Hf. rewrite ed_d_residue in Hf. clear -Hf. pose proof ed_p_pos.
  rewrite Z.mod_small in Hf by lia. lia.
Qed.

(* ------------------------------------------------------------------ the group *)

Definition con : FF * FF -> Prop := on FF (phi 0) (phi 1) fadd fmul fsub fd.
Definition ceadd : FF * FF -> FF * FF -> FF * FF := eadd FF (phi 1) fadd fmul fsub fdiv fd.

Record cpt := mkCpt { cp : FF * FF; cp_on : con cp }.
Lemma cp_eq P Q : cp P = cp Q -> P = Q.
Proof.
  destruct P as [P HP], Q as [Q HQ]. cbn [cp]. intros <-. f_equal. destruct P as [x y]. unfold con, on in *.
  apply (UIP_dec FF_dec).
Qed.
Definition czero : cpt := mkCpt (ezero FF (phi 0) (phi 1)) (on_zero _ _ _ _ _ _ _ _ _ FF_field fd).
Definition cneg (P : cpt) : cpt := mkCpt (eneg FF fopp (cp P)) (on_neg _ _ _ _ _ _ _ _ _ FF_field fd (cp P) (cp_on P)).
Lemma con_add P Q : con P -> con Q -> con (ceadd P Q).
Proof. exact (on_add _ _ _ _ _ _ _ _ _ FF_field FF_dec fd fi fi_square fd_nonsquare f_two P Q). Qed.
Definition cadd (P Q : cpt) : cpt := mkCpt (ceadd (cp P) (cp Q)) (con_add _ _ (cp_on P) (cp_on Q)).
Lemma cadd_assoc P Q R : cadd (cadd P Q) R = cadd P (cadd Q R).
Proof. apply cp_eq. exact (add_assoc _ _ _ _ _ _ _ _ _ FF_field FF_dec fd fi fi_square fd_nonsquare f_two _ _ _ (cp_on P) (cp_on Q) (cp_on R)). Qed.
Lemma cadd_comm P Q : cadd P Q = cadd Q P.
Proof. apply cp_eq. exact (add_comm _ _ _ _ _ _ _ _ _ FF_field fd (cp P) (cp Q)). Qed.
Lemma cadd_0_l P : cadd czero P = P.
Proof. apply cp_eq. exact (add_zero _ _ _ _ _ _ _ _ _ FF_field fd (cp P)). Qed.
Lemma cadd_0_r P : cadd P czero = P.
Proof. rewrite cadd_comm. apply cadd_0_l. Qed.
Lemma cadd_neg P : cadd P (cneg P) = czero.
Proof. apply cp_eq. exact (add_neg _ _ _ _ _ _ _ _ _ FF_field FF_dec fd fi fi_square fd_nonsquare f_two _ (cp_on P)). Qed.
Lemma cneg_unique P Q : cadd P Q = czero -> Q = cneg P.
Proof. intros E. rewrite <- (cadd_0_l Q), <- (cadd_neg P), (cadd_comm P), cadd_assoc, E, cadd_0_r. reflexivity. Qed.
Lemma cadd_cancel P Q R : cadd P Q = cadd P R -> Q = R.
Proof.
  intros E. rewrite <- (cadd_0_l Q), <- (cadd_0_l R), <- (cadd_neg P), (cadd_comm P (cneg P)), !cadd_assoc, E. reflexivity.
Qed.
Lemma cadd_swap P Q R S : cadd (cadd P Q) (cadd R S) = cadd (cadd P R) (cadd Q S).
Proof. rewrite !cadd_assoc. f_equal. rewrite <- !cadd_assoc, (cadd_comm Q R). reflexivity. Qed.
Lemma cneg_add P Q : cneg (cadd P Q) = cadd (cneg P) (cneg Q).
Proof. symmetry. apply cneg_unique. rewrite cadd_swap, !cadd_neg. apply cadd_0_l. Qed.
Lemma cneg_neg P : cneg (cneg P) = P.
Proof. symmetry. apply cneg_unique. rewrite cadd_comm. apply cadd_neg. Qed.
Lemma cneg_zero : cneg czero = czero.
Proof. symmetry. apply cneg_unique. apply cadd_0_l. Qed.
Lemma cadd_neg_iff P Q : cadd P (cneg Q) = czero <-> P = Q.
Proof.
  split; [|intros ->; apply cadd_neg]. intros E. rewrite cadd_comm in E. apply cneg_unique in E. rewrite E, cneg_neg. reflexivity.
Qed.

Definition ctimes (n : N) (P : cpt) : cpt := N.iter n (cadd P) czero.
Lemma ctimes_0 P : ctimes 0 P = czero.
Proof. reflexivity. Qed.
Lemma ctimes_S n P : ctimes (N.succ n) P = cadd P (ctimes n P).
Proof. apply N.iter_succ. Qed.
Lemma ctimes_1 P : ctimes 1 P = P.
Proof. change 1%N with (N.succ 0). rewrite ctimes_S. apply cadd_0_r. Qed.
Lemma ctimes_add m n P : ctimes (m + n) P = cadd (ctimes m P) (ctimes n P).
Proof.
  induction m as [|m IH] using N.peano_ind; [rewrite N.add_0_l, ctimes_0, cadd_0_l; reflexivity|].
  rewrite N.add_succ_l, !ctimes_S, IH, cadd_assoc. reflexivity.
Qed.
Lemma ctimes_mul m n P : ctimes (m * n) P = ctimes m (ctimes n P).
Proof.
  induction m as [|m IH] using N.peano_ind; [reflexivity|]. rewrite N.mul_succ_l, ctimes_add, ctimes_S, IH. apply cadd_comm.
Qed.
Lemma ctimes_cadd n P Q : ctimes n (cadd P Q) = cadd (ctimes n P) (ctimes n Q).
Proof.
  induction n as [|n IH] using N.peano_ind; [symmetry; apply cadd_0_l|]. rewrite !ctimes_S, IH. apply cadd_swap.
Qed.
Lemma ctimes_zero n : ctimes n czero = czero.
Proof. induction n as [|n IH] using N.peano_ind; [reflexivity|]. rewrite ctimes_S, IH. apply cadd_0_l. Qed.
Lemma ctimes_neg n P : ctimes n (cneg P) = cneg (ctimes n P).
Proof. apply cneg_unique. rewrite <- ctimes_cadd, cadd_neg. apply ctimes_zero. Qed.
Lemma ctimes_2 P : ctimes 2 P = cadd P P.
Proof. change 2%N with (N.succ 1). rewrite ctimes_S, ctimes_1. reflexivity. Qed.
Lemma ctimes_mod n m P : m <> 0%N -> ctimes m P = czero -> ctimes (n mod m) P = ctimes n P.
Proof.
  intros Hm E. rewrite (N.div_mod n m Hm) at 2. rewrite ctimes_add, N.mul_comm, ctimes_mul, E, ctimes_zero. symmetry. apply cadd_0_l.
Qed.
Lemma ctimes_comm m n P : ctimes m (ctimes n P) = ctimes n (ctimes m P).
Proof. rewrite <- !ctimes_mul, N.mul_comm. reflexivity. Qed.

(** a point annihilated by two coprime numbers *)
Lemma ctimes_bezout m n P : N.Bezout m n 1 -> ctimes m P = czero -> ctimes n P = czero -> P = czero.
Proof.
  intros (a & b & E) Hm Hn. apply (f_equal (fun k => ctimes k P)) in E.
  rewrite ctimes_add, !ctimes_mul, Hm, Hn, !ctimes_zero, cadd_0_r, ctimes_1 in E. symmetry. exact E.
Qed.
Lemma ctimes_coprime m n P : N.gcd m n = 1%N -> ctimes m P = czero -> ctimes n P = czero -> P = czero.
Proof.
  intros Hg Hm Hn. destruct (N.gcd_bezout m n) as [H|H]; rewrite Hg in H.
  - exact (ctimes_bezout m n P H Hm Hn).
  - exact (ctimes_bezout n m P H Hn Hm).
Qed.
