(** Multiplication three bits at a time, for certificates: the checker has only plain reduction to compute with. *)
From Verif Require Import Prelude.

Section By.
Variables (y y3 y5 y7 : positive).
Fixpoint by_threes (x : positive) : positive :=
  match x with
  | xH => y
  | xO xH => y~0
  | xI xH => y3
  | xO (xO xH) => y~0~0
  | xI (xO xH) => y5
  | xO (xI xH) => y3~0
  | xI (xI xH) => y7
  | xO (xO (xO x)) => (by_threes x)~0~0~0
  | xI (xO (xO x)) => y + (by_threes x)~0~0~0
  | xO (xI (xO x)) => (y + (by_threes x)~0~0)~0
  | xI (xI (xO x)) => y3 + (by_threes x)~0~0~0
  | xO (xO (xI x)) => (y + (by_threes x)~0)~0~0
  | xI (xO (xI x)) => y5 + (by_threes x)~0~0~0
  | xO (xI (xI x)) => (y3 + (by_threes x)~0~0)~0
  | xI (xI (xI x)) => y7 + (by_threes x)~0~0~0
  end%positive.
End By.
Definition pmul (x y : positive) : positive :=
  let y3 := (y + y~0)%positive in by_threes y y3 (y + y~0~0)%positive (y3 + y~0~0)%positive x.
Definition zmul (x y : Z) : Z :=
  match x, y with
  | Z0, _ | _, Z0 => Z0
  | Zpos x, Zpos y | Zneg x, Zneg y => Zpos (pmul x y)
  | Zpos x, Zneg y | Zneg x, Zpos y => Zneg (pmul x y)
  end.

Lemma by_threes_eq y y3 y5 y7 : y3 = (3 * y)%positive -> y5 = (5 * y)%positive -> y7 = (7 * y)%positive -> forall x, by_threes y y3 y5 y7 x = (x * y)%positive.
Proof.
  intros H3 H5 H7. fix IH 1. intros x.
  destruct x as [x|x|]; [| |reflexivity]; (destruct x as [x|x|]; [| |cbn [by_threes]; lia]); (destruct x as [x|x|]; [| |cbn [by_threes]; lia]);
    cbn [by_threes]; rewrite (IH x); clear IH; lia.
Qed.
Lemma pmul_eq x y : pmul x y = (x * y)%positive.
Proof. unfold pmul. apply by_threes_eq; lia. Qed.
Lemma zmul_eq x y : zmul x y = (x * y)%Z.
Proof. destruct x, y; cbn [zmul]; rewrite ?pmul_eq; reflexivity. Qed.
