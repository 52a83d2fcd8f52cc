(** Ed25519 written out from RFC 8032, with the rules of ZIP 215 for verification (C140-C142). *)
From Coq Require Import ZArith.Znumtheory.
From Verif Require Import Prelude Spec SpecWire SpecCbor.
Local Open Scope Z_scope.

(** 5.1: the prime, the order of the base point, and the curve -x^2 + y^2 = 1 - (121665/121666) x^2 y^2. *)
Definition p25519 : Z := 2 ^ 255 - 19.
Definition l25519 : Z := 2 ^ 252 + 27742317777372353535851937790883648493.
Definition same (a b : Z) : Prop := (p25519 | a - b).

Definition curve_point (P : Z * Z) : Prop :=
  let (x, y) := P in
  0 <= x < p25519 /\ 0 <= y < p25519 /\ same (121666 * (y * y - x * x)) (121666 - 121665 * (x * x * y * y)).

(** 5.1.4: sums and multiples of points. *)
Definition curve_sum (P Q R : Z * Z) : Prop :=
  let (x1, y1) := P in let (x2, y2) := Q in let (x3, y3) := R in
  curve_point R /\
  same (x3 * (121666 - 121665 * (x1 * x2 * y1 * y2))) (121666 * (x1 * y2 + x2 * y1)) /\
  same (y3 * (121666 + 121665 * (x1 * x2 * y1 * y2))) (121666 * (y1 * y2 + x1 * x2)).
Inductive multiple (P : Z * Z) : N -> Z * Z -> Prop :=
| Multiple_0 : multiple P 0 (0, 1)
| Multiple_S n Q R : multiple P n Q -> curve_sum P Q R -> multiple P (N.succ n) R.

Definition base_point (P : Z * Z) : Prop := curve_point P /\ same (5 * snd P) 4 /\ Z.Even (fst P).

(** Little-endian numbers. *)
Definition le_number (k : nat) (n : N) (bs : bytes) : Prop := be_number k n (rev bs).
Definition le_val (bs : bytes) : N := place_value 256 (map bN (rev bs)).

(** 5.1.2: 255 bits of y and the lowest bit of x. *)
Definition point_text (bs : bytes) (P : Z * Z) : Prop :=
  curve_point P /\ le_number 32 (Z.to_N (snd P + fst P mod 2 * 2 ^ 255)) bs.
(** ZIP 215: y need not be reduced, and the bit is free if x is zero. *)
Definition point_name (bs : bytes) (P : Z * Z) : Prop :=
  curve_point P /\ exists y s, 0 <= y < 2 ^ 255 /\ same y (snd P) /\ (s = 0 \/ s = 1) /\ (fst P mod 2 = s \/ fst P = 0) /\
    le_number 32 (Z.to_N (y + s * 2 ^ 255)) bs.

Section Hash.
  Variable H : bytes -> bytes.

  (** The number of a hash modulo the order. *)
  Definition hash_number (bs : bytes) (k : N) : Prop := (k = le_val (H bs) mod Z.to_N l25519)%N.

  (** 5.1.5: the scalar, the prefix and the public key of a seed. *)
  Definition ed_key_pair (seed : bytes) (s : N) (prefix ab : bytes) : Prop :=
    exists hb A B, H seed = hb ++ prefix /\ (length hb = 32%nat \/ (length hb < 32)%nat /\ prefix = []) /\
      (s = 2 ^ 254 + 8 * (le_val hb / 8 mod 2 ^ 251))%N /\ base_point B /\ multiple B s A /\ point_text ab A.

  (** 5.1.6: signing. *)
  Definition ed_signature_of (seed data sig : bytes) : Prop :=
    exists s prefix ab r k R B rb sb, ed_key_pair seed s prefix ab /\ hash_number (prefix ++ data) r /\
      base_point B /\ multiple B r R /\ point_text rb R /\ hash_number (rb ++ ab ++ data) k /\
      le_number 32 ((r + k * s) mod Z.to_N l25519) sb /\ sig = rb ++ sb.

  (** 5.1.7 with the rules of ZIP 215: 8 s B = 8 R + 8 k A. *)
  Definition zip215 (ab data sig : bytes) : Prop :=
    exists rb sb s k A R B X Y W, sig = rb ++ sb /\ point_name ab A /\ point_name rb R /\
      le_number 32 s sb /\ (Z.of_N s < l25519) /\ hash_number (rb ++ ab ++ data) k /\
      base_point B /\ multiple B (8 * s) X /\ multiple R 8 Y /\ multiple A (8 * k) W /\ curve_sum Y W X.
End Hash.
