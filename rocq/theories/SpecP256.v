(** The curve P-256, written out from FIPS 186-4 (D.1.2.3, 6.4) and SEC 1 (2.2.1, 2.3.3, 4.1) (C145-C149). *)
From Coq Require Import ZArith.Znumtheory.
From Verif Require Import Prelude Spec SpecWire SpecCbor SpecSha.
Local Open Scope Z_scope.

(** D.1.2.3: the field prime, the order of the base point, the coefficient, and the base point. *)
Definition p256_prime : Z := 2 ^ 256 - 2 ^ 224 + 2 ^ 192 + 2 ^ 96 - 1.
Definition p256_order : Z := 115792089210356248762697446949407573529996955224135760342422259061068512044369.
Definition p256_b : Z := 0x5ac635d8aa3a93e7b3ebbd55769886bc651d06b0cc53b0f63bce3c3e27d2604b.
Definition p256_gx : Z := 0x6b17d1f2e12c4247f8bce6e563a440f277037d812deb33a0f4a13945d898c296.
Definition p256_gy : Z := 0x4fe342e2fe1a7f9b8ee7eb4a7c0f9e162bce33576b315ececbb6406837bf51f5.

(** Equality modulo the prime. *)
Definition pmod (a b : Z) : Prop := (p256_prime | a - b).

(** Points: pairs of field elements on the curve; None is the point at infinity. *)
Definition p_pair (P : Z * Z) : Prop :=
  0 <= fst P < p256_prime /\ 0 <= snd P < p256_prime /\
  pmod (snd P * snd P) (fst P * fst P * fst P - 3 * fst P + p256_b).
Definition p_point (P : option (Z * Z)) : Prop := forall xy, P = Some xy -> p_pair xy.

(** The third point on a line of slope [l] through (x1, y1), reflected. *)
Definition p_third (l x1 y1 x2 : Z) (R : Z * Z) : Prop :=
  0 <= fst R < p256_prime /\ 0 <= snd R < p256_prime /\
  pmod (fst R) (l * l - x1 - x2) /\ pmod (snd R) (l * (x1 - fst R) - y1).

(** SEC 1, 2.2.1: the five rules of the sum. *)
Inductive p_sum : option (Z * Z) -> option (Z * Z) -> option (Z * Z) -> Prop :=
| Sum_zero_l P : p_sum None P P
| Sum_zero_r P : p_sum P None P
| Sum_opposite x y y' : pmod (y + y') 0 -> p_sum (Some (x, y)) (Some (x, y')) None
| Sum_chord x1 y1 x2 y2 l R : x1 <> x2 -> pmod (l * (x2 - x1)) (y2 - y1) -> p_third l x1 y1 x2 R ->
    p_sum (Some (x1, y1)) (Some (x2, y2)) (Some R)
| Sum_tangent x y l R : ~ pmod y 0 -> pmod (l * (2 * y)) (3 * (x * x) - 3) -> p_third l x y x R ->
    p_sum (Some (x, y)) (Some (x, y)) (Some R).

(** The multiples of a point: repeated sums. *)
Inductive p_multiple (P : option (Z * Z)) : N -> option (Z * Z) -> Prop :=
| PM_zero : p_multiple P 0 None
| PM_more n R R' : p_multiple P n R -> p_sum P R R' -> p_multiple P (N.succ n) R'.
Definition p_base : option (Z * Z) := Some (p256_gx, p256_gy).

(** SEC 1, 2.3.3: the compressed and the uncompressed name of a point; and the compact one of
    draft-jivsov-ecc-compact: only the first coordinate, for the lesser of the two second ones. *)
Definition compressed_name (P : Z * Z) (bs : bytes) : Prop :=
  exists xb, be_number 32 (Z.to_N (fst P)) xb /\ bs = (if Z.odd (snd P) then x03 else x02) :: xb.
Definition uncompressed_name (P : Z * Z) (bs : bytes) : Prop :=
  exists xb yb, be_number 32 (Z.to_N (fst P)) xb /\ be_number 32 (Z.to_N (snd P)) yb /\ bs = x04 :: xb ++ yb.
Definition compact_name (P : Z * Z) (bs : bytes) : Prop :=
  2 * snd P < p256_prime /\ exists xb, be_number 32 (Z.to_N (fst P)) xb /\ bs = x05 :: xb.
Definition p256_name (P : Z * Z) (bs : bytes) : Prop :=
  p_pair P /\ (compressed_name P bs \/ uncompressed_name P bs \/ compact_name P bs).

(** 6.4: the number signed is the SHA-256 of the message. *)
Definition message_number (data : bytes) (z : N) : Prop := exists d, sha256_of data d /\ be_number 32 z d.

(** Verification: the pair (r, s) of numbers below the order and not zero, with w the inverse of s. *)
Definition p256_pair (Q : Z * Z) (z r s : N) : Prop :=
  (0 < r)%N /\ Z.of_N r < p256_order /\ (0 < s)%N /\ Z.of_N s < p256_order /\
  exists w u1 u2 U1 U2 x y, (Z.of_N s * w) mod p256_order = 1 /\
    Z.of_N u1 = (Z.of_N z * w) mod p256_order /\ Z.of_N u2 = (Z.of_N r * w) mod p256_order /\
    p_multiple p_base u1 U1 /\ p_multiple (Some Q) u2 U2 /\ p_sum U1 U2 (Some (x, y)) /\ x mod p256_order = Z.of_N r.
Definition p256_signature (Q : Z * Z) (data sig : bytes) : Prop :=
  exists z r s rb sb, message_number data z /\ be_number 32 r rb /\ be_number 32 s sb /\ sig = rb ++ sb /\ p256_pair Q z r s.

(** Key pairs, and the signature with a nonce [k]. *)
Definition p256_key_pair (d : N) (Q : Z * Z) : Prop :=
  (0 < d)%N /\ Z.of_N d < p256_order /\ p_multiple p_base d (Some Q).
Definition p256_signed (d k : N) (data sig : bytes) : Prop :=
  exists z x y r s w rb sb, message_number data z /\ p_multiple p_base k (Some (x, y)) /\
    (Z.of_N k * w) mod p256_order = 1 /\ Z.of_N r = x mod p256_order /\
    Z.of_N s = (w * (Z.of_N z + Z.of_N r * Z.of_N d)) mod p256_order /\ (0 < r)%N /\ (0 < s)%N /\
    be_number 32 r rb /\ be_number 32 s sb /\ sig = rb ++ sb.
