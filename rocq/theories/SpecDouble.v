(** Doubles and their decimal texts (C134-C135). *)
From Coq Require Import Floats.SpecFloat.
From Verif Require Import Prelude Value Ext Json Spec SpecWire.
Local Open Scope Z_scope.

(** A double in units of 2^-1074, of which all are multiples; its significand and its sign. *)
Definition scaled (f : f64) : Z :=
  match f with
  | S754_finite neg m e => (if neg then Zneg m else Zpos m) * 2 ^ (e + 1074)
  | _ => 0
  end.
Definition significand (f : f64) : Z := match f with S754_finite _ m _ => Zpos m | _ => 0 end.
Definition negative (f : f64) : bool := match f with S754_zero s | S754_infinity s | S754_finite s _ _ => s | S754_nan => false end.

(** The distance of a double to [n/d], in units of 2^-1074 / d. *)
Definition away (n d : Z) (f : f64) : Z := Z.abs (n * 2 ^ 1074 - d * scaled f).

(** IEEE 754, roundTiesToEven: no double is closer, and of two doubles just as close the one with the
    even significand; numbers from half a unit above the largest double on are out of range. *)
Definition nearest (n d : Z) (f : f64) : Prop :=
  finite_float f /\ Z.abs n < d * ((2 ^ 54 - 1) * 2 ^ 970) /\
  (forall g, finite_float g -> away n d f <= away n d g) /\
  (forall g, finite_float g -> scaled g <> scaled f -> away n d g = away n d f -> Z.even (significand f) = true).

(** The number [m * 10^k] as a fraction. *)
Definition ten_num (m k : Z) : Z := m * 10 ^ Z.max 0 k.
Definition ten_den (k : Z) : Z := 10 ^ Z.max 0 (- k).

(** What a JSON number says: sign, digits as a number, exponent of ten. *)
Definition digits_value (d : bytes) : Z := Z.of_N (place_value 10 (map (fun c => bN c - 48)%N d)).
Definition number_value (t : bytes) (neg : bool) (m k : Z) : Prop :=
  exists sign int frac fd exp x, t = sign ++ int ++ frac ++ exp /\
    (sign = [] /\ neg = false \/ sign = B "-" /\ neg = true) /\
    digits int /\ (int = B "0" \/ forall r, int <> B "0" ++ r) /\
    (frac = [] /\ fd = [] \/ frac = B "." ++ fd /\ digits fd) /\
    (exp = [] /\ x = 0 \/
     exists e sg d, exp = e ++ sg ++ d /\ (e = B "e" \/ e = B "E") /\ digits d /\
       ((sg = [] \/ sg = B "+") /\ x = digits_value d \/ sg = B "-" /\ x = - digits_value d)) /\
    m = digits_value (int ++ fd) /\ k = x - Z.of_nat (length fd).

(** A text written with [c] significant digits. *)
Definition digits_suffice (t : bytes) (c : Z) : Prop := exists neg a i k, number_value t neg (a * 10 ^ i) k /\ 0 <= i /\ 0 <= a < 10 ^ c.

(** [m * 10^k] and [m' * 10^k'], and their distances to a double, compared. *)
Definition same_number (m k m' k' : Z) : Prop := ten_num m k * ten_den k' = ten_num m' k' * ten_den k.
Definition distance (m k : Z) (f : f64) (k' : Z) : Z := away (ten_num m k) (ten_den k) f * ten_den k'.

(** How the digits [ds] with the decimal point [P] places after their start are shown. *)
Inductive shown (ds : bytes) (P : Z) : bytes -> Prop :=
| Sh_whole z : Z.of_nat (length ds + length z) = P -> P <= 16 -> Forall (eq x30) z -> shown ds P (ds ++ z ++ B ".0")
| Sh_point a b : ds = a ++ b -> a <> [] -> b <> [] -> Z.of_nat (length a) = P -> P <= 16 -> shown ds P (a ++ B "." ++ b)
| Sh_small z : Z.of_nat (length z) = - P -> -5 < P -> Forall (eq x30) z -> shown ds P (B "0." ++ z ++ ds)
| Sh_exp1 d e : ds = [d] -> P <= -5 \/ 16 < P -> integer_text (P - 1) e -> shown ds P ([d] ++ B "e" ++ e)
| Sh_exp d r e : ds = [d] ++ r -> r <> [] -> P <= -5 \/ 16 < P -> integer_text (P - 1) e -> shown ds P ([d] ++ B "." ++ r ++ B "e" ++ e).

(** Digits that neither begin nor end with a zero. *)
Definition tight (ds : bytes) : Prop := digits ds /\ (forall r, ds <> B "0" ++ r) /\ (forall r, ds <> r ++ B "0").
