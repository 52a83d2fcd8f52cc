(** Decimal texts of doubles, for the fields [x_f64_parse] and [x_f64_print] of [ext], which the
    other files leave open.  Third-party code: reading is serde_json with the feature
    float_roundtrip (correct rounding, infinities refused), which libipld-json 0.16 turns on for
    the whole build; printing is the crate ryu (fewest digits that read back, the closest of
    those, laid out by its [format64]).  Written from their documentation. *)
From Coq Require Import Floats.SpecFloat.
From Verif Require Import Prelude Base58 Value Ext Json.
Local Open Scope Z_scope.

(* ---------------------------------------------------------------------- reading *)

(** A number text: sign, digits and exponent of ten. *)
Definition exp_value (ex : bytes) : Z :=
  match ex with
  | [] => 0
  | _ :: x2d :: d => - Z.of_N (dec_value d)
  | _ :: x2b :: d => Z.of_N (dec_value d)
  | _ :: d => Z.of_N (dec_value d)
  end.
Definition split_sign (t : bytes) : bool * bytes := match t with x2d :: r => (true, r) | _ => (false, t) end.
Definition read_decimal (t : bytes) : option (bool * Z * Z) :=
  let '(neg, s) := split_sign t in
  let?? (d, s1) := lex_int s in
  let?? (fr, s2) := lex_frac s1 in
  let?? (ex, s3) := lex_exp s2 in
  match s3 with
  | [] => Some (neg, Z.of_N (dec_value (d ++ tl fr)), exp_value ex - Z.of_nat (length (tl fr)))
  | _ => None
  end.

(** The smallest double is 2^-1074; all are multiples of it. *)
Definition unit_exp : Z := 1074.

(** [q + r/d], to the nearest integer, halves to the even one. *)
Definition half_even (q r d : Z) : Z :=
  match 2 * r ?= d with
  | Lt => q
  | Gt => q + 1
  | Eq => if Z.even q then q else q + 1
  end.

(** The double closest to [n/d]; [None] when out of range. *)
Definition round_ratio (neg : bool) (n d : Z) : option f64 :=
  let N := n * 2 ^ unit_exp in
  let s := Z.max 0 (Z.log2 (N / d) - 52) in
  let D := d * 2 ^ s in
  let m := half_even (N / D) (N mod D) D in
  let '(m', s') := if m =? 2 ^ 53 then (2 ^ 52, s + 1) else (m, s) in
  match m' with
  | Zpos p => if s' <=? 2045 then Some (S754_finite neg p (s' - unit_exp)) else None
  | _ => Some (S754_zero neg)
  end.

(** The double closest to [m * 10^k]. *)
Definition round_decimal (neg : bool) (m k : Z) : option f64 := round_ratio neg (m * 10 ^ Z.max 0 k) (10 ^ Z.max 0 (- k)).

Definition double_parse (t : bytes) : option f64 :=
  let?? (neg, m, k) := read_decimal t in round_decimal neg m k.

(* --------------------------------------------------------------------- printing *)

(** [n/d < 10^E] *)
Definition below (n d E : Z) : bool := n * 10 ^ Z.max 0 (- E) <? d * 10 ^ Z.max 0 E.
Fixpoint bisect (fuel : nat) (n d lo hi : Z) : Z :=
  match fuel with
  | O => hi
  | S f => let mid := (lo + hi) / 2 in if below n d mid then bisect f n d lo mid else bisect f n d mid hi
  end.

(** The [E] with [10^(E-1) <= n/d < 10^E], for doubles. *)
Definition decade (n d : Z) : Z := bisect 10 n d (-400) 624.

Definition reads_back (neg : bool) (p : positive) (e m k : Z) : bool :=
  match round_decimal neg m k with
  | Some (S754_finite _ q f) => (q =? p)%positive && (f =? e)
  | _ => false
  end.

(** Decimals of [c], [c + 1], ... digits: the closer neighbour of the double, then the other. *)
Fixpoint shortest (fuel : nat) (neg : bool) (p : positive) (e E c : Z) : option (Z * Z) :=
  match fuel with
  | O => None
  | S f =>
      let k := E - c in
      let a := Zpos p * 2 ^ Z.max 0 e * 10 ^ Z.max 0 (- k) in
      let b := 2 ^ Z.max 0 (- e) * 10 ^ Z.max 0 k in
      let near := half_even (a / b) (a mod b) b in
      let far := if near =? a / b then a / b + 1 else a / b in
      if reads_back neg p e near k then Some (near, k)
      else if reads_back neg p e far k then Some (far, k)
      else shortest f neg p e E (c + 1)
  end.

(** Ten of a decade is one of the next. *)
Definition settle (m k : Z) : Z * Z := if m =? 10 then (1, k + 1) else (m, k).

(** ryu's [format64] *)
Definition zeros (n : Z) : bytes := repeat x30 (Z.to_nat n).
Definition exp_text (z : Z) : bytes := json_int z.
Definition layout (m k : Z) : bytes :=
  let ds := dec_print (Z.to_N m) in
  let len := Z.of_nat (length ds) in
  let kk := len + k in
  if (0 <=? k) && (kk <=? 16) then ds ++ zeros k ++ B ".0"
  else if (0 <? kk) && (kk <=? 16) then firstn (Z.to_nat kk) ds ++ B "." ++ skipn (Z.to_nat kk) ds
  else if (-5 <? kk) && (kk <=? 0) then B "0." ++ zeros (- kk) ++ ds
  else if len =? 1 then ds ++ B "e" ++ exp_text (kk - 1)
  else firstn 1 ds ++ B "." ++ skipn 1 ds ++ B "e" ++ exp_text (kk - 1).

(** Doubles that are no numbers print as null. *)
Definition double_print (f : f64) : bytes :=
  match f with
  | S754_zero neg => (if neg then B "-" else []) ++ B "0.0"
  | S754_finite neg p e =>
      match shortest 17 neg p e (decade (Zpos p * 2 ^ Z.max 0 e) (2 ^ Z.max 0 (- e))) 1 with
      | Some (m, k) => let '(m', k') := settle m k in (if neg then B "-" else []) ++ layout m' k'
      | None => []
      end
  | _ => B "null"
  end.
