(** The signatures behind ucan-key-support/src/ed25519.rs:12-48 ([VerificationKey::try_from], [SigningKey::sign],
    [VerificationKey::verify]).  The crates ed25519-zebra 3.1 and curve25519-dalek are not in the repository: the
    functions are theirs, on integers instead of limbs; multiples of points are computed by doubling and adding
    instead of with tables.  The hash (SHA-512) is a parameter. *)
From Verif Require Import Prelude Cbor Key KeySupport.
Local Open Scope Z_scope.

(* ------------------------------------------------- the field of 2^255 - 19 elements *)

Definition ed_p : Z := 57896044618658097711785492504343953926634992332820282019728792003956564819949.
Definition ed_l : Z := 7237005577332262213973186563042994240857116359379907606001950938285454250989.
(** -121665/121666 *)
Definition ed_d : Z := 37095705934669439343138083508754565189542113879843219016388785533085940283555.
(** a square root of -1 *)
Definition ed_i : Z := 19681161376707505956807079304988542015446066515923890162744021073123829784752.

Definition f_add (a b : Z) : Z := (a + b) mod ed_p.
Definition f_sub (a b : Z) : Z := (a - b) mod ed_p.
Definition f_mul (a b : Z) : Z := (a * b) mod ed_p.
Definition f_neg (a : Z) : Z := (- a) mod ed_p.
Fixpoint f_pow (x : Z) (e : positive) : Z :=
  match e with
  | xH => x
  | xO e' => let y := f_pow x e' in f_mul y y
  | xI e' => let y := f_pow x e' in f_mul (f_mul y y) x
  end.
(** [FieldElement::invert]: the power p - 2 *)
Definition f_inv (x : Z) : Z := f_pow x 57896044618658097711785492504343953926634992332820282019728792003956564819947.
(** [is_negative]: the lowest bit *)
Definition f_negative (x : Z) : bool := Z.odd x.

(** [FieldElement::sqrt_ratio_i]: the non-negative root of u/v, if there is one; the power is (p - 5) / 8. *)
Definition f_sqrt_ratio (u v : Z) : option Z :=
  let v3 := f_mul (f_mul v v) v in
  let v7 := f_mul (f_mul v3 v3) v in
  let r := f_mul (f_mul u v3) (f_pow (f_mul u v7) 7237005577332262213973186563042994240829374041602535252466099000494570602493) in
  let check := f_mul v (f_mul r r) in
  let r := if (check =? f_neg u) || (check =? f_mul (f_neg u) ed_i) then f_mul ed_i r else r in
  let r := if f_negative r then f_neg r else r in
  if (check =? u) || (check =? f_neg u) then Some r else None.

(* --------------------------------------------------------------- the curve *)

(** [EdwardsPoint]: extended coordinates X, Y, Z, T. *)
Definition ed_point : Type := Z * Z * Z * Z.
Definition ed_identity : ed_point := (0, 1, 1, 0).
Definition ed_base : ed_point :=
  (15112221349535400772501151409588531511454012693041857206046113283949847762202,
   46316835694926478169428394003475163141307993866256225615783033603165251855960, 1,
   46827403850823179245072216630277197565144205554125654976674165829533817101731).

Definition ed_add (P Q : ed_point) : ed_point :=
  let '(X1, Y1, Z1, T1) := P in let '(X2, Y2, Z2, T2) := Q in
  let a := f_mul (f_sub Y1 X1) (f_sub Y2 X2) in let b := f_mul (f_add Y1 X1) (f_add Y2 X2) in
  let c := f_mul (f_mul T1 (f_mul (f_add 1 1) ed_d)) T2 in let dd := f_add (f_mul Z1 Z2) (f_mul Z1 Z2) in
  let e := f_sub b a in let f := f_sub dd c in let g := f_add dd c in let h := f_add b a in
  (f_mul e f, f_mul g h, f_mul f g, f_mul e h).
Definition ed_double (P : ed_point) : ed_point :=
  let '(X, Y, Z, _) := P in
  let a := f_mul X X in let b := f_mul Y Y in let c := f_add (f_mul Z Z) (f_mul Z Z) in
  let e := f_sub (f_sub (f_mul (f_add X Y) (f_add X Y)) a) b in
  let g := f_sub b a in let f := f_sub g c in let h := f_sub (f_neg a) b in
  (f_mul e f, f_mul g h, f_mul f g, f_mul e h).
Definition ed_neg (P : ed_point) : ed_point := let '(X, Y, Z, T) := P in (f_neg X, Y, Z, f_neg T).

Fixpoint ed_times_pos (k : positive) (P : ed_point) : ed_point :=
  match k with
  | xH => P
  | xO k' => ed_double (ed_times_pos k' P)
  | xI k' => ed_add (ed_double (ed_times_pos k' P)) P
  end.
Definition ed_times (k : N) (P : ed_point) : ed_point := match k with N0 => ed_identity | Npos k => ed_times_pos k P end.
(** [mul_by_cofactor] and [is_identity] *)
Definition ed_times8 (P : ed_point) : ed_point := ed_double (ed_double (ed_double P)).
Definition ed_is_identity (P : ed_point) : bool := let '(X, Y, Z, _) := P in (X =? 0) && (Y =? Z).

Definition le_value (bs : bytes) : N := be_value (rev bs).
Definition le_bytes (k : nat) (n : N) : bytes := rev (be_bytes k n).

(** [CompressedEdwardsY::decompress]: the number may be p or more, and the sign of 0 may be either. *)
Definition ed_decompress (bs : bytes) : option ed_point :=
  if negb (length bs =? 32)%nat then None
  else
    let n := Z.of_N (le_value bs) in
    let y := (n mod 2 ^ 255) mod ed_p in
    let yy := f_mul y y in
    let?? x := f_sqrt_ratio (f_sub yy 1) (f_add (f_mul yy ed_d) 1) in
    let x := if 2 ^ 255 <=? n then f_neg x else x in
    Some (x, y, 1, f_mul x y).
(** [EdwardsPoint::compress] *)
Definition ed_compress (P : ed_point) : bytes :=
  let '(X, Y, Z, _) := P in
  let zi := f_inv Z in
  let x := f_mul X zi in
  le_bytes 32 (Z.to_N (f_mul Y zi + (if f_negative x then 2 ^ 255 else 0))).

(* ------------------------------------------------------------ keys and signatures *)

(** [VerificationKey]: its bytes as they were given, and the point (the crate keeps its negative). *)
Definition ed_pub : Type := bytes * ed_point.
Definition ed_pub_of (bs : bytes) : option ed_pub := let?? a := ed_decompress bs in Some (bs, a).

(** [SigningKey] *)
Record ed_priv := mkEdPriv { es_scalar : N; es_prefix : bytes; es_pub : ed_pub }.

Section Ed25519.
  Variable sha512 : bytes -> bytes.

  (** [Scalar::from_bits] of the clamped bytes *)
  Definition ed_clamp (n : N) : N := N.lor (N.land n (2 ^ 254 - 8)) (2 ^ 254).
  (** [SigningKey::from([u8; 32])] *)
  Definition ed_signing_key (seed : bytes) : ed_priv :=
    let h := sha512 seed in
    let s := ed_clamp (le_value (firstn 32 h)) in
    let a := ed_times s ed_base in
    mkEdPriv s (skipn 32 h) (ed_compress a, a).

  (** [Scalar::from_hash] *)
  Definition ed_scalar (bs : bytes) : N := (le_value (sha512 bs) mod Z.to_N ed_l)%N.

  (** [SigningKey::sign] *)
  Definition ed_sign (sk : ed_priv) (data : bytes) : option bytes :=
    let r := ed_scalar (es_prefix sk ++ data) in
    let rb := ed_compress (ed_times r ed_base) in
    let k := ed_scalar (rb ++ fst (es_pub sk) ++ data) in
    Some (rb ++ le_bytes 32 ((r + k * es_scalar sk) mod Z.to_N ed_l)).

  (** [Signature::try_from] and [VerificationKey::verify] (the rules of ZIP 215) *)
  Definition ed_verify (pk : ed_pub) (data sig : bytes) : bool :=
    (length sig =? 64)%nat &&
    (let rb := firstn 32 sig in
     let s := le_value (skipn 32 sig) in
     (s <? Z.to_N ed_l)%N &&
     match ed_decompress rb with
     | None => false
     | Some r =>
         let k := ed_scalar (rb ++ fst pk ++ data) in
         let r' := ed_add (ed_times k (ed_neg (snd pk))) (ed_times s ed_base) in
         ed_is_identity (ed_times8 (ed_add r (ed_neg r')))
     end).

  Definition ed25519_zebra : crypto ed_pub ed_priv := {|
    cr_encode pk := Some (fst pk);
    cr_decode := ed_pub_of;
    cr_sign := ed_sign;
    cr_verify := ed_verify
  |}.
  (** [Ed25519KeyMaterial] with it *)
  Definition ed25519_material (pk : ed_pub) (sk : option ed_priv) : key := ed25519_key ed25519_zebra pk sk.
End Ed25519.
