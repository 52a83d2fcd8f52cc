(** The signatures behind ucan-key-support/src/p256.rs:14-50 ([VerifyingKey::try_from], [to_encoded_point(true)],
    [SigningKey::sign], [Signature::try_from], [VerifyingKey::verify]).  The crates p256 0.13, primeorder, ecdsa 0.16
    and sec1 are not in the repository: the functions are theirs, with two simplifications.  Points have affine
    coordinates where the crate has projective ones, and multiples are computed by doubling and adding instead of
    with tables.  The nonce of a signature (RFC 6979 in the crate) is a parameter. *)
From Verif Require Import Prelude Cbor Key KeySupport Sha256.
Local Open Scope Z_scope.

(* ------------------------------------------------------------------ the field *)

Definition q_p : Z := 0xffffffff00000001000000000000000000000000ffffffffffffffffffffffff.
Definition q_n : Z := 0xffffffff00000000ffffffffffffffffbce6faada7179e84f3b9cac2fc632551.
Definition q_b : Z := 0x5ac635d8aa3a93e7b3ebbd55769886bc651d06b0cc53b0f63bce3c3e27d2604b.

Definition q_add (a b : Z) : Z := (a + b) mod q_p.
Definition q_sub (a b : Z) : Z := (a - b) mod q_p.
Definition q_mul (a b : Z) : Z := (a * b) mod q_p.
Definition q_neg (a : Z) : Z := (- a) mod q_p.
Fixpoint m_pow (m x : Z) (e : positive) : Z :=
  match e with
  | xH => x
  | xO e' => let y := m_pow m x e' in (y * y) mod m
  | xI e' => let y := m_pow m x e' in ((y * y) mod m * x) mod m
  end.
(** [FieldElement::invert]: the power p - 2 *)
Definition q_inv (x : Z) : Z := m_pow q_p x 0xffffffff00000001000000000000000000000000fffffffffffffffffffffffd.
(** [FieldElement::sqrt]: the power (p + 1) / 4, tested *)
Definition q_sqrt (x : Z) : option Z :=
  let r := m_pow q_p x 0x3fffffffc0000000400000000000000000000000400000000000000000000000 in
  if q_mul r r =? x then Some r else None.

(* ------------------------------------------------------------------ the curve *)

(** [AffinePoint], without the point at infinity and with it *)
Definition q_xy : Type := Z * Z.
Definition q_point : Type := option q_xy.
Definition q_base : q_xy :=
  (0x6b17d1f2e12c4247f8bce6e563a440f277037d812deb33a0f4a13945d898c296,
   0x4fe342e2fe1a7f9b8ee7eb4a7c0f9e162bce33576b315ececbb6406837bf51f5).
(** x^3 - 3 x + b *)
Definition q_right (x : Z) : Z := q_add (q_sub (q_mul (q_mul x x) x) (q_mul 3 x)) q_b.

Definition q_line (l : Z) (P Q : q_xy) : q_point :=
  let x := q_sub (q_sub (q_mul l l) (fst P)) (fst Q) in
  Some (x, q_sub (q_mul l (q_sub (fst P) x)) (snd P)).
Definition q_plus (P Q : q_point) : q_point :=
  match P, Q with
  | None, _ => Q
  | _, None => P
  | Some (x1, y1), Some (x2, y2) =>
      if x1 =? x2 then
        if y1 =? y2 then
          if y1 =? 0 then None
          else q_line (q_mul (q_sub (q_mul 3 (q_mul x1 x1)) 3) (q_inv (q_mul 2 y1))) (x1, y1) (x2, y2)
        else None
      else q_line (q_mul (q_sub y2 y1) (q_inv (q_sub x2 x1))) (x1, y1) (x2, y2)
  end.
Fixpoint q_times_pos (k : positive) (P : q_point) : q_point :=
  match k with
  | xH => P
  | xO k' => let R := q_times_pos k' P in q_plus R R
  | xI k' => let R := q_times_pos k' P in q_plus (q_plus R R) P
  end.
Definition q_times (k : N) (P : q_point) : q_point := match k with N0 => None | Npos k => q_times_pos k P end.

(* ------------------------------------------------------------------ names of points *)

(** [FieldElement::from_bytes]: 32 octets below the prime *)
Definition q_field (bs : bytes) : option Z :=
  let n := Z.of_N (be_value bs) in if (length bs =? 32)%nat && (n <? q_p) then Some n else None.
(** [AffinePoint::decompress] *)
Definition q_decompress (bs : bytes) (odd : bool) : option q_xy :=
  let?? x := q_field bs in
  let?? y := q_sqrt (q_right x) in
  Some (x, if Bool.eqb (Z.odd y) odd then y else q_neg y).
(** [AffinePoint::decompact]: the lesser of the two roots *)
Definition q_decompact (bs : bytes) : option q_xy :=
  let?? P := q_decompress bs false in
  Some (fst P, Z.min (snd P) (q_neg (snd P))).
(** [VerifyingKey::from_sec1_bytes]; the point at infinity (one octet 00) is no key *)
Definition q_decode (bs : bytes) : option q_xy :=
  match bs with
  | x02 :: r => q_decompress r false
  | x03 :: r => q_decompress r true
  | x04 :: r =>
      let?? x := q_field (firstn 32 r) in
      let?? y := q_field (skipn 32 r) in
      if q_mul y y =? q_right x then Some (x, y) else None
  | x05 :: r => q_decompact r
  | _ => None
  end.
(** [to_encoded_point(true)] *)
Definition q_encode (P : q_xy) : bytes := (if Z.odd (snd P) then x03 else x02) :: be_bytes 32 (Z.to_N (fst P)).

(* ------------------------------------------------------------------ signatures *)

(** The scalar field: [Scalar::invert] is the power n - 2. *)
Definition q_ninv (s : Z) : Z := m_pow q_n s 0xffffffff00000000ffffffffffffffffbce6faada7179e84f3b9cac2fc63254f.
(** [bits2field] of the SHA-256 of the message; [Scalar::reduce_bytes] happens in the products *)
Definition q_digest (data : bytes) : Z := Z.of_N (be_value (sha256 data)).

(** [Signature::try_from] and [hazmat::verify_prehashed] *)
Definition q_verify (Q : q_xy) (data sig : bytes) : bool :=
  (length sig =? 64)%nat &&
  (let r := Z.of_N (be_value (firstn 32 sig)) in
   let s := Z.of_N (be_value (skipn 32 sig)) in
   (0 <? r) && (r <? q_n) && (0 <? s) && (s <? q_n) &&
   (let w := q_ninv s in
    let u1 := (q_digest data * w) mod q_n in
    let u2 := (r * w) mod q_n in
    match q_plus (q_times (Z.to_N u1) (Some q_base)) (q_times (Z.to_N u2) (Some Q)) with
    | None => false
    | Some (x, _) => x mod q_n =? r
    end)).

(** [SigningKey::from_bytes]: a scalar of 32 octets that is neither zero nor n or more, with its point *)
Record q_priv := mkQPriv { qs_scalar : N; qs_pub : q_xy }.
Definition q_signing_key (bs : bytes) : option q_priv :=
  let d := be_value bs in
  if (length bs =? 32)%nat && (0 <? d)%N && (Z.of_N d <? q_n) then
    let?? Q := q_times d (Some q_base) in Some (mkQPriv d Q)
  else None.

Section P256.
  (** The scalar and the message determine the nonce. *)
  Variable nonce : N -> bytes -> N.

  (** [hazmat::sign_prehashed]; a None panics in [Signer::sign].  The signature is not normalised. *)
  Definition q_sign (sk : q_priv) (data : bytes) : option bytes :=
    let k := nonce (qs_scalar sk) data in
    let?? R := q_times k (Some q_base) in
    let r := fst R mod q_n in
    let s := (q_ninv (Z.of_N k) * (q_digest data + r * Z.of_N (qs_scalar sk))) mod q_n in
    if (r =? 0) || (s =? 0) then None else Some (be_bytes 32 (Z.to_N r) ++ be_bytes 32 (Z.to_N s)).

  Definition p256_crate : crypto q_xy q_priv := {|
    cr_encode pk := Some (q_encode pk);
    cr_decode := q_decode;
    cr_sign := q_sign;
    cr_verify := q_verify
  |}.
  (** [P256KeyMaterial] with it *)
  Definition p256_material (pk : q_xy) (sk : option q_priv) : key := p256_key p256_crate pk sk.
End P256.
