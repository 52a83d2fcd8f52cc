(** DER of RSA public keys, written out from X.690 and RFC 8017 (C129-C130). *)
From Verif Require Import Prelude Spec SpecWire SpecCbor SpecWebCrypto WebCrypto Der.

(** X.690, 8.1.3 and 10.1: the length in the definite form, in as few octets as possible. *)
Inductive definite_length (n : N) : bytes -> Prop :=
| DL_short : (n < 128)%N -> definite_length n [byteN n]
| DL_long k bs : (128 <= n)%N -> (256 ^ N.of_nat k <= n)%N -> (k < 4)%nat -> be_number (S k) n bs ->
    definite_length n (byteN (129 + N.of_nat k) :: bs).

(** A value of less than 256 MiB under a tag. *)
Definition tagged (tag : byte) (body t : bytes) : Prop :=
  (N.of_nat (length body) < 2 ^ 28)%N /\ exists l, definite_length (N.of_nat (length body)) l /\ t = [tag] ++ l ++ body.

(** X.690, 8.3: a number that is not negative starts with a clear bit, and the first nine bits are not all clear. *)
Definition unsigned (n : N) (bs : bytes) : Prop :=
  place_value 256 (map bN bs) = n /\
  exists c r, bs = c :: r /\ (bN c < 128)%N /\ (bN c = 0%N -> forall d r', r = d :: r' -> (128 <= bN d)%N).
Definition der_integer (n : N) (t : bytes) : Prop := exists bs, unsigned n bs /\ tagged x02 bs t.

(** RFC 8017, A.1.1: RSAPublicKey ::= SEQUENCE { modulus INTEGER, publicExponent INTEGER }. *)
Definition rsa_public_key (n e : N) (t : bytes) : Prop :=
  exists tn te, der_integer n tn /\ der_integer e te /\ tagged x30 (tn ++ te) t.

(** The keys the rsa crate takes. *)
Definition rsa_taken (n e : N) : Prop :=
  (n < 2 ^ 4096)%N /\ (3 <= e < 2 ^ 33)%N /\ (e < n)%N /\ N.Odd n /\ N.Odd e.

(** In the browser, [wk] is the public key with this modulus and exponent. *)
Definition exported_rsa {WPub WPriv} (W : browser WPub WPriv) (wk : WPub) (n e : N) : Prop :=
  exists b, rsa_public_key n e b /\ exported W wk b.

(** A browser whose [generateKey] keeps to the Web Cryptography API: the modulus is a
    product of two odd primes of the length asked for, with the exponent asked for. *)
Definition generates {WPub WPriv} (W : browser WPub WPriv) (gen : key_params -> option (WPub * WPriv)) : Prop :=
  forall p wk sk, gen p = Some (wk, sk) ->
    exists n, N.size n = kp_modulus_length p /\ N.Odd n /\ exported_rsa W wk n (place_value 256 (map bN (kp_exponent p))).
