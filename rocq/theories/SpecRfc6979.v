(** HMAC of FIPS 198-1 and the nonces of RFC 6979 (C158-C159). *)
From Verif Require Import Prelude Spec SpecWire SpecCbor SpecSha SpecP256.

(** Every byte with the bits of [c] turned over. *)
Definition flipped (c : N) (k k' : bytes) : Prop :=
  Forall2 (fun b b' => forall i, (i < 8)%nat -> bit (bN b') i = xorb (bit (bN b) i) (bit c i)) k k'.
(** FIPS 198-1, table 1: a longer key is hashed, then zeros make it 64 bytes long. *)
Definition block_key (key k : bytes) : Prop :=
  exists short zeros, ((length key <= 64)%nat /\ short = key \/ (64 < length key)%nat /\ sha256_of key short) /\
    k = short ++ zeros /\ Forall (eq x00) zeros /\ length k = 64%nat.
Definition hmac_of (key m d : bytes) : Prop :=
  exists k ipad opad inner, block_key key k /\ flipped 0x36 k ipad /\ flipped 0x5c k opad /\
    sha256_of (ipad ++ m) inner /\ sha256_of (opad ++ inner) d.

(** RFC 6979, 3.2: steps d to g. *)
Definition rfc6979_seeded (seed k v : bytes) : Prop :=
  exists k0 v0 k1 v1, length k0 = 32%nat /\ Forall (eq x00) k0 /\ length v0 = 32%nat /\ Forall (eq x01) v0 /\
    hmac_of k0 (v0 ++ [x00] ++ seed) k1 /\ hmac_of k1 v0 v1 /\ hmac_of k1 (v1 ++ [x01] ++ seed) k /\ hmac_of k v1 v.
(** Step h. *)
Inductive rfc6979_from (k v : bytes) (n : N) : Prop :=
| RF_found t : hmac_of k v t -> be_number 32 n t -> (0 < n)%N -> (Z.of_N n < p256_order)%Z -> rfc6979_from k v n
| RF_next t m k' v' : hmac_of k v t -> be_number 32 m t -> (m = 0%N \/ (p256_order <= Z.of_N m)%Z) ->
    hmac_of k (t ++ [x00]) k' -> hmac_of k' t v' -> rfc6979_from k' v' n -> rfc6979_from k v n.
(** The seed: the private key, and the digest modulo the order or, if not [reduced], as it is. *)
Definition rfc6979_nonce (reduced : bool) (d : N) (data : bytes) (n : N) : Prop :=
  exists x h z k v, be_number 32 d x /\ message_number data z /\
    be_number 32 (if reduced then Z.to_N (Z.of_N z mod p256_order) else z) h /\ rfc6979_seeded (x ++ h) k v /\ rfc6979_from k v n.
