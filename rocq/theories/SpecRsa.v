(** RSASSA-PKCS1-v1_5 with SHA-256, written out from RFC 8017 (C138). *)
From Coq Require Import ZArith.Znumtheory.
From Verif Require Import Prelude Spec SpecWire SpecCbor SpecSha.
Local Open Scope N_scope.

(** The length of the modulus in octets. *)
Definition octets (n : N) (k : nat) : Prop := (0 < k)%nat /\ 256 ^ N.of_nat (k - 1) <= n < 256 ^ N.of_nat k.

(** 9.2: the encoded message of [k] octets, with eight or more octets ff and the DER of a
    DigestInfo for SHA-256. *)
Definition encoded_message (k : nat) (data em : bytes) : Prop :=
  exists ff d, Forall (eq xff) ff /\ (8 <= length ff)%nat /\ sha256_of data d /\ length em = k /\
    em = [x00; x01] ++ ff ++ [x00] ++
         [x30; x31; x30; x0d; x06; x09; x60; x86; x48; x01; x65; x03; x04; x02; x01; x05; x00; x04; x20] ++ d.

(** 8.2.2, without and with the test of 5.2.2 that the number is below the modulus. *)
Definition loose_signature (n e : N) (data sig : bytes) : Prop :=
  exists k em s m, octets n k /\ encoded_message k data em /\ be_number k s sig /\ be_number k m em /\ s ^ e mod n = m.
Definition pkcs1_signature (n e : N) (data sig : bytes) : Prop :=
  loose_signature n e data sig /\ place_value 256 (map bN sig) < n.

(** 3.2: a key pair. The modulus is a product of distinct primes; for each of them the exponents are
    inverse modulo the prime less one. *)
Definition rsa_pair (n e d : N) : Prop :=
  exists primes, NoDup primes /\ fold_right N.mul 1 primes = n /\
    forall p, In p primes -> prime (Z.of_N p) /\ exists q, e * d = 1 + q * (p - 1).
