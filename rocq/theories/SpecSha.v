(** SHA-256 written out from FIPS 180-4, bit by bit (C137). *)
From Coq Require Import ZArith.Znumtheory.
From Verif Require Import Prelude Spec SpecWire SpecCbor.
Local Open Scope N_scope.

(** The word of 32 bits with the given bits, the least significant at 0. *)
Definition word_of (f : nat -> bool) : N :=
  fold_right N.add 0 (map (fun i => if f i then 2 ^ N.of_nat i else 0) (seq 0 32)).
Definition bit (x : N) (i : nat) : bool := N.testbit x (N.of_nat i).

(** 2.2.2: ROTR and SHR to the right by [k]. *)
Definition turned (k : nat) (x : N) (i : nat) : bool := bit x ((i + k) mod 32).
Definition moved (k : nat) (x : N) (i : nat) : bool := (i + k <? 32)%nat && bit x (i + k).

(** 4.1.2: choice, majority and the four sums of three. *)
Definition choice (x y z : N) : N := word_of (fun i => if bit x i then bit y i else bit z i).
Definition majority (x y z : N) : N :=
  word_of (fun i => (bit x i && bit y i) || (bit x i && bit z i) || (bit y i && bit z i)).
Definition sum0 (x : N) : N := word_of (fun i => xorb (turned 2 x i) (xorb (turned 13 x i) (turned 22 x i))).
Definition sum1 (x : N) : N := word_of (fun i => xorb (turned 6 x i) (xorb (turned 11 x i) (turned 25 x i))).
Definition mix0 (x : N) : N := word_of (fun i => xorb (turned 7 x i) (xorb (turned 18 x i) (moved 3 x i))).
Definition mix1 (x : N) : N := word_of (fun i => xorb (turned 17 x i) (xorb (turned 19 x i) (moved 10 x i))).

(** The prime number with [i] primes below it. *)
Definition nth_prime (i : nat) (p : N) : Prop :=
  prime (Z.of_N p) /\
  exists below, NoDup below /\ length below = i /\ forall q, In q below <-> q < p /\ prime (Z.of_N q).

(** The first 32 bits of the fraction of the [d]-th root of [p]. *)
Definition root_fraction (d p k : N) : Prop :=
  k < 2 ^ 32 /\ exists whole, (whole * 2 ^ 32 + k) ^ d <= p * 2 ^ (32 * d) < (whole * 2 ^ 32 + k + 1) ^ d.

(** 4.2.2 and 5.3.3: the constants come from cube roots, the initial value from square roots. *)
Definition round_constant (i : nat) (k : N) : Prop := exists p, nth_prime i p /\ root_fraction 3 p k.
Definition initial_word (i : nat) (h : N) : Prop := exists p, nth_prime i p /\ root_fraction 2 p h.
Definition initial_value (h : list N) : Prop := length h = 8%nat /\ forall i, (i < 8)%nat -> initial_word i (nth i h 0).

(** 5.1.1 and 5.2.1: a one bit, as few zero bits as possible, and the length in 64 bits. *)
Definition padded (m p : bytes) : Prop :=
  exists zeros len, p = m ++ [x80] ++ zeros ++ len /\ Forall (eq x00) zeros /\ (length zeros < 64)%nat /\
    (exists n, length p = 64 * n)%nat /\ be_number 8 ((8 * N.of_nat (length m)) mod 2 ^ 64) len.

(** 6.2.2: the message schedule of a block, [w t] for [t] from 0 to 63. *)
Definition schedule (block : bytes) (w : nat -> N) : Prop :=
  (forall t, (t < 16)%nat -> be_number 4 (w t) (firstn 4 (skipn (4 * t) block))) /\
  (forall t, (16 <= t < 64)%nat -> w t = (mix1 (w (t - 2)%nat) + w (t - 7)%nat + mix0 (w (t - 15)%nat) + w (t - 16)%nat) mod 2 ^ 32).

Inductive round (k w : N) : list N -> list N -> Prop :=
| Round a b c d e f g h t1 t2 :
    t1 = h + sum1 e + choice e f g + k + w -> t2 = sum0 a + majority a b c ->
    round k w [a; b; c; d; e; f; g; h] [(t1 + t2) mod 2 ^ 32; a; b; c; (d + t1) mod 2 ^ 32; e; f; g].

Definition compressed (block : bytes) (s s' : list N) : Prop :=
  exists w run, schedule block w /\ run O = s /\
    (forall t, (t < 64)%nat -> exists k, round_constant t k /\ round k (w t) (run t) (run (S t))) /\
    Forall2 (fun x '(u, v) => x = (u + v) mod 2 ^ 32) s' (combine s (run 64%nat)) /\ length s' = length s.

Inductive compressed_all : list bytes -> list N -> list N -> Prop :=
| CA_nil s : compressed_all [] s s
| CA_cons b bs s s' s'' : length b = 64%nat -> compressed b s s' -> compressed_all bs s' s'' -> compressed_all (b :: bs) s s''.

(** The digest of a message. *)
Definition sha256_of (m d : bytes) : Prop :=
  exists blocks h0 h words, padded m (concat blocks) /\ initial_value h0 /\ compressed_all blocks h0 h /\
    Forall2 (be_number 4) h words /\ d = concat words.
