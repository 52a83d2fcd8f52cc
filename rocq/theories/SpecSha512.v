(** SHA-512 written out from FIPS 180-4, bit by bit (C144). *)
From Coq Require Import ZArith.Znumtheory.
From Verif Require Import Prelude Spec SpecWire SpecCbor SpecSha.
Local Open Scope N_scope.

(** The word of 64 bits with the given bits, the least significant at 0. *)
Definition word_of5 (f : nat -> bool) : N :=
  fold_right N.add 0 (map (fun i => if f i then 2 ^ N.of_nat i else 0) (seq 0 64)).

(** 2.2.2: ROTR and SHR to the right by [k]. *)
Definition turned5 (k : nat) (x : N) (i : nat) : bool := bit x ((i + k) mod 64).
Definition moved5 (k : nat) (x : N) (i : nat) : bool := (i + k <? 64)%nat && bit x (i + k).

(** 4.1.3: choice5, majority5 and the four sums of three. *)
Definition choice5 (x y z : N) : N := word_of5 (fun i => if bit x i then bit y i else bit z i).
Definition majority5 (x y z : N) : N :=
  word_of5 (fun i => (bit x i && bit y i) || (bit x i && bit z i) || (bit y i && bit z i)).
Definition sum5_0 (x : N) : N := word_of5 (fun i => xorb (turned5 28 x i) (xorb (turned5 34 x i) (turned5 39 x i))).
Definition sum5_1 (x : N) : N := word_of5 (fun i => xorb (turned5 14 x i) (xorb (turned5 18 x i) (turned5 41 x i))).
Definition mix5_0 (x : N) : N := word_of5 (fun i => xorb (turned5 1 x i) (xorb (turned5 8 x i) (moved5 7 x i))).
Definition mix5_1 (x : N) : N := word_of5 (fun i => xorb (turned5 19 x i) (xorb (turned5 61 x i) (moved5 6 x i))).

(** The first 64 bits of the fraction of the [d]-th root of [p]. *)
Definition root_fraction5 (d p k : N) : Prop :=
  k < 2 ^ 64 /\ exists whole, (whole * 2 ^ 64 + k) ^ d <= p * 2 ^ (64 * d) < (whole * 2 ^ 64 + k + 1) ^ d.

(** 4.2.3 and 5.3.5: the constants come from cube roots, the initial value from square roots. *)
Definition round_constant5 (i : nat) (k : N) : Prop := exists p, nth_prime i p /\ root_fraction5 3 p k.
Definition initial_word5 (i : nat) (h : N) : Prop := exists p, nth_prime i p /\ root_fraction5 2 p h.
Definition initial_value5 (h : list N) : Prop := length h = 8%nat /\ forall i, (i < 8)%nat -> initial_word5 i (nth i h 0).

(** 5.1.2 and 5.2.2: a one bit, as few zero bits as possible, and the length in 128 bits. *)
Definition padded5 (m p : bytes) : Prop :=
  exists zeros len, p = m ++ [x80] ++ zeros ++ len /\ Forall (eq x00) zeros /\ (length zeros < 128)%nat /\
    (exists n, length p = 128 * n)%nat /\ be_number 16 ((8 * N.of_nat (length m)) mod 2 ^ 128) len.

(** 6.4.2: the message schedule5 of a block, [w t] for [t] from 0 to 79. *)
Definition schedule5 (block : bytes) (w : nat -> N) : Prop :=
  (forall t, (t < 16)%nat -> be_number 8 (w t) (firstn 8 (skipn (8 * t) block))) /\
  (forall t, (16 <= t < 80)%nat -> w t = (mix5_1 (w (t - 2)%nat) + w (t - 7)%nat + mix5_0 (w (t - 15)%nat) + w (t - 16)%nat) mod 2 ^ 64).

Inductive round5 (k w : N) : list N -> list N -> Prop :=
| Round5 a b c d e f g h t1 t2 :
    t1 = h + sum5_1 e + choice5 e f g + k + w -> t2 = sum5_0 a + majority5 a b c ->
    round5 k w [a; b; c; d; e; f; g; h] [(t1 + t2) mod 2 ^ 64; a; b; c; (d + t1) mod 2 ^ 64; e; f; g].

Definition compressed5 (block : bytes) (s s' : list N) : Prop :=
  exists w run, schedule5 block w /\ run O = s /\
    (forall t, (t < 80)%nat -> exists k, round_constant5 t k /\ round5 k (w t) (run t) (run (S t))) /\
    Forall2 (fun x '(u, v) => x = (u + v) mod 2 ^ 64) s' (combine s (run 80%nat)) /\ length s' = length s.

Inductive compressed_all5 : list bytes -> list N -> list N -> Prop :=
| CA5_nil s : compressed_all5 [] s s
| CA5_cons b bs s s' s'' : length b = 128%nat -> compressed5 b s s' -> compressed_all5 bs s' s'' -> compressed_all5 (b :: bs) s s''.

(** The digest of a message. *)
Definition sha512_of (m d : bytes) : Prop :=
  exists blocks h0 h words, padded5 m (concat blocks) /\ initial_value5 h0 /\ compressed_all5 blocks h0 h /\
    Forall2 (be_number 8) h words /\ d = concat words.
