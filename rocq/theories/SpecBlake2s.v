(** BLAKE2b with digests of any length, and BLAKE2s, without a key, written out from RFC 7693 (C167). *)
From Verif Require Import Prelude Spec SpecWire SpecCbor SpecSha SpecSha512 SpecEd SpecBlake3 SpecBlake2.
Local Open Scope N_scope.

(** 2.5 and 3.3: BLAKE2b, the blocks before the last one, from the parameters of a digest of [n] bytes. *)
Inductive chained_2b (n : nat) : list bytes -> list N -> Prop :=
| C2b_start h iv : initial_value5 (h :: iv) -> chained_2b n [] (differing5 h (0x01010000 + N.of_nat n) :: iv)
| C2b_block bs b h m h' : chained_2b n bs h -> length b = 128%nat -> block_words5 b m ->
    b2_compression h m (128 * N.of_nat (S (length bs))) false h' -> chained_2b n (bs ++ [b]) h'.
Definition blake2b_of (n : nat) (m d : bytes) : Prop :=
  exists (bs : list bytes) b h w out words, m = concat bs ++ b /\ (length b <= 128)%nat /\ (b = [] -> bs = []) /\
    chained_2b n bs h /\ block_words5 b w /\ b2_compression h w (N.of_nat (length m)) true out /\
    Forall2 (le_number 8) out words /\ d = firstn n (concat words).

(** 3.2: BLAKE2s has ten rounds, with words of 32 bits turned by 16, 12, 8 and 7 places, as [quarters] has them. *)
Definition b2s_compression (h m : list N) (t : N) (last : bool) (out : list N) : Prop :=
  exists iv v, initial_value iv /\
    (forall i, (i < 8)%nat -> v O i = nth i h 0) /\ (forall i, (i < 4)%nat -> v O (8 + i)%nat = nth i iv 0) /\
    v O 12%nat = differing (nth 4 iv 0) (t mod 2 ^ 32) /\ v O 13%nat = differing (nth 5 iv 0) (t / 2 ^ 32 mod 2 ^ 32) /\
    v O 14%nat = (if last then word_of (fun i => negb (bit (nth 6 iv 0) i)) else nth 6 iv 0) /\ v O 15%nat = nth 7 iv 0 /\
    (forall r j, (r < 10)%nat -> (j < 8)%nat ->
      quarters j (v (8 * r + j)%nat) (v (S (8 * r + j))) (nth (sigma_word r (2 * j)) m 0) (nth (sigma_word r (2 * j + 1)) m 0)) /\
    out = map (fun i => differing (nth i h 0) (differing (v 80%nat i) (v 80%nat (8 + i)%nat))) (seq 0 8).
Inductive chained_2s (n : nat) : list bytes -> list N -> Prop :=
| C2s_start h iv : initial_value (h :: iv) -> chained_2s n [] (differing h (0x01010000 + N.of_nat n) :: iv)
| C2s_block bs b h m h' : chained_2s n bs h -> length b = 64%nat -> block_words b m ->
    b2s_compression h m (64 * N.of_nat (S (length bs))) false h' -> chained_2s n (bs ++ [b]) h'.
Definition blake2s_of (n : nat) (m d : bytes) : Prop :=
  exists (bs : list bytes) b h w out words, m = concat bs ++ b /\ (length b <= 64)%nat /\ (b = [] -> bs = []) /\
    chained_2s n bs h /\ block_words b w /\ b2s_compression h w (N.of_nat (length m)) true out /\
    Forall2 (le_number 4) out words /\ d = firstn n (concat words).
