(** BLAKE2b without a key and with digests of 32 bytes, written out from RFC 7693 (C151). *)
From Verif Require Import Prelude Spec SpecWire SpecCbor SpecSha SpecSha512 SpecEd.
Local Open Scope N_scope.

Definition differing5 (x y : N) : N := word_of5 (fun i => xorb (bit x i) (bit y i)).
Definition turn5 (k : nat) (x : N) : N := word_of5 (turned5 k x).

(** 3.1: the mixing of four words with two words of the message; the other words stay. *)
Definition mixed5 (a b c d : nat) (x y : N) (v v' : nat -> N) : Prop :=
  exists a1 b1 c1 d1,
    a1 = (v a + v b + x) mod 2 ^ 64 /\ d1 = turn5 32 (differing5 (v d) a1) /\
    c1 = (v c + d1) mod 2 ^ 64 /\ b1 = turn5 24 (differing5 (v b) c1) /\
    v' a = (a1 + b1 + y) mod 2 ^ 64 /\ v' d = turn5 16 (differing5 d1 (v' a)) /\
    v' c = (c1 + v' d) mod 2 ^ 64 /\ v' b = turn5 63 (differing5 b1 (v' c)) /\
    forall i, ~ In i [a; b; c; d] -> v' i = v i.
Definition quarters5 (j : nat) (v v' : nat -> N) (x y : N) : Prop :=
  if (j <? 4)%nat then mixed5 j (4 + j) (8 + j) (12 + j) x y v v'
  else mixed5 (j - 4) (4 + (j + 1) mod 4) (8 + (j + 2) mod 4) (12 + (j + 3) mod 4) x y v v'.

(** 2.7: the permutation of round [r], which repeats after ten rounds; a row of the table in base sixteen, first word first. *)
Definition sigma_row (r : nat) : N :=
  nth (r mod 10) [0x0123456789ABCDEF; 0xEA489FD61C02B753; 0xB8C052FDAE367194; 0x7931DCBE265A40F8; 0x905724AFE1BC683D;
                  0x2C6A0B834D75FE19; 0xC51FED4A0763928B; 0xDB7EC13950F4862A; 0x6FE9B308C2D714A5; 0xA2847615FB9E3CD0] 0.
Definition sigma_word (r i : nat) : nat := N.to_nat (sigma_row r / 16 ^ N.of_nat (15 - i) mod 16).

(** 3.2: twelve rounds of eight mixings each.  [t] counts bytes. *)
Definition b2_compression (h m : list N) (t : N) (last : bool) (out : list N) : Prop :=
  exists iv v, initial_value5 iv /\
    (forall i, (i < 8)%nat -> v O i = nth i h 0) /\ (forall i, (i < 4)%nat -> v O (8 + i)%nat = nth i iv 0) /\
    v O 12%nat = differing5 (nth 4 iv 0) (t mod 2 ^ 64) /\ v O 13%nat = differing5 (nth 5 iv 0) (t / 2 ^ 64 mod 2 ^ 64) /\
    v O 14%nat = (if last then word_of5 (fun i => negb (bit (nth 6 iv 0) i)) else nth 6 iv 0) /\ v O 15%nat = nth 7 iv 0 /\
    (forall r j, (r < 12)%nat -> (j < 8)%nat ->
      quarters5 j (v (8 * r + j)%nat) (v (S (8 * r + j))) (nth (sigma_word r (2 * j)) m 0) (nth (sigma_word r (2 * j + 1)) m 0)) /\
    out = map (fun i => differing5 (nth i h 0) (differing5 (v 96%nat i) (v 96%nat (8 + i)%nat))) (seq 0 8).

(** The sixteen words of a block, filled up with zero bytes. *)
Definition block_words5 (block : bytes) (m : list N) : Prop :=
  exists zeros pieces, block ++ zeros = concat pieces /\ Forall (eq x00) zeros /\ length (block ++ zeros) = 128%nat /\ Forall2 (le_number 8) m pieces.

(** 2.5 and 3.3: the blocks before the last one, from the parameters of a digest of 32 bytes. *)
Inductive blocks_chained5 : list bytes -> list N -> Prop :=
| BC5_start h iv : initial_value5 (h :: iv) -> blocks_chained5 [] (differing5 h 0x01010020 :: iv)
| BC5_block bs b h m h' : blocks_chained5 bs h -> length b = 128%nat -> block_words5 b m ->
    b2_compression h m (128 * N.of_nat (S (length bs))) false h' -> blocks_chained5 (bs ++ [b]) h'.

(** The digest: the last block is empty only if the message is. *)
Definition blake2b256_of (m d : bytes) : Prop :=
  exists (bs : list bytes) b h w out words, m = concat bs ++ b /\ (length b <= 128)%nat /\ (b = [] -> bs = []) /\
    blocks_chained5 bs h /\ block_words5 b w /\ b2_compression h w (N.of_nat (length m)) true out /\
    Forall2 (le_number 8) out words /\ d = firstn 32 (concat words).
