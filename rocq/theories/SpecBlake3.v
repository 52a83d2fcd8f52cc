(** BLAKE3 written out from its paper: words bit by bit, the tree by its shape (C150). *)
From Verif Require Import Prelude Spec SpecWire SpecCbor SpecSha SpecEd.
Local Open Scope N_scope.

Definition differing (x y : N) : N := word_of (fun i => xorb (bit x i) (bit y i)).
Definition turn (k : nat) (x : N) : N := word_of (turned k x).

(** 2.2: the mixing of four words with two words of the message; the other words stay. *)
Definition mixed (a b c d : nat) (x y : N) (v v' : nat -> N) : Prop :=
  exists a1 b1 c1 d1,
    a1 = (v a + v b + x) mod 2 ^ 32 /\ d1 = turn 16 (differing (v d) a1) /\
    c1 = (v c + d1) mod 2 ^ 32 /\ b1 = turn 12 (differing (v b) c1) /\
    v' a = (a1 + b1 + y) mod 2 ^ 32 /\ v' d = turn 8 (differing d1 (v' a)) /\
    v' c = (c1 + v' d) mod 2 ^ 32 /\ v' b = turn 7 (differing b1 (v' c)) /\
    forall i, ~ In i [a; b; c; d] -> v' i = v i.

(** The four columns, then the four diagonals, of a square of four words by four. *)
Definition quarters (j : nat) (v v' : nat -> N) (x y : N) : Prop :=
  if (j <? 4)%nat then mixed j (4 + j) (8 + j) (12 + j) x y v v'
  else mixed (j - 4) (4 + (j + 1) mod 4) (8 + (j + 2) mod 4) (12 + (j + 3) mod 4) x y v v'.

(** Table 2: where the word at [i] comes from when the message is permuted. *)
Definition moved_from (i : nat) : nat := nth i [2; 6; 3; 10; 7; 0; 4; 13; 1; 11; 12; 5; 9; 14; 15; 8]%nat i.
Fixpoint word_place (r i : nat) : nat := match r with O => i | S r' => word_place r' (moved_from i) end.

(** 2.2: seven rounds of eight mixings each.  [t] counts chunks, [len] bytes of the block, [d] is the sum of the flags. *)
Definition b3_compression (h m : list N) (t len d : N) (out : list N) : Prop :=
  exists iv v, initial_value iv /\
    (forall i, (i < 8)%nat -> v O i = nth i h 0) /\ (forall i, (i < 4)%nat -> v O (8 + i)%nat = nth i iv 0) /\
    v O 12%nat = t mod 2 ^ 32 /\ v O 13%nat = t / 2 ^ 32 mod 2 ^ 32 /\ v O 14%nat = len /\ v O 15%nat = d /\
    (forall r j, (r < 7)%nat -> (j < 8)%nat ->
      quarters j (v (8 * r + j)%nat) (v (S (8 * r + j))) (nth (word_place r (2 * j)) m 0) (nth (word_place r (2 * j + 1)) m 0)) /\
    out = map (fun i => differing (v 56%nat i) (v 56%nat (8 + i)%nat)) (seq 0 8).

(** The sixteen words of a block, filled up with zero bytes. *)
Definition block_words (block : bytes) (m : list N) : Prop :=
  exists zeros pieces, block ++ zeros = concat pieces /\ Forall (eq x00) zeros /\ length (block ++ zeros) = 64%nat /\ Forall2 (le_number 4) m pieces.

(** The last compression of a chunk or a parent, but for the flag of the root. *)
Inductive b3_last := B3Last (h m : list N) (t len d : N).
Definition b3_value (n : b3_last) (out : list N) : Prop := match n with B3Last h m t len d => b3_compression h m t len d out end.

(** 2.4: the blocks of the [t]-th chunk before its last one, from the first. *)
Inductive blocks_chained (t : N) : list bytes -> list N -> Prop :=
| BC_start iv : initial_value iv -> blocks_chained t [] iv
| BC_block bs b h m h' : blocks_chained t bs h -> length b = 64%nat -> block_words b m ->
    b3_compression h m t 64 (match bs with [] => 1 | _ => 0 end) h' -> blocks_chained t (bs ++ [b]) h'.

(** A chunk of at most 1024 bytes: whole blocks and a last one, empty only if the chunk is. *)
Definition chunk_last (t : N) (chunk : bytes) (n : b3_last) : Prop :=
  exists (bs : list bytes) b h m, chunk = concat bs ++ b /\ (length b <= 64)%nat /\ (b = [] -> bs = []) /\ blocks_chained t bs h /\ block_words b m /\
    n = B3Last h m t (N.of_nat (length b)) (match bs with [] => 3 | _ => 2 end).

(** 2.1: the tree over a message whose first chunk has number [t]: the left half is as large as a full tree can be. *)
Inductive b3_tree : N -> bytes -> b3_last -> Prop :=
| B3_chunk t m n : (length m <= 1024)%nat -> chunk_last t m n -> b3_tree t m n
| B3_parent t k l r nl nr hl hr iv :
    length l = (1024 * 2 ^ k)%nat -> (0 < length r <= 1024 * 2 ^ k)%nat ->
    b3_tree t l nl -> b3_value nl hl -> b3_tree (t + 2 ^ N.of_nat k) r nr -> b3_value nr hr -> initial_value iv ->
    b3_tree t (l ++ r) (B3Last iv (hl ++ hr) 0 64 4).

(** The digest of 32 bytes: the last compression again, marked as the root. *)
Definition blake3_of (m d : bytes) : Prop :=
  exists h w t len f out words, b3_tree 0 m (B3Last h w t len f) /\ b3_compression h w 0 len (f + 8) out /\
    Forall2 (le_number 4) out words /\ d = concat words.
