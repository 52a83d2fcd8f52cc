(** BLAKE3, the default hash of CIDs (ucan/src/builder.rs:280-282, ucan/src/store.rs:123).  The crate blake3 is not in
    the repository: the functions are those of its reference implementation, which the crate computes in parallel.
    Loops have the length of the input as fuel; each turn takes a byte or more. *)
From Verif Require Import Prelude Cbor Sha256 Ed25519.
Local Open Scope N_scope.

Definition b3_iv : list N := [0x6A09E667; 0xBB67AE85; 0x3C6EF372; 0xA54FF53A; 0x510E527F; 0x9B05688C; 0x1F83D9AB; 0x5BE0CD19].
Definition chunk_start : N := 1.
Definition chunk_end : N := 2.
Definition b3_parent : N := 4.
Definition b3_root : N := 8.

(* ------------------------------------------------------------------ compression *)

Fixpoint upd (i : nat) (v : N) (l : list N) : list N :=
  match l, i with
  | [], _ => []
  | _ :: l', O => v :: l'
  | x :: l', S i' => x :: upd i' v l'
  end.
(** [g]: the quarter round; its two halves have the same four lines *)
Definition b3_half (a b c d : nat) (m r1 r2 : N) (s : list N) : list N :=
  let get i s := nth i s 0 in
  let s := upd a (add32 (add32 (get a s) (get b s)) m) s in
  let s := upd d (rotr r1 (N.lxor (get d s) (get a s))) s in
  let s := upd c (add32 (get c s) (get d s)) s in
  upd b (rotr r2 (N.lxor (get b s) (get c s))) s.
Definition b3_g (a b c d : nat) (mx my : N) (s : list N) : list N := b3_half a b c d my 8 7 (b3_half a b c d mx 16 12 s).
(** [round] *)
Definition b3_round (m s : list N) : list N :=
  let w i := nth i m 0 in
  let s := b3_g 0 4 8 12 (w 0%nat) (w 1%nat) s in
  let s := b3_g 1 5 9 13 (w 2%nat) (w 3%nat) s in
  let s := b3_g 2 6 10 14 (w 4%nat) (w 5%nat) s in
  let s := b3_g 3 7 11 15 (w 6%nat) (w 7%nat) s in
  let s := b3_g 0 5 10 15 (w 8%nat) (w 9%nat) s in
  let s := b3_g 1 6 11 12 (w 10%nat) (w 11%nat) s in
  let s := b3_g 2 7 8 13 (w 12%nat) (w 13%nat) s in
  b3_g 3 4 9 14 (w 14%nat) (w 15%nat) s.
(** [permute] *)
Definition b3_permute (m : list N) : list N := map (fun i => nth i m 0) [2; 6; 3; 10; 7; 0; 4; 13; 1; 11; 12; 5; 9; 14; 15; 8]%nat.
Fixpoint b3_rounds (n : nat) (m s : list N) : list N :=
  match n with
  | O => s
  | S n' => b3_rounds n' (b3_permute m) (b3_round m s)
  end.
(** [compress] and [first_8_words]; the other eight words are for longer output *)
Definition b3_compress (cv words : list N) (counter len flags : N) : list N :=
  let s := b3_rounds 7 words (cv ++ firstn 4 b3_iv ++ [low32 counter; low32 (N.shiftr counter 32); len; flags]) in
  map (fun i => N.lxor (nth i s 0) (nth (8 + i) s 0)) (seq 0 8).
(** [words_from_little_endian_bytes] *)
Fixpoint b3_words (block : bytes) : list N :=
  match block with
  | b0 :: b1 :: b2 :: b3 :: r => le_value [b0; b1; b2; b3] :: b3_words r
  | _ => []
  end.

(* ------------------------------------------------------------------ outputs *)

(** [Output]: the last compression of a chunk or a parent, not yet made. *)
Record b3_output := mkOutput { bo_cv : list N; bo_words : list N; bo_counter : N; bo_len : N; bo_flags : N }.
Definition b3_chaining (o : b3_output) : list N := b3_compress (bo_cv o) (bo_words o) (bo_counter o) (bo_len o) (bo_flags o).
(** [root_output_bytes], for 32 bytes *)
Definition b3_root_bytes (o : b3_output) : bytes :=
  flat_map (le_bytes 4) (b3_compress (bo_cv o) (bo_words o) 0 (bo_len o) (N.lor (bo_flags o) b3_root)).
Definition b3_parent_output (l r : list N) : b3_output := mkOutput b3_iv (l ++ r) 0 64 b3_parent.

(* ------------------------------------------------------------------ chunks *)

(** [ChunkState] *)
Record b3_chunk := mkChunk { bc_cv : list N; bc_counter : N; bc_block : bytes; bc_compressed : nat }.
Definition b3_new_chunk (counter : N) : b3_chunk := mkChunk b3_iv counter [] 0.
Definition b3_chunk_len (c : b3_chunk) : nat := 64 * bc_compressed c + length (bc_block c).
Definition b3_start_flag (c : b3_chunk) : N := if (bc_compressed c =? 0)%nat then chunk_start else 0.
Definition b3_flush (c : b3_chunk) : b3_chunk :=
  if (length (bc_block c) =? 64)%nat then
    mkChunk (b3_compress (bc_cv c) (b3_words (bc_block c)) (bc_counter c) 64 (b3_start_flag c)) (bc_counter c) [] (S (bc_compressed c))
  else c.
Fixpoint b3_chunk_update (fuel : nat) (c : b3_chunk) (input : bytes) : b3_chunk :=
  match fuel with
  | O => c
  | S fuel' =>
      match input with
      | [] => c
      | _ =>
          let c := b3_flush c in
          let want := (64 - length (bc_block c))%nat in
          b3_chunk_update fuel' (mkChunk (bc_cv c) (bc_counter c) (bc_block c ++ firstn want input) (bc_compressed c)) (skipn want input)
      end
  end.
Definition b3_chunk_output (c : b3_chunk) : b3_output :=
  mkOutput (bc_cv c) (b3_words (bc_block c ++ repeat x00 (64 - length (bc_block c)))) (bc_counter c) (N.of_nat (length (bc_block c)))
    (N.lor (b3_start_flag c) chunk_end).

(* ------------------------------------------------------------------ the tree *)

(** [Hasher]; the stack has its top first *)
Record b3_hasher := mkHasher { bh_chunk : b3_chunk; bh_stack : list (list N) }.
Definition b3_new : b3_hasher := mkHasher (b3_new_chunk 0) [].
(** [add_chunk_chaining_value]: a merge for every trailing zero bit of the number of chunks *)
Fixpoint b3_push (total : positive) (stack : list (list N)) (cv : list N) : list (list N) :=
  match total, stack with
  | xO t, top :: stack' => b3_push t stack' (b3_chaining (b3_parent_output top cv))
  | _, _ => cv :: stack
  end.
Definition b3_next (h : b3_hasher) : b3_hasher :=
  let c := bh_chunk h in
  if (b3_chunk_len c =? 1024)%nat then
    mkHasher (b3_new_chunk (N.succ (bc_counter c))) (b3_push (N.succ_pos (bc_counter c)) (bh_stack h) (b3_chaining (b3_chunk_output c)))
  else h.
(** [Hasher::update] *)
Fixpoint b3_updates (fuel : nat) (h : b3_hasher) (input : bytes) : b3_hasher :=
  match fuel with
  | O => h
  | S fuel' =>
      match input with
      | [] => h
      | _ =>
          let h := b3_next h in
          let want := (1024 - b3_chunk_len (bh_chunk h))%nat in
          let piece := firstn want input in
          b3_updates fuel' (mkHasher (b3_chunk_update (length piece) (bh_chunk h) piece) (bh_stack h)) (skipn want input)
      end
  end.
Definition b3_update (h : b3_hasher) (input : bytes) : b3_hasher := b3_updates (length input) h input.
(** [Hasher::finalize] *)
Definition b3_finalize (h : b3_hasher) : bytes :=
  b3_root_bytes (fold_left (fun o cv => b3_parent_output cv (b3_chaining o)) (bh_stack h) (b3_chunk_output (bh_chunk h))).

Definition blake3 (m : bytes) : bytes := b3_finalize (b3_update b3_new m).
