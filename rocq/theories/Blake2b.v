(** BLAKE2b with digests of 32 bytes, the hash of the fixture store's CIDs (ucan/src/tests/fixtures/store.rs:41) and of a
    proof cited under another hasher (ucan/src/tests/builder.rs:182).  The crate blake2b_simd is not in the repository:
    the function is that of RFC 7693, without a key. *)
From Verif Require Import Prelude Cbor Sha512 Ed25519 Blake3.
Local Open Scope N_scope.

Definition b2_iv : list N :=
  [0x6a09e667f3bcc908; 0xbb67ae8584caa73b; 0x3c6ef372fe94f82b; 0xa54ff53a5f1d36f1;
   0x510e527fade682d1; 0x9b05688c2b3e6c1f; 0x1f83d9abfb41bd6b; 0x5be0cd19137e2179].
(** 2.7: the order of the words of a block in each round; rounds ten and eleven are like zero and one *)
Definition b2_sigma : list (list nat) :=
  [[0; 1; 2; 3; 4; 5; 6; 7; 8; 9; 10; 11; 12; 13; 14; 15];
   [14; 10; 4; 8; 9; 15; 13; 6; 1; 12; 0; 2; 11; 7; 5; 3];
   [11; 8; 12; 0; 5; 2; 15; 13; 10; 14; 3; 6; 7; 1; 9; 4];
   [7; 9; 3; 1; 13; 12; 11; 14; 2; 6; 5; 10; 4; 0; 15; 8];
   [9; 0; 5; 7; 2; 4; 10; 15; 14; 1; 11; 12; 6; 8; 3; 13];
   [2; 12; 6; 10; 0; 11; 8; 3; 4; 13; 7; 5; 15; 14; 1; 9];
   [12; 5; 1; 15; 14; 13; 4; 10; 0; 7; 6; 3; 9; 2; 8; 11];
   [13; 11; 7; 14; 12; 1; 3; 9; 5; 0; 15; 4; 8; 6; 2; 10];
   [6; 15; 14; 9; 11; 3; 0; 8; 12; 2; 13; 7; 1; 4; 10; 5];
   [10; 2; 8; 4; 7; 6; 1; 5; 15; 11; 9; 14; 3; 12; 13; 0];
   [0; 1; 2; 3; 4; 5; 6; 7; 8; 9; 10; 11; 12; 13; 14; 15];
   [14; 10; 4; 8; 9; 15; 13; 6; 1; 12; 0; 2; 11; 7; 5; 3]]%nat.

(** 3.1: the mixing function G; its two halves have the same four lines *)
Definition b2_half (a b c d : nat) (m r1 r2 : N) (s : list N) : list N :=
  let get i s := nth i s 0 in
  let s := upd a (add64 (add64 (get a s) (get b s)) m) s in
  let s := upd d (rotr64 r1 (N.lxor (get d s) (get a s))) s in
  let s := upd c (add64 (get c s) (get d s)) s in
  upd b (rotr64 r2 (N.lxor (get b s) (get c s))) s.
Definition b2_g (a b c d : nat) (mx my : N) (s : list N) : list N := b2_half a b c d my 16 63 (b2_half a b c d mx 32 24 s).
Definition b2_round (sigma : list nat) (m s : list N) : list N :=
  let w i := nth (nth i sigma O) m 0 in
  let s := b2_g 0 4 8 12 (w 0%nat) (w 1%nat) s in
  let s := b2_g 1 5 9 13 (w 2%nat) (w 3%nat) s in
  let s := b2_g 2 6 10 14 (w 4%nat) (w 5%nat) s in
  let s := b2_g 3 7 11 15 (w 6%nat) (w 7%nat) s in
  let s := b2_g 0 5 10 15 (w 8%nat) (w 9%nat) s in
  let s := b2_g 1 6 11 12 (w 10%nat) (w 11%nat) s in
  let s := b2_g 2 7 8 13 (w 12%nat) (w 13%nat) s in
  b2_g 3 4 9 14 (w 14%nat) (w 15%nat) s.
(** 3.2: the compression function F *)
Definition b2_compress (h m : list N) (t : N) (last : bool) : list N :=
  let iv i := nth i b2_iv 0 in
  let s := h ++ firstn 4 b2_iv ++ [N.lxor (iv 4%nat) (low64 t); N.lxor (iv 5%nat) (low64 (N.shiftr t 64));
                                  if last then N.lxor (iv 6%nat) 0xffffffffffffffff else iv 6%nat; iv 7%nat] in
  let v := fold_left (fun s sigma => b2_round sigma m s) b2_sigma s in
  map (fun i => N.lxor (nth i h 0) (N.lxor (nth i v 0) (nth (8 + i) v 0))) (seq 0 8).
Fixpoint b2_words (block : bytes) : list N :=
  match block with
  | b0 :: b1 :: b2 :: b3 :: b4 :: b5 :: b6 :: b7 :: r => le_value [b0; b1; b2; b3; b4; b5; b6; b7] :: b2_words r
  | _ => []
  end.
(** 3.3: every block but the last, which is filled up with zeros; the input's length is fuel enough. *)
Fixpoint b2_blocks (fuel : nat) (h : list N) (t : N) (m : bytes) : list N :=
  match fuel with
  | O => h
  | S fuel' =>
      if (length m <=? 128)%nat then
        b2_compress h (b2_words (m ++ repeat x00 (128 - length m))) (t + N.of_nat (length m)) true
      else b2_blocks fuel' (b2_compress h (b2_words (firstn 128 m)) (t + 128) false) (t + 128) (skipn 128 m)
  end.
Definition b2_init : list N := upd 0 (N.lxor (nth 0 b2_iv 0) 0x01010020) b2_iv.
Definition blake2b256 (m : bytes) : bytes := flat_map (le_bytes 8) (firstn 4 (b2_blocks (S (length m)) b2_init 0 m)).
