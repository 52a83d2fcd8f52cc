(** The other lengths of BLAKE2b, and BLAKE2s: hashes a UCAN can be cited under ([to_cid] takes any multihash code:
    ucan/src/ucan.rs:177-181).  The crates blake2b_simd and blake2s_simd are not in the repository: the functions are those of
    RFC 7693, without a key. *)
From Verif Require Import Prelude Cbor Sha256 Ed25519 Blake3 Blake2b.
Local Open Scope N_scope.

(** BLAKE2b with digests of [n] bytes. *)
Definition b2_start (n : nat) : list N := upd 0 (N.lxor (nth 0 b2_iv 0) (0x01010000 + N.of_nat n)) b2_iv.
Definition blake2b (n : nat) (m : bytes) : bytes := firstn n (flat_map (le_bytes 8) (b2_blocks (S (length m)) (b2_start n) 0 m)).

(** BLAKE2s: words of 32 bits, ten rounds, blocks of 64 bytes.  Its mixing function is the one BLAKE3 took over. *)
Definition b2s_round (sigma : list nat) (m s : list N) : list N :=
  let w i := nth (nth i sigma O) m 0 in
  let s := b3_g 0 4 8 12 (w 0%nat) (w 1%nat) s in
  let s := b3_g 1 5 9 13 (w 2%nat) (w 3%nat) s in
  let s := b3_g 2 6 10 14 (w 4%nat) (w 5%nat) s in
  let s := b3_g 3 7 11 15 (w 6%nat) (w 7%nat) s in
  let s := b3_g 0 5 10 15 (w 8%nat) (w 9%nat) s in
  let s := b3_g 1 6 11 12 (w 10%nat) (w 11%nat) s in
  let s := b3_g 2 7 8 13 (w 12%nat) (w 13%nat) s in
  b3_g 3 4 9 14 (w 14%nat) (w 15%nat) s.
Definition b2s_compress (h m : list N) (t : N) (last : bool) : list N :=
  let iv i := nth i b3_iv 0 in
  let s := h ++ firstn 4 b3_iv ++ [N.lxor (iv 4%nat) (low32 t); N.lxor (iv 5%nat) (low32 (N.shiftr t 32));
                                  if last then N.lxor (iv 6%nat) 0xffffffff else iv 6%nat; iv 7%nat] in
  let v := fold_left (fun s sigma => b2s_round sigma m s) (firstn 10 b2_sigma) s in
  map (fun i => N.lxor (nth i h 0) (N.lxor (nth i v 0) (nth (8 + i) v 0))) (seq 0 8).
Fixpoint b2s_blocks (fuel : nat) (h : list N) (t : N) (m : bytes) : list N :=
  match fuel with
  | O => h
  | S fuel' =>
      if (length m <=? 64)%nat then
        b2s_compress h (b3_words (m ++ repeat x00 (64 - length m))) (t + N.of_nat (length m)) true
      else b2s_blocks fuel' (b2s_compress h (b3_words (firstn 64 m)) (t + 64) false) (t + 64) (skipn 64 m)
  end.
Definition b2s_start (n : nat) : list N := upd 0 (N.lxor (nth 0 b3_iv 0) (0x01010000 + N.of_nat n)) b3_iv.
Definition blake2s (n : nat) (m : bytes) : bytes := firstn n (flat_map (le_bytes 4) (b2s_blocks (S (length m)) (b2s_start n) 0 m)).
