(** SHA-256, the [Sha256] of ucan-key-support/src/rsa.rs:45-47 and :61-63.  The crate sha2 0.10
    is not in the repository: the function is that of FIPS 180-4. *)
From Verif Require Import Prelude Cbor.
Local Open Scope N_scope.

(** Words of 32 bits. *)
Definition low32 (x : N) : N := N.land x 0xffffffff.
Definition add32 (x y : N) : N := low32 (x + y).
Definition rotr (k x : N) : N := N.lor (N.shiftr x k) (low32 (N.shiftl x (32 - k))).

Definition sha_ch (x y z : N) : N := N.lxor (N.land x y) (N.ldiff z x).
Definition sha_maj (x y z : N) : N := N.lxor (N.lxor (N.land x y) (N.land x z)) (N.land y z).
Definition big_sigma0 (x : N) : N := N.lxor (N.lxor (rotr 2 x) (rotr 13 x)) (rotr 22 x).
Definition big_sigma1 (x : N) : N := N.lxor (N.lxor (rotr 6 x) (rotr 11 x)) (rotr 25 x).
Definition small_sigma0 (x : N) : N := N.lxor (N.lxor (rotr 7 x) (rotr 18 x)) (N.shiftr x 3).
Definition small_sigma1 (x : N) : N := N.lxor (N.lxor (rotr 17 x) (rotr 19 x)) (N.shiftr x 10).

Definition sha_k : list N :=
  [0x428a2f98; 0x71374491; 0xb5c0fbcf; 0xe9b5dba5; 0x3956c25b; 0x59f111f1; 0x923f82a4; 0xab1c5ed5;
   0xd807aa98; 0x12835b01; 0x243185be; 0x550c7dc3; 0x72be5d74; 0x80deb1fe; 0x9bdc06a7; 0xc19bf174;
   0xe49b69c1; 0xefbe4786; 0x0fc19dc6; 0x240ca1cc; 0x2de92c6f; 0x4a7484aa; 0x5cb0a9dc; 0x76f988da;
   0x983e5152; 0xa831c66d; 0xb00327c8; 0xbf597fc7; 0xc6e00bf3; 0xd5a79147; 0x06ca6351; 0x14292967;
   0x27b70a85; 0x2e1b2138; 0x4d2c6dfc; 0x53380d13; 0x650a7354; 0x766a0abb; 0x81c2c92e; 0x92722c85;
   0xa2bfe8a1; 0xa81a664b; 0xc24b8b70; 0xc76c51a3; 0xd192e819; 0xd6990624; 0xf40e3585; 0x106aa070;
   0x19a4c116; 0x1e376c08; 0x2748774c; 0x34b0bcb5; 0x391c0cb3; 0x4ed8aa4a; 0x5b9cca4f; 0x682e6ff3;
   0x748f82ee; 0x78a5636f; 0x84c87814; 0x8cc70208; 0x90befffa; 0xa4506ceb; 0xbef9a3f7; 0xc67178f2].

Record sha_state := mkSha { sha_a : N; sha_b : N; sha_c : N; sha_d : N; sha_e : N; sha_f : N; sha_g : N; sha_h : N }.
Definition sha_init : sha_state :=
  mkSha 0x6a09e667 0xbb67ae85 0x3c6ef372 0xa54ff53a
    0x510e527f 0x9b05688c 0x1f83d9ab 0x5be0cd19.

Definition sha_round (k w : N) (s : sha_state) : sha_state :=
  let t1 := add32 (add32 (add32 (add32 (sha_h s) (big_sigma1 (sha_e s))) (sha_ch (sha_e s) (sha_f s) (sha_g s))) k) w in
  let t2 := add32 (big_sigma0 (sha_a s)) (sha_maj (sha_a s) (sha_b s) (sha_c s)) in
  mkSha (add32 t1 t2) (sha_a s) (sha_b s) (sha_c s) (add32 (sha_d s) t1) (sha_e s) (sha_f s) (sha_g s).

(** The rounds of a block; [window] are the next sixteen words of its message schedule. *)
Fixpoint sha_rounds (ks window : list N) (s : sha_state) : sha_state :=
  match ks with
  | [] => s
  | k :: ks' =>
      let w i := nth i window 0 in
      let next := add32 (add32 (add32 (small_sigma1 (w 14%nat)) (w 9%nat)) (small_sigma0 (w 1%nat))) (w 0%nat) in
      sha_rounds ks' (tl window ++ [next]) (sha_round k (w 0%nat) s)
  end.

Definition sha_sum (s t : sha_state) : sha_state :=
  mkSha (add32 (sha_a s) (sha_a t)) (add32 (sha_b s) (sha_b t)) (add32 (sha_c s) (sha_c t)) (add32 (sha_d s) (sha_d t))
    (add32 (sha_e s) (sha_e t)) (add32 (sha_f s) (sha_f t)) (add32 (sha_g s) (sha_g t)) (add32 (sha_h s) (sha_h t)).

(** The big-endian words of a string. *)
Fixpoint sha_words (s : bytes) : list N :=
  match s with
  | b0 :: b1 :: b2 :: b3 :: r => be_value [b0; b1; b2; b3] :: sha_words r
  | _ => []
  end.

Definition sha_compress (s : sha_state) (block : bytes) : sha_state := sha_sum s (sha_rounds sha_k (sha_words block) s).

Fixpoint sha_blocks (n : nat) (m : bytes) (s : sha_state) : sha_state :=
  match n with
  | O => s
  | S n' => sha_blocks n' (skipn 64 m) (sha_compress s (firstn 64 m))
  end.

(** A one bit, zeros and the length in bits: a multiple of 64 bytes. *)
Definition sha_pad (m : bytes) : bytes :=
  m ++ [x80] ++ repeat x00 ((119 - length m mod 64) mod 64)%nat ++ be_bytes 8 (8 * N.of_nat (length m)).

Definition sha256 (m : bytes) : bytes :=
  let p := sha_pad m in
  let s := sha_blocks (length p / 64)%nat p sha_init in
  flat_map (be_bytes 4) [sha_a s; sha_b s; sha_c s; sha_d s; sha_e s; sha_f s; sha_g s; sha_h s].
