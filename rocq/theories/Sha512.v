(** SHA-512, the hash of Ed25519 signatures (ucan-key-support/src/ed25519.rs:37-45, inside ed25519-zebra).  The crate sha2
    is not in the repository: the function is that of FIPS 180-4. *)
From Verif Require Import Prelude Cbor.
Local Open Scope N_scope.

(** Words of 64 bits. *)
Definition low64 (x : N) : N := N.land x 0xffffffffffffffff.
Definition add64 (x y : N) : N := low64 (x + y).
Definition rotr64 (k x : N) : N := N.lor (N.shiftr x k) (low64 (N.shiftl x (64 - k))).

Definition sha5_ch (x y z : N) : N := N.lxor (N.land x y) (N.ldiff z x).
Definition sha5_maj (x y z : N) : N := N.lxor (N.lxor (N.land x y) (N.land x z)) (N.land y z).
Definition big_sigma5_0 (x : N) : N := N.lxor (N.lxor (rotr64 28 x) (rotr64 34 x)) (rotr64 39 x).
Definition big_sigma5_1 (x : N) : N := N.lxor (N.lxor (rotr64 14 x) (rotr64 18 x)) (rotr64 41 x).
Definition small_sigma5_0 (x : N) : N := N.lxor (N.lxor (rotr64 1 x) (rotr64 8 x)) (N.shiftr x 7).
Definition small_sigma5_1 (x : N) : N := N.lxor (N.lxor (rotr64 19 x) (rotr64 61 x)) (N.shiftr x 6).

Definition sha5_k : list N :=
  [0x428a2f98d728ae22; 0x7137449123ef65cd; 0xb5c0fbcfec4d3b2f; 0xe9b5dba58189dbbc;
   0x3956c25bf348b538; 0x59f111f1b605d019; 0x923f82a4af194f9b; 0xab1c5ed5da6d8118;
   0xd807aa98a3030242; 0x12835b0145706fbe; 0x243185be4ee4b28c; 0x550c7dc3d5ffb4e2;
   0x72be5d74f27b896f; 0x80deb1fe3b1696b1; 0x9bdc06a725c71235; 0xc19bf174cf692694;
   0xe49b69c19ef14ad2; 0xefbe4786384f25e3; 0x0fc19dc68b8cd5b5; 0x240ca1cc77ac9c65;
   0x2de92c6f592b0275; 0x4a7484aa6ea6e483; 0x5cb0a9dcbd41fbd4; 0x76f988da831153b5;
   0x983e5152ee66dfab; 0xa831c66d2db43210; 0xb00327c898fb213f; 0xbf597fc7beef0ee4;
   0xc6e00bf33da88fc2; 0xd5a79147930aa725; 0x06ca6351e003826f; 0x142929670a0e6e70;
   0x27b70a8546d22ffc; 0x2e1b21385c26c926; 0x4d2c6dfc5ac42aed; 0x53380d139d95b3df;
   0x650a73548baf63de; 0x766a0abb3c77b2a8; 0x81c2c92e47edaee6; 0x92722c851482353b;
   0xa2bfe8a14cf10364; 0xa81a664bbc423001; 0xc24b8b70d0f89791; 0xc76c51a30654be30;
   0xd192e819d6ef5218; 0xd69906245565a910; 0xf40e35855771202a; 0x106aa07032bbd1b8;
   0x19a4c116b8d2d0c8; 0x1e376c085141ab53; 0x2748774cdf8eeb99; 0x34b0bcb5e19b48a8;
   0x391c0cb3c5c95a63; 0x4ed8aa4ae3418acb; 0x5b9cca4f7763e373; 0x682e6ff3d6b2b8a3;
   0x748f82ee5defb2fc; 0x78a5636f43172f60; 0x84c87814a1f0ab72; 0x8cc702081a6439ec;
   0x90befffa23631e28; 0xa4506cebde82bde9; 0xbef9a3f7b2c67915; 0xc67178f2e372532b;
   0xca273eceea26619c; 0xd186b8c721c0c207; 0xeada7dd6cde0eb1e; 0xf57d4f7fee6ed178;
   0x06f067aa72176fba; 0x0a637dc5a2c898a6; 0x113f9804bef90dae; 0x1b710b35131c471b;
   0x28db77f523047d84; 0x32caab7b40c72493; 0x3c9ebe0a15c9bebc; 0x431d67c49c100d4c;
   0x4cc5d4becb3e42b6; 0x597f299cfc657e2a; 0x5fcb6fab3ad6faec; 0x6c44198c4a475817].

Record sha5_state := mkSha5 { sha5_a : N; sha5_b : N; sha5_c : N; sha5_d : N; sha5_e : N; sha5_f : N; sha5_g : N; sha5_h : N }.
Definition sha5_init : sha5_state :=
  mkSha5 0x6a09e667f3bcc908 0xbb67ae8584caa73b 0x3c6ef372fe94f82b 0xa54ff53a5f1d36f1
    0x510e527fade682d1 0x9b05688c2b3e6c1f 0x1f83d9abfb41bd6b 0x5be0cd19137e2179.

Definition sha5_round (k w : N) (s : sha5_state) : sha5_state :=
  let t1 := add64 (add64 (add64 (add64 (sha5_h s) (big_sigma5_1 (sha5_e s))) (sha5_ch (sha5_e s) (sha5_f s) (sha5_g s))) k) w in
  let t2 := add64 (big_sigma5_0 (sha5_a s)) (sha5_maj (sha5_a s) (sha5_b s) (sha5_c s)) in
  mkSha5 (add64 t1 t2) (sha5_a s) (sha5_b s) (sha5_c s) (add64 (sha5_d s) t1) (sha5_e s) (sha5_f s) (sha5_g s).

(** The rounds of a block; [window] are the next sixteen words of its message schedule. *)
Fixpoint sha5_rounds (ks window : list N) (s : sha5_state) : sha5_state :=
  match ks with
  | [] => s
  | k :: ks' =>
      let w i := nth i window 0 in
      let next := add64 (add64 (add64 (small_sigma5_1 (w 14%nat)) (w 9%nat)) (small_sigma5_0 (w 1%nat))) (w 0%nat) in
      sha5_rounds ks' (tl window ++ [next]) (sha5_round k (w 0%nat) s)
  end.

Definition sha5_sum (s t : sha5_state) : sha5_state :=
  mkSha5 (add64 (sha5_a s) (sha5_a t)) (add64 (sha5_b s) (sha5_b t)) (add64 (sha5_c s) (sha5_c t)) (add64 (sha5_d s) (sha5_d t))
    (add64 (sha5_e s) (sha5_e t)) (add64 (sha5_f s) (sha5_f t)) (add64 (sha5_g s) (sha5_g t)) (add64 (sha5_h s) (sha5_h t)).

(** The big-endian words of a string. *)
Fixpoint sha5_words (s : bytes) : list N :=
  match s with
  | b0 :: b1 :: b2 :: b3 :: b4 :: b5 :: b6 :: b7 :: r => be_value [b0; b1; b2; b3; b4; b5; b6; b7] :: sha5_words r
  | _ => []
  end.

Definition sha5_compress (s : sha5_state) (block : bytes) : sha5_state := sha5_sum s (sha5_rounds sha5_k (sha5_words block) s).

Fixpoint sha5_blocks (n : nat) (m : bytes) (s : sha5_state) : sha5_state :=
  match n with
  | O => s
  | S n' => sha5_blocks n' (skipn 128 m) (sha5_compress s (firstn 128 m))
  end.

(** A one bit, zeros and the length in bits: a multiple of 128 bytes. *)
Definition sha5_pad (m : bytes) : bytes :=
  m ++ [x80] ++ repeat x00 ((239 - length m mod 128) mod 128)%nat ++ be_bytes 16 (8 * N.of_nat (length m)).

Definition sha512 (m : bytes) : bytes :=
  let p := sha5_pad m in
  let s := sha5_blocks (length p / 128)%nat p sha5_init in
  flat_map (be_bytes 8) [sha5_a s; sha5_b s; sha5_c s; sha5_d s; sha5_e s; sha5_f s; sha5_g s; sha5_h s].
