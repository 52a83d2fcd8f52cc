(** SHA-3 and Keccak, hashes a UCAN can be cited under ([to_cid] takes any multihash code: ucan/src/ucan.rs:177-181,
    ucan/src/builder.rs:213-221).  The crates sha3 and keccak are not in the repository: the functions are those of FIPS 202, with the
    loops of these crates. *)
From Verif Require Import Prelude Sha512 Ed25519 Blake3 Blake2b.
Local Open Scope N_scope.

(** [u64::rotate_left] *)
Definition rotl64 (k x : N) : N := rotr64 (64 - k) x.

(** The order in which [f1600] visits the lanes, and how far it turns them. *)
Definition k_pi : list nat := [10; 7; 11; 17; 18; 3; 5; 16; 8; 21; 24; 4; 15; 23; 19; 13; 12; 2; 20; 14; 22; 9; 6; 1]%nat.
Definition k_rho : list N := [1; 3; 6; 10; 15; 21; 28; 36; 45; 55; 2; 14; 27; 41; 56; 8; 25; 43; 62; 18; 39; 61; 20; 44].
Definition k_rc : list N :=
  [0x0000000000000001; 0x0000000000008082; 0x800000000000808a; 0x8000000080008000; 0x000000000000808b; 0x0000000080000001;
   0x8000000080008081; 0x8000000000008009; 0x000000000000008a; 0x0000000000000088; 0x0000000080008009; 0x000000008000000a;
   0x000000008000808b; 0x800000000000008b; 0x8000000000008089; 0x8000000000008003; 0x8000000000008002; 0x8000000000000080;
   0x000000000000800a; 0x800000008000000a; 0x8000000080008081; 0x8000000000008080; 0x0000000080000001; 0x8000000080008008].

(** The 25 lanes; lane [x + 5 * y] is at column [x] and row [y]. *)
Definition k_theta (a : list N) : list N :=
  let g i := nth i a 0 in
  let c x := N.lxor (g x) (N.lxor (g (x + 5)%nat) (N.lxor (g (x + 10)%nat) (N.lxor (g (x + 15)%nat) (g (x + 20)%nat)))) in
  let d := map (fun x => N.lxor (c ((x + 4) mod 5)%nat) (rotl64 1 (c ((x + 1) mod 5)%nat))) (seq 0 5) in
  map (fun i => N.lxor (g i) (nth (i mod 5)%nat d 0)) (seq 0 25).
Definition k_rho_pi (a : list N) : list N :=
  snd (fold_left (fun '(last, a) '(j, r) => (nth j a 0, upd j (rotl64 r last) a)) (combine k_pi k_rho) (nth 1 a 0, a)).
Definition k_chi (a : list N) : list N :=
  map (fun i => N.lxor (nth i a 0) (N.ldiff (nth (5 * (i / 5) + (i + 2) mod 5)%nat a 0) (nth (5 * (i / 5) + (i + 1) mod 5)%nat a 0))) (seq 0 25).
Definition k_iota (rc : N) (a : list N) : list N := upd 0 (N.lxor (nth 0 a 0) rc) a.
Definition k_f1600 (a : list N) : list N := fold_left (fun a rc => k_iota rc (k_chi (k_rho_pi (k_theta a)))) k_rc a.

(** [absorb_block]: the lanes of the block, least byte first. *)
Definition k_absorb (a : list N) (block : bytes) : list N :=
  k_f1600 (map (fun i => N.lxor (nth i a 0) (nth i (b2_words block) 0)) (seq 0 25)).
Fixpoint k_blocks (n rate : nat) (p : bytes) (a : list N) : list N :=
  match n with
  | O => a
  | S n' => k_blocks n' rate (skipn rate p) (k_absorb a (firstn rate p))
  end.

(** [digest_pad]: the byte that separates the functions, zeros, and the highest bit of the last byte. *)
Definition k_pad (rate : nat) (ds : N) (m : bytes) : bytes :=
  let q := (rate - length m mod rate)%nat in
  m ++ (if (q =? 1)%nat then [byteN (N.lor ds 128)] else byteN ds :: repeat x00 (q - 2) ++ [x80]).

(** Digests of [n] bytes. *)
Definition keccak (ds : N) (n : nat) (m : bytes) : bytes :=
  let rate := (200 - 2 * n)%nat in
  let p := k_pad rate ds m in
  firstn n (flat_map (le_bytes 8) (k_blocks (length p / rate)%nat rate p (repeat 0 25))).
Definition sha3 (n : nat) (m : bytes) : bytes := keccak 6 n m.
Definition keccak_old (n : nat) (m : bytes) : bytes := keccak 1 n m.
