(** SHA-3 (FIPS 202) and Keccak, written out for bits (C166). *)
From Verif Require Import Prelude.
Local Open Scope nat_scope.

(** 3.1: the state, bit [z] of the lane in column [x] and row [y]. *)
Definition kstate : Type := nat -> nat -> nat -> bool.

(** 3.2: the five steps. *)
Definition theta (A : kstate) : kstate :=
  let C x z := xorb (A x 0 z) (xorb (A x 1 z) (xorb (A x 2 z) (xorb (A x 3 z) (A x 4 z)))) in
  fun x y z => xorb (A x y z) (xorb (C ((x + 4) mod 5) z) (C ((x + 1) mod 5) ((z + 63) mod 64))).
Fixpoint walk (t : nat) : nat * nat := match t with O => (1, 0) | S t' => let '(x, y) := walk t' in (y, (2 * x + 3 * y) mod 5) end.
Definition offset (x y : nat) : nat :=
  match find (fun t => (fst (walk t) =? x) && (snd (walk t) =? y)) (seq 0 24) with Some t => (t + 1) * (t + 2) / 2 | None => 0 end.
Definition rho (A : kstate) : kstate := fun x y z => A x y ((z + 384 - offset x y) mod 64).
Definition pi (A : kstate) : kstate := fun x y z => A ((x + 3 * y) mod 5) x z.
Definition chi (A : kstate) : kstate := fun x y z => xorb (A x y z) (xorb (A ((x + 1) mod 5) y z) true && A ((x + 2) mod 5) y z).
Definition shifted (R : list bool) : list bool :=
  match R with
  | [r0; r1; r2; r3; r4; r5; r6; r7] => [r7; r0; r1; r2; xorb r3 r7; xorb r4 r7; xorb r5 r7; r6]
  | _ => R
  end.
Definition rc (t : nat) : bool := hd false (Nat.iter (t mod 255) shifted [true; false; false; false; false; false; false; false]).
Definition round_bit (r z : nat) : bool := existsb (fun j => (z =? 2 ^ j - 1) && rc (j + 7 * r)) (seq 0 7).
Definition iota (r : nat) (A : kstate) : kstate := fun x y z => if (x =? 0) && (y =? 0) then xorb (A x y z) (round_bit r z) else A x y z.

(** 3.3: 24 rounds. *)
Definition keccak_f (A : kstate) : kstate := fold_left (fun A r => iota r (chi (pi (rho (theta A))))) (seq 0 24) A.

(** B.1: the bits of a byte, the least first. *)
Definition byte_bits (m : bytes) : list bool := flat_map (fun c => map (fun i => N.testbit (bN c) (N.of_nat i)) (seq 0 8)) m.

(** 5.1: one, zeros, one, up to a multiple of [r]. *)
Definition padded_bits (r : nat) (M P : list bool) : Prop :=
  exists j k, j < r /\ P = M ++ [true] ++ repeat false j ++ [true] /\ length P = k * r.

(** 4: the sponge. *)
Fixpoint absorbed (A : kstate) (blocks : list (list bool)) : kstate :=
  match blocks with
  | [] => A
  | b :: bs => absorbed (keccak_f (fun x y z => xorb (A x y z) (nth (64 * (5 * y + x) + z) b false))) bs
  end.
Definition sponge (r d : nat) (M out : list bool) : Prop :=
  exists P blocks, padded_bits r M P /\ P = concat blocks /\ Forall (fun b => length b = r) blocks /\
    out = map (fun i => absorbed (fun _ _ _ => false) blocks (i / 64 mod 5) (i / 64 / 5) (i mod 64)) (seq 0 d).

(** 6.1: digests of [n] bytes; SHA-3 appends 01 to the message, the Keccak submitted to the competition nothing. *)
Definition sha3_of (n : nat) (m d : bytes) : Prop := sponge (1600 - 16 * n) (8 * n) (byte_bits m ++ [false; true]) (byte_bits d).
Definition keccak_of (n : nat) (m d : bytes) : Prop := sponge (1600 - 16 * n) (8 * n) (byte_bits m) (byte_bits d).
