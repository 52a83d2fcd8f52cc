(** Positional numerals, base58btc (crate `bs58`, used in ucan/src/crypto/did.rs:52,
    ucan/src/ipld/principle.rs:18,36 and the get_did functions of ucan-key-support),
    and decimal ([format!("{usize}")], [str::parse::<usize>]).

    Third-party code, modelled by its mathematical meaning: leading zero bytes
    correspond to leading '1' characters, the rest is a change of base. *)
From Verif Require Import Prelude BaseN.

(** Digits of [n] in base [b], least significant first; [fuel] >= number of digits. *)
Fixpoint digits_le (fuel : nat) (b n : N) : list N :=
  match fuel with
  | O => []
  | S f => if (n =? 0)%N then [] else (n mod b)%N :: digits_le f b (n / b)%N
  end.

(** Digits most significant first, no leading zero, none for 0.
    The number of binary digits bounds the number of digits. *)
Definition to_digits (b n : N) : list N := rev (digits_le (N.size_nat n) b n).

Definition of_digits (b : N) (l : list N) : N := fold_left (fun acc d => acc * b + d)%N l 0%N.

(** Number of leading elements satisfying [p], and what follows them. *)
Fixpoint span {A} (p : A -> bool) (l : list A) : nat * list A :=
  match l with
  | [] => (O, [])
  | x :: l' => if p x then let '(n, r) := span p l' in (S n, r) else (O, l)
  end.

Definition base58_alphabet : alphabet :=
  B "123456789ABCDEFGHJKLMNPQRSTUVWXYZabcdefghijkmnopqrstuvwxyz".

(** bs58::encode(bytes).into_string() *)
Definition b58_encode (bs : bytes) : bytes :=
  let '(z, r) := span (fun d => (d =? 0)%N) (map bN bs) in
  map (letter base58_alphabet) (repeat 0%N z ++ to_digits 58 (of_digits 256 r)).

(** bs58::decode(s).into_vec() *)
Definition b58_decode (s : bytes) : option bytes :=
  let?? idx := letter_indices base58_alphabet s in
  let '(z, r) := span (fun d => (d =? 0)%N) idx in
  Some (map byteN (repeat 0%N z ++ to_digits 256 (of_digits 58 r))).

Definition digit_char (d : N) : byte := byteN (48 + d).

(** Display for unsigned integers. *)
Definition dec_print (n : N) : bytes :=
  if (n =? 0)%N then B "0" else map digit_char (to_digits 10 n).

Definition is_digit (c : byte) : bool := (48 <=? bN c)%N && (bN c <=? 57)%N.
Definition digit_val (c : byte) : N := (bN c - 48)%N.

Definition dec_value (s : bytes) : N := of_digits 10 (map digit_val s).

Definition usize_max : N := 18446744073709551615.  (* 2^64 - 1: a 64-bit target is assumed *)
Definition u64_max : N := 18446744073709551615.

(** [str::parse::<usize>()]: an optional '+', then one or more digits, no overflow. *)
Definition parse_usize (s : bytes) : option N :=
  let ds := match s with x2b :: r => r | _ => s end in
  match ds with
  | [] => None
  | _ => if forallb is_digit ds && (dec_value ds <=? usize_max)%N
         then Some (dec_value ds) else None
  end.
