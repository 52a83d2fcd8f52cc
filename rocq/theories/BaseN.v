(** Power-of-two base encodings: base64 (URL-safe alphabet, no padding) of the
    `base64` crate as used in ucan/src/serde.rs:42, ucan/src/ucan.rs:97 and :239,
    and base32 (lower case, no padding) as used by `cid` for the text of a CID.

    Third-party code, modelled from its documented behaviour: bits are taken most
    significant first in groups of [k]; the last group is padded with zero bits;
    the decoder rejects characters outside the alphabet, lengths that leave a
    whole unused group, and non-zero padding bits (the default of both crates). *)
From Verif Require Import Prelude.

(** The bits of [n] at positions [k-1 .. 0], most significant first. *)
Fixpoint bits_of (k : nat) (n : N) : list bool :=
  match k with
  | O => []
  | S k' => N.testbit n (N.of_nat k') :: bits_of k' n
  end.

(** The number with the given bits, most significant first. *)
Definition bits_val (l : list bool) : N :=
  fold_left (fun acc (b : bool) => 2 * acc + (if b then 1 else 0))%N l 0%N.

(** Exactly [k] bits from the front, padding with zeros. *)
Fixpoint take_pad (k : nat) (l : list bool) : list bool :=
  match k with
  | O => []
  | S k' => match l with
            | [] => false :: take_pad k' []
            | b :: l' => b :: take_pad k' l'
            end
  end.

(** Split into groups of [k] (the last one padded); [fuel >= length l] suffices. *)
Fixpoint groups (fuel k : nat) (l : list bool) : list (list bool) :=
  match fuel with
  | O => []
  | S f => match l with
           | [] => []
           | _ => take_pad k l :: groups f k (skipn k l)
           end
  end.

Definition to_bits (bs : bytes) : list bool := flat_map (fun b => bits_of 8 (bN b)) bs.

(** A byte alphabet, given as its characters in order. *)
Definition alphabet := bytes.

Definition letter (a : alphabet) (n : N) : byte := nth (N.to_nat n) a x00.

Fixpoint letter_index_from (a : alphabet) (i : N) (c : byte) : option N :=
  match a with
  | [] => None
  | c' :: a' => if Byte.eqb c c' then Some i else letter_index_from a' (i + 1)%N c
  end.
Definition letter_index (a : alphabet) (c : byte) : option N := letter_index_from a 0%N c.

Definition basen_encode (k : nat) (a : alphabet) (bs : bytes) : bytes :=
  let bits := to_bits bs in
  map (fun g => letter a (bits_val g)) (groups (length bits) k bits).

Fixpoint letter_indices (a : alphabet) (s : bytes) : option (list N) :=
  match s with
  | [] => Some []
  | c :: s' =>
      let?? i := letter_index a c in
      let?? l := letter_indices a s' in
      Some (i :: l)
  end.

Definition basen_decode (k : nat) (a : alphabet) (s : bytes) : option bytes :=
  let?? idx := letter_indices a s in
  let bits := flat_map (bits_of k) idx in
  let n := Nat.div (length bits) 8 in
  let data := firstn (8 * n) bits in
  let pad := skipn (8 * n) bits in
  if (length pad <? k)%nat && forallb negb pad
  then Some (map (fun g => byteN (bits_val g)) (groups (length data) 8 data))
  else None.

Definition base64url_alphabet : alphabet :=
  B "ABCDEFGHIJKLMNOPQRSTUVWXYZabcdefghijklmnopqrstuvwxyz0123456789-_".

(** base64::engine::general_purpose::URL_SAFE_NO_PAD.encode / .decode *)
Definition b64_encode (bs : bytes) : bytes := basen_encode 6 base64url_alphabet bs.
Definition b64_decode (s : bytes) : option bytes := basen_decode 6 base64url_alphabet s.

(** Standard base64 alphabet without padding: the DAG-JSON form of byte strings. *)
Definition base64std_alphabet : alphabet :=
  B "ABCDEFGHIJKLMNOPQRSTUVWXYZabcdefghijklmnopqrstuvwxyz0123456789+/".
Definition b64std_encode (bs : bytes) : bytes := basen_encode 6 base64std_alphabet bs.
Definition b64std_decode (s : bytes) : option bytes := basen_decode 6 base64std_alphabet s.

Definition base32_alphabet : alphabet := B "abcdefghijklmnopqrstuvwxyz234567".

(** multibase Base::Base32Lower (without the leading 'b'). *)
Definition b32_encode (bs : bytes) : bytes := basen_encode 5 base32_alphabet bs.
Definition b32_decode (s : bytes) : option bytes := basen_decode 5 base32_alphabet s.
