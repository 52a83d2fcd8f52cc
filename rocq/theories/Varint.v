(** Crate `unsigned-varint` 0.7, used in ucan/src/ipld/signature.rs:127-128 and
    :149-153 (and inside CIDs).  Third-party code, modelled from its source as
    documented: LEB128, decoding reads at most ten bytes, refuses a multi-byte
    encoding ending in a zero byte, and shifts bits beyond bit 63 out silently. *)
From Verif Require Import Prelude.

Fixpoint varint_encode_fuel (fuel : nat) (n : N) : bytes :=
  match fuel with
  | O => []
  | S f => if (n <? 128)%N then [byteN n]
           else byteN (n mod 128 + 128) :: varint_encode_fuel f (n / 128)%N
  end.

(** encode::u64 / encode::usize: a ten byte buffer suffices for 64 bits. *)
Definition varint_encode (n : N) : bytes := varint_encode_fuel 10 n.

(** decode::u64 / decode::usize.  [i] is the index of the next byte, [acc] the
    bits read so far; byte number 9 is the last one allowed. *)
Fixpoint varint_decode_from (i : nat) (acc : N) (buf : bytes) : option (N * bytes) :=
  match buf with
  | [] => None                                              (* Insufficient *)
  | c :: rest =>
      let acc' := (acc + (bN c mod 128) * 2 ^ (7 * N.of_nat i))%N in
      if (bN c <? 128)%N then
        if (bN c =? 0)%N && (0 <? i)%nat then None           (* NotMinimal *)
        else Some ((acc' mod 2 ^ 64)%N, rest)
      else if (i =? 9)%nat then None                         (* Overflow *)
      else varint_decode_from (S i) acc' rest
  end.

Definition varint_decode (buf : bytes) : option (N * bytes) := varint_decode_from 0 0%N buf.
