(** Decoding of texts with a leading letter that names the base: `multibase::decode`
    (crate multibase 0.9, used by `cid` 0.10 in [Cid::try_from(&str)], which /repo
    calls at ucan/src/chain.rs:67 and ucan/src/ipld/ucan.rs:36).

    Third-party code, not in /repo; modelled from its documented behaviour.  Bases
    that are powers of two go through crate `data-encoding`: no folding of case, no
    other characters, trailing bits zero.  Bases with padding are decoded block by
    block there, and each block may be padded.  The other bases go through crate
    `base-x`; the text in base 36 is first brought to the (ASCII) case of its letter. *)
From Verif Require Import Prelude BaseN Base58 Ext.

Definition base2_alphabet : alphabet := B "01".
Definition base8_alphabet : alphabet := B "01234567".
Definition base10_alphabet : alphabet := B "0123456789".
Definition base16_lower : alphabet := B "0123456789abcdef".
Definition base16_upper : alphabet := B "0123456789ABCDEF".
Definition base32_upper : alphabet := B "ABCDEFGHIJKLMNOPQRSTUVWXYZ234567".
Definition base32hex_lower : alphabet := B "0123456789abcdefghijklmnopqrstuv".
Definition base32hex_upper : alphabet := B "0123456789ABCDEFGHIJKLMNOPQRSTUV".
Definition base32z_alphabet : alphabet := B "ybndrfg8ejkmcpqxot1uwisza345h769".
Definition base36_lower : alphabet := B "0123456789abcdefghijklmnopqrstuvwxyz".
Definition base36_upper : alphabet := B "0123456789ABCDEFGHIJKLMNOPQRSTUVWXYZ".
Definition base58flickr_alphabet : alphabet := B "123456789abcdefghijkmnopqrstuvwxyzABCDEFGHJKLMNPQRSTUVWXYZ".

(** base_x::encode, base_x::decode: leading zero bytes are leading first letters, the
    rest is a change of base. *)
Definition basex_encode (b : N) (a : alphabet) (bs : bytes) : bytes :=
  let '(z, r) := span (fun d => (d =? 0)%N) (map bN bs) in
  map (letter a) (repeat 0%N z ++ to_digits b (of_digits 256 r)).

Definition basex_decode (b : N) (a : alphabet) (s : bytes) : option bytes :=
  let?? idx := letter_indices a s in
  let '(z, r) := span (fun d => (d =? 0)%N) idx in
  Some (map byteN (repeat 0%N z ++ to_digits 256 (of_digits b r))).

(** The letters before the padding at the end of a block. *)
Fixpoint unpadded (s : bytes) : bytes :=
  match s with
  | [] => []
  | c :: s' => match unpadded s' with
               | [] => if Byte.eqb c x3d then [] else [c]
               | u => c :: u
               end
  end.

(** Decoding with padding: blocks of [w] characters, none of only padding.
    [fuel >= length s] suffices. *)
Fixpoint padded_decode (fuel k w : nat) (a : alphabet) (s : bytes) : option bytes :=
  match s, fuel with
  | [], _ => Some []
  | _, O => None
  | _, S f =>
      if (length s <? w)%nat then None
      else match unpadded (firstn w s) with
           | [] => None
           | u => let?? bs := basen_decode k a u in
                  let?? rest := padded_decode f k w a (skipn w s) in
                  Some (bs ++ rest)
           end
  end.

(** str::to_ascii_lowercase, str::to_ascii_uppercase. *)
Definition to_lower (c : byte) : byte := if ((65 <=? bN c) && (bN c <=? 90))%N then byteN (bN c + 32) else c.
Definition to_upper (c : byte) : byte := if ((97 <=? bN c) && (bN c <=? 122))%N then byteN (bN c - 32) else c.

(** Base::from_code, Base::decode. *)
Definition mb_decode (c : byte) (s : bytes) : option bytes :=
  match c with
  | x00 => Some s
  | x30 => basen_decode 1 base2_alphabet s                               (* 0 *)
  | x37 => basen_decode 3 base8_alphabet s                               (* 7 *)
  | x39 => basex_decode 10 base10_alphabet s                             (* 9 *)
  | x66 => basen_decode 4 base16_lower s                                 (* f *)
  | x46 => basen_decode 4 base16_upper s                                 (* F *)
  | x62 => basen_decode 5 base32_alphabet s                              (* b *)
  | x42 => basen_decode 5 base32_upper s                                 (* B *)
  | x63 => padded_decode (length s) 5 8 base32_alphabet s                (* c *)
  | x43 => padded_decode (length s) 5 8 base32_upper s                   (* C *)
  | x76 => basen_decode 5 base32hex_lower s                              (* v *)
  | x56 => basen_decode 5 base32hex_upper s                              (* V *)
  | x74 => padded_decode (length s) 5 8 base32hex_lower s                (* t *)
  | x54 => padded_decode (length s) 5 8 base32hex_upper s                (* T *)
  | x68 => basen_decode 5 base32z_alphabet s                             (* h *)
  | x6b => basex_decode 36 base36_lower (map to_lower s)                    (* k *)
  | x4b => basex_decode 36 base36_upper (map to_upper s)                    (* K *)
  | x7a => basex_decode 58 base58_alphabet s                             (* z *)
  | x5a => basex_decode 58 base58flickr_alphabet s                       (* Z *)
  | x6d => basen_decode 6 base64std_alphabet s                           (* m *)
  | x4d => padded_decode (length s) 6 4 base64std_alphabet s             (* M *)
  | x75 => basen_decode 6 base64url_alphabet s                           (* u *)
  | x55 => padded_decode (length s) 6 4 base64url_alphabet s             (* U *)
  | _ => None
  end.

(** The libraries with this decoder. *)
Definition with_multibase (X : ext) : ext :=
  mkExt (x_f64_print X) (x_f64_parse X) (x_value_i128 X) (x_dagjson_end X) mb_decode (x_url_hier X) (x_hash X) (x_overflow_checks X).
