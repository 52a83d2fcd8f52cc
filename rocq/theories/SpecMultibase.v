(** Specifications about texts of bytes in the bases of multibase (C162-C163). *)
From Verif Require Import Prelude Base58 Value Cid Ext Spec SpecWire SpecIpld SpecKeys.

(** The letters of a base, in the order of their values. *)
Definition digit (a : bytes) (n : N) (c : byte) : Prop := nth_error a (N.to_nat n) = Some c.

(** [k] binary digits, the highest first. *)
Definition binary (k : nat) (n : N) (l : list N) : Prop :=
  length l = k /\ Forall (fun d => d < 2)%N l /\ place_value 2 l = n.

(** Bases that are powers of two: the binary digits of the bytes, and fewer zeros
    than make up a letter, are the binary digits of the letters. *)
Definition bits_text (k : nat) (a : bytes) (bs text : bytes) : Prop :=
  exists octets zeros values letters,
    Forall2 (fun b l => binary 8 (bN b) l) bs octets /\
    (length zeros < k)%nat /\ Forall (eq 0%N) zeros /\
    Forall2 (binary k) values letters /\ Forall2 (digit a) values text /\
    concat octets ++ zeros = concat letters.

(** With padding: the text of up to so many bytes is filled up with '='.  Such texts
    may follow one another. *)
Inductive padded_text (k bytes_in width : nat) (a : bytes) : bytes -> bytes -> Prop :=
| PD_nil : padded_text k bytes_in width a [] []
| PD_block bs t padding rest text :
    (0 < length bs <= bytes_in)%nat -> bits_text k a bs t -> Forall (eq x3d) padding -> (length t + length padding = width)%nat ->
    padded_text k bytes_in width a rest text -> padded_text k bytes_in width a (bs ++ rest) (t ++ padding ++ text).

(** Other bases: leading zero bytes are leading first letters, the rest is a number. *)
Definition number_text (base : N) (a : bytes) (bs text : bytes) : Prop :=
  exists zeros rest ds,
    bs = repeat x00 zeros ++ rest /\ no_leading_zero (map bN rest) /\
    Forall2 (digit a) (repeat 0%N zeros ++ ds) text /\
    no_leading_zero ds /\ place_value base ds = place_value 256 (map bN rest).

(** The same text but for the case of letters. *)
Definition same_letter (c c' : byte) : Prop :=
  c = c' \/ (exists i, (i < 26)%N /\ (bN c = 65 + i /\ bN c' = 97 + i \/ bN c = 97 + i /\ bN c' = 65 + i))%N.

(** The table of multibase: the letter of the base, its texts. *)
Inductive base_text : byte -> bytes -> bytes -> Prop :=
| BT_identity bs : base_text x00 bs bs
| BT_base2 bs t : bits_text 1 (B "01") bs t -> base_text x30 bs t
| BT_base8 bs t : bits_text 3 (B "01234567") bs t -> base_text x37 bs t
| BT_base10 bs t : number_text 10 (B "0123456789") bs t -> base_text x39 bs t
| BT_base16 bs t : bits_text 4 (B "0123456789abcdef") bs t -> base_text x66 bs t
| BT_base16upper bs t : bits_text 4 (B "0123456789ABCDEF") bs t -> base_text x46 bs t
| BT_base32 bs t : bits_text 5 (B "abcdefghijklmnopqrstuvwxyz234567") bs t -> base_text x62 bs t
| BT_base32upper bs t : bits_text 5 (B "ABCDEFGHIJKLMNOPQRSTUVWXYZ234567") bs t -> base_text x42 bs t
| BT_base32pad bs t : padded_text 5 5 8 (B "abcdefghijklmnopqrstuvwxyz234567") bs t -> base_text x63 bs t
| BT_base32padupper bs t : padded_text 5 5 8 (B "ABCDEFGHIJKLMNOPQRSTUVWXYZ234567") bs t -> base_text x43 bs t
| BT_base32hex bs t : bits_text 5 (B "0123456789abcdefghijklmnopqrstuv") bs t -> base_text x76 bs t
| BT_base32hexupper bs t : bits_text 5 (B "0123456789ABCDEFGHIJKLMNOPQRSTUV") bs t -> base_text x56 bs t
| BT_base32hexpad bs t : padded_text 5 5 8 (B "0123456789abcdefghijklmnopqrstuv") bs t -> base_text x74 bs t
| BT_base32hexpadupper bs t : padded_text 5 5 8 (B "0123456789ABCDEFGHIJKLMNOPQRSTUV") bs t -> base_text x54 bs t
| BT_base32z bs t : bits_text 5 (B "ybndrfg8ejkmcpqxot1uwisza345h769") bs t -> base_text x68 bs t
| BT_base36 bs t t' : number_text 36 (B "0123456789abcdefghijklmnopqrstuvwxyz") bs t -> Forall2 same_letter t t' -> base_text x6b bs t'
| BT_base36upper bs t t' : number_text 36 (B "0123456789ABCDEFGHIJKLMNOPQRSTUVWXYZ") bs t -> Forall2 same_letter t t' -> base_text x4b bs t'
| BT_base58btc bs t : number_text 58 (B "123456789ABCDEFGHJKLMNPQRSTUVWXYZabcdefghijkmnopqrstuvwxyz") bs t -> base_text x7a bs t
| BT_base58flickr bs t : number_text 58 (B "123456789abcdefghijkmnopqrstuvwxyzABCDEFGHJKLMNPQRSTUVWXYZ") bs t -> base_text x5a bs t
| BT_base64 bs t : bits_text 6 (B "ABCDEFGHIJKLMNOPQRSTUVWXYZabcdefghijklmnopqrstuvwxyz0123456789+/") bs t -> base_text x6d bs t
| BT_base64pad bs t : padded_text 6 3 4 (B "ABCDEFGHIJKLMNOPQRSTUVWXYZabcdefghijklmnopqrstuvwxyz0123456789+/") bs t -> base_text x4d bs t
| BT_base64url bs t : bits_text 6 (B "ABCDEFGHIJKLMNOPQRSTUVWXYZabcdefghijklmnopqrstuvwxyz0123456789-_") bs t -> base_text x75 bs t
| BT_base64urlpad bs t : padded_text 6 3 4 (B "ABCDEFGHIJKLMNOPQRSTUVWXYZabcdefghijklmnopqrstuvwxyz0123456789-_") bs t -> base_text x55 bs t.

(** The letters of the table. *)
Definition base_letters : bytes :=
  [x00; x30; x37; x39; x66; x46; x62; x42; x63; x43; x76; x56; x74; x54; x68; x6b; x4b; x7a; x5a; x6d; x4d; x75; x55].

(** The bytes that a text of a CID stands for. *)
Inductive spelled : bytes -> bytes -> Prop :=
| SP_v0 r bs : length r = 44%nat -> number_text 58 (B "123456789ABCDEFGHJKLMNPQRSTUVWXYZabcdefghijkmnopqrstuvwxyz") bs (B "Qm" ++ r) -> spelled (B "Qm" ++ r) bs
| SP_base l t bs : base_text l bs t -> spelled (l :: t) bs.

(** The library knows the table. *)
Definition multibased (X : ext) : Prop := forall l t bs, x_multibase X l t = Some bs <-> base_text l bs t.

(** Letters whose bases write the same bytes in one way: no padding, no two cases. *)
Definition strict_letter (l : byte) : Prop :=
  In l [x00; x30; x37; x39; x66; x46; x62; x42; x76; x56; x68; x7a; x5a; x6d; x75].

(** Letters whose bases have no '/'. *)
Definition slashless (l : byte) : Prop := In l base_letters /\ l <> x00 /\ l <> x6d /\ l <> x4d.

Definition spells (t : bytes) (c : cid) : Prop :=
  exists s bs, cid_part t s /\ spelled s bs /\ cid_bytes bs c.
