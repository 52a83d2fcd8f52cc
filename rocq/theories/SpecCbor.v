(** DAG-CBOR, written out from RFC 8949 and the DAG-CBOR specification (C127-C128). *)
From Coq Require Import Sorting.Sorted Sorting.Permutation Floats.SpecFloat.
From Verif Require Import Prelude Ord Utf8 Value Cid Json Spec SpecWire.

(** [k] bytes, most significant first. *)
Definition be_number (k : nat) (n : N) (bs : bytes) : Prop := length bs = k /\ place_value 256 (map bN bs) = n.

(** RFC 8949, section 3: the major type in three bits, the argument in the shortest form. *)
Inductive item_head (major n : N) : bytes -> Prop :=
| IH_short : (n < 24)%N -> item_head major n [byteN (32 * major + n)]
| IH_1 bs : (24 <= n)%N -> be_number 1 n bs -> item_head major n (byteN (32 * major + 24) :: bs)
| IH_2 bs : (2 ^ 8 <= n)%N -> be_number 2 n bs -> item_head major n (byteN (32 * major + 25) :: bs)
| IH_4 bs : (2 ^ 16 <= n)%N -> be_number 4 n bs -> item_head major n (byteN (32 * major + 26) :: bs)
| IH_8 bs : (2 ^ 32 <= n)%N -> be_number 8 n bs -> item_head major n (byteN (32 * major + 27) :: bs).

(** IEEE 754 binary64: sign, eleven bits of exponent, 52 bits of fraction. *)
Definition ieee_bits (s : bool) (exponent fraction : N) : N := ((if s then 2 ^ 63 else 0) + exponent * 2 ^ 52 + fraction)%N.
Inductive binary64 : f64 -> bytes -> Prop :=
| BF_zero s bs : be_number 8 (ieee_bits s 0 0) bs -> binary64 (S754_zero s) bs
| BF_subnormal s m bs : (Npos m < 2 ^ 52)%N -> be_number 8 (ieee_bits s 0 (Npos m)) bs -> binary64 (S754_finite s m (-1074)) bs
| BF_normal s ex fr m bs : (0 < ex < 2047)%N -> (fr < 2 ^ 52)%N -> (Npos m = 2 ^ 52 + fr)%N ->
    be_number 8 (ieee_bits s ex fr) bs -> binary64 (S754_finite s m (Z.of_N ex - 1075)) bs.

(** A string item: its length and its bytes. *)
Definition string_item (major : N) (s t : bytes) : Prop := exists h, item_head major (N.of_nat (length s)) h /\ t = h ++ s.
Definition text_item (s t : bytes) : Prop := utf8_valid s = true /\ string_item 3 s t.

(** The bytes of a CID: a SHA2-256 multihash, or version, codec and multihash. *)
Inductive cid_block : cid -> bytes -> Prop :=
| CK_v0 d : length d = 32%nat -> cid_block (mkCid 0 112 18 d) ([x12; x20] ++ d)
| CK_v1 codec hash d c h l : word codec -> word hash -> (length d <= 64)%nat ->
    shortest_varint codec c -> shortest_varint hash h -> shortest_varint (N.of_nat (length d)) l ->
    cid_block (mkCid 1 codec hash d) ([x01] ++ c ++ h ++ l ++ d).

(** Keys come shorter ones first, and in byte order among those of one length. *)
Definition key_before {A} (a b : bytes * A) : Prop :=
  (length (fst a) < length (fst b))%nat \/ length (fst a) = length (fst b) /\ bytes_cmp (fst a) (fst b) = Lt.

Inductive dag_cbor : ipld -> bytes -> Prop :=
| DC_null : dag_cbor INull [xf6]
| DC_false : dag_cbor (IBool false) [xf4]
| DC_true : dag_cbor (IBool true) [xf5]
| DC_nonneg n t : item_head 0 n t -> dag_cbor (IInt (Z.of_N n)) t
| DC_neg n t : item_head 1 n t -> dag_cbor (IInt (-1 - Z.of_N n)) t
| DC_float f t : binary64 f t -> dag_cbor (IFloat f) (xfb :: t)
| DC_bytes s t : string_item 2 s t -> dag_cbor (IBytes s) t
| DC_text s t : text_item s t -> dag_cbor (IStr s) t
| DC_list l ts h : Forall2 dag_cbor l ts -> item_head 4 (N.of_nat (length l)) h -> dag_cbor (IList l) (h ++ concat ts)
| DC_map m entries ts h : keys_increasing m -> Permutation m entries -> StronglySorted key_before entries ->
    Forall2 (fun kv t => exists k v, text_item (fst kv) k /\ dag_cbor (snd kv) v /\ t = k ++ v) entries ts ->
    item_head 5 (N.of_nat (length m)) h -> dag_cbor (IMap m) (h ++ concat ts)
| DC_link c d t : cid_block c d -> string_item 2 (x00 :: d) t -> dag_cbor (ILink c) ([xd8; x2a] ++ t).

(** The values Rust's [Ipld] can have: strings are UTF-8, map keys in order,
    lengths fit a machine word, floats are doubles, CIDs are of version 0 or 1. *)
Inductive rust_data : ipld -> Prop :=
| RD_null : rust_data INull
| RD_bool b : rust_data (IBool b)
| RD_int z : rust_data (IInt z)
| RD_float f : valid_binary 53 1024 f = true -> rust_data (IFloat f)
| RD_text s : utf8_valid s = true -> word (N.of_nat (length s)) -> rust_data (IStr s)
| RD_bytes s : word (N.of_nat (length s)) -> rust_data (IBytes s)
| RD_list l : Forall rust_data l -> word (N.of_nat (length l)) -> rust_data (IList l)
| RD_map m : keys_increasing m -> word (N.of_nat (length m)) ->
    Forall (fun kv => utf8_valid (fst kv) = true /\ word (N.of_nat (length (fst kv))) /\ rust_data (snd kv)) m -> rust_data (IMap m)
| RD_link c d : cid_block c d -> rust_data (ILink c).

(** Data without the numbers DAG-CBOR cannot write. *)
Inductive writable : ipld -> Prop :=
| WR_null : writable INull
| WR_bool b : writable (IBool b)
| WR_int z : (- 2 ^ 64 <= z < 2 ^ 64)%Z -> writable (IInt z)
| WR_float f : finite_float f -> writable (IFloat f)
| WR_text s : writable (IStr s)
| WR_bytes s : writable (IBytes s)
| WR_list l : Forall writable l -> writable (IList l)
| WR_map m : Forall (fun kv => writable (snd kv)) m -> writable (IMap m)
| WR_link c : writable (ILink c).

(** No string, list or map is longer than a machine word can count. *)
Inductive fits : ipld -> Prop :=
| FT_null : fits INull
| FT_bool b : fits (IBool b)
| FT_int z : fits (IInt z)
| FT_float f : fits (IFloat f)
| FT_text s : word (N.of_nat (length s)) -> fits (IStr s)
| FT_bytes s : word (N.of_nat (length s)) -> fits (IBytes s)
| FT_list l : word (N.of_nat (length l)) -> Forall fits l -> fits (IList l)
| FT_map m : word (N.of_nat (length m)) -> Forall (fun kv => word (N.of_nat (length (fst kv))) /\ fits (snd kv)) m -> fits (IMap m)
| FT_link c : fits (ILink c).
