(** The wire formats, written out from the standards (C103-C107). *)
From Coq Require Import Floats.SpecFloat.
From Verif Require Import Prelude Value Cid Ext Json Capability Ucan Spec SpecIpldSerde.

(* ------------------------------------------------------------ base64url, base32 *)

(** RFC 4648, table 2: A-Z a-z 0-9 - _ *)
Definition sextet (n : N) : byte :=
  if (n <? 26)%N then byteN (65 + n)
  else if (n <? 52)%N then byteN (97 + (n - 26))
  else if (n <? 62)%N then byteN (48 + (n - 52))
  else if (n =? 62)%N then x2d else x5f.

(** Three bytes make four letters; one or two last bytes make two or three, without padding. *)
Fixpoint base64url (bs : bytes) : bytes :=
  match bs with
  | [] => []
  | [a] => [sextet (bN a / 4); sextet (bN a mod 4 * 16)]
  | [a; b] => [sextet (bN a / 4); sextet (bN a mod 4 * 16 + bN b / 16); sextet (bN b mod 16 * 4)]
  | a :: b :: c :: rest =>
      sextet (bN a / 4) :: sextet (bN a mod 4 * 16 + bN b / 16) ::
      sextet (bN b mod 16 * 4 + bN c / 64) :: sextet (bN c mod 64) :: base64url rest
  end.

(** RFC 4648, table 3, in lower case: a-z 2-7 *)
Definition quintet (n : N) : byte := if (n <? 26)%N then byteN (97 + n) else byteN (50 + (n - 26)).

Fixpoint base32 (bs : bytes) : bytes :=
  match bs with
  | [] => []
  | [a] => [quintet (bN a / 8); quintet (bN a mod 8 * 4)]
  | [a; b] => [quintet (bN a / 8); quintet (bN a mod 8 * 4 + bN b / 64); quintet (bN b / 2 mod 32); quintet (bN b mod 2 * 16)]
  | [a; b; c] => [quintet (bN a / 8); quintet (bN a mod 8 * 4 + bN b / 64); quintet (bN b / 2 mod 32);
                  quintet (bN b mod 2 * 16 + bN c / 16); quintet (bN c mod 16 * 2)]
  | [a; b; c; d] => [quintet (bN a / 8); quintet (bN a mod 8 * 4 + bN b / 64); quintet (bN b / 2 mod 32);
                     quintet (bN b mod 2 * 16 + bN c / 16); quintet (bN c mod 16 * 2 + bN d / 128);
                     quintet (bN d / 4 mod 32); quintet (bN d mod 4 * 8)]
  | a :: b :: c :: d :: e :: rest =>
      quintet (bN a / 8) :: quintet (bN a mod 8 * 4 + bN b / 64) :: quintet (bN b / 2 mod 32) ::
      quintet (bN b mod 2 * 16 + bN c / 16) :: quintet (bN c mod 16 * 2 + bN d / 128) ::
      quintet (bN d / 4 mod 32) :: quintet (bN d mod 4 * 8 + bN e / 32) :: quintet (bN e mod 32) :: base32 rest
  end.

(* ---------------------------------------------------------------- positional *)

(** The number written with the digits [l] in base [b], most significant first. *)
Fixpoint place_value (b : N) (l : list N) : N :=
  match l with
  | [] => 0
  | d :: l' => d * b ^ N.of_nat (length l') + place_value b l'
  end%N.

Definition no_leading_zero (l : list N) : Prop := match l with [] => True | d :: _ => d <> 0%N end.

(** base58btc: as many '1' as leading zero bytes, then the rest as a number in base 58. *)
Definition base58_text (bs text : bytes) : Prop :=
  exists zeros rest ds,
    bs = repeat x00 zeros ++ rest /\ no_leading_zero (map bN rest) /\
    text = repeat x31 zeros ++ map (fun d => nth (N.to_nat d) (B "123456789ABCDEFGHJKLMNPQRSTUVWXYZabcdefghijkmnopqrstuvwxyz") x00) ds /\
    Forall (fun d => d < 58)%N ds /\ no_leading_zero ds /\ place_value 58 ds = place_value 256 (map bN rest).

(** Decimal. *)
Definition decimal_text (n : N) (t : bytes) : Prop :=
  exists ds, t = map (fun d => byteN (48 + d)) ds /\ Forall (fun d => d < 10)%N ds /\ place_value 10 ds = n /\
    (ds = [0%N] \/ ds <> [] /\ no_leading_zero ds).
Definition integer_text (z : Z) (t : bytes) : Prop :=
  (0 <= z)%Z /\ decimal_text (Z.to_N z) t \/ (z < 0)%Z /\ exists t', t = B "-" ++ t' /\ decimal_text (Z.to_N (- z)) t'.

(** LEB128: seven bits at a time, the lowest first, the top bit set on all but the last byte. *)
Inductive shortest_varint : N -> bytes -> Prop :=
| SV_last n : (n < 128)%N -> shortest_varint n [byteN n]
| SV_more n bs : (128 <= n)%N -> shortest_varint (n / 128) bs -> shortest_varint n (byteN (128 + n mod 128) :: bs).

(* ---------------------------------------------------------------------- JSON *)

(** One byte of a string literal: quote and backslash escaped, control characters as \b \f \n \r \t or \u00xx. *)
Inductive char_text : byte -> bytes -> Prop :=
| CT_plain c : (32 <= bN c)%N -> c <> x22 -> c <> x5c -> char_text c [c]
| CT_quote : char_text x22 (B "\""")
| CT_backslash : char_text x5c (B "\\")
| CT_b : char_text x08 (B "\b")
| CT_t : char_text x09 (B "\t")
| CT_n : char_text x0a (B "\n")
| CT_f : char_text x0c (B "\f")
| CT_r : char_text x0d (B "\r")
| CT_0 c d : In (c, d) [(x00, x30); (x01, x31); (x02, x32); (x03, x33); (x04, x34); (x05, x35); (x06, x36); (x07, x37);
    (x0b, x62); (x0e, x65); (x0f, x66)] -> char_text c (B "\u000" ++ [d])
| CT_1 c d : In (c, d) [(x10, x30); (x11, x31); (x12, x32); (x13, x33); (x14, x34); (x15, x35); (x16, x36); (x17, x37);
    (x18, x38); (x19, x39); (x1a, x61); (x1b, x62); (x1c, x63); (x1d, x64); (x1e, x65); (x1f, x66)] -> char_text c (B "\u001" ++ [d]).

Definition string_text (s t : bytes) : Prop :=
  exists cs, Forall2 char_text s cs /\ t = B """" ++ concat cs ++ B """".

(** Members or elements separated by commas, without white space. *)
Definition commas (l : list bytes) : bytes :=
  match l with [] => [] | t :: l' => t ++ concat (map (fun t' => B "," ++ t') l') end.
Definition array_text (l : list bytes) : bytes := B "[" ++ commas l ++ B "]".
Definition object_text (l : list bytes) : bytes := B "{" ++ commas l ++ B "}".
Definition member_text {A} (R : A -> bytes -> Prop) (kv : bytes * A) (t : bytes) : Prop :=
  exists k v, string_text (fst kv) k /\ R (snd kv) v /\ t = k ++ B ":" ++ v.

(** The text of a JSON value; how doubles are printed is left open. *)
Inductive value_text (X : ext) : value -> bytes -> Prop :=
| VT_null : value_text X VNull (B "null")
| VT_true : value_text X (VBool true) (B "true")
| VT_false : value_text X (VBool false) (B "false")
| VT_pos n t : decimal_text n t -> value_text X (VNum (PosInt n)) t
| VT_neg z t : integer_text z t -> value_text X (VNum (NegInt z)) t
| VT_float f : value_text X (VNum (Float f)) (x_f64_print X f)
| VT_str s t : string_text s t -> value_text X (VStr s) t
| VT_arr l ts : Forall2 (value_text X) l ts -> value_text X (VArr l) (array_text ts)
| VT_obj m ts : Forall2 (fun kv t => exists k v, string_text (fst kv) k /\ value_text X (snd kv) v /\ t = k ++ B ":" ++ v) m ts ->
    value_text X (VObj m) (object_text ts).

Definition list_text {A} (R : A -> bytes -> Prop) (l : list A) (t : bytes) : Prop :=
  exists ts, Forall2 R l ts /\ t = array_text ts.
Definition map_text {A} (R : A -> bytes -> Prop) (m : list (bytes * A)) (t : bytes) : Prop :=
  exists ts, Forall2 (member_text R) m ts /\ t = object_text ts.

(* -------------------------------------------------------------------- tokens *)

Definition header_text (h : header) (t : bytes) : Prop :=
  exists alg typ, string_text (h_alg h) alg /\ string_text (h_typ h) typ /\
    t = B "{""alg"":" ++ alg ++ B ",""typ"":" ++ typ ++ B "}".

(** A field written only when it is there. *)
Definition optional_text {A} (key : bytes) (R : A -> bytes -> Prop) (o : option A) (t : bytes) : Prop :=
  match o with None => t = [] | Some a => exists v, R a v /\ t = key ++ v end.

(** Resource -> ability -> caveats. *)
Definition capabilities_text (X : ext) : capabilities -> bytes -> Prop := map_text (map_text (list_text (value_text X))).

(** Fields in alphabetical order; [exp] is null when there is no expiry. *)
Definition payload_text (X : ext) (p : payload) (t : bytes) : Prop :=
  exists aud cap exp fct iss nbf nnc prf ucv,
    string_text (p_aud p) aud /\ capabilities_text X (p_cap p) cap /\
    match p_exp p with None => exp = B "null" | Some n => decimal_text n exp end /\
    optional_text (B ",""fct"":") (map_text (value_text X)) (p_fct p) fct /\
    string_text (p_iss p) iss /\
    optional_text (B ",""nbf"":") decimal_text (p_nbf p) nbf /\
    optional_text (B ",""nnc"":") string_text (p_nnc p) nnc /\
    optional_text (B ",""prf"":") (list_text string_text) (p_prf p) prf /\
    string_text (p_ucv p) ucv /\
    t = B "{""aud"":" ++ aud ++ B ",""cap"":" ++ cap ++ B ",""exp"":" ++ exp ++ fct ++
        B ",""iss"":" ++ iss ++ nbf ++ nnc ++ prf ++ B ",""ucv"":" ++ ucv ++ B "}".

Definition token_text (X : ext) (u : ucan) (t : bytes) : Prop :=
  exists h p, header_text (u_header u) h /\ payload_text X (u_payload u) p /\
    t = base64url h ++ B "." ++ base64url p ++ B "." ++ base64url (u_signature u).

(** What is read as a header, as a payload: fields in any order, others ignored. *)
Record header_data (m : list (bytes * ipld)) (h : header) : Prop := mkHD {
  hd_alg : required m (B "alg") (fun d s => d = IStr s) (h_alg h);
  hd_typ : required m (B "typ") (fun d s => d = IStr s) (h_typ h)
}.
Record payload_data (X : ext) (m : list (bytes * ipld)) (p : payload) : Prop := mkPD {
  pd_ucv : required m (B "ucv") (fun d s => d = IStr s) (p_ucv p);
  pd_iss : required m (B "iss") (fun d s => d = IStr s) (p_iss p);
  pd_aud : required m (B "aud") (fun d s => d = IStr s) (p_aud p);
  pd_exp : optional m (B "exp") u64_data (p_exp p);
  pd_nbf : optional m (B "nbf") u64_data (p_nbf p);
  pd_nnc : optional m (B "nnc") (fun d s => d = IStr s) (p_nnc p);
  pd_cap : required m (B "cap") (caps_data X) (p_cap p);
  pd_fct : optional m (B "fct") (map_data (value_data X)) (p_fct p);
  pd_prf : optional m (B "prf") (list_data (fun d s => d = IStr s)) (p_prf p)
}.

(** Three base64url segments, and possibly more, which are not looked at. *)
Definition token_read (X : ext) (t : bytes) (u : ucan) : Prop :=
  exists h p hm pm more,
    t = base64url h ++ B "." ++ base64url p ++ B "." ++ base64url (u_signature u) ++ more /\
    (more = [] \/ exists r, more = B "." ++ r) /\
    dagjson_decode X h = Some (IMap hm) /\ header_data hm (u_header u) /\
    dagjson_decode X p = Some (IMap pm) /\ payload_data X pm (u_payload u) /\
    u_signed_data u = base64url h ++ B "." ++ base64url p.
