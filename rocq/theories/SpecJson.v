(** JSON as RFC 8259 writes it, UTF-8 as RFC 3629 writes it, and the data of a DAG-JSON text (C108-C110). *)
From Coq Require Import Floats.SpecFloat.
From Verif Require Import Prelude Value Cid Ext Json Capability Ucan Spec SpecIpldSerde SpecWire.

(* --------------------------------------------------------------------- UTF-8 *)

Definition scalar (n : N) : Prop := (n < 55296 \/ 57343 < n < 1114112)%N.
Definition tail_byte (c : byte) : Prop := (128 <= bN c < 192)%N.

(** The bytes of one character: the shortest form, and only scalar values. *)
Inductive utf8_char : N -> bytes -> Prop :=
| U8_1 a : (bN a < 128)%N -> utf8_char (bN a) [a]
| U8_2 n a b : (192 <= bN a < 224)%N -> tail_byte b -> n = ((bN a - 192) * 64 + (bN b - 128))%N ->
    (128 <= n)%N -> utf8_char n [a; b]
| U8_3 n a b c : (224 <= bN a < 240)%N -> tail_byte b -> tail_byte c ->
    n = ((bN a - 224) * 4096 + (bN b - 128) * 64 + (bN c - 128))%N -> (2048 <= n)%N -> scalar n -> utf8_char n [a; b; c]
| U8_4 n a b c d : (240 <= bN a < 248)%N -> tail_byte b -> tail_byte c -> tail_byte d ->
    n = ((bN a - 240) * 262144 + (bN b - 128) * 4096 + (bN c - 128) * 64 + (bN d - 128))%N -> (65536 <= n)%N -> scalar n ->
    utf8_char n [a; b; c; d].

Definition utf8_text (s : bytes) : Prop := exists chars, s = concat chars /\ Forall (fun c => exists n, utf8_char n c) chars.

(* ------------------------------------------------------------------- strings *)

Definition white (w : bytes) : Prop := Forall (fun c => In c (B " " ++ [x09; x0a; x0d])) w.

Definition hex_digit (c : byte) (n : N) : Prop :=
  (48 <= bN c <= 57 /\ n = bN c - 48 \/ 65 <= bN c <= 70 /\ n = bN c - 55 \/ 97 <= bN c <= 102 /\ n = bN c - 87)%N.
Definition hex_quad (t : bytes) (n : N) : Prop :=
  exists a b c d na nb nc nd, t = [a; b; c; d] /\ hex_digit a na /\ hex_digit b nb /\ hex_digit c nc /\ hex_digit d nd /\
    n = place_value 16 [na; nb; nc; nd].

(** What stands between the quotes, and the bytes it stands for. *)
Inductive string_body : bytes -> bytes -> Prop :=
| SB_end : string_body [] []
| SB_plain c t s : (32 <= bN c)%N -> c <> x22 -> c <> x5c -> string_body t s -> string_body (c :: t) (c :: s)
| SB_escape e c t s : In (e, c) [(x22, x22); (x5c, x5c); (x2f, x2f); (x62, x08); (x66, x0c); (x6e, x0a); (x72, x0d); (x74, x09)] ->
    string_body t s -> string_body (B "\" ++ e :: t) (c :: s)
| SB_unicode h n c t s : hex_quad h n -> utf8_char n c -> string_body t s -> string_body (B "\u" ++ h ++ t) (c ++ s)
| SB_pair h n g m c t s : hex_quad h n -> (55296 <= n <= 56319)%N -> hex_quad g m -> (56320 <= m <= 57343)%N ->
    utf8_char (65536 + (n - 55296) * 1024 + (m - 56320)) c -> string_body t s ->
    string_body (B "\u" ++ h ++ B "\u" ++ g ++ t) (c ++ s).

Definition string_literal (t s : bytes) : Prop :=
  exists body, t = B """" ++ body ++ B """" /\ string_body body s /\ utf8_text s.

(* ------------------------------------------------------------------- numbers *)

(** A number: what stands before the point, and whether there is a fraction or an exponent. *)
Definition number_text (t sign int : bytes) (whole : bool) : Prop :=
  exists frac exp, t = sign ++ int ++ frac ++ exp /\
    (sign = [] \/ sign = B "-") /\
    digits int /\ (int = B "0" \/ forall r, int <> B "0" ++ r) /\
    (frac = [] \/ exists d, frac = B "." ++ d /\ digits d) /\
    (exp = [] \/ exists e sg d, exp = e ++ sg ++ d /\ (e = B "e" \/ e = B "E") /\ (sg = [] \/ sg = B "+" \/ sg = B "-") /\ digits d) /\
    (whole = true <-> frac = [] /\ exp = []).

(** Whole numbers from -2^63 to 2^64-1 are integers, save for -0; all others are doubles. *)
Definition number_data (X : ext) (t : bytes) (i : ipld) : Prop :=
  exists sign int whole, number_text t sign int whole /\
    let n := place_value 10 (map (fun c => (bN c - 48)%N) int) in
    let integer := whole = true /\ (sign = [] /\ (n < 2 ^ 64)%N \/ sign = B "-" /\ (0 < n <= 2 ^ 63)%N) in
    (integer /\ i = IInt (if sign then Z.of_N n else - Z.of_N n) \/
     ~ integer /\ exists f, x_f64_parse X t = Some f /\ i = IFloat f).

(* -------------------------------------------------------------------- values *)

(** The last entry of each key, in the order of the keys. *)
Definition last_entries {V} (es m : list (bytes * V)) : Prop :=
  keys_increasing m /\ forall k v, In (k, v) m <-> exists a b, es = a ++ (k, v) :: b /\ ~ In k (map fst b).

(** Standard base64 has + and / for - and _. *)
Definition base64std (b : bytes) : bytes := map (fun c => match c with x2d => x2b | x5f => x2f | _ => c end) (base64url b).

(** {"/": "cid"} is a link, {"/": {"bytes": "base64"}} is a byte string, anything else is a map. *)
Definition link_entries (s : bytes) : list (bytes * ipld) := [(B "/", IStr s)].
Definition bytes_entries (s : bytes) : list (bytes * ipld) := [(B "/", IMap [(B "bytes", IStr s)])].
Definition object_data (X : ext) (es : list (bytes * ipld)) (i : ipld) : Prop :=
  (exists s c, es = link_entries s /\ parse_cid X s = Some c /\ i = ILink c) \/
  (exists b, es = bytes_entries (base64std b) /\ i = IBytes b) \/
  ((forall s, es <> link_entries s /\ es <> bytes_entries s) /\ exists m, last_entries es m /\ i = IMap m).

Definition padded (R : bytes -> ipld -> Prop) (t : bytes) (i : ipld) : Prop :=
  exists w t' w', white w /\ white w' /\ R t' i /\ t = w ++ t' ++ w'.
Definition member (R : bytes -> ipld -> Prop) (t : bytes) (kv : bytes * ipld) : Prop :=
  exists w k w' v, white w /\ white w' /\ string_literal k (fst kv) /\ padded R v (snd kv) /\ t = w ++ k ++ w' ++ B ":" ++ v.

(** [n] bounds the nesting of arrays and objects. *)
Fixpoint json_data (X : ext) (n : nat) (t : bytes) (i : ipld) : Prop :=
  t = B "null" /\ i = INull \/
  t = B "true" /\ i = IBool true \/
  t = B "false" /\ i = IBool false \/
  number_data X t i \/
  (exists s, string_literal t s /\ i = IStr s) \/
  match n with
  | O => False
  | S n' =>
      (exists w, white w /\ t = B "[" ++ w ++ B "]" /\ i = IList []) \/
      (exists ts l, ts <> [] /\ t = array_text ts /\ Forall2 (padded (json_data X n')) ts l /\ i = IList l) \/
      (exists w, white w /\ t = B "{" ++ w ++ B "}" /\ i = IMap []) \/
      (exists ts es, ts <> [] /\ t = object_text ts /\ Forall2 (member (json_data X n')) ts es /\ object_data X es i)
  end.

(** A whole document; whether anything may follow the value is left open. *)
Definition json_document (X : ext) (t : bytes) (i : ipld) : Prop :=
  exists d rest, t = d ++ rest /\ padded (json_data X 127) d i /\ (x_dagjson_end X = true -> rest = []).

(** Three base64url segments of JSON objects, and possibly more segments, which are not looked at. *)
Definition token_grammar (X : ext) (t : bytes) (u : ucan) : Prop :=
  exists h p hm pm more,
    t = base64url h ++ B "." ++ base64url p ++ B "." ++ base64url (u_signature u) ++ more /\
    (more = [] \/ exists r, more = B "." ++ r) /\
    json_document X h (IMap hm) /\ header_data hm (u_header u) /\
    json_document X p (IMap pm) /\ payload_data X pm (u_payload u) /\
    u_signed_data u = base64url h ++ B "." ++ base64url p.
