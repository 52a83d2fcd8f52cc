(** ucan/src/serde.rs:20-37: DAG-JSON encoding and decoding through
    libipld-core's [to_ipld]/[from_ipld] and libipld-json's [DagJsonCodec].

    Third-party code (serde_json 1, libipld-core 0.16, libipld-json 0.16),
    modelled from documented behaviour:
    - printing: compact JSON, keys in BTreeMap order, serde_json's escapes;
    - parsing: serde_json's grammar, nesting limit (128) and number ranges;
    - an object with the single key "/" is a link or byte string. *)
From Coq Require Import Floats.SpecFloat.
From Verif Require Import Prelude Ord SMap BaseN Base58 Utf8 Value Cid Url Ext.

(** libipld_core::ipld::Ipld *)
Inductive ipld : Set :=
| INull
| IBool (b : bool)
| IInt (z : Z)
| IFloat (f : f64)
| IStr (s : bytes)
| IBytes (s : bytes)
| IList (l : list ipld)
| IMap (m : list (bytes * ipld))
| ILink (c : cid).

(** [to_ipld] on [serde_json::Value]. *)
Fixpoint ipld_of_value (v : value) : ipld :=
  match v with
  | VNull => INull
  | VBool b => IBool b
  | VNum (PosInt n) => IInt (Z.of_N n)
  | VNum (NegInt z) => IInt z
  | VNum (Float f) => IFloat f
  | VStr s => IStr s
  | VArr l => IList (map ipld_of_value l)
  | VObj m => IMap (map (fun kv => (fst kv, ipld_of_value (snd kv))) m)
  end.

(** All-or-nothing map. *)
Fixpoint traverse {A C} (f : A -> option C) (l : list A) : option (list C) :=
  match l with
  | [] => Some []
  | x :: l' => let?? y := f x in let?? l'' := traverse f l' in Some (y :: l'')
  end.

(** Number::from for the integer ranges serde_json can represent. *)
Definition value_of_int (X : ext) (z : Z) : option value :=
  if x_value_i128 X then
    if (0 <=? z)%Z && (z <=? Z.of_N u64_max)%Z then Some (VNum (PosInt (Z.to_N z)))
    else if (-9223372036854775808 <=? z)%Z && (z <? 0)%Z then Some (VNum (NegInt z))
    else None
  else None.

(** [from_ipld] into [serde_json::Value]: byte strings and links are refused, and
    a double that is no number (serde_json's [Number::from_f64]) becomes null. *)
Fixpoint value_of_ipld (X : ext) (i : ipld) : option value :=
  match i with
  | INull => Some VNull
  | IBool b => Some (VBool b)
  | IInt z => value_of_int X z
  | IFloat f => Some (match f with S754_nan | S754_infinity _ => VNull | _ => VNum (Float f) end)
  | IStr s => Some (VStr s)
  | IBytes _ => None
  | IList l =>
      let?? vs := (fix go l := match l with
                               | [] => Some []
                               | x :: l' => let?? y := value_of_ipld X x in
                                            let?? l'' := go l' in Some (y :: l'')
                               end) l in
      Some (VArr vs)
  | IMap m =>
      let?? vs := (fix go m := match m with
                               | [] => Some []
                               | (k, x) :: m' => let?? y := value_of_ipld X x in
                                                 let?? m'' := go m' in Some ((k, y) :: m'')
                               end) m in
      Some (VObj vs)
  | ILink _ => None
  end.

(* ---------------------------------------------------------------- printing *)

Definition hex_digit_lower (n : N) : byte :=
  if (n <? 10)%N then byteN (48 + n) else byteN (87 + n).

(** serde_json's format_escaped_str: the escape of one byte. *)
Definition json_escape (c : byte) : bytes :=
  match c with
  | x22 => [x5c; x22] (* quote *)
  | x5c => [x5c; x5c] (* backslash *)
  | x08 => [x5c; x62]
  | x0c => [x5c; x66]
  | x0a => [x5c; x6e]
  | x0d => [x5c; x72]
  | x09 => [x5c; x74]
  | _ => if (bN c <? 32)%N
         then [x5c; x75; x30; x30; hex_digit_lower (bN c / 16); hex_digit_lower (bN c mod 16)]
         else [c]
  end.

Definition json_string (s : bytes) : bytes := [x22] ++ flat_map json_escape s ++ [x22].

Definition json_int (z : Z) : bytes :=
  if (z <? 0)%Z then x2d :: dec_print (Z.to_N (- z)) else dec_print (Z.to_N z).

(** Comma-separated concatenation. *)
Fixpoint sep_concat (l : list bytes) : bytes :=
  match l with
  | [] => []
  | [x] => x
  | x :: l' => x ++ [x2c] ++ sep_concat l'
  end.

Fixpoint json_print (X : ext) (i : ipld) : bytes :=
  match i with
  | INull => B "null"
  | IBool true => B "true"
  | IBool false => B "false"
  | IInt z => json_int z
  | IFloat f => x_f64_print X f
  | IStr s => json_string s
  | IBytes s => [x7b] ++ json_string (B "/") ++ [x3a] ++ [x7b] ++ json_string (B "bytes") ++ [x3a]
                ++ json_string (b64std_encode s) ++ [x7d; x7d]
  | IList l => [x5b] ++ sep_concat (map (json_print X) l) ++ [x5d]
  | IMap m => [x7b] ++ sep_concat (map (fun kv => json_string (fst kv) ++ [x3a] ++ json_print X (snd kv)) m)
              ++ [x7d]
  | ILink c => [x7b] ++ json_string (B "/") ++ [x3a] ++ json_string (cid_to_string c) ++ [x7d]
  end.

(* ----------------------------------------------------------------- parsing *)

Definition is_ws (c : byte) : bool := match c with x20 | x0a | x09 | x0d => true | _ => false end.
Fixpoint skip_ws (s : bytes) : bytes :=
  match s with
  | c :: s' => if is_ws c then skip_ws s' else s
  | [] => []
  end.

Definition hex_val (c : byte) : option N :=
  let n := bN c in
  if (48 <=? n)%N && (n <=? 57)%N then Some (n - 48)%N
  else if (97 <=? n)%N && (n <=? 102)%N then Some (n - 87)%N
  else if (65 <=? n)%N && (n <=? 70)%N then Some (n - 55)%N
  else None.

Definition hex4 (a b c d : byte) : option N :=
  let?? a := hex_val a in let?? b := hex_val b in
  let?? c := hex_val c in let?? d := hex_val d in
  Some (((a * 16 + b) * 16 + c) * 16 + d)%N.

Definition simple_escape (c : byte) : option byte :=
  match c with
  | x22 => Some x22 | x5c => Some x5c | x2f => Some x2f
  | x62 => Some x08 | x66 => Some x0c | x6e => Some x0a | x72 => Some x0d | x74 => Some x09
  | _ => None
  end.

Definition push (b : bytes) (o : option (bytes * bytes)) : option (bytes * bytes) :=
  let?? (s, r) := o in Some (b ++ s, r).

(** The contents of a string literal (after the opening quote) and what follows. *)
Fixpoint json_str_body (s : bytes) : option (bytes * bytes) :=
  match s with
  | [] => None
  | c :: s1 =>
      match c with
      | x22 => Some ([], s1)
      | x5c =>
          match s1 with
          | x75 :: s2 =>
              match s2 with
              | h1 :: h2 :: h3 :: h4 :: s3 =>
                  let?? n := hex4 h1 h2 h3 h4 in
                  if (56320 <=? n)%N && (n <=? 57343)%N then None
                  else if (55296 <=? n)%N && (n <=? 56319)%N then
                    match s3 with
                    | x5c :: x75 :: g1 :: g2 :: g3 :: g4 :: s4 =>
                        let?? m := hex4 g1 g2 g3 g4 in
                        if (56320 <=? m)%N && (m <=? 57343)%N
                        then push (utf8_encode (65536 + (n - 55296) * 1024 + (m - 56320))) (json_str_body s4)
                        else None
                    | _ => None
                    end
                  else push (utf8_encode n) (json_str_body s3)
              | _ => None
              end
          | e :: s2 => let?? b := simple_escape e in push [b] (json_str_body s2)
          | [] => None
          end
      | _ => if (bN c <? 32)%N then None else push [c] (json_str_body s1)
      end
  end.

Definition parse_string (s : bytes) : option (bytes * bytes) :=
  let?? (t, r) := json_str_body s in if utf8_valid t then Some (t, r) else None.

Fixpoint span_digits (s : bytes) : bytes * bytes :=
  match s with
  | c :: s' => if is_digit c then let '(d, r) := span_digits s' in (c :: d, r) else ([], s)
  | [] => ([], [])
  end.

(** The integer digits of a number: no leading zero unless it is "0". *)
Definition lex_int (s : bytes) : option (bytes * bytes) :=
  let '(d, r) := span_digits s in
  match d with
  | [] => None
  | [_] => Some (d, r)
  | x30 :: _ => None
  | _ => Some (d, r)
  end.

(** Optional fraction. *)
Definition lex_frac (s : bytes) : option (bytes * bytes) :=
  match s with
  | x2e :: s' => let '(d, r) := span_digits s' in
                 match d with [] => None | _ => Some (x2e :: d, r) end
  | _ => Some ([], s)
  end.

(** Optional exponent. *)
Definition lex_exp (s : bytes) : option (bytes * bytes) :=
  match s with
  | c :: s' =>
      if match c with x65 | x45 => true | _ => false end then
        let '(sg, s'') := match s' with
                          | x2b :: t => ([x2b], t)
                          | x2d :: t => ([x2d], t)
                          | _ => ([], s')
                          end in
        let '(d, r) := span_digits s'' in
        match d with [] => None | _ => Some (c :: sg ++ d, r) end
      else Some ([], s)
  | [] => Some ([], s)
  end.

(** A number token at the head of [s] (with its sign stripped into [neg]). *)
Definition parse_number (X : ext) (neg : bool) (s : bytes) : option (ipld * bytes) :=
  let?? (d, s1) := lex_int s in
  let?? (fr, s2) := lex_frac s1 in
  let?? (ex, s3) := lex_exp s2 in
  let tok := (if neg then [x2d] else []) ++ d ++ fr ++ ex in
  let as_float := let?? f := x_f64_parse X tok in Some (IFloat f, s3) in
  match fr ++ ex with
  | [] =>
      let v := dec_value d in
      if neg then
        if ((1 <=? v) && (v <=? 9223372036854775808))%N then Some (IInt (- Z.of_N v), s3) else as_float
      else
        if (v <=? u64_max)%N then Some (IInt (Z.of_N v), s3) else as_float
  | _ => as_float
  end.

(** libipld-json's interpretation of a JSON object, given its entries in text order. *)
Definition ipld_of_entries (X : ext) (es : list (bytes * ipld)) : option ipld :=
  match es with
  | [(x2f :: [], IStr s)] => let?? c := parse_cid X s in Some (ILink c)
  | [(x2f :: [], IMap [(k, IStr s)])] =>
      if bytes_eqb k (B "bytes") then let?? b := b64std_decode s in Some (IBytes b)
      else Some (IMap (mof_list es))
  | _ => Some (IMap (mof_list es))
  end.

(** serde_json's recursive descent.  [fuel] bounds the recursion (never reached,
    see JsonFacts.v); [depth] is serde_json's remaining nesting depth. *)
Fixpoint parse_value (X : ext) (fuel depth : nat) (s : bytes) {struct fuel} : option (ipld * bytes) :=
  match fuel with
  | O => None
  | S f =>
      match skip_ws s with
      | [] => None
      | c :: s1 =>
          match c with
          | x6e => let?? r := strip_prefix (B "ull") s1 in Some (INull, r)
          | x74 => let?? r := strip_prefix (B "rue") s1 in Some (IBool true, r)
          | x66 => let?? r := strip_prefix (B "alse") s1 in Some (IBool false, r)
          | x22 => let?? (t, r) := parse_string s1 in Some (IStr t, r)
          | x2d => parse_number X true s1
          | x5b =>
              match depth with
              | O => None
              | S d =>
                  match skip_ws s1 with
                  | x5d :: r => Some (IList [], r)
                  | _ => let?? (l, r) := parse_elems X f d s1 in Some (IList l, r)
                  end
              end
          | x7b =>
              match depth with
              | O => None
              | S d =>
                  match skip_ws s1 with
                  | x7d :: r => let?? i := ipld_of_entries X [] in Some (i, r)
                  | _ => let?? (es, r) := parse_entries X f d s1 in
                         let?? i := ipld_of_entries X es in Some (i, r)
                  end
              end
          | _ => if is_digit c then parse_number X false (c :: s1) else None
          end
      end
  end
with parse_elems (X : ext) (fuel depth : nat) (s : bytes) {struct fuel} : option (list ipld * bytes) :=
  match fuel with
  | O => None
  | S f =>
      let?? (x, s1) := parse_value X f depth s in
      match skip_ws s1 with
      | x2c :: s2 => let?? (l, r) := parse_elems X f depth s2 in Some (x :: l, r)
      | x5d :: r => Some ([x], r)
      | _ => None
      end
  end
with parse_entries (X : ext) (fuel depth : nat) (s : bytes) {struct fuel} : option (list (bytes * ipld) * bytes) :=
  match fuel with
  | O => None
  | S f =>
      match skip_ws s with
      | x22 :: s0 =>
          let?? (k, s1) := parse_string s0 in
          match skip_ws s1 with
          | x3a :: s2 =>
              let?? (x, s3) := parse_value X f depth s2 in
              match skip_ws s3 with
              | x2c :: s4 => let?? (l, r) := parse_entries X f depth s4 in Some ((k, x) :: l, r)
              | x7d :: r => Some ([(k, x)], r)
              | _ => None
              end
          | _ => None
          end
      | _ => None
      end
  end.

(** serde_json refuses the 128th nested array or object. *)
Definition max_depth : nat := 127.

(** [Ipld::decode(DagJsonCodec, ..)] *)
Definition dagjson_decode (X : ext) (s : bytes) : option ipld :=
  let?? (i, r) := parse_value X (2 * length s + 2) max_depth s in
  if x_dagjson_end X then match skip_ws r with [] => Some i | _ => None end
  else Some i.

(** [ipld.encode(DagJsonCodec, ..)] *)
Definition dagjson_encode (X : ext) (i : ipld) : bytes := json_print X i.
