(** DAG-CBOR as written and read by serde_ipld_dagcbor 0.3, which
    ucan/src/tests/helpers.rs:8-13 uses to store data as a block.  Third-party
    code, modelled from the DAG-CBOR specification: the reader here is the strict
    one of the specification, which refuses whatever the writer would not have
    written (the library may be more lenient with data written by others). *)
From Coq Require Import Floats.SpecFloat.
From Verif Require Import Prelude Ord SMap Utf8 Value Cid Json.

(** [k] bytes, most significant first. *)
Fixpoint be_bytes (k : nat) (n : N) : bytes :=
  match k with
  | O => []
  | S k' => be_bytes k' (n / 256) ++ [byteN n]
  end%N.
Definition be_value (bs : bytes) : N := fold_left (fun a c => a * 256 + bN c)%N bs 0%N.

(** Major type and argument, in the shortest form. *)
Definition cbor_head (major n : N) : bytes :=
  if (n <? 24)%N then [byteN (32 * major + n)]
  else if (n <? 256)%N then byteN (32 * major + 24) :: be_bytes 1 n
  else if (n <? 65536)%N then byteN (32 * major + 25) :: be_bytes 2 n
  else if (n <? 4294967296)%N then byteN (32 * major + 26) :: be_bytes 4 n
  else byteN (32 * major + 27) :: be_bytes 8 n.

Definition read_arg (k : nat) (min : N) (s : bytes) : option (N * bytes) :=
  let?? (d, r) := take_exact (N.of_nat k) s in
  if (min <=? be_value d)%N then Some (be_value d, r) else None.
Definition read_head (s : bytes) : option (N * N * bytes) :=
  match s with
  | [] => None
  | c :: r =>
      let major := (bN c / 32)%N in let info := (bN c mod 32)%N in
      if (info <? 24)%N then Some (major, info, r)
      else
        let?? (n, r') :=
          if (info =? 24)%N then read_arg 1 24 r
          else if (info =? 25)%N then read_arg 2 256 r
          else if (info =? 26)%N then read_arg 4 65536 r
          else if (info =? 27)%N then read_arg 8 4294967296 r
          else None in
        Some (major, n, r')
  end.

(** IEEE 754 binary64; infinities and NaN are not data. *)
Definition f64_to_bits (f : f64) : option N :=
  let sign (s : bool) := if s then 9223372036854775808%N else 0%N in
  match f with
  | S754_zero s => Some (sign s)
  | S754_finite s m e =>
      Some (sign s + (if (Npos m <? 4503599627370496)%N then Npos m
                      else Z.to_N (e + 1075) * 4503599627370496 + (Npos m - 4503599627370496)))%N
  | S754_infinity _ | S754_nan => None
  end.
Definition f64_of_bits (n : N) : option f64 :=
  let s := (9223372036854775808 <=? n)%N in
  let ex := ((n / 4503599627370496) mod 2048)%N in
  let fr := (n mod 4503599627370496)%N in
  if (ex =? 2047)%N then None
  else if (ex =? 0)%N then
    match fr with N0 => Some (S754_zero s) | Npos m => Some (S754_finite s m (-1074)) end
  else
    match (fr + 4503599627370496)%N with N0 => None | Npos m => Some (S754_finite s m (Z.of_N ex - 1075)) end.

(** Map keys are ordered by length first. *)
Definition key_cmp (a b : bytes) : comparison :=
  match Nat.compare (length a) (length b) with Eq => bytes_cmp a b | c => c end.
Fixpoint insert_entry {A} (e : bytes * A) (l : list (bytes * A)) : list (bytes * A) :=
  match l with
  | [] => [e]
  | x :: l' => match key_cmp (fst e) (fst x) with Gt => x :: insert_entry e l' | _ => e :: l end
  end.
Definition sort_entries {A} (l : list (bytes * A)) : list (bytes * A) := fold_right insert_entry [] l.

Definition cbor_text (s : bytes) : bytes := cbor_head 3 (N.of_nat (length s)) ++ s.

(** serde_ipld_dagcbor::to_vec on IPLD data. *)
Fixpoint cbor_encode (i : ipld) : option bytes :=
  match i with
  | INull => Some [xf6]
  | IBool b => Some [if b then xf5 else xf4]
  | IInt z =>
      if (0 <=? z)%Z then if (z <=? 18446744073709551615)%Z then Some (cbor_head 0 (Z.to_N z)) else None
      else if (-18446744073709551616 <=? z)%Z then Some (cbor_head 1 (Z.to_N (-1 - z))) else None
  | IFloat f => let?? n := f64_to_bits f in Some (xfb :: be_bytes 8 n)
  | IStr s => Some (cbor_text s)
  | IBytes s => Some (cbor_head 2 (N.of_nat (length s)) ++ s)
  | IList l =>
      let?? ts := (fix go l := match l with
                   | [] => Some []
                   | x :: l' => let?? t := cbor_encode x in let?? ts := go l' in Some (t :: ts)
                   end) l in
      Some (cbor_head 4 (N.of_nat (length l)) ++ concat ts)
  | IMap m =>
      let?? ts := (fix go m := match m with
                   | [] => Some []
                   | (k, x) :: m' => let?? t := cbor_encode x in let?? ts := go m' in Some ((k, t) :: ts)
                   end) m in
      Some (cbor_head 5 (N.of_nat (length m)) ++ concat (map (fun kt => cbor_text (fst kt) ++ snd kt) (sort_entries ts)))
  | ILink c => Some (xd8 :: x2a :: cbor_head 2 (N.of_nat (S (length (cid_to_bytes c)))) ++ x00 :: cid_to_bytes c)
  end.

(** A text string: major type 3. *)
Definition read_text (s : bytes) : option (bytes * bytes) :=
  let?? (major, n, r) := read_head s in
  if (major =? 3)%N then
    let?? (t, r') := take_exact n r in
    if utf8_valid t then Some (t, r') else None
  else None.

(** The bytes of a link: a byte string of a zero byte and the CID, nothing else. *)
Definition read_link (s : bytes) : option (cid * bytes) :=
  let?? (major, n, r) := read_head s in
  if (major =? 2)%N then
    let?? (t, r') := take_exact n r in
    match t with
    | x00 :: d => let?? c := cid_of_bytes d in if bytes_eqb (cid_to_bytes c) d then Some (c, r') else None
    | _ => None
    end
  else None.

(** Strictly increasing keys. *)
Fixpoint keys_ordered {A} (l : list (bytes * A)) : bool :=
  match l with
  | x :: ((y :: _) as l') => match key_cmp (fst x) (fst y) with Lt => keys_ordered l' | _ => false end
  | _ => true
  end.

Definition read_simple (c : byte) (r : bytes) : option (ipld * bytes) :=
  match c with
  | xf4 => Some (IBool false, r)
  | xf5 => Some (IBool true, r)
  | xf6 => Some (INull, r)
  | xfb => let?? (d, r') := take_exact 8 r in let?? f := f64_of_bits (be_value d) in Some (IFloat f, r')
  | _ => None
  end.

Fixpoint read_item (fuel : nat) (s : bytes) : option (ipld * bytes) :=
  match fuel, s with
  | S fu, c :: r0 =>
      if (224 <=? bN c)%N then read_simple c r0
      else
        let?? (major, n, r) := read_head s in
        match major with
        | 0 => Some (IInt (Z.of_N n), r)
        | 1 => Some (IInt (-1 - Z.of_N n), r)
        | 2 => let?? (t, r') := take_exact n r in Some (IBytes t, r')
        | 3 => let?? (t, r') := read_text s in Some (IStr t, r')
        | 4 => let?? (l, r') := read_items fu n r in Some (IList l, r')
        | 5 => let?? (m, r') := read_entries fu n r in
               if keys_ordered m then Some (IMap (mof_list m), r') else None
        | _ => if (n =? 42)%N then let?? (l, r') := read_link r in Some (ILink l, r') else None
        end%N
  | _, _ => None
  end
with read_items (fuel : nat) (n : N) (s : bytes) : option (list ipld * bytes) :=
  if (n =? 0)%N then Some ([], s)
  else match fuel with
  | O => None
  | S fu => let?? (x, r) := read_item fu s in let?? (l, r') := read_items fu (n - 1) r in Some (x :: l, r')
  end
with read_entries (fuel : nat) (n : N) (s : bytes) : option (list (bytes * ipld) * bytes) :=
  if (n =? 0)%N then Some ([], s)
  else match fuel with
  | O => None
  | S fu => let?? (k, r0) := read_text s in let?? (x, r) := read_item fu r0 in
            let?? (l, r') := read_entries fu (n - 1) r in Some ((k, x) :: l, r')
  end.

(** serde_ipld_dagcbor::from_slice on IPLD data: one item and nothing after it. *)
Definition cbor_decode (s : bytes) : option ipld :=
  match read_item (2 * length s) s with
  | Some (i, []) => Some i
  | _ => None
  end.

(** [dag_cbor_roundtrip], tests/helpers.rs:8-13, for a type that is written as and
    read from IPLD data.  In the reader of a block the integers of JSON values arrive
    as u64 and i64, which is the case [x_value_i128 X = true] of Ext.v. *)
Definition dag_cbor_roundtrip {T} (ser : T -> ipld) (de : ipld -> option T) (x : T) : option T :=
  let?? bs := cbor_encode (ser x) in
  let?? d := cbor_decode bs in
  de d.
