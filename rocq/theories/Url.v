(** [url::Url] as observed by capability/semantics.rs and capability/proof.rs:
    [Url::parse], [scheme()], [path()], [host_str()].

    Third-party code (WHATWG URL).  Modelled concretely: trimming, removal of
    tabs and newlines, scheme parsing, and URLs with an opaque path ("prf:0",
    "mailto:..", "my:*", "as:did:..").  URLs with a special scheme (http, ..)
    or whose path starts with '/' are parsed by the parameter [hier]. *)
From Verif Require Import Prelude Base58.

Record url := mkUrl {
  url_scheme : bytes;
  url_path : bytes;
  url_host : option bytes
}.

(** Input::new: strip C0 controls and spaces at both ends. *)
Definition c0_or_space (c : byte) : bool := (bN c <=? 32)%N.
Fixpoint drop_while {A} (p : A -> bool) (l : list A) : list A :=
  match l with
  | [] => []
  | x :: l' => if p x then drop_while p l' else l
  end.
Definition url_trim (s : bytes) : bytes :=
  rev (drop_while c0_or_space (rev (drop_while c0_or_space s))).

(** Tabs and newlines are skipped everywhere. *)
Definition tab_or_newline (c : byte) : bool :=
  ((bN c =? 9) || (bN c =? 10) || (bN c =? 13))%N.
Definition url_input (s : bytes) : bytes :=
  filter (fun c => negb (tab_or_newline c)) (url_trim s).

Definition is_alpha (c : byte) : bool :=
  ((65 <=? bN c) && (bN c <=? 90) || (97 <=? bN c) && (bN c <=? 122))%N.
Definition to_lower (c : byte) : byte :=
  if ((65 <=? bN c) && (bN c <=? 90))%N then byteN (bN c + 32) else c.
Definition scheme_char (c : byte) : bool :=
  is_alpha c || is_digit c || ((bN c =? 43) || (bN c =? 45) || (bN c =? 46))%N.

(** The characters up to the first ':', lower-cased, and the rest. *)
Fixpoint scheme_rest (s : bytes) : option (bytes * bytes) :=
  match s with
  | [] => None
  | c :: s' =>
      if (bN c =? 58)%N then Some ([], s')
      else if scheme_char c then
        let?? (sch, r) := scheme_rest s' in Some (to_lower c :: sch, r)
      else None
  end.

(** Parser::parse_scheme: must start with a letter. *)
Definition parse_scheme (s : bytes) : option (bytes * bytes) :=
  match s with
  | c :: _ => if is_alpha c then scheme_rest s else None
  | [] => None
  end.

Definition special_schemes : list bytes :=
  map B ["http"; "https"; "ws"; "wss"; "ftp"; "file"]%string.

Definition hex_digit_upper (n : N) : byte :=
  if (n <? 10)%N then byteN (48 + n) else byteN (55 + n).

(** percent_encode with the CONTROLS set; non-ASCII bytes are always encoded. *)
Definition pct_encode_byte (c : byte) : bytes :=
  if ((bN c <? 32) || (127 <=? bN c))%N
  then [x25; hex_digit_upper (bN c / 16); hex_digit_upper (bN c mod 16)]
  else [c].

(** The part before '?' or '#'. *)
Fixpoint until_query (s : bytes) : bytes :=
  match s with
  | [] => []
  | c :: s' => if ((bN c =? 63) || (bN c =? 35))%N then [] else c :: until_query s'
  end.

(** Parser::parse_cannot_be_a_base_path *)
Definition opaque_path (s : bytes) : bytes := flat_map pct_encode_byte (until_query s).

Definition starts_with_slash (s : bytes) : bool :=
  match s with x2f :: _ => true | _ => false end.

(** [Url::parse(s).ok()] *)
Definition url_parse (hier : bytes -> bytes -> option url) (s : bytes) : option url :=
  let?? (sch, rest) := parse_scheme (url_input s) in
  if existsb (bytes_eqb sch) special_schemes || starts_with_slash rest
  then hier sch rest
  else Some {| url_scheme := sch; url_path := opaque_path rest; url_host := None |}.
