(** [Url::parse] on hierarchical URLs of non-special schemes ("wnfs://alice.fission.name/public"),
    third-party code, from the WHATWG URL Standard (basic URL parser; authority, host, port and
    path states; opaque-host parser).  A candidate for the field [x_url_hier] of [ext], which
    the other theorems leave open.  Special schemes stay open. *)
From Verif Require Import Prelude Base58 Url Ext.

(** What differs between versions of the standard, or is not modelled: which characters of a path
    are percent-encoded besides controls and non-ASCII ones, and the reading of IPv6 addresses. *)
Record url_rules := mkRules {
  ur_encoded : byte -> bool;
  ur_ipv6 : bytes -> option bytes
}.

(** utf8_percent_encode with a set *)
Definition encode_char (p : byte -> bool) (c : byte) : bytes :=
  if p c then [x25; hex_digit_upper (bN c / 16); hex_digit_upper (bN c mod 16)] else pct_encode_byte c.

(** Up to '/', '?' or '#'. *)
Definition authority_end (c : byte) : bool := ((bN c =? 47) || (bN c =? 63) || (bN c =? 35))%N.
Fixpoint split_authority (s : bytes) : bytes * bytes :=
  match s with
  | [] => ([], [])
  | c :: s' => if authority_end c then ([], s) else let '(a, r) := split_authority s' in (c :: a, r)
  end.

(** What follows the last '@'. *)
Fixpoint after_at (s : bytes) : option bytes :=
  match s with
  | [] => None
  | c :: s' => match after_at s' with
               | Some r => Some r
               | None => if (bN c =? 64)%N then Some s' else None
               end
  end.

(** The host and, if there is a colon outside of brackets, what follows it. *)
Fixpoint split_port (inside : bool) (s : bytes) : bytes * option bytes :=
  match s with
  | [] => ([], None)
  | c :: s' =>
      if (bN c =? 58)%N && negb inside then ([], Some s')
      else
        let inside' := if (bN c =? 91)%N then true else if (bN c =? 93)%N then false else inside in
        let '(h, p) := split_port inside' s' in (c :: h, p)
  end.

(** Forbidden host code points; tabs and newlines were removed before. *)
Definition forbidden_host (c : byte) : bool :=
  existsb (Byte.eqb c) [x00; x09; x0a; x0d; x20; x23; x2f; x3a; x3c; x3e; x3f; x40; x5b; x5c; x5d; x5e; x7c].

Definition bracket (c : byte) : bool := ((bN c =? 91) || (bN c =? 93))%N.

(** Host::parse_opaque; an IPv6 address contains no brackets. *)
Definition parse_host (R : url_rules) (s : bytes) : option bytes :=
  match s with
  | x5b :: r =>
      match rev r with
      | x5d :: b =>
          if existsb bracket b then None
          else let?? h := ur_ipv6 R (rev b) in Some (B "[" ++ h ++ B "]")
      | _ => None
      end
  | _ => if existsb forbidden_host s then None else Some (flat_map pct_encode_byte s)
  end.

(** Port state *)
Definition port_ok (p : option bytes) : bool :=
  match p with
  | None => true
  | Some ds => forallb is_digit ds && (dec_value ds <=? 65535)%N
  end.

(** The host of an authority; [Some None]: empty.  User name, password and port are checked and
    not kept (only [host_str] is looked at). *)
Definition parse_authority (R : url_rules) (a : bytes) : option (option bytes) :=
  let?? hp := match after_at a with
              | Some [] => None                              (* host missing *)
              | Some r => Some r
              | None => Some a
              end in
  let '(h, p) := split_port false hp in
  match h, p with
  | [], Some _ => None                                       (* host missing *)
  | [], None => Some None
  | _, _ => if port_ok p then let?? host := parse_host R h in Some (Some host) else None
  end.

Definition single_dot (s : bytes) : bool := existsb (bytes_eqb s) (map B ["."; "%2e"; "%2E"]%string).
Definition double_dot (s : bytes) : bool :=
  existsb (bytes_eqb s)
    (map B [".."; ".%2e"; ".%2E"; "%2e."; "%2E."; "%2e%2e"; "%2e%2E"; "%2E%2e"; "%2E%2E"]%string).

(** Path state, segment by segment; [done] is the path so far, last segment first. *)
Fixpoint resolve_dots (done segs : list bytes) : list bytes :=
  match segs with
  | [] => rev done
  | s :: segs' =>
      let last := match segs' with [] => true | _ => false end in
      if double_dot s then resolve_dots (if last then [] :: tl done else tl done) segs'
      else if single_dot s then resolve_dots (if last then [] :: done else done) segs'
      else resolve_dots (s :: done) segs'
  end.

(** The path after its first slash. *)
Definition rooted_path (R : url_rules) (r : bytes) : bytes :=
  flat_map (fun s => x2f :: s)
    (resolve_dots [] (map (flat_map (encode_char (ur_encoded R))) (split_on x2f (until_query r)))).

(** Path start state *)
Definition path_after_authority (R : url_rules) (r : bytes) : bytes :=
  match r with
  | x2f :: r' => rooted_path R r'
  | _ => []
  end.

Definition url_hier (R : url_rules) (scheme rest : bytes) : option url :=
  match rest with
  | x2f :: x2f :: r =>
      let '(a, p) := split_authority r in
      let?? host := parse_authority R a in
      Some (mkUrl scheme (path_after_authority R p) host)
  | x2f :: r => Some (mkUrl scheme (rooted_path R r) None)
  | _ => None
  end.

(** The characters that url 2.x encodes in paths: space, quote, hash, angle brackets, question
    mark, backquote and braces. *)
Definition path_encoded (c : byte) : bool :=
  existsb (Byte.eqb c) [x20; x22; x23; x3c; x3e; x3f; x60; x7b; x7d].
