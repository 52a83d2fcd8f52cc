(** IPv6 addresses as hosts of URLs: [parse_ipv6addr] and [write_ipv6] of crate `url` 2.x, third-party
    code behind [Url::parse] and [host_str] (ucan/src/tests/fixtures/capabilities/wnfs.rs:78).  Modelled from the WHATWG URL Standard (IPv6 parser and serializer):
    a value for the field [ur_ipv6] of [url_rules]. *)
From Verif Require Import Prelude BaseN Base58 Hier.

Definition is_empty {A} (l : list A) : bool := match l with [] => true | _ => false end.

Definition hex_digit (c : byte) : option N :=
  let n := bN c in
  if ((48 <=? n) && (n <=? 57))%N then Some (n - 48)%N
  else if ((65 <=? n) && (n <=? 70))%N then Some (n - 55)%N
  else if ((97 <=? n) && (n <=? 102))%N then Some (n - 87)%N
  else None.

(** Up to [k] hexadecimal digits, and the rest. *)
Fixpoint hex_digits (k : nat) (s : bytes) : list N * bytes :=
  match k, s with
  | S k', c :: s' =>
      match hex_digit c with
      | Some d => let '(ds, r) := hex_digits k' s' in (d :: ds, r)
      | None => ([], s)
      end
  | _, _ => ([], s)
  end.

(** A decimal number up to 255 without leading zeros. *)
Definition v4_number (s : bytes) : option N :=
  match s with
  | [] => None
  | c :: r =>
      if forallb is_digit s && (negb (Byte.eqb c x30) || is_empty r) && (dec_value s <=? 255)%N
      then Some (dec_value s) else None
  end.

(** The IPv4 address at the end, as two pieces.  (The loop over the characters is written as
    splitting at the dots.) *)
Definition v4_pieces (s : bytes) : option (list N) :=
  match map v4_number (split_on x2e s) with
  | [Some a; Some b; Some c; Some d] => Some [256 * a + b; 256 * c + d]%N
  | _ => None
  end.

(** The loop: the pieces so far, and the place of "::" (behind one of its zeros). *)
Fixpoint v6_loop (fuel : nat) (pieces : list N) (compress : option nat) (s : bytes) : option (list N * option nat) :=
  match s, fuel with
  | [], _ => Some (pieces, compress)
  | _, O => None
  | c :: s', S f =>
      if (length pieces =? 8)%nat then None
      else if Byte.eqb c x3a then
        match compress with
        | Some _ => None
        | None => v6_loop f (pieces ++ [0%N]) (Some (S (length pieces))) s'
        end
      else
        let '(ds, r) := hex_digits 4 s in
        match r with
        | [] => Some (pieces ++ [of_digits 16 ds], compress)
        | x2e :: _ =>
            if (6 <? length pieces)%nat || is_empty ds then None
            else let?? l := v4_pieces s in Some (pieces ++ l, compress)
        | x3a :: r' => if is_empty r' then None else v6_loop f (pieces ++ [of_digits 16 ds]) compress r'
        | _ => None
        end
  end.

Definition v6_finish (l : list N) (compress : option nat) : option (list N) :=
  match compress with
  | Some n => Some (firstn n l ++ repeat 0%N (8 - length l) ++ skipn n l)
  | None => if (length l =? 8)%nat then Some l else None
  end.

(** parse_ipv6addr *)
Definition v6_parse (s : bytes) : option (list N) :=
  let?? (l, compress) :=
    match s with
    | [] => None
    | x3a :: r => match r with
                  | x3a :: r' => v6_loop (length s) [0%N] (Some 1%nat) r'
                  | _ => None
                  end
    | [_] => None
    | _ => v6_loop (length s) [] None s
    end in
  v6_finish l compress.

(** longest_zero_sequence: place and length of the first longest one; a lone zero does not count. *)
Definition finish_sequence (last : nat) (start : option nat) (best : option (nat * nat)) : option (nat * nat) :=
  match start with
  | None => best
  | Some s => match best with
              | Some (_, n) => if (n <? last - s)%nat then Some (s, last - s)%nat else best
              | None => Some (s, last - s)%nat
              end
  end.
Fixpoint zero_sequence (i : nat) (start : option nat) (best : option (nat * nat)) (l : list N) : option (nat * nat) :=
  match l with
  | [] => finish_sequence i start best
  | p :: l' =>
      if (p =? 0)%N then zero_sequence (S i) (match start with None => Some i | Some s => Some s end) best l'
      else zero_sequence (S i) None (finish_sequence i start best) l'
  end.
Definition longest_zero_sequence (l : list N) : option (nat * nat) :=
  match zero_sequence 0 None None l with
  | Some (s, n) => if (n <? 2)%nat then None else Some (s, n)
  | None => None
  end.

(** format!("{:x}") *)
Definition hex_lower (d : N) : byte := if (d <? 10)%N then byteN (48 + d) else byteN (87 + d).
Definition hex_print (n : N) : bytes := if (n =? 0)%N then B "0" else map hex_lower (to_digits 16 n).

Fixpoint v6_join (l : list N) : bytes :=
  match l with
  | [] => []
  | [n] => hex_print n
  | n :: l' => hex_print n ++ x3a :: v6_join l'
  end.

(** write_ipv6 *)
Definition v6_print (l : list N) : bytes :=
  match longest_zero_sequence l with
  | Some (s, n) => v6_join (firstn s l) ++ B "::" ++ v6_join (skipn (s + n) l)
  | None => v6_join l
  end.

Definition v6_host (s : bytes) : option bytes := let?? l := v6_parse s in Some (v6_print l).

(** The rules of url 2.x, with IPv6 addresses. *)
Definition url2_rules : url_rules := mkRules path_encoded v6_host.
