(** The texts of hierarchical resources (C132-C133). *)
From Coq Require Import Relations.Relation_Operators.
From Verif Require Import Prelude Url Ext Semantics Hier Fixtures Spec SpecWire SpecUrl.

(** Characters of a path. *)
Inductive segment_char (R : url_rules) : byte -> bytes -> Prop :=
| SC_plain c : (32 <= bN c < 127)%N -> ur_encoded R c = false -> segment_char R c [c]
| SC_percent c h l nh nl : (bN c < 32 \/ 127 <= bN c)%N \/ ur_encoded R c = true ->
    upper_hex h nh -> upper_hex l nl -> bN c = (nh * 16 + nl)%N -> segment_char R c (B "%" ++ [h; l]).
Definition segment_text (R : url_rules) (s t : bytes) : Prop := exists cs, Forall2 (segment_char R) s cs /\ t = concat cs.

(** Dots, plain or percent-encoded; "." is the directory itself, ".." its parent. *)
Inductive dot : bytes -> Prop :=
| Dot : dot (B ".")
| Dot_small : dot (B "%2e")
| Dot_big : dot (B "%2E").
Definition parent (s : bytes) : Prop := exists a b, dot a /\ dot b /\ s = a ++ b.
Definition name (s : bytes) : Prop := ~ dot s /\ ~ parent s.

(** Removing dots, anywhere in a path and in any order (RFC 3986, 5.2.4). *)
Inductive undot : list bytes -> list bytes -> Prop :=
| U_dot l s n r : dot s -> undot (l ++ s :: n :: r) (l ++ n :: r)
| U_dot_last l s : dot s -> undot (l ++ [s]) (l ++ [[]])
| U_parent l a s n r : name a -> parent s -> undot (l ++ a :: s :: n :: r) (l ++ n :: r)
| U_parent_last l a s : name a -> parent s -> undot (l ++ [a; s]) (l ++ [[]])
| U_root s n r : parent s -> undot (s :: n :: r) (n :: r)
| U_root_last s : parent s -> undot [s] [[]].
Definition undotted (l l' : list bytes) : Prop := clos_refl_trans _ undot l l' /\ Forall name l'.

(** Segments, each after a slash. *)
Definition path_of (l : list bytes) : bytes := concat (map (fun s => B "/" ++ s) l).

(** How a path that starts with a slash reads; query and fragment do not count. *)
Definition path_text (R : url_rules) (t p : bytes) : Prop :=
  exists l q l' out, t = path_of l ++ q /\ query_text q /\ l <> [] /\
    Forall (Forall (fun c => c <> x2f /\ c <> x3f /\ c <> x23)) l /\
    Forall2 (segment_text R) l l' /\ undotted l' out /\ p = path_of out.

Definition port_text (p : bytes) : Prop :=
  p = [] \/ exists ds, p = B ":" ++ ds /\ Forall (fun c => 48 <= bN c <= 57)%N ds /\
    (place_value 10 (map (fun d => bN d - 48) ds) <= 65535)%N.

(** A host: an IPv6 address in brackets, or anything without the forbidden characters. *)
Definition host_text (R : url_rules) (t h : bytes) : Prop :=
  (exists a b, t = B "[" ++ a ++ B "]" /\ Forall (fun c => c <> x5b /\ c <> x5d /\ c <> x40) a /\ ur_ipv6 R a = Some b /\ h = B "[" ++ b ++ B "]") \/
  (t <> [] /\ Forall (fun c => ~ In c (x00 :: x09 :: x0a :: x0d :: B " #/:<>?@[\]^|")) t /\
   exists cs, Forall2 path_char t cs /\ h = concat cs).

(** user@host:port, all parts optional, but a user or a port only with a host. *)
Definition authority_text (R : url_rules) (a : bytes) (host : option bytes) : Prop :=
  (a = [] /\ host = None) \/
  exists user t port h, a = user ++ t ++ port /\ (user = [] \/ exists u, user = u ++ B "@") /\
    host_text R t h /\ port_text port /\ host = Some h.

(** Two slashes and an authority before the path, or no authority and a single slash. *)
Definition rest_text (R : url_rules) (rest : bytes) (host : option bytes) (p : bytes) : Prop :=
  (exists a t, rest = B "//" ++ a ++ t /\ Forall (fun c => c <> x2f /\ c <> x3f /\ c <> x23) a /\
     authority_text R a host /\ (query_text t /\ p = [] \/ path_text R t p)) \/
  (host = None /\ (forall r, rest <> B "//" ++ r) /\ path_text R rest p).

Definition hier_text (R : url_rules) (t : bytes) (u : url) : Prop :=
  exists s sch rest, cleaned t s /\ s = sch ++ B ":" ++ rest /\ scheme_text sch (url_scheme u) /\ ~ special (url_scheme u) /\
    rest_text R rest (url_host u) (url_path u).

(** The URL library reads non-special schemes by these rules. *)
Definition follows (R : url_rules) (X : ext) : Prop :=
  (forall sch r, ~ special sch -> x_url_hier X sch (B "/" ++ r) = url_hier R sch (B "/" ++ r)) /\
  (forall sch rest u, x_url_hier X sch rest = Some u -> url_scheme u = sch).

(** The scope the WNFS semantics reads in a text. *)
Definition names_scope (X : ext) (t : bytes) (s : wnfs) : Prop :=
  exists u, parse_url X t = Some u /\ sc_of_url wnfs_scope u = Some s.

(** Rules under which reading is stable: percent signs, hexadecimal digits are not encoded again,
    spaces are, and IPv6 addresses are read as their own text. *)
Definition stable_rules (R : url_rules) : Prop :=
  ur_encoded R x20 = true /\ Forall (fun c => ur_encoded R c = false) (B "%0123456789ABCDEF") /\
  (forall a b, ur_ipv6 R a = Some b -> ur_ipv6 R b = Some b /\ Forall (fun c => In c (B "0123456789abcdef:.")) b).

(** No blanks and control characters. *)
Definition visible (s : bytes) : Prop := Forall (fun c => 33 <= bN c)%N s.
