(** The texts of resources (C109): WHATWG URLs with an opaque path. *)
From Verif Require Import Prelude Url Ext Capability Semantics Spec SpecWire SpecJson.

Definition blank (c : byte) : Prop := (bN c <= 32)%N.
Definition tab_newline (c : byte) : Prop := In c [x09; x0a; x0d].

(** [s] is [t] without the tabs and newlines. *)
Inductive without_breaks : bytes -> bytes -> Prop :=
| WB_nil : without_breaks [] []
| WB_drop c t s : tab_newline c -> without_breaks t s -> without_breaks (c :: t) s
| WB_keep c t s : ~ tab_newline c -> without_breaks t s -> without_breaks (c :: t) (c :: s).

(** Control characters and spaces around the text, tabs and newlines within it, do not count. *)
Definition cleaned (t s : bytes) : Prop :=
  exists a m b, t = a ++ m ++ b /\ Forall blank a /\ Forall blank b /\
    (forall c r, m = c :: r -> ~ blank c) /\ (forall c r, m = r ++ [c] -> ~ blank c) /\ without_breaks m s.

(** A letter, then letters, digits, plus, minus and point; case does not count. *)
Definition letter_of (c l : byte) : Prop := (97 <= bN l <= 122 /\ (bN c = bN l \/ bN c + 32 = bN l))%N.
Definition other_of (c l : byte) : Prop := c = l /\ ((48 <= bN c <= 57)%N \/ In c (B "+-.")).
Definition scheme_text (t scheme : bytes) : Prop :=
  exists c t' l s', t = c :: t' /\ scheme = l :: s' /\ letter_of c l /\ Forall2 (fun c l => letter_of c l \/ other_of c l) t' s'.

Definition upper_hex (c : byte) (n : N) : Prop := (48 <= bN c <= 57 /\ n = bN c - 48 \/ 65 <= bN c <= 70 /\ n = bN c - 55)%N.
Inductive path_char : byte -> bytes -> Prop :=
| PC_plain c : (32 <= bN c < 127)%N -> path_char c [c]
| PC_percent c h l nh nl : (bN c < 32 \/ 127 <= bN c)%N -> upper_hex h nh -> upper_hex l nl -> bN c = (nh * 16 + nl)%N ->
    path_char c (B "%" ++ [h; l]).

Definition special (scheme : bytes) : Prop := In scheme [B "http"; B "https"; B "ws"; B "wss"; B "ftp"; B "file"].

(** What stands after the path. *)
Definition query_text (q : bytes) : Prop := q = [] \/ exists r, q = B "?" ++ r \/ q = B "#" ++ r.

(** scheme:path, the path not starting with a slash; query and fragment do not count. *)
Definition opaque_text (t : bytes) (u : url) : Prop :=
  exists s sch p q cs, cleaned t s /\ s = sch ++ B ":" ++ p ++ q /\
    scheme_text sch (url_scheme u) /\ ~ special (url_scheme u) /\
    (forall r, p ++ q <> B "/" ++ r) /\ Forall (fun c => c <> x3f /\ c <> x23) p /\ query_text q /\
    Forall2 path_char p cs /\ url_path u = concat cs /\ url_host u = None.

(** Other URLs: of a special scheme, or with a path starting with a slash. *)
Definition hierarchical_text (t sch rest : bytes) : Prop :=
  exists s name, cleaned t s /\ s = name ++ B ":" ++ rest /\ scheme_text name sch /\ (special sch \/ exists r, rest = B "/" ++ r).

(** The paths of other URLs are empty or start with a slash. *)
Definition rooted (X : ext) : Prop := forall sch rest u, x_url_hier X sch rest = Some u ->
  url_path u = [] \/ exists r, url_path u = B "/" ++ r.

(** "prf:" in any case, an optional plus sign, decimal digits, a query. *)
Definition proof_text (t : bytes) (i : N) : Prop :=
  exists s a b c plus ds q, cleaned t s /\ s = [a; b; c] ++ B ":" ++ plus ++ ds ++ q /\
    In a (B "pP") /\ In b (B "rR") /\ In c (B "fF") /\ (plus = [] \/ plus = B "+") /\ digits ds /\ query_text q /\
    i = place_value 10 (map (fun d => (bN d - 48)%N) ds) /\ (i < 2 ^ 64)%N.

(** How a URL text reads, whichever kind it is. *)
Definition url_text (X : ext) (t : bytes) (u : url) : Prop :=
  opaque_text t u \/ exists sch rest, hierarchical_text t sch rest /\ x_url_hier X sch rest = Some u.

(** How a semantics reads a capability: a path "*" is the wildcard of any scheme, "my:" is one's own resource, "as:" is not read. *)
Definition capability_text {S A} (SO : scope_ops S) (AO : ability_ops A) (X : ext) (c : capability) (v : view S A) : Prop :=
  exists u k, url_text X (cap_resource c) u /\
    (url_path u = B "*" /\ k = Unscoped \/ url_path u <> B "*" /\ exists s, sc_of_url SO u = Some s /\ k = Scoped s) /\
    (url_scheme u = B "my" /\ v_resource v = RMy k \/ url_scheme u <> B "my" /\ url_scheme u <> B "as" /\ v_resource v = RPlain k) /\
    ab_of_string AO (cap_ability c) = Some (v_ability v) /\ v_caveat v = cap_caveat c.
