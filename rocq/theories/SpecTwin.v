(** ECDSA over an abstract group with SHA-256, written out from FIPS 186-4 (C139). *)
From Verif Require Import Prelude Key KeySupport Spec SpecWire SpecCbor SpecSha.
Local Open Scope N_scope.

(** A group of points: sum, zero, inverse, base point, order, first coordinate (zero has none). *)
Record ec_group := mkGroup {
  g_point : Type;
  g_add : g_point -> g_point -> g_point;
  g_zero : g_point;
  g_neg : g_point -> g_point;
  g_base : g_point;
  g_order : N;
  g_first : g_point -> option N
}.
Definition g_times (G : ec_group) (n : N) (P : g_point G) : g_point G := N.iter n (g_add G P) (g_zero G).

(** The laws of an elliptic curve of odd order: a commutative group, the order cancels every point, inverse
    points share the first coordinate. *)
Definition ec_laws (G : ec_group) : Prop :=
  (forall P Q R, g_add G P (g_add G Q R) = g_add G (g_add G P Q) R) /\
  (forall P Q, g_add G P Q = g_add G Q P) /\
  (forall P, g_add G (g_zero G) P = P) /\
  (forall P, g_add G P (g_neg G P) = g_zero G) /\
  (forall P, g_times G (g_order G) P = g_zero G) /\
  (forall P, g_first G (g_neg G P) = g_first G P) /\
  N.Odd (g_order G) /\ 1 < g_order G <= 256 ^ 32.

(** 6.4: the pair (r, s) signs the number [z] under the point [Q]. *)
Definition ecdsa_pair (G : ec_group) (Q : g_point G) (z r s : N) : Prop :=
  0 < r < g_order G /\ 0 < s < g_order G /\
  exists w x, (s * w) mod g_order G = 1 /\
    g_first G (g_add G (g_times G ((z * w) mod g_order G) (g_base G)) (g_times G ((r * w) mod g_order G) Q)) = Some x /\
    x mod g_order G = r.

(** Signatures are 32 octets of r and 32 of s; the number signed is the SHA-256 of the message. *)
Definition ecdsa_signature (G : ec_group) (Q : g_point G) (data sig : bytes) : Prop :=
  exists d z rb r sb s, sha256_of data d /\ be_number 32 z d /\ be_number 32 r rb /\ be_number 32 s sb /\
    sig = rb ++ sb /\ ecdsa_pair G Q z r s.

(** Verification with a decoded key is that of ECDSA on such a group. *)
Definition ecdsa_crypto {Pub Priv} (C : crypto Pub Priv) : Prop :=
  exists (G : ec_group) (point : Pub -> g_point G), ec_laws G /\
    forall b pk data sig, cr_decode C b = Some pk -> (cr_verify C pk data sig = true <-> ecdsa_signature G (point pk) data sig).
