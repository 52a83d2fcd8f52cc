(** Texts of IPv6 addresses (C164-C165). *)
From Verif Require Import Prelude SpecWire.

Definition hex_letter (c : byte) (d : N) : Prop :=
  ((d < 10 /\ bN c = 48 + d) \/ (10 <= d < 16 /\ (bN c = 55 + d \/ bN c = 87 + d)))%N.

(** One to four hexadecimal digits. *)
Definition piece (n : N) (t : bytes) : Prop :=
  exists ds, Forall2 hex_letter t ds /\ (1 <= length t <= 4)%nat /\ place_value 16 ds = n.

(** The shortest, in lower case. *)
Definition short_piece (n : N) (t : bytes) : Prop :=
  exists ds, Forall2 (fun c d => hex_letter c d /\ ~ (65 <= bN c <= 70)%N) t ds /\ place_value 16 ds = n /\
    (ds = [0%N] \/ ds <> [] /\ no_leading_zero ds).

(** Pieces with colons between them. *)
Inductive pieces (P : N -> bytes -> Prop) : list N -> bytes -> Prop :=
| PS_one n t : P n t -> pieces P [n] t
| PS_more n t l u : P n t -> pieces P l u -> pieces P (n :: l) (t ++ B ":" ++ u).

(** An IPv4 address for the last two pieces. *)
Definition dotted (l : list N) (t : bytes) : Prop :=
  exists a b c d ta tb tc td, decimal_text a ta /\ decimal_text b tb /\ decimal_text c tc /\ decimal_text d td /\
    (a <= 255 /\ b <= 255 /\ c <= 255 /\ d <= 255)%N /\
    t = ta ++ B "." ++ tb ++ B "." ++ tc ++ B "." ++ td /\ l = [a * 256 + b; c * 256 + d]%N.

Inductive ending : list N -> bytes -> Prop :=
| EN_one n t : piece n t -> ending [n] t
| EN_dotted l t : dotted l t -> ending l t
| EN_more n t l u : piece n t -> ending l u -> ending (n :: l) (t ++ B ":" ++ u).

(** Eight pieces; "::" once for one or more zeros. *)
Definition address_text (t : bytes) (l : list N) : Prop :=
  length l = 8%nat /\
  (ending l t \/
   exists a z b ta tb, l = a ++ repeat 0%N z ++ b /\ (1 <= z)%nat /\ t = ta ++ B "::" ++ tb /\
     (a = [] /\ ta = [] \/ pieces piece a ta) /\ (b = [] /\ tb = [] \/ ending b tb)).

(** The text of RFC 5952: the first longest of the sequences of two or more zeros is left out. *)
Definition canonical_address (l : list N) (t : bytes) : Prop :=
  (exists a z b ta tb, l = a ++ repeat 0%N z ++ b /\ (2 <= z)%nat /\
     (forall a' z' b', l = a' ++ repeat 0%N z' ++ b' -> (z' < z \/ z' = z /\ length a <= length a')%nat) /\
     t = ta ++ B "::" ++ tb /\ (a = [] /\ ta = [] \/ pieces short_piece a ta) /\ (b = [] /\ tb = [] \/ pieces short_piece b tb)) \/
  ((forall a z b, l = a ++ repeat 0%N z ++ b -> (z <= 1)%nat) /\ pieces short_piece l t).

(** Eight 16-bit numbers. *)
Definition address (l : list N) : Prop := length l = 8%nat /\ Forall (fun n => n < 65536)%N l.
