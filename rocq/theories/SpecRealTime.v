(** Instants in nanoseconds (C171-C172). *)
From Verif Require Import Prelude Value Ucan.

Definition second : Z := 1000000000.

(** The instant lies in the second that starts at the reading. *)
Definition during (t : Z) (s : N) : Prop := (Z.of_N s * second <= t < (Z.of_N s + 1) * second)%Z.

(** From the start of the first second to the end of the last. *)
Definition live_real (p : payload) (t : Z) : Prop :=
  (forall b, p_nbf p = Some b -> (Z.of_N b * second <= t)%Z) /\ (forall e, p_exp p = Some e -> (t < (Z.of_N e + 1) * second)%Z).
Definition unbounded (p : payload) : Prop := p_nbf p = None /\ p_exp p = None.
