(** Facts about the parameters used by the examples. *)
From Coq Require Import Sorting.Sorted Floats.SpecFloat.
From Verif Require Import Prelude Ord SMap Utf8 Value Ext Capability Key Json Ucan Builder Spec Samples.

Lemma zero_carried : float_carried sample_ext (S754_zero false).
Proof.
  split; [exact I|]. split; [|reflexivity].
  exists [], (B "0"), (B ".0"), []. split; [reflexivity|]. split; [left; reflexivity|].
  split; [split; [discriminate | repeat constructor; discriminate]|].
  split; [left; reflexivity|]. split; [right; exists (B "0"); split; [reflexivity | split; [discriminate | repeat constructor; discriminate]]|].
  split; [left; reflexivity | left; discriminate].
Qed.

Lemma sample_floats : floats_survive sample_ext.
Proof. intros t f [= <-]. exact zero_carried. Qed.

(** Solves goals about concrete values. *)
Ltac concrete :=
  repeat match goal with
  | |- _ /\ _ => split
  | |- Forall _ _ => constructor
  | |- carried _ _ (VNum (Float _)) => apply Ca_float, zero_carried
  | |- carried _ _ _ => constructor
  | |- unreserved _ => constructor
  | |- keys_increasing _ => unfold keys_increasing
  | |- StronglySorted _ _ => constructor
  | |- ~ reserved _ => intros [[? ?] | [? ?]]; discriminate
  | |- utf8_valid _ = true => reflexivity
  | |- opt_all _ _ => let a := fresh "a" in let E := fresh "E" in intros a E; vm_compute in E; first [discriminate E | injection E as <-]
  | |- _ = _ => reflexivity
  | |- (_ <= _)%N => vm_compute; discriminate
  | |- (_ <= _)%Z => vm_compute; discriminate
  | |- (_ < _)%Z => vm_compute; reflexivity
  | |- _ => progress cbv beta
  end.

Lemma rich_carried : signable_carried sample_ext rich_signable.
Proof.
  constructor.
  - reflexivity.
  - intros d [= <-]. vm_compute. reflexivity.
  - vm_compute. reflexivity.
  - intros c Hc. repeat destruct Hc as [<- | Hc]; try contradiction; concrete.
  - concrete.
  - concrete.
  - concrete.
  - concrete.
Qed.

Lemma rich_carried2 : signable_carried sample_ext rich_signable2.
Proof.
  constructor.
  - reflexivity.
  - intros d [= <-]. vm_compute. reflexivity.
  - vm_compute. reflexivity.
  - intros c Hc. repeat destruct Hc as [<- | Hc]; try contradiction; concrete.
  - concrete.
  - concrete.
  - concrete.
  - concrete.
Qed.
