(** The addition law of the twisted Edwards curve -x^2 + y^2 = 1 + d x^2 y^2 over a field in which -1 is a
    square, d is not, and 1 + 1 is not zero: a commutative group.  Extended coordinates compute it. *)
From Coq Require Import Ring Field List.
Import ListNotations.

Section Edwards.
  Variables (F : Type) (zero one : F) (add mul sub : F -> F -> F) (opp : F -> F) (div : F -> F -> F) (inv : F -> F).
  Hypothesis FT : field_theory zero one add mul sub opp div inv eq.
  Hypothesis dec : forall x y : F, {x = y} + {x <> y}.
  Declare Scope ed_scope.
  Local Open Scope ed_scope.
  Local Notation "0" := zero : ed_scope.
  Local Notation "1" := one : ed_scope.
  Local Infix "+" := add : ed_scope.
  Local Infix "*" := mul : ed_scope.
  Local Infix "-" := sub : ed_scope.
  Local Infix "/" := div : ed_scope.
  Local Notation "- x" := (opp x) : ed_scope.
  Add Field ed_field : FT.
  Variables d i : F.
  Hypothesis Hi : i * i = - (1).
  Hypothesis Hd : forall s, s * s <> d.
  Hypothesis H2 : 1 + 1 <> 0.

  Lemma mul_zero a b : a * b = 0 -> a = 0 \/ b = 0.
  Proof.
    intros E. destruct (dec a 0) as [Ha|Ha]; [left; exact Ha|]. right.
    replace b with (inv a * (a * b)) by (field; exact Ha). rewrite E. ring.
  Qed.
  Lemma mul_nonzero a b : a <> 0 -> b <> 0 -> a * b <> 0.
  Proof. intros Ha Hb E. apply mul_zero in E as [E|E]; contradiction. Qed.
  Lemma div_eq a b c e : b <> 0 -> e <> 0 -> a * e - c * b = 0 -> a / b = c / e.
  Proof. intros Hb He E. replace (a / b) with ((a * e - c * b) / (b * e) + c / e) by (field; split; assumption). rewrite E. field. split; assumption. Qed.
  Lemma sub_zero a b : a - b = 0 -> a = b.
  Proof. intros E. replace a with (a - b + b) by ring. rewrite E. ring. Qed.
  Lemma sub_zero_r a b : a = b -> a - b = 0.
  Proof. intros ->. ring. Qed.
  Lemma opp_inj a b : - a = - b -> a = b.
  Proof. intros E. replace a with (- - a) by ring. rewrite E. ring. Qed.

  Definition on (P : F * F) : Prop := let (x, y) := P in x * x - y * y + 1 + d * x * x * y * y = 0.
  Definition eadd (P Q : F * F) : F * F :=
    let (x1, y1) := P in let (x2, y2) := Q in
    ((x1 * y2 + x2 * y1) / (1 + d * x1 * y1 * x2 * y2), (y1 * y2 + x1 * x2) / (1 - d * x1 * y1 * x2 * y2)).
  Definition ezero : F * F := (0, 1).
  Definition eneg (P : F * F) : F * F := (- fst P, snd P).

  (** A square times d is a square only if both are zero. *)
  Lemma not_square a b : d * (a * a) = b * b -> a = 0.
  Proof.
    intros E. destruct (dec a 0) as [Ha|Ha]; [exact Ha|]. exfalso. apply (Hd (b / a)).
    replace (b / a * (b / a)) with (b * b / (a * a)) by (field; exact Ha). rewrite <- E. field. exact Ha.
  Qed.

  (** The denominators are never zero. *)
  Lemma complete x1 y1 x2 y2 e : on (x1, y1) -> on (x2, y2) -> e * e = 1 -> d * x1 * y1 * x2 * y2 <> e.
  Proof.
    cbn [on]. intros H1 H3 He E.
    assert (x1 * y1 <> 0 /\ x2 <> 0 /\ y2 <> 0) as (Hxy & Hx2 & Hy2).
    { assert (e <> 0) as He0. { intros ->. apply (F_1_neq_0 FT). rewrite <- He. ring. }
      split; [|split]; intros H0; apply He0; rewrite <- E.
      - replace (d * x1 * y1 * x2 * y2) with (d * (x1 * y1) * x2 * y2) by ring. rewrite H0. ring.
      - rewrite H0. ring.
      - rewrite H0. ring. }
    (* with X = i x: (i x1 + s e y1)^2 = d x1^2 y1^2 (...)^2 *)
    assert (forall s, s * s = 1 -> d * (x1 * y1 * (i * x2 + s * y2) * (x1 * y1 * (i * x2 + s * y2))) = (i * x1 + s * e * y1) * (i * x1 + s * e * y1)) as K.
    { intros s Hs. apply sub_zero.
      assert (y1 * y1 - x1 * x1 = 1 + d * x1 * x1 * y1 * y1) as A1. { apply sub_zero. replace 0 with (- (0)) by ring. rewrite <- H1. ring. }
      assert (y2 * y2 - x2 * x2 = 1 + d * x2 * x2 * y2 * y2) as A2. { apply sub_zero. replace 0 with (- (0)) by ring. rewrite <- H3. ring. }
      transitivity (d * x1 * x1 * y1 * y1 * (s * s * (y2 * y2) + (i * i) * (x2 * x2)) + (1 + 1) * s * i * x1 * y1 * (d * x1 * y1 * x2 * y2)
        - ((i * i) * (x1 * x1) + (s * s) * (e * e) * (y1 * y1)) - (1 + 1) * s * i * x1 * y1 * e); [ring|].
      rewrite Hi, Hs, He, E.
      transitivity (d * x1 * x1 * y1 * y1 * (y2 * y2 - x2 * x2) - (y1 * y1 - x1 * x1)); [ring|]. rewrite A1, A2.
      transitivity ((d * x1 * y1 * x2 * y2) * (d * x1 * y1 * x2 * y2) - 1); [ring|]. rewrite E, He. ring. }
    assert (forall s, s * s = 1 -> i * x2 + s * y2 = 0) as Z.
    { intros s Hs. apply K, not_square in Hs. apply mul_zero in Hs as [Hs|Hs]; [contradiction | exact Hs]. }
    pose proof (Z 1 ltac:(ring)) as Z1. pose proof (Z (- (1)) ltac:(ring)) as Z2.
    assert ((1 + 1) * y2 = 0) as E2. { transitivity ((i * x2 + 1 * y2) - (i * x2 + - (1) * y2)); [ring|]. rewrite Z1, Z2. ring. }
    apply mul_zero in E2 as [E2|E2]; contradiction.
  Qed.
  Lemma complete_plus x1 y1 x2 y2 : on (x1, y1) -> on (x2, y2) -> 1 + d * x1 * y1 * x2 * y2 <> 0.
  Proof.
    intros H1 H3 E. apply (complete x1 y1 x2 y2 (- (1)) H1 H3); [ring|]. transitivity (1 + d * x1 * y1 * x2 * y2 - 1); [ring|]. rewrite E. ring.
  Qed.
  Lemma complete_minus x1 y1 x2 y2 : on (x1, y1) -> on (x2, y2) -> 1 - d * x1 * y1 * x2 * y2 <> 0.
  Proof.
    intros H1 H3 E. apply (complete x1 y1 x2 y2 1 H1 H3); [ring|]. transitivity (1 - (1 - d * x1 * y1 * x2 * y2)); [ring|]. rewrite E. ring.
  Qed.

  Lemma on_zero : on ezero.
  Proof. cbn. ring. Qed.
  Lemma on_neg P : on P -> on (eneg P).
  Proof. destruct P as [x y]. cbn. intros E. rewrite <- E. ring. Qed.

  Lemma closure_id x1 y1 x2 y2 : let p := 1 + d * x1 * y1 * x2 * y2 in let m := 1 - d * x1 * y1 * x2 * y2 in
    let nx := x1 * y2 + x2 * y1 in let ny := y1 * y2 + x1 * x2 in
    nx * nx * m * m - ny * ny * p * p + p * p * m * m + d * nx * nx * ny * ny =
    (x1*x1*y1*y1*x2*x2*x2*x2*y2*y2*y2*y2*d*d*d - x1*x1*x2*x2*x2*x2*y2*y2*y2*y2*d*d - x1*x1*x2*x2*x2*x2*y2*y2*d + x1*x1*x2*x2*y2*y2*y2*y2*d + y1*y1*x2*x2*x2*x2*y2*y2*y2*y2*d*d + y1*y1*x2*x2*x2*x2*y2*y2*d - y1*y1*x2*x2*y2*y2*y2*y2*d - x2*x2*x2*x2*y2*y2*y2*y2*d*d - (1+1)*x2*x2*x2*x2*y2*y2*y2*y2*d - (1+1)*x2*x2*x2*x2*y2*y2 + x2*x2*x2*x2 + (1+1)*x2*x2*y2*y2*y2*y2 - (1+1)*x2*x2*y2*y2*d - (1+1)*(1+1)*x2*x2*y2*y2 + y2*y2*y2*y2) * (x1 * x1 - y1 * y1 + 1 + d * x1 * x1 * y1 * y1) +
    (x1*x1*x1*x1*x2*x2*y2*y2*d + (1+1)*x1*x1*x2*x2*y2*y2*d + (1+1)*x1*x1*x2*x2*y2*y2 - x1*x1*x2*x2 + x1*x1*y2*y2 + y1*y1*y1*y1*x2*x2*y2*y2*d - (1+1)*y1*y1*x2*x2*y2*y2*d - (1+1)*y1*y1*x2*x2*y2*y2 + y1*y1*x2*x2 - y1*y1*y2*y2 + x2*x2*y2*y2*d + (1+1)*x2*x2*y2*y2 - x2*x2 + y2*y2 + 1) * (x2 * x2 - y2 * y2 + 1 + d * x2 * x2 * y2 * y2).
  Proof. cbv zeta. ring. Qed.
  Lemma on_add P Q : on P -> on Q -> on (eadd P Q).
  Proof.
    destruct P as [x1 y1], Q as [x2 y2]. intros H1 H3. pose proof (complete_plus _ _ _ _ H1 H3) as Hp. pose proof (complete_minus _ _ _ _ H1 H3) as Hm.
    pose proof (closure_id x1 y1 x2 y2) as K. cbv zeta in K. cbn [on] in H1, H3. rewrite H1, H3 in K.
    cbn [eadd on]. set (p := 1 + d * x1 * y1 * x2 * y2) in *. set (m := 1 - d * x1 * y1 * x2 * y2) in *.
    set (nx := x1 * y2 + x2 * y1) in *. set (ny := y1 * y2 + x1 * x2) in *. clearbody p m nx ny.
    transitivity ((nx * nx * m * m - ny * ny * p * p + p * p * m * m + d * nx * nx * ny * ny) / (p * p * m * m)).
    - field. split; assumption.
    - rewrite K. field. split; assumption.
  Qed.

  Lemma assoc_x_id x1 y1 x2 y2 x3 y3 : let p12 := 1 + d * x1 * y1 * x2 * y2 in let m12 := 1 - d * x1 * y1 * x2 * y2 in
    let p23 := 1 + d * x2 * y2 * x3 * y3 in let m23 := 1 - d * x2 * y2 * x3 * y3 in
    let nx12 := x1 * y2 + x2 * y1 in let ny12 := y1 * y2 + x1 * x2 in
    let nx23 := x2 * y3 + x3 * y2 in let ny23 := y2 * y3 + x2 * x3 in
    (nx12 * m12 * y3 + x3 * ny12 * p12) * (p23 * m23 + d * nx23 * ny23 * x1 * y1)
    - (x1 * ny23 * p23 + nx23 * m23 * y1) * (p12 * m12 + d * nx12 * ny12 * x3 * y3) =
    (x1*x2*x2*x2*x2*y2*y2*y2*x3*x3*y3*d*d + x1*x2*x2*x2*x2*y2*x3*x3*y3*d + x1*x2*x2*x2*y2*y2*y2*y2*x3*y3*y3*d*d + x1*x2*x2*x2*y2*y2*x3*x3*x3*d + x1*x2*x2*x2*y2*y2*x3*d - x1*x2*x2*y2*y2*y2*y3*y3*y3*d + x1*x2*x2*y2*y2*y2*y3*d - x1*x2*y2*y2*y2*y2*x3*y3*y3*d - y1*x2*x2*x2*x2*y2*y2*y2*x3*y3*y3*d*d - y1*x2*x2*x2*x2*y2*x3*y3*y3*d - y1*x2*x2*x2*y2*y2*y2*y2*x3*x3*y3*d*d - y1*x2*x2*x2*y2*y2*y3*y3*y3*d + y1*x2*x2*x2*y2*y2*y3*d + y1*x2*x2*y2*y2*y2*x3*x3*x3*d + y1*x2*x2*y2*y2*y2*x3*d + y1*x2*y2*y2*y2*y2*x3*x3*y3*d) * (x1 * x1 - y1 * y1 + 1 + d * x1 * x1 * y1 * y1) +
    (- x1*x1*x1*x2*x2*y2*x3*x3*y3*d - x1*x1*x1*x2*y2*y2*x3*y3*y3*d - x1*x1*x1*x2*x3*x3*x3*y3*y3*d - x1*x1*x1*x2*x3*x3*x3 + x1*x1*x1*x2*x3*y3*y3 - x1*x1*x1*x2*x3 - x1*x1*x1*y2*x3*x3*y3*y3*y3*d - x1*x1*x1*y2*x3*x3*y3 + x1*x1*x1*y2*y3*y3*y3 - x1*x1*x1*y2*y3 - x1*x1*y1*x2*x2*y2*x3*x3*x3*y3*y3*d*d + x1*x1*y1*x2*x2*y2*x3*y3*y3*d + x1*x1*y1*x2*y2*y2*x3*x3*y3*y3*y3*d*d + x1*x1*y1*x2*y2*y2*x3*x3*y3*d - x1*x1*y1*x2*x3*x3*y3*y3*y3*d - x1*x1*y1*x2*x3*x3*y3 + x1*x1*y1*x2*y3*y3*y3 - x1*x1*y1*x2*y3 - x1*x1*y1*y2*x3*x3*x3*y3*y3*d - x1*x1*y1*y2*x3*x3*x3 + x1*x1*y1*y2*x3*y3*y3 - x1*x1*y1*y2*x3 + x1*y1*y1*x2*x2*y2*x3*x3*y3*y3*y3*d*d + x1*y1*y1*x2*x2*y2*x3*x3*y3*d - x1*y1*y1*x2*y2*y2*x3*x3*x3*y3*y3*d*d + x1*y1*y1*x2*y2*y2*x3*y3*y3*d + x1*y1*y1*x2*x3*x3*x3*y3*y3*d + x1*y1*y1*x2*x3*x3*x3 - x1*y1*y1*x2*x3*y3*y3 + x1*y1*y1*x2*x3 + x1*y1*y1*y2*x3*x3*y3*y3*y3*d + x1*y1*y1*y2*x3*x3*y3 - x1*y1*y1*y2*y3*y3*y3 + x1*y1*y1*y2*y3 - x1*x2*x2*y2*x3*x3*y3*d - x1*x2*y2*y2*x3*y3*y3*d - x1*x2*x3*x3*x3*y3*y3*d - x1*x2*x3*x3*x3 + x1*x2*x3*y3*y3 - x1*x2*x3 - x1*y2*x3*x3*y3*y3*y3*d - x1*y2*x3*x3*y3 + x1*y2*y3*y3*y3 - x1*y2*y3 - y1*y1*y1*x2*x2*y2*x3*y3*y3*d - y1*y1*y1*x2*y2*y2*x3*x3*y3*d + y1*y1*y1*x2*x3*x3*y3*y3*y3*d + y1*y1*y1*x2*x3*x3*y3 - y1*y1*y1*x2*y3*y3*y3 + y1*y1*y1*x2*y3 + y1*y1*y1*y2*x3*x3*x3*y3*y3*d + y1*y1*y1*y2*x3*x3*x3 - y1*y1*y1*y2*x3*y3*y3 + y1*y1*y1*y2*x3 + y1*x2*x2*y2*x3*y3*y3*d + y1*x2*y2*y2*x3*x3*y3*d - y1*x2*x3*x3*y3*y3*y3*d - y1*x2*x3*x3*y3 + y1*x2*y3*y3*y3 - y1*x2*y3 - y1*y2*x3*x3*x3*y3*y3*d - y1*y2*x3*x3*x3 + y1*y2*x3*y3*y3 - y1*y2*x3) * (x2 * x2 - y2 * y2 + 1 + d * x2 * x2 * y2 * y2) +
    (x1*x1*x1*x2*x2*x2*x3 + x1*x1*x1*x2*x2*y2*y3 - x1*x1*x1*x2*y2*y2*x3 + x1*x1*x1*x2*x3 - x1*x1*x1*y2*y2*y2*y3 + x1*x1*x1*y2*y3 + x1*x1*y1*x2*x2*x2*y3 + x1*x1*y1*x2*x2*y2*x3*d + x1*x1*y1*x2*x2*y2*x3 - x1*x1*y1*x2*y2*y2*y3*d - x1*x1*y1*x2*y2*y2*y3 + x1*x1*y1*x2*y3 - x1*x1*y1*y2*y2*y2*x3 + x1*x1*y1*y2*x3 - x1*y1*y1*x2*x2*x2*x3 - x1*y1*y1*x2*x2*y2*y3*d - x1*y1*y1*x2*x2*y2*y3 + x1*y1*y1*x2*y2*y2*x3*d + x1*y1*y1*x2*y2*y2*x3 - x1*y1*y1*x2*x3 + x1*y1*y1*y2*y2*y2*y3 - x1*y1*y1*y2*y3 + x1*x2*x2*x2*x3 + x1*x2*x2*y2*y3 - x1*x2*y2*y2*x3 + x1*x2*x3 - x1*y2*y2*y2*y3 + x1*y2*y3 - y1*y1*y1*x2*x2*x2*y3 - y1*y1*y1*x2*x2*y2*x3 + y1*y1*y1*x2*y2*y2*y3 - y1*y1*y1*x2*y3 + y1*y1*y1*y2*y2*y2*x3 - y1*y1*y1*y2*x3 + y1*x2*x2*x2*y3 + y1*x2*x2*y2*x3 - y1*x2*y2*y2*y3 + y1*x2*y3 - y1*y2*y2*y2*x3 + y1*y2*x3) * (x3 * x3 - y3 * y3 + 1 + d * x3 * x3 * y3 * y3).
  Proof. cbv zeta. ring. Qed.
  Lemma assoc_y_id x1 y1 x2 y2 x3 y3 : let p12 := 1 + d * x1 * y1 * x2 * y2 in let m12 := 1 - d * x1 * y1 * x2 * y2 in
    let p23 := 1 + d * x2 * y2 * x3 * y3 in let m23 := 1 - d * x2 * y2 * x3 * y3 in
    let nx12 := x1 * y2 + x2 * y1 in let ny12 := y1 * y2 + x1 * x2 in
    let nx23 := x2 * y3 + x3 * y2 in let ny23 := y2 * y3 + x2 * x3 in
    (ny12 * p12 * y3 + nx12 * m12 * x3) * (p23 * m23 - d * nx23 * ny23 * x1 * y1)
    - (y1 * ny23 * p23 + x1 * nx23 * m23) * (p12 * m12 - d * nx12 * ny12 * x3 * y3) =
    (- x1*x2*x2*x2*x2*y2*y2*y2*x3*y3*y3*d*d - x1*x2*x2*x2*x2*y2*x3*y3*y3*d - x1*x2*x2*x2*y2*y2*y2*y2*x3*x3*y3*d*d - x1*x2*x2*x2*y2*y2*y3*y3*y3*d + x1*x2*x2*x2*y2*y2*y3*d + x1*x2*x2*y2*y2*y2*x3*x3*x3*d + x1*x2*x2*y2*y2*y2*x3*d + x1*x2*y2*y2*y2*y2*x3*x3*y3*d + y1*x2*x2*x2*x2*y2*y2*y2*x3*x3*y3*d*d + y1*x2*x2*x2*x2*y2*x3*x3*y3*d + y1*x2*x2*x2*y2*y2*y2*y2*x3*y3*y3*d*d + y1*x2*x2*x2*y2*y2*x3*x3*x3*d + y1*x2*x2*x2*y2*y2*x3*d - y1*x2*x2*y2*y2*y2*y3*y3*y3*d + y1*x2*x2*y2*y2*y2*y3*d - y1*x2*y2*y2*y2*y2*x3*y3*y3*d) * (x1 * x1 - y1 * y1 + 1 + d * x1 * x1 * y1 * y1) +
    (x1*x1*x1*x2*x2*y2*x3*y3*y3*d + x1*x1*x1*x2*y2*y2*x3*x3*y3*d - x1*x1*x1*x2*x3*x3*y3*y3*y3*d - x1*x1*x1*x2*x3*x3*y3 + x1*x1*x1*x2*y3*y3*y3 - x1*x1*x1*x2*y3 - x1*x1*x1*y2*x3*x3*x3*y3*y3*d - x1*x1*x1*y2*x3*x3*x3 + x1*x1*x1*y2*x3*y3*y3 - x1*x1*x1*y2*x3 - x1*x1*y1*x2*x2*y2*x3*x3*y3*y3*y3*d*d - x1*x1*y1*x2*x2*y2*x3*x3*y3*d + x1*x1*y1*x2*y2*y2*x3*x3*x3*y3*y3*d*d - x1*x1*y1*x2*y2*y2*x3*y3*y3*d - x1*x1*y1*x2*x3*x3*x3*y3*y3*d - x1*x1*y1*x2*x3*x3*x3 + x1*x1*y1*x2*x3*y3*y3 - x1*x1*y1*x2*x3 - x1*x1*y1*y2*x3*x3*y3*y3*y3*d - x1*x1*y1*y2*x3*x3*y3 + x1*x1*y1*y2*y3*y3*y3 - x1*x1*y1*y2*y3 + x1*y1*y1*x2*x2*y2*x3*x3*x3*y3*y3*d*d - x1*y1*y1*x2*x2*y2*x3*y3*y3*d - x1*y1*y1*x2*y2*y2*x3*x3*y3*y3*y3*d*d - x1*y1*y1*x2*y2*y2*x3*x3*y3*d + x1*y1*y1*x2*x3*x3*y3*y3*y3*d + x1*y1*y1*x2*x3*x3*y3 - x1*y1*y1*x2*y3*y3*y3 + x1*y1*y1*x2*y3 + x1*y1*y1*y2*x3*x3*x3*y3*y3*d + x1*y1*y1*y2*x3*x3*x3 - x1*y1*y1*y2*x3*y3*y3 + x1*y1*y1*y2*x3 + x1*x2*x2*y2*x3*y3*y3*d + x1*x2*y2*y2*x3*x3*y3*d - x1*x2*x3*x3*y3*y3*y3*d - x1*x2*x3*x3*y3 + x1*x2*y3*y3*y3 - x1*x2*y3 - x1*y2*x3*x3*x3*y3*y3*d - x1*y2*x3*x3*x3 + x1*y2*x3*y3*y3 - x1*y2*x3 + y1*y1*y1*x2*x2*y2*x3*x3*y3*d + y1*y1*y1*x2*y2*y2*x3*y3*y3*d + y1*y1*y1*x2*x3*x3*x3*y3*y3*d + y1*y1*y1*x2*x3*x3*x3 - y1*y1*y1*x2*x3*y3*y3 + y1*y1*y1*x2*x3 + y1*y1*y1*y2*x3*x3*y3*y3*y3*d + y1*y1*y1*y2*x3*x3*y3 - y1*y1*y1*y2*y3*y3*y3 + y1*y1*y1*y2*y3 - y1*x2*x2*y2*x3*x3*y3*d - y1*x2*y2*y2*x3*y3*y3*d - y1*x2*x3*x3*x3*y3*y3*d - y1*x2*x3*x3*x3 + y1*x2*x3*y3*y3 - y1*x2*x3 - y1*y2*x3*x3*y3*y3*y3*d - y1*y2*x3*x3*y3 + y1*y2*y3*y3*y3 - y1*y2*y3) * (x2 * x2 - y2 * y2 + 1 + d * x2 * x2 * y2 * y2) +
    (x1*x1*x1*x2*x2*x2*y3 + x1*x1*x1*x2*x2*y2*x3 - x1*x1*x1*x2*y2*y2*y3 + x1*x1*x1*x2*y3 - x1*x1*x1*y2*y2*y2*x3 + x1*x1*x1*y2*x3 + x1*x1*y1*x2*x2*x2*x3 + x1*x1*y1*x2*x2*y2*y3*d + x1*x1*y1*x2*x2*y2*y3 - x1*x1*y1*x2*y2*y2*x3*d - x1*x1*y1*x2*y2*y2*x3 + x1*x1*y1*x2*x3 - x1*x1*y1*y2*y2*y2*y3 + x1*x1*y1*y2*y3 - x1*y1*y1*x2*x2*x2*y3 - x1*y1*y1*x2*x2*y2*x3*d - x1*y1*y1*x2*x2*y2*x3 + x1*y1*y1*x2*y2*y2*y3*d + x1*y1*y1*x2*y2*y2*y3 - x1*y1*y1*x2*y3 + x1*y1*y1*y2*y2*y2*x3 - x1*y1*y1*y2*x3 + x1*x2*x2*x2*y3 + x1*x2*x2*y2*x3 - x1*x2*y2*y2*y3 + x1*x2*y3 - x1*y2*y2*y2*x3 + x1*y2*x3 - y1*y1*y1*x2*x2*x2*x3 - y1*y1*y1*x2*x2*y2*y3 + y1*y1*y1*x2*y2*y2*x3 - y1*y1*y1*x2*x3 + y1*y1*y1*y2*y2*y2*y3 - y1*y1*y1*y2*y3 + y1*x2*x2*x2*x3 + y1*x2*x2*y2*y3 - y1*x2*y2*y2*x3 + y1*x2*x3 - y1*y2*y2*y2*y3 + y1*y2*y3) * (x3 * x3 - y3 * y3 + 1 + d * x3 * x3 * y3 * y3).
  Proof. cbv zeta. ring. Qed.
  Lemma add_assoc P Q R : on P -> on Q -> on R -> eadd (eadd P Q) R = eadd P (eadd Q R).
  Proof.
    intros HP HQ HR. pose proof (on_add P Q HP HQ) as HPQ. pose proof (on_add Q R HQ HR) as HQR.
    destruct P as [x1 y1], Q as [x2 y2], R as [x3 y3]. cbn [eadd] in HPQ, HQR.
    pose proof (complete_plus _ _ _ _ HP HQ) as Hp12. pose proof (complete_minus _ _ _ _ HP HQ) as Hm12.
    pose proof (complete_plus _ _ _ _ HQ HR) as Hp23. pose proof (complete_minus _ _ _ _ HQ HR) as Hm23.
    pose proof (complete_plus _ _ _ _ HPQ HR) as Hpl. pose proof (complete_minus _ _ _ _ HPQ HR) as Hml.
    pose proof (complete_plus _ _ _ _ HP HQR) as Hpr. pose proof (complete_minus _ _ _ _ HP HQR) as Hmr.
    pose proof (assoc_x_id x1 y1 x2 y2 x3 y3) as KX. pose proof (assoc_y_id x1 y1 x2 y2 x3 y3) as KY. cbv zeta in KX, KY.
    cbn [on] in HP, HQ, HR. rewrite HP, HQ, HR in KX, KY. clear HPQ HQR HP HQ HR.
    cbn [eadd]. set (p12 := 1 + d * x1 * y1 * x2 * y2) in *. set (m12 := 1 - d * x1 * y1 * x2 * y2) in *.
    set (p23 := 1 + d * x2 * y2 * x3 * y3) in *. set (m23 := 1 - d * x2 * y2 * x3 * y3) in *.
    set (nx12 := x1 * y2 + x2 * y1) in *. set (ny12 := y1 * y2 + x1 * x2) in *.
    set (nx23 := x2 * y3 + x3 * y2) in *. set (ny23 := y2 * y3 + x2 * x3) in *. clearbody p12 m12 p23 m23 nx12 ny12 nx23 ny23.
    f_equal; apply div_eq; try assumption.
    - transitivity (((nx12 * m12 * y3 + x3 * ny12 * p12) * (p23 * m23 + d * nx23 * ny23 * x1 * y1)
        - (x1 * ny23 * p23 + nx23 * m23 * y1) * (p12 * m12 + d * nx12 * ny12 * x3 * y3)) / (p12 * m12 * p23 * m23)).
      + field. repeat split; assumption.
      + rewrite KX. field. repeat split; assumption.
    - transitivity (((ny12 * p12 * y3 + nx12 * m12 * x3) * (p23 * m23 - d * nx23 * ny23 * x1 * y1)
        - (y1 * ny23 * p23 + x1 * nx23 * m23) * (p12 * m12 - d * nx12 * ny12 * x3 * y3)) / (p12 * m12 * p23 * m23)).
      + field. repeat split; assumption.
      + rewrite KY. field. repeat split; assumption.
  Qed.
  Lemma add_comm P Q : eadd P Q = eadd Q P.
  Proof. destruct P as [x1 y1], Q as [x2 y2]. cbn [eadd]. f_equal; f_equal; ring. Qed.
  Lemma add_zero P : eadd ezero P = P.
  Proof. destruct P as [x y]. cbn [eadd ezero]. f_equal; field; intros E; apply (F_1_neq_0 FT); rewrite <- E; ring. Qed.
  Lemma add_neg P : on P -> eadd P (eneg P) = ezero.
  Proof.
    destruct P as [x y]. intros H. pose proof (complete_plus _ _ _ _ H (on_neg _ H)) as Hp. pose proof (complete_minus _ _ _ _ H (on_neg _ H)) as Hm.
    cbn [eneg fst snd] in Hp, Hm. unfold eneg, eadd, ezero. cbn [fst snd]. cbn [on] in H. f_equal.
    - transitivity (0 / (1 + d * x * y * - x * y)); [f_equal; ring | field; exact Hp].
    - assert (y * y + x * - x = 1 - d * x * y * - x * y) as E. { apply sub_zero. transitivity (- (x * x - y * y + 1 + d * x * x * y * y)); [ring|]. rewrite H. ring. }
      rewrite E. field. exact Hm.
  Qed.

  (** Extended coordinates. *)
  Definition ext_point : Type := F * F * F * F.
  Definition rep (E : ext_point) (P : F * F) : Prop :=
    let '(X, Y, Z, T) := E in let (x, y) := P in Z <> 0 /\ X = x * Z /\ Y = y * Z /\ T = x * y * Z.
  Definition ext_add (E1 E2 : ext_point) : ext_point :=
    let '(X1, Y1, Z1, T1) := E1 in let '(X2, Y2, Z2, T2) := E2 in
    let a := (Y1 - X1) * (Y2 - X2) in let b := (Y1 + X1) * (Y2 + X2) in
    let c := T1 * ((1 + 1) * d) * T2 in let dd := (Z1 * Z2) + (Z1 * Z2) in
    let e := b - a in let f := dd - c in let g := dd + c in let h := b + a in
    (e * f, g * h, f * g, e * h).
  Definition ext_dbl (E1 : ext_point) : ext_point :=
    let '(X, Y, Z, _) := E1 in
    let a := X * X in let b := Y * Y in let c := Z * Z + Z * Z in
    let e := (X + Y) * (X + Y) - a - b in let g := b - a in let f := g - c in let h := - a - b in
    (e * f, g * h, f * g, e * h).
  Definition ext_neg (E1 : ext_point) : ext_point := let '(X, Y, Z, T) := E1 in (- X, Y, Z, - T).

  Lemma rep_add E1 E2 P Q : on P -> on Q -> rep E1 P -> rep E2 Q -> rep (ext_add E1 E2) (eadd P Q).
  Proof.
    destruct E1 as [[[X1 Y1] Z1] T1], E2 as [[[X2 Y2] Z2] T2], P as [x1 y1], Q as [x2 y2]. intros HP HQ.
    pose proof (complete_plus _ _ _ _ HP HQ) as Hp. pose proof (complete_minus _ _ _ _ HP HQ) as Hm. clear HP HQ.
    cbn [rep ext_add eadd]. intros (HZ1 & -> & -> & ->) (HZ2 & -> & -> & ->).
    assert (Z1 * Z2 <> 0) as HZ by (apply mul_nonzero; assumption).
    assert ((1 + 1) * (Z1 * Z2) <> 0) as HZZ by (apply mul_nonzero; assumption).
    set (w := d * x1 * y1 * x2 * y2) in *.
    assert (Z1 * Z2 + Z1 * Z2 - x1 * y1 * Z1 * ((1 + 1) * d) * (x2 * y2 * Z2) = (1 + 1) * (Z1 * Z2) * (1 - w)) as -> by (unfold w; ring).
    assert (Z1 * Z2 + Z1 * Z2 + x1 * y1 * Z1 * ((1 + 1) * d) * (x2 * y2 * Z2) = (1 + 1) * (Z1 * Z2) * (1 + w)) as -> by (unfold w; ring).
    clearbody w. repeat split.
    - apply mul_nonzero; apply mul_nonzero; assumption.
    - field. exact Hp.
    - field. exact Hm.
    - field. split; assumption.
  Qed.
  Lemma rep_dbl E1 P : on P -> rep E1 P -> rep (ext_dbl E1) (eadd P P).
  Proof.
    destruct E1 as [[[X1 Y1] Z1] T1], P as [x y]. intros HP.
    pose proof (complete_plus _ _ _ _ HP HP) as Hp. pose proof (complete_minus _ _ _ _ HP HP) as Hm.
    cbn [rep ext_dbl eadd]. intros (HZ & -> & -> & ->). cbn [on] in HP.
    assert (y * y - x * x = 1 + d * x * y * x * y) as E. { apply sub_zero. transitivity (- (x * x - y * y + 1 + d * x * x * y * y)); [ring|]. rewrite HP. ring. }
    set (w := d * x * y * x * y) in *.
    assert (y * Z1 * (y * Z1) - x * Z1 * (x * Z1) = Z1 * Z1 * (1 + w)) as EG by (rewrite <- E; ring).
    rewrite EG. assert (Z1 * Z1 * (1 + w) - (Z1 * Z1 + Z1 * Z1) = - (Z1 * Z1 * (1 - w))) as -> by ring.
    clear EG E HP. clearbody w. repeat split.
    - replace (- (Z1 * Z1 * (1 - w)) * (Z1 * Z1 * (1 + w))) with (- (1) * (Z1 * Z1 * (1 - w) * (Z1 * Z1 * (1 + w)))) by ring.
      apply mul_nonzero.
      + intros E. apply (F_1_neq_0 FT). transitivity (- - (1)); [ring|]. rewrite E. ring.
      + apply mul_nonzero; apply mul_nonzero; try assumption; apply mul_nonzero; assumption.
    - field. exact Hp.
    - field. exact Hm.
    - field. split; assumption.
  Qed.
  Lemma rep_neg E1 P : rep E1 P -> rep (ext_neg E1) (eneg P).
  Proof. destruct E1 as [[[X1 Y1] Z1] T1], P as [x y]. cbn. intros (HZ & -> & -> & ->). repeat split; [exact HZ | ring | ring]. Qed.
  Lemma rep_affine P : rep (fst P, snd P, 1, fst P * snd P) P.
  Proof. destruct P as [x y]. cbn. repeat split; [apply (F_1_neq_0 FT) | ring | ring | ring]. Qed.
  Lemma rep_zero_iff E1 P : rep E1 P -> (let '(X, Y, Z, _) := E1 in X = 0 /\ Y = Z) <-> P = ezero.
  Proof.
    destruct E1 as [[[X1 Y1] Z1] T1], P as [x y]. cbn. intros (HZ & -> & -> & _). unfold ezero. split.
    - intros [E1 E2]. f_equal.
      + apply mul_zero in E1 as [E1|E1]; [exact E1 | contradiction].
      + replace y with (y * Z1 / Z1) by (field; exact HZ). rewrite E2. field. exact HZ.
    - intros E. injection E as -> ->. split; ring.
  Qed.
End Edwards.
