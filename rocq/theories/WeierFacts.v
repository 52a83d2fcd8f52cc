(** The addition law of the curve y^2 = x^3 + a x + b over a field in which 1 + 1 is not zero and the cubic has
    no root: a commutative group without points of order two. *)
From Coq Require Import Ring Field List.
Import ListNotations.

Section Weierstrass.
  Variables (F : Type) (zero one : F) (add mul sub : F -> F -> F) (opp : F -> F) (div : F -> F -> F) (inv : F -> F).
  Hypothesis FT : field_theory zero one add mul sub opp div inv eq.
  Hypothesis dec : forall x y : F, {x = y} + {x <> y}.
  Declare Scope we_scope.
  Local Open Scope we_scope.
  Local Notation "0" := zero : we_scope.
  Local Notation "1" := one : we_scope.
  Local Infix "+" := add : we_scope.
  Local Infix "*" := mul : we_scope.
  Local Infix "-" := sub : we_scope.
  Local Infix "/" := div : we_scope.
  Local Notation "- x" := (opp x) : we_scope.
  Add Field we_field : FT.
  Variables a b : F.
  Hypothesis H2 : 1 + 1 <> 0.
  Hypothesis Hroot : forall x, x * x * x + a * x + b <> 0.

  Lemma we_mul_zero u v : u * v = 0 -> u = 0 \/ v = 0.
  Proof.
    intros E. destruct (dec u 0) as [Ha|Ha]; [left; exact Ha|]. right.
    replace v with (inv u * (u * v)) by (field; exact Ha). rewrite E. ring.
  Qed.
  Lemma we_sub_zero u v : u - v = 0 -> u = v.
  Proof. intros E. replace u with (u - v + v) by ring. rewrite E. ring. Qed.
  Lemma we_zero_sub u v : u = v -> u - v = 0.
  Proof. intros ->. ring. Qed.
  Lemma we_cancel u v w : w <> 0 -> w * u = w * v -> u = v.
  Proof.
    intros Hw E. apply we_sub_zero. destruct (we_mul_zero w (u - v)) as [H|H]; [|contradiction | exact H].
    replace (w * (u - v)) with (w * u - w * v) by ring. rewrite E. ring.
  Qed.

  Definition wpt : Type := option (F * F).
  Definition won (P : wpt) : Prop := match P with None => True | Some (x, y) => y * y = x * x * x + a * x + b end.
  Definition wneg (P : wpt) : wpt := match P with None => None | Some (x, y) => Some (x, - y) end.
  Definition third (l x1 y1 x2 : F) : wpt := let x3 := l * l - x1 - x2 in Some (x3, l * (x1 - x3) - y1).
  Definition wadd (P Q : wpt) : wpt :=
    match P, Q with
    | None, _ => Q
    | _, None => P
    | Some (x1, y1), Some (x2, y2) =>
        if dec x1 x2 then
          if dec y1 y2 then third (((1 + 1 + 1) * x1 * x1 + a) / ((1 + 1) * y1)) x1 y1 x2 else None
        else third ((y2 - y1) / (x2 - x1)) x1 y1 x2
    end.

  Lemma y_nonzero x y : won (Some (x, y)) -> y <> 0.
  Proof. cbn [won]. intros H E. apply (Hroot x). rewrite <- H, E. ring. Qed.
  Lemma twice_nonzero y : y <> 0 -> y + y <> 0.
  Proof. intros Hy E. apply Hy. destruct (we_mul_zero (1 + 1) y) as [H|H]; [|contradiction | exact H]. replace ((1 + 1) * y) with (y + y) by ring. exact E. Qed.

  (** The slope of the line through two points, or of the tangent. *)
  Definition slope (l x1 y1 x2 y2 : F) : Prop :=
    y1 - y2 = l * (x1 - x2) /\ l * (y1 + y2) = x1 * x1 + x1 * x2 + x2 * x2 + a.
  Definition opposed (x1 y1 x2 y2 : F) : Prop := x1 = x2 /\ y1 = - y2.

  Lemma same_x x y1 y2 : won (Some (x, y1)) -> won (Some (x, y2)) -> y1 = y2 \/ y1 = - y2.
  Proof.
    cbn [won]. intros H1 H3. destruct (we_mul_zero (y1 - y2) (y1 + y2)) as [E|E].
    - replace ((y1 - y2) * (y1 + y2)) with (y1 * y1 - y2 * y2) by ring. rewrite H1, H3. ring.
    - left. apply we_sub_zero, E.
    - right. apply we_sub_zero. rewrite <- E. ring.
  Qed.
  Lemma slope_exists x1 y1 x2 y2 : won (Some (x1, y1)) -> won (Some (x2, y2)) -> ~ opposed x1 y1 x2 y2 -> exists l, slope l x1 y1 x2 y2.
  Proof.
    intros H1 H3 Ho. destruct (dec x1 x2) as [<-|Hx].
    - destruct (same_x x1 y1 y2 H1 H3) as [<-|E]; [|destruct (Ho (conj eq_refl E))].
      pose proof (twice_nonzero y1 (y_nonzero x1 y1 H1)) as Hy.
      exists ((x1 * x1 + x1 * x1 + x1 * x1 + a) / (y1 + y1)). split; [ring | field; exact Hy].
    - assert (x1 - x2 <> 0) as Hd by (intros E; apply Hx, we_sub_zero, E).
      exists ((y1 - y2) / (x1 - x2)). split; [field; exact Hd|]. cbn [won] in H1, H3.
      apply (we_cancel _ _ (x1 - x2) Hd). replace ((x1 - x2) * ((y1 - y2) / (x1 - x2) * (y1 + y2))) with (y1 * y1 - y2 * y2) by (field; exact Hd).
      rewrite H1, H3. ring.
  Qed.
  Lemma slope_unique l l' x1 y1 x2 y2 : won (Some (x1, y1)) -> won (Some (x2, y2)) -> ~ opposed x1 y1 x2 y2 ->
    slope l x1 y1 x2 y2 -> slope l' x1 y1 x2 y2 -> l = l'.
  Proof.
    intros H1 H3 Ho [E1 E2] [E1' E2']. destruct (dec x1 x2) as [<-|Hx].
    - destruct (same_x x1 y1 y2 H1 H3) as [<-|E]; [|destruct (Ho (conj eq_refl E))].
      apply (we_cancel _ _ (y1 + y1) (twice_nonzero y1 (y_nonzero x1 y1 H1))).
      replace ((y1 + y1) * l) with (l * (y1 + y1)) by ring. replace ((y1 + y1) * l') with (l' * (y1 + y1)) by ring. rewrite E2, E2'. reflexivity.
    - assert (x1 - x2 <> 0) as Hd by (intros E; apply Hx, we_sub_zero, E). apply (we_cancel _ _ (x1 - x2) Hd).
      replace ((x1 - x2) * l) with (l * (x1 - x2)) by ring. replace ((x1 - x2) * l') with (l' * (x1 - x2)) by ring. rewrite <- E1, <- E1'. reflexivity.
  Qed.
  Lemma slope_sym l x1 y1 x2 y2 : slope l x1 y1 x2 y2 -> slope l x2 y2 x1 y1.
  Proof.
    intros [E1 E2]. split.
    - replace (y2 - y1) with (- (y1 - y2)) by ring. rewrite E1. ring.
    - replace (y2 + y1) with (y1 + y2) by ring. rewrite E2. ring.
  Qed.

  (** The sum by the slope. *)
  Lemma wadd_slope l x1 y1 x2 y2 : won (Some (x1, y1)) -> won (Some (x2, y2)) -> ~ opposed x1 y1 x2 y2 ->
    slope l x1 y1 x2 y2 -> wadd (Some (x1, y1)) (Some (x2, y2)) = third l x1 y1 x2.
  Proof.
    intros H1 H3 Ho HS. cbn [wadd]. destruct (dec x1 x2) as [Hx|Hx].
    - destruct (dec y1 y2) as [Hy|Hy].
      + f_equal. subst x2 y2. destruct HS as [_ HS]. pose proof (twice_nonzero y1 (y_nonzero x1 y1 H1)) as Hn.
        apply (we_cancel _ _ (y1 + y1) Hn). replace ((y1 + y1) * l) with (l * (y1 + y1)) by ring. rewrite HS.
        field. split; [exact (y_nonzero x1 y1 H1) | exact H2].
      + subst x2. destruct (same_x x1 y1 y2 H1 H3) as [E|E]; [contradiction|]. destruct (Ho (conj eq_refl E)).
    - f_equal. destruct HS as [HS _]. assert (x2 - x1 <> 0) as Hd by (intros E; apply Hx; symmetry; apply we_sub_zero, E).
      apply (we_cancel _ _ (x2 - x1) Hd). replace ((x2 - x1) * l) with (- (l * (x1 - x2))) by ring. rewrite <- HS. field. exact Hd.
  Qed.
  Lemma wadd_opposed x1 y1 x2 y2 : won (Some (x1, y1)) -> opposed x1 y1 x2 y2 -> wadd (Some (x1, y1)) (Some (x2, y2)) = None.
  Proof.
    intros H1 [-> ->]. cbn [wadd]. destruct (dec x2 x2) as [_|E]; [|destruct (E eq_refl)].
    destruct (dec (- y2) y2) as [E|_]; [|reflexivity]. exfalso. apply (y_nonzero _ _ H1). 
    destruct (we_mul_zero (1 + 1) y2) as [H|H]; [|contradiction | rewrite H; ring].
    replace ((1 + 1) * y2) with (y2 - - y2) by ring. rewrite E. ring.
  Qed.
  Lemma opposed_dec x1 y1 x2 y2 : {opposed x1 y1 x2 y2} + {~ opposed x1 y1 x2 y2}.
  Proof.
    unfold opposed. destruct (dec x1 x2) as [E|E]; [|right; intros [K _]; exact (E K)].
    destruct (dec y1 (- y2)) as [E'|E']; [left; split; assumption | right; intros [_ K]; exact (E' K)].
  Qed.
  Lemma opposed_sym x1 y1 x2 y2 : opposed x1 y1 x2 y2 -> opposed x2 y2 x1 y1.
  Proof. intros [-> ->]. split; [reflexivity | ring]. Qed.
  Lemma third_sym l x1 y1 x2 y2 : slope l x1 y1 x2 y2 -> third l x1 y1 x2 = third l x2 y2 x1.
  Proof.
    intros [E _]. unfold third. do 2 f_equal; [ring|]. apply we_sub_zero.
    transitivity (l * (x1 - x2) - (y1 - y2)); [ring|]. rewrite E. ring.
  Qed.

  Lemma third_on l x1 y1 x2 y2 : won (Some (x1, y1)) -> slope l x1 y1 x2 y2 -> won (third l x1 y1 x2).
  Proof.
    cbn [won third]. intros H1 [E1 E2]. apply we_sub_zero.
    assert (y2 = y1 - l * (x1 - x2)) as ->. { apply we_sub_zero. transitivity (l * (x1 - x2) - (y1 - y2)); [ring|]. rewrite E1. ring. }
    assert (a = l * (y1 + (y1 - l * (x1 - x2))) - (x1 * x1 + x1 * x2 + x2 * x2)) as Ea by (rewrite E2; ring).
    assert (b = y1 * y1 - x1 * x1 * x1 - a * x1) as Eb by (rewrite H1; ring). rewrite Eb, Ea. ring.
  Qed.
  Lemma wadd_on P Q : won P -> won Q -> won (wadd P Q).
  Proof.
    destruct P as [[x1 y1]|]; [|intros _ H; exact H]. destruct Q as [[x2 y2]|]; [|intros H _; exact H]. intros H1 H3.
    destruct (opposed_dec x1 y1 x2 y2) as [Ho|Ho]; [rewrite wadd_opposed by assumption; exact I|].
    destruct (slope_exists _ _ _ _ H1 H3 Ho) as [l HS]. rewrite (wadd_slope l) by assumption. apply third_on with y2; assumption.
  Qed.
  Lemma wneg_on P : won P -> won (wneg P).
  Proof. destruct P as [[x y]|]; [|exact (fun H => H)]. cbn [won wneg]. intros H. rewrite <- H. ring. Qed.
  Lemma wadd_comm P Q : won P -> won Q -> wadd P Q = wadd Q P.
  Proof.
    destruct P as [[x1 y1]|]; destruct Q as [[x2 y2]|]; try reflexivity. intros H1 H3.
    destruct (opposed_dec x1 y1 x2 y2) as [Ho|Ho].
    - rewrite wadd_opposed, wadd_opposed; [reflexivity | assumption | apply opposed_sym, Ho | assumption | assumption].
    - destruct (slope_exists _ _ _ _ H1 H3 Ho) as [l HS]. rewrite (wadd_slope l) by assumption.
      rewrite (wadd_slope l x2 y2 x1 y1); [apply third_sym with (1 := HS) | assumption | assumption | intros K; apply Ho, opposed_sym, K | apply slope_sym, HS].
  Qed.
  Lemma wadd_neg P : won P -> wadd P (wneg P) = None.
  Proof. destruct P as [[x y]|]; [|reflexivity]. intros H. cbn [wneg]. apply wadd_opposed; [exact H|]. split; [reflexivity | ring]. Qed.
  Lemma wadd_none P Q : won P -> won Q -> wadd P Q = None -> Q = wneg P.
  Proof.
    destruct P as [[x1 y1]|]; destruct Q as [[x2 y2]|]; cbn [wneg]; intros H1 H3 E; try discriminate; try reflexivity.
    destruct (opposed_dec x1 y1 x2 y2) as [[-> ->]|Ho]; [do 2 f_equal; ring|].
    destruct (slope_exists _ _ _ _ H1 H3 Ho) as [l HS]. rewrite (wadd_slope l) in E by assumption. discriminate E.
  Qed.
  Lemma wneg_neg P : wneg (wneg P) = P.
  Proof. destruct P as [[x y]|]; [|reflexivity]. cbn [wneg]. do 2 f_equal. ring. Qed.

  (** Three points on a line, whatever the order. *)
  Lemma turn P Q R : won P -> won Q -> won R -> wadd P Q = wneg R -> wadd Q R = wneg P.
  Proof.
    intros HP HQ HR. destruct P as [[x1 y1]|].
    2:{ cbn [wadd]. intros ->. cbn [wneg]. rewrite <- (wneg_neg R) at 2. rewrite wadd_neg; [reflexivity|]. apply wneg_on, HR. }
    destruct Q as [[x2 y2]|].
    2:{ cbn [wadd]. intros E. rewrite E, wneg_neg. reflexivity. }
    destruct R as [[x3 y3]|].
    2:{ cbn [wneg]. intros E. rewrite wadd_comm by assumption. cbn [wadd]. apply wadd_none in E; assumption. }
    cbn [wneg]. intros E. destruct (opposed_dec x1 y1 x2 y2) as [Ho|Ho]; [rewrite wadd_opposed in E by assumption; discriminate|].
    destruct (slope_exists _ _ _ _ HP HQ Ho) as [l HS]. rewrite (wadd_slope l) in E by assumption. unfold third in E.
    assert (x3 = l * l - x1 - x2) as Ex by congruence. assert (l * (x1 - (l * l - x1 - x2)) - y1 = - y3) as Ey by congruence. rewrite <- Ex in Ey. clear E.
    assert (y1 = y2 + l * (x1 - x2)) as E1. { destruct HS as [HS _]. rewrite <- HS. ring. }
    assert (slope l x2 y2 x3 y3) as HS'.
    { destruct HS as [_ HS]. assert (y3 = y1 - l * (x1 - x3)) as E3. { apply we_sub_zero. transitivity (l * (x1 - x3) - y1 - - y3); [ring|]. rewrite Ey. ring. }
      split; rewrite E3.
      - rewrite E1. ring.
      - replace (y2 + (y1 - l * (x1 - x3))) with (y1 + y2 - l * (x1 - x3)) by ring. 
        replace (l * (y1 + y2 - l * (x1 - x3))) with (l * (y1 + y2) - l * l * (x1 - x3)) by ring. rewrite HS.
        replace (l * l) with (x3 + x1 + x2) by (rewrite Ex; ring). ring. }
    destruct (opposed_dec x2 y2 x3 y3) as [[K1 K2]|Ho'].
    - exfalso. rewrite <- K1 in *. assert (y3 = - y2) as -> by (rewrite K2; ring).
      assert (y2 + y2 = 0). { destruct HS' as [HS' _]. transitivity (y2 - - y2); [ring|]. rewrite HS'. ring. }
      exact (twice_nonzero y2 (y_nonzero _ _ HQ) H).
    - rewrite (wadd_slope l) by assumption. unfold third.
      assert (l * l - x2 - x3 = x1) as -> by (rewrite Ex; ring). do 2 f_equal. rewrite E1. ring.
  Qed.

  (** The generic case. *)
  Lemma assoc_affine x1 y1 x2 y2 x3 y3 l m : won (Some (x1, y1)) -> won (Some (x2, y2)) -> won (Some (x3, y3)) ->
    slope l x1 y1 x2 y2 -> slope m x2 y2 x3 y3 -> l <> m ->
    let S := third l x1 y1 x2 in let T := third m x2 y2 x3 in
    wadd S (Some (x3, y3)) <> None -> wadd (Some (x1, y1)) T <> None -> wadd S (Some (x3, y3)) = wadd (Some (x1, y1)) T.
  Proof.
    intros H1 H3 H5 HS HT Hlm S T. 
    pose proof (third_on _ _ _ _ _ H1 HS) as OS. pose proof (third_on _ _ _ _ _ H3 HT) as OT. fold S in OS. fold T in OT.
    intros NS NT. unfold S, T, third in *. cbv zeta in *.
    destruct HS as [Ea1 Ea2]. destruct HT as [Eb1 Eb2].
    assert (l - m <> 0) as Hd by (intros E; apply Hlm, we_sub_zero, E).
    set (sx := l * l - x1 - x2) in *. set (sy := l * (x1 - sx) - y1) in *. set (tx := m * m - x2 - x3) in *. set (ty := m * (x2 - tx) - y2) in *.
    assert (~ opposed sx sy x3 y3) as OS' by (intros K; apply NS, wadd_opposed; assumption).
    assert (~ opposed x1 y1 tx ty) as OT' by (intros K; apply NT, wadd_opposed; assumption).
    assert (y1 = y2 + l * (x1 - x2)) as Y1 by (rewrite <- Ea1; ring).
    assert (y3 = y2 - m * (x2 - x3)) as Y3 by (rewrite <- Eb1; ring).
    assert (sy = - y2 - l * (sx - x2)) as SY by (unfold sy; rewrite Y1; ring).
    assert (ty = - y2 - m * (tx - x2)) as TY by (unfold ty; ring).
    assert (l * l = sx + x1 + x2) as LL by (unfold sx; ring). assert (m * m = tx + x2 + x3) as MM by (unfold tx; ring).
    (* D = 3 x2^2 + a *)
    assert (l * (y2 + y2) = (x2 * x2 + x2 * x2 + x2 * x2 + a) - (x1 - x2) * (sx - x2)) as D1.
    { transitivity (l * (y1 + y2) - l * l * (x1 - x2)); [rewrite Y1; ring|]. rewrite Ea2, LL. ring. }
    assert (m * (y2 + y2) = (x2 * x2 + x2 * x2 + x2 * x2 + a) - (x3 - x2) * (tx - x2)) as D3.
    { transitivity (m * (y2 + y3) + m * m * (x2 - x3)); [rewrite Y3; ring|]. rewrite Eb2, MM. ring. }
    set (al := - (sx + x3 + x2 - l * m) / (l - m)). set (be := (x1 + tx + x2 - l * m) / (l - m)).
    assert (slope al sx sy x3 y3) as SA.
    { split; apply (we_cancel _ _ (l - m) Hd).
      - replace ((l - m) * (al * (sx - x3))) with (- (sx + x3 + x2 - l * m) * (sx - x3)) by (unfold al; field; exact Hd).
        transitivity (- (l * (y2 + y2)) + m * (y2 + y2) - l * l * (sx - x2) + l * m * (sx - x3) + m * m * (x3 - x2)); [rewrite SY, Y3; ring|].
        rewrite D1, D3, LL, MM. ring.
      - replace ((l - m) * (al * (sy + y3))) with (- (sx + x3 + x2 - l * m) * (sy + y3)) by (unfold al; field; exact Hd).
        transitivity ((sx + x3 + x2) * (l * (sx - x2) - m * (x3 - x2)) - l * l * m * (sx - x2) + l * (m * m) * (x3 - x2)); [rewrite SY, Y3; ring|].
        rewrite LL, MM.
        assert (l * ((x2 * x2 + x2 * x2 + x2 * x2 + a) - (x3 - x2) * (tx - x2)) = m * ((x2 * x2 + x2 * x2 + x2 * x2 + a) - (x1 - x2) * (sx - x2))) as DD by (rewrite <- D1, <- D3; ring).
        apply we_sub_zero. apply we_zero_sub in DD.
        transitivity (- (l * ((x2 * x2 + x2 * x2 + x2 * x2 + a) - (x3 - x2) * (tx - x2)) - m * ((x2 * x2 + x2 * x2 + x2 * x2 + a) - (x1 - x2) * (sx - x2)))); [ring|]. rewrite DD. ring. }
    assert (slope be x1 y1 tx ty) as SB.
    { split; apply (we_cancel _ _ (l - m) Hd).
      - replace ((l - m) * (be * (x1 - tx))) with ((x1 + tx + x2 - l * m) * (x1 - tx)) by (unfold be; field; exact Hd).
        transitivity (l * (y2 + y2) - m * (y2 + y2) + l * l * (x1 - x2) - l * m * (x1 - tx) - m * m * (tx - x2)); [rewrite TY, Y1; ring|].
        rewrite D1, D3, LL, MM. ring.
      - replace ((l - m) * (be * (y1 + ty))) with ((x1 + tx + x2 - l * m) * (y1 + ty)) by (unfold be; field; exact Hd).
        transitivity ((x1 + tx + x2) * (l * (x1 - x2) - m * (tx - x2)) - l * l * m * (x1 - x2) + l * (m * m) * (tx - x2)); [rewrite TY, Y1; ring|].
        rewrite LL, MM.
        assert (l * ((x2 * x2 + x2 * x2 + x2 * x2 + a) - (x3 - x2) * (tx - x2)) = m * ((x2 * x2 + x2 * x2 + x2 * x2 + a) - (x1 - x2) * (sx - x2))) as DD by (rewrite <- D1, <- D3; ring).
        apply we_sub_zero. apply we_zero_sub in DD.
        transitivity (- (l * ((x2 * x2 + x2 * x2 + x2 * x2 + a) - (x3 - x2) * (tx - x2)) - m * ((x2 * x2 + x2 * x2 + x2 * x2 + a) - (x1 - x2) * (sx - x2)))); [ring|]. rewrite DD. ring. }
    rewrite (wadd_slope al sx sy x3 y3 OS H5 OS' SA), (wadd_slope be x1 y1 tx ty H1 OT OT' SB). unfold third.
    assert (al * al - sx - x3 = be * be - x1 - tx) as EX.
    { apply we_sub_zero. apply (we_cancel _ _ ((l - m) * (l - m))).
      - intros E. apply we_mul_zero in E as [E|E]; exact (Hd E).
      - transitivity ((sx + x3 + x2 - l * m) * (sx + x3 + x2 - l * m) - (x1 + tx + x2 - l * m) * (x1 + tx + x2 - l * m) - (l * l - (1 + 1) * l * m + m * m) * (sx + x3 - x1 - tx));
          [unfold al, be; field; exact Hd|]. rewrite LL, MM. ring. }
    do 2 f_equal; [exact EX|]. rewrite <- EX. set (x := al * al - sx - x3).
    (* y: both lines are evaluated at x *)
    assert (x = al * al - sx - x3) as Ex by reflexivity. clearbody x. clear EX.
    assert ((l - m) * al = - (sx + x3 + x2 - l * m)) as EA by (unfold al; field; exact Hd).
    assert ((l - m) * be = x1 + tx + x2 - l * m) as EB by (unfold be; field; exact Hd).
    clearbody al be sx sy tx ty. apply (we_cancel _ _ (l - m) Hd). apply we_sub_zero.
    assert ((l - m) * ((l - m) * x) = (sx + x3 + x2 - l * m) * (sx + x3 + x2 - l * m) - (l * l + m * m - (1 + 1) * (l * m)) * (sx + x3)) as QX.
    { rewrite Ex. transitivity ((l - m) * al * ((l - m) * al) - (l - m) * (l - m) * (sx + x3)); [ring|]. rewrite EA. ring. }
    transitivity ((l - m) * al * (sx - x) - (l - m) * be * (x1 - x) + (l - m) * (y1 - sy)); [ring|]. rewrite EA, EB, SY, Y1.
    transitivity (- (sx + x3 + x2 - l * m) * sx - (x1 + tx + x2 - l * m) * x1 + (sx + x3 + x2 + (x1 + tx + x2) - (1 + 1) * (l * m)) * x
      + (l * (y2 + y2) - m * (y2 + y2)) + (l * l - l * m) * (sx + x1 - x2 - x2)); [ring|].
    assert ((sx + x3 + x2 + (x1 + tx + x2) - (1 + 1) * (l * m)) * x =
      (sx + x3 + x2 - l * m) * (sx + x3 + x2 - l * m) - (l * l + m * m - (1 + 1) * (l * m)) * (sx + x3)) as ->.
    { rewrite <- QX. transitivity ((l * l + m * m - (1 + 1) * (l * m)) * x); [rewrite LL, MM; ring | ring]. }
    rewrite D1, D3.
    assert ((l * m) * (l * m) = (sx + x1 + x2) * (tx + x2 + x3)) as LM by (rewrite <- LL, <- MM; ring).
    rewrite LL, MM. generalize dependent (l * m). intros k _ _ _ LM. clear - FT LM.
    transitivity (k * k - (sx + x1 + x2) * (tx + x2 + x3)); [ring|]. rewrite LM. ring.
  Qed.

  Lemma wneg_add P Q : won P -> won Q -> wadd (wneg P) (wneg Q) = wneg (wadd P Q).
  Proof.
    destruct P as [[x1 y1]|]; [|reflexivity]. destruct Q as [[x2 y2]|]; [|reflexivity]. intros H1 H3.
    destruct (opposed_dec x1 y1 x2 y2) as [Ho|Ho].
    - rewrite (wadd_opposed x1 y1) by assumption. cbn [wneg]. apply wadd_opposed; [exact (wneg_on _ H1)|]. destruct Ho as [-> ->]. split; reflexivity.
    - destruct (slope_exists _ _ _ _ H1 H3 Ho) as [l HS]. rewrite (wadd_slope l x1 y1) by assumption. cbn [wneg].
      rewrite (wadd_slope (- l)).
      + unfold third. cbn [wneg]. do 2 f_equal; ring.
      + exact (wneg_on _ H1).
      + exact (wneg_on _ H3).
      + intros [-> K]. apply Ho. split; [reflexivity|]. replace y1 with (- - y1) by ring. rewrite K. ring.
      + destruct HS as [E1 E2]. split.
        * replace (- y1 - - y2) with (- (y1 - y2)) by ring. rewrite E1. ring.
        * rewrite <- E2. ring.
  Qed.
  Lemma wcancel P R : won P -> won R -> wadd P (wadd (wneg P) R) = R.
  Proof.
    intros HP HR. pose proof (wneg_on P HP) as HP'. pose proof (wadd_on _ _ HP' HR) as HT. set (T := wadd (wneg P) R) in *.
    assert (wadd R (wneg T) = wneg (wneg P)) as E1. { apply turn; [exact HP' | exact HR | apply wneg_on, HT | rewrite wneg_neg; reflexivity]. }
    assert (wadd (wneg T) (wneg P) = wneg R) as E2. { apply turn; [exact HR | apply wneg_on, HT | exact HP' | exact E1]. }
    rewrite wneg_add in E2 by assumption. rewrite wadd_comm by assumption. rewrite <- (wneg_neg (wadd T P)), E2. apply wneg_neg.
  Qed.

  Theorem wadd_assoc P Q R : won P -> won Q -> won R -> wadd (wadd P Q) R = wadd P (wadd Q R).
  Proof.
    intros HP HQ HR. destruct P as [[x1 y1]|]; [|reflexivity]. destruct Q as [[x2 y2]|]; [|reflexivity].
    destruct R as [[x3 y3]|]; [|rewrite (wadd_comm (wadd _ _) None), (wadd_comm (Some (x2, y2)) None) by (auto using wadd_on || exact I); reflexivity].
    destruct (opposed_dec x1 y1 x2 y2) as [Ho|Ho].
    { rewrite (wadd_opposed x1 y1 x2 y2) by assumption. change (wadd None (Some (x3, y3))) with (Some (x3, y3)).
      assert (Some (x2, y2) = wneg (Some (x1, y1))) as ->. { destruct Ho as [-> ->]. cbn [wneg]. do 2 f_equal. ring. }
      symmetry. apply wcancel; assumption. }
    destruct (opposed_dec x2 y2 x3 y3) as [Ho'|Ho'].
    { rewrite (wadd_opposed x2 y2 x3 y3) by assumption.
      assert (Some (x2, y2) = wneg (Some (x3, y3))) as E. { destruct Ho' as [-> ->]. cbn [wneg]. reflexivity. }
      change (wadd (Some (x1, y1)) None) with (Some (x1, y1)).
      rewrite (wadd_comm (Some (x1, y1))) by assumption. rewrite (wadd_comm (wadd _ _)) by (auto using wadd_on).
      rewrite E. apply wcancel; assumption. }
    destruct (slope_exists _ _ _ _ HP HQ Ho) as [l HS]. destruct (slope_exists _ _ _ _ HQ HR Ho') as [m HT].
    pose proof (wadd_slope l _ _ _ _ HP HQ Ho HS) as ES. pose proof (wadd_slope m _ _ _ _ HQ HR Ho' HT) as ET.
    destruct (wadd (wadd (Some (x1, y1)) (Some (x2, y2))) (Some (x3, y3))) as [A|] eqn:EA.
    2:{ apply wadd_none in EA; [|apply wadd_on; assumption | exact HR].
        assert (wadd (Some (x1, y1)) (Some (x2, y2)) = wneg (Some (x3, y3))) as EA' by (rewrite EA, wneg_neg; reflexivity).
        apply turn in EA'; [|assumption..]. rewrite EA'. symmetry. apply wadd_neg, HP. }
    destruct (wadd (Some (x1, y1)) (wadd (Some (x2, y2)) (Some (x3, y3)))) as [A'|] eqn:EA'.
    2:{ apply wadd_none in EA'; [|exact HP | apply wadd_on; assumption].
        apply turn in EA'; [|assumption..]. apply turn in EA'; [|assumption..]. rewrite EA' in EA.
        rewrite wadd_comm, wadd_neg in EA by (auto using wneg_on). discriminate EA. }
    rewrite <- EA, <- EA'. rewrite ES, ET in *. destruct (dec l m) as [<-|Hlm].
    - unfold third in EA'. 
      assert (y1 = y2 + l * (x1 - x2)) as Y1 by (destruct HS as [E _]; rewrite <- E; ring).
      assert (y3 = y2 - l * (x2 - x3)) as Y3 by (destruct HT as [E _]; rewrite <- E; ring).
      destruct HS as [_ E1]. destruct HT as [_ E3].
      destruct (we_mul_zero (x1 - x3) (x1 - (l * l - x2 - x3))) as [E|E].
      + transitivity (l * (y1 + y2) - (x1 * x1 + x1 * x2 + x2 * x2 + a) - (l * (y1 + y2) - (x1 * x1 + x1 * x2 + x2 * x2 + a)) - (l * l * (x1 - x3) - (x1 - x3) * (x1 + x2 + x3))); [ring|].
        assert (l * l * (x1 - x3) = (x1 - x3) * (x1 + x2 + x3)) as K.
        { transitivity (l * (y1 + y2) - l * (y2 + y3)); [rewrite Y1, Y3; ring|]. rewrite E1, E3. ring. }
        rewrite K. ring.
      + apply we_sub_zero in E. subst x3. assert (y3 = y1) as -> by (rewrite Y1, Y3; ring).
        rewrite <- ES, <- ET. rewrite (wadd_comm (wadd _ _)) by (auto using wadd_on). f_equal. apply wadd_comm; assumption.
      + exfalso. apply we_sub_zero in E. rewrite <- E in EA'. rewrite wadd_opposed in EA'; [discriminate EA' | exact HP |].
        split; [reflexivity|]. rewrite Y1. ring.
    - apply (assoc_affine x1 y1 x2 y2 x3 y3 l m); try assumption; [rewrite EA; discriminate | rewrite EA'; discriminate].
  Qed.
End Weierstrass.
