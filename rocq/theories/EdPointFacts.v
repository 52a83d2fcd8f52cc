(** Points: the walk to the order of the base point, the points of SpecEd.v, extended coordinates, and texts of points. *)
From Coq Require Import ZArith.Znumtheory ZArith.Zpow_facts Ring Field.
From Verif Require Import Prelude FastMul OrdFacts Cbor Spec SpecWire SpecCbor SpecEd Ed25519 CborFacts EdwardsFacts EdOrderFacts EdFieldFacts.
Local Open Scope Z_scope.

(* ---------------------------------------------------------------- the base point *)

Lemma cbase_on : con (phi walk_bx, phi walk_by).
Proof. unfold con, on, fd. rewrite <- !phi_mul, <- phi_sub, <- !phi_add. apply phi_eq, walk_on. Qed.
Definition cbase : cpt := mkCpt (phi walk_bx, phi walk_by) cbase_on.

Lemma phi_by_p k : phi (by_p k) = phi 0.
Proof. rewrite by_p_eq, phi_divide, Z.sub_0_r. exists k. reflexivity. Qed.
Lemma one_plus x1 y1 x2 y2 : con (x1, y1) -> con (x2, y2) -> (1 + fd * x1 * y1 * x2 * y2 <> 0)%F.
Proof. exact (complete_plus _ _ _ _ _ _ _ _ _ FF_field FF_dec fd fi fi_square fd_nonsquare f_two x1 y1 x2 y2). Qed.
Lemma one_minus x1 y1 x2 y2 : con (x1, y1) -> con (x2, y2) -> (1 - fd * x1 * y1 * x2 * y2 <> 0)%F.
Proof. exact (complete_minus _ _ _ _ _ _ _ _ _ FF_field FF_dec fd fi fi_square fd_nonsquare f_two x1 y1 x2 y2). Qed.
Lemma fdiv_eq a b c : b <> phi 0 -> (c * b = a)%F -> (a / b = c)%F.
Proof. intros Hb <-. field. exact Hb. Qed.

Lemma dbl_step P x y k0 k1 k2 x' y' : cp P = (phi x, phi y) -> dbl_ok x y k0 k1 k2 x' y' = true -> cp (cadd P P) = (phi x', phi y').
Proof.
  intros E H. pose proof (cp_on P) as Hon. rewrite E in Hon. cbn [cadd cp]. rewrite E. unfold ceadd, eadd.
  pose proof (one_plus _ _ _ _ Hon Hon) as Hp. pose proof (one_minus _ _ _ _ Hon Hon) as Hm.
  unfold con, on in Hon. unfold dbl_ok in H. rewrite !zmul_eq in H. apply andb_true_iff in H as [H1 H2]. apply Z.eqb_eq, (f_equal phi) in H1, H2.
  rewrite !phi_sub, !phi_mul, !phi_sub, !phi_mul, !phi_sub, !phi_add, !phi_by_p in H1.
  rewrite !phi_sub, !phi_mul, !phi_sub, !phi_add, !phi_sub, !phi_mul, !phi_sub, !phi_add, !phi_by_p in H2.
  change 2 with (1 + 1) in H1, H2. rewrite phi_add in H1, H2.
  set (X := phi x) in *. set (Y := phi y) in *.
  assert ((Y - X) * (Y + X) - 0 = 1 + fd * X * Y * X * Y)%F as EG.
  { apply fsub_zero. transitivity (- (X * X - Y * Y + 1 + fd * X * X * Y * Y))%F; [ring|]. rewrite Hon. ring. }
  rewrite EG in H1, H2. apply fsub_zero in H1, H2. f_equal; apply fdiv_eq; try assumption.
  - rewrite H1. ring.
  - transitivity (phi y' * (1 + 1 - (1 + fd * X * Y * X * Y)))%F; [ring|]. rewrite H2, <- EG. ring.
Qed.
Lemma add_step P Q bx c x y k0 k1 k2 k3 x' y' : cp P = (phi x, phi y) -> cp Q = (phi bx, phi walk_by) ->
  phi c = (fd * phi bx * phi walk_by)%F -> add_ok bx c x y k0 k1 k2 k3 x' y' = true -> cp (cadd P Q) = (phi x', phi y').
Proof.
  intros EP EQ Ec H. pose proof (cp_on P) as HP. pose proof (cp_on Q) as HQ. rewrite EP in HP. rewrite EQ in HQ. cbn [cadd cp].
  rewrite EP, EQ. unfold ceadd, eadd. pose proof (one_plus _ _ _ _ HP HQ) as Hp. pose proof (one_minus _ _ _ _ HP HQ) as Hm.
  unfold add_ok in H. rewrite !zmul_eq in H. apply andb_true_iff in H as [H1 H2]. apply Z.eqb_eq, (f_equal phi) in H1, H2.
  assert (phi (c * (x * y - by_p k0) - by_p k1) = (fd * phi x * phi y * phi bx * phi walk_by)%F) as Ew.
  { rewrite phi_sub, phi_mul, phi_sub, phi_mul, !phi_by_p, Ec. ring. }
  rewrite phi_sub, phi_mul, !phi_add, Ew, !phi_mul, phi_by_p in H1.
  rewrite phi_sub, phi_mul, !phi_add, !phi_sub, phi_sub in H2 || rewrite phi_sub, phi_mul, !phi_add, phi_sub in H2.
  rewrite Ew, !phi_mul, phi_by_p in H2.
  apply fsub_zero in H1, H2. f_equal; apply fdiv_eq; try assumption.
Qed.

Lemma walk_sound steps : forall x y n P x' y' n', cp P = (phi x, phi y) -> 1 <= n -> P = ctimes (Z.to_N n) cbase ->
  walk steps x y n = Some (x', y', n') ->
  exists P', cp P' = (phi x', phi y') /\ P' = ctimes (Z.to_N n') cbase.
Proof.
  induction steps as [|s rest IH]; cbn [walk]; intros x y n P x' y' n' HP Hn En H.
  - injection H as <- <- <-. exists P. auto.
  - destruct s as [k0 k1 k2 u v | k0 k1 k2 k3 u v | k0 k1 k2 k3 u v].
    + destruct (dbl_ok x y k0 k1 k2 u v) eqn:Ed; [|discriminate].
      apply (IH u v (2 * n) (cadd P P) x' y' n'); [exact (dbl_step _ _ _ _ _ _ _ _ HP Ed) | lia | | exact H].
      rewrite Z2N.inj_mul, ctimes_mul, <- En by lia. symmetry. exact (ctimes_2 P).
    + destruct (add_ok walk_bx walk_c x y k0 k1 k2 k3 u v) eqn:Ed; [|discriminate].
      apply (IH u v (n + 1) (cadd P cbase) x' y' n'); [ | lia | | exact H].
      * refine (add_step P cbase walk_bx walk_c x y k0 k1 k2 k3 u v HP eq_refl _ Ed). unfold fd. rewrite <- !phi_mul. apply phi_eq, walk_c_eq.
      * rewrite Z2N.inj_add, ctimes_add, <- En by lia. f_equal. symmetry. exact (ctimes_1 cbase).
    + destruct (Z.ltb_spec 1 n) as [Hn1|]; [|discriminate]. cbn [andb] in H.
      destruct (add_ok (- walk_bx) (- walk_c) x y k0 k1 k2 k3 u v) eqn:Ed; [|discriminate].
      apply (IH u v (n - 1) (cadd P (cneg cbase)) x' y' n'); [ | lia | | exact H].
      * refine (add_step P (cneg cbase) (- walk_bx) (- walk_c) x y k0 k1 k2 k3 u v HP _ _ Ed).
        -- cbn [cneg cp eneg cbase fst snd]. rewrite phi_opp. reflexivity.
        -- rewrite !phi_opp. assert (phi walk_c = fd * phi walk_bx * phi walk_by)%F as E.
           { unfold fd. rewrite <- !phi_mul. apply phi_eq, walk_c_eq. }
           rewrite E. ring.
      * replace n with ((n - 1) + 1) in En by lia. rewrite Z2N.inj_add, ctimes_add, (ctimes_1 cbase : ctimes (Z.to_N 1) cbase = cbase) in En by lia.
        rewrite En, cadd_assoc, cadd_neg. apply cadd_0_r.
Qed.
Definition lN : N := Z.to_N ed_l.
Lemma base_order : ctimes lN cbase = czero.
Proof.
  destruct (walk_sound walk_steps walk_bx walk_by 1 cbase 0 1 ed_l eq_refl) as (P & HP & E); [lia | symmetry; exact (ctimes_1 cbase) | exact walk_to_l|].
  unfold lN. rewrite <- E. apply cp_eq. exact HP.
Qed.
Lemma lN_pos : (0 < lN)%N.
Proof. unfold lN. pose proof ed_l_big. assert (0 <= 2 ^ 252) by discriminate. lia. Qed.
Lemma lN_mod n : ctimes (n mod lN) cbase = ctimes n cbase.
Proof. apply ctimes_mod; [pose proof lN_pos; lia | exact base_order]. Qed.

(* ------------------------------------------------------------ the points of SpecEd.v *)

Lemma same_iff a b : same a b <-> phi a = phi b.
Proof. unfold same. rewrite p25519_eq. symmetry. apply phi_divide. Qed.
Definition sp (P : cpt) : Z * Z := (zv (fst (cp P)), zv (snd (cp P))).
Lemma sp_inj P Q : sp P = sp Q -> P = Q.
Proof.
  intros E. unfold sp in E. apply pair_equal_spec in E as [E1 E2]. apply zv_inj in E1, E2. apply cp_eq.
  destruct (cp P), (cp Q). cbn [fst snd] in *. subst. reflexivity.
Qed.
Lemma f_666 : phi 121666 <> phi 0.
Proof. pose proof ed_p_big. intros E. apply phi_small in E; lia. Qed.
Lemma f_one : phi 1 <> phi 0.
Proof. pose proof ed_p_big. intros E. apply phi_small in E; lia. Qed.
Lemma curve_equation X Y :
  (phi 121666 * (Y * Y - X * X) = phi 121666 - phi 121665 * (X * X * Y * Y))%F <-> con (X, Y).
Proof.
  unfold con, on.
  assert (phi 121666 * (X * X - Y * Y + 1 + fd * X * X * Y * Y) =
          - (phi 121666 * (Y * Y - X * X) - (phi 121666 - phi 121665 * (X * X * Y * Y))))%F as E.
  { transitivity (phi 121666 * (X * X - Y * Y + 1) + (phi 121666 * fd) * (X * X * Y * Y))%F; [ring|]. rewrite fd_ratio. ring. }
  split; intros H.
  - apply fzero_sub in H. rewrite H in E. apply (fcancel _ _ _ f_666). rewrite E. ring.
  - apply fsub_zero. rewrite H in E. transitivity (- - (phi 121666 * (Y * Y - X * X) - (phi 121666 - phi 121665 * (X * X * Y * Y))))%F; [ring|].
    rewrite <- E. ring.
Qed.
Lemma curve_point_iff x y : curve_point (x, y) <-> 0 <= x < ed_p /\ 0 <= y < ed_p /\ con (phi x, phi y).
Proof.
  unfold curve_point. rewrite p25519_eq, same_iff, phi_mul, !phi_sub, !phi_mul, curve_equation. reflexivity.
Qed.
Lemma sp_curve P : curve_point (sp P).
Proof.
  unfold sp. apply curve_point_iff. split; [apply zv_range|]. split; [apply zv_range|]. rewrite !phi_zv.
  pose proof (cp_on P) as H. destruct (cp P). exact H.
Qed.
Lemma curve_sp Q : curve_point Q -> exists P, Q = sp P.
Proof.
  destruct Q as [x y]. intros H. apply curve_point_iff in H as (Hx & Hy & H). exists (mkCpt _ H). unfold sp. cbn [cp fst snd].
  rewrite !zv_small by assumption. reflexivity.
Qed.
Lemma sp_zero : sp czero = (0, 1).
Proof. unfold sp. cbn [czero cp ezero fst snd]. pose proof ed_p_big. rewrite !zv_small by lia. reflexivity. Qed.
Lemma curve_sum_iff P Q R : curve_sum (sp P) (sp Q) R <-> R = sp (cadd P Q).
Proof.
  assert (forall R', curve_sum (sp P) (sp Q) (sp R') <-> R' = cadd P Q) as K.
  { intros R'. pose proof (cp_on P) as HP. pose proof (cp_on Q) as HQ. unfold curve_sum. unfold sp at 1 2 3. rewrite !same_iff.
    rewrite !phi_mul, !phi_sub, !phi_add, !phi_mul, !phi_zv.
    assert (cp (cadd P Q) = ceadd (cp P) (cp Q)) as EC by reflexivity.
    destruct (cp P) as [x1 y1] eqn:EP, (cp Q) as [x2 y2] eqn:EQ. cbn [fst snd]. unfold ceadd, eadd in EC.
    pose proof (one_plus _ _ _ _ HP HQ) as Hp. pose proof (one_minus _ _ _ _ HP HQ) as Hm.
    assert (phi 121666 - phi 121665 * (x1 * x2 * y1 * y2) = phi 121666 * (1 + fd * x1 * y1 * x2 * y2))%F as E1.
    { transitivity (phi 121666 + (- phi 121665) * (x1 * x2 * y1 * y2))%F; [ring|]. rewrite <- fd_ratio. ring. }
    assert (phi 121666 + phi 121665 * (x1 * x2 * y1 * y2) = phi 121666 * (1 - fd * x1 * y1 * x2 * y2))%F as E2.
    { transitivity (phi 121666 - (- phi 121665) * (x1 * x2 * y1 * y2))%F; [ring|]. rewrite <- fd_ratio. ring. }
    rewrite E1, E2. split.
    - intros (_ & H1 & H2). apply cp_eq. rewrite EC. destruct (cp R') as [x3 y3]. cbn [fst snd] in *. f_equal; symmetry; apply fdiv_eq; try assumption.
      + apply (fcancel _ _ _ f_666). rewrite <- H1. ring.
      + apply (fcancel _ _ _ f_666). rewrite <- H2. ring.
    - intros ->. split; [apply sp_curve|]. rewrite EC. cbn [fst snd]. split; field; assumption. }
  split.
  - intros H. assert (curve_point R) as HR by (unfold curve_sum in H; destruct (sp P), (sp Q), R; apply H).
    apply curve_sp in HR as [R' ->]. apply K in H as ->. reflexivity.
  - intros ->. apply K. reflexivity.
Qed.
Lemma multiple_iff P n R : multiple (sp P) n R <-> R = sp (ctimes n P).
Proof.
  split.
  - induction 1 as [|n Q R _ IH H]; [symmetry; exact sp_zero|]. rewrite IH in H. apply curve_sum_iff in H. rewrite ctimes_S. exact H.
  - revert R. induction n as [|n IH] using N.peano_ind; intros R ->; [rewrite ctimes_0, sp_zero; constructor|].
    apply (Multiple_S _ _ (sp (ctimes n P))); [apply IH; reflexivity|]. apply curve_sum_iff. rewrite ctimes_S. reflexivity.
Qed.

(** two points with the same second coordinate *)
Lemma denominator y : (fd * (y * y) + 1 <> 0)%F.
Proof.
  intros E. assert (y = phi 0) as Ey.
  { apply (not_square _ _ _ _ _ _ _ _ _ FF_field FF_dec fd fd_nonsquare y fi). fold fmul. rewrite fi_square. apply fsub_zero.
    transitivity (fd * (y * y) + 1)%F; [ring | exact E]. }
  apply f_one. rewrite <- E, Ey. ring.
Qed.
Lemma con_iff x y : con (x, y) <-> ((fd * (y * y) + 1) * (x * x) = y * y - 1)%F.
Proof.
  unfold con, on. split; intros H.
  - apply fsub_zero. rewrite <- H. ring.
  - apply fzero_sub in H. rewrite <- H. ring.
Qed.
Lemma square_roots a b : (a * a = b * b)%F -> a = b \/ a = (- b)%F.
Proof.
  intros E. apply fzero_sub in E. destruct (fzero (a - b) (a + b))%F as [H|H]; [rewrite <- E; ring | left; exact (fsub_zero _ _ H)|].
  right. apply fsub_zero. rewrite <- H. ring.
Qed.
Lemma same_second x x' y : con (x, y) -> con (x', y) -> x' = x \/ x' = (- x)%F.
Proof.
  rewrite !con_iff. intros H H'. apply square_roots. apply (fcancel _ _ _ (denominator y)). rewrite H, H'. reflexivity.
Qed.
Lemma zv_neg x : x <> phi 0 -> zv (- x)%F = ed_p - zv x.
Proof.
  intros Hx. pose proof (zv_range x). assert (zv x <> 0) as H0. { intros E. apply Hx. rewrite <- (phi_zv x), E. reflexivity. }
  rewrite <- (phi_zv x) at 1. rewrite <- phi_opp, zv_phi.
  replace (- zv x) with (ed_p - zv x + (-1) * ed_p) by ring. rewrite Z_mod_plus_full. apply Z.mod_small. lia.
Qed.
Lemma zv_neg_odd x : x <> phi 0 -> Z.odd (zv (- x)%F) = negb (Z.odd (zv x)).
Proof. intros Hx. rewrite zv_neg, Z.odd_sub, ed_p_odd by exact Hx. reflexivity. Qed.
Lemma same_parity x x' y : con (x, y) -> con (x', y) -> Z.odd (zv x) = Z.odd (zv x') -> x' = x.
Proof.
  intros H H' E. destruct (same_second _ _ _ H H') as [K|K]; [exact K|]. destruct (FF_dec x (phi 0)) as [->|Hx]; [rewrite K; ring|].
  rewrite K, (zv_neg_odd x Hx) in E. destruct (Z.odd (zv x)); discriminate.
Qed.
Lemma cbase_sp : sp cbase = (walk_bx, walk_by).
Proof. unfold sp. cbn [cbase cp fst snd]. pose proof walk_range. rewrite !zv_small by lia. reflexivity. Qed.
Lemma base_point_iff P : base_point P <-> P = sp cbase.
Proof.
  unfold base_point. rewrite same_iff. split.
  - intros (H1 & H2 & H3). apply curve_sp in H1 as [Q ->]. f_equal. unfold sp in H2, H3. cbn [fst snd] in H2, H3.
    pose proof (cp_on Q) as HQ. pose proof cbase_on as HB. apply cp_eq. cbn [cbase cp].
    destruct (cp Q) as [x y]. cbn [fst snd] in *. assert (y = phi walk_by) as ->.
    { pose proof ed_p_big. apply (fcancel _ _ (phi 5)); [intros E; apply phi_small in E; lia|].
      rewrite phi_mul, phi_zv in H2. rewrite H2, <- phi_mul. symmetry. apply phi_eq, walk_five. }
    f_equal. apply (same_parity _ _ _ HB HQ). rewrite zv_small by (pose proof walk_range; lia).
    rewrite <- !Z.negb_even, walk_even. apply Z.even_spec in H3. rewrite H3. reflexivity.
  - intros ->. split; [apply sp_curve|]. rewrite cbase_sp. cbn [fst snd]. split; [apply phi_eq, walk_five | apply Z.even_spec, walk_even].
Qed.

(* --------------------------------------------------------------- extended coordinates *)

Definition small (z : Z) : Prop := 0 <= z < ed_p.
Lemma small_mod z : small (z mod ed_p).
Proof. apply Z.mod_pos_bound. pose proof ed_p_big. lia. Qed.
Lemma phi_f_add a b : phi (f_add a b) = (phi a + phi b)%F.
Proof. unfold f_add. rewrite phi_mod. apply phi_add. Qed.
Lemma phi_f_sub a b : phi (f_sub a b) = (phi a - phi b)%F.
Proof. unfold f_sub. rewrite phi_mod. apply phi_sub. Qed.
Lemma phi_f_mul a b : phi (f_mul a b) = (phi a * phi b)%F.
Proof. unfold f_mul. rewrite phi_mod. apply phi_mul. Qed.
Lemma phi_f_neg a : phi (f_neg a) = (- phi a)%F.
Proof. unfold f_neg. rewrite phi_mod. apply phi_opp. Qed.
Definition phi4 (E : ed_point) : FF * FF * FF * FF := let '(X, Y, Z, T) := E in (phi X, phi Y, phi Z, phi T).
Definition small4 (E : ed_point) : Prop := let '(X, Y, Z, T) := E in small X /\ small Y /\ small Z /\ small T.
Definition good (E : ed_point) (P : cpt) : Prop := small4 E /\ rep FF (phi 0) fmul (phi4 E) (cp P).

Lemma good_identity : good ed_identity czero.
Proof.
  pose proof ed_p_big. split; [unfold ed_identity, small4, small; lia|]. unfold ed_identity. cbn [phi4 rep czero cp ezero].
  split; [apply f_one|]. split; [ring|]. split; ring.
Qed.
Lemma good_affine x y t P : small x -> small y -> small t -> cp P = (phi x, phi y) -> phi t = (phi x * phi y)%F -> good (x, y, 1, t) P.
Proof.
  intros Hx Hy Ht EP Et. split; [unfold small4; pose proof ed_p_big; unfold small in *; lia|]. rewrite EP. cbn [phi4 rep]. rewrite Et.
  split; [apply f_one|]. split; [ring|]. split; ring.
Qed.
Lemma good_base : good ed_base cbase.
Proof.
  rewrite ed_base_eq. pose proof walk_range. apply good_affine; [unfold small; lia | unfold small; lia | apply small_mod | reflexivity |].
  rewrite phi_mod. apply phi_mul.
Qed.
Lemma good_add E1 E2 P Q : good E1 P -> good E2 Q -> good (ed_add E1 E2) (cadd P Q).
Proof.
  intros [S1 R1] [S2 R2]. destruct E1 as [[[X1 Y1] Z1] T1], E2 as [[[X2 Y2] Z2] T2]. split.
  - unfold ed_add, small4. repeat split; apply small_mod.
  - pose proof (rep_add _ _ _ _ _ _ _ _ _ FF_field FF_dec fd fi fi_square fd_nonsquare f_two _ _ _ _ (cp_on P) (cp_on Q) R1 R2) as H.
    unfold ed_add. cbn [phi4 ext_add] in *. repeat (rewrite ?phi_f_mul, ?phi_f_add, ?phi_f_sub). exact H.
Qed.
Lemma good_double E P : good E P -> good (ed_double E) (cadd P P).
Proof.
  intros [S1 R1]. destruct E as [[[X1 Y1] Z1] T1]. split.
  - unfold ed_double, small4. repeat split; apply small_mod.
  - pose proof (rep_dbl _ _ _ _ _ _ _ _ _ FF_field FF_dec fd fi fi_square fd_nonsquare f_two _ _ (cp_on P) R1) as H.
    unfold ed_double. cbn [phi4 ext_dbl] in *. repeat (rewrite ?phi_f_mul, ?phi_f_add, ?phi_f_sub, ?phi_f_neg). exact H.
Qed.
Lemma good_neg E P : good E P -> good (ed_neg E) (cneg P).
Proof.
  intros [S1 R1]. destruct E as [[[X1 Y1] Z1] T1]. split.
  - unfold ed_neg, small4 in *. repeat split; try apply small_mod; apply S1.
  - pose proof (rep_neg _ _ _ _ _ _ _ _ _ FF_field _ _ R1) as H. unfold ed_neg. cbn [phi4 ext_neg] in *. rewrite !phi_f_neg. exact H.
Qed.
Lemma good_times_pos k : forall E P, good E P -> good (ed_times_pos k E) (ctimes (Npos k) P).
Proof.
  induction k as [k IH | k IH|]; intros E P H; cbn [ed_times_pos].
  - replace (N.pos k~1) with (2 * N.pos k + 1)%N by lia. rewrite ctimes_add, ctimes_mul, ctimes_2, ctimes_1. apply good_add; [apply good_double, IH, H | exact H].
  - replace (N.pos k~0) with (2 * N.pos k)%N by lia. rewrite ctimes_mul, ctimes_2. apply good_double, IH, H.
  - rewrite ctimes_1. exact H.
Qed.
Lemma good_times k E P : good E P -> good (ed_times k E) (ctimes k P).
Proof. intros H. destruct k as [|k]; [exact good_identity | apply good_times_pos, H]. Qed.
Lemma good_times8 E P : good E P -> good (ed_times8 E) (ctimes 8 P).
Proof.
  intros H. unfold ed_times8. change 8%N with (2 * (2 * 2))%N. rewrite !ctimes_mul, !ctimes_2. apply good_double, good_double, good_double, H.
Qed.
Lemma good_identity_iff E P : good E P -> ed_is_identity E = true <-> P = czero.
Proof.
  intros [S R]. destruct E as [[[X Y] Z] T]. pose proof (rep_zero_iff _ _ _ _ _ _ _ _ _ FF_field FF_dec _ _ R) as H. cbn [phi4] in H.
  unfold ed_is_identity. rewrite andb_true_iff, !Z.eqb_eq. unfold small4 in S. destruct S as (SX & SY & SZ & _).
  assert (X = 0 <-> phi X = phi 0) as K1.
  { split; [intros ->; reflexivity|]. apply phi_small; [exact SX | pose proof ed_p_big; lia]. }
  assert (Y = Z <-> phi Y = phi Z) as K2. { split; [intros ->; reflexivity | apply phi_small; assumption]. }
  rewrite K1, K2, H. split; [intros E; apply cp_eq; exact E | intros ->; reflexivity].
Qed.
