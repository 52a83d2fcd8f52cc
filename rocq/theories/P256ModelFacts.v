(** The arithmetic of P256.v is that of the field and the group of P256FieldFacts.v; names of points. *)
From Coq Require Import ZArith.Znumtheory ZArith.Zpow_facts Ring Field.
From Verif Require Import Prelude OrdFacts Cbor Spec SpecWire SpecCbor SpecSha SpecP256 P256 CborFacts RsaFacts PrimeFacts WeierFacts
  P256OrderFacts P256FieldFacts P256PointFacts.
Local Open Scope Z_scope.

(* ---------------------------------------------------------------- the field *)

Lemma m_pow_mod m x e : 0 < m -> m_pow m x e mod m = x ^ Zpos e mod m.
Proof.
  intros Hm. assert (m <> 0) as Hm0 by lia. induction e as [e IH|e IH|]; cbn [m_pow].
  - replace (Zpos (xI e)) with (Zpos e + Zpos e + 1) by lia. rewrite !Z.pow_add_r, Z.pow_1_r by lia.
    assert ((m_pow m x e * m_pow m x e) mod m = (x ^ Zpos e * x ^ Zpos e) mod m) as -> by (rewrite Zmult_mod, IH, <- Zmult_mod; reflexivity).
    rewrite Z.mod_mod by exact Hm0. apply Z.mul_mod_idemp_l, Hm0.
  - replace (Zpos (xO e)) with (Zpos e + Zpos e) by lia. rewrite Z.pow_add_r by lia.
    rewrite Z.mod_mod by exact Hm0. rewrite Zmult_mod, IH, <- Zmult_mod. reflexivity.
  - rewrite Z.pow_1_r. reflexivity.
Qed.
Lemma m_pow_range m x e : 0 <= x < m -> 0 <= m_pow m x e < m.
Proof. intros Hx. destruct e; cbn [m_pow]; [apply Z.mod_pos_bound; lia | apply Z.mod_pos_bound; lia | exact Hx]. Qed.
Lemma psi_pow x e : psi (m_pow q_p x e) = psi (x ^ Zpos e).
Proof. apply psi_eq, m_pow_mod. pose proof q_p_pos. lia. Qed.

Lemma q_add_eq a b : q_add a b = qv (psi a + psi b)%G.
Proof. unfold q_add. rewrite <- psi_add, qv_psi. reflexivity. Qed.
Lemma q_sub_eq a b : q_sub a b = qv (psi a - psi b)%G.
Proof. unfold q_sub. rewrite <- psi_sub, qv_psi. reflexivity. Qed.
Lemma q_mul_eq a b : q_mul a b = qv (psi a * psi b)%G.
Proof. unfold q_mul. rewrite <- psi_mul, qv_psi. reflexivity. Qed.
Lemma q_neg_eq a : q_neg a = qv (- psi a)%G.
Proof. unfold q_neg. rewrite <- psi_opp, qv_psi. reflexivity. Qed.
Lemma psi_inv x : psi x <> psi 0 -> psi (q_inv x) = (1 / psi x)%G.
Proof.
  intros Hx. unfold q_inv. rewrite psi_pow, q_inv_power. apply (gcancel _ _ (psi x) Hx).
  transitivity (psi (x ^ (q_p - 1))); [|rewrite (q_fermat x Hx); field; exact Hx].
  replace (q_p - 1) with (1 + (q_p - 2)) by lia. pose proof q_p_pos. rewrite Z.pow_add_r, Z.pow_1_r, psi_mul by lia. reflexivity.
Qed.
Lemma q_right_eq x : q_right x = qv (psi x * psi x * psi x + ga * psi x + gb)%G.
Proof.
  unfold q_right. rewrite q_add_eq, q_sub_eq, !q_mul_eq, !psi_qv, psi_3, ga_three. fold gb. f_equal. ring.
Qed.

(** Square roots. *)
Lemma q_sqrt_sound a r : 0 <= a < q_p -> q_sqrt a = Some r -> 0 <= r < q_p /\ (psi r * psi r = psi a)%G.
Proof.
  intros Ha. unfold q_sqrt. set (r' := m_pow q_p a _). assert (0 <= r' < q_p) as Hr by (apply m_pow_range, Ha). clearbody r'.
  destruct (Z.eqb_spec (q_mul r' r') a) as [E|]; [|discriminate]. intros E'.
  apply (f_equal (fun o => match o with Some t => t | None => 0 end)) in E'. subst r'. split; [exact Hr|].
  rewrite <- E, q_mul_eq, psi_qv. reflexivity.
Qed.
Lemma q_sqrt_complete a y : 0 <= a < q_p -> (y * y = psi a)%G -> exists r, q_sqrt a = Some r.
Proof.
  intros Ha Hy. unfold q_sqrt. set (e := 0x3fffffffc0000000400000000000000000000000400000000000000000000000%positive).
  assert (4 * Zpos e = q_p + 1) as He by exact q_sqrt_power. clearbody e.
  assert (psi (m_pow q_p a e) * psi (m_pow q_p a e) = psi a)%G as E.
  { rewrite psi_pow, <- psi_mul, <- Z.pow_add_r by lia. rewrite <- Hy. set (z := qv y). assert (psi z = y) as Ez by apply psi_qv.
    assert (psi a = psi (z ^ 2)) as Ea. { rewrite Z.pow_2_r, psi_mul, Ez. symmetry. exact Hy. }
    rewrite (psi_pow_eq _ _ (Zpos e + Zpos e) ltac:(lia) Ea), <- Z.pow_mul_r by lia. replace (2 * (Zpos e + Zpos e)) with ((q_p - 1) + 2) by lia.
    pose proof q_p_pos. rewrite Z.pow_add_r, psi_mul, Z.pow_2_r, psi_mul, Ez by lia.
    destruct (QF_dec y (psi 0)) as [->|Hne]; [ring|]. rewrite q_fermat; [ring | rewrite Ez; exact Hne]. }
  assert (q_mul (m_pow q_p a e) (m_pow q_p a e) = a) as ->. { rewrite q_mul_eq, E. apply qv_small, Ha. }
  rewrite Z.eqb_refl. eexists. reflexivity.
Qed.

(* ---------------------------------------------------------------- sums and multiples *)

Lemma q_line_eq l P Q : q_line l P Q = gp (gthird (psi l) (psi (fst P)) (psi (snd P)) (psi (fst Q))).
Proof. unfold q_line, gthird. cbn [gp]. rewrite !q_sub_eq, !q_mul_eq, ?q_sub_eq, !psi_qv. reflexivity. Qed.
Lemma q_plus_eq P Q : q_plus (pp P) (pp Q) = pp (qadd P Q).
Proof.
  unfold pp. pose proof (qp_on P) as HP. pose proof (qp_on Q) as HQ. cbn [qadd qp].
  destruct (qp P) as [[x1 y1]|]; [destruct (qp Q) as [[x2 y2]|]|]; [|reflexivity|change (geadd None (qp Q)) with (qp Q); destruct (gp (qp Q)); reflexivity].
  cbn [gp q_plus]. destruct (Z.eqb_spec (qv x1) (qv x2)) as [Ex|Hx].
  - apply qv_inj in Ex. subst x2. destruct (Z.eqb_spec (qv y1) (qv y2)) as [Ey|Hy].
    + apply qv_inj in Ey. subst y2. pose proof (g_y_nonzero _ _ HP) as Hy0. destruct (Z.eqb_spec (qv y1) 0) as [E0|_].
      { exfalso. apply Hy0. rewrite <- (psi_qv y1), E0. reflexivity. }
      rewrite q_line_eq. cbn [fst snd]. rewrite !psi_qv. f_equal. symmetry. apply geadd_slope; [exact HP | exact HQ | exact (not_opposed_twice _ _ HP)|].
      apply gslope_tangent. rewrite q_mul_eq, psi_qv, psi_inv, q_sub_eq, !q_mul_eq, !psi_qv, psi_2, psi_3.
      * field. split; [exact Hy0 | exact g_two].
      * rewrite q_mul_eq, !psi_qv, psi_2. intros E. apply gzero in E as [E|E]; [exact (g_two E) | exact (Hy0 E)].
    + destruct (g_same_x _ _ _ HP HQ) as [->|E]; [destruct (Hy eq_refl)|]. rewrite geadd_opposed; [reflexivity | exact HP | split; [reflexivity | exact E]].
  - assert (x1 <> x2) as Hne by (intros ->; apply Hx; reflexivity).
    rewrite q_line_eq. cbn [fst snd]. rewrite !psi_qv. f_equal. symmetry. apply geadd_slope; [exact HP | exact HQ | intros [K _]; exact (Hne K)|].
    assert (x2 - x1 <> 0)%G as Hd by (intros K; apply Hne; symmetry; apply gsub_zero, K).
    apply gslope_chord; [exact HP | exact HQ | exact Hne|]. rewrite q_mul_eq, psi_qv, psi_inv, !q_sub_eq, !psi_qv; [field; exact Hd|].
    rewrite q_sub_eq, !psi_qv. exact Hd.
Qed.
Lemma q_times_eq k P : q_times k (pp P) = pp (qtimes k P).
Proof.
  destruct k as [|k]; [reflexivity|]. cbn [q_times]. induction k as [k IH|k IH|]; cbn [q_times_pos].
  - rewrite IH, !q_plus_eq. f_equal. change (Npos (xI k)) with (2 * Npos k + 1)%N.
    rewrite qtimes_add, qtimes_mul, qtimes_2, qtimes_1. reflexivity.
  - rewrite IH, q_plus_eq. f_equal. change (Npos (xO k)) with (2 * Npos k)%N. rewrite qtimes_mul, qtimes_2. reflexivity.
  - rewrite qtimes_1. reflexivity.
Qed.
Lemma q_base_pp : Some q_base = pp qbase.
Proof. rewrite pp_base, p_base_eq, q_base_eq. reflexivity. Qed.

(* ---------------------------------------------------------------- names of points *)

Lemma number_value k n bs : be_number k n bs <-> length bs = k /\ be_value bs = n.
Proof. unfold be_number. rewrite be_value_place. reflexivity. Qed.
Lemma q_field_iff bs x : q_field bs = Some x <-> 0 <= x < q_p /\ be_number 32 (Z.to_N x) bs.
Proof.
  unfold q_field. rewrite number_value. destruct (Nat.eqb_spec (length bs) 32) as [Hl|Hl]; cbn [andb].
  - destruct (Z.ltb_spec (Z.of_N (be_value bs)) q_p) as [Hv|Hv].
    + split; [intros E | intros (Hx & _ & E); f_equal; lia].
      apply (f_equal (fun o => match o with Some t => t | None => 0 end)) in E. lia.
    + split; [discriminate | intros (Hx & _ & E); lia].
  - split; [discriminate | intros (_ & E & _); contradiction].
Qed.
Lemma pair_root x y : p_pair (x, y) <-> 0 <= x < q_p /\ 0 <= y < q_p /\ (psi y * psi y = psi (q_right x))%G.
Proof. rewrite p_pair_iff, q_right_eq, psi_qv. reflexivity. Qed.
Lemma pair_opp x y : p_pair (x, y) -> p_pair (x, q_neg y) /\ q_neg y = q_p - y /\ 0 < y.
Proof.
  intros H. apply p_pair_iff in H as (Hx & Hy & H). pose proof (g_y_nonzero _ _ H) as H0.
  assert (q_neg y = q_p - y) as E. { rewrite q_neg_eq, qv_opp by exact H0. rewrite qv_small by exact Hy. reflexivity. }
  assert (y <> 0) as Hy0 by (intros ->; apply H0; reflexivity). split; [|split; [exact E | lia]].
  apply p_pair_iff. split; [exact Hx|]. rewrite E. split; [lia|]. rewrite <- E, q_neg_eq, psi_qv. unfold gon, won in *. rewrite <- H. ring.
Qed.
Lemma q_right_range x : 0 <= q_right x < q_p.
Proof. rewrite q_right_eq. apply qv_range. Qed.
Lemma pair_same x y y' : p_pair (x, y) -> p_pair (x, y') -> y = y' \/ y = q_p - y'.
Proof.
  intros H H'. destruct (pair_opp _ _ H') as (_ & E & _). apply p_pair_iff in H as (Hx & Hy & H), H' as (_ & Hy' & H').
  destruct (g_same_x _ _ _ H H') as [K|K].
  - left. apply psi_small in K; assumption.
  - right. rewrite <- E, q_neg_eq, <- K. symmetry. apply qv_small, Hy.
Qed.
Lemma odd_opp y : Z.odd (q_p - y) = negb (Z.odd y).
Proof. rewrite Z.odd_sub, q_p_odd. destruct (Z.odd y); reflexivity. Qed.

Lemma decompress_iff bs odd P : q_decompress bs odd = Some P <-> p_pair P /\ Z.odd (snd P) = odd /\ be_number 32 (Z.to_N (fst P)) bs.
Proof.
  destruct P as [x y]. cbn [fst snd]. unfold q_decompress. destruct (q_field bs) as [x0|] eqn:Ef.
  - apply q_field_iff in Ef as [Hx0 Hb]. destruct (q_sqrt (q_right x0)) as [r|] eqn:Er.
    + apply q_sqrt_sound in Er as [Hr Er]; [|apply q_right_range]. assert (p_pair (x0, r)) as HP by (apply pair_root; auto).
      destruct (pair_opp _ _ HP) as (HN & En & Hpos). split.
      * intros E. apply (f_equal (fun o => match o with Some t => t | None => (0, 0) end)) in E. apply pair_equal_spec in E as [<- <-].
        destruct (Bool.eqb (Z.odd r) odd) eqn:Eo.
        -- apply Bool.eqb_prop in Eo. auto.
        -- apply Bool.eqb_false_iff in Eo. split; [exact HN|]. split; [|exact Hb]. rewrite En, odd_opp. destruct (Z.odd r), odd; try reflexivity; contradiction.
      * intros (Hxy & Ho & Hb'). pose proof (proj1 (number_value _ _ _) Hb) as [_ E1]. pose proof (proj1 (number_value _ _ _) Hb') as [_ E2].
        pose proof (proj1 (p_pair_iff _ _) Hxy) as (Hx & _). assert (x = x0) as -> by lia. apply (f_equal Some), pair_equal_spec. split; [reflexivity|].
        destruct (pair_same _ _ _ Hxy HP) as [-> | ->].
        -- rewrite Ho, Bool.eqb_reflx. reflexivity.
        -- rewrite odd_opp in Ho. subst odd. rewrite En. destruct (Z.odd r); reflexivity.
    + split; [discriminate|]. intros (Hxy & _ & Hb'). exfalso. pose proof (proj1 (number_value _ _ _) Hb) as [_ E1]. pose proof (proj1 (number_value _ _ _) Hb') as [_ E2].
      apply pair_root in Hxy as (Hx & _ & E). assert (x = x0) as -> by lia. destruct (q_sqrt_complete _ _ (q_right_range x0) E) as [r Hr]. rewrite Er in Hr. discriminate.
  - split; [discriminate|]. intros (Hxy & _ & Hb). apply pair_root in Hxy as (Hx & _). rewrite (proj2 (q_field_iff bs x) (conj Hx Hb)) in Ef. discriminate.
Qed.
Lemma decompact_iff bs P : q_decompact bs = Some P <-> p_pair P /\ 2 * snd P < q_p /\ be_number 32 (Z.to_N (fst P)) bs.
Proof.
  destruct P as [x y]. cbn [fst snd]. unfold q_decompact. split.
  - destruct (q_decompress bs false) as [[x0 y0]|] eqn:E; [|discriminate]. apply decompress_iff in E as (HP & Ho & Hb). cbn [fst snd] in *. intros E.
    apply (f_equal (fun o => match o with Some t => t | None => (0, 0) end)) in E. apply pair_equal_spec in E as [<- <-].
    destruct (pair_opp _ _ HP) as (HN & En & Hpos). split; [|split; [|exact Hb]].
    + destruct (Z.min_spec y0 (q_neg y0)) as [[_ ->] | [_ ->]]; assumption.
    + rewrite En. assert (2 * y0 <> q_p). { intros K. pose proof q_p_odd as Hodd. rewrite <- K, Z.odd_mul in Hodd. discriminate. } lia.
  - intros (HP & Hy & Hb). destruct (pair_opp _ _ HP) as (HN & En & Hpos). destruct (Z.odd y) eqn:Eo.
    + rewrite (proj2 (decompress_iff bs false (x, q_neg y))).
      * cbn [fst snd]. apply (f_equal Some), pair_equal_spec. split; [reflexivity|]. destruct (pair_opp _ _ HN) as (_ & En' & _). rewrite En', En. lia.
      * cbn [fst snd]. split; [exact HN|]. split; [|exact Hb]. rewrite En, odd_opp, Eo. reflexivity.
    + rewrite (proj2 (decompress_iff bs false (x, y))); [|auto]. cbn [fst snd]. apply (f_equal Some), pair_equal_spec. split; [reflexivity|]. rewrite En. lia.
Qed.
Lemma uncompressed_iff r P : (let?? x := q_field (firstn 32 r) in let?? y := q_field (skipn 32 r) in if q_mul y y =? q_right x then Some (x, y) else None) = Some P <->
  p_pair P /\ exists xb yb, be_number 32 (Z.to_N (fst P)) xb /\ be_number 32 (Z.to_N (snd P)) yb /\ r = xb ++ yb.
Proof.
  destruct P as [x y]. cbn [fst snd]. split.
  - destruct (q_field (firstn 32 r)) as [x0|] eqn:Ex; [|discriminate]. destruct (q_field (skipn 32 r)) as [y0|] eqn:Ey; [|discriminate].
    apply q_field_iff in Ex as [Hx Hxb], Ey as [Hy Hyb]. destruct (Z.eqb_spec (q_mul y0 y0) (q_right x0)) as [E|]; [|discriminate]. intros E'.
    apply (f_equal (fun o => match o with Some t => t | None => (0, 0) end)) in E'. apply pair_equal_spec in E' as [<- <-]. split.
    + apply pair_root. rewrite <- E, q_mul_eq, psi_qv. auto.
    + exists (firstn 32 r), (skipn 32 r). rewrite firstn_skipn. auto.
  - intros (HP & xb & yb & Hxb & Hyb & ->). apply pair_root in HP as (Hx & Hy & E). pose proof (proj1 (number_value _ _ _) Hxb) as [Hl _].
    rewrite firstn_app, skipn_app, firstn_all2, skipn_all2 by lia. replace (32 - length xb)%nat with O by lia. cbn [firstn skipn app]. rewrite app_nil_r.
    rewrite (proj2 (q_field_iff xb x) (conj Hx Hxb)), (proj2 (q_field_iff yb y) (conj Hy Hyb)).
    assert (q_mul y y = q_right x) as ->. { rewrite q_mul_eq, E. apply qv_small, q_right_range. }
    rewrite Z.eqb_refl. reflexivity.
Qed.
Lemma q_decode_cons c r : q_decode (c :: r) =
  if Byte.eqb c x02 then q_decompress r false else if Byte.eqb c x03 then q_decompress r true
  else if Byte.eqb c x04 then (let?? x := q_field (firstn 32 r) in let?? y := q_field (skipn 32 r) in if q_mul y y =? q_right x then Some (x, y) else None)
  else if Byte.eqb c x05 then q_decompact r else None.
Proof. destruct c; reflexivity. Qed.
Lemma decode_iff bs P : q_decode bs = Some P <-> p256_name P bs.
Proof.
  unfold p256_name, compressed_name, uncompressed_name, compact_name. rewrite p256_prime_eq.
  destruct bs as [|c r]; [split; [discriminate | intros (_ & [(? & _ & E) | [(? & ? & _ & _ & E) | (_ & ? & _ & E)]]); try destruct (Z.odd _); discriminate E]|].
  rewrite q_decode_cons. destruct (Byte.eqb c x02) eqn:E2; [|destruct (Byte.eqb c x03) eqn:E3; [|destruct (Byte.eqb c x04) eqn:E4; [|destruct (Byte.eqb c x05) eqn:E5]]].
  - apply Byte.byte_dec_bl in E2. subst c. rewrite decompress_iff. split.
    + intros (HP & Ho & Hb). split; [exact HP|]. left. exists r. rewrite Ho. auto.
    + intros (HP & [(xb & Hb & E) | [(? & ? & _ & _ & E) | (_ & ? & _ & E)]]); [|discriminate E | discriminate E]. destruct (Z.odd (snd P)); [discriminate E|].
      apply (f_equal (@tl _)) in E. cbn [tl] in E. subst. auto.
  - apply Byte.byte_dec_bl in E3. subst c. rewrite decompress_iff. split.
    + intros (HP & Ho & Hb). split; [exact HP|]. left. exists r. rewrite Ho. auto.
    + intros (HP & [(xb & Hb & E) | [(? & ? & _ & _ & E) | (_ & ? & _ & E)]]); [|discriminate E | discriminate E]. destruct (Z.odd (snd P)); [|discriminate E].
      apply (f_equal (@tl _)) in E. cbn [tl] in E. subst. auto.
  - apply Byte.byte_dec_bl in E4. subst c. rewrite uncompressed_iff. split.
    + intros (HP & xb & yb & Hx & Hy & ->). split; [exact HP|]. right. left. exists xb, yb. auto.
    + intros (HP & [(xb & Hb & E) | [(xb & yb & Hx & Hy & E) | (_ & ? & _ & E)]]); [destruct (Z.odd (snd P)); discriminate E | | discriminate E].
      apply (f_equal (@tl _)) in E. cbn [tl] in E. subst. split; [exact HP|]. exists xb, yb. auto.
  - apply Byte.byte_dec_bl in E5. subst c. rewrite decompact_iff. split.
    + intros (HP & Hy & Hb). split; [exact HP|]. right. right. split; [exact Hy|]. exists r. auto.
    + intros (HP & [(xb & Hb & E) | [(xb & yb & Hx & Hy & E) | (Hy & xb & Hb & E)]]); [destruct (Z.odd (snd P)); discriminate E | discriminate E|].
      apply (f_equal (@tl _)) in E. cbn [tl] in E. subst. auto.
  - split; [discriminate|]. intros (_ & [(? & _ & E) | [(? & ? & _ & _ & E) | (_ & ? & _ & E)]]); try destruct (Z.odd _);
      apply (f_equal (hd x00)) in E; cbn [hd] in E; subst c; discriminate.
Qed.
Lemma encode_iff P bs : p_pair P -> (bs = q_encode P <-> compressed_name P bs).
Proof.
  intros HP. unfold compressed_name, q_encode. destruct P as [x y]. cbn [fst snd]. apply pair_root in HP as (Hx & _ & _).
  assert (Z.to_N x < 256 ^ N.of_nat 32)%N as Hb. { pose proof q_p_le as Hl. change (256 ^ N.of_nat 32)%N with (Z.to_N (256 ^ 32)). apply Z2N.inj_lt; lia. }
  split.
  - intros ->. exists (be_bytes 32 (Z.to_N x)). split; [|reflexivity]. apply be_number_iff. auto.
  - intros (xb & Hxb & ->). apply be_number_iff in Hxb as [-> _]. reflexivity.
Qed.
