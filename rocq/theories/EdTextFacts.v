(** Square roots, and the texts of points. *)
From Coq Require Import ZArith.Znumtheory ZArith.Zpow_facts Ring Field.
From Verif Require Import Prelude OrdFacts Cbor Spec SpecWire SpecCbor SpecEd Ed25519 CborFacts EdwardsFacts EdOrderFacts EdFieldFacts EdPointFacts.
Local Open Scope Z_scope.

(* ------------------------------------------------------------------ powers *)

Lemma small_f_pow x e : small x -> small (f_pow x e).
Proof. intros Hx. destruct e; cbn [f_pow]; [apply small_mod | apply small_mod | exact Hx]. Qed.
Lemma phi_f_pow x e : phi (f_pow x e) = phi (x ^ Zpos e).
Proof.
  induction e as [e IH | e IH|]; cbn [f_pow].
  - rewrite !phi_f_mul, IH, <- !phi_mul. f_equal. replace (Zpos e~1) with (Zpos e + Zpos e + 1) by lia.
    rewrite !Z.pow_add_r, Z.pow_1_r by lia. reflexivity.
  - rewrite phi_f_mul, IH, <- phi_mul. f_equal. replace (Zpos e~0) with (Zpos e + Zpos e) by lia. rewrite Z.pow_add_r by lia. reflexivity.
  - rewrite Z.pow_1_r. reflexivity.
Qed.
Lemma phi_f_inv x : phi x <> phi 0 -> (phi (f_inv x) * phi x = 1)%F.
Proof.
  intros Hx. unfold f_inv. rewrite phi_f_pow, ed_inv_power, <- phi_mul. pose proof ed_p_big.
  rewrite Z.mul_comm, <- Z.pow_succ_r by lia. replace (Z.succ (ed_p - 2)) with (ed_p - 1) by lia. apply ed_fermat, Hx.
Qed.
(** a square to the power (p - 1) / 2 *)
Lemma square_power a : phi a <> phi 0 -> phi ((a * a) ^ ed_h) = phi 1.
Proof.
  intros Ha. rewrite <- Z.pow_2_r. pose proof ed_h_pos. rewrite <- Z.pow_mul_r by lia. rewrite <- ed_half. apply ed_fermat, Ha.
Qed.

(* ------------------------------------------------------------------ square roots *)

Lemma one_i : (1 + fi <> 0)%F.
Proof.
  intros E. apply f_two. assert (fi = - (1))%F as Ei. { apply fsub_zero. rewrite <- E. ring. }
  pose proof fi_square as H. rewrite Ei in H. apply fzero_sub in H. rewrite <- H. ring.
Qed.
Lemma small_eqb a b : small a -> small b -> (a =? b) = true <-> phi a = phi b.
Proof. intros Ha Hb. rewrite Z.eqb_eq. split; [intros ->; reflexivity | apply phi_small; assumption]. Qed.
Lemma neg_even r : small r -> small (if f_negative r then f_neg r else r) /\ Z.odd (if f_negative r then f_neg r else r) = false /\
  (phi (if f_negative r then f_neg r else r) * phi (if f_negative r then f_neg r else r) = phi r * phi r)%F.
Proof.
  intros Hr. unfold f_negative. destruct (Z.odd r) eqn:Eo; [|auto]. split; [apply small_mod|]. split; [|rewrite phi_f_neg; ring].
  assert (phi r <> phi 0) as H0. { intros E. apply phi_small in E; [subst r; discriminate | exact Hr | pose proof ed_p_big; lia]. }
  assert (f_neg r = zv (- phi r)%F) as -> by (rewrite <- phi_opp, zv_phi; reflexivity).
  rewrite zv_neg_odd, zv_small, Eo by assumption. reflexivity.
Qed.

Section Root.
  Variables u v : Z.
  Hypothesis Hu : small u.
  Hypothesis Hv0 : phi v <> phi 0.
  Let v3 := f_mul (f_mul v v) v.
  Let v7 := f_mul (f_mul v3 v3) v.
  Let w := f_mul u v7.
  Definition root_exp : positive := 7237005577332262213973186563042994240829374041602535252466099000494570602493.
  Let r := f_mul (f_mul u v3) (f_pow w root_exp).
  Let check := f_mul v (f_mul r r).
  Let s := (phi w * (phi (f_pow w root_exp) * phi (f_pow w root_exp)))%F.

  Lemma root_check : phi check = (phi u * s)%F.
  Proof. unfold check, r, s, w, v7, v3. rewrite !phi_f_mul. ring. Qed.
  Lemma root_square x : (phi v * (x * x) = phi u)%F -> phi u <> phi 0 -> (s * s = 1)%F.
  Proof.
    intros Hx Hu0. destruct ed_h_even as (q & Eh & Hq & Eq). fold root_exp in Eq. set (k := Zpos root_exp).
    assert (s = phi (w ^ q)) as ->.
    { unfold s. rewrite phi_f_pow, <- !phi_mul. f_equal. fold k. rewrite Eq. fold k. assert (0 <= k) by discriminate.
      replace (2 * k + 1) with (Z.succ (k + k)) by lia. rewrite Z.pow_succ_r, Z.pow_add_r by lia. reflexivity. }
    set (a := (zv (phi v) * zv (phi v) * zv (phi v) * zv (phi v)) * zv x).
    assert (phi (a * a) = phi w) as Ea.
    { unfold a, w, v7, v3. rewrite !phi_f_mul, !phi_mul, !phi_zv, <- Hx. ring. }
    rewrite <- phi_mul, <- Z.pow_add_r by lia. replace (q + q) with ed_h by lia.
    pose proof ed_h_pos. rewrite <- (phi_pow_eq _ _ ed_h ltac:(lia) Ea). apply square_power.
    intros E. rewrite phi_mul, E in Ea. assert (phi w = phi 0) as Ew by (rewrite <- Ea; ring).
    unfold w, v7, v3 in Ew. rewrite !phi_f_mul in Ew.
    repeat (apply fzero in Ew as [Ew|Ew]; [|]); try contradiction.
    all: repeat (apply fzero in Ew as [Ew|Ew]; [|contradiction]); try contradiction; apply fzero in Ew as [Ew|Ew]; contradiction.
  Qed.

  Lemma sqrt_ratio_sound x : f_sqrt_ratio u v = Some x -> small x /\ Z.odd x = false /\ (phi v * (phi x * phi x) = phi u)%F.
  Proof.
    unfold f_sqrt_ratio. fold root_exp. fold v3. fold v7. fold w. fold r. fold check.
    assert (small check) as Hc by apply small_mod.
    assert (phi check = phi v * (phi r * phi r))%F as Ec by (unfold check; rewrite !phi_f_mul; reflexivity).
    set (flag := (check =? f_neg u) || (check =? f_mul (f_neg u) ed_i)).
    set (r' := if flag then f_mul ed_i r else r).
    assert (small r') as Hr' by (unfold r'; destruct flag; apply small_mod).
    destruct ((check =? u) || (check =? f_neg u)) eqn:Ef; [|discriminate]. intros E.
    assert ((if f_negative r' then f_neg r' else r') = x) as <- by (injection E as E; exact E). clear E.
    destruct (neg_even r' Hr') as (H1 & H2 & H3). split; [exact H1|]. split; [exact H2|]. rewrite H3. clear H1 H2 H3.
    assert (check = u <-> phi check = phi u) as K1 by (split; [intros ->; reflexivity | apply phi_small; assumption]).
    assert ((check =? f_neg u) = true <-> phi check = (- phi u)%F) as K2 by (rewrite <- phi_f_neg; apply small_eqb; [exact Hc | apply small_mod]).
    assert ((check =? f_mul (f_neg u) ed_i) = true <-> phi check = (- phi u * fi)%F) as K3.
    { unfold fi. rewrite <- phi_f_neg, <- phi_f_mul. apply small_eqb; [exact Hc | apply small_mod]. }
    unfold r'. destruct flag eqn:Efl.
    - rewrite phi_f_mul. fold fi. transitivity (fi * fi * (phi v * (phi r * phi r)))%F; [ring|]. rewrite fi_square, <- Ec.
      apply orb_true_iff in Ef as [Ef|Ef].
      + apply Z.eqb_eq, K1 in Ef. unfold flag in Efl. apply orb_true_iff in Efl as [Efl|Efl].
        * apply K2 in Efl. rewrite Efl. ring.
        * apply K3 in Efl. rewrite Ef in Efl. assert (phi u = phi 0) as E0.
          { destruct (fzero (1 + fi) (phi u))%F as [H|H]; [|destruct (one_i H) | exact H]. apply fzero_sub in Efl. rewrite <- Efl. ring. }
          rewrite Ef, E0. ring.
      + apply K2 in Ef. rewrite Ef. ring.
    - unfold flag in Efl. apply orb_false_iff in Efl as [Efl _]. rewrite Efl, orb_false_r in Ef. apply Z.eqb_eq, K1 in Ef.
      rewrite <- Ec. exact Ef.
  Qed.
  Lemma sqrt_ratio_complete x : (phi v * (x * x) = phi u)%F -> exists z, f_sqrt_ratio u v = Some z.
  Proof.
    intros Hx. unfold f_sqrt_ratio. fold root_exp. fold v3. fold v7. fold w. fold r. fold check.
    assert (small check) as Hc by apply small_mod.
    assert (((check =? u) || (check =? f_neg u)) = true) as ->; [|eexists; reflexivity].
    apply orb_true_iff. rewrite !small_eqb by (assumption || apply small_mod). rewrite phi_f_neg, root_check.
    destruct (FF_dec (phi u) (phi 0)) as [E|E]; [left; rewrite E; ring|]. pose proof (root_square x Hx E) as Hs.
    destruct (square_roots s (phi 1)) as [H|H]; [rewrite Hs; ring | left; rewrite H; ring | right; rewrite H; ring].
  Qed.
End Root.

(* ------------------------------------------------------------------------ texts *)

Lemma le_val_eq bs : le_val bs = le_value bs.
Proof. apply be_value_place. Qed.
Lemma le_number_iff k n bs : le_number k n bs <-> length bs = k /\ le_value bs = n.
Proof. unfold le_number, be_number. rewrite rev_length, be_value_place. reflexivity. Qed.
Lemma le_number_bytes k n bs : le_number k n bs <-> bs = le_bytes k n /\ (n < 256 ^ N.of_nat k)%N.
Proof.
  unfold le_number, le_bytes. rewrite be_number_iff. split; intros [H Hn]; (split; [|exact Hn]).
  - rewrite <- H, rev_involutive. reflexivity.
  - rewrite H, rev_involutive. reflexivity.
Qed.
Lemma le_number_value bs : le_number (length bs) (le_value bs) bs.
Proof. apply le_number_iff. auto. Qed.
Lemma le_value_bound bs : (le_value bs < 256 ^ N.of_nat (length bs))%N.
Proof. unfold le_value. rewrite <- rev_length. apply be_value_bound. Qed.
Lemma le_bytes_length k n : length (le_bytes k n) = k.
Proof. unfold le_bytes. rewrite rev_length. apply be_length. Qed.

Lemma two_parts n : 0 <= n < 2 ^ 256 -> exists y s, n = y + s * 2 ^ 255 /\ 0 <= y < 2 ^ 255 /\ (s = 0 \/ s = 1) /\ y = n mod 2 ^ 255 /\ (2 ^ 255 <=? n) = (s =? 1).
Proof.
  intros Hn. exists (n mod 2 ^ 255), (n / 2 ^ 255). pose proof (Z.div_mod n (2 ^ 255) ltac:(discriminate)) as E.
  pose proof (Z.mod_pos_bound n (2 ^ 255) ltac:(reflexivity)) as Hm. change (2 ^ 256) with (2 * 2 ^ 255) in Hn.
  set (M := 2 ^ 255) in *. assert (0 < M) by reflexivity. clearbody M.
  assert (0 <= n / M < 2) as Hd. { split; [apply Z.div_pos; lia | apply Z.div_lt_upper_bound; lia]. }
  split; [lia|]. split; [exact Hm|]. split; [lia|]. split; [reflexivity|].
  destruct (Z.leb_spec M n), (Z.eqb_spec (n / M) 1); try reflexivity; exfalso.
  - assert (n / M = 0) as Hq by lia. rewrite Hq in E. lia.
  - rewrite e in E. lia.
Qed.
Lemma parts_unique M y s y' s' : 0 < M -> 0 <= y < M -> 0 <= y' < M -> y + s * M = y' + s' * M -> y = y' /\ s = s'.
Proof. intros HM Hy Hy' E. assert (s = s') by nia. subst. lia. Qed.
Lemma mod2_odd x : x mod 2 = if Z.odd x then 1 else 0.
Proof. apply Zmod_odd. Qed.

(** What is decompressed: the point named. *)
Lemma decompress_sound bs E : ed_decompress bs = Some E -> exists P, good E P /\ point_name bs (sp P).
Proof.
  unfold ed_decompress. destruct (length bs =? 32)%nat eqn:El; cbn [negb]; [|discriminate]. apply Nat.eqb_eq in El.
  pose proof (le_value_bound bs) as Hb. rewrite El in Hb. set (n := Z.of_N (le_value bs)).
  assert (0 <= n < 2 ^ 256) as Hn. { unfold n. change (256 ^ N.of_nat 32)%N with (Z.to_N (2 ^ 256)) in Hb. lia. }
  destruct (two_parts n Hn) as (y0 & s & En & Hy0 & Hs & Ey & Eb). rewrite <- Ey, Eb. clear Eb.
  set (y := y0 mod ed_p). assert (small y) as Hy by apply small_mod.
  set (u := f_sub (f_mul y y) 1). set (v := f_add (f_mul (f_mul y y) ed_d) 1).
  assert (phi u = phi y * phi y - 1)%F as Eu by (unfold u; rewrite phi_f_sub, phi_f_mul; reflexivity).
  assert (phi v = fd * (phi y * phi y) + 1)%F as Ev by (unfold v; rewrite phi_f_add, !phi_f_mul; fold fd; ring).
  destruct (f_sqrt_ratio u v) as [x|] eqn:Ex; [|discriminate]. cbv beta iota.
  destruct (sqrt_ratio_sound u v ltac:(apply small_mod) x Ex) as (Hx & Hxo & Hxx).
  set (x' := if s =? 1 then f_neg x else x). intros HE. assert ((x', y, 1, f_mul x' y) = E) as <- by (injection HE as HE; exact HE). clear HE.
  assert (small x') as Hx' by (unfold x'; destruct (s =? 1); [apply small_mod | exact Hx]).
  assert (phi x' * phi x' = phi x * phi x)%F as Exx by (unfold x'; destruct (s =? 1); [rewrite phi_f_neg; ring | reflexivity]).
  assert (con (phi x', phi y)) as Hc by (apply con_iff; rewrite Exx, <- Ev, <- Eu; exact Hxx).
  exists (mkCpt _ Hc). split.
  - apply good_affine; [exact Hx' | exact Hy | apply small_mod | reflexivity | apply phi_f_mul].
  - split; [apply sp_curve|]. exists y0, s. split; [exact Hy0|]. unfold sp. cbn [cp fst snd]. rewrite !zv_small by assumption.
    split; [apply same_iff; symmetry; apply phi_mod|]. split; [exact Hs|]. split.
    + destruct (Z.eq_dec x' 0) as [->|H0]; [right; reflexivity|]. left. rewrite mod2_odd. unfold x' in *.
      destruct (Z.eqb_spec s 1) as [->|Hs1]; [|rewrite Hxo; lia].
      assert (phi x <> phi 0) as Hx0. { intros E0. apply H0. apply phi_small; [exact Hx' | pose proof ed_p_big; lia |]. rewrite phi_f_neg, E0. ring. }
      assert (f_neg x = zv (- phi x)%F) as -> by (rewrite <- phi_opp, zv_phi; reflexivity).
      rewrite zv_neg_odd, zv_small, Hxo by assumption. reflexivity.
    + apply le_number_iff. split; [exact El|]. rewrite <- En. unfold n. lia.
Qed.
Lemma point_name_fun bs P Q : point_name bs (sp P) -> point_name bs (sp Q) -> P = Q.
Proof.
  intros (_ & y & s & Hy & Sy & Hs & Px & Hn) (_ & y' & s' & Hy' & Sy' & Hs' & Px' & Hn').
  apply le_number_iff in Hn as [_ Hn], Hn' as [_ Hn']. assert (y = y' /\ s = s') as [<- <-].
  { apply (parts_unique (2 ^ 255)); [reflexivity | assumption | assumption |].
    rewrite Hn in Hn'. set (M := 2 ^ 255) in *. assert (0 < M) by reflexivity. clearbody M. clear -H Hn' Hy Hy' Hs Hs'. apply Z2N.inj in Hn'; nia. }
  rewrite same_iff in Sy, Sy'. unfold sp in *. cbn [fst snd] in *. rewrite phi_zv in Sy, Sy'. pose proof (cp_on P) as HP. pose proof (cp_on Q) as HQ.
  apply cp_eq. destruct (cp P) as [x1 y1], (cp Q) as [x2 y2]. cbn [fst snd] in *. subst y1 y2. f_equal.
  assert (zv x1 = 0 -> x1 = phi 0) as Z1 by (intros E; rewrite <- (phi_zv x1), E; reflexivity).
  assert (zv x2 = 0 -> x2 = phi 0) as Z2 by (intros E; rewrite <- (phi_zv x2), E; reflexivity).
  destruct Px' as [Px'|Px'].
  - destruct Px as [Px|Px].
    + apply (same_parity _ _ _ HQ HP). rewrite mod2_odd in Px, Px'. destruct (Z.odd (zv x1)), (Z.odd (zv x2)); congruence.
    + apply Z1 in Px. subst x1. destruct (same_second _ _ _ HP HQ) as [->| ->]; [reflexivity | ring].
  - apply Z2 in Px'. subst x2. destruct (same_second _ _ _ HQ HP) as [->| ->]; [reflexivity | ring].
Qed.
Lemma decompress_complete bs P : point_name bs (sp P) -> exists E, ed_decompress bs = Some E /\ good E P.
Proof.
  intros H. assert (exists E, ed_decompress bs = Some E) as [E HE].
  { destruct H as (_ & y0 & s & Hy0 & Sy & Hs & _ & Hn). apply le_number_iff in Hn as [El En].
    unfold ed_decompress. rewrite El, Nat.eqb_refl. cbn [negb]. set (M := 2 ^ 255) in *. assert (0 < M) as HM by reflexivity.
    assert ((Z.of_N (le_value bs)) mod M = y0) as ->.
    { rewrite En, Z2N.id by nia. rewrite Z_mod_plus_full. apply Z.mod_small, Hy0. }
    set (y := y0 mod ed_p). set (u := f_sub (f_mul y y) 1). set (v := f_add (f_mul (f_mul y y) ed_d) 1).
    apply same_iff in Sy. unfold sp in Sy. cbn [snd] in Sy. rewrite phi_zv in Sy.
    assert (phi y = snd (cp P)) as Ey by (unfold y; rewrite phi_mod; exact Sy).
    destruct (sqrt_ratio_complete u v ltac:(apply small_mod)) with (x := fst (cp P)) as [z Ez].
    - unfold v. rewrite phi_f_add, !phi_f_mul. fold fd. intros E. apply (denominator (phi y)). rewrite <- E. ring.
    - unfold u, v. rewrite phi_f_add, phi_f_sub, !phi_f_mul. fold fd. rewrite Ey. pose proof (cp_on P) as HP. destruct (cp P) as [x' y']. cbn [fst snd].
      pose proof (proj1 (con_iff x' y') HP) as HC. rewrite <- HC. ring.
    - rewrite Ez. eexists. reflexivity. }
  exists E. split; [exact HE|]. destruct (decompress_sound bs E HE) as (Q & HQ & NQ). rewrite (point_name_fun bs P Q H NQ). exact HQ.
Qed.

(** What is compressed: the text of RFC 8032, a name of the point. *)
Lemma point_text_name bs P : point_text bs P -> point_name bs P.
Proof.
  intros [HP Hn]. split; [exact HP|]. destruct P as [x y]. cbn [fst snd] in *. pose proof HP as HP'. apply curve_point_iff in HP' as (Hx & Hy & _).
  exists y, (x mod 2). pose proof ed_p_le. split; [lia|]. split; [apply same_iff; reflexivity|]. split; [rewrite mod2_odd; destruct (Z.odd x); auto|].
  split; [left; reflexivity | exact Hn].
Qed.
Lemma point_text_fun bs bs' P : point_text bs P -> point_text bs' P -> bs = bs'.
Proof. intros [_ H] [_ H']. apply le_number_bytes in H as [-> _], H' as [-> _]. reflexivity. Qed.
Lemma compress_text E P : good E P -> point_text (ed_compress E) (sp P).
Proof.
  intros [S R]. split; [apply sp_curve|]. destruct E as [[[X Y] Z] T]. cbn [phi4] in R. unfold rep in R. unfold sp. cbn [fst snd].
  destruct (cp P) as [x y]. cbn [fst snd]. destruct R as (HZ & EX & EY & _).
  assert (f_mul X (f_inv Z) = zv x) as E1.
  { rewrite <- (zv_small (f_mul X (f_inv Z))) by apply small_mod. f_equal. rewrite phi_f_mul, EX.
    transitivity (x * (phi (f_inv Z) * phi Z))%F; [ring|]. rewrite phi_f_inv by exact HZ. ring. }
  assert (f_mul Y (f_inv Z) = zv y) as E2.
  { rewrite <- (zv_small (f_mul Y (f_inv Z))) by apply small_mod. f_equal. rewrite phi_f_mul, EY.
    transitivity (y * (phi (f_inv Z) * phi Z))%F; [ring|]. rewrite phi_f_inv by exact HZ. ring. }
  unfold ed_compress. rewrite E1, E2. unfold f_negative. rewrite mod2_odd.
  assert ((if Z.odd (zv x) then 1 else 0) * 2 ^ 255 = (if Z.odd (zv x) then 2 ^ 255 else 0)) as -> by (destruct (Z.odd (zv x)); reflexivity).
  apply le_number_bytes. split; [reflexivity|]. pose proof (zv_range y). pose proof ed_p_le.
  change (256 ^ N.of_nat 32)%N with (Z.to_N (2 * 2 ^ 255)). set (M := 2 ^ 255) in *. assert (0 < M) by reflexivity. clearbody M.
  destruct (Z.odd (zv x)); lia.
Qed.
Lemma name_point bs Q : point_name bs Q -> exists P, Q = sp P.
Proof. intros [H _]. apply curve_sp, H. Qed.
Lemma text_point bs Q : point_text bs Q -> exists P, Q = sp P.
Proof. intros [H _]. apply curve_sp, H. Qed.
