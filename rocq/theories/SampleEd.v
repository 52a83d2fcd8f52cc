(** Samples for C140-C143. *)
From Coq Require Import Ring Field.
From Verif Require Import Prelude Ord SMap Base58 Cbor Value Ext Json Capability Key KeySupport Ucan Builder Store Chain Ed25519
  Spec SpecWire SpecCbor SpecEd OrdFacts CborFacts EdwardsFacts EdOrderFacts EdFieldFacts EdPointFacts EdTextFacts EdFacts Samples SampleRsa.

(** A hash: the last byte. *)
Definition last_hash (bs : bytes) : bytes := [last bs x00].

(** The text of the base point: the public key of the scalar 1. *)
Definition base_text : bytes := x58 :: repeat x66 31.
Lemma base_text_ok : point_text base_text (sp cbase).
Proof.
  split; [apply sp_curve|]. rewrite cbase_sp. cbn [fst snd]. apply le_number_iff. split; [reflexivity|]. vm_compute. reflexivity.
Qed.
Definition base_sig : bytes := base_text ++ x08 :: repeat x00 31.
Lemma last_scalar bs : ed_scalar last_hash bs = bN (last bs x00).
Proof.
  rewrite scalar_eq. unfold last_hash. rewrite le_val_eq. unfold le_value, be_value. cbn [rev app fold_left]. rewrite N.mul_0_l, N.add_0_l. apply N.mod_small.
  pose proof (bN_bound (last bs x00)). destruct lN_bounds as [H0 _]. assert (256 < 2 ^ 252)%N by reflexivity. lia.
Qed.
Lemma last_app (a b : bytes) d : b <> [] -> last (a ++ b) d = last b d.
Proof. intros Hb. induction a as [|x a IH]; [reflexivity|]. cbn [app]. destruct (a ++ b) eqn:E; [destruct a; [cbn in E; contradiction | discriminate]|]. exact IH. Qed.
Lemma base_sig_iff data : data <> [] -> zip215 last_hash base_text data base_sig <-> last data x00 = x07.
Proof.
  intros Hd. pose proof (point_text_name _ _ base_text_ok) as HN. rewrite (zip215_core _ _ _ _ _ HN).
  assert (8 < lN)%N as H8. { destruct lN_bounds as [H0 _]. assert (8 < 2 ^ 252)%N by reflexivity. lia. }
  assert (le_value (x08 :: repeat x00 31) = 8%N) as E8 by reflexivity.
  assert (ed_scalar last_hash (base_text ++ base_text ++ data) = bN (last data x00)) as Ek.
  { rewrite last_scalar, app_assoc, last_app by exact Hd. reflexivity. }
  pose proof (bN_bound (last data x00)) as Hb. destruct lN_bounds as [H0 _]. assert (512 < 2 ^ 252)%N as H512 by reflexivity. split.
  - intros (rb & sb & E & R & Hl & HR & Hs & HE). destruct (halves _ _ _ _ E (name_length _ _ HR)) as [E1 E2].
    assert (rb = base_text) as -> by (rewrite E1; reflexivity). assert (sb = x08 :: repeat x00 31) as -> by (rewrite E2; reflexivity).
    pose proof (point_name_fun _ _ _ HN HR) as <-. rewrite E8, Ek in HE.
    rewrite !ctimes_mul, <- ctimes_cadd, <- !ctimes_mul in HE.
    assert (cadd cbase (ctimes (bN (last data x00)) cbase) = ctimes (1 + bN (last data x00)) cbase) as E3 by (rewrite ctimes_add, ctimes_1; reflexivity).
    rewrite E3, <- ctimes_mul in HE. apply (coprime_times 8 _ _ gcd_8_l) in HE; [|exact H8 | lia].
    assert (bN (last data x00) = 7%N) as E7 by lia. rewrite <- (byteN_bN (last data x00)), E7. reflexivity.
  - intros Ed. exists base_text, (x08 :: repeat x00 31). split; [reflexivity|]. exists cbase. rewrite E8, Ek, Ed.
    split; [reflexivity|]. split; [exact HN|]. split; [exact H8|]. change (8 * bN x07)%N with 56%N. change (8 * 8)%N with (8 + 56)%N. apply ctimes_add.
Qed.

(** The key of 32 zero bytes: a point of order four. *)
Definition zero_text : bytes := repeat x00 32.
Lemma quarter_on : con (fi, phi 0).
Proof. apply con_iff. rewrite fi_square. ring. Qed.
Definition quarter : cpt := mkCpt _ quarter_on.
Lemma quarter_double : cp (cadd quarter quarter) = (phi 0, fopp (phi 1)).
Proof.
  cbn [cadd cp quarter]. unfold ceadd, eadd. apply pair_equal_spec. split; apply fdiv_eq.
  - exact (one_plus _ _ _ _ quarter_on quarter_on).
  - ring.
  - exact (one_minus _ _ _ _ quarter_on quarter_on).
  - rewrite fi_square. ring.
Qed.
Lemma quarter_order : ctimes 4 quarter = czero.
Proof.
  change 4%N with (2 * 2)%N. rewrite ctimes_mul, !ctimes_2. apply cp_eq. pose proof (cp_on (cadd quarter quarter)) as HO.
  cbn [cadd cp czero]. change (ceadd (cp quarter) (cp quarter)) with (cp (cadd quarter quarter)). rewrite quarter_double in *. unfold ceadd, eadd, ezero. apply pair_equal_spec. split; apply fdiv_eq.
  - exact (one_plus _ _ _ _ HO HO).
  - ring.
  - exact (one_minus _ _ _ _ HO HO).
  - ring.
Qed.
Lemma fi_even : Z.odd (zv fi) = false.
Proof. unfold fi. rewrite zv_phi. vm_compute. reflexivity. Qed.
Lemma quarter_name : point_name zero_text (sp quarter).
Proof.
  split; [apply sp_curve|]. exists 0%Z, 0%Z. split; [split; [discriminate | reflexivity]|]. unfold sp. cbn [quarter cp fst snd].
  rewrite (zv_small 0) by (pose proof ed_p_big; lia). split; [apply same_iff; reflexivity|]. split; [left; reflexivity|].
  split; [left; rewrite mod2_odd, fi_even; reflexivity|]. apply le_number_iff. split; reflexivity.
Qed.
Lemma quarter_eight : multiple (sp quarter) 8 (0, 1)%Z.
Proof. apply multiple_iff. change 8%N with (2 * 4)%N. rewrite ctimes_mul, quarter_order, ctimes_zero. symmetry. exact sp_zero. Qed.

Lemma quarter_exact : exists A, point_name zero_text A /\ multiple A 4 (0, 1)%Z /\ ~ multiple A 2 (0, 1)%Z.
Proof.
  exists (sp quarter). split; [exact quarter_name|]. split; [apply multiple_iff; rewrite quarter_order; symmetry; exact sp_zero|].
  intros K. apply multiple_iff in K. rewrite <- sp_zero in K. apply sp_inj in K. rewrite ctimes_2 in K. apply (f_equal cp) in K.
  rewrite quarter_double in K. cbn [czero cp] in K. unfold ezero in K. apply pair_equal_spec in K as [_ K]. apply f_two.
  apply fzero_sub in K. rewrite <- K. ring.
Qed.

(** The neutral point as a key, and its signature for everything. *)
Definition unit_text : bytes := x01 :: repeat x00 31.
Definition unit_sig : bytes := unit_text ++ repeat x00 32.
Lemma unit_any H data : zip215 H unit_text data unit_sig.
Proof.
  apply (zip215_core _ _ czero _ _ identity_name). exists unit_text, (repeat x00 32). split; [reflexivity|]. exists czero. split; [reflexivity|].
  split; [exact identity_name|]. assert (le_value (repeat x00 32) = 0%N) as -> by reflexivity. split; [apply lN_pos|].
  rewrite !ctimes_zero, N.mul_0_r, ctimes_0, cadd_0_l. reflexivity.
Qed.
Definition unit_did : bytes := did_key_text ([xed; x01] ++ unit_text).
Definition unit_slice : list (bytes * ctor) := [([xed; x01], bytes_to_ed25519_key (ed25519_zebra last_hash))].
Definition unit_state : vstate := mkState (did_parser_new unit_slice) 0 0 0.
Definition unit_token (who : string) : bytes := encode sample_ext (make
  [IssuedBy (fixed_signer (B "EdDSA") unit_did unit_sig); ForAudience (did_of bob); ClaimingCapability (mail who "email/send" (VObj []))]).

(** Another name of the neutral point. *)
Definition unit_text' : bytes := xee :: repeat xff 30 ++ [x7f].
Lemma unit_name' : point_name unit_text' (0, 1)%Z.
Proof.
  split; [rewrite <- sp_zero; apply sp_curve|]. exists (2 ^ 255 - 18)%Z, 0%Z. split; [split; [discriminate | reflexivity]|]. cbn [fst snd].
  split; [exists 1%Z; reflexivity|]. split; [left; reflexivity|]. split; [right; reflexivity|]. apply le_number_iff. split; reflexivity.
Qed.
Lemma seed_pair : exists ab sig, ed_key_pair last_hash (B "k") (2 ^ 254 + 104) [] ab /\ ed_signature_of last_hash (B "k") (B "text") sig /\ zip215 last_hash ab (B "text") sig.
Proof.
  destruct (ed_signing last_hash (B "k") (B "text")) as ((s & prefix & ab & HK & _) & _ & (sig & HS) & HI & _). exists ab, sig.
  apply HI in HS. pose proof (sign_zip _ _ _ _ _ _ _ HK HS) as HZ. split; [|auto].
  pose proof HK as HK'. apply key_pair_iff in HK' as (-> & -> & _). exact HK.
Qed.
Lemma unit_names : point_name unit_text (0, 1)%Z /\ point_name unit_text' (0, 1)%Z /\ unit_text <> unit_text' /\
  point_text unit_text (0, 1)%Z /\ ~ point_text unit_text' (0, 1)%Z.
Proof.
  assert (point_text unit_text (0, 1)%Z) as HT. { split; [rewrite <- sp_zero; apply sp_curve|]. apply le_number_iff. split; reflexivity. }
  split; [apply point_text_name, HT|]. split; [exact unit_name'|]. split; [discriminate|]. split; [exact HT|].
  intros K. pose proof (point_text_fun _ _ _ HT K). discriminate.
Qed.
Lemma two_names : exists A bs bs' H k k' d d', bs <> bs' /\ point_name bs A /\ point_name bs' A /\
  bytes_to_ed25519_key (ed25519_zebra H) bs = Ok k /\ bytes_to_ed25519_key (ed25519_zebra H) bs' = Ok k' /\
  key_did k = Ok d /\ key_did k' = Ok d' /\ d <> d'.
Proof.
  destruct unit_names as (N1 & N2 & Hne & _). destruct (ed_keys last_hash unit_text) as (K1 & _ & D1). destruct (ed_keys last_hash unit_text') as (K2 & _ & D2).
  destruct (proj2 K1 (ex_intro _ _ N1)) as [k Hk]. destruct (proj2 K2 (ex_intro _ _ N2)) as [k' Hk'].
  exists (0, 1)%Z, unit_text, unit_text', last_hash, k, k'. do 2 eexists. split; [exact Hne|]. split; [exact N1|]. split; [exact N2|].
  split; [exact Hk|]. split; [exact Hk'|]. split; [apply (D1 k Hk)|]. split; [apply (D2 k' Hk')|]. vm_compute. discriminate.
Qed.
Lemma universal_key : exists ab sig, forall H data, exists k,
  bytes_to_ed25519_key (ed25519_zebra H) ab = Ok k /\ key_verify k data sig = Ok tt.
Proof.
  exists unit_text, unit_sig. intros H data. destruct (ed_keys H unit_text) as (K & _ & D). destruct (proj2 K (ex_intro _ _ identity_name)) as [k Hk].
  exists k. split; [exact Hk|]. apply (D k Hk), unit_any.
Qed.
Lemma base_half sb : zip215 last_hash base_text [x61; x07] (base_text ++ sb) <-> sb = x08 :: repeat x00 31.
Proof.
  assert (zip215 last_hash base_text [x61; x07] base_sig) as HZ by (apply base_sig_iff; [discriminate | reflexivity]). split.
  - intros K. pose proof (first_half _ _ _ _ _ K HZ) as E. unfold base_sig in E. apply app_inv_head with (l := base_text). apply E.
    change 32%nat with (length base_text). rewrite !firstn_app, Nat.sub_diag. reflexivity.
  - intros ->. exact HZ.
Qed.
