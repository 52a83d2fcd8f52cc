(** Proofs about Ed25519 keys and signatures (C140-C143). *)
From Coq Require Import ZArith.Znumtheory.
From Verif Require Import Prelude Ord SMap Base58 Value Cbor Ext Key KeySupport Ucan Store Ed25519
  Spec SpecWire SpecCbor SpecEd OrdFacts CborFacts BaseNFacts DidFacts TwinFacts EdwardsFacts EdFieldFacts EdPointFacts EdTextFacts.

(* ------------------------------------------------------------ the order of the base *)

Lemma lN_Z : Z.of_N lN = ed_l.
Proof. unfold lN. pose proof ed_l_big as H. assert (0 <= 2 ^ 252)%Z by discriminate. rewrite Z2N.id; [reflexivity | lia]. Qed.
Lemma l25519_N : Z.to_N l25519 = lN.
Proof. rewrite l25519_eq. reflexivity. Qed.
Lemma cbase_nonzero : cbase <> czero.
Proof.
  intros E. apply (f_equal sp) in E. rewrite cbase_sp, sp_zero in E. pose proof walk_range as H. apply pair_equal_spec in E as [E _]. lia.
Qed.
Lemma gcd_prime_l a : (a mod lN <> 0)%N -> N.gcd a lN = 1%N.
Proof.
  intros H. pose proof lN_pos as Hl. destruct (N.gcd_divide_r a lN) as [q Hq]. set (g := N.gcd a lN) in *.
  destruct (prime_divisors ed_l ed_l_prime (Z.of_N g)) as [E|[E|[E|E]]]; [rewrite <- lN_Z; exists (Z.of_N q); rewrite <- N2Z.inj_mul, <- Hq; reflexivity | lia | lia | | pose proof ed_l_big; assert (0 <= 2 ^ 252)%Z by discriminate; lia].
  exfalso. apply H. apply N.mod_divide; [lia|]. rewrite <- lN_Z in E. apply N2Z.inj in E. rewrite <- E. apply N.gcd_divide_l.
Qed.
Lemma base_times n : ctimes n cbase = czero <-> (n mod lN = 0)%N.
Proof.
  pose proof lN_pos as Hl. split.
  - intros E. destruct (N.eq_dec (n mod lN) 0) as [H|H]; [exact H|]. exfalso. apply cbase_nonzero.
    apply (ctimes_coprime n lN cbase); [|exact E | exact base_order].
    exact (gcd_prime_l n H).
  - intros H. apply N.mod_divide in H as [q ->]; [|lia]. rewrite ctimes_mul, base_order. apply ctimes_zero.
Qed.
Lemma base_times_inj m n : (m < lN)%N -> (n < lN)%N -> ctimes m cbase = ctimes n cbase -> m = n.
Proof.
  assert (forall m n, (m <= n)%N -> (n < lN)%N -> ctimes m cbase = ctimes n cbase -> m = n) as K.
  { clear m n. intros m n Hmn Hn E. replace n with (m + (n - m))%N in E by lia. rewrite ctimes_add in E.
    rewrite <- (cadd_0_r (ctimes m cbase)) in E at 1. apply cadd_cancel in E. symmetry in E. apply base_times in E. rewrite N.mod_small in E by lia. lia. }
  intros Hm Hn E. destruct (N.le_ge_cases m n) as [H|H]; [apply K; assumption | symmetry; apply K; [assumption | assumption | symmetry; exact E]].
Qed.
Lemma coprime_times a m n : N.gcd a lN = 1%N -> (m < lN)%N -> (n < lN)%N -> ctimes (a * m) cbase = ctimes (a * n) cbase -> m = n.
Proof.
  intros Hg Hm Hn E. apply base_times_inj; [exact Hm | exact Hn|]. rewrite !ctimes_mul in E.
  apply cadd_neg_iff. apply (ctimes_coprime a lN); [exact Hg | | ].
  - rewrite ctimes_cadd, ctimes_neg, E. apply cadd_neg.
  - rewrite ctimes_cadd, ctimes_neg, !(ctimes_comm lN), base_order, !ctimes_zero. apply cadd_neg.
Qed.
Lemma lN_bounds : (2 ^ 252 < lN /\ lN < 2 ^ 253)%N.
Proof.
  pose proof ed_l_big as H1. pose proof ed_l_le as H2. rewrite <- lN_Z in H1, H2.
  change (2 ^ 252)%Z with (Z.of_N (2 ^ 252)) in H1. change (2 ^ 253)%Z with (Z.of_N (2 ^ 253)) in H2. lia.
Qed.
Lemma gcd_8_l : N.gcd 8 lN = 1%N.
Proof.
  apply gcd_prime_l. destruct lN_bounds as [H _]. rewrite N.mod_small; [discriminate|]. assert (8 < 2 ^ 252)%N by reflexivity. lia.
Qed.

(* ---------------------------------------------------------------------- clamping *)

Lemma clamp_eq n : ed_clamp n = (2 ^ 254 + 8 * (n / 8 mod 2 ^ 251))%N.
Proof.
  unfold ed_clamp. change (2 ^ 254 - 8)%N with (N.shiftl (N.ones 251) 3).
  assert (N.land n (N.shiftl (N.ones 251) 3) = 8 * (n / 8 mod 2 ^ 251))%N as E.
  { change 8%N with (2 ^ 3)%N. rewrite <- N.shiftr_div_pow2, <- N.land_ones, (N.mul_comm (2 ^ 3)), <- N.shiftl_mul_pow2.
    apply N.bits_inj. intros i. rewrite N.land_spec. destruct (N.lt_ge_cases i 3) as [Hi|Hi].
    - rewrite !N.shiftl_spec_low by exact Hi. apply andb_false_r.
    - rewrite !N.shiftl_spec_high' by exact Hi. rewrite N.land_spec, N.shiftr_spec'. replace (i - 3 + 3)%N with i by lia. reflexivity. }
  rewrite E. rewrite N.add_comm. symmetry. set (m := (8 * (n / 8 mod 2 ^ 251))%N). assert (m < 2 ^ 254)%N as Hm.
  { unfold m. change (2 ^ 254)%N with (8 * 2 ^ 251)%N. assert (n / 8 mod 2 ^ 251 < 2 ^ 251)%N by (apply N.mod_lt; discriminate). lia. }
  rewrite <- N.lxor_lor, <- N.add_nocarry_lxor; [reflexivity | |].
  all: apply N.bits_inj_0; intros i; rewrite N.land_spec, N.pow2_bits_eqb; destruct (N.eqb_spec 254 i) as [<-|]; [|apply andb_false_r];
    rewrite andb_true_r; rewrite <- (N.mod_small m (2 ^ 254)) by exact Hm; apply N.mod_pow2_bits_high; reflexivity.
Qed.
Lemma clamp_order n : ((2 ^ 254 + 8 * (n / 8 mod 2 ^ 251)) mod lN <> 0)%N.
Proof.
  pose proof lN_pos. destruct lN_bounds as [Hl _]. set (m := (n / 8 mod 2 ^ 251)%N). assert (m < 2 ^ 251)%N as Hm by (apply N.mod_lt; discriminate).
  intros E. apply N.mod_divide in E as [q E]; [|lia].
  assert (8 | q * lN)%N as HD. { exists (2 ^ 251 + m)%N. change (2 ^ 254)%N with (2 ^ 251 * 8)%N in E. lia. }
  rewrite N.mul_comm in HD. apply N.gauss in HD; [|exact gcd_8_l]. destruct HD as [j ->].
  change (2 ^ 254)%N with (2 ^ 251 * 8)%N in E. change (2 ^ 252)%N with (2 * 2 ^ 251)%N in Hl. set (M := (2 ^ 251)%N) in *. assert (0 < M)%N by reflexivity. clearbody M m.
  destruct (N.eq_dec j 0) as [->|Hj]; [lia|]. nia.
Qed.

(* -------------------------------------------------------------------------- keys *)

Lemma scalar_eq H bs : ed_scalar H bs = (le_val (H bs) mod lN)%N.
Proof. unfold ed_scalar. rewrite le_val_eq. reflexivity. Qed.
Lemma hash_number_iff H bs k : hash_number H bs k <-> k = ed_scalar H bs.
Proof. unfold hash_number. rewrite l25519_N, scalar_eq. reflexivity. Qed.
Lemma scalar_lt H bs : (ed_scalar H bs < lN)%N.
Proof. rewrite scalar_eq. apply N.mod_lt. pose proof lN_pos. lia. Qed.

Lemma pub_iff bs pk : ed_pub_of bs = Some pk <-> exists E A, pk = (bs, E) /\ good E A /\ point_name bs (sp A) /\ ed_decompress bs = Some E.
Proof.
  unfold ed_pub_of. split.
  - destruct (ed_decompress bs) as [E|] eqn:HE; [|discriminate]. intros K. destruct (decompress_sound bs E HE) as (A & HA & NA).
    exists E, A. injection K as <-. auto.
  - intros (E & A & -> & _ & _ & ->). reflexivity.
Qed.
Lemma pub_exists bs : (exists pk, ed_pub_of bs = Some pk) <-> exists A, point_name bs A.
Proof.
  split.
  - intros [pk H]. apply pub_iff in H as (E & A & _ & _ & H & _). exists (sp A). exact H.
  - intros [A H]. destruct (name_point bs A H) as [P ->]. destruct (decompress_complete bs P H) as (E & HE & HG).
    exists (bs, E). apply pub_iff. exists E, P. auto.
Qed.

(* ----------------------------------------------------------------- verification *)

(** the equation, over the group *)
Definition zip_core H (ab : bytes) (A : cpt) (data rb sb : bytes) : Prop :=
  exists R, length sb = 32%nat /\ point_name rb (sp R) /\ (le_value sb < lN)%N /\
    ctimes (8 * le_value sb) cbase = cadd (ctimes 8 R) (ctimes (8 * ed_scalar H (rb ++ ab ++ data)) A).
Lemma zip215_core H ab A data sig : point_name ab (sp A) ->
  zip215 H ab data sig <-> exists rb sb, sig = rb ++ sb /\ zip_core H ab A data rb sb.
Proof.
  intros HA. split.
  - intros (rb & sb & s & k & A' & R' & B & X & Y & W & E & HA' & HR & Hs & Hl & Hk & HB & HX & HY & HW & HE).
    exists rb, sb. split; [exact E|]. destruct (name_point _ _ HA') as [A0 ->]. pose proof (point_name_fun _ _ _ HA HA') as <-.
    destruct (name_point _ _ HR) as [R ->]. apply base_point_iff in HB as ->. apply multiple_iff in HX as ->. apply multiple_iff in HY as ->. apply multiple_iff in HW as ->.
    apply curve_sum_iff in HE. apply sp_inj in HE. apply le_number_iff in Hs as [Hlen <-]. apply hash_number_iff in Hk as ->.
    exists R. split; [exact Hlen|]. split; [exact HR|]. split; [rewrite l25519_eq, <- lN_Z in Hl; lia | exact HE].
  - intros (rb & sb & E & R & Hlen & HR & Hl & HE).
    exists rb, sb, (le_value sb), (ed_scalar H (rb ++ ab ++ data)), (sp A), (sp R), (sp cbase). do 3 eexists.
    split; [exact E|]. split; [exact HA|]. split; [exact HR|]. split; [apply le_number_iff; auto|]. split; [rewrite l25519_eq, <- lN_Z; lia|].
    split; [apply hash_number_iff; reflexivity|]. split; [apply base_point_iff; reflexivity|].
    split; [apply multiple_iff; reflexivity|]. split; [apply multiple_iff; reflexivity|]. split; [apply multiple_iff; reflexivity|].
    apply curve_sum_iff. rewrite HE. reflexivity.
Qed.
Lemma name_length bs P : point_name bs P -> length bs = 32%nat.
Proof. intros (_ & y & s & _ & _ & _ & _ & H). apply le_number_iff in H. apply H. Qed.
Lemma equation s k A R : ctimes 8 (cadd R (cneg (cadd (ctimes k (cneg A)) (ctimes s cbase)))) = czero <->
  ctimes (8 * s) cbase = cadd (ctimes 8 R) (ctimes (8 * k) A).
Proof.
  rewrite !ctimes_mul, <- ctimes_cadd, ctimes_neg, cneg_add, cneg_neg, <- cadd_assoc, ctimes_cadd, ctimes_neg, cadd_neg_iff.
  split; intros ->; reflexivity.
Qed.
Lemma verify_core H ab E A data sig : good E A ->
  ed_verify H (ab, E) data sig = true <-> exists rb sb, sig = rb ++ sb /\ zip_core H ab A data rb sb.
Proof.
  intros HE. unfold ed_verify. rewrite andb_true_iff, Nat.eqb_eq. split.
  - intros [Hl K]. exists (firstn 32 sig), (skipn 32 sig). split; [symmetry; apply firstn_skipn|]. apply andb_true_iff in K as [Hs K]. apply N.ltb_lt in Hs.
    destruct (ed_decompress (firstn 32 sig)) as [r|] eqn:Er; [|discriminate]. destruct (decompress_sound _ _ Er) as (R & HR & NR).
    exists R. split; [rewrite skipn_length, Hl; reflexivity|]. split; [exact NR|]. split; [exact Hs|]. apply equation. cbn [fst snd] in K.
    refine (proj1 (good_identity_iff _ _ _) K). apply good_times8, good_add; [exact HR|]. apply good_neg, good_add; [apply good_times, good_neg, HE | apply good_times, good_base].
  - intros (rb & sb & -> & R & Hlen & NR & Hs & Heq). pose proof (name_length _ _ NR) as Hr. split; [rewrite app_length, Hr, Hlen; reflexivity|].
    rewrite firstn_app, skipn_app, Hr, firstn_all2, skipn_all2 by lia. cbn [Nat.sub firstn skipn]. rewrite app_nil_r, app_nil_l.
    apply andb_true_iff. split; [apply N.ltb_lt, Hs|]. destruct (decompress_complete _ _ NR) as (r & Er & HR). rewrite Er. cbn [fst snd].
    refine (proj2 (good_identity_iff _ (ctimes 8 (cadd R (cneg (cadd (ctimes (ed_scalar H (rb ++ ab ++ data)) (cneg A)) (ctimes (le_value sb) cbase))))) _) _).
    + apply good_times8, good_add; [exact HR|]. apply good_neg, good_add; [apply good_times, good_neg, HE | apply good_times, good_base].
    + apply equation, Heq.
Qed.

Lemma ed_keys H bs :
  ((exists k, bytes_to_ed25519_key (ed25519_zebra H) bs = Ok k) <-> exists A, point_name bs A) /\
  ((exists k, bytes_to_ed25519_key (ed25519_zebra H) bs = Ok k) \/ bytes_to_ed25519_key (ed25519_zebra H) bs = Err EKeyBytes) /\
  forall k, bytes_to_ed25519_key (ed25519_zebra H) bs = Ok k ->
    key_did k = Ok (did_key_text ([xed; x01] ++ bs)) /\
    forall data sig, (key_verify k data sig = Ok tt <-> zip215 H bs data sig) /\
      (key_verify k data sig <> Ok tt -> key_verify k data sig = Err ESignature) /\ key_sign k data = Err ENoPrivateKey.
Proof.
  unfold bytes_to_ed25519_key. cbn [cr_decode ed25519_zebra]. split; [|split].
  - rewrite <- pub_exists. split; intros [x K].
    + destruct (ed_pub_of bs) as [pk|] eqn:E; [exists pk; reflexivity | discriminate].
    + rewrite K. eexists. reflexivity.
  - destruct (ed_pub_of bs); [left; eexists; reflexivity | right; reflexivity].
  - intros k K. destruct (ed_pub_of bs) as [pk|] eqn:Ep; [|discriminate]. cbn [ok_or rbind] in K.
    assert (ed25519_key (ed25519_zebra H) pk None = k) as <- by (injection K as K; exact K). clear K.
    apply pub_iff in Ep as (E & A & -> & HE & NA & _). split; [reflexivity|]. intros data sig. cbn [key_verify key_sign ed25519_key km_sign].
    unfold km_verify. cbn [cr_verify ed25519_zebra]. rewrite (zip215_core H bs A data sig NA), <- (verify_core H bs E A data sig HE).
    destruct (ed_verify H (bs, E) data sig).
    + split; [split; reflexivity|]. split; [intros K; contradiction K; reflexivity | reflexivity].
    + split; [split; discriminate|]. split; reflexivity.
Qed.

(* ------------------------------------------------------------------------ signing *)

Lemma firstn_split (bs hb prefix : bytes) : bs = hb ++ prefix -> length hb = 32%nat \/ (length hb < 32)%nat /\ prefix = [] ->
  hb = firstn 32 bs /\ prefix = skipn 32 bs.
Proof.
  intros -> [Hl|[Hl ->]].
  - rewrite firstn_app, skipn_app, Hl, firstn_all2, skipn_all2 by lia. cbn [Nat.sub firstn skipn]. rewrite app_nil_r, app_nil_l. auto.
  - rewrite app_nil_r, firstn_all2, skipn_all2 by lia. auto.
Qed.
Lemma key_pair_iff H seed s prefix ab : ed_key_pair H seed s prefix ab <->
  s = es_scalar (ed_signing_key H seed) /\ prefix = es_prefix (ed_signing_key H seed) /\ ab = fst (es_pub (ed_signing_key H seed)).
Proof.
  unfold ed_signing_key. cbn [es_scalar es_prefix es_pub fst]. rewrite clamp_eq.
  assert (forall k, point_text (ed_compress (ed_times k ed_base)) (sp (ctimes k cbase))) as HT by (intros k; apply compress_text, good_times, good_base).
  split.
  - intros (hb & A & B & E & Hl & Hs & HB & HA & Ht). destruct (firstn_split _ _ _ E Hl) as [-> ->]. apply base_point_iff in HB as ->. apply multiple_iff in HA as ->.
    rewrite <- le_val_eq. rewrite <- Hs. split; [reflexivity|]. split; [reflexivity|]. exact (point_text_fun _ _ _ Ht (HT s)).
  - intros (Hs & -> & ->). rewrite <- Hs. exists (firstn 32 (H seed)), (sp (ctimes s cbase)), (sp cbase). split; [symmetry; apply firstn_skipn|].
    split. { destruct (Nat.le_gt_cases 32 (length (H seed))) as [K|K]; [left; apply firstn_length_le, K | right; rewrite firstn_all2, skipn_all2 by lia; auto]. }
    split; [rewrite le_val_eq; exact Hs|]. split; [apply base_point_iff; reflexivity|]. split; [apply multiple_iff; reflexivity | apply HT].
Qed.
Lemma le32_bound n : (n < lN -> n < 256 ^ N.of_nat 32)%N.
Proof. intros Hn. destruct lN_bounds as [_ H]. assert (2 ^ 253 < 256 ^ N.of_nat 32)%N by reflexivity. lia. Qed.
Lemma sign_iff H seed data sig : ed_sign H (ed_signing_key H seed) data = Some sig <-> ed_signature_of H seed data sig.
Proof.
  pose proof lN_pos as Hlp. unfold ed_sign. set (sk := ed_signing_key H seed). set (r := ed_scalar H (es_prefix sk ++ data)).
  assert (point_text (ed_compress (ed_times r ed_base)) (sp (ctimes r cbase))) as HT by (apply compress_text, good_times, good_base).
  set (rb := ed_compress (ed_times r ed_base)) in *. set (k := ed_scalar H (rb ++ fst (es_pub sk) ++ data)). fold lN.
  set (n := ((r + k * es_scalar sk) mod lN)%N). assert (n < lN)%N as Hn by (apply N.mod_lt; lia).
  split.
  - intros E. assert (rb ++ le_bytes 32 n = sig) as <- by (injection E as E; exact E). clear E.
    exists (es_scalar sk), (es_prefix sk), (fst (es_pub sk)), r, k, (sp (ctimes r cbase)), (sp cbase), rb, (le_bytes 32 n).
    split; [apply key_pair_iff; auto|]. split; [apply hash_number_iff; reflexivity|]. split; [apply base_point_iff; reflexivity|].
    split; [apply multiple_iff; reflexivity|]. split; [exact HT|]. split; [apply hash_number_iff; reflexivity|].
    rewrite l25519_N. fold n. split; [apply le_number_bytes; split; [reflexivity | apply le32_bound, Hn] | reflexivity].
  - intros (s & prefix & ab & r' & k' & R & B & rb' & sb & HK & Hr & HB & HR & Ht & Hk & Hsb & ->).
    apply key_pair_iff in HK as (-> & -> & ->). fold sk in Hr, Hk, Hsb |- *. apply hash_number_iff in Hr. fold r in Hr. subst r'.
    apply base_point_iff in HB as ->. apply multiple_iff in HR as ->. pose proof (point_text_fun _ _ _ HT Ht) as <-.
    apply hash_number_iff in Hk. fold k in Hk. subst k'. rewrite l25519_N in Hsb. fold n in Hsb. apply le_number_bytes in Hsb as [-> _]. reflexivity.
Qed.
Lemma signing_key_good H seed : good (snd (es_pub (ed_signing_key H seed))) (ctimes (es_scalar (ed_signing_key H seed)) cbase) /\
  point_name (fst (es_pub (ed_signing_key H seed))) (sp (ctimes (es_scalar (ed_signing_key H seed)) cbase)).
Proof.
  unfold ed_signing_key. cbn [es_scalar es_pub fst snd]. split; [apply good_times, good_base | apply point_text_name, compress_text, good_times, good_base].
Qed.
Lemma sign_zip H seed data sig s prefix ab : ed_key_pair H seed s prefix ab -> ed_signature_of H seed data sig -> zip215 H ab data sig.
Proof.
  intros HK HS. apply sign_iff in HS. apply key_pair_iff in HK as (_ & _ & ->). pose proof lN_pos as Hlp.
  destruct (signing_key_good H seed) as [_ HN]. apply (zip215_core H _ _ data sig HN). unfold ed_sign in HS.
  set (sk := ed_signing_key H seed) in *. set (r := ed_scalar H (es_prefix sk ++ data)) in *. set (rb := ed_compress (ed_times r ed_base)) in *.
  set (k := ed_scalar H (rb ++ fst (es_pub sk) ++ data)) in *. fold lN in HS. set (n := ((r + k * es_scalar sk) mod lN)%N) in *.
  assert (n < lN)%N as Hn by (apply N.mod_lt; lia).
  exists rb, (le_bytes 32 n). split; [injection HS as HS; symmetry; exact HS|]. exists (ctimes r cbase). split; [apply le_bytes_length|].
  split; [apply point_text_name, compress_text, good_times, good_base|].
  assert (le_number 32 n (le_bytes 32 n)) as HB by (apply le_number_bytes; split; [reflexivity | apply le32_bound, Hn]).
  apply le_number_iff in HB as [_ ->]. split; [exact Hn|]. fold k. rewrite !ctimes_mul, <- ctimes_cadd. f_equal.
  unfold n. rewrite lN_mod, ctimes_add, ctimes_mul. reflexivity.
Qed.
Lemma ed_signing H seed data : let sk := ed_signing_key H seed in
  (exists s prefix ab, ed_key_pair H seed s prefix ab /\ key_did (ed25519_material H (es_pub sk) (Some sk)) = Ok (did_key_text ([xed; x01] ++ ab))) /\
  (forall s prefix ab s' prefix' ab', ed_key_pair H seed s prefix ab -> ed_key_pair H seed s' prefix' ab' -> s = s' /\ prefix = prefix' /\ ab = ab') /\
  (exists sig, key_sign (ed25519_material H (es_pub sk) (Some sk)) data = Ok sig) /\
  (forall sig, key_sign (ed25519_material H (es_pub sk) (Some sk)) data = Ok sig <-> ed_signature_of H seed data sig) /\
  (forall sig s prefix ab, ed_key_pair H seed s prefix ab ->
     (key_verify (ed25519_material H (es_pub sk) (Some sk)) data sig = Ok tt <-> zip215 H ab data sig)).
Proof.
  cbv zeta. set (sk := ed_signing_key H seed). split; [|split; [|split; [|split]]].
  - exists (es_scalar sk), (es_prefix sk), (fst (es_pub sk)). split; [apply key_pair_iff; auto | reflexivity].
  - intros s prefix ab s' prefix' ab' K K'. apply key_pair_iff in K as (-> & -> & ->). apply key_pair_iff in K' as (-> & -> & ->). auto.
  - eexists. cbn [key_sign ed25519_material ed25519_key km_sign cr_sign ed25519_zebra ok_or]. reflexivity.
  - intros sig. rewrite <- sign_iff. fold sk. cbn [key_sign ed25519_material ed25519_key km_sign cr_sign ed25519_zebra].
    destruct (ed_sign H sk data); cbn [ok_or]; split; congruence.
  - intros sig s prefix ab K. apply key_pair_iff in K as (_ & _ & ->). fold sk. destruct (signing_key_good H seed) as [HG HN]. fold sk in HG, HN.
    cbn [key_verify ed25519_material ed25519_key]. unfold km_verify. cbn [cr_verify ed25519_zebra].
    rewrite (zip215_core H _ _ data sig HN), <- (verify_core H (fst (es_pub sk)) (snd (es_pub sk)) _ data sig HG), <- surjective_pairing.
    destruct (ed_verify H (es_pub sk) data sig); split; congruence.
Qed.

(* ------------------------------------------------------------------------- tokens *)

Lemma check_signature_fault u st e slice : with_parser slice st ->
  (forall dids, fst (did_parse (parser_after slice dids) (p_iss (u_payload u))) = Err e) -> fst (check_signature u st) = Err e.
Proof.
  intros [dids Hp] Hk. specialize (Hk dids). unfold check_signature, bind, parse_did. rewrite Hp.
  destruct (did_parse (parser_after slice dids) (p_iss (u_payload u))) as [r p]. cbn [fst] in Hk. subst r. reflexivity.
Qed.
Lemma zip_name H ab data sig : zip215 H ab data sig -> exists A, point_name ab (sp A).
Proof. intros (rb & sb & s & k & A & R & B & X & Y & W & _ & HA & _). destruct (name_point _ _ HA) as [P ->]. exists P. exact HA. Qed.
Lemma ed_token H slice ab u st : registered slice [xed; x01] (bytes_to_ed25519_key (ed25519_zebra H)) -> with_parser slice st ->
  p_iss (u_payload u) = did_key_text ([xed; x01] ++ ab) ->
  (fst (check_signature u st) = Ok tt <-> zip215 H ab (u_signed_data u) (u_signature u)).
Proof.
  intros Hr Hp Hi. destruct (ed_keys H ab) as (HK & [[k Hk]|HE] & HV).
  - rewrite (check_signature_with u st k slice Hp).
    + apply (HV k Hk).
    + intros dids. rewrite Hi, (dispatch slice dids [xed; x01] _ ab eq_refl Hr). exact Hk.
  - rewrite (check_signature_fault u st EKeyBytes slice Hp).
    + split; [discriminate|]. intros Z. destruct (zip_name _ _ _ _ Z) as [A HA]. destruct (proj2 HK (ex_intro _ _ HA)) as [k Hk]. congruence.
    + intros dids. rewrite Hi, (dispatch slice dids [xed; x01] _ ab eq_refl Hr). exact HE.
Qed.

(* ------------------------------------------------------------- signatures and texts *)

(** Keys of small order: one signature for every text. *)
Lemma identity_name : point_name (x01 :: repeat x00 31) (sp czero).
Proof.
  rewrite sp_zero. apply point_text_name. split; [rewrite <- sp_zero; apply sp_curve|]. apply le_number_iff. split; reflexivity.
Qed.
Lemma halves (sig rb sb : bytes) k : sig = rb ++ sb -> length rb = k -> rb = firstn k sig /\ sb = skipn k sig.
Proof.
  intros -> <-. rewrite firstn_app, skipn_app, firstn_all, skipn_all, Nat.sub_diag. cbn [firstn skipn]. rewrite app_nil_r. auto.
Qed.
Lemma universal_iff ab : (exists sig, forall H data, zip215 H ab data sig) <-> exists A, point_name ab A /\ multiple A 8 (0, 1)%Z.
Proof.
  split.
  - intros [sig K]. assert (exists A, point_name ab A) as [A' HA].
    { destruct (K (fun _ => []) []) as (rb & sb & s & k & A & R & B & X & Y & W & _ & HA & _). exists A. exact HA. }
    destruct (name_point _ _ HA) as [A ->]. exists (sp A). split; [exact HA|]. apply multiple_iff.
    pose proof (K (fun _ => []) []) as K0. pose proof (K (fun _ => [x01]) []) as K1.
    apply (zip215_core _ _ A _ _ HA) in K0 as (rb & sb & E & R & Hl & HR & Hs & E0).
    apply (zip215_core _ _ A _ _ HA) in K1 as (rb' & sb' & E' & R' & Hl' & HR' & Hs' & E1).
    destruct (halves _ _ _ _ E (name_length _ _ HR)) as [-> ->]. destruct (halves _ _ _ _ E' (name_length _ _ HR')) as [-> ->].
    pose proof (point_name_fun _ _ _ HR HR') as <-.
    assert (ed_scalar (fun _ => []) (firstn 32 sig ++ ab ++ []) = 0%N) as S0 by (rewrite scalar_eq; apply N.mod_0_l; pose proof lN_pos; lia).
    assert (ed_scalar (fun _ => [x01]) (firstn 32 sig ++ ab ++ []) = 1%N) as S1.
    { rewrite scalar_eq. apply N.mod_small. destruct lN_bounds as [HL _]. change (le_val [x01]) with 1%N. assert (1 < 2 ^ 252)%N by reflexivity. lia. }
    rewrite S0 in E0. rewrite S1 in E1. rewrite E0 in E1. apply cadd_cancel in E1. symmetry. rewrite <- sp_zero. f_equal. symmetry in E1.
    rewrite N.mul_0_r, N.mul_1_r in E1. exact E1.
  - intros (A' & HA & H8). destruct (name_point _ _ HA) as [A ->]. apply multiple_iff in H8. rewrite <- sp_zero in H8. apply sp_inj in H8.
    exists ((x01 :: repeat x00 31) ++ repeat x00 32). intros H data. apply (zip215_core _ _ A _ _ HA).
    exists (x01 :: repeat x00 31), (repeat x00 32). split; [reflexivity|]. exists czero. split; [reflexivity|]. split; [exact identity_name|].
    assert (le_value (repeat x00 32) = 0%N) as -> by reflexivity. split; [apply lN_pos|].
    rewrite N.mul_0_r, ctimes_0, ctimes_zero, cadd_0_l, N.mul_comm, ctimes_mul, <- H8, ctimes_zero. reflexivity.
Qed.

(** Keys made from a seed: one signature for two texts needs equal hashes. *)
Lemma pair_name H seed s prefix ab : ed_key_pair H seed s prefix ab -> point_name ab (sp (ctimes s cbase)) /\ (s mod lN <> 0)%N.
Proof.
  intros K. apply key_pair_iff in K as (-> & _ & ->). split; [apply signing_key_good|]. unfold ed_signing_key. cbn [es_scalar]. rewrite clamp_eq. apply clamp_order.
Qed.
Lemma honest_order H seed s prefix ab A n : ed_key_pair H seed s prefix ab -> point_name ab A -> (n mod lN <> 0)%N -> ~ multiple A n (0, 1)%Z.
Proof.
  intros K HA Hn HM. destruct (pair_name _ _ _ _ _ K) as [HS Hs]. destruct (name_point _ _ HA) as [A0 ->]. pose proof (point_name_fun _ _ _ HS HA) as <-.
  apply multiple_iff in HM. rewrite <- sp_zero in HM. apply sp_inj in HM. symmetry in HM. apply cbase_nonzero.
  apply (ctimes_coprime s lN); [apply gcd_prime_l, Hs | | exact base_order].
  apply (ctimes_coprime n lN); [apply gcd_prime_l, Hn | exact HM | rewrite ctimes_comm, base_order; apply ctimes_zero].
Qed.
Lemma honest_binds H seed s prefix ab data data' sig : ed_key_pair H seed s prefix ab -> zip215 H ab data sig ->
  (zip215 H ab data' sig <->
   exists k, hash_number H (firstn 32 sig ++ ab ++ data) k /\ hash_number H (firstn 32 sig ++ ab ++ data') k).
Proof.
  intros K HZ. destruct (pair_name _ _ _ _ _ K) as [HN Hs]. apply (zip215_core _ _ _ _ _ HN) in HZ as (rb & sb & E & R & Hl & HR & Hlt & HE).
  destruct (halves _ _ _ _ E (name_length _ _ HR)) as [E1 E2]. subst rb sb.
  rewrite (zip215_core _ _ _ _ _ HN). split.
  - intros (rb & sb & E' & R' & Hl' & HR' & Hlt' & HE'). destruct (halves _ _ _ _ E' (name_length _ _ HR')) as [E1 E2]. subst rb sb.
    pose proof (point_name_fun _ _ _ HR HR') as <-. rewrite HE in HE'. apply cadd_cancel in HE'.
    exists (ed_scalar H (firstn 32 sig ++ ab ++ data)). split; [apply hash_number_iff; reflexivity|]. apply hash_number_iff.
    apply (coprime_times s); [apply gcd_prime_l, Hs | apply scalar_lt | apply scalar_lt|].
    rewrite !ctimes_mul, !(ctimes_comm (ed_scalar H _) s) in HE'. apply cadd_neg_iff. apply (ctimes_coprime 8 lN); [exact gcd_8_l | | ].
    + rewrite ctimes_cadd, ctimes_neg, !ctimes_mul, HE'. apply cadd_neg.
    + rewrite ctimes_cadd, ctimes_neg, !(ctimes_comm lN), base_order, !ctimes_zero. apply cadd_neg.
  - intros (k & Hk & Hk'). apply hash_number_iff in Hk, Hk'. exists (firstn 32 sig), (skipn 32 sig). split; [exact E|].
    exists R. rewrite <- Hk', Hk. auto.
Qed.

(** The first half of a signature determines the second. *)
Lemma first_half H ab data sig sig' : zip215 H ab data sig -> zip215 H ab data sig' -> firstn 32 sig = firstn 32 sig' -> sig = sig'.
Proof.
  intros HZ HZ' Ef. destruct (zip_name _ _ _ _ HZ) as [A HA].
  apply (zip215_core _ _ _ _ _ HA) in HZ as (rb & sb & E & R & Hl & HR & Hlt & HE).
  apply (zip215_core _ _ _ _ _ HA) in HZ' as (rb' & sb' & E' & R' & Hl' & HR' & Hlt' & HE').
  assert (rb' = rb) as ->.
  { destruct (halves _ _ _ _ E (name_length _ _ HR)) as [-> _]. destruct (halves _ _ _ _ E' (name_length _ _ HR')) as [-> _]. symmetry. exact Ef. }
  pose proof (point_name_fun _ _ _ HR HR') as <-. rewrite <- HE' in HE. apply (coprime_times 8 _ _ gcd_8_l Hlt Hlt') in HE.
  rewrite E, E'. f_equal. pose proof (le_number_value sb) as B1. pose proof (le_number_value sb') as B2. rewrite Hl in B1. rewrite Hl', <- HE in B2.
  apply le_number_bytes in B1 as [B1 _], B2 as [B2 _]. rewrite B1, B2. reflexivity.
Qed.
Lemma first_half_token H slice slice' ab u u' st st' :
  registered slice [xed; x01] (bytes_to_ed25519_key (ed25519_zebra H)) -> with_parser slice st ->
  registered slice' [xed; x01] (bytes_to_ed25519_key (ed25519_zebra H)) -> with_parser slice' st' ->
  p_iss (u_payload u) = did_key_text ([xed; x01] ++ ab) -> p_iss (u_payload u') = did_key_text ([xed; x01] ++ ab) ->
  u_signed_data u = u_signed_data u' -> fst (check_signature u st) = Ok tt -> fst (check_signature u' st') = Ok tt ->
  firstn 32 (u_signature u) = firstn 32 (u_signature u') -> u_signature u = u_signature u'.
Proof.
  intros Hr Hp Hr' Hp' Hi Hi' Ed K K'. apply (ed_token H slice ab u st Hr Hp Hi) in K. apply (ed_token H slice' ab u' st' Hr' Hp' Hi') in K'.
  rewrite <- Ed in K'. exact (first_half _ _ _ _ _ K K').
Qed.

(* ------------------------------------------------------------------ names of a point *)

Lemma other_name bs A : point_name bs A -> ((exists bs', bs' <> bs /\ point_name bs' A) <-> (snd A < 19)%Z \/ fst A = 0%Z).
Proof.
  intros HN. pose proof HN as (HA & y & s & Hy & Sy & Hs & Px & HB). destruct A as [x0 y0]. cbn [fst snd] in *.
  pose proof HA as HA'. apply curve_point_iff in HA' as (Hx0 & Hy0 & _).
  assert (forall z, (0 <= z < 2 ^ 255)%Z -> (same z y0 <-> z = y0 \/ z = (y0 + ed_p)%Z)) as KS.
  { intros z Hz. unfold same. rewrite p25519_eq. pose proof ed_p_lt as H2. set (M := (2 ^ 255)%Z) in *. clearbody M. split.
    - intros [q Eq]. assert (q = 0 \/ q = 1)%Z as [-> | ->] by nia; lia.
    - intros [-> | ->]; [exists 0%Z; lia | exists 1%Z; lia]. }
  assert (Hp19 : (2 ^ 255 = ed_p + 19)%Z) by (rewrite <- p25519_eq; unfold p25519; ring).
  assert (forall z t, (0 <= z < 2 ^ 255)%Z -> (t = 0 \/ t = 1)%Z -> le_number 32 (Z.to_N (z + t * 2 ^ 255)) (le_bytes 32 (Z.to_N (z + t * 2 ^ 255)))) as KB.
  { intros z t Hz Ht. apply le_number_bytes. split; [reflexivity|]. change (256 ^ N.of_nat 32)%N with (Z.to_N (2 * 2 ^ 255)). set (M := (2 ^ 255)%Z) in *. clearbody M. nia. }
  assert (forall z t, (0 <= z < 2 ^ 255)%Z -> (t = 0 \/ t = 1)%Z -> le_bytes 32 (Z.to_N (z + t * 2 ^ 255)) = bs -> z = y /\ t = s) as KU.
  { intros z t Hz Ht E. pose proof (KB z t Hz Ht) as K. rewrite E in K. apply le_number_iff in K as [_ K], HB as [_ HB]. rewrite HB in K.
    set (M := (2 ^ 255)%Z) in *. assert (0 < M)%Z by reflexivity. clearbody M. apply Z2N.inj in K; [|nia | nia]. apply (parts_unique M) in K as [-> ->]; auto. }
  split.
  - intros (bs' & Hne & _ & y' & s' & Hy' & Sy' & Hs' & Px' & HB'). cbn [fst snd] in Sy', Px'. destruct (Z.eq_dec x0 0) as [E0|E0]; [right; exact E0|]. left.
    destruct (Z.lt_ge_cases y0 19) as [Hlt|Hge]; [exact Hlt|]. exfalso. apply Hne. apply KS in Sy; [|exact Hy]. apply KS in Sy'; [|exact Hy'].
    assert (y = y0) as -> by lia. assert (y' = y0) as -> by lia. destruct Px as [Px|Px]; [|lia]. destruct Px' as [Px'|Px']; [|lia]. subst s s'.
    apply le_number_bytes in HB as [-> _], HB' as [-> _]. reflexivity.
  - intros [Hlt|E0].
    + set (y' := (if Z.eq_dec y y0 then y0 + ed_p else y0)%Z). assert (0 <= y' < 2 ^ 255)%Z as Hy' by (unfold y'; destruct (Z.eq_dec y y0); lia).
      assert (y' <> y) as Hne. { unfold y'. pose proof ed_p_big. apply KS in Sy; [|exact Hy]. destruct (Z.eq_dec y y0); lia. }
      exists (le_bytes 32 (Z.to_N (y' + s * 2 ^ 255))). split; [intros E; apply KU in E as [E _]; auto|].
      split; [exact HA|]. exists y', s. split; [exact Hy'|]. cbn [fst snd]. split; [apply KS; [exact Hy' | unfold y'; destruct (Z.eq_dec y y0); auto]|].
      split; [exact Hs|]. split; [exact Px | apply KB; assumption].
    + set (s' := (1 - s)%Z). assert (s' = 0 \/ s' = 1)%Z as Hs' by (unfold s'; lia).
      exists (le_bytes 32 (Z.to_N (y + s' * 2 ^ 255))). split; [intros E; apply KU in E as [_ E]; unfold s' in *; lia|].
      split; [exact HA|]. exists y, s'. cbn [fst snd]. split; [exact Hy|]. split; [exact Sy|]. split; [exact Hs'|]. split; [right; exact E0 | apply KB; assumption].
Qed.
Lemma universal_token ab A : point_name ab A -> multiple A 8 (0, 1)%Z -> exists sig, forall H slice u st,
  registered slice [xed; x01] (bytes_to_ed25519_key (ed25519_zebra H)) -> with_parser slice st ->
  p_iss (u_payload u) = did_key_text ([xed; x01] ++ ab) -> u_signature u = sig -> fst (check_signature u st) = Ok tt.
Proof.
  intros HA H8. destruct (proj2 (universal_iff ab) (ex_intro _ A (conj HA H8))) as [sig K]. exists sig. intros H slice u st Hr Hp Hi Es.
  apply (ed_token H slice ab u st Hr Hp Hi). rewrite Es. apply K.
Qed.
Lemma seed_order H seed s prefix ab A n : ed_key_pair H seed s prefix ab -> point_name ab A ->
  (0 < n)%N -> (Z.of_N n < l25519)%Z -> ~ multiple A n (0, 1)%Z.
Proof.
  intros K HA H0 Hn. apply (honest_order H seed s prefix ab A n K HA). rewrite l25519_eq, <- lN_Z in Hn. rewrite N.mod_small by lia. lia.
Qed.
Lemma names_points : (forall bs A A', point_name bs A -> point_name bs A' -> A = A') /\
  (forall A, curve_point A -> exists bs, point_text bs A /\ point_name bs A).
Proof.
  split.
  - intros bs A A' HA HA'. destruct (name_point _ _ HA) as [P ->]. destruct (name_point _ _ HA') as [P' ->]. f_equal. exact (point_name_fun _ _ _ HA HA').
  - intros A HA. pose proof (curve_sp A HA) as [P ->]. 
    assert (exists bs, point_text bs (sp P)) as [bs K]; [|exists bs; split; [exact K | apply point_text_name, K]].
    assert (good (zv (fst (cp P)), zv (snd (cp P)), 1, f_mul (zv (fst (cp P))) (zv (snd (cp P))))%Z P) as HG.
    { apply good_affine; [apply zv_range | apply zv_range | apply small_mod | rewrite !phi_zv; apply surjective_pairing | apply phi_f_mul]. }
    eexists. exact (compress_text _ _ HG).
Qed.

(** With a key pair, the first halves are the names of the points that are a multiple of the base up to order eight. *)
Lemma base_minus n : cadd (ctimes n cbase) (ctimes (n * (lN - 1)) cbase) = czero.
Proof.
  rewrite <- ctimes_add. replace (n + n * (lN - 1))%N with (n * lN)%N by (pose proof lN_pos; nia). rewrite ctimes_mul, base_order. apply ctimes_zero.
Qed.
Lemma first_halves H seed s prefix ab data rb : ed_key_pair H seed s prefix ab -> length rb = 32%nat ->
  (exists sb, zip215 H ab data (rb ++ sb)) <->
  (exists R B r X, point_name rb R /\ base_point B /\ multiple R 8 X /\ multiple B (8 * r) X).
Proof.
  intros K Hrb. destruct (pair_name _ _ _ _ _ K) as [HN _]. pose proof lN_pos as Hl. set (k := ed_scalar H (rb ++ ab ++ data)). split.
  - intros [sb HZ]. apply (zip215_core _ _ _ _ _ HN) in HZ as (rb' & sb' & E & R & Hl' & HR & Hlt & HE).
    destruct (halves _ _ _ _ E (name_length _ _ HR)) as [E1 _]. destruct (halves _ rb sb 32 eq_refl Hrb) as [E2 _]. rewrite <- E2 in E1. subst rb'. fold k in HE.
    exists (sp R), (sp cbase), (le_value sb' + k * s * (lN - 1))%N, (sp (ctimes 8 R)). split; [exact HR|]. split; [apply base_point_iff; reflexivity|].
    split; [apply multiple_iff; reflexivity|]. apply multiple_iff. f_equal.
    rewrite N.mul_add_distr_l, ctimes_add, HE, cadd_assoc. rewrite !ctimes_mul, <- ctimes_cadd, <- !ctimes_mul, base_minus, ctimes_zero.
    symmetry. apply cadd_0_r.
  - intros (R' & B & r & X & HR & HB & HX & HX'). destruct (name_point _ _ HR) as [R ->]. apply base_point_iff in HB as ->.
    apply multiple_iff in HX, HX'. rewrite HX in HX'. apply sp_inj in HX'. set (n := ((r + k * s) mod lN)%N). assert (n < lN)%N as Hn by (apply N.mod_lt; lia).
    assert (le_number 32 n (le_bytes 32 n)) as HB by (apply le_number_bytes; split; [reflexivity | apply le32_bound, Hn]). apply le_number_iff in HB as [HB1 HB2].
    exists (le_bytes 32 n). apply (zip215_core _ _ _ _ _ HN). exists rb, (le_bytes 32 n). split; [reflexivity|]. exists R. rewrite HB2.
    split; [exact HB1|]. split; [exact HR|]. split; [exact Hn|]. fold k. rewrite HX'. unfold n. rewrite !ctimes_mul, <- ctimes_cadd, lN_mod. f_equal.
    rewrite ctimes_add, ctimes_mul. reflexivity.
Qed.
