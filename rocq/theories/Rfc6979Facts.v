(** Facts about HMAC and RFC 6979 (C158-C159). *)
From Verif Require Import Prelude Ord SMap Value Cbor Ext Json Key KeySupport Sha256 P256 Rfc6979 Ucan Builder Store Chain Spec SpecWire SpecCbor SpecSha SpecTwin SpecP256 SpecRfc6979
  OrdFacts CborFacts ShaFacts SignFacts DidFacts P256FieldFacts P256PointFacts P256ModelFacts P256Facts P256TokenFacts.

(* ------------------------------------------------------------------ HMAC *)

Lemma byte_bits a b : (forall i, (i < 8)%nat -> bit (bN a) i = bit (bN b) i) -> a = b.
Proof.
  intros H. apply bN_inj. apply N.bits_inj. intros n. destruct (N.lt_ge_cases n 8) as [Hn|Hn].
  - specialize (H (N.to_nat n) ltac:(lia)). unfold bit in H. rewrite N2Nat.id in H. exact H.
  - pose proof (bN_bound a). pose proof (bN_bound b).
    assert (forall x, (x < 256)%N -> N.testbit x n = false) as Hz.
    { intros x Hx. destruct (N.eq_dec x 0) as [->|Hx0]; [apply N.bits_0|]. apply N.bits_above_log2. apply N.log2_lt_pow2; [lia|].
      apply N.lt_le_trans with (2 ^ 8)%N; [exact Hx | apply N.pow_le_mono_r; lia]. }
    rewrite !Hz by assumption. reflexivity.
Qed.
Lemma lxor_byte b c : (c < 256)%N -> bN (byteN (N.lxor (bN b) c)) = N.lxor (bN b) c.
Proof.
  intros Hc. rewrite bN_byteN. apply N.mod_small. pose proof (bN_bound b).
  destruct (N.eq_dec (N.lxor (bN b) c) 0) as [->|Hne]; [lia|]. change 256%N with (2 ^ 8)%N. apply N.log2_lt_pow2; [lia|].
  eapply N.le_lt_trans; [apply N.log2_lxor|].
  assert (forall x, (x < 256)%N -> (N.log2 x < 8)%N) as Hl.
  { intros x Hx. destruct (N.eq_dec x 0) as [->|Hx0]; [reflexivity|]. apply N.log2_lt_pow2; [lia | exact Hx]. }
  apply N.max_lub_lt; apply Hl; assumption.
Qed.
Lemma flipped_iff c k k' : (c < 256)%N -> (flipped c k k' <-> k' = map (fun b => byteN (N.lxor (bN b) c)) k).
Proof.
  intros Hc. unfold flipped. split.
  - induction 1 as [|b b' k k' Hb _ IH]; [reflexivity|]. cbn [map]. rewrite <- IH. f_equal. apply byte_bits. intros i Hi.
    rewrite (Hb i Hi), lxor_byte by exact Hc. unfold bit. symmetry. apply N.lxor_spec.
  - intros ->. induction k as [|b k IH]; constructor; [|exact IH]. intros i Hi. rewrite lxor_byte by exact Hc. unfold bit. apply N.lxor_spec.
Qed.
Lemma zeros_repeat (z : byte) l : Forall (eq z) l -> l = repeat z (length l).
Proof. induction 1 as [|x l <- _ IH]; [reflexivity|]. cbn [length repeat]. f_equal. exact IH. Qed.
Lemma repeat_zeros (z : byte) n : Forall (eq z) (repeat z n).
Proof. induction n; constructor; auto. Qed.
Lemma block_key_iff key k : block_key key k <-> let s := if (length key <=? 64)%nat then key else sha256 key in k = s ++ repeat x00 (64 - length s).
Proof.
  unfold block_key. split.
  - intros (s & z & Hs & -> & Hz & Hl). cbv zeta. assert (s = if (length key <=? 64)%nat then key else sha256 key) as <-.
    { destruct Hs as [[H ->] | [H E]]; [apply Nat.leb_le in H as ->; reflexivity|]. apply Nat.leb_gt in H as ->. apply sha256_iff, E. }
    rewrite app_length in Hl. rewrite (zeros_repeat _ _ Hz). do 2 f_equal. lia.
  - cbv zeta. intros ->. exists (if (length key <=? 64)%nat then key else sha256 key). eexists. split; [|split; [reflexivity|]].
    + destruct (Nat.leb_spec (length key) 64) as [H|H]; [left; auto | right; split; [exact H | apply sha256_iff; reflexivity]].
    + split; [apply repeat_zeros|]. rewrite app_length, repeat_length. destruct (Nat.leb_spec (length key) 64) as [H|H]; [lia|].
      pose proof (sha256_length key). lia.
Qed.
Lemma hmac_iff key m d : hmac_of key m d <-> hmac_sha256 key m = d.
Proof.
  unfold hmac_of, hmac_sha256, hmac_pad. split.
  - intros (k & ip & op & inner & Hk & Hi & Ho & Ei & Ed). apply block_key_iff in Hk. cbv zeta in Hk. subst k.
    apply flipped_iff in Hi as ->; [|lia]. apply flipped_iff in Ho as ->; [|lia]. apply sha256_iff in Ei as ->. apply sha256_iff in Ed as ->. reflexivity.
  - intros <-. do 4 eexists. split; [apply block_key_iff; cbv zeta; reflexivity|].
    split; [apply flipped_iff; [lia | reflexivity]|]. split; [apply flipped_iff; [lia | reflexivity]|]. split; apply sha256_iff; reflexivity.
Qed.
Lemma hmac_length key m : length (hmac_sha256 key m) = 32%nat.
Proof. apply sha256_length. Qed.

(* ------------------------------------------------------------------ the generator *)

Local Opaque hmac_sha256.
Lemma seeded_iff seed k v : rfc6979_seeded seed k v <-> drbg_new seed = mkDrbg k v.
Proof.
  unfold rfc6979_seeded, drbg_new, drbg_feed. cbn [dr_k dr_v]. split.
  - intros (k0 & v0 & k1 & v1 & L0 & Z0 & L1 & Z1 & H1 & H2 & H3 & H4). apply zeros_repeat in Z0, Z1. rewrite L0 in Z0. rewrite L1 in Z1. subst k0 v0.
    apply hmac_iff in H1, H2, H3, H4. subst. reflexivity.
  - intros [= <- <-]. exists (repeat x00 32), (repeat x01 32). do 2 eexists. split; [reflexivity|]. split; [apply repeat_zeros|]. split; [reflexivity|].
    split; [apply repeat_zeros|]. split; [apply hmac_iff; reflexivity|]. split; [apply hmac_iff; reflexivity|]. split; apply hmac_iff; reflexivity.
Qed.
Lemma value_number bs : length bs = 32%nat -> be_number 32 (be_value bs) bs.
Proof. intros H. rewrite <- H. apply be_number_value. Qed.

Lemma generate_S fuel g : generate_k (S fuel) g =
  let bs := hmac_sha256 (dr_k g) (dr_v g) in
  if (0 <? be_value bs)%N && (Z.of_N (be_value bs) <? q_n)%Z then Some (be_value bs)
  else generate_k fuel (mkDrbg (hmac_sha256 (dr_k g) (bs ++ [x00])) (hmac_sha256 (hmac_sha256 (dr_k g) (bs ++ [x00])) bs)).
Proof. reflexivity. Qed.
Lemma generate_from fuel : forall k v n, generate_k fuel (mkDrbg k v) = Some n -> rfc6979_from k v n.
Proof.
  induction fuel as [|f IH]; intros k v n; [discriminate|]. rewrite generate_S. cbv zeta. cbn [dr_k dr_v].
  pose proof (value_number _ (hmac_length k v)) as Hn. set (t := hmac_sha256 k v) in *. assert (hmac_of k v t) as Ht by (apply hmac_iff; reflexivity). clearbody t.
  destruct ((0 <? be_value t)%N && (Z.of_N (be_value t) <? q_n)%Z) eqn:E.
  - intros [= <-]. apply andb_true_iff in E as [E1 E2]. apply (RF_found _ _ _ t); [exact Ht | exact Hn | lia | rewrite p256_order_eq; lia].
  - intros H. apply IH in H. eapply RF_next; [exact Ht | exact Hn | | apply hmac_iff; reflexivity | apply hmac_iff; reflexivity | exact H].
    apply andb_false_iff in E as [E|E]; [left; lia | right; rewrite p256_order_eq; lia].
Qed.
Lemma from_generate k v n : rfc6979_from k v n -> exists fuel, forall fuel', (fuel <= fuel')%nat -> generate_k fuel' (mkDrbg k v) = Some n.
Proof.
  induction 1 as [k v n t Ht Hn H0 H1 | k v n t m k' v' Ht Hm Hr Hk Hv _ [f IH]].
  - exists 1%nat. intros [|f'] Hf; [lia|]. rewrite generate_S. cbv zeta. cbn [dr_k dr_v]. apply hmac_iff in Ht as ->.
    destruct Hn as [Hl Hp]. rewrite be_value_place in Hp. rewrite Hp. rewrite p256_order_eq in H1.
    replace ((0 <? n)%N && (Z.of_N n <? q_n)%Z) with true by (symmetry; apply andb_true_iff; split; lia). reflexivity.
  - exists (S f). intros [|f'] Hf; [lia|]. rewrite generate_S. cbv zeta. cbn [dr_k dr_v]. apply hmac_iff in Ht as ->. apply hmac_iff in Hk as ->. apply hmac_iff in Hv as ->.
    destruct Hm as [Hl Hp]. rewrite be_value_place in Hp. rewrite Hp. rewrite p256_order_eq in Hr.
    replace ((0 <? m)%N && (Z.of_N m <? q_n)%Z) with false by (symmetry; apply andb_false_iff; destruct Hr; [left | right]; lia). apply IH. lia.
Qed.

(* ------------------------------------------------------------------ nonces *)

Lemma from_range k v n : rfc6979_from k v n -> (0 < n)%N /\ (Z.of_N n < p256_order)%Z.
Proof. induction 1; auto. Qed.
Lemma from_fun k v n n' : rfc6979_from k v n -> rfc6979_from k v n' -> n = n'.
Proof.
  intros H H'. apply from_generate in H as [f Hf]. apply from_generate in H' as [f' Hf'].
  pose proof (Hf (Nat.max f f') ltac:(lia)) as E. rewrite (Hf' (Nat.max f f') ltac:(lia)) in E. congruence.
Qed.
Lemma order_bound : (0 < Z.to_N q_n < 256 ^ N.of_nat 32)%N.
Proof. split; vm_compute; reflexivity. Qed.
Lemma fed_iff (reduced : bool) data z h : message_number data z ->
  (be_number 32 (if reduced then Z.to_N (Z.of_N z mod p256_order) else z) h <-> h = fed_digest reduced data).
Proof.
  intros Hz. apply message_iff in Hz. pose proof order_bound as [HO HO']. unfold fed_digest. destruct reduced.
  - replace (Z.to_N (Z.of_N z mod p256_order)) with (z mod Z.to_N q_n)%N.
    2:{ rewrite p256_order_eq. apply N2Z.inj. rewrite N2Z.inj_mod, Z2N.id by lia. symmetry. apply Z2N.id. apply Z.mod_pos_bound. lia. }
    rewrite <- Hz. rewrite be_number_iff. split; [intros [-> _]; reflexivity | intros ->]. split; [reflexivity|].
    eapply N.lt_trans; [apply N.mod_lt; lia | exact HO'].
  - rewrite Hz. split.
    + intros [Hl Hv]. rewrite be_value_place in Hv. rewrite <- (be_bytes_value h), <- (be_bytes_value (sha256 data)), Hl, Hv, sha256_length. reflexivity.
    + intros ->. apply value_number, sha256_length.
Qed.
Lemma nonce_unfold reduced d data n : (d < 256 ^ N.of_nat 32)%N ->
  (rfc6979_nonce reduced d data n <-> exists k v, drbg_new (be_bytes 32 d ++ fed_digest reduced data) = mkDrbg k v /\ rfc6979_from k v n).
Proof.
  intros Hd. unfold rfc6979_nonce. split.
  - intros (x & h & z & k & v & Hx & Hz & Hh & Hs & Hf). apply be_number_iff in Hx as [-> _]. apply (fed_iff _ _ _ _ Hz) in Hh as ->.
    exists k, v. split; [apply seeded_iff, Hs | exact Hf].
  - intros (k & v & Hs & Hf). assert (message_number data (be_value (sha256 data))) as Hz by (apply message_iff; reflexivity).
    exists (be_bytes 32 d), (fed_digest reduced data), (be_value (sha256 data)), k, v. split; [apply be_number_iff; auto|]. split; [exact Hz|].
    split; [apply (fed_iff _ _ _ _ Hz); reflexivity|]. split; [apply seeded_iff, Hs | exact Hf].
Qed.
(** The nonce computed is the one of the RFC; if there is one, enough fuel finds it. *)
Lemma nonce_found reduced fuel d data : (d < 256 ^ N.of_nat 32)%N -> rfc_nonce reduced fuel d data <> 0%N -> rfc6979_nonce reduced d data (rfc_nonce reduced fuel d data).
Proof.
  intros Hd. rewrite (nonce_unfold _ _ _ _ Hd). unfold rfc_nonce. destruct (drbg_new _) as [k v] eqn:Es. intros Hn. exists k, v. split; [reflexivity|].
  destruct (generate_k fuel (mkDrbg k v)) as [n|] eqn:E; [|congruence]. apply (generate_from _ _ _ _ E).
Qed.
Lemma nonce_complete reduced d data n : (d < 256 ^ N.of_nat 32)%N -> rfc6979_nonce reduced d data n ->
  exists fuel, forall fuel', (fuel <= fuel')%nat -> rfc_nonce reduced fuel' d data = n.
Proof.
  intros Hd. rewrite (nonce_unfold _ _ _ _ Hd). intros (k & v & Hs & Hf). apply from_generate in Hf as [f Hf]. exists f. intros f' Hf'.
  unfold rfc_nonce. rewrite Hs, (Hf f' Hf'). reflexivity.
Qed.
Lemma nonce_iff reduced d data n : (d < 256 ^ N.of_nat 32)%N ->
  (rfc6979_nonce reduced d data n <-> n <> 0%N /\ exists fuel, forall fuel', (fuel <= fuel')%nat -> rfc_nonce reduced fuel' d data = n).
Proof.
  intros Hd. split.
  - intros H. split; [|apply nonce_complete; assumption]. apply (nonce_unfold _ _ _ _ Hd) in H as (k & v & _ & Hf). apply from_range in Hf. lia.
  - intros (Hn & fuel & Hf). specialize (Hf fuel (le_n _)). rewrite <- Hf in Hn |- *. apply nonce_found; assumption.
Qed.
Lemma nonce_one reduced d data n n' : rfc6979_nonce reduced d data n -> rfc6979_nonce reduced d data n' -> n = n'.
Proof.
  intros H H'. assert (d < 256 ^ N.of_nat 32)%N as Hd by (destruct H as (x & _ & _ & _ & _ & Hx & _); apply be_number_iff in Hx; tauto).
  apply (nonce_unfold _ _ _ _ Hd) in H as (k & v & Hs & Hf). apply (nonce_unfold _ _ _ _ Hd) in H' as (k' & v' & Hs' & Hf').
  rewrite Hs in Hs'. injection Hs' as <- <-. eapply from_fun; eassumption.
Qed.
Lemma nonce_range reduced d data n : rfc6979_nonce reduced d data n -> (0 < n)%N /\ (Z.of_N n < p256_order)%Z.
Proof. intros (x & h & z & k & v & _ & _ & _ & _ & H). apply (from_range _ _ _ H). Qed.

(* ------------------------------------------------------------------ signatures *)

Lemma scalar_bound d P : p256_key_pair d P -> (d < 256 ^ N.of_nat 32)%N.
Proof. intros (_ & H & _). rewrite p256_order_eq in H. pose proof order_bound. lia. Qed.
Lemma no_nonce_no_signature nonce d P data sig : nonce d data = 0%N -> key_sign (p256_material nonce P (Some (mkQPriv d P))) data <> Ok sig.
Proof.
  intros E. cbn [key_sign p256_material p256_key km_sign cr_sign p256_crate]. unfold q_sign. cbn [qs_scalar]. rewrite E. cbn [q_times ok_or]. discriminate.
Qed.
Lemma rfc_signs reduced fuel d P data sig : p256_key_pair d P -> key_sign (p256_material (rfc_nonce reduced fuel) P (Some (mkQPriv d P))) data = Ok sig ->
  exists k, rfc6979_nonce reduced d data k /\ p256_signed d k data sig.
Proof.
  intros HK H. set (nonce := rfc_nonce reduced fuel) in *. pose proof (scalar_bound _ _ HK) as Hd.
  destruct (N.eq_dec (nonce d data) 0) as [E|Hne]; [destruct (no_nonce_no_signature _ _ P data sig E H)|].
  pose proof (nonce_found reduced fuel d data Hd Hne) as Hr. fold nonce in Hr. destruct (nonce_range _ _ _ _ Hr) as [H0 H1].
  exists (nonce d data). split; [exact Hr|]. apply (p256_scalars nonce d P data HK H0 H1), H.
Qed.
Lemma rfc_signs_enough reduced d P data k sig : p256_key_pair d P -> rfc6979_nonce reduced d data k -> p256_signed d k data sig ->
  exists fuel, forall fuel', (fuel <= fuel')%nat -> key_sign (p256_material (rfc_nonce reduced fuel') P (Some (mkQPriv d P))) data = Ok sig.
Proof.
  intros HK Hk Hs. pose proof (scalar_bound _ _ HK) as Hd. destruct (nonce_complete _ _ _ _ Hd Hk) as [f Hf]. exists f. intros f' Hf'.
  specialize (Hf f' Hf'). destruct (nonce_range _ _ _ _ Hk) as [H0 H1]. rewrite <- Hf in H0, H1, Hs. apply (p256_scalars (rfc_nonce reduced f') d P data HK H0 H1), Hs.
Qed.
Lemma rfc_signs_once reduced fuel fuel' d P data sig sig' : p256_key_pair d P -> key_sign (p256_material (rfc_nonce reduced fuel) P (Some (mkQPriv d P))) data = Ok sig ->
  key_sign (p256_material (rfc_nonce reduced fuel') P (Some (mkQPriv d P))) data = Ok sig' -> sig = sig'.
Proof.
  intros HK H H'. destruct (rfc_signs _ _ _ _ _ _ HK H) as (k & Hk & Hs). destruct (rfc_signs _ _ _ _ _ _ HK H') as (k' & Hk' & Hs').
  rewrite <- (nonce_one _ _ _ _ _ Hk Hk') in Hs'. destruct (nonce_range _ _ _ _ Hk) as [H0 H1].
  apply (p256_scalars (fun _ _ => k) d P data HK H0 H1) in Hs, Hs'. congruence.
Qed.
Lemma rfc_verifies reduced fuel d P data sig : p256_key_pair d P -> key_sign (p256_material (rfc_nonce reduced fuel) P (Some (mkQPriv d P))) data = Ok sig ->
  p256_signature P data sig.
Proof.
  intros HK H. destruct (rfc_signs _ _ _ _ _ _ HK H) as (k & Hk & Hs). apply (signature_nonces d P data sig HK). exists k.
  destruct (nonce_range _ _ _ _ Hk). auto.
Qed.
Lemma fresh_rfc reduced fuel d P X rng s u slice st : p256_key_pair d P ->
  s_issuer s = p256_material (rfc_nonce reduced fuel) P (Some (mkQPriv d P)) -> sign X rng s = Ok u ->
  registered slice [x80; x24] (bytes_to_p256_key (p256_crate (rfc_nonce reduced fuel))) -> with_parser slice st ->
  fst (check_signature u st) = Ok tt /\ forall v, signable_carried X s -> parse_token X (encode X u) = Ok v -> fst (check_signature v st) = Ok tt.
Proof.
  intros HK Hs Hu Hr [dids Hp]. set (nonce := rfc_nonce reduced fuel) in *. pose proof (key_pair_pair _ _ HK) as HP.
  assert (forall dt g, key_sign (s_issuer s) dt = Ok g -> key_verify (p256_material nonce P None) dt g = Ok tt) as HV.
  { intros dt g H. rewrite Hs in H. apply (material_verify nonce P None dt g HP), (rfc_verifies _ _ _ _ _ _ HK H). }
  assert (forall dt, key_did (s_issuer s) = Ok dt -> fst (did_parse (v_parser st) dt) = Ok (p256_material nonce P None)) as HD.
  { intros dt H. rewrite Hs in H. rewrite Hp. apply (p256_roundtrip (p256_crate nonce) P (Some (mkQPriv d P)) (q_encode P) dt slice dids eq_refl); [|exact H | exact Hr].
    apply decode_iff. split; [exact HP|]. left. apply encode_iff; [exact HP | reflexivity]. }
  split; [exact (SignFacts.sign_verifies X rng s u _ st Hu HV HD)|]. intros v Hc Hv. exact (SignFacts.sign_verifies_parsed X rng s u v _ st Hu Hc Hv HV HD).
Qed.
(** The payload is the only thing signed: the token is a function of it. *)
Lemma fresh_rfc_nonce reduced fuel d P X rng s u : p256_key_pair d P ->
  s_issuer s = p256_material (rfc_nonce reduced fuel) P (Some (mkQPriv d P)) -> sign X rng s = Ok u ->
  exists k, rfc6979_nonce reduced d (u_signed_data u) k /\ p256_signed d k (u_signed_data u) (u_signature u).
Proof.
  intros HK Hs Hu. unfold sign in Hu. rewrite Hs in Hu. destruct (match ucan_payload rng s with Err _ => _ | r => r end) as [p| | |]; try discriminate Hu. cbn [rbind] in Hu.
  destruct (key_sign _ _) as [g| | |] eqn:E in Hu; try discriminate Hu. cbn [rbind] in Hu.
  assert (mkUcan (ucan_header s) p (signing_input X (ucan_header s) p) g = u) as <- by congruence. cbn [u_signed_data u_signature]. exact (rfc_signs _ _ _ _ _ _ HK E).
Qed.
