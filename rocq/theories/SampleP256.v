(** Samples for C144-C149: the base point as a key. *)
From Verif Require Import Prelude Ord SMap Base58 BaseN Value Cbor Ext Json Capability Semantics Key KeySupport Der Sha256 Sha512 RsaSign Ed25519 P256 Ucan Builder Store Chain
  Spec SpecWire SpecCbor SpecSha SpecSha512 SpecDer SpecRsa SpecTwin SpecEd SpecP256 OrdFacts CborFacts DidFacts SignFacts DerFacts ShaFacts Sha512Facts RsaFacts TwinFacts EdFacts
  P256OrderFacts P256FieldFacts P256PointFacts P256ModelFacts P256Facts P256TokenFacts Samples SampleRsa.
Local Open Scope Z_scope.

(** The key 1, and the nonce 1 for every text. *)
Definition one_pub : Z * Z := (p256_gx, p256_gy).
Definition one_nonce (d : N) (data : bytes) : N := 1.
Definition one_key : key := p256_material one_nonce one_pub (Some (mkQPriv 1 one_pub)).
Lemma one_pair : p256_key_pair 1 one_pub.
Proof. apply key_pair_iff. split; [reflexivity|]. split; [reflexivity|]. rewrite qtimes_1. exact pp_base. Qed.
Lemma one_range data : (0 < one_nonce 1 data)%N /\ Z.of_N (one_nonce 1 data) < p256_order.
Proof. split; reflexivity. Qed.

(** Its three names. *)
Definition gx_text : bytes := be_bytes 32 (Z.to_N p256_gx).
Definition one_text : bytes := x03 :: gx_text.
Definition one_long : bytes := x04 :: gx_text ++ be_bytes 32 (Z.to_N p256_gy).
Definition one_short : bytes := x05 :: gx_text.
Lemma gx_number : be_number 32 (Z.to_N p256_gx) gx_text.
Proof. apply be_number_iff. split; reflexivity. Qed.
Lemma one_compressed : compressed_name one_pub one_text.
Proof. exists gx_text. split; [exact gx_number | reflexivity]. Qed.
Lemma one_names : p256_name one_pub one_text /\ p256_name one_pub one_long /\ p256_name one_pub one_short.
Proof.
  pose proof (key_pair_pair _ _ one_pair) as HP. split; [|split].
  - split; [exact HP|]. left. exact one_compressed.
  - split; [exact HP|]. right. left. exists gx_text, (be_bytes 32 (Z.to_N p256_gy)). split; [exact gx_number|]. split; [apply be_number_iff; split; reflexivity | reflexivity].
  - split; [exact HP|]. right. right. split; [reflexivity|]. exists gx_text. split; [exact gx_number | reflexivity].
Qed.
Lemma two_dids : exists nonce bs bs' P k k' d, p256_name P bs /\ p256_name P bs' /\ bytes_to_p256_key (p256_crate nonce) bs = Ok k /\
  bytes_to_p256_key (p256_crate nonce) bs' = Ok k' /\ key_did k = Ok d /\ key_did k' = Ok d /\
  did_key_text ([x80; x24] ++ bs) <> did_key_text ([x80; x24] ++ bs') /\ key_did k' <> Ok (did_key_text ([x80; x24] ++ bs')).
Proof.
  destruct one_names as (H1 & H2 & _). exists one_nonce, one_text, one_long, one_pub.
  destruct (p256_keys one_nonce one_text) as (K1 & _ & V1). destruct (p256_keys one_nonce one_long) as (K2 & _ & V2).
  destruct (proj2 K1 (ex_intro (fun P => p256_name P one_text) _ H1)) as [k Hk]. destruct (proj2 K2 (ex_intro (fun P => p256_name P one_long) _ H2)) as [k' Hk'].
  exists k, k', (did_key_text ([x80; x24] ++ one_text)). split; [exact H1|]. split; [exact H2|]. split; [exact Hk|]. split; [exact Hk'|].
  pose proof (proj1 (V1 k _ Hk H1) _ one_compressed) as D1. pose proof (proj1 (V2 k' _ Hk' H2) _ one_compressed) as D2.
  split; [exact D1|]. split; [exact D2|].
  assert (did_key_text ([x80; x24] ++ one_text) <> did_key_text ([x80; x24] ++ one_long)) as Hne.
  { intros E. apply did_key_text_inj in E. apply (f_equal (fun l => nth 2 l x00)) in E. cbn in E. discriminate E. }
  split; [exact Hne|]. rewrite D2. intros E. apply Hne. congruence.
Qed.

(** What it signs. *)
Local Opaque sha256 be_value.
Lemma same_start (a b c d : bytes) : length a = length c -> a ++ b = c ++ d -> a = c /\ b = d.
Proof.
  revert c. induction a as [|x a IH]; intros [|y c] Hl E; try discriminate; [auto|]. cbn [app] in E. injection E as <- E.
  destruct (IH c) as [<- <-]; [injection Hl as Hl; exact Hl | exact E | auto].
Qed.
Definition one_s (data : bytes) : Z := (Z.of_N (be_value (sha256 data)) + p256_gx) mod p256_order.
Definition one_sig (s : Z) : bytes := gx_text ++ be_bytes 32 (Z.to_N s).
Lemma one_signs data : one_s data <> 0 -> p256_signed 1 1 data (one_sig (one_s data)).
Proof.
  intros H0. assert (0 <= one_s data < p256_order) as Hb by (apply Z.mod_pos_bound; reflexivity).
  exists (be_value (sha256 data)), p256_gx, p256_gy, (Z.to_N p256_gx), (Z.to_N (one_s data)), 1, gx_text, (be_bytes 32 (Z.to_N (one_s data))).
  split; [apply message_iff; reflexivity|]. split; [rewrite <- pp_base; apply p_multiple_iff; rewrite qtimes_1; symmetry; exact pp_base|].
  split; [reflexivity|]. split; [reflexivity|]. split; [rewrite Z2N.id by (clear -Hb; lia); unfold one_s; rewrite Z.mul_1_l, Z.mul_1_r; reflexivity|].
  split; [reflexivity|]. split; [lia|]. split; [exact gx_number|]. split; [|reflexivity]. apply be_number_iff. split; [reflexivity|].
  assert (p256_order < Z.of_N (256 ^ 32)) by reflexivity. change (N.of_nat 32) with 32%N. lia.
Qed.
(** All its signatures that begin so. *)
Lemma one_all data s : one_s data <> 0 -> 0 <= s < 2 ^ 256 -> (p256_signature one_pub data (one_sig s) <-> s = one_s data \/ s = p256_order - one_s data).
Proof.
  intros H0 Hs. assert (0 <= one_s data < p256_order) as Hb by (apply Z.mod_pos_bound; reflexivity).
  assert (p256_signature one_pub data (one_sig (one_s data))) as H.
  { apply (signature_nonces 1 one_pub data _ one_pair). exists 1%N. split; [reflexivity|]. split; [reflexivity|]. apply one_signs, H0. }
  assert (forall v, 0 <= v < 2 ^ 256 -> be_number 32 (Z.to_N v) (be_bytes 32 (Z.to_N v))) as HB.
  { intros v Hv. apply be_number_iff. split; [reflexivity|]. change (256 ^ N.of_nat 32)%N with (Z.to_N (2 ^ 256)). lia. }
  assert (p256_order < 2 ^ 256) as Hpo by reflexivity.
  assert (forall v, 0 <= v < 2 ^ 256 -> p256_signature one_pub data (one_sig v) <-> p256_pair one_pub (be_value (sha256 data)) (Z.to_N p256_gx) (Z.to_N v)) as K.
  { intros v Hv. split.
    - intros (z & r & w & rb & sb & Hz & Hr & Hw & E & HQ). apply message_iff in Hz. subst z.
      assert (length gx_text = length rb) as El by (destruct Hr as [-> _]; reflexivity). destruct (same_start _ _ _ _ El E) as [<- <-].
      rewrite (number_fun _ _ _ _ Hr gx_number), (number_fun _ _ _ _ Hw (HB v Hv)) in HQ. exact HQ.
    - intros HQ. exists (be_value (sha256 data)), (Z.to_N p256_gx), (Z.to_N v), gx_text, (be_bytes 32 (Z.to_N v)).
      split; [apply message_iff; reflexivity|]. split; [exact gx_number|]. split; [apply HB, Hv|]. split; [reflexivity | exact HQ]. }
  rewrite (K s Hs). apply K in H; [|lia].
  rewrite (same_r one_pub _ _ _ (Z.to_N s) (key_pair_pair _ _ one_pair) H ltac:(discriminate)). rewrite !Z2N.id by lia. lia.
Qed.

(** A token it signed. *)
Definition one_did : bytes := did_key_text ([x80; x24] ++ one_text).
Definition one_slice : list (bytes * ctor) := [([x80; x24], bytes_to_p256_key (p256_crate one_nonce))].
Definition one_state : vstate := mkState (did_parser_new one_slice) 0 0 0.
Definition one_signable : signable := mkSignable one_key (did_of bob) [mail "a@x" "email/send" (VObj [])] None None [] [] false.
Definition one_ucan : ucan := Eval vm_compute in match sign sample_ext [] one_signable with Ok u => u | _ => no_ucan end.
Definition with_sig (u : ucan) (g : bytes) : ucan := mkUcan (u_header u) (u_payload u) (u_signed_data u) g.
Lemma one_made : sign sample_ext [] one_signable = Ok one_ucan.
Proof. vm_compute. reflexivity. Qed.
Lemma one_issuer : p_iss (u_payload one_ucan) = one_did.
Proof. vm_compute. reflexivity. Qed.
Lemma one_registered : registered one_slice [x80; x24] (bytes_to_p256_key (p256_crate one_nonce)).
Proof. exists [], []. split; [reflexivity | intros []]. Qed.
Lemma one_parser : with_parser one_slice one_state.
Proof. exists []. reflexivity. Qed.
Lemma one_accepted : fst (check_signature one_ucan one_state) = Ok tt.
Proof.
  exact (proj1 (fresh_p256 one_nonce 1 one_pub sample_ext [] one_signable one_ucan one_slice one_state one_pair one_range eq_refl one_made one_registered one_parser)).
Qed.
Lemma one_value : u_signature one_ucan = one_sig (one_s (u_signed_data one_ucan)) /\ one_s (u_signed_data one_ucan) <> 0.
Proof. split; vm_compute; [reflexivity | discriminate]. Qed.
(** With another second half. *)
Lemma one_others s : 0 <= s < 2 ^ 256 ->
  (fst (check_signature (with_sig one_ucan (one_sig s)) one_state) = Ok tt <-> s = one_s (u_signed_data one_ucan) \/ s = p256_order - one_s (u_signed_data one_ucan)).
Proof.
  intros Hs. rewrite (p256_token one_nonce one_slice one_text (with_sig one_ucan (one_sig s)) one_state one_registered one_parser one_issuer).
  cbn [with_sig u_signed_data u_signature]. rewrite <- (one_all _ s (proj2 one_value) Hs). split.
  - intros (P & HP & H). rewrite (name_point _ _ _ (proj1 one_names) HP). exact H.
  - intros H. exists one_pub. split; [apply one_names | exact H].
Qed.

(** A token of a seed, with SHA-512. *)
Definition seed_key (seed : bytes) : key := ed25519_material sha512 (es_pub (ed_signing_key sha512 seed)) (Some (ed_signing_key sha512 seed)).
Definition seed_slice : list (bytes * ctor) := [([xed; x01], bytes_to_ed25519_key (ed25519_zebra sha512))].
Definition seed_signable (seed : bytes) : signable := mkSignable (seed_key seed) (did_of bob) [mail "a@x" "email/send" (VObj [])] None None [] [] false.
Lemma seed_made seed : exists u, sign sample_ext [] (seed_signable seed) = Ok u.
Proof.
  unfold sign, ucan_payload. cbn [s_issuer s_add_nonce s_capabilities s_audience s_expiration s_not_before s_facts s_proofs seed_signable].
  destruct (ed_signing sha512 seed []) as ((sc & prefix & ab & _ & Hd) & _). fold (seed_key seed) in Hd. rewrite Hd. cbn [rbind].
  destruct (caps_of_list [mail "a@x" "email/send" (VObj [])]) as [c| | |] eqn:E; try (vm_compute in E; discriminate E). cbn [rbind].
  match goal with |- context [key_sign (seed_key seed) ?t] => generalize t end. intros data.
  destruct (ed_signing sha512 seed data) as (_ & _ & (sig & Hs) & _). fold (seed_key seed) in Hs. rewrite Hs. cbn [rbind]. eexists. reflexivity.
Qed.

(** A token of the RSA key of 489 bits. *)
Definition rsa_signable : signable :=
  mkSignable (rsa_material true (small_n, 3%N) (Some (mkRsaPriv small_n 3 small_d))) (did_of bob) [mail "a@x" "email/send" (VObj [])] None None [] [] false.
Lemma rsa_made : exists u, sign sample_ext [] rsa_signable = Ok u.
Proof.
  unfold sign, ucan_payload. cbn [s_issuer s_add_nonce s_capabilities s_audience s_expiration s_not_before s_facts s_proofs rsa_signable].
  assert (key_did (rsa_material true (small_n, 3%N) (Some (mkRsaPriv small_n 3 small_d))) = Ok small_did) as Hd
    by exact (rsa_did_text rsa_sign (rsa_verify true) sha256 small_n 3 _ small_der small_der_ok).
  rewrite Hd. cbn [rbind]. destruct (caps_of_list [mail "a@x" "email/send" (VObj [])]) as [c| | |] eqn:E; try (vm_compute in E; discriminate E). cbn [rbind].
  match goal with |- context [key_sign ?k ?t] => generalize t end. intros data.
  destruct (material_sign true small_n 3 small_d data) as (_ & _ & H & _). destruct (H small_pair) as [sig Hs]; [vm_compute; discriminate|].
  rewrite Hs. cbn [rbind]. eexists. reflexivity.
Qed.
