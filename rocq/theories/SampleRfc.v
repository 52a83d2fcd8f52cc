(** Samples for C158-C159: the key of RFC 6979, A.2.5, its signature of "sample", and a token it signed. *)
From Verif Require Import Prelude Ord SMap Base58 BaseN Value Cbor Ext Json Capability Semantics Key KeySupport Sha256 P256 Rfc6979 Ucan Builder Store Chain
  Spec SpecWire SpecCbor SpecSha SpecTwin SpecP256 SpecRfc6979 OrdFacts CborFacts ShaFacts SignFacts P256OrderFacts P256FieldFacts P256PointFacts P256ModelFacts P256Facts P256TokenFacts
  Rfc6979Facts Samples SampleRsa SampleTrails.
Local Open Scope Z_scope.
Local Opaque q_times q_ninv.

Lemma trail_multiple steps x y n : reduced steps = true -> trail steps trail_bx trail_by 1 = Some (x, y, n) -> 0 <= x < q_p -> 0 <= y < q_p ->
  p_multiple p_base (Z.to_N n) (Some (x, y)).
Proof.
  intros Hr H Hx Hy. pose proof q_base_range as [Hbx _].
  destruct (trail_sound steps Hr trail_bx trail_by 1 qbase x y n) as (P & HP & E); [lia | reflexivity | lia | symmetry; exact (qtimes_1 qbase) | exact H|].
  rewrite <- pp_base. apply p_multiple_iff. rewrite <- E. unfold pp. rewrite HP. cbn [gp]. rewrite !qv_small by assumption. reflexivity.
Qed.

(** The key, "sample", the nonce and the signature. *)
Definition rfc_key : N := 0xC9AFA9D845BA75166B5C215767B1D6934E50C3DB36E89B127B8A622B120F6721.
Definition rfc_pub : Z * Z :=
  (0x60FED4BA255A9D31C961EB74C6356D68C049B8923B61FA6CE669622E60F29FB6, 0x7903FE1008B8BC99A41AE9E95628BC64F2F1B20C2D7E9F5177A3C294D4462299).
Definition rfc_k : N := 0xA6E3C57DD01ABE90086538398355DD4C3B17AA873382B0F24D6129493D8AAD60.
Definition rfc_r : N := 0xEFD48B2AACB6A8FD1140DD9CD45E81D69D2C877B56AAF991C34D0EA84EAF3716.
Definition rfc_s : N := 0xF7CB1C942D657C41D436C7A1B6E29F65F3E900DBB9AFF4064DC4AB2F843ACDA8.
Definition rfc_w : Z := 0xaaf7a4c4d10293a89370e2cc3e88ca623e38b5814d37eb5e96ffdea769cfe547.
Definition rfc_sig : bytes := be_bytes 32 rfc_r ++ be_bytes 32 rfc_s.
Lemma rfc_pair : p256_key_pair rfc_key rfc_pub.
Proof.
  split; [reflexivity|]. split; [reflexivity|].
  exact (trail_multiple key_steps key_x key_y key_n key_reduced key_trail ltac:(split; [discriminate | reflexivity]) ltac:(split; [discriminate | reflexivity])).
Qed.
Lemma rfc_nonce_value reduced : rfc_nonce reduced 1 rfc_key (B "sample") = rfc_k.
Proof. destruct reduced; vm_compute; reflexivity. Qed.
Lemma rfc_vector reduced : rfc6979_nonce reduced rfc_key (B "sample") rfc_k.
Proof. rewrite <- (rfc_nonce_value reduced). apply nonce_found; [reflexivity|]. rewrite rfc_nonce_value. discriminate. Qed.
Lemma signed_value d k data x y w r s : p_multiple p_base k (Some (x, y)) -> (Z.of_N k * w) mod p256_order = 1 -> Z.of_N r = x mod p256_order ->
  Z.of_N s = (w * (Z.of_N (be_value (sha256 data)) + Z.of_N r * Z.of_N d)) mod p256_order -> (0 < r < 256 ^ N.of_nat 32)%N -> (0 < s < 256 ^ N.of_nat 32)%N ->
  p256_signed d k data (be_bytes 32 r ++ be_bytes 32 s).
Proof.
  intros HM Hw Hr Hs [H1 H2] [H3 H4]. exists (be_value (sha256 data)), x, y, r, s, w, (be_bytes 32 r), (be_bytes 32 s).
  split; [apply message_iff; reflexivity|]. repeat (split; [assumption|]). split; [apply be_number_iff; auto|]. split; [apply be_number_iff; auto | reflexivity].
Qed.
Lemma rfc_signed : p256_signed rfc_key rfc_k (B "sample") rfc_sig.
Proof.
  apply (signed_value _ _ _ text_x text_y rfc_w).
  - exact (trail_multiple text_steps text_x text_y text_n text_reduced text_trail ltac:(split; [discriminate | reflexivity]) ltac:(split; [discriminate | reflexivity])).
  - vm_compute. reflexivity.
  - vm_compute. reflexivity.
  - vm_compute. reflexivity.
  - split; reflexivity.
  - split; reflexivity.
Qed.
Lemma rfc_model reduced : key_sign (p256_material (rfc_nonce reduced 1) rfc_pub (Some (mkQPriv rfc_key rfc_pub))) (B "sample") = Ok rfc_sig.
Proof.
  pose proof (rfc_nonce_value reduced) as E.
  apply (p256_scalars (rfc_nonce reduced 1) rfc_key rfc_pub (B "sample") rfc_pair); rewrite E; [reflexivity | reflexivity | exact rfc_signed].
Qed.

(** RFC 4231, 4.3 *)
Definition jefe_mac : bytes := be_bytes 32 0x5bdcc146bf60754e6a042426089575c75a003f089d2739839dec58b964ec3843.
Lemma jefe : hmac_of (B "Jefe") (B "what do ya want for nothing?") jefe_mac.
Proof. apply hmac_iff. vm_compute. reflexivity. Qed.

(** A token. *)
Definition rfc_material : key := p256_material (rfc_nonce false 1) rfc_pub (Some (mkQPriv rfc_key rfc_pub)).
Definition rfc_signable : signable := mkSignable rfc_material (did_of bob) [mail "a@x" "email/send" (VObj [])] None None [] [] false.
Definition rfc_payload : payload := Eval vm_compute in match ucan_payload [] rfc_signable with Ok p => p | _ => u_payload no_ucan end.
Definition rfc_data : bytes := Eval vm_compute in signing_input sample_ext (ucan_header rfc_signable) rfc_payload.
Definition rfc_token_sig : bytes :=
  be_bytes 32 0x3e8993871659a770a73a9b66cf07965439220c9fba377e4cf3df5ab784a637ba ++ be_bytes 32 0x3b56483cc57ebb34a63c1ae0d54587f6498a607a36f6292b5112201b75323044.
Definition rfc_ucan : ucan := mkUcan (ucan_header rfc_signable) rfc_payload rfc_data rfc_token_sig.
Lemma rfc_token_signed : p256_signed rfc_key (Z.to_N token_n) rfc_data rfc_token_sig.
Proof.
  apply (signed_value _ _ _ token_x token_y 0x43eb4bd4626a8319ea8d9d2946b3a5876e782f93de7be97f7e6d8ae593b58a1b).
  - exact (trail_multiple token_steps token_x token_y token_n token_reduced token_trail ltac:(split; [discriminate | reflexivity]) ltac:(split; [discriminate | reflexivity])).
  - vm_compute. reflexivity.
  - vm_compute. reflexivity.
  - vm_compute. reflexivity.
  - split; reflexivity.
  - split; reflexivity.
Qed.
Lemma rfc_made : sign sample_ext [] rfc_signable = Ok rfc_ucan.
Proof.
  assert (ucan_payload [] rfc_signable = Ok rfc_payload) as E1 by (vm_compute; reflexivity).
  assert (signing_input sample_ext (ucan_header rfc_signable) rfc_payload = rfc_data) as E2 by (vm_compute; reflexivity).
  assert (rfc_nonce false 1 rfc_key rfc_data = Z.to_N token_n) as E by (vm_compute; reflexivity).
  assert (key_sign rfc_material rfc_data = Ok rfc_token_sig) as E3.
  { apply (p256_scalars (rfc_nonce false 1) rfc_key rfc_pub rfc_data rfc_pair); rewrite E; [reflexivity | reflexivity | exact rfc_token_signed]. }
  unfold sign. rewrite E1. cbn [rbind]. rewrite E2. change (s_issuer rfc_signable) with rfc_material. rewrite E3. reflexivity.
Qed.
Definition rfc_slice : list (bytes * ctor) := [([x80; x24], bytes_to_p256_key (p256_crate (rfc_nonce false 1)))].
Definition rfc_state : vstate := mkState (did_parser_new rfc_slice) 0 0 0.
Lemma rfc_registered : registered rfc_slice [x80; x24] (bytes_to_p256_key (p256_crate (rfc_nonce false 1))).
Proof. exists [], []. split; [reflexivity | intros []]. Qed.
Lemma rfc_parser : with_parser rfc_slice rfc_state.
Proof. exists []. reflexivity. Qed.
