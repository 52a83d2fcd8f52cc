(** Proofs about P-256: the group of points, second signatures, names, and tokens (C145-C149). *)
From Coq Require Import ZArith.Znumtheory.
From Verif Require Import Prelude Ord SMap Base58 BaseN Value Cbor Ext Capability Semantics Json Key KeySupport Der Sha256 Sha512 RsaSign Ed25519 P256 Ucan Builder Store Chain
  Spec SpecWire SpecCbor SpecSha SpecSha512 SpecDer SpecRsa SpecTwin SpecEd SpecP256 OrdFacts CborFacts DidFacts SignFacts DerFacts RsaFacts TwinFacts EdFacts Sha512Facts
  P256PrimeFacts P256OrderFacts P256FieldFacts P256PointFacts P256ModelFacts P256Facts.
Local Open Scope Z_scope.
Local Opaque q_ninv q_times q_plus be_value sha256 qtimes qadd firstn skipn.

(* ---------------------------------------------------------------- the group *)

Definition p_group : ec_group :=
  mkGroup qpt qadd qzero qneg qbase nN (fun P => match pp P with None => None | Some (x, _) => Some (Z.to_N x) end).
Lemma group_times n P : g_times p_group n P = qtimes n P.
Proof. reflexivity. Qed.
Lemma pp_neg P : match pp (qneg P) with None => None | Some (x, _) => Some (Z.to_N x) end = match pp P with None => None | Some (x, _) => Some (Z.to_N x) end.
Proof. unfold pp. cbn [qneg qp]. destruct (qp P) as [[x y]|]; reflexivity. Qed.
Lemma group_laws : ec_laws p_group.
Proof.
  unfold ec_laws. cbn [p_group g_point g_add g_zero g_neg g_base g_order g_first]. split; [intros P Q R; symmetry; apply qadd_assoc|].
  split; [exact qadd_comm|]. split; [exact qadd_0_l|]. split; [exact qadd_neg|]. split; [intros P; rewrite group_times; apply all_order|].
  split; [exact pp_neg|]. split; [|unfold nN; split; [reflexivity | discriminate]].
  exists (N.div2 nN). vm_compute. reflexivity.
Qed.
Lemma on_dec (P : gpt) : {gon P} + {~ gon P}.
Proof. destruct P as [[x y]|]; [apply QF_dec | left; exact I]. Qed.
Definition point_of (xy : Z * Z) : qpt :=
  match on_dec (Some (psi (fst xy), psi (snd xy))) with left H => mkQpt _ H | right _ => qzero end.
Lemma point_of_pp xy : p_pair xy -> pp (point_of xy) = Some xy.
Proof.
  destruct xy as [x y]. intros H. apply p_pair_iff in H as (Hx & Hy & H). unfold point_of. cbn [fst snd]. destruct (on_dec _) as [K|K]; [|contradiction].
  unfold pp. cbn [qp gp]. rewrite !qv_small by assumption. reflexivity.
Qed.
Lemma group_mod a P : qtimes (a mod nN)%N P = ztimes (Z.of_N a) P.
Proof. unfold ztimes. f_equal. rewrite <- nN_Z, <- N2Z.inj_mod, N2Z.id. reflexivity. Qed.
Lemma group_pair xy z r s : p_pair xy -> (ecdsa_pair p_group (point_of xy) z r s <-> p256_pair xy z r s).
Proof.
  intros HP. rewrite (pair_core xy (point_of xy) z r s (point_of_pp xy HP)). unfold ecdsa_pair, vcore. cbn [p_group g_order g_first g_add g_base].
  pose proof nN_Z as HN. pose proof q_n_big as Hn. split.
  - intros (Hr & Hs & w & x & Hw & Hx & Em). split; [lia|]. split; [lia|]. split; [lia|]. split; [lia|]. exists (Z.of_N w).
    split; [rewrite <- N2Z.inj_mul, <- HN, <- N2Z.inj_mod, Hw; reflexivity|].
    rewrite !group_times, !group_mod, !N2Z.inj_mul in Hx. destruct (pp (qadd _ _)) as [[x' y']|] eqn:E; [|discriminate]. exists x', y'. split; [reflexivity|].
    assert (Z.to_N x' = x) as <- by congruence. assert (p_pair (x', y')) as Hp by exact (pp_point _ _ E). apply p_pair_iff in Hp as (Hx0 & _).
    rewrite <- Em, N2Z.inj_mod, Z2N.id, HN by lia. reflexivity.
  - intros (Hr0 & Hr & Hs0 & Hs & w & Hw & x & y & H & Hx). split; [lia|]. split; [lia|].
    assert (p_pair (x, y)) as Hp by exact (pp_point _ _ H). apply p_pair_iff in Hp as (Hx0 & _).
    pose proof (Z.mod_pos_bound w q_n ltac:(lia)) as Hb. exists (Z.to_N (w mod q_n)), (Z.to_N x). split; [|split].
    + apply N2Z.inj. rewrite N2Z.inj_mod, N2Z.inj_mul, Z2N.id, HN, Z.mul_mod_idemp_r by lia. exact Hw.
    + rewrite !group_times, !group_mod, !N2Z.inj_mul, Z2N.id by lia.
      rewrite (ztimes_eq (Z.of_N z * (w mod q_n)) (Z.of_N z * w)), (ztimes_eq (Z.of_N r * (w mod q_n)) (Z.of_N r * w)) by (apply Z.mul_mod_idemp_r; lia).
      rewrite H. reflexivity.
    + apply N2Z.inj. rewrite N2Z.inj_mod, Z2N.id, HN by lia. exact Hx.
Qed.
Lemma group_signature xy data sig : p_pair xy -> (ecdsa_signature p_group (point_of xy) data sig <-> p256_signature xy data sig).
Proof.
  intros HP. unfold ecdsa_signature, p256_signature, message_number. split.
  - intros (d & z & rb & r & sb & s & Hd & Hz & Hr & Hs & E & H). exists z, r, s, rb, sb. apply (group_pair _ _ _ _ HP) in H. split; [exists d; auto | auto].
  - intros (z & r & s & rb & sb & (d & Hd & Hz) & Hr & Hs & E & H). exists d, z, rb, r, sb, s. apply (group_pair _ _ _ _ HP) in H. auto 8.
Qed.
Lemma p256_ecdsa nonce : ecdsa_crypto (p256_crate nonce).
Proof.
  exists p_group, point_of. split; [exact group_laws|]. intros b pk data sig Hb. cbn [cr_decode p256_crate] in Hb. apply decode_iff in Hb as [HP _].
  rewrite (group_signature _ _ _ HP). apply (verify_iff pk data sig HP).
Qed.

(* ---------------------------------------------------------------- the signatures with the same first half *)

Lemma same_x k k' x y y' : pp (qtimes k qbase) = Some (x, y) -> pp (qtimes k' qbase) = Some (x, y') -> (0 < k)%N -> Z.of_N k < q_n -> (0 < k')%N -> Z.of_N k' < q_n ->
  k' = k \/ Z.of_N k + Z.of_N k' = q_n.
Proof.
  intros H H' Hk0 Hk Hk0' Hk'. pose proof nN_Z as HN.
  assert (qtimes k qbase = qtimes k' qbase \/ qtimes k qbase = qneg (qtimes k' qbase)) as [E|E].
  { unfold pp in H, H'. pose proof (qp_on (qtimes k qbase)) as HO. pose proof (qp_on (qtimes k' qbase)) as HO'.
    destruct (qp (qtimes k qbase)) as [[u v]|] eqn:E1; [|discriminate]. destruct (qp (qtimes k' qbase)) as [[u' v']|] eqn:E2; [|discriminate].
    cbn [gp] in H, H'. assert (qv u = qv u') as Eu by congruence. apply qv_inj in Eu. subst u'.
    destruct (g_same_x _ _ _ HO HO') as [E|E]; [left | right]; apply qp_eq; cbn [qneg qp]; rewrite E1, E2, E; reflexivity. }
  - left. apply times_inj; [lia | lia | symmetry; exact E].
  - right. assert (ztimes (Z.of_N k + Z.of_N k') qbase = qzero) as E0.
    { rewrite ztimes_add, !ztimes_N, E, qadd_comm. apply qadd_neg. }
    apply ztimes_zero_iff in E0. apply Z.mod_divide in E0 as [c Hc]; [|lia]. assert (c = 1) by nia. subst c. lia.
Qed.
(** Unless the first half is below p - n, there are two. *)
Lemma same_r xy z r s s' : p_pair xy -> p256_pair xy z r s -> p256_prime <= Z.of_N r + p256_order ->
  (p256_pair xy z r s' <-> s' = s \/ Z.of_N s + Z.of_N s' = p256_order).
Proof.
  intros HP H Hr. destruct (key_pair_exists _ HP) as [d HK]. apply key_pair_iff in HK as (_ & _ & HQ). rewrite p256_order_eq, p256_prime_eq in *.
  pose proof q_n_big as Hn. split.
  - intros H'. apply (pair_nonce _ _ _ _ _ HQ) in H as (_ & _ & Hs0 & Hs & k & x & y & Hk0 & Hk & H & Hx & E).
    apply (pair_nonce _ _ _ _ _ HQ) in H' as (Hr0 & Hrn & Hs0' & Hs' & k' & x' & y' & Hk0' & Hk' & H' & Hx' & E').
    assert (forall v w, p_pair (v, w) -> v mod q_n = Z.of_N r -> v = Z.of_N r) as K.
    { clear -Hr Hn Hrn. intros v w Hp E. apply p_pair_iff in Hp as (Hv & _). pose proof (Z.div_mod v q_n ltac:(lia)) as D. rewrite E in D.
      assert (0 <= v / q_n) by (apply Z.div_pos; lia). destruct (Z.eq_dec (v / q_n) 0) as [E0|]; [rewrite E0 in D; lia|].
      exfalso. assert (1 * q_n <= q_n * (v / q_n)) by nia. lia. }
    rewrite (K x y (pp_point _ _ H) Hx) in H. rewrite (K x' y' (pp_point _ _ H') Hx') in H'.
    assert (Z.of_N k mod q_n <> 0) as Hkn by (rewrite Z.mod_small; lia).
    destruct (same_x _ _ _ _ _ H H' Hk0 Hk Hk0' Hk') as [->|EK].
    + left. rewrite <- E, (Z.mul_comm (Z.of_N s')), (Z.mul_comm (Z.of_N s)) in E'. apply prime_cancel in E'; [|exact Hkn].
      rewrite !Z.mod_small in E' by (clear -Hs Hs' Hs0 Hs0'; lia). clear -E'; lia.
    + right. replace (Z.of_N k') with (q_n - Z.of_N k) in E' by (clear -EK; lia). rewrite <- E in E'.
      replace (Z.of_N s' * (q_n - Z.of_N k)) with (Z.of_N k * - Z.of_N s' + Z.of_N s' * q_n) in E' by ring. rewrite Z.mod_add, (Z.mul_comm (Z.of_N s)) in E' by (clear -Hn; lia).
      apply prime_cancel in E'; [|exact Hkn]. rewrite (Z.mod_small (Z.of_N s)) in E' by (clear -Hs; lia).
      replace (- Z.of_N s') with (q_n - Z.of_N s' + (-1) * q_n) in E' by ring. rewrite Z.mod_add, Z.mod_small in E' by (clear -Hs' Hs0' Hn; lia). clear -E'; lia.
  - intros [->|E]; [exact H|]. apply (group_pair _ _ _ _ HP) in H. apply (ecdsa_twin p_group group_laws) in H as [H _].
    apply (group_pair _ _ _ _ HP) in H. cbn [p_group g_order] in H. replace s' with (nN - s)%N; [exact H|]. pose proof nN_Z. lia.
Qed.
Lemma number_fun n v v' bs : be_number n v bs -> be_number n v' bs -> v = v'.
Proof. intros [_ <-] [_ <-]. reflexivity. Qed.
Lemma same_first nonce slice bs u u' st st' r s : registered slice [x80; x24] (bytes_to_p256_key (p256_crate nonce)) -> with_parser slice st -> with_parser slice st' ->
  p_iss (u_payload u) = did_key_text ([x80; x24] ++ bs) -> u_payload u' = u_payload u -> u_signed_data u' = u_signed_data u ->
  fst (check_signature u st) = Ok tt -> be_number 32 r (firstn 32 (u_signature u)) -> be_number 32 s (skipn 32 (u_signature u)) ->
  p256_prime <= Z.of_N r + p256_order -> firstn 32 (u_signature u') = firstn 32 (u_signature u) ->
  (fst (check_signature u' st') = Ok tt <-> exists s', be_number 32 s' (skipn 32 (u_signature u')) /\ (s' = s \/ Z.of_N s + Z.of_N s' = p256_order)).
Proof.
  intros Hreg Hp Hp' Hi EP Ed H Hr Hs Hb EF. apply (p256_token nonce slice bs u st Hreg Hp Hi) in H as (P & HN & z & r0 & s0 & rb & sb & Hz & Hr0 & Hs0 & Eg & H).
  pose proof HN as [HP _].
  assert (firstn 32 (u_signature u) = rb /\ skipn 32 (u_signature u) = sb) as [E1 E2].
  { rewrite Eg. destruct Hr0 as [Hl _]. rewrite firstn_app, skipn_app, firstn_all2, skipn_all2, Hl, Nat.sub_diag by lia. split; [apply app_nil_r | reflexivity]. }
  rewrite E1 in *. rewrite E2 in Hs. assert (r0 = r) as -> by (eapply number_fun; eassumption). assert (s0 = s) as -> by (eapply number_fun; eassumption).
  assert (u_signature u' = rb ++ skipn 32 (u_signature u')) as Eg' by (rewrite <- EF, firstn_skipn; reflexivity).
  rewrite (p256_token nonce slice bs u' st' Hreg Hp' ltac:(rewrite EP; exact Hi)), Ed. split.
  - intros (P' & HN' & z' & r' & s' & rb' & sb' & Hz' & Hr' & Hs' & Eg2 & H'). assert (P' = P) as -> by (apply decode_iff in HN, HN'; congruence).
    assert (z' = z) as -> by (apply message_iff in Hz, Hz'; congruence).
    assert (firstn 32 (u_signature u') = rb' /\ skipn 32 (u_signature u') = sb') as [E3 E4].
    { rewrite Eg2. destruct Hr' as [Hl _]. rewrite firstn_app, skipn_app, firstn_all2, skipn_all2, Hl, Nat.sub_diag by lia. split; [apply app_nil_r | reflexivity]. }
    rewrite EF in E3. subst rb'. assert (r' = r) as -> by (eapply number_fun; eassumption). exists s'. rewrite E4. split; [exact Hs'|].
    apply (same_r _ _ _ _ _ HP H Hb), H'.
  - intros (s' & Hs' & E). exists P. split; [exact HN|]. exists z, r, s', rb, (skipn 32 (u_signature u')). split; [exact Hz|]. split; [exact Hr|]. split; [exact Hs'|].
    split; [exact Eg'|]. apply (same_r _ _ _ _ _ HP H Hb), E.
Qed.

(* ---------------------------------------------------------------- names *)

Lemma names_list P : p_pair P -> exists l, NoDup l /\ (forall bs, In bs l <-> p256_name P bs) /\ length l = if 2 * snd P <? p256_prime then 3%nat else 2%nat.
Proof.
  intros HP. destruct P as [x y]. pose proof HP as HP0. apply p_pair_iff in HP0 as (Hx & Hy & _). cbn [fst snd] in *.
  assert (forall v, 0 <= v < q_p -> be_number 32 (Z.to_N v) (be_bytes 32 (Z.to_N v))) as HB.
  { intros v Hv. apply be_number_iff. split; [reflexivity|]. assert (q_p < Z.of_N (256 ^ 32)) by reflexivity. change (N.of_nat 32) with 32%N. lia. }
  assert (forall v bs, be_number 32 v bs -> bs = be_bytes 32 v) as HU. { intros v bs H. apply be_number_iff in H. apply H. }
  pose proof (HB x Hx) as HBx. pose proof (HB y Hy) as HBy. clear HB.
  set (xb := be_bytes 32 (Z.to_N x)) in *. set (yb := be_bytes 32 (Z.to_N y)) in *.
  assert (forall bs, p256_name (x, y) bs <-> bs = (if Z.odd y then x03 else x02) :: xb \/ bs = x04 :: xb ++ yb \/ 2 * y < p256_prime /\ bs = x05 :: xb) as HN.
  { intros bs. unfold p256_name, compressed_name, uncompressed_name, compact_name. cbn [fst snd]. split.
    - intros (_ & [(b & Hb & ->) | [(b & c & Hb & Hc & ->) | (Hc & b & Hb & ->)]]); rewrite (HU _ _ Hb); try rewrite (HU _ _ Hc); auto.
    - intros H. split; [exact HP|]. destruct H as [-> | [-> | [Hc ->]]]; [left; exists xb; auto | right; left; exists xb, yb; auto | right; right; split; [exact Hc | exists xb; auto]]. }
  destruct (Z.ltb_spec (2 * y) p256_prime) as [Hc|Hc].
  - exists [(if Z.odd y then x03 else x02) :: xb; x04 :: xb ++ yb; x05 :: xb]. split; [|split; [|reflexivity]].
    + repeat constructor; cbn [In]; intros H; repeat (destruct H as [H|H]); try exact H; destruct (Z.odd y); discriminate.
    + intros bs. rewrite HN. cbn [In]. split; [intros [<- | [<- | [<- | []]]]; auto | intros [-> | [-> | [_ ->]]]; auto].
  - exists [(if Z.odd y then x03 else x02) :: xb; x04 :: xb ++ yb]. split; [|split; [|reflexivity]].
    + repeat constructor; cbn [In]; intros H; repeat (destruct H as [H|H]); try exact H; destruct (Z.odd y); discriminate.
    + intros bs. rewrite HN. cbn [In]. split; [intros [<- | [<- | []]]; auto | intros [-> | [-> | [K _]]]; auto; lia].
Qed.
Lemma name_point bs P P' : p256_name P bs -> p256_name P' bs -> P = P'.
Proof. intros H H'. apply decode_iff in H, H'. congruence. Qed.
(** The DID of the key a DID stands for: the same only for the compressed name. *)
Lemma did_stable nonce bs k P : p256_name P bs -> bytes_to_p256_key (p256_crate nonce) bs = Ok k ->
  (key_did k = Ok (did_key_text ([x80; x24] ++ bs)) <-> compressed_name P bs).
Proof.
  intros HN Hk. pose proof HN as [HP _]. destruct (p256_keys nonce bs) as (_ & _ & HV). destruct (HV k P Hk HN) as [HD _]. split.
  - intros E. destruct (compressed_exists P HP) as [own Ho]. rewrite (HD own Ho) in E.
    assert (did_key_text ([x80; x24] ++ own) = did_key_text ([x80; x24] ++ bs)) as E' by congruence. apply did_key_text_inj in E'. cbn [app] in E'.
    assert (own = bs) as <- by congruence. exact Ho.
  - intros Ho. apply HD, Ho.
Qed.

Lemma private_key P : p_pair P -> exists d, p256_key_pair d P /\ forall d', p256_key_pair d' P -> d' = d.
Proof. intros H. destruct (key_pair_exists _ H) as [d Hd]. exists d. split; [exact Hd|]. intros d' Hd'. exact (key_pair_unique _ _ _ Hd' Hd). Qed.
Lemma sum_point P Q : p_point P -> p_point Q -> exists R, p_sum P Q R /\ p_point R /\ forall R', p_sum P Q R' -> R' = R.
Proof.
  intros HP HQ. apply point_pp in HP as [A ->], HQ as [C ->]. exists (pp (qadd A C)). split; [apply p_sum_iff; reflexivity|].
  split; [apply pp_point|]. intros R'. apply p_sum_iff.
Qed.

(* ---------------------------------------------------------------- fresh tokens *)

Lemma fresh_p256 nonce d P X rng s u slice st : p256_key_pair d P -> (forall data, (0 < nonce d data)%N /\ Z.of_N (nonce d data) < p256_order) ->
  s_issuer s = p256_material nonce P (Some (mkQPriv d P)) -> sign X rng s = Ok u ->
  registered slice [x80; x24] (bytes_to_p256_key (p256_crate nonce)) -> with_parser slice st ->
  fst (check_signature u st) = Ok tt /\ forall v, signable_carried X s -> parse_token X (encode X u) = Ok v -> fst (check_signature v st) = Ok tt.
Proof.
  intros HK HN Hs Hu Hr [dids Hp]. pose proof (key_pair_pair _ _ HK) as HP.
  assert (forall dt g, key_sign (s_issuer s) dt = Ok g -> key_verify (p256_material nonce P None) dt g = Ok tt) as HV.
  { intros dt g H. rewrite Hs in H. destruct (HN dt) as [H0 H1]. apply (p256_scalars nonce d P dt HK H0 H1) in H.
    apply (material_verify nonce P None dt g HP), (signature_nonces d P dt g HK). exists (nonce d dt). auto. }
  assert (forall dt, key_did (s_issuer s) = Ok dt -> fst (did_parse (v_parser st) dt) = Ok (p256_material nonce P None)) as HD.
  { intros dt H. rewrite Hs in H. rewrite Hp. apply (p256_roundtrip (p256_crate nonce) P (Some (mkQPriv d P)) (q_encode P) dt slice dids eq_refl); [|exact H | exact Hr].
    apply decode_iff. split; [exact HP|]. left. apply encode_iff; [exact HP | reflexivity]. }
  split; [exact (SignFacts.sign_verifies X rng s u _ st Hu HV HD)|]. intros v Hc Hv. exact (SignFacts.sign_verifies_parsed X rng s u v _ st Hu Hc Hv HV HD).
Qed.
Lemma fresh_ed H seed X rng s u slice st :
  s_issuer s = ed25519_material H (es_pub (ed_signing_key H seed)) (Some (ed_signing_key H seed)) -> sign X rng s = Ok u ->
  registered slice [xed; x01] (bytes_to_ed25519_key (ed25519_zebra H)) -> with_parser slice st ->
  fst (check_signature u st) = Ok tt /\ forall v, signable_carried X s -> parse_token X (encode X u) = Ok v -> fst (check_signature v st) = Ok tt.
Proof.
  intros Hs Hu Hr [dids Hp]. destruct (ed_signing H seed []) as ((sc & prefix & ab & HK & Hdid) & _).
  assert (exists k, bytes_to_ed25519_key (ed25519_zebra H) ab = Ok k) as [k Hk].
  { apply (proj1 (ed_keys H ab)). destruct HK as (hb & A & Bp & _ & _ & _ & _ & _ & HT). exists A. apply EdTextFacts.point_text_name, HT. }
  assert (forall dt g, key_sign (s_issuer s) dt = Ok g -> key_verify k dt g = Ok tt) as HV.
  { intros dt g E. rewrite Hs in E. apply (ed_signing H seed dt) in E. destruct (ed_keys H ab) as (_ & _ & HE). apply (HE k Hk), (sign_zip H seed dt g _ _ _ HK E). }
  assert (forall dt, key_did (s_issuer s) = Ok dt -> fst (did_parse (v_parser st) dt) = Ok k) as HD.
  { intros dt E. rewrite Hs, Hdid in E. assert (did_key_text ([xed; x01] ++ ab) = dt) as <- by congruence. rewrite Hp, (dispatch slice dids [xed; x01] _ ab eq_refl Hr). exact Hk. }
  split; [exact (SignFacts.sign_verifies X rng s u k st Hu HV HD)|]. intros v Hc Hv. exact (SignFacts.sign_verifies_parsed X rng s u v k st Hu Hc Hv HV HD).
Qed.
Lemma fresh_rsa range n e t d X rng s u slice st : rsa_taken n e -> rsa_public_key n e t ->
  s_issuer s = rsa_material range (n, e) (Some (mkRsaPriv n e d)) -> sign X rng s = Ok u ->
  registered slice [x85; x24] (bytes_to_rsa_key (rsa_pkcs1 range) sha256) -> with_parser slice st ->
  fst (check_signature u st) = Ok tt /\ forall v, signable_carried X s -> parse_token X (encode X u) = Ok v -> fst (check_signature v st) = Ok tt.
Proof.
  intros Hn Ht Hs Hu Hr [dids Hp].
  assert (forall dt g, key_sign (s_issuer s) dt = Ok g -> key_verify (rsa_material range (n, e) None) dt g = Ok tt) as HV.
  { intros dt g E. rewrite Hs in E. apply (material_sign range n e d dt) in E as [E1 E2]. apply (TwinFacts.material_verify range n e None dt g (taken_nonzero n e Hn)). auto. }
  assert (forall dt, key_did (s_issuer s) = Ok dt -> fst (did_parse (v_parser st) dt) = Ok (rsa_material range (n, e) None)) as HD.
  { intros dt E. rewrite Hs in E. rewrite Hp. exact (proj1 (rsa_resolves rsa_sign (rsa_verify range) sha256 n e (Some (mkRsaPriv n e d)) t dt slice dids Ht E Hr) Hn). }
  split; [exact (SignFacts.sign_verifies X rng s u _ st Hu HV HD)|]. intros v Hc Hv. exact (SignFacts.sign_verifies_parsed X rng s u v _ st Hu Hc Hv HV HD).
Qed.

(* ---------------------------------------------------------------- Ed25519 with SHA-512 *)

Lemma sha512_char m d : sha512 m = d <-> sha512_of m d.
Proof. rewrite sha512_iff. split; intros E; symmetry; exact E. Qed.
Lemma zip215_ext (H H' : bytes -> bytes) ab data sig : (forall m, H m = H' m) -> zip215 H ab data sig -> zip215 H' ab data sig.
Proof.
  intros E (rb & sb & s & k & A & R & Bp & X & Y & W & E0 & HA & HR & Hs & Hl & Hk & HB). exists rb, sb, s, k, A, R, Bp, X, Y, W.
  split; [exact E0|]. split; [exact HA|]. split; [exact HR|]. split; [exact Hs|]. split; [exact Hl|]. split; [|exact HB].
  unfold hash_number in *. rewrite <- E. exact Hk.
Qed.
Lemma ed_pair_ext (H H' : bytes -> bytes) seed s prefix ab : (forall m, H m = H' m) -> ed_key_pair H seed s prefix ab -> ed_key_pair H' seed s prefix ab.
Proof. intros E (hb & A & Bp & E0 & HR). exists hb, A, Bp. split; [rewrite <- E; exact E0 | exact HR]. Qed.
Lemma ed_signature_ext (H H' : bytes -> bytes) seed data sig : (forall m, H m = H' m) -> ed_signature_of H seed data sig -> ed_signature_of H' seed data sig.
Proof.
  intros E (s & prefix & ab & r & k & R & Bp & rb & sb & HK & Hr & HB & HM & HT & Hk & HR). exists s, prefix, ab, r, k, R, Bp, rb, sb.
  split; [exact (ed_pair_ext _ _ _ _ _ _ E HK)|]. unfold hash_number in *. rewrite <- E. split; [exact Hr|]. split; [exact HB|]. split; [exact HM|].
  split; [exact HT|]. split; [rewrite <- E; exact Hk | exact HR].
Qed.
Lemma sha512_token (H : bytes -> bytes) slice ab u st : (forall m, sha512_of m (H m)) ->
  registered slice [xed; x01] (bytes_to_ed25519_key (ed25519_zebra sha512)) -> with_parser slice st ->
  p_iss (u_payload u) = did_key_text ([xed; x01] ++ ab) ->
  (fst (check_signature u st) = Ok tt <-> zip215 H ab (u_signed_data u) (u_signature u)).
Proof.
  intros HH Hr Hp Hi. assert (forall m, sha512 m = H m) as E by (intros m; apply sha512_char, HH). rewrite (ed_token sha512 slice ab u st Hr Hp Hi).
  split; apply zip215_ext; [exact E | intros m; symmetry; apply E].
Qed.
Lemma sha512_seeds (H : bytes -> bytes) seed data sig : (forall m, sha512_of m (H m)) -> let sk := ed_signing_key sha512 seed in
  (key_sign (ed25519_material sha512 (es_pub sk) (Some sk)) data = Ok sig <-> ed_signature_of H seed data sig).
Proof.
  intros HH sk. assert (forall m, sha512 m = H m) as E by (intros m; apply sha512_char, HH). destruct (ed_signing sha512 seed data) as (_ & _ & _ & HS & _).
  unfold sk. rewrite HS. split; apply ed_signature_ext; [exact E | intros m; symmetry; apply E].
Qed.
