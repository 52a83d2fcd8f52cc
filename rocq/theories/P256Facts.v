(** Keys, signatures and tokens of P-256 (C145-C149). *)
From Coq Require Import ZArith.Znumtheory ZArith.Zpow_facts.
From Verif Require Import Prelude Ord SMap Base58 Value Cbor Ext Json Capability Semantics Key KeySupport Sha256 Ucan Builder Store Chain P256
  Spec SpecWire SpecCbor SpecSha SpecTwin SpecAlias SpecP256 OrdFacts CborFacts DidFacts ShaFacts RsaFacts TwinFacts EdFacts PrimeFacts WeierFacts
  P256OrderFacts P256FieldFacts P256PointFacts P256ModelFacts.
Local Open Scope Z_scope.

(* ---------------------------------------------------------------- scalars modulo the order *)

Definition ztimes (a : Z) (P : qpt) : qpt := qtimes (Z.to_N (a mod q_n)) P.
Lemma ztimes_N k P : ztimes (Z.of_N k) P = qtimes k P.
Proof.
  unfold ztimes. rewrite <- (all_mod k P). f_equal. unfold nN. pose proof q_n_big.
  rewrite <- (N2Z.id (k mod Z.to_N q_n)), N2Z.inj_mod, Z2N.id by lia. reflexivity.
Qed.
Lemma ztimes_eq a b P : a mod q_n = b mod q_n -> ztimes a P = ztimes b P.
Proof. unfold ztimes. intros ->. reflexivity. Qed.
Lemma ztimes_mod a P : ztimes (a mod q_n) P = ztimes a P.
Proof. apply ztimes_eq. apply Z.mod_mod. pose proof q_n_big. lia. Qed.
Lemma scalar_N a : exists k, (Z.of_N k) mod q_n = a mod q_n.
Proof. exists (Z.to_N (a mod q_n)). pose proof q_n_big. rewrite Z2N.id, Z.mod_mod by (try apply Z.mod_pos_bound; lia). reflexivity. Qed.
Lemma ztimes_add a b P : ztimes (a + b) P = qadd (ztimes a P) (ztimes b P).
Proof.
  destruct (scalar_N a) as [k Hk], (scalar_N b) as [m Hm]. rewrite <- (ztimes_eq _ _ P Hk), <- (ztimes_eq _ _ P Hm), !ztimes_N, <- qtimes_add, <- ztimes_N.
  apply ztimes_eq. rewrite N2Z.inj_add, Zplus_mod, <- Hk, <- Hm, <- Zplus_mod. reflexivity.
Qed.
Lemma ztimes_mul a b P : ztimes (a * b) P = ztimes a (ztimes b P).
Proof.
  destruct (scalar_N a) as [k Hk], (scalar_N b) as [m Hm]. rewrite <- (ztimes_eq _ _ (ztimes b P) Hk), <- (ztimes_eq _ _ P Hm), !ztimes_N, <- qtimes_mul, <- ztimes_N.
  apply ztimes_eq. rewrite N2Z.inj_mul, Zmult_mod, <- Hk, <- Hm, <- Zmult_mod. reflexivity.
Qed.
Lemma ztimes_zero_iff a : ztimes a qbase = qzero <-> a mod q_n = 0.
Proof.
  unfold ztimes. pose proof q_n_big. pose proof (Z.mod_pos_bound a q_n ltac:(lia)). split.
  - intros E. assert (Z.to_N (a mod q_n) = 0%N) as E0; [|lia]. apply times_inj; [unfold nN; lia | pose proof nN_pos; lia | exact E].
  - intros ->. reflexivity.
Qed.
Lemma inverse_unique s w w' : (s * w) mod q_n = 1 -> (s * w') mod q_n = 1 -> w mod q_n = w' mod q_n.
Proof.
  intros E E'. pose proof q_n_big. rewrite <- (Z.mul_1_r w), <- E', Z.mul_mod_idemp_r, Z.mul_assoc, (Z.mul_comm w s) by lia.
  rewrite <- Z.mul_mod_idemp_l, E, Z.mul_1_l by lia. reflexivity.
Qed.
Lemma q_ninv_ok s : 0 < s < q_n -> (s * q_ninv s) mod q_n = 1.
Proof.
  intros Hs. pose proof q_n_big. unfold q_ninv. rewrite <- Z.mul_mod_idemp_r, m_pow_mod, Z.mul_mod_idemp_r, q_ninv_power by lia.
  replace (s * s ^ (q_n - 2)) with (s ^ (q_n - 1)).
  - apply fermat; [exact q_n_prime|]. intros Hd. apply Z.divide_pos_le in Hd; lia.
  - replace (q_n - 1) with (1 + (q_n - 2)) by lia. rewrite Z.pow_add_r, Z.pow_1_r by lia. reflexivity.
Qed.

(* ---------------------------------------------------------------- signatures *)

Local Opaque q_ninv q_times q_plus be_value sha256 qtimes qadd firstn skipn.

Lemma message_iff data z : message_number data z <-> z = be_value (sha256 data).
Proof.
  unfold message_number. split.
  - intros (d & Hd & Hz). apply sha256_iff in Hd. subst d. apply number_value in Hz as [_ <-]. reflexivity.
  - intros ->. exists (sha256 data). split; [apply sha256_iff; reflexivity | apply number_value; split; [apply sha256_length | reflexivity]].
Qed.
Definition vcore (Q : qpt) (z r w : Z) : Prop :=
  exists x y, pp (qadd (ztimes (z * w) qbase) (ztimes (r * w) Q)) = Some (x, y) /\ x mod q_n = r.
Lemma vcore_eq Q z r w w' : w mod q_n = w' mod q_n -> vcore Q z r w -> vcore Q z r w'.
Proof.
  intros E (x & y & H & Hx). exists x, y. split; [|exact Hx]. rewrite <- H. pose proof q_n_big.
  f_equal. f_equal; apply ztimes_eq; rewrite <- Z.mul_mod_idemp_r, <- E, Z.mul_mod_idemp_r by lia; reflexivity.
Qed.
Lemma pair_core xy Q z r s : pp Q = Some xy ->
  p256_pair xy z r s <-> (0 < r)%N /\ Z.of_N r < q_n /\ (0 < s)%N /\ Z.of_N s < q_n /\
    exists w, (Z.of_N s * w) mod q_n = 1 /\ vcore Q (Z.of_N z) (Z.of_N r) w.
Proof.
  intros HQ. unfold p256_pair. rewrite p256_order_eq, <- HQ, <- pp_base.
  split; intros (Hr0 & Hr & Hs0 & Hs & H); (split; [exact Hr0|]; split; [exact Hr|]; split; [exact Hs0|]; split; [exact Hs|]).
  - destruct H as (w & u1 & u2 & U1 & U2 & x & y & Hw & E1 & E2 & H1 & H2 & H3 & Hx). exists w. split; [exact Hw|]. exists x, y. split; [|exact Hx].
    apply p_multiple_iff in H1, H2. subst U1 U2. apply p_sum_iff in H3. rewrite H3. f_equal. f_equal; unfold ztimes; rewrite <- ?E1, <- ?E2, N2Z.id; reflexivity.
  - destruct H as (w & Hw & x & y & H3 & Hx). pose proof q_n_big.
    exists w, (Z.to_N ((Z.of_N z * w) mod q_n)), (Z.to_N ((Z.of_N r * w) mod q_n)), (pp (ztimes (Z.of_N z * w) qbase)), (pp (ztimes (Z.of_N r * w) Q)), x, y.
    split; [exact Hw|]. split; [apply Z2N.id, Z.mod_pos_bound; lia|]. split; [apply Z2N.id, Z.mod_pos_bound; lia|].
    split; [apply p_multiple_iff; reflexivity|]. split; [apply p_multiple_iff; reflexivity|]. split; [apply p_sum_iff; symmetry; exact H3 | exact Hx].
Qed.
Lemma verify_iff xy data sig : p_pair xy -> (q_verify xy data sig = true <-> p256_signature xy data sig).
Proof.
  intros Hxy. destruct (pair_pp _ Hxy) as [Q HQ]. symmetry in HQ. unfold q_verify, p256_signature.
  assert (forall s r, q_plus (q_times (Z.to_N ((q_digest data * q_ninv s) mod q_n)) (Some q_base)) (q_times (Z.to_N ((r * q_ninv s) mod q_n)) (Some xy)) =
    pp (qadd (ztimes (q_digest data * q_ninv s) qbase) (ztimes (r * q_ninv s) Q))) as EQ.
  { intros s r. unfold ztimes. rewrite <- HQ, q_base_pp, !q_times_eq. apply q_plus_eq. }
  cbv zeta. rewrite EQ. clear EQ. rewrite !andb_true_iff, Nat.eqb_eq, !Z.ltb_lt. split.
  - intros (Hl & (((Hr0 & Hr) & Hs0) & Hs) & H). set (r := be_value (firstn 32 sig)) in *. set (s := be_value (skipn 32 sig)) in *.
    exists (be_value (sha256 data)), r, s, (firstn 32 sig), (skipn 32 sig).
    split; [apply message_iff; reflexivity|]. split; [apply number_value; split; [rewrite firstn_length; lia | reflexivity]|].
    split; [apply number_value; split; [rewrite skipn_length; lia | reflexivity]|]. split; [symmetry; apply firstn_skipn|].
    apply (pair_core _ Q); [exact HQ|]. split; [lia|]. split; [exact Hr|]. split; [lia|]. split; [exact Hs|].
    exists (q_ninv (Z.of_N s)). split; [apply q_ninv_ok; lia|]. unfold vcore, q_digest in *.
    destruct (pp (qadd _ _)) as [[x y]|]; [|discriminate]. exists x, y. split; [reflexivity | apply Z.eqb_eq, H].
  - intros (z & r & s & rb & sb & Hz & Hr & Hs & -> & H). apply message_iff in Hz. subst z. apply number_value in Hr as [Hlr Hr], Hs as [Hls Hs].
    apply (pair_core _ Q _ _ _ HQ) in H as (Hr0 & Hrn & Hs0 & Hsn & w & Hw & H).
    rewrite app_length, firstn_app, skipn_app, firstn_all2, skipn_all2 by lia. replace (32 - length rb)%nat with O by lia. cbn [firstn skipn app]. rewrite app_nil_r, Hr, Hs.
    split; [lia|]. split; [lia|]. apply (vcore_eq _ _ _ w (q_ninv (Z.of_N s))) in H; [|apply (inverse_unique (Z.of_N s)); [exact Hw | apply q_ninv_ok; lia]].
    destruct H as (x & y & H & Hx). unfold q_digest. rewrite H. apply Z.eqb_eq, Hx.
Qed.

(** With the private key: the nonces. *)
Lemma key_pair_iff d xy : p256_key_pair d xy <-> (0 < d)%N /\ Z.of_N d < q_n /\ pp (qtimes d qbase) = Some xy.
Proof. unfold p256_key_pair. rewrite p256_order_eq, <- pp_base, p_multiple_iff. split; intros (H1 & H2 & H3); auto. Qed.
Lemma signed_iff d k data sig : p256_signed d k data sig <->
  exists x y w, pp (qtimes k qbase) = Some (x, y) /\ (Z.of_N k * w) mod q_n = 1 /\
    let r := x mod q_n in let s := (w * (Z.of_N (be_value (sha256 data)) + r * Z.of_N d)) mod q_n in
    0 < r /\ 0 < s /\ sig = be_bytes 32 (Z.to_N r) ++ be_bytes 32 (Z.to_N s).
Proof.
  pose proof q_n_big as Hn. assert (forall v, 0 <= v < q_n -> (Z.to_N v < 256 ^ N.of_nat 32)%N) as Hb.
  { intros v Hv. pose proof q_p_le as Hl. pose proof q_n_p. change (256 ^ N.of_nat 32)%N with (Z.to_N (256 ^ 32)). apply Z2N.inj_lt; lia. }
  unfold p256_signed. rewrite p256_order_eq, <- pp_base. split.
  - intros (z & x & y & r & s & w & rb & sb & Hz & HM & Hw & Er & Es & Hr & Hs & Hrb & Hsb & ->). apply message_iff in Hz. subst z.
    apply p_multiple_iff in HM. exists x, y, w. split; [symmetry; exact HM|]. split; [exact Hw|]. cbv zeta. rewrite <- Er, <- Es.
    apply be_number_iff in Hrb as [-> _], Hsb as [-> _]. rewrite !N2Z.id. split; [lia|]. split; [lia | reflexivity].
  - intros (x & y & w & HM & Hw & Hr & Hs & ->). set (r := x mod q_n) in *. set (s := (w * _) mod q_n) in *.
    assert (0 <= r < q_n) as Hrr by (apply Z.mod_pos_bound; lia). assert (0 <= s < q_n) as Hsr by (apply Z.mod_pos_bound; lia).
    exists (be_value (sha256 data)), x, y, (Z.to_N r), (Z.to_N s), w, (be_bytes 32 (Z.to_N r)), (be_bytes 32 (Z.to_N s)).
    split; [apply message_iff; reflexivity|]. split; [apply p_multiple_iff; symmetry; exact HM|]. split; [exact Hw|].
    split; [apply Z2N.id; lia|]. split; [rewrite (Z2N.id r), (Z2N.id s) by lia; reflexivity|]. split; [lia|]. split; [lia|].
    split; [apply be_number_iff; auto|]. split; [apply be_number_iff; auto | reflexivity].
Qed.
Lemma sign_iff nonce d xy data sig : let k := nonce d data in (0 < k)%N -> Z.of_N k < q_n ->
  (q_sign nonce (mkQPriv d xy) data = Some sig <-> p256_signed d k data sig).
Proof.
  intros k Hk0 Hk. pose proof q_n_big. rewrite signed_iff. unfold q_sign. cbn [qs_scalar]. fold k. rewrite q_base_pp, q_times_eq.
  pose proof (q_ninv_ok (Z.of_N k) ltac:(lia)) as Hi. destruct (pp (qtimes k qbase)) as [[x y]|].
  - cbn [fst]. unfold q_digest. set (r := x mod q_n). set (s := (q_ninv (Z.of_N k) * _) mod q_n).
    assert (0 <= r < q_n) as Hrr by (apply Z.mod_pos_bound; lia). assert (0 <= s < q_n) as Hsr by (apply Z.mod_pos_bound; lia). split.
    + destruct (Z.eqb_spec r 0) as [|Hr]; [discriminate|]. destruct (Z.eqb_spec s 0) as [|Hs]; [discriminate|]. cbn [orb]. intros E.
      apply (f_equal (fun o => match o with Some t => t | None => sig end)) in E. subst sig. exists x, y, (q_ninv (Z.of_N k)).
      split; [reflexivity|]. split; [exact Hi|]. cbv zeta. fold r. fold s. split; [lia|]. split; [lia | reflexivity].
    + intros (x' & y' & w & E & Hw & HR). apply (f_equal (fun o => match o with Some t => t | None => (x, y) end)) in E. apply pair_equal_spec in E as [<- <-].
      cbv zeta in HR. fold r in HR. assert ((w * (Z.of_N (be_value (sha256 data)) + r * Z.of_N d)) mod q_n = s) as Es.
      { unfold s. rewrite <- Z.mul_mod_idemp_l, (inverse_unique _ _ _ Hw Hi), Z.mul_mod_idemp_l by lia. reflexivity. }
      rewrite Es in HR. destruct HR as (Hr & Hs & ->). destruct (Z.eqb_spec r 0) as [|_]; [lia|]. destruct (Z.eqb_spec s 0) as [|_]; [lia|]. reflexivity.
  - split; [discriminate|]. intros (x & y & w & E & _). discriminate E.
Qed.
Lemma prime_cancel a b c : a mod q_n <> 0 -> (a * b) mod q_n = (a * c) mod q_n -> b mod q_n = c mod q_n.
Proof.
  intros Ha E. pose proof q_n_big as Hn. assert (0 < a mod q_n < q_n) as Hr by (pose proof (Z.mod_pos_bound a q_n); lia).
  pose proof (q_ninv_ok _ Hr) as Hw. set (w := q_ninv (a mod q_n)) in *. clearbody w. rewrite Z.mul_mod_idemp_l in Hw by lia.
  assert (forall v, v mod q_n = (w * ((a * v) mod q_n)) mod q_n) as K.
  { intros v. rewrite Z.mul_mod_idemp_r, Z.mul_assoc, (Z.mul_comm w a), <- Z.mul_mod_idemp_l, Hw, Z.mul_1_l by lia. reflexivity. }
  rewrite (K b), (K c), E. reflexivity.
Qed.
Definition nonce_of (d : N) (z r s : Z) (k : N) (x y : Z) : Prop :=
  (0 < k)%N /\ Z.of_N k < q_n /\ pp (qtimes k qbase) = Some (x, y) /\ x mod q_n = r /\ (s * Z.of_N k) mod q_n = (z + r * Z.of_N d) mod q_n.
Lemma pair_nonce d xy z r s : pp (qtimes d qbase) = Some xy ->
  p256_pair xy z r s <-> (0 < r)%N /\ Z.of_N r < q_n /\ (0 < s)%N /\ Z.of_N s < q_n /\ exists k x y, nonce_of d (Z.of_N z) (Z.of_N r) (Z.of_N s) k x y.
Proof.
  intros HQ. rewrite (pair_core _ _ _ _ _ HQ). pose proof q_n_big as Hn. unfold vcore, nonce_of.
  assert (forall w, qadd (ztimes (Z.of_N z * w) qbase) (ztimes (Z.of_N r * w) (qtimes d qbase)) = ztimes ((Z.of_N z + Z.of_N r * Z.of_N d) * w) qbase) as EQ.
  { intros w. rewrite <- (ztimes_N d), <- ztimes_mul, <- ztimes_add. f_equal. ring. }
  split; intros (Hr0 & Hr & Hs0 & Hs & H); (split; [exact Hr0|]; split; [exact Hr|]; split; [exact Hs0|]; split; [exact Hs|]).
  - destruct H as (w & Hw & x & y & H & Hx). rewrite EQ in H. set (m := (Z.of_N z + Z.of_N r * Z.of_N d)) in *.
    pose proof (Z.mod_pos_bound (m * w) q_n ltac:(lia)) as Hb. exists (Z.to_N ((m * w) mod q_n)), x, y. rewrite Z2N.id by lia.
    assert ((m * w) mod q_n <> 0) as H0. { intros E. rewrite (proj2 (ztimes_zero_iff _) E) in H. discriminate H. }
    split; [lia|]. split; [lia|]. split; [exact H|]. split; [exact Hx|].
    rewrite Z.mul_mod_idemp_r, Z.mul_assoc, (Z.mul_comm (Z.of_N s)), <- Z.mul_assoc, <- Z.mul_mod_idemp_r, Hw, Z.mul_1_r by lia. reflexivity.
  - destruct H as (k & x & y & Hk0 & Hk & H & Hx & E). exists (q_ninv (Z.of_N s)). pose proof (q_ninv_ok (Z.of_N s) ltac:(lia)) as Hw. split; [exact Hw|].
    exists x, y. split; [|exact Hx]. rewrite EQ, <- H, <- ztimes_N. f_equal. apply ztimes_eq.
    rewrite <- Z.mul_mod_idemp_l, <- E, Z.mul_mod_idemp_l, (Z.mul_comm (Z.of_N s)), <- Z.mul_assoc, <- Z.mul_mod_idemp_r, Hw, Z.mul_1_r by lia. reflexivity.
Qed.
(** What is accepted is what some nonce signs. *)
Lemma signature_nonces d xy data sig : p256_key_pair d xy ->
  (p256_signature xy data sig <-> exists k, (0 < k)%N /\ Z.of_N k < p256_order /\ p256_signed d k data sig).
Proof.
  intros HK. apply key_pair_iff in HK as (Hd0 & Hd & HQ). rewrite p256_order_eq. pose proof q_n_big as Hn. unfold p256_signature. split.
  - intros (z & r & s & rb & sb & Hz & Hrb & Hsb & -> & H). apply (pair_nonce _ _ _ _ _ HQ) in H as (Hr0 & Hr & Hs0 & Hs & k & x & y & Hk0 & Hk & H & Hx & E).
    exists k. split; [exact Hk0|]. split; [exact Hk|]. exists z, x, y, r, s, (q_ninv (Z.of_N k)), rb, sb. rewrite p256_order_eq, <- pp_base.
    pose proof (q_ninv_ok (Z.of_N k) ltac:(lia)) as Hw.
    split; [exact Hz|]. split; [apply p_multiple_iff; symmetry; exact H|]. split; [exact Hw|]. split; [symmetry; exact Hx|].
    split; [|split; [exact Hr0|]; split; [exact Hs0|]; split; [exact Hrb|]; split; [exact Hsb | reflexivity]].
    rewrite <- Z.mul_mod_idemp_r, <- E, Z.mul_mod_idemp_r, Z.mul_assoc, (Z.mul_comm _ (Z.of_N s)), <- Z.mul_assoc, (Z.mul_comm _ (Z.of_N k)), <- Z.mul_mod_idemp_r, Hw, Z.mul_1_r by lia.
    symmetry. apply Z.mod_small. lia.
  - intros (k & Hk0 & Hk & z & x & y & r & s & w & rb & sb & Hz & HM & Hw & Er & Es & Hr0 & Hs0 & Hrb & Hsb & ->).
    rewrite p256_order_eq in *. rewrite <- pp_base in HM. apply p_multiple_iff in HM.
    exists z, r, s, rb, sb. split; [exact Hz|]. split; [exact Hrb|]. split; [exact Hsb|]. split; [reflexivity|].
    apply (pair_nonce _ _ _ _ _ HQ). split; [exact Hr0|]. split; [rewrite Er; apply Z.mod_pos_bound; lia|]. split; [exact Hs0|]. split; [rewrite Es; apply Z.mod_pos_bound; lia|].
    exists k, x, y. split; [exact Hk0|]. split; [exact Hk|]. split; [symmetry; exact HM|]. split; [symmetry; exact Er|].
    rewrite Es, Z.mul_mod_idemp_l, (Z.mul_comm w), <- Z.mul_assoc, (Z.mul_comm w), <- Z.mul_mod_idemp_r, Hw, Z.mul_1_r by lia. reflexivity.
Qed.

(* ---------------------------------------------------------------- private keys *)

Lemma key_pair_pair d xy : p256_key_pair d xy -> p_pair xy.
Proof. intros H. apply key_pair_iff in H as (_ & _ & H). apply (pp_point (qtimes d qbase)), H. Qed.
Lemma key_pair_exists xy : p_pair xy -> exists d, p256_key_pair d xy.
Proof.
  intros H. destruct (pair_pp _ H) as [Q HQ]. destruct (all_in_base Q) as [k Hk]. exists (k mod nN)%N. apply key_pair_iff.
  rewrite base_mod, <- Hk. pose proof (N.mod_lt k nN) as Hlt. pose proof nN_pos. pose proof nN_Z. split; [|split; [lia | symmetry; exact HQ]].
  destruct (N.eq_dec (k mod nN) 0) as [E|]; [|lia]. exfalso. rewrite <- base_mod, E in Hk. subst Q. discriminate HQ.
Qed.
Lemma key_pair_unique d d' xy : p256_key_pair d xy -> p256_key_pair d' xy -> d = d'.
Proof.
  intros H H'. apply key_pair_iff in H as (_ & Hd & H), H' as (_ & Hd' & H'). rewrite <- H in H'. apply pp_inj in H'.
  pose proof nN_Z. apply times_inj; [lia | lia | symmetry; exact H'].
Qed.
Lemma key_pair_public d : (0 < d)%N -> Z.of_N d < p256_order -> exists xy, p256_key_pair d xy /\ forall xy', p256_key_pair d xy' -> xy' = xy.
Proof.
  rewrite p256_order_eq. intros H0 H. destruct (pp (qtimes d qbase)) as [xy|] eqn:E.
  - exists xy. split; [apply key_pair_iff; auto|]. intros xy' H'. apply key_pair_iff in H' as (_ & _ & H'). rewrite E in H'.
    exact (f_equal (fun o => match o with Some t => t | None => xy' end) (eq_sym H')).
  - exfalso. rewrite <- pp_zero in E. apply pp_inj in E. change qzero with (qtimes 0 qbase) in E. pose proof nN_Z. pose proof nN_pos.
    apply times_inj in E; lia.
Qed.
Lemma full_order xy k : p_pair xy -> (p_multiple (Some xy) k None <-> (p256_order | Z.of_N k)).
Proof.
  intros H. destruct (key_pair_exists _ H) as [d HK]. apply key_pair_iff in HK as (Hd0 & Hd & HQ). rewrite <- HQ, p_multiple_iff, p256_order_eq.
  pose proof q_n_big as Hn. rewrite <- pp_zero, <- (ztimes_N d), <- ztimes_N, <- ztimes_mul. split.
  - intros E. apply pp_inj in E. symmetry in E. apply (proj1 (ztimes_zero_iff _)) in E. apply Z.mod_divide in E; [|lia].
    apply prime_mult in E; [|exact q_n_prime]. destruct E as [E|E]; [exact E|]. apply Z.divide_pos_le in E; lia.
  - intros [c E]. f_equal. symmetry. apply ztimes_zero_iff. apply Z.mod_divide; [lia|]. exists (c * Z.of_N d). rewrite E. ring.
Qed.
Lemma signing_key_iff bs sk : q_signing_key bs = Some sk <-> exists d xy, be_number 32 d bs /\ p256_key_pair d xy /\ sk = mkQPriv d xy.
Proof.
  unfold q_signing_key. rewrite q_base_pp, q_times_eq. split.
  - destruct (Nat.eqb_spec (length bs) 32) as [Hl|]; [|discriminate]. destruct (N.ltb_spec 0 (be_value bs)) as [H0|]; [|discriminate].
    destruct (Z.ltb_spec (Z.of_N (be_value bs)) q_n) as [Hn|]; [|discriminate]. cbn [andb]. destruct (pp _) as [xy|] eqn:E; [|discriminate]. intros E'.
    apply (f_equal (fun o => match o with Some t => t | None => sk end)) in E'. exists (be_value bs), xy. split; [apply number_value; auto|].
    split; [apply key_pair_iff; auto | symmetry; exact E'].
  - intros (d & xy & Hb & HK & ->). apply number_value in Hb as [Hl <-]. apply key_pair_iff in HK as (H0 & Hn & E).
    rewrite Hl, E, Nat.eqb_refl. destruct (N.ltb_spec 0 (be_value bs)) as [_|]; [|lia]. destruct (Z.ltb_spec (Z.of_N (be_value bs)) q_n) as [_|]; [reflexivity | lia].
Qed.

(* ---------------------------------------------------------------- keys *)

Lemma compressed_exists P : p_pair P -> exists own, compressed_name P own.
Proof. intros H. exists (q_encode P). apply encode_iff; [exact H | reflexivity]. Qed.
Lemma material_did nonce P sk own : p_pair P -> compressed_name P own -> key_did (p256_material nonce P sk) = Ok (did_key_text ([x80; x24] ++ own)).
Proof. intros H Ho. apply (encode_iff P own H) in Ho. subst own. reflexivity. Qed.
Lemma material_verify nonce P sk data sig : p_pair P -> (key_verify (p256_material nonce P sk) data sig = Ok tt <-> p256_signature P data sig) /\
  (key_verify (p256_material nonce P sk) data sig <> Ok tt -> key_verify (p256_material nonce P sk) data sig = Err ESignature).
Proof.
  intros H. rewrite <- (verify_iff P data sig H). cbn [key_verify p256_material p256_key]. unfold km_verify. cbn [cr_verify p256_crate].
  destruct (q_verify P data sig); split; try split; congruence.
Qed.
Lemma p256_keys nonce bs :
  ((exists k, bytes_to_p256_key (p256_crate nonce) bs = Ok k) <-> exists P, p256_name P bs) /\
  ((exists k, bytes_to_p256_key (p256_crate nonce) bs = Ok k) \/ bytes_to_p256_key (p256_crate nonce) bs = Err EKeyBytes) /\
  forall k P, bytes_to_p256_key (p256_crate nonce) bs = Ok k -> p256_name P bs ->
    (forall own, compressed_name P own -> key_did k = Ok (did_key_text ([x80; x24] ++ own))) /\
    forall data sig, (key_verify k data sig = Ok tt <-> p256_signature P data sig) /\
      (key_verify k data sig <> Ok tt -> key_verify k data sig = Err ESignature) /\ key_sign k data = Err ENoPrivateKey.
Proof.
  unfold bytes_to_p256_key. cbn [cr_decode p256_crate]. split; [|split].
  - split.
    + intros [k K]. destruct (q_decode bs) as [P|] eqn:E; [|discriminate]. exists P. apply decode_iff, E.
    + intros [P HP]. apply decode_iff in HP. rewrite HP. eexists. reflexivity.
  - destruct (q_decode bs); [left; eexists; reflexivity | right; reflexivity].
  - intros k P K HP. pose proof (proj2 (decode_iff bs P) HP) as HD. rewrite HD in K. cbn [ok_or rbind] in K.
    assert (p256_material nonce P None = k) as <- by (apply (f_equal (fun o => match o with Ok t => t | _ => k end)) in K; exact K). clear K.
    destruct HP as [HP _]. split; [intros own; apply material_did, HP|]. intros data sig. destruct (material_verify nonce P None data sig HP) as [H1 H2]. auto.
Qed.
Lemma p256_scalars nonce d P data : p256_key_pair d P -> (0 < nonce d data)%N -> Z.of_N (nonce d data) < p256_order ->
  (forall own, compressed_name P own -> key_did (p256_material nonce P (Some (mkQPriv d P))) = Ok (did_key_text ([x80; x24] ++ own))) /\
  (forall sig, key_sign (p256_material nonce P (Some (mkQPriv d P))) data = Ok sig <-> p256_signed d (nonce d data) data sig) /\
  (forall sig, key_verify (p256_material nonce P (Some (mkQPriv d P))) data sig = Ok tt <-> p256_signature P data sig).
Proof.
  rewrite p256_order_eq. intros HK Hn0 Hn. pose proof (key_pair_pair _ _ HK) as HP. split; [|split].
  - intros own. apply material_did, HP.
  - intros sig. rewrite <- (sign_iff nonce d P data sig Hn0 Hn). cbn [key_sign p256_material p256_key km_sign cr_sign p256_crate].
    destruct (q_sign nonce (mkQPriv d P) data); cbn [ok_or]; split; congruence.
  - intros sig. apply material_verify, HP.
Qed.
Lemma p256_token nonce slice bs u st : registered slice [x80; x24] (bytes_to_p256_key (p256_crate nonce)) -> with_parser slice st ->
  p_iss (u_payload u) = did_key_text ([x80; x24] ++ bs) ->
  (fst (check_signature u st) = Ok tt <-> exists P, p256_name P bs /\ p256_signature P (u_signed_data u) (u_signature u)).
Proof.
  intros Hr Hp Hi. destruct (p256_keys nonce bs) as (HK & [[k Hk]|HE] & HV).
  - destruct (proj1 HK (ex_intro _ k Hk)) as [P HP]. rewrite (check_signature_with u st k slice Hp).
    + destruct (HV k P Hk HP) as [_ HV']. destruct (HV' (u_signed_data u) (u_signature u)) as [HVV _]. rewrite HVV. split; [intros H; exists P; auto|].
      intros (P' & HP' & H). apply decode_iff in HP, HP'. rewrite HP in HP'. assert (P' = P) as -> by congruence. exact H.
    + intros dids. rewrite Hi, (dispatch slice dids [x80; x24] _ bs eq_refl Hr). exact Hk.
  - rewrite (check_signature_fault u st EKeyBytes slice Hp).
    + split; [discriminate|]. intros (P & HP & _). destruct (proj2 HK (ex_intro (fun P => p256_name P bs) P HP)) as [k Hk]. congruence.
    + intros dids. rewrite Hi, (dispatch slice dids [x80; x24] _ bs eq_refl Hr). exact HE.
Qed.
