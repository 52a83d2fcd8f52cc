(** Proofs about RSA signatures (C138). *)
From Coq Require Import ZArith.Znumtheory ZArith.Zpow_facts Sorting.Permutation.
From Verif Require Import Prelude Ord SMap Base58 Cbor Key KeySupport Der Sha256 RsaSign Spec SpecWire SpecCbor SpecSha SpecRsa
  OrdFacts CborFacts DerFacts ShaFacts.

(* ----------------------------------------------------- Fermat's little theorem *)

Section Fermat.
  Local Open Scope Z_scope.
  Variable p : Z.
  Hypothesis Hp : prime p.
  Let p1 : 1 < p.
  Proof. destruct Hp. lia. Qed.

  Lemma prime_cancel a b c : ~ (p | a) -> (a * b) mod p = (a * c) mod p -> b mod p = c mod p.
  Proof.
    intros Ha E. assert (p | a * (b - c)) as Hd.
    { apply Z.mod_divide; [lia|]. rewrite Z.mul_sub_distr_l, Zminus_mod, E, Z.sub_diag. apply Z.mod_0_l. lia. }
    apply prime_mult in Hd as [Hd|Hd]; [contradiction | | exact Hp]. apply Z.mod_divide in Hd; [|lia].
    replace b with (c + (b - c)) by lia. rewrite Zplus_mod, Hd, Z.add_0_r. apply Z.mod_mod. lia.
  Qed.

  Definition residues : list Z := map (fun i => Z.of_nat (S i)) (seq 0 (Z.to_nat (p - 1))).
  Lemma in_residues x : In x residues <-> 0 < x < p.
  Proof.
    unfold residues. rewrite in_map_iff. split.
    - intros (i & <- & Hi). apply in_seq in Hi. lia.
    - intros Hx. exists (Z.to_nat (x - 1)). split; [lia | apply in_seq; lia].
  Qed.
  Lemma nodup_residues : NoDup residues.
  Proof. apply FinFun.Injective_map_NoDup; [intros i j E; lia | apply seq_NoDup]. Qed.

  Definition product (l : list Z) : Z := fold_right Z.mul 1 l.
  Lemma product_perm l l' : Permutation l l' -> product l = product l'.
  Proof. induction 1; cbn [product fold_right] in *; [reflexivity | unfold product in *; lia | lia | congruence]. Qed.
  Lemma product_scaled a l : product (map (fun x => (a * x) mod p) l) mod p = (a ^ Z.of_nat (length l) * product l) mod p.
  Proof.
    induction l as [|x l IH]; [reflexivity|]. cbn [map product fold_right length]. fold (product (map (fun x => (a * x) mod p) l)) (product l).
    rewrite Zmult_mod, IH, Z.mod_mod, <- Zmult_mod by lia. f_equal. rewrite Nat2Z.inj_succ, Z.pow_succ_r by lia. lia.
  Qed.
  Lemma product_indivisible l : (forall x, In x l -> 0 < x < p) -> ~ (p | product l).
  Proof.
    induction l as [|x l IH]; intros Hl; cbn [product fold_right].
    - intros H. apply Z.divide_1_r in H. lia.
    - intros H. apply prime_mult in H as [H|H]; [| |exact Hp].
      + apply Z.divide_pos_le in H; specialize (Hl x (or_introl eq_refl)); lia.
      + revert H. apply IH. intros y Hy. apply Hl. right. exact Hy.
  Qed.

  Lemma fermat a : ~ (p | a) -> a ^ (p - 1) mod p = 1.
  Proof.
    intros Ha. assert (Permutation residues (map (fun x => (a * x) mod p) residues)) as HP.
    { symmetry. apply NoDup_Permutation_bis.
      - assert (forall l, (forall x, In x l -> 0 < x < p) -> NoDup l -> NoDup (map (fun x => (a * x) mod p) l)) as HM.
        { intros l Hl. induction 1 as [|x l Hx Hn IH]; [constructor|]. cbn [map]. constructor; [|apply IH; intros y Hy; apply Hl; right; exact Hy].
          intros HI. apply in_map_iff in HI as (y & E & Hy). apply prime_cancel in E; [|exact Ha].
          pose proof (Hl x (or_introl eq_refl)). pose proof (Hl y (or_intror Hy)). rewrite !Z.mod_small in E by lia. subst. contradiction. }
        apply HM; [intros x; apply in_residues | apply nodup_residues].
      - rewrite map_length. lia.
      - intros y Hy. apply in_map_iff in Hy as (x & <- & Hx). apply in_residues in Hx. apply in_residues.
        pose proof (Z.mod_pos_bound (a * x) p ltac:(lia)). assert ((a * x) mod p <> 0); [|lia]. intros E. apply Z.mod_divide in E; [|lia].
        apply prime_mult in E as [E|E]; [contradiction | | exact Hp]. apply Z.divide_pos_le in E; lia. }
    pose proof (product_scaled a residues) as HS. rewrite <- (product_perm _ _ HP) in HS.
    unfold residues in HS at 2. rewrite map_length, seq_length, Z2Nat.id in HS by lia.
    rewrite <- (Z.mul_1_r (product residues)) in HS at 1. rewrite (Z.mul_comm (a ^ _)) in HS.
    apply prime_cancel in HS; [|apply product_indivisible; intros x; apply in_residues]. rewrite <- HS. apply Z.mod_small. lia.
  Qed.

  Lemma exponents_cancel a k q : 0 <= q -> k = 1 + q * (p - 1) -> a ^ k mod p = a mod p.
  Proof.
    intros Hq ->. rewrite Z.pow_add_r, Z.pow_1_r by nia. destruct (Znumtheory.Zdivide_dec p a) as [Ha|Ha].
    - destruct Ha as [b ->]. rewrite <- Z.mul_assoc, (Z.mul_comm p), !Z.mul_assoc, !Z.mod_mul by lia. reflexivity.
    - rewrite (Z.mul_comm q), Z.pow_mul_r by lia. rewrite Zmult_mod, Zpower_mod, (fermat a Ha), Z.pow_1_l, Z.mod_1_l, Z.mul_1_r by lia. apply Z.mod_mod. lia.
  Qed.
End Fermat.

(** Distinct primes that divide a number: their product does. *)
Lemma primes_divide (l : list N) : NoDup l -> (forall p, In p l -> prime (Z.of_N p)) -> forall x,
  (forall p, In p l -> (Z.of_N p | x)%Z) -> (Z.of_N (fold_right N.mul 1%N l) | x)%Z.
Proof.
  induction 1 as [|p l Hp Hn IH]; intros Hl x Hx; cbn [fold_right]; [apply Z.divide_1_l|].
  rewrite N2Z.inj_mul. assert (rel_prime (Z.of_N p) (Z.of_N (fold_right N.mul 1%N l))) as Hr.
  { clear IH Hx x Hn. induction l as [|q l IHl]; [apply rel_prime_1 || (apply rel_prime_sym, rel_prime_1)|]. cbn [fold_right]. rewrite N2Z.inj_mul.
    apply rel_prime_mult.
    - apply prime_rel_prime; [apply Hl; left; reflexivity|]. intros Hd. apply (prime_div_prime _ _ (Hl p (or_introl eq_refl)) (Hl q (or_intror (or_introl eq_refl)))) in Hd.
      apply N2Z.inj in Hd. subst. apply Hp. left. reflexivity.
    - apply IHl; [intros HI; apply Hp; right; exact HI|]. intros r Hr. apply Hl. destruct Hr as [<- | Hr]; [left; reflexivity | right; right; exact Hr]. }
  destruct (Hx p (or_introl eq_refl)) as [y ->]. rewrite (Z.mul_comm y). apply Z.mul_divide_mono_l.
  apply IH; [intros q Hq; apply Hl; right; exact Hq|]. intros q Hq. specialize (Hx q (or_intror Hq)).
  apply prime_mult in Hx as [Hx|Hx]; [exact Hx | | apply Hl; right; exact Hq].
  apply (prime_div_prime _ _ (Hl q (or_intror Hq)) (Hl p (or_introl eq_refl))) in Hx. apply N2Z.inj in Hx. subst. contradiction.
Qed.

Lemma pair_cancels n e d m : rsa_pair n e d -> (m ^ (e * d) mod n = m mod n)%N.
Proof.
  intros (l & Hn & Hprod & Hl).
  destruct (N.eq_dec n 0) as [E0|E0].
  { exfalso. clear -Hprod Hl E0. subst n. revert E0. assert (forall l, (forall p, In p l -> prime (Z.of_N p)) -> fold_right N.mul 1%N l <> 0%N) as H; [|apply H; intros p Hp; apply Hl, Hp].
    clear. induction l as [|q l IH]; intros Hl; cbn [fold_right]; [discriminate|]. pose proof (IH (fun r Hr => Hl r (or_intror Hr))). destruct (Hl q (or_introl eq_refl)). lia. }
  apply N2Z.inj. rewrite !N2Z.inj_mod, N2Z.inj_pow by exact E0.
  assert (Z.of_N n | Z.of_N m ^ Z.of_N (e * d) - Z.of_N m)%Z as Hd.
  { rewrite <- Hprod. apply primes_divide; [exact Hn | intros p Hp; apply Hl, Hp|]. intros p Hp. destruct (Hl p Hp) as [Hpr [q Hq]]. pose proof Hpr as [Hp1 _].
    apply Z.mod_divide; [lia|]. rewrite Zminus_mod, (exponents_cancel (Z.of_N p) Hpr (Z.of_N m) (Z.of_N (e * d)) (Z.of_N q)) by lia.
    rewrite Z.sub_diag. apply Z.mod_0_l. lia. }
  apply Z.mod_divide in Hd; [|lia].
  replace (Z.of_N m ^ Z.of_N (e * d))%Z with (Z.of_N m + (Z.of_N m ^ Z.of_N (e * d) - Z.of_N m))%Z by lia.
  rewrite Zplus_mod, Hd, Z.add_0_r. apply Z.mod_mod. lia.
Qed.

(* --------------------------------------------------------------- powers *)
Local Open Scope N_scope.

Lemma pow_mod_pos_spec n x : n <> 0 -> forall e, pow_mod_pos x e n = x ^ Npos e mod n.
Proof.
  intros Hn. induction e as [e IH|e IH|]; cbn [pow_mod_pos].
  - rewrite IH. replace (Npos e~1) with (Npos e + Npos e + 1) by lia. rewrite !N.pow_add_r, N.pow_1_r.
    rewrite <- N.mul_mod by exact Hn. rewrite N.mul_mod_idemp_l by exact Hn. reflexivity.
  - rewrite IH. replace (Npos e~0) with (Npos e + Npos e) by lia. rewrite N.pow_add_r. symmetry. apply N.mul_mod, Hn.
  - rewrite N.pow_1_r. reflexivity.
Qed.
Lemma pow_mod_spec x e n : n <> 0 -> pow_mod x e n = x ^ e mod n.
Proof. intros Hn. destruct e as [|e]; [reflexivity | apply pow_mod_pos_spec, Hn]. Qed.
Lemma pow_mod_idem a b n : n <> 0 -> (a mod n) ^ b mod n = a ^ b mod n.
Proof.
  intros Hn. induction b as [|b IH] using N.peano_ind; [reflexivity|]. rewrite !N.pow_succ_r'.
  rewrite N.mul_mod, IH, N.mod_mod, <- N.mul_mod by exact Hn. reflexivity.
Qed.

(* --------------------------------------------------------------- octets *)

Lemma octets_iff n k : octets n k <-> k = N.to_nat (rsa_size n) /\ n <> 0.
Proof.
  unfold octets, rsa_size. destruct (N.eq_dec n 0) as [->|Hn].
  { split; [intros [H0 [H _]] | intros [_ H]; congruence]. assert (256 ^ N.of_nat (k - 1) <> 0) by (apply N.pow_nonzero; discriminate). lia. }
  rewrite N.size_log2 by exact Hn. pose proof (N.log2_spec n ltac:(lia)) as [HL HU].
  assert (forall j, 256 ^ j = 2 ^ (8 * j)) as H8 by (intros j; rewrite N.pow_mul_r; reflexivity). rewrite !H8.
  pose proof (N.div_mod (N.succ (N.log2 n) + 7) 8 ltac:(discriminate)) as Hdm. pose proof (N.mod_lt (N.succ (N.log2 n) + 7) 8 ltac:(discriminate)) as Hm.
  set (q := (N.succ (N.log2 n) + 7) / 8) in *. split.
  - intros [H0 [H1 H2]]. split; [|exact Hn]. assert (8 * N.of_nat (k - 1) < N.succ (N.log2 n)) as A1.
    { apply (N.pow_lt_mono_r_iff 2); [reflexivity|]. eapply N.le_lt_trans; eassumption. }
    assert (N.log2 n < 8 * N.of_nat k) as A2. { apply (N.pow_lt_mono_r_iff 2); [reflexivity|]. eapply N.le_lt_trans; eassumption. }
    clear H8 HL HU H1 H2. lia.
  - intros [-> _]. assert (0 < q) as Hq by (clear H8 HL HU; lia). split; [clear H8 HL HU; lia|]. split.
    + apply N.le_trans with (2 ^ N.log2 n); [apply N.pow_le_mono_r; clear H8 HL HU; lia | exact HL].
    + apply N.lt_le_trans with (2 ^ N.succ (N.log2 n)); [exact HU | apply N.pow_le_mono_r; clear H8 HL HU; lia].
Qed.
Lemma size_bound n : n <> 0 -> n < 256 ^ rsa_size n.
Proof. intros Hn. pose proof (proj2 (octets_iff n (N.to_nat (rsa_size n))) (conj eq_refl Hn)) as [_ [_ H]]. rewrite N2Nat.id in H. exact H. Qed.

(* -------------------------------------------------------------- messages *)

Lemma ff_repeat l : Forall (eq xff) l -> l = repeat xff (length l).
Proof. induction 1 as [|x l <- _ IH]; [reflexivity|]. cbn [length repeat]. f_equal. exact IH. Qed.
Lemma encoded_iff k data em : encoded_message (N.to_nat k) data em <-> pkcs1_pad k (sha256 data) = Some em.
Proof.
  unfold encoded_message, pkcs1_pad. rewrite app_length, sha256_length. change (length digest_info) with 19%nat.
  change (N.of_nat (19 + 32) + 11) with 62. change (N.of_nat (19 + 32)) with 51. split.
  - intros (ff & d & Hf & H8 & Hd & Hl & E). apply sha256_iff in Hd. subst d.
    assert (length ff = N.to_nat (k - 51 - 3)) as Hlen.
    { rewrite E in Hl. rewrite !app_length, sha256_length in Hl. cbn [length] in Hl. lia. }
    destruct (N.ltb_spec k 62); [lia|]. f_equal. rewrite E, <- Hlen, <- ff_repeat by exact Hf. reflexivity.
  - destruct (N.ltb_spec k 62) as [|Hk]; [discriminate|]. intros E. apply some_eq in E. subst em.
    exists (repeat xff (N.to_nat (k - 51 - 3))), (sha256 data). split; [apply Forall_forall; intros x Hx; symmetry; eapply repeat_spec, Hx|].
    rewrite repeat_length. split; [lia|]. split; [apply sha256_iff; reflexivity|]. split; [|reflexivity].
    rewrite !app_length, repeat_length, sha256_length. cbn [length digest_info]. lia.
Qed.
Lemma pad_length k h em : length h = 32%nat -> pkcs1_pad k h = Some em -> length em = N.to_nat k /\ 62 <= k.
Proof.
  unfold pkcs1_pad. rewrite app_length. intros Hh. rewrite Hh. change (N.of_nat (length digest_info + 32) + 11) with 62.
  destruct (N.ltb_spec k 62) as [|Hk]; [discriminate|]. intros E. apply some_eq in E. subst em. split; [|exact Hk].
  rewrite !app_length, repeat_length, Hh. cbn [length digest_info Nat.add]. change (N.of_nat 51) with 51. lia.
Qed.
Lemma pad_small k h em : length h = 32%nat -> pkcs1_pad k h = Some em -> be_value em < 256 ^ (k - 1).
Proof.
  intros Hh E. destruct (pad_length k h em Hh E) as [Hl Hk]. unfold pkcs1_pad in E. destruct (k <? _); [discriminate|]. apply some_eq in E.
  destruct em as [|c em]; [cbn in Hl; lia|]. assert (c = x00) as -> by (symmetry in E; exact (f_equal (fun l => hd x00 l) E)).
  rewrite be_value_cons. change (bN x00) with 0. cbn [N.mul N.add]. pose proof (be_value_bound em) as Hb.
  cbn [length] in Hl. replace (N.of_nat (length em)) with (k - 1) in Hb by lia. exact Hb.
Qed.

(* ------------------------------------------------------------- signatures *)

Lemma verify_iff range n e data sig : n <> 0 -> (rsa_verify range (n, e) (sha256 data) sig = true <->
  loose_signature n e data sig /\ (range = true -> place_value 256 (map bN sig) < n)).
Proof.
  intros Hn. unfold rsa_verify. rewrite sha256_length. change (32 =? 32)%nat with true. cbn [andb].
  rewrite !andb_true_iff, negb_true_iff, andb_false_iff, N.leb_gt, N.eqb_eq, be_value_place. split.
  - intros [[HR Hl] HM]. split; [|intros ->; destruct HR; [discriminate | assumption]].
    destruct (pkcs1_pad (rsa_size n) (sha256 data)) as [em|] eqn:Ep; [|discriminate]. apply bytes_eqb_eq in HM.
    exists (N.to_nat (rsa_size n)), em, (be_value sig), (be_value em). split; [apply octets_iff; split; [reflexivity | exact Hn]|].
    split; [apply encoded_iff, Ep|]. rewrite <- Hl, Nat2N.id. split; [apply be_number_value|].
    destruct (pad_length _ _ _ (sha256_length data) Ep) as [Hle _].
    split; [rewrite <- Hl, Nat2N.id in Hle; rewrite <- Hle; apply be_number_value|].
    rewrite <- HM, pow_mod_spec by exact Hn. symmetry. apply be_value_bytes. rewrite N2Nat.id.
    eapply N.lt_trans; [apply N.mod_lt, Hn | apply size_bound, Hn].
  - intros [(k & em & s & m & Ho & He & Hs & Hm & E) HR]. apply octets_iff in Ho as [-> _]. apply encoded_iff in He. rewrite He.
    apply be_number_iff in Hs as [-> Hs]. apply be_number_iff in Hm as [Hm Hm'].
    rewrite be_value_bytes in HR |- * by exact Hs. rewrite be_length, N2Nat.id. repeat split.
    + destruct range; [right; apply HR; reflexivity | left; reflexivity].
    + apply bytes_eqb_eq. rewrite pow_mod_spec by exact Hn. rewrite E. symmetry. exact Hm.
Qed.
Lemma verify_strict n e data sig : n <> 0 -> (rsa_verify true (n, e) (sha256 data) sig = true <-> pkcs1_signature n e data sig).
Proof. intros Hn. rewrite (verify_iff true n e data sig Hn). unfold pkcs1_signature. intuition. Qed.

Lemma signature_bytes n e data sig sig' : pkcs1_signature n e data sig -> pkcs1_signature n e data sig' ->
  place_value 256 (map bN sig) = place_value 256 (map bN sig') -> sig = sig'.
Proof.
  intros [(k & em & s & m & Ho & _ & Hs & _) _] [(k' & em' & s' & m' & Ho' & _ & Hs' & _) _] E.
  apply octets_iff in Ho as [-> _]. apply octets_iff in Ho' as [-> _].
  assert (s = s') by (destruct Hs as [_ <-]; destruct Hs' as [_ <-]; exact E). subst s'.
  apply be_number_iff in Hs as [-> _]. apply be_number_iff in Hs' as [-> _]. reflexivity.
Qed.
Lemma encoded_fun k data em em' : encoded_message k data em -> encoded_message k data em' -> em = em'.
Proof. rewrite <- (Nat2N.id k), !encoded_iff. congruence. Qed.
Lemma signature_root n e d data sig em k : rsa_pair n e d -> octets n k -> encoded_message k data em -> pkcs1_signature n e data sig ->
  place_value 256 (map bN sig) = place_value 256 (map bN em) ^ d mod n.
Proof.
  intros HP Ho He [(k' & em' & s & m & Ho' & He' & Hs & Hm & E) Hlt].
  apply octets_iff in Ho as [-> Hn]. apply octets_iff in Ho' as [-> _]. pose proof (encoded_fun _ _ _ _ He He') as <-.
  destruct Hs as [_ <-]. destruct Hm as [_ <-]. rewrite <- E. rewrite pow_mod_idem by exact Hn. rewrite <- N.pow_mul_r, (pair_cancels n e d _ HP).
  symmetry. apply N.mod_small, Hlt.
Qed.
Lemma signature_unique n e d data sig sig' : rsa_pair n e d -> pkcs1_signature n e data sig -> pkcs1_signature n e data sig' -> sig = sig'.
Proof.
  intros HP H H'. eapply signature_bytes; [exact H | exact H'|]. pose proof H as [(k & em & s & m & Ho & He & _) _].
  rewrite (signature_root n e d data sig em k HP Ho He H). symmetry. exact (signature_root n e d data sig' em k HP Ho He H').
Qed.

Lemma sign_verifies sk data sig : rsa_sign sk (sha256 data) = Some sig -> pkcs1_signature (rp_n sk) (rp_e sk) data sig.
Proof.
  unfold rsa_sign. rewrite sha256_length. cbn [Nat.eqb negb]. destruct (pkcs1_pad (rsa_size (rp_n sk)) (sha256 data)) as [em|] eqn:Ep; [|discriminate].
  destruct (N.leb_spec (rp_n sk) (be_value em)) as [|Hlt]; [discriminate|]. assert (rp_n sk <> 0) as Hn by (clear -Hlt; lia).
  destruct (N.eqb_spec (pow_mod (pow_mod (be_value em) (rp_d sk) (rp_n sk)) (rp_e sk) (rp_n sk)) (be_value em)) as [E|]; [|discriminate].
  intros H. apply some_eq in H. subst sig. rewrite !pow_mod_spec in * by exact Hn.
  assert (be_value em ^ rp_d sk mod rp_n sk < rp_n sk) as Hs by (apply N.mod_lt, Hn).
  assert (be_value em ^ rp_d sk mod rp_n sk < 256 ^ N.of_nat (N.to_nat (rsa_size (rp_n sk)))) as Hs' by (rewrite N2Nat.id; eapply N.lt_trans; [exact Hs | apply size_bound, Hn]).
  split; [|rewrite be_value_place, be_value_bytes by exact Hs'; exact Hs].
  exists (N.to_nat (rsa_size (rp_n sk))), em, (be_value em ^ rp_d sk mod rp_n sk), (be_value em).
  split; [apply octets_iff; split; [reflexivity | exact Hn]|]. split; [apply encoded_iff, Ep|].
  split; [apply be_number_iff; split; [reflexivity | exact Hs']|].
  destruct (pad_length _ _ _ (sha256_length data) Ep) as [Hle _]. split; [rewrite <- Hle; apply be_number_value | exact E].
Qed.
Lemma sign_total sk data : rsa_pair (rp_n sk) (rp_e sk) (rp_d sk) -> 256 ^ 61 <= rp_n sk -> exists sig, rsa_sign sk (sha256 data) = Some sig.
Proof.
  intros HP Hn. assert (rp_n sk <> 0) as Hn0. { intros E. rewrite E in Hn. revert Hn. apply N.lt_nge. apply N.neq_0_lt_0, N.pow_nonzero. discriminate. }
  pose proof (proj2 (octets_iff (rp_n sk) _) (conj eq_refl Hn0)) as [Hk0 [Hlo Hhi]].
  assert (62 <= rsa_size (rp_n sk)) as Hk.
  { assert (61 < N.of_nat (N.to_nat (rsa_size (rp_n sk)))) as H; [|lia]. apply (N.pow_lt_mono_r_iff 256); [reflexivity|]. eapply N.le_lt_trans; eassumption. }
  unfold rsa_sign. rewrite sha256_length. cbn [Nat.eqb negb].
  destruct (pkcs1_pad (rsa_size (rp_n sk)) (sha256 data)) as [em|] eqn:Ep.
  - pose proof (pad_small _ _ _ (sha256_length data) Ep) as Hb. assert (be_value em < rp_n sk) as Hlt.
    { eapply N.lt_le_trans; [exact Hb|]. replace (rsa_size (rp_n sk) - 1) with (N.of_nat (N.to_nat (rsa_size (rp_n sk)) - 1)) by lia. exact Hlo. }
    destruct (N.leb_spec (rp_n sk) (be_value em)) as [Hc|_]; [exfalso; revert Hc; apply N.lt_nge, Hlt|].
    rewrite !pow_mod_spec by exact Hn0. rewrite pow_mod_idem by exact Hn0. rewrite <- N.pow_mul_r, N.mul_comm, (pair_cancels _ _ _ _ HP), (N.mod_small _ _ Hlt), N.eqb_refl.
    eexists. reflexivity.
  - exfalso. unfold pkcs1_pad in Ep. rewrite app_length, sha256_length in Ep. change (N.of_nat (length digest_info + 32) + 11) with 62 in Ep.
    destruct (N.ltb_spec (rsa_size (rp_n sk)) 62); [lia | discriminate].
Qed.
Lemma sign_iff sk data sig : rsa_pair (rp_n sk) (rp_e sk) (rp_d sk) ->
  (rsa_sign sk (sha256 data) = Some sig <-> pkcs1_signature (rp_n sk) (rp_e sk) data sig).
Proof.
  intros HP. split; [apply sign_verifies|]. intros H. assert (256 ^ 61 <= rp_n sk) as Hn.
  { destruct H as [(k & em & s & m & Ho & He & _) _]. apply octets_iff in Ho as [-> Hn]. apply encoded_iff in He.
    destruct (pad_length _ _ _ (sha256_length data) He) as [_ Hk]. pose proof (proj2 (octets_iff (rp_n sk) _) (conj eq_refl Hn)) as [_ [Hlo _]].
    eapply N.le_trans; [|exact Hlo]. apply N.pow_le_mono_r; [discriminate | lia]. }
  destruct (sign_total sk data HP Hn) as [sig' E]. rewrite E. f_equal. eapply signature_unique; [exact HP | apply sign_verifies, E | exact H].
Qed.
Lemma too_short n e data sig : n < 256 ^ 61 -> ~ loose_signature n e data sig.
Proof.
  intros Hn (k & em & s & m & Ho & He & _). apply octets_iff in Ho as [-> Hn0]. apply encoded_iff in He.
  destruct (pad_length _ _ _ (sha256_length data) He) as [_ Hk]. pose proof (proj2 (octets_iff n _) (conj eq_refl Hn0)) as [_ [Hlo _]].
  revert Hn. apply N.le_ngt. eapply N.le_trans; [|exact Hlo]. apply N.pow_le_mono_r; [discriminate | lia].
Qed.
