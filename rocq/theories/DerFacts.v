(** Facts about DER of RSA public keys (C129-C130). *)
From Verif Require Import Prelude Ord SMap Base58 Value Cid Key Ipld KeySupport Cbor WebCrypto Der Ucan Builder Spec SpecWire SpecCbor SpecWebCrypto SpecDer
  OrdFacts DidFacts SignFacts KeysFacts CborFacts WebCryptoFacts.

Lemma some_eq {A} (a b : A) : Some a = Some b -> a = b.
Proof. congruence. Qed.

(* ------------------------------------------------------------------ lengths *)

Lemma len_octets_iff n k : der_len_octets n = Some k <->
  (k = 0%nat /\ (n < 128)%N) \/
  exists j, k = S j /\ (j < 4)%nat /\ (128 <= n < 268435456)%N /\ (256 ^ N.of_nat j <= n)%N /\ (n < 256 ^ N.of_nat (S j))%N.
Proof.
  unfold der_len_octets. split.
  - destruct (N.ltb_spec n 128); [intros [= <-]; left; auto|].
    destruct (N.ltb_spec n 256); [intros [= <-]; right; exists 0%nat; change (256 ^ N.of_nat 0)%N with 1%N; change (256 ^ N.of_nat 1)%N with 256%N; repeat split; lia|].
    destruct (N.ltb_spec n 65536); [intros [= <-]; right; exists 1%nat; change (256 ^ N.of_nat 1)%N with 256%N; change (256 ^ N.of_nat 2)%N with 65536%N; repeat split; lia|].
    destruct (N.ltb_spec n 16777216); [intros [= <-]; right; exists 2%nat; change (256 ^ N.of_nat 2)%N with 65536%N; change (256 ^ N.of_nat 3)%N with 16777216%N; repeat split; lia|].
    destruct (N.ltb_spec n 268435456); [|discriminate].
    intros [= <-]; right; exists 3%nat; change (256 ^ N.of_nat 3)%N with 16777216%N; change (256 ^ N.of_nat 4)%N with 4294967296%N; repeat split; lia.
  - intros [[-> H] | (j & -> & Hj & Hn & Hl & Hu)].
    + destruct (N.ltb_spec n 128); [reflexivity | lia].
    + destruct (N.ltb_spec n 128); [lia|].
      destruct j as [|[|[|[|j]]]]; [| | | |lia].
      * change (256 ^ N.of_nat 1)%N with 256%N in Hu. destruct (N.ltb_spec n 256); [reflexivity | lia].
      * change (256 ^ N.of_nat 2)%N with 65536%N in Hu. change (256 ^ N.of_nat 1)%N with 256%N in Hl.
        destruct (N.ltb_spec n 256); [lia|]. destruct (N.ltb_spec n 65536); [reflexivity | lia].
      * change (256 ^ N.of_nat 3)%N with 16777216%N in Hu. change (256 ^ N.of_nat 2)%N with 65536%N in Hl.
        destruct (N.ltb_spec n 256); [lia|]. destruct (N.ltb_spec n 65536); [lia|]. destruct (N.ltb_spec n 16777216); [reflexivity | lia].
      * change (256 ^ N.of_nat 3)%N with 16777216%N in Hl.
        destruct (N.ltb_spec n 256); [lia|]. destruct (N.ltb_spec n 65536); [lia|]. destruct (N.ltb_spec n 16777216); [lia|].
        destruct (N.ltb_spec n 268435456); [reflexivity | lia].
Qed.

Lemma write_len_iff n l : der_write_len n = Some l <-> (n < 268435456)%N /\ definite_length n l.
Proof.
  unfold der_write_len. split.
  - destruct (der_len_octets n) as [k|] eqn:E; [|discriminate]. apply len_octets_iff in E as [[-> H] | (j & -> & Hj & Hn & Hl & Hu)].
    + intros [= <-]. split; [lia | constructor; exact H].
    + intros E%some_eq. subst l. split; [lia|]. replace (128 + N.of_nat (S j))%N with (129 + N.of_nat j)%N by lia.
      apply DL_long; [lia | exact Hl | exact Hj |]. apply be_number_iff. split; [reflexivity | exact Hu].
  - intros [Hb Hd]. destruct Hd as [H | k bs H1 H2 H3 H4].
    + rewrite (proj2 (len_octets_iff n 0)) by auto. reflexivity.
    + apply be_number_iff in H4 as [-> H4].
      rewrite (proj2 (len_octets_iff n (S k))) by (right; exists k; repeat split; (exact H2 || exact H4 || lia)).
      replace (129 + N.of_nat k)%N with (128 + N.of_nat (S k))%N by lia. reflexivity.
Qed.

Lemma read_len_iff s n r : der_read_len s = Some (n, r) <-> exists l, der_write_len n = Some l /\ s = l ++ r.
Proof.
  split.
  - destruct s as [|c s]; [discriminate|]. cbn [der_read_len]. destruct (N.ltb_spec (bN c) 128) as [H|H].
    + intros [= <- <-]. exists [c]. split; [|reflexivity]. unfold der_write_len.
      rewrite (proj2 (len_octets_iff (bN c) 0)) by auto. rewrite byteN_bN. reflexivity.
    + destruct (take_exact (bN c - 128) s) as [[d r']|] eqn:Et; [|discriminate]. apply take_exact_iff in Et as [-> Hl].
      destruct (der_len_octets (be_value d)) as [k|] eqn:Ek; [|discriminate].
      destruct (N.ltb_spec 0 (bN c - 128)) as [Hp|Hp]; cbn [andb]; [|discriminate].
      destruct (N.eqb_spec (N.of_nat k) (bN c - 128)) as [Hk|Hk]; [|discriminate]. intros [= <- <-].
      exists (c :: d). split; [|reflexivity]. unfold der_write_len. rewrite Ek. destruct k as [|k]; [lia|].
      f_equal. rewrite Hk. f_equal.
      * rewrite <- (byteN_bN c) at 2. f_equal. lia.
      * replace (S k) with (length d) by lia. apply be_bytes_value.
  - intros (l & El & ->). unfold der_write_len in El. destruct (der_len_octets n) as [k|] eqn:Ek; [|discriminate].
    destruct k as [|k].
    + apply len_octets_iff in Ek as [[_ Hn] | (j & [=] & _)]. injection El as <-. cbn [app der_read_len].
      rewrite bN_byteN_small by lia. destruct (N.ltb_spec n 128); [reflexivity | lia].
    + pose proof Ek as Hk. apply len_octets_iff in Hk as [[[=] _] | (j & [= <-] & Hj & Hn & Hl & Hu)]. apply some_eq in El. subst l.
      cbn [app der_read_len]. rewrite bN_byteN_small by lia. destruct (N.ltb_spec (128 + N.of_nat (S k)) 128); [lia|].
      replace (128 + N.of_nat (S k) - 128)%N with (N.of_nat (S k)) by lia.
      rewrite (proj2 (take_exact_iff (N.of_nat (S k)) _ (be_bytes (S k) n) r)) by (rewrite be_length; auto).
      rewrite be_value_bytes by exact Hu. rewrite Ek, N.eqb_refl. destruct (N.ltb_spec 0 (N.of_nat (S k))); [reflexivity | lia].
Qed.

(* -------------------------------------------------------------- tagged values *)

Lemma tagged_iff tag body t : tagged tag body t <-> der_write tag body = Some t.
Proof.
  unfold tagged, der_write. change (2 ^ 28)%N with 268435456%N. split.
  - intros (Hb & l & Hl & ->). rewrite (proj2 (write_len_iff _ l)) by auto. reflexivity.
  - destruct (der_write_len _) as [l|] eqn:E; [|discriminate]. apply write_len_iff in E as [Hb Hl]. intros [= <-].
    split; [exact Hb|]. exists l. auto.
Qed.

Lemma der_read_iff tag s body r : der_read tag s = Some (body, r) <-> exists t, der_write tag body = Some t /\ s = t ++ r.
Proof.
  unfold der_write. split.
  - destruct s as [|t s]; [discriminate|]. cbn [der_read]. destruct (Byte.eqb t tag) eqn:Et; [|discriminate].
    apply Byte.byte_dec_bl in Et. subst t. destruct (der_read_len s) as [[n r']|] eqn:El; [|discriminate].
    apply read_len_iff in El as (l & El & ->). intros Ht. apply take_exact_iff in Ht as [-> Hn]. rewrite Hn, El.
    eexists. split; [reflexivity|]. cbn [app]. rewrite <- app_assoc. reflexivity.
  - intros (t & Et & ->). destruct (der_write_len _) as [l|] eqn:El; [|discriminate]. injection Et as <-.
    cbn [app der_read]. rewrite (Byte.byte_dec_lb eq_refl). rewrite <- app_assoc.
    rewrite (proj2 (read_len_iff (l ++ body ++ r) (N.of_nat (length body)) (body ++ r))) by (exists l; auto).
    apply take_exact_iff. auto.
Qed.

(* ------------------------------------------------------------------- numbers *)

Lemma size_bounds n k : (n < 2 ^ k)%N <-> (N.size n <= k)%N.
Proof.
  destruct n as [|p].
  - cbn [N.size]. split; [lia|]. intros _. apply N.neq_0_lt_0, N.pow_nonzero. discriminate.
  - pose proof (N.size_gt (Npos p)) as H1. pose proof (N.size_le (Npos p)) as H2. split.
    + intros H. apply N.lt_succ_r. apply (N.pow_lt_mono_r_iff 2); [reflexivity|].
      rewrite N.pow_succ_r by lia. rewrite N.succ_double_spec in H2. 
      destruct (N.le_gt_cases (2 ^ N.size (Npos p)) (2 * Npos p)) as [Hx|Hx]; [lia|].
      assert (2 ^ N.size (Npos p) = 2 * (Npos p) + 1)%N as Hodd by lia.
      destruct (N.size (Npos p)) as [|q] eqn:Eq; [cbn in Hodd; lia|].
      exfalso. rewrite <- (N.succ_pred (Npos q)) in Hodd by discriminate. rewrite N.pow_succ_r in Hodd by lia. lia.
    + intros H. eapply N.lt_le_trans; [exact H1|]. apply N.pow_le_mono_r; [discriminate | exact H].
Qed.

Lemma pow256 k : (256 ^ k = 2 ^ (8 * k))%N.
Proof. rewrite N.pow_mul_r. reflexivity. Qed.

Lemma be_value_cons c r : be_value (c :: r) = (bN c * 256 ^ N.of_nat (length r) + be_value r)%N.
Proof.
  induction r as [|d r IH] using rev_ind.
  - unfold be_value. cbn [fold_left length]. change (256 ^ N.of_nat 0)%N with 1%N. lia.
  - change (c :: r ++ [d]) with ((c :: r) ++ [d]). rewrite !be_value_snoc, IH, app_length. cbn [length].
    replace (N.of_nat (length r + 1)) with (N.succ (N.of_nat (length r))) by lia. rewrite N.pow_succ_r by lia. lia.
Qed.

(** The contents of an INTEGER have one bit more than the number, rounded up. *)
Lemma unsigned_shape n bs : unsigned n bs <-> be_value bs = n /\ length bs = N.to_nat (N.size n / 8 + 1).
Proof.
  unfold unsigned. rewrite be_value_place. split.
  - intros [Hv (c & r & -> & Hc & Hz)]. split; [exact Hv|]. cbn [length].
    assert (N.of_nat (length r) = N.size n / 8)%N as H; [|lia].
    apply N.le_antisymm.
    + destruct r as [|d r]; [cbn [length]; lia|]. cbn [length]. apply N.div_le_lower_bound; [discriminate|].
      apply N.lt_succ_r. apply N.nle_gt. intros Hs.
      assert (N.size n <= 8 * N.of_nat (S (length r)) - 1)%N as Hs' by lia. apply size_bounds in Hs'.
      rewrite <- Hv, be_value_cons in Hs'. cbn [length] in Hs'.
      assert (256 ^ N.of_nat (S (length r)) = 2 * 2 ^ (8 * N.of_nat (S (length r)) - 1))%N as Hp.
      { rewrite pow256, <- N.pow_succ_r by lia. f_equal. lia. }
      destruct (N.eq_dec (bN c) 0) as [H0|H0].
      * specialize (Hz H0 d r eq_refl). rewrite H0, be_value_cons in Hs'.
        rewrite Nat2N.inj_succ, N.pow_succ_r in Hp by lia. 
        assert (128 * 256 ^ N.of_nat (length r) <= bN d * 256 ^ N.of_nat (length r))%N by (apply N.mul_le_mono_r; exact Hz). lia.
      * assert (1 * 256 ^ N.of_nat (S (length r)) <= bN c * 256 ^ N.of_nat (S (length r)))%N by (apply N.mul_le_mono_r; lia). lia.
    + apply N.lt_succ_r, N.div_lt_upper_bound; [discriminate|].
      assert (N.size n <= 8 * N.of_nat (length r) + 7)%N; [|lia]. apply size_bounds. rewrite <- Hv, be_value_cons.
      rewrite N.pow_add_r, <- pow256. change (2 ^ 7)%N with 128%N. pose proof (be_value_bound r).
      assert (bN c * 256 ^ N.of_nat (length r) <= 127 * 256 ^ N.of_nat (length r))%N by (apply N.mul_le_mono_r; lia). lia.
  - intros [Hv Hl]. split; [exact Hv|]. destruct bs as [|c r]; [cbn [length] in Hl; lia|]. exists c, r. split; [reflexivity|].
    cbn [length] in Hl. assert (N.of_nat (length r) = N.size n / 8)%N as Hr by lia. clear Hl.
    pose proof (N.div_mod (N.size n) 8 ltac:(discriminate)) as Hd. pose proof (N.mod_lt (N.size n) 8 ltac:(discriminate)) as Hm.
    rewrite <- Hr in Hd. rewrite be_value_cons in Hv. split.
    + assert (n < 2 ^ (8 * N.of_nat (length r) + 7))%N as Hn by (apply size_bounds; lia).
      rewrite N.pow_add_r, <- pow256 in Hn. change (2 ^ 7)%N with 128%N in Hn. apply N.nle_gt. intros Hc.
      assert (128 * 256 ^ N.of_nat (length r) <= bN c * 256 ^ N.of_nat (length r))%N by (apply N.mul_le_mono_r; exact Hc). lia.
    + intros H0 d r' ->. apply N.nlt_ge. intros Hlt. rewrite H0, be_value_cons in Hv. cbn [length] in *.
      assert (n < 2 ^ (8 * N.of_nat (S (length r')) - 1))%N as Hn; [|apply size_bounds in Hn; lia].
      replace (8 * N.of_nat (S (length r')) - 1)%N with (8 * N.of_nat (length r') + 7)%N by lia.
      rewrite N.pow_add_r, <- pow256. change (2 ^ 7)%N with 128%N. pose proof (be_value_bound r').
      assert (bN d * 256 ^ N.of_nat (length r') <= 127 * 256 ^ N.of_nat (length r'))%N by (apply N.mul_le_mono_r; lia). lia.
Qed.

Lemma size_fits n : (n < 256 ^ N.of_nat (N.to_nat (N.size n / 8 + 1)))%N.
Proof.
  rewrite N2Nat.id, pow256. apply size_bounds.
  pose proof (N.div_mod (N.size n) 8 ltac:(discriminate)). pose proof (N.mod_lt (N.size n) 8 ltac:(discriminate)). lia.
Qed.

Lemma uint_bytes_iff n bs : der_uint_bytes n = bs <-> unsigned n bs.
Proof.
  rewrite unsigned_shape. unfold der_uint_bytes. split.
  - intros <-. rewrite be_length, be_value_bytes by apply size_fits. auto.
  - intros [Hv Hl]. rewrite <- Hl, <- Hv. apply be_bytes_value.
Qed.

Lemma uint_value_iff n bs : der_uint_value bs = Some n <-> unsigned n bs.
Proof.
  unfold unsigned. rewrite be_value_place. destruct bs as [|c r]; cbn [der_uint_value].
  - split; [discriminate | intros [_ (c & r & [=] & _)]].
  - destruct (N.leb_spec 128 (bN c)) as [H|H].
    + split; [discriminate | intros [_ (c' & r' & [= <- <-] & Hc & _)]; lia].
    + destruct r as [|d r].
      * split; [|intros [<- _]; reflexivity]. intros [= <-]. split; [reflexivity|]. exists c, []. split; [reflexivity|].
        split; [exact H | discriminate].
      * destruct (N.eqb_spec (bN c) 0) as [H0|H0], (N.ltb_spec (bN d) 128) as [Hd|Hd]; cbn [andb].
        -- split; [discriminate | intros [_ (c' & r' & [= <- <-] & Hc & Hz)]]. specialize (Hz H0 d r eq_refl). lia.
        -- split; [|intros [<- _]; reflexivity]. intros [= <-]. split; [reflexivity|]. exists c, (d :: r).
           split; [reflexivity|]. split; [exact H | intros _ d' r' [= <- <-]; exact Hd].
        -- split; [|intros [<- _]; reflexivity]. intros [= <-]. split; [reflexivity|]. exists c, (d :: r).
           split; [reflexivity|]. split; [exact H | intros H1; lia].
        -- split; [|intros [<- _]; reflexivity]. intros [= <-]. split; [reflexivity|]. exists c, (d :: r).
           split; [reflexivity|]. split; [exact H | intros H1; lia].
Qed.

(* ---------------------------------------------------------------- public keys *)

Lemma der_integer_iff n t : der_integer n t <-> der_write x02 (der_uint_bytes n) = Some t.
Proof.
  unfold der_integer. split.
  - intros (bs & Hu & Ht). apply uint_bytes_iff in Hu. apply tagged_iff in Ht. congruence.
  - intros H. exists (der_uint_bytes n). split; [apply uint_bytes_iff; reflexivity | apply tagged_iff, H].
Qed.

Lemma to_pkcs1_iff n e t : rsa_to_pkcs1 (n, e) = Some t <-> rsa_public_key n e t.
Proof.
  unfold rsa_to_pkcs1, rsa_public_key. cbn [fst snd]. split.
  - destruct (der_write x02 (der_uint_bytes n)) as [tn|] eqn:En; [|discriminate].
    destruct (der_write x02 (der_uint_bytes e)) as [te|] eqn:Ee; [|discriminate].
    intros H. exists tn, te. split; [apply der_integer_iff, En|]. split; [apply der_integer_iff, Ee | apply tagged_iff, H].
  - intros (tn & te & Hn & He & Ht). apply der_integer_iff in Hn, He. apply tagged_iff in Ht. rewrite Hn, He. exact Ht.
Qed.

Lemma from_pkcs1_iff s n e : rsa_from_pkcs1 s = Some (n, e) <-> rsa_check n e = true /\ rsa_to_pkcs1 (n, e) = Some s.
Proof.
  unfold rsa_from_pkcs1. split.
  - destruct (der_read x30 s) as [[body [|]]|] eqn:E0; [|discriminate|discriminate].
    apply der_read_iff in E0 as (t0 & E0 & ->). rewrite app_nil_r.
    destruct (der_read x02 body) as [[bn r]|] eqn:E1; [|discriminate]. apply der_read_iff in E1 as (t1 & E1 & ->).
    destruct (der_read x02 r) as [[be [|]]|] eqn:E2; [|discriminate|discriminate].
    apply der_read_iff in E2 as (t2 & E2 & ->). rewrite app_nil_r in E0.
    destruct (der_uint_value bn) as [n'|] eqn:En; [|discriminate]. destruct (der_uint_value be) as [e'|] eqn:Ee; [|discriminate].
    apply uint_value_iff, uint_bytes_iff in En, Ee.
    destruct (rsa_check n' e') eqn:Ec; [|discriminate]. intros [= <- <-]. split; [exact Ec|].
    unfold rsa_to_pkcs1. cbn [fst snd]. rewrite En, Ee, E1, E2. exact E0.
  - intros [Hc H]. unfold rsa_to_pkcs1 in H. cbn [fst snd] in H.
    destruct (der_write x02 (der_uint_bytes n)) as [tn|] eqn:En; [|discriminate].
    destruct (der_write x02 (der_uint_bytes e)) as [te|] eqn:Ee; [|discriminate].
    rewrite (proj2 (der_read_iff x30 s (tn ++ te) [])) by (exists s; rewrite app_nil_r; auto).
    rewrite (proj2 (der_read_iff x02 (tn ++ te) (der_uint_bytes n) te)) by (exists tn; auto).
    rewrite (proj2 (der_read_iff x02 te (der_uint_bytes e) [])) by (exists te; rewrite app_nil_r; auto).
    rewrite !(proj2 (uint_value_iff _ _)) by (apply uint_bytes_iff; reflexivity). rewrite Hc. reflexivity.
Qed.

Lemma rsa_check_iff n e : rsa_check n e = true <-> rsa_taken n e.
Proof.
  unfold rsa_check, rsa_taken. rewrite !andb_true_iff, !N.leb_le, N.ltb_lt, size_bounds, !N.odd_spec.
  assert (2 ^ 33 = 8589934592)%N as -> by reflexivity. split.
  - intros (((((H1 & H2) & H3) & H4) & H5) & H6). split; [exact H1|]. split; [|auto].
    split; [|lia]. destruct H4 as [q ->]. lia.
  - intros (H1 & H2 & H3 & H4 & H5). repeat split; auto; lia.
Qed.

Lemma from_pkcs1_spec s n e : rsa_from_pkcs1 s = Some (n, e) <-> rsa_taken n e /\ rsa_public_key n e s.
Proof. rewrite from_pkcs1_iff, rsa_check_iff, to_pkcs1_iff. reflexivity. Qed.

Lemma public_key_unique n e t t' : rsa_public_key n e t -> rsa_public_key n e t' -> t = t'.
Proof. rewrite <- !to_pkcs1_iff. congruence. Qed.

Lemma integer_split n t1 r1 n' t2 r2 : der_integer n t1 -> der_integer n' t2 -> t1 ++ r1 = t2 ++ r2 -> n = n' /\ r1 = r2.
Proof.
  intros (b1 & U1 & T1) (b2 & U2 & T2) E. apply tagged_iff in T1, T2.
  assert (der_read x02 (t1 ++ r1) = Some (b1, r1)) as E1 by (apply der_read_iff; eauto).
  assert (der_read x02 (t2 ++ r2) = Some (b2, r2)) as E2 by (apply der_read_iff; eauto).
  rewrite E, E2 in E1. apply some_eq in E1. assert (b2 = b1 /\ r2 = r1) as [-> ->] by (split; congruence).
  apply uint_value_iff in U1, U2. split; congruence.
Qed.

Lemma public_key_inj n e n' e' t : rsa_public_key n e t -> rsa_public_key n' e' t -> n = n' /\ e = e'.
Proof.
  intros (tn & te & Hn & He & Ht) (tn' & te' & Hn' & He' & Ht'). apply tagged_iff in Ht, Ht'.
  assert (der_read x30 (t ++ []) = Some (tn ++ te, [])) as E1 by (apply der_read_iff; eauto).
  assert (der_read x30 (t ++ []) = Some (tn' ++ te', [])) as E2 by (apply der_read_iff; eauto).
  rewrite E1 in E2. apply some_eq in E2. assert (tn ++ te = tn' ++ te') as E by congruence.
  destruct (integer_split _ _ _ _ _ _ Hn Hn' E) as [-> E3]. split; [reflexivity|].
  apply (integer_split e te [] e' te' []); [exact He | exact He' | rewrite !app_nil_r; exact E3].
Qed.

(* ------------------------------------------------------------------------ DIDs *)

Section Keys.
  Context {Priv : Type} (sgn : Priv -> bytes -> option bytes) (vrf : rsa_pub -> bytes -> bytes -> bool) (sha256 : bytes -> bytes).
  Notation C := (rsa_crate sgn vrf).

  Lemma rsa_did_text n e sk t : rsa_public_key n e t -> key_did (rsa_key C sha256 (n, e) sk) = Ok (did_key_text ([x85; x24] ++ t)).
  Proof. intros H. apply to_pkcs1_iff in H. exact (proj1 (supported_did _ _ _ (SK_rsa C sha256 (n, e) sk t H))). Qed.

  Lemma rsa_ctor_iff bs k : bytes_to_rsa_key C sha256 bs = Ok k <->
    exists n e, rsa_taken n e /\ rsa_public_key n e bs /\ k = rsa_key C sha256 (n, e) None.
  Proof.
    unfold bytes_to_rsa_key. cbn [cr_decode rsa_crate]. split.
    - destruct (rsa_from_pkcs1 bs) as [[n e]|] eqn:E; [|discriminate]. apply from_pkcs1_spec in E as [Ht Hp].
      cbn [ok_or rbind]. intros H. exists n, e. split; [exact Ht|]. split; [exact Hp|]. congruence.
    - intros (n & e & Ht & Hp & ->). rewrite (proj2 (from_pkcs1_spec bs n e)) by auto. reflexivity.
  Qed.

  Lemma rsa_resolves n e sk t did slice dids : rsa_public_key n e t -> key_did (rsa_key C sha256 (n, e) sk) = Ok did ->
    registered slice [x85; x24] (bytes_to_rsa_key C sha256) ->
    (rsa_taken n e -> fst (did_parse (parser_after slice dids) did) = Ok (rsa_key C sha256 (n, e) None)) /\
    (~ rsa_taken n e -> fst (did_parse (parser_after slice dids) did) = Err EKeyBytes).
  Proof.
    intros Ht Hk Hr. pose proof (proj2 (to_pkcs1_iff n e t) Ht) as He.
    rewrite (supported_resolves _ t (rsa_key C sha256 (n, e) sk) slice dids _ did (SK_rsa C sha256 (n, e) sk t He) Hk Hr).
    split; intros Hn.
    - apply rsa_ctor_iff. eauto.
    - unfold bytes_to_rsa_key. cbn [cr_decode rsa_crate]. destruct (rsa_from_pkcs1 t) as [[n' e']|] eqn:E; [|reflexivity].
      apply from_pkcs1_spec in E as [Hn' Hp]. destruct (public_key_inj _ _ _ _ _ Ht Hp) as [<- <-]. contradiction.
  Qed.
End Keys.

(* ---------------------------------------------------------------------- sizes *)

Lemma write_len_der n l : (n < 16777216)%N -> der_write_len n = Some l -> l = der_length n.
Proof.
  unfold der_write_len, der_len_octets, der_length. intros Hn.
  destruct (N.ltb_spec n 128); [intros E%some_eq; symmetry; exact E|].
  destruct (N.ltb_spec n 256); [intros E%some_eq; rewrite <- E; reflexivity|].
  destruct (N.ltb_spec n 65536); [intros E%some_eq; rewrite <- E; reflexivity|].
  destruct (N.ltb_spec n 16777216); [|lia]. intros E%some_eq. rewrite <- E. cbn [be_bytes app].
  rewrite N.div_div by discriminate. reflexivity.
Qed.

Lemma write_der tag body t : (N.of_nat (length body) < 16777216)%N -> der_write tag body = Some t -> t = der tag body.
Proof.
  unfold der_write, der. intros Hn. destruct (der_write_len _) as [l|] eqn:E; [|discriminate]. apply write_len_der in E; [|exact Hn].
  intros E'%some_eq. rewrite <- E', E. reflexivity.
Qed.

Lemma der_len_size n : (n < 16777216)%N -> N.of_nat (length (der_length n)) =
  (if n <? 128 then 1 else if n <? 256 then 2 else if n <? 65536 then 3 else 4)%N.
Proof. intros _. unfold der_length. destruct (n <? 128)%N, (n <? 256)%N, (n <? 65536)%N; reflexivity. Qed.

Lemma der_size tag body : (N.of_nat (length body) < 16777216)%N ->
  N.of_nat (length (der tag body)) = (let n := N.of_nat (length body) in
    n + (if n <? 128 then 2 else if n <? 256 then 3 else if n <? 65536 then 4 else 5))%N.
Proof.
  intros H. unfold der. rewrite !app_length. cbn [length]. rewrite !Nat2N.inj_add, der_len_size by exact H. cbn zeta.
  repeat match goal with |- context [N.ltb ?a ?b] => destruct (N.ltb a b) end; lia.
Qed.

(** The parts of the encoding of a key of at most 65536 bits. *)
Lemma public_key_parts n e t : (N.size n <= 65536)%N -> (N.size e <= 65536)%N -> rsa_public_key n e t ->
  t = der x30 (der x02 (der_uint_bytes n) ++ der x02 (der_uint_bytes e)).
Proof.
  intros Hn He (tn & te & Tn & Te & Tt). apply der_integer_iff in Tn, Te. apply tagged_iff in Tt.
  assert (N.size n / 8 <= 8192)%N by (apply N.div_le_upper_bound; [discriminate | lia]).
  assert (N.size e / 8 <= 8192)%N by (apply N.div_le_upper_bound; [discriminate | lia]).
  assert (N.of_nat (length (der_uint_bytes n)) < 16777216)%N as Ln by (unfold der_uint_bytes; rewrite be_length; lia).
  assert (N.of_nat (length (der_uint_bytes e)) < 16777216)%N as Le by (unfold der_uint_bytes; rewrite be_length; lia).
  apply write_der in Tn, Te; try assumption. subst tn te. apply write_der in Tt; [exact Tt|].
  rewrite app_length, Nat2N.inj_add, !der_size by assumption. unfold der_uint_bytes. rewrite !be_length, !N2Nat.id. cbn zeta.
  repeat match goal with |- context [N.ltb ?a ?b] => destruct (N.ltb a b) end; lia.
Qed.

Lemma taken_der s pk : rsa_from_pkcs1 s = Some pk -> exists body, s = der x30 ([x02] ++ body).
Proof.
  destruct pk as [n e]. intros H. apply from_pkcs1_spec in H as ((Hn & He & _) & Hp).
  apply size_bounds in Hn. assert (N.size e <= 33)%N as He' by (apply size_bounds; lia).
  apply public_key_parts in Hp; [|lia|lia]. rewrite Hp. unfold der at 2. rewrite <- !app_assoc. eexists. reflexivity.
Qed.

(** With the exponent 65537 the size follows from the number of bits. *)
Lemma public_key_size n t : (N.size n <= 65536)%N -> rsa_public_key n 65537 t ->
  ((255 <= N.of_nat (length t) <= 65515)%N <-> (1944 <= N.size n)%N) /\ ((127 <= length t)%nat <-> (936 <= N.size n)%N).
Proof.
  intros Hn H. apply public_key_parts in H; [|exact Hn | vm_compute; discriminate]. subst t.
  pose proof (N.div_mod (N.size n) 8 ltac:(discriminate)) as Hd. pose proof (N.mod_lt (N.size n) 8 ltac:(discriminate)) as Hm.
  set (q := (N.size n / 8)%N) in *.
  assert (N.of_nat (length (der_uint_bytes n)) = q + 1)%N as Ln by (unfold der_uint_bytes; rewrite be_length; fold q; lia).
  assert (length (der x02 (der_uint_bytes 65537)) = 5%nat) as Le by (vm_compute; reflexivity).
  assert (N.of_nat (length (der x02 (der_uint_bytes n) ++ der x02 (der_uint_bytes 65537))) =
    q + 6 + (if q + 1 <? 128 then 2 else if q + 1 <? 256 then 3 else if q + 1 <? 65536 then 4 else 5))%N as Lb.
  { rewrite app_length, Nat2N.inj_add, Le, der_size by lia. rewrite Ln. cbn zeta. lia. }
  assert (forall t : bytes, (127 <= length t)%nat <-> (127 <= N.of_nat (length t))%N) as Ht by (intros t; lia). rewrite Ht.
  rewrite der_size by (rewrite Lb; repeat match goal with |- context [N.ltb ?a ?b] => destruct (N.ltb a b) end; lia). rewrite Lb. cbn zeta.
  destruct (N.ltb_spec (q + 1) 128); [|destruct (N.ltb_spec (q + 1) 256); [|destruct (N.ltb_spec (q + 1) 65536); [|lia]]];
    repeat match goal with |- context [N.ltb ?a ?b] => destruct (N.ltb_spec a b) end; lia.
Qed.

(* -------------------------------------------------------------------- WebCrypto *)

Section Web.
  Context {Priv WPub WPriv : Type} (sgn : Priv -> bytes -> option bytes) (vrf : rsa_pub -> bytes -> bytes -> bool)
    (W : browser WPub WPriv) (sha256 : bytes -> bytes).
  Notation C := (rsa_crate sgn vrf).

  Lemma web_rsa_did wk wsk sk n : (936 <= N.size n <= 65536)%N -> exported_rsa W wk n 65537 ->
    ((1944 <= N.size n)%N /\ rsa_taken n 65537 -> key_did (web_key C W sha256 wk wsk) = key_did (rsa_key C sha256 (n, 65537%N) sk)) /\
    (~ ((1944 <= N.size n)%N /\ rsa_taken n 65537) -> key_did (web_key C W sha256 wk wsk) = Err EKeyBytes).
  Proof.
    intros [H1 H2] (b & Hb & Hw & Hx). destruct (public_key_size n b H2 Hb) as [S1 S2].
    cbn [key_did web_key]. unfold web_did. rewrite Hw, Hx. cbn [rbind]. split.
    - intros [Hs Ht]. rewrite convert_in_range by (apply S1, Hs). cbn [rbind cr_decode rsa_crate].
      rewrite (proj2 (from_pkcs1_spec b n 65537)) by auto. cbn [ok_or rbind].
      rewrite !(rsa_did_text sgn vrf sha256 n 65537 _ b Hb). reflexivity.
    - intros Hn. destruct (N.le_gt_cases 1944 (N.size n)) as [Hs|Hs].
      + rewrite convert_in_range by (apply S1, Hs). cbn [rbind cr_decode rsa_crate].
        destruct (rsa_from_pkcs1 b) as [[n' e']|] eqn:E; [|reflexivity]. exfalso. apply Hn. split; [exact Hs|].
        apply from_pkcs1_spec in E as [Ht Hp]. destruct (public_key_inj _ _ _ _ _ Hb Hp) as [-> ->]. exact Ht.
      + assert (exists body0, b = der x30 ([x02] ++ body0)) as [body0 Eb].
        { apply public_key_parts in Hb; [|exact H2 | vm_compute; discriminate]. rewrite Hb. unfold der at 2. rewrite <- !app_assoc. eexists. reflexivity. }
        destruct (convert_no_der b body0 Eb) as (b' & Hv & Hd); [apply S2, H1 | intros Hr; apply S1 in Hr; lia |].
        rewrite Hv. cbn [rbind cr_decode rsa_crate]. destruct (rsa_from_pkcs1 b') as [pk|] eqn:E; [|reflexivity].
        exfalso. apply taken_der in E as [body E]. exact (Hd _ E).
  Qed.

  (** A smaller key never has its own DID in the browser. *)
  Lemma web_small_did wk wsk sk n : (N.size n < 1944)%N -> exported_rsa W wk n 65537 ->
    key_did (web_key C W sha256 wk wsk) <> key_did (rsa_key C sha256 (n, 65537%N) sk).
  Proof.
    intros Hs (b & Hb & Hw & Hx) E. rewrite (rsa_did_text sgn vrf sha256 n 65537 sk b Hb) in E. cbn [key_did web_key] in E.
    apply web_did_ok in E as (_ & s & b' & [n' e'] & Hs' & Hv & Hd & Hk). rewrite Hx in Hs'. injection Hs' as <-.
    cbn [cr_decode rsa_crate] in Hd. apply from_pkcs1_spec in Hd as [_ Hp].
    rewrite (rsa_did_text sgn vrf sha256 n' e' None b' Hp) in Hk.
    assert (did_key_text ([x85; x24] ++ b') = did_key_text ([x85; x24] ++ b)) as E by congruence.
    apply did_key_text_inj, app_inv_head in E. subst b'. revert Hv. apply convert_out_of_range. intros Hr.
    apply (public_key_size n b) in Hr; [lia | lia | exact Hb].
  Qed.

  Lemma web_generate_iff gen size wk sk : web_generate W gen size = Ok (wk, sk) <->
    w_subtle W = Ok tt /\ exists k, sk = Some k /\ gen (generate_params size) = Some (wk, k).
  Proof.
    unfold web_generate. destruct (w_subtle W) as [[]| | |]; cbn [rbind]; try (split; [discriminate | intros [[=] _]]).
    destruct (gen (generate_params size)) as [[wk' k']|]; cbn [ok_or rbind fst snd].
    - split; [intros [= <- <-]; eauto|]. intros (_ & k & -> & [= <- <-]). reflexivity.
    - split; [discriminate|]. intros (_ & k & _ & [=]).
  Qed.

  (** Every odd modulus of 17 or more bits goes with the exponent 65537, up to 4096 bits. *)
  Lemma taken_65537 n : N.Odd n -> (18 <= N.size n)%N -> (rsa_taken n 65537 <-> (N.size n <= 4096)%N).
  Proof.
    intros Ho Hs. unfold rsa_taken. rewrite size_bounds. split; [tauto|]. intros Hl. split; [exact Hl|].
    split; [split; [lia | reflexivity]|]. split; [|split; [exact Ho | exists 32768%N; reflexivity]].
    apply N.nle_gt. intros Hn. assert (N.size n <= 17)%N; [|lia]. apply size_bounds. change (2 ^ 17)%N with 131072%N. lia.
  Qed.

  Lemma generated_did gen size wk sk bits ks : generates W gen -> web_generate W gen size = Ok (wk, sk) ->
    bits = match size with Some k => k | None => 2048%N end -> (936 <= bits <= 65536)%N ->
    exists n, N.size n = bits /\ exported_rsa W wk n 65537 /\
      ((1944 <= bits <= 4096)%N -> rsa_taken n 65537 /\ key_did (web_key C W sha256 wk sk) = key_did (rsa_key C sha256 (n, 65537%N) ks)) /\
      (~ (1944 <= bits <= 4096)%N -> key_did (web_key C W sha256 wk sk) = Err EKeyBytes).
  Proof.
    intros Hg H Hb Hr. apply web_generate_iff in H as (Hw & k & -> & H). apply Hg in H as (n & Hn & Ho & Hx).
    cbn [generate_params kp_modulus_length] in Hn. rewrite <- Hb in Hn. change (place_value 256 (map bN (kp_exponent (generate_params size)))) with 65537%N in Hx.
    exists n. split; [exact Hn|]. split; [exact Hx|]. destruct (web_rsa_did wk (Some k) ks n) as [D1 D2]; [lia | exact Hx |].
    assert (rsa_taken n 65537 <-> (bits <= 4096)%N) as Ht by (rewrite <- Hn; apply taken_65537; [exact Ho | lia]).
    split.
    - intros Hi. split; [apply Ht; lia|]. apply D1. split; [lia | apply Ht; lia].
    - intros Hi. apply D2. intros [Ha Hb']. apply Ht in Hb'. lia.
  Qed.

  Lemma generated_sign X rng s gen size wk sk bits : generates W gen -> web_generate W gen size = Ok (wk, sk) ->
    bits = match size with Some k => k | None => 2048%N end -> (936 <= bits <= 65536)%N -> ~ (1944 <= bits <= 4096)%N ->
    s_issuer s = web_key C W sha256 wk sk -> sign X rng s = Panic PPayloadExpect.
  Proof.
    intros Hg H Hb Hr Hn Hs. destruct (generated_did gen size wk sk bits None Hg H Hb Hr) as (n & _ & _ & _ & Hd).
    unfold sign, ucan_payload. rewrite Hs, (Hd Hn). reflexivity.
  Qed.

  Lemma generated_token X rng s u gen size wk sk bits slice dids st : generates W gen -> web_generate W gen size = Ok (wk, Some sk) ->
    bits = match size with Some k => k | None => 2048%N end -> (1944 <= bits <= 4096)%N ->
    s_issuer s = web_key C W sha256 wk (Some sk) ->
    (forall n d g, exported_rsa W wk n 65537 -> w_sign W sk d = Some g -> vrf (n, 65537%N) (sha256 d) g = true) ->
    registered slice [x85; x24] (bytes_to_rsa_key C sha256) -> v_parser st = parser_after slice dids ->
    sign X rng s = Ok u -> fst (check_signature u st) = Ok tt.
  Proof.
    intros Hg H Hb Hr Hs Hv Hreg Hp Hu. destruct (generated_did gen size wk (Some sk) bits None Hg H Hb) as (n & _ & Hx & Hd & _); [lia|].
    destruct (Hd Hr) as [Ht Hn]. pose proof Hx as (b & Hkb & _).
    apply (sign_verifies X rng s u (rsa_key C sha256 (n, 65537%N) None) st Hu).
    - intros d g Hk. rewrite Hs in Hk. apply web_sign_iff in Hk as (_ & k & [= <-] & Hk). cbn [key_verify rsa_key].
      unfold km_verify. cbn [cr_verify rsa_crate]. rewrite (Hv n d g Hx Hk). reflexivity.
    - intros did Hk. rewrite Hs, Hn in Hk. rewrite Hp.
      exact (proj1 (rsa_resolves sgn vrf sha256 n 65537 None b did slice dids Hkb Hk Hreg) Ht).
  Qed.
End Web.

Lemma write_total tag body : (N.of_nat (length body) < 268435456)%N -> der_write tag body <> None.
Proof.
  intros H. unfold der_write, der_write_len, der_len_octets.
  destruct (N.ltb_spec (N.of_nat (length body)) 128); [discriminate|]. destruct (_ <? 256)%N; [discriminate|].
  destruct (_ <? 65536)%N; [discriminate|]. destruct (_ <? 16777216)%N; [discriminate|].
  destruct (N.ltb_spec (N.of_nat (length body)) 268435456); [discriminate | lia].
Qed.

Lemma to_pkcs1_total n e : (N.size n <= 65536)%N -> (N.size e <= 65536)%N -> rsa_to_pkcs1 (n, e) <> None.
Proof.
  intros Hn He. unfold rsa_to_pkcs1. cbn [fst snd].
  assert (N.size n / 8 <= 8192)%N by (apply N.div_le_upper_bound; [discriminate | lia]).
  assert (N.size e / 8 <= 8192)%N by (apply N.div_le_upper_bound; [discriminate | lia]).
  assert (N.of_nat (length (der_uint_bytes n)) < 16777216)%N as Ln by (unfold der_uint_bytes; rewrite be_length; lia).
  assert (N.of_nat (length (der_uint_bytes e)) < 16777216)%N as Le by (unfold der_uint_bytes; rewrite be_length; lia).
  destruct (der_write x02 (der_uint_bytes n)) as [tn|] eqn:En; [|intros _; revert En; apply write_total; lia].
  destruct (der_write x02 (der_uint_bytes e)) as [te|] eqn:Ee; [|intros _; revert Ee; apply write_total; lia].
  apply write_total. apply write_der in En, Ee; try assumption. subst tn te.
  rewrite app_length, Nat2N.inj_add, !der_size by assumption. unfold der_uint_bytes. rewrite !be_length, !N2Nat.id. cbn zeta.
  repeat match goal with |- context [N.ltb ?a ?b] => destruct (N.ltb a b) end; lia.
Qed.
