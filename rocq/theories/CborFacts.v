(** Facts about DAG-CBOR. *)
From Coq Require Import Sorting.Sorted Sorting.Permutation Floats.SpecFloat.
From Verif Require Import Prelude Ord SMap Base58 Varint Utf8 Value Cid Json Cbor Spec SpecWire SpecIpld SpecKeys SpecCbor
  OrdFacts SMapFacts Base58Facts CidFacts JsonFacts IpldFacts CostFacts WireFacts KeysFacts.

(* ------------------------------------------------------------------ numbers *)

Lemma be_value_snoc bs c : be_value (bs ++ [c]) = (be_value bs * 256 + bN c)%N.
Proof. unfold be_value. rewrite fold_left_app. reflexivity. Qed.
Lemma be_length k : forall n, length (be_bytes k n) = k.
Proof. induction k as [|k IH]; intros n; cbn [be_bytes]; [reflexivity|]. rewrite app_length, IH. cbn [length]. lia. Qed.
Lemma be_value_bytes k : forall n, (n < 256 ^ N.of_nat k)%N -> be_value (be_bytes k n) = n.
Proof.
  induction k as [|k IH]; intros n Hn; cbn [be_bytes].
  - change (256 ^ N.of_nat 0)%N with 1%N in Hn. unfold be_value. cbn [fold_left]. lia.
  - rewrite be_value_snoc, bN_byteN, IH.
    + rewrite N.mul_comm. symmetry. apply N.div_mod. discriminate.
    + apply N.div_lt_upper_bound; [discriminate|]. rewrite Nat2N.inj_succ, N.pow_succ_r in Hn by lia. exact Hn.
Qed.
Lemma be_bytes_value bs : be_bytes (length bs) (be_value bs) = bs.
Proof.
  induction bs as [|c bs IH] using rev_ind; [reflexivity|]. rewrite app_length, Nat.add_comm. cbn [length Nat.add be_bytes].
  rewrite be_value_snoc. pose proof (bN_bound c) as Hc.
  assert ((be_value bs * 256 + bN c) / 256 = be_value bs)%N as -> by (rewrite N.div_add_l by discriminate; rewrite N.div_small by exact Hc; lia).
  rewrite IH. f_equal. f_equal. rewrite <- (byteN_bN c) at 2. unfold byteN.
  rewrite N.add_comm, N.mod_add by discriminate. reflexivity.
Qed.
Lemma be_value_bound bs : (be_value bs < 256 ^ N.of_nat (length bs))%N.
Proof.
  induction bs as [|c bs IH] using rev_ind; [reflexivity|]. rewrite app_length, Nat.add_comm. cbn [length Nat.add].
  rewrite be_value_snoc, Nat2N.inj_succ, N.pow_succ_r by lia. pose proof (bN_bound c). lia.
Qed.
Lemma be_value_place bs : place_value 256 (map bN bs) = be_value bs.
Proof.
  rewrite place_value_digits. induction bs as [|c bs IH] using rev_ind; [reflexivity|].
  rewrite map_app, be_value_snoc. cbn [map]. rewrite of_digits_snoc, IH. reflexivity.
Qed.
Lemma be_number_iff k n bs : be_number k n bs <-> bs = be_bytes k n /\ (n < 256 ^ N.of_nat k)%N.
Proof.
  unfold be_number. rewrite be_value_place. split.
  - intros [<- <-]. rewrite be_bytes_value. split; [reflexivity | apply be_value_bound].
  - intros [-> Hn]. rewrite be_length, be_value_bytes by exact Hn. split; reflexivity.
Qed.
Lemma be_number_value bs : be_number (length bs) (be_value bs) bs.
Proof. split; [reflexivity | apply be_value_place]. Qed.

(* -------------------------------------------------------------------- heads *)

Lemma item_head_iff major n h : item_head major n h <-> h = cbor_head major n /\ (n < 18446744073709551616)%N.
Proof.
  unfold cbor_head. split.
  - destruct 1 as [Hn | bs Hl H | bs Hl H | bs Hl H | bs Hl H].
    + destruct (N.ltb_spec n 24); [split; [reflexivity | lia] | lia].
    + apply be_number_iff in H as [-> H]. change (256 ^ N.of_nat 1)%N with 256%N in H.
      destruct (N.ltb_spec n 24); [lia|]. destruct (N.ltb_spec n 256); [|lia]. split; [reflexivity | lia].
    + apply be_number_iff in H as [-> H]. change (256 ^ N.of_nat 2)%N with 65536%N in H. change (2 ^ 8)%N with 256%N in Hl.
      destruct (N.ltb_spec n 24); [lia|]. destruct (N.ltb_spec n 256); [lia|]. destruct (N.ltb_spec n 65536); [|lia]. split; [reflexivity | lia].
    + apply be_number_iff in H as [-> H]. change (256 ^ N.of_nat 4)%N with 4294967296%N in H. change (2 ^ 16)%N with 65536%N in Hl.
      destruct (N.ltb_spec n 24); [lia|]. destruct (N.ltb_spec n 256); [lia|]. destruct (N.ltb_spec n 65536); [lia|].
      destruct (N.ltb_spec n 4294967296); [|lia]. split; [reflexivity | lia].
    + apply be_number_iff in H as [-> H]. change (256 ^ N.of_nat 8)%N with 18446744073709551616%N in H. change (2 ^ 32)%N with 4294967296%N in Hl.
      destruct (N.ltb_spec n 24); [lia|]. destruct (N.ltb_spec n 256); [lia|]. destruct (N.ltb_spec n 65536); [lia|].
      destruct (N.ltb_spec n 4294967296); [lia|]. split; [reflexivity | lia].
  - intros [-> Hn].
    destruct (N.ltb_spec n 24); [apply IH_short; assumption|].
    destruct (N.ltb_spec n 256); [apply IH_1; [assumption | apply be_number_iff; split; [reflexivity | assumption]]|].
    destruct (N.ltb_spec n 65536); [apply IH_2; [assumption | apply be_number_iff; split; [reflexivity | assumption]]|].
    destruct (N.ltb_spec n 4294967296); [apply IH_4; [assumption | apply be_number_iff; split; [reflexivity | assumption]]|].
    apply IH_8; [assumption | apply be_number_iff; split; [reflexivity | assumption]].
Qed.

Lemma read_arg_app k min n bs r : be_number k n bs -> (min <= n)%N -> read_arg k min (bs ++ r) = Some (n, r).
Proof.
  intros [<- Hv] Hm. rewrite be_value_place in Hv. unfold read_arg. rewrite take_exact_app. rewrite Hv.
  destruct (N.leb_spec min n); [reflexivity | lia].
Qed.
Lemma read_arg_inv k min n s r : read_arg k min s = Some (n, r) -> exists bs, be_number k n bs /\ (min <= n)%N /\ s = bs ++ r.
Proof.
  unfold read_arg. destruct (take_exact (N.of_nat k) s) as [[d r']|] eqn:E; [|discriminate].
  apply take_exact_iff in E as [-> Hl]. destruct (N.leb_spec min (be_value d)); [|discriminate]. intros [= <- <-].
  exists d. replace k with (length d) by lia. split; [apply be_number_value | auto].
Qed.

Lemma head_byte major info : (major < 8)%N -> (info < 32)%N -> (bN (byteN (32 * major + info)) / 32 = major /\ bN (byteN (32 * major + info)) mod 32 = info)%N.
Proof.
  intros Hm Hi. rewrite bN_byteN_small by lia. lia.
Qed.

Lemma read_head_app major n h r : (major < 8)%N -> item_head major n h -> read_head (h ++ r) = Some (major, n, r).
Proof.
  intros Hm H. destruct H as [Hn | bs Hl H | bs Hl H | bs Hl H | bs Hl H]; cbn [app read_head].
  - destruct (head_byte major n) as [-> ->]; [assumption | lia|]. destruct (N.ltb_spec n 24); [reflexivity | lia].
  - destruct (head_byte major 24) as [-> ->]; [assumption | lia|]. cbn [N.ltb N.eqb N.compare Pos.compare Pos.compare_cont Pos.eqb].
    rewrite (read_arg_app 1 24 n bs r H Hl). reflexivity.
  - destruct (head_byte major 25) as [-> ->]; [assumption | lia|]. cbn [N.ltb N.eqb N.compare Pos.compare Pos.compare_cont Pos.eqb].
    rewrite (read_arg_app 2 256 n bs r H Hl). reflexivity.
  - destruct (head_byte major 26) as [-> ->]; [assumption | lia|]. cbn [N.ltb N.eqb N.compare Pos.compare Pos.compare_cont Pos.eqb].
    rewrite (read_arg_app 4 65536 n bs r H Hl). reflexivity.
  - destruct (head_byte major 27) as [-> ->]; [assumption | lia|]. cbn [N.ltb N.eqb N.compare Pos.compare Pos.compare_cont Pos.eqb].
    rewrite (read_arg_app 8 4294967296 n bs r H Hl). reflexivity.
Qed.

Lemma read_head_inv s major n r : read_head s = Some (major, n, r) ->
  exists c h, item_head major n (c :: h) /\ s = (c :: h) ++ r /\ major = (bN c / 32)%N.
Proof.
  destruct s as [|c s]; [discriminate|]. cbn [read_head]. pose proof (bN_bound c) as Hb.
  assert (forall i, (bN c mod 32 = i)%N -> c = byteN (32 * (bN c / 32) + i)) as Hc.
  { intros i <-. rewrite <- N.div_mod by discriminate. symmetry. apply byteN_bN. }
  destruct (N.ltb_spec (bN c mod 32) 24).
  - intros [= <- <- <-]. exists c, []. split; [|split; reflexivity]. rewrite (Hc _ eq_refl) at 3. apply IH_short. assumption.
  - destruct (N.eqb_spec (bN c mod 32) 24); [|destruct (N.eqb_spec (bN c mod 32) 25); [|destruct (N.eqb_spec (bN c mod 32) 26); [|destruct (N.eqb_spec (bN c mod 32) 27); [|discriminate]]]];
    match goal with |- context [read_arg ?k ?m s] => destruct (read_arg k m s) as [[n' r']|] eqn:E; [|discriminate] end;
    intros [= <- <- <-]; apply read_arg_inv in E as (bs & Hn & Hl & ->); exists c, bs; (split; [|split; reflexivity]);
    match goal with He : (_ mod 32 = ?i)%N |- _ => rewrite (Hc i He) at 2 end.
    + apply IH_1; assumption.
    + apply IH_2; assumption.
    + apply IH_4; assumption.
    + apply IH_8; assumption.
Qed.

(* ------------------------------------------------------------------- floats *)

Lemma digits_size m : digits2_pos m = Pos.size m.
Proof. induction m as [m IH | m IH |]; cbn [digits2_pos Pos.size]; congruence. Qed.
Lemma size_bounds m : (2 ^ (N.pos (Pos.size m) - 1) <= N.pos m < 2 ^ N.pos (Pos.size m))%N.
Proof.
  pose proof (Pos.size_gt m) as Hg. pose proof (Pos.size_le m) as Hl.
  assert (N.pos (2 ^ Pos.size m) = 2 ^ N.pos (Pos.size m))%N as Hp by reflexivity.
  split; [|rewrite <- Hp; exact Hg].
  assert (2 ^ N.pos (Pos.size m) = 2 * 2 ^ (N.pos (Pos.size m) - 1))%N as E.
  { rewrite <- N.pow_succ_r by lia. f_equal. lia. }
  assert (2 ^ N.pos (Pos.size m) <= 2 * N.pos m)%N as H2 by (rewrite <- Hp; exact Hl). lia.
Qed.
Lemma bounded_iff m e : bounded 53 1024 m e = true <->
  (N.pos m < 4503599627370496)%N /\ e = (-1074)%Z \/ (4503599627370496 <= N.pos m < 9007199254740992)%N /\ (-1074 <= e <= 971)%Z.
Proof.
  unfold bounded, canonical_mantissa. rewrite digits_size. pose proof (size_bounds m) as [Hl Hg].
  assert (H52 : (N.pos (Pos.size m) <= 52 -> N.pos m < 4503599627370496)%N).
  { intros H. eapply N.lt_le_trans; [exact Hg|]. change 4503599627370496%N with (2 ^ 52)%N. apply N.pow_le_mono_r; [discriminate | exact H]. }
  assert (H53 : (53 <= N.pos (Pos.size m) -> 4503599627370496 <= N.pos m)%N).
  { intros H. eapply N.le_trans; [|exact Hl]. change 4503599627370496%N with (2 ^ 52)%N. apply N.pow_le_mono_r; [discriminate | lia]. }
  assert (H53' : (N.pos (Pos.size m) <= 53 -> N.pos m < 9007199254740992)%N).
  { intros H. eapply N.lt_le_trans; [exact Hg|]. change 9007199254740992%N with (2 ^ 53)%N. apply N.pow_le_mono_r; [discriminate | exact H]. }
  assert (H54 : (54 <= N.pos (Pos.size m) -> 9007199254740992 <= N.pos m)%N).
  { intros H. eapply N.le_trans; [|exact Hl]. change 9007199254740992%N with (2 ^ 53)%N. apply N.pow_le_mono_r; [discriminate | lia]. }
  clear Hl Hg. generalize dependent (Pos.size m). intros d H52 H53 H53' H54.
  unfold fexp, emin. rewrite andb_true_iff, Z.leb_le. rewrite <- Zeq_is_eq_bool.
  change (3 - 1024 - 53)%Z with (-1074)%Z. change (1024 - 53)%Z with 971%Z. lia.
Qed.

Lemma ieee_parts s ex fr : (ex < 2048)%N -> (fr < 4503599627370496)%N ->
  (9223372036854775808 <=? ieee_bits s ex fr)%N = s /\ ((ieee_bits s ex fr / 4503599627370496) mod 2048 = ex)%N /\
  (ieee_bits s ex fr mod 4503599627370496 = fr)%N /\ (ieee_bits s ex fr < 18446744073709551616)%N.
Proof.
  intros He Hf. unfold ieee_bits. change (2 ^ 63)%N with 9223372036854775808%N. change (2 ^ 52)%N with 4503599627370496%N.
  assert (forall b, (b < 2)%N -> ((b * 9223372036854775808 + ex * 4503599627370496 + fr) / 4503599627370496 = 2048 * b + ex)%N /\
    ((b * 9223372036854775808 + ex * 4503599627370496 + fr) mod 4503599627370496 = fr)%N) as H.
  { intros b Hb. replace (b * 9223372036854775808 + ex * 4503599627370496 + fr)%N with ((2048 * b + ex) * 4503599627370496 + fr)%N by lia.
    rewrite N.div_add_l by discriminate. rewrite (N.div_small fr) by exact Hf.
    rewrite (N.add_comm _ fr), N.mod_add by discriminate. rewrite N.mod_small by exact Hf. split; lia. }
  destruct s.
  - destruct (H 1%N) as [H1 H2]; [reflexivity|]. rewrite N.mul_1_l in H1, H2. rewrite H1, H2.
    repeat split; [apply N.leb_le; lia | rewrite N.mul_1_r, N.add_comm; change 2048%N with (1 * 2048)%N at 1; rewrite N.mod_add by discriminate; apply N.mod_small; exact He | lia].
  - destruct (H 0%N) as [H1 H2]; [reflexivity|]. rewrite N.mul_0_l in H1, H2. rewrite H1, H2.
    repeat split; [apply N.leb_gt; lia | rewrite N.mul_0_r, N.add_0_l; apply N.mod_small; exact He | lia].
Qed.
Lemma ieee_split n : (n < 18446744073709551616)%N ->
  exists s ex fr, n = ieee_bits s ex fr /\ (ex < 2048)%N /\ (fr < 4503599627370496)%N.
Proof.
  intros Hn. exists (9223372036854775808 <=? n)%N, ((n / 4503599627370496) mod 2048)%N, (n mod 4503599627370496)%N.
  unfold ieee_bits. change (2 ^ 63)%N with 9223372036854775808%N. change (2 ^ 52)%N with 4503599627370496%N.
  split; [|split; apply N.mod_lt; discriminate].
  pose proof (N.div_mod n 4503599627370496 ltac:(discriminate)) as E1.
  pose proof (N.div_mod (n / 4503599627370496) 2048 ltac:(discriminate)) as E2.
  pose proof (N.mod_lt n 4503599627370496 ltac:(discriminate)) as L1.
  pose proof (N.mod_lt (n / 4503599627370496) 2048 ltac:(discriminate)) as L2.
  generalize dependent (n mod 4503599627370496)%N. intros fr E1 L1.
  generalize dependent ((n / 4503599627370496) mod 2048)%N. intros ex E2 L2.
  generalize dependent (n / 4503599627370496 / 2048)%N. intros q E2.
  rewrite E2 in E1. clear E2. destruct (N.leb_spec 9223372036854775808 n); lia.
Qed.

Lemma f64_of_bits_iff d f : length d = 8%nat -> (f64_of_bits (be_value d) = Some f <-> binary64 f d).
Proof.
  intros Hl. unfold f64_of_bits. split.
  - assert (be_value d < 18446744073709551616)%N as Hb by (pose proof (be_value_bound d) as H; rewrite Hl in H; exact H).
    destruct (ieee_split _ Hb) as (s & ex & fr & E & He & Hf). destruct (ieee_parts s ex fr He Hf) as (P1 & P2 & P3 & _).
    assert (be_number 8 (ieee_bits s ex fr) d) as Hn by (rewrite <- E, <- Hl; apply be_number_value).
    rewrite E, P1, P2, P3. destruct (N.eqb_spec ex 2047); [discriminate|]. destruct (N.eqb_spec ex 0) as [->|].
    + destruct fr as [|m]; intros [= <-]; [apply BF_zero; exact Hn | apply BF_subnormal; assumption].
    + destruct (fr + 4503599627370496)%N as [|m] eqn:Em; [discriminate|]. intros [= <-].
      apply (BF_normal s ex fr m); [lia | exact Hf | change (2 ^ 52)%N with 4503599627370496%N; lia | exact Hn].
  - intros H. destruct H as [s bs [_ Hn] | s m bs Hm [_ Hn] | s ex fr m bs Hex Hf Hm [_ Hn]]; rewrite be_value_place in Hn; rewrite Hn.
    + destruct (ieee_parts s 0 0) as (P1 & P2 & P3 & _); [reflexivity | reflexivity|]. rewrite P1, P2, P3. reflexivity.
    + destruct (ieee_parts s 0 (N.pos m)) as (P1 & P2 & P3 & _); [reflexivity | exact Hm|]. rewrite P1, P2, P3. reflexivity.
    + destruct (ieee_parts s ex fr) as (P1 & P2 & P3 & _); [lia | exact Hf|]. rewrite P1, P2, P3.
      destruct (N.eqb_spec ex 2047); [lia|]. destruct (N.eqb_spec ex 0); [lia|].
      change (2 ^ 52)%N with 4503599627370496%N in Hm. rewrite N.add_comm, <- Hm. reflexivity.
Qed.

Lemma binary64_iff f d : binary64 f d <-> exists n, f64_to_bits f = Some n /\ valid_binary 53 1024 f = true /\ d = be_bytes 8 n.
Proof.
  split.
  - intros H. destruct H as [s bs Hn | s m bs Hm Hn | s ex fr m bs Hex Hf Hm Hn]; apply be_number_iff in Hn as [-> _]; cbn [f64_to_bits valid_binary].
    + exists (if s then 9223372036854775808 else 0)%N. repeat split. unfold ieee_bits. f_equal.
      change (2 ^ 63)%N with 9223372036854775808%N. destruct s; reflexivity.
    + change (2 ^ 52)%N with 4503599627370496%N in Hm. destruct (N.ltb_spec (N.pos m) 4503599627370496); [|lia].
      eexists. split; [reflexivity|]. split; [apply bounded_iff; left; auto|]. unfold ieee_bits. f_equal. rewrite N.mul_0_l, N.add_0_r. reflexivity.
    + change (2 ^ 52)%N with 4503599627370496%N in *. destruct (N.ltb_spec (N.pos m) 4503599627370496); [lia|].
      eexists. split; [reflexivity|]. split; [apply bounded_iff; right; lia|]. unfold ieee_bits. f_equal.
      change (2 ^ 63)%N with 9223372036854775808%N. change (2 ^ 52)%N with 4503599627370496%N.
      rewrite <- N.add_assoc. f_equal. f_equal; [f_equal; lia | lia].
  - intros (n & Hb & Hv & ->). destruct f as [s|s| |s m e]; [| discriminate Hb | discriminate Hb |];
      apply (f_equal (fun o => match o with Some x => x | None => 0%N end)) in Hb; cbn [f64_to_bits] in Hb; subst n.
    + apply BF_zero. apply be_number_iff. split; [|destruct s; reflexivity]. f_equal. destruct s; reflexivity.
    + cbn [valid_binary] in Hv. apply bounded_iff in Hv as [[Hm ->] | [Hm He]].
      * destruct (N.ltb_spec (N.pos m) 4503599627370496); [|lia]. apply BF_subnormal; [exact Hm|]. apply be_number_iff.
        split; [unfold ieee_bits; rewrite N.mul_0_l, N.add_0_r; reflexivity | apply (ieee_parts s 0 (N.pos m)); [reflexivity | exact Hm]].
      * destruct (N.ltb_spec (N.pos m) 4503599627370496); [lia|]. replace e with (Z.of_N (Z.to_N (e + 1075)) - 1075)%Z at 1 by lia.
        apply (BF_normal s _ (N.pos m - 4503599627370496)); [lia | change (2 ^ 52)%N with 4503599627370496%N; lia | change (2 ^ 52)%N with 4503599627370496%N; lia |].
        apply be_number_iff. split; [unfold ieee_bits; rewrite N.add_assoc; reflexivity | apply ieee_parts; lia].
Qed.

(* --------------------------------------------------------------------- CIDs *)

Lemma shortest_det n a : shortest_varint n a -> forall b, shortest_varint n b -> a = b.
Proof.
  induction 1 as [n Hn | n bs Hn H IH]; intros b Hb; inversion Hb as [n' Hn' | n' bs' Hn' H']; subst; try lia; [reflexivity|].
  f_equal. apply IH. exact H'.
Qed.
Lemma shortest_word n a : word n -> (shortest_varint n a <-> a = varint_encode n).
Proof.
  intros Hw. assert (shortest_varint n (varint_encode n)) as H.
  { apply varint_leb; [|lia]. apply word_lt in Hw. eapply N.lt_trans; [exact Hw | reflexivity]. }
  split; [intros Ha; exact (shortest_det n a Ha _ H) | intros ->; exact H].
Qed.
Lemma digest_word (d : bytes) : (length d <= 64)%nat -> word (N.of_nat (length d)).
Proof. intros H. apply word_lt. change (2 ^ 64)%N with 18446744073709551616%N. lia. Qed.

Lemma cid_block_iff c d : cid_block c d <-> cid_of_bytes d = Some c /\ cid_to_bytes c = d.
Proof.
  split.
  - destruct 1 as [d Hl | codec hash d cs hs ls Hc Hh Hd Sc Sh Sl].
    + split; [|unfold cid_to_bytes, multihash_bytes; cbn [cid_version cid_hash_code cid_digest N.eqb]; rewrite Hl; reflexivity].
      apply cid_bytes_iff. rewrite <- (app_nil_r d) at 1. apply (CB_v0 [x12] [x20] d []); [| |exact Hl].
      * apply (varint_encode_leb 18). apply word_lt. reflexivity.
      * apply (varint_encode_leb 32). apply word_lt. reflexivity.
    + apply shortest_word in Sc; [|exact Hc]. apply shortest_word in Sh; [|exact Hh]. apply shortest_word in Sl; [|exact (digest_word d Hd)]. subst.
      assert (cid_to_bytes (mkCid 1 codec hash d) = [x01] ++ varint_encode codec ++ varint_encode hash ++ varint_encode (N.of_nat (length d)) ++ d) as E by reflexivity.
      split; [|exact E]. rewrite <- E, <- (app_nil_r (cid_to_bytes _)). apply cid_of_to_bytes. repeat split; assumption.
  - intros [Hc E]. apply cid_bytes_iff in Hc. destruct Hc as [h s d rest Hh Hs Hl | v cs hs ls d rest c h Hv Hc Hh Hs Hl].
    + unfold cid_to_bytes, multihash_bytes in E. cbn [cid_version cid_hash_code cid_digest N.eqb] in E. rewrite Hl in E. rewrite <- E. exact (CK_v0 d Hl).
    + assert (word c /\ word h) as [Wc Wh].
      { destruct Hc as (? & ? & _ & _ & _ & _ & _ & ->), Hh as (? & ? & _ & _ & _ & _ & _ & ->).
        split; apply word_lt; apply N.mod_lt; discriminate. }
      rewrite <- E. unfold cid_to_bytes, multihash_bytes. cbn [cid_version cid_codec cid_hash_code cid_digest N.eqb].
      apply (CK_v1 c h d (varint_encode c) (varint_encode h) (varint_encode (N.of_nat (length d)))); try assumption; apply shortest_word; auto.
      apply digest_word, Hl.
Qed.

(* --------------------------------------------------------------------- keys *)

Lemma key_cmp_lt {A} (a b : bytes * A) : key_cmp (fst a) (fst b) = Lt <-> key_before a b.
Proof.
  unfold key_cmp, key_before. destruct (Nat.compare_spec (length (fst a)) (length (fst b))); split; intros H0; try discriminate; try reflexivity; try tauto;
    destruct H0 as [|[? ?]]; try lia; assumption.
Qed.
Lemma key_cmp_eq a b : key_cmp a b = Eq <-> a = b.
Proof.
  unfold key_cmp. destruct (Nat.compare_spec (length a) (length b)) as [E|E|E]; [apply bytes_cmp_eq | |];
    (split; [discriminate | intros ->; lia]).
Qed.
Lemma key_cmp_antisym a b : key_cmp b a = CompOpp (key_cmp a b).
Proof.
  unfold key_cmp. rewrite (Nat.compare_antisym (length a) (length b)). destruct (Nat.compare (length a) (length b)); cbn [CompOpp]; [apply bytes_cmp_antisym | |]; reflexivity.
Qed.
Lemma key_before_trans {A} (a b c : bytes * A) : key_before a b -> key_before b c -> key_before a c.
Proof.
  intros [H|[H H']] [K|[K K']]; [left; lia | left; lia | left; lia | right]. split; [congruence | exact (bytes_cmp_lt_trans _ _ _ H' K')].
Qed.
Lemma key_before_irrefl {A} (a b : bytes * A) : key_before a b -> fst a <> fst b.
Proof. intros H E. apply key_cmp_lt in H. rewrite E in H. assert (key_cmp (fst b) (fst b) = Eq) by (apply key_cmp_eq; reflexivity). congruence. Qed.

Lemma insert_perm {A} (e : bytes * A) l : Permutation (e :: l) (insert_entry e l).
Proof.
  induction l as [|x l IH]; cbn [insert_entry]; [apply Permutation_refl|].
  destruct (key_cmp (fst e) (fst x)); try apply Permutation_refl. eapply perm_trans; [apply perm_swap | apply perm_skip, IH].
Qed.
Lemma sort_perm {A} (l : list (bytes * A)) : Permutation l (sort_entries l).
Proof.
  induction l as [|x l IH]; cbn [sort_entries fold_right]; [apply Permutation_refl|].
  eapply perm_trans; [apply perm_skip, IH | apply insert_perm].
Qed.
Lemma insert_sorted {A} (e : bytes * A) l : ~ In (fst e) (map fst l) -> StronglySorted key_before l -> StronglySorted key_before (insert_entry e l).
Proof.
  intros Hn Hs. induction Hs as [|x l Hs IH Hx]; cbn [insert_entry]; [repeat constructor|].
  cbn [map In] in Hn. destruct (key_cmp (fst e) (fst x)) eqn:E.
  - apply key_cmp_eq in E. exfalso. apply Hn. left. congruence.
  - apply key_cmp_lt in E. constructor; [constructor; assumption|]. constructor; [exact E|].
    eapply Forall_impl; [|exact Hx]. intros y Hy. exact (key_before_trans _ _ _ E Hy).
  - constructor; [apply IH; tauto|].
    eapply Permutation_Forall; [apply insert_perm|]. constructor; [|exact Hx].
    apply key_cmp_lt. rewrite key_cmp_antisym, E. reflexivity.
Qed.
Lemma sort_sorted {A} (l : list (bytes * A)) : NoDup (map fst l) -> StronglySorted key_before (sort_entries l).
Proof.
  induction l as [|x l IH]; cbn [sort_entries fold_right map]; intros Hn; [constructor|].
  apply NoDup_cons_iff in Hn as [Hx Hn]. apply insert_sorted; [|apply IH, Hn].
  intros Hi. apply Hx. eapply Permutation_in; [apply Permutation_map, Permutation_sym, sort_perm | exact Hi].
Qed.
Lemma sorted_unique {A} (l l' : list (bytes * A)) : StronglySorted key_before l -> StronglySorted key_before l' -> Permutation l l' -> l = l'.
Proof.
  intros Hs. revert l'. induction Hs as [|x l Hs IH Hx]; intros l' Hs' Hp; [apply Permutation_nil in Hp; congruence|].
  destruct Hs' as [|y l' Hs' Hy]; [apply Permutation_sym, Permutation_nil in Hp; discriminate|].
  assert (x = y) as <-.
  { assert (In x (y :: l')) as Hi by (eapply Permutation_in; [exact Hp | left; reflexivity]).
    assert (In y (x :: l)) as Hj by (eapply Permutation_in; [apply Permutation_sym, Hp | left; reflexivity]).
    destruct Hi as [|Hi]; [congruence|]. destruct Hj as [|Hj]; [assumption|].
    rewrite Forall_forall in Hx, Hy. exfalso. exact (key_before_irrefl _ _ (key_before_trans _ _ _ (Hx _ Hj) (Hy _ Hi)) eq_refl). }
  f_equal. apply IH; [exact Hs' | apply Permutation_cons_inv in Hp; exact Hp].
Qed.
Lemma sorted_nodup {A} (l : list (bytes * A)) : StronglySorted key_before l -> NoDup (map fst l).
Proof.
  induction 1 as [|x l Hs IH Hx]; cbn [map]; constructor; [|exact IH]. intros Hi. apply in_map_iff in Hi as (y & E & Hy).
  rewrite Forall_forall in Hx. exact (key_before_irrefl _ _ (Hx _ Hy) (eq_sym E)).
Qed.
Lemma keys_ordered_iff {A} (l : list (bytes * A)) : keys_ordered l = true <-> StronglySorted key_before l.
Proof.
  induction l as [|x l IH]; [split; [constructor | reflexivity]|]. destruct l as [|y l]; [split; [repeat constructor | reflexivity]|].
  change (keys_ordered (x :: y :: l)) with (match key_cmp (fst x) (fst y) with Lt => keys_ordered (y :: l) | _ => false end).
  split.
  - destruct (key_cmp (fst x) (fst y)) eqn:E; try discriminate. intros H. apply IH in H. apply key_cmp_lt in E.
    constructor; [exact H|]. constructor; [exact E|]. apply StronglySorted_inv in H as [_ H].
    eapply Forall_impl; [|exact H]. intros z Hz. exact (key_before_trans _ _ _ E Hz).
  - intros H. apply StronglySorted_inv in H as [Hs Hx]. apply Forall_inv, key_cmp_lt in Hx. rewrite Hx. apply IH, Hs.
Qed.

(* ------------------------------------------------------------------ reading *)

Definition item_body (fu : nat) (s : bytes) (major n : N) (r : bytes) : option (ipld * bytes) :=
  match major with
  | 0 => Some (IInt (Z.of_N n), r)
  | 1 => Some (IInt (-1 - Z.of_N n), r)
  | 2 => let?? (t, r') := take_exact n r in Some (IBytes t, r')
  | 3 => let?? (t, r') := read_text s in Some (IStr t, r')
  | 4 => let?? (l, r') := read_items fu n r in Some (IList l, r')
  | 5 => let?? (m, r') := read_entries fu n r in
         if keys_ordered m then Some (IMap (mof_list m), r') else None
  | _ => if (n =? 42)%N then let?? (l, r') := read_link r in Some (ILink l, r') else None
  end%N.

Lemma read_item_cons fu c r0 : read_item (S fu) (c :: r0) =
  if (224 <=? bN c)%N then read_simple c r0
  else match read_head (c :: r0) with Some (major, n, r) => item_body fu (c :: r0) major n r | None => None end.
Proof. reflexivity. Qed.

Lemma item_head_first major n h : (major < 8)%N -> item_head major n h -> exists c h', h = c :: h' /\ (bN c / 32 = major)%N.
Proof.
  intros Hm H. destruct H as [Hn | bs Hl H | bs Hl H | bs Hl H | bs Hl H]; eexists _, _; (split; [reflexivity | apply head_byte; [exact Hm | lia]]).
Qed.

Lemma read_item_head fu major n h r : (major < 7)%N -> item_head major n h -> read_item (S fu) (h ++ r) = item_body fu (h ++ r) major n r.
Proof.
  intros Hm H. destruct (item_head_first major n h ltac:(lia) H) as (c & h' & -> & Hc). cbn [app]. rewrite read_item_cons.
  destruct (N.leb_spec 224 (bN c)); [exfalso; lia|].
  change (c :: h' ++ r) with ((c :: h') ++ r). rewrite (read_head_app major n (c :: h') r) by (lia || exact H). reflexivity.
Qed.

Lemma read_text_item s t r : text_item s t -> read_text (t ++ r) = Some (s, r).
Proof.
  intros (Hu & h & Hh & ->). unfold read_text. rewrite <- app_assoc, (read_head_app 3 _ h _ eq_refl Hh).
  change (3 =? 3)%N with true. cbv iota. rewrite take_exact_app, Hu. reflexivity.
Qed.
Lemma read_text_inv x s r : read_text x = Some (s, r) -> exists t, text_item s t /\ x = t ++ r.
Proof.
  unfold read_text. destruct (read_head x) as [[[major n] r1]|] eqn:E; [|discriminate].
  apply read_head_inv in E as (c & h & Hh & -> & _). destruct (N.eqb_spec major 3) as [->|]; [|discriminate].
  destruct (take_exact n r1) as [[d r2]|] eqn:E; [|discriminate]. apply take_exact_iff in E as [-> Hl]. destruct (utf8_valid d) eqn:Hu; [|discriminate].
  intros [= <- <-]. exists ((c :: h) ++ d). split; [|rewrite <- app_assoc; reflexivity]. split; [exact Hu|]. exists (c :: h). rewrite Hl. auto.
Qed.

Lemma read_link_item c d t r : cid_block c d -> string_item 2 (x00 :: d) t -> read_link (t ++ r) = Some (c, r).
Proof.
  intros Hc (h & Hh & ->). apply cid_block_iff in Hc as [H1 H2]. unfold read_link. rewrite <- app_assoc, (read_head_app 2 _ h _ eq_refl Hh).
  change (2 =? 2)%N with true. cbv iota. rewrite take_exact_app, H1, H2, bytes_eqb_refl. reflexivity.
Qed.
Lemma read_link_inv x c r : read_link x = Some (c, r) -> exists d t, cid_block c d /\ string_item 2 (x00 :: d) t /\ x = t ++ r.
Proof.
  unfold read_link. destruct (read_head x) as [[[major n] r1]|] eqn:E; [|discriminate].
  apply read_head_inv in E as (b & h & Hh & -> & _). destruct (N.eqb_spec major 2) as [->|]; [|discriminate].
  destruct (take_exact n r1) as [[d r2]|] eqn:E; [|discriminate]. apply take_exact_iff in E as [-> Hl].
  destruct d as [|z d]; [discriminate|]. destruct z; try discriminate.
  destruct (cid_of_bytes d) as [c'|] eqn:Ec; [|discriminate]. destruct (bytes_eqb (cid_to_bytes c') d) eqn:Eb; [|discriminate]. apply bytes_eqb_eq in Eb.
  intros [= <- <-]. exists d, ((b :: h) ++ x00 :: d). split; [apply cid_block_iff; auto|]. split; [exists (b :: h); rewrite Hl; auto | rewrite <- app_assoc; reflexivity].
Qed.

Lemma item_head_nonnil major n h : item_head major n h -> (1 <= length h)%nat.
Proof. destruct 1; cbn [length]; lia. Qed.
Lemma text_item_nonnil s t : text_item s t -> (1 <= length t)%nat.
Proof. intros (_ & h & Hh & ->). apply item_head_nonnil in Hh. rewrite app_length. lia. Qed.
Lemma dag_cbor_nonnil i t : dag_cbor i t -> (1 <= length t)%nat.
Proof.
  destruct 1 as [| | |n t H|n t H|f t H|s t (h & H & ->)|s t H|l ts h _ H|m es ts h _ _ _ _ H|c d t _ H]; cbn [length app]; try lia;
    try (apply item_head_nonnil in H; rewrite ?app_length; lia). apply text_item_nonnil in H. exact H.
Qed.

Lemma keys_increasing_msorted {V} (m : list (bytes * V)) : keys_increasing m <-> msorted m.
Proof. split; intros H; exact H. Qed.

Lemma mof_list_permutation {V} (l : list (bytes * V)) : NoDup (map fst l) -> Permutation (mof_list l) l.
Proof.
  intros Hn. assert (NoDup (map fst (mof_list l))) as Hm by apply msorted_keys_nodup, mof_list_sorted.
  apply NoDup_Permutation.
  - eapply NoDup_map_inv, Hm.
  - eapply NoDup_map_inv, Hn.
  - intros [k v]. split.
    + intros Hi. apply (in_mget k v (mof_list l)) in Hi; [|apply mof_list_sorted]. rewrite mget_mof_list in Hi.
      destruct (in_dec bytes_dec k (map fst l)) as [Hk|Hk]; [|rewrite last_for_notin in Hi by exact Hk; discriminate].
      apply in_map_iff in Hk as ([k' w] & E & Hk). cbn [fst] in E. subst k'. rewrite (last_for_in_nodup k w l None Hn Hk) in Hi. injection Hi as <-. exact Hk.
    + intros Hi. apply (mget_in k v (mof_list l)). rewrite mget_mof_list. apply last_for_in_nodup; assumption.
Qed.

Lemma items_read l : Forall (fun i => forall t, dag_cbor i t -> forall fuel rest, (2 * length t <= fuel)%nat -> read_item fuel (t ++ rest) = Some (i, rest)) l ->
  forall ts, Forall2 dag_cbor l ts -> forall fuel rest, (2 * length (concat ts) + 1 <= fuel)%nat ->
  read_items fuel (N.of_nat (length l)) (concat ts ++ rest) = Some (l, rest).
Proof.
  induction l as [|i l IHl]; intros HF ts H2 fuel rest Hf; inversion H2 as [|i' t l' ts' Hi Hl]; subst.
  - destruct fuel; reflexivity.
  - apply Forall_cons_iff in HF as [HFi HFl]. cbn [concat] in *. rewrite app_length in Hf. destruct fuel as [|fu]; [lia|].
    cbn [length read_items]. rewrite Nat2N.inj_succ. destruct (N.eqb_spec (N.succ (N.of_nat (length l))) 0); [lia|].
    rewrite <- app_assoc, (HFi t Hi fu) by lia. replace (N.succ (N.of_nat (length l)) - 1)%N with (N.of_nat (length l)) by lia.
    pose proof (dag_cbor_nonnil i t Hi). rewrite (IHl HFl ts' Hl fu rest) by lia. reflexivity.
Qed.

Definition entry_item (kv : bytes * ipld) (t : bytes) : Prop := exists k v, text_item (fst kv) k /\ dag_cbor (snd kv) v /\ t = k ++ v.

Lemma entries_read m : Forall (fun kv => forall t, dag_cbor (snd kv) t -> forall fuel rest, (2 * length t <= fuel)%nat -> read_item fuel (t ++ rest) = Some (snd kv, rest)) m ->
  forall ts, Forall2 entry_item m ts -> forall fuel rest, (2 * length (concat ts) + 1 <= fuel)%nat ->
  read_entries fuel (N.of_nat (length m)) (concat ts ++ rest) = Some (m, rest).
Proof.
  induction m as [|[k x] m IHm]; intros HF ts H2 fuel rest Hf; inversion H2 as [|i' t l' ts' Hi Hl]; subst.
  - destruct fuel; reflexivity.
  - apply Forall_cons_iff in HF as [HFi HFl]. destruct Hi as (kt & vt & Hk & Hv & ->). cbn [fst snd] in *.
    cbn [concat] in *. rewrite !app_length in Hf. destruct fuel as [|fu]; [lia|].
    cbn [length read_entries]. rewrite Nat2N.inj_succ. destruct (N.eqb_spec (N.succ (N.of_nat (length m))) 0); [lia|].
    rewrite <- !app_assoc, (read_text_item k kt _ Hk). rewrite (HFi vt Hv fu) by lia.
    replace (N.succ (N.of_nat (length m)) - 1)%N with (N.of_nat (length m)) by lia.
    pose proof (dag_cbor_nonnil x vt Hv). rewrite (IHm HFl ts' Hl fu rest) by lia. reflexivity.
Qed.

Lemma read_float_item f t fu rest : binary64 f t -> read_item (S fu) ((xfb :: t) ++ rest) = Some (IFloat f, rest).
Proof.
  intros H. assert (length t = 8%nat) as Hl by (destruct H as [? ? [? _] | ? ? ? _ [? _] | ? ? ? ? ? _ _ _ [? _]]; assumption).
  cbn [app]. rewrite read_item_cons. change (224 <=? bN xfb)%N with true. cbv iota. cbn [read_simple].
  pose proof (take_exact_app t rest) as T. rewrite Hl in T. change (N.of_nat 8) with 8%N in T. rewrite T.
  rewrite (proj2 (f64_of_bits_iff t f Hl) H). reflexivity.
Qed.

Lemma item_read i : forall t, dag_cbor i t -> forall fuel rest, (2 * length t <= fuel)%nat -> read_item fuel (t ++ rest) = Some (i, rest).
Proof.
  induction i as [|b|z|f|s|s|l IH|m IH|c] using ipld_induction; intros t H fuel rest Hf;
    (destruct fuel as [|fu]; [apply dag_cbor_nonnil in H; lia|]); inversion H; subst.
  - reflexivity.
  - reflexivity.
  - reflexivity.
  - rewrite (read_item_head fu 0 n) by (reflexivity || assumption). reflexivity.
  - rewrite (read_item_head fu 1 n) by (reflexivity || assumption). reflexivity.
  - apply read_float_item. assumption.
  - match goal with T : text_item _ _ |- _ => pose proof (read_text_item s t rest T) as R; destruct T as (Hu & h & Hh & ->) end.
    rewrite <- app_assoc in *. rewrite (read_item_head fu 3 (N.of_nat (length s))) by (reflexivity || assumption).
    unfold item_body. rewrite R. reflexivity.
  - match goal with T : string_item _ _ _ |- _ => destruct T as (h & Hh & ->) end.
    rewrite <- app_assoc. rewrite (read_item_head fu 2 (N.of_nat (length s))) by (reflexivity || assumption).
    unfold item_body. rewrite take_exact_app. reflexivity.
  - match goal with T : item_head 4 _ _ |- _ => pose proof (item_head_nonnil _ _ _ T) as Hh; rewrite app_length in Hf;
      rewrite <- app_assoc, (read_item_head fu 4 (N.of_nat (length l))) by (reflexivity || assumption) end.
    unfold item_body. rewrite (items_read l IH ts) by (assumption || lia). reflexivity.
  - match goal with T : item_head 5 _ _ |- _ => pose proof (item_head_nonnil _ _ _ T) as Hh; rewrite app_length in Hf;
      rewrite <- app_assoc, (read_item_head fu 5 (N.of_nat (length m))) by (reflexivity || assumption) end.
    unfold item_body. match goal with P : Permutation m entries |- _ => rename P into Hp end.
    rewrite (Permutation_length Hp). rewrite (entries_read entries) with (ts := ts).
    + match goal with P : StronglySorted key_before entries |- _ => rewrite (proj2 (keys_ordered_iff entries) P), (mof_list_perm entries m (sorted_nodup _ P) (Permutation_sym Hp)) end.
      rewrite mof_list_id by assumption. reflexivity.
    + eapply Permutation_Forall; [exact Hp | exact IH].
    + assumption.
    + lia.
  - match goal with T : string_item _ _ ?y |- _ => pose proof (fun r => read_link_item c d y r ltac:(assumption) T) as R; rename y into lt end.
    rewrite <- app_assoc. rewrite (read_item_head fu 6 42 [xd8; x2a] (lt ++ rest) eq_refl).
    + unfold item_body. change (42 =? 42)%N with true. cbv iota. rewrite R. reflexivity.
    + apply (IH_1 6 42 [x2a]); [discriminate | split; reflexivity].
Qed.

Lemma read_inv fuel :
  (forall s i r, read_item fuel s = Some (i, r) -> exists t, dag_cbor i t /\ s = t ++ r) /\
  (forall n s l r, read_items fuel n s = Some (l, r) -> n = N.of_nat (length l) /\ exists ts, Forall2 dag_cbor l ts /\ s = concat ts ++ r) /\
  (forall n s m r, read_entries fuel n s = Some (m, r) -> n = N.of_nat (length m) /\ exists ts, Forall2 entry_item m ts /\ s = concat ts ++ r).
Proof.
  induction fuel as [|fu (IHi & IHl & IHm)].
  - split; [discriminate|]. split; intros n s l r; cbn [read_items read_entries]; (destruct (N.eqb_spec n 0) as [->|]; [|discriminate]);
      intros [= <- <-]; (split; [reflexivity|]); exists []; split; [constructor | reflexivity | constructor | reflexivity].
  - split; [|split].
    + intros [|c r0] i r; [discriminate|]. rewrite read_item_cons. destruct (N.leb_spec 224 (bN c)).
      * destruct c; cbn [read_simple]; try discriminate.
        -- intros [= <- <-]. exists [xf4]. split; [constructor | reflexivity].
        -- intros [= <- <-]. exists [xf5]. split; [constructor | reflexivity].
        -- intros [= <- <-]. exists [xf6]. split; [constructor | reflexivity].
        -- destruct (take_exact 8 r0) as [[d r']|] eqn:E; [|discriminate]. apply take_exact_iff in E as [-> Hl].
           destruct (f64_of_bits (be_value d)) as [f|] eqn:Ef; [|discriminate]. apply f64_of_bits_iff in Ef; [|lia].
           intros [= <- <-]. exists (xfb :: d). split; [constructor; exact Ef | reflexivity].
      * destruct (read_head (c :: r0)) as [[[major n] r1]|] eqn:Eh; [|discriminate].
        apply read_head_inv in Eh as (c' & h & Hh & E & Hmaj). assert (c' = c) as -> by (injection E; congruence).
        assert (major < 7)%N as Hm7 by lia. unfold item_body. clear Hmaj.
        assert (major = 0 \/ major = 1 \/ major = 2 \/ major = 3 \/ major = 4 \/ major = 5 \/ major = 6)%N as Hc by lia.
        destruct Hc as [-> | [-> | [-> | [-> | [-> | [-> | ->]]]]]].
        -- intros [= <- <-]. exists (c :: h). split; [constructor; exact Hh | exact E].
        -- intros [= <- <-]. exists (c :: h). split; [constructor; exact Hh | exact E].
        -- destruct (take_exact n r1) as [[t r']|] eqn:Et; [|discriminate]. apply take_exact_iff in Et as [-> Hl]. intros [= <- <-].
           exists ((c :: h) ++ t). split; [constructor; exists (c :: h); rewrite Hl; auto | rewrite <- app_assoc; exact E].
        -- destruct (read_text (c :: r0)) as [[t r']|] eqn:Et; [|discriminate]. apply read_text_inv in Et as (tt & Ht & E').
           intros [= <- <-]. exists tt. split; [constructor; exact Ht | exact E'].
        -- destruct (read_items fu n r1) as [[l r']|] eqn:El; [|discriminate]. apply IHl in El as (-> & ts & H2 & ->). intros [= <- <-].
           exists ((c :: h) ++ concat ts). split; [apply DC_list; assumption | rewrite <- app_assoc; exact E].
        -- destruct (read_entries fu n r1) as [[m r']|] eqn:El; [|discriminate]. apply IHm in El as (-> & ts & H2 & ->).
           destruct (keys_ordered m) eqn:Eo; [|discriminate]. apply keys_ordered_iff in Eo. intros [= <- <-].
           pose proof (mof_list_permutation m (sorted_nodup _ Eo)) as Hp.
           exists ((c :: h) ++ concat ts). split; [|rewrite <- app_assoc; exact E].
           apply (DC_map (mof_list m) m ts (c :: h)); [apply keys_increasing_msorted, mof_list_sorted | exact Hp | exact Eo | exact H2 |].
           rewrite (Permutation_length Hp). exact Hh.
        -- destruct (N.eqb_spec n 42) as [->|]; [|discriminate]. destruct (read_link r1) as [[l r']|] eqn:El; [|discriminate].
           apply read_link_inv in El as (d & t & Hc & Ht & ->). intros [= <- <-].
           apply item_head_iff in Hh as [Hh _]. exists ([xd8; x2a] ++ t). split; [exact (DC_link l d t Hc Ht)|].
           rewrite <- app_assoc. change (cbor_head 6 42) with [xd8; x2a] in Hh. rewrite <- Hh. exact E.
    + intros n s l r. cbn [read_items]. destruct (N.eqb_spec n 0) as [->|Hn]; [intros [= <- <-]; split; [reflexivity|]; exists []; split; [constructor | reflexivity]|].
      destruct (read_item fu s) as [[x r1]|] eqn:Ex; [|discriminate]. destruct (read_items fu (n - 1) r1) as [[l' r2]|] eqn:El; [|discriminate].
      intros [= <- <-]. apply IHi in Ex as (t & Ht & ->). apply IHl in El as (En & ts & H2 & ->).
      split; [cbn [length]; lia|]. exists (t :: ts). split; [constructor; assumption | cbn [concat]; rewrite <- app_assoc; reflexivity].
    + intros n s l r. cbn [read_entries]. destruct (N.eqb_spec n 0) as [->|Hn]; [intros [= <- <-]; split; [reflexivity|]; exists []; split; [constructor | reflexivity]|].
      destruct (read_text s) as [[k r0]|] eqn:Ek; [|discriminate].
      destruct (read_item fu r0) as [[x r1]|] eqn:Ex; [|discriminate]. destruct (read_entries fu (n - 1) r1) as [[l' r2]|] eqn:El; [|discriminate].
      intros [= <- <-]. apply read_text_inv in Ek as (kt & Hk & ->). apply IHi in Ex as (t & Ht & ->). apply IHm in El as (En & ts & H2 & ->).
      split; [cbn [length]; lia|]. exists ((kt ++ t) :: ts). split; [constructor; [exists kt, t; auto | assumption] | cbn [concat]; rewrite <- !app_assoc; reflexivity].
Qed.

Lemma cbor_decode_iff t i : cbor_decode t = Some i <-> dag_cbor i t.
Proof.
  unfold cbor_decode. split.
  - destruct (read_item (2 * length t) t) as [[i' r]|] eqn:E; [|discriminate]. destruct r; [|discriminate]. intros [= <-].
    apply (proj1 (read_inv _)) in E as (t' & H & ->). rewrite app_nil_r. exact H.
  - intros H. pose proof (item_read i t H (2 * length t) [] (le_n _)) as R. rewrite app_nil_r in R. rewrite R. reflexivity.
Qed.

Lemma dag_cbor_prefix i j t u r r' : dag_cbor i t -> dag_cbor j u -> t ++ r = u ++ r' -> i = j /\ t = u /\ r = r'.
Proof.
  intros Hi Hj E. set (fuel := (2 * length t + 2 * length u)%nat).
  pose proof (item_read i t Hi fuel r ltac:(lia)) as R1. pose proof (item_read j u Hj fuel r' ltac:(lia)) as R2.
  rewrite E in R1. rewrite R1 in R2. injection R2 as -> ->. apply app_inv_tail in E. auto.
Qed.

(* ------------------------------------------------------------------ writing *)

Fixpoint enc_list (l : list ipld) : option (list bytes) :=
  match l with
  | [] => Some []
  | x :: l' => let?? t := cbor_encode x in let?? ts := enc_list l' in Some (t :: ts)
  end.
Fixpoint enc_map (m : list (bytes * ipld)) : option (list (bytes * bytes)) :=
  match m with
  | [] => Some []
  | (k, x) :: m' => let?? t := cbor_encode x in let?? ts := enc_map m' in Some ((k, t) :: ts)
  end.
Lemma encode_list l : cbor_encode (IList l) = match enc_list l with Some ts => Some (cbor_head 4 (N.of_nat (length l)) ++ concat ts) | None => None end.
Proof. reflexivity. Qed.
Lemma encode_map m : cbor_encode (IMap m) = match enc_map m with
  | Some ts => Some (cbor_head 5 (N.of_nat (length m)) ++ concat (map (fun kt => cbor_text (fst kt) ++ snd kt) (sort_entries ts))) | None => None end.
Proof. reflexivity. Qed.

Lemma insert_map {A C} (f : A -> C) e l : insert_entry (fst e, f (snd e)) (map (fun kv => (fst kv, f (snd kv))) l) =
  map (fun kv => (fst kv, f (snd kv))) (insert_entry e l).
Proof. induction l as [|x l IH]; cbn [insert_entry map]; [reflexivity|]. cbn [fst]. destruct (key_cmp (fst e) (fst x)); cbn [map]; congruence. Qed.
Lemma sort_map {A C} (f : A -> C) l : sort_entries (map (fun kv => (fst kv, f (snd kv))) l) = map (fun kv => (fst kv, f (snd kv))) (sort_entries l).
Proof. induction l as [|x l IH]; [reflexivity|]. unfold sort_entries in *. cbn [map fold_right]. rewrite IH. apply insert_map. Qed.

Definition enc_of (i : ipld) : bytes := match cbor_encode i with Some t => t | None => [] end.
Lemma enc_map_all m : Forall (fun kv => exists t, cbor_encode (snd kv) = Some t) m -> enc_map m = Some (map (fun kv => (fst kv, enc_of (snd kv))) m).
Proof.
  induction 1 as [|[k x] m [t Ht] _ IH]; cbn [enc_map map fst snd]; [reflexivity|]. cbn [snd] in Ht. unfold enc_of at 1. rewrite Ht, IH. reflexivity.
Qed.

Lemma text_item_iff s t : text_item s t <-> utf8_valid s = true /\ (N.of_nat (length s) < 18446744073709551616)%N /\ t = cbor_text s.
Proof.
  unfold text_item, string_item, cbor_text. split.
  - intros (Hu & h & Hh & ->). apply item_head_iff in Hh as [-> Hl]. auto.
  - intros (Hu & Hl & ->). split; [exact Hu|]. eexists. split; [apply item_head_iff; split; [reflexivity | exact Hl] | reflexivity].
Qed.

Lemma encode_neg n z : z = (-1 - Z.of_N n)%Z -> (n < 18446744073709551616)%N -> cbor_encode (IInt z) = Some (cbor_head 1 n).
Proof.
  intros E Hn. cbn [cbor_encode]. destruct (Z.leb_spec 0 z); [lia|]. destruct (Z.leb_spec (-18446744073709551616) z); [|lia].
  replace (Z.to_N (-1 - z)) with n by lia. reflexivity.
Qed.

Lemma encode_complete i : forall t, dag_cbor i t -> cbor_encode i = Some t.
Proof.
  induction i as [|b|z|f|s|s|l IH|m IH|c] using ipld_induction; intros t H; inversion H; subst.
  - reflexivity.
  - reflexivity.
  - reflexivity.
  - match goal with T : item_head _ _ _ |- _ => apply item_head_iff in T as [-> Hn] end. cbn [cbor_encode].
    destruct (Z.leb_spec 0 (Z.of_N n)); [|lia]. destruct (Z.leb_spec (Z.of_N n) 18446744073709551615); [|lia]. rewrite N2Z.id. reflexivity.
  - match goal with T : item_head _ _ _ |- _ => apply item_head_iff in T as [-> Hn] end. exact (encode_neg n _ eq_refl Hn).
  - match goal with T : binary64 _ _ |- _ => apply binary64_iff in T as (n & Hb & _ & ->) end. cbn [cbor_encode]. rewrite Hb. reflexivity.
  - match goal with T : text_item _ _ |- _ => apply text_item_iff in T as (_ & _ & ->) end. reflexivity.
  - match goal with T : string_item _ _ _ |- _ => destruct T as (h & Hh & ->) end. apply item_head_iff in Hh as [-> _]. reflexivity.
  - match goal with T : item_head _ _ _ |- _ => apply item_head_iff in T as [-> _] end. rewrite encode_list.
    assert (enc_list l = Some ts) as ->; [|reflexivity].
    match goal with T : Forall2 _ _ _ |- _ => clear - IH T; induction T as [|x t l ts Hx _ IHl] end; [reflexivity|].
    apply Forall_cons_iff in IH as [IHx IH]. cbn [enc_list]. rewrite (IHx t Hx), (IHl IH). reflexivity.
  - match goal with T : item_head _ _ _ |- _ => apply item_head_iff in T as [-> _] end. rewrite encode_map.
    match goal with P : Permutation m entries |- _ => rename P into Hp end.
    match goal with P : StronglySorted key_before entries |- _ => rename P into Hs end.
    match goal with T : Forall2 _ entries ts |- _ => rename T into H2 end.
    apply (Permutation_Forall Hp) in IH.
    assert (Forall2 (fun kv t => cbor_encode (snd kv) = Some (enc_of (snd kv)) /\ t = cbor_text (fst kv) ++ enc_of (snd kv)) entries ts) as H2'.
    { clear - IH H2. induction H2 as [|[k x] t es ts Hx _ IHl]; constructor.
      - apply Forall_inv in IH. destruct Hx as (kt & vt & Hk & Hv & ->). cbn [fst snd] in *. apply text_item_iff in Hk as (_ & _ & ->).
        unfold enc_of. rewrite (IH vt Hv). auto.
      - apply IHl. apply Forall_cons_iff in IH as [_ IH]. exact IH. }
    rewrite enc_map_all.
    + f_equal. f_equal. rewrite sort_map.
      assert (sort_entries m = entries) as ->.
      { apply sorted_unique; [apply sort_sorted, msorted_keys_nodup; assumption | exact Hs|]. eapply perm_trans; [apply Permutation_sym, sort_perm | exact Hp]. }
      rewrite map_map. cbn [fst snd]. clear - H2'. induction H2' as [|x t es ts [_ ->] _ IHl]; cbn [map concat]; congruence.
    + eapply Permutation_Forall; [apply Permutation_sym, Hp|]. clear - H2'. induction H2' as [|x t es ts [Hx _] _ IHl]; constructor; eauto.
  - match goal with T : string_item _ _ _ |- _ => destruct T as (h & Hh & ->) end.
    match goal with T : cid_block _ _ |- _ => apply cid_block_iff in T as [_ <-] end. apply item_head_iff in Hh as [-> _]. reflexivity.
Qed.

Lemma writable_dag i : rust_data i -> writable i -> exists t, dag_cbor i t.
Proof.
  induction i as [|b|z|f|s|s|l IH|m IH|c] using ipld_induction; intros HR HW.
  - eexists. constructor.
  - destruct b; eexists; constructor.
  - inversion HW as [| |z' Hz| | | | | |]. subst. change (2 ^ 64)%Z with 18446744073709551616%Z in Hz. destruct (Z.leb_spec 0 z).
    + exists (cbor_head 0 (Z.to_N z)). rewrite <- (Z2N.id z) at 1 by assumption. constructor. apply item_head_iff. split; [reflexivity | lia].
    + exists (cbor_head 1 (Z.to_N (-1 - z))). replace z with (-1 - Z.of_N (Z.to_N (-1 - z)))%Z at 1 by lia. constructor. apply item_head_iff. split; [reflexivity | lia].
  - inversion HW as [| | |f' Hf| | | | |]. subst. inversion HR as [| | |f' Hv| | | | |]. subst.
    assert (exists n, f64_to_bits f = Some n) as [n Hn] by (destruct f; try contradiction; eexists; reflexivity).
    exists (xfb :: be_bytes 8 n). constructor. apply binary64_iff. eauto.
  - inversion HR as [| | | |s' Hu Hl| | | |]. subst. exists (cbor_text s). constructor. apply text_item_iff. apply word_lt in Hl. auto.
  - inversion HR as [| | | | |s' Hl| | |]. subst. apply word_lt in Hl. eexists. constructor. eexists. split; [apply item_head_iff; split; [reflexivity | exact Hl] | reflexivity].
  - inversion HR as [| | | | | |l' Hl Hw| |]. subst. inversion HW as [| | | | | |l' HWl| |]. subst.
    assert (exists ts, Forall2 dag_cbor l ts) as [ts Hts].
    { clear - IH Hl HWl. induction IH as [|x l Hx IHl IHl']; [exists []; constructor|].
      apply Forall_cons_iff in Hl as [H1 Hl]. apply Forall_cons_iff in HWl as [W1 HWl]. destruct (Hx H1 W1) as [t Ht]. destruct (IHl' Hl HWl) as [ts Hts].
      exists (t :: ts). constructor; assumption. }
    eexists. apply DC_list; [exact Hts|]. apply item_head_iff. split; [reflexivity | apply word_lt in Hw; exact Hw].
  - inversion HR as [| | | | | | |m' Hk Hw Hm|]. subst. inversion HW as [| | | | | | |m' HWm|]. subst.
    pose proof (sort_perm m) as Hp.
    assert (exists ts, Forall2 entry_item (sort_entries m) ts) as [ts Hts].
    { apply (Permutation_Forall Hp) in IH, Hm, HWm. clear - IH Hm HWm. induction IH as [|[k x] l Hx IHl IHl']; [exists []; constructor|].
      apply Forall_cons_iff in Hm as [(Hu & Hl & H1) Hm]. apply Forall_cons_iff in HWm as [W1 HWm]. destruct (Hx H1 W1) as [t Ht]. destruct (IHl' Hm HWm) as [ts Hts].
      exists ((cbor_text k ++ t) :: ts). constructor; [|assumption]. exists (cbor_text k), t. split; [|auto]. apply text_item_iff. apply word_lt in Hl. auto. }
    eexists. apply (DC_map m (sort_entries m) ts); [exact Hk | exact Hp | apply sort_sorted, msorted_keys_nodup, Hk | exact Hts|].
    apply item_head_iff. split; [reflexivity | apply word_lt in Hw; exact Hw].
  - inversion HR as [| | | | | | | |c' d Hc]. subst. eexists. apply (DC_link c d); [exact Hc|]. eexists. split; [|reflexivity]. apply item_head_iff. split; [reflexivity|].
    assert (length d < 256)%nat; [|cbn [length]; lia]. destruct Hc as [d Hl | codec hash d cs hs ls Hc Hh Hd Sc Sh Sl]; [cbn [length app]; lia|].
    apply shortest_word in Sc; [|exact Hc]. apply shortest_word in Sh; [|exact Hh]. apply shortest_word in Sl; [|exact (digest_word d Hd)]. subst.
    pose proof (varint_length 10 codec) as L1. pose proof (varint_length 10 hash) as L2. pose proof (varint_length 10 (N.of_nat (length d))) as L3.
    fold (varint_encode codec) in L1. fold (varint_encode hash) in L2. fold (varint_encode (N.of_nat (length d))) in L3. rewrite !app_length. cbn [length]. lia.
Qed.

Lemma encode_writable i : forall t, cbor_encode i = Some t -> rust_data i -> writable i.
Proof.
  induction i as [|b|z|f|s|s|l IH|m IH|c] using ipld_induction; intros t H HR; try constructor.
  - cbn [cbor_encode] in H. change (2 ^ 64)%Z with 18446744073709551616%Z.
    destruct (Z.leb_spec 0 z); [destruct (Z.leb_spec z 18446744073709551615) | destruct (Z.leb_spec (-18446744073709551616) z)]; try discriminate; lia.
  - inversion HR as [| | |f' Hv| | | | |]. subst. destruct f; try discriminate; [exact I | exact Hv].
  - rewrite encode_list in H. destruct (enc_list l) as [ts|] eqn:E; [|discriminate]. clear H. inversion HR as [| | | | | |l' Hl Hw| |]. subst. clear HR Hw.
    revert ts E. induction IH as [|x l Hx _ IHl]; intros ts E; [constructor|]. apply Forall_cons_iff in Hl as [H1 Hl]. cbn [enc_list] in E.
    destruct (cbor_encode x) as [y|] eqn:Ex; [|discriminate]. destruct (enc_list l) as [ys|] eqn:El; [|discriminate]. constructor; [exact (Hx y eq_refl H1) | exact (IHl Hl ys eq_refl)].
  - rewrite encode_map in H. destruct (enc_map m) as [ts|] eqn:E; [|discriminate]. clear H. inversion HR as [| | | | | | |m' _ Hw Hm|]. subst. clear HR Hw.
    revert ts E. induction IH as [|[k x] m Hx _ IHl]; intros ts E; [constructor|]. apply Forall_cons_iff in Hm as [(_ & _ & H1) Hm]. cbn [enc_map] in E.
    destruct (cbor_encode x) as [y|] eqn:Ex; [|discriminate]. destruct (enc_map m) as [ys|] eqn:El; [|discriminate]. constructor; [exact (Hx y Ex H1) | exact (IHl Hm ys eq_refl)].
Qed.

Lemma cbor_encode_iff i t : rust_data i -> (cbor_encode i = Some t <-> dag_cbor i t).
Proof.
  intros HR. split; [|apply encode_complete]. intros E. destruct (writable_dag i HR (encode_writable i t E HR)) as [t' Ht].
  pose proof (encode_complete i t' Ht) as E'. congruence.
Qed.
Lemma cbor_written_iff i : rust_data i -> ((exists t, cbor_encode i = Some t) <-> writable i).
Proof.
  intros HR. split; [intros [t E]; exact (encode_writable i t E HR)|]. intros HW. destruct (writable_dag i HR HW) as [t Ht]. exists t. apply encode_complete, Ht.
Qed.
Lemma cbor_roundtrip i t : rust_data i -> cbor_encode i = Some t -> cbor_decode t = Some i.
Proof. intros HR E. apply cbor_decode_iff, cbor_encode_iff; assumption. Qed.
Lemma cbor_reencode i t : cbor_decode t = Some i -> cbor_encode i = Some t.
Proof. intros H. apply encode_complete, cbor_decode_iff, H. Qed.

Lemma dag_rust i : forall t, dag_cbor i t -> rust_data i.
Proof.
  induction i as [|b|z|f|s|s|l IH|m IH|c] using ipld_induction; intros t H; try (constructor; fail).
  - inversion H as [| | | | |f' d Hf| | | | |]. subst. apply binary64_iff in Hf as (n & _ & Hv & _). constructor. exact Hv.
  - inversion H as [| | | | | | |s' t' Hs| | |]. subst. apply text_item_iff in Hs as (Hu & Hl & _). constructor; [exact Hu | unfold word; lia].
  - inversion H as [| | | | | |s' t' Hs| | | |]. subst. destruct Hs as (h & Hh & _). apply item_head_iff in Hh as [_ Hl]. constructor. unfold word; lia.
  - inversion H as [| | | | | | | |l' ts h H2 Hh| |]. subst. apply item_head_iff in Hh as [_ Hl]. constructor; [|unfold word; lia]. clear - IH H2.
    induction H2 as [|x t l ts Hx _ IHl]; [constructor|]. apply Forall_cons_iff in IH as [H1 IH]. constructor; [exact (H1 t Hx) | exact (IHl IH)].
  - inversion H as [| | | | | | | | |m' es ts h Hk Hp Hs H2 Hh|]. subst. apply item_head_iff in Hh as [_ Hl]. constructor; [exact Hk | unfold word; lia|]. clear - IH H2 Hp.
    rewrite Forall_forall in *. intros kv Hin. apply (Permutation.Permutation_in _ Hp) in Hin as Hin'. specialize (IH _ Hin). clear Hin Hp.
    induction H2 as [|e t es ts (kt & v & Ht & Hv & _) _ IHl]; [destruct Hin'|]. destruct Hin' as [-> | Hin]; [|exact (IHl Hin)].
    apply text_item_iff in Ht as (Hu & Hl & _). split; [exact Hu|]. split; [unfold word; lia | exact (IH v Hv)].
  - inversion H as [| | | | | | | | | |c' d t' Hc Ht]. subst. exact (RD_link c d Hc).
Qed.
Lemma decoded_data i t : cbor_decode t = Some i -> rust_data i /\ writable i.
Proof.
  intros H. assert (rust_data i) as HR by exact (dag_rust i t (proj1 (cbor_decode_iff t i) H)). split; [exact HR|].
  exact (encode_writable i t (cbor_reencode i t H) HR).
Qed.
