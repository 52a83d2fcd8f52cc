(** Facts about reading CIDs and about the errors of keys. *)
From Verif Require Import Prelude Ord SMap BaseN Base58 Varint Value Cid Ext Key KeySupport WebCrypto Ucan Spec SpecWire SpecIpld SpecKeys
  OrdFacts BaseNFacts Base58Facts CidFacts DidFacts WebCryptoFacts IpldFacts WireFacts.

(* ---------------------------------------------------------------- C118 *)

Lemma take_exact_iff n s d r : take_exact n s = Some (d, r) <-> s = d ++ r /\ N.of_nat (length d) = n.
Proof.
  unfold take_exact. destruct (n <=? N.of_nat (length s))%N eqn:E.
  - apply N.leb_le in E. split.
    + intros [= <- <-]. split; [symmetry; apply firstn_skipn|]. rewrite firstn_length_le by lia. apply N2Nat.id.
    + intros [-> <-]. rewrite Nat2N.id, firstn_app, Nat.sub_diag, firstn_all, skipn_app, Nat.sub_diag, skipn_all. cbn [firstn skipn].
      rewrite app_nil_r. reflexivity.
  - apply N.leb_gt in E. split; [discriminate|]. intros [-> <-]. rewrite app_length in E. lia.
Qed.

Lemma varint_read c n rest : leb128 c n -> varint_decode (c ++ rest) = Some (n, rest).
Proof. intros H. apply varint_decode_iff. eauto. Qed.

Lemma cid_bytes_iff s c : cid_of_bytes s = Some c <-> cid_bytes s c.
Proof.
  split.
  - unfold cid_of_bytes. destruct (varint_decode s) as [[v s1]|] eqn:E1; [|discriminate].
    destruct (varint_decode s1) as [[k s2]|] eqn:E2; [|discriminate].
    apply varint_decode_iff in E1 as (bv & -> & Hv). apply varint_decode_iff in E2 as (bk & -> & Hk).
    destruct ((v =? 18)%N && (k =? 32)%N) eqn:E0.
    + apply andb_true_iff in E0 as [Ev Ek]. apply N.eqb_eq in Ev, Ek. subst v k.
      destruct (take_exact 32 s2) as [[d r]|] eqn:Et; [|discriminate]. apply take_exact_iff in Et as [-> Hl]. intros [= <-].
      apply CB_v0; [exact Hv | exact Hk | lia].
    + destruct (v =? 1)%N eqn:Ev; [|discriminate]. apply N.eqb_eq in Ev. subst v. unfold read_multihash.
      destruct (varint_decode s2) as [[h s3]|] eqn:E3; [|discriminate]. destruct (varint_decode s3) as [[z s4]|] eqn:E4; [|discriminate].
      apply varint_decode_iff in E3 as (bh & -> & Hh). apply varint_decode_iff in E4 as (bz & -> & Hz).
      destruct (z <=? 64)%N eqn:Ez; [|discriminate]. apply N.leb_le in Ez.
      destruct (take_exact z s4) as [[d r]|] eqn:Et; [|discriminate]. apply take_exact_iff in Et as [-> Hl]. intros [= <-]. subst z.
      apply CB_v1; try assumption. lia.
  - intros H. destruct H as [bh bz d rest Hh Hz Hl | bv bk bh bz d rest k h Hv Hk Hh Hz Hl]; unfold cid_of_bytes.
    + rewrite (varint_read _ _ _ Hh), (varint_read _ _ _ Hz). change ((18 =? 18)%N && (32 =? 32)%N) with true. cbv iota.
      rewrite (proj2 (take_exact_iff 32 (d ++ rest) d rest)); [reflexivity|]. split; [reflexivity | lia].
    + rewrite (varint_read _ _ _ Hv), (varint_read _ _ _ Hk). change (1 =? 18)%N with false. change (1 =? 1)%N with true. cbn [andb]. cbv iota.
      unfold read_multihash. rewrite (varint_read _ _ _ Hh), (varint_read _ _ _ Hz).
      rewrite (proj2 (N.leb_le (N.of_nat (length d)) 64)) by lia.
      rewrite (proj2 (take_exact_iff (N.of_nat (length d)) (d ++ rest) d rest)); [reflexivity|]. split; reflexivity.
Qed.

Lemma strip_prefix_none p s : strip_prefix p s = None -> forall r, s <> p ++ r.
Proof. intros H r ->. rewrite strip_prefix_app in H. discriminate. Qed.

Lemma after_ipfs_first s r : after_ipfs s = Some r <-> exists before, s = before ++ B "/ipfs/" ++ r /\
  forall b a, s = b ++ B "/ipfs/" ++ a -> (length before <= length b)%nat.
Proof.
  revert r. induction s as [|x s IH]; intros r.
  - split; [discriminate|]. intros (b & E & _). destruct b; discriminate.
  - cbn [after_ipfs]. destruct (strip_prefix (B "/ipfs/") (x :: s)) as [r'|] eqn:E.
    + apply strip_prefix_some in E. split.
      * intros [= <-]. exists []. split; [exact E | intros; cbn; lia].
      * intros (b & E' & Hb). specialize (Hb [] r' E). destruct b; [|cbn in Hb; lia]. f_equal.
        cbn [app] in E'. rewrite E in E'. apply app_inv_head in E'. exact E'.
    + rewrite IH. pose proof (strip_prefix_none _ _ E) as Hn. split.
      * intros (b & -> & Hb). exists (x :: b). split; [reflexivity|]. intros [|y b'] a E'; [destruct (Hn a E')|].
        cbn [app] in E'. injection E' as _ E'. cbn [length]. specialize (Hb _ _ E'). lia.
      * intros ([|y b] & E' & Hb); [destruct (Hn r E')|]. cbn [app] in E'. injection E' as <- E'. exists b. split; [exact E'|].
        intros b' a Ea. specialize (Hb (x :: b') a ltac:(cbn [app]; f_equal; exact Ea)). cbn [length] in Hb. lia.
Qed.
Lemma after_ipfs_never s : after_ipfs s = None <-> forall b a, s <> b ++ B "/ipfs/" ++ a.
Proof.
  split.
  - intros H b a ->. revert H. induction b as [|x b IH]; cbn [app]; intros H.
    + cbn [after_ipfs] in H. change (x2f :: ?r) with (B "/ipfs/" ++ a) in H. 
      destruct (B "/ipfs/" ++ a) eqn:E; [discriminate|]. rewrite <- E in H. cbn [after_ipfs] in H.
      rewrite E in H. cbn [after_ipfs] in H. rewrite <- E, strip_prefix_app in H. discriminate.
    + cbn [after_ipfs] in H. destruct (strip_prefix (B "/ipfs/") (x :: b ++ B "/ipfs/" ++ a)); [discriminate|]. exact (IH H).
  - intros H. destruct (after_ipfs s) as [r|] eqn:E; [|reflexivity]. apply after_ipfs_first in E as (b & -> & _). destruct (H b r eq_refl).
Qed.
Lemma cid_part_iff t s : cid_part t s <-> s = match after_ipfs t with Some r => r | None => t end.
Proof.
  unfold cid_part. rewrite <- after_ipfs_first, <- after_ipfs_never. destruct (after_ipfs t) as [r|]; split.
  - intros [[= <-] | [_ H]]; [reflexivity | discriminate].
  - intros ->. left. reflexivity.
  - intros [H | [-> _]]; [discriminate | reflexivity].
  - intros ->. right. split; reflexivity.
Qed.

Definition text_bytes (X : ext) (s : bytes) : option bytes :=
  match strip_prefix (B "Qm") s with
  | Some _ => if (length s =? 46)%nat then b58_decode s else None
  | None => match s with
            | x62 :: r => b32_decode r
            | x7a :: r => b58_decode r
            | c :: r => x_multibase X c r
            | [] => None
            end
  end.

Lemma multibase_iff X s bs : (2 <= length s)%nat -> (text_bytes X s = Some bs <-> multibase_text X s bs).
Proof.
  intros Hl. unfold text_bytes. split.
  - destruct (strip_prefix (B "Qm") s) as [r|] eqn:E.
    + destruct (Nat.eqb_spec (length s) 46) as [E46|]; [|discriminate]. intros H. apply strip_prefix_some in E.
      apply MT_v0; [exists r; exact E | exact E46|]. apply base58_text_iff, b58_decode_iff, H.
    + pose proof (strip_prefix_none _ _ E) as Hn. destruct s as [|l r]; [discriminate|].
      assert (l = x62 \/ l = x7a \/ (l <> x62 /\ l <> x7a)) as [-> | [-> | [H1 H2]]].
      { destruct (Byte.byte_eq_dec l x62); [auto|]. destruct (Byte.byte_eq_dec l x7a); auto. }
      * intros H. apply b32_decode_iff in H as ->. rewrite b32_encode_rfc. exact (MT_base32 X bs).
      * intros H. apply b58_decode_iff in H. apply (MT_base58 X r bs). apply base58_text_iff, H.
      * intros H. apply MT_other; [exact H1 | exact H2 | | exact Hn |].
        -- intros ->. cbn in Hl. lia.
        -- clear - H H1 H2. destruct l; try exact H; congruence.
  - intros H. destruct H as [s bs [r Hr] H46 Ht | bs | t bs Ht | l r bs H1 H2 H3 H4 H5].
    + subst s. rewrite strip_prefix_app, (proj2 (Nat.eqb_eq _ _) H46). apply b58_decode_iff, base58_text_iff, Ht.
    + change (B "b" ++ base32 bs) with (x62 :: base32 bs). change (strip_prefix (B "Qm") (x62 :: base32 bs)) with (@None bytes). cbv iota.
      apply b32_decode_iff. symmetry. apply b32_encode_rfc.
    + change (B "z" ++ t) with (x7a :: t). change (strip_prefix (B "Qm") (x7a :: t)) with (@None bytes). cbv iota.
      apply b58_decode_iff, base58_text_iff, Ht.
    + destruct (strip_prefix (B "Qm") (l :: r)) as [r'|] eqn:E; [apply strip_prefix_some in E; destruct (H4 _ E)|].
      clear - H5 H1 H2. destruct l; try exact H5; congruence.
Qed.

Lemma parse_cid_unfold X t : parse_cid X t =
  (let s := match after_ipfs t with Some r => r | None => t end in
   if (length s <? 2)%nat then None else let?? bs := text_bytes X s in cid_of_bytes bs).
Proof. reflexivity. Qed.

Lemma cid_bytes_nonnil bs c : cid_bytes bs c -> bs <> [].
Proof. intros H ->. apply cid_bytes_iff in H. discriminate. Qed.

Lemma multibase_length X s bs c : multibase_text X s bs -> cid_bytes bs c -> (2 <= length s)%nat.
Proof.
  intros H Hc. apply cid_bytes_nonnil in Hc. destruct H as [s bs _ H46 _ | bs | t bs Ht | l r bs _ _ H3 _ _].
  - lia.
  - rewrite <- b32_encode_rfc. cbn [app length]. pose proof (b32_encode_nonnil bs Hc). destruct (b32_encode bs); [contradiction | cbn; lia].
  - apply base58_text_iff in Ht as ->. cbn. destruct (b58_encode bs) eqn:E; [|cbn; lia].
    pose proof (b58_roundtrip bs) as R. rewrite E in R. vm_compute in R. congruence.
  - destruct r; [contradiction | cbn; lia].
Qed.

Lemma cid_text_iff X t c : parse_cid X t = Some c <-> cid_text X t c.
Proof.
  rewrite parse_cid_unfold. unfold cid_text. cbv zeta. set (s := match after_ipfs t with Some r => r | None => t end). split.
  - destruct (length s <? 2)%nat eqn:El; [discriminate|]. apply Nat.ltb_ge in El.
    destruct (text_bytes X s) as [bs|] eqn:E; [|discriminate]. intros H. exists s, bs. split; [apply cid_part_iff; reflexivity|].
    split; [apply multibase_iff; assumption | apply cid_bytes_iff, H].
  - intros (s' & bs & Hs & Hm & Hc). apply cid_part_iff in Hs. fold s in Hs. subst s'. pose proof (multibase_length _ _ _ _ Hm Hc) as Hl.
    rewrite (proj2 (Nat.ltb_ge _ _) Hl). apply multibase_iff in Hm; [|exact Hl]. rewrite Hm. apply cid_bytes_iff, Hc.
Qed.

(** The text of a version-0 CID. *)
Lemma of_digits_split b l d : of_digits b (d :: l) = (d * b ^ N.of_nat (length l) + of_digits b l)%N.
Proof. exact (of_digits_app b [d] l). Qed.

Lemma digits_two v ds : Forall (fun d => (d < 58)%N) ds -> of_digits 58 ds = v ->
  (1378 * 58 ^ 44 <= v < 1379 * 58 ^ 44)%N -> length ds = 46%nat -> exists tl, ds = 23%N :: 44%N :: tl.
Proof.
  intros Hf Hv Hb Hl. destruct ds as [|a [|b tl]]; [discriminate | discriminate|]. exists tl.
  cbn [length] in Hl. assert (length tl = 44%nat) as Ht by lia. clear Hl.
  subst v. apply Forall_cons_iff in Hf as [Ha Hf']. apply Forall_cons_iff in Hf' as [Hb' Hft].
  rewrite !of_digits_split in Hb. cbn [length] in Hb. rewrite Ht in Hb.
  pose proof (of_digits_bound 58 tl ltac:(lia) Hft) as Hd. rewrite Ht in Hd.
  change (N.of_nat 44) with 44%N in *. change (N.of_nat 45) with (N.succ 44) in *. rewrite N.pow_succ_r' in Hb.
  assert (0 < 58 ^ 44)%N as Hk by (vm_compute; reflexivity).
  generalize dependent (58 ^ 44)%N. intros k Hb Hd Hk. clear - Hb Ha Hb' Hd Hk.
  assert ((a * 58 + b = 1378)%N) as E.
  { assert ((a * 58 + b) * k <= 1378 * k + (k - 1) /\ 1378 * k < (a * 58 + b + 1) * k)%N as [H1 H2] by nia.
    assert (a * 58 + b < 1379)%N by nia. assert (1378 < a * 58 + b + 1)%N by nia. lia. }
  assert (a = 23)%N by lia. assert (b = 44)%N by lia. congruence.
Qed.

Lemma qm_text d : length d = 32%nat -> exists r, b58_encode ([x12; x20] ++ d) = B "Qm" ++ r /\ length r = 44%nat.
Proof.
  intros Hl. unfold b58_encode. cbn [app map]. change (bN x12) with 18%N. change (bN x20) with 32%N.
  cbn [span]. change (18 =? 0)%N with false. cbv iota. cbn [repeat app].
  set (v := of_digits 256 (18%N :: 32%N :: map bN d)).
  assert (Hv : (4640 * 256 ^ 32 <= v < 4641 * 256 ^ 32)%N).
  { unfold v. rewrite !of_digits_split. cbn [length]. rewrite map_length, Hl.
    pose proof (of_digits_bound 256 (map bN d) ltac:(lia) (map_bN_lt d)) as Hb. rewrite map_length, Hl in Hb.
    change (N.of_nat 32) with 32%N in *. change (N.of_nat 33) with (N.succ 32) in *. rewrite N.pow_succ_r'.
    generalize dependent (256 ^ 32)%N. intros k Hb. lia. }
  clearbody v. pose proof (to_digits_value 58 ltac:(lia) v) as Ev. pose proof (to_digits_canonical 58 ltac:(lia) v) as [Hc Hz].
  set (ds := to_digits 58 v) in *. clearbody ds.
  assert (Hlen : length ds = 46%nat).
  { pose proof (of_digits_bound 58 ds ltac:(lia) Hc) as Hb. rewrite Ev in Hb.
    assert (45 < length ds)%nat as H1.
    { apply Nat.nle_gt. intros Hle. assert (58 ^ N.of_nat (length ds) <= 58 ^ 45)%N by (apply N.pow_le_mono_r; lia).
      assert (58 ^ 45 <= 4640 * 256 ^ 32)%N by (vm_compute; discriminate). lia. }
    destruct ds as [|a tl]; [cbn in H1; lia|]. cbn [length] in H1 |- *. rewrite of_digits_split in Ev.
    assert (length tl < 46)%nat; [|lia]. apply Nat.nle_gt. intros Hle.
    assert (58 ^ 46 <= 58 ^ N.of_nat (length tl))%N by (apply N.pow_le_mono_r; lia).
    assert (4641 * 256 ^ 32 < 58 ^ 46)%N by (vm_compute; reflexivity). nia. }
  destruct (digits_two v ds Hc Ev) as [tl ->].
  { assert (1378 * 58 ^ 44 <= 4640 * 256 ^ 32)%N by (vm_compute; discriminate).
    assert (4641 * 256 ^ 32 <= 1379 * 58 ^ 44)%N by (vm_compute; discriminate). lia. }
  { exact Hlen. }
  exists (map (letter base58_alphabet) tl). cbn [length] in Hlen. split; [|rewrite map_length; lia].
  cbn [map]. change (letter base58_alphabet 23) with x51. change (letter base58_alphabet 44) with x6d. reflexivity.
Qed.

Lemma cid_v0_text X c : cid_v0 c -> parse_cid X (cid_to_string c) = Some c /\ exists r, cid_to_string c = B "Qm" ++ r /\ length r = 44%nat.
Proof.
  intros (Hv & Hk & Hh & Hd). unfold cid_to_string, cid_to_bytes, multihash_bytes. rewrite Hv, Hh, Hd. change (0 =? 0)%N with true. cbv iota.
  change (varint_encode 18 ++ varint_encode (N.of_nat 32) ++ cid_digest c) with ([x12; x20] ++ cid_digest c).
  destruct (qm_text _ Hd) as (r & E & Hr). split; [|exists r; auto].
  apply cid_text_iff. exists (b58_encode ([x12; x20] ++ cid_digest c)), ([x12; x20] ++ cid_digest c). split; [|split].
  - apply cid_part_iff. rewrite after_ipfs_none; [reflexivity|]. intros Hin. apply b58_encode_in in Hin.
    assert (existsb (Byte.eqb x2f) base58_alphabet = true) as E'; [|vm_compute in E'; discriminate].
    apply existsb_exists. exists x2f. split; [exact Hin | reflexivity].
  - apply MT_v0; [exists r; exact E | rewrite E, app_length, Hr; reflexivity | apply b58_encode_text].
  - apply cid_bytes_iff. destruct c as [ver codec hash dig]. cbn [cid_version cid_codec cid_hash_code cid_digest] in *. subst ver codec hash.
    rewrite <- (app_nil_r dig) at 1. change ([x12; x20] ++ dig ++ []) with ([x12] ++ [x20] ++ dig ++ []). apply cid_bytes_iff, CB_v0; [| |exact Hd].
    + exists [], x12. split; [reflexivity|]. split; [cbn; lia|]. split; [constructor|]. split; [reflexivity|]. split; [intros H; destruct (H eq_refl) | reflexivity].
    + exists [], x20. split; [reflexivity|]. split; [cbn; lia|]. split; [constructor|]. split; [reflexivity|]. split; [intros H; destruct (H eq_refl) | reflexivity].
Qed.

(** What can be read is either version, and only version 1 can name a token. *)
Lemma cid_text_versions X t c : parse_cid X t = Some c -> cid_v0 c \/ cid_v1 c.
Proof.
  intros H. apply cid_text_iff in H as (s & bs & _ & _ & H). destruct H as [bh bz d rest _ _ Hl | bv bk bh bz d rest k h _ Hk Hh _ Hl].
  - left. repeat split. exact Hl.
  - right. split; [reflexivity|]. split; [exact (leb128_word _ _ Hk)|]. split; [exact (leb128_word _ _ Hh) | exact Hl].
Qed.

(* ---------------------------------------------------------------- C119 *)

Lemma native_sign {Pub Priv} (C : crypto Pub Priv) pk sk digest k d r : native C pk sk digest k ->
  (key_sign k d = r <-> (sk = None /\ r = Err ENoPrivateKey) \/
   exists p, sk = Some p /\ ((exists g, cr_sign C p (digest d) = Some g /\ r = Ok g) \/ (cr_sign C p (digest d) = None /\ r = Err ESigning))).
Proof.
  intros H. assert (key_sign k d = km_sign C digest sk d) as -> by (destruct H; reflexivity). unfold km_sign. destruct sk as [p|].
  - destruct (cr_sign C p (digest d)) as [g|] eqn:E; cbn [ok_or]; split.
    + intros <-. right. exists p. split; [reflexivity|]. left. exists g. auto.
    + intros [[? _] | (p' & [= <-] & [(g' & E' & ->) | [E' _]])]; congruence.
    + intros <-. right. exists p. split; [reflexivity|]. right. auto.
    + intros [[? _] | (p' & [= <-] & [(g' & E' & ->) | [E' ->]])]; congruence.
  - split; [intros <-; left; auto | intros [[_ ->] | (p & ? & _)]; [reflexivity | discriminate]].
Qed.

Lemma native_verify {Pub Priv} (C : crypto Pub Priv) pk sk digest k d g r : native C pk sk digest k ->
  (key_verify k d g = r <-> (cr_verify C pk (digest d) g = true /\ r = Ok tt) \/ (cr_verify C pk (digest d) g = false /\ r = Err ESignature)).
Proof.
  intros H. assert (key_verify k d g = km_verify C digest pk d g) as -> by (destruct H; reflexivity). unfold km_verify.
  destruct (cr_verify C pk (digest d) g); split; try (intros <-; auto); intros [[? ->] | [? ->]]; congruence.
Qed.

Lemma undecodable_error slice dids m c rest : length m = 2%nat -> registered slice m c -> undecodable rest c ->
  fst (did_parse (parser_after slice dids) (did_key_text (m ++ rest))) = Err EKeyBytes.
Proof.
  intros Hm Hr Hu. rewrite (dispatch _ _ _ _ _ Hm Hr).
  destruct Hu as [Pub Priv C E | Pub Priv C E | Pub Priv C sha E]; unfold bytes_to_ed25519_key, bytes_to_p256_key, bytes_to_rsa_key; rewrite E; reflexivity.
Qed.

Lemma web_sign_outcome {Pub Priv WPub WPriv} (C : crypto Pub Priv) (W : browser WPub WPriv) sha256 wk sk d r :
  w_subtle W = Ok tt ->
  (key_sign (web_key C W sha256 wk sk) d = r <-> (sk = None /\ r = Err ENoPrivateKey) \/
   exists p, sk = Some p /\ ((exists g, w_sign W p d = Some g /\ r = Ok g) \/ (w_sign W p d = None /\ r = Err EWebCrypto))).
Proof.
  intros Hs. cbn [key_sign web_key]. unfold web_sign. destruct sk as [p|].
  - rewrite Hs. cbn [rbind]. destruct (w_sign W p d) as [g|] eqn:E; cbn [ok_or]; split.
    + intros <-. right. exists p. split; [reflexivity|]. left. exists g. auto.
    + intros [[? _] | (p' & [= <-] & [(g' & E' & ->) | [E' _]])]; congruence.
    + intros <-. right. exists p. split; [reflexivity|]. right. auto.
    + intros [[? _] | (p' & [= <-] & [(g' & E' & ->) | [E' ->]])]; congruence.
  - split; [intros <-; left; auto | intros [[_ ->] | (p & ? & _)]; [reflexivity | discriminate]].
Qed.

Lemma web_verify_outcome {Pub Priv WPub WPriv} (C : crypto Pub Priv) (W : browser WPub WPriv) sha256 wk sk d g r :
  w_subtle W = Ok tt ->
  (key_verify (web_key C W sha256 wk sk) d g = r <-> (w_verify W wk d g = Some true /\ r = Ok tt) \/
   (w_verify W wk d g = Some false /\ r = Err ESignature) \/ (w_verify W wk d g = None /\ r = Err EWebCrypto)).
Proof.
  intros Hs. cbn [key_verify web_key]. unfold web_verify. rewrite Hs. cbn [rbind].
  destruct (w_verify W wk d g) as [[|]|]; cbn [ok_or rbind]; split; try (intros <-; tauto); intros [[? ->] | [[? ->] | [? ->]]]; congruence.
Qed.

(** Without the API nothing works, except that a missing private key is noticed first. *)
Lemma web_unavailable {Pub Priv WPub WPriv} (C : crypto Pub Priv) (W : browser WPub WPriv) sha256 wk sk d g e :
  w_subtle W = Err e ->
  key_did (web_key C W sha256 wk sk) = Err e /\ key_verify (web_key C W sha256 wk sk) d g = Err e /\
  key_sign (web_key C W sha256 wk sk) d = Err (match sk with None => ENoPrivateKey | Some _ => e end).
Proof.
  intros Hs. cbn [key_verify key_sign key_did web_key]. unfold web_verify, web_sign, web_did. rewrite Hs. destruct sk; auto.
Qed.
