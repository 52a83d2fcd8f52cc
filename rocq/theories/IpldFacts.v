(** Facts about the IPLD form. *)
From Verif Require Import Prelude Ord SMap Base58 Varint Utf8 Value Cid Ext Capability Key Ucan Ipld Spec SpecIpld
  OrdFacts SMapFacts Base58Facts CidFacts DidFacts.

(* -------------------------------------------------------------------- varints *)

Lemma varint_decode_cons i acc c rest : varint_decode_from i acc (c :: rest) =
  if (bN c <? 128)%N then
    if (bN c =? 0)%N && (0 <? i)%nat then None else Some (((acc + (bN c mod 128) * 2 ^ (7 * N.of_nat i)) mod 2 ^ 64)%N, rest)
  else if (i =? 9)%nat then None else varint_decode_from (S i) (acc + (bN c mod 128) * 2 ^ (7 * N.of_nat i))%N rest.
Proof. reflexivity. Qed.

Lemma varint_decode_from_iff buf : forall i acc n rest, (i <= 9)%nat ->
  varint_decode_from i acc buf = Some (n, rest) <->
  exists init final, buf = init ++ final :: rest /\ (i + length init <= 9)%nat /\
    Forall (fun c => (128 <= bN c)%N) init /\ (bN final < 128)%N /\ ((i + length init)%nat <> 0%nat -> bN final <> 0%N) /\
    n = ((acc + 2 ^ (7 * N.of_nat i) * leb_value (init ++ [final])) mod 18446744073709551616)%N.
Proof.
  change 18446744073709551616%N with (2 ^ 64)%N.
  induction buf as [|c buf IH]; intros i acc n rest Hi; [cbn [varint_decode_from] | rewrite varint_decode_cons].
  - split; [discriminate|]. intros (init & final & E & _). destruct init; discriminate.
  - remember (2 ^ (7 * N.of_nat i))%N as P eqn:HP. destruct (N.ltb_spec (bN c) 128) as [Hc|Hc].
    + split.
      * destruct ((bN c =? 0)%N && (0 <? i)%nat) eqn:Ez; [discriminate|]. intros [= <- <-].
        exists [], c. split; [reflexivity|]. split; [cbn; lia|]. split; [constructor|]. split; [exact Hc|]. split.
        -- cbn [length]. intros Hne E0. rewrite E0 in Ez. cbn [N.eqb andb] in Ez. apply Nat.ltb_ge in Ez. lia.
        -- cbn [app leb_value]. f_equal. ring.
      * intros (init & final & E & Hl & Hf & Hfin & Hz & ->). destruct init as [|d init].
        -- cbn [app] in E. injection E as <- <-. cbn [length] in Hz.
           replace ((bN c =? 0)%N && (0 <? i)%nat) with false.
           ++ cbn [app leb_value]. do 3 f_equal. ring.
           ++ symmetry. apply andb_false_iff. destruct (Nat.ltb_spec 0 i); [left; apply N.eqb_neq, Hz; lia | right; reflexivity].
        -- cbn [app] in E. injection E as <- E. inversion Hf; subst. lia.
    + destruct (Nat.eqb_spec i 9) as [->|Hi9].
      * split; [discriminate|]. intros (init & final & E & Hl & Hf & Hfin & _). destruct init as [|d init].
        -- cbn [app] in E. injection E as <- <-. lia.
        -- cbn [length] in Hl. lia.
      * rewrite IH by lia. split.
        -- intros (init & final & -> & Hl & Hf & Hfin & Hz & ->). exists (c :: init), final.
           split; [reflexivity|]. cbn [length]. split; [lia|]. split; [constructor; assumption|]. split; [exact Hfin|].
           split; [intros _; apply Hz; lia|]. cbn [app leb_value]. f_equal.
           rewrite Nat2N.inj_succ. replace (7 * N.succ (N.of_nat i))%N with (7 * N.of_nat i + 7)%N by lia.
           rewrite N.pow_add_r. change (2 ^ 7)%N with 128%N. rewrite <- HP. ring.
        -- intros (init & final & E & Hl & Hf & Hfin & Hz & ->). destruct init as [|d init].
           ++ cbn [app] in E. injection E as <- <-. lia.
           ++ cbn [app] in E. injection E as <- ->. cbn [length] in Hl, Hz. apply Forall_cons_iff in Hf as [_ Hf].
              exists init, final. split; [reflexivity|]. split; [lia|]. split; [assumption|]. split; [exact Hfin|].
              split; [intros _; apply Hz; lia|]. cbn [app leb_value]. f_equal.
              rewrite Nat2N.inj_succ. replace (7 * N.succ (N.of_nat i))%N with (7 * N.of_nat i + 7)%N by lia.
              rewrite N.pow_add_r. change (2 ^ 7)%N with 128%N. rewrite <- HP. ring.
Qed.

Lemma varint_decode_iff buf n rest : varint_decode buf = Some (n, rest) <-> exists s, buf = s ++ rest /\ leb128 s n.
Proof.
  unfold varint_decode. rewrite varint_decode_from_iff by lia. unfold leb128. split.
  - intros (init & final & -> & Hl & Hf & Hfin & Hz & ->). exists (init ++ [final]).
    split; [rewrite <- app_assoc; reflexivity|]. exists init, final. split; [reflexivity|]. split; [lia|].
    split; [exact Hf|]. split; [exact Hfin|]. split.
    + intros Hne. apply Hz. destruct init; [contradiction | cbn; lia].
    + f_equal. cbn [N.of_nat]. change (2 ^ (7 * 0))%N with 1%N. lia.
  - intros (s & -> & init & final & -> & Hl & Hf & Hfin & Hz & ->). exists init, final.
    split; [rewrite <- app_assoc; reflexivity|]. split; [lia|]. split; [exact Hf|]. split; [exact Hfin|]. split.
    + intros Hne. apply Hz. intros ->. apply Hne. reflexivity.
    + f_equal. cbn [N.of_nat]. change (2 ^ (7 * 0))%N with 1%N. lia.
Qed.

Lemma varint_encode_leb n : word n -> leb128 (varint_encode n) n.
Proof.
  intros H. pose proof (varint_roundtrip n [] H) as E. rewrite app_nil_r in E.
  apply varint_decode_iff in E as (s & E & Hs). rewrite app_nil_r in E. rewrite E. exact Hs.
Qed.

Lemma leb128_word s n : leb128 s n -> word n.
Proof.
  intros (i & f & _ & _ & _ & _ & _ & ->). unfold word.
  pose proof (N.mod_lt (leb_value s) 18446744073709551616 ltac:(lia)). lia.
Qed.

(** At most nine bytes: the varint is the one the encoder writes. *)
Lemma leb_value_inj s : forall s' i i' f f', s = i ++ [f] -> s' = i' ++ [f'] ->
  Forall (fun c => (128 <= bN c)%N) i -> Forall (fun c => (128 <= bN c)%N) i' ->
  (bN f < 128)%N -> (bN f' < 128)%N -> (i <> [] -> bN f <> 0%N) -> (i' <> [] -> bN f' <> 0%N) ->
  leb_value s = leb_value s' -> s = s'.
Proof.
  intros s' i. revert s s'. induction i as [|c i IH]; intros s s' i' f f' -> -> Hi Hi' Hf Hf' Hz Hz' E.
  - destruct i' as [|c' i'].
    + cbn [app leb_value] in *. f_equal. apply bN_inj. lia.
    + exfalso. cbn [app leb_value] in E. assert (Hv : (0 < leb_value (i' ++ [f']))%N).
      { specialize (Hz' ltac:(discriminate)). clear - Hz' Hf'. induction i' as [|d i' IH]; cbn [app leb_value]; lia. }
      lia.
  - destruct i' as [|c' i'].
    + exfalso. cbn [app leb_value] in E. assert (Hv : (0 < leb_value (i ++ [f]))%N).
      { specialize (Hz ltac:(discriminate)). clear - Hz Hf. induction i as [|d i IH]; cbn [app leb_value]; lia. }
      lia.
    + cbn [app leb_value] in E |- *. inversion Hi; inversion Hi'; subst.
      pose proof (N.mod_lt (bN c) 128 ltac:(lia)). pose proof (N.mod_lt (bN c') 128 ltac:(lia)).
      f_equal.
      * apply bN_inj. pose proof (bN_bound c). pose proof (bN_bound c').
        assert (bN c mod 128 = bN c - 128)%N by (symmetry; apply (N.mod_unique _ _ 1); lia).
        assert (bN c' mod 128 = bN c' - 128)%N by (symmetry; apply (N.mod_unique _ _ 1); lia). lia.
      * eapply (IH _ _ i' f f' eq_refl eq_refl); try assumption.
        -- intros _. apply Hz. discriminate.
        -- intros _. apply Hz'. discriminate.
        -- lia.
Qed.

Lemma leb_value_bound s : (leb_value s < 128 ^ N.of_nat (length s))%N.
Proof.
  induction s as [|c s IH]; [reflexivity|]. cbn [leb_value length]. rewrite Nat2N.inj_succ, N.pow_succ_r'.
  pose proof (N.mod_lt (bN c) 128 ltac:(lia)). lia.
Qed.

Lemma leb128_short_inj s s' n : leb128 s n -> leb128 s' n -> (length s <= 9)%nat -> (length s' <= 9)%nat -> s = s'.
Proof.
  intros (i & f & E & _ & Hi & Hf & Hz & Hn) (i' & f' & E' & _ & Hi' & Hf' & Hz' & Hn') Hl Hl'.
  assert (B : forall x, (length x <= 9)%nat -> (leb_value x < 18446744073709551616)%N).
  { intros x Hx. eapply N.lt_le_trans; [apply leb_value_bound|].
    apply N.le_trans with (128 ^ 9)%N; [apply N.pow_le_mono_r; lia | vm_compute; discriminate]. }
  rewrite N.mod_small in Hn, Hn' by (apply B; assumption).
  eapply (leb_value_inj s s' i i' f f'); try eassumption. congruence.
Qed.

(* ------------------------------------------------------------------ signatures *)

Lemma jwt_code_ok a : varsig_code (varsig_of_alg a) = jwt_code a.
Proof. destruct a; reflexivity. Qed.
Lemma jwt_code_word a : word (jwt_code a).
Proof. destruct a; unfold word; cbn; lia. Qed.

Lemma alg_code_ok n a : (let? v := varsig_of_code n in alg_of_varsig v) = Ok a <-> n = jwt_code a.
Proof.
  unfold varsig_of_code. split.
  - repeat match goal with |- context[(n =? ?k)%N] => destruct (N.eqb_spec n k) as [->|_]; [cbn; intros H; try discriminate; injection H as <-; reflexivity|] end.
    cbn. discriminate.
  - intros ->. destruct a; reflexivity.
Qed.

Lemma alg_code_no_panic n p : (let? v := varsig_of_code n in alg_of_varsig v) <> Panic p.
Proof.
  unfold varsig_of_code.
  repeat match goal with |- context[(n =? ?k)%N] => destruct (n =? k)%N; [discriminate|] end. discriminate.
Qed.

Lemma signature_decode_eq s : signature_decode s =
  let? (prefix, buffer) := ok_or (varint_decode s) EVarint in
  let? (len, buffer) := ok_or (varint_decode buffer) EVarint in
  let? a := (let? v := varsig_of_code prefix in alg_of_varsig v) in
  if (len <=? N.of_nat (length buffer))%N then Ok (a, firstn (N.to_nat len) buffer) else Panic PVarsigSlice.
Proof.
  unfold signature_decode. destruct (varint_decode s) as [[pre buf]|]; [|reflexivity]. cbn [ok_or rbind].
  destruct (varint_decode buf) as [[len buf']|]; [|reflexivity]. cbn [ok_or rbind].
  destruct (varsig_of_code pre); reflexivity.
Qed.

Lemma signature_decode_ok s a sig : signature_decode s = Ok (a, sig) <->
  exists c l rest, s = c ++ l ++ sig ++ rest /\ leb128 c (jwt_code a) /\ leb128 l (N.of_nat (length sig)).
Proof.
  rewrite signature_decode_eq. split.
  - destruct (varint_decode s) as [[pre buf]|] eqn:E1; [|discriminate]. cbn [ok_or rbind].
    destruct (varint_decode buf) as [[len buf']|] eqn:E2; [|discriminate]. cbn [ok_or rbind].
    destruct (let? v := varsig_of_code pre in alg_of_varsig v) as [a'| | |] eqn:E3; try discriminate. cbn [rbind].
    destruct (N.leb_spec len (N.of_nat (length buf'))) as [Hl|]; [|discriminate]. intros [= -> <-].
    apply alg_code_ok in E3 as ->. apply varint_decode_iff in E1 as (c & -> & Hc). apply varint_decode_iff in E2 as (l & -> & Hl').
    exists c, l, (skipn (N.to_nat len) buf'). rewrite firstn_skipn. split; [reflexivity|]. split; [exact Hc|].
    rewrite firstn_length, Nat.min_l by lia. rewrite N2Nat.id. exact Hl'.
  - intros (c & l & rest & -> & Hc & Hl).
    assert (E1 : varint_decode (c ++ l ++ sig ++ rest) = Some (jwt_code a, l ++ sig ++ rest)) by (apply varint_decode_iff; eauto).
    assert (E2 : varint_decode (l ++ sig ++ rest) = Some (N.of_nat (length sig), sig ++ rest)) by (apply varint_decode_iff; eauto).
    rewrite E1. cbn [ok_or rbind]. rewrite E2. cbn [ok_or rbind].
    rewrite (proj2 (alg_code_ok (jwt_code a) a) eq_refl). cbn [rbind].
    rewrite app_length. replace (N.of_nat (length sig) <=? N.of_nat (length sig + length rest))%N with true
      by (symmetry; apply N.leb_le; lia).
    rewrite Nat2N.id, firstn_app, firstn_all, Nat.sub_diag. cbn [firstn]. rewrite app_nil_r. reflexivity.
Qed.

Lemma signature_decode_panic s p : signature_decode s = Panic p <->
  p = PVarsigSlice /\ exists c l rest a n, s = c ++ l ++ rest /\ leb128 c (jwt_code a) /\ leb128 l n /\ (N.of_nat (length rest) < n)%N.
Proof.
  rewrite signature_decode_eq. split.
  - destruct (varint_decode s) as [[pre buf]|] eqn:E1; [|discriminate]. cbn [ok_or rbind].
    destruct (varint_decode buf) as [[len buf']|] eqn:E2; [|discriminate]. cbn [ok_or rbind].
    destruct (let? v := varsig_of_code pre in alg_of_varsig v) as [a'| |q|] eqn:E3; try discriminate; cbn [rbind].
    + destruct (N.leb_spec len (N.of_nat (length buf'))) as [Hl|Hl]; [discriminate|]. intros [= <-]. split; [reflexivity|].
      apply alg_code_ok in E3 as ->. apply varint_decode_iff in E1 as (c & -> & Hc). apply varint_decode_iff in E2 as (l & -> & Hl').
      exists c, l, buf', a', len. auto.
    + destruct (alg_code_no_panic pre q E3).
  - intros (-> & c & l & rest & a & n & -> & Hc & Hl & Hlt).
    assert (E1 : varint_decode (c ++ l ++ rest) = Some (jwt_code a, l ++ rest)) by (apply varint_decode_iff; eauto).
    assert (E2 : varint_decode (l ++ rest) = Some (n, rest)) by (apply varint_decode_iff; eauto).
    rewrite E1. cbn [ok_or rbind]. rewrite E2. cbn [ok_or rbind].
    rewrite (proj2 (alg_code_ok (jwt_code a) a) eq_refl). cbn [rbind].
    replace (n <=? N.of_nat (length rest))%N with false by (symmetry; apply N.leb_gt; exact Hlt). reflexivity.
Qed.

Lemma signature_roundtrip a sig rest : word (N.of_nat (length sig)) -> signature_decode (signature_encode a sig ++ rest) = Ok (a, sig).
Proof.
  intros H. apply signature_decode_ok. unfold signature_encode. rewrite jwt_code_ok.
  exists (varint_encode (jwt_code a)), (varint_encode (N.of_nat (length sig))), rest.
  rewrite <- !app_assoc. split; [reflexivity|]. split; apply varint_encode_leb; [apply jwt_code_word | exact H].
Qed.

Lemma signature_roundtrip_exact a sig : word (N.of_nat (length sig)) -> signature_decode (signature_encode a sig) = Ok (a, sig).
Proof. intros H. rewrite <- (app_nil_r (signature_encode a sig)). apply signature_roundtrip. exact H. Qed.

Lemma signature_encode_inj a sig a' sig' : word (N.of_nat (length sig)) -> word (N.of_nat (length sig')) ->
  signature_encode a sig = signature_encode a' sig' -> a = a' /\ sig = sig'.
Proof.
  intros H H' E. pose proof (signature_roundtrip_exact a sig H) as R. rewrite E, (signature_roundtrip_exact a' sig' H') in R.
  injection R as -> ->. auto.
Qed.

Lemma signature_layout a sig : word (N.of_nat (length sig)) ->
  exists c l, signature_encode a sig = c ++ l ++ sig /\ leb128 c (jwt_code a) /\ leb128 l (N.of_nat (length sig)).
Proof.
  intros H. unfold signature_encode. rewrite jwt_code_ok. eexists. eexists. split; [reflexivity|].
  split; apply varint_encode_leb; [apply jwt_code_word | exact H].
Qed.

Lemma signature_decode_terminates s : signature_decode s <> Diverged.
Proof.
  unfold signature_decode. destruct (varint_decode s) as [[pre buf]|]; [|discriminate]. cbn [ok_or rbind].
  destruct (varint_decode buf) as [[len buf']|]; [|discriminate]. cbn [ok_or rbind].
  unfold varsig_of_code. repeat match goal with |- context[(pre =? ?k)%N] => destruct (pre =? k)%N; [cbn; try discriminate; destruct (_ <=? _)%N; discriminate|] end.
  discriminate.
Qed.

(** With varints of at most nine bytes only the bytes after the signature are free. *)
Lemma signature_canonical a sig c l rest : leb128 c (jwt_code a) -> leb128 l (N.of_nat (length sig)) ->
  (length c <= 9)%nat -> (length l <= 9)%nat -> c ++ l ++ sig ++ rest = signature_encode a sig ++ rest.
Proof.
  intros Hc Hl Sc Sl. unfold signature_encode. rewrite jwt_code_ok, <- !app_assoc.
  assert (Hb : (N.of_nat (length sig) < 2 ^ 63)%N).
  { destruct Hl as (i & f & E & _ & _ & _ & _ & ->). eapply N.le_lt_trans; [apply N.mod_le; lia|].
    eapply N.lt_le_trans; [apply leb_value_bound|]. change (2 ^ 63)%N with (128 ^ 9)%N. apply N.pow_le_mono_r; lia. }
  assert (Len : forall fuel n, (length (varint_encode_fuel fuel n) <= fuel)%nat).
  { induction fuel as [|f IH]; intros n; cbn [varint_encode_fuel length]; [lia|]. destruct (n <? 128)%N; cbn [length]; [lia|]. specialize (IH (n / 128)%N). lia. }
  assert (Short : forall f n, (n < 2 ^ (7 * N.of_nat f))%N -> (0 < f)%nat -> varint_encode_fuel (S f) n = varint_encode_fuel f n).
  { induction f as [|f IH]; intros n Hn Hf; [lia|]. cbn [varint_encode_fuel]. destruct (N.ltb_spec n 128); [reflexivity|]. f_equal.
    rewrite Nat2N.inj_succ in Hn. replace (7 * N.succ (N.of_nat f))%N with (7 * N.of_nat f + 7)%N in Hn by lia.
    rewrite N.pow_add_r in Hn. change (2 ^ 7)%N with 128%N in Hn.
    assert (f <> 0)%nat by (intros ->; change (2 ^ (7 * N.of_nat 0))%N with 1%N in Hn; lia).
    apply IH; [apply N.div_lt_upper_bound; lia | lia]. }
  assert (L9 : forall n, (n < 2 ^ 63)%N -> (length (varint_encode n) <= 9)%nat).
  { intros n Hn. unfold varint_encode. rewrite (Short 9%nat n); [apply Len | exact Hn | lia]. }
  rewrite (leb128_short_inj c (varint_encode (jwt_code a)) (jwt_code a) Hc (varint_encode_leb _ (jwt_code_word a)) Sc).
  2: { apply L9. destruct a; reflexivity. }
  rewrite (leb128_short_inj l (varint_encode (N.of_nat (length sig))) _ Hl (varint_encode_leb _ (leb128_word _ _ Hl)) Sl (L9 _ Hb)).
  reflexivity.
Qed.

(* ------------------------------------------------------------------ principals *)

Lemma principle_of_key b : principle_of_string (did_key_text b) = Ok b.
Proof.
  unfold principle_of_string, did_key_text. change (B "did:key:z") with did_key_prefix. rewrite strip_prefix_app, b58_roundtrip. reflexivity.
Qed.

Lemma principle_of_other r : (forall k, B "did:" ++ r <> B "did:key:z" ++ k) ->
  principle_of_string (B "did:" ++ r) = Ok (marker ++ r).
Proof.
  intros H. unfold principle_of_string. destruct (strip_prefix did_key_prefix (B "did:" ++ r)) as [k|] eqn:E.
  - apply strip_prefix_some in E. destruct (H k E).
  - change (B "did:") with did_prefix. rewrite strip_prefix_app. reflexivity.
Qed.

Lemma principle_of_ok s p : principle_of_string s = Ok p <->
  s = did_key_text p \/ exists r, s = B "did:" ++ r /\ (forall k, s <> B "did:key:z" ++ k) /\ p = marker ++ r.
Proof.
  split.
  - unfold principle_of_string. destruct (strip_prefix did_key_prefix s) as [r|] eqn:E.
    + apply strip_prefix_some in E as ->. destruct (b58_decode r) as [b|] eqn:Eb; [|discriminate]. intros [= ->].
      apply b58_decode_iff in Eb as ->. left. reflexivity.
    + destruct (strip_prefix did_prefix s) as [r|] eqn:E2; [|discriminate]. intros [= <-].
      apply strip_prefix_some in E2 as ->. right. exists r. split; [reflexivity|]. split; [|reflexivity].
      intros k Hk. change (B "did:key:z") with did_key_prefix in Hk. rewrite Hk, strip_prefix_app in E. discriminate.
  - intros [-> | (r & -> & H & ->)]; [apply principle_of_key | apply principle_of_other, H].
Qed.

Lemma principle_of_no_panic s p : principle_of_string s <> Panic p.
Proof.
  unfold principle_of_string. destruct (strip_prefix did_key_prefix s) as [r|].
  - destruct (b58_decode r); discriminate.
  - destruct (strip_prefix did_prefix s); discriminate.
Qed.

Lemma principle_to_string_ok p s : principle_to_string p = Ok s <->
  (exists b0 b1 r, p = b0 :: b1 :: r /\ [b0; b1] <> marker /\ s = did_key_text p) \/
  (exists r, p = marker ++ r /\ utf8_valid r = true /\ s = B "did:" ++ r).
Proof.
  destruct p as [|b0 [|b1 r]]; cbn [principle_to_string].
  - split; [discriminate|]. intros [(? & ? & ? & E & _)|(? & E & _)]; discriminate.
  - split; [discriminate|]. intros [(? & ? & ? & E & _)|(? & E & _)]; discriminate.
  - change did_ipld_prefix with marker. destruct (bytes_eqb [b0; b1] marker) eqn:E.
    + apply bytes_eqb_eq in E. pose proof E as E'. injection E' as -> ->. destruct (utf8_valid r) eqn:U.
      * split.
        -- intros [= <-]. right. exists r. auto.
        -- intros [(? & ? & ? & H & Hm & _)|(r' & H & _ & ->)].
           ++ injection H as <- <- _. destruct (Hm eq_refl).
           ++ injection H as <-. reflexivity.
      * split; [discriminate|]. intros [(? & ? & ? & H & Hm & _)|(r' & H & Hu & _)].
        -- injection H as <- <- _. destruct (Hm eq_refl).
        -- injection H as <-. congruence.
    + apply bytes_eqb_neq in E. split.
      * intros [= <-]. left. exists b0, b1, r. auto.
      * intros [(? & ? & ? & H & Hm & ->)|(r' & H & _)]; [reflexivity|]. injection H as -> -> _. destruct (E eq_refl).
Qed.

Lemma principle_to_string_panic p : (exists q, principle_to_string p = Panic q) <->
  (length p < 2)%nat \/ exists r, p = marker ++ r /\ utf8_valid r = false.
Proof.
  destruct p as [|b0 [|b1 r]]; cbn [principle_to_string].
  - split; [intros _; left; cbn; lia | intros _; eexists; reflexivity].
  - split; [intros _; left; cbn; lia | intros _; eexists; reflexivity].
  - change did_ipld_prefix with marker. destruct (bytes_eqb [b0; b1] marker) eqn:E.
    + apply bytes_eqb_eq in E. pose proof E as E'. injection E' as -> ->. destruct (utf8_valid r) eqn:U.
      * split; [intros [q H]; discriminate|]. intros [H|(r' & H & Hu)]; [cbn in H; lia|]. injection H as <-. congruence.
      * split; [intros _; right; exists r; auto | intros _; eexists; reflexivity].
    + apply bytes_eqb_neq in E. split; [intros [q H]; discriminate|].
      intros [H|(r' & H & Hu)]; [cbn in H; lia|]. injection H as -> -> _. destruct (E eq_refl).
Qed.

Lemma principle_roundtrip s : printable_did s -> (let? p := principle_of_string s in principle_to_string p) = Ok s.
Proof.
  intros [b0 b1 r Hm | r H Hu].
  - rewrite principle_of_key. cbn [rbind]. apply principle_to_string_ok. left. exists b0, b1, r. auto.
  - rewrite principle_of_other by exact H. cbn [rbind]. apply principle_to_string_ok. right. exists r. auto.
Qed.

Lemma of_digits_low b d l : (2 <= b)%N -> d <> 0%N -> (b ^ N.of_nat (length l) <= of_digits b (d :: l))%N.
Proof.
  intros Hb Hd. unfold of_digits. cbn [fold_left]. rewrite of_digits_acc.
  assert (b ^ N.of_nat (length l) <> 0)%N by (apply N.pow_nonzero; lia). nia.
Qed.

Lemma b58_length bs : (length bs <= length (b58_encode bs))%nat.
Proof.
  unfold b58_encode. destruct (span _ (map bN bs)) as [z r] eqn:E. apply span_zeros in E as [E Hr].
  rewrite map_length, app_length, repeat_length.
  apply (f_equal (@length N)) in E. rewrite map_length, app_length, repeat_length in E. rewrite E.
  destruct r as [|d r]; [cbn [length]; lia|].
  pose proof (of_digits_low 256 d r ltac:(lia) Hr) as Hlow.
  destruct (to_digits_canonical 58 ltac:(lia) (of_digits 256 (d :: r))) as [Hf _].
  pose proof (of_digits_bound 58 _ ltac:(lia) Hf) as Hup. rewrite to_digits_value in Hup by lia.
  set (m := length (to_digits 58 (of_digits 256 (d :: r)))) in *. cbn [length].
  assert (Hm : (58 ^ N.of_nat m <= 256 ^ N.of_nat m)%N) by (apply N.pow_le_mono_l; lia).
  assert (Hlt : (256 ^ N.of_nat (length r) < 256 ^ N.of_nat m)%N) by lia.
  apply N.pow_lt_mono_r_iff in Hlt; lia.
Qed.

(** These are the only strings that are printed back. *)
Lemma principle_roundtrip_iff s : (let? p := principle_of_string s in principle_to_string p) = Ok s <-> printable_did s.
Proof.
  split; [|apply principle_roundtrip].
  destruct (principle_of_string s) as [p| | |] eqn:E; try discriminate. cbn [rbind]. intros H.
  apply principle_of_ok in E as [-> | (r & -> & Hk & ->)].
  - apply principle_to_string_ok in H as [(b0 & b1 & r & -> & Hm & _) | (r & -> & Hu & E)].
    + constructor. exact Hm.
    + exfalso. apply (f_equal (@length byte)) in E. unfold did_key_text in E. rewrite !app_length in E.
      pose proof (b58_length (marker ++ r)) as Hl. rewrite app_length in Hl. cbn [length marker] in *.
      change (length (B "did:key:z")) with 9%nat in E. change (length (B "did:")) with 4%nat in E. lia.
  - apply principle_to_string_ok in H as [(b0 & b1 & r' & E & Hm & _) | (r' & E & Hu & _)].
    + injection E as <- <- _. destruct (Hm eq_refl).
    + injection E as <-. constructor; assumption.
Qed.

Lemma principle_printed_back_iff s : (exists p, principle_of_string s = Ok p /\ principle_to_string p = Ok s) <-> printable_did s.
Proof.
  rewrite <- principle_roundtrip_iff. split.
  - intros (p & -> & H). exact H.
  - destruct (principle_of_string s) as [p| | |]; try discriminate. intros H. exists p. auto.
Qed.

Lemma principle_printed_back s : printable_did s -> exists p, principle_of_string s = Ok p /\ principle_to_string p = Ok s.
Proof. apply principle_printed_back_iff. Qed.

Lemma principle_reads_back p s : principle_to_string p = Ok s -> (forall k, p <> marker ++ B "key:z" ++ k) -> principle_of_string s = Ok p.
Proof.
  intros H Hk. apply principle_to_string_ok in H as [(b0 & b1 & r & _ & _ & ->) | (r & -> & _ & ->)].
  - apply principle_of_key.
  - apply principle_of_other. intros k E. apply (Hk k). f_equal. change (B "did:key:z" ++ k) with (B "did:" ++ (B "key:z" ++ k)) in E.
    apply app_inv_head in E. exact E.
Qed.

Lemma principle_printable_inj s s' p : printable_did s -> printable_did s' ->
  principle_of_string s = Ok p -> principle_of_string s' = Ok p -> s = s'.
Proof.
  intros H H' E E'. apply principle_roundtrip in H, H'. rewrite E in H. rewrite E' in H'. cbn [rbind] in H, H'. congruence.
Qed.

Lemma utf8_did r : utf8_valid (B "did:" ++ r) = utf8_valid r.
Proof. reflexivity. Qed.

Lemma principle_did_panic s p : utf8_valid s = true -> principle_of_string s = Ok p ->
  ((exists q, principle_to_string p = Panic q) <->
   s = did_key_text p /\ ((length p < 2)%nat \/ exists r, p = marker ++ r /\ utf8_valid r = false)).
Proof.
  intros Hu E. rewrite principle_to_string_panic. split; [|tauto]. intros H. split; [|exact H].
  apply principle_of_ok in E as [E | (r & -> & _ & ->)]; [exact E|]. exfalso.
  destruct H as [H | (r' & H & Hu')]; [cbn in H; lia|]. injection H as <-. rewrite utf8_did in Hu. congruence.
Qed.

Lemma principle_collision s s' p : principle_of_string s = Ok p -> principle_of_string s' = Ok p -> s <> s' ->
  exists r, p = marker ++ r /\
    ((s = did_key_text p /\ s' = B "did:" ++ r) \/ (s' = did_key_text p /\ s = B "did:" ++ r)).
Proof.
  intros H H' Hne. apply principle_of_ok in H as [-> | (r & -> & _ & ->)]; apply principle_of_ok in H' as [-> | (r' & -> & _ & E)].
  - congruence.
  - subst p. exists r'. auto.
  - exists r. auto.
  - unfold marker in E. injection E as ->. congruence.
Qed.

(* ------------------------------------------------------------------- documents *)

Lemma alg_roundtrip a : alg_of_string (alg_to_string a) = Ok a.
Proof. destruct a; reflexivity. Qed.

Lemma parse_cids_texts X l : Forall (fun t => exists c, parse_cid X t = Some c /\ cid_to_string c = t) l ->
  exists cs, parse_cids X l = Ok cs /\ map cid_to_string cs = l /\ length cs = length l.
Proof.
  induction 1 as [|t l (c & Hc & Ht) _ (cs & E & Hm & Hl)]; [exists []; auto|].
  exists (c :: cs). cbn [parse_cids map length]. rewrite Hc. cbn [ok_or rbind]. rewrite E. cbn [rbind].
  rewrite Hm, Hl, Ht. auto.
Qed.

Lemma parse_cids_printed X l : forall cs, parse_cids X l = Ok cs -> map cid_to_string cs = l ->
  Forall (fun t => exists c, parse_cid X t = Some c /\ cid_to_string c = t) l.
Proof.
  induction l as [|t l IH]; intros cs; cbn [parse_cids]; [constructor|].
  destruct (parse_cid X t) as [c|] eqn:Ec; [|discriminate]. cbn [ok_or rbind].
  destruct (parse_cids X l) as [cs'| | |]; try discriminate. cbn [rbind]. intros [= <-]. cbn [map]. intros E. injection E as Et El.
  constructor; [exists c; auto | apply (IH cs' eq_refl El)].
Qed.

Definition lossless (X : ext) (u : ucan) : Prop :=
  (exists a, h_alg (u_header u) = alg_to_string a) /\ h_typ (u_header u) = B "JWT" /\
  p_ucv (u_payload u) = ucan_version /\ printable_did (p_iss (u_payload u)) /\ printable_did (p_aud (u_payload u)) /\
  opt_all (fun l => l <> [] /\ Forall (fun t => exists c, parse_cid X t = Some c /\ cid_to_string c = t) l) (p_prf (u_payload u)).

Lemma ipld_lossless X u : lossless X u -> word (N.of_nat (length (u_signature u))) ->
  exists i u', ucan_to_ipld X u = Ok i /\ ucan_of_ipld X i = Ok u' /\
  u_header u' = u_header u /\ u_payload u' = u_payload u /\ u_signature u' = u_signature u /\
  u_signed_data u' = signing_input X (u_header u) (u_payload u).
Proof.
  intros ([a Ha] & Ht & Hv & Hi & Hau & Hp) Hs.
  destruct (principle_printed_back _ Hi) as (pi & Ei & Ei'), (principle_printed_back _ Hau) as (pa & Ea & Ea').
  assert (Dp : exists o, (match p_prf (u_payload u) with
    | Some proofs => let? cs := parse_cids X proofs in Ok (match cs with [] => None | _ => Some cs end)
    | None => Ok None end) = Ok o /\ option_map (map cid_to_string) o = p_prf (u_payload u)).
  { destruct (p_prf (u_payload u)) as [l|]; [|exists None; auto]. destruct (Hp l eq_refl) as [Hne Hf].
    destruct (parse_cids_texts X l Hf) as (cs & E & Hm & Hl). exists (Some cs). rewrite E. cbn [rbind].
    destruct cs as [|c cs]; [destruct l; [contradiction | discriminate]|]. split; [reflexivity|]. cbn [option_map]. rewrite Hm. reflexivity. }
  destruct Dp as (o & Eo & Eo').
  unfold ucan_to_ipld, ucan_of_ipld. rewrite Eo. cbn [rbind]. rewrite Ei. cbn [rbind]. rewrite Ea. cbn [rbind].
  rewrite Ha, alg_roundtrip. cbn [rbind]. eexists. eexists. split; [reflexivity|].
  cbn [ui_v ui_iss ui_aud ui_s ui_cap ui_prf ui_exp ui_fct ui_nnc ui_nbf].
  rewrite (signature_roundtrip_exact a (u_signature u) Hs). cbn [rbind]. rewrite Ei'. cbn [rbind]. rewrite Ea'. cbn [rbind].
  split; [reflexivity|]. cbn [u_header u_payload u_signature u_signed_data]. rewrite Eo', <- Ha, <- Ht, <- Hv.
  destruct u as [[alg typ] [ucv iss aud exp nbf nnc cap fct prf] sd sig]. cbn [u_header u_payload u_signature u_signed_data h_alg h_typ p_ucv p_iss p_aud p_exp p_nbf p_nnc p_cap p_fct p_prf].
  repeat (split; [reflexivity|]). reflexivity.
Qed.

Lemma ipld_roundtrip X u : ipld_carried u -> exists i u', ucan_to_ipld X u = Ok i /\ ucan_of_ipld X i = Ok u' /\
  u_header u' = u_header u /\ u_payload u' = u_payload u /\ u_signature u' = u_signature u /\
  u_signed_data u' = signing_input X (u_header u) (u_payload u).
Proof.
  intros [Ha Ht Hv Hi Hau Hp Hs]. apply ipld_lossless; [|exact Hs]. repeat (split; [assumption|]).
  intros l El. destruct (Hp l El) as [Hne Hf]. split; [exact Hne|].
  eapply Forall_impl; [|exact Hf]. intros t (c & Hc & ->). exists c. split; [apply parse_cid_text, Hc | reflexivity].
Qed.

Lemma ipld_lossless_iff X u : word (N.of_nat (length (u_signature u))) ->
  ((exists i u', ucan_to_ipld X u = Ok i /\ ucan_of_ipld X i = Ok u' /\
     u_header u' = u_header u /\ u_payload u' = u_payload u) <-> lossless X u).
Proof.
  intros Hs. split.
  - intros (i & u' & Hi & Hu & Hh & Hp).
    assert (Hv : p_ucv (u_payload u') = ucan_version).
    { revert Hu. unfold ucan_of_ipld. destruct (signature_decode (ui_s i)) as [[a sig]| | |]; try discriminate. cbn [rbind].
      destruct (principle_to_string (ui_iss i)) as [iss| | |]; try discriminate. cbn [rbind].
      destruct (principle_to_string (ui_aud i)) as [aud| | |]; try discriminate. cbn [rbind].
      intros H. pose proof (f_equal (fun r => match r with Ok w => p_ucv (u_payload w) | _ => [] end) H) as E. cbn [u_payload p_ucv] in E. symmetry. exact E. }
    revert Hi Hu. unfold ucan_to_ipld.
    destruct (p_prf (u_payload u)) as [l|] eqn:El.
    + destruct (parse_cids X l) as [cs| | |] eqn:Ecs; try discriminate. cbn [rbind].
      destruct (principle_of_string (p_iss (u_payload u))) as [iss| | |] eqn:Ei; try discriminate. cbn [rbind].
      destruct (principle_of_string (p_aud (u_payload u))) as [aud| | |] eqn:Ea; try discriminate. cbn [rbind].
      destruct (alg_of_string (h_alg (u_header u))) as [a| | |] eqn:Eal; try discriminate. cbn [rbind]. intros [= <-].
      unfold ucan_of_ipld. cbn [ui_v ui_iss ui_aud ui_s ui_cap ui_prf ui_exp ui_fct ui_nnc ui_nbf].
      rewrite (signature_roundtrip_exact a (u_signature u) Hs). cbn [rbind].
      destruct (principle_to_string iss) as [iss'| | |] eqn:Ei'; try discriminate. cbn [rbind].
      destruct (principle_to_string aud) as [aud'| | |] eqn:Ea'; try discriminate. cbn [rbind]. intros H.
      assert (Hu : u' = mkUcan (mkHeader (alg_to_string a) (B "JWT")) (u_payload u') (u_signed_data u') (u_signature u')) .
      { pose proof (f_equal (fun r => match r with Ok w => u_header w | _ => u_header u' end) H) as E. cbn [u_header] in E. rewrite E. destruct u'. reflexivity. }
      pose proof (f_equal (fun r => match r with Ok w => p_iss (u_payload w) | _ => [] end) H) as Hii. cbn [u_payload p_iss] in Hii.
      pose proof (f_equal (fun r => match r with Ok w => p_aud (u_payload w) | _ => [] end) H) as Haa. cbn [u_payload p_aud] in Haa.
      pose proof (f_equal (fun r => match r with Ok w => p_prf (u_payload w) | _ => None end) H) as Hpp. cbn [u_payload p_prf] in Hpp.
      clear H. rewrite Hu in Hh. cbn [u_header] in Hh. rewrite Hp in Hii, Haa, Hpp, Hv.
      split; [exists a; rewrite <- Hh; reflexivity|]. split; [rewrite <- Hh; reflexivity|]. split; [exact Hv|].
      split; [apply principle_printed_back_iff; exists iss; rewrite <- Hii; subst; auto|].
      split; [apply principle_printed_back_iff; exists aud; rewrite <- Haa; subst; auto|].
      intros l' El'. rewrite El in Hpp, El'. apply (f_equal (fun o => match o with Some x => x | None => [] end)) in El'. cbv beta iota in El'. subst l'. destruct cs as [|c cs]; [discriminate|]. cbn [option_map] in Hpp.
      pose proof (f_equal (fun o => match o with Some x => x | None => [] end) Hpp) as Hm. cbv beta iota in Hm.
      split; [rewrite <- Hm; discriminate|]. apply (parse_cids_printed X l (c :: cs) Ecs Hm).
    + cbn [rbind].
      destruct (principle_of_string (p_iss (u_payload u))) as [iss| | |] eqn:Ei; try discriminate. cbn [rbind].
      destruct (principle_of_string (p_aud (u_payload u))) as [aud| | |] eqn:Ea; try discriminate. cbn [rbind].
      destruct (alg_of_string (h_alg (u_header u))) as [a| | |] eqn:Eal; try discriminate. cbn [rbind]. intros [= <-].
      unfold ucan_of_ipld. cbn [ui_v ui_iss ui_aud ui_s ui_cap ui_prf ui_exp ui_fct ui_nnc ui_nbf].
      rewrite (signature_roundtrip_exact a (u_signature u) Hs). cbn [rbind].
      destruct (principle_to_string iss) as [iss'| | |] eqn:Ei'; try discriminate. cbn [rbind].
      destruct (principle_to_string aud) as [aud'| | |] eqn:Ea'; try discriminate. cbn [rbind]. intros H.
      assert (Hu : u' = mkUcan (mkHeader (alg_to_string a) (B "JWT")) (u_payload u') (u_signed_data u') (u_signature u')) .
      { pose proof (f_equal (fun r => match r with Ok w => u_header w | _ => u_header u' end) H) as E. cbn [u_header] in E. rewrite E. destruct u'. reflexivity. }
      pose proof (f_equal (fun r => match r with Ok w => p_iss (u_payload w) | _ => [] end) H) as Hii. cbn [u_payload p_iss] in Hii.
      pose proof (f_equal (fun r => match r with Ok w => p_aud (u_payload w) | _ => [] end) H) as Haa. cbn [u_payload p_aud] in Haa.
      clear H. rewrite Hu in Hh. cbn [u_header] in Hh. rewrite Hp in Hii, Haa, Hv.
      split; [exists a; rewrite <- Hh; reflexivity|]. split; [rewrite <- Hh; reflexivity|]. split; [exact Hv|].
      split; [apply principle_printed_back_iff; exists iss; rewrite <- Hii; subst; auto|].
      split; [apply principle_printed_back_iff; exists aud; rewrite <- Haa; subst; auto|].
      intros l' El'. rewrite El in El'. discriminate.
  - intros H. destruct (ipld_lossless X u H Hs) as (i & u' & H1 & H2 & H3 & H4 & _). exists i, u'. auto.
Qed.

Lemma ipld_reencodes X u i u' : ipld_carried u -> ucan_to_ipld X u = Ok i -> ucan_of_ipld X i = Ok u' -> encode X u' = encode X u.
Proof.
  intros H Hi Hu. destruct (ipld_roundtrip X u H) as (i0 & u0 & Hi0 & Hu0 & Hh & Hp & Hs & _).
  assert (i0 = i) by congruence. subst i0. assert (u0 = u') by congruence. subst u0.
  unfold encode. rewrite Hh, Hp, Hs. reflexivity.
Qed.

Lemma ipld_verifies X u i u' k : ipld_carried u -> u_signed_data u = signing_input X (u_header u) (u_payload u) ->
  ucan_to_ipld X u = Ok i -> ucan_of_ipld X i = Ok u' ->
  key_verify k (u_signed_data u') (u_signature u') = key_verify k (u_signed_data u) (u_signature u) /\ u' = u.
Proof.
  intros H Hd Hi Hu. destruct (ipld_roundtrip X u H) as (i0 & u0 & Hi0 & Hu0 & Hh & Hp & Hs & Hsd).
  assert (i0 = i) by congruence. subst i0. assert (u0 = u') by congruence. subst u0.
  assert (E : u' = u).
  { destruct u as [h p d g], u' as [h' p' d' g']. cbn [u_header u_payload u_signature u_signed_data] in *. subst. reflexivity. }
  subst u'. auto.
Qed.

Lemma of_ipld_version X i u : ucan_of_ipld X i = Ok u -> p_ucv (u_payload u) = ucan_version.
Proof.
  unfold ucan_of_ipld. destruct (signature_decode (ui_s i)) as [[a sig]| | |]; try discriminate. cbn [rbind].
  destruct (principle_to_string (ui_iss i)) as [iss| | |]; try discriminate. cbn [rbind].
  destruct (principle_to_string (ui_aud i)) as [aud| | |]; try discriminate. cbn [rbind].
  intros H. pose proof (f_equal (fun r => match r with Ok w => p_ucv (u_payload w) | _ => [] end) H) as E. cbn [u_payload p_ucv] in E. symmetry. exact E.
Qed.

Lemma to_ipld_version X u i : ucan_to_ipld X u = Ok i -> ui_v i = p_ucv (u_payload u).
Proof.
  unfold ucan_to_ipld.
  destruct (match p_prf (u_payload u) with Some _ => _ | None => _ end) as [o| | |]; try discriminate. cbn [rbind].
  destruct (principle_of_string (p_iss (u_payload u))) as [iss| | |]; try discriminate. cbn [rbind].
  destruct (principle_of_string (p_aud (u_payload u))) as [aud| | |]; try discriminate. cbn [rbind].
  destruct (alg_of_string (h_alg (u_header u))) as [a| | |]; try discriminate. cbn [rbind]. intros [= <-]. reflexivity.
Qed.

Lemma version_preserved_iff X u i u' : ucan_to_ipld X u = Ok i -> ucan_of_ipld X i = Ok u' ->
  p_ucv (u_payload u') = p_ucv (u_payload u) <-> p_ucv (u_payload u) = ucan_version.
Proof. intros _ H. rewrite (of_ipld_version _ _ _ H). split; congruence. Qed.
