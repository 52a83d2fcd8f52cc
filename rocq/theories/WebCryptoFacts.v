(** Facts about WebCrypto keys (C94-C96). *)
From Verif Require Import Prelude Ord SMap Base58 Value Key Ipld KeySupport WebCrypto Ucan Builder Spec SpecWebCrypto OrdFacts DidFacts SignFacts.

Lemma convert_spki_iff s b : convert_spki_to_rsa_public_key s = Ok b <-> exists h, s = h ++ b /\ length h = 24%nat.
Proof.
  unfold convert_spki_to_rsa_public_key. destruct (length s <? 24)%nat eqn:E.
  - apply Nat.ltb_lt in E. split; [discriminate|]. intros (h & -> & Hh). rewrite app_length in E. lia.
  - apply Nat.ltb_ge in E. split.
    + intros [= <-]. exists (firstn 24 s). split; [symmetry; apply firstn_skipn | apply firstn_length_le, E].
    + intros (h & -> & Hh). rewrite <- Hh, skipn_app, skipn_all, Nat.sub_diag. reflexivity.
Qed.

Lemma convert_spki_panic s p : convert_spki_to_rsa_public_key s = Panic p <-> p = PSpkiSlice /\ (length s < 24)%nat.
Proof.
  unfold convert_spki_to_rsa_public_key. destruct (length s <? 24)%nat eqn:E.
  - apply Nat.ltb_lt in E. split; [intros [= <-]; auto | intros [-> _]; reflexivity].
  - apply Nat.ltb_ge in E. split; [discriminate | lia].
Qed.

Lemma convert_spki_total s : (exists b, convert_spki_to_rsa_public_key s = Ok b) \/ convert_spki_to_rsa_public_key s = Panic PSpkiSlice.
Proof. unfold convert_spki_to_rsa_public_key. destruct (length s <? 24)%nat; eauto. Qed.

(* --------------------------------------------------------------- DER lengths *)

Lemma der_length_short n : (n < 128)%N -> der_length n = [byteN n].
Proof. intros Hn. unfold der_length. destruct (N.ltb_spec n 128); [reflexivity | lia]. Qed.
Lemma der_length_81 n : (128 <= n < 256)%N -> der_length n = [x81; byteN n].
Proof. intros Hn. unfold der_length. destruct (N.ltb_spec n 128), (N.ltb_spec n 256); try lia; reflexivity. Qed.
Lemma der_length_82 n : (256 <= n < 65536)%N -> der_length n = [x82; byteN (n / 256); byteN n].
Proof. intros Hn. unfold der_length. destruct (N.ltb_spec n 128), (N.ltb_spec n 256), (N.ltb_spec n 65536); try lia; reflexivity. Qed.
Lemma der_length_83 n : (65536 <= n)%N -> der_length n = [x83; byteN (n / 65536); byteN (n / 256); byteN n].
Proof. intros Hn. unfold der_length. destruct (N.ltb_spec n 128), (N.ltb_spec n 256), (N.ltb_spec n 65536); try lia; reflexivity. Qed.

Lemma der_length_size n : (length (der_length n) <= 4)%nat /\ (1 <= length (der_length n))%nat.
Proof. unfold der_length. destruct (n <? 128)%N, (n <? 256)%N, (n <? 65536)%N; cbn [length]; lia. Qed.

Definition spki_header (n : nat) : bytes :=
  let inner := der_length (N.of_nat (n + 1)) in
  [x30] ++ der_length (N.of_nat (17 + length inner + n)) ++ rsa_identifier ++ [x03] ++ inner ++ [x00].

Lemma spki_split b : spki b = spki_header (length b) ++ b.
Proof.
  unfold spki, spki_header, der. rewrite <- !app_assoc. cbn [app length].
  replace (S (length b)) with (length b + 1)%nat by lia. f_equal. f_equal. f_equal.
  unfold rsa_identifier. cbn [app length]. rewrite !app_length. cbn [length]. lia.
Qed.

(** The header by the size of the key's own encoding. *)
Lemma header_11 n : (n < 110)%nat -> length (spki_header n) = 20%nat.
Proof.
  intros Hn. unfold spki_header. rewrite (der_length_short (N.of_nat (n + 1))) by lia. cbn [length].
  rewrite der_length_short by lia. reflexivity.
Qed.
Lemma header_21 n : (110 <= n < 127)%nat -> length (spki_header n) = 21%nat.
Proof.
  intros Hn. unfold spki_header. rewrite (der_length_short (N.of_nat (n + 1))) by lia. cbn [length].
  rewrite der_length_81 by lia. reflexivity.
Qed.
Lemma header_22 n : (127 <= n < 237)%nat -> length (spki_header n) = 22%nat.
Proof.
  intros Hn. unfold spki_header. rewrite (der_length_81 (N.of_nat (n + 1))) by lia. cbn [length].
  rewrite der_length_81 by lia. reflexivity.
Qed.
Lemma header_32 n : (237 <= n < 255)%nat -> length (spki_header n) = 23%nat.
Proof.
  intros Hn. unfold spki_header. rewrite (der_length_81 (N.of_nat (n + 1))) by lia. cbn [length].
  rewrite der_length_82 by lia. reflexivity.
Qed.
Lemma header_33 n : (255 <= N.of_nat n <= 65515)%N -> length (spki_header n) = 24%nat.
Proof.
  intros Hn. unfold spki_header. rewrite (der_length_82 (N.of_nat (n + 1))) by lia. cbn [length].
  rewrite der_length_82 by lia. reflexivity.
Qed.
Lemma header_43 n : (65516 <= N.of_nat n < 65535)%N -> exists h, spki_header n = h ++ [x00] /\ length h = 24%nat.
Proof.
  intros Hn. unfold spki_header. rewrite (der_length_82 (N.of_nat (n + 1))) by lia. cbn [length].
  rewrite der_length_83 by lia. eexists (_ :: _ :: _ :: _ :: _ :: rsa_identifier ++ [_; _; _; _]). split; reflexivity.
Qed.
Lemma header_44 n : (65535 <= N.of_nat n)%N -> exists h x, spki_header n = h ++ [x; x00] /\ length h = 24%nat.
Proof.
  intros Hn. unfold spki_header. rewrite (der_length_83 (N.of_nat (n + 1))) by lia. cbn [length].
  rewrite der_length_83 by lia. eexists (_ :: _ :: _ :: _ :: _ :: rsa_identifier ++ [_; _; _; _]), _. split; reflexivity.
Qed.

Lemma convert_header h b : length h = 24%nat -> convert_spki_to_rsa_public_key (h ++ b) = Ok b.
Proof. intros Hh. apply convert_spki_iff. exists h. auto. Qed.

Lemma convert_in_range b : (255 <= N.of_nat (length b) <= 65515)%N -> convert_spki_to_rsa_public_key (spki b) = Ok b.
Proof. intros Hb. rewrite spki_split. apply convert_header, header_33, Hb. Qed.

(** Outside the range the slice is not the key. *)
Lemma convert_out_of_range b : ~ (255 <= N.of_nat (length b) <= 65515)%N -> convert_spki_to_rsa_public_key (spki b) <> Ok b.
Proof.
  intros Hb E. apply convert_spki_iff in E as (h & E & Hh). rewrite spki_split in E. apply app_inv_tail in E. subst h. apply Hb. clear Hb.
  destruct (Nat.lt_ge_cases (length b) 110) as [H1|H1]; [rewrite header_11 in Hh by lia; lia|].
  destruct (Nat.lt_ge_cases (length b) 127) as [H2|H2]; [rewrite header_21 in Hh by lia; lia|].
  destruct (Nat.lt_ge_cases (length b) 237) as [H3|H3]; [rewrite header_22 in Hh by lia; lia|].
  destruct (Nat.lt_ge_cases (length b) 255) as [H4|H4]; [rewrite header_32 in Hh by lia; lia|].
  destruct (N.le_gt_cases (N.of_nat (length b)) 65515) as [H5|H5]; [lia|].
  destruct (N.lt_ge_cases (N.of_nat (length b)) 65535) as [H6|H6].
  - destruct (header_43 (length b)) as (h & E & Hl); [lia|]. rewrite E, app_length in Hh. cbn [length] in Hh. lia.
  - destruct (header_44 (length b)) as (h & x & E & Hl); [lia|]. rewrite E, app_length in Hh. cbn [length] in Hh. lia.
Qed.

(** A slice too far to the left or to the right is no DER sequence. *)
Lemma der_integer_first body : (127 <= length (der x30 ([x02] ++ body)))%nat ->
  (length (der x30 ([x02] ++ body)) < 255)%nat ->
  exists tl, der x30 ([x02] ++ body) = [x30; byteN (N.of_nat (length body) + 1); x02] ++ tl /\ length tl = length body /\ (N.of_nat (length body) + 1 < 128)%N \/
             der x30 ([x02] ++ body) = [x30; x81; byteN (N.of_nat (length body) + 1); x02] ++ tl /\ (128 <= N.of_nat (length body) + 1 < 256)%N.
Proof.
  unfold der. rewrite !app_length. cbn [length]. replace (N.of_nat (1 + length body)) with (N.of_nat (length body) + 1)%N by lia.
  intros H1 H2. exists body. destruct (N.lt_ge_cases (N.of_nat (length body) + 1) 128) as [H|H].
  - left. rewrite der_length_short by lia. auto.
  - right. pose proof (der_length_size (N.of_nat (length body) + 1)). rewrite der_length_81 by lia. split; [reflexivity | lia].
Qed.

Lemma der_first tag body : exists tl, der tag body = tag :: tl.
Proof. unfold der. eexists. reflexivity. Qed.

Lemma der_zero b body : b <> [] -> [x30; x00] ++ b <> der x30 body.
Proof.
  intros Hb E. unfold der in E. cbn [app] in E. injection E as E.
  destruct (N.lt_ge_cases (N.of_nat (length body)) 128) as [H|H].
  - rewrite der_length_short in E by lia. cbn [app] in E. injection E as E1 E2. apply (f_equal bN) in E1.
    rewrite bN_byteN_small in E1 by lia. change (bN x00) with 0%N in E1. destruct body; [auto | cbn [length] in E1; lia].
  - unfold der_length in E. destruct (N.ltb_spec (N.of_nat (length body)) 128); [lia|].
    destruct (_ <? _)%N; [discriminate|]. destruct (_ <? _)%N; discriminate.
Qed.

Lemma convert_no_der b body0 : b = der x30 ([x02] ++ body0) -> (127 <= length b)%nat -> ~ (255 <= N.of_nat (length b) <= 65515)%N ->
  exists b', convert_spki_to_rsa_public_key (spki b) = Ok b' /\ forall body, b' <> der x30 body.
Proof.
  intros Eb H1 Hr. destruct (Nat.lt_ge_cases (length b) 255) as [H4|H4].
  - rewrite Eb in H1, H4. destruct (der_integer_first body0 H1 H4) as [tl Et]. rewrite <- Eb in *.
    rewrite spki_split.
    destruct (Nat.lt_ge_cases (length b) 237) as [H3|H3].
    + pose proof (header_22 (length b) ltac:(lia)) as Hh.
      destruct Et as [(Et & Hl & Hs)|[Et Hl]]; set (hd := spki_header (length b)) in *; clearbody hd; rewrite Et; cbn [app].
      * exists (x02 :: tl). split.
        -- apply convert_spki_iff. exists (hd ++ [x30; byteN (N.of_nat (length body0) + 1)]).
           split; [rewrite <- app_assoc; reflexivity | rewrite app_length, Hh; reflexivity].
        -- intros body E. destruct (der_first x30 body) as [? E']. rewrite E' in E. discriminate.
      * exists (byteN (N.of_nat (length body0) + 1) :: x02 :: tl). split.
        -- apply convert_spki_iff. exists (hd ++ [x30; x81]).
           split; [rewrite <- app_assoc; reflexivity | rewrite app_length, Hh; reflexivity].
        -- intros body E. destruct (der_first x30 body) as [? E']. rewrite E' in E. injection E as E _.
           apply (f_equal bN) in E. rewrite bN_byteN_small in E by lia. change (bN x30) with 48%N in E. lia.
    + pose proof (header_32 (length b) ltac:(lia)) as Hh.
      destruct Et as [(Et & Hl & Hs)|[Et Hl]]; set (hd := spki_header (length b)) in *; clearbody hd; rewrite Et; cbn [app].
      * exists (byteN (N.of_nat (length body0) + 1) :: x02 :: tl). exfalso.
        apply (f_equal (@length byte)) in Et. cbn [length app] in Et. lia.
      * exists (x81 :: byteN (N.of_nat (length body0) + 1) :: x02 :: tl). split.
        -- apply convert_spki_iff. exists (hd ++ [x30]).
           split; [rewrite <- app_assoc; reflexivity | rewrite app_length, Hh; reflexivity].
        -- intros body E. destruct (der_first x30 body) as [? E']. rewrite E' in E. discriminate.
  - destruct (N.lt_ge_cases (N.of_nat (length b)) 65535) as [H6|H6]; rewrite spki_split.
    + destruct (header_43 (length b)) as (h & -> & Hl); [lia|]. exists (x00 :: b). split.
      * rewrite <- app_assoc. apply convert_header, Hl.
      * intros body E. destruct (der_first x30 body) as [? E']. rewrite E' in E. discriminate.
    + destruct (header_44 (length b)) as (h & x & -> & Hl); [lia|]. exists ([x; x00] ++ b). split.
      * rewrite <- app_assoc. apply convert_header, Hl.
      * intros body E. assert (x = x30) as ->.
        { destruct (der_first x30 body) as [? E']. rewrite E' in E. cbn [app] in E. congruence. }
        apply (der_zero b body); [intros ->; cbn [length] in H4; lia | exact E].
Qed.

(* ----------------------------------------------------------------------- DIDs *)

Section Facts.
  Context {Pub Priv WPub WPriv : Type} (C : crypto Pub Priv) (W : browser WPub WPriv) (sha256 : bytes -> bytes).

  Lemma web_did_ok wk did : web_did C W sha256 wk = Ok did <->
    w_subtle W = Ok tt /\ exists s b pk, w_export W wk = Some s /\ convert_spki_to_rsa_public_key s = Ok b /\
      cr_decode C b = Some pk /\ key_did (rsa_key C sha256 pk None) = Ok did.
  Proof.
    unfold web_did. destruct (w_subtle W) as [[]| | |]; cbn [rbind]; try (split; [discriminate | intros [[=] _]]).
    destruct (w_export W wk) as [s|]; [|split; [discriminate | intros (_ & s & b & pk & [=] & _)]].
    destruct (convert_spki_to_rsa_public_key s) as [b| | |] eqn:Ec; cbn [rbind].
    2-4: split; [discriminate | intros (_ & s' & b & pk & [= <-] & Ec' & _); rewrite Ec in Ec'; discriminate].
    destruct (cr_decode C b) as [pk|] eqn:Ed; cbn [ok_or rbind].
    - split; [intros Hk; split; [reflexivity|]; exists s, b, pk; auto|].
      intros (_ & s' & b' & pk' & [= <-] & Ec' & Ed' & Hk). rewrite Ec in Ec'. injection Ec' as <-. congruence.
    - split; [discriminate|]. intros (_ & s' & b' & pk' & [= <-] & Ec' & Ed' & Hk). rewrite Ec in Ec'. injection Ec' as <-. congruence.
  Qed.

  Lemma web_did_native_iff wk pk b sk wsk : pkcs1_codec C -> cr_encode C pk = Some b -> exported W wk b ->
    (key_did (web_key C W sha256 wk wsk) = key_did (rsa_key C sha256 pk sk) <-> (255 <= N.of_nat (length b) <= 65515)%N).
  Proof.
    intros [Hc _] He [Hw Hx]. cbn [key_did web_key].
    pose proof (supported_did _ _ _ (SK_rsa C sha256 pk sk b He)) as [Ek _]. rewrite Ek.
    pose proof (supported_did _ _ _ (SK_rsa C sha256 pk None b He)) as [En _]. split.
    - intros E. apply web_did_ok in E as (_ & s & b' & pk' & Hs & Hv & Hd & Hk). rewrite Hx in Hs. injection Hs as <-.
      apply Hc in Hd. pose proof (supported_did _ _ _ (SK_rsa C sha256 pk' None b' Hd)) as [Ek' _].
      assert (did_key_text (rsa_magic ++ b) = did_key_text (rsa_magic ++ b')) as E0
        by exact (f_equal (fun r => match r with Ok x => x | _ => [] end) (eq_trans (eq_sym Hk) Ek')).
      clear Ek'. apply did_key_text_inj in E0 as Ek'. apply app_inv_head in Ek'. subst b'.
      destruct (N.le_gt_cases 255 (N.of_nat (length b))), (N.le_gt_cases (N.of_nat (length b)) 65515); try lia;
        exfalso; revert Hv; apply convert_out_of_range; lia.
    - intros Hr. apply web_did_ok. split; [exact Hw|]. exists (spki b), b, pk. split; [exact Hx|].
      split; [apply convert_in_range, Hr|]. split; [apply Hc, He|]. exact En.
  Qed.

  Lemma web_did_other_sizes wk pk b wsk : pkcs1_codec C -> cr_encode C pk = Some b -> exported W wk b ->
    (127 <= length b)%nat -> ~ (255 <= N.of_nat (length b) <= 65515)%N -> key_did (web_key C W sha256 wk wsk) = Err EKeyBytes.
  Proof.
    intros [Hc Hd] He [Hw Hx] H1 Hr. apply Hc in He as Hb. apply Hd in Hb as [body0 Eb].
    destruct (convert_no_der b body0 Eb H1 Hr) as (b' & Hv & Hn).
    cbn [key_did web_key]. unfold web_did. rewrite Hw, Hx. cbn [rbind]. rewrite Hv. cbn [rbind].
    destruct (cr_decode C b') as [pk'|] eqn:E; [|reflexivity]. exfalso. apply Hd in E as [body E]. exact (Hn _ E).
  Qed.

  Lemma web_sign_other_sizes X rng s wk pk b wsk : s_issuer s = web_key C W sha256 wk wsk ->
    pkcs1_codec C -> cr_encode C pk = Some b -> exported W wk b ->
    (127 <= length b)%nat -> ~ (255 <= N.of_nat (length b) <= 65515)%N -> sign X rng s = Panic PPayloadExpect.
  Proof.
    intros Hs Hc He Hx H1 Hr. unfold sign, ucan_payload. rewrite Hs.
    rewrite (web_did_other_sizes wk pk b wsk Hc He Hx H1 Hr). reflexivity.
  Qed.

  Lemma web_did_panic wk p : (forall q, w_subtle W <> Panic q) ->
    (key_did (web_key C W sha256 wk None) = Panic p <->
     w_subtle W = Ok tt /\ ((w_export W wk = None /\ p = PWebCrypto) \/
       exists s, w_export W wk = Some s /\ (length s < 24)%nat /\ p = PSpkiSlice)).
  Proof.
    intros Hq. cbn [key_did web_key]. unfold web_did. destruct (w_subtle W) as [[]|e|q|] eqn:Es; cbn [rbind].
    2,4: split; [discriminate | intros [[=] _]].
    2: exfalso; exact (Hq q eq_refl).
    destruct (w_export W wk) as [s|].
    - destruct (convert_spki_total s) as [[b Hb]|Hb]; rewrite Hb; cbn [rbind].
      + split.
        * destruct (cr_decode C b); discriminate.
        * intros (_ & [[[=] _]|(s' & [= <-] & Hl & _)]). exfalso.
          assert (convert_spki_to_rsa_public_key s = Panic PSpkiSlice) as Ec by (apply convert_spki_panic; auto). congruence.
      + apply convert_spki_panic in Hb as [_ Hl]. split.
        * intros [= <-]. split; [reflexivity|]. right. exists s. auto.
        * intros (_ & [[[=] _]|(s' & _ & _ & ->)]). reflexivity.
    - split; [intros [= <-]; auto|]. intros (_ & [[_ ->]|(s & [=] & _)]). reflexivity.
  Qed.

  (* ------------------------------------------------------ signing and verifying *)

  Lemma web_sign_iff wk sk d g : key_sign (web_key C W sha256 wk sk) d = Ok g <->
    w_subtle W = Ok tt /\ exists k, sk = Some k /\ w_sign W k d = Some g.
  Proof.
    cbn [key_sign web_key]. unfold web_sign. destruct sk as [k|]; [|split; [discriminate | intros (_ & k & [=] & _)]].
    destruct (w_subtle W) as [[]| | |]; cbn [rbind]; try (split; [discriminate | intros [[=] _]]).
    destruct (w_sign W k d) as [g'|] eqn:E; cbn [ok_or].
    - split; [intros [= <-]; eauto|]. intros (_ & k' & [= <-] & E'). congruence.
    - split; [discriminate|]. intros (_ & k' & [= <-] & E'). congruence.
  Qed.

  Lemma web_verify_iff wk sk d g : key_verify (web_key C W sha256 wk sk) d g = Ok tt <->
    w_subtle W = Ok tt /\ w_verify W wk d g = Some true.
  Proof.
    cbn [key_verify web_key]. unfold web_verify.
    destruct (w_subtle W) as [[]| | |]; cbn [rbind]; try (split; [discriminate | intros [[=] _]]).
    destruct (w_verify W wk d g) as [[]|]; cbn [ok_or rbind]; (split; [|intros [_ [=]]]); auto; discriminate.
  Qed.

  Lemma web_token_algorithm X rng s u wk sk : s_issuer s = web_key C W sha256 wk sk -> sign X rng s = Ok u ->
    key_alg (s_issuer s) = B "RS256" /\ h_alg (u_header u) = B "RS256".
  Proof. intros Hs Hu. apply sign_header in Hu as [-> _]. rewrite Hs. split; reflexivity. Qed.

  Lemma web_token_verifies X rng s u wk wsk pk b slice dids st : s_issuer s = web_key C W sha256 wk (Some wsk) ->
    pkcs1_codec C -> cr_encode C pk = Some b -> exported W wk b ->
    (forall d g, w_sign W wsk d = Some g -> cr_verify C pk (sha256 d) g = true) ->
    registered slice [x85; x24] (bytes_to_rsa_key C sha256) -> v_parser st = parser_after slice dids ->
    (255 <= N.of_nat (length b) <= 65515)%N -> sign X rng s = Ok u -> fst (check_signature u st) = Ok tt.
  Proof.
    intros Hs Hc He Hx Hv Hr Hp Hl Hu. apply (sign_verifies X rng s u (rsa_key C sha256 pk None) st Hu).
    - intros d g Hg. rewrite Hs in Hg. apply web_sign_iff in Hg as (_ & k & [= <-] & Hg). cbn [key_verify rsa_key].
      unfold km_verify. rewrite (Hv d g Hg). reflexivity.
    - intros did Hd. rewrite Hs in Hd. rewrite (proj2 (web_did_native_iff wk pk b None (Some wsk) Hc He Hx) Hl) in Hd. rewrite Hp.
      apply (rsa_roundtrip C sha256 pk None b); [exact He | apply Hc, He | exact Hd | exact Hr].
  Qed.
End Facts.

Lemma convert_header_ignored h h' b : length h = 24%nat -> length h' = 24%nat ->
  convert_spki_to_rsa_public_key (h ++ b) = convert_spki_to_rsa_public_key (h' ++ b).
Proof. intros H H'. rewrite !convert_header by assumption. reflexivity. Qed.
