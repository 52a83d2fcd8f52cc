(** Blocks of UCANs (C155-C156). *)
From Verif Require Import Prelude Ord SMap Base58 Varint Utf8 Value Cid Ext Capability Semantics Key Ucan Ipld Spec SpecWire SpecJson SpecIpld SpecEntry SpecBlock
  OrdFacts DidFacts IpldFacts WireFacts JsonGrammarFacts EntryFacts.

Lemma kind_code t a v n : In (t, a, v) jwt_kinds -> In (v, n) signature_kinds -> t = alg_to_string a /\ n = varsig_code v /\ n = jwt_code a /\ v = varsig_of_alg a.
Proof.
  intros Hj Hs. assert (t = alg_to_string a) as -> by (symmetry; apply alg_name; eauto).
  assert (varsig_of_alg a = v) as <- by (apply varsig_of_alg_kind; eauto). apply signature_kind_code in Hs as <-. destruct a; auto.
Qed.
Lemma code_kind a : In (alg_to_string a, a, varsig_of_alg a) jwt_kinds /\ In (varsig_of_alg a, jwt_code a) signature_kinds.
Proof. destruct a; cbv; tauto. Qed.

Lemma shortest_fun n c : shortest_varint n c -> forall c', shortest_varint n c' -> c = c'.
Proof. induction 1 as [n Hn | n bs Hn _ IH]; intros c' Hc'; inversion Hc'; subst; try lia; [reflexivity | f_equal; auto]. Qed.
Lemma shortest_encode n : Spec.word n -> shortest_varint n (varint_encode n).
Proof. unfold Spec.word. intros H. apply varint_leb; [|lia]. change (128 ^ N.of_nat 10)%N with 1180591620717411303424%N. lia. Qed.

Lemma code_word a : Spec.word (jwt_code a).
Proof. destruct a; unfold Spec.word, jwt_code; lia. Qed.

Lemma parse_cids_iff X l cs : parse_cids X l = Ok cs <-> named_cids X l cs.
Proof.
  revert cs. induction l as [|t l IH]; intros cs; cbn [parse_cids].
  - split; [intros [= <-]; constructor | intros H; inversion H; reflexivity].
  - split.
    + destruct (parse_cid X t) as [c|] eqn:Ec; cbn [ok_or rbind]; [|discriminate]. destruct (parse_cids X l) as [cs'| | |] eqn:E; cbn [rbind]; try discriminate.
      intros [= <-]. constructor; [exact Ec | apply IH; reflexivity].
    + intros H. inversion H as [|? c ? cs' Hc Hl]; subst. rewrite Hc. cbn [ok_or rbind]. apply IH in Hl as ->. reflexivity.
Qed.
Lemma parse_cids_err X l e : parse_cids X l = Err e <-> e = ECid /\ exists t, In t l /\ parse_cid X t = None.
Proof.
  induction l as [|t l IH]; cbn [parse_cids].
  - split; [discriminate | intros (_ & t & [] & _)].
  - destruct (parse_cid X t) as [c|] eqn:Ec; cbn [ok_or rbind].
    + destruct (parse_cids X l) as [cs|e'|p|] eqn:E; cbn [rbind].
      * split; [discriminate|]. intros (He & t' & [<- | Hin] & Hn); [congruence|]. pose proof (proj2 IH (conj He (ex_intro _ t' (conj Hin Hn)))). discriminate.
      * split.
        -- intros [= <-]. destruct (proj1 IH eq_refl) as (He & t' & Hin & Hn). split; [exact He | exists t'; split; [right; exact Hin | exact Hn]].
        -- intros (He & t' & [<- | Hin] & Hn); [congruence|]. apply IH. eauto.
      * split; [discriminate|]. intros (He & t' & [<- | Hin] & Hn); [congruence|]. pose proof (proj2 IH (conj He (ex_intro _ t' (conj Hin Hn)))). discriminate.
      * split; [discriminate|]. intros (He & t' & [<- | Hin] & Hn); [congruence|]. pose proof (proj2 IH (conj He (ex_intro _ t' (conj Hin Hn)))). discriminate.
    + split; [intros [= <-]; split; [reflexivity | exists t; split; [left; reflexivity | exact Ec]] | intros (-> & _); reflexivity].
Qed.
Lemma parse_cids_total X l : (exists cs, parse_cids X l = Ok cs) \/ exists e, parse_cids X l = Err e.
Proof.
  induction l as [|t l IH]; cbn [parse_cids]; [left; eauto|]. destruct (parse_cid X t); cbn [ok_or rbind]; [|right; eauto].
  destruct IH as [[cs ->] | [e ->]]; cbn [rbind]; eauto.
Qed.
Lemma principal_total s : (exists p, principle_of_string s = Ok p) \/ exists e, principle_of_string s = Err e.
Proof.
  unfold principle_of_string. destruct (strip_prefix did_key_prefix s); [destruct (b58_decode _); cbn [ok_or]; eauto|].
  destruct (strip_prefix did_prefix s); eauto.
Qed.
Lemma alg_total s : (exists a, alg_of_string s = Ok a) \/ exists e, alg_of_string s = Err e.
Proof. pose proof (alg_read s) as H. destruct (alg_of_string s); try contradiction; eauto. Qed.

(** [ucan_to_ipld], with the proofs taken from [cited]. *)
Lemma to_ipld_eq X u : ucan_to_ipld X u = (let? cs := parse_cids X (cited u) in
  let? iss := principle_of_string (p_iss (u_payload u)) in let? aud := principle_of_string (p_aud (u_payload u)) in
  let? alg := alg_of_string (h_alg (u_header u)) in
  let p := u_payload u in
  Ok (mkUcanIpld (p_ucv p) iss aud (signature_encode alg (u_signature u)) (p_cap p) (match cs with [] => None | _ => Some cs end) (p_exp p) (p_fct p) (p_nnc p) (p_nbf p))).
Proof.
  unfold ucan_to_ipld, cited. destruct (p_prf (u_payload u)) as [l|]; [|reflexivity]. destruct (parse_cids X l); reflexivity.
Qed.

Lemma block_iff X u i : Spec.word (N.of_nat (length (u_signature u))) -> (ucan_to_ipld X u = Ok i <-> block_of X u i).
Proof.
  intros Hw. rewrite to_ipld_eq. split.
  - destruct (parse_cids X (cited u)) as [cs| | |] eqn:E1; cbn [rbind]; try discriminate.
    destruct (principle_of_string (p_iss (u_payload u))) as [iss| | |] eqn:E2; cbn [rbind]; try discriminate.
    destruct (principle_of_string (p_aud (u_payload u))) as [aud| | |] eqn:E3; cbn [rbind]; try discriminate.
    destruct (alg_of_string (h_alg (u_header u))) as [a| | |] eqn:E4; cbn [rbind]; try discriminate.
    intros [= <-]. apply parse_cids_iff in E1. apply principal_iff in E2, E3. apply alg_read_ok in E4 as [v Ev]. pose proof (proj2 (code_kind a)) as Hk.
    assert (varsig_of_alg a = v) as Hv by (apply varsig_of_alg_kind; eauto). rewrite Hv in Hk.
    constructor; cbn; try reflexivity; try assumption.
    + exists cs. split; [exact E1|]. destruct cs; [left; auto | right; split; [discriminate | reflexivity]].
    + exists a, v, (jwt_code a), (varint_encode (jwt_code a)), (varint_encode (N.of_nat (length (u_signature u)))).
      split; [exact Ev|]. split; [exact Hk|]. split; [apply shortest_encode, code_word|]. split; [apply shortest_encode, Hw|].
      unfold signature_encode. destruct (kind_code _ _ _ _ Ev Hk) as (_ & Hc & _ & _). rewrite Hc, <- Hv. reflexivity.
  - intros [(cs & Hcs & Hp) Hi Ha (a & v & n & c & l & Ev & Ek & Hc & Hl & Es) H1 H2 H3 H4 H5 H6].
    apply parse_cids_iff in Hcs as ->. apply principal_iff in Hi, Ha. cbn [rbind]. rewrite Hi. cbn [rbind]. rewrite Ha. cbn [rbind].
    rewrite (proj2 (alg_read_ok _ a)) by eauto. cbn [rbind]. destruct (kind_code _ _ _ _ Ev Ek) as (_ & Hn & Hn' & Hv).
    assert (Spec.word n) as Hcw by (rewrite Hn'; apply code_word).
    destruct i as [v' iss aud s cap prf exp fct nnc nbf]. cbn in *. subst. unfold signature_encode.
    rewrite (shortest_fun _ _ Hl _ (shortest_encode _ Hw)), (shortest_fun _ _ Hc _ (shortest_encode _ Hcw)).
    do 2 f_equal. destruct Hp as [[-> ->] | [Hne ->]]; [reflexivity | destruct cs; [congruence | reflexivity]].
Qed.

Lemma block_fault_iff X u e : ucan_to_ipld X u = Err e <-> block_fault X u e.
Proof.
  rewrite to_ipld_eq. split.
  - destruct (parse_cids X (cited u)) as [cs|e1| |] eqn:E1; cbn [rbind]; try discriminate.
    2:{ intros [= <-]. apply parse_cids_err in E1 as (-> & t & Hin & Hn). econstructor; eassumption. }
    apply parse_cids_iff in E1.
    destruct (principle_of_string (p_iss (u_payload u))) as [iss|e2| |] eqn:E2; cbn [rbind]; try discriminate.
    2:{ intros [= <-]. apply principal_fault_iff in E2. eapply BF_iss; eassumption. }
    apply principal_iff in E2.
    destruct (principle_of_string (p_aud (u_payload u))) as [aud|e3| |] eqn:E3; cbn [rbind]; try discriminate.
    2:{ intros [= <-]. apply principal_fault_iff in E3. eapply BF_aud; eassumption. }
    apply principal_iff in E3.
    destruct (alg_of_string (h_alg (u_header u))) as [a|e4| |] eqn:E4; cbn [rbind]; try discriminate.
    intros [= <-]. apply alg_read_err in E4 as [-> Hn]. eapply BF_alg; eassumption.
  - intros [t Hin Hn | cs e' Hcs Hf | cs p e' Hcs Hp Hf | cs p q Hcs Hp Hq Hn].
    + rewrite (proj2 (parse_cids_err X (cited u) ECid)); [reflexivity | eauto].
    + apply parse_cids_iff in Hcs as ->. cbn [rbind]. apply principal_fault_iff in Hf as ->. reflexivity.
    + apply parse_cids_iff in Hcs as ->. cbn [rbind]. apply principal_iff in Hp as ->. cbn [rbind]. apply principal_fault_iff in Hf as ->. reflexivity.
    + apply parse_cids_iff in Hcs as ->. cbn [rbind]. apply principal_iff in Hp as ->. cbn [rbind]. apply principal_iff in Hq as ->. cbn [rbind].
      rewrite (proj2 (alg_read_err _ EAlgorithmName)) by auto. reflexivity.
Qed.
Lemma block_total X u : (exists i, ucan_to_ipld X u = Ok i) \/ exists e, ucan_to_ipld X u = Err e.
Proof.
  rewrite to_ipld_eq. destruct (parse_cids_total X (cited u)) as [[cs ->] | [e ->]]; cbn [rbind]; [|eauto].
  destruct (principal_total (p_iss (u_payload u))) as [[p ->] | [e ->]]; cbn [rbind]; [|eauto].
  destruct (principal_total (p_aud (u_payload u))) as [[q ->] | [e ->]]; cbn [rbind]; [|eauto].
  destruct (alg_total (h_alg (u_header u))) as [[a ->] | [e ->]]; cbn [rbind]; eauto.
Qed.

(* ------------------------------------------------------------------ reading a block *)

Lemma principal_text_iff p s : principle_to_string p = Ok s <-> principal_text p s.
Proof.
  rewrite principle_to_string_ok. split.
  - intros [(b0 & b1 & r & -> & Hm & ->) | (r & -> & Hu & ->)]; constructor; [exact Hm | apply utf8_valid_iff, Hu].
  - intros [b0 b1 r Hm | r Hu]; [left; exists b0, b1, r; auto | right; exists r; split; [reflexivity|]; split; [apply utf8_valid_iff, Hu | reflexivity]].
Qed.
Lemma principal_abort_iff p q : principle_to_string p = Panic q <-> principal_abort p q.
Proof.
  split.
  - destruct p as [|b0 [|b1 r]]; cbn [principle_to_string]; [intros [= <-]; constructor; cbn; lia | intros [= <-]; constructor; cbn; lia|].
    destruct (bytes_eqb [b0; b1] did_ipld_prefix) eqn:E; [|discriminate]. apply bytes_eqb_eq in E. injection E as -> ->.
    destruct (utf8_valid r) eqn:U; [discriminate|]. intros [= <-]. apply PA_text. intros H. apply utf8_valid_iff in H. congruence.
  - intros [p' Hl | r Hr].
    + destruct p' as [|b0 [|b1 r]]; [reflexivity | reflexivity | cbn in Hl; lia].
    + cbn [marker app principle_to_string]. change (bytes_eqb [x9d; x1a] did_ipld_prefix) with true. cbv iota.
      destruct (utf8_valid r) eqn:U; [apply utf8_valid_iff in U; contradiction | reflexivity].
Qed.
Lemma principal_print_total p : (exists s, principle_to_string p = Ok s) \/ exists q, principle_to_string p = Panic q.
Proof.
  destruct p as [|b0 [|b1 r]]; cbn [principle_to_string]; eauto. destruct (bytes_eqb _ _); eauto. destruct (utf8_valid r); eauto.
Qed.
Lemma signature_read_total s : (exists r, signature_decode s = Ok r) \/ (exists e, signature_decode s = Err e) \/ exists p, signature_decode s = Panic p.
Proof. pose proof (signature_decode_terminates s). destruct (signature_decode s); [left | right; left | right; right | congruence]; eauto. Qed.

Lemma signing_text X h p d : d = signing_input X h p <-> exists ht pt, header_text h ht /\ payload_text X p pt /\ d = base64url ht ++ B "." ++ base64url pt.
Proof.
  unfold signing_input, header_b64, payload_b64. split.
  - intros ->. exists (header_to_json X h), (payload_to_json X p). split; [apply (header_text_iff X); reflexivity|]. split; [apply payload_text_iff; reflexivity|].
    rewrite !b64_encode_rfc. reflexivity.
  - intros (ht & pt & Hh & Hp & ->). apply (header_text_iff X) in Hh as ->. apply payload_text_iff in Hp as ->. rewrite !b64_encode_rfc. reflexivity.
Qed.

Lemma of_block_iff X i u : ucan_of_ipld X i = Ok u <-> ucan_of_block X i u.
Proof.
  unfold ucan_of_ipld. split.
  - destruct (signature_decode (ui_s i)) as [[a sig]| | |] eqn:E1; cbn [rbind]; try discriminate.
    destruct (principle_to_string (ui_iss i)) as [iss| | |] eqn:E2; cbn [rbind]; try discriminate.
    destruct (principle_to_string (ui_aud i)) as [aud| | |] eqn:E3; cbn [rbind]; try discriminate.
    intros [= <-]. apply signature_decode_ok in E1 as (c & l & rest & Es & Hc & Hl). apply principal_text_iff in E2, E3. destruct (code_kind a) as [Hj Hk].
    constructor; cbn [u_header u_payload u_signature u_signed_data h_alg h_typ p_ucv p_iss p_aud p_exp p_nbf p_nnc p_cap p_fct p_prf]; try assumption; try reflexivity.
    + exists a, (varsig_of_alg a), (jwt_code a), c, l, rest. auto.
    + destruct (ui_prf i); reflexivity.
    + apply signing_text. reflexivity.
  - intros [(a & v & n & c & l & rest & Ej & Ek & Hc & Hl & Es) H1 H2 H3 H4 H5 H6 H7 H8 H9 H10 H11].
    destruct (kind_code _ _ _ _ Ej Ek) as (Ht & _ & Hn & _). subst n.
    rewrite (proj2 (signature_decode_ok (ui_s i) a (u_signature u))) by (exists c, l, rest; auto). cbn [rbind].
    apply principal_text_iff in H3, H4. rewrite H3. cbn [rbind]. rewrite H4. cbn [rbind]. apply signing_text in H11.
    destruct u as [[alg typ] [ucv iss aud exp nbf nnc cap fct prf] data sig]. cbn [u_header u_payload u_signature u_signed_data h_alg h_typ p_ucv p_iss p_aud p_exp p_nbf p_nnc p_cap p_fct p_prf] in *.
    subst. destruct (ui_prf i); cbn [option_map]; subst; reflexivity.
Qed.
Lemma of_block_err X i e : ucan_of_ipld X i = Err e <-> signature_fault (ui_s i) e.
Proof.
  rewrite <- signature_fault_iff. unfold ucan_of_ipld. destruct (signature_decode (ui_s i)) as [[a sig]|e'|p|]; cbn [rbind]; [|split; congruence|split; congruence|split; congruence].
  split; [|discriminate]. destruct (principal_print_total (ui_iss i)) as [[s ->] | [q ->]]; cbn [rbind]; [|discriminate].
  destruct (principal_print_total (ui_aud i)) as [[t ->] | [q ->]]; cbn [rbind]; discriminate.
Qed.
Lemma block_signature_iff s : block_signature s <-> exists r, signature_decode s = Ok r.
Proof.
  split.
  - intros (a & v & n & c & l & sig & rest & t & Ej & Ek & Hc & Hl & ->). destruct (kind_code _ _ _ _ Ej Ek) as (_ & _ & -> & _).
    exists (a, sig). apply signature_decode_ok. exists c, l, rest. auto.
  - intros [[a sig] E]. apply signature_decode_ok in E as (c & l & rest & -> & Hc & Hl). destruct (code_kind a) as [Hj Hk].
    exists a, (varsig_of_alg a), (jwt_code a), c, l, sig, rest, (alg_to_string a). auto 10.
Qed.
Lemma of_block_abort X i q : ucan_of_ipld X i = Panic q <-> block_abort i q.
Proof.
  unfold ucan_of_ipld. split.
  - destruct (signature_decode (ui_s i)) as [[a sig]|e|p|] eqn:E1; cbn [rbind]; try discriminate.
    + assert (block_signature (ui_s i)) as Hs by (apply block_signature_iff; eauto).
      destruct (principle_to_string (ui_iss i)) as [iss|e|p|] eqn:E2; cbn [rbind]; try discriminate.
      * apply principal_text_iff in E2. destruct (principle_to_string (ui_aud i)) as [aud|e|p|] eqn:E3; cbn [rbind]; try discriminate.
        intros [= <-]. apply principal_abort_iff in E3. eapply BA_aud; eassumption.
      * intros [= <-]. apply principal_abort_iff in E2. eapply BA_iss; eassumption.
    + intros [= <-]. apply signature_decode_panic in E1 as (-> & c & l & rest & a & n & Es & Hc & Hl & Hr). destruct (code_kind a) as [Hj Hk].
      eapply BA_sig; eassumption.
  - intros [t a v n c l k rest Ej Ek Hc Hl Es Hr | q' Hs Hp | t q' Hs Ht Hp].
    + destruct (kind_code _ _ _ _ Ej Ek) as (_ & _ & -> & _).
      rewrite (proj2 (signature_decode_panic (ui_s i) PVarsigSlice)); [reflexivity|]. split; [reflexivity|]. exists c, l, rest, a, k. auto.
    + apply block_signature_iff in Hs as [[a sig] ->]. cbn [rbind]. apply principal_abort_iff in Hp as ->. reflexivity.
    + apply block_signature_iff in Hs as [[a sig] ->]. cbn [rbind]. apply principal_text_iff in Ht as ->. cbn [rbind].
      apply principal_abort_iff in Hp as ->. reflexivity.
Qed.

(* ------------------------------------------------------------------ texts of views *)

Lemma plain_text {S} (SO : scope_ops S) r : resource_text (sc_to_string SO) (RPlain r) (uri_to_string SO r).
Proof. destruct r; constructor. Qed.
Lemma plain_text_fun {S} (SO : scope_ops S) r t : resource_text (sc_to_string SO) (RPlain r) t -> t = uri_to_string SO r.
Proof. intros H. inversion H; reflexivity. Qed.
Lemma view_text {S A} (SO : scope_ops S) (AO : ability_ops A) v c : cap_of_view SO AO v = c <->
  resource_text (sc_to_string SO) (v_resource v) (cap_resource c) /\ cap_ability c = ab_to_string AO (v_ability v) /\ cap_caveat c = v_caveat v.
Proof.
  destruct v as [r a cav], c as [t b d]. unfold cap_of_view. cbn [v_resource v_ability v_caveat cap_resource cap_ability cap_caveat]. split.
  - intros [= <- <- <-]. split; [|auto]. destruct r; cbn [resource_to_string]; [apply plain_text | constructor; apply plain_text | constructor; apply plain_text].
  - intros (H & -> & ->). f_equal. destruct r as [r|r|did r]; cbn [resource_to_string].
    + symmetry. apply plain_text_fun, H.
    + inversion H as [| |r' t' Ht|]; subst. apply plain_text_fun in Ht as ->. reflexivity.
    + inversion H as [| | |did' r' t' Ht]; subst. apply plain_text_fun in Ht as ->. reflexivity.
Qed.
