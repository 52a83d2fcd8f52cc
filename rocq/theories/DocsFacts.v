(** Facts about the functions of the documentation. *)
From Verif Require Import Prelude Ord SMap BaseN Base58 Value Utf8 Cid Ext Json Capability Semantics Key Ucan Store Builder Chain Docs
  Spec SpecWire SpecJson SpecLine SpecReport SpecEnd SpecCost SpecDocs OrdFacts TokenFacts WireFacts JsonGrammarFacts TimeFacts LineFacts ReportFacts SignFacts.

Definition minimal_signable (k : key) (aud : bytes) (e : N) : signable := mkSignable k aud [] (Some e) None [] [] false.
Definition minimal_payload (did aud : bytes) (e : N) : payload := mkPayload ucan_version did aud (Some e) None None [] None None.

Lemma build_minimal X t k aud : build X t (builder_run X [IssuedBy k; ForAudience aud; WithLifetime 60]) =
  let? e := u64_add X t 60 in Ok (minimal_signable k aud e).
Proof.
  unfold builder_run, builder_default. cbn [fold_left builder_step]. unfold build. cbn [b_issuer b_audience]. unfold implied_expiration.
  cbn [b_expiration b_lifetime]. destruct (u64_add X t 60); reflexivity.
Qed.

Lemma sign_minimal X rng k aud e did : key_did k = Ok did ->
  sign X rng (minimal_signable k aud e) =
  let? sig := key_sign k (signing_input X (mkHeader (key_alg k) (B "JWT")) (minimal_payload did aud e)) in
  Ok (mkUcan (mkHeader (key_alg k) (B "JWT")) (minimal_payload did aud e)
       (signing_input X (mkHeader (key_alg k) (B "JWT")) (minimal_payload did aud e)) sig).
Proof. intros H. unfold sign, ucan_payload. cbn [s_add_nonce s_issuer minimal_signable]. rewrite H. reflexivity. Qed.

Lemma sum_wraps t : word t -> (t + 60 <= u64_max)%N \/ ((t + 60) mod 2 ^ 64 < t)%N.
Proof.
  unfold word, u64_max. intros H. destruct (N.leb_spec (t + 60) 18446744073709551615) as [L | L]; [left; exact L|]. right.
  change (2 ^ 64)%N with 18446744073709551616%N.
  replace (t + 60)%N with ((t + 60 - 18446744073709551616) + 1 * 18446744073709551616)%N by lia.
  rewrite N.mod_add by lia. rewrite N.mod_small by lia. lia.
Qed.

Lemma u64_add_iff X a b n : u64_add X a b = Ok n <->
  (x_overflow_checks X = true -> (a + b < 18446744073709551616)%N) /\ n = ((a + b) mod 18446744073709551616)%N.
Proof.
  unfold u64_add, u64_max. destruct (N.leb_spec (a + b) 18446744073709551615) as [L | L].
  - rewrite N.mod_small by lia. split; [intros [= <-]; split; [lia | reflexivity] | intros [_ ->]; reflexivity].
  - destruct (x_overflow_checks X).
    + split; [discriminate | intros [H _]; specialize (H eq_refl); lia].
    + split; [intros [= <-]; split; [discriminate | reflexivity] | intros [_ ->]; reflexivity].
Qed.

Lemma minimal_input X k aud did e text :
  signing_input X (mkHeader (key_alg k) (B "JWT")) (minimal_payload did aud e) = text <->
  exists alg' aud' did' exp,
    string_text (key_alg k) alg' /\ string_text aud aud' /\ string_text did did' /\ decimal_text e exp /\
    text = base64url (B "{""alg"":" ++ alg' ++ B ",""typ"":""JWT""}") ++ B "." ++
           base64url (B "{""aud"":" ++ aud' ++ B ",""cap"":{},""exp"":" ++ exp ++ B ",""iss"":" ++ did' ++ B ",""ucv"":""0.10.0-canary""}").
Proof.
  unfold signing_input, header_b64, payload_b64. rewrite !b64_encode_rfc.
  assert (header_to_json X (mkHeader (key_alg k) (B "JWT")) = B "{""alg"":" ++ json_string (key_alg k) ++ B ",""typ"":""JWT""}") as ->.
  { symmetry. apply (header_text_iff X). exists (json_string (key_alg k)), (B """JWT""").
    split; [apply string_text_iff; reflexivity|]. split; [apply string_text_iff; vm_compute; reflexivity|]. reflexivity. }
  assert (payload_to_json X (minimal_payload did aud e) =
    B "{""aud"":" ++ json_string aud ++ B ",""cap"":{},""exp"":" ++ json_print X (ipld_of_u64 e) ++ B ",""iss"":" ++ json_string did ++ B ",""ucv"":""0.10.0-canary""}") as ->.
  { rewrite payload_json. unfold minimal_payload. cbn [p_aud p_cap p_exp p_fct p_iss p_nbf p_nnc p_prf p_ucv].
    generalize (json_string aud) (json_print X (ipld_of_u64 e)) (json_string did). intros a b c. rewrite !app_nil_l.
    change (json_string ucan_version) with (B """0.10.0-canary"""). change (json_print X (ipld_of_caps [])) with (B "{}"). reflexivity. }
  split.
  - intros <-. exists (json_string (key_alg k)), (json_string aud), (json_string did), (json_print X (ipld_of_u64 e)).
    split; [apply string_text_iff; reflexivity|]. split; [apply string_text_iff; reflexivity|]. split; [apply string_text_iff; reflexivity|].
    split; [apply (u64_text_iff X); reflexivity | reflexivity].
  - intros (a & b & c & d & Ha & Hb & Hc & Hd & ->). apply string_text_iff in Ha as ->. apply string_text_iff in Hb as ->. apply string_text_iff in Hc as ->.
    apply (u64_text_iff X) in Hd as ->. reflexivity.
Qed.

Lemma encode_minimal X h p d g : encode X (mkUcan h p d g) = signing_input X h p ++ B "." ++ base64url g.
Proof. unfold encode, signing_input. cbn [u_header u_payload u_signature]. rewrite b64_encode_rfc, <- !app_assoc. reflexivity. Qed.

Lemma generate_iff X t rng k aud tok : generate_token X t rng k aud = Ok tok <->
  (x_overflow_checks X = true -> (t + 60 < 18446744073709551616)%N) /\ minimal_token k aud t tok.
Proof.
  unfold generate_token. rewrite build_minimal. split.
  - intros H. destruct (u64_add X t 60) as [e| | |] eqn:Ee; try discriminate. cbn [rbind] in H. apply u64_add_iff in Ee as [Ho ->].
    split; [exact Ho|]. destruct (key_did k) as [did|er|p|] eqn:Ed.
    2-4: unfold sign, ucan_payload in H; cbn [s_add_nonce s_issuer minimal_signable] in H; rewrite Ed in H; discriminate.
    rewrite (sign_minimal _ _ _ _ _ _ Ed) in H. destruct (key_sign k _) as [g| | |] eqn:Eg; try discriminate. cbn [rbind] in H.
    injection H as <-. exists did, (signing_input X (mkHeader (key_alg k) (B "JWT")) (minimal_payload did aud ((t + 60) mod 18446744073709551616))), g.
    split; [exact Ed|]. split; [apply (proj1 (minimal_input X k aud did _ _)); reflexivity|]. split; [exact Eg | apply encode_minimal].
  - intros [Ho (did & text & g & Ed & Hc & Hg & ->)].
    rewrite (proj2 (u64_add_iff X t 60 _) (conj Ho eq_refl)). cbn [rbind]. rewrite (sign_minimal _ _ _ _ _ _ Ed).
    apply (proj2 (minimal_input X k aud did _ _)) in Hc. rewrite Hc, Hg. cbn [rbind]. rewrite encode_minimal, Hc. reflexivity.
Qed.

(** What happens otherwise. *)
Lemma generate_abort X t rng k aud p : (forall q, key_did k <> Panic q) -> (forall d q, key_sign k d <> Panic q) ->
  (generate_token X t rng k aud = Panic p <->
   (x_overflow_checks X = true /\ (18446744073709551616 <= t + 60)%N /\ p = PAddOverflow) \/
   (x_overflow_checks X = true -> (t + 60 < 18446744073709551616)%N) /\ (exists e, key_did k = Err e) /\ p = PPayloadExpect).
Proof.
  intros Hd Hs. unfold generate_token. rewrite build_minimal. destruct (u64_add X t 60) as [e|er|q|] eqn:Ee; cbn [rbind].
  - assert (Ho : x_overflow_checks X = true -> (t + 60 < 18446744073709551616)%N) by (apply u64_add_iff in Ee; tauto).
    destruct (key_did k) as [did|er|q|] eqn:Ed.
    + rewrite (sign_minimal _ _ _ _ _ _ Ed). specialize (Hs (signing_input X (mkHeader (key_alg k) (B "JWT")) (minimal_payload did aud e))).
      destruct (key_sign k _) as [g|er|q|] eqn:Eg; cbn [rbind].
      1,2,4: split; [discriminate|]; intros [(Hx & H & _) | (_ & [er' E] & _)]; [specialize (Ho Hx); lia | discriminate].
      destruct (Hs q eq_refl).
    + unfold sign, ucan_payload. cbn [s_add_nonce s_issuer minimal_signable]. rewrite Ed. cbn [rbind]. split.
      * intros [= <-]. right. split; [exact Ho|]. split; [eauto | reflexivity].
      * intros [(Hx & H & _) | (_ & _ & ->)]; [specialize (Ho Hx); lia | reflexivity].
    + destruct (Hd q eq_refl).
    + unfold sign, ucan_payload. cbn [s_add_nonce s_issuer minimal_signable]. rewrite Ed. cbn [rbind]. split; [discriminate|].
      intros [(Hx & H & _) | (_ & [er' E] & _)]; [specialize (Ho Hx); lia | discriminate].
  - exfalso. revert Ee. unfold u64_add. destruct (_ <=? _)%N; [discriminate|]. destruct (x_overflow_checks X); discriminate.
  - revert Ee. unfold u64_add, u64_max. destruct (N.leb_spec (t + 60) 18446744073709551615) as [L | L]; [discriminate|].
    destruct (x_overflow_checks X); [|discriminate]. intros [= <-]. split.
    + intros [= <-]. left. split; [reflexivity|]. split; [lia | reflexivity].
    + intros [(_ & _ & ->) | (Ho & _)]; [reflexivity|]. specialize (Ho eq_refl). lia.
  - exfalso. revert Ee. unfold u64_add. destruct (_ <=? _)%N; [discriminate|]. destruct (x_overflow_checks X); discriminate.
Qed.

Section Caps.
  Context {S A : Type} (E : env) (SO : scope_ops S) (AO : ability_ops A) (parse : capability -> option (view S A)).

  Lemma get_capabilities_iff slice fuel tok r : get_capabilities E SO AO parse slice fuel tok = Ok r <->
    exists c, token_grammar (e_ext E) tok (c_ucan c) /\ (levels c <= fuel)%nat /\ SpecLine.accepted E None slice 0 0 c /\ is_report SO AO parse c r.
  Proof.
    unfold get_capabilities. split.
    - intros H. destruct (from_token E None fuel tok (mkState (did_parser_new slice) 0 0 0)) as [[c| | |] st'] eqn:Ef; try discriminate.
      cbn [fst rbind] in H. apply (from_token_exact E None slice [] fuel tok (mkState (did_parser_new slice) 0 0 0) c st' eq_refl) in Ef as (Hg & Hl & Ha & _).
      exists c. split; [exact Hg|]. split; [exact Hl|]. split; [exact Ha | apply report_exact, H].
    - intros (c & Hg & Hl & Ha & Hr).
      rewrite (proj2 (from_token_exact E None slice [] fuel tok (mkState (did_parser_new slice) 0 0 0) c _ eq_refl) (conj Hg (conj Hl (conj Ha eq_refl)))).
      cbn [fst rbind]. apply report_exact, Hr.
  Qed.

  Lemma no_key_types fuel tok r : get_capabilities E SO AO parse [] fuel tok <> Ok r.
  Proof.
    intros H. apply get_capabilities_iff in H as (c & _ & _ & Ha & _). inversion Ha as [t0 r0 u ps red Hp _ _]. subst.
    destruct Hp as (_ & _ & k & Hk & _). unfold did_parse, did_parser_new in Hk. cbn [dp_cache dp_ctors mof_list fold_left mget] in Hk.
    destruct (strip_prefix _ _); [|discriminate]. destruct (b58_decode _) as [[|m0 [|m1 l]]|]; discriminate.
  Qed.

  Lemma minimal_reported rng k aud t tok slice fuel :
    generate_token (e_ext E) t rng k aud = Ok tok -> (t + 60 < 18446744073709551616)%N -> known_key slice k ->
    utf8_valid (key_alg k) = true -> utf8_valid aud = true -> (forall d, key_did k = Ok d -> utf8_valid d = true) ->
    get_capabilities E SO AO parse slice (Datatypes.S fuel) tok =
    if (e_clock E 0 <=? t + 60)%N then Ok [] else Err EExpired.
  Proof.
    intros Hgen Ht (did & k' & Ed & Hk' & Hv) Ualg Uaud Udid. unfold generate_token in Hgen. rewrite build_minimal in Hgen.
    rewrite (proj2 (u64_add_iff (e_ext E) t 60 (t + 60))) in Hgen by (rewrite N.mod_small by exact Ht; auto). cbn [rbind] in Hgen.
    destruct (sign (e_ext E) rng (minimal_signable k aud (t + 60))) as [u| | |] eqn:Es; try discriminate. cbn [rbind] in Hgen. injection Hgen as <-.
    assert (Hc : signable_carried (e_ext E) (minimal_signable k aud (t + 60))).
    { constructor; cbn [s_issuer s_audience s_capabilities s_expiration s_not_before s_facts s_proofs minimal_signable];
        [exact Ualg | exact Udid | exact Uaud | intros c [] | intros n [= <-]; lia | intros n; discriminate | | constructor].
      apply Ca_obj; [apply Sorted.SSorted_nil | apply Forall_nil | intros [[v Hr] | [v Hr]]; discriminate]. }
    pose proof (sign_roundtrip _ _ _ _ Hc Es) as Hp.
    rewrite (sign_minimal _ _ _ _ _ _ Ed) in Es. destruct (key_sign k _) as [g| | |] eqn:Eg; try discriminate. cbn [rbind] in Es.
    assert (Hpay : u_payload u = minimal_payload did aud (t + 60)) by (injection Es as <-; reflexivity).
    assert (Hsig : key_verify k' (u_signed_data u) (u_signature u) = Ok tt) by (injection Es as <-; apply Hv; exact Eg). clear Es Eg.
    destruct (N.leb_spec (e_clock E 0) (t + 60)) as [L | L].
    - apply get_capabilities_iff. exists (Chain u [] []). split; [apply token_grammar_iff; exact Hp|].
      split; [cbn; lia|]. split.
      + constructor; [|unfold cited; rewrite Hpay; constructor|].
        * split; [intros e; rewrite Hpay; intros [= <-]; exact L|]. split; [intros b; rewrite Hpay; discriminate|].
          exists k'. rewrite Hpay. auto.
        * split; [constructor|]. split; [|intros i []]. intros i. split; [intros []|]. intros (c & (abs & cs & Hin & _) & _). rewrite Hpay in Hin. destruct Hin.
      + apply report_exact. cbn. rewrite Hpay. reflexivity.
    - unfold get_capabilities, from_token. unfold bind at 1, lift at 1. rewrite Hp. cbn [from_ucan]. unfold bind at 1.
      set (st := mkState (did_parser_new slice) 0 0 0).
      assert (fst (validate E u None st) = Err EExpired) as Hx.
      { apply validate_expired. intros Hu. specialize (Hu (t + 60)%N). rewrite Hpay in Hu. specialize (Hu eq_refl). cbn in Hu. lia. }
      destruct (validate E u None st) as [r st']. cbn [fst] in Hx. subst r. reflexivity.
  Qed.
End Caps.
