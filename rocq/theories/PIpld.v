(** C61-C68: the IPLD form of signatures, principals and UCANs. *)
From Verif Require Import Prelude Ord SMap BaseN Base58 Utf8 Value Cid Ext Capability Semantics Key Ucan Store Builder Ipld Spec SpecIpld
  IpldFacts Samples.

(* ------------------------------------------------------------------- C61 *)

Theorem C61_signature_roundtrip : forall a sig, word (N.of_nat (length sig)) ->
  signature_decode (signature_encode a sig) = Ok (a, sig).
Proof. exact signature_roundtrip_exact. Qed.
Print Assumptions C61_signature_roundtrip.

(** The layout: algorithm code, length, signature. *)
Theorem C61_signature_layout : forall a sig, word (N.of_nat (length sig)) ->
  exists c l, signature_encode a sig = c ++ l ++ sig /\ leb128 c (jwt_code a) /\ leb128 l (N.of_nat (length sig)).
Proof. exact signature_layout. Qed.
Print Assumptions C61_signature_layout.

Example C61_example :
  signature_encode RS256 (repeat x07 200) = [x85; xa4; xc0; x06; xc8; x01] ++ repeat x07 200 /\
  signature_decode ([x85; xa4; xc0; x06; xc8; x01] ++ repeat x07 200) = Ok (RS256, repeat x07 200) /\
  word (N.of_nat (length (repeat x07 200))).
Proof. split; [vm_compute; reflexivity|]. split; [vm_compute; reflexivity|]. unfold word. cbn. lia. Qed.

(* ------------------------------------------------------------------- C62 *)

(** Expected: decoding never aborts.  Refuted by an EdDSA prefix followed by the
    length one and nothing else. *)
Theorem C62_decode_never_aborts_refuted : exists s p, signature_decode s = Panic p.
Proof. exists [xed; xa1; x03; x01], PVarsigSlice. vm_compute. reflexivity. Qed.
Print Assumptions C62_decode_never_aborts_refuted.

Theorem C62_decode_aborts_iff_partial : forall s p, signature_decode s = Panic p <->
  p = PVarsigSlice /\ exists c l rest a n,
    s = c ++ l ++ rest /\ leb128 c (jwt_code a) /\ leb128 l n /\ (N.of_nat (length rest) < n)%N.
Proof. exact signature_decode_panic. Qed.
Print Assumptions C62_decode_aborts_iff_partial.

Theorem C62_decode_terminates_partial : forall s, signature_decode s <> Diverged.
Proof. exact signature_decode_terminates. Qed.
Print Assumptions C62_decode_terminates_partial.

Example C62_example :
  signature_decode [xed; xa1; x03; x02; x07] = Panic PVarsigSlice /\
  signature_decode [xed; xa1; x03; x01; x07] = Ok (EdDSA, [x07]) /\
  signature_decode [xed; xa1; x03] = Err EVarint /\
  signature_decode [x00; x00] = Err EVarsigPrefix /\
  signature_decode [xe7; xa1; x03; x05] = Err EVarsigAlgorithm.
Proof. vm_compute. repeat split. Qed.

(* ------------------------------------------------------------------- C63 *)

(** Expected: at most one byte string per algorithm and signature.  Refuted twice:
    by a trailing byte, and by a ten-byte length whose last byte overflows. *)
Theorem C63_unique_refuted : exists s s' r, s <> s' /\ signature_decode s = Ok r /\ signature_decode s' = Ok r.
Proof. exists [xed; xa1; x03; x00], [xed; xa1; x03; x00; x07], (EdDSA, []). split; [discriminate | split; vm_compute; reflexivity]. Qed.
Print Assumptions C63_unique_refuted.

Theorem C63_unique_same_length_refuted : exists s s' r, s <> s' /\ length s = length s' /\ signature_decode s = Ok r /\ signature_decode s' = Ok r.
Proof.
  exists ([xed; xa1; x03] ++ repeat x80 9 ++ [x02]), ([xed; xa1; x03] ++ repeat x80 9 ++ [x04]), (EdDSA, []).
  split; [discriminate|]. split; [reflexivity|]. split; vm_compute; reflexivity.
Qed.
Print Assumptions C63_unique_same_length_refuted.

(** What decodes to a given result, exactly. *)
Theorem C63_decode_iff_partial : forall s a sig, signature_decode s = Ok (a, sig) <->
  exists c l rest, s = c ++ l ++ sig ++ rest /\ leb128 c (jwt_code a) /\ leb128 l (N.of_nat (length sig)).
Proof. exact signature_decode_ok. Qed.
Print Assumptions C63_decode_iff_partial.

(** Without ten-byte varints only the bytes after the signature are free. *)
Theorem C63_short_varints_partial : forall a sig c l rest,
  leb128 c (jwt_code a) -> leb128 l (N.of_nat (length sig)) -> (length c <= 9)%nat -> (length l <= 9)%nat ->
  c ++ l ++ sig ++ rest = signature_encode a sig ++ rest.
Proof. exact signature_canonical. Qed.
Print Assumptions C63_short_varints_partial.

Theorem C63_encode_injective_partial : forall a sig a' sig',
  word (N.of_nat (length sig)) -> word (N.of_nat (length sig')) ->
  signature_encode a sig = signature_encode a' sig' -> a = a' /\ sig = sig'.
Proof. exact signature_encode_inj. Qed.
Print Assumptions C63_encode_injective_partial.

Example C63_example :
  leb128 [xed; xa1; x03] (jwt_code EdDSA) /\ leb128 [x02] 2 /\
  signature_encode EdDSA [x01; x02] = [xed; xa1; x03] ++ [x02] ++ [x01; x02] /\
  signature_encode ES256 [x01; x02] <> signature_encode ES384 [x01; x02].
Proof.
  split; [|split; [|split; [vm_compute; reflexivity | vm_compute; discriminate]]].
  - exists [xed; xa1], x03. split; [reflexivity|]. split; [cbn; lia|]. split; [repeat constructor; cbn; lia|].
    split; [cbn; lia|]. split; [intros _; vm_compute; discriminate | vm_compute; reflexivity].
  - exists [], x02. split; [reflexivity|]. split; [cbn; lia|]. split; [constructor|]. split; [cbn; lia|].
    split; [intros _; vm_compute; discriminate | vm_compute; reflexivity].
Qed.

(* ------------------------------------------------------------------- C64 *)

Theorem C64_principal_roundtrip : forall s, printable_did s ->
  exists p, principle_of_string s = Ok p /\ principle_to_string p = Ok s.
Proof. exact principle_printed_back. Qed.
Print Assumptions C64_principal_roundtrip.

(** No other string is printed back. *)
Theorem C64_principal_roundtrip_iff : forall s,
  (exists p, principle_of_string s = Ok p /\ principle_to_string p = Ok s) <-> printable_did s.
Proof. exact principle_printed_back_iff. Qed.
Print Assumptions C64_principal_roundtrip_iff.

(** The other direction: a principal that prints is read back. *)
Theorem C64_principal_reads_back : forall p s, principle_to_string p = Ok s ->
  (forall k, p <> marker ++ B "key:z" ++ k) -> principle_of_string s = Ok p.
Proof. exact principle_reads_back. Qed.
Print Assumptions C64_principal_reads_back.

Example C64_example :
  printable_did (did_of alice) /\ printable_did (B "did:web:example.com") /\ printable_did (B "did:key:u7QE") /\
  principle_of_string (B "did:web:x") = Ok ([x9d; x1a] ++ B "web:x") /\
  principle_of_string (did_of alice) = Ok ([xed; x01] ++ B "alice") /\
  principle_of_string (B "alice") = Err ENotADid.
Proof.
  split; [apply (PD_key xed x01); discriminate|].
  split; [apply (PD_other (B "web:example.com")); [intros k; discriminate | reflexivity]|].
  split; [apply (PD_other (B "key:u7QE")); [intros k; discriminate | reflexivity]|].
  vm_compute. repeat split.
Qed.

(* ------------------------------------------------------------------- C65 *)

(** Expected: different DIDs have different principals.  Refuted by a did:key
    whose payload starts with the marker. *)
Theorem C65_injective_refuted : exists s s' p, s <> s' /\ principle_of_string s = Ok p /\ principle_of_string s' = Ok p.
Proof.
  exists (did_key_text (marker ++ B "web:x")), (B "did:web:x"), (marker ++ B "web:x").
  split; [vm_compute; discriminate | split; vm_compute; reflexivity].
Qed.
Print Assumptions C65_injective_refuted.

Theorem C65_collisions_partial : forall s s' p, principle_of_string s = Ok p -> principle_of_string s' = Ok p -> s <> s' ->
  exists r, p = marker ++ r /\
    ((s = did_key_text p /\ s' = B "did:" ++ r) \/ (s' = did_key_text p /\ s = B "did:" ++ r)).
Proof. exact principle_collision. Qed.
Print Assumptions C65_collisions_partial.

Theorem C65_printable_injective_partial : forall s s' p, printable_did s -> printable_did s' ->
  principle_of_string s = Ok p -> principle_of_string s' = Ok p -> s = s'.
Proof. exact principle_printable_inj. Qed.
Print Assumptions C65_printable_injective_partial.

Example C65_example :
  printable_did (did_of alice) /\ printable_did (did_of bob) /\
  principle_of_string (did_of alice) = Ok ([xed; x01] ++ B "alice") /\
  principle_of_string (did_of bob) = Ok ([xed; x01] ++ B "bob").
Proof.
  split; [apply (PD_key xed x01); discriminate|]. split; [apply (PD_key xed x01); discriminate|]. vm_compute. repeat split.
Qed.

(* ------------------------------------------------------------------- C66 *)

(** Expected: a principal obtained from a DID string prints.  Refuted. *)
Theorem C66_printing_never_aborts_refuted : exists s p q, principle_of_string s = Ok p /\ principle_to_string p = Panic q.
Proof. exists (B "did:key:z"), [], PPrincipleSlice. split; vm_compute; reflexivity. Qed.
Print Assumptions C66_printing_never_aborts_refuted.

Theorem C66_printing_aborts_iff_partial : forall p, (exists q, principle_to_string p = Panic q) <->
  (length p < 2)%nat \/ exists r, p = marker ++ r /\ utf8_valid r = false.
Proof. exact principle_to_string_panic. Qed.
Print Assumptions C66_printing_aborts_iff_partial.

(** Which principals read from DID strings (which are UTF-8) abort. *)
Theorem C66_did_aborts_iff_partial : forall s p, utf8_valid s = true -> principle_of_string s = Ok p ->
  ((exists q, principle_to_string p = Panic q) <->
   s = did_key_text p /\ ((length p < 2)%nat \/ exists r, p = marker ++ r /\ utf8_valid r = false)).
Proof. exact principle_did_panic. Qed.
Print Assumptions C66_did_aborts_iff_partial.

Example C66_example :
  principle_to_string [x07] = Panic PPrincipleSlice /\ principle_to_string [x9d; x1a; xff] = Panic PPrincipleFmt /\
  principle_to_string [x9d; x1a; x61] = Ok (B "did:a") /\ principle_to_string [xed; x01] = Ok (B "did:key:zK36") /\
  utf8_valid (B "did:key:z8") = true /\ principle_of_string (B "did:key:z8") = Ok [x07].
Proof. vm_compute. repeat split. Qed.

(* ------------------------------------------------------------------- C67 *)

Theorem C67_lossless : forall X u, ipld_carried u -> exists i u', ucan_to_ipld X u = Ok i /\ ucan_of_ipld X i = Ok u' /\
  u_header u' = u_header u /\ u_payload u' = u_payload u /\ u_signature u' = u_signature u /\
  u_signed_data u' = signing_input X (u_header u) (u_payload u).
Proof. exact ipld_roundtrip. Qed.
Print Assumptions C67_lossless.

Theorem C67_reencodes : forall X u i u', ipld_carried u -> ucan_to_ipld X u = Ok i -> ucan_of_ipld X i = Ok u' ->
  encode X u' = encode X u.
Proof. exact ipld_reencodes. Qed.
Print Assumptions C67_reencodes.

(** A UCAN signed over its canonical bytes comes back identical, so every key
    gives the same verdict. *)
Theorem C67_verifies : forall X u i u' k, ipld_carried u -> u_signed_data u = signing_input X (u_header u) (u_payload u) ->
  ucan_to_ipld X u = Ok i -> ucan_of_ipld X i = Ok u' ->
  key_verify k (u_signed_data u') (u_signature u') = key_verify k (u_signed_data u) (u_signature u) /\ u' = u.
Proof. exact ipld_verifies. Qed.
Print Assumptions C67_verifies.

(** Each condition is needed, except on signatures of impossible length. *)
Theorem C67_lossless_iff : forall X u, word (N.of_nat (length (u_signature u))) ->
  ((exists i u', ucan_to_ipld X u = Ok i /\ ucan_of_ipld X i = Ok u' /\
     u_header u' = u_header u /\ u_payload u' = u_payload u) <->
   (exists a, h_alg (u_header u) = alg_to_string a) /\ h_typ (u_header u) = B "JWT" /\
   p_ucv (u_payload u) = ucan_version /\ printable_did (p_iss (u_payload u)) /\ printable_did (p_aud (u_payload u)) /\
   opt_all (fun l => l <> [] /\ Forall (fun t => exists c, parse_cid X t = Some c /\ cid_to_string c = t) l) (p_prf (u_payload u))).
Proof. exact ipld_lossless_iff. Qed.
Print Assumptions C67_lossless_iff.

Definition leaf_cites : cid := to_cid sample_ext blake3_256 mid_ucan.
Example C67_example : ipld_carried leaf_ucan /\ u_signed_data leaf_ucan = signing_input sample_ext (u_header leaf_ucan) (u_payload leaf_ucan) /\
  (let? i := ucan_to_ipld sample_ext leaf_ucan in ucan_of_ipld sample_ext i) = Ok leaf_ucan.
Proof.
  split.
  - constructor.
    + exists EdDSA. vm_compute. reflexivity.
    + vm_compute. reflexivity.
    + vm_compute. reflexivity.
    + change (p_iss (u_payload leaf_ucan)) with (did_key_text (xed :: x01 :: mallory)). apply PD_key. discriminate.
    + change (p_aud (u_payload leaf_ucan)) with (did_key_text (xed :: x01 :: alice)). apply PD_key. discriminate.
    + intros l El. vm_compute in El. apply (f_equal (fun o => match o with Some x => x | None => [] end)) in El. cbv beta iota in El. subst l.
      split; [discriminate|]. constructor; [|constructor]. exists leaf_cites. split; [|vm_compute; reflexivity].
      split; [vm_compute; reflexivity|]. split; [unfold word; vm_compute; discriminate|]. split; [unfold word; vm_compute; discriminate | vm_compute; lia].
    + unfold word. vm_compute. discriminate.
  - split; vm_compute; reflexivity.
Qed.

(* ------------------------------------------------------------------- C68 *)

(** Expected: the version survives.  Refuted: the reading side writes its own. *)
Definition old_ucan : ucan :=
  let p := u_payload root_ucan in
  mkUcan (u_header root_ucan) (mkPayload (B "0.9.0-canary") (p_iss p) (p_aud p) (p_exp p) (p_nbf p) (p_nnc p) (p_cap p) (p_fct p) (p_prf p))
    (u_signed_data root_ucan) (u_signature root_ucan).
Definition ipld_form (u : ucan) : ucan_ipld :=
  match ucan_to_ipld sample_ext u with Ok i => i | _ => mkUcanIpld [] [] [] [] [] None None None None None end.
Definition back (i : ucan_ipld) : ucan := match ucan_of_ipld sample_ext i with Ok u => u | _ => no_ucan end.
Theorem C68_version_preserved_refuted : exists X u i u', ucan_to_ipld X u = Ok i /\ ucan_of_ipld X i = Ok u' /\
  ui_v i = p_ucv (u_payload u) /\ p_ucv (u_payload u') <> p_ucv (u_payload u).
Proof.
  exists sample_ext, old_ucan, (ipld_form old_ucan), (back (ipld_form old_ucan)).
  split; [vm_compute; reflexivity|]. split; [vm_compute; reflexivity|]. split; [vm_compute; reflexivity | vm_compute; discriminate].
Qed.
Print Assumptions C68_version_preserved_refuted.

Theorem C68_version_preserved_iff_partial : forall X u i u', ucan_to_ipld X u = Ok i -> ucan_of_ipld X i = Ok u' ->
  p_ucv (u_payload u') = p_ucv (u_payload u) <-> p_ucv (u_payload u) = B "0.10.0-canary".
Proof. exact version_preserved_iff. Qed.
Print Assumptions C68_version_preserved_iff_partial.

Theorem C68_block_keeps_version_partial : forall X u i, ucan_to_ipld X u = Ok i -> ui_v i = p_ucv (u_payload u).
Proof. exact to_ipld_version. Qed.
Print Assumptions C68_block_keeps_version_partial.

Example C68_example : exists i u', ucan_to_ipld sample_ext root_ucan = Ok i /\ ucan_of_ipld sample_ext i = Ok u' /\
  p_ucv (u_payload u') = p_ucv (u_payload root_ucan).
Proof. exists (ipld_form root_ucan), (back (ipld_form root_ucan)). split; [vm_compute; reflexivity|]. split; vm_compute; reflexivity. Qed.
