(** C87-C93: the serialised IPLD data of UCANs. *)
From Coq Require Import Floats.SpecFloat.
From Verif Require Import Prelude Ord SMap BaseN Base58 Utf8 Value Cid Url Ext Json Capability Semantics Key Ucan Store Builder Chain Ipld IpldSerde
  Spec SpecIpld SpecSecurity SpecIpldSerde SecurityFacts IpldSerdeFacts Samples SampleFacts SampleSecurity.

(* ------------------------------------------------------------------- C87 *)

Theorem C87_roundtrip : forall X i, ucan_ipld_ok i -> x_value_i128 X = true ->
  ucan_ipld_of_data X (ucan_ipld_to_data i) = Some i.
Proof. exact data_roundtrip. Qed.
Print Assumptions C87_roundtrip.

(** Where JSON values refuse the data model's integers, only UCANs without integers in caveats and facts come back. *)
Theorem C87_roundtrip_iff : forall X i, ucan_ipld_ok i ->
  ucan_ipld_of_data X (ucan_ipld_to_data i) = Some i <->
  x_value_i128 X = true \/ forall v, caveat_in v (ui_cap i) \/ fact_in v (ui_fct i) -> integer_free v.
Proof. exact data_roundtrip_iff. Qed.
Print Assumptions C87_roundtrip_iff.

Theorem C87_injective : forall i i', ucan_ipld_ok i -> ucan_ipld_ok i' -> ucan_ipld_to_data i = ucan_ipld_to_data i' -> i = i'.
Proof. exact data_injective. Qed.
Print Assumptions C87_injective.

Definition full_ipld : ucan_ipld :=
  mkUcanIpld (B "0.10.0-canary") (ed25519_magic ++ alice) (marker ++ B "web:x") (signature_encode EdDSA [x01; x02])
    [(B "mailto:a@x", [(B "email/send", [VObj [(B "max", VNum (PosInt 3))]])])]
    (Some [to_cid sample_ext blake3_256 root_ucan]) (Some 100%N) (Some [(B "f", VArr [VNum (NegInt (-5)); VNum (Float (S754_zero true))])])
    (Some (B "n")) None.
Example C87_example : ucan_ipld_ok full_ipld /\ ucan_ipld_of_data sample_ext (ucan_ipld_to_data full_ipld) = Some full_ipld /\
  ucan_ipld_of_data (mkExt (fun _ => []) (fun _ => None) false true (fun _ _ => None) (fun _ _ => None) (fun _ _ => []) true)
    (ucan_ipld_to_data full_ipld) = None.
Proof.
  split; [|split; vm_compute; reflexivity]. constructor.
  - split; [repeat constructor|]. constructor; [|constructor]. split; [reflexivity|]. split; [repeat constructor|].
    constructor; [|constructor]. split; [reflexivity|]. constructor; [|constructor]. constructor. constructor; [repeat constructor|].
    constructor; [|constructor]. split; [reflexivity|]. constructor. cbn. lia.
  - intros n [= <-]. lia.
  - intros f [= <-]. constructor; [repeat constructor|]. constructor; [|constructor]. split; [reflexivity|]. constructor.
    constructor; [|constructor; [|constructor]]; constructor; cbn; lia.
  - intros n. discriminate.
Qed.

(* ------------------------------------------------------------------- C88 *)

(** Expected: principals and signatures are IPLD byte strings.  Refuted: they never are, and
    byte strings are refused. *)
Theorem C88_byte_strings_refuted : exists i m, ucan_ipld_ok i /\ ucan_ipld_to_data i = IMap m /\
  forall k b, k = B "iss" \/ k = B "aud" \/ k = B "s" -> ~ In (k, IBytes b) m.
Proof.
  exists (mkUcanIpld [] [] [] [] [] None None None None None), (data_entries (mkUcanIpld [] [] [] [] [] None None None None None)).
  split; [constructor; try discriminate; split; constructor|]. split; [reflexivity|].
  intros k b Hk Hin. repeat (destruct Hin as [Hin | Hin]; [discriminate Hin|]). destruct Hin.
Qed.
Print Assumptions C88_byte_strings_refuted.

Theorem C88_integer_lists_partial : forall i m k b, ucan_ipld_to_data i = IMap m ->
  (k = B "iss" /\ b = ui_iss i) \/ (k = B "aud" /\ b = ui_aud i) \/ (k = B "s" /\ b = ui_s i) ->
  forall d, In (k, d) m <-> d = int_list b.
Proof. exact written_bytes. Qed.
Print Assumptions C88_integer_lists_partial.

Theorem C88_byte_strings_not_read_partial : forall X m k b, keys_increasing m -> k = B "iss" \/ k = B "aud" \/ k = B "s" ->
  In (k, IBytes b) m -> ucan_ipld_of_data X (IMap m) = None.
Proof. exact byte_strings_refused. Qed.
Print Assumptions C88_byte_strings_not_read_partial.

Example C88_example :
  int_list [xed; x01; xff] = IList [IInt 237; IInt 1; IInt 255] /\
  keys_increasing [(B "aud", int_list []); (B "cap", IMap []); (B "iss", IBytes [xed; x01]); (B "s", int_list []); (B "v", IStr [])].
Proof. split; [reflexivity | repeat constructor]. Qed.

(* ------------------------------------------------------------------- C89 *)

(** Which data is read as which UCAN, field by field. *)
Theorem C89_read_iff : forall X m i, keys_increasing m -> ucan_ipld_of_data X (IMap m) = Some i <-> ucan_ipld_data X m i.
Proof. exact ucan_ipld_of_data_iff. Qed.
Print Assumptions C89_read_iff.

Theorem C89_only_maps : forall X d i, ucan_ipld_of_data X d = Some i -> exists m, d = IMap m.
Proof. exact ucan_ipld_of_data_map. Qed.
Print Assumptions C89_only_maps.

(** What was read is stable: writing and reading it again changes nothing. *)
Theorem C89_stable : forall X m i, keys_increasing m -> ucan_ipld_of_data X (IMap m) = Some i ->
  ucan_ipld_of_data X (ucan_ipld_to_data i) = Some i.
Proof. exact data_again. Qed.
Print Assumptions C89_stable.

(** Absent optional fields, an unknown field, and a double that is no number. *)
Definition odd_data : list (bytes * ipld) :=
  [(B "aud", IList [IInt 7]); (B "cap", IMap [(B "r", IMap [(B "a/b", IList [IFloat S754_nan])])]); (B "exp", INull);
   (B "iss", IList []); (B "note", ILink (to_cid sample_ext blake3_256 root_ucan)); (B "s", IList [IInt 0]); (B "v", IStr (B "9"))].
Example C89_example : keys_increasing odd_data /\
  ucan_ipld_of_data sample_ext (IMap odd_data) =
    Some (mkUcanIpld (B "9") [] [x07] [x00] [(B "r", [(B "a/b", [VNull])])] None None None None None) /\
  ucan_ipld_of_data sample_ext (IMap [(B "aud", IList [IInt 256]); (B "cap", IMap []); (B "iss", IList []); (B "s", IList []); (B "v", IStr [])]) = None.
Proof. split; [repeat constructor | split; vm_compute; reflexivity]. Qed.

(* ------------------------------------------------------------------- C90 *)

(** Expected: data read as a UCAN converts to one or is refused.  Refuted by a cut-off signature. *)
Theorem C90_never_aborts_refuted : exists X d i p, ucan_ipld_of_data X d = Some i /\ ucan_of_ipld X i = Panic p.
Proof.
  exists sample_ext, (IMap [(B "aud", int_list (marker ++ B "a")); (B "cap", IMap []); (B "iss", int_list (marker ++ B "b"));
                            (B "s", int_list [xed; xa1; x03; x01]); (B "v", IStr (B "0.10.0-canary"))]),
    (mkUcanIpld (B "0.10.0-canary") (marker ++ B "b") (marker ++ B "a") [xed; xa1; x03; x01] [] None None None None None), PVarsigSlice.
  split; vm_compute; reflexivity.
Qed.
Print Assumptions C90_never_aborts_refuted.

Theorem C90_aborts_iff_partial : forall X i, (exists p, ucan_of_ipld X i = Panic p) <->
  exists a c l n rest, ui_s i = c ++ l ++ rest /\ leb128 c (jwt_code a) /\ leb128 l n /\
    ((N.of_nat (length rest) < n)%N \/ no_principal (ui_iss i) \/ no_principal (ui_aud i)).
Proof. exact of_ipld_aborts_iff. Qed.
Print Assumptions C90_aborts_iff_partial.

Theorem C90_converts_iff_partial : forall X i, (exists u, ucan_of_ipld X i = Ok u) <->
  (exists a sig, signature_decode (ui_s i) = Ok (a, sig)) /\ ~ no_principal (ui_iss i) /\ ~ no_principal (ui_aud i).
Proof. exact of_ipld_ok. Qed.
Print Assumptions C90_converts_iff_partial.

Theorem C90_terminates_partial : forall X i, ucan_of_ipld X i <> Diverged.
Proof. exact of_ipld_terminates. Qed.
Print Assumptions C90_terminates_partial.

Definition with_bytes (iss aud s : bytes) : ucan_ipld := mkUcanIpld (B "v") iss aud s [] None None None None None.
Example C90_example :
  ucan_of_ipld sample_ext (with_bytes [x07] [xed; x01] (signature_encode EdDSA [])) = Panic PPrincipleSlice /\
  ucan_of_ipld sample_ext (with_bytes [xed; x01] [x9d; x1a; xff] (signature_encode EdDSA [])) = Panic PPrincipleFmt /\
  ucan_of_ipld sample_ext (with_bytes [x07] [xed; x01] [x00; x00]) = Err EVarsigPrefix /\
  no_principal [x07] /\ no_principal [x9d; x1a; xff].
Proof.
  split; [vm_compute; reflexivity|]. split; [vm_compute; reflexivity|]. split; [vm_compute; reflexivity|].
  split; [left; cbn; lia | right; exists [xff]; split; reflexivity].
Qed.

(* ------------------------------------------------------------------- C91 *)

(** A token stored as IPLD data and read back is the same token. *)
Theorem C91_jwt_through_data : forall X t u, parse_token X t = Ok u -> ipld_carried u ->
  exists i u', ucan_to_ipld X u = Ok i /\ ucan_ipld_of_data X (ucan_ipld_to_data i) = Some i /\ ucan_of_ipld X i = Ok u' /\
    u_header u' = u_header u /\ u_payload u' = u_payload u /\ u_signature u' = u_signature u /\ encode X u' = encode X u.
Proof. exact jwt_through_data. Qed.
Print Assumptions C91_jwt_through_data.

(** The data of any token that has an IPLD form is read back, whether or not the token survives. *)
Theorem C91_token_data_read_back : forall X t u i, parse_token X t = Ok u -> ucan_to_ipld X u = Ok i ->
  ucan_ipld_of_data X (ucan_ipld_to_data i) = Some i.
Proof. exact token_data_again. Qed.
Print Assumptions C91_token_data_read_back.

Example C91_example : parse_token sample_ext (encode sample_ext leaf_ucan) = Ok leaf_ucan /\
  (let? i := ucan_to_ipld sample_ext leaf_ucan in
   let? i' := ok_or (ucan_ipld_of_data sample_ext (ucan_ipld_to_data i)) EPayloadJson in
   let? u := ucan_of_ipld sample_ext i' in Ok (encode sample_ext u)) = Ok (encode sample_ext leaf_ucan).
Proof. split; vm_compute; reflexivity. Qed.

(* ------------------------------------------------------------------- C92 *)

Theorem C92_ucan_roundtrip_iff : forall X u, payload_ok (u_payload u) ->
  ucan_of_data X (ucan_to_data u) = Some u <->
  x_value_i128 X = true \/ forall v, caveat_in v (p_cap (u_payload u)) \/ fact_in v (p_fct (u_payload u)) -> integer_free v.
Proof. exact ucan_data_roundtrip_iff. Qed.
Print Assumptions C92_ucan_roundtrip_iff.

(** A UCAN parsed from a token comes back with its signed bytes, so it still verifies. *)
Theorem C92_token_roundtrip : forall X t u, parse_token X t = Ok u -> ucan_of_data X (ucan_to_data u) = Some u.
Proof. exact token_ucan_data. Qed.
Print Assumptions C92_token_roundtrip.

Example C92_example : parse_token sample_ext (encode sample_ext rich_ucan) = Ok rich_ucan /\
  ucan_of_data sample_ext (ucan_to_data rich_ucan) = Some rich_ucan.
Proof. split; vm_compute; reflexivity. Qed.

(* ------------------------------------------------------------------- C93 *)

(** Expected: as for tokens (C86), what a deserialised UCAN reports rests on payloads signed by their issuers.
    Refuted: the data carries payload and signed bytes separately. *)
Theorem C93_deserialised_authority_refuted : exists E nt slice signed fuel d u st c st' r x,
  unforgeable slice signed /\ with_parser slice st /\ ucan_of_data (e_ext E) d = Some u /\
  from_ucan E nt fuel u st = (Ok c, st') /\ reduce mail_scope mail_ability mail_parse c = Ok r /\ In x r /\
  ~ authentic (e_ext E) signed u /\ forall v o, ~ authority mail_scope mail_ability mail_parse E signed u v o.
Proof.
  exists (sample_env 50 []), None, strict_slice, signed_by, 3%nat, (ucan_to_data forged_ucan), forged_ucan,
    (mkState (did_parser_new strict_slice) 0 0 0), (Chain forged_ucan [] []),
    (snd (from_ucan (sample_env 50 []) None 3 forged_ucan (mkState (did_parser_new strict_slice) 0 0 0))),
    [mkInfo [did_of alice] None None (mkView (RPlain (Scoped (B "a@x"))) true (VObj []))],
    (mkInfo [did_of alice] None None (mkView (RPlain (Scoped (B "a@x"))) true (VObj []))).
  split; [exact strict_unforgeable|]. split; [exact (ex_intro _ [] eq_refl)|]. split; [vm_compute; reflexivity|].
  split.
  { assert (fst (from_ucan (sample_env 50 []) None 3 forged_ucan (mkState (did_parser_new strict_slice) 0 0 0)) = Ok (Chain forged_ucan [] [])) as Hc
      by (vm_compute; reflexivity).
    exact (eq_trans (surjective_pairing _) (f_equal2 pair Hc eq_refl)). }
  split; [vm_compute; reflexivity|]. split; [left; reflexivity|].
  split; [exact forged_inauthentic|]. intros v o Ha. apply forged_inauthentic. inversion Ha; assumption.
Qed.
Print Assumptions C93_deserialised_authority_refuted.

(** With the signed bytes compared to the payload's own signing input, it does. *)
Theorem C93_own_signing_input_partial : forall S A (SO : scope_ops S) (AO : ability_ops A) parse E nt slice signed fuel u st c st' r x,
  unforgeable slice signed -> with_parser slice st ->
  u_signed_data u = signing_input (e_ext E) (u_header u) (u_payload u) -> payload_carried (e_ext E) (u_payload u) ->
  from_ucan E nt fuel u st = (Ok c, st') -> reduce SO AO parse c = Ok r -> In x r ->
  exists o, In o (i_originators x) /\ authority SO AO parse E signed u (i_capability x) o.
Proof. exact @report_of_own. Qed.
Print Assumptions C93_own_signing_input_partial.

Example C93_example :
  u_signed_data leaf_ucan = signing_input sample_ext (u_header leaf_ucan) (u_payload leaf_ucan) /\
  fst (from_ucan (leaf_env 50) None 5 leaf_ucan (mkState (did_parser_new strict_slice) 0 0 0)) = Ok leaf_chain /\
  payload_carried sample_ext (u_payload leaf_ucan) /\
  u_signed_data forged_ucan <> signing_input sample_ext (u_header forged_ucan) (u_payload forged_ucan).
Proof.
  split; [vm_compute; reflexivity|]. split; [vm_compute; reflexivity|]. split; [|vm_compute; discriminate].
  let p := eval vm_compute in (u_payload leaf_ucan) in assert (u_payload leaf_ucan = p) as -> by (vm_compute; reflexivity).
  constructor; cbn [p_cap]; try unfold caps_carried; concrete.
Qed.
