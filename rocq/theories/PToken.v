(** C08, C16-C25, C60, C74: tokens. *)
From Coq Require Import Sorting.Permutation Floats.SpecFloat.
From Verif Require Import Prelude Ord SMap BaseN Base58 Utf8 Value Ext Capability Key Json Ucan Store Builder Spec TokenFacts SignFacts Samples SampleFacts.

(* ------------------------------------------------------------------- C16 *)

Theorem C16_sign_encode_parse : forall X rng s u,
  signable_carried X s -> sign X rng s = Ok u -> parse_token X (encode X u) = Ok u.
Proof. exact sign_roundtrip. Qed.
Print Assumptions C16_sign_encode_parse.

Example C16_example : signable_carried sample_ext rich_signable /\
  sign sample_ext (repeat x61 32) rich_signable = Ok rich_ucan /\ rich_ucan <> no_ucan.
Proof.
  split; [exact rich_carried|]. split; [vm_compute; reflexivity|].
  intros E; apply (f_equal (fun u => h_alg (u_header u))) in E; vm_compute in E; discriminate.
Qed.

(* ------------------------------------------------------------------- C17 *)

Theorem C17_same_token_same_content : forall X u v,
  ucan_carried X u -> ucan_carried X v -> encode X u = encode X v -> content u = content v.
Proof. exact token_injective. Qed.
Print Assumptions C17_same_token_same_content.

Example C17_example : ucan_carried sample_ext rich_ucan /\ ucan_carried sample_ext rich_ucan2 /\
  encode sample_ext rich_ucan <> encode sample_ext rich_ucan2.
Proof.
  split; [exact (proj1 (sign_carried sample_ext (repeat x61 32) _ _ rich_carried ltac:(vm_compute; reflexivity)))|].
  split; [exact (proj1 (sign_carried sample_ext (repeat x61 32) _ _ rich_carried2 ltac:(vm_compute; reflexivity)))|].
  intros E. vm_compute in E. discriminate.
Qed.

(* ------------------------------------------------------------------- C18 *)

Theorem C18_signature_covers_payload : forall X t u, parse_token X t = Ok u ->
  exists H P S rest hj pj,
    t = H ++ B "." ++ P ++ B "." ++ S ++ rest /\ (rest = [] \/ exists r, rest = B "." ++ r) /\
    ~ In x2e H /\ ~ In x2e P /\ ~ In x2e S /\
    u_signed_data u = H ++ B "." ++ P /\
    H = b64_encode hj /\ header_of_json X hj = Some (u_header u) /\
    P = b64_encode pj /\ payload_of_json X pj = Some (u_payload u) /\
    S = b64_encode (u_signature u).
Proof. exact parse_token_covers. Qed.
Print Assumptions C18_signature_covers_payload.

(** A token with white space in its JSON and unknown fields. *)
Definition loose_header : bytes := B "{ ""typ"":""JWT"", ""x"":[1,{}], ""alg"":""EdDSA""}".
Definition loose_payload : bytes :=
  B "{""ucv"":""0.10.0-canary"",""iss"":""did:key:z"",""aud"":""did:b"",""exp"":null,""cap"":{}}".
Definition token_of (h p s : bytes) : bytes := b64_encode h ++ B "." ++ b64_encode p ++ B "." ++ b64_encode s.
Definition loose_token : bytes := token_of loose_header loose_payload (B "sig").
Definition loose_ucan : ucan :=
  mkUcan (mkHeader (B "EdDSA") (B "JWT"))
         (mkPayload (B "0.10.0-canary") (B "did:key:z") (B "did:b") None None None [] None None)
         (b64_encode loose_header ++ B "." ++ b64_encode loose_payload) (B "sig").

Example C18_example : parse_token sample_ext loose_token = Ok loose_ucan.
Proof. vm_compute. reflexivity. Qed.

(* ------------------------------------------------------------------- C19 *)

(** Expected: a token has exactly two dots.  False: later segments are ignored. *)
Theorem C19_three_segments_refuted : exists X t u,
  parse_token X t = Ok u /\ (2 < count_occ Byte.byte_eq_dec t x2e)%nat.
Proof. exists sample_ext, (loose_token ++ B ".x.y"), loose_ucan. vm_compute. split; [reflexivity | lia]. Qed.
Print Assumptions C19_three_segments_refuted.

Theorem C19_extra_segments_partial : forall X t r, (2 <= count_occ Byte.byte_eq_dec t x2e)%nat ->
  parse_token X (t ++ B "." ++ r) = parse_token X t.
Proof. exact extra_segments_ignored. Qed.
Print Assumptions C19_extra_segments_partial.

Theorem C19_missing_segments_partial : forall X t u, parse_token X t = Ok u ->
  (2 <= count_occ Byte.byte_eq_dec t x2e)%nat.
Proof. exact two_dots_needed. Qed.
Print Assumptions C19_missing_segments_partial.

Theorem C19_ok_or_error_partial : forall X t,
  (exists u, parse_token X t = Ok u) \/ (exists e, parse_token X t = Err e).
Proof. exact parse_token_no_panic. Qed.
Print Assumptions C19_ok_or_error_partial.

Example C19_example : count_occ Byte.byte_eq_dec loose_token x2e = 2%nat /\
  parse_token sample_ext (b64_encode loose_header ++ B "." ++ b64_encode loose_payload) = Err EMissingSignature.
Proof. vm_compute. split; reflexivity. Qed.

(* ------------------------------------------------------------------- C20 *)

(** Expected: [encode u = t] whenever [t] parses to [u].  False: other spellings of the JSON. *)
Theorem C20_reencode_refuted : exists X t u, parse_token X t = Ok u /\ encode X u <> t /\
  count_occ Byte.byte_eq_dec t x2e = 2%nat.
Proof.
  exists sample_ext, loose_token, loose_ucan. split; [vm_compute; reflexivity|].
  split; [intros E; vm_compute in E; discriminate | vm_compute; reflexivity].
Qed.
Print Assumptions C20_reencode_refuted.

(** It holds exactly for the canonical tokens. *)
Theorem C20_reencode_partial : forall X t u,
  floats_survive X -> parse_token X t = Ok u -> payload_unreserved (u_payload u) ->
  (encode X u = t <-> exists v, ucan_carried X v /\ t = encode X v).
Proof. exact reencode_canonical. Qed.
Print Assumptions C20_reencode_partial.

Example C20_example : floats_survive sample_ext /\ payload_unreserved (u_payload root_ucan) /\
  parse_token sample_ext (encode sample_ext root_ucan) = Ok root_ucan.
Proof.
  split; [exact sample_floats|]. split; [|vm_compute; reflexivity]. split.
  - intros r abs a vs Hr Ha. vm_compute in Hr. destruct Hr as [[= <- <-] | []]. destruct Ha as [[= <- <-] | []]. concrete.
  - vm_compute. intros f [=].
Qed.

(* ------------------------------------------------------------------- C21 *)

Theorem C21_reencode_preserves : forall X t u,
  floats_survive X -> parse_token X t = Ok u -> payload_unreserved (u_payload u) ->
  exists u', parse_token X (encode X u) = Ok u' /\ content u' = content u /\ encode X u' = encode X u.
Proof. exact reencode_preserves. Qed.
Print Assumptions C21_reencode_preserves.

Example C21_example : floats_survive sample_ext /\ parse_token sample_ext loose_token = Ok loose_ucan /\
  payload_unreserved (u_payload loose_ucan) /\ u_signed_data loose_ucan <> signing_input sample_ext (u_header loose_ucan) (u_payload loose_ucan).
Proof.
  split; [exact sample_floats|]. split; [vm_compute; reflexivity|]. split.
  - split; [intros ? ? ? ? [] | intros f [=]].
  - intros E. vm_compute in E. discriminate.
Qed.

(* ------------------------------------------------------------------- C22 *)

(** Expected: whatever can be signed parses back.  False: a fact under the key "/" reads as a link. *)
Theorem C22_signed_parses_refuted : exists X rng s u e,
  sign X rng s = Ok u /\ parse_token X (encode X u) = Err e /\
  s_facts s = [(B "/", VStr (B "home"))].
Proof.
  exists sample_ext, [], (mkSignable (toy alice) (did_of bob) [] None None [(B "/", VStr (B "home"))] [] false),
    (make [IssuedBy (toy alice); ForAudience (did_of bob); WithFact (B "/") (Some (VStr (B "home")))]), EPayloadJson.
  vm_compute. repeat split.
Qed.
Print Assumptions C22_signed_parses_refuted.

Theorem C22_signed_parses_partial : forall X rng s u,
  signable_carried X s -> sign X rng s = Ok u -> exists v, parse_token X (encode X u) = Ok v /\ content v = content u.
Proof. exact signed_parses. Qed.
Print Assumptions C22_signed_parses_partial.

Example C22_example : signable_carried sample_ext rich_signable /\ sign sample_ext (repeat x61 32) rich_signable = Ok rich_ucan /\
  (match parse_token sample_ext (encode sample_ext rich_ucan) with Ok v => p_aud (u_payload v) = did_of bob | _ => False end) /\ s_facts rich_signable <> [].
Proof. split; [exact rich_carried|]. split; [vm_compute; reflexivity|]. split; [vm_compute; reflexivity | vm_compute; discriminate]. Qed.

(* ------------------------------------------------------------------- C23 *)

Theorem C23_signed_verifies : forall X rng s u k st, sign X rng s = Ok u ->
  (forall d g, key_sign (s_issuer s) d = Ok g -> key_verify k d g = Ok tt) ->
  (forall d, key_did (s_issuer s) = Ok d -> fst (did_parse (v_parser st) d) = Ok k) ->
  fst (check_signature u st) = Ok tt.
Proof. exact sign_verifies. Qed.
Print Assumptions C23_signed_verifies.

Theorem C23_signed_verifies_after_transport : forall X rng s u v k st, sign X rng s = Ok u ->
  signable_carried X s -> parse_token X (encode X u) = Ok v ->
  (forall d g, key_sign (s_issuer s) d = Ok g -> key_verify k d g = Ok tt) ->
  (forall d, key_did (s_issuer s) = Ok d -> fst (did_parse (v_parser st) d) = Ok k) ->
  fst (check_signature v st) = Ok tt.
Proof. exact sign_verifies_parsed. Qed.
Print Assumptions C23_signed_verifies_after_transport.

Example C23_example : (forall d g, key_sign (toy alice) d = Ok g -> key_verify (toy alice) d g = Ok tt) /\
  fst (did_parse sample_parser (did_of alice)) = Ok (toy alice) /\ s_issuer rich_signable = toy alice.
Proof.
  split; [|split; [vm_compute; reflexivity | reflexivity]].
  intros d g [= <-]. cbn. rewrite bytes_eqb_refl. reflexivity.
Qed.

(* ------------------------------------------------------------------- C24 *)

(** Expected: a valid UCAN's header names the algorithm of its issuer's key.  False: the header is never looked at. *)
Theorem C24_algorithm_matches_refuted : exists E t u k st,
  parse_token (e_ext E) t = Ok u /\ fst (validate E u None st) = Ok tt /\
  fst (did_parse (v_parser st) (p_iss (u_payload u))) = Ok k /\ h_alg (u_header u) <> key_alg k.
Proof.
  set (h := mkHeader (B "none") (B "JWT")). set (p := u_payload root_ucan).
  set (d := signing_input sample_ext h p). set (u := mkUcan h p d (alice ++ d)).
  exists (sample_env 50 []), (encode sample_ext u), u, (toy alice), sample_state.
  split; [vm_compute; reflexivity|]. split; [vm_compute; reflexivity|]. split; [vm_compute; reflexivity | discriminate].
Qed.
Print Assumptions C24_algorithm_matches_refuted.

Theorem C24_validation_ignores_header_partial : forall E h h' p d s now_time st,
  fst (validate E (mkUcan h p d s) now_time st) = fst (validate E (mkUcan h' p d s) now_time st).
Proof. exact header_irrelevant. Qed.
Print Assumptions C24_validation_ignores_header_partial.

Theorem C24_signed_header_partial : forall X rng s u, sign X rng s = Ok u ->
  h_alg (u_header u) = key_alg (s_issuer s) /\ h_typ (u_header u) = B "JWT".
Proof. exact sign_header. Qed.
Print Assumptions C24_signed_header_partial.

Example C24_example : sign sample_ext (repeat x61 32) rich_signable = Ok rich_ucan /\ h_alg (u_header rich_ucan) = key_alg (toy alice) /\ key_alg (toy alice) <> B "none" /\
  fst (validate (sample_env 50 []) root_ucan None sample_state) = Ok tt /\
  fst (validate (sample_env 50 []) (mkUcan (mkHeader (B "none") (B "x")) (u_payload root_ucan) (u_signed_data root_ucan) (u_signature root_ucan)) None sample_state) = Ok tt.
Proof. split; [vm_compute; reflexivity|]. split; [vm_compute; reflexivity|]. split; [vm_compute; discriminate|]. split; vm_compute; reflexivity. Qed.

(* ------------------------------------------------------------------- C25 *)

Theorem C25_parsed_payload_is_authentic : forall E t u now_time st,
  parse_token (e_ext E) t = Ok u -> fst (validate E u now_time st) = Ok tt ->
  exists k hj pj, fst (did_parse (v_parser st) (p_iss (u_payload u))) = Ok k /\
    key_verify k (b64_encode hj ++ B "." ++ b64_encode pj) (u_signature u) = Ok tt /\
    header_of_json (e_ext E) hj = Some (u_header u) /\ payload_of_json (e_ext E) pj = Some (u_payload u).
Proof. exact parsed_payload_authentic. Qed.
Print Assumptions C25_parsed_payload_is_authentic.

(** Any payload of the same issuer may be attached to genuine signed bytes. *)
Theorem C25_constructor_is_unchecked : forall E u now_time st h p,
  fst (validate E u now_time st) = Ok tt ->
  p_iss p = p_iss (u_payload u) -> p_exp p = None -> p_nbf p = None ->
  fst (validate E (mkUcan h p (u_signed_data u) (u_signature u)) now_time st) = Ok tt.
Proof. exact constructor_forgery. Qed.
Print Assumptions C25_constructor_is_unchecked.

Example C25_example : parse_token sample_ext (encode sample_ext root_ucan) = Ok root_ucan /\
  fst (validate (sample_env 50 []) root_ucan None sample_state) = Ok tt /\
  p_iss (u_payload root_ucan) = p_iss (u_payload (make [IssuedBy (toy alice); ForAudience (did_of mallory); ClaimingCapability (mail "root@x" "email/send" (VObj []))])).
Proof. vm_compute. repeat split. Qed.

(* ------------------------------------------------------------------- C60 *)

(** Building and signing gives the same UCAN (or error) for every order of independent additions. *)
Theorem C60_order_independent : forall X t rng before adds adds' after,
  Permutation adds adds' -> ForallOrdPairs independent adds ->
  (let? s := build X t (builder_run X (before ++ map addition_op adds ++ after)) in sign X rng s) =
  (let? s := build X t (builder_run X (before ++ map addition_op adds' ++ after)) in sign X rng s).
Proof. exact canonical_text. Qed.
Print Assumptions C60_order_independent.

Definition additions : list addition :=
  [AddFact (B "z") (VNum (PosInt 1)); AddClaim (mail "z@x" "email/send" obj1); AddFact (B "a") VNull;
   AddClaim (mail "a@x" "email/send" obj2); AddClaim (mail "a@x" "email/read" obj2)].

Example C60_example : Permutation additions (rev additions) /\ ForallOrdPairs independent additions /\ additions <> rev additions.
Proof.
  split; [apply Permutation_rev|]. split; [|discriminate].
  repeat (constructor; [repeat (constructor; [cbn; first [exact I | discriminate | left; discriminate | right; discriminate]|]); constructor|]). constructor.
Qed.

(* ------------------------------------------------------------------- C74 *)

(** Expected: a token without [exp] does not parse.  It parses, as never expiring. *)
Definition no_exp_payload : bytes := B "{""ucv"":""0.10.0-canary"",""iss"":""did:key:z"",""aud"":""did:b"",""cap"":{}}".

Theorem C74_exp_mandatory_refuted : exists X h p s m u,
  dagjson_decode X p = Some (IMap m) /\ mget (B "exp") m = None /\
  parse_token X (b64_encode h ++ B "." ++ b64_encode p ++ B "." ++ b64_encode s) = Ok u /\ p_exp (u_payload u) = None.
Proof.
  exists sample_ext, loose_header, no_exp_payload, (B "sig"),
    [(B "aud", IStr (B "did:b")); (B "cap", IMap []); (B "iss", IStr (B "did:key:z")); (B "ucv", IStr (B "0.10.0-canary"))],
    (mkUcan (u_header loose_ucan) (u_payload loose_ucan) (b64_encode loose_header ++ B "." ++ b64_encode no_exp_payload) (B "sig")).
  vm_compute. repeat split.
Qed.
Print Assumptions C74_exp_mandatory_refuted.

(** What the field means when a token parses: absent or null is "never", else the 64-bit number. *)
Theorem C74_exp_meaning_partial : forall X t u, parse_token X t = Ok u ->
  exists H P r pj m, t = H ++ B "." ++ P ++ B "." ++ r /\ ~ In x2e H /\ ~ In x2e P /\ P = b64_encode pj /\
    dagjson_decode X pj = Some (IMap m) /\
    (p_exp (u_payload u) = None <-> mget (B "exp") m = None \/ mget (B "exp") m = Some INull) /\
    (forall e, p_exp (u_payload u) = Some e <-> mget (B "exp") m = Some (IInt (Z.of_N e)) /\ (e <= 18446744073709551615)%N).
Proof. exact parse_token_exp. Qed.
Print Assumptions C74_exp_meaning_partial.

Example C74_example : parse_token sample_ext loose_token = Ok loose_ucan /\ p_exp (u_payload loose_ucan) = None /\
  parse_token sample_ext (encode sample_ext rich_ucan) = Ok rich_ucan /\ p_exp (u_payload rich_ucan) = s_expiration rich_signable /\ s_expiration rich_signable <> None.
Proof.
  split; [vm_compute; reflexivity|]. split; [vm_compute; reflexivity|]. split; [vm_compute; reflexivity|]. split; [vm_compute; reflexivity | vm_compute; discriminate].
Qed.

(* ------------------------------------------------------------------- C08 *)

Definition odd_payload : bytes :=
  B "{""ucv"":""0.10.0-canary"",""iss"":""did:key:z"",""aud"":""did:b"",""exp"":null,""cap"":{""a:"":{},""b:"":{""x/y"":[3]}}}".

(** Expected: parsed capabilities have the shape [Capabilities::try_from] enforces.  False. *)
Theorem C08_parsed_capabilities_refuted : exists X t u, parse_token X t = Ok u /\
  In (B "a:", []) (p_cap (u_payload u)) /\
  (exists abs, In (B "b:", abs) (p_cap (u_payload u)) /\ In (B "x/y", [VNum (PosInt 3)]) abs) /\
  ~ caps_shape (p_cap (u_payload u)).
Proof.
  set (c := [(B "a:", []); (B "b:", [(B "x/y", [VNum (PosInt 3)])])]).
  exists sample_ext, (token_of loose_header odd_payload (B "sig")),
    (mkUcan (u_header loose_ucan) (mkPayload (B "0.10.0-canary") (B "did:key:z") (B "did:b") None None None c None None)
       (b64_encode loose_header ++ B "." ++ b64_encode odd_payload) (B "sig")).
  split; [vm_compute; reflexivity|]. split; [left; reflexivity|].
  split; [exists [(B "x/y", [VNum (PosInt 3)])]; split; [right; left; reflexivity | left; reflexivity]|].
  intros Hs. destruct (Hs (B "a:") [] (or_introl eq_refl)) as [H _]. apply H. reflexivity.
Qed.
Print Assumptions C08_parsed_capabilities_refuted.

Theorem C08_signed_capabilities_partial : forall X rng s u, sign X rng s = Ok u ->
  caps_shape (p_cap (u_payload u)) /\ no_empty_caveats (p_cap (u_payload u)).
Proof. exact sign_caps_shape. Qed.
Print Assumptions C08_signed_capabilities_partial.

Theorem C08_transported_capabilities_partial : forall X rng s u v, sign X rng s = Ok u -> signable_carried X s ->
  parse_token X (encode X u) = Ok v -> caps_shape (p_cap (u_payload v)) /\ no_empty_caveats (p_cap (u_payload v)).
Proof. exact sign_caps_shape_parsed. Qed.
Print Assumptions C08_transported_capabilities_partial.

Example C08_example : signable_carried sample_ext rich_signable /\ sign sample_ext (repeat x61 32) rich_signable = Ok rich_ucan /\
  parse_token sample_ext (encode sample_ext rich_ucan) = Ok rich_ucan /\ p_cap (u_payload rich_ucan) <> [].
Proof. split; [exact rich_carried|]. split; [vm_compute; reflexivity|]. split; [vm_compute; reflexivity | vm_compute; discriminate]. Qed.
