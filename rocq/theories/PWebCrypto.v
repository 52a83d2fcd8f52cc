(** C94-C96: keys of the browser's WebCrypto API. *)
From Verif Require Import Prelude Base58 Value Ext Key KeySupport WebCrypto Ucan Store Builder Spec SpecWebCrypto OrdFacts WebCryptoFacts Samples SampleWebCrypto.

(* ------------------------------------------------------------------- C94 *)

(** Expected: a key has the same DID in the browser as natively.  False for a
    1024-bit key, whose DID the browser's key cannot name at all: *)
Theorem C94_native_did_refuted :
  exists (C : crypto bool bool) (W : browser bool bool) sha256 wk pk b,
    pkcs1_codec C /\ cr_encode C pk = Some b /\ length b = 140%nat /\ exported W wk b /\
    key_did (web_key C W sha256 wk None) = Err EKeyBytes /\
    exists did, key_did (rsa_key C sha256 pk None) = Ok did.
Proof.
  exists web_crypto, sample_browser, toy_sha, false, false, small_key.
  split; [exact web_pkcs1|]. split; [reflexivity|]. split; [vm_compute; reflexivity|]. split; [exact (web_exported false)|].
  split; [vm_compute; reflexivity|]. eexists. reflexivity.
Qed.
Print Assumptions C94_native_did_refuted.

(** It does exactly for keys whose encoding has 255 to 65515 bytes. *)
Theorem C94_native_did_iff_partial : forall Pub Priv WPub WPriv (C : crypto Pub Priv) (W : browser WPub WPriv) sha256 wk pk b sk wsk,
  pkcs1_codec C -> cr_encode C pk = Some b -> exported W wk b ->
  (key_did (web_key C W sha256 wk wsk) = key_did (rsa_key C sha256 pk sk) <-> (255 <= N.of_nat (length b) <= 65515)%N).
Proof. exact (fun Pub Priv WPub WPriv C W sha256 wk pk b sk wsk => web_did_native_iff C W sha256 wk pk b sk wsk). Qed.
Print Assumptions C94_native_did_iff_partial.

(** Other sizes from 127 bytes on have no DID... *)
Theorem C94_other_sizes_partial : forall Pub Priv WPub WPriv (C : crypto Pub Priv) (W : browser WPub WPriv) sha256 wk pk b wsk,
  pkcs1_codec C -> cr_encode C pk = Some b -> exported W wk b ->
  (127 <= length b)%nat -> ~ (255 <= N.of_nat (length b) <= 65515)%N ->
  key_did (web_key C W sha256 wk wsk) = Err EKeyBytes.
Proof. exact (fun Pub Priv WPub WPriv C W sha256 wk pk b wsk => web_did_other_sizes C W sha256 wk pk b wsk). Qed.
Print Assumptions C94_other_sizes_partial.

(** ... and signing a token with them aborts. *)
Theorem C94_other_sizes_abort_partial : forall Pub Priv WPub WPriv (C : crypto Pub Priv) (W : browser WPub WPriv) sha256 X rng s wk pk b wsk,
  s_issuer s = web_key C W sha256 wk wsk ->
  pkcs1_codec C -> cr_encode C pk = Some b -> exported W wk b ->
  (127 <= length b)%nat -> ~ (255 <= N.of_nat (length b) <= 65515)%N ->
  sign X rng s = Panic PPayloadExpect.
Proof. exact (fun Pub Priv WPub WPriv C W sha256 X rng s wk pk b wsk => web_sign_other_sizes C W sha256 X rng s wk pk b wsk). Qed.
Print Assumptions C94_other_sizes_abort_partial.

Example C94_example :
  length big_key = 270%nat /\ firstn 4 big_key = [x30; x82; x01; x0a] /\
  firstn 25 (spki big_key) = [x30; x82; x01; x22; x30; x0d; x06; x09; x2a; x86; x48; x86; xf7; x0d; x01; x01; x01; x05; x00;
                              x03; x82; x01; x0f; x00; x30] /\
  exported sample_browser true big_key /\ (exists did, key_did (rsa_key web_crypto toy_sha true None) = Ok did) /\
  firstn 23 (spki small_key) = [x30; x81; x9f; x30; x0d; x06; x09; x2a; x86; x48; x86; xf7; x0d; x01; x01; x01; x05; x00;
                                x03; x81; x8d; x00; x30] /\
  sign sample_ext [] (web_signable false) = Panic PPayloadExpect.
Proof.
  split; [vm_compute; reflexivity|]. split; [vm_compute; reflexivity|]. split; [vm_compute; reflexivity|].
  split; [exact (web_exported true)|]. split; [eexists; reflexivity|]. split; vm_compute; reflexivity.
Qed.

(* ------------------------------------------------------------------- C95 *)

(** A token signed in the browser is accepted by parsers that know native RSA keys. *)
Theorem C95_token_verifies_natively : forall Pub Priv WPub WPriv (C : crypto Pub Priv) (W : browser WPub WPriv) sha256 X rng s u wk wsk pk b slice dids st,
  s_issuer s = web_key C W sha256 wk (Some wsk) ->
  pkcs1_codec C -> cr_encode C pk = Some b -> exported W wk b ->
  (forall d g, w_sign W wsk d = Some g -> cr_verify C pk (sha256 d) g = true) ->
  registered slice [x85; x24] (bytes_to_rsa_key C sha256) -> v_parser st = parser_after slice dids ->
  (255 <= N.of_nat (length b) <= 65515)%N ->
  sign X rng s = Ok u -> fst (check_signature u st) = Ok tt.
Proof. exact (fun Pub Priv WPub WPriv C W sha256 X rng s u wk wsk pk b slice dids st => web_token_verifies C W sha256 X rng s u wk wsk pk b slice dids st). Qed.
Print Assumptions C95_token_verifies_natively.

(** It names the algorithm of native RSA keys. *)
Theorem C95_algorithm : forall Pub Priv WPub WPriv (C : crypto Pub Priv) (W : browser WPub WPriv) sha256 X rng s u wk sk,
  s_issuer s = web_key C W sha256 wk sk -> sign X rng s = Ok u ->
  key_alg (s_issuer s) = B "RS256" /\ h_alg (u_header u) = B "RS256".
Proof. exact (fun Pub Priv WPub WPriv C W sha256 X rng s u wk sk => web_token_algorithm C W sha256 X rng s u wk sk). Qed.
Print Assumptions C95_algorithm.

Theorem C95_signs_iff : forall Pub Priv WPub WPriv (C : crypto Pub Priv) (W : browser WPub WPriv) sha256 wk sk d g,
  key_sign (web_key C W sha256 wk sk) d = Ok g <->
  w_subtle W = Ok tt /\ exists k, sk = Some k /\ w_sign W k d = Some g.
Proof. exact (fun Pub Priv WPub WPriv C W sha256 wk sk d g => web_sign_iff C W sha256 wk sk d g). Qed.
Print Assumptions C95_signs_iff.

Theorem C95_verifies_iff : forall Pub Priv WPub WPriv (C : crypto Pub Priv) (W : browser WPub WPriv) sha256 wk sk d g,
  key_verify (web_key C W sha256 wk sk) d g = Ok tt <->
  w_subtle W = Ok tt /\ w_verify W wk d g = Some true.
Proof. exact (fun Pub Priv WPub WPriv C W sha256 wk sk d g => web_verify_iff C W sha256 wk sk d g). Qed.
Print Assumptions C95_verifies_iff.

Definition web_parser : did_parser := did_parser_new [([x85; x24], bytes_to_rsa_key web_crypto toy_sha)].
Example C95_example :
  (forall d g, w_sign sample_browser true d = Some g -> cr_verify web_crypto true (toy_sha d) g = true) /\
  (let? u := sign sample_ext [] (web_signable true) in fst (check_signature u (mkState web_parser 0 0 0))) = Ok tt /\
  key_sign (web_key web_crypto sample_browser toy_sha true None) (B "data") = Err ENoPrivateKey /\
  key_verify (web_key web_crypto sample_browser toy_sha true None) (B "data") (B "sig") = Err ESignature.
Proof.
  split; [intros d g [= <-]; apply bytes_eqb_refl|]. split; [vm_compute; reflexivity|]. split; vm_compute; reflexivity.
Qed.

(* ------------------------------------------------------------------- C96 *)

(** Expected: bytes that are no SubjectPublicKeyInfo are refused.  False: *)
Theorem C96_checks_header_refuted : exists s b,
  (forall b', s <> spki b') /\ convert_spki_to_rsa_public_key s = Ok b /\ convert_spki_to_rsa_public_key (spki b) = Ok b.
Proof.
  exists (repeat x00 24 ++ big_key), big_key. split; [intros b'; unfold spki, der; discriminate|].
  split; vm_compute; reflexivity.
Qed.
Print Assumptions C96_checks_header_refuted.

Theorem C96_never_aborts_refuted : exists s p, convert_spki_to_rsa_public_key s = Panic p.
Proof. exists [], PSpkiSlice. reflexivity. Qed.
Print Assumptions C96_never_aborts_refuted.

(** It drops 24 bytes whatever they are, and aborts if there are fewer. *)
Theorem C96_converts_iff_partial : forall s b,
  convert_spki_to_rsa_public_key s = Ok b <-> exists h, s = h ++ b /\ length h = 24%nat.
Proof. exact convert_spki_iff. Qed.
Print Assumptions C96_converts_iff_partial.

Theorem C96_aborts_iff_partial : forall s p,
  convert_spki_to_rsa_public_key s = Panic p <-> p = PSpkiSlice /\ (length s < 24)%nat.
Proof. exact convert_spki_panic. Qed.
Print Assumptions C96_aborts_iff_partial.

(** Asking for a DID aborts exactly if the export fails or is that short. *)
Theorem C96_did_aborts_iff_partial : forall Pub Priv WPub WPriv (C : crypto Pub Priv) (W : browser WPub WPriv) sha256 wk p,
  (forall q, w_subtle W <> Panic q) ->
  (key_did (web_key C W sha256 wk None) = Panic p <->
   w_subtle W = Ok tt /\ ((w_export W wk = None /\ p = PWebCrypto) \/
     exists s, w_export W wk = Some s /\ (length s < 24)%nat /\ p = PSpkiSlice)).
Proof. exact (fun Pub Priv WPub WPriv C W sha256 wk p => web_did_panic C W sha256 wk p). Qed.
Print Assumptions C96_did_aborts_iff_partial.

Example C96_example :
  convert_spki_to_rsa_public_key (B "123456789012345678901234key") = Ok (B "key") /\
  convert_spki_to_rsa_public_key (B "12345678901234567890123") = Panic PSpkiSlice /\
  key_did (web_key web_crypto (mkBrowser (Ok tt) (fun _ : bool => Some [x30; x00]) (w_sign sample_browser) (w_verify sample_browser)) toy_sha true None) = Panic PSpkiSlice /\
  key_did (web_key web_crypto (mkBrowser (Ok tt) (fun _ : bool => None) (w_sign sample_browser) (w_verify sample_browser)) toy_sha true None) = Panic PWebCrypto.
Proof. repeat split; vm_compute; reflexivity. Qed.
