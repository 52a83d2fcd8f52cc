(** ucan-key-support/src/web_crypto.rs:11-206.  The browser is a parameter; key generation
    (web_crypto.rs:42-102) is in Der.v. *)
From Verif Require Import Prelude Ord SMap Base58 Key Ipld KeySupport.

(** What the file uses of the browser: access to the API (web_crypto.rs:24-33: an error, or a
    panic when the global is something else), exporting a public key as SPKI ([None]: the
    [expect]s of lines 119-124 fail), signing and verifying (a rejected promise is an error). *)
Record browser (WPub WPriv : Type) := mkBrowser {
  w_subtle : res unit;
  w_export : WPub -> option bytes;
  w_sign : WPriv -> bytes -> option bytes;
  w_verify : WPub -> bytes -> bytes -> option bool
}.
Arguments mkBrowser {WPub WPriv}.
Arguments w_subtle {WPub WPriv}.
Arguments w_export {WPub WPriv}.
Arguments w_sign {WPub WPriv}.
Arguments w_verify {WPub WPriv}.

(** [convert_spki_to_rsa_public_key], web_crypto.rs:11-16 *)
Definition convert_spki_to_rsa_public_key (spki : bytes) : res bytes :=
  if (length spki <? 24)%nat then Panic PSpkiSlice else Ok (skipn 24 spki).

Section WebCrypto.
  Context {Pub Priv WPub WPriv : Type} (C : crypto Pub Priv) (W : browser WPub WPriv).

  (** [get_did], web_crypto.rs:111-132 *)
  Definition web_did (sha256 : bytes -> bytes) (wk : WPub) : res bytes :=
    let? _ := w_subtle W in
    match w_export W wk with
    | None => Panic PWebCrypto
    | Some spki =>
        let? bs := convert_spki_to_rsa_public_key spki in
        let? pk := ok_or (cr_decode C bs) EKeyBytes in
        key_did (rsa_key C sha256 pk None)
    end.

  (** [sign], web_crypto.rs:134-166 *)
  Definition web_sign (sk : option WPriv) (data : bytes) : res bytes :=
    match sk with
    | None => Err ENoPrivateKey
    | Some sk => let? _ := w_subtle W in ok_or (w_sign W sk data) EWebCrypto
    end.

  (** [verify], web_crypto.rs:168-205 *)
  Definition web_verify (wk : WPub) (data sig : bytes) : res unit :=
    let? _ := w_subtle W in
    let? valid := ok_or (w_verify W wk data sig) EWebCrypto in
    if valid then Ok tt else Err ESignature.

  (** [WebCryptoRsaKeyMaterial(pk, sk)], web_crypto.rs:20-21 and 105-206 *)
  Definition web_key (sha256 : bytes -> bytes) (wk : WPub) (sk : option WPriv) : key := {|
    key_alg := alg_to_string RS256;
    key_did := web_did sha256 wk;
    key_sign := web_sign sk;
    key_verify := web_verify wk
  |}.
End WebCrypto.
