(** Reading CIDs, and the errors of keys (C118-C119). *)
From Verif Require Import Prelude Ord SMap Base58 Value Cid Ext Key KeySupport WebCrypto Ucan Spec SpecWire SpecIpld SpecKeys
  KeysFacts Samples SampleWebCrypto.

(* ------------------------------------------------------------------ C118 *)

Theorem C118_cid_bytes : forall s c, cid_of_bytes s = Some c <-> cid_bytes s c.
Proof. exact cid_bytes_iff. Qed.
Print Assumptions C118_cid_bytes.

Theorem C118_cid_text : forall X t c, parse_cid X t = Some c <-> cid_text X t c.
Proof. exact cid_text_iff. Qed.
Print Assumptions C118_cid_text.

(** What is read is a version-0 or a version-1 CID. *)
Theorem C118_versions : forall X t c, parse_cid X t = Some c -> cid_v0 c \/ cid_v1 c.
Proof. exact cid_text_versions. Qed.
Print Assumptions C118_versions.

(** The text of a version-0 CID is 46 letters starting with "Qm", and is read back. *)
Theorem C118_version_0_text : forall X c, cid_v0 c ->
  parse_cid X (cid_to_string c) = Some c /\ exists r, cid_to_string c = B "Qm" ++ r /\ length r = 44%nat.
Proof. exact cid_v0_text. Qed.
Print Assumptions C118_version_0_text.

(** The digest of nothing in four spellings; no spelling without a digest. *)
Definition empty_digest : bytes :=
  [xe3; xb0; xc4; x42; x98; xfc; x1c; x14; x9a; xfb; xf4; xc8; x99; x6f; xb9; x24;
   x27; xae; x41; xe4; x64; x9b; x93; x4c; xa4; x95; x99; x1b; x78; x52; xb8; x55].
Example C118_example :
  cid_v0 (mkCid 0 112 18 empty_digest) /\
  cid_to_string (mkCid 0 112 18 empty_digest) = B "QmdfTbBqBPQ7VNxZEYEj14VmRuZBkqFbiwReogJgS1zR1n" /\
  parse_cid sample_ext (B "https://x/ipfs/QmdfTbBqBPQ7VNxZEYEj14VmRuZBkqFbiwReogJgS1zR1n") = Some (mkCid 0 112 18 empty_digest) /\
  parse_cid sample_ext (B "bafybeihdwdcefgh4dqkjv67uzcmw7ojee6xedzdetojuzjevtenxquvyku") = Some (mkCid 1 112 18 empty_digest) /\
  parse_cid sample_ext (B "zdj7WhuEjrB52m1BisYCtmjH1hSKa7yZ3jEZ9JcXaFRD51wVz") <> None /\
  parse_cid sample_ext (B "/ipfs/x/ipfs/bafybeihdwdcefgh4dqkjv67uzcmw7ojee6xedzdetojuzjevtenxquvyku") = None /\
  parse_cid sample_ext (B "QmdfTbBqBPQ7VNxZEYEj14VmRuZBkqFbiwReogJgS1zR1") = None /\ parse_cid sample_ext (B "b") = None.
Proof. vm_compute. repeat split; discriminate. Qed.

(* ------------------------------------------------------------------ C119 *)

(** Every outcome of signing and verifying with the keys of the key-support crate. *)
Theorem C119_native_sign : forall Pub Priv (C : crypto Pub Priv) pk sk digest k d r, native C pk sk digest k ->
  (key_sign k d = r <-> (sk = None /\ r = Err ENoPrivateKey) \/
   exists p, sk = Some p /\ ((exists g, cr_sign C p (digest d) = Some g /\ r = Ok g) \/ (cr_sign C p (digest d) = None /\ r = Err ESigning))).
Proof. exact @native_sign. Qed.
Print Assumptions C119_native_sign.

Theorem C119_native_verify : forall Pub Priv (C : crypto Pub Priv) pk sk digest k d g r, native C pk sk digest k ->
  (key_verify k d g = r <-> (cr_verify C pk (digest d) g = true /\ r = Ok tt) \/ (cr_verify C pk (digest d) g = false /\ r = Err ESignature)).
Proof. exact @native_verify. Qed.
Print Assumptions C119_native_verify.

(** A DID with a known prefix whose bytes are no public key. *)
Theorem C119_bad_key_bytes : forall slice dids m c rest, length m = 2%nat -> registered slice m c -> undecodable rest c ->
  fst (did_parse (parser_after slice dids) (did_key_text (m ++ rest))) = Err EKeyBytes.
Proof. exact undecodable_error. Qed.
Print Assumptions C119_bad_key_bytes.

(** The same for keys in a browser, while its API is available ... *)
Theorem C119_web_sign : forall Pub Priv WPub WPriv (C : crypto Pub Priv) (W : browser WPub WPriv) sha256 wk sk d r,
  w_subtle W = Ok tt ->
  (key_sign (web_key C W sha256 wk sk) d = r <-> (sk = None /\ r = Err ENoPrivateKey) \/
   exists p, sk = Some p /\ ((exists g, w_sign W p d = Some g /\ r = Ok g) \/ (w_sign W p d = None /\ r = Err EWebCrypto))).
Proof. exact @web_sign_outcome. Qed.
Print Assumptions C119_web_sign.

Theorem C119_web_verify : forall Pub Priv WPub WPriv (C : crypto Pub Priv) (W : browser WPub WPriv) sha256 wk sk d g r,
  w_subtle W = Ok tt ->
  (key_verify (web_key C W sha256 wk sk) d g = r <-> (w_verify W wk d g = Some true /\ r = Ok tt) \/
   (w_verify W wk d g = Some false /\ r = Err ESignature) \/ (w_verify W wk d g = None /\ r = Err EWebCrypto)).
Proof. exact @web_verify_outcome. Qed.
Print Assumptions C119_web_verify.

(** ... and while it is not: a missing private key is noticed first. *)
Theorem C119_web_unavailable : forall Pub Priv WPub WPriv (C : crypto Pub Priv) (W : browser WPub WPriv) sha256 wk sk d g e,
  w_subtle W = Err e ->
  key_did (web_key C W sha256 wk sk) = Err e /\ key_verify (web_key C W sha256 wk sk) d g = Err e /\
  key_sign (web_key C W sha256 wk sk) d = Err (match sk with None => ENoPrivateKey | Some _ => e end).
Proof. exact @web_unavailable. Qed.
Print Assumptions C119_web_unavailable.

(** Keys whose bytes must be "four"; a browser that refuses. *)
Definition four_crypto : crypto bytes bytes :=
  mkCrypto Some (fun b => if bytes_eqb b (B "four") then Some b else None)
           (fun k d => if bytes_eqb d [] then None else Some (k ++ d)) (fun k d g => bytes_eqb g (k ++ d)).
Definition refusing_browser : browser bool bool := mkBrowser (Ok tt) (fun _ => None) (fun _ _ => None) (fun _ _ _ => None).
Example C119_example :
  native four_crypto (B "four") (Some (B "four")) (fun d => d) (p256_key four_crypto (B "four") (Some (B "four"))) /\
  key_sign (p256_key four_crypto (B "four") (Some (B "four"))) (B "x") = Ok (B "fourx") /\
  key_sign (p256_key four_crypto (B "four") (Some (B "four"))) [] = Err ESigning /\
  key_verify (p256_key four_crypto (B "four") None) (B "x") (B "fourx") = Ok tt /\
  undecodable (B "five") (bytes_to_p256_key four_crypto) /\
  match fst (did_parse (did_parser_new [(p256_magic, bytes_to_p256_key four_crypto)]) (did_key_text (p256_magic ++ B "five"))) with
  | Err e => e = EKeyBytes | _ => False end /\
  key_sign (web_key web_crypto refusing_browser toy_sha true (Some true)) (B "x") = Err EWebCrypto /\
  key_verify (web_key web_crypto refusing_browser toy_sha true None) (B "x") (B "y") = Err EWebCrypto.
Proof.
  split; [constructor|]. split; [reflexivity|]. split; [reflexivity|]. split; [reflexivity|].
  split; [constructor; reflexivity|]. split; [vm_compute; reflexivity|]. split; reflexivity.
Qed.
