(** Specifications about WebCrypto keys: DER and SPKI (X.690, RFC 5280, RFC 8017). *)
From Verif Require Import Prelude Key KeySupport WebCrypto.

(** The DER length octets, for contents below 16 MiB. *)
Definition der_length (n : N) : bytes :=
  if (n <? 128)%N then [byteN n]
  else if (n <? 256)%N then [x81; byteN n]
  else if (n <? 65536)%N then [x82; byteN (n / 256); byteN n]
  else [x83; byteN (n / 65536); byteN (n / 256); byteN n].
Definition der (tag : byte) (body : bytes) : bytes := [tag] ++ der_length (N.of_nat (length body)) ++ body.

(** AlgorithmIdentifier rsaEncryption, NULL. *)
Definition rsa_identifier : bytes :=
  [x30; x0d; x06; x09; x2a; x86; x48; x86; xf7; x0d; x01; x01; x01; x05; x00].

(** SubjectPublicKeyInfo of an RSA key with the given RSAPublicKey (PKCS#1) encoding. *)
Definition spki (pkcs1 : bytes) : bytes := der x30 (rsa_identifier ++ der x03 ([x00] ++ pkcs1)).

(** Only the key's own encoding decodes to it, and it is a DER sequence that starts with an integer. *)
Definition pkcs1_codec {Pub Priv} (C : crypto Pub Priv) : Prop :=
  (forall b pk, cr_decode C b = Some pk <-> cr_encode C pk = Some b) /\
  (forall b pk, cr_decode C b = Some pk -> exists body, b = der x30 ([x02] ++ body)).

(** In the browser, [wk] is the public key with the RSAPublicKey encoding [pkcs1]. *)
Definition exported {WPub WPriv} (W : browser WPub WPriv) (wk : WPub) (pkcs1 : bytes) : Prop :=
  w_subtle W = Ok tt /\ w_export W wk = Some (spki pkcs1).
