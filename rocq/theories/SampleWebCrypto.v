(** Two RSA keys, natively and in a browser. *)
From Verif Require Import Prelude Ord Base58 Value Key KeySupport WebCrypto Ucan Builder SpecWebCrypto OrdFacts Samples.

(** RSAPublicKey of a modulus and the exponent 65537: 270 bytes for 2048 bits, 140 for 1024. *)
Definition pkcs1_of (modulus : bytes) : bytes := der x30 (der x02 (x00 :: modulus) ++ [x02; x03; x01; x00; x01]).
Definition big_key : bytes := pkcs1_of (repeat xc5 256).
Definition small_key : bytes := pkcs1_of (repeat xc5 128).
Definition web_bytes (k : bool) : bytes := if k then big_key else small_key.
Definition toy_sha (d : bytes) : bytes := x53 :: d.

(** [true] is the 2048-bit key; a signature repeats the digest after the key's bit. *)
Definition web_tag (k : bool) : byte := if k then x01 else x00.
Definition web_crypto : crypto bool bool :=
  mkCrypto (fun k => Some (web_bytes k))
           (fun b => if bytes_eqb b big_key then Some true else if bytes_eqb b small_key then Some false else None)
           (fun sk d => Some (web_tag sk :: d)) (fun pk d g => bytes_eqb g (web_tag pk :: d)).
Definition sample_browser : browser bool bool :=
  mkBrowser (Ok tt) (fun k => Some (spki (web_bytes k))) (fun sk d => Some (web_tag sk :: toy_sha d))
            (fun pk d g => Some (bytes_eqb g (web_tag pk :: toy_sha d))).

Lemma web_pkcs1 : pkcs1_codec web_crypto.
Proof.
  assert (bytes_eqb small_key big_key = false) as Hne by (vm_compute; reflexivity).
  split.
  - intros b [|]; cbn [cr_decode cr_encode web_crypto web_bytes]; split.
    + destruct (bytes_eqb b big_key) eqn:E; [intros _; apply bytes_eqb_eq in E; congruence|].
      destruct (bytes_eqb b small_key); discriminate.
    + intros [= <-]. rewrite bytes_eqb_refl. reflexivity.
    + destruct (bytes_eqb b big_key) eqn:E; [discriminate|].
      destruct (bytes_eqb b small_key) eqn:E'; [intros _; apply bytes_eqb_eq in E'; congruence | discriminate].
    + intros [= <-]. rewrite Hne, bytes_eqb_refl. reflexivity.
  - intros b pk. cbn [cr_decode web_crypto]. destruct (bytes_eqb b big_key) eqn:E; [|destruct (bytes_eqb b small_key) eqn:E'].
    + apply bytes_eqb_eq in E. intros _. exists (tl (der x02 (x00 :: repeat xc5 256) ++ [x02; x03; x01; x00; x01])). rewrite E. vm_compute. reflexivity.
    + apply bytes_eqb_eq in E'. intros _. exists (tl (der x02 (x00 :: repeat xc5 128) ++ [x02; x03; x01; x00; x01])). rewrite E'. vm_compute. reflexivity.
    + discriminate.
Qed.

Lemma web_exported k : exported sample_browser k (web_bytes k).
Proof. split; reflexivity. Qed.

Definition web_signable (k : bool) : signable :=
  mkSignable (web_key web_crypto sample_browser toy_sha k (Some k)) (did_of bob) [] None None [] [] false.
