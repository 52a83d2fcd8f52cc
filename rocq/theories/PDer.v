(** C129-C130: the encoding of RSA keys, and RSA keys generated in the browser. *)
From Verif Require Import Prelude Base58 Value Ext Key KeySupport Cbor WebCrypto Der Ucan Store Builder Spec SpecWire SpecCbor SpecWebCrypto SpecDer
  OrdFacts CborFacts DerFacts Samples SampleWebCrypto SampleDer.

(* ------------------------------------------------------------------- C129 *)

(** An RSA key is resolved from exactly the DER of an acceptable modulus and exponent. *)
Theorem C129_read_iff : forall Priv (sgn : Priv -> bytes -> option bytes) vrf sha256 bs k,
  bytes_to_rsa_key (rsa_crate sgn vrf) sha256 bs = Ok k <->
  exists n e, rsa_taken n e /\ rsa_public_key n e bs /\ k = rsa_key (rsa_crate sgn vrf) sha256 (n, e) None.
Proof. exact (fun Priv sgn vrf sha256 bs k => rsa_ctor_iff sgn vrf sha256 bs k). Qed.
Print Assumptions C129_read_iff.

Theorem C129_decode_iff : forall bs n e, rsa_from_pkcs1 bs = Some (n, e) <-> rsa_taken n e /\ rsa_public_key n e bs.
Proof. exact from_pkcs1_spec. Qed.
Print Assumptions C129_decode_iff.

Theorem C129_encode_iff : forall n e bs, rsa_to_pkcs1 (n, e) = Some bs <-> rsa_public_key n e bs.
Proof. exact to_pkcs1_iff. Qed.
Print Assumptions C129_encode_iff.

(** Keys of up to 65536 bits have an encoding; a key has only one and shares it with no other. *)
Theorem C129_encodes : forall n e, (N.size n <= 65536)%N -> (N.size e <= 65536)%N -> rsa_to_pkcs1 (n, e) <> None.
Proof. exact to_pkcs1_total. Qed.
Print Assumptions C129_encodes.

Theorem C129_one_encoding : forall n e t t', rsa_public_key n e t -> rsa_public_key n e t' -> t = t'.
Proof. exact public_key_unique. Qed.
Print Assumptions C129_one_encoding.

Theorem C129_distinct : forall n e n' e' t, rsa_public_key n e t -> rsa_public_key n' e' t -> n = n' /\ e = e'.
Proof. exact public_key_inj. Qed.
Print Assumptions C129_distinct.

(** The DID of a key, and what a parser makes of it: the key when the modulus has at most
    4096 bits and the numbers are acceptable, otherwise an error. *)
Theorem C129_did : forall Priv (sgn : Priv -> bytes -> option bytes) vrf sha256 n e sk t,
  rsa_public_key n e t -> key_did (rsa_key (rsa_crate sgn vrf) sha256 (n, e) sk) = Ok (did_key_text ([x85; x24] ++ t)).
Proof. exact (fun Priv sgn vrf sha256 n e sk t => rsa_did_text sgn vrf sha256 n e sk t). Qed.
Print Assumptions C129_did.

Theorem C129_resolves : forall Priv (sgn : Priv -> bytes -> option bytes) vrf sha256 n e sk t did slice dids,
  rsa_public_key n e t -> key_did (rsa_key (rsa_crate sgn vrf) sha256 (n, e) sk) = Ok did ->
  registered slice [x85; x24] (bytes_to_rsa_key (rsa_crate sgn vrf) sha256) ->
  (rsa_taken n e -> fst (did_parse (parser_after slice dids) did) = Ok (rsa_key (rsa_crate sgn vrf) sha256 (n, e) None)) /\
  (~ rsa_taken n e -> fst (did_parse (parser_after slice dids) did) = Err EKeyBytes).
Proof. exact (fun Priv sgn vrf sha256 n e sk t did slice dids => rsa_resolves sgn vrf sha256 n e sk t did slice dids). Qed.
Print Assumptions C129_resolves.

(** The layout: four octets in front of a modulus of 2048 bits; a superfluous zero, a long
    length, a negative number, an even modulus and a trailing byte are refused. *)
Example C129_example :
  option_map (firstn 9) (rsa_to_pkcs1 (mersenne 2048, 65537%N)) = Some [x30; x82; x01; x0a; x02; x82; x01; x01; x00] /\
  option_map (@length byte) (rsa_to_pkcs1 (mersenne 2048, 65537%N)) = Some 270%nat /\
  rsa_to_pkcs1 (143%N, 3%N) = Some [x30; x07; x02; x02; x00; x8f; x02; x01; x03] /\
  rsa_from_pkcs1 [x30; x07; x02; x02; x00; x8f; x02; x01; x03] = Some (143%N, 3%N) /\
  rsa_from_pkcs1 [x30; x08; x02; x03; x00; x00; x8f; x02; x01; x03] = None /\
  rsa_from_pkcs1 [x30; x81; x07; x02; x02; x00; x8f; x02; x01; x03] = None /\
  rsa_from_pkcs1 [x30; x06; x02; x01; x8f; x02; x01; x03] = None /\
  rsa_from_pkcs1 [x30; x07; x02; x02; x00; x8e; x02; x01; x03] = None /\
  rsa_from_pkcs1 [x30; x07; x02; x02; x00; x8f; x02; x01; x03; x00] = None /\
  rsa_taken 143 3 /\ ~ rsa_taken 142 3 /\ rsa_public_key 143 3 [x30; x07; x02; x02; x00; x8f; x02; x01; x03].
Proof.
  do 9 (split; [vm_compute; reflexivity|]). split; [apply rsa_check_iff; vm_compute; reflexivity|].
  split; [rewrite <- rsa_check_iff; vm_compute; discriminate | apply to_pkcs1_iff; vm_compute; reflexivity].
Qed.

(* ------------------------------------------------------------------- C130 *)

(** Expected: a key generated in the browser has the DID of that key.  False for keys of up
    to 935 bits, whose DID can be the one of another key: *)
Theorem C130_own_did_refuted :
  exists Priv (sgn : Priv -> bytes -> option bytes) vrf WPub WPriv (W : browser WPub WPriv) sha256 wk n n',
    exported_rsa W wk n 65537 /\ N.size n = 510%N /\ rsa_taken n 65537 /\ rsa_taken n' 65537 /\ n <> n' /\
    key_did (web_key (rsa_crate sgn vrf) W sha256 wk None) = key_did (rsa_key (rsa_crate sgn vrf) sha256 (n', 65537%N) None).
Proof.
  exists N, (fun n d => Some (der_uint_bytes n ++ d)), (fun pk d g => bytes_eqb g (der_uint_bytes (fst pk) ++ d)),
    N, N, modulus_browser, toy_sha, outer_modulus, outer_modulus, inner_modulus.
  split; [apply modulus_exported; vm_compute; discriminate|]. split; [vm_compute; reflexivity|].
  split; [apply rsa_check_iff; vm_compute; reflexivity|]. split; [apply rsa_check_iff; vm_compute; reflexivity|].
  split; [|vm_compute; reflexivity].
  intros H. apply (f_equal N.size) in H. vm_compute in H. discriminate.
Qed.
Print Assumptions C130_own_did_refuted.

(** [generate] asks for an RSASSA-PKCS1-v1_5 key with SHA-256, the exponent 65537, the size
    given or 2048 bits, that cannot be exported, for signing and verifying. *)
Theorem C130_asks_partial : forall WPub WPriv (W : browser WPub WPriv) gen size wk sk,
  web_generate W gen size = Ok (wk, sk) <->
  w_subtle W = Ok tt /\ exists k, sk = Some k /\
    gen (mkKeyParams (B "RSASSA-PKCS1-v1_5") (match size with Some bits => bits | None => 2048%N end) [x01; x00; x01] (B "SHA-256")
           false [B "sign"; B "verify"]) = Some (wk, k).
Proof. exact (fun WPub WPriv W gen size wk sk => web_generate_iff W gen size wk sk). Qed.
Print Assumptions C130_asks_partial.

(** From 936 bits on a key has its own DID for 1944 to 4096 bits, and otherwise none. *)
Theorem C130_generated_did_partial : forall Priv (sgn : Priv -> bytes -> option bytes) vrf WPub WPriv (W : browser WPub WPriv) sha256 gen size wk sk bits ks,
  generates W gen -> web_generate W gen size = Ok (wk, sk) ->
  bits = match size with Some k => k | None => 2048%N end -> (936 <= bits <= 65536)%N ->
  exists n, N.size n = bits /\ exported_rsa W wk n 65537 /\
    ((1944 <= bits <= 4096)%N -> rsa_taken n 65537 /\
       key_did (web_key (rsa_crate sgn vrf) W sha256 wk sk) = key_did (rsa_key (rsa_crate sgn vrf) sha256 (n, 65537%N) ks)) /\
    (~ (1944 <= bits <= 4096)%N -> key_did (web_key (rsa_crate sgn vrf) W sha256 wk sk) = Err EKeyBytes).
Proof. exact (fun Priv sgn vrf WPub WPriv W sha256 => generated_did sgn vrf W sha256). Qed.
Print Assumptions C130_generated_did_partial.

(** The same for any browser key with the exponent 65537. *)
Theorem C130_own_did_partial : forall Priv (sgn : Priv -> bytes -> option bytes) vrf WPub WPriv (W : browser WPub WPriv) sha256 wk wsk sk n,
  (936 <= N.size n <= 65536)%N -> exported_rsa W wk n 65537 ->
  ((1944 <= N.size n)%N /\ rsa_taken n 65537 ->
     key_did (web_key (rsa_crate sgn vrf) W sha256 wk wsk) = key_did (rsa_key (rsa_crate sgn vrf) sha256 (n, 65537%N) sk)) /\
  (~ ((1944 <= N.size n)%N /\ rsa_taken n 65537) -> key_did (web_key (rsa_crate sgn vrf) W sha256 wk wsk) = Err EKeyBytes).
Proof. exact (fun Priv sgn vrf WPub WPriv W sha256 => web_rsa_did sgn vrf W sha256). Qed.
Print Assumptions C130_own_did_partial.

(** Below 1944 bits a key never has its own DID. *)
Theorem C130_small_never_own_partial : forall Priv (sgn : Priv -> bytes -> option bytes) vrf WPub WPriv (W : browser WPub WPriv) sha256 wk wsk sk n,
  (N.size n < 1944)%N -> exported_rsa W wk n 65537 ->
  key_did (web_key (rsa_crate sgn vrf) W sha256 wk wsk) <> key_did (rsa_key (rsa_crate sgn vrf) sha256 (n, 65537%N) sk).
Proof. exact (fun Priv sgn vrf WPub WPriv W sha256 => web_small_did sgn vrf W sha256). Qed.
Print Assumptions C130_small_never_own_partial.

(** So tokens signed with keys of 1944 to 4096 bits, the default included, verify against native keys... *)
Theorem C130_token_verifies_partial : forall Priv (sgn : Priv -> bytes -> option bytes) vrf WPub WPriv (W : browser WPub WPriv) sha256
    X rng s u gen size wk sk bits slice dids st,
  generates W gen -> web_generate W gen size = Ok (wk, Some sk) ->
  bits = match size with Some k => k | None => 2048%N end -> (1944 <= bits <= 4096)%N ->
  s_issuer s = web_key (rsa_crate sgn vrf) W sha256 wk (Some sk) ->
  (forall n d g, exported_rsa W wk n 65537 -> w_sign W sk d = Some g -> vrf (n, 65537%N) (sha256 d) g = true) ->
  registered slice [x85; x24] (bytes_to_rsa_key (rsa_crate sgn vrf) sha256) -> v_parser st = parser_after slice dids ->
  sign X rng s = Ok u -> fst (check_signature u st) = Ok tt.
Proof. exact (fun Priv sgn vrf WPub WPriv W sha256 => generated_token sgn vrf W sha256). Qed.
Print Assumptions C130_token_verifies_partial.

(** ... and signing aborts for the other sizes from 936 bits on. *)
Theorem C130_sign_aborts_partial : forall Priv (sgn : Priv -> bytes -> option bytes) vrf WPub WPriv (W : browser WPub WPriv) sha256
    X rng s gen size wk sk bits,
  generates W gen -> web_generate W gen size = Ok (wk, sk) ->
  bits = match size with Some k => k | None => 2048%N end -> (936 <= bits <= 65536)%N -> ~ (1944 <= bits <= 4096)%N ->
  s_issuer s = web_key (rsa_crate sgn vrf) W sha256 wk sk -> sign X rng s = Panic PPayloadExpect.
Proof. exact (fun Priv sgn vrf WPub WPriv W sha256 => generated_sign sgn vrf W sha256). Qed.
Print Assumptions C130_sign_aborts_partial.

(** 2048 bits by default; the sizes that sign and those that abort. *)
Example C130_example :
  generates modulus_browser modulus_gen /\
  web_generate modulus_browser modulus_gen None = Ok (mersenne 2048, Some (mersenne 2048)) /\
  signed_and_checked None = Ok tt /\ signed_and_checked (Some 3072%N) = Ok tt /\
  signed_and_checked (Some 1024%N) = Panic PPayloadExpect /\ signed_and_checked (Some 8192%N) = Panic PPayloadExpect /\
  web_generate modulus_browser modulus_gen (Some 16%N) = Err EWebCrypto.
Proof.
  split; [exact modulus_generates|]. split; [exact (modulus_web None 2048 eq_refl eq_refl eq_refl)|].
  split; [exact (signed_ok None 2048 eq_refl eq_refl eq_refl)|]. split; [exact (signed_ok (Some 3072%N) 3072 eq_refl eq_refl eq_refl)|].
  split; [exact (signed_aborts (Some 1024%N) 1024 eq_refl eq_refl eq_refl eq_refl)|].
  split; [exact (signed_aborts (Some 8192%N) 8192 eq_refl eq_refl eq_refl eq_refl) | reflexivity].
Qed.
