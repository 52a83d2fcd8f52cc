(** C103-C107: the wire formats. *)
From Verif Require Import Prelude Ord SMap BaseN Base58 Value Cid Ext Json Capability Key Ucan Builder KeySupport Spec SpecIpldSerde SpecWire
  WireFacts Samples.

(* ------------------------------------------------------------------ C103 *)

(** The text of a UCAN, byte for byte. *)
Theorem C103_token_text : forall X u t, encode X u = t <-> token_text X u t.
Proof. exact encode_is_token_text. Qed.
Print Assumptions C103_token_text.

Theorem C103_header_text : forall X h t, header_to_json X h = t <-> header_text h t.
Proof. exact (fun X h t => conj (fun E => proj2 (header_text_iff X h t) (eq_sym E)) (fun H => eq_sym (proj1 (header_text_iff X h t) H))). Qed.
Print Assumptions C103_header_text.

Theorem C103_payload_text : forall X p t, payload_to_json X p = t <-> payload_text X p t.
Proof. exact (fun X p t => conj (fun E => proj2 (payload_text_iff X p t) (eq_sym E)) (fun H => eq_sym (proj1 (payload_text_iff X p t) H))). Qed.
Print Assumptions C103_payload_text.

(** What signing puts in the constant fields. *)
Theorem C103_constants : forall X rng s u, sign X rng s = Ok u ->
  h_typ (u_header u) = B "JWT" /\ h_alg (u_header u) = key_alg (s_issuer s) /\ p_ucv (u_payload u) = B "0.10.0-canary".
Proof. exact signed_constants. Qed.
Print Assumptions C103_constants.

Definition tab_ucan : ucan :=
  mkUcan (mkHeader (B "Ed") (B "JWT"))
    (mkPayload (B "1") (B "did:a") (B "did:b") None (Some 10%N) None [(B "x:1", [(B "a/b", [VObj []; VNum (NegInt (-7))])])]
       (Some [(B "k", VStr [x09; x22; x01])]) None) [] [xfb].

Example C103_example :
  payload_to_json sample_ext (u_payload tab_ucan) =
    B "{""aud"":""did:b"",""cap"":{""x:1"":{""a/b"":[{},-7]}},""exp"":null,""fct"":{""k"":""\t\""\u0001""},""iss"":""did:a"",""nbf"":10,""ucv"":""1""}" /\
  encode sample_ext tab_ucan = B "eyJhbGciOiJFZCIsInR5cCI6IkpXVCJ9.eyJhdWQiOiJkaWQ6YiIsImNhcCI6eyJ4OjEiOnsiYS9iIjpbe30sLTddfX0sImV4cCI6bnVsbCwiZmN0Ijp7ImsiOiJcdFwiXHUwMDAxIn0sImlzcyI6ImRpZDphIiwibmJmIjoxMCwidWN2IjoiMSJ9.-w" /\
  sign sample_ext (repeat x61 32) rich_signable = Ok rich_ucan.
Proof. split; [vm_compute; reflexivity|]. split; vm_compute; reflexivity. Qed.

(* ------------------------------------------------------------------ C104 *)

(** Exactly the texts that are read as tokens, and as what. *)
Theorem C104_token_read : forall X t u, parse_token X t = Ok u <-> token_read X t u.
Proof. exact parse_token_read. Qed.
Print Assumptions C104_token_read.

Definition odd_header : bytes := B "{ ""typ"":""JWT"", ""x"":[1], ""alg"":""none""}".
Definition odd_payload : bytes := B "{""prf"":[],""ucv"":""9"",""iss"":"""",""aud"":""b"",""nbf"":null,""exp"":3,""cap"":{""r"":{""a"":[]}}}".
Definition odd_ucan : ucan :=
  mkUcan (mkHeader (B "none") (B "JWT")) (mkPayload (B "9") [] (B "b") (Some 3%N) None None [(B "r", [(B "a", [])])] None (Some []))
    (base64url odd_header ++ B "." ++ base64url odd_payload) (B "sig").

(** White space, unknown fields, any order, an empty list of caveats, and a fourth segment. *)
Example C104_example :
  parse_token sample_ext (base64url odd_header ++ B "." ++ base64url odd_payload ++ B "." ++ base64url (B "sig") ++ B ".#") = Ok odd_ucan /\
  token_read sample_ext (base64url odd_header ++ B "." ++ base64url odd_payload ++ B "." ++ base64url (B "sig") ++ B ".#") odd_ucan.
Proof.
  assert (parse_token sample_ext (base64url odd_header ++ B "." ++ base64url odd_payload ++ B "." ++ base64url (B "sig") ++ B ".#") = Ok odd_ucan) as H
    by (vm_compute; reflexivity).
  split; [exact H | apply C104_token_read, H].
Qed.

(* ------------------------------------------------------------------ C105 *)

(** The encodings are those of the standards. *)
Theorem C105_base64url : forall bs, b64_encode bs = base64url bs.
Proof. exact b64_encode_rfc. Qed.
Print Assumptions C105_base64url.

Theorem C105_base32 : forall bs, b32_encode bs = base32 bs.
Proof. exact b32_encode_rfc. Qed.
Print Assumptions C105_base32.

Theorem C105_base58 : forall bs t, base58_text bs t <-> t = b58_encode bs.
Proof. exact base58_text_iff. Qed.
Print Assumptions C105_base58.

Theorem C105_decimal : forall n t, decimal_text n t <-> t = dec_print n.
Proof. exact decimal_text_iff. Qed.
Print Assumptions C105_decimal.

Example C105_example :
  map base64url [B "f"; B "fo"; B "foo"; B "foob"; B "fooba"; B "foobar"; [xfb; xff]] =
    [B "Zg"; B "Zm8"; B "Zm9v"; B "Zm9vYg"; B "Zm9vYmE"; B "Zm9vYmFy"; B "-_8"] /\
  map base32 [B "f"; B "fo"; B "foo"; B "foob"; B "fooba"; B "foobar"] =
    [B "my"; B "mzxq"; B "mzxw6"; B "mzxw6yq"; B "mzxw6ytb"; B "mzxw6ytboi"] /\
  base58_text (B "Hello World!") (B "2NEpo7TZRRrLZSi2U") /\ base58_text [x00; x00; x28; x7f; xb4; xcd] (B "11233QC4") /\
  decimal_text 1005 (B "1005").
Proof.
  split; [vm_compute; reflexivity|]. split; [vm_compute; reflexivity|].
  split; [apply C105_base58; vm_compute; reflexivity|]. split; [apply C105_base58; vm_compute; reflexivity|].
  apply C105_decimal. vm_compute. reflexivity.
Qed.

(* ------------------------------------------------------------------ C106 *)

(** The identifier of a UCAN: version 1, raw codec, hash function, digest of its text. *)
Theorem C106_cid_text : forall X code u t, token_text X u t -> (code <= 18446744073709551615)%N -> (length (x_hash X code t) <= 64)%nat ->
  exists cb, shortest_varint code cb /\
    cid_to_string (to_cid X code u) = B "b" ++ base32 ([x01; x55] ++ cb ++ [byteN (N.of_nat (length (x_hash X code t)))] ++ x_hash X code t).
Proof. exact cid_text_of. Qed.
Print Assumptions C106_cid_text.

(** By default a proof is referred to by its BLAKE3-256 digest. *)
Theorem C106_default_proof : forall X b u t, token_text X u t -> length (x_hash X 30 t) = 32%nat ->
  b_proofs (builder_step X b (WitnessedBy u None)) = b_proofs b ++ [B "b" ++ base32 ([x01; x55; x1e; x20] ++ x_hash X 30 t)].
Proof. exact default_proof_text. Qed.
Print Assumptions C106_default_proof.

Definition long_hash_ext : ext :=
  mkExt (x_f64_print sample_ext) (x_f64_parse sample_ext) true true (fun _ _ => None) (fun _ _ => None) (fun _ s => repeat (byteN (N.of_nat (length s))) 32) true.

Example C106_example :
  token_text long_hash_ext tab_ucan (encode long_hash_ext tab_ucan) /\
  (length (x_hash long_hash_ext 30 (encode long_hash_ext tab_ucan)) = 32)%nat /\
  b_proofs (builder_step long_hash_ext builder_default (WitnessedBy tab_ucan None)) =
    [B "bafkr4if4xs6lzpf4xs6lzpf4xs6lzpf4xs6lzpf4xs6lzpf4xs6lzpf4xq"] /\
  cid_to_string (to_cid long_hash_ext 45600 tab_ucan) =
    B "b" ++ base32 ([x01; x55; xa0; xe4; x02; x20] ++ x_hash long_hash_ext 45600 (encode long_hash_ext tab_ucan)).
Proof. split; [apply C103_token_text; reflexivity|]. split; [vm_compute; reflexivity|]. split; vm_compute; reflexivity. Qed.

(* ------------------------------------------------------------------ C107 *)

(** The DID of a key: "did:key:z" and base58btc of the two bytes of its type followed by the public key. *)
Theorem C107_did_text : forall m b k, supported_key m b k ->
  exists text, key_did k = Ok (B "did:key:z" ++ text) /\ base58_text (m ++ b) text.
Proof. exact key_did_text. Qed.
Print Assumptions C107_did_text.

Theorem C107_algorithm_names : forall Pub Priv (C : crypto Pub Priv) sha256 pk sk,
  key_alg (ed25519_key C pk sk) = B "EdDSA" /\ key_alg (p256_key C pk sk) = B "ES256" /\ key_alg (rsa_key C sha256 pk sk) = B "RS256".
Proof. exact @key_alg_names. Qed.
Print Assumptions C107_algorithm_names.

Definition plain_crypto : crypto bytes bytes :=
  mkCrypto Some Some (fun sk d => Some (sk ++ d)) (fun pk d s => bytes_eqb s (pk ++ d)).

Example C107_example :
  supported_key [xed; x01] (B "alice") (ed25519_key plain_crypto (B "alice") None) /\
  key_did (ed25519_key plain_crypto (B "alice") None) = Ok (B "did:key:z9yva9PAGHa").
Proof. split; [apply SK_ed25519; reflexivity | vm_compute; reflexivity]. Qed.
