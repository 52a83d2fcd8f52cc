(** The RSAPublicKey encoding behind ucan-key-support/src/rsa.rs:17 ([from_pkcs1_der]) and
    rsa.rs:33 ([to_pkcs1_der]), and key generation in web_crypto.rs:42-102.  The code of the
    crates rsa 0.9, pkcs1 and der is not in the repository: the encoding is DER (X.690) of
    RFC 8017's RSAPublicKey, read strictly as der does, and the checks are the documented
    ones of [RsaPublicKey::new].  Only success or failure of reading is modelled. *)
From Verif Require Import Prelude Base58 Cid Key KeySupport Cbor WebCrypto.

(** An RSA public key: modulus and public exponent. *)
Definition rsa_pub : Type := (N * N)%type.

(** The number of length octets after the initial one; [None] from 256 MiB on. *)
Definition der_len_octets (n : N) : option nat :=
  if (n <? 128)%N then Some 0%nat else if (n <? 256)%N then Some 1%nat else if (n <? 65536)%N then Some 2%nat
  else if (n <? 16777216)%N then Some 3%nat else if (n <? 268435456)%N then Some 4%nat else None.
Definition der_write_len (n : N) : option bytes :=
  let?? k := der_len_octets n in
  Some (match k with O => [byteN n] | _ => byteN (128 + N.of_nat k) :: be_bytes k n end).
Definition der_read_len (s : bytes) : option (N * bytes) :=
  match s with
  | [] => None
  | c :: r =>
      if (bN c <? 128)%N then Some (bN c, r)
      else let?? (d, r') := take_exact (bN c - 128) r in
           let?? k := der_len_octets (be_value d) in
           if (0 <? bN c - 128)%N && (N.of_nat k =? bN c - 128)%N then Some (be_value d, r') else None
  end.

(** One tag, length and value. *)
Definition der_write (tag : byte) (body : bytes) : option bytes :=
  let?? l := der_write_len (N.of_nat (length body)) in Some (tag :: l ++ body).
Definition der_read (tag : byte) (s : bytes) : option (bytes * bytes) :=
  match s with
  | t :: r => if Byte.eqb t tag then let?? (n, r') := der_read_len r in take_exact n r' else None
  | [] => None
  end.

(** An INTEGER that is not negative: a sign bit and no superfluous octet. *)
Definition der_uint_bytes (n : N) : bytes := be_bytes (N.to_nat (N.size n / 8 + 1)) n.
Definition der_uint_value (bs : bytes) : option N :=
  match bs with
  | [] => None
  | c :: r =>
      if (128 <=? bN c)%N then None
      else match r with
           | d :: _ => if (bN c =? 0)%N && (bN d <? 128)%N then None else Some (be_value bs)
           | [] => Some (be_value bs)
           end
  end.

(** [RsaPublicKey::new]: at most 4096 bits, both numbers odd, the exponent between 2 and
    2^33 - 1 and below the modulus. *)
Definition rsa_check (n e : N) : bool :=
  (N.size n <=? 4096)%N && (e <? n)%N && N.odd n && N.odd e && (2 <=? e)%N && (e <=? 8589934591)%N.

(** [to_pkcs1_der] *)
Definition rsa_to_pkcs1 (pk : rsa_pub) : option bytes :=
  let?? tn := der_write x02 (der_uint_bytes (fst pk)) in
  let?? te := der_write x02 (der_uint_bytes (snd pk)) in
  der_write x30 (tn ++ te).

(** [from_pkcs1_der] *)
Definition rsa_from_pkcs1 (s : bytes) : option rsa_pub :=
  match der_read x30 s with
  | Some (body, []) =>
      let?? (bn, r) := der_read x02 body in
      match der_read x02 r with
      | Some (be, []) =>
          let?? n := der_uint_value bn in
          let?? e := der_uint_value be in
          if rsa_check n e then Some (n, e) else None
      | _ => None
      end
  | _ => None
  end.

(** The rsa crate with this encoding; signatures stay parameters. *)
Definition rsa_crate {Priv} (sgn : Priv -> bytes -> option bytes) (vrf : rsa_pub -> bytes -> bytes -> bool) : crypto rsa_pub Priv :=
  mkCrypto rsa_to_pkcs1 rsa_from_pkcs1 sgn vrf.

(** What [generate] passes to [generateKey], web_crypto.rs:44-82. *)
Record key_params := mkKeyParams {
  kp_name : bytes; kp_modulus_length : N; kp_exponent : bytes; kp_hash : bytes; kp_extractable : bool; kp_uses : list bytes
}.
Definition generate_params (key_size : option N) : key_params :=
  mkKeyParams (B "RSASSA-PKCS1-v1_5") (match key_size with Some k => k | None => 2048%N end) [x01; x00; x01] (B "SHA-256")
    false [B "sign"; B "verify"].

(** [generate], web_crypto.rs:42-102: the two fields of the new key; [gen] is the browser's
    [generateKey], [None] when it or its promise fails. *)
Definition web_generate {WPub WPriv} (W : browser WPub WPriv) (gen : key_params -> option (WPub * WPriv))
    (key_size : option N) : res (WPub * option WPriv) :=
  let? _ := w_subtle W in
  let? ks := ok_or (gen (generate_params key_size)) EWebCrypto in
  Ok (fst ks, Some (snd ks)).
