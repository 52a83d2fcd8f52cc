(** The signatures behind ucan-key-support/src/rsa.rs:44-69 ([Pkcs1v15Sign::new::<Sha256>], [sign], [verify]).
    The crate rsa 0.9 is not in the repository: the functions are RSASSA-PKCS1-v1_5 of RFC 8017, with the
    checks of that crate.  Signing with the primes (Chinese remainders) is modelled by the power it computes. *)
From Verif Require Import Prelude Cbor Key KeySupport Der Sha256.
Local Open Scope N_scope.

(** [BigUint::modpow] *)
Fixpoint pow_mod_pos (x : N) (e : positive) (n : N) : N :=
  match e with
  | xH => x mod n
  | xO e' => let y := pow_mod_pos x e' n in (y * y) mod n
  | xI e' => let y := pow_mod_pos x e' n in ((y * y) mod n * x) mod n
  end.
Definition pow_mod (x e n : N) : N := match e with 0 => 1 mod n | Npos p => pow_mod_pos x p n end.

(** An RSA private key: modulus, public exponent, private exponent. *)
Record rsa_priv := mkRsaPriv { rp_n : N; rp_e : N; rp_d : N }.

(** [PublicKeyParts::size]: the octets of the modulus. *)
Definition rsa_size (n : N) : N := (N.size n + 7) / 8.

(** The DER prefix of a SHA-256 digest (RFC 8017, 9.2). *)
Definition digest_info : bytes :=
  [x30; x31; x30; x0d; x06; x09; x60; x86; x48; x01; x65; x03; x04; x02; x01; x05; x00; x04; x20].

(** [pkcs1v15_sign_pad]; [pkcs1v15_sign_unpad] accepts exactly its result. *)
Definition pkcs1_pad (k : N) (hashed : bytes) : option bytes :=
  let t := digest_info ++ hashed in
  if k <? N.of_nat (length t) + 11 then None
  else Some ([x00; x01] ++ repeat xff (N.to_nat (k - N.of_nat (length t) - 3)) ++ [x00] ++ t).

(** [RsaPrivateKey::sign]: the result is checked before it is returned ([rsa_decrypt_and_check]). *)
Definition rsa_sign (sk : rsa_priv) (hashed : bytes) : option bytes :=
  if negb (length hashed =? 32)%nat then None
  else
    let?? em := pkcs1_pad (rsa_size (rp_n sk)) hashed in
    let c := be_value em in
    if rp_n sk <=? c then None
    else
      let s := pow_mod c (rp_d sk) (rp_n sk) in
      if pow_mod s (rp_e sk) (rp_n sk) =? c then Some (be_bytes (N.to_nat (rsa_size (rp_n sk))) s) else None.

(** [RsaPublicKey::verify].  [range]: the release refuses numbers from the modulus on, as RFC 8017 asks
    (releases of rsa 0.9 differ, and the repository pins none). *)
Definition rsa_verify (range : bool) (pk : rsa_pub) (hashed sig : bytes) : bool :=
  let '(n, e) := pk in
  (length hashed =? 32)%nat && negb (range && (n <=? be_value sig)) && (N.of_nat (length sig) =? rsa_size n) &&
  match pkcs1_pad (rsa_size n) hashed with
  | Some em => bytes_eqb (be_bytes (N.to_nat (rsa_size n)) (pow_mod (be_value sig) e n)) em
  | None => false
  end.

(** The rsa crate, and [RsaKeyMaterial] with it. *)
Definition rsa_pkcs1 (range : bool) : crypto rsa_pub rsa_priv := rsa_crate rsa_sign (rsa_verify range).
Definition rsa_material (range : bool) (pk : rsa_pub) (sk : option rsa_priv) : key := rsa_key (rsa_pkcs1 range) sha256 pk sk.
