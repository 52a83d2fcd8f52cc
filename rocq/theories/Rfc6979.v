(** The nonces of P-256 signatures, chosen by [SigningKey::sign] (called at ucan-key-support/src/p256.rs:38).  The crates
    hmac, rfc6979 and ecdsa are not in the repository: the functions are those of FIPS 198-1 and RFC 6979, 3.2, with SHA-256
    and no additional data.  Loops have fuel. *)
From Verif Require Import Prelude Cbor Sha256 P256.

(** [Hmac<Sha256>] *)
Definition hmac_pad (c : N) (key : bytes) : bytes :=
  let k := if (length key <=? 64)%nat then key else sha256 key in
  map (fun b => byteN (N.lxor (bN b) c)) (k ++ repeat x00 (64 - length k)).
Definition hmac_sha256 (key m : bytes) : bytes := sha256 (hmac_pad 0x5c key ++ sha256 (hmac_pad 0x36 key ++ m)).

(** [HmacDrbg] *)
Record drbg := mkDrbg { dr_k : bytes; dr_v : bytes }.
Definition drbg_feed (g : drbg) (i : byte) (seed : bytes) : drbg :=
  let k := hmac_sha256 (dr_k g) (dr_v g ++ [i] ++ seed) in mkDrbg k (hmac_sha256 k (dr_v g)).
Definition drbg_new (seed : bytes) : drbg := drbg_feed (drbg_feed (mkDrbg (repeat x00 32) (repeat x01 32)) x00 seed) x01 seed.
(** [fill_bytes] for 32 bytes *)
Definition drbg_fill (g : drbg) : bytes * drbg := let v := hmac_sha256 (dr_k g) (dr_v g) in (v, drbg_feed (mkDrbg (dr_k g) v) x00 []).

(** [generate_k] *)
Fixpoint generate_k (fuel : nat) (g : drbg) : option N :=
  match fuel with
  | O => None
  | S fuel' =>
      let (bs, g) := drbg_fill g in
      if (0 <? be_value bs)%N && (Z.of_N (be_value bs) <? q_n)%Z then Some (be_value bs) else generate_k fuel' g
  end.
(** The digest as it is fed: [reduced] modulo the order first, as the RFC says, or not (versions of the crate differ). *)
Definition fed_digest (reduced : bool) (data : bytes) : bytes :=
  if reduced then be_bytes 32 (be_value (sha256 data) mod Z.to_N q_n) else sha256 data.
(** Out of fuel, zero: no nonce, and [q_sign] fails. *)
Definition rfc_nonce (reduced : bool) (fuel : nat) (d : N) (data : bytes) : N :=
  match generate_k fuel (drbg_new (be_bytes 32 d ++ fed_digest reduced data)) with Some k => k | None => 0%N end.
