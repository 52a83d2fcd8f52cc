(** Specifications about reading CIDs (C118) and about the errors of keys (C119). *)
From Verif Require Import Prelude Ord SMap Base58 Value Cid Ext Key KeySupport WebCrypto Spec SpecWire SpecIpld.

(** The bytes of a CID: version 0 is a SHA2-256 multihash alone and means DAG-PB;
    version 1 has the codec and a multihash of at most 64 bytes.  More may follow. *)
Inductive cid_bytes : bytes -> cid -> Prop :=
| CB_v0 hash size d rest : leb128 hash 18 -> leb128 size 32 -> length d = 32%nat -> cid_bytes (hash ++ size ++ d ++ rest) (mkCid 0 112 18 d)
| CB_v1 version codec hash size d rest c h : leb128 version 1 -> leb128 codec c -> leb128 hash h -> leb128 size (N.of_nat (length d)) -> (length d <= 64)%nat ->
    cid_bytes (version ++ codec ++ hash ++ size ++ d ++ rest) (mkCid 1 c h d).

(** The part of a text that is read as CID: what follows the first "/ipfs/", else all of it. *)
Definition cid_part (t s : bytes) : Prop :=
  (exists before, t = before ++ B "/ipfs/" ++ s /\
     forall b a, t = b ++ B "/ipfs/" ++ a -> (length before <= length b)%nat) \/
  (s = t /\ forall b a, t <> b ++ B "/ipfs/" ++ a).

(** The text of the bytes: bare base58btc of 46 letters starting with "Qm", or
    with a leading letter naming the base.  Other letters than 'b' and 'z' are left
    to the multibase library. *)
Inductive multibase_text (X : ext) : bytes -> bytes -> Prop :=
| MT_v0 s bs : (exists r, s = B "Qm" ++ r) -> length s = 46%nat -> base58_text bs s -> multibase_text X s bs
| MT_base32 bs : multibase_text X (B "b" ++ base32 bs) bs
| MT_base58 t bs : base58_text bs t -> multibase_text X (B "z" ++ t) bs
| MT_other l r bs : l <> x62 -> l <> x7a -> r <> [] -> (forall r', l :: r <> B "Qm" ++ r') -> x_multibase X l r = Some bs -> multibase_text X (l :: r) bs.

Definition cid_text (X : ext) (t : bytes) (c : cid) : Prop :=
  exists s bs, cid_part t s /\ multibase_text X s bs /\ cid_bytes bs c.

(** A version-0 CID. *)
Definition cid_v0 (c : cid) : Prop :=
  cid_version c = 0%N /\ cid_codec c = 112%N /\ cid_hash_code c = 18%N /\ length (cid_digest c) = 32%nat.

(** Key material of the key-support crate: public key, private key if any, and what is signed of the data. *)
Inductive native {Pub Priv} (C : crypto Pub Priv) (pk : Pub) (sk : option Priv) : (bytes -> bytes) -> key -> Prop :=
| NK_ed25519 : native C pk sk (fun d => d) (ed25519_key C pk sk)
| NK_p256 : native C pk sk (fun d => d) (p256_key C pk sk)
| NK_rsa sha256 : native C pk sk sha256 (rsa_key C sha256 pk sk).

(** The constructor's cryptography does not accept the bytes as a public key. *)
Inductive undecodable (bs : bytes) : ctor -> Prop :=
| UD_ed25519 {Pub Priv} (C : crypto Pub Priv) : cr_decode C bs = None -> undecodable bs (bytes_to_ed25519_key C)
| UD_p256 {Pub Priv} (C : crypto Pub Priv) : cr_decode C bs = None -> undecodable bs (bytes_to_p256_key C)
| UD_rsa {Pub Priv} (C : crypto Pub Priv) sha256 : cr_decode C bs = None -> undecodable bs (bytes_to_rsa_key C sha256).
