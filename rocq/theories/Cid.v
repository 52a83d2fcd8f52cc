(** Content identifiers: crate `cid` 0.10 as used in ucan.rs:199-204, chain.rs:67,
    store.rs, ipld/ucan.rs:36.  Third-party code, modelled from its documented
    behaviour. *)
From Verif Require Import Prelude BaseN Base58 Varint.

Record cid := mkCid {
  cid_version : N;       (* 0 or 1 *)
  cid_codec : N;
  cid_hash_code : N;     (* multihash code *)
  cid_digest : bytes     (* multihash digest *)
}.

(** [PartialEq for Cid] (also the key equality of HashMap<Cid, _>). *)
Definition cid_eqb (a b : cid) : bool :=
  N.eqb (cid_version a) (cid_version b) && N.eqb (cid_codec a) (cid_codec b)
  && N.eqb (cid_hash_code a) (cid_hash_code b) && bytes_eqb (cid_digest a) (cid_digest b).

(** libipld_core::raw::RawCodec as u64 *)
Definition raw_codec : N := 85.   (* 0x55 *)

(** [Cid::new_v1(codec, digest)] *)
Definition cid_new_v1 (codec hash_code : N) (digest : bytes) : cid :=
  {| cid_version := 1; cid_codec := codec; cid_hash_code := hash_code; cid_digest := digest |}.

(** Multihash bytes. *)
Definition multihash_bytes (c : cid) : bytes :=
  varint_encode (cid_hash_code c) ++ varint_encode (N.of_nat (length (cid_digest c))) ++ cid_digest c.

(** [Cid::to_bytes] *)
Definition cid_to_bytes (c : cid) : bytes :=
  if (cid_version c =? 0)%N then multihash_bytes c
  else varint_encode 1 ++ varint_encode (cid_codec c) ++ multihash_bytes c.

(** [Cid::to_string]: v0 is bare base58btc, v1 is multibase base32 lower. *)
Definition cid_to_string (c : cid) : bytes :=
  if (cid_version c =? 0)%N then b58_encode (cid_to_bytes c)
  else B "b" ++ b32_encode (cid_to_bytes c).

(** [read_exact] of [n] bytes. *)
Definition take_exact (n : N) (s : bytes) : option (bytes * bytes) :=
  if (n <=? N.of_nat (length s))%N
  then Some (firstn (N.to_nat n) s, skipn (N.to_nat n) s) else None.

(** [Multihash::<64>::read]: digests longer than 64 bytes are refused. *)
Definition read_multihash (s : bytes) : option (N * bytes) :=
  let?? (code, s1) := varint_decode s in
  let?? (size, s2) := varint_decode s1 in
  if (size <=? 64)%N then
    let?? (d, _) := take_exact size s2 in Some (code, d)
  else None.

(** [Cid::try_from(&[u8])]: bytes after the multihash are ignored. *)
Definition cid_of_bytes (s : bytes) : option cid :=
  let?? (version, s1) := varint_decode s in
  let?? (codec, s2) := varint_decode s1 in
  if (version =? 18)%N && (codec =? 32)%N then
    let?? (d, _) := take_exact 32 s2 in
    Some {| cid_version := 0; cid_codec := 112; cid_hash_code := 18; cid_digest := d |}
  else if (version =? 1)%N then
    let?? (code, d) := read_multihash s2 in
    Some (cid_new_v1 codec code d)
  else None.

(** [&s[i + 6..]] for the first occurrence i of "/ipfs/", if any. *)
Fixpoint after_ipfs (s : bytes) : option bytes :=
  match strip_prefix (B "/ipfs/") s with
  | Some r => Some r
  | None => match s with [] => None | _ :: s' => after_ipfs s' end
  end.

(** [Cid::try_from(&str)].  Multibase prefixes other than 'b' (base32 lower) and
    'z' (base58btc) are decoded by the parameter [multibase]. *)
Definition cid_of_string (multibase : byte -> bytes -> option bytes) (s0 : bytes) : option cid :=
  let s := match after_ipfs s0 with Some r => r | None => s0 end in
  if (length s <? 2)%nat then None
  else
    let?? bs :=
      match strip_prefix (B "Qm") s with
      | Some _ => if (length s =? 46)%nat then b58_decode s else None
      | None =>
          match s with
          | x62 :: r => b32_decode r
          | x7a :: r => b58_decode r
          | c :: r => multibase c r
          | [] => None
          end
      end in
    cid_of_bytes bs.
