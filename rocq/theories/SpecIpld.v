(** Specifications about the IPLD form. *)
From Verif Require Import Prelude Ord SMap Base58 Utf8 Value Cid Ext Capability Key Ucan Ipld Spec.

(** The number a base-128 little-endian byte string denotes. *)
Fixpoint leb_value (s : bytes) : N :=
  match s with
  | [] => 0
  | c :: r => (bN c mod 128 + 128 * leb_value r)%N
  end.

(** [s] is a varint (at most ten bytes, the last one without the continuation
    bit and not a redundant zero) read as the 64-bit number [n]. *)
Definition leb128 (s : bytes) (n : N) : Prop :=
  exists init final, s = init ++ [final] /\ (length init <= 9)%nat /\
    Forall (fun c => (128 <= bN c)%N) init /\ (bN final < 128)%N /\ (init <> [] -> bN final <> 0%N) /\
    n = (leb_value s mod 18446744073709551616)%N.

(** The multicodec codes of the JWT signature algorithms. *)
Definition jwt_code (a : jwt_alg) : N :=
  match a with
  | EdDSA => 53485       (* 0xd0ed *)
  | RS256 => 13636101    (* 0xd01205 *)
  | ES256 => 13636096    (* 0xd01200 *)
  | ES384 => 13636097    (* 0xd01201 *)
  | ES512 => 13636098    (* 0xd01202 *)
  end.

(** The bytes that mark a principal that is not a did:key. *)
Definition marker : bytes := [x9d; x1a].

(** The DIDs whose IPLD form is printed back: base58btc did:keys of at least two
    bytes not starting with the marker, and all other DIDs. *)
Inductive printable_did : bytes -> Prop :=
| PD_key b0 b1 r : [b0; b1] <> marker -> printable_did (did_key_text (b0 :: b1 :: r))
| PD_other r : (forall k, B "did:" ++ r <> B "did:key:z" ++ k) -> utf8_valid r = true -> printable_did (B "did:" ++ r).

(** The UCANs that survive the IPLD form unchanged. *)
Record ipld_carried (u : ucan) : Prop := mkIC {
  ic_alg : exists a, h_alg (u_header u) = alg_to_string a;
  ic_typ : h_typ (u_header u) = B "JWT";
  ic_version : p_ucv (u_payload u) = ucan_version;
  ic_iss : printable_did (p_iss (u_payload u));
  ic_aud : printable_did (p_aud (u_payload u));
  ic_prf : opt_all (fun l => l <> [] /\ Forall (fun t => exists c, cid_v1 c /\ t = cid_to_string c) l) (p_prf (u_payload u));
  ic_sig : word (N.of_nat (length (u_signature u)))
}.
