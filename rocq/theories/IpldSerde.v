(** The derived [Serialize] and [Deserialize] of [UcanIpld] (ucan/src/ipld/ucan.rs:12-27) and
    [Ucan] (ucan/src/ucan.rs:45-51), through libipld-core's [to_ipld]/[from_ipld].  A block codec
    (serde_ipld_dagcbor in ucan/src/tests/helpers.rs:8-13, see Cbor.v) writes the same data. *)
From Verif Require Import Prelude Ord SMap Value Cid Ext Json Capability Key Ucan Ipld.

(** [Vec<u8>] without serde_bytes, hence also [Principle] (principle.rs:9-11) and [Signature]
    (signature.rs:120-122): a list of integers. *)
Definition ipld_of_vec (b : bytes) : ipld := IList (map (fun c => IInt (Z.of_N (bN c))) b).
Definition u8_of_ipld (i : ipld) : option byte :=
  match i with
  | IInt z => if (0 <=? z)%Z && (z <=? 255)%Z then Some (byteN (Z.to_N z)) else None
  | _ => None
  end.
Definition vec_of_ipld (i : ipld) : option bytes := list_of_ipld u8_of_ipld i.

(** [Cid] is an IPLD link. *)
Definition cid_of_ipld (i : ipld) : option cid := match i with ILink c => Some c | _ => None end.

(** An [Option] without skip_serializing_if: None is null. *)
Definition null_or {A} (f : A -> ipld) (o : option A) : ipld := match o with Some a => f a | None => INull end.

(** Serialize for UcanIpld, ipld/ucan.rs:12-27, keys in BTreeMap order. *)
Definition ucan_ipld_to_data (i : ucan_ipld) : ipld :=
  IMap [(B "aud", ipld_of_vec (ui_aud i));
        (B "cap", ipld_of_caps (ui_cap i));
        (B "exp", null_or ipld_of_u64 (ui_exp i));
        (B "fct", null_or ipld_of_facts (ui_fct i));
        (B "iss", ipld_of_vec (ui_iss i));
        (B "nbf", null_or ipld_of_u64 (ui_nbf i));
        (B "nnc", null_or IStr (ui_nnc i));
        (B "prf", null_or (fun l => IList (map ILink l)) (ui_prf i));
        (B "s", ipld_of_vec (ui_s i));
        (B "v", IStr (ui_v i))].

(** Deserialize for UcanIpld: unknown fields are ignored. *)
Definition ucan_ipld_of_data (X : ext) (d : ipld) : option ucan_ipld :=
  match d with
  | IMap m =>
      let?? v := req (B "v") str_of_ipld m in
      let?? iss := req (B "iss") vec_of_ipld m in
      let?? aud := req (B "aud") vec_of_ipld m in
      let?? s := req (B "s") vec_of_ipld m in
      let?? cap := req (B "cap") (caps_of_ipld X) m in
      let?? prf := opt (B "prf") (list_of_ipld cid_of_ipld) m in
      let?? exp := opt (B "exp") u64_of_ipld m in
      let?? fct := opt (B "fct") (map_of_ipld (value_of_ipld X)) m in
      let?? nnc := opt (B "nnc") str_of_ipld m in
      let?? nbf := opt (B "nbf") u64_of_ipld m in
      Some (mkUcanIpld v iss aud s cap prf exp fct nnc nbf)
  | _ => None
  end.

(** Serialize for Ucan, ucan.rs:45-51: all four fields, the signed bytes included. *)
Definition ucan_to_data (u : ucan) : ipld :=
  IMap [(B "header", ipld_of_header (u_header u));
        (B "payload", ipld_of_payload (u_payload u));
        (B "signature", ipld_of_vec (u_signature u));
        (B "signed_data", ipld_of_vec (u_signed_data u))].

(** Deserialize for Ucan. *)
Definition ucan_of_data (X : ext) (d : ipld) : option ucan :=
  match d with
  | IMap m =>
      let?? h := req (B "header") header_of_ipld m in
      let?? p := req (B "payload") (payload_of_ipld X) m in
      let?? sd := req (B "signed_data") vec_of_ipld m in
      let?? s := req (B "signature") vec_of_ipld m in
      Some (mkUcan h p sd s)
  | _ => None
  end.
