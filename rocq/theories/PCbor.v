(** C127-C128: DAG-CBOR blocks. *)
From Coq Require Import Floats.SpecFloat.
From Verif Require Import Prelude Ord SMap Utf8 Value Cid Ext Json Capability Key Ucan Ipld IpldSerde Cbor
  Spec SpecIpld SpecIpldSerde SpecWire SpecCbor CborFacts CborUcanFacts Samples SampleFacts.

(* ------------------------------------------------------------------ C127 *)

(** The reader takes exactly the blocks of the specification. *)
Theorem C127_read_iff : forall t i, cbor_decode t = Some i <-> dag_cbor i t.
Proof. exact cbor_decode_iff. Qed.
Print Assumptions C127_read_iff.

(** The writer writes exactly those blocks. *)
Theorem C127_write_iff : forall i t, rust_data i -> (cbor_encode i = Some t <-> dag_cbor i t).
Proof. exact cbor_encode_iff. Qed.
Print Assumptions C127_write_iff.

Theorem C127_written_when : forall i, rust_data i -> ((exists t, cbor_encode i = Some t) <-> writable i).
Proof. exact cbor_written_iff. Qed.
Print Assumptions C127_written_when.

(** Data has one block, a block is of one datum, and no block begins another one. *)
Theorem C127_prefix_free : forall i j t u r r', dag_cbor i t -> dag_cbor j u -> t ++ r = u ++ r' -> i = j /\ t = u /\ r = r'.
Proof. exact dag_cbor_prefix. Qed.
Print Assumptions C127_prefix_free.

Theorem C127_reencode : forall i t, cbor_decode t = Some i -> cbor_encode i = Some t.
Proof. exact cbor_reencode. Qed.
Print Assumptions C127_reencode.

(** Whatever is read is data the writer can write. *)
Theorem C127_read_data : forall i t, cbor_decode t = Some i -> rust_data i /\ writable i.
Proof. exact decoded_data. Qed.
Print Assumptions C127_read_data.

Definition mixed : ipld :=
  IMap [(B "aa", IList [IInt (-25); IInt 256; IFloat (S754_finite true 4503599627370496 (-52))]); (B "b", INull);
        (B "c", ILink (mkCid 1 85 30 [x0a; x0b]))].
Definition mixed_block : bytes :=
  [xa3; x61; x62; xf6; x61; x63; xd8; x2a; x47; x00; x01; x55; x1e; x02; x0a; x0b; x62; x61; x61; x83; x38; x18; x19; x01; x00;
   xfb; xbf; xf0; x00; x00; x00; x00; x00; x00].
Example C127_example : cbor_encode mixed = Some mixed_block /\ cbor_decode mixed_block = Some mixed /\
  rust_data mixed /\ cbor_decode [x18; x17] = None /\ cbor_decode [x17] = Some (IInt 23) /\
  cbor_decode [xa2; x62; x61; x61; xf6; x61; x62; xf6] = None /\ cbor_encode (IInt (2 ^ 64)) = None /\ cbor_encode (IFloat S754_nan) = None.
Proof.
  assert (cbor_decode mixed_block = Some mixed) as D by (vm_compute; reflexivity).
  split; [vm_compute; reflexivity|]. split; [exact D|]. split; [exact (proj1 (decoded_data _ _ D)) | vm_compute; repeat split; reflexivity].
Qed.

(* ------------------------------------------------------------------ C128 *)

(** Stored UCANs come back, unless JSON values refuse the integers they hold. *)
Theorem C128_roundtrip_iff : forall X i, ucan_ipld_ok i -> rust_data (ucan_ipld_to_data i) ->
  (dag_cbor_roundtrip ucan_ipld_to_data (ucan_ipld_of_data X) i = Some i <->
   x_value_i128 X = true \/ forall v, caveat_in v (ui_cap i) \/ fact_in v (ui_fct i) -> integer_free v).
Proof. exact ucan_ipld_block. Qed.
Print Assumptions C128_roundtrip_iff.

Theorem C128_ucan_roundtrip_iff : forall X u, payload_ok (u_payload u) -> rust_data (ucan_to_data u) ->
  (dag_cbor_roundtrip ucan_to_data (ucan_of_data X) u = Some u <->
   x_value_i128 X = true \/ forall v, caveat_in v (p_cap (u_payload u)) \/ fact_in v (p_fct (u_payload u)) -> integer_free v).
Proof. exact ucan_block. Qed.
Print Assumptions C128_ucan_roundtrip_iff.

(** Principals and signatures, which are written as lists of bytes. *)
Theorem C128_bytes_roundtrip : forall b, word (N.of_nat (length b)) -> dag_cbor_roundtrip ipld_of_vec vec_of_ipld b = Some b.
Proof. exact bytes_block. Qed.
Print Assumptions C128_bytes_roundtrip.

(** The block of a UCAN, field by field. *)
Theorem C128_layout : forall i t, rust_data (ucan_ipld_to_data i) -> cbor_encode (ucan_ipld_to_data i) = Some t ->
  exists s v aud cap exp fct iss nbf nnc prf,
    dag_cbor (int_list (ui_s i)) s /\ dag_cbor (IStr (ui_v i)) v /\ dag_cbor (int_list (ui_aud i)) aud /\
    dag_cbor (ipld_of_caps (ui_cap i)) cap /\ dag_cbor (null_or ipld_of_u64 (ui_exp i)) exp /\
    dag_cbor (null_or ipld_of_facts (ui_fct i)) fct /\ dag_cbor (int_list (ui_iss i)) iss /\
    dag_cbor (null_or ipld_of_u64 (ui_nbf i)) nbf /\ dag_cbor (null_or IStr (ui_nnc i)) nnc /\
    dag_cbor (null_or (fun l => IList (map ILink l)) (ui_prf i)) prf /\
    t = [xaa] ++ ([x61] ++ B "s" ++ s) ++ ([x61] ++ B "v" ++ v) ++ ([x63] ++ B "aud" ++ aud) ++ ([x63] ++ B "cap" ++ cap) ++
        ([x63] ++ B "exp" ++ exp) ++ ([x63] ++ B "fct" ++ fct) ++ ([x63] ++ B "iss" ++ iss) ++ ([x63] ++ B "nbf" ++ nbf) ++
        ([x63] ++ B "nnc" ++ nnc) ++ ([x63] ++ B "prf" ++ prf).
Proof. exact block_layout. Qed.
Print Assumptions C128_layout.

Theorem C128_distinct : forall i j t, ucan_ipld_ok i -> ucan_ipld_ok j -> rust_data (ucan_ipld_to_data i) -> rust_data (ucan_ipld_to_data j) ->
  cbor_encode (ucan_ipld_to_data i) = Some t -> cbor_encode (ucan_ipld_to_data j) = Some t -> i = j.
Proof. exact block_distinct. Qed.
Print Assumptions C128_distinct.

(** A block by whatever author that is read as a UCAN: the UCAN can be written, and its own block is read as the same UCAN. *)
Theorem C128_stable : forall X t i, (let?? d := cbor_decode t in ucan_ipld_of_data X d) = Some i ->
  rust_data (ucan_ipld_to_data i) /\ dag_cbor_roundtrip ucan_ipld_to_data (ucan_ipld_of_data X) i = Some i.
Proof. exact block_again. Qed.
Print Assumptions C128_stable.

(** A token stored as a block and read back is the same token. *)
Theorem C128_token_through_block : forall X t u, parse_token X t = Ok u -> ipld_carried u -> exists i, ucan_to_ipld X u = Ok i /\
  (rust_data (ucan_ipld_to_data i) -> exists block u', cbor_encode (ucan_ipld_to_data i) = Some block /\
    (let?? d := cbor_decode block in ucan_ipld_of_data X d) = Some i /\ ucan_of_ipld X i = Ok u' /\
    u_header u' = u_header u /\ u_payload u' = u_payload u /\ u_signature u' = u_signature u /\ encode X u' = encode X u).
Proof. exact jwt_through_block. Qed.
Print Assumptions C128_token_through_block.

(** When the data is data Rust can hold. *)
Theorem C128_rust_data : forall i, ucan_ipld_ok i -> utf8_valid (ui_v i) = true -> opt_all (fun s => utf8_valid s = true) (ui_nnc i) ->
  opt_all (Forall (fun c => exists d, cid_block c d)) (ui_prf i) -> fits (ucan_ipld_to_data i) -> rust_data (ucan_ipld_to_data i).
Proof. exact ucan_ipld_rust. Qed.
Print Assumptions C128_rust_data.

Definition stored : ucan_ipld :=
  mkUcanIpld (B "0.10") [xed; x01; x07] [x9d; x1a; x41] [xed; xa1; x03; x00] [(B "b:", [(B "a/a", [VObj [(B "k", VNum (NegInt (-2)))]])])]
    (Some [mkCid 1 85 30 [x0a]]) (Some 300%N) None (Some (B "n")) None.
Definition stored_block : bytes :=
  [xaa] ++ [x61] ++ B "s" ++ [x84; x18; xed; x18; xa1; x03; x00] ++ [x61] ++ B "v" ++ [x64] ++ B "0.10" ++
  [x63] ++ B "aud" ++ [x83; x18; x9d; x18; x1a; x18; x41] ++
  [x63] ++ B "cap" ++ [xa1; x62] ++ B "b:" ++ [xa1; x63] ++ B "a/a" ++ [x81; xa1; x61] ++ B "k" ++ [x21] ++
  [x63] ++ B "exp" ++ [x19; x01; x2c] ++ [x63] ++ B "fct" ++ [xf6] ++ [x63] ++ B "iss" ++ [x83; x18; xed; x01; x07] ++
  [x63] ++ B "nbf" ++ [xf6] ++ [x63] ++ B "nnc" ++ [x61] ++ B "n" ++
  [x63] ++ B "prf" ++ [x81; xd8; x2a; x46; x00; x01; x55; x1e; x01; x0a].
Example C128_example :
  cbor_encode (ucan_ipld_to_data stored) = Some stored_block /\
  dag_cbor_roundtrip ucan_ipld_to_data (ucan_ipld_of_data sample_ext) stored = Some stored /\
  rust_data (ucan_ipld_to_data stored) /\ ucan_ipld_ok stored /\
  dag_cbor_roundtrip ipld_of_vec vec_of_ipld [xed; x01; x17; x18] = Some [xed; x01; x17; x18].
Proof.
  assert (cbor_decode stored_block = Some (ucan_ipld_to_data stored)) as D by (vm_compute; reflexivity).
  split; [vm_compute; reflexivity|]. split; [vm_compute; reflexivity|]. split; [exact (proj1 (decoded_data _ _ D))|].
  split; [|vm_compute; reflexivity]. constructor.
  - split; [repeat constructor|]. constructor; [|constructor]. split; [reflexivity|]. split; [repeat constructor|].
    constructor; [|constructor]. split; [reflexivity|]. constructor; [|constructor]. constructor. constructor; [repeat constructor|].
    constructor; [|constructor]. split; [reflexivity|]. constructor. cbn. lia.
  - intros n [= <-]. lia.
  - intros f. discriminate.
  - intros n. discriminate.
Qed.
