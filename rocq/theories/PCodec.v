(** C69, C70, C72: the textual codecs. *)
From Verif Require Import Prelude BaseN Base58 Cid Ext Spec BaseNFacts Base58Facts CidFacts Samples.

(* ------------------------------------------------------------------- C69 *)

Theorem C69_decode_iff_encode : forall s bs, b64_decode s = Some bs <-> s = b64_encode bs.
Proof. exact b64_decode_iff. Qed.
Print Assumptions C69_decode_iff_encode.

Theorem C69_roundtrip : forall bs, b64_decode (b64_encode bs) = Some bs.
Proof. exact b64_roundtrip. Qed.
Print Assumptions C69_roundtrip.

Theorem C69_injective : forall x y, b64_encode x = b64_encode y -> x = y.
Proof. exact b64_encode_inj. Qed.
Print Assumptions C69_injective.

Theorem C69_no_dot : forall bs, ~ In x2e (b64_encode bs).
Proof. exact b64_encode_no_dot. Qed.
Print Assumptions C69_no_dot.

(** Vectors of RFC 4648, the two URL-safe letters; non-zero trailing bits,
    padding and foreign letters are rejected. *)
Example C69_example :
  b64_encode (B "foobar") = B "Zm9vYmFy" /\ b64_encode (B "fooba") = B "Zm9vYmE" /\
  b64_encode [xfb; xff; xfe] = B "-__-" /\
  b64_decode (B "Zm9vYmE") = Some (B "fooba") /\ b64_decode (B "Zm9vYmF") = None /\
  b64_decode (B "Zm9vYmE=") = None /\ b64_decode (B "+//+") = None /\ b64_decode (B "Z") = None.
Proof. vm_compute. repeat split. Qed.

(* ------------------------------------------------------------------- C70 *)

Theorem C70_decode_iff_encode : forall s bs, b58_decode s = Some bs <-> s = b58_encode bs.
Proof. exact b58_decode_iff. Qed.
Print Assumptions C70_decode_iff_encode.

Theorem C70_roundtrip : forall bs, b58_decode (b58_encode bs) = Some bs.
Proof. exact b58_roundtrip. Qed.
Print Assumptions C70_roundtrip.

Theorem C70_injective : forall x y, b58_encode x = b58_encode y -> x = y.
Proof. exact b58_encode_inj. Qed.
Print Assumptions C70_injective.

(** Vectors of the base58 draft, with leading zero bytes. *)
Example C70_example :
  b58_encode (B "Hello World!") = B "2NEpo7TZRRrLZSi2U" /\
  b58_encode [x00; x00; x28; x7f; xb4; xcd] = B "11233QC4" /\
  b58_decode (B "11233QC4") = Some [x00; x00; x28; x7f; xb4; xcd] /\
  b58_decode (B "0OIl") = None /\ b58_decode [] = Some [].
Proof. vm_compute. repeat split. Qed.

(* ------------------------------------------------------------------- C72 *)

Theorem C72_cid_text_roundtrip : forall X c, cid_v1 c -> parse_cid X (cid_to_string c) = Some c.
Proof. exact parse_cid_text. Qed.
Print Assumptions C72_cid_text_roundtrip.

Theorem C72_cid_text_injective : forall c d, cid_v1 c -> cid_v1 d ->
  cid_to_string c = cid_to_string d -> c = d.
Proof. exact cid_text_inj. Qed.
Print Assumptions C72_cid_text_injective.

(** The CIDv1 (raw, blake3-256) of a small block; a digest that is cut short is rejected. *)
Definition sample_cid : cid :=
  mkCid 1 raw_codec 30 (map byteN (map N.of_nat (seq 1 32))).

Example C72_example :
  cid_v1 sample_cid /\
  cid_to_string sample_cid = B "bafkr4iabaibqibiga4eascqlbqgq4dyqcejbgfavcylrqgi2dmob2hq7ea" /\
  parse_cid sample_ext (B "bafkr4iabaibqibiga4eascqlbqgq4dyqcejbgfavcylrqgi2dmob2hq7ea") = Some sample_cid /\
  parse_cid sample_ext (B "bafkr4iabaibqibiga4eascqlbqgq4dyqcejbgfavcylrqgi2dmob2hq7") = None.
Proof.
  split; [|vm_compute; repeat split].
  unfold cid_v1, word. vm_compute. repeat split; [discriminate | discriminate | apply leb_complete; reflexivity].
Qed.
