(** The entry points of chain building, and the multicodec tables (C113-C115). *)
From Verif Require Import Prelude Ord SMap Base58 Value Utf8 Cid Url Ext Json Capability Semantics Key Ucan Store Chain Ipld Spec SpecChain SpecWire SpecJson SpecIpld SpecReject.

(** The store answers a request for [c] with the token of [u]. *)
Definition holds (E : env) (c : cid) (u : ucan) : Prop :=
  cid_codec c = 85%N /\ exists n token, e_read E n c = Ok (Some (IBytes token)) /\ utf8_text token /\ token_grammar (e_ext E) token u.

(** What is wrong with a CID: not a raw block, nothing there, not text, not a token. *)
Inductive cid_fault (E : env) (R : nat -> Prop) (c : cid) : error -> Prop :=
| DF_codec : cid_codec c <> 85%N -> cid_fault E R c ECodec
| DF_store n e : R n -> e_read E n c = Err e -> cid_fault E R c e
| DF_absent n r : R n -> e_read E n c = Ok r -> (forall b, r <> Some (IBytes b)) -> cid_fault E R c ENoUcanForCid
| DF_utf8 n b : R n -> e_read E n c = Ok (Some (IBytes b)) -> ~ utf8_text b -> cid_fault E R c EUtf8
| DF_token n b e : R n -> e_read E n c = Ok (Some (IBytes b)) -> token_fault (e_ext E) b e -> cid_fault E R c e.

(** The signature kinds: 0xd000, 0xd0e7, 0xd0ea, 0xd0eb, 0xd0ed, 0xd01200, 0xd01201, 0xd01202, 0xd01205, 0xd191. *)
Definition signature_kinds : list (varsig * N) :=
  [(VNonStandard, 53248%N); (VES256K, 53479%N); (VBLS12381G1, 53482%N); (VBLS12381G2, 53483%N); (VEdDSA, 53485%N);
   (VES256, 13636096%N); (VES384, 13636097%N); (VES512, 13636098%N); (VRS256, 13636101%N); (VEIP191, 53649%N)].

(** Those that a JWT can have, with their names there. *)
Definition jwt_kinds : list (bytes * jwt_alg * varsig) :=
  [(B "EdDSA", EdDSA, VEdDSA); (B "RS256", RS256, VRS256); (B "ES256", ES256, VES256); (B "ES384", ES384, VES384); (B "ES512", ES512, VES512)].

(** What is wrong with a tagged signature. *)
Inductive signature_fault : bytes -> error -> Prop :=
| SF_code s : (forall c rest n, leb128 c n -> s <> c ++ rest) -> signature_fault s EVarint
| SF_length c s n : leb128 c n -> (forall l rest k, leb128 l k -> s <> l ++ rest) -> signature_fault (c ++ s) EVarint
| SF_kind c l rest n k : leb128 c n -> leb128 l k -> ~ In n (map snd signature_kinds) -> signature_fault (c ++ l ++ rest) EVarsigPrefix
| SF_jwt c l rest v n k : leb128 c n -> leb128 l k -> In (v, n) signature_kinds -> ~ In v (map snd jwt_kinds) ->
    signature_fault (c ++ l ++ rest) EVarsigAlgorithm.

(** The bytes of a principal: of a did:key those of the key, of any other DID the rest of it after a marker. *)
Definition principal_bytes (did p : bytes) : Prop :=
  did = did_key_text p \/
  exists rest, did = B "did:" ++ rest /\ (forall k, rest <> B "key:z" ++ k) /\ p = marker ++ rest.

(** What is wrong with a text as a principal. *)
Inductive principal_fault : bytes -> error -> Prop :=
| PF_did s : (forall r, s <> B "did:" ++ r) -> principal_fault s ENotADid
| PF_base58 r : (forall bs, r <> b58_encode bs) -> principal_fault (B "did:key:z" ++ r) EBase58.
