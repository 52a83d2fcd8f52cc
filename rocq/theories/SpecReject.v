(** Why a proof chain is refused, and what it may depend on (C110-C112). *)
From Verif Require Import Prelude Ord SMap Base58 Value Utf8 Cid Url Ext Json Capability Semantics Key Ucan Store Chain Spec SpecChain SpecWire SpecJson.

(** The same machine, with a store that answers alike for the CIDs cited by [u] and the UCANs reached from it. *)
Definition agree_below (E E' : env) (u : ucan) : Prop :=
  e_ext E' = e_ext E /\ (forall n, e_clock E' n = e_clock E n) /\
  (forall v text c n, reachable E u v -> In text (cited v) -> parse_cid (e_ext E) text = Some c -> cid_codec c = 85%N ->
     e_read E' n c = e_read E n c).

(** What is wrong with a DID: its method, its base58, an unknown kind of key, or the bytes of the key. *)
Inductive did_fault (slice : list (bytes * ctor)) : bytes -> error -> Prop :=
| DF_method did : (forall r, did <> B "did:key:z" ++ r) -> did_fault slice did ENotDidKey
| DF_base58 r : (forall bs, r <> b58_encode bs) -> did_fault slice (B "did:key:z" ++ r) EBase58
| DF_kind m rest : length m = 2%nat -> ~ In m (map fst slice) -> did_fault slice (did_key_text (m ++ rest)) EUnknownMagic
| DF_key m c rest e : length m = 2%nat -> registered slice m c -> c rest = Err e -> did_fault slice (did_key_text (m ++ rest)) e.

(** What is wrong with the UCAN itself: its window, its issuer, its signature. *)
Inductive own_fault (E : env) (nt : option N) (slice : list (bytes * ctor)) (T : nat -> Prop) (u : ucan) : error -> Prop :=
| OF_expired x t : p_exp (u_payload u) = Some x -> (match nt with Some t' => t = t' | None => exists n, T n /\ t = e_clock E n end) ->
    (x < t)%N -> own_fault E nt slice T u EExpired
| OF_early b n : p_nbf (u_payload u) = Some b -> T n -> (e_clock E n < b)%N -> own_fault E nt slice T u ETooEarly
| OF_issuer e : did_fault slice (p_iss (u_payload u)) e -> own_fault E nt slice T u e
| OF_signature m c rest k e : length m = 2%nat -> p_iss (u_payload u) = did_key_text (m ++ rest) -> registered slice m c -> c rest = Ok k ->
    key_verify k (u_signed_data u) (u_signature u) = Err e -> own_fault E nt slice T u e.

(** A text without points up to the end or the next point. *)
Definition segment (s more : bytes) : Prop := ~ In x2e s /\ (more = [] \/ exists r, more = B "." ++ r).

Definition header_segment (X : ext) (s : bytes) : Prop := exists d m h, s = base64url d /\ json_document X d (IMap m) /\ header_data m h.
Definition payload_segment (X : ext) (s : bytes) : Prop := exists d m p, s = base64url d /\ json_document X d (IMap m) /\ payload_data X m p.

(** What is wrong with the text of a token: the first bad segment. *)
Inductive token_fault (X : ext) : bytes -> error -> Prop :=
| TF_header_base64 s more : segment s more -> (forall d, s <> base64url d) -> token_fault X (s ++ more) EHeaderBase64
| TF_header_json d more : segment (base64url d) more -> ~ header_segment X (base64url d) -> token_fault X (base64url d ++ more) EHeaderJson
| TF_no_payload h : header_segment X h -> token_fault X h EMissingPayload
| TF_payload_base64 h s more : header_segment X h -> segment s more -> (forall d, s <> base64url d) ->
    token_fault X (h ++ B "." ++ s ++ more) EPayloadBase64
| TF_payload_json h d more : header_segment X h -> segment (base64url d) more -> ~ payload_segment X (base64url d) ->
    token_fault X (h ++ B "." ++ base64url d ++ more) EPayloadJson
| TF_no_signature h p : header_segment X h -> payload_segment X p -> token_fault X (h ++ B "." ++ p) EMissingSignature
| TF_signature_base64 h p s more : header_segment X h -> payload_segment X p -> segment s more -> (forall d, s <> base64url d) ->
    token_fault X (h ++ B "." ++ p ++ B "." ++ s ++ more) ESignatureBase64.

(** What is wrong with a citation: no CID, not a raw block, nothing there, not text, not a token. *)
Inductive citation_fault (E : env) (R : nat -> Prop) (text : bytes) : error -> Prop :=
| CF_cid : parse_cid (e_ext E) text = None -> citation_fault E R text ECid
| CF_codec c : parse_cid (e_ext E) text = Some c -> cid_codec c <> 85%N -> citation_fault E R text ECodec
| CF_store c n e : parse_cid (e_ext E) text = Some c -> R n -> e_read E n c = Err e -> citation_fault E R text e
| CF_absent c n r : parse_cid (e_ext E) text = Some c -> R n -> e_read E n c = Ok r -> (forall b, r <> Some (IBytes b)) ->
    citation_fault E R text ENoUcanForCid
| CF_utf8 c n b : parse_cid (e_ext E) text = Some c -> R n -> e_read E n c = Ok (Some (IBytes b)) -> ~ utf8_text b ->
    citation_fault E R text EUtf8
| CF_token c n b e : parse_cid (e_ext E) text = Some c -> R n -> e_read E n c = Ok (Some (IBytes b)) -> token_fault (e_ext E) b e ->
    citation_fault E R text e.

(** What is wrong between a UCAN and its proofs. *)
Inductive link_fault (E : env) (R : nat -> Prop) (u : ucan) : error -> Prop :=
| LF_citation text e : In text (cited u) -> citation_fault E R text e -> link_fault E R u e
| LF_audience text pu : In text (cited u) -> resolves E R text pu -> p_aud (u_payload pu) <> p_iss (u_payload u) -> link_fault E R u ELinkAudience
| LF_lifetime text pu : In text (cited u) -> resolves E R text pu -> ~ lifetime_within (u_payload u) (u_payload pu) -> link_fault E R u ELinkLifetime
| LF_index c i : claims u c -> names_proof (e_ext E) c i -> (N.of_nat (length (cited u)) <= i)%N -> link_fault E R u ENoProofAtIndex.

Definition fault (E : env) (nt : option N) (slice : list (bytes * ctor)) (T R : nat -> Prop) (u : ucan) (e : error) : Prop :=
  own_fault E nt slice T u e \/ link_fault E R u e.
