(** IPLD blocks of UCANs, and the texts of views (C155-C157). *)
From Verif Require Import Prelude Ord SMap Base58 Utf8 Value Cid Ext Capability Semantics Key Ucan Ipld Spec SpecWire SpecJson SpecIpld SpecEntry.

(** The CIDs that texts name. *)
Definition named_cids (X : ext) : list bytes -> list cid -> Prop := Forall2 (fun t c => parse_cid X t = Some c).

(** The block of a UCAN: proofs as CIDs (none rather than an empty list), principals as bytes, the signature behind
    the code of its kind and its length. *)
Record block_of (X : ext) (u : ucan) (i : ucan_ipld) : Prop := mkBlockOf {
  bo_prf : exists cs, named_cids X (cited u) cs /\ (cs = [] /\ ui_prf i = None \/ cs <> [] /\ ui_prf i = Some cs);
  bo_iss : principal_bytes (p_iss (u_payload u)) (ui_iss i);
  bo_aud : principal_bytes (p_aud (u_payload u)) (ui_aud i);
  bo_sig : exists a v n c l, In (h_alg (u_header u), a, v) jwt_kinds /\ In (v, n) signature_kinds /\
    shortest_varint n c /\ shortest_varint (N.of_nat (length (u_signature u))) l /\ ui_s i = c ++ l ++ u_signature u;
  bo_v : ui_v i = p_ucv (u_payload u);
  bo_cap : ui_cap i = p_cap (u_payload u);
  bo_exp : ui_exp i = p_exp (u_payload u);
  bo_nbf : ui_nbf i = p_nbf (u_payload u);
  bo_nnc : ui_nnc i = p_nnc (u_payload u);
  bo_fct : ui_fct i = p_fct (u_payload u)
}.

(** Why a UCAN has no block; the first of the reasons counts. *)
Inductive block_fault (X : ext) (u : ucan) : error -> Prop :=
| BF_prf t : In t (cited u) -> parse_cid X t = None -> block_fault X u ECid
| BF_iss cs e : named_cids X (cited u) cs -> principal_fault (p_iss (u_payload u)) e -> block_fault X u e
| BF_aud cs p e : named_cids X (cited u) cs -> principal_bytes (p_iss (u_payload u)) p -> principal_fault (p_aud (u_payload u)) e -> block_fault X u e
| BF_alg cs p q : named_cids X (cited u) cs -> principal_bytes (p_iss (u_payload u)) p -> principal_bytes (p_aud (u_payload u)) q ->
    (forall a v, ~ In (h_alg (u_header u), a, v) jwt_kinds) -> block_fault X u EAlgorithmName.

(** The DID a principal prints as. *)
Inductive principal_text : bytes -> bytes -> Prop :=
| PT_key b0 b1 r : [b0; b1] <> marker -> principal_text (b0 :: b1 :: r) (did_key_text (b0 :: b1 :: r))
| PT_other r : utf8_text r -> principal_text (marker ++ r) (B "did:" ++ r).

(** The UCAN of a block: a fresh header and version, the signing input made anew. *)
Record ucan_of_block (X : ext) (i : ucan_ipld) (u : ucan) : Prop := mkUcanOfBlock {
  ub_sig : exists a v n c l rest, In (h_alg (u_header u), a, v) jwt_kinds /\ In (v, n) signature_kinds /\
    leb128 c n /\ leb128 l (N.of_nat (length (u_signature u))) /\ ui_s i = c ++ l ++ u_signature u ++ rest;
  ub_typ : h_typ (u_header u) = B "JWT";
  ub_ucv : p_ucv (u_payload u) = B "0.10.0-canary";
  ub_iss : principal_text (ui_iss i) (p_iss (u_payload u));
  ub_aud : principal_text (ui_aud i) (p_aud (u_payload u));
  ub_prf : match ui_prf i with Some cs => p_prf (u_payload u) = Some (map cid_to_string cs) | None => p_prf (u_payload u) = None end;
  ub_cap : p_cap (u_payload u) = ui_cap i;
  ub_exp : p_exp (u_payload u) = ui_exp i;
  ub_nbf : p_nbf (u_payload u) = ui_nbf i;
  ub_nnc : p_nnc (u_payload u) = ui_nnc i;
  ub_fct : p_fct (u_payload u) = ui_fct i;
  ub_data : exists h p, header_text (u_header u) h /\ payload_text X (u_payload u) p /\ u_signed_data u = base64url h ++ B "." ++ base64url p
}.

(** Why a principal does not print. *)
Inductive principal_abort : bytes -> panic -> Prop :=
| PA_short p : (length p < 2)%nat -> principal_abort p PPrincipleSlice
| PA_text r : ~ utf8_text r -> principal_abort (marker ++ r) PPrincipleFmt.

(** Why reading a block aborts: the length of the signature exceeds what follows, or, with a signature that decodes,
    the issuer or then the audience does not print. *)
Definition block_signature (s : bytes) : Prop :=
  exists a v n c l sig rest t, In (t, a, v) jwt_kinds /\ In (v, n) signature_kinds /\ leb128 c n /\ leb128 l (N.of_nat (length sig)) /\ s = c ++ l ++ sig ++ rest.
Inductive block_abort (i : ucan_ipld) : panic -> Prop :=
| BA_sig t a v n c l k rest : In (t, a, v) jwt_kinds -> In (v, n) signature_kinds -> leb128 c n -> leb128 l k ->
    ui_s i = c ++ l ++ rest -> (N.of_nat (length rest) < k)%N -> block_abort i PVarsigSlice
| BA_iss q : block_signature (ui_s i) -> principal_abort (ui_iss i) q -> block_abort i q
| BA_aud t q : block_signature (ui_s i) -> principal_text (ui_iss i) t -> principal_abort (ui_aud i) q -> block_abort i q.

(** The texts of resources. *)
Inductive resource_text {S} (text : S -> bytes) : resource S -> bytes -> Prop :=
| RT_any : resource_text text (RPlain Unscoped) (B "*")
| RT_scope s : resource_text text (RPlain (Scoped s)) (text s)
| RT_my r t : resource_text text (RPlain r) t -> resource_text text (RMy r) (B "my:" ++ t)
| RT_as did r t : resource_text text (RPlain r) t -> resource_text text (RAs did r) (B "as:" ++ did ++ B ":" ++ t).
