(** Which tokens are accepted, in terms of the standards alone (C160-C161). *)
From Coq Require Import Sorting.Permutation Sorting.Sorted.
From Verif Require Import Prelude Value Cid Ext Json Capability Semantics Key KeySupport Sha256 Sha512 RsaSign Ed25519 P256 Ucan Store Chain Spec SpecWire SpecJson SpecUrl SpecKeys SpecCbor SpecSha SpecSha512 SpecDer SpecRsa SpecTwin SpecEd SpecP256
  SpecBlake3.

(** The signature of the data under the key a DID names: Ed25519 as in ZIP 215, RSASSA-PKCS1-v1_5 (RFC 8017) with or
    without the test of the range, ECDSA on P-256 (FIPS 186-4). *)
Inductive standard_signature (range : bool) (data sig : bytes) : bytes -> Prop :=
| SS_ed25519 H ab : (forall m, sha512_of m (H m)) -> zip215 H ab data sig -> standard_signature range data sig (did_key_text ([xed; x01] ++ ab))
| SS_rsa n e t : rsa_public_key n e t -> rsa_taken n e -> loose_signature n e data sig ->
    (range = true -> place_value 256 (map bN sig) < n)%N -> standard_signature range data sig (did_key_text ([x85; x24] ++ t))
| SS_p256 P bs : p256_name P bs -> p256_signature P data sig -> standard_signature range data sig (did_key_text ([x80; x24] ++ bs)).

(** The three constructors of the key-support crate, in any order. *)
Definition standard_keys (range : bool) (nonce : N -> bytes -> N) : list (bytes * ctor) :=
  [([xed; x01], bytes_to_ed25519_key (ed25519_zebra sha512)); ([x85; x24], bytes_to_rsa_key (rsa_pkcs1 range) sha256);
   ([x80; x24], bytes_to_p256_key (p256_crate nonce))].

(** The blocks a history of a store writes, in order. *)
Inductive writes : list store_op -> list bytes -> Prop :=
| W_nil : writes [] []
| W_block b ops bs : writes ops bs -> writes (SWrite (IBytes b) :: ops) (b :: bs)
| W_other o ops bs : (forall b, o <> SWrite (IBytes b)) -> writes ops bs -> writes (o :: ops) bs.

(** The last block with a BLAKE3 digest. *)
Definition latest (blocks : list bytes) (d b : bytes) : Prop :=
  exists before after, blocks = before ++ b :: after /\ blake3_of b d /\ forall b', In b' after -> ~ blake3_of b' d.

(** The text is a version-1 CID of a raw block by its BLAKE3 digest; the last such block is a token. *)
Definition stands_for (X : ext) (blocks : list bytes) (text : bytes) (u : ucan) : Prop :=
  exists d b, cid_text X text (mkCid 1 85 30 d) /\ latest blocks d b /\ utf8_text b /\ token_grammar X b u.

(** The expiry is compared with the caller's time if there is one, the not-before never is. *)
Definition in_time (nt : option N) (now : N) (p : payload) : Prop :=
  (forall e, p_exp p = Some e -> match nt with Some t => t | None => now end <= e)%N /\ (forall b, p_nbf p = Some b -> b <= now)%N.

Definition redelegates_texts (u : ucan) (nproofs : nat) (red : list N) : Prop :=
  StronglySorted N.lt red /\
  (forall i, In i red <-> exists c, claims u c /\ cap_ability c = B "ucan/DELEGATE" /\ proof_text (cap_resource c) i) /\
  (forall i, In i red -> (i < N.of_nat nproofs)%N).

Inductive standard_chain (X : ext) (range : bool) (nt : option N) (now : N) (blocks : list bytes) : chain -> Prop :=
| SC u proofs red :
    in_time nt now (u_payload u) ->
    standard_signature range (u_signed_data u) (u_signature u) (p_iss (u_payload u)) ->
    Forall2 (fun text pc => stands_for X blocks text (c_ucan pc)) (cited u) proofs ->
    (forall pc, In pc proofs -> linked u (c_ucan pc)) ->
    redelegates_texts u (length proofs) red ->
    (forall pc, In pc proofs -> standard_chain X range nt now blocks pc) ->
    standard_chain X range nt now blocks (Chain u proofs red).

(** A machine whose clock stands still and whose store has the history. *)
Definition standing (E : env) (now : N) (ops : list store_op) : Prop :=
  (forall n, e_clock E n = now) /\ forall n c, e_read E n c = mem_read (snd (store_run (e_ext E) [] ops)) c.

(** The issuer's key signed the text of the token. *)
Definition issued (range : bool) (u : ucan) : Prop := standard_signature range (u_signed_data u) (u_signature u) (p_iss (u_payload u)).

(** [standard_line u v o]: a line of claims from one issued by [o] to [v] in [u]. Each UCAN on the line carries its issuer's
    signature, is addressed to the issuer of the next, outlives it and is cited in it; each claim is enabled by the one
    before it or is redelegated. *)
Inductive standard_line {S A} (SO : scope_ops S) (AO : ability_ops A) parse (X : ext) (range : bool) (blocks : list bytes) : ucan -> view S A -> bytes -> Prop :=
| SL_claim u v : issued range u -> heeded parse u v -> standard_line SO AO parse X range blocks u v (p_iss (u_payload u))
| SL_enabled u pu text v w o : issued range u -> heeded parse u v -> In text (cited u) -> stands_for X blocks text pu -> linked u pu ->
    standard_line SO AO parse X range blocks pu w o -> view_enables SO AO w v = true -> standard_line SO AO parse X range blocks u v o
| SL_redelegated u pu text c i v o : issued range u -> claims u c -> cap_ability c = B "ucan/DELEGATE" -> proof_text (cap_resource c) i ->
    nth_error (cited u) (N.to_nat i) = Some text -> stands_for X blocks text pu -> linked u pu ->
    standard_line SO AO parse X range blocks pu v o -> standard_line SO AO parse X range blocks u v o.
