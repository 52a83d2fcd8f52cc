(** C131: several DIDs of one key. *)
From Verif Require Import Prelude Ord SMap Base58 Value Ext Key KeySupport Der Ucan Builder Store Chain Spec SpecAlias
  OrdFacts DidFacts AliasFacts Samples SampleAlias.

(* ------------------------------------------------------------------- C131 *)

(** A DID that resolves need not be the DID of the key it resolves to, even if every key is
    read back from its encoding. *)
Theorem C131_own_did_refuted : exists Pub Priv (C : crypto Pub Priv) slice did k,
  sec1_codec C /\ (forall pk b, cr_encode C pk = Some b -> cr_decode C b = Some pk) /\
  registered slice [x80; x24] (bytes_to_p256_key C) /\ fst (did_parse (did_parser_new slice) did) = Ok k /\ key_did k <> Ok did.
Proof. exact own_did_false. Qed.
Print Assumptions C131_own_did_refuted.

(** It is for every DID exactly when each of the three decoders reads nothing but encodings. *)
Theorem C131_own_did_iff_partial : forall PubE PrivE PubP PrivP PubR PrivR
    (CE : crypto PubE PrivE) (CP : crypto PubP PrivP) (CR : crypto PubR PrivR) sha256 dids,
  (forall did k, fst (did_parse (parser_after (three_types CE CP CR sha256) dids) did) = Ok k -> key_did k = Ok did) <->
  own_encoding_only CE /\ own_encoding_only CP /\ own_encoding_only CR.
Proof. exact (fun _ _ _ _ _ _ CE CP CR sha256 dids => own_did_iff CE CP CR sha256 dids). Qed.
Print Assumptions C131_own_did_iff_partial.

(** RSA: the DER decoder does. *)
Theorem C131_rsa_partial : forall Priv (sgn : Priv -> bytes -> option bytes) vrf sha256 slice dids did k tl,
  registered slice [x85; x24] (bytes_to_rsa_key (rsa_crate sgn vrf) sha256) -> did = did_key_text ([x85; x24] ++ tl) ->
  fst (did_parse (parser_after slice dids) did) = Ok k -> key_did k = Ok did.
Proof. exact (fun _ sgn vrf sha256 slice dids did k tl => rsa_own_did sgn vrf sha256 slice dids did k tl). Qed.
Print Assumptions C131_rsa_partial.

(** P-256 with a SEC 1 decoder: every key has a second DID. *)
Theorem C131_second_did_partial : forall Pub Priv (C : crypto Pub Priv) pk sk b slice dids,
  sec1_codec C -> cr_encode C pk = Some b -> registered slice [x80; x24] (bytes_to_p256_key C) ->
  exists did, key_did (p256_key C pk sk) <> Ok did /\ fst (did_parse (parser_after slice dids) did) = Ok (p256_key C pk None).
Proof. exact (fun _ _ C pk sk b slice dids => second_did C pk sk b slice dids). Qed.
Print Assumptions C131_second_did_partial.

(** What is issued under any DID that resolves to the key has a valid signature. *)
Theorem C131_second_token_partial : forall Pub Priv (C : crypto Pub Priv) X rng s u pk sk slice dids did st,
  fst (did_parse (parser_after slice dids) did) = Ok (p256_key C pk None) ->
  (forall d g, cr_sign C sk d = Some g -> cr_verify C pk d g = true) ->
  s_issuer s = under did (p256_key C pk (Some sk)) -> v_parser st = parser_after slice dids ->
  sign X rng s = Ok u -> p_iss (u_payload u) = did /\ fst (check_signature u st) = Ok tt.
Proof. exact (fun _ _ C X rng s u pk sk slice dids did st => second_token C X rng s u pk sk slice dids did st). Qed.
Print Assumptions C131_second_token_partial.

(** In a chain the names are different principals: a proof addressed to the key's own DID
    supports nothing issued under another. *)
Theorem C131_names_apart_partial : forall E nt slice fuel u st c st' d pc k,
  with_parser slice st -> from_ucan E nt fuel u st = (Ok c, st') -> sub_chain d c -> In pc (c_proofs d) ->
  key_did k <> Ok (p_iss (u_payload (c_ucan d))) -> key_did k <> Ok (p_aud (u_payload (c_ucan pc))).
Proof. exact names_apart. Qed.
Print Assumptions C131_names_apart_partial.

Example C131_example :
  sec1_codec diag_crypto /\ own_name <> long_name /\
  (forall d, In d [own_name; long_name] -> exists k, fst (did_parse (did_parser_new diag_parser) d) = Ok k /\ key_did k = Ok own_name) /\
  diag_outcome diag_key = Ok tt /\ diag_outcome (under long_name diag_key) = Err ELinkAudience.
Proof.
  split; [exact diag_sec1|]. split; [vm_compute; discriminate|]. split; [|vm_compute; split; reflexivity].
  intros d [<- | [<- | []]]; eexists; (split; [vm_compute; reflexivity | vm_compute; reflexivity]).
Qed.
