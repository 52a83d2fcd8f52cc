(** C145-C149: ECDSA on P-256, and fresh tokens of all the key types. *)
From Verif Require Import Prelude Ord SMap Base58 Value Cbor Ext Json Capability Semantics Key KeySupport Der Sha256 Sha512 RsaSign Ed25519 P256 Ucan Builder Store Chain
  Spec SpecWire SpecCbor SpecSha SpecDer SpecRsa SpecTwin SpecEd SpecP256 TwinFacts P256Facts P256TokenFacts Samples SampleRsa SampleP256.

(* ------------------------------------------------------------------- C145 *)

(** Keys from bytes: the names of points, and nothing else; their DID is that of the compressed name; they verify
    as FIPS 186-4 says and do not sign. *)
Theorem C145_keys : forall nonce bs,
  ((exists k, bytes_to_p256_key (p256_crate nonce) bs = Ok k) <-> exists P, p256_name P bs) /\
  ((exists k, bytes_to_p256_key (p256_crate nonce) bs = Ok k) \/ bytes_to_p256_key (p256_crate nonce) bs = Err EKeyBytes) /\
  forall k P, bytes_to_p256_key (p256_crate nonce) bs = Ok k -> p256_name P bs ->
    (forall own, compressed_name P own -> key_did k = Ok (did_key_text ([x80; x24] ++ own))) /\
    forall data sig, (key_verify k data sig = Ok tt <-> p256_signature P data sig) /\
      (key_verify k data sig <> Ok tt -> key_verify k data sig = Err ESignature) /\ key_sign k data = Err ENoPrivateKey.
Proof. exact p256_keys. Qed.
Print Assumptions C145_keys.

(** Key pairs: the DID, the signature of the nonce, and what is verified. *)
Theorem C145_pairs : forall nonce d P data, p256_key_pair d P -> (0 < nonce d data)%N -> (Z.of_N (nonce d data) < p256_order)%Z ->
  (forall own, compressed_name P own -> key_did (p256_material nonce P (Some (mkQPriv d P))) = Ok (did_key_text ([x80; x24] ++ own))) /\
  (forall sig, key_sign (p256_material nonce P (Some (mkQPriv d P))) data = Ok sig <-> p256_signed d (nonce d data) data sig) /\
  (forall sig, key_verify (p256_material nonce P (Some (mkQPriv d P))) data sig = Ok tt <-> p256_signature P data sig).
Proof. exact p256_scalars. Qed.
Print Assumptions C145_pairs.

(** Private keys from bytes: a scalar below the order and not zero, with its point. *)
Theorem C145_scalars : forall bs sk, q_signing_key bs = Some sk <->
  exists d P, be_number 32 d bs /\ p256_key_pair d P /\ sk = mkQPriv d P.
Proof. exact signing_key_iff. Qed.
Print Assumptions C145_scalars.

(** What a key verifies is what some nonce signs. *)
Theorem C145_nonces : forall d P data sig, p256_key_pair d P ->
  (p256_signature P data sig <-> exists k, (0 < k)%N /\ (Z.of_N k < p256_order)%Z /\ p256_signed d k data sig).
Proof. exact signature_nonces. Qed.
Print Assumptions C145_nonces.

(** Tokens: those of a P-256 issuer pass the check of the signature exactly if they carry one. *)
Theorem C145_token : forall nonce slice bs u st,
  registered slice [x80; x24] (bytes_to_p256_key (p256_crate nonce)) -> with_parser slice st ->
  p_iss (u_payload u) = did_key_text ([x80; x24] ++ bs) ->
  (fst (check_signature u st) = Ok tt <-> exists P, p256_name P bs /\ p256_signature P (u_signed_data u) (u_signature u)).
Proof. exact p256_token. Qed.
Print Assumptions C145_token.

(** The key 1: its text, what it signs with the nonce 1, and that the signature of one text is not that of another. *)
Example C145_example :
  p256_key_pair 1 one_pub /\ p256_name one_pub one_text /\
  p256_signed 1 1 (B "text") (one_sig (one_s (B "text"))) /\
  p256_signature one_pub (B "text") (one_sig (one_s (B "text"))) /\
  ~ p256_signature one_pub (B "other") (one_sig (one_s (B "text"))).
Proof.
  assert (one_s (B "text") <> 0)%Z as H0 by (vm_compute; discriminate). assert (0 <= one_s (B "text") < 2 ^ 256)%Z as Hb by (vm_compute; split; [discriminate | reflexivity]).
  split; [exact one_pair|]. split; [exact (proj1 one_names)|]. split; [apply one_signs, H0|]. split; [apply one_all; [exact H0 | exact Hb | left; reflexivity]|].
  intros K. apply one_all in K; [|vm_compute; discriminate | exact Hb]. destruct K as [K|K]; vm_compute in K; discriminate K.
Qed.

(* ------------------------------------------------------------------- C146 *)

(** A point has several names, hence DIDs; and the key of a DID can have another DID. *)
Theorem C146_one_did_refuted : exists nonce bs bs' P k k' d, p256_name P bs /\ p256_name P bs' /\
  bytes_to_p256_key (p256_crate nonce) bs = Ok k /\ bytes_to_p256_key (p256_crate nonce) bs' = Ok k' /\
  key_did k = Ok d /\ key_did k' = Ok d /\
  did_key_text ([x80; x24] ++ bs) <> did_key_text ([x80; x24] ++ bs') /\ key_did k' <> Ok (did_key_text ([x80; x24] ++ bs')).
Proof. exact two_dids. Qed.
Print Assumptions C146_one_did_refuted.

(** Two names, and a third if the second coordinate is below half the prime. *)
Theorem C146_names_partial : forall P, p_pair P -> exists l, NoDup l /\ (forall bs, In bs l <-> p256_name P bs) /\
  length l = if (2 * snd P <? p256_prime)%Z then 3%nat else 2%nat.
Proof. exact names_list. Qed.
Print Assumptions C146_names_partial.

(** A name has one point, every point a compressed name. *)
Theorem C146_points_partial : (forall bs P P', p256_name P bs -> p256_name P' bs -> P = P') /\
  (forall P, p_pair P -> exists own, compressed_name P own).
Proof. exact (conj name_point compressed_exists). Qed.
Print Assumptions C146_points_partial.

(** The key of a DID has that DID exactly for the compressed name. *)
Theorem C146_did_partial : forall nonce bs k P, p256_name P bs -> bytes_to_p256_key (p256_crate nonce) bs = Ok k ->
  (key_did k = Ok (did_key_text ([x80; x24] ++ bs)) <-> compressed_name P bs).
Proof. exact did_stable. Qed.
Print Assumptions C146_did_partial.

(** The base point has three. *)
Example C146_example : p256_name one_pub one_text /\ p256_name one_pub one_long /\ p256_name one_pub one_short /\
  one_text <> one_long /\ one_text <> one_short /\ one_long <> one_short.
Proof. destruct one_names as (H1 & H2 & H3). repeat split; try discriminate; try apply H1; try apply H2; apply H3. Qed.

(* ------------------------------------------------------------------- C147 *)

(** Every public key has exactly one private key, and conversely. *)
Theorem C147_private : forall P, p_pair P -> exists d, p256_key_pair d P /\ forall d', p256_key_pair d' P -> d' = d.
Proof. exact private_key. Qed.
Print Assumptions C147_private.

Theorem C147_public : forall d, (0 < d)%N -> (Z.of_N d < p256_order)%Z ->
  exists P, p256_key_pair d P /\ forall P', p256_key_pair d P' -> P' = P.
Proof. exact key_pair_public. Qed.
Print Assumptions C147_public.

(** No public key has a small order: the multiples that vanish are those of the order. *)
Theorem C147_order : forall P k, p_pair P -> (p_multiple (Some P) k None <-> (p256_order | Z.of_N k)%Z).
Proof. exact full_order. Qed.
Print Assumptions C147_order.

(** The sum of the specification is one on all points. *)
Theorem C147_sum : forall P Q, p_point P -> p_point Q -> exists R, p_sum P Q R /\ p_point R /\ forall R', p_sum P Q R' -> R' = R.
Proof. exact sum_point. Qed.
Print Assumptions C147_sum.

(** The key 1. *)
Example C147_example : p_pair one_pub /\ (forall d, p256_key_pair d one_pub <-> d = 1%N) /\ ~ p_multiple (Some one_pub) 8 None /\
  p_multiple (Some one_pub) (Z.to_N p256_order) None.
Proof.
  pose proof (key_pair_pair _ _ one_pair) as HP. split; [exact HP|]. split; [intros d; split; [intros K; exact (key_pair_unique _ _ _ K one_pair) | intros ->; exact one_pair]|].
  split; [|apply full_order; [exact HP | exists 1%Z; reflexivity]]. intros K. apply full_order in K; [|exact HP]. apply Z.divide_pos_le in K; [|reflexivity].
  vm_compute in K. apply K. reflexivity.
Qed.

(* ------------------------------------------------------------------- C148 *)

(** The model of the crate is ECDSA on a group of odd order, so that every accepted token has a twin. *)
Theorem C148_ecdsa : forall nonce, ecdsa_crypto (p256_crate nonce).
Proof. exact p256_ecdsa. Qed.
Print Assumptions C148_ecdsa.

Theorem C148_twin : forall nonce E nt fuel t st c st' slice tl,
  registered slice [x80; x24] (bytes_to_p256_key (p256_crate nonce)) -> with_parser slice st ->
  from_token E nt fuel t st = (Ok c, st') -> p_iss (u_payload (c_ucan c)) = did_key_text ([x80; x24] ++ tl) ->
  exists a s s' rest c', t = a ++ B "." ++ s ++ rest /\ s' <> s /\
    a = u_signed_data (c_ucan c) /\ ~ In x2e s /\ ~ In x2e s' /\ (rest = [] \/ exists r, rest = B "." ++ r) /\
    from_token E nt fuel (a ++ B "." ++ s' ++ rest) st = (Ok c', st') /\
    u_header (c_ucan c') = u_header (c_ucan c) /\ u_payload (c_ucan c') = u_payload (c_ucan c) /\
    c_proofs c' = c_proofs c /\
    forall S A (SO : scope_ops S) (AO : ability_ops A) parse, reduce SO AO parse c' = reduce SO AO parse c.
Proof. exact (fun nonce E nt fuel t st c st' slice tl => accepted_twin (p256_crate nonce) E nt fuel t st c st' slice tl (p256_ecdsa nonce)). Qed.
Print Assumptions C148_twin.

(** It has no other one with the same first half, unless that is below p - n. *)
Theorem C148_exactly_two : forall nonce slice bs u u' st st' r s,
  registered slice [x80; x24] (bytes_to_p256_key (p256_crate nonce)) -> with_parser slice st -> with_parser slice st' ->
  p_iss (u_payload u) = did_key_text ([x80; x24] ++ bs) -> u_payload u' = u_payload u -> u_signed_data u' = u_signed_data u ->
  fst (check_signature u st) = Ok tt -> be_number 32 r (firstn 32 (u_signature u)) -> be_number 32 s (skipn 32 (u_signature u)) ->
  (p256_prime <= Z.of_N r + p256_order)%Z -> firstn 32 (u_signature u') = firstn 32 (u_signature u) ->
  (fst (check_signature u' st') = Ok tt <-> exists s', be_number 32 s' (skipn 32 (u_signature u')) /\ (s' = s \/ (Z.of_N s + Z.of_N s' = p256_order)%Z)).
Proof. exact same_first. Qed.
Print Assumptions C148_exactly_two.

(** A token of the key 1 and all that begin like it. *)
Example C148_example : p_iss (u_payload one_ucan) = one_did /\ fst (check_signature one_ucan one_state) = Ok tt /\
  u_signature one_ucan = one_sig (one_s (u_signed_data one_ucan)) /\
  forall s, (0 <= s < 2 ^ 256)%Z -> (fst (check_signature (with_sig one_ucan (one_sig s)) one_state) = Ok tt <->
    s = one_s (u_signed_data one_ucan) \/ s = (p256_order - one_s (u_signed_data one_ucan))%Z).
Proof. exact (conj one_issuer (conj one_accepted (conj (proj1 one_value) one_others))). Qed.

(* ------------------------------------------------------------------- C149 *)

(** What a builder signs with a P-256 key pair passes, at once and after transport. *)
Theorem C149_p256 : forall nonce d P X rng s u slice st, p256_key_pair d P ->
  (forall data, (0 < nonce d data)%N /\ (Z.of_N (nonce d data) < p256_order)%Z) ->
  s_issuer s = p256_material nonce P (Some (mkQPriv d P)) -> sign X rng s = Ok u ->
  registered slice [x80; x24] (bytes_to_p256_key (p256_crate nonce)) -> with_parser slice st ->
  fst (check_signature u st) = Ok tt /\ forall v, signable_carried X s -> parse_token X (encode X u) = Ok v -> fst (check_signature v st) = Ok tt.
Proof. exact fresh_p256. Qed.
Print Assumptions C149_p256.

(** With an Ed25519 seed. *)
Theorem C149_ed25519 : forall H seed X rng s u slice st,
  s_issuer s = ed25519_material H (es_pub (ed_signing_key H seed)) (Some (ed_signing_key H seed)) -> sign X rng s = Ok u ->
  registered slice [xed; x01] (bytes_to_ed25519_key (ed25519_zebra H)) -> with_parser slice st ->
  fst (check_signature u st) = Ok tt /\ forall v, signable_carried X s -> parse_token X (encode X u) = Ok v -> fst (check_signature v st) = Ok tt.
Proof. exact fresh_ed. Qed.
Print Assumptions C149_ed25519.

(** With an RSA key the crate takes, whatever the private exponent. *)
Theorem C149_rsa : forall range n e t d X rng s u slice st, rsa_taken n e -> rsa_public_key n e t ->
  s_issuer s = rsa_material range (n, e) (Some (mkRsaPriv n e d)) -> sign X rng s = Ok u ->
  registered slice [x85; x24] (bytes_to_rsa_key (rsa_pkcs1 range) sha256) -> with_parser slice st ->
  fst (check_signature u st) = Ok tt /\ forall v, signable_carried X s -> parse_token X (encode X u) = Ok v -> fst (check_signature v st) = Ok tt.
Proof. exact fresh_rsa. Qed.
Print Assumptions C149_rsa.

(** Such tokens. *)
Example C149_example : sign sample_ext [] one_signable = Ok one_ucan /\ (forall seed, exists u, sign sample_ext [] (seed_signable seed) = Ok u) /\
  exists u, sign sample_ext [] rsa_signable = Ok u.
Proof. exact (conj one_made (conj seed_made rsa_made)). Qed.
