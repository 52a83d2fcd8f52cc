(** C140-C143: Ed25519. *)
From Verif Require Import Prelude Ord SMap Base58 Value Cbor Ext Json Capability Key KeySupport Ucan Builder Store Chain Ed25519
  Spec SpecWire SpecCbor SpecEd EdFacts Samples SampleRsa SampleEd.

(* ------------------------------------------------------------------- C140 *)

(** Keys from bytes: the names of points, and nothing else; their DID keeps the bytes; they verify by the rules
    of ZIP 215 and do not sign. *)
Theorem C140_keys : forall H bs,
  ((exists k, bytes_to_ed25519_key (ed25519_zebra H) bs = Ok k) <-> exists A, point_name bs A) /\
  ((exists k, bytes_to_ed25519_key (ed25519_zebra H) bs = Ok k) \/ bytes_to_ed25519_key (ed25519_zebra H) bs = Err EKeyBytes) /\
  forall k, bytes_to_ed25519_key (ed25519_zebra H) bs = Ok k ->
    key_did k = Ok (did_key_text ([xed; x01] ++ bs)) /\
    forall data sig, (key_verify k data sig = Ok tt <-> zip215 H bs data sig) /\
      (key_verify k data sig <> Ok tt -> key_verify k data sig = Err ESignature) /\ key_sign k data = Err ENoPrivateKey.
Proof. exact ed_keys. Qed.
Print Assumptions C140_keys.

(** Keys from a seed: there is one key pair, its DID is the public text, it always signs, as RFC 8032 says, and
    verifies by the rules of ZIP 215. *)
Theorem C140_seeds : forall H seed data, let sk := ed_signing_key H seed in
  (exists s prefix ab, ed_key_pair H seed s prefix ab /\ key_did (ed25519_material H (es_pub sk) (Some sk)) = Ok (did_key_text ([xed; x01] ++ ab))) /\
  (forall s prefix ab s' prefix' ab', ed_key_pair H seed s prefix ab -> ed_key_pair H seed s' prefix' ab' -> s = s' /\ prefix = prefix' /\ ab = ab') /\
  (exists sig, key_sign (ed25519_material H (es_pub sk) (Some sk)) data = Ok sig) /\
  (forall sig, key_sign (ed25519_material H (es_pub sk) (Some sk)) data = Ok sig <-> ed_signature_of H seed data sig) /\
  (forall sig s prefix ab, ed_key_pair H seed s prefix ab ->
     (key_verify (ed25519_material H (es_pub sk) (Some sk)) data sig = Ok tt <-> zip215 H ab data sig)).
Proof. exact ed_signing. Qed.
Print Assumptions C140_seeds.

(** Whatever the hash, what a seed signs is verified. *)
Theorem C140_complete : forall H seed data sig s prefix ab,
  ed_key_pair H seed s prefix ab -> ed_signature_of H seed data sig -> zip215 H ab data sig.
Proof. exact sign_zip. Qed.
Print Assumptions C140_complete.

(** Tokens: those of an Ed25519 issuer pass the check of the signature exactly if they carry one. *)
Theorem C140_token : forall H slice ab u st,
  registered slice [xed; x01] (bytes_to_ed25519_key (ed25519_zebra H)) -> with_parser slice st ->
  p_iss (u_payload u) = did_key_text ([xed; x01] ++ ab) ->
  (fst (check_signature u st) = Ok tt <-> zip215 H ab (u_signed_data u) (u_signature u)).
Proof. exact ed_token. Qed.
Print Assumptions C140_token.

(** With the last byte as the hash: the base point as a key, a signature for the texts that end in 7, and a key pair. *)
Example C140_example :
  (exists A, point_text base_text A) /\
  (forall data, data <> [] -> zip215 last_hash base_text data base_sig <-> last data x00 = x07) /\
  zip215 last_hash base_text [x61; x07] base_sig /\ ~ zip215 last_hash base_text [x61; x08] base_sig /\
  exists ab sig, ed_key_pair last_hash (B "k") (2 ^ 254 + 104) [] ab /\ ed_signature_of last_hash (B "k") (B "text") sig /\
    zip215 last_hash ab (B "text") sig.
Proof.
  split; [eexists; exact base_text_ok|]. split; [exact base_sig_iff|]. split; [apply base_sig_iff; [discriminate | reflexivity]|].
  split; [|exact seed_pair]. intros K. apply base_sig_iff in K; [discriminate | discriminate].
Qed.

(* ------------------------------------------------------------------- C141 *)

(** A signature need not belong to one text. *)
Theorem C141_bound_refuted : exists ab sig, forall H data, exists k,
  bytes_to_ed25519_key (ed25519_zebra H) ab = Ok k /\ key_verify k data sig = Ok tt.
Proof. exact universal_key. Qed.
Print Assumptions C141_bound_refuted.

(** The keys that have such a signature are the points whose order divides eight. *)
Theorem C141_universal_partial : forall ab,
  (exists sig, forall H data, zip215 H ab data sig) <-> exists A, point_name ab A /\ multiple A 8 (0, 1)%Z.
Proof. exact universal_iff. Qed.
Print Assumptions C141_universal_partial.

(** Their DIDs are issuers for whom everybody can sign. *)
Theorem C141_token_partial : forall ab A, point_name ab A -> multiple A 8 (0, 1)%Z -> exists sig, forall H slice u st,
  registered slice [xed; x01] (bytes_to_ed25519_key (ed25519_zebra H)) -> with_parser slice st ->
  p_iss (u_payload u) = did_key_text ([xed; x01] ++ ab) -> u_signature u = sig -> fst (check_signature u st) = Ok tt.
Proof. exact universal_token. Qed.
Print Assumptions C141_token_partial.

(** A key pair of a seed is none of these: no multiple of its point vanishes before the order of the base. *)
Theorem C141_seeds_partial : forall H seed s prefix ab A n, ed_key_pair H seed s prefix ab -> point_name ab A ->
  (0 < n)%N -> (Z.of_N n < l25519)%Z -> ~ multiple A n (0, 1)%Z.
Proof. exact seed_order. Qed.
Print Assumptions C141_seeds_partial.

(** With it, one signature for two texts means one number for two hashes. *)
Theorem C141_bound_partial : forall H seed s prefix ab data data' sig, ed_key_pair H seed s prefix ab -> zip215 H ab data sig ->
  (zip215 H ab data' sig <->
   exists k, hash_number H (firstn 32 sig ++ ab ++ data) k /\ hash_number H (firstn 32 sig ++ ab ++ data') k).
Proof. exact honest_binds. Qed.
Print Assumptions C141_bound_partial.

(** The key of 32 zero bytes has order four; two tokens of the neutral point, with one signature. *)
Example C141_example :
  (exists A, point_name zero_text A /\ multiple A 4 (0, 1)%Z /\ ~ multiple A 2 (0, 1)%Z) /\
  (exists sig, forall H data, zip215 H zero_text data sig) /\
  unit_token "a@x" <> unit_token "b@x" /\
  outcome (unit_token "a@x") unit_state = Ok tt /\ outcome (unit_token "b@x") unit_state = Ok tt.
Proof.
  split; [exact quarter_exact|]. split; [apply universal_iff; eexists; split; [exact quarter_name | exact quarter_eight]|].
  split; [vm_compute; discriminate|]. split; vm_compute; reflexivity.
Qed.

(* ------------------------------------------------------------------- C142 *)

(** The first half of a signature determines the second. *)
Theorem C142_first_half : forall H ab data sig sig',
  zip215 H ab data sig -> zip215 H ab data sig' -> firstn 32 sig = firstn 32 sig' -> sig = sig'.
Proof. exact first_half. Qed.
Print Assumptions C142_first_half.

(** With a key pair there are many: one for each name of a point that is a multiple of the base, up to a point of order eight. *)
Theorem C142_first_halves : forall H seed s prefix ab data rb, ed_key_pair H seed s prefix ab -> length rb = 32%nat ->
  (exists sb, zip215 H ab data (rb ++ sb)) <->
  (exists R B r X, point_name rb R /\ base_point B /\ multiple R 8 X /\ multiple B (8 * r) X).
Proof. exact first_halves. Qed.
Print Assumptions C142_first_halves.

(** Of two accepted tokens over the same header and payload with different signatures, the first halves differ. *)
Theorem C142_tokens : forall H slice slice' ab u u' st st',
  registered slice [xed; x01] (bytes_to_ed25519_key (ed25519_zebra H)) -> with_parser slice st ->
  registered slice' [xed; x01] (bytes_to_ed25519_key (ed25519_zebra H)) -> with_parser slice' st' ->
  p_iss (u_payload u) = did_key_text ([xed; x01] ++ ab) -> p_iss (u_payload u') = did_key_text ([xed; x01] ++ ab) ->
  u_signed_data u = u_signed_data u' -> fst (check_signature u st) = Ok tt -> fst (check_signature u' st') = Ok tt ->
  firstn 32 (u_signature u) = firstn 32 (u_signature u') -> u_signature u = u_signature u'.
Proof. exact first_half_token. Qed.
Print Assumptions C142_tokens.

(** Of the signatures that begin with the base point, one. *)
Example C142_example : forall sb, zip215 last_hash base_text [x61; x07] (base_text ++ sb) <-> sb = x08 :: repeat x00 31.
Proof. exact base_half. Qed.

(* ------------------------------------------------------------------- C143 *)

(** A point can have several names, and with them several DIDs. *)
Theorem C143_one_did_refuted : exists A bs bs' H k k' d d', bs <> bs' /\ point_name bs A /\ point_name bs' A /\
  bytes_to_ed25519_key (ed25519_zebra H) bs = Ok k /\ bytes_to_ed25519_key (ed25519_zebra H) bs' = Ok k' /\
  key_did k = Ok d /\ key_did k' = Ok d' /\ d <> d'.
Proof. exact two_names. Qed.
Print Assumptions C143_one_did_refuted.

(** Those with a second coordinate below 19 or the first zero. *)
Theorem C143_names_partial : forall bs A, point_name bs A ->
  ((exists bs', bs' <> bs /\ point_name bs' A) <-> (snd A < 19)%Z \/ fst A = 0%Z).
Proof. exact other_name. Qed.
Print Assumptions C143_names_partial.

(** A name has one point, and every point the name of RFC 8032. *)
Theorem C143_points_partial : (forall bs A A', point_name bs A -> point_name bs A' -> A = A') /\
  (forall A, curve_point A -> exists bs, point_text bs A /\ point_name bs A).
Proof. exact names_points. Qed.
Print Assumptions C143_points_partial.

(** The neutral point. *)
Example C143_example : point_name unit_text (0, 1)%Z /\ point_name unit_text' (0, 1)%Z /\ unit_text <> unit_text' /\
  point_text unit_text (0, 1)%Z /\ ~ point_text unit_text' (0, 1)%Z.
Proof. exact unit_names. Qed.
