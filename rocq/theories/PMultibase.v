(** C162-C163: the bases of multibase, and the spellings of a CID. *)
From Verif Require Import Prelude Ord Value Cid Ext Json Key Multibase Multihash Ucan Chain Store Spec SpecWire SpecIpld SpecKeys SpecCbor SpecJson SpecBlake3 SpecStandard SpecMultibase
  KeysFacts MultibaseFacts Samples SampleHash SampleMultibase.

(* ------------------------------------------------------------------ C162 *)

(** The library reads exactly the texts of the table. *)
Theorem C162_table : forall X, multibased (with_multibase X).
Proof. exact with_multibase_ok. Qed.
Print Assumptions C162_table.

(** A text stands for one list of bytes only. *)
Theorem C162_unambiguous : forall l bs bs' t, base_text l bs t -> base_text l bs' t -> bs = bs'.
Proof. exact base_text_fun. Qed.
Print Assumptions C162_unambiguous.

(** Every letter of the table writes all bytes, no other letter any. *)
Theorem C162_every : forall l bs, In l base_letters -> exists t, base_text l bs t.
Proof. exact base_text_exists. Qed.
Print Assumptions C162_every.

Theorem C162_letters : forall l bs t, base_text l bs t -> In l base_letters.
Proof. exact base_text_letter. Qed.
Print Assumptions C162_letters.

(** Without padding and with one case only, in one way. *)
Theorem C162_one_text_partial : forall l bs t t', strict_letter l -> base_text l bs t -> base_text l bs t' -> t = t'.
Proof. exact strict_one. Qed.
Print Assumptions C162_one_text_partial.

(** With padding, or in base 36, in several. *)
Theorem C162_one_text_refuted :
  (exists bs t t', base_text x4d bs t /\ base_text x4d bs t' /\ t <> t') /\
  (exists bs t t', base_text x43 bs t /\ base_text x43 bs t' /\ t <> t') /\
  (exists bs t t', base_text x6b bs t /\ base_text x6b bs t' /\ t <> t').
Proof. exact one_text_refuted. Qed.
Print Assumptions C162_one_text_refuted.

(** The same bytes in many bases; trailing bits that are not zero, foreign letters and missing padding are refused. *)
Example C162_example :
  base_text x30 [x00; xff] (B "0000000011111111") /\ base_text x37 [x00; xff] (B "001774") /\ base_text x39 [x00; xff] (B "0255") /\
  base_text x66 [x00; xff] (B "00ff") /\ base_text x76 [x00; xff] (B "03vg") /\ base_text x54 [x00; xff] (B "03VG====") /\ base_text x68 [x00; xff] (B "yd9o") /\
  base_text x4b [x00; xff] (B "073") /\ base_text x5a [x00; xff] (B "15p") /\ base_text x55 [x00; xff] (B "AP8=") /\
  ~ (exists bs, base_text x66 bs (B "00FF")) /\ ~ (exists bs, base_text x76 bs (B "03vh")) /\ ~ (exists bs, base_text x55 bs (B "AP8")) /\
  ~ (exists bs, base_text x75 bs (B "AP8=")) /\ ~ (exists bs, base_text x30 bs (B "0000000")).
Proof. repeat split; try (apply mb_decode_iff; vm_compute; reflexivity); intros [bs H]; apply mb_decode_iff in H; vm_compute in H; discriminate. Qed.

(* ------------------------------------------------------------------ C163 *)

(** A text is read as CID exactly when it spells it. *)
Theorem C163_spelling : forall X t c, multibased X -> (parse_cid X t = Some c <-> spells t c).
Proof. exact spells_iff. Qed.
Print Assumptions C163_spelling.

(** Every version-1 CID can be spelled in each of twenty bases ... *)
Theorem C163_spellings_partial : forall c l, cid_v1 c -> slashless l -> exists t, base_text l (cid_to_bytes c) t /\ spells (l :: t) c.
Proof. exact v1_spelled. Qed.
Print Assumptions C163_spellings_partial.

(** ... but a base with '/' can put "/ipfs/" into the text, and what follows is read instead. *)
Theorem C163_spellings_refuted : exists c l t c', cid_v1 c /\ In l base_letters /\ base_text l (cid_to_bytes c) t /\ spells (l :: t) c' /\ c' <> c.
Proof. exact spellings_refuted. Qed.
Print Assumptions C163_spellings_refuted.

(** All spellings of a CID cite the same proof ... *)
Theorem C163_same_proof : forall E R t t' c u, multibased (e_ext E) -> spells t c -> spells t' c -> (resolves E R t u <-> resolves E R t' u).
Proof. exact same_proof. Qed.
Print Assumptions C163_same_proof.

(** ... so the citations of C160 are in terms of the standards, too. *)
Theorem C163_standard : forall X blocks text u, multibased X ->
  (stands_for X blocks text u <-> exists d b, spells text (mkCid 1 85 30 d) /\ latest blocks d b /\ utf8_text b /\ token_grammar X b u).
Proof. exact stands_spelled. Qed.
Print Assumptions C163_standard.

(** One proof cited under seven texts. *)
Example C163_example : multibased (e_ext multibase_env) /\
  Forall (fun t => spells t (mkCid 1 85 30 hashed_digest) /\ resolves multibase_env (fun _ => True) t root_ucan) spellings.
Proof.
  split; [apply with_multibase_ok|]. repeat constructor;
    try (apply (spells_iff _ _ _ (with_multibase_ok sample_ext)); vm_compute; reflexivity);
    exists (mkCid 1 85 30 hashed_digest), 0%nat, hashed_text; repeat split; vm_compute; reflexivity.
Qed.
