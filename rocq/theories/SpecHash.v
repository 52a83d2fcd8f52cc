(** Digests by multihash code, and collisions (C152-C154). *)
From Verif Require Import Prelude Value Cid Ext Json Ucan Store Chain Spec SpecSha SpecSha512 SpecBlake3 SpecBlake2.

(** The table of the multihash specification: sha2-256, sha2-512, blake3, blake2b-256. *)
Definition digest_of (code : N) (m d : bytes) : Prop :=
  code = 0x12%N /\ sha256_of m d \/ code = 0x13%N /\ sha512_of m d \/ code = 0x1e%N /\ blake3_of m d \/ code = 0xb220%N /\ blake2b256_of m d.
Definition multihashed (X : ext) : Prop := forall code m d, digest_of code m d -> x_hash X code m = d.

(** Two texts with one BLAKE3 digest. *)
Definition b3_collision (b b' : bytes) : Prop := b <> b' /\ exists d, blake3_of b d /\ blake3_of b' d.

(** Two stores answered the same CID with the tokens of UCANs in the chains; the tokens differ but have one digest. *)
Definition answers_collide (E E' : env) (c c' : chain) : Prop :=
  exists cid n n' t t' a a', e_read E n cid = Ok (Some (IBytes t)) /\ e_read E' n' cid = Ok (Some (IBytes t')) /\
    parse_token (e_ext E) t = Ok a /\ parse_token (e_ext E') t' = Ok a' /\ in_chain a c /\ in_chain a' c' /\ b3_collision t t'.
