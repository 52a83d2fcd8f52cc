(** Stores whose answers have the digest of the CID, whatever its hash (C169-C170). *)
From Verif Require Import Prelude Value Cid Ext Json Ucan Store Chain Spec SpecAllHashes.

(** What a store answers for a raw CID has the CID's digest under the CID's code. *)
Definition addressed (E : env) : Prop :=
  forall n c t, cid_codec c = 85%N -> e_read E n c = Ok (Some (IBytes t)) -> table_digest (cid_hash_code c) t (cid_digest c).

(** Two texts with one digest under one code. *)
Definition collision (code : N) (t t' : bytes) : Prop := t <> t' /\ exists d, table_digest code t d /\ table_digest code t' d.

(** A UCAN of the chain cites a CID for which the stores answered different texts, which then have one digest. *)
Definition stores_collide (E E' : env) (c : chain) : Prop :=
  exists u text cid n n' t t', in_chain u c /\ In text (cited u) /\ parse_cid (e_ext E) text = Some cid /\
    e_read E n cid = Ok (Some (IBytes t)) /\ e_read E' n' cid = Ok (Some (IBytes t')) /\ collision (cid_hash_code cid) t t'.

(** The store has something under each CID cited in the chain. *)
Definition holds_citations (E : env) (c : chain) : Prop :=
  forall u text cid, in_chain u c -> In text (cited u) -> parse_cid (e_ext E) text = Some cid -> exists t, e_read E 0 cid = Ok (Some (IBytes t)).
