(** Further specifications about proof chains: other times, other stores, aborts,
    and what acceptance does not look at. *)
From Verif Require Import Prelude Ord SMap Base58 Value Cid Url Ext Capability Semantics Key Ucan Store Chain Spec.

(** The same machine at another (constant) time. *)
Definition at_time (E : env) (t : N) : env := mkEnv (e_ext E) (fun _ => t) (e_read E).

(** The store does not change. *)
Definition steady_store (E : env) : Prop := forall n m c, e_read E n c = e_read E m c.

(** [E'] has at least the blocks of [E], and is otherwise the same. *)
Definition grown (E E' : env) : Prop :=
  e_ext E' = e_ext E /\ (forall n, e_clock E' n = e_clock E n) /\
  (forall n c b, e_read E n c = Ok (Some b) -> e_read E' n c = Ok (Some b)).

(** The store is a [MemoryStore] after the given operations. *)
Definition holds_writes (E : env) (ops : list store_op) : Prop :=
  forall n c, e_read E n c = mem_read (snd (store_run (e_ext E) [] ops)) c.

(** [v] is [u] or is reached from [u] through citations. *)
Inductive reachable (E : env) : ucan -> ucan -> Prop :=
| Re_self u : reachable E u u
| Re_cited u v w : cites E v u -> reachable E v w -> reachable E u w.

(** The store, the key constructors and the keys never abort. *)
Definition well_behaved (E : env) (slice : list (bytes * ctor)) : Prop :=
  (forall n c p, e_read E n c <> Panic p) /\
  (forall m c bs p, In (m, c) slice -> c bs <> Panic p) /\
  (forall m c bs k d s p, In (m, c) slice -> c bs = Ok k -> key_verify k d s <> Panic p).

(** The did:key text of fewer than two bytes: too short for a multicodec prefix. *)
Definition short_did (did : bytes) : Prop := exists bs, (length bs < 2)%nat /\ did = did_key_text bs.

(** Two UCANs that agree on issuer, window, citations and on the proofs they name. *)
Definition same_links (X : ext) (u u' : ucan) : Prop :=
  p_iss (u_payload u) = p_iss (u_payload u') /\
  p_exp (u_payload u) = p_exp (u_payload u') /\ p_nbf (u_payload u) = p_nbf (u_payload u') /\
  cited u = cited u' /\
  forall i, (exists c, claims u c /\ names_proof X c i) <-> (exists c, claims u' c /\ names_proof X c i).

(** The window is empty: no instant is within it. *)
Definition never_live (p : payload) : Prop := forall t, ~ live_at p t.
