(** Specifications about lines of delegations and the work of a validation (C116-C117). *)
From Verif Require Import Prelude Ord Utf8 Value Cid Ext Json Capability Semantics Key Ucan Store Chain Spec SpecChain SpecWire SpecJson SpecCost.

(** The UCAN claims one capability, which the semantics reads as [v]. *)
Definition sole_claim {S A} (parse : capability -> option (view S A)) (u : ucan) (v : view S A) : Prop :=
  exists cap, p_cap (u_payload u) = [(cap_resource cap, [(cap_ability cap, [cap_caveat cap])])] /\ parse cap = Some v.

(** A chain in which each UCAN claims one capability and cites one proof, the
    first UCAN none; listed from the last delegation to the first. *)
Inductive line {S A} (parse : capability -> option (view S A)) : list (ucan * view S A) -> chain -> Prop :=
| Line_first u v : sole_claim parse u v -> line parse [(u, v)] (Chain u [] [])
| Line_next u v l c : sole_claim parse u v -> line parse l c -> line parse ((u, v) :: l) (Chain u [c] []).

(** Who the last claim of a line goes back to: the issuer of the earliest UCAN
    reached by following the claims backwards as long as each is enabled by the
    one before it. *)
Inductive goes_back_to {S A} (SO : scope_ops S) (AO : ability_ops A) : list (ucan * view S A) -> bytes -> Prop :=
| GB_first u v : goes_back_to SO AO [(u, v)] (p_iss (u_payload u))
| GB_here u v u' v' l : view_enables SO AO v' v = false -> goes_back_to SO AO ((u, v) :: (u', v') :: l) (p_iss (u_payload u))
| GB_on u v u' v' l o : view_enables SO AO v' v = true -> goes_back_to SO AO ((u', v') :: l) o ->
    goes_back_to SO AO ((u, v) :: (u', v') :: l) o.

(** Each claim of the line is enabled by the one before it. *)
Inductive attenuating {S A} (SO : scope_ops S) (AO : ability_ops A) : list (ucan * view S A) -> Prop :=
| At_first p : attenuating SO AO [p]
| At_next p q l : view_enables SO AO (snd q) (snd p) = true -> attenuating SO AO (q :: l) -> attenuating SO AO (p :: q :: l).

(** How often the clock is read for a UCAN's expiry and for its beginning. *)
Definition expiry_readings (now_time : option N) (u : ucan) : nat :=
  match p_exp (u_payload u), now_time with Some _, None => 1 | _, _ => 0 end.
Definition start_readings (u : ucan) : nat := match p_nbf (u_payload u) with Some _ => 1 | None => 0 end.
Definition readings (now_time : option N) (l : list ucan) : nat :=
  list_sum (map (fun u => expiry_readings now_time u + start_readings u)%nat l).

Definition issuers (l : list ucan) : list bytes := map (fun u => p_iss (u_payload u)) l.

(** The state after the UCANs of [l] were validated and [reads] blocks read. *)
Definition state_after (slice : list (bytes * ctor)) (dids : list bytes) (now_time : option N) (st : vstate) (l : list ucan) (reads : nat) : vstate :=
  mkState (parser_after slice (dids ++ issuers l)) (v_ticks st + readings now_time l) (v_reads st + reads) (v_checks st + length l).

(** The [n]-th answer of the store is a block holding the text of a token of [u]. *)
Definition answers (E : env) (n : nat) (c : cid) (u : ucan) : Prop :=
  cid_codec c = 85%N /\ exists token, e_read E n c = Ok (Some (IBytes token)) /\ utf8_text token /\ token_grammar (e_ext E) token u.

(** [u] passes its checks, made with the clock from its [n]-th answer on. *)
Definition passes (E : env) (now_time : option N) (slice : list (bytes * ctor)) (n : nat) (u : ucan) : Prop :=
  unexpired (u_payload u) (match now_time with Some t => t | None => e_clock E n end) /\
  started (u_payload u) (e_clock E (n + expiry_readings now_time u)) /\
  signed_by_issuer (did_parser_new slice) u.

(** Validation with a clock and a store that may answer differently each time:
    [accepted t r c] - the chain [c] passes when the next answer of the clock is
    the [t]-th and that of the store the [r]-th.  A UCAN is checked before its proofs; these follow in the order of
    citation, each read, then checked with all its proofs. *)
Inductive accepted (E : env) (now_time : option N) (slice : list (bytes * ctor)) : nat -> nat -> chain -> Prop :=
| Accepted t r u proofs red :
    passes E now_time slice t u ->
    accepted_proofs E now_time slice u (t + readings now_time [u]) r (cited u) proofs ->
    redelegates (e_ext E) u (length proofs) red ->
    accepted E now_time slice t r (Chain u proofs red)
with accepted_proofs (E : env) (now_time : option N) (slice : list (bytes * ctor)) : ucan -> nat -> nat -> list bytes -> list chain -> Prop :=
| Accepted_none u t r : accepted_proofs E now_time slice u t r [] []
| Accepted_proof u t r text c pc texts proofs :
    parse_cid (e_ext E) text = Some c -> answers E r c (c_ucan pc) -> linked u (c_ucan pc) ->
    accepted E now_time slice t (S r) pc ->
    accepted_proofs E now_time slice u (t + readings now_time (links pc)) (r + length (links pc)) texts proofs ->
    accepted_proofs E now_time slice u t r (text :: texts) (pc :: proofs).
