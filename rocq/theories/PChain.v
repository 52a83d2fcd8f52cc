(** C32-C39: proof chains. *)
From Verif Require Import Prelude Ord SMap Value Cid Url Ext Capability Semantics Key Ucan Store Builder Chain Spec
  ChainFacts StoreFacts ReduceFacts Samples.

(* ------------------------------------------------------------------- C32 *)

(** For clocks and stores that may change during the run: success implies
    validity judged by readings and reads made during the run. *)
Theorem C32_accepted_is_valid : forall E nt slice fuel u st c st',
  with_parser slice st -> from_ucan E nt fuel u st = (Ok c, st') ->
  c_ucan c = u /\ valid_chain E nt slice (ticks_between st st') (reads_between st st') c.
Proof. exact from_ucan_valid. Qed.
Print Assumptions C32_accepted_is_valid.

(** For a clock and store that do not change: success is validity. *)
Theorem C32_accepted_iff_valid : forall E nt slice u c st, steady E -> with_parser slice st ->
  ((exists fuel, fst (from_ucan E nt fuel u st) = Ok c) <->
   c_ucan c = u /\ valid_chain E nt slice (fun _ => True) (fun _ => True) c).
Proof. exact chain_accepted_iff. Qed.
Print Assumptions C32_accepted_iff_valid.

(** More fuel never changes an outcome. *)
Theorem C32_fuel_irrelevant : forall E nt f f' u st, (f <= f')%nat ->
  fst (from_ucan E nt f u st) <> Diverged -> from_ucan E nt f' u st = from_ucan E nt f u st.
Proof. exact (fun E nt f f' u st Hle => refines_fuel_le E nt f f' u Hle st). Qed.
Print Assumptions C32_fuel_irrelevant.

(** Two levels of delegation, the boundary instants, and one rejection for each
    condition: expired, too early, missing proof. *)
Example C32_example :
  fst (from_ucan (leaf_env 50) None 5 leaf_ucan sample_state) = Ok leaf_chain /\
  fst (from_ucan (leaf_env 30) None 5 leaf_ucan sample_state) = Ok leaf_chain /\
  fst (from_ucan (leaf_env 80) None 5 leaf_ucan sample_state) = Ok leaf_chain /\
  fst (from_ucan (leaf_env 81) None 5 leaf_ucan sample_state) = Err EExpired /\
  fst (from_ucan (leaf_env 29) None 5 leaf_ucan sample_state) = Err ETooEarly /\
  fst (from_ucan (sample_env 50 [mid_ucan]) None 5 leaf_ucan sample_state) = Err ENoUcanForCid /\
  with_parser [(ed25519_magic, fun bs => Ok (toy bs))] sample_state /\ steady (leaf_env 50).
Proof.
  repeat (split; [vm_compute; reflexivity|]). split; [exists []; reflexivity | split; reflexivity].
Qed.

(* ------------------------------------------------------------------- C33 *)

Theorem C33_every_link_valid : forall E nt slice fuel u st c st' w,
  with_parser slice st -> from_ucan E nt fuel u st = (Ok c, st') -> in_chain w c ->
  valid_now E nt slice (ticks_between st st') w.
Proof. exact (fun E nt slice fuel u st c st' w Hp Hr => valid_in_chain _ _ _ _ _ _ _ (proj2 (from_ucan_valid _ _ _ _ _ _ _ _ Hp Hr))). Qed.
Print Assumptions C33_every_link_valid.

Example C33_example : in_chain root_ucan leaf_chain /\ p_exp (u_payload root_ucan) = Some 100%N.
Proof.
  split; [|reflexivity]. exists (Chain root_ucan [] []). split; [|reflexivity].
  econstructor; [left; reflexivity|]. econstructor; [left; reflexivity|]. constructor.
Qed.

(* ------------------------------------------------------------------- C34 *)

Theorem C34_audience_is_issuer : forall E nt slice fuel u st c st' d pc,
  with_parser slice st -> from_ucan E nt fuel u st = (Ok c, st') -> sub_chain d c -> In pc (c_proofs d) ->
  p_aud (u_payload (c_ucan pc)) = p_iss (u_payload (c_ucan d)).
Proof. exact (fun E nt slice fuel u st c st' d pc Hp Hr Hs Hin => proj1 (valid_link _ _ _ _ _ _ _ _ (proj2 (from_ucan_valid _ _ _ _ _ _ _ _ Hp Hr)) Hs Hin)). Qed.
Print Assumptions C34_audience_is_issuer.

(** A proof addressed to somebody else is refused. *)
Definition stolen_ucan : ucan := Eval vm_compute in make
  [IssuedBy (toy mallory); ForAudience (did_of alice); NotBefore 30; WithExpiration 80; WitnessedBy root_ucan None].
Example C34_example :
  p_aud (u_payload mid_ucan) = did_of mallory /\ p_iss (u_payload leaf_ucan) = did_of mallory /\
  fst (from_ucan (leaf_env 50) None 5 stolen_ucan sample_state) = Err ELinkAudience.
Proof. vm_compute. repeat split. Qed.

(* ------------------------------------------------------------------- C35 *)

Theorem C35_lifetime_within_ancestors : forall E nt slice fuel u st c st' d,
  with_parser slice st -> from_ucan E nt fuel u st = (Ok c, st') -> sub_chain d c ->
  lifetime_within (u_payload u) (u_payload (c_ucan d)).
Proof.
  exact (fun E nt slice fuel u st c st' d Hp Hr Hs =>
    eq_ind (c_ucan c) (fun w => lifetime_within (u_payload w) (u_payload (c_ucan d)))
      (valid_lifetime _ _ _ _ _ _ _ (proj2 (from_ucan_valid _ _ _ _ _ _ _ _ Hp Hr)) Hs) u
      (proj1 (from_ucan_valid _ _ _ _ _ _ _ _ Hp Hr))).
Qed.
Print Assumptions C35_lifetime_within_ancestors.

(** In terms of instants: whenever the leaf is live, so is every ancestor. *)
Theorem C35_live_implies_ancestors_live : forall p q, lifetime_within p q -> forall t, live_at p t -> live_at q t.
Proof. exact lifetime_within_live. Qed.
Print Assumptions C35_live_implies_ancestors_live.

(** A UCAN without expiry cannot rest on one that expires. *)
Definition endless_ucan : ucan := Eval vm_compute in make
  [IssuedBy (toy bob); ForAudience (did_of alice); NotBefore 20; WitnessedBy root_ucan None].
Example C35_example :
  fst (from_ucan (leaf_env 50) None 5 endless_ucan sample_state) = Err ELinkLifetime /\
  lifetime_within (u_payload leaf_ucan) (u_payload root_ucan).
Proof.
  split; [vm_compute; reflexivity|]. split; intros n Hn.
  - exists 30%N. split; [reflexivity|]. vm_compute in Hn. injection Hn as <-. lia.
  - exists 80%N. split; [reflexivity|]. vm_compute in Hn. injection Hn as <-. lia.
Qed.

(* ------------------------------------------------------------------- C36 *)

Theorem C36_proofs_are_the_cited_tokens : forall E nt slice fuel u st c st' d i pc,
  with_parser slice st -> from_ucan E nt fuel u st = (Ok c, st') -> sub_chain d c ->
  nth_error (c_proofs d) i = Some pc ->
  exists text, nth_error (cited (c_ucan d)) i = Some text /\ resolves E (reads_between st st') text (c_ucan pc).
Proof. exact (fun E nt slice fuel u st c st' d i pc Hp Hr => valid_proof_nth _ _ _ _ _ _ _ _ _ (proj2 (from_ucan_valid _ _ _ _ _ _ _ _ Hp Hr))). Qed.
Print Assumptions C36_proofs_are_the_cited_tokens.

Theorem C36_no_proof_is_dropped : forall E nt slice fuel u st c st' d,
  with_parser slice st -> from_ucan E nt fuel u st = (Ok c, st') -> sub_chain d c ->
  length (c_proofs d) = length (cited (c_ucan d)).
Proof. exact (fun E nt slice fuel u st c st' d Hp Hr => valid_proof_count _ _ _ _ _ _ _ (proj2 (from_ucan_valid _ _ _ _ _ _ _ _ Hp Hr))). Qed.
Print Assumptions C36_no_proof_is_dropped.

(** With the in-memory store, whatever is written meanwhile. *)
Theorem C36_memory_store_token_has_cited_cid : forall E R text pu, memory_backed E -> resolves E R text pu ->
  exists token, parse_cid (e_ext E) text = Some (cid_new_v1 85 30 (x_hash (e_ext E) 30 token)) /\
                parse_token (e_ext E) token = Ok pu.
Proof. exact memory_resolves. Qed.
Print Assumptions C36_memory_store_token_has_cited_cid.

Example C36_example :
  cited leaf_ucan = [cid_to_string (to_cid sample_ext 30 mid_ucan)] /\ memory_backed (leaf_env 50).
Proof.
  split; [vm_compute; reflexivity|]. intros n.
  exists [SWrite (IBytes (encode sample_ext root_ucan)); SWrite (IBytes (encode sample_ext mid_ucan))].
  vm_compute. reflexivity.
Qed.

(* ------------------------------------------------------------------- C37 *)

Theorem C37_missing_proof_rejected : forall E nt slice fuel u st c cap i, with_parser slice st ->
  claims u cap -> names_proof (e_ext E) cap i -> (N.of_nat (length (cited u)) <= i)%N ->
  fst (from_ucan E nt fuel u st) <> Ok c.
Proof. exact missing_index_rejected. Qed.
Print Assumptions C37_missing_proof_rejected.

Theorem C37_accepted_chain_reduces : forall S A (SO : scope_ops S) (AO : ability_ops A) parse E nt slice fuel u st c st',
  with_parser slice st -> from_ucan E nt fuel u st = (Ok c, st') -> exists r, reduce SO AO parse c = Ok r.
Proof. exact @accepted_reduces. Qed.
Print Assumptions C37_accepted_chain_reduces.

(** Without the check the reduction would abort. *)
Definition dangling_ucan : ucan := Eval vm_compute in make
  [IssuedBy (toy mallory); ForAudience (did_of alice); NotBefore 30; WithExpiration 80; WitnessedBy mid_ucan None;
   ClaimingCapability (mkCap (B "prf:1") (B "ucan/DELEGATE") (VObj []))].
Example C37_example :
  fst (from_ucan (leaf_env 50) None 5 dangling_ucan sample_state) = Err ENoProofAtIndex /\
  reduce mail_scope mail_ability mail_parse (Chain dangling_ucan [Chain mid_ucan [] []] [1%N]) = Panic PReduceUnwrap /\
  (exists r, reduce mail_scope mail_ability mail_parse leaf_chain = Ok r).
Proof. vm_compute. split; [|split]; try reflexivity. eexists. reflexivity. Qed.

(* ------------------------------------------------------------------- C38 *)

Theorem C38_history_irrelevant : forall E slice nt fuel u a b,
  with_parser slice a -> with_parser slice b ->
  steady E \/ v_ticks a = v_ticks b /\ v_reads a = v_reads b ->
  fst (from_ucan E nt fuel u a) = fst (from_ucan E nt fuel u b).
Proof. exact chain_history. Qed.
Print Assumptions C38_history_irrelevant.

Theorem C38_other_chains_are_history : forall E slice runs st,
  with_parser slice st -> with_parser slice (after_runs E runs st).
Proof. exact after_runs_parser. Qed.
Print Assumptions C38_other_chains_are_history.

(** A rejected and an accepted run first. *)
Example C38_example :
  let st := after_runs (leaf_env 50) [(None, 5%nat, stolen_ucan); (Some 60%N, 5%nat, leaf_ucan)] sample_state in
  dp_cache (v_parser st) <> [] /\ dp_cache (v_parser sample_state) = [] /\
  fst (from_ucan (leaf_env 50) None 5 leaf_ucan st) = Ok leaf_chain.
Proof. vm_compute. repeat split. discriminate. Qed.

(* ------------------------------------------------------------------- C39 *)

(** Over acyclic citations there is an amount of fuel beyond which the outcome is
    fixed and not divergence. *)
Theorem C39_acyclic_terminates : forall E slice nt u st, responsive E slice -> Acc (cites E) u -> with_parser slice st ->
  exists f r st', r <> Diverged /\ forall f', (f <= f')%nat -> from_ucan E nt f' u st = (r, st').
Proof. exact (fun E slice nt u st HR Ha => chain_terminates E slice nt u HR Ha st). Qed.
Print Assumptions C39_acyclic_terminates.

(** A UCAN that the store returns for its own first citation: no fuel suffices. *)
Theorem C39_self_citation_diverges : forall E slice nt T R u text rest, steady E ->
  valid_now E nt slice T u -> cited u = text :: rest -> resolves E R text u ->
  forall fuel st, with_parser slice st -> fst (from_ucan E nt fuel u st) = Diverged.
Proof. exact self_citing_diverges. Qed.
Print Assumptions C39_self_citation_diverges.

(** A store (not content addressed) that answers every CID with the same token. *)
Definition loop_ucan : ucan := Eval vm_compute in make
  [IssuedBy (toy alice); ForAudience (did_of alice); WitnessedBy root_ucan None].
Definition loop_env : env :=
  mkEnv sample_ext (fun _ => 0%N) (fun _ _ => Ok (Some (IBytes (encode sample_ext loop_ucan)))).
Example C39_diverges_example : forall fuel, fst (from_ucan loop_env None fuel loop_ucan sample_state) = Diverged.
Proof.
  intros fuel. eapply (self_citing_diverges loop_env [(ed25519_magic, fun bs => Ok (toy bs))] None (fun _ => True) (fun _ => True) loop_ucan _ []).
  - split; reflexivity.
  - split; [|split].
    + intros e He. discriminate.
    + intros b Hb. discriminate.
    + exists (toy alice). vm_compute. split; reflexivity.
  - reflexivity.
  - exists (to_cid sample_ext 30 root_ucan), O, (encode sample_ext loop_ucan). vm_compute. repeat split.
  - exists []. reflexivity.
Qed.

Example C39_terminates_example : Acc (cites (leaf_env 50)) root_ucan /\ responsive (leaf_env 50) [(ed25519_magic, fun bs => Ok (toy bs))].
Proof.
  split.
  - constructor. intros v (text & Hin & _). vm_compute in Hin. contradiction.
  - split; [discriminate|]. split.
    + intros m c bs [[= <- <-] | []]. discriminate.
    + intros m c bs k d s [[= <- <-] | []] [= <-]. simpl. destruct (bytes_eqb s (bs ++ d)); discriminate.
Qed.
