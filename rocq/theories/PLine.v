(** Lines of delegations and the exact course of a validation (C116-C117). *)
From Verif Require Import Prelude Ord SMap Utf8 Value Cid Ext Json Capability Semantics Key Ucan Store Builder Chain
  Spec SpecChain SpecWire SpecJson SpecCost SpecLine Samples LineFacts.

(* ------------------------------------------------------------------ C116 *)

(** The report of a line of delegations: the last claim, the last window, and the
    one originator it goes back to.  No assumption on the semantics. *)
Theorem C116_line_report : forall S A (SO : scope_ops S) (AO : ability_ops A) parse u v l c r, line parse ((u, v) :: l) c ->
  (reduce SO AO parse c = Ok r <->
   exists o, goes_back_to SO AO ((u, v) :: l) o /\ r = [mkInfo [o] (p_nbf (u_payload u)) (p_exp (u_payload u)) v]).
Proof. exact @line_report_iff. Qed.
Print Assumptions C116_line_report.

(** If each claim is enabled by the one before it, the originator is the first issuer. *)
Theorem C116_attenuating_line : forall S A (SO : scope_ops S) (AO : ability_ops A) parse u v l w x c,
  line parse ((u, v) :: l ++ [(w, x)]) c -> attenuating SO AO ((u, v) :: l ++ [(w, x)]) ->
  reduce SO AO parse c = Ok [mkInfo [p_iss (u_payload w)] (p_nbf (u_payload u)) (p_exp (u_payload u)) v].
Proof. exact @line_attenuating. Qed.
Print Assumptions C116_attenuating_line.

(** Nobody else is ever credited. *)
Theorem C116_one_originator : forall S A (SO : scope_ops S) (AO : ability_ops A) l o o',
  goes_back_to SO AO l o -> goes_back_to SO AO l o' -> o = o'.
Proof. exact @goes_back_to_fun. Qed.
Print Assumptions C116_one_originator.

(** Three delegations: alice to bob to mallory to alice; the last claim either
    follows from bob's or does not. *)
Definition last_ucan (who ability : String.string) : ucan := make
  [IssuedBy (toy mallory); ForAudience (did_of alice); NotBefore 30; WithExpiration 80; WitnessedBy mid_ucan None;
   ClaimingCapability (mail who ability obj2)].
Definition last_chain (who ability : String.string) : chain :=
  Chain (last_ucan who ability) [Chain mid_ucan [Chain root_ucan [] []] []] [].
Definition last_view (who : String.string) (send : bool) (caveat : value) : view bytes bool :=
  mkView (RPlain (Scoped (B who))) send caveat.

Example C116_example :
  line mail_parse [(last_ucan "a@x" "email/read", last_view "a@x" false obj2); (mid_ucan, last_view "a@x" false obj2); (root_ucan, last_view "a@x" true obj1)]
    (last_chain "a@x" "email/read") /\
  fst (from_ucan (leaf_env 50) None 5 (last_ucan "a@x" "email/read") sample_state) = Ok (last_chain "a@x" "email/read") /\
  reduce mail_scope mail_ability mail_parse (last_chain "a@x" "email/read") =
    Ok [mkInfo [did_of alice] (Some 30%N) (Some 80%N) (last_view "a@x" false obj2)] /\
  reduce mail_scope mail_ability mail_parse (last_chain "a@x" "email/send") =
    Ok [mkInfo [did_of mallory] (Some 30%N) (Some 80%N) (last_view "a@x" true obj2)].
Proof.
  split; [|vm_compute; repeat split; reflexivity].
  apply Line_next; [exists (mail "a@x" "email/read" obj2); vm_compute; split; reflexivity|].
  apply Line_next; [exists (mail "a@x" "email/read" obj2); vm_compute; split; reflexivity|].
  apply Line_first. exists (mail "a@x" "email/send" obj1); vm_compute; split; reflexivity.
Qed.

(* ------------------------------------------------------------------ C117 *)

(** Acceptance and the state it leaves, for clocks and stores that may answer
    differently each time. *)
Theorem C117_from_ucan : forall E nt slice dids fuel u st c st', v_parser st = parser_after slice dids ->
  (from_ucan E nt fuel u st = (Ok c, st') <->
   u = c_ucan c /\ (levels c <= fuel)%nat /\ accepted E nt slice (v_ticks st) (v_reads st) c /\
   st' = state_after slice dids nt st (links c) (length (links c) - 1)).
Proof. exact from_ucan_exact. Qed.
Print Assumptions C117_from_ucan.

Theorem C117_from_token : forall E nt slice dids fuel token st c st', v_parser st = parser_after slice dids ->
  (from_token E nt fuel token st = (Ok c, st') <->
   token_grammar (e_ext E) token (c_ucan c) /\ (levels c <= fuel)%nat /\ accepted E nt slice (v_ticks st) (v_reads st) c /\
   st' = state_after slice dids nt st (links c) (length (links c) - 1)).
Proof. exact from_token_exact. Qed.
Print Assumptions C117_from_token.

Theorem C117_from_cid : forall E nt slice dids fuel d st c st', v_parser st = parser_after slice dids ->
  (from_cid E nt fuel d st = (Ok c, st') <->
   answers E (v_reads st) d (c_ucan c) /\ (levels c <= fuel)%nat /\ accepted E nt slice (v_ticks st) (S (v_reads st)) c /\
   st' = state_after slice dids nt st (links c) (length (links c))).
Proof. exact from_cid_exact. Qed.
Print Assumptions C117_from_cid.

(** Which answers each UCAN of the chain was judged by. *)
Theorem C117_answers_used : forall E nt slice t r c, accepted E nt slice t r c -> forall l u l', links c = l ++ u :: l' ->
  passes E nt slice (t + readings nt l) u /\ (l <> [] -> exists d, answers E (r + length l - 1) d u).
Proof. exact accepted_links. Qed.
Print Assumptions C117_answers_used.

(** Three UCANs with both bounds: two blocks read, the clock six times, three
    times if the time is supplied.  A clock leaping after its fifth answer goes
    unnoticed; after its fourth, the first UCAN counts as expired. *)
Definition leaping_env (n : nat) : env :=
  mkEnv sample_ext (fun k => if (k <? n)%nat then 50%N else 1000%N) (e_read (leaf_env 50)).
Example C117_example :
  let work := fun nt => let s := snd (from_ucan (leaf_env 50) nt 5 leaf_ucan sample_state) in (v_ticks s, v_reads s, v_checks s) in
  work None = (6, 2, 3)%nat /\ work (Some 50%N) = (3, 2, 3)%nat /\
  map (fun u => p_iss (u_payload u)) (links leaf_chain) = [did_of mallory; did_of bob; did_of alice] /\
  fst (from_ucan (leaping_env 5) None 5 leaf_ucan sample_state) = Ok leaf_chain /\
  fst (from_ucan (leaping_env 4) None 5 leaf_ucan sample_state) = Err EExpired.
Proof. vm_compute. repeat split; reflexivity. Qed.
