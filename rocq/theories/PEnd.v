(** C83, C84: from the builder over the store to the validator and its report. *)
From Coq Require Import Sorting.Permutation.
From Verif Require Import Prelude Ord SMap Base58 Value Cid Url Ext Capability Semantics Key Ucan Store Builder Chain
  Spec SpecBuilder SpecChain SpecEnd EndFacts Samples SampleFacts.

(* ------------------------------------------------------------------- C83 *)

Theorem C83_built_is_accepted : forall E slice sops t0 t rng ops s u chains,
  holds_writes E sops -> collision_free (e_ext E) sops -> (forall n, e_clock E n = t0) ->
  word (N.of_nat (length ops)) -> build (e_ext E) t (builder_run (e_ext E) ops) = Ok s -> sign (e_ext E) rng s = Ok u ->
  known_key slice (s_issuer s) -> live_at (u_payload u) (Z.of_N t0) ->
  Forall2 (fun p pc => snd (fst p) = None /\ c_ucan pc = fst (fst p) /\ stored (e_ext E) sops (fst (fst p)) /\
                       linked u (fst (fst p)) /\ accepted E slice pc) (proofs_added ops) chains ->
  (forall cap i, claimed_explicitly ops cap -> names_proof (e_ext E) cap i -> (i < N.of_nat (length chains))%N) ->
  exists red, accepted E slice (Chain u chains red).
Proof. exact built_accepted. Qed.
Print Assumptions C83_built_is_accepted.

Definition toy_slice : list (bytes * ctor) := [(ed25519_magic, fun bs => Ok (toy bs))].
Definition mid_calls : list builder_op :=
  [IssuedBy (toy bob); ForAudience (did_of mallory); NotBefore 20; WithExpiration 90; WitnessedBy root_ucan None;
   ClaimingCapability (mail "a@x" "email/read" obj2)].
Definition signable_of (ops : list builder_op) : signable :=
  match build sample_ext 0 (builder_run sample_ext ops) with Ok s => s | _ => rich_signable end.
Definition leaf_writes : list store_op := map (fun u => SWrite (IBytes (encode sample_ext u))) [root_ucan; mid_ucan].

Example C83_example :
  holds_writes (leaf_env 50) leaf_writes /\
  build sample_ext 0 (builder_run sample_ext mid_calls) = Ok (signable_of mid_calls) /\
  sign sample_ext [] (signable_of mid_calls) = Ok mid_ucan /\
  proofs_added mid_calls = [(root_ucan, None, false)] /\ stored sample_ext leaf_writes root_ucan /\
  p_iss (u_payload mid_ucan) = did_of bob /\ known_key toy_slice (toy bob) /\ linked mid_ucan root_ucan /\
  fst (from_ucan (leaf_env 50) None 5 root_ucan sample_state) = Ok (Chain root_ucan [] []) /\
  fst (from_ucan (leaf_env 50) None 5 mid_ucan sample_state) = Ok (Chain mid_ucan [Chain root_ucan [] []] []).
Proof.
  split; [intros n c; vm_compute; reflexivity|].
  do 3 (split; [vm_compute; reflexivity|]).
  split; [split; [left; reflexivity | split; [vm_compute; lia | vm_compute; reflexivity]]|].
  split; [vm_compute; reflexivity|].
  split; [exists (did_of bob), (toy bob); split; [reflexivity|]; split; [vm_compute; reflexivity|]; intros d s [= <-]; simpl; rewrite bytes_eqb_refl; reflexivity|].
  split; [split; [vm_compute; reflexivity|]; split; intros n Hn; [exists 20%N | exists 90%N]; (split; [vm_compute; reflexivity | vm_compute in Hn; injection Hn as <-; lia])|].
  split; vm_compute; reflexivity.
Qed.

(* ------------------------------------------------------------------- C84 *)

(** Any number of hand-overs of an accepted UCAN is accepted while the last one is within its window. *)
Theorem C84_hand_over_accepted : forall E slice sops t0 c0 us leaf,
  holds_writes E sops -> collision_free (e_ext E) sops -> (forall n, e_clock E n = t0) ->
  handed_down (e_ext E) slice (c_ucan c0) us leaf -> (forall u, In u us -> stored (e_ext E) sops u) ->
  live_at (u_payload leaf) (Z.of_N t0) -> accepted E slice c0 -> accepted E slice (handed_chain c0 us leaf).
Proof. exact handed_accepted. Qed.
Print Assumptions C84_hand_over_accepted.

(** It reports the capabilities of the first UCAN, with their originators, within the window of the last. *)
Theorem C84_hand_over_report : forall S A (SO : scope_ops S) (AO : ability_ops A) parse X slice c0 us leaf r0,
  handed_down X slice (c_ucan c0) us leaf ->
  parse (delegation_of 0) = None -> reduce SO AO parse c0 = Ok r0 -> antichain SO AO r0 ->
  exists r, reduce SO AO parse (handed_chain c0 us leaf) = Ok r /\ Permutation r (map (within_window leaf) r0).
Proof. exact @handed_report. Qed.
Print Assumptions C84_hand_over_report.

(** Alice to bob to mallory to alice. *)
Definition hop1_calls : list builder_op :=
  [IssuedBy (toy bob); ForAudience (did_of mallory); NotBefore 20; WithExpiration 90; DelegatingFrom root_ucan None].
Definition hop1 : ucan := Eval vm_compute in make hop1_calls.
Definition hop2_calls : list builder_op :=
  [IssuedBy (toy mallory); WithExpiration 80; WithFact (B "k") (Some VNull); DelegatingFrom hop1 None; ForAudience (did_of alice); NotBefore 30].
Definition hop2 : ucan := Eval vm_compute in make hop2_calls.
Definition hop_chain : chain := Chain hop2 [Chain hop1 [Chain root_ucan [] []] [0%N]] [0%N].
Example C84_example :
  handed_down sample_ext toy_slice root_ucan [hop1; root_ucan] hop2 /\
  handed_chain (Chain root_ucan [] []) [hop1; root_ucan] hop2 = hop_chain /\
  fst (from_ucan (sample_env 50 [root_ucan; hop1]) None 5 hop2 sample_state) = Ok hop_chain /\
  mail_parse (delegation_of 0) = None /\
  reduce mail_scope mail_ability mail_parse hop_chain =
    Ok [mkInfo [did_of alice] (Some 30%N) (Some 80%N) (mkView (RPlain (Scoped (B "a@x"))) true obj1)].
Proof.
  assert (forall name, In name [bob; mallory] -> known_key toy_slice (toy name)) as Hk.
  { intros name Hin. exists (did_of name), (toy name). split; [reflexivity|].
    split; [destruct Hin as [<-|[<-|[]]]; vm_compute; reflexivity|]. intros d s [= <-]. simpl. rewrite bytes_eqb_refl. reflexivity. }
  split; [|split; [reflexivity|]; split; [vm_compute; reflexivity|]; split; vm_compute; reflexivity].
  apply (HD_hop _ _ _ _ _ hop2_calls 0 [] (signable_of hop2_calls)); [apply (HD_hop _ _ _ _ _ hop1_calls 0 [] (signable_of hop1_calls)); [constructor|..]|..];
    try (vm_compute; reflexivity); try (vm_compute; discriminate); try (apply Hk; vm_compute; tauto);
    (split; [vm_compute; reflexivity|]; split; intros n Hn).
  - exists 20%N. split; [vm_compute; reflexivity | vm_compute in Hn; injection Hn as <-; lia].
  - exists 90%N. split; [vm_compute; reflexivity | vm_compute in Hn; injection Hn as <-; lia].
  - exists 30%N. split; [vm_compute; reflexivity | vm_compute in Hn; injection Hn as <-; lia].
  - exists 80%N. split; [vm_compute; reflexivity | vm_compute in Hn; injection Hn as <-; lia].
Qed.
