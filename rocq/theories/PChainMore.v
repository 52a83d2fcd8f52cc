(** C76-C82: proof chains at other times and with other stores, aborts, and what
    acceptance does not look at. *)
From Verif Require Import Prelude Ord SMap Base58 Value Cid Url Ext Capability Semantics Key KeySupport Ucan Store Builder Chain Spec SpecChain
  ChainFacts StoreFacts ReduceFacts ChainMoreFacts Samples SampleFacts.

(* ------------------------------------------------------------------- C76 *)

(** A chain accepted for one supplied time is accepted (with the same result and state) for exactly
    those supplied times that are not after the leaf's expiry. *)
Theorem C76_supplied_time : forall E fuel u st c st' t t', from_ucan E (Some t) fuel u st = (Ok c, st') ->
  (unexpired (u_payload u) t' -> from_ucan E (Some t') fuel u st = (Ok c, st')) /\
  (~ unexpired (u_payload u) t' -> from_ucan E (Some t') fuel u st = (Err EExpired, st)).
Proof. exact supplied_time. Qed.
Print Assumptions C76_supplied_time.

(** By the machine clock: accepted at one instant, accepted at exactly the instants of the leaf's window. *)
Theorem C76_window_of_acceptance : forall E slice u c st t t', steady_store E -> with_parser slice st ->
  (exists fuel, fst (from_ucan (at_time E t) None fuel u st) = Ok c) ->
  ((exists fuel, fst (from_ucan (at_time E t') None fuel u st) = Ok c) <-> live_at (u_payload u) (Z.of_N t')).
Proof. exact window_of_acceptance. Qed.
Print Assumptions C76_window_of_acceptance.

(** The chain found is the same at all times, however the time is given. *)
Theorem C76_same_chain : forall E slice slice' u c c' st st' nt nt' t t' f f', steady_store E ->
  with_parser slice st -> with_parser slice' st' ->
  fst (from_ucan (at_time E t) nt f u st) = Ok c -> fst (from_ucan (at_time E t') nt' f' u st') = Ok c' -> c = c'.
Proof. exact time_independent_chain. Qed.
Print Assumptions C76_same_chain.

(** At the end points of the leaf's window 30..80, and for a supplied time before the window. *)
Example C76_example :
  fst (from_ucan (at_time (leaf_env 50) 30) None 5 leaf_ucan sample_state) = Ok leaf_chain /\
  fst (from_ucan (at_time (leaf_env 50) 29) None 5 leaf_ucan sample_state) = Err ETooEarly /\
  fst (from_ucan (leaf_env 50) (Some 3%N) 5 leaf_ucan sample_state) = Ok leaf_chain /\
  from_ucan (leaf_env 50) (Some 81%N) 5 leaf_ucan sample_state = (Err EExpired, sample_state) /\
  steady_store (leaf_env 50).
Proof. do 4 (split; [vm_compute; reflexivity|]). intros n m c. reflexivity. Qed.

(* ------------------------------------------------------------------- C77 *)

(** More blocks in the store never change the outcome for an accepted UCAN. *)
Theorem C77_growing_store : forall E E' nt fuel u st c st', grown E E' ->
  from_ucan E nt fuel u st = (Ok c, st') -> from_ucan E' nt fuel u st = (Ok c, st').
Proof. exact growing_keeps. Qed.
Print Assumptions C77_growing_store.

(** Further operations on an in-memory store only add blocks, unless hashes collide. *)
Theorem C77_memory_store_grows : forall E E' ops more, e_ext E' = e_ext E -> (forall n, e_clock E' n = e_clock E n) ->
  holds_writes E ops -> holds_writes E' (ops ++ more) -> collision_free (e_ext E) (ops ++ more) -> grown E E'.
Proof. exact memory_grown. Qed.
Print Assumptions C77_memory_store_grows.

Definition writes (us : list ucan) : list store_op := map (fun u => SWrite (IBytes (encode sample_ext u))) us.
Example C77_example :
  holds_writes (leaf_env 50) (writes [root_ucan; mid_ucan]) /\
  holds_writes (sample_env 50 [root_ucan; mid_ucan; leaf_ucan]) (writes [root_ucan; mid_ucan] ++ writes [leaf_ucan]) /\
  x_hash sample_ext 30 (encode sample_ext root_ucan) <> x_hash sample_ext 30 (encode sample_ext leaf_ucan) /\
  fst (from_ucan (sample_env 50 [root_ucan; mid_ucan; leaf_ucan]) None 5 leaf_ucan sample_state) = Ok leaf_chain.
Proof.
  split; [intros n c; vm_compute; reflexivity|]. split; [intros n c; vm_compute; reflexivity|].
  split; [vm_compute; discriminate | vm_compute; reflexivity].
Qed.

(* ------------------------------------------------------------------- C78 *)

(** Expected: an untrusted token never aborts the validator.  Refuted: this one token, not signed by
    anybody, aborts it whatever the keys, the store and the clock. *)
Definition fatal_ucan : ucan :=
  mkUcan (mkHeader (B "EdDSA") (B "JWT")) (mkPayload (B "0.10.0") (B "did:key:z") (did_of bob) None None None [] None None) [] [].
Theorem C78_tokens_never_abort_refuted : exists token, forall E nt slice fuel st, e_ext E = sample_ext ->
  with_parser slice st -> fst (from_token E nt (Datatypes.S fuel) token st) = Panic PDidSlice.
Proof.
  exists (encode sample_ext fatal_ucan). intros E nt slice fuel st Hx Hp. unfold from_token, bind, lift. rewrite Hx.
  replace (parse_token sample_ext (encode sample_ext fatal_ucan))
    with (Ok (mkUcan (u_header fatal_ucan) (u_payload fatal_ucan) (signing_input sample_ext (u_header fatal_ucan) (u_payload fatal_ucan)) []))
    by (vm_compute; reflexivity).
  apply (short_issuer_aborts _ _ slice); [exact Hp | discriminate | discriminate | exists []; split; [apply Nat.lt_0_succ | reflexivity]].
Qed.
Print Assumptions C78_tokens_never_abort_refuted.

(** What holds: if store and keys do not abort, the only abort is the one of an issuer whose
    did:key is too short, of the UCAN or of one reached from it by citations. *)
Theorem C78_only_short_dids_abort_partial : forall E nt slice fuel u st p st', well_behaved E slice -> with_parser slice st ->
  from_ucan E nt fuel u st = (Panic p, st') ->
  p = PDidSlice /\ exists v, reachable E u v /\ short_did (p_iss (u_payload v)).
Proof. exact (fun E nt slice fuel u st p st' Hw => chain_abort E nt slice fuel Hw u st p st'). Qed.
Print Assumptions C78_only_short_dids_abort_partial.

(** It does abort whenever such a UCAN is within its window. *)
Theorem C78_short_did_aborts_partial : forall E nt slice fuel u st, with_parser slice st ->
  unexpired (u_payload u) (expiry_time E nt st) -> started (u_payload u) (start_time E (u_payload u) nt st) ->
  short_did (p_iss (u_payload u)) -> fst (from_ucan E nt (S fuel) u st) = Panic PDidSlice.
Proof. exact short_issuer_aborts. Qed.
Print Assumptions C78_short_did_aborts_partial.

(** The keys of the key-support crate do not abort. *)
Theorem C78_standard_keys_partial : forall E slice, (forall n c p, e_read E n c <> Panic p) ->
  (forall m c, In (m, c) slice -> standard_ctor m c) -> well_behaved E slice.
Proof. exact standard_well_behaved. Qed.
Print Assumptions C78_standard_keys_partial.

(** An honest UCAN that cites the fatal one aborts as well. *)
Definition misled_ucan : ucan := Eval vm_compute in make [IssuedBy (toy bob); ForAudience (did_of alice); WitnessedBy fatal_ucan None].
Example C78_example :
  fst (from_ucan (sample_env 50 [fatal_ucan]) None 5 misled_ucan sample_state) = Panic PDidSlice /\
  signed_by_issuer sample_parser misled_ucan /\ short_did (p_iss (u_payload fatal_ucan)) /\
  well_behaved (sample_env 50 [fatal_ucan]) [(ed25519_magic, fun bs => Ok (toy bs))].
Proof.
  split; [vm_compute; reflexivity|]. split; [exists (toy bob); split; vm_compute; reflexivity|].
  split; [exists []; split; [apply Nat.lt_0_succ | reflexivity]|].
  split; [discriminate|]. split.
  - intros m c bs p [[= <- <-]|[]]. discriminate.
  - intros m c bs k d s p [[= <- <-]|[]] [= <-]. simpl. destruct (bytes_eqb s (bs ++ d)); discriminate.
Qed.

(* ------------------------------------------------------------------- C79 *)

(** Expected: the token a proof is read from hashes to the CID that cites it.  Refuted: the chain
    builder takes whatever token the store returns. *)
Definition careless_env : env := mkEnv sample_ext (fun _ => 50%N) (fun _ _ => Ok (Some (IBytes (encode sample_ext root_ucan)))).
Definition miscited_ucan : ucan := Eval vm_compute in make
  [IssuedBy (toy bob); ForAudience (did_of mallory); NotBefore 20; WithExpiration 90; WitnessedBy leaf_ucan None].
Theorem C79_content_has_cited_cid_refuted : exists E fuel u st c st' pc text cid token,
  from_ucan E None fuel u st = (Ok c, st') /\ with_parser [(ed25519_magic, fun bs => Ok (toy bs))] st /\
  c_proofs c = [pc] /\ cited u = [text] /\ parse_cid (e_ext E) text = Some cid /\
  (forall n, e_read E n cid = Ok (Some (IBytes token))) /\ parse_token (e_ext E) token = Ok (c_ucan pc) /\
  cid <> cid_new_v1 85 (cid_hash_code cid) (x_hash (e_ext E) (cid_hash_code cid) token).
Proof.
  exists careless_env, 3%nat, miscited_ucan, sample_state, (Chain miscited_ucan [Chain root_ucan [] []] []),
    (snd (from_ucan careless_env None 3 miscited_ucan sample_state)), (Chain root_ucan [] []),
    (cid_to_string (to_cid sample_ext 30 leaf_ucan)), (to_cid sample_ext 30 leaf_ucan), (encode sample_ext root_ucan).
  split; [vm_compute; reflexivity|]. split; [exists []; reflexivity|]. split; [reflexivity|].
  split; [vm_compute; reflexivity|]. split; [vm_compute; reflexivity|]. split; [reflexivity|].
  split; [vm_compute; reflexivity | vm_compute; discriminate].
Qed.
Print Assumptions C79_content_has_cited_cid_refuted.

(** What holds: it does with the in-memory store, whatever is written meanwhile. *)
Theorem C79_content_has_cited_cid_partial : forall E nt slice fuel u st c st' d i pc, memory_backed E -> with_parser slice st ->
  from_ucan E nt fuel u st = (Ok c, st') -> sub_chain d c -> nth_error (c_proofs d) i = Some pc ->
  exists text token, nth_error (cited (c_ucan d)) i = Some text /\
    parse_cid (e_ext E) text = Some (cid_new_v1 85 30 (x_hash (e_ext E) 30 token)) /\
    parse_token (e_ext E) token = Ok (c_ucan pc).
Proof. exact memory_chain_content. Qed.
Print Assumptions C79_content_has_cited_cid_partial.

Example C79_example :
  fst (from_ucan (leaf_env 50) None 5 miscited_ucan sample_state) = Err ENoUcanForCid /\ memory_backed (leaf_env 50).
Proof.
  split; [vm_compute; reflexivity|]. intros n.
  exists [SWrite (IBytes (encode sample_ext root_ucan)); SWrite (IBytes (encode sample_ext mid_ucan))]. vm_compute. reflexivity.
Qed.

(* ------------------------------------------------------------------- C80 *)

(** Expected: a UCAN that rests on proofs is refused if it claims more than its proofs give.  Refuted. *)
Definition own_view : view bytes bool := mkView (RPlain (Scoped (B "m@x"))) true (VObj []).
Theorem C80_excess_claim_refused_refuted : exists E fuel u st c st' v,
  from_ucan E None fuel u st = (Ok c, st') /\ with_parser [(ed25519_magic, fun bs => Ok (toy bs))] st /\
  c_proofs c <> [] /\ heeded mail_parse u v /\
  forall pc r i, In pc (c_proofs c) -> reduce mail_scope mail_ability mail_parse pc = Ok r -> In i r ->
    view_enables mail_scope mail_ability (i_capability i) v = false.
Proof.
  exists (leaf_env 50), 5%nat, leaf_ucan, sample_state, leaf_chain,
    (snd (from_ucan (leaf_env 50) None 5 leaf_ucan sample_state)), own_view.
  split; [vm_compute; reflexivity|]. split; [exists []; reflexivity|]. split; [discriminate|]. split.
  - exists [], (mail "m@x" "email/send" (VObj [])), [mkCap (B "prf:0") (B "ucan/DELEGATE") (VObj [])]. split; [vm_compute; reflexivity|].
    split; [vm_compute; reflexivity | intros c []].
  - intros pc r i [<-|[]] Hr Hi.
    assert (r = [mkInfo [did_of alice] (Some 20%N) (Some 90%N) (mkView (RPlain (Scoped (B "a@x"))) false obj2)]) as ->.
    { enough (Ok r = Ok [mkInfo [did_of alice] (Some 20%N) (Some 90%N) (mkView (RPlain (Scoped (B "a@x"))) false obj2)]) as Hok
        by (injection Hok as Hok; exact Hok).
      rewrite <- Hr. vm_compute. reflexivity. }
    destruct Hi as [<-|[]]. vm_compute. reflexivity.
Qed.
Print Assumptions C80_excess_claim_refused_refuted.

(** What holds: it is reported, but as originating from the issuer alone. *)
Theorem C80_excess_claim_is_the_issuers_partial : forall S A (SO : scope_ops S) (AO : ability_ops A) parse c r v,
  enabling_transitive SO AO parse c -> reduce SO AO parse c = Ok r -> heeded parse (c_ucan c) v ->
  (forall w, heeded parse (c_ucan c) w -> view_enables SO AO v w = true \/ view_enables SO AO w v = true -> w = v) ->
  (forall z, redelegated_entry SO AO parse c z ->
     i_capability z <> v /\ view_enables SO AO v (i_capability z) = false /\ view_enables SO AO (i_capability z) v = false) ->
  (forall pc q i, attenuated c pc -> reduce SO AO parse pc = Ok q -> In i q -> view_enables SO AO (i_capability i) v = false) ->
  exists x, In x r /\ i_capability x = v /\ i_originators x = [p_iss (u_payload (c_ucan c))].
Proof. exact @only_issuer. Qed.
Print Assumptions C80_excess_claim_is_the_issuers_partial.

Example C80_example :
  reduce mail_scope mail_ability mail_parse leaf_chain = Ok
    [mkInfo [did_of alice] (Some 30%N) (Some 80%N) (mkView (RPlain (Scoped (B "a@x"))) false obj2);
     mkInfo [did_of mallory] (Some 30%N) (Some 80%N) own_view].
Proof. vm_compute. reflexivity. Qed.

(* ------------------------------------------------------------------- C81 *)

(** Version, type and algorithm are not looked at. *)
Definition odd_header : header := mkHeader (B "none") (B "JPEG").
Definition odd_payload : payload := mkPayload (B "99.0") (did_of alice) (did_of bob) None None None [] None None.
Definition odd_ucan : ucan :=
  mkUcan odd_header odd_payload (signing_input sample_ext odd_header odd_payload) (alice ++ signing_input sample_ext odd_header odd_payload).
Theorem C81_version_type_algorithm_ignored : exists E fuel token st c st',
  from_token E None fuel token st = (Ok c, st') /\ with_parser [(ed25519_magic, fun bs => Ok (toy bs))] st /\
  p_ucv (u_payload (c_ucan c)) <> ucan_version /\ h_typ (u_header (c_ucan c)) <> B "JWT" /\
  h_alg (u_header (c_ucan c)) <> key_alg (toy alice).
Proof.
  exists (leaf_env 50), 2%nat, (encode sample_ext odd_ucan), sample_state, (Chain odd_ucan [] []),
    (snd (from_token (leaf_env 50) None 2 (encode sample_ext odd_ucan) sample_state)).
  split; [vm_compute; reflexivity|]. split; [exists []; reflexivity|]. repeat split; vm_compute; discriminate.
Qed.
Print Assumptions C81_version_type_algorithm_ignored.

(** Acceptance looks at the signature, the issuer, the window, the citations and the
    proofs named, and at nothing else. *)
Theorem C81_only_links_matter : forall E nt slice st u u' ps red, steady E -> with_parser slice st ->
  same_links (e_ext E) u u' -> signed_by_issuer (did_parser_new slice) u -> signed_by_issuer (did_parser_new slice) u' ->
  ((exists fuel, fst (from_ucan E nt fuel u st) = Ok (Chain u ps red)) <->
   (exists fuel, fst (from_ucan E nt fuel u' st) = Ok (Chain u' ps red))).
Proof. exact same_links_accepted. Qed.
Print Assumptions C81_only_links_matter.

(** Another audience, other claims, facts and a nonce, the same proof. *)
Definition mid_variant : ucan := Eval vm_compute in make
  [IssuedBy (toy bob); ForAudience (did_of alice); NotBefore 20; WithExpiration 90; WitnessedBy root_ucan None; WithNonce;
   WithFact (B "k") (Some VNull)].
Example C81_example :
  fst (from_ucan (leaf_env 50) None 5 mid_ucan sample_state) = Ok (Chain mid_ucan [Chain root_ucan [] []] []) /\
  fst (from_ucan (leaf_env 50) None 5 mid_variant sample_state) = Ok (Chain mid_variant [Chain root_ucan [] []] []) /\
  u_payload mid_variant <> u_payload mid_ucan /\ cited mid_ucan = cited mid_variant.
Proof. split; [vm_compute; reflexivity|]. split; [vm_compute; reflexivity|]. split; [vm_compute; discriminate | vm_compute; reflexivity]. Qed.

(* ------------------------------------------------------------------- C82 *)

(** Expected: a UCAN that is live at no instant is never accepted.  Refuted, both for a supplied
    time and for a machine clock that advances between its two readings. *)
Definition empty_ucan : ucan := Eval vm_compute in make [IssuedBy (toy alice); ForAudience (did_of bob); NotBefore 60; WithExpiration 40].
Definition ticking_env : env := mkEnv sample_ext (fun n => 40 + 20 * N.of_nat n)%N (fun _ _ => Ok None).
Theorem C82_empty_window_refused_refuted : exists u, never_live (u_payload u) /\
  (exists E t fuel st c, with_parser [(ed25519_magic, fun bs => Ok (toy bs))] st /\
     (forall n m, e_clock E n = e_clock E m) /\ fst (from_ucan E (Some t) fuel u st) = Ok c) /\
  (exists E fuel st c, with_parser [(ed25519_magic, fun bs => Ok (toy bs))] st /\
     (forall n, e_clock E n <= e_clock E (S n))%N /\ fst (from_ucan E None fuel u st) = Ok c).
Proof.
  exists empty_ucan. split; [|split].
  - apply never_live_iff. exists 60%N, 40%N. split; [vm_compute; reflexivity|]. split; [vm_compute; reflexivity | reflexivity].
  - exists (leaf_env 70), 30%N, 2%nat, sample_state, (Chain empty_ucan [] []).
    split; [exists []; reflexivity|]. split; [reflexivity | vm_compute; reflexivity].
  - exists ticking_env, 2%nat, sample_state, (Chain empty_ucan [] []). split; [exists []; reflexivity|].
    split; [intros n; unfold ticking_env; cbn [e_clock]; lia | vm_compute; reflexivity].
Qed.
Print Assumptions C82_empty_window_refused_refuted.

(** What holds: refused, anywhere in a chain, by a machine clock that stands still during the call. *)
Theorem C82_empty_window_refused_partial : forall E slice fuel u st c st' w, (forall n m, e_clock E n = e_clock E m) -> with_parser slice st ->
  from_ucan E None fuel u st = (Ok c, st') -> in_chain w c -> ~ never_live (u_payload w).
Proof. exact never_live_rejected. Qed.
Print Assumptions C82_empty_window_refused_partial.

(** And a UCAN within whose window some instant lies never rests on one with an empty window. *)
Theorem C82_no_empty_ancestor_partial : forall E nt slice fuel u st c st' w, with_parser slice st ->
  from_ucan E nt fuel u st = (Ok c, st') -> in_chain w c -> never_live (u_payload w) -> never_live (u_payload u).
Proof. exact accepted_leaf_empty_window. Qed.
Print Assumptions C82_no_empty_ancestor_partial.

Example C82_example :
  fst (from_ucan (leaf_env 50) None 2 empty_ucan sample_state) = Err EExpired /\
  fst (from_ucan (leaf_env 40) None 2 empty_ucan sample_state) = Err ETooEarly /\
  fst (from_ucan (leaf_env 50) None 5 leaf_ucan sample_state) = Ok leaf_chain.
Proof. vm_compute. repeat split. Qed.
