(** C171, C172: validity and lifetimes in real time. *)
From Verif Require Import Prelude Value Cid Ext Json Capability Key Ucan Store Builder Chain RealTime Samples SampleHash
  Spec SpecBuilder SpecChain SpecRealTime RealTimeFacts HashSampleFacts.

(* ------------------------------------------------------------------- C171 *)

(** The clock is read in whole seconds, begun ones not counted, and not before 1970. *)
Theorem C171_readings : forall t s, read_clock t = Some s <-> during t s.
Proof. exact read_clock_iff. Qed.
Print Assumptions C171_readings.
Theorem C171_before_1970 : forall t, read_clock t = None <-> (t < 0)%Z.
Proof. exact read_clock_none. Qed.
Print Assumptions C171_before_1970.

(** After 1970 validation is the one the other properties speak of. *)
Theorem C171_validation : forall E clock u nt st, (forall n, during (clock n) (e_clock E n)) -> real_validate clock u nt st = Some (fst (validate E u nt st)).
Proof. exact real_validation. Qed.
Print Assumptions C171_validation.

(** At one instant: from the start of the not-before second to the end of the expiry second. *)
Theorem C171_window : forall t u st, real_validate (fun _ => t) u None st = Some (Ok tt) <->
  live_real (u_payload u) t /\ signed_by_issuer (v_parser st) u /\ ((0 <= t)%Z \/ unbounded (u_payload u)).
Proof. exact real_live. Qed.
Print Assumptions C171_window.

(** Exactly when reading the clock aborts. *)
Theorem C171_aborts : forall t u nt st, real_validate (fun _ => t) u nt st = None <->
  (t < 0)%Z /\ ((p_exp (u_payload u) <> None /\ nt = None) \/
    (p_nbf (u_payload u) <> None /\ forall e s, p_exp (u_payload u) = Some e -> nt = Some s -> (s <= e)%N)).
Proof. exact real_aborts. Qed.
Print Assumptions C171_aborts.

(** A chain accepted at one instant is accepted at exactly the instants of the outermost UCAN's window. *)
Theorem C171_chain : forall E slice u c st t s t' s', steady_store E -> with_parser slice st -> during t s -> during t' s' ->
  (exists fuel, fst (from_ucan (at_time E s) None fuel u st) = Ok c) ->
  live_real (u_payload u) t /\ ((exists fuel, fst (from_ucan (at_time E s') None fuel u st) = Ok c) <-> live_real (u_payload u) t').
Proof. exact real_chain. Qed.
Print Assumptions C171_chain.

(** While the clock moves: every UCAN of an accepted chain had started by the last reading and had not expired at the first. *)
Theorem C171_moving : forall E slice fuel u st c st' clock t0 t1 v, with_parser slice st -> (forall n, during (clock n) (e_clock E n)) ->
  (forall n, ticks_between st st' n -> (t0 <= clock n <= t1)%Z) -> from_ucan E None fuel u st = (Ok c, st') -> in_chain v c ->
  (forall b, p_nbf (u_payload v) = Some b -> (Z.of_N b * second <= t1)%Z) /\ (forall e, p_exp (u_payload v) = Some e -> (t0 < (Z.of_N e + 1) * second)%Z).
Proof. exact real_moving. Qed.
Print Assumptions C171_moving.

Example C171_example :
  (* bounds 20 and 90 *)
  real_validate (fun _ => 20000000000%Z) hashed_ucan None sample_state = Some (Ok tt) /\
  real_validate (fun _ => 19999999999%Z) hashed_ucan None sample_state = Some (Err ETooEarly) /\
  real_validate (fun _ => 90999999999%Z) hashed_ucan None sample_state = Some (Ok tt) /\
  real_validate (fun _ => 91000000000%Z) hashed_ucan None sample_state = Some (Err EExpired) /\
  real_validate (fun _ => (-1)%Z) hashed_ucan (Some 91%N) sample_state = Some (Err EExpired) /\
  real_validate (fun _ => (-1)%Z) hashed_ucan (Some 90%N) sample_state = None /\
  steady_store hashed_env /\ during 50300000000 50 /\ fst (from_ucan (at_time hashed_env 50) None 3 hashed_ucan sample_state) = Ok hashed_chain.
Proof.
  do 6 (split; [vm_compute; reflexivity|]). split; [intros n m c; reflexivity|]. split; [split; vm_compute; [discriminate | reflexivity]|].
  exact (proj1 (proj2 (proj2 (proj2 sample_chains)))).
Qed.

(* ------------------------------------------------------------------- C172 *)

(** A UCAN built with a lifetime lives for at least this many seconds after being built, and for less than one second more. *)
Theorem C172_lifetime : forall X t ops l sg rng u, word (N.of_nat (length ops)) ->
  real_build X t (builder_run X ops) = Some (Ok sg) -> sign X rng sg = Ok u ->
  last_such sets_expiration ops None -> last_such sets_lifetime ops (Some l) -> last_such sets_not_before ops None ->
  (t + Z.of_N l * second < 18446744073709551616 * second)%Z ->
  (forall t', (t' <= t + Z.of_N l * second)%Z -> live_real (u_payload u) t') /\
  (forall t', (t + (Z.of_N l + 1) * second <= t')%Z -> ~ live_real (u_payload u) t').
Proof. exact real_lifetime. Qed.
Print Assumptions C172_lifetime.

(** Exactly when building aborts reading the clock. *)
Theorem C172_aborts : forall X t ops, real_build X t (builder_run X ops) = None <->
  (t < 0)%Z /\ (exists k, In (IssuedBy k) ops) /\ (exists a, In (ForAudience a) ops) /\
  last_such sets_expiration ops None /\ exists l, last_such sets_lifetime ops (Some l).
Proof. exact real_build_aborts. Qed.
Print Assumptions C172_aborts.

Definition five_seconds : list builder_op := [IssuedBy (toy alice); ForAudience (did_of bob); WithLifetime 5].
Example C172_example :
  (exists sg u, real_build sample_ext 100700000000 (builder_run sample_ext five_seconds) = Some (Ok sg) /\ sign sample_ext [] sg = Ok u /\
     p_exp (u_payload u) = Some 105%N /\ real_validate (fun _ => 105999999999%Z) u None sample_state = Some (Ok tt)) /\
  last_such sets_expiration five_seconds None /\ last_such sets_lifetime five_seconds (Some 5%N) /\ last_such sets_not_before five_seconds None /\
  real_build sample_ext (-1) (builder_run sample_ext five_seconds) = None.
Proof.
  split; [eexists; eexists; split; [vm_compute; reflexivity|]; split; [vm_compute; reflexivity|]; split; vm_compute; reflexivity|].
  split; [intros x [<-|[<-|[<-|[]]]]; reflexivity|].
  split; [exists [IssuedBy (toy alice); ForAudience (did_of bob)], (WithLifetime 5), []; split; [reflexivity | split; [reflexivity | intros x []]]|].
  split; [intros x [<-|[<-|[<-|[]]]]; reflexivity | vm_compute; reflexivity].
Qed.
