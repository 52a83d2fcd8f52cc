(** C13-C15: validation and lifetimes. *)
From Verif Require Import Prelude Value Ext Capability Key Ucan Builder Spec TimeFacts Samples.

(* ------------------------------------------------------------------- C13 *)

Theorem C13_validate_ok_iff : forall E u now_time st,
  fst (validate E u now_time st) = Ok tt <->
  unexpired (u_payload u) (expiry_time E now_time st) /\
  started (u_payload u) (start_time E (u_payload u) now_time st) /\
  signed_by_issuer (v_parser st) u.
Proof. exact validate_ok_iff. Qed.
Print Assumptions C13_validate_ok_iff.

Theorem C13_expiry_reported_first : forall E u now_time st,
  ~ unexpired (u_payload u) (expiry_time E now_time st) ->
  fst (validate E u now_time st) = Err EExpired.
Proof. exact validate_expired. Qed.
Print Assumptions C13_expiry_reported_first.

Theorem C13_earliness_reported_second : forall E u now_time st,
  unexpired (u_payload u) (expiry_time E now_time st) ->
  ~ started (u_payload u) (start_time E (u_payload u) now_time st) ->
  fst (validate E u now_time st) = Err ETooEarly.
Proof. exact validate_early. Qed.
Print Assumptions C13_earliness_reported_second.

Theorem C13_signature_reported_last : forall E u now_time st,
  unexpired (u_payload u) (expiry_time E now_time st) ->
  started (u_payload u) (start_time E (u_payload u) now_time st) ->
  fst (validate E u now_time st) =
  (let? k := fst (did_parse (v_parser st) (p_iss (u_payload u))) in
   key_verify k (u_signed_data u) (u_signature u)).
Proof. exact validate_signature. Qed.
Print Assumptions C13_signature_reported_last.

Definition timed : ucan :=
  make [IssuedBy (toy alice); ForAudience (did_of bob); NotBefore 100; WithExpiration 200].

(** Both boundaries are valid, one second outside is not, the wrong signature is not. *)
Example C13_example :
  fst (validate (sample_env 100 []) timed None sample_state) = Ok tt /\
  fst (validate (sample_env 200 []) timed None sample_state) = Ok tt /\
  fst (validate (sample_env 100 []) timed (Some 200%N) sample_state) = Ok tt /\
  fst (validate (sample_env 100 []) timed (Some 201%N) sample_state) = Err EExpired /\
  fst (validate (sample_env 201 []) timed None sample_state) = Err EExpired /\
  fst (validate (sample_env 99 []) timed None sample_state) = Err ETooEarly /\
  fst (validate (sample_env 99 []) timed (Some 201%N) sample_state) = Err EExpired /\
  fst (validate (sample_env 150 [])
        (mkUcan (u_header timed) (u_payload timed) (u_signed_data timed) (B "forged")) None sample_state)
  = Err ESignature.
Proof. vm_compute. repeat split. Qed.

(* ------------------------------------------------------------------- C14 *)

(** Expected: [nbf = Some b] and [t < b] imply that validation at [Some t] fails.
    False: the not-before is compared with the machine clock. *)
Theorem C14_supplied_time_refuted : exists E u t b st,
  p_nbf (u_payload u) = Some b /\ (t < b)%N /\
  fst (validate E u (Some t) st) = Ok tt.
Proof.
  exists (sample_env 150 []), timed, 50%N, 100%N, sample_state.
  vm_compute. repeat split.
Qed.
Print Assumptions C14_supplied_time_refuted.

(** It holds when the machine clock is not ahead of the supplied time. *)
Theorem C14_supplied_time_partial : forall E u t b st,
  p_nbf (u_payload u) = Some b -> (t < b)%N ->
  (start_time E (u_payload u) (Some t) st <= t)%N ->
  fst (validate E u (Some t) st) <> Ok tt.
Proof. exact validate_supplied_time. Qed.
Print Assumptions C14_supplied_time_partial.

Example C14_example :
  p_nbf (u_payload timed) = Some 100%N /\
  fst (validate (sample_env 60 []) timed (Some 70%N) sample_state) = Err ETooEarly.
Proof. vm_compute. repeat split. Qed.

(* ------------------------------------------------------------------- C15 *)

Theorem C15_lifetime_is_inclusion : forall a b,
  (exists t, live_at (u_payload b) t) ->
  (lifetime_encompasses a b = true <->
   forall t, live_at (u_payload b) t -> live_at (u_payload a) t).
Proof. exact lifetime_encompasses_iff. Qed.
Print Assumptions C15_lifetime_is_inclusion.

(** The direction that matters for safety needs no non-emptiness. *)
Theorem C15_lifetime_inclusion_sound : forall a b t,
  lifetime_encompasses a b = true -> live_at (u_payload b) t -> live_at (u_payload a) t.
Proof. exact lifetime_encompasses_live. Qed.
Print Assumptions C15_lifetime_inclusion_sound.

Theorem C15_lifetime_refl : forall a, lifetime_encompasses a a = true.
Proof. exact lifetime_encompasses_refl. Qed.
Print Assumptions C15_lifetime_refl.

Theorem C15_lifetime_trans : forall a b c,
  lifetime_encompasses a b = true -> lifetime_encompasses b c = true -> lifetime_encompasses a c = true.
Proof. exact lifetime_encompasses_trans. Qed.
Print Assumptions C15_lifetime_trans.

Definition forever : ucan := Eval vm_compute in make [IssuedBy (toy alice); ForAudience (did_of bob)].

Example C15_example :
  live_at (u_payload timed) 150 /\
  lifetime_encompasses forever timed = true /\ lifetime_encompasses timed forever = false.
Proof.
  split; [|vm_compute; repeat split].
  split; intros n Hn; vm_compute in Hn; injection Hn as <-; lia.
Qed.
