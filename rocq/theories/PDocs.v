(** C124-C125: the two functions of the crate's documentation. *)
From Verif Require Import Prelude Ord SMap Base58 Value Utf8 Cid Ext Json Capability Semantics Key Ucan Store Builder Chain Docs
  Spec SpecWire SpecJson SpecCost SpecLine SpecReport SpecEnd SpecDocs DocsFacts Samples.

(* ------------------------------------------------------------------ C124 *)

(** [generate_token] makes this text and no other. *)
Theorem C124_generated_text : forall X t rng k aud tok, generate_token X t rng k aud = Ok tok <->
  (x_overflow_checks X = true -> (t + 60 < 18446744073709551616)%N) /\ minimal_token k aud t tok.
Proof. exact generate_iff. Qed.
Print Assumptions C124_generated_text.

(** It aborts only when the addition overflows or the key has no DID. *)
Theorem C124_generate_aborts : forall X t rng k aud p,
  (forall q, key_did k <> Panic q) -> (forall d q, key_sign k d <> Panic q) ->
  (generate_token X t rng k aud = Panic p <->
   (x_overflow_checks X = true /\ (18446744073709551616 <= t + 60)%N /\ p = PAddOverflow) \/
   (x_overflow_checks X = true -> (t + 60 < 18446744073709551616)%N) /\ (exists e, key_did k = Err e) /\ p = PPayloadExpect).
Proof. exact generate_abort. Qed.
Print Assumptions C124_generate_aborts.

(** Such a token is good for sixty seconds, the last included, for every validator that knows
    the type of the key, and carries no capabilities. *)
Theorem C124_generated_token_is_good : forall (S A : Type) E (SO : scope_ops S) (AO : ability_ops A) parse rng k aud t tok slice fuel,
  generate_token (e_ext E) t rng k aud = Ok tok -> (t + 60 < 18446744073709551616)%N -> known_key slice k ->
  utf8_valid (key_alg k) = true -> utf8_valid aud = true -> (forall d, key_did k = Ok d -> utf8_valid d = true) ->
  get_capabilities E SO AO parse slice (Datatypes.S fuel) tok =
  if (e_clock E 0 <=? t + 60)%N then Ok [] else Err EExpired.
Proof. exact @minimal_reported. Qed.
Print Assumptions C124_generated_token_is_good.

Definition sample_slice : list (bytes * ctor) := [(ed25519_magic, fun bs => Ok (toy bs))].
Definition sample_generated : bytes :=
  match generate_token sample_ext 40 [] (toy alice) (did_of mallory) with Ok tok => tok | _ => [] end.
Example C124_example :
  generate_token sample_ext 40 [] (toy alice) (did_of mallory) = Ok sample_generated /\
  get_capabilities (leaf_env 100) mail_scope mail_ability mail_parse sample_slice 1 sample_generated = Ok [] /\
  get_capabilities (leaf_env 101) mail_scope mail_ability mail_parse sample_slice 1 sample_generated = Err EExpired.
Proof. split; [vm_compute; reflexivity|]. split; vm_compute; reflexivity. Qed.

(* ------------------------------------------------------------------ C125 *)

(** [get_capabilities] returns the report of the accepted chain of the token. *)
Theorem C125_get_capabilities : forall (S A : Type) E (SO : scope_ops S) (AO : ability_ops A) parse slice fuel tok r,
  get_capabilities E SO AO parse slice fuel tok = Ok r <->
  exists c, token_grammar (e_ext E) tok (c_ucan c) /\ (levels c <= fuel)%nat /\ SpecLine.accepted E None slice 0 0 c /\ is_report SO AO parse c r.
Proof. exact @get_capabilities_iff. Qed.
Print Assumptions C125_get_capabilities.

(** With the documentation's empty list of key types no token is accepted. *)
Theorem C125_no_key_types : forall (S A : Type) E (SO : scope_ops S) (AO : ability_ops A) parse fuel tok r,
  get_capabilities E SO AO parse [] fuel tok <> Ok r.
Proof. exact @no_key_types. Qed.
Print Assumptions C125_no_key_types.

Definition sample_answer (slice : list (bytes * ctor)) : res (list (info bytes bool)) :=
  get_capabilities (leaf_env 50) mail_scope mail_ability mail_parse slice 5 (encode sample_ext leaf_ucan).
Definition entries (r : res (list (info bytes bool))) : option nat := match r with Ok l => Some (length l) | _ => None end.
Example C125_example : entries (sample_answer sample_slice) = Some 2%nat /\ sample_answer [] = Err EUnknownMagic.
Proof. split; vm_compute; reflexivity. Qed.
