(** ucan/src/lib.rs: the two functions of the crate's documentation. *)
From Verif Require Import Prelude Value Ext Capability Semantics Key Ucan Store Builder Chain.

(** [generate_token], lib.rs:24-32; [t] is the clock reading of [build]. *)
Definition generate_token (X : ext) (t : N) (rng : bytes) (issuer_key : key) (audience_did : bytes) : res bytes :=
  let? s := build X t (builder_run X [IssuedBy issuer_key; ForAudience audience_did; WithLifetime 60]) in
  let? u := sign X rng s in
  Ok (encode X u).

(** [get_capabilities], lib.rs:55-66; [slice] is the caller's SUPPORTED_KEY_TYPES, [parse] the semantics' parser,
    [fuel] bounds the depth of the chain. *)
Definition get_capabilities {S A} (E : env) (SO : scope_ops S) (AO : ability_ops A) (parse : capability -> option (view S A))
    (slice : list (bytes * ctor)) (fuel : nat) (ucan_token : bytes) : res (list (info S A)) :=
  let? c := fst (from_token E None fuel ucan_token (mkState (did_parser_new slice) 0 0 0)) in
  reduce SO AO parse c.
