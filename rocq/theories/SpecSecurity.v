(** Specifications for statements about whose authority a report rests on. *)
From Verif Require Import Prelude BaseN Value Ext Json Url Capability Semantics Key Ucan Chain Spec.

(** [trail c v o]: a line of claims leads from a claim issued by [o] to [v] at the root of [c]; each
    claim is enabled by the next one of the line or is a proof's, redelegated. *)
Inductive trail {S A} (SO : scope_ops S) (AO : ability_ops A) parse : chain -> view S A -> bytes -> Prop :=
| Tr_claim c v : heeded parse (c_ucan c) v -> trail SO AO parse c v (p_iss (u_payload (c_ucan c)))
| Tr_enabled c pc v w o : heeded parse (c_ucan c) v -> attenuated c pc -> trail SO AO parse pc w o ->
    view_enables SO AO w v = true -> trail SO AO parse c v o
| Tr_redelegated c pc v o : redelegated c pc -> trail SO AO parse pc v o -> trail SO AO parse c v o.

(** Signatures cannot be forged: [signed did d] says that the holder of [did]'s key signed [d], and
    only then does a key the validator makes from the DID verify a signature over [d]. *)
Definition unforgeable (slice : list (bytes * ctor)) (signed : bytes -> bytes -> Prop) : Prop :=
  forall did k d s, fst (did_parse (did_parser_new slice) did) = Ok k -> key_verify k d s = Ok tt -> signed did d.

(** The issuer signed a text whose second part decodes to the payload. *)
Definition authentic (X : ext) (signed : bytes -> bytes -> Prop) (u : ucan) : Prop :=
  exists hj pj, signed (p_iss (u_payload u)) (b64_encode hj ++ B "." ++ b64_encode pj) /\
    payload_of_json X pj = Some (u_payload u).

(** [authority u v o]: the same line in terms of UCANs, each signed by its issuer, resolved by the store from
    the citation in the next, addressed to the issuer of the next and outliving it. *)
Inductive authority {S A} (SO : scope_ops S) (AO : ability_ops A) parse (E : env) (signed : bytes -> bytes -> Prop) :
  ucan -> view S A -> bytes -> Prop :=
| Au_claim u v : authentic (e_ext E) signed u -> heeded parse u v ->
    authority SO AO parse E signed u v (p_iss (u_payload u))
| Au_enabled u pu v w o : authentic (e_ext E) signed u -> heeded parse u v -> cites E pu u -> linked u pu ->
    authority SO AO parse E signed pu w o -> view_enables SO AO w v = true -> authority SO AO parse E signed u v o
| Au_redelegated u pu cap i text v o : authentic (e_ext E) signed u -> claims u cap -> names_proof (e_ext E) cap i ->
    nth_error (cited u) (N.to_nat i) = Some text -> resolves E (fun _ => True) text pu -> linked u pu ->
    authority SO AO parse E signed pu v o -> authority SO AO parse E signed u v o.
