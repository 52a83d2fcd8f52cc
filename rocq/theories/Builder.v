(** ucan/src/builder.rs *)
From Verif Require Import Prelude Ord SMap BaseN Base58 Value Cid Ext Capability Semantics Key Ucan Store.

(** [Signable], builder.rs:22-37 *)
Record signable := mkSignable {
  s_issuer : key;
  s_audience : bytes;
  s_capabilities : list capability;
  s_expiration : option N;
  s_not_before : option N;
  s_facts : facts;
  s_proofs : list bytes;
  s_add_nonce : bool
}.

(** [ucan_header], builder.rs:44-49 *)
Definition ucan_header (s : signable) : header := mkHeader (key_alg (s_issuer s)) (B "JWT").

Definition none_if_nil {A} (l : list A) : option (list A) := match l with [] => None | _ => Some l end.

(** [ucan_payload], builder.rs:52-84; [rng] is the 32 random bytes drawn if a nonce is wanted. *)
Definition ucan_payload (rng : bytes) (s : signable) : res payload :=
  let nonce := if s_add_nonce s then Some (b64_encode rng) else None in
  let? iss := key_did (s_issuer s) in
  let? cap := caps_of_list (s_capabilities s) in
  Ok {| p_ucv := ucan_version; p_iss := iss; p_aud := s_audience s;
        p_exp := s_expiration s; p_nbf := s_not_before s; p_nnc := nonce; p_cap := cap;
        p_fct := none_if_nil (s_facts s); p_prf := none_if_nil (s_proofs s) |}.

(** [sign], builder.rs:88-104 *)
Definition sign (X : ext) (rng : bytes) (s : signable) : res ucan :=
  let h := ucan_header s in
  let? p := match ucan_payload rng s with
            | Err _ => Panic PPayloadExpect       (* .expect(..) *)
            | r => r
            end in
  let data := signing_input X h p in
  let? sig := key_sign (s_issuer s) data in
  Ok (mkUcan h p data sig).

(** [UcanBuilder], builder.rs:109-125 *)
Record builder := mkBuilder {
  b_issuer : option key;
  b_audience : option bytes;
  b_capabilities : list capability;
  b_lifetime : option N;
  b_expiration : option N;
  b_not_before : option N;
  b_facts : facts;
  b_proofs : list bytes;
  b_add_nonce : bool
}.

(** [Default], builder.rs:139-154 *)
Definition builder_default : builder := mkBuilder None None [] None None None [] [] false.

(** The builder methods, builder.rs:162-277, as data. *)
Inductive builder_op : Type :=
| IssuedBy (k : key)                                    (* builder.rs:162 *)
| ForAudience (a : bytes)                               (* builder.rs:172 *)
| WithLifetime (n : N)                                  (* builder.rs:180 *)
| WithExpiration (n : N)                                (* builder.rs:187 *)
| NotBefore (n : N)                                     (* builder.rs:193 *)
| WithFact (k : bytes) (v : option value)               (* builder.rs:199; None: serialisation failed *)
| WithNonce                                             (* builder.rs:210 *)
| WitnessedBy (authority : ucan) (hasher : option N)    (* builder.rs:220 *)
| ClaimingCapability (c : capability)                   (* builder.rs:231 *)
| ClaimingCapabilities (l : list capability)            (* builder.rs:241 *)
| DelegatingFrom (authority : ucan) (hasher : option N). (* builder.rs:257 *)

(** [default_hasher], builder.rs:280-282 *)
Definition default_hasher : N := blake3_256.

Definition proof_text (X : ext) (authority : ucan) (hasher : option N) : bytes :=
  cid_to_string (to_cid X (match hasher with Some h => h | None => default_hasher end) authority).

Definition builder_step (X : ext) (b : builder) (o : builder_op) : builder :=
  let '(mkBuilder iss aud caps life exp nbf fct prf nonce) := b in
  match o with
  | IssuedBy k => mkBuilder (Some k) aud caps life exp nbf fct prf nonce
  | ForAudience a => mkBuilder iss (Some a) caps life exp nbf fct prf nonce
  | WithLifetime n => mkBuilder iss aud caps (Some n) exp nbf fct prf nonce
  | WithExpiration n => mkBuilder iss aud caps life (Some n) nbf fct prf nonce
  | NotBefore n => mkBuilder iss aud caps life exp (Some n) fct prf nonce
  | WithFact k (Some v) => mkBuilder iss aud caps life exp nbf (minsert k v fct) prf nonce
  | WithFact _ None => b
  | WithNonce => mkBuilder iss aud caps life exp nbf fct prf true
  | WitnessedBy a h => mkBuilder iss aud caps life exp nbf fct (prf ++ [proof_text X a h]) nonce
  | ClaimingCapability c => mkBuilder iss aud (caps ++ [c]) life exp nbf fct prf nonce
  | ClaimingCapabilities l => mkBuilder iss aud (caps ++ l) life exp nbf fct prf nonce
  | DelegatingFrom a h =>
      let prf' := prf ++ [proof_text X a h] in
      let index := N.of_nat (length prf' - 1) in
      let caps' :=
        match parse_cap proof_scope proof_ability X (B "prf:" ++ dec_print index) (B "ucan/DELEGATE") None with
        | Some v => caps ++ [cap_of_view proof_scope proof_ability v]
        | None => caps
        end in
      mkBuilder iss aud caps' life exp nbf fct prf' nonce
  end.

Definition builder_run (X : ext) (ops : list builder_op) : builder :=
  fold_left (builder_step X) ops builder_default.

(** [u64] addition: panics in builds with overflow checks, else wraps. *)
Definition u64_add (X : ext) (a b : N) : res N :=
  if (a + b <=? u64_max)%N then Ok (a + b)%N
  else if x_overflow_checks X then Panic PAddOverflow
  else Ok ((a + b) mod 2 ^ 64)%N.

(** [implied_expiration], builder.rs:284-290; [t] is the clock reading. *)
Definition implied_expiration (X : ext) (t : N) (b : builder) : res (option N) :=
  match b_expiration b with
  | Some e => Ok (Some e)
  | None => match b_lifetime b with
            | Some l => let? e := u64_add X t l in Ok (Some e)
            | None => Ok None
            end
  end.

(** [build], builder.rs:292-309 *)
Definition build (X : ext) (t : N) (b : builder) : res signable :=
  match b_issuer b with
  | Some issuer =>
      match b_audience b with
      | Some audience =>
          let? exp := implied_expiration X t b in
          Ok (mkSignable issuer audience (b_capabilities b) exp (b_not_before b)
                         (b_facts b) (b_proofs b) (b_add_nonce b))
      | None => Err EMissingAudience
      end
  | None => Err EMissingIssuer
  end.
