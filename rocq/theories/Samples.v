(** Concrete parameters used only by the examples that accompany the theorems. *)
From Coq Require Import Floats.SpecFloat.
From Verif Require Import Prelude Ord SMap Base58 Value Url Cid Ext Capability Semantics Key Ucan Store Builder Chain.

(** A toy hash function with 8-byte digests. *)
Definition toy_hash (s : bytes) : bytes :=
  let n := fold_left (fun acc b => N.land (acc * 257 + bN b + 1) 2305843009213693951)%N s 0%N in
  map (fun i => byteN (N.shiftr n (8 * i))) [0; 1; 2; 3; 4; 5; 6; 7]%N.

(** Third-party behaviour: no doubles, no hierarchical URLs, the toy hash for every code. *)
Definition sample_ext : ext :=
  mkExt (fun _ => B "0.0") (fun _ => Some (S754_zero false)) true true
        (fun _ _ => None) (fun _ _ => None) (fun _ => toy_hash) true.

(** An e-mail semantics like the one of ucan/src/tests/fixtures/capabilities/email.rs:
    the scope is an address, containment is equality. *)
Definition mail_scope : scope_ops bytes :=
  mkScope bytes_eqb (fun s => B "mailto:" ++ s)
          (fun u => if bytes_eqb (url_scheme u) (B "mailto") then Some (url_path u) else None).

(** Two abilities, email/read below email/send. *)
Definition mail_ability : ability_ops bool :=
  mkAbility (fun a b => match a, b with false, true => Lt | true, false => Gt | _, _ => Eq end)
            (fun a => if a then B "email/send" else B "email/read")
            (fun s => if bytes_eqb s (B "email/send") then Some true
                      else if bytes_eqb s (B "email/read") then Some false else None).

(** A toy key: the signature of [d] is [tag ++ d]. *)
Definition toy_key (tag did : bytes) : key :=
  mkKey (B "EdDSA") (Ok did) (fun d => Ok (tag ++ d))
        (fun d s => if bytes_eqb s (tag ++ d) then Ok tt else Err ESignature).

Definition obj1 : value := VObj [(B "cc", VArr [VStr (B "a@x")]); (B "max", VNum (PosInt 3))].
Definition obj2 : value := VObj [(B "cc", VArr [VStr (B "a@x")]); (B "max", VNum (PosInt 3)); (B "z", VNull)].

(** Toy identities: the DID names an "ed25519" key whose bytes are [name]. *)
Definition did_of (name : bytes) : bytes := did_key_prefix ++ b58_encode (ed25519_magic ++ name).
Definition toy (name : bytes) : key := toy_key name (did_of name).
Definition sample_parser : did_parser := did_parser_new [(ed25519_magic, fun bs => Ok (toy bs))].
Definition sample_state : vstate := mkState sample_parser 0 0 0.

Definition alice : bytes := B "alice".
Definition bob : bytes := B "bob".
Definition mallory : bytes := B "mallory".

(** Building and signing; an unreachable default for failures. *)
Definition no_ucan : ucan := mkUcan (mkHeader [] []) (mkPayload [] [] [] None None None [] None None) [] [].
Definition make (ops : list builder_op) : ucan :=
  match build sample_ext 0 (builder_run sample_ext ops) with
  | Ok s => match sign sample_ext [] s with Ok u => u | _ => no_ucan end
  | _ => no_ucan
  end.

(** An environment whose clock always shows [t] and whose store is a memory
    store holding the tokens of [us]. *)
Definition store_with (us : list ucan) : mstore :=
  fold_left (fun s u => snd (mem_write_token sample_ext s (encode sample_ext u))) us [].
Definition sample_env (t : N) (us : list ucan) : env :=
  let s := store_with us in mkEnv sample_ext (fun _ => t) (fun _ c => mem_read s c).

(** A delegation from alice over bob to mallory: bob attenuates, mallory
    redelegates everything received from bob and adds an own claim. *)
Definition mail (who ability : String.string) (caveat : value) : capability :=
  mkCap (B "mailto:" ++ B who) (B ability) caveat.
Definition root_ucan : ucan := Eval vm_compute in make
  [IssuedBy (toy alice); ForAudience (did_of bob); NotBefore 10; WithExpiration 100;
   ClaimingCapability (mail "a@x" "email/send" obj1)].
Definition mid_ucan : ucan := Eval vm_compute in make
  [IssuedBy (toy bob); ForAudience (did_of mallory); NotBefore 20; WithExpiration 90; WitnessedBy root_ucan None;
   ClaimingCapability (mail "a@x" "email/read" obj2)].
Definition leaf_ucan : ucan := Eval vm_compute in make
  [IssuedBy (toy mallory); ForAudience (did_of alice); NotBefore 30; WithExpiration 80; DelegatingFrom mid_ucan None;
   ClaimingCapability (mail "m@x" "email/send" (VObj []))].
Definition leaf_store : mstore := Eval vm_compute in store_with [root_ucan; mid_ucan].
Definition leaf_env (t : N) : env := mkEnv sample_ext (fun _ => t) (fun _ c => mem_read leaf_store c).
Definition leaf_chain : chain := Chain leaf_ucan [Chain mid_ucan [Chain root_ucan [] []] []] [0%N].
Definition mail_parse : capability -> option (view bytes bool) := parse_capability mail_scope mail_ability sample_ext.

(** A UCAN using every field, with nested facts and several caveats. *)
Definition rich_signable : signable := mkSignable (toy alice) (did_of bob)
  [mail "b@x" "email/send" obj2; mail "a@x" "email/read" (VObj []); mail "b@x" "email/send" obj1]
  (Some 18446744073709551615%N) (Some 7%N)
  [(B "a""\", VArr [VNum (NegInt (-5)); VNum (Float (S754_zero false)); VObj [(B "/", VNull)]]); (B "b", VStr (B "x"))]
  [B "bafy1"; B "bafy2"] true.
Definition rich_ucan : ucan := Eval vm_compute in match sign sample_ext (repeat x61 32) rich_signable with Ok u => u | _ => no_ucan end.

(** The same with another caveat. *)
Definition rich_signable2 : signable := mkSignable (toy alice) (did_of bob)
  [mail "b@x" "email/send" obj2; mail "a@x" "email/read" (VObj []); mail "b@x" "email/send" obj2]
  (s_expiration rich_signable) (s_not_before rich_signable) (s_facts rich_signable) (s_proofs rich_signable) true.
Definition rich_ucan2 : ucan := Eval vm_compute in match sign sample_ext (repeat x61 32) rich_signable2 with Ok u => u | _ => no_ucan end.
