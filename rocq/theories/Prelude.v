(** Shared vocabulary of the model: byte strings and outcomes.

    Rust's [String]/[&str] and [Vec<u8>]/[&[u8]] are both modelled as lists of
    bytes; that a Rust string is valid UTF-8 is stated where it matters
    (see Utf8.v).  A Rust function returning [anyhow::Result<T>] is modelled by a
    function into [res T]; panics and non-termination are outcomes of their own. *)
From Coq Require Export Strings.String.
From Coq Require Export Init.Byte.
From Coq Require Strings.Byte.
From Coq Require Export Init.Datatypes List NArith ZArith Bool Lia.
Notation length := Datatypes.length.
Export ListNotations.
#[global] Open Scope bool_scope.
#[global] Open Scope list_scope.


Definition bytes := list byte.

(** A Rust string or byte-string literal. *)
Definition B (s : String.string) : bytes := list_byte_of_string s.
Arguments B s%string_scope.

(** The numeric value of a byte ([u8 as u64]). *)
Definition bN (b : byte) : N := Byte.to_N b.

(** [n as u8] for n < 256 (models truncation to the low byte). *)
Definition byteN (n : N) : byte :=
  match Byte.of_N (n mod 256) with Some b => b | None => x00 end.

(** Errors: one constructor per [anyhow!] site (or class of library error) of
    the modelled code; the message text is not modelled. *)
Inductive error : Set :=
| EExpired                (* ucan.rs:75 *)
| ETooEarly               (* ucan.rs:79 *)
| EMissingSignedData      (* ucan.rs:236 *)
| EMissingHeader          (* ucan.rs:246 *)
| EHeaderBase64           (* ucan.rs:248 *)
| EHeaderJson             (* ucan.rs:249 *)
| EMissingPayload         (* ucan.rs:253 *)
| EPayloadBase64          (* ucan.rs:255 *)
| EPayloadJson            (* ucan.rs:256 *)
| EMissingSignature       (* ucan.rs:260 *)
| ESignatureBase64        (* ucan.rs:261 *)
| ENotDidKey              (* did.rs:44 *)
| EBase58                 (* did.rs:52, principle.rs:18 *)
| EUnknownMagic           (* did.rs:64 *)
| ENoCachedKey            (* did.rs:61 *)
| EKeyBytes               (* a key constructor's error *)
| ESignature              (* a key's verify error *)
| ENoPrivateKey           (* ed25519.rs:39, rsa.rs:56, p256.rs:41, web_crypto.rs:38 *)
| EWebCrypto              (* web_crypto.rs:31 and errors of the browser *)
| ESigning                (* any other error of a key's sign *)
| EDid                    (* error of a key's get_did *)
| EMissingAudience        (* builder.rs:305 *)
| EMissingIssuer          (* builder.rs:307 *)
| ECaveatNotObject        (* data.rs:161, data.rs:215, caveats.rs:76 *)
| ENoAbilities            (* data.rs:182 *)
| ECapsNotObject          (* data.rs:195 *)
| EAbilitiesNotObject     (* data.rs:202 *)
| ECaveatsNotArray        (* data.rs:212 *)
| ELinkLifetime           (* chain.rs:155 *)
| ELinkAudience           (* chain.rs:157 *)
| ENoProofAtIndex         (* chain.rs:97 *)
| ECid                    (* Cid::try_from error *)
| ECodec                  (* store.rs:76 *)
| ENoUcanForCid           (* store.rs:84 *)
| ENoTokenForCid          (* store.rs:68 *)
| EUtf8                   (* store.rs:83 *)
| EStore                  (* any other error of a store backend, e.g. store.rs:109 *)
| EVarint                 (* signature.rs:127-128 *)
| EVarsigPrefix           (* signature.rs:112 *)
| EVarsigAlgorithm        (* signature.rs:63 *)
| EAlgorithmName          (* JwtSignatureAlgorithm::from_str error *)
| ENotADid.               (* principle.rs:22 *)

(** Panics: one constructor per panicking expression. *)
Inductive panic : Set :=
| PDidSlice               (* did.rs:53   did_bytes[0..2] *)
| PPrincipleSlice         (* principle.rs:30 bytes[0..2] *)
| PPrincipleFmt           (* principle.rs:33 fmt::Error makes to_string panic *)
| PVarsigSlice            (* signature.rs:133 buffer[..signature_length] *)
| PPayloadExpect          (* builder.rs:93 expect(..) *)
| PReduceUnwrap           (* chain.rs:205 unwrap() *)
| PAddOverflow            (* builder.rs:288 now() + lifetime *)
| PSpkiSlice              (* web_crypto.rs:15 spki_bytes[24..] *)
| PWebCrypto              (* web_crypto.rs:30,119,122,124 expect(..) *)
| PKey.                   (* a user-supplied key implementation panics *)

Inductive res (A : Type) : Type :=
| Ok (a : A)
| Err (e : error)
| Panic (p : panic)
| Diverged.
Arguments Ok {A} a.
Arguments Err {A} e.
Arguments Panic {A} p.
Arguments Diverged {A}.

(** The [?] operator. *)
Definition rbind {A C} (x : res A) (f : A -> res C) : res C :=
  match x with
  | Ok a => f a
  | Err e => Err e
  | Panic p => Panic p
  | Diverged => Diverged
  end.

Notation "'let?' x := e1 'in' e2" := (rbind e1 (fun x => e2))
  (at level 200, x pattern, e1 at level 100, e2 at level 200, right associativity).

(** [Option::ok_or_else(..)?] *)
Definition ok_or {A} (o : option A) (e : error) : res A :=
  match o with Some a => Ok a | None => Err e end.

(** [Option]'s [?]. *)
Notation "'let??' x := e1 'in' e2" :=
  (match e1 with Some x => e2 | None => None end)
  (at level 200, x pattern, e1 at level 100, e2 at level 200, right associativity).

Fixpoint bytes_eqb (a b : bytes) : bool :=
  match a, b with
  | [], [] => true
  | x :: a', y :: b' => Byte.eqb x y && bytes_eqb a' b'
  | _, _ => false
  end.

(** [str::strip_prefix]; [starts_with] is its being [Some]. *)
Fixpoint strip_prefix (pre s : bytes) : option bytes :=
  match pre, s with
  | [], _ => Some s
  | p :: pre', c :: s' => if Byte.eqb p c then strip_prefix pre' s' else None
  | _ :: _, [] => None
  end.

(** [str::split(sep)] for a one-byte separator: always at least one piece. *)
Fixpoint split_on (sep : byte) (s : bytes) : list bytes :=
  match s with
  | [] => [[]]
  | c :: s' =>
      match split_on sep s' with
      | [] => [[c]]                       (* unreachable *)
      | piece :: rest => if Byte.eqb c sep then [] :: piece :: rest else (c :: piece) :: rest
      end
  end.

Definition is_some {A} (o : option A) : bool := match o with Some _ => true | None => false end.
