(** ucan/src/ucan.rs (with the parts of ucan/src/serde.rs and ucan/src/time.rs it uses) *)
From Verif Require Import Prelude Ord SMap BaseN Base58 Value Cid Url Ext Json Capability Key.

(** [FactsMap], ucan.rs:20 *)
Definition facts := smap bytes value.

(** [UcanHeader], ucan.rs:22-26 *)
Record header := mkHeader { h_alg : bytes; h_typ : bytes }.

(** [UcanPayload], ucan.rs:28-43 *)
Record payload := mkPayload {
  p_ucv : bytes;
  p_iss : bytes;
  p_aud : bytes;
  p_exp : option N;             (* u64 *)
  p_nbf : option N;             (* u64 *)
  p_nnc : option bytes;
  p_cap : capabilities;
  p_fct : option facts;
  p_prf : option (list bytes)
}.

(** [Ucan], ucan.rs:45-51; [Ucan::new], ucan.rs:54-66, is [mkUcan]. *)
Record ucan := mkUcan {
  u_header : header;
  u_payload : payload;
  u_signed_data : bytes;
  u_signature : bytes
}.

(** [UCAN_VERSION], ucan.rs:18 *)
Definition ucan_version : bytes := B "0.10.0-canary".

(* ------------------------------------------------- derived Serialize / Deserialize *)

(** Serialize for UcanHeader: a BTreeMap, hence sorted keys. *)
Definition ipld_of_header (h : header) : ipld :=
  IMap [(B "alg", IStr (h_alg h)); (B "typ", IStr (h_typ h))].

(** Serialize for Capabilities (a transparent newtype), data.rs:66-86. *)
Definition ipld_of_caps (c : capabilities) : ipld :=
  IMap (map (fun ra => (fst ra,
    IMap (map (fun av => (fst av, IList (map ipld_of_value (snd av)))) (snd ra)))) c).

Definition ipld_of_facts (f : facts) : ipld :=
  IMap (map (fun kv => (fst kv, ipld_of_value (snd kv))) f).

(** A field skipped when None (ucan.rs:34,36,39,41). *)
Definition opt_field {A} (k : bytes) (f : A -> ipld) (o : option A) : list (bytes * ipld) :=
  match o with Some a => [(k, f a)] | None => [] end.

Definition ipld_of_u64 (n : N) : ipld := IInt (Z.of_N n).

(** Serialize for UcanPayload, ucan.rs:28-43, keys in BTreeMap order. *)
Definition ipld_of_payload (p : payload) : ipld :=
  IMap ([(B "aud", IStr (p_aud p)); (B "cap", ipld_of_caps (p_cap p));
         (B "exp", match p_exp p with Some n => ipld_of_u64 n | None => INull end)]
        ++ opt_field (B "fct") ipld_of_facts (p_fct p)
        ++ [(B "iss", IStr (p_iss p))]
        ++ opt_field (B "nbf") ipld_of_u64 (p_nbf p)
        ++ opt_field (B "nnc") IStr (p_nnc p)
        ++ opt_field (B "prf") (fun l => IList (map IStr l)) (p_prf p)
        ++ [(B "ucv", IStr (p_ucv p))]).

Definition str_of_ipld (i : ipld) : option bytes := match i with IStr s => Some s | _ => None end.

Definition u64_of_ipld (i : ipld) : option N :=
  match i with
  | IInt z => if (0 <=? z)%Z && (z <=? Z.of_N u64_max)%Z then Some (Z.to_N z) else None
  | _ => None
  end.

Definition list_of_ipld {A} (f : ipld -> option A) (i : ipld) : option (list A) :=
  match i with IList l => traverse f l | _ => None end.

Definition map_of_ipld {A} (f : ipld -> option A) (i : ipld) : option (smap bytes A) :=
  match i with
  | IMap m => traverse (fun kv => let?? v := f (snd kv) in Some (fst kv, v)) m
  | _ => None
  end.

(** A required field. *)
Definition req {A} (k : bytes) (f : ipld -> option A) (m : smap bytes ipld) : option A :=
  let?? i := mget k m in f i.

(** A field of type Option<_>: absent or null is None. *)
Definition opt {A} (k : bytes) (f : ipld -> option A) (m : smap bytes ipld) : option (option A) :=
  match mget k m with
  | None | Some INull => Some None
  | Some i => let?? a := f i in Some (Some a)
  end.

(** Deserialize for Capabilities: derived on the newtype, so without the checks of
    the TryFrom impls (data.rs:66, compare data.rs:145-229). *)
Definition caps_of_ipld (X : ext) (i : ipld) : option capabilities :=
  map_of_ipld (map_of_ipld (list_of_ipld (value_of_ipld X))) i.

Definition header_of_ipld (i : ipld) : option header :=
  match i with
  | IMap m =>
      let?? a := req (B "alg") str_of_ipld m in
      let?? t := req (B "typ") str_of_ipld m in
      Some (mkHeader a t)
  | _ => None
  end.

(** Deserialize for UcanPayload: unknown fields are ignored. *)
Definition payload_of_ipld (X : ext) (i : ipld) : option payload :=
  match i with
  | IMap m =>
      let?? ucv := req (B "ucv") str_of_ipld m in
      let?? iss := req (B "iss") str_of_ipld m in
      let?? aud := req (B "aud") str_of_ipld m in
      let?? exp := opt (B "exp") u64_of_ipld m in
      let?? nbf := opt (B "nbf") u64_of_ipld m in
      let?? nnc := opt (B "nnc") str_of_ipld m in
      let?? cap := req (B "cap") (caps_of_ipld X) m in
      let?? fct := opt (B "fct") (map_of_ipld (value_of_ipld X)) m in
      let?? prf := opt (B "prf") (list_of_ipld str_of_ipld) m in
      Some (mkPayload ucv iss aud exp nbf nnc cap fct prf)
  | _ => None
  end.

(** [to_dag_json] / [from_dag_json], serde.rs:22-35.  Serialisation of these types cannot fail. *)
Definition header_to_json (X : ext) (h : header) : bytes := dagjson_encode X (ipld_of_header h).
Definition payload_to_json (X : ext) (p : payload) : bytes := dagjson_encode X (ipld_of_payload p).
Definition header_of_json (X : ext) (s : bytes) : option header :=
  let?? i := dagjson_decode X s in header_of_ipld i.
Definition payload_of_json (X : ext) (s : bytes) : option payload :=
  let?? i := dagjson_decode X s in payload_of_ipld X i.

(** [jwt_base64_encode], serde.rs:40-44 *)
Definition header_b64 (X : ext) (h : header) : bytes := b64_encode (header_to_json X h).
Definition payload_b64 (X : ext) (p : payload) : bytes := b64_encode (payload_to_json X p).

(** [format!("{header}.{payload}")], builder.rs:98, ipld/ucan.rs:91 *)
Definition signing_input (X : ext) (h : header) (p : payload) : bytes :=
  header_b64 X h ++ B "." ++ payload_b64 X p.

(** [Ucan::encode], ucan.rs:93-100 *)
Definition encode (X : ext) (u : ucan) : bytes :=
  header_b64 X (u_header u) ++ B "." ++ payload_b64 X (u_payload u) ++ B "." ++ b64_encode (u_signature u).

(** [Ucan::from_str], ucan.rs:229-269 *)
Definition parse_token (X : ext) (token : bytes) : res ucan :=
  let segs := split_on x2e token in
  (* split.take(2).reduce(|l, r| l.r), ucan.rs:231-236 *)
  let? signed_data := match segs with
                      | [] => Err EMissingSignedData
                      | [l] => Ok l
                      | l :: r :: _ => Ok (l ++ B "." ++ r)
                      end in
  let? h64 := ok_or (nth_error segs 0) EMissingHeader in
  let? hj := ok_or (b64_decode h64) EHeaderBase64 in
  let? h := ok_or (header_of_json X hj) EHeaderJson in
  let? p64 := ok_or (nth_error segs 1) EMissingPayload in
  let? pj := ok_or (b64_decode p64) EPayloadBase64 in
  let? p := ok_or (payload_of_json X pj) EPayloadJson in
  let? s64 := ok_or (nth_error segs 2) EMissingSignature in
  let? s := ok_or (b64_decode s64) ESignatureBase64 in
  Ok (mkUcan h p signed_data s).

(** [Ucan::to_cid], ucan.rs:199-204: raw codec, digest of the token's bytes. *)
Definition to_cid (X : ext) (hash_code : N) (u : ucan) : cid :=
  cid_new_v1 raw_codec hash_code (x_hash X hash_code (encode X u)).

(* ------------------------------------------------------------------ lifetimes *)

(** [lifetime_begins_before], ucan.rs:132-138 *)
Definition lifetime_begins_before (self other : ucan) : bool :=
  match p_nbf (u_payload self), p_nbf (u_payload other) with
  | Some nbf, Some other_nbf => (nbf <=? other_nbf)%N
  | Some _, None => false
  | None, _ => true
  end.

(** [lifetime_ends_after], ucan.rs:141-147 *)
Definition lifetime_ends_after (self other : ucan) : bool :=
  match p_exp (u_payload self), p_exp (u_payload other) with
  | Some exp, Some other_exp => (other_exp <=? exp)%N
  | Some _, None => false
  | None, _ => true
  end.

(** [lifetime_encompasses], ucan.rs:150-152 *)
Definition lifetime_encompasses (self other : ucan) : bool :=
  lifetime_begins_before self other && lifetime_ends_after self other.

(* ----------------------------------------------------------------- validation *)

(** The environment of a validation: the system clock as an arbitrary function
    of the number of readings so far ([time::now], time.rs:3-8), and the store's
    [read::<Ipld>] (store.rs:49) as an arbitrary function of the number of reads
    so far, so that other users of the store may write in between. *)
Record env := mkEnv {
  e_ext : ext;
  e_clock : nat -> N;
  e_read : nat -> cid -> res (option ipld)
}.

(** The state threaded through a validation. [v_checks] is a ghost counter of
    the calls of [KeyMaterial::verify]. *)
Record vstate := mkState {
  v_parser : did_parser;
  v_ticks : nat;
  v_reads : nat;
  v_checks : nat
}.

(** Stateful computations; the state persists when an error is returned. *)
Definition M (A : Type) : Type := vstate -> res A * vstate.
Definition ret {A} (a : A) : M A := fun st => (Ok a, st).
Definition lift {A} (r : res A) : M A := fun st => (r, st).
Definition bind {A C} (m : M A) (f : A -> M C) : M C := fun st =>
  match m st with
  | (Ok a, st') => f a st'
  | (Err e, st') => (Err e, st')
  | (Panic p, st') => (Panic p, st')
  | (Diverged, st') => (Diverged, st')
  end.
Notation "'let!' x := e1 'in' e2" := (bind e1 (fun x => e2))
  (at level 200, x pattern, e1 at level 100, e2 at level 200, right associativity).

(** [time::now()] *)
Definition now (E : env) : M N := fun st =>
  (Ok (e_clock E (v_ticks st)), mkState (v_parser st) (S (v_ticks st)) (v_reads st) (v_checks st)).

(** [DidParser::parse] on the parser in the state. *)
Definition parse_did (did : bytes) : M key := fun st =>
  let '(r, p) := did_parse (v_parser st) did in
  (r, mkState p (v_ticks st) (v_reads st) (v_checks st)).

(** [is_expired], ucan.rs:103-109 *)
Definition is_expired (E : env) (u : ucan) (now_time : option N) : M bool :=
  match p_exp (u_payload u) with
  | Some exp =>
      let! t := match now_time with Some t => ret t | None => now E end in
      ret (exp <? t)%N
  | None => ret false
  end.

(** [is_too_early], ucan.rs:121-126 *)
Definition is_too_early (E : env) (u : ucan) : M bool :=
  match p_nbf (u_payload u) with
  | Some nbf => let! t := now E in ret (t <? nbf)%N
  | None => ret false
  end.

(** [key.verify(..).await], counted. *)
Definition verify (k : key) (data sig : bytes) : M unit := fun st =>
  (key_verify k data sig, mkState (v_parser st) (v_ticks st) (v_reads st) (S (v_checks st))).

(** [check_signature], ucan.rs:86-89 *)
Definition check_signature (u : ucan) : M unit :=
  let! k := parse_did (p_iss (u_payload u)) in
  verify k (u_signed_data u) (u_signature u).

(** [validate], ucan.rs:69-83 *)
Definition validate (E : env) (u : ucan) (now_time : option N) : M unit :=
  let! expired := is_expired E u now_time in
  if (expired : bool) then lift (Err EExpired)
  else
    let! early := is_too_early E u in
    if (early : bool) then lift (Err ETooEarly)
    else check_signature u.
