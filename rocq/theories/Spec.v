(** Specifications: what the properties talk about, stated without the model's
    helper functions.  (Data types and the text of keys come from the model.) *)
From Coq Require Import Sorting.Sorted Floats.SpecFloat.
From Verif Require Import Prelude Ord SMap Base58 Utf8 Value Cid Url Ext Capability Semantics Key Json Ucan Ipld KeySupport Store Builder Chain.

(* ------------------------------------------------------------- JSON values *)

(** Equality of JSON values: same structure, numbers equal as numbers of the
    same representation (integers with integers, doubles with doubles). *)
Inductive json_eq : value -> value -> Prop :=
| JE_null : json_eq VNull VNull
| JE_bool b : json_eq (VBool b) (VBool b)
| JE_pos n : json_eq (VNum (PosInt n)) (VNum (PosInt n))
| JE_neg z : json_eq (VNum (NegInt z)) (VNum (NegInt z))
| JE_float f g : SFcompare f g = Some Eq -> json_eq (VNum (Float f)) (VNum (Float g))
| JE_str s : json_eq (VStr s) (VStr s)
| JE_arr l l' : Forall2 json_eq l l' -> json_eq (VArr l) (VArr l')
| JE_obj m m' : Forall2 (fun kv kv' => fst kv = fst kv' /\ json_eq (snd kv) (snd kv')) m m' ->
                json_eq (VObj m) (VObj m').

(** Strictly increasing byte strings. *)
Definition keys_increasing {V} (m : list (bytes * V)) : Prop :=
  StronglySorted (fun a b => bytes_cmp (fst a) (fst b) = Lt) m.

(** A number serde_json can hold: finite doubles only. *)
Definition finite_float (f : f64) : Prop :=
  match f with
  | S754_zero _ => True
  | S754_finite _ m e => bounded 53 1024 m e = true
  | _ => False
  end.

Definition number_ok (n : number) : Prop :=
  match n with
  | PosInt n => (n <= 18446744073709551615)%N
  | NegInt z => (-9223372036854775808 <= z < 0)%Z
  | Float f => finite_float f
  end.

(** The values the Rust type [serde_json::Value] can have: strings are UTF-8,
    numbers representable, object keys distinct and in BTreeMap order. *)
Inductive json_ok : value -> Prop :=
| JO_null : json_ok VNull
| JO_bool b : json_ok (VBool b)
| JO_num n : number_ok n -> json_ok (VNum n)
| JO_str s : utf8_valid s = true -> json_ok (VStr s)
| JO_arr l : Forall json_ok l -> json_ok (VArr l)
| JO_obj m : object_ok m -> json_ok (VObj m)
with object_ok : list (bytes * value) -> Prop :=
| OO m : keys_increasing m -> Forall (fun kv => utf8_valid (fst kv) = true /\ json_ok (snd kv)) m ->
         object_ok m.

(** The text of a JSON number with a fraction or an exponent. *)
Definition digits (d : bytes) : Prop := d <> [] /\ Forall (fun c => 48 <= bN c <= 57)%N d.
Definition float_text (t : bytes) : Prop :=
  exists sign int frac exp, t = sign ++ int ++ frac ++ exp /\
    (sign = [] \/ sign = B "-") /\
    digits int /\ (int = B "0" \/ forall r, int <> B "0" ++ r) /\
    (frac = [] \/ exists d, frac = B "." ++ d /\ digits d) /\
    (exp = [] \/ exists e sg d, exp = e ++ sg ++ d /\ (e = B "e" \/ e = B "E") /\ (sg = [] \/ sg = B "+" \/ sg = B "-") /\ digits d) /\
    (frac <> [] \/ exp <> []).

(** The double survives being printed and read again. *)
Definition float_carried (X : ext) (f : f64) : Prop :=
  finite_float f /\ float_text (x_f64_print X f) /\ x_f64_parse X (x_f64_print X f) = Some f.

(** The objects DAG-JSON reserves for links and byte strings. *)
Definition reserved (m : list (bytes * value)) : Prop :=
  (exists s, m = [(B "/", VStr s)]) \/ (exists s, m = [(B "/", VObj [(B "bytes", VStr s)])]).

(** The JSON values that the wire format carries when [n] levels of nesting are
    left: what [Value] can hold, not nested too deep, without reserved objects. *)
Inductive carried (X : ext) : nat -> value -> Prop :=
| Ca_null n : carried X n VNull
| Ca_bool n b : carried X n (VBool b)
| Ca_pos n k : (k <= 18446744073709551615)%N -> x_value_i128 X = true -> carried X n (VNum (PosInt k))
| Ca_neg n z : (-9223372036854775808 <= z < 0)%Z -> x_value_i128 X = true -> carried X n (VNum (NegInt z))
| Ca_float n f : float_carried X f -> carried X n (VNum (Float f))
| Ca_str n s : utf8_valid s = true -> carried X n (VStr s)
| Ca_arr n l : Forall (carried X n) l -> carried X (S n) (VArr l)
| Ca_obj n m : keys_increasing m -> Forall (fun kv => utf8_valid (fst kv) = true /\ carried X n (snd kv)) m ->
               ~ reserved m -> carried X (S n) (VObj m).

(** No reserved object anywhere in the value. *)
Inductive unreserved : value -> Prop :=
| Un_null : unreserved VNull
| Un_bool b : unreserved (VBool b)
| Un_num n : unreserved (VNum n)
| Un_str s : unreserved (VStr s)
| Un_arr l : Forall unreserved l -> unreserved (VArr l)
| Un_obj m : ~ reserved m -> Forall (fun kv => unreserved (snd kv)) m -> unreserved (VObj m).

(** Every double the parser yields survives being printed and read again. *)
Definition floats_survive (X : ext) : Prop := forall t f, x_f64_parse X t = Some f -> float_carried X f.

(** The UCANs the wire format carries: text is UTF-8, instants are 64-bit, caveats and facts
    are carried at the nesting level they appear (of serde_json's 127). *)
Definition opt_all {A} (P : A -> Prop) (o : option A) : Prop := forall a, o = Some a -> P a.
Definition caps_carried (X : ext) (c : capabilities) : Prop :=
  keys_increasing c /\
  Forall (fun ra => utf8_valid (fst ra) = true /\ keys_increasing (snd ra) /\
    Forall (fun av => utf8_valid (fst av) = true /\ Forall (carried X 123) (snd av)) (snd ra)) c.
Record payload_carried (X : ext) (p : payload) : Prop := mkPC {
  pc_ucv : utf8_valid (p_ucv p) = true;
  pc_iss : utf8_valid (p_iss p) = true;
  pc_aud : utf8_valid (p_aud p) = true;
  pc_exp : opt_all (fun n => n <= 18446744073709551615)%N (p_exp p);
  pc_nbf : opt_all (fun n => n <= 18446744073709551615)%N (p_nbf p);
  pc_nnc : opt_all (fun n => utf8_valid n = true) (p_nnc p);
  pc_cap : caps_carried X (p_cap p);
  pc_fct : opt_all (fun f => carried X 126 (VObj f)) (p_fct p);
  pc_prf : opt_all (Forall (fun t => utf8_valid t = true)) (p_prf p)
}.
Definition ucan_carried (X : ext) (u : ucan) : Prop :=
  utf8_valid (h_alg (u_header u)) = true /\ utf8_valid (h_typ (u_header u)) = true /\ payload_carried X (u_payload u).

(** The same for what the builder is about to sign. *)
Record signable_carried (X : ext) (s : signable) : Prop := mkSC {
  sc_alg : utf8_valid (key_alg (s_issuer s)) = true;
  sc_did : forall d, key_did (s_issuer s) = Ok d -> utf8_valid d = true;
  sc_aud : utf8_valid (s_audience s) = true;
  sc_cap : forall c, In c (s_capabilities s) ->
    utf8_valid (cap_resource c) = true /\ utf8_valid (cap_ability c) = true /\ carried X 123 (cap_caveat c);
  sc_exp : opt_all (fun n => n <= 18446744073709551615)%N (s_expiration s);
  sc_nbf : opt_all (fun n => n <= 18446744073709551615)%N (s_not_before s);
  sc_fct : carried X 126 (VObj (s_facts s));
  sc_prf : Forall (fun t => utf8_valid t = true) (s_proofs s)
}.

(** What a UCAN says, without the bytes that were signed. *)
Definition content (u : ucan) : header * payload * bytes := (u_header u, u_payload u, u_signature u).

(** No reserved object in the caveats and facts. *)
Definition payload_unreserved (p : payload) : Prop :=
  (forall r abs a vs, In (r, abs) (p_cap p) -> In (a, vs) abs -> Forall unreserved vs) /\
  opt_all (fun f => unreserved (VObj f)) (p_fct p).

(* ------------------------------------------------------------ capabilities *)

(** [a] holds field [k] with value [v]. *)
Definition has_field (a : list (bytes * value)) (k : bytes) (v : value) : Prop := In (k, v) a.

(** Every field of [a] is in [b] with an equal value. *)
Definition fields_included (a b : list (bytes * value)) : Prop :=
  forall k v, has_field a k v -> exists v', has_field b k v' /\ json_eq v v'.

(** The kind of a resource (plain, my:, as:<did>). *)
Inductive resource_kind : Type := KPlain | KMy | KAs (did : bytes).
Definition kind_of {S} (r : resource S) : resource_kind :=
  match r with RPlain _ => KPlain | RMy _ => KMy | RAs d _ => KAs d end.
Definition uri_of {S} (r : resource S) : resource_uri S :=
  match r with RPlain u | RMy u | RAs _ u => u end.

(** [a] is of the same kind as [b] and is the wildcard or has a containing scope. *)
Definition covers {S} (SO : scope_ops S) (a b : resource S) : Prop :=
  kind_of a = kind_of b /\
  (uri_of a = Unscoped \/
   exists x y, uri_of a = Scoped x /\ uri_of b = Scoped y /\ sc_contains SO x y = true).

(** The preorder laws a user's scope type and ability type may satisfy. *)
Definition scope_preorder {S} (SO : scope_ops S) : Prop :=
  (forall a, sc_contains SO a a = true) /\
  (forall a b c, sc_contains SO a b = true -> sc_contains SO b c = true -> sc_contains SO a c = true).

Definition at_least {A} (AO : ability_ops A) (a b : A) : Prop := ab_cmp AO a b <> Lt.
Definition ability_preorder {A} (AO : ability_ops A) : Prop :=
  (forall a, at_least AO a a) /\
  (forall a b c, at_least AO a b -> at_least AO b c -> at_least AO a c).

(** The keys of a capability and their order. *)
Definition same_key (r a : bytes) (c : capability) : bool :=
  bytes_eqb (cap_resource c) r && bytes_eqb (cap_ability c) a.
Definition key_le (c d : capability) : Prop :=
  match bytes_cmp (cap_resource c) (cap_resource d) with
  | Lt => True
  | Eq => bytes_cmp (cap_ability c) (cap_ability d) <> Gt
  | Gt => False
  end.

Definition object_caveat (v : value) : Prop := exists m, v = VObj m.

(** The shape [Capabilities::try_from] is documented to enforce. *)
Definition caps_shape (m : capabilities) : Prop :=
  forall r abs, In (r, abs) m ->
    abs <> [] /\ forall a cs, In (a, cs) abs -> forall c, In c cs -> object_caveat c.

(** Each listed ability has at least one caveat. *)
Definition no_empty_caveats (m : capabilities) : Prop :=
  forall r abs, In (r, abs) m -> forall a cs, In (a, cs) abs -> cs <> [].

(** A capability map value of the Rust type: sorted, distinct keys at both levels. *)
Definition caps_sorted (m : capabilities) : Prop :=
  keys_increasing m /\ forall r abs, In (r, abs) m -> keys_increasing abs.

(** The JSON text form of a capability map. *)
Definition json_of_caps (m : capabilities) : value :=
  VObj (map (fun ra => (fst ra, VObj (map (fun av => (fst av, VArr (snd av))) (snd ra)))) m).

(* ---------------------------------------------------------------- lifetimes *)

(** Instants are integers: before the epoch and beyond 64 bits included. *)
Definition live_at (p : payload) (t : Z) : Prop :=
  (forall b, p_nbf p = Some b -> (Z.of_N b <= t)%Z) /\
  (forall e, p_exp p = Some e -> (t <= Z.of_N e)%Z).

(** The time the expiry is compared with: the caller's, else the machine clock. *)
Definition expiry_time (E : env) (now_time : option N) (st : vstate) : N :=
  match now_time with Some t => t | None => e_clock E (v_ticks st) end.

(** The time the not-before is compared with: the machine clock at the first
    reading not used for the expiry. *)
Definition start_time (E : env) (p : payload) (now_time : option N) (st : vstate) : N :=
  match p_exp p, now_time with
  | Some _, None => e_clock E (S (v_ticks st))
  | _, _ => e_clock E (v_ticks st)
  end.

Definition unexpired (p : payload) (t : N) : Prop := forall e, p_exp p = Some e -> (t <= e)%N.
Definition started (p : payload) (t : N) : Prop := forall b, p_nbf p = Some b -> (b <= t)%N.

(** The issuer's DID resolves to a key that verifies the signature over the signed bytes. *)
Definition signed_by_issuer (parser : did_parser) (u : ucan) : Prop :=
  exists k, fst (did_parse parser (p_iss (u_payload u))) = Ok k /\
            key_verify k (u_signed_data u) (u_signature u) = Ok tt.

(* --------------------------------------------------------------------- CIDs *)

(** A 64-bit machine word. *)
Definition word (n : N) : Prop := (n <= 18446744073709551615)%N.

(** A version-1 CID whose parts fit the wire format. *)
Definition cid_v1 (c : cid) : Prop :=
  cid_version c = 1%N /\ word (cid_codec c) /\ word (cid_hash_code c) /\ (length (cid_digest c) <= 64)%nat.

(* --------------------------------------------------------------------- DIDs *)

(** A parser with the given constructors after it was asked to parse [dids]. *)
Definition parser_after (slice : list (bytes * ctor)) (dids : list bytes) : did_parser :=
  fold_left (fun p d => snd (did_parse p d)) dids (did_parser_new slice).

(** [c] is the last constructor the slice registers for the magic bytes [m]. *)
Definition registered (slice : list (bytes * ctor)) (m : bytes) (c : ctor) : Prop :=
  exists before after, slice = before ++ (m, c) :: after /\ ~ In m (map fst after).

(** The did:key text of a byte string. *)
Definition did_key_text (bs : bytes) : bytes := B "did:key:z" ++ b58_encode bs.

(** [supported_key m b k]: [k] is key material (with or without private key) of
    the type whose multicodec prefix is [m], and [b] is its encoded public key. *)
Inductive supported_key : bytes -> bytes -> key -> Prop :=
| SK_ed25519 {Pub Priv} (C : crypto Pub Priv) pk sk b : cr_encode C pk = Some b ->
    supported_key [xed; x01] b (ed25519_key C pk sk)
| SK_p256 {Pub Priv} (C : crypto Pub Priv) pk sk b : cr_encode C pk = Some b ->
    supported_key [x80; x24] b (p256_key C pk sk)
| SK_rsa {Pub Priv} (C : crypto Pub Priv) sha256 pk sk b : cr_encode C pk = Some b ->
    supported_key [x85; x24] b (rsa_key C sha256 pk sk).

(** Key material without a private key. *)
Inductive public_only : key -> Prop :=
| PO_ed25519 {Pub Priv} (C : crypto Pub Priv) pk : public_only (ed25519_key C pk None)
| PO_p256 {Pub Priv} (C : crypto Pub Priv) pk : public_only (p256_key C pk None)
| PO_rsa {Pub Priv} (C : crypto Pub Priv) sha256 pk : public_only (rsa_key C sha256 pk None).

(** The constructors the key-support crate offers, with their magic bytes. *)
Inductive standard_ctor : bytes -> ctor -> Prop :=
| SC_ed25519 {Pub Priv} (C : crypto Pub Priv) : standard_ctor ed25519_magic (bytes_to_ed25519_key C)
| SC_p256 {Pub Priv} (C : crypto Pub Priv) : standard_ctor p256_magic (bytes_to_p256_key C)
| SC_rsa {Pub Priv} (C : crypto Pub Priv) sha256 : standard_ctor rsa_magic (bytes_to_rsa_key C sha256).

(* ------------------------------------------------------------------- builders *)

(** A fact or a claim given to the builder; two are independent unless they
    have the same fact key or the same resource and ability. *)
Inductive addition : Type := AddFact (k : bytes) (v : value) | AddClaim (c : capability).
Definition addition_op (a : addition) : builder_op :=
  match a with AddFact k v => WithFact k (Some v) | AddClaim c => ClaimingCapability c end.
Definition independent (a b : addition) : Prop :=
  match a, b with
  | AddFact k _, AddFact k' _ => k <> k'
  | AddClaim c, AddClaim d => cap_resource c <> cap_resource d \/ cap_ability c <> cap_ability d
  | _, _ => True
  end.

(* ------------------------------------------------------------- proof chains *)

(** [outer]'s window lies within [inner]'s: a bound of [inner] is matched by a
    bound of [outer] at least as strict. *)
Definition lifetime_within (outer inner : payload) : Prop :=
  (forall b, p_nbf inner = Some b -> exists b', p_nbf outer = Some b' /\ (b <= b')%N) /\
  (forall e, p_exp inner = Some e -> exists e', p_exp outer = Some e' /\ (e' <= e)%N).

(** The CID texts a UCAN lists as proofs. *)
Definition cited (u : ucan) : list bytes :=
  match p_prf (u_payload u) with Some l => l | None => [] end.

(** The capability is one the UCAN's capability map lists. *)
Definition claims (u : ucan) (c : capability) : Prop :=
  exists abs cs, In (cap_resource c, abs) (p_cap (u_payload u)) /\
                 In (cap_ability c, cs) abs /\ In (cap_caveat c) cs.

(** The capability is [prf:<i>] with ability [ucan/DELEGATE]. *)
Definition names_proof (X : ext) (c : capability) (i : N) : Prop :=
  cap_ability c = B "ucan/DELEGATE" /\
  exists uri, parse_url X (cap_resource c) = Some uri /\ url_scheme uri = B "prf" /\
              parse_usize (url_path uri) = Some i.

(** The set of proofs a UCAN redelegates, all of which must exist. *)
Definition redelegates (X : ext) (u : ucan) (nproofs : nat) (red : list N) : Prop :=
  StronglySorted N.lt red /\
  (forall i, In i red <-> exists c, claims u c /\ names_proof X c i) /\
  (forall i, In i red -> (i < N.of_nat nproofs)%N).

(** The store returned, at a read in [R], a token for the cited CID, and it parses to [pu]. *)
Definition resolves (E : env) (R : nat -> Prop) (text : bytes) (pu : ucan) : Prop :=
  exists c n token, parse_cid (e_ext E) text = Some c /\ cid_codec c = 85%N /\ R n /\
    e_read E n c = Ok (Some (IBytes token)) /\ utf8_valid token = true /\
    parse_token (e_ext E) token = Ok pu.

(** The audience of the proof is the issuer of the UCAN citing it, and the
    proof's lifetime includes that UCAN's. *)
Definition linked (u pu : ucan) : Prop :=
  p_aud (u_payload pu) = p_iss (u_payload u) /\ lifetime_within (u_payload u) (u_payload pu).

(** Unexpired at the supplied time (or at a clock reading in [T]), started at a
    clock reading in [T], and signed by the issuer. *)
Definition valid_now (E : env) (now_time : option N) (slice : list (bytes * ctor)) (T : nat -> Prop) (u : ucan) : Prop :=
  (forall e, p_exp (u_payload u) = Some e ->
     match now_time with Some t => (t <= e)%N | None => exists n, T n /\ (e_clock E n <= e)%N end) /\
  (forall b, p_nbf (u_payload u) = Some b -> exists n, T n /\ (b <= e_clock E n)%N) /\
  signed_by_issuer (did_parser_new slice) u.

(** A chain every link of which is valid, judged by the clock readings in [T]
    and the store reads in [R]. *)
Inductive valid_chain (E : env) (now_time : option N) (slice : list (bytes * ctor)) (T R : nat -> Prop) : chain -> Prop :=
| VC u proofs red :
    valid_now E now_time slice T u ->
    Forall2 (fun text pc => resolves E R text (c_ucan pc)) (cited u) proofs ->
    (forall pc, In pc proofs -> linked u (c_ucan pc)) ->
    redelegates (e_ext E) u (length proofs) red ->
    (forall pc, In pc proofs -> valid_chain E now_time slice T R pc) ->
    valid_chain E now_time slice T R (Chain u proofs red).

(** The chains (sub-trees) and UCANs inside a chain. *)
Inductive sub_chain : chain -> chain -> Prop :=
| Sub_self c : sub_chain c c
| Sub_proof c pc d : In pc (c_proofs d) -> sub_chain c pc -> sub_chain c d.
Definition in_chain (u : ucan) (c : chain) : Prop := exists d, sub_chain d c /\ c_ucan d = u.

(** Clock and store do not change. *)
Definition steady (E : env) : Prop :=
  (forall n m, e_clock E n = e_clock E m) /\ (forall n m c, e_read E n c = e_read E m c).

(** The readings made between two states. *)
Definition ticks_between (a b : vstate) (n : nat) : Prop := (v_ticks a <= n < v_ticks b)%nat.
Definition reads_between (a b : vstate) (n : nat) : Prop := (v_reads a <= n < v_reads b)%nat.

(** A state whose parser has the given constructors and any history. *)
Definition with_parser (slice : list (bytes * ctor)) (st : vstate) : Prop :=
  exists dids, v_parser st = parser_after slice dids.

(** Some read of the store, by a CID that [u] cites, gives a token of [v]. *)
Definition cites (E : env) (v u : ucan) : Prop :=
  exists text, In text (cited u) /\ resolves E (fun _ => True) text v.

(** The parts the chain builder calls (store, key constructors, keys) return. *)
Definition responsive (E : env) (slice : list (bytes * ctor)) : Prop :=
  (forall n c, e_read E n c <> Diverged) /\
  (forall m c bs, In (m, c) slice -> c bs <> Diverged) /\
  (forall m c bs k d s, In (m, c) slice -> c bs = Ok k -> key_verify k d s <> Diverged).

(** The store is a [MemoryStore] (shared with any number of writers): each read
    sees some state reached from the empty store. *)
Definition memory_backed (E : env) : Prop :=
  forall n, exists ops, forall c, e_read E n c = mem_read (snd (store_run (e_ext E) [] ops)) c.

(** The chain building calls made earlier with the same parser. *)
Definition after_runs (E : env) (runs : list (option N * nat * ucan)) (st : vstate) : vstate :=
  fold_left (fun s r => snd (from_ucan E (fst (fst r)) (snd (fst r)) (snd r) s)) runs st.

(* -------------------------------------------------------------------- stores *)

(** The blocks a sequence of store operations writes. *)
Definition written (ops : list store_op) (b : bytes) : Prop := In (SWrite (IBytes b)) ops.

(** No two of them collide under the default hash function. *)
Definition collision_free (X : ext) (ops : list store_op) : Prop :=
  forall b b', written ops b -> written ops b' -> x_hash X 30 b = x_hash X 30 b' -> b = b'.

(** The [i]-th operation and its outcome. *)
Definition op_at (X : ext) (ops : list store_op) (i : nat) (o : store_op) (r : store_out) : Prop :=
  nth_error ops i = Some o /\ nth_error (fst (store_run X [] ops)) i = Some r.

(* ----------------------------------------------------------------- reduction *)

(** Every redelegation in the chain names an existing proof. *)
Definition redelegations_exist (c : chain) : Prop :=
  forall d i, sub_chain d c -> In i (c_redelegations d) -> (i < N.of_nat (length (c_proofs d)))%N.

(** [pc] is a proof of the chain that its root redelegates / does not redelegate. *)
Definition redelegated (c pc : chain) : Prop :=
  exists i, In (N.of_nat i) (c_redelegations c) /\ nth_error (c_proofs c) i = Some pc.
Definition attenuated (c pc : chain) : Prop :=
  exists i, ~ In (N.of_nat i) (c_redelegations c) /\ nth_error (c_proofs c) i = Some pc.

(** The claims of a UCAN the report takes into account: those before the first
    one (in map order) that the semantics does not understand. *)
Definition heeded {S A} (parse : capability -> option (view S A)) (u : ucan) (v : view S A) : Prop :=
  exists before c after, caps_iter (p_cap (u_payload u)) = before ++ c :: after /\
    parse c = Some v /\ forall c', In c' before -> parse c' <> None.

(** [v] enables [w] or is [w]. *)
Definition enables_or_is {S A} (SO : scope_ops S) (AO : ability_ops A) (v w : view S A) : Prop :=
  v = w \/ view_enables SO AO v w = true.
(** [v] is claimed and understood somewhere in the chain. *)
Definition understood {S A} (parse : capability -> option (view S A)) (c : chain) (v : view S A) : Prop :=
  exists u, in_chain u c /\ heeded parse u v.
Definition transitive_on {S A} (SO : scope_ops S) (AO : ability_ops A) (V : view S A -> Prop) : Prop :=
  forall v w z, V v -> V w -> V z ->
    view_enables SO AO v w = true -> view_enables SO AO w z = true -> view_enables SO AO v z = true.
Definition enabling_transitive {S A} (SO : scope_ops S) (AO : ability_ops A) parse (c : chain) : Prop :=
  transitive_on SO AO (understood parse c).

(** The capability is one of the heeded claims of the root, or of a proof the root redelegates. *)
Inductive passed_on {S A} (parse : capability -> option (view S A)) : chain -> view S A -> Prop :=
| PO_own c v : heeded parse (c_ucan c) v -> passed_on parse c v
| PO_redelegated c pc v : redelegated c pc -> passed_on parse pc v -> passed_on parse c v.

(** Who a claim [v] of the root is attributed to before merging: the originators
    of the attenuated proofs' capabilities enabling it; failing these, the issuer. *)
Definition enabling_entry {S A} (SO : scope_ops S) (AO : ability_ops A) parse (c : chain) (v : view S A) (i : info S A) : Prop :=
  exists pc r, attenuated c pc /\ reduce SO AO parse pc = Ok r /\ In i r /\ view_enables SO AO (i_capability i) v = true.
Definition credited {S A} (SO : scope_ops S) (AO : ability_ops A) parse (c : chain) (v : view S A) (o : bytes) : Prop :=
  (exists i, enabling_entry SO AO parse c v i /\ In o (i_originators i)) \/
  (o = p_iss (u_payload (c_ucan c)) /\ ~ exists i, enabling_entry SO AO parse c v i).

(** An entry reported for a proof that the root redelegates. *)
Definition redelegated_entry {S A} (SO : scope_ops S) (AO : ability_ops A) parse (c : chain) (z : info S A) : Prop :=
  exists pc r, redelegated c pc /\ reduce SO AO parse pc = Ok r /\ In z r.

(** Some UCAN in the chain, issued by [o], claims a capability that enables [v] or is [v]. *)
Definition claimed_by {S A} (SO : scope_ops S) (AO : ability_ops A) parse (c : chain) (o : bytes) (v : view S A) : Prop :=
  exists u w, in_chain u c /\ p_iss (u_payload u) = o /\ heeded parse u w /\ enables_or_is SO AO w v.

(** Among the claims understood in the chain, enabling is mutual. *)
Definition mutual_enabling {S A} (SO : scope_ops S) (AO : ability_ops A) (parse : capability -> option (view S A)) (c : chain) : Prop :=
  forall u1 u2 v w, in_chain u1 c -> in_chain u2 c -> heeded parse u1 v -> heeded parse u2 w ->
    view_enables SO AO v w = true -> view_enables SO AO w v = true.
