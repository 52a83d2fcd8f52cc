(** Specifications about the serialised IPLD data of UCANs. *)
From Coq Require Import Floats.SpecFloat.
From Verif Require Import Prelude Utf8 Value Cid Ext Json Capability Key Ucan Ipld Spec.

(** A byte string as a list of integers. *)
Definition int_list (b : bytes) : ipld := IList (map (fun c => IInt (Z.of_N (bN c))) b).

(** Every number in [v] is a double. *)
Inductive integer_free : value -> Prop :=
| IF_null : integer_free VNull
| IF_bool b : integer_free (VBool b)
| IF_float f : integer_free (VNum (Float f))
| IF_str s : integer_free (VStr s)
| IF_arr l : Forall integer_free l -> integer_free (VArr l)
| IF_obj m : Forall (fun kv => integer_free (snd kv)) m -> integer_free (VObj m).

(** The values Rust's [Capabilities] and [FactsMap] can have. *)
Definition caps_ok (c : capabilities) : Prop :=
  keys_increasing c /\
  Forall (fun ra => utf8_valid (fst ra) = true /\ keys_increasing (snd ra) /\
    Forall (fun av => utf8_valid (fst av) = true /\ Forall json_ok (snd av)) (snd ra)) c.

(** [v] is one of the caveats of the capabilities, or a fact. *)
Definition caveat_in (v : value) (c : capabilities) : Prop :=
  exists r abs a vs, In (r, abs) c /\ In (a, vs) abs /\ In v vs.
Definition fact_in (v : value) (f : option facts) : Prop := exists m k, f = Some m /\ In (k, v) m.

(** The values Rust's [UcanIpld] and [Ucan] can have (as far as it matters here). *)
Record ucan_ipld_ok (i : ucan_ipld) : Prop := mkUIOk {
  uo_cap : caps_ok (ui_cap i);
  uo_exp : opt_all (fun n => n <= 18446744073709551615)%N (ui_exp i);
  uo_fct : opt_all object_ok (ui_fct i);
  uo_nbf : opt_all (fun n => n <= 18446744073709551615)%N (ui_nbf i)
}.
Record payload_ok (p : payload) : Prop := mkPOk {
  po_cap : caps_ok (p_cap p);
  po_exp : opt_all (fun n => n <= 18446744073709551615)%N (p_exp p);
  po_fct : opt_all object_ok (p_fct p);
  po_nbf : opt_all (fun n => n <= 18446744073709551615)%N (p_nbf p)
}.

(** [d] is read as the JSON value [v]. *)
Inductive value_data (X : ext) : ipld -> value -> Prop :=
| VD_null : value_data X INull VNull
| VD_bool b : value_data X (IBool b) (VBool b)
| VD_pos n : x_value_i128 X = true -> (n <= 18446744073709551615)%N -> value_data X (IInt (Z.of_N n)) (VNum (PosInt n))
| VD_neg z : x_value_i128 X = true -> (-9223372036854775808 <= z < 0)%Z -> value_data X (IInt z) (VNum (NegInt z))
| VD_zero s : value_data X (IFloat (S754_zero s)) (VNum (Float (S754_zero s)))
| VD_float s m e : value_data X (IFloat (S754_finite s m e)) (VNum (Float (S754_finite s m e)))
| VD_infinity s : value_data X (IFloat (S754_infinity s)) VNull
| VD_nan : value_data X (IFloat S754_nan) VNull
| VD_str s : value_data X (IStr s) (VStr s)
| VD_list l vs : Forall2 (value_data X) l vs -> value_data X (IList l) (VArr vs)
| VD_map m vs : Forall2 (fun d v => fst d = fst v /\ value_data X (snd d) (snd v)) m vs -> value_data X (IMap m) (VObj vs).

Definition map_data {A} (R : ipld -> A -> Prop) (d : ipld) (l : list (bytes * A)) : Prop :=
  exists m, d = IMap m /\ Forall2 (fun x y => fst x = fst y /\ R (snd x) (snd y)) m l.
Definition list_data {A} (R : ipld -> A -> Prop) (d : ipld) (l : list A) : Prop :=
  exists ds, d = IList ds /\ Forall2 R ds l.
Definition caps_data (X : ext) : ipld -> capabilities -> Prop := map_data (map_data (list_data (value_data X))).
Definition u64_data (d : ipld) (n : N) : Prop := d = IInt (Z.of_N n) /\ (n <= 18446744073709551615)%N.

(** Field [k] of [m] is there and read as [a]; is absent or null, or read as what [o] holds. *)
Definition required {A} (m : list (bytes * ipld)) (k : bytes) (R : ipld -> A -> Prop) (a : A) : Prop :=
  exists d, In (k, d) m /\ R d a.
Definition optional {A} (m : list (bytes * ipld)) (k : bytes) (R : ipld -> A -> Prop) (o : option A) : Prop :=
  match o with
  | None => forall d, In (k, d) m -> d = INull
  | Some a => exists d, In (k, d) m /\ d <> INull /\ R d a
  end.

(** Data read as a UCAN. *)
Record ucan_ipld_data (X : ext) (m : list (bytes * ipld)) (i : ucan_ipld) : Prop := mkUID {
  ud_v : required m (B "v") (fun d s => d = IStr s) (ui_v i);
  ud_iss : required m (B "iss") (fun d b => d = int_list b) (ui_iss i);
  ud_aud : required m (B "aud") (fun d b => d = int_list b) (ui_aud i);
  ud_s : required m (B "s") (fun d b => d = int_list b) (ui_s i);
  ud_cap : required m (B "cap") (caps_data X) (ui_cap i);
  ud_prf : optional m (B "prf") (fun d l => d = IList (map ILink l)) (ui_prf i);
  ud_exp : optional m (B "exp") u64_data (ui_exp i);
  ud_fct : optional m (B "fct") (map_data (value_data X)) (ui_fct i);
  ud_nnc : optional m (B "nnc") (fun d s => d = IStr s) (ui_nnc i);
  ud_nbf : optional m (B "nbf") u64_data (ui_nbf i)
}.

(** Signature bytes whose decoding reads past their end; principals that cannot be printed. *)
Definition no_principal (p : bytes) : Prop := (length p < 2)%nat \/ exists r, p = [x9d; x1a] ++ r /\ utf8_valid r = false.
