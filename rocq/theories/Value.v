(** [serde_json::Value] (crate serde_json with its default BTreeMap-backed map),
    the type of caveats and facts. *)
From Coq Require Import Floats.SpecFloat.
From Verif Require Import Prelude Ord SMap.

(** IEEE doubles.  serde_json never holds NaN or infinities. *)
Definition f64 := spec_float.

(** [f64]'s [==]. *)
Definition f64_eqb (a b : f64) : bool := SFeqb a b.

(** serde_json's [Number]: u64, negative i64, or finite double. *)
Inductive number : Set :=
| PosInt (n : N)
| NegInt (z : Z)
| Float (f : f64).

(** [PartialEq] of [Number]: no comparison across representations. *)
Definition number_eqb (a b : number) : bool :=
  match a, b with
  | PosInt m, PosInt n => N.eqb m n
  | NegInt m, NegInt n => Z.eqb m n
  | Float f, Float g => f64_eqb f g
  | _, _ => false
  end.

(** Objects are sorted association lists (see SMap.v). *)
Inductive value : Set :=
| VNull
| VBool (b : bool)
| VNum (n : number)
| VStr (s : bytes)
| VArr (l : list value)
| VObj (m : list (bytes * value)).

(** [PartialEq] of [Value]. *)
Fixpoint value_eqb (a b : value) {struct a} : bool :=
  match a, b with
  | VNull, VNull => true
  | VBool x, VBool y => Bool.eqb x y
  | VNum m, VNum n => number_eqb m n
  | VStr s, VStr t => bytes_eqb s t
  | VArr l, VArr l' =>
      (fix arr l l' := match l, l' with
                       | [], [] => true
                       | x :: l, y :: l' => value_eqb x y && arr l l'
                       | _, _ => false
                       end) l l'
  | VObj m, VObj m' =>
      (fix obj m m' := match m, m' with
                       | [], [] => true
                       | (k, x) :: m, (k', y) :: m' => bytes_eqb k k' && value_eqb x y && obj m m'
                       | _, _ => false
                       end) m m'
  | _, _ => false
  end.

(** [PartialEq] of [Map<String, Value>]. *)
Fixpoint obj_eqb (m m' : list (bytes * value)) : bool :=
  match m, m' with
  | [], [] => true
  | (k, x) :: m, (k', y) :: m' => bytes_eqb k k' && value_eqb x y && obj_eqb m m'
  | _, _ => false
  end.

(** [Value::is_object] *)
Definition is_object (v : value) : bool := match v with VObj _ => true | _ => false end.
