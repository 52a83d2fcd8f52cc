(** ucan/src/capability/caveats.rs *)
From Verif Require Import Prelude Ord SMap Value.

(** [Caveat(Map<String, Value>)], caveats.rs:6-7 *)
Definition caveat := smap bytes value.

(** [TryFrom<Value> for Caveat], caveats.rs:71-86 *)
Definition caveat_of_value (v : value) : res caveat :=
  match v with
  | VObj m => Ok m
  | _ => Err ECaveatNotObject
  end.

(** The loop of caveats.rs:44-54 over the entries of [self]. *)
Fixpoint caveat_covered (self other : caveat) : bool :=
  match self with
  | [] => true
  | (k, v) :: rest =>
      match mget k other with
      | Some v' => if negb (value_eqb v v') then false else caveat_covered rest other
      | None => false
      end
  end.

Definition is_nil {A} (l : list A) : bool := match l with [] => true | _ => false end.

(** [Caveat::enables], caveats.rs:31-55 *)
Definition caveat_enables (self other : caveat) : bool :=
  if is_nil self then true
  else if is_nil other then false
  else if obj_eqb self other then true
  else caveat_covered self other.
