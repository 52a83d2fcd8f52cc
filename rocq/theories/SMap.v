(** std::collections::{BTreeMap, BTreeSet} as sorted association lists / lists.
    A map value is the list of its entries in iteration order.  [insert] keeps
    the list sorted and replaces the value of an existing key. *)
From Verif Require Import Prelude Ord.

Section SMap.
  Context {K : Type} `{Ord K} {V : Type}.

  Definition smap := list (K * V).

  (** BTreeMap::get *)
  Fixpoint mget (k : K) (m : list (K * V)) : option V :=
    match m with
    | [] => None
    | (k', v) :: m' => match cmp k k' with Eq => Some v | _ => mget k m' end
    end.

  (** BTreeMap::insert *)
  Fixpoint minsert (k : K) (v : V) (m : list (K * V)) : list (K * V) :=
    match m with
    | [] => [(k, v)]
    | (k', v') :: m' =>
        match cmp k k' with
        | Lt => (k, v) :: (k', v') :: m'
        | Eq => (k, v) :: m'
        | Gt => (k', v') :: minsert k v m'
        end
    end.

  (** Collecting an iterator of pairs into a BTreeMap: later keys win. *)
  Definition mof_list (l : list (K * V)) : list (K * V) :=
    fold_left (fun m kv => minsert (fst kv) (snd kv) m) l [].
End SMap.
Arguments smap K V : clear implicits.

Section SSet.
  Context {K : Type} `{Ord K}.

  (** BTreeSet::insert *)
  Fixpoint sinsert (k : K) (s : list K) : list K :=
    match s with
    | [] => [k]
    | k' :: s' =>
        match cmp k k' with
        | Lt => k :: k' :: s'
        | Eq => k' :: s'
        | Gt => k' :: sinsert k s'
        end
    end.

  (** BTreeSet::extend *)
  Definition sextend (s add : list K) : list K := fold_left (fun s k => sinsert k s) add s.

  (** BTreeSet::contains *)
  Definition smem (k : K) (s : list K) : bool :=
    existsb (fun k' => match cmp k k' with Eq => true | _ => false end) s.
End SSet.
