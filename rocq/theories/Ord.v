(** Rust's [Ord] on the key types of the BTreeMaps/BTreeSets in the code:
    [String]/[&[u8]] (bytewise lexicographic) and [usize]. *)
From Verif Require Import Prelude.

Class Ord (K : Type) := cmp : K -> K -> comparison.

Fixpoint bytes_cmp (a b : bytes) : comparison :=
  match a, b with
  | [], [] => Eq
  | [], _ :: _ => Lt
  | _ :: _, [] => Gt
  | x :: a', y :: b' =>
      match N.compare (bN x) (bN y) with
      | Eq => bytes_cmp a' b'
      | c => c
      end
  end.

#[global] Instance Ord_bytes : Ord bytes := bytes_cmp.
#[global] Instance Ord_N : Ord N := N.compare.
