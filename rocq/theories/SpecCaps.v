(** What is wrong with the JSON of capabilities (C120), and the texts of the example semantics (C121). *)
From Verif Require Import Prelude Ord SMap Value Capability Semantics Url Fixtures Spec.

Definition good_caveats (y : value) : Prop := exists l, y = VArr l /\ Forall object_caveat l.
Definition good_resource (x : value) : Prop := exists o, x = VObj o /\ Forall (fun kv => good_caveats (snd kv)) o.

(** The first thing wrong, in the order of the keys; only when all resources are
    well formed is one without abilities noticed. *)
Inductive caps_fault : value -> error -> Prop :=
| CF_capabilities v : (forall m, v <> VObj m) -> caps_fault v ECapsNotObject
| CF_abilities before r x after : Forall (fun kv => good_resource (snd kv)) before -> (forall o, x <> VObj o) ->
    caps_fault (VObj (before ++ (r, x) :: after)) EAbilitiesNotObject
| CF_caveats before r b a y c after : Forall (fun kv => good_resource (snd kv)) before -> Forall (fun kv => good_caveats (snd kv)) b ->
    (forall l, y <> VArr l) -> caps_fault (VObj (before ++ (r, VObj (b ++ (a, y) :: c)) :: after)) ECaveatsNotArray
| CF_caveat before r b a l x c after : Forall (fun kv => good_resource (snd kv)) before -> Forall (fun kv => good_caveats (snd kv)) b ->
    In x l -> ~ object_caveat x -> caps_fault (VObj (before ++ (r, VObj (b ++ (a, VArr l) :: c)) :: after)) ECaveatNotObject
| CF_none m r : Forall (fun kv => good_resource (snd kv)) m -> In (r, VObj []) m -> caps_fault (VObj m) ENoAbilities.

(** The names of the WNFS abilities. *)
Definition wnfs_table : list (bytes * wnfs_level) :=
  [(B "wnfs/create", WCreate); (B "wnfs/revise", WRevise); (B "wnfs/soft_delete", WSoftDelete);
   (B "wnfs/overwrite", WOverwrite); (B "wnfs/super_user", WSuperUser)].
