(** ucan/src/capability/data.rs *)
From Verif Require Import Prelude Ord SMap Value.

(** [Capability], data.rs:11-17 *)
Record capability := mkCap {
  cap_resource : bytes;
  cap_ability : bytes;
  cap_caveat : value
}.

(** [AbilitiesImpl], data.rs:55 *)
Definition abilities := smap bytes (list value).
(** [Capabilities(CapabilitiesImpl)], data.rs:56 and :86 *)
Definition capabilities := smap bytes abilities.

(** The inner closure of [iter], data.rs:120-133 *)
Definition ability_caps (resource : bytes) (ac : bytes * list value) : list capability :=
  match snd ac with
  | [] => []
  | caveats => map (fun c => mkCap resource (fst ac) c) caveats
  end.

(** [Capabilities::iter], data.rs:113-135 *)
Definition caps_iter (c : capabilities) : list capability :=
  flat_map (fun ra => flat_map (ability_caps (fst ra)) (snd ra)) c.

(** One iteration of the loop of [TryFrom<Vec<Capability>>], data.rs:149-169.
    [get_mut] followed by mutation is [minsert] of the mutated value; the empty
    map inserted for a new resource (data.rs:155-157) is dropped with the whole
    map when the caveat check fails. *)
Definition caps_add (resources : capabilities) (c : capability) : res capabilities :=
  let resource := match mget (cap_resource c) resources with Some r => r | None => [] end in
  if negb (is_object (cap_caveat c)) then Err ECaveatNotObject
  else
    let ability_vec := match mget (cap_ability c) resource with
                       | Some v => v ++ [cap_caveat c]
                       | None => [cap_caveat c]
                       end in
    Ok (minsert (cap_resource c) (minsert (cap_ability c) ability_vec resource) resources).

Fixpoint caps_add_all (resources : capabilities) (l : list capability) : res capabilities :=
  match l with
  | [] => Ok resources
  | c :: l' => let? r := caps_add resources c in caps_add_all r l'
  end.

(** [TryFrom<CapabilitiesImpl>], data.rs:174-187 *)
Definition caps_check (m : capabilities) : res capabilities :=
  if forallb (fun ra => match snd ra with [] => false | _ => true end) m
  then Ok m else Err ENoAbilities.

(** [TryFrom<Vec<Capability>>], data.rs:145-172 *)
Definition caps_of_list (l : list capability) : res capabilities :=
  let? m := caps_add_all [] l in caps_check m.

(** The caveat loop of [TryFrom<&Value>], data.rs:213-218 *)
Fixpoint caveats_of_array (l : list value) : res (list value) :=
  match l with
  | [] => Ok []
  | v :: l' => if negb (is_object v) then Err ECaveatNotObject
               else let? r := caveats_of_array l' in Ok (v :: r)
  end.

(** The abilities loop, data.rs:205-220 *)
Fixpoint abilities_of_object (acc : abilities) (m : list (bytes * value)) : res abilities :=
  match m with
  | [] => Ok acc
  | (k, v) :: m' =>
      match v with
      | VArr l => let? cs := caveats_of_array l in abilities_of_object (minsert k cs acc) m'
      | _ => Err ECaveatsNotArray
      end
  end.

(** The resources loop, data.rs:198-225 *)
Fixpoint resources_of_object (acc : capabilities) (m : list (bytes * value)) : res capabilities :=
  match m with
  | [] => Ok acc
  | (k, v) :: m' =>
      match v with
      | VObj o => let? a := abilities_of_object [] o in resources_of_object (minsert k a acc) m'
      | _ => Err EAbilitiesNotObject
      end
  end.

(** [TryFrom<&Value>], data.rs:189-229 *)
Definition caps_of_value (v : value) : res capabilities :=
  match v with
  | VObj m => let? r := resources_of_object [] m in caps_check r
  | _ => Err ECapsNotObject
  end.
