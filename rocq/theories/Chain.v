(** ucan/src/chain.rs *)
From Verif Require Import Prelude Ord SMap Value Cid Ext Json Capability Semantics Key Ucan Store.

(** [ProofChain], chain.rs:41-46 *)
Inductive chain : Type :=
| Chain (u : ucan) (proofs : list chain) (redelegations : list N).

Definition c_ucan (c : chain) : ucan := let 'Chain u _ _ := c in u.
Definition c_proofs (c : chain) : list chain := let 'Chain _ p _ := c in p.
Definition c_redelegations (c : chain) : list N := let 'Chain _ _ r := c in r.

(** [validate_link_to], chain.rs:148-163; [self] is the proof's UCAN. *)
Definition validate_link_to (self u : ucan) : res unit :=
  if bytes_eqb (p_aud (u_payload self)) (p_iss (u_payload u)) then
    if lifetime_encompasses self u then Ok tt else Err ELinkLifetime
  else Err ELinkAudience.

(** 0 .. n-1 *)
Definition indices (n : nat) : list N := map N.of_nat (seq 0 n).

(** The loop of chain.rs:78-105 over the capabilities, [n] the number of proofs. *)
Fixpoint redelegations_from (X : ext) (n : nat) (acc : list N) (l : list capability) : res (list N) :=
  match l with
  | [] => Ok acc
  | c :: l' =>
      match parse_proof_cap X c with
      | None => redelegations_from X n acc l'
      | Some v =>
          match v_resource v with
          | RPlain (Scoped All) => redelegations_from X n (sextend acc (indices n)) l'
          | RPlain (Scoped (Index i)) =>
              if (i <? N.of_nat n)%N then redelegations_from X n (sinsert i acc) l'
              else Err ENoProofAtIndex
          | _ => redelegations_from X n acc l'
          end
      end
  end.

(** Sequencing over a list, stopping at the first failure. *)
Fixpoint mmap {A C} (f : A -> M C) (l : list A) : M (list C) :=
  match l with
  | [] => ret []
  | a :: l' => let! c := f a in let! cs := mmap f l' in ret (c :: cs)
  end.

(** The body of the proof loop, chain.rs:66-73; [rec] builds the chain of a UCAN. *)
Definition build_proof (E : env) (rec : ucan -> M chain) (u : ucan) (cid_string : bytes) : M chain :=
  let! c := lift (ok_or (parse_cid (e_ext E) cid_string) ECid) in
  let! token := require_token E c in
  let! pu := lift (parse_token (e_ext E) token) in      (* try_from_token_string, chain.rs:135-146 *)
  let! pc := rec pu in
  let! _ := lift (validate_link_to (c_ucan pc) u) in
  ret pc.

(** [from_ucan], chain.rs:52-112.  The recursion is on explicit fuel; running out
    of fuel is the outcome [Diverged]. *)
Fixpoint from_ucan (E : env) (now_time : option N) (fuel : nat) (u : ucan) : M chain :=
  match fuel with
  | O => lift Diverged
  | S f =>
      let! _ := validate E u now_time in
      let! proofs := match p_prf (u_payload u) with
                     | Some l => mmap (build_proof E (from_ucan E now_time f) u) l
                     | None => ret []
                     end in
      let! red := lift (redelegations_from (e_ext E) (length proofs) [] (caps_iter (p_cap (u_payload u)))) in
      ret (Chain u proofs red)
  end.

(** [try_from_token_string], chain.rs:135-146 *)
Definition from_token (E : env) (now_time : option N) (fuel : nat) (token : bytes) : M chain :=
  let! u := lift (parse_token (e_ext E) token) in from_ucan E now_time fuel u.

(** [from_cid], chain.rs:116-132 *)
Definition from_cid (E : env) (now_time : option N) (fuel : nat) (c : cid) : M chain :=
  let! token := require_token E c in from_token E now_time fuel token.

(* ------------------------------------------------------- reduce_capabilities *)

(** [CapabilityInfo], chain.rs:17-23 *)
Record info (S A : Type) := mkInfo {
  i_originators : list bytes;          (* BTreeSet<String> *)
  i_not_before : option N;
  i_expires_at : option N;
  i_capability : view S A
}.
Arguments mkInfo {S A}.
Arguments i_originators {S A}.
Arguments i_not_before {S A}.
Arguments i_expires_at {S A}.
Arguments i_capability {S A}.

(** [Iterator::map_while] *)
Fixpoint map_while {A C} (f : A -> option C) (l : list A) : list C :=
  match l with
  | [] => []
  | a :: l' => match f a with Some c => c :: map_while f l' | None => [] end
  end.

(** [Vec::pop] *)
Fixpoint pop {A} (l : list A) : option (list A * A) :=
  match l with
  | [] => None
  | a :: l' => match pop l' with
               | None => Some ([], a)
               | Some (l'', x) => Some (a :: l'', x)
               end
  end.

Section Reduce.
  Context {S A : Type} (SO : scope_ops S) (AO : ability_ops A).
  (** The semantics' [parse_capability] (a method a semantics may override). *)
  Variable parse : capability -> option (view S A).

  (** The inner for loop of the merge, chain.rs:272-282: the first remaining
      entry that enables [x] absorbs its originators. *)
  Fixpoint absorb (x : info S A) (l : list (info S A)) : option (list (info S A)) :=
    match l with
    | [] => None
    | r :: l' =>
        if view_enables SO AO (i_capability r) (i_capability x)
        then Some (mkInfo (sextend (i_originators r) (i_originators x))
                          (i_not_before r) (i_expires_at r) (i_capability r) :: l')
        else let?? l'' := absorb x l' in Some (r :: l'')
    end.

  (** The merge loop, chain.rs:271-285.  Each round removes one entry of [work],
      so [fuel = length work] suffices. *)
  Fixpoint merge_loop (fuel : nat) (work merged : list (info S A)) : list (info S A) :=
    match fuel with
    | O => merged
    | Datatypes.S f =>
        match pop work with
        | None => merged
        | Some (rest, x) =>
            match absorb x rest with
            | Some rest' => merge_loop f rest' merged
            | None => merge_loop f rest (merged ++ [x])
            end
        end
    end.

  Definition merge (work : list (info S A)) : list (info S A) := merge_loop (length work) work [].

  (** The originators of a claim, chain.rs:237-253. *)
  Definition originators_of (issuer : bytes) (ancestral : list (info S A)) (v : view S A) : list bytes :=
    let os := fold_left (fun acc i => if view_enables SO AO (i_capability i) v
                                      then sextend acc (i_originators i) else acc) ancestral [] in
    match os with [] => sinsert issuer [] | _ => os end.

  (** chain.rs:226-263.  With no proofs [ancestral] is empty and both match arms agree;
      the arms are kept apart as in the code. *)
  Definition self_infos (u : ucan) (nproofs : nat) (ancestral : list (info S A)) : list (info S A) :=
    let nbf := p_nbf (u_payload u) in
    let exp := p_exp (u_payload u) in
    let caps := map_while parse (caps_iter (p_cap (u_payload u))) in
    match nproofs with
    | O => map (fun v => mkInfo (sinsert (p_iss (u_payload u)) []) nbf exp v) caps
    | _ => map (fun v => mkInfo (originators_of (p_iss (u_payload u)) ancestral v) nbf exp v) caps
    end.

  (** chain.rs:208-214 *)
  Definition relabel (u : ucan) (i : info S A) : info S A :=
    mkInfo (i_originators i) (p_nbf (u_payload u)) (p_exp (u_payload u)) (i_capability i).

  (** All-or-nothing concatenation. *)
  Fixpoint rconcat {C} (l : list (res (list C))) : res (list C) :=
    match l with
    | [] => Ok []
    | r :: l' => let? x := r in let? y := rconcat l' in Ok (x ++ y)
    end.

  (** [self.proofs.get(i).unwrap()] *)
  Definition get_unwrap {C} (l : list (res C)) (i : N) : res C :=
    match nth_error l (N.to_nat i) with Some r => r | None => Panic PReduceUnwrap end.

  (** chain.rs:184-195: [rs] are the reductions of the proofs. *)
  Definition ancestral_infos (red : list N) (rs : list (res (list (info S A)))) : res (list (info S A)) :=
    rconcat (map (fun ir => if smem (fst ir) red then Ok [] else snd ir) (combine (indices (length rs)) rs)).

  (** chain.rs:199-216 *)
  Definition redelegated_infos (u : ucan) (red : list N) (rs : list (res (list (info S A)))) : res (list (info S A)) :=
    rconcat (map (fun i => let? l := get_unwrap rs i in Ok (map (relabel u) l)) red).

  (** [reduce_capabilities], chain.rs:173-288 *)
  Fixpoint reduce (c : chain) : res (list (info S A)) :=
    let 'Chain u proofs red := c in
    let rs := map reduce proofs in
    let? ancestral := ancestral_infos red rs in
    let? redelegated := redelegated_infos u red rs in
    Ok (merge (self_infos u (length proofs) ancestral ++ redelegated)).
End Reduce.
