(** ucan/src/tests/fixtures/capabilities/{email,wnfs}.rs and ucan/src/tests/fixtures/store.rs:
    the example semantics and the example store that come with the repository. *)
From Verif Require Import Prelude Base58 Value Url Cid Ext Json Semantics Ucan Store.

(* ----------------------------------------------------------------------- email.rs *)

(** [EmailAddress(String)] and its impls, email.rs:5-35 *)
Definition email_scope : scope_ops bytes := {|
  sc_contains self other := bytes_eqb self other;
  sc_to_string s := B "mailto:" ++ s;
  sc_of_url u := if bytes_eqb (url_scheme u) (B "mailto") then Some (url_path u) else None
|}.

(** [EmailAction], email.rs:37-60 *)
Inductive email_action : Set := Send.
Definition email_ability : ability_ops email_action := {|
  ab_cmp _ _ := Eq;
  ab_to_string _ := B "email/send";
  ab_of_string s := if bytes_eqb s (B "email/send") then Some Send else None
|}.

(* ------------------------------------------------------------------------ wnfs.rs *)

(** [WNFSCapLevel], wnfs.rs:5-12, ordered as listed (derived [Ord]) *)
Inductive wnfs_level : Set := WCreate | WRevise | WSoftDelete | WOverwrite | WSuperUser.
Definition wnfs_rank (l : wnfs_level) : N :=
  match l with WCreate => 0 | WRevise => 1 | WSoftDelete => 2 | WOverwrite => 3 | WSuperUser => 4 end.

(** wnfs.rs:14-43 *)
Definition wnfs_ability : ability_ops wnfs_level := {|
  ab_cmp a b := N.compare (wnfs_rank a) (wnfs_rank b);
  ab_to_string l := match l with
                    | WCreate => B "wnfs/create" | WRevise => B "wnfs/revise"
                    | WSoftDelete => B "wnfs/soft_delete" | WOverwrite => B "wnfs/overwrite"
                    | WSuperUser => B "wnfs/super_user"
                    end;
  ab_of_string s := if bytes_eqb s (B "wnfs/create") then Some WCreate
                    else if bytes_eqb s (B "wnfs/revise") then Some WRevise
                    else if bytes_eqb s (B "wnfs/soft_delete") then Some WSoftDelete
                    else if bytes_eqb s (B "wnfs/overwrite") then Some WOverwrite
                    else if bytes_eqb s (B "wnfs/super_user") then Some WSuperUser
                    else None
|}.

(** [WNFSScope], wnfs.rs:45-49 *)
Record wnfs := mkWnfs { w_origin : bytes; w_path : bytes }.

(** The loop over the parts of the path, wnfs.rs:60-69 *)
Fixpoint parts_contain (self other : list bytes) : bool :=
  match self with
  | [] => true
  | part :: self' =>
      match other with
      | other_part :: other' => if negb (bytes_eqb part other_part) then false else parts_contain self' other'
      | [] => false
      end
  end.

(** wnfs.rs:51-92 *)
Definition wnfs_scope : scope_ops wnfs := {|
  sc_contains self other :=
    if negb (bytes_eqb (w_origin self) (w_origin other)) then false
    else parts_contain (split_on x2f (w_path self)) (split_on x2f (w_path other));
  sc_to_string s := B "wnfs://" ++ w_origin s ++ w_path s;
  sc_of_url u :=
    match url_host u with
    | Some host => if bytes_eqb (url_scheme u) (B "wnfs") then Some (mkWnfs host (url_path u)) else None
    | None => None
    end
|}.

(* ----------------------------------------------------------------------- store.rs *)

(** multihash code of Blake2b-256 *)
Definition blake2b_256 : N := 45600.   (* 0xb220 *)

(** [Blake2bMemoryStore::write] on a token, fixtures/store.rs:35-47; reading is as for [MemoryStore]. *)
Definition blake2b_write_token (X : ext) (s : mstore) (token : bytes) : res cid * mstore :=
  match raw_encode (IBytes token) with
  | Ok block => let c := cid_new_v1 raw_codec blake2b_256 (x_hash X blake2b_256 block) in (Ok c, hinsert c block s)
  | Err e => (Err e, s)
  | Panic p => (Panic p, s)
  | Diverged => (Diverged, s)
  end.
