(** Tokens and stores under the concrete hashes. *)
From Verif Require Import Prelude Value Cid Ext Json Capability Key Ucan Builder Store Chain Sha256 Blake3 Multihash Samples.

Definition hash_ext : ext := with_hashes sample_ext.
Definition make_hashed (ops : list builder_op) : ucan :=
  match build hash_ext 0 (builder_run hash_ext ops) with
  | Ok s => match sign hash_ext [] s with Ok u => u | _ => no_ucan end
  | _ => no_ucan
  end.
(** bob redelegates [root_ucan], cited by its BLAKE3 digest. *)
Definition hashed_ucan : ucan := Eval vm_compute in make_hashed
  [IssuedBy (toy bob); ForAudience (did_of mallory); NotBefore 20; WithExpiration 90; WitnessedBy root_ucan None].
Definition hashed_text : bytes := Eval vm_compute in encode hash_ext root_ucan.
Definition hashed_digest : bytes := Eval vm_compute in blake3 hashed_text.

(** Two stores: one holds the proof only, the other writes something else before and after it. *)
Definition hashed_ops : list store_op := [SWrite (IBytes hashed_text)].
Definition hashed_ops' : list store_op := [SWrite (IBytes (B "x")); SWrite (IBytes hashed_text); SWrite (IBytes (B "y"))].
Definition hashed_store : mstore := Eval vm_compute in snd (store_run hash_ext [] hashed_ops).
Definition hashed_store' : mstore := Eval vm_compute in snd (store_run hash_ext [] hashed_ops').
Definition hashed_env : env := mkEnv hash_ext (fun _ => 50%N) (fun _ c => mem_read hashed_store c).
Definition hashed_env' : env := mkEnv hash_ext (fun _ => 50%N) (fun _ c => mem_read hashed_store' c).
Definition hashed_chain : chain := Chain hashed_ucan [Chain root_ucan [] []] [].
