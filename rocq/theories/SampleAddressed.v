(** A delegation cited by its BLAKE2b digest, in two of the test suite's stores. *)
From Verif Require Import Prelude Value Cid Ext Json Capability Key Ucan Builder Store Chain Fixtures AllHashes Samples SampleHash.

Definition all_ext : ext := with_all_hashes sample_ext.
Definition all_ucan : ucan := Eval vm_compute in
  match build all_ext 0 (builder_run all_ext
    [IssuedBy (toy bob); ForAudience (did_of mallory); NotBefore 20; WithExpiration 90; WitnessedBy root_ucan (Some blake2b_256)]) with
  | Ok s => match sign all_ext [] s with Ok u => u | _ => no_ucan end
  | _ => no_ucan
  end.
Definition filled (tokens : list bytes) : env :=
  mkEnv all_ext (fun _ => 50%N) (fun _ c => mem_read (fold_left (fun s t => snd (blake2b_write_token all_ext s t)) tokens []) c).
Definition one_token : list bytes := [hashed_text].
Definition three_tokens : list bytes := [B "x"; hashed_text; B "y"].
Definition all_chain : chain := Chain all_ucan [Chain root_ucan [] []] [].
