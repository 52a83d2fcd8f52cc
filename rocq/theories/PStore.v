(** C40-C44: stores. *)
From Verif Require Import Prelude Value Utf8 Cid Ext Json Ucan Store Builder Chain Spec StoreFacts Samples.

(* ------------------------------------------------------------------- C40 *)

(** Reading, after any other operations, the CID a write returned. *)
Theorem C40_read_returns_what_was_written : forall X ops i j b c r, collision_free X ops -> (i < j)%nat ->
  op_at X ops i (SWrite (IBytes b)) (OWrite (Ok c)) -> op_at X ops j (SRead c) r ->
  r = ORead (Ok (Some (IBytes b))).
Proof. exact store_read_back. Qed.
Print Assumptions C40_read_returns_what_was_written.

Theorem C40_unwritten_reads_absent : forall X ops j c r,
  (forall i o, (i < j)%nat -> ~ op_at X ops i o (OWrite (Ok c))) -> op_at X ops j (SRead c) r ->
  r = ORead (Ok None).
Proof. exact store_read_absent. Qed.
Print Assumptions C40_unwritten_reads_absent.

(** Every write of bytes succeeds, with a CID determined by the bytes; nothing else can be written. *)
Theorem C40_write_succeeds : forall X ops i b r, op_at X ops i (SWrite (IBytes b)) r ->
  r = OWrite (Ok (cid_new_v1 85 30 (x_hash X 30 b))).
Proof. exact write_outcome. Qed.
Print Assumptions C40_write_succeeds.

Theorem C40_only_bytes_are_written : forall X ops i x r, (forall b, x <> IBytes b) -> op_at X ops i (SWrite x) r ->
  r = OWrite (Err EStore).
Proof. exact store_write_refused. Qed.
Print Assumptions C40_only_bytes_are_written.

(** Inserting a read anywhere changes neither the other outcomes nor the final store. *)
Theorem C40_reads_change_nothing : forall X before c after s,
  store_run X s (before ++ SRead c :: after) =
  (fst (store_run X s before) ++ ORead (mem_read (snd (store_run X s before)) c) :: fst (store_run X (snd (store_run X s before)) after),
   snd (store_run X s (before ++ after))) /\
  fst (store_run X s (before ++ after)) =
  fst (store_run X s before) ++ fst (store_run X (snd (store_run X s before)) after).
Proof. exact store_reads_neutral. Qed.
Print Assumptions C40_reads_change_nothing.

(** Two writers, a rewrite, a refused write; reads before and after. *)
Example C40_example :
  let c := block_cid sample_ext (B "one") in
  let ops := [SRead c; SWrite (IBytes (B "one")); SWrite (IBytes (B "two")); SWrite (IStr (B "x"));
              SWrite (IBytes (B "one")); SRead c; SRead (block_cid sample_ext (B "three"))] in
  fst (store_run sample_ext [] ops) =
  [ORead (Ok None); OWrite (Ok c); OWrite (Ok (block_cid sample_ext (B "two"))); OWrite (Err EStore);
   OWrite (Ok c); ORead (Ok (Some (IBytes (B "one")))); ORead (Ok None)] /\
  collision_free sample_ext ops.
Proof.
  split; [vm_compute; reflexivity|]. intros b b' Hb Hb' Hh. unfold written in *. simpl in Hb, Hb'.
  repeat (destruct Hb as [Hb | Hb]; [|]); try contradiction; try discriminate Hb; injection Hb as <-;
  repeat (destruct Hb' as [Hb' | Hb']; [|]); try contradiction; try discriminate Hb'; injection Hb' as <-;
  try reflexivity; vm_compute in Hh; discriminate.
Qed.

(* ------------------------------------------------------------------- C41 *)

Theorem C41_token_read_back : forall E X s token c st, e_ext E = X ->
  fst (mem_write_token X s token) = Ok c ->
  (forall n d, e_read E n d = mem_read (snd (mem_write_token X s token)) d) -> utf8_valid token = true ->
  fst (read_token E c st) = Ok (Some token) /\ fst (require_token E c st) = Ok token.
Proof. exact written_token_read. Qed.
Print Assumptions C41_token_read_back.

(** Also after any number of other operations. *)
Theorem C41_token_read_back_later : forall X E ops token st,
  collision_free X ops -> written ops token -> utf8_valid token = true ->
  (forall n d, e_read E n d = mem_read (snd (store_run X [] ops)) d) ->
  fst (read_token E (block_cid X token) st) = Ok (Some token).
Proof. exact stored_token_reads. Qed.
Print Assumptions C41_token_read_back_later.

(** The token of a UCAN is text, and is stored under the CID the UCAN computes for itself. *)
Theorem C41_token_is_text : forall X u, utf8_valid (encode X u) = true.
Proof. exact encode_utf8. Qed.
Print Assumptions C41_token_is_text.

Theorem C41_stored_under_own_cid : forall X s u, fst (mem_write_token X s (encode X u)) = Ok (to_cid X 30 u).
Proof. exact token_cid. Qed.
Print Assumptions C41_stored_under_own_cid.

(** Hence the text the builder cites resolves to the stored token. *)
Theorem C41_cited_proof_resolves : forall X E ops u pu, collision_free X ops -> e_ext E = X ->
  (forall n d, e_read E n d = mem_read (snd (store_run X [] ops)) d) ->
  written ops (encode X u) -> (length (x_hash X 30 (encode X u)) <= 64)%nat ->
  parse_token X (encode X u) = Ok pu ->
  resolves E (fun _ => True) (proof_text X u None) pu.
Proof. exact cited_proof_resolves. Qed.
Print Assumptions C41_cited_proof_resolves.

Example C41_example :
  fst (read_token (leaf_env 50) (to_cid sample_ext 30 mid_ucan) sample_state) = Ok (Some (encode sample_ext mid_ucan)) /\
  parse_token sample_ext (encode sample_ext mid_ucan) = Ok mid_ucan /\
  length (x_hash sample_ext 30 (encode sample_ext mid_ucan)) = 8%nat.
Proof. vm_compute. repeat split. Qed.

(* ------------------------------------------------------------------- C42 *)

(** False: an absent token is an error. *)
Theorem C42_absent_is_none_refuted : exists E c st,
  e_read E (v_reads st) c = Ok None /\ cid_codec c = 85%N /\ fst (read_token E c st) <> Ok None.
Proof.
  exists (sample_env 0 []), (block_cid sample_ext (B "one")), sample_state.
  split; [reflexivity|]. split; [reflexivity|]. vm_compute. discriminate.
Qed.
Print Assumptions C42_absent_is_none_refuted.

(** What holds: [Ok(None)] is never returned; absence is an error, and only of
    readable tokens is anything returned. *)
Theorem C42_absent_is_error_partial : forall E c st, cid_codec c = 85%N -> e_read E (v_reads st) c = Ok None ->
  fst (read_token E c st) = Err ENoUcanForCid.
Proof. exact read_token_absent. Qed.
Print Assumptions C42_absent_is_error_partial.

Theorem C42_never_none_partial : forall E c st, fst (read_token E c st) <> Ok None.
Proof. exact read_token_never_none. Qed.
Print Assumptions C42_never_none_partial.

Example C42_example :
  fst (read_token (leaf_env 50) (block_cid sample_ext (B "one")) sample_state) = Err ENoUcanForCid.
Proof. vm_compute. reflexivity. Qed.

(* ------------------------------------------------------------------- C43 *)

Theorem C43_other_codec_is_error : forall E c st, cid_codec c <> 85%N -> read_token E c st = (Err ECodec, st).
Proof. exact read_token_codec. Qed.
Print Assumptions C43_other_codec_is_error.

Theorem C43_read_iff_raw_text : forall E c st token, fst (read_token E c st) = Ok (Some token) <->
  cid_codec c = 85%N /\ e_read E (v_reads st) c = Ok (Some (IBytes token)) /\ utf8_valid token = true.
Proof. exact read_token_ok_iff. Qed.
Print Assumptions C43_read_iff_raw_text.

(** A store holding, whatever the CID, bytes that are not text. *)
Definition binary_env : env := mkEnv sample_ext (fun _ => 0%N) (fun _ _ => Ok (Some (IBytes [xc0; x80]))).
Example C43_example :
  fst (read_token binary_env (cid_new_v1 85 30 []) sample_state) = Err EUtf8 /\
  fst (read_token binary_env (cid_new_v1 113 30 []) sample_state) = Err ECodec.
Proof. split; reflexivity. Qed.

(* ------------------------------------------------------------------- C44 *)

Theorem C44_other_hash_rejected : forall E slice nt fuel u st text c d, memory_backed E -> with_parser slice st ->
  In text (cited u) -> parse_cid (e_ext E) text = Some c -> cid_hash_code c <> 30%N ->
  fst (from_ucan E nt fuel u st) <> Ok d.
Proof. exact other_hash_rejected. Qed.
Print Assumptions C44_other_hash_rejected.

(** The builder cites such CIDs when given another hasher. *)
Theorem C44_builder_cites_other_hash : forall X h a, word h -> (length (x_hash X h (encode X a)) <= 64)%nat ->
  exists c, parse_cid X (proof_text X a (Some h)) = Some c /\ cid_hash_code c = h.
Proof. exact builder_other_hash. Qed.
Print Assumptions C44_builder_cites_other_hash.

(** The delegation of the samples, with SHA2-256 for the citation. *)
Definition sha2_ucan : ucan := Eval vm_compute in make
  [IssuedBy (toy bob); ForAudience (did_of mallory); NotBefore 20; WithExpiration 90; WitnessedBy root_ucan (Some 18%N)].
Example C44_example :
  fst (from_ucan (leaf_env 50) None 5 mid_ucan sample_state) = Ok (Chain mid_ucan [Chain root_ucan [] []] []) /\
  fst (from_ucan (leaf_env 50) None 5 sha2_ucan sample_state) = Err ENoUcanForCid.
Proof. vm_compute. split; reflexivity. Qed.
