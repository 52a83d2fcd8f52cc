(** C155-C157: IPLD blocks of UCANs, and the texts of views. *)
From Verif Require Import Prelude Ord SMap Base58 Utf8 Value Cid Ext Capability Semantics Key Ucan Ipld Spec SpecWire SpecJson SpecIpld SpecEntry SpecBlock
  BlockFacts Samples.

(* ------------------------------------------------------------------- C155 *)

(** The block of a UCAN, exactly. *)
Theorem C155_block : forall X u i, word (N.of_nat (length (u_signature u))) -> (ucan_to_ipld X u = Ok i <-> block_of X u i).
Proof. exact block_iff. Qed.
Print Assumptions C155_block.

(** Which UCANs have none, and why. *)
Theorem C155_errors : forall X u e, ucan_to_ipld X u = Err e <-> block_fault X u e.
Proof. exact block_fault_iff. Qed.
Print Assumptions C155_errors.

(** Nothing else happens. *)
Theorem C155_total : forall X u, (exists i, ucan_to_ipld X u = Ok i) \/ exists e, ucan_to_ipld X u = Err e.
Proof. exact block_total. Qed.
Print Assumptions C155_total.

Definition citing (texts : list bytes) (aud alg : bytes) : ucan :=
  mkUcan (mkHeader alg (B "JWT")) (mkPayload ucan_version (did_of alice) aud None None None [] None (Some texts)) [] [x07].
Example C155_example :
  block_fault sample_ext (citing [B "x"] (B "bob") (B "none")) ECid /\
  block_fault sample_ext (citing [] (B "bob") (B "none")) ENotADid /\
  block_fault sample_ext (citing [] (did_of bob) (B "none")) EAlgorithmName /\
  block_of sample_ext (citing [] (did_of bob) (B "EdDSA"))
    (mkUcanIpld ucan_version ([xed; x01] ++ alice) ([xed; x01] ++ bob) [xed; xa1; x03; x01; x07] [] None None None None None) /\
  exists i cs, ucan_to_ipld sample_ext mid_ucan = Ok i /\ ui_prf i = Some cs /\ map cid_to_string cs = cited mid_ucan.
Proof.
  split; [apply block_fault_iff; vm_compute; reflexivity|]. split; [apply block_fault_iff; vm_compute; reflexivity|].
  split; [apply block_fault_iff; vm_compute; reflexivity|]. split; [apply block_iff; [vm_compute; discriminate | vm_compute; reflexivity]|].
  eexists. eexists. split; [vm_compute; reflexivity|]. split; [reflexivity | vm_compute; reflexivity].
Qed.

(* ------------------------------------------------------------------- C156 *)

(** The UCAN a block is read as, exactly. *)
Theorem C156_ucan : forall X i u, ucan_of_ipld X i = Ok u <-> ucan_of_block X i u.
Proof. exact of_block_iff. Qed.
Print Assumptions C156_ucan.

(** Which blocks are refused: those whose signature does not decode. *)
Theorem C156_errors : forall X i e, ucan_of_ipld X i = Err e <-> signature_fault (ui_s i) e.
Proof. exact of_block_err. Qed.
Print Assumptions C156_errors.

(** Expected: no block aborts the reader.  Refuted (C62, C66); which ones do, exactly. *)
Theorem C156_never_aborts_refuted : exists X i q, ucan_of_ipld X i = Panic q.
Proof. exists sample_ext, (mkUcanIpld [] [] [] [xed; xa1; x03; x00] [] None None None None None), PPrincipleSlice. vm_compute. reflexivity. Qed.
Print Assumptions C156_never_aborts_refuted.

Theorem C156_aborts_iff_partial : forall X i q, ucan_of_ipld X i = Panic q <-> block_abort i q.
Proof. exact of_block_abort. Qed.
Print Assumptions C156_aborts_iff_partial.

Definition bare_block (iss s : bytes) : ucan_ipld := mkUcanIpld [] iss ([xed; x01] ++ bob) s [] (Some []) None None None None.
Example C156_example :
  ucan_of_block sample_ext (bare_block ([xed; x01] ++ alice) [xed; xa1; x03; x01; x07; x08])
    (mkUcan (mkHeader (B "EdDSA") (B "JWT")) (mkPayload (B "0.10.0-canary") (did_of alice) (did_of bob) None None None [] None (Some []))
       (signing_input sample_ext (mkHeader (B "EdDSA") (B "JWT")) (mkPayload (B "0.10.0-canary") (did_of alice) (did_of bob) None None None [] None (Some []))) [x07]) /\
  signature_fault (ui_s (bare_block [] [x00; x00])) EVarsigPrefix /\
  block_abort (bare_block ([xed; x01] ++ alice) [xed; xa1; x03; x02; x07]) PVarsigSlice /\
  block_abort (bare_block [x07] [xed; xa1; x03; x01; x07]) PPrincipleSlice /\
  block_abort (bare_block [x9d; x1a; xff] [xed; xa1; x03; x01; x07]) PPrincipleFmt.
Proof.
  split; [apply of_block_iff; vm_compute; reflexivity|]. split; [apply (of_block_err sample_ext); vm_compute; reflexivity|].
  split; [apply (of_block_abort sample_ext); vm_compute; reflexivity|]. split; apply (of_block_abort sample_ext); vm_compute; reflexivity.
Qed.

(* ------------------------------------------------------------------- C157 *)

(** The capability a view prints as. *)
Theorem C157_view_text : forall S A (SO : scope_ops S) (AO : ability_ops A) v c, cap_of_view SO AO v = c <->
  resource_text (sc_to_string SO) (v_resource v) (cap_resource c) /\ cap_ability c = ab_to_string AO (v_ability v) /\ cap_caveat c = v_caveat v.
Proof. exact @view_text. Qed.
Print Assumptions C157_view_text.

Example C157_example :
  cap_of_view mail_scope mail_ability (mkView (RAs (did_of alice) (Scoped (B "a@x"))) true obj1) = mkCap (B "as:" ++ did_of alice ++ B ":mailto:a@x") (B "email/send") obj1 /\
  cap_of_view mail_scope mail_ability (mkView (RMy Unscoped) true obj1) = mkCap (B "my:*") (B "email/send") obj1.
Proof. split; vm_compute; reflexivity. Qed.
