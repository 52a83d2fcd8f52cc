(** What the verdict on a chain depends on, and why a chain is refused (C110-C112). *)
From Verif Require Import Prelude Ord SMap Base58 Value Utf8 Cid Url Ext Json Capability Semantics Key Ucan Store Builder Chain Spec SpecChain SpecWire SpecJson SpecReject
  Samples DidFacts RejectFacts.

(* ------------------------------------------------------------------ C110 *)

(** The outcome (chain, error or abort) and the work depend on no block but those cited. *)
Theorem C110_only_cited_blocks_matter : forall E E' nt fuel u st, agree_below E E' u -> from_ucan E' nt fuel u st = from_ucan E nt fuel u st.
Proof. exact local_from_ucan. Qed.
Print Assumptions C110_only_cited_blocks_matter.

(** A store that fails on everything but the two cited blocks. *)
Definition hostile_env : env := mkEnv sample_ext (fun _ => 50%N) (fun _ c =>
  if cid_eqb c (to_cid sample_ext 30 mid_ucan) || cid_eqb c (to_cid sample_ext 30 root_ucan)
  then e_read (leaf_env 50) 0 c else Err EStore).

Example C110_example : agree_below (leaf_env 50) hostile_env leaf_ucan /\
  e_read hostile_env 0 (to_cid sample_ext 30 leaf_ucan) <> e_read (leaf_env 50) 0 (to_cid sample_ext 30 leaf_ucan) /\
  fst (from_ucan hostile_env None 5 leaf_ucan sample_state) = Ok leaf_chain.
Proof.
  assert (forall v, cites (leaf_env 50) v leaf_ucan -> v = mid_ucan) as H1.
  { intros v (text & Hin & d & n & tok & K1 & _ & _ & K2 & _ & K3).
    assert (cited leaf_ucan = [cid_to_string (to_cid sample_ext 30 mid_ucan)]) as E by (vm_compute; reflexivity). rewrite E in Hin. destruct Hin as [<-|[]].
    assert (parse_cid sample_ext (cid_to_string (to_cid sample_ext 30 mid_ucan)) = Some (to_cid sample_ext 30 mid_ucan)) as E1 by (vm_compute; reflexivity).
    assert (d = to_cid sample_ext 30 mid_ucan) as -> by exact (f_equal (fun o => match o with Some x => x | None => d end) (eq_trans (eq_sym K1) E1)).
    assert (e_read (leaf_env 50) n (to_cid sample_ext 30 mid_ucan) = Ok (Some (IBytes (encode sample_ext mid_ucan)))) as E2 by (vm_compute; reflexivity).
    assert (tok = encode sample_ext mid_ucan) as ->
      by exact (f_equal (fun o : res (option ipld) => match o with Ok (Some (IBytes x)) => x | _ => tok end) (eq_trans (eq_sym K2) E2)).
    assert (parse_token sample_ext (encode sample_ext mid_ucan) = Ok mid_ucan) as E3 by (vm_compute; reflexivity).
    exact (f_equal (fun o => match o with Ok x => x | _ => v end) (eq_trans (eq_sym K3) E3)). }
  assert (forall v, cites (leaf_env 50) v mid_ucan -> v = root_ucan) as H2.
  { intros v (text & Hin & d & n & tok & K1 & _ & _ & K2 & _ & K3).
    assert (cited mid_ucan = [cid_to_string (to_cid sample_ext 30 root_ucan)]) as E by (vm_compute; reflexivity). rewrite E in Hin. destruct Hin as [<-|[]].
    assert (parse_cid sample_ext (cid_to_string (to_cid sample_ext 30 root_ucan)) = Some (to_cid sample_ext 30 root_ucan)) as E1 by (vm_compute; reflexivity).
    assert (d = to_cid sample_ext 30 root_ucan) as -> by exact (f_equal (fun o => match o with Some x => x | None => d end) (eq_trans (eq_sym K1) E1)).
    assert (e_read (leaf_env 50) n (to_cid sample_ext 30 root_ucan) = Ok (Some (IBytes (encode sample_ext root_ucan)))) as E2 by (vm_compute; reflexivity).
    assert (tok = encode sample_ext root_ucan) as ->
      by exact (f_equal (fun o : res (option ipld) => match o with Ok (Some (IBytes x)) => x | _ => tok end) (eq_trans (eq_sym K2) E2)).
    assert (parse_token sample_ext (encode sample_ext root_ucan) = Ok root_ucan) as E3 by (vm_compute; reflexivity).
    exact (f_equal (fun o => match o with Ok x => x | _ => v end) (eq_trans (eq_sym K3) E3)). }
  assert (cited root_ucan = []) as E0 by (vm_compute; reflexivity).
  assert (forall v, ~ cites (leaf_env 50) v root_ucan) as H3 by (intros v (text & Hin & _); rewrite E0 in Hin; exact Hin).
  assert (forall v, reachable (leaf_env 50) leaf_ucan v -> v = leaf_ucan \/ v = mid_ucan \/ v = root_ucan) as H4.
  { intros v Hr. destruct (reachable_inv _ _ _ Hr) as [Ev|(b & Hc & Hr1)]; [left; exact Ev|]. apply H1 in Hc. subst b.
    destruct (reachable_inv _ _ _ Hr1) as [Ev|(b & Hc & Hr2)]; [right; left; exact Ev|]. apply H2 in Hc. subst b.
    destruct (reachable_inv _ _ _ Hr2) as [Ev|(b & Hc & Hr3)]; [right; right; exact Ev|]. destruct (H3 _ Hc). }
  split; [|split; [vm_compute; discriminate | vm_compute; reflexivity]].
  split; [reflexivity|]. split; [reflexivity|]. intros v text d n Hr Hin Hd _.
  destruct (H4 v Hr) as [-> | [-> | ->]].
  - assert (cited leaf_ucan = [cid_to_string (to_cid sample_ext 30 mid_ucan)]) as E by (vm_compute; reflexivity). rewrite E in Hin. destruct Hin as [<-|[]].
    assert (parse_cid sample_ext (cid_to_string (to_cid sample_ext 30 mid_ucan)) = Some (to_cid sample_ext 30 mid_ucan)) as E1 by (vm_compute; reflexivity).
    assert (d = to_cid sample_ext 30 mid_ucan) as -> by exact (f_equal (fun o => match o with Some x => x | None => d end) (eq_trans (eq_sym Hd) E1)).
    vm_compute. reflexivity.
  - assert (cited mid_ucan = [cid_to_string (to_cid sample_ext 30 root_ucan)]) as E by (vm_compute; reflexivity). rewrite E in Hin. destruct Hin as [<-|[]].
    assert (parse_cid sample_ext (cid_to_string (to_cid sample_ext 30 root_ucan)) = Some (to_cid sample_ext 30 root_ucan)) as E1 by (vm_compute; reflexivity).
    assert (d = to_cid sample_ext 30 root_ucan) as -> by exact (f_equal (fun o => match o with Some x => x | None => d end) (eq_trans (eq_sym Hd) E1)).
    vm_compute. reflexivity.
  - rewrite E0 in Hin. destruct Hin.
Qed.

(* ------------------------------------------------------------------ C111 *)

(** Every refusal names a fault that some UCAN of the would-be chain has, by a reading of the clock or the store made meanwhile. *)
Theorem C111_every_refusal_has_a_reason : forall E nt slice fuel u st e st', with_parser slice st -> from_ucan E nt fuel u st = (Err e, st') ->
  exists v, reachable E u v /\ fault E nt slice (ticks_between st st') (reads_between st st') v e.
Proof. exact (fun E nt slice fuel u st e st' Hp Hr => chain_reason E nt slice fuel u st e st' _ _ Hp Hr (fun _ H => H) (fun _ H => H)). Qed.
Print Assumptions C111_every_refusal_has_a_reason.

(** On a machine at rest: accepted exactly when nothing is wrong with any UCAN that citations lead to. *)
Theorem C111_accepted_iff_faultless : forall E nt slice u st,
  steady E -> responsive E slice -> well_behaved E slice -> with_parser slice st -> Acc (cites E) u ->
  (forall v, reachable E u v -> ~ short_did (p_iss (u_payload v))) ->
  ((exists fuel c, fst (from_ucan E nt fuel u st) = Ok c) <->
   forall v e, reachable E u v -> ~ fault E nt slice (fun _ => True) (fun _ => True) v e).
Proof. exact chain_accepted_no_fault. Qed.
Print Assumptions C111_accepted_iff_faultless.

(** Two levels down the root is missing. *)
Definition gap_env : env := sample_env 50 [mid_ucan].
Definition toy_slice : list (bytes * ctor) := [(ed25519_magic, fun bs => Ok (toy bs))].

Example C111_example :
  fst (from_ucan gap_env None 5 leaf_ucan sample_state) = Err ENoUcanForCid /\
  reachable gap_env leaf_ucan mid_ucan /\ fault gap_env None toy_slice (fun _ => True) (fun _ => True) mid_ucan ENoUcanForCid /\
  steady gap_env /\ responsive gap_env toy_slice /\ well_behaved gap_env toy_slice /\ with_parser toy_slice sample_state /\
  Acc (cites gap_env) leaf_ucan /\ (forall v, reachable gap_env leaf_ucan v -> ~ short_did (p_iss (u_payload v))).
Proof.
  assert (cited leaf_ucan = [cid_to_string (to_cid sample_ext 30 mid_ucan)]) as C1 by (vm_compute; reflexivity).
  assert (cited mid_ucan = [cid_to_string (to_cid sample_ext 30 root_ucan)]) as C2 by (vm_compute; reflexivity).
  assert (parse_cid sample_ext (cid_to_string (to_cid sample_ext 30 mid_ucan)) = Some (to_cid sample_ext 30 mid_ucan)) as E1 by (vm_compute; reflexivity).
  assert (forall n, e_read gap_env n (to_cid sample_ext 30 mid_ucan) = Ok (Some (IBytes (encode sample_ext mid_ucan)))) as E2 by (intros n; vm_compute; reflexivity).
  assert (parse_token sample_ext (encode sample_ext mid_ucan) = Ok mid_ucan) as E3 by (vm_compute; reflexivity).
  assert (parse_cid sample_ext (cid_to_string (to_cid sample_ext 30 root_ucan)) = Some (to_cid sample_ext 30 root_ucan)) as E4 by (vm_compute; reflexivity).
  assert (forall n, e_read gap_env n (to_cid sample_ext 30 root_ucan) = Ok None) as E5 by (intros n; vm_compute; reflexivity).
  assert (forall v, cites gap_env v leaf_ucan -> v = mid_ucan) as H1.
  { intros v (text & Hin & d & n & tok & K1 & _ & _ & K2 & _ & K3). rewrite C1 in Hin. destruct Hin as [<-|[]].
    assert (d = to_cid sample_ext 30 mid_ucan) as -> by exact (f_equal (fun o => match o with Some x => x | None => d end) (eq_trans (eq_sym K1) E1)).
    assert (tok = encode sample_ext mid_ucan) as ->
      by exact (f_equal (fun o : res (option ipld) => match o with Ok (Some (IBytes x)) => x | _ => tok end) (eq_trans (eq_sym K2) (E2 n))).
    exact (f_equal (fun o => match o with Ok x => x | _ => v end) (eq_trans (eq_sym K3) E3)). }
  assert (forall v, ~ cites gap_env v mid_ucan) as H2.
  { intros v (text & Hin & d & n & tok & K1 & _ & _ & K2 & _ & K3). rewrite C2 in Hin. destruct Hin as [<-|[]].
    assert (d = to_cid sample_ext 30 root_ucan) as -> by exact (f_equal (fun o => match o with Some x => x | None => d end) (eq_trans (eq_sym K1) E4)).
    rewrite E5 in K2. discriminate K2. }
  split; [vm_compute; reflexivity|].
  split.
  { apply (Re_cited _ _ mid_ucan); [|constructor]. exists (cid_to_string (to_cid sample_ext 30 mid_ucan)). rewrite C1. split; [left; reflexivity|].
    exists (to_cid sample_ext 30 mid_ucan), 0%nat, (encode sample_ext mid_ucan). split; [exact E1|]. split; [reflexivity|]. split; [exact I|].
    split; [apply E2|]. split; [vm_compute; reflexivity | exact E3]. }
  split.
  { right. apply (LF_citation _ _ _ (cid_to_string (to_cid sample_ext 30 root_ucan))); [rewrite C2; left; reflexivity|].
    apply (CF_absent _ _ _ (to_cid sample_ext 30 root_ucan) 0%nat None); [exact E4 | exact I | apply E5 | discriminate]. }
  split; [split; reflexivity|].
  split.
  { split; [discriminate|]. split.
    - intros m c bs [[= <- <-] | []]. discriminate.
    - intros m c bs k d s [[= <- <-] | []] [= <-]. simpl. destruct (bytes_eqb s (bs ++ d)); discriminate. }
  split.
  { split; [discriminate|]. split.
    - intros m c bs p [[= <- <-]|[]]. discriminate.
    - intros m c bs k d s p [[= <- <-]|[]] [= <-]. simpl. destruct (bytes_eqb s (bs ++ d)); discriminate. }
  split; [exists []; reflexivity|].
  split; [constructor; intros v Hv; apply H1 in Hv; subst v; constructor; intros w Hw; destruct (H2 _ Hw)|].
  assert (forall name, (2 <= length name)%nat -> ~ short_did (did_of name)) as Hns.
  { intros name Hl (bs & Hb & E). apply (did_key_text_inj (ed25519_magic ++ name) bs) in E. subst bs. rewrite app_length in Hb. lia. }
  intros v Hr. destruct (reachable_inv _ _ _ Hr) as [->|(b & Hc & Hr1)].
  - assert (p_iss (u_payload leaf_ucan) = did_of mallory) as -> by (vm_compute; reflexivity). apply Hns. vm_compute. repeat constructor.
  - apply H1 in Hc. subst b. destruct (reachable_inv _ _ _ Hr1) as [->|(b & Hc & _)]; [|destruct (H2 _ Hc)].
    assert (p_iss (u_payload mid_ucan) = did_of bob) as -> by (vm_compute; reflexivity). apply Hns. vm_compute. repeat constructor.
Qed.

(* ------------------------------------------------------------------ C112 *)

(** The error for a text that is no token names the first bad segment. *)
Theorem C112_token_errors : forall X t e, parse_token X t = Err e <-> token_fault X t e.
Proof. exact token_fault_iff. Qed.
Print Assumptions C112_token_errors.

(** Standard instead of URL-safe base64, a payload without "exp" being no object, no signature, a padded signature. *)
Definition good_header : bytes := base64url (B "{""alg"":""EdDSA"",""typ"":""JWT""}").
Definition good_payload : bytes := base64url (B "{""ucv"":""0.10.0"",""iss"":"""",""aud"":""b"",""exp"":null,""cap"":{}}").
Example C112_example :
  token_fault sample_ext (B "+/==." ++ good_payload) EHeaderBase64 /\
  token_fault sample_ext (good_payload ++ B ".x.y") EHeaderJson /\
  token_fault sample_ext good_header EMissingPayload /\
  token_fault sample_ext (good_header ++ B "..") EPayloadJson /\
  token_fault sample_ext (good_header ++ B ".A") EPayloadBase64 /\
  token_fault sample_ext (good_header ++ B "." ++ good_header ++ B ".AAAA") EPayloadJson /\
  token_fault sample_ext (good_header ++ B "." ++ good_payload) EMissingSignature /\
  token_fault sample_ext (good_header ++ B "." ++ good_payload ++ B ".AA==") ESignatureBase64 /\
  token_fault sample_ext [] EHeaderJson /\
  (forall e, ~ token_fault sample_ext (good_header ++ B "." ++ good_payload ++ B "." ++ B ".junk") e).
Proof.
  repeat split; try (apply C112_token_errors; vm_compute; reflexivity).
  intros e H. apply C112_token_errors in H. vm_compute in H. discriminate H.
Qed.
