(** Facts about the amount of validation work (C75). *)
From Verif Require Import Prelude Ord SMap BaseN Base58 Varint Utf8 Value Cid Url Ext Json Capability Semantics Key Ucan Store Builder Chain Spec SpecCost
  OrdFacts SMapFacts BaseNFacts Base58Facts CidFacts DidFacts TimeFacts StoreFacts ChainFacts TokenFacts Samples.

Lemma validate_checks E u nt st st' : validate E u nt st = (Ok tt, st') -> v_checks st' = S (v_checks st).
Proof.
  unfold validate. intros H. apply bind_ok in H as (ex & s1 & H1 & H). destruct ex; [discriminate|].
  apply bind_ok in H as (ea & s2 & H2 & H). destruct ea; [discriminate|].
  assert (v_checks s1 = v_checks st) as E1.
  { unfold is_expired in H1. destruct (p_exp (u_payload u)).
    - destruct nt; apply bind_ok in H1 as (t & s0 & Ht & H1); injection Ht as _ <-; injection H1 as _ <-; reflexivity.
    - injection H1 as <-. reflexivity. }
  assert (v_checks s2 = v_checks s1) as E2.
  { unfold is_too_early in H2. destruct (p_nbf (u_payload u)).
    - apply bind_ok in H2 as (t & s0 & Ht & H2); injection Ht as _ <-; injection H2 as _ <-; reflexivity.
    - injection H2 as <-. reflexivity. }
  unfold check_signature in H. apply bind_ok in H as (k & s3 & H3 & H). unfold verify in H. injection H as _ <-. cbn [v_checks].
  unfold parse_did in H3. destruct (did_parse (v_parser s2) (p_iss (u_payload u))) as [r p]. injection H3 as _ <-. cbn [v_checks]. congruence.
Qed.

Lemma checks_links E nt fuel : forall u st c st', from_ucan E nt fuel u st = (Ok c, st') ->
  v_checks st' = (v_checks st + length (links c))%nat.
Proof.
  induction fuel as [|f IH]; intros u st c st' H; [discriminate|].
  apply from_ucan_ok in H as (s1 & proofs & red & Hv & Hm & _ & ->). apply validate_checks in Hv. cbn [links length].
  enough (v_checks st' = (v_checks s1 + length (flat_map links proofs))%nat) by lia. clear Hv.
  revert s1 proofs Hm. induction (cited u) as [|t l IHl]; intros s1 proofs Hm.
  - injection Hm as <- <-. cbn. lia.
  - cbn [mmap] in Hm. apply bind_ok in Hm as (pc & s2 & H1 & Hm). apply bind_ok in Hm as (pcs & s3 & H2 & Hm). injection Hm as <- <-.
    apply build_proof_ok in H1 as (cd & token & pu & s0 & _ & Hr & _ & Hrec & _).
    apply require_token_ok in Hr as (_ & _ & _ & ->). apply IH in Hrec. apply IHl in H2. cbn [v_checks flat_map] in *.
    rewrite app_length. lia.
Qed.

(* ------------------------------------------------------------- upper bounds *)

Lemma links_tokens E nt slice s T R c : (forall n d, e_read E n d = mem_read s d) -> valid_chain E nt slice T R c ->
  forall u, In u (tl (links c)) -> exists b, In b (map snd s) /\ parse_token (e_ext E) b = Ok u.
Proof.
  intros He Hv. induction Hv as [u proofs red _ Hc _ _ _ IH]. cbn [links tl]. intros w Hw.
  apply in_flat_map in Hw as (pc & Hpc & Hw).
  assert (Hroot : exists b, In b (map snd s) /\ parse_token (e_ext E) b = Ok (c_ucan pc)).
  { destruct (Forall2_in_r _ _ _ _ Hc Hpc) as (t & _ & cd & n & token & _ & _ & _ & Hr & _ & Hp).
    rewrite He in Hr. unfold mem_read in Hr. destruct (hget cd s) as [b|] eqn:Hg; [|discriminate]. injection Hr as ->.
    exists token. split; [|exact Hp]. clear - Hg. induction s as [|[c' b'] s IH]; [discriminate|]. cbn [hget] in Hg.
    destruct (cid_eqb cd c'); [injection Hg as ->; left; reflexivity | right; apply IH, Hg]. }
  destruct pc as [pu ps pr]. cbn [links] in Hw. destruct Hw as [<- | Hw]; [exact Hroot|]. apply (IH _ Hpc). exact Hw.
Qed.

Lemma linear_unshared E nt slice s fuel u st c st' : with_parser slice st -> (forall n d, e_read E n d = mem_read s d) ->
  from_ucan E nt fuel u st = (Ok c, st') -> NoDup (links c) -> (checks_between st st' <= N.of_nat (length s) + 1)%N.
Proof.
  intros Hp He Hr Hn. pose proof (checks_links _ _ _ _ _ _ _ Hr) as Hc.
  assert (Hv : valid_chain E nt slice (fun _ => True) (fun _ => True) c) by (eapply from_ucan_sound; [exact Hp | exact Hr | auto | auto]).
  pose proof (links_tokens _ _ _ _ _ _ _ He Hv) as Ht.
  set (L := flat_map (fun b => match parse_token (e_ext E) b with Ok u => [u] | _ => [] end) (map snd s)).
  assert (HL : (length L <= length s)%nat).
  { unfold L. clear. induction s as [|[c b] s IH]; [cbn; lia|]. cbn [map snd flat_map]. rewrite app_length.
    destruct (parse_token (e_ext E) b); cbn [length]; lia. }
  destruct c as [w ps red]. cbn [links] in *. apply NoDup_cons_iff in Hn as [_ Hn].
  assert (Hi : (length (flat_map links ps) <= length L)%nat).
  { apply NoDup_incl_length; [exact Hn|]. intros x Hx. destruct (Ht x Hx) as (b & Hb & Hx'). apply in_flat_map.
    exists b. split; [exact Hb|]. rewrite Hx'. left. reflexivity. }
  cbn [length] in Hc. unfold checks_between. lia.
Qed.

Lemma levels_proof pc ps : In pc ps -> (levels pc <= fold_right Nat.max 0 (map levels ps))%nat.
Proof. induction ps as [|p ps IH]; simpl; [contradiction|]. intros [-> | Hin]; [lia | specialize (IH Hin); lia]. Qed.

Lemma links_bound_levels b n : (1 <= b)%nat -> forall c, (levels c <= n)%nat ->
  (forall d, sub_chain d c -> (length (c_proofs d) <= b)%nat) -> (length (links c) * (b - 1) + 1 <= b ^ levels c)%nat.
Proof.
  intros Hb. induction n as [|n IH]; intros [u ps red] Hn Hd; [cbn [levels] in Hn; lia|]. cbn [links levels length] in *.
  pose proof (Hd _ (Sub_self _)) as Hl. cbn [c_proofs] in Hl.
  set (h := fold_right Nat.max 0%nat (map levels ps)) in *.
  assert (Hall : forall l, incl l ps -> (length (flat_map links l) * (b - 1) + length l <= length l * b ^ h)%nat).
  { induction l as [|p l IHl]; intros Hi; [cbn; lia|]. cbn [flat_map length]. rewrite app_length.
    assert (Hin : In p ps) by (apply Hi; left; reflexivity).
    specialize (IHl (fun x Hx => Hi x (or_intror Hx))).
    pose proof (levels_proof p ps Hin) as Hh. fold h in Hh.
    assert (Hsub : (length (links p) * (b - 1) + 1 <= b ^ levels p)%nat).
    { apply IH; [lia|]. intros d Hs. apply Hd. econstructor; [exact Hin | exact Hs]. }
    pose proof (Nat.pow_le_mono_r b (levels p) h ltac:(lia) Hh). lia. }
  specialize (Hall ps (incl_refl _)). rewrite Nat.pow_succ_r'.
  assert (1 <= b ^ h)%nat by (pose proof (Nat.pow_nonzero b h ltac:(lia)); lia). nia.
Qed.

Lemma links_bound b c : (1 <= b)%nat -> (forall d, sub_chain d c -> (length (c_proofs d) <= b)%nat) ->
  (length (links c) * (b - 1) + 1 <= b ^ levels c)%nat.
Proof. intros Hb. apply (links_bound_levels b (levels c) Hb c (le_n _)). Qed.

(* -------------------------------------------------------------- lower bound *)

(** Third-party behaviour: as in the examples, with the last segment of a token as its digest. *)
Definition tower_ext : ext :=
  mkExt (x_f64_print sample_ext) (x_f64_parse sample_ext) true true
        (fun _ _ => None) (fun _ _ => None) (fun _ s => last (split_on x2e s) []) true.

(** A key accepting every signature that starts with its name. *)
Definition tower_key : key := mkKey (B "EdDSA") (Ok (did_of alice)) (fun _ => Ok alice)
  (fun _ s => match strip_prefix alice s with Some _ => Ok tt | None => Err ESignature end).
Definition tower_slice : list (bytes * ctor) := [(ed25519_magic, fun _ => Ok tower_key)].

(** Token [n] cites token [n - 1] twice; alice delegates to herself. *)
Fixpoint tower_ucan (n : nat) : ucan :=
  let h := mkHeader (B "EdDSA") (B "JWT") in
  let p := mkPayload ucan_version (did_of alice) (did_of alice) None None None [] None
    (match n with
     | O => None
     | S m => let t := proof_text tower_ext (tower_ucan m) None in Some [t; t]
     end) in
  mkUcan h p (signing_input tower_ext h p) (alice ++ varint_encode (N.of_nat n)).

Definition tower_ops (n : nat) : list store_op := map (fun k => SWrite (IBytes (encode tower_ext (tower_ucan k)))) (seq 0 n).
Definition tower_store (n : nat) : mstore := snd (store_run tower_ext [] (tower_ops n)).
Definition tower_env (n : nat) : env := mkEnv tower_ext (fun _ => 0%N) (fun _ c => mem_read (tower_store n) c).

Fixpoint tower (n : nat) : chain :=
  match n with
  | O => Chain (tower_ucan 0) [] []
  | S m => Chain (tower_ucan (S m)) [tower m; tower m] []
  end.

Lemma tower_root n : c_ucan (tower n) = tower_ucan n.
Proof. destruct n; reflexivity. Qed.

Lemma tower_links n : N.of_nat (length (links (tower n))) = (2 ^ (N.of_nat n + 1) - 1)%N.
Proof.
  induction n as [|n IH]; [reflexivity|].
  cbn [tower links flat_map length]. rewrite app_nil_r, app_length, Nat2N.inj_succ, Nat2N.inj_add, IH.
  rewrite Nat2N.inj_succ. rewrite N.add_succ_l, (N.pow_succ_r' 2 (N.of_nat n + 1)).
  pose proof (N.pow_nonzero 2 (N.of_nat n + 1) ltac:(lia)). lia.
Qed.

Lemma tower_height n : height (tower n) = S n.
Proof. induction n as [|n IH]; [reflexivity|]. cbn [tower height map fold_right]. rewrite IH. lia. Qed.

Lemma tower_digest n : x_hash tower_ext 30 (encode tower_ext (tower_ucan n)) = b64_encode (alice ++ varint_encode (N.of_nat n)).
Proof.
  cbn [x_hash tower_ext]. rewrite encode_split. cbn [last]. destruct n; reflexivity.
Qed.

Lemma varint_length fuel n : (length (varint_encode_fuel fuel n) <= fuel)%nat.
Proof.
  revert n. induction fuel as [|f IH]; intros n; cbn [varint_encode_fuel]; [cbn; lia|].
  destruct (n <? 128)%N; cbn [length]; [lia|]. specialize (IH (n / 128)%N). lia.
Qed.

Lemma tower_digest_length n : (length (x_hash tower_ext 30 (encode tower_ext (tower_ucan n))) <= 64)%nat.
Proof.
  rewrite tower_digest. pose proof (b64_encode_length (alice ++ varint_encode (N.of_nat n))) as H.
  rewrite app_length in H. pose proof (varint_length 10 (N.of_nat n)) as Hv. fold (varint_encode (N.of_nat n)) in Hv.
  change (length alice) with 5%nat in H. lia.
Qed.

Lemma cid_text_utf8 c : utf8_valid (cid_to_string c) = true.
Proof.
  apply ascii_utf8. unfold cid_to_string. destruct (cid_version c =? 0)%N.
  - apply Forall_forall. intros x Hx. apply b58_encode_in in Hx. revert x Hx. apply Forall_forall. vm_compute. repeat constructor.
  - constructor; [reflexivity|]. apply Forall_forall. intros x Hx. apply b32_encode_in in Hx. revert x Hx. apply Forall_forall. vm_compute. repeat constructor.
Qed.

Lemma tower_fields n : u_header (tower_ucan n) = mkHeader (B "EdDSA") (B "JWT") /\ exists prf,
  u_payload (tower_ucan n) = mkPayload ucan_version (did_of alice) (did_of alice) None None None [] None prf /\
  opt_all (Forall (fun t => utf8_valid t = true)) prf.
Proof.
  destruct n as [|n]; cbn [tower_ucan u_header u_payload]; (split; [reflexivity|]); eexists; (split; [reflexivity|]).
  - intros l E. discriminate.
  - intros l [= <-]. repeat constructor; apply cid_text_utf8.
Qed.

Lemma tower_carried n : ucan_carried tower_ext (tower_ucan n).
Proof.
  destruct (tower_fields n) as (Hh & prf & Hp & Hu). unfold ucan_carried. rewrite Hh, Hp.
  split; [reflexivity|]. split; [reflexivity|].
  constructor; cbn [p_ucv p_iss p_aud p_exp p_nbf p_nnc p_cap p_fct p_prf]; try (intros l El; discriminate El).
  - reflexivity.
  - vm_compute. reflexivity.
  - vm_compute. reflexivity.
  - split; constructor.
  - exact Hu.
Qed.

Lemma tower_parses n : parse_token tower_ext (encode tower_ext (tower_ucan n)) = Ok (tower_ucan n).
Proof. rewrite token_roundtrip by apply tower_carried. destruct n; reflexivity. Qed.

Lemma varint_inj n m : word n -> word m -> varint_encode n = varint_encode m -> n = m.
Proof.
  intros Hn Hm E. pose proof (varint_roundtrip n [] Hn) as R. rewrite E, (varint_roundtrip m [] Hm) in R. congruence.
Qed.

Lemma tower_written n b : written (tower_ops n) b <-> exists k, (k < n)%nat /\ b = encode tower_ext (tower_ucan k).
Proof.
  unfold written, tower_ops. rewrite in_map_iff. split.
  - intros (k & E & Hk). apply in_seq in Hk. exists k. split; [lia|]. injection E as ->. reflexivity.
  - intros (k & Hk & ->). exists k. split; [reflexivity | apply in_seq; lia].
Qed.

Lemma tower_collision_free n : word (N.of_nat n) -> collision_free tower_ext (tower_ops n).
Proof.
  intros Hw b b' Hb Hb' E. apply tower_written in Hb as (k & Hk & ->), Hb' as (k' & Hk' & ->).
  rewrite !tower_digest in E. apply b64_encode_inj in E. apply app_inv_head in E.
  unfold word in Hw. apply varint_inj in E; [|unfold word; lia|unfold word; lia]. apply Nat2N.inj in E. subst. reflexivity.
Qed.

Lemma tower_signed n : signed_by_issuer (did_parser_new tower_slice) (tower_ucan n).
Proof.
  destruct (tower_fields n) as (_ & prf & Hp & _). unfold signed_by_issuer. rewrite Hp. cbn [p_iss]. exists tower_key.
  split; [vm_compute; reflexivity|]. destruct n; cbn [tower_ucan u_signature key_verify tower_key]; rewrite strip_prefix_app; reflexivity.
Qed.

Lemma tower_now n m T : valid_now (tower_env n) None tower_slice T (tower_ucan m).
Proof.
  destruct (tower_fields m) as (_ & prf & Hp & _). unfold valid_now.
  split; [rewrite Hp; discriminate|]. split; [rewrite Hp; discriminate | apply tower_signed].
Qed.

Lemma tower_red X m k : redelegates X (tower_ucan m) k [].
Proof.
  destruct (tower_fields m) as (_ & prf & Hp & _). split; [constructor|]. split; [|intros i []].
  intros i. split; [intros []|]. intros (c & (abs & cs & Hin & _) & _). rewrite Hp in Hin. destruct Hin.
Qed.

Lemma tower_linked m k : linked (tower_ucan m) (tower_ucan k).
Proof.
  destruct (tower_fields m) as (_ & prf & Hp & _), (tower_fields k) as (_ & prf' & Hp' & _). unfold linked, lifetime_within.
  rewrite Hp, Hp'. split; [reflexivity|]. split; discriminate.
Qed.

Lemma tower_valid n m : word (N.of_nat n) -> (m <= n)%nat ->
  valid_chain (tower_env n) None tower_slice (fun _ => True) (fun _ => True) (tower m).
Proof.
  intros Hw. induction m as [|m IH]; intros Hm.
  - cbn [tower]. constructor; [apply tower_now | constructor | intros pc [] | apply tower_red | intros pc []].
  - assert (Hr : resolves (tower_env n) (fun _ => True) (proof_text tower_ext (tower_ucan m) None) (c_ucan (tower m))).
    { rewrite tower_root. apply (cited_proof_resolves tower_ext (tower_env n) (tower_ops n)).
      - apply tower_collision_free, Hw.
      - reflexivity.
      - intros j d. reflexivity.
      - apply tower_written. exists m. split; [lia | reflexivity].
      - apply tower_digest_length.
      - apply tower_parses. }
    assert (Hl : forall pc, In pc [tower m; tower m] -> pc = tower m) by (intros pc [<-|[<-|[]]]; reflexivity).
    change (tower (S m)) with (Chain (tower_ucan (S m)) [tower m; tower m] []). constructor.
    + apply tower_now.
    + change (cited (tower_ucan (S m))) with [proof_text tower_ext (tower_ucan m) None; proof_text tower_ext (tower_ucan m) None].
      constructor; [exact Hr|]. constructor; [exact Hr | constructor].
    + intros pc Hpc. rewrite (Hl _ Hpc), tower_root. apply tower_linked.
    + apply tower_red.
    + intros pc Hpc. rewrite (Hl _ Hpc). apply IH. lia.
Qed.

Lemma hinsert_length c b s : (length (hinsert c b s) <= S (length s))%nat.
Proof.
  induction s as [|[c' b'] s IH]; [cbn; lia|]. cbn [hinsert]. destruct (cid_eqb c c'); cbn [length]; lia.
Qed.

Lemma store_run_length X ops : forall s, (length (snd (store_run X s ops)) <= length s + length ops)%nat.
Proof.
  induction ops as [|o ops IH]; intros s; [cbn; lia|]. cbn [store_run].
  destruct (store_step X s o) as [x s1] eqn:E1. specialize (IH s1).
  destruct (store_run X s1 ops) as [xs s2]. cbn [snd length] in *.
  assert (length s1 <= S (length s))%nat; [|lia].
  destruct o as [i|c]; cbn [store_step] in E1.
  - unfold mem_write in E1. destruct (raw_encode i) as [b| | |]; injection E1 as _ <-; try lia. apply hinsert_length.
  - injection E1 as _ <-. lia.
Qed.

Lemma exponential_checks n : word (N.of_nat n) -> exists E slice ops u st fuel c st',
  steady E /\ with_parser slice st /\ (length ops <= n)%nat /\
  (forall k d, e_read E k d = mem_read (snd (store_run (e_ext E) [] ops)) d) /\
  from_ucan E None fuel u st = (Ok c, st') /\ checks_between st st' = (2 ^ (N.of_nat n + 1) - 1)%N.
Proof.
  intros Hw.
  assert (Hp : with_parser tower_slice (mkState (did_parser_new tower_slice) 0 0 0)) by (exists []; reflexivity).
  assert (Hs : steady (tower_env n)) by (split; reflexivity).
  destruct (from_ucan_complete (tower_env n) None tower_slice _ _ (tower n) Hs (tower_valid n n Hw (le_n _)) (S n)
    (mkState (did_parser_new tower_slice) 0 0 0)) as [st' Hr].
  { rewrite tower_height. lia. }
  { exact Hp. }
  exists (tower_env n), tower_slice, (tower_ops n), (c_ucan (tower n)), (mkState (did_parser_new tower_slice) 0 0 0), (S n), (tower n), st'.
  split; [exact Hs|]. split; [exact Hp|]. split; [unfold tower_ops; rewrite map_length, seq_length; lia|].
  split; [reflexivity|]. split; [exact Hr|]. pose proof (checks_links _ _ _ _ _ _ _ Hr) as Hc.
  unfold checks_between. rewrite Hc, <- tower_links. cbn [v_checks]. lia.
Qed.

Lemma not_linear a b : word a -> word b -> exists E slice ops u st fuel c st',
  steady E /\ with_parser slice st /\
  (forall k d, e_read E k d = mem_read (snd (store_run (e_ext E) [] ops)) d) /\
  from_ucan E None fuel u st = (Ok c, st') /\
  (a * N.of_nat (length (snd (store_run (e_ext E) [] ops))) + b < checks_between st st')%N.
Proof.
  intros Ha Hb. destruct (exponential_checks 79) as (E & slice & ops & u & st & fuel & c & st' & H1 & H2 & H3 & H4 & H5 & H6).
  { unfold word. vm_compute. discriminate. }
  exists E, slice, ops, u, st, fuel, c, st'. repeat (split; [assumption|]). rewrite H6.
  pose proof (store_run_length (e_ext E) ops []) as Hl. cbn [length] in Hl.
  assert (N.of_nat (length (snd (store_run (e_ext E) [] ops))) <= 79)%N as Hl' by lia.
  unfold word in *. change (2 ^ (N.of_nat 79 + 1) - 1)%N with 1208925819614629174706175%N. nia.
Qed.
