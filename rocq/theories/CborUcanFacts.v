(** Facts about UCANs as DAG-CBOR blocks. *)
From Coq Require Import Sorting.Sorted Floats.SpecFloat.
From Verif Require Import Prelude Ord SMap Utf8 Value Cid Ext Json Capability Key Ucan Ipld IpldSerde Cbor Spec SpecIpld SpecIpldSerde SpecCbor
  OrdFacts SMapFacts CapMapFacts JsonFacts TokenFacts IpldFacts IpldSerdeFacts CborFacts.

Lemma int_list_writable b : writable (int_list b).
Proof.
  constructor. apply Forall_forall. intros d Hd. apply in_map_iff in Hd as (c & <- & _). constructor. pose proof (bN_bound c).
  change (2 ^ 64)%Z with 18446744073709551616%Z. lia.
Qed.
Lemma int_list_rust b : word (N.of_nat (length b)) -> rust_data (int_list b).
Proof.
  intros Hw. constructor; [|rewrite map_length; exact Hw]. apply Forall_forall. intros d Hd. apply in_map_iff in Hd as (c & <- & _). constructor.
Qed.
Lemma u64_writable n : (n <= 18446744073709551615)%N -> writable (ipld_of_u64 n).
Proof. intros Hn. constructor. change (2 ^ 64)%Z with 18446744073709551616%Z. lia. Qed.

Lemma value_writable X v : forall d, value_data X d v -> rust_data (ipld_of_value v) -> writable (ipld_of_value v).
Proof.
  induction v as [|b|n|s|l IH|m IH] using value_induction; intros d HV HR; cbn [ipld_of_value] in *; try constructor.
  - destruct n as [n|z|f].
    + inversion HV; subst. apply u64_writable. assumption.
    + inversion HV; subst. constructor. change (2 ^ 64)%Z with 18446744073709551616%Z. lia.
    + inversion HR as [| | |f' Hf| | | | |]. subst. constructor. destruct f; try exact I; try exact Hf; inversion HV.
  - inversion HV as [| | | | | | | | |ds vs H2|]. subst. inversion HR as [| | | | | |l' Hl _| |]. subst. clear HV HR.
    induction H2 as [|d' v ds vs Hd _ IHl]; [constructor|]. cbn [map] in *. apply Forall_cons_iff in IH as [IHv IH]. apply Forall_cons_iff in Hl as [Hv Hl].
    constructor; [exact (IHv d' Hd Hv) | exact (IHl IH Hl)].
  - inversion HV as [| | | | | | | | | |ds vs H2]. subst. inversion HR as [| | | | | | |m' _ _ Hm|]. subst. clear HV HR.
    induction H2 as [|d' v ds vs Hd _ IHl]; [constructor|]. cbn [map] in *. apply Forall_cons_iff in IH as [IHv IH]. apply Forall_cons_iff in Hm as [(_ & _ & Hv) Hm].
    constructor; [exact (IHv _ (proj2 Hd) Hv) | exact (IHl IH Hm)].
Qed.

Lemma caps_writable X c : caps_data X (ipld_of_caps c) c -> rust_data (ipld_of_caps c) -> writable (ipld_of_caps c).
Proof.
  rewrite caps_data_of. intros HC HR. unfold ipld_of_caps in *. constructor. inversion HR as [| | | | | | |m' _ _ Hm|]. subst. clear HR.
  rewrite Forall_map in *. rewrite Forall_forall in *. intros [r abs] Hr. specialize (Hm _ Hr). cbn [fst snd] in *. destruct Hm as (_ & _ & Hm).
  constructor. inversion Hm as [| | | | | | |m' _ _ Hm'|]. subst. clear Hm. rewrite Forall_map in *. rewrite Forall_forall in *.
  intros [a vs] Ha. specialize (Hm' _ Ha). cbn [fst snd] in *. destruct Hm' as (_ & _ & Hm'). constructor.
  inversion Hm' as [| | | | | |l' Hl _| |]. subst. rewrite Forall_map in *. rewrite Forall_forall in *. intros v Hv.
  apply (value_writable X v (ipld_of_value v)); [apply HC; exists r, abs, a, vs; auto | apply Hl, Hv].
Qed.
Lemma facts_writable X f : map_data (value_data X) (ipld_of_facts f) f -> rust_data (ipld_of_facts f) -> writable (ipld_of_facts f).
Proof.
  rewrite facts_data_of. intros HF HR. unfold ipld_of_facts in *. constructor. inversion HR as [| | | | | | |m' _ _ Hm|]. subst. clear HR.
  rewrite Forall_map in *. rewrite Forall_forall in *. intros [k v] Hv. specialize (Hm _ Hv). cbn [fst snd] in *.
  apply (value_writable X v (ipld_of_value v)); [apply HF; exists f, k; auto | apply Hm].
Qed.

Lemma rust_entries m : rust_data (IMap m) -> forall k d, In (k, d) m -> rust_data d.
Proof. intros HR k d Hin. inversion HR as [| | | | | | |m' _ _ Hm|]. subst. rewrite Forall_forall in Hm. apply (Hm _ Hin). Qed.

Lemma null_or_writable {A} (f : A -> ipld) o : opt_all (fun a => writable (f a)) o -> writable (null_or f o).
Proof. destruct o as [a|]; intros H; [exact (H a eq_refl) | constructor]. Qed.
Lemma null_or_rust {A} (f : A -> ipld) o : rust_data (null_or f o) -> opt_all (fun a => rust_data (f a)) o.
Proof. destruct o as [a|]; intros H a' E; [injection E as <-; exact H | discriminate]. Qed.

Lemma ucan_ipld_writable X i : ucan_ipld_of_data X (ucan_ipld_to_data i) = Some i -> rust_data (ucan_ipld_to_data i) -> writable (ucan_ipld_to_data i).
Proof.
  change (ucan_ipld_to_data i) with (IMap (data_entries i)). intros HD HR.
  apply (ucan_ipld_of_data_iff X _ i (proj2 (keys_increasing_msorted _) (data_entries_sorted i))), written_data in HD as (HC & He & Hn & HF).
  constructor. apply Forall_forall. intros [k d] Hin. cbn [snd]. pose proof (rust_entries _ HR k d Hin) as Hr. apply data_entries_in in Hin.
  destruct Hin as [[-> ->]|[[-> ->]|[[-> ->]|[[-> ->]|[[-> ->]|[[-> ->]|[[-> ->]|[[-> ->]|[[-> ->]|[-> ->]]]]]]]]]].
  - apply int_list_writable.
  - exact (caps_writable X _ HC Hr).
  - apply null_or_writable. intros n E. apply u64_writable, He, E.
  - apply null_or_writable. intros f E. exact (facts_writable X f (HF f E) (null_or_rust _ _ Hr f E)).
  - apply int_list_writable.
  - apply null_or_writable. intros n E. apply u64_writable, Hn, E.
  - apply null_or_writable. intros s E. constructor.
  - apply null_or_writable. intros l E. constructor. apply Forall_forall. intros x Hx. apply in_map_iff in Hx as (c & <- & _). constructor.
  - apply int_list_writable.
  - constructor.
Qed.

Lemma roundtrip_data {T} (ser : T -> ipld) (de : ipld -> option T) x : rust_data (ser x) -> writable (ser x) ->
  exists t, cbor_encode (ser x) = Some t /\ cbor_decode t = Some (ser x) /\ dag_cbor_roundtrip ser de x = de (ser x).
Proof.
  intros HR HW. apply (cbor_written_iff _ HR) in HW as [t E]. exists t. pose proof (cbor_roundtrip _ t HR E) as D.
  split; [exact E|]. split; [exact D|]. unfold dag_cbor_roundtrip. rewrite E, D. reflexivity.
Qed.
Lemma roundtrip_inv {T} (ser : T -> ipld) (de : ipld -> option T) x y : rust_data (ser x) -> dag_cbor_roundtrip ser de x = Some y -> de (ser x) = Some y.
Proof.
  intros HR. unfold dag_cbor_roundtrip. destruct (cbor_encode (ser x)) as [t|] eqn:E; [|discriminate]. rewrite (cbor_roundtrip _ t HR E). auto.
Qed.

Lemma ucan_ipld_block_iff X i : rust_data (ucan_ipld_to_data i) ->
  (dag_cbor_roundtrip ucan_ipld_to_data (ucan_ipld_of_data X) i = Some i <-> ucan_ipld_of_data X (ucan_ipld_to_data i) = Some i).
Proof.
  intros HR. split; [apply roundtrip_inv, HR|]. intros H.
  destruct (roundtrip_data ucan_ipld_to_data (ucan_ipld_of_data X) i HR (ucan_ipld_writable X i H HR)) as (t & _ & _ & ->). exact H.
Qed.
Lemma ucan_ipld_block X i : ucan_ipld_ok i -> rust_data (ucan_ipld_to_data i) ->
  (dag_cbor_roundtrip ucan_ipld_to_data (ucan_ipld_of_data X) i = Some i <->
   x_value_i128 X = true \/ forall v, caveat_in v (ui_cap i) \/ fact_in v (ui_fct i) -> integer_free v).
Proof. intros Hi HR. rewrite (ucan_ipld_block_iff X i HR). apply data_roundtrip_iff, Hi. Qed.

Lemma token_block X t u i : parse_token X t = Ok u -> ucan_to_ipld X u = Ok i -> rust_data (ucan_ipld_to_data i) ->
  exists block, cbor_encode (ucan_ipld_to_data i) = Some block /\ cbor_decode block = Some (ucan_ipld_to_data i) /\
    ucan_ipld_of_data X (ucan_ipld_to_data i) = Some i.
Proof.
  intros Ht Hi HR. pose proof (token_data_again X t u i Ht Hi) as HD.
  destruct (roundtrip_data ucan_ipld_to_data (ucan_ipld_of_data X) i HR (ucan_ipld_writable X i HD HR)) as (b & H1 & H2 & _). exists b. auto.
Qed.

Lemma bytes_block b : word (N.of_nat (length b)) -> dag_cbor_roundtrip ipld_of_vec vec_of_ipld b = Some b.
Proof.
  intros Hw. destruct (roundtrip_data ipld_of_vec vec_of_ipld b (int_list_rust b Hw) (int_list_writable b)) as (t & _ & _ & ->).
  apply vec_of_ipld_iff. reflexivity.
Qed.

(* -------------------------------------------------------------------- Ucan *)

Lemma payload_writable X p : payload_of_ipld X (ipld_of_payload p) = Some p -> rust_data (ipld_of_payload p) -> writable (ipld_of_payload p).
Proof.
  intros HP HR. pose proof HR as HR0. apply payload_of_ipld_data in HP as (HC & He & Hn & HF).
  2:{ intros m E. change (ipld_of_payload p) with (IMap (payload_entries p)) in E. injection E as <-. apply keys_increasing_msorted, payload_entries_sorted. }
  unfold ipld_of_payload in *. constructor. pose proof (rust_entries _ HR) as Hr. apply Forall_forall. intros [k d] Hin. specialize (Hr k d Hin). cbn [snd].
  rewrite !in_app_iff in Hin. cbn [In] in Hin. unfold opt_field in Hin. 
  repeat match goal with
  | H : _ \/ _ |- _ => destruct H
  | H : False |- _ => destruct H
  | H : (_, _) = (_, _) |- _ => injection H as <- <-
  | H : In _ (match ?o with Some _ => _ | None => _ end) |- _ => let E := fresh "E" in destruct o eqn:E; cbn [In] in H
  end; try (constructor; fail).
  - exact (caps_writable X _ HC Hr).
  - destruct (p_exp p) as [n|] eqn:E; [apply u64_writable, He; reflexivity | constructor].
  - apply (facts_writable X); [apply HF; reflexivity | exact Hr].
  - apply u64_writable, Hn. reflexivity.
  - constructor. apply Forall_forall. intros x Hx. apply in_map_iff in Hx as (c & <- & _). constructor.
Qed.

Lemma ucan_writable X u : ucan_of_data X (ucan_to_data u) = Some u -> rust_data (ucan_to_data u) -> writable (ucan_to_data u).
Proof.
  destruct u as [h p sd s]. rewrite ucan_of_data_of. intros HD HR. pose proof (rust_entries _ HR) as Hr. unfold ucan_to_data in *. cbn [u_header u_payload u_signature u_signed_data] in *.
  assert (payload_of_ipld X (ipld_of_payload p) = Some p) as HP by (destruct (payload_of_ipld X (ipld_of_payload p)); [|discriminate]; congruence).
  constructor. constructor; [|constructor; [|constructor; [|constructor; [|constructor]]]]; cbn [snd].
  - repeat constructor.
  - apply (payload_writable X p HP). apply (Hr (B "payload")). right. left. reflexivity.
  - apply int_list_writable.
  - apply int_list_writable.
Qed.
Lemma ucan_block_iff X u : rust_data (ucan_to_data u) ->
  (dag_cbor_roundtrip ucan_to_data (ucan_of_data X) u = Some u <-> ucan_of_data X (ucan_to_data u) = Some u).
Proof.
  intros HR. split; [apply roundtrip_inv, HR|]. intros H.
  destruct (roundtrip_data ucan_to_data (ucan_of_data X) u HR (ucan_writable X u H HR)) as (t & _ & _ & ->). exact H.
Qed.
Lemma ucan_block X u : payload_ok (u_payload u) -> rust_data (ucan_to_data u) ->
  (dag_cbor_roundtrip ucan_to_data (ucan_of_data X) u = Some u <->
   x_value_i128 X = true \/ forall v, caveat_in v (p_cap (u_payload u)) \/ fact_in v (p_fct (u_payload u)) -> integer_free v).
Proof. intros Hu HR. rewrite (ucan_block_iff X u HR). apply ucan_data_roundtrip_iff, Hu. Qed.
Lemma token_ucan_block X t u : parse_token X t = Ok u -> rust_data (ucan_to_data u) ->
  dag_cbor_roundtrip ucan_to_data (ucan_of_data X) u = Some u.
Proof. intros Ht HR. apply (ucan_block_iff X u HR). exact (token_ucan_data X t u Ht). Qed.

Lemma jwt_through_block X t u : parse_token X t = Ok u -> ipld_carried u -> exists i, ucan_to_ipld X u = Ok i /\
  (rust_data (ucan_ipld_to_data i) -> exists block u', cbor_encode (ucan_ipld_to_data i) = Some block /\
    (let?? d := cbor_decode block in ucan_ipld_of_data X d) = Some i /\ ucan_of_ipld X i = Ok u' /\
    u_header u' = u_header u /\ u_payload u' = u_payload u /\ u_signature u' = u_signature u /\ encode X u' = encode X u).
Proof.
  intros Ht Hc. destruct (jwt_through_data X t u Ht Hc) as (i & u' & Hi & Hd & Hu & H1 & H2 & H3 & H4). exists i. split; [exact Hi|]. intros HR.
  destruct (token_block X t u i Ht Hi HR) as (b & Eb & Ed & Er). exists b, u'. rewrite Ed. auto 8.
Qed.

(** Different UCANs have different blocks. *)
Lemma block_distinct i j t : ucan_ipld_ok i -> ucan_ipld_ok j -> rust_data (ucan_ipld_to_data i) -> rust_data (ucan_ipld_to_data j) ->
  cbor_encode (ucan_ipld_to_data i) = Some t -> cbor_encode (ucan_ipld_to_data j) = Some t -> i = j.
Proof.
  intros Hi Hj Ri Rj Ei Ej. apply data_injective; [assumption..|]. pose proof (cbor_roundtrip _ t Ri Ei). pose proof (cbor_roundtrip _ t Rj Ej). congruence.
Qed.

(* ------------------------------------------------------------------- layout *)

Lemma sorted_fields i : sort_entries (data_entries i) =
  [(B "s", int_list (ui_s i)); (B "v", IStr (ui_v i)); (B "aud", int_list (ui_aud i)); (B "cap", ipld_of_caps (ui_cap i));
   (B "exp", null_or ipld_of_u64 (ui_exp i)); (B "fct", null_or ipld_of_facts (ui_fct i)); (B "iss", int_list (ui_iss i));
   (B "nbf", null_or ipld_of_u64 (ui_nbf i)); (B "nnc", null_or IStr (ui_nnc i)); (B "prf", null_or (fun l => IList (map ILink l)) (ui_prf i))].
Proof. reflexivity. Qed.

Lemma entry_text k d t : entry_item (k, d) t -> exists v, dag_cbor d v /\ t = cbor_text k ++ v.
Proof. intros (kt & v & Hk & Hv & ->). cbn [fst snd] in *. apply text_item_iff in Hk as (_ & _ & ->). eauto. Qed.

Lemma block_layout i t : rust_data (ucan_ipld_to_data i) -> cbor_encode (ucan_ipld_to_data i) = Some t ->
  exists s v aud cap exp fct iss nbf nnc prf,
    dag_cbor (int_list (ui_s i)) s /\ dag_cbor (IStr (ui_v i)) v /\ dag_cbor (int_list (ui_aud i)) aud /\
    dag_cbor (ipld_of_caps (ui_cap i)) cap /\ dag_cbor (null_or ipld_of_u64 (ui_exp i)) exp /\
    dag_cbor (null_or ipld_of_facts (ui_fct i)) fct /\ dag_cbor (int_list (ui_iss i)) iss /\
    dag_cbor (null_or ipld_of_u64 (ui_nbf i)) nbf /\ dag_cbor (null_or IStr (ui_nnc i)) nnc /\
    dag_cbor (null_or (fun l => IList (map ILink l)) (ui_prf i)) prf /\
    t = [xaa] ++ ([x61] ++ B "s" ++ s) ++ ([x61] ++ B "v" ++ v) ++ ([x63] ++ B "aud" ++ aud) ++ ([x63] ++ B "cap" ++ cap) ++
        ([x63] ++ B "exp" ++ exp) ++ ([x63] ++ B "fct" ++ fct) ++ ([x63] ++ B "iss" ++ iss) ++ ([x63] ++ B "nbf" ++ nbf) ++
        ([x63] ++ B "nnc" ++ nnc) ++ ([x63] ++ B "prf" ++ prf).
Proof.
  intros HR HE. apply (cbor_encode_iff _ t HR) in HE. change (ucan_ipld_to_data i) with (IMap (data_entries i)) in HE.
  inversion HE as [| | | | | | | | |m entries ts h Hk Hp Hs H2 Hh|]. subst.
  assert (entries = sort_entries (data_entries i)) as E.
  { apply sorted_unique; [exact Hs | apply sort_sorted, msorted_keys_nodup, data_entries_sorted|]. eapply Permutation.perm_trans; [apply Permutation.Permutation_sym, Hp | apply sort_perm]. }
  rewrite sorted_fields in E. subst entries. apply item_head_iff in Hh as [-> _]. change (cbor_head 5 (N.of_nat (length (data_entries i)))) with [xaa].
  clear - H2.
  repeat match goal with H : Forall2 _ (_ :: _) _ |- _ => let t := fresh "t" in let ts := fresh "ts" in let He := fresh "He" in let Hf := fresh "Hf" in
    inversion H as [|? t ? ts He Hf]; clear H; subst; apply entry_text in He as (? & ? & ->) end.
  match goal with H : Forall2 _ [] _ |- _ => inversion H; subst end.
  cbn [concat]. rewrite app_nil_r. do 10 eexists. repeat (split; [eassumption|]). rewrite <- ?app_assoc. reflexivity.
Qed.

(* --------------------------------------------------------------- Rust's data *)

Lemma value_rust v : json_ok v -> fits (ipld_of_value v) -> rust_data (ipld_of_value v).
Proof.
  induction v as [|b|n|s|l IH|m IH] using value_induction; intros HJ HF; cbn [ipld_of_value] in *; try (constructor; fail).
  - destruct n as [n|z|f]; constructor. inversion HJ as [| |n Hn| | |]. subst. cbn [number_ok] in Hn. destruct f; try contradiction; [reflexivity | exact Hn].
  - inversion HJ as [| | |s' Hs| |]. subst. inversion HF as [| | | |s' Hw| | | |]. subst. constructor; assumption.
  - inversion HJ as [| | | |l' Hl|]. subst. inversion HF as [| | | | | |l' Hw Hl'| |]. subst. constructor; [|exact Hw]. clear HJ HF Hw.
    rewrite Forall_map in *. rewrite Forall_forall in *. intros v Hv. auto.
  - inversion HJ as [| | | | |m1 HO]. subst. inversion HO as [m3 Hk Hm]. subst. inversion HF as [| | | | | | |m2 Hw Hm'|]. subst.
    apply keys_increasing_msorted in Hk. constructor; [apply keys_increasing_msorted, (msorted_map ipld_of_value), Hk | exact Hw|]. clear HJ HF Hw Hk.
    rewrite Forall_map in *. rewrite Forall_forall in *. intros [k v] Hv. specialize (IH _ Hv). specialize (Hm _ Hv). specialize (Hm' _ Hv). cbn [fst snd] in *. tauto.
Qed.
Lemma caps_rust c : caps_ok c -> fits (ipld_of_caps c) -> rust_data (ipld_of_caps c).
Proof.
  intros [Hk Hc] HF. unfold ipld_of_caps in *. inversion HF as [| | | | | | |m' Hw Hm|]. subst. clear HF.
  constructor; [apply keys_increasing_msorted, (msorted_map (fun abs => IMap (map (fun av => (fst av, IList (map ipld_of_value (snd av)))) abs))), keys_increasing_msorted, Hk | exact Hw|].
  clear Hw Hk. rewrite Forall_map in *. rewrite Forall_forall in *. intros [r abs] Hr. specialize (Hc _ Hr). specialize (Hm _ Hr). cbn [fst snd] in *.
  destruct Hc as (Hu & Hk & Hc), Hm as [Hw Hm]. split; [exact Hu|]. split; [exact Hw|]. inversion Hm as [| | | | | | |m' Hw' Hm'|]. subst. clear Hm.
  constructor; [apply keys_increasing_msorted, (msorted_map (fun vs => IList (map ipld_of_value vs))), keys_increasing_msorted, Hk | exact Hw'|].
  clear Hw' Hk. rewrite Forall_map in *. rewrite Forall_forall in *. intros [a vs] Ha. specialize (Hc _ Ha). specialize (Hm' _ Ha). cbn [fst snd] in *.
  destruct Hc as [Hu' Hc], Hm' as [Hw' Hm']. split; [exact Hu'|]. split; [exact Hw'|]. inversion Hm' as [| | | | | |l' Hw'' Hl| |]. subst. clear Hm'.
  constructor; [|exact Hw'']. rewrite Forall_map in *. rewrite Forall_forall in *. intros v Hv. apply value_rust; auto.
Qed.
Lemma facts_rust f : object_ok f -> fits (ipld_of_facts f) -> rust_data (ipld_of_facts f).
Proof. intros Hf HF. exact (value_rust (VObj f) (JO_obj f Hf) HF). Qed.

Lemma ucan_ipld_rust i : ucan_ipld_ok i -> utf8_valid (ui_v i) = true -> opt_all (fun s => utf8_valid s = true) (ui_nnc i) ->
  opt_all (Forall (fun c => exists d, cid_block c d)) (ui_prf i) -> fits (ucan_ipld_to_data i) -> rust_data (ucan_ipld_to_data i).
Proof.
  intros [Hc He Hf Hn] Hv Hnnc Hprf HF. change (ucan_ipld_to_data i) with (IMap (data_entries i)) in *.
  inversion HF as [| | | | | | |m' Hw Hm|]. subst. clear HF. constructor; [apply keys_increasing_msorted, data_entries_sorted | exact Hw|].
  rewrite Forall_forall in *. intros [k d] Hin. specialize (Hm _ Hin). cbn [fst snd] in *. destruct Hm as [Hwk Hd].
  assert (utf8_valid k = true /\ rust_data d) as [Hu Hr]; [|auto]. apply data_entries_in in Hin.
  destruct Hin as [[-> ->]|[[-> ->]|[[-> ->]|[[-> ->]|[[-> ->]|[[-> ->]|[[-> ->]|[[-> ->]|[[-> ->]|[-> ->]]]]]]]]]]; (split; [reflexivity|]).
  1,5,9: apply int_list_rust; inversion Hd as [| | | | | |l' Hl _| |]; subst; rewrite map_length in Hl; exact Hl.
  - apply caps_rust; assumption.
  - destruct (ui_exp i); constructor.
  - destruct (ui_fct i) as [f|]; [apply facts_rust; [apply Hf; reflexivity | exact Hd] | constructor].
  - destruct (ui_nbf i); constructor.
  - destruct (ui_nnc i) as [s|]; [|constructor]. inversion Hd as [| | | |s' Hl| | | |]. subst. constructor; [apply Hnnc; reflexivity | exact Hl].
  - destruct (ui_prf i) as [l|]; [|constructor]. inversion Hd as [| | | | | |l' Hl _| |]. subst. constructor; [|exact Hl].
    specialize (Hprf l eq_refl). rewrite Forall_map. rewrite Forall_forall in *. intros c Hc'. destruct (Hprf c Hc') as [d Hd']. exact (RD_link c d Hd').
  - inversion Hd as [| | | |s' Hl| | | |]. subst. constructor; assumption.
Qed.

(* --------------------------------------------------- blocks written by others *)

Lemma same_keys {A C} (m : list (bytes * A)) (l : list (bytes * C)) (R : A -> C -> Prop) :
  Forall2 (fun x y => fst x = fst y /\ R (snd x) (snd y)) m l -> map fst m = map fst l.
Proof. induction 1 as [|x y m l [H _] _ IH]; [reflexivity|]. cbn [map]. congruence. Qed.
Lemma read_map_rust {A} (R : ipld -> A -> Prop) (g : A -> ipld) m l : rust_data (IMap m) ->
  Forall2 (fun x y => fst x = fst y /\ R (snd x) (snd y)) m l -> Forall (fun kv => forall d, rust_data d -> R d (snd kv) -> rust_data (g (snd kv))) l ->
  rust_data (IMap (map (fun kv => (fst kv, g (snd kv))) l)).
Proof.
  intros HR H2 HG. inversion HR as [| | | | | | |m' Hk Hw Hm|]. subst. pose proof (same_keys m l R H2) as Es.
  constructor.
  - apply keys_increasing_msorted. apply keys_increasing_msorted in Hk. apply (msorted_keys m); [|exact Hk]. rewrite map_map. cbn [fst]. exact Es.
  - rewrite map_length. rewrite <- (map_length fst l), <- Es, map_length. exact Hw.
  - rewrite Forall_map. clear Hk Hw HR Es. induction H2 as [|x y m l [Hf Hr] _ IH]; [constructor|].
    apply Forall_cons_iff in Hm as [(Hu & Hw & Hd) Hm]. apply Forall_cons_iff in HG as [Hg HG]. constructor; [|exact (IH HG Hm)].
    cbn [fst snd]. rewrite <- Hf. split; [exact Hu|]. split; [exact Hw | exact (Hg _ Hd Hr)].
Qed.
Lemma read_list_rust {A} (R : ipld -> A -> Prop) (g : A -> ipld) ds l : rust_data (IList ds) -> Forall2 R ds l ->
  Forall (fun a => forall d, rust_data d -> R d a -> rust_data (g a)) l -> rust_data (IList (map g l)).
Proof.
  intros HR H2 HG. inversion HR as [| | | | | |l' Hd Hw| |]. subst. constructor.
  - rewrite Forall_map. clear HR Hw. induction H2 as [|x y m l Hr _ IH]; [constructor|]. apply Forall_cons_iff in Hd as [H1 Hd]. apply Forall_cons_iff in HG as [Hg HG].
    constructor; [exact (Hg _ H1 Hr) | exact (IH HG Hd)].
  - rewrite map_length. replace (length l) with (length ds); [exact Hw|]. clear - H2. induction H2; [reflexivity|]. cbn [length]. congruence.
Qed.
Lemma read_value_rust X v : forall d, rust_data d -> value_data X d v -> rust_data (ipld_of_value v).
Proof.
  induction v as [|b|n|s|l IH|m IH] using value_induction; intros d HR HV; cbn [ipld_of_value]; try (constructor; fail).
  - inversion HV; subst; try constructor; inversion HR; assumption.
  - inversion HV. subst. exact HR.
  - inversion HV as [| | | | | | | | |ds vs H2|]. subst. exact (read_list_rust (value_data X) ipld_of_value ds l HR H2 IH).
  - inversion HV as [| | | | | | | | | |ds vs H2]. subst. exact (read_map_rust (value_data X) ipld_of_value ds m HR H2 IH).
Qed.
Lemma read_facts_rust X d f : rust_data d -> map_data (value_data X) d f -> rust_data (ipld_of_facts f).
Proof.
  intros HR (m & -> & H2). unfold ipld_of_facts. apply (read_map_rust (value_data X) ipld_of_value m f HR H2).
  apply Forall_forall. intros [k v] _ d. apply read_value_rust.
Qed.
Lemma read_caps_rust X d c : rust_data d -> caps_data X d c -> rust_data (ipld_of_caps c).
Proof.
  intros HR (m & -> & H2). unfold ipld_of_caps.
  apply (read_map_rust (map_data (list_data (value_data X))) (fun abs => IMap (map (fun av => (fst av, IList (map ipld_of_value (snd av)))) abs)) m c HR H2).
  apply Forall_forall. intros [r abs] _ d HR' (m' & -> & H2'). cbn [snd] in *.
  apply (read_map_rust (list_data (value_data X)) (fun vs => IList (map ipld_of_value vs)) m' abs HR' H2').
  apply Forall_forall. intros [a vs] _ d HR'' (ds & -> & H2''). cbn [snd] in *. apply (read_list_rust (value_data X) ipld_of_value ds vs HR'' H2'').
  apply Forall_forall. intros v _ d. apply read_value_rust.
Qed.
Lemma optional_rust {A} m k (R : ipld -> A -> Prop) (g : A -> ipld) o : (forall d, In (k, d) m -> rust_data d) -> optional m k R o ->
  (forall d a, rust_data d -> R d a -> rust_data (g a)) -> rust_data (null_or g o).
Proof. intros HR HO HG. destruct o as [a|]; [|constructor]. destruct HO as (d & Hin & _ & Hr). exact (HG d a (HR d Hin) Hr). Qed.

Lemma read_ucan_rust X d i : rust_data d -> ucan_ipld_of_data X d = Some i -> rust_data (ucan_ipld_to_data i).
Proof.
  intros HR HD. destruct (ucan_ipld_of_data_map X d i HD) as [m ->]. pose proof (rust_entries m HR) as Hm.
  assert (keys_increasing m) as Hk by (inversion HR; assumption). apply (ucan_ipld_of_data_iff X m i Hk) in HD. destruct HD as [Hv Hiss Haud Hs Hcap Hprf Hexp Hfct Hnnc Hnbf].
  change (ucan_ipld_to_data i) with (IMap (data_entries i)). constructor; [apply keys_increasing_msorted, data_entries_sorted | cbn; unfold word; lia|].
  apply Forall_forall. intros [k e] Hin. cbn [fst snd]. apply data_entries_in in Hin.
  destruct Hin as [[-> ->]|[[-> ->]|[[-> ->]|[[-> ->]|[[-> ->]|[[-> ->]|[[-> ->]|[[-> ->]|[[-> ->]|[-> ->]]]]]]]]]]; (split; [reflexivity|]; split; [vm_compute; discriminate|]).
  - destruct Haud as (d & Hi & ->). exact (Hm _ _ Hi).
  - destruct Hcap as (d & Hi & Hc). exact (read_caps_rust X d _ (Hm _ _ Hi) Hc).
  - destruct (ui_exp i); constructor.
  - apply (optional_rust m (B "fct") (map_data (value_data X)) ipld_of_facts (ui_fct i) (Hm (B "fct")) Hfct). apply read_facts_rust.
  - destruct Hiss as (d & Hi & ->). exact (Hm _ _ Hi).
  - destruct (ui_nbf i); constructor.
  - apply (optional_rust m (B "nnc") (fun d s => d = IStr s) IStr (ui_nnc i) (Hm (B "nnc")) Hnnc). intros d a Hr ->. exact Hr.
  - apply (optional_rust m (B "prf") (fun d l => d = IList (map ILink l)) (fun l => IList (map ILink l)) (ui_prf i) (Hm (B "prf")) Hprf). intros d a Hr ->. exact Hr.
  - destruct Hs as (d & Hi & ->). exact (Hm _ _ Hi).
  - destruct Hv as (d & Hi & ->). exact (Hm _ _ Hi).
Qed.

(** A UCAN read from a block can be written again, and its own block is read as the same UCAN. *)
Lemma block_again X t i : (let?? d := cbor_decode t in ucan_ipld_of_data X d) = Some i ->
  rust_data (ucan_ipld_to_data i) /\ dag_cbor_roundtrip ucan_ipld_to_data (ucan_ipld_of_data X) i = Some i.
Proof.
  destruct (cbor_decode t) as [d|] eqn:E; [|discriminate]. intros HD. destruct (decoded_data d t E) as [HR _].
  pose proof (read_ucan_rust X d i HR HD) as HR'. split; [exact HR'|]. apply (ucan_ipld_block_iff X i HR').
  destruct (ucan_ipld_of_data_map X d i HD) as [m ->]. apply (data_again X m i); [inversion HR; assumption | exact HD].
Qed.
