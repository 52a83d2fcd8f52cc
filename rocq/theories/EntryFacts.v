(** Facts about the entry points and the multicodec tables. *)
From Verif Require Import Prelude Ord SMap Base58 Value Utf8 Cid Url Ext Json Capability Semantics Key Ucan Store Builder Chain Ipld Fixtures
  Spec SpecChain SpecWire SpecJson SpecIpld SpecReject SpecEntry OrdFacts Base58Facts DidFacts ChainFacts StoreFacts IpldFacts WireFacts JsonGrammarFacts RejectFacts.

(* ---------------------------------------------------------------- C113 *)

Lemma token_entry E nt slice t c st : steady E -> with_parser slice st ->
  ((exists fuel, fst (from_token E nt fuel t st) = Ok c) <->
   token_grammar (e_ext E) t (c_ucan c) /\ valid_chain E nt slice (fun _ => True) (fun _ => True) c).
Proof.
  intros HE Hp. rewrite <- token_grammar_iff. unfold from_token, bind, lift. split.
  - intros [fuel Hf]. destruct (parse_token (e_ext E) t) as [u|e|p|] eqn:Et; try discriminate.
    destruct (proj1 (chain_accepted_iff E nt slice u c st HE Hp) (ex_intro _ fuel Hf)) as [<- Hv]. split; [reflexivity | exact Hv].
  - intros [Et Hv]. destruct (proj2 (chain_accepted_iff E nt slice (c_ucan c) c st HE Hp) (conj eq_refl Hv)) as [fuel Hf].
    exists fuel. rewrite Et. exact Hf.
Qed.

Lemma cid_entry E nt slice d c st : steady E -> with_parser slice st ->
  ((exists fuel, fst (from_cid E nt fuel d st) = Ok c) <->
   holds E d (c_ucan c) /\ valid_chain E nt slice (fun _ => True) (fun _ => True) c).
Proof.
  intros HE Hp. unfold from_cid, bind. split.
  - intros [fuel Hf]. destruct (require_token E d st) as [[token|e|p|] s1] eqn:Er; try discriminate.
    pose proof (proper_require_token slice E d st) as Hf1. rewrite Er in Hf1. cbn [snd] in Hf1.
    apply require_token_ok in Er as (H1 & H2 & H3 & _).
    destruct (proj1 (token_entry E nt slice token c s1 HE (proj1 Hf1 Hp)) (ex_intro _ fuel Hf)) as [Ht Hv].
    split; [|exact Hv]. split; [exact H1|]. exists (v_reads st), token. split; [exact H2|]. split; [apply utf8_valid_iff, H3 | exact Ht].
  - intros [(H1 & n & token & H2 & H3 & H4) Hv].
    set (s1 := mkState (v_parser st) (v_ticks st) (S (v_reads st)) (v_checks st)).
    assert (require_token E d st = (Ok token, s1)) as Er.
    { apply require_token_ok. rewrite (proj2 HE (v_reads st) n). apply utf8_valid_iff in H3. auto. }
    pose proof (proper_require_token slice E d st) as Hf1. rewrite Er in Hf1. cbn [snd] in Hf1.
    destruct (proj2 (token_entry E nt slice token c s1 HE (proj1 Hf1 Hp)) (conj H4 Hv)) as [fuel Hf]. exists fuel. rewrite Er. exact Hf.
Qed.

Lemma token_refused E nt slice fuel t st e st' : with_parser slice st -> from_token E nt fuel t st = (Err e, st') ->
  token_fault (e_ext E) t e \/
  exists u v, token_grammar (e_ext E) t u /\ reachable E u v /\ fault E nt slice (ticks_between st st') (reads_between st st') v e.
Proof.
  intros Hp Hr. unfold from_token in Hr. apply bind_err in Hr as [Hr | (u & s1 & Hu & Hr)].
  - apply lift_err in Hr as [Hr _]. left. apply token_fault_iff. exact Hr.
  - unfold lift in Hu. injection Hu as Hu <-. right. exists u.
    destruct (chain_reason E nt slice fuel u st e st' _ _ Hp Hr (fun _ H => H) (fun _ H => H)) as (v & H1 & H2).
    exists v. split; [apply token_grammar_iff, Hu|]. split; [exact H1 | exact H2].
Qed.

Lemma cid_fault_mono E (R R' : nat -> Prop) c e : (forall n, R n -> R' n) -> cid_fault E R c e -> cid_fault E R' c e.
Proof.
  intros H Hf. destruct Hf as [Hk | n e Hn He | n r Hn Hr Hb | n b Hn Hr Hu | n b e Hn Hr Ht].
  - apply DF_codec, Hk.
  - apply (DF_store _ _ _ n); auto.
  - apply (DF_absent _ _ _ n r); auto.
  - apply (DF_utf8 _ _ _ n b); auto.
  - apply (DF_token _ _ _ n b); auto.
Qed.

Lemma require_token_cid_err E c st e st' : require_token E c st = (Err e, st') -> cid_fault E (reads_between st st') c e.
Proof.
  intros Hr. unfold require_token, read_token, bind, store_read, lift in Hr.
  destruct (N.eqb_spec (cid_codec c) raw_codec) as [Ek|Ek]; cbn [negb] in Hr.
  2:{ injection Hr as <- <-. apply DF_codec. exact Ek. }
  destruct (e_read E (v_reads st) c) as [r|e0|p|] eqn:Er; try discriminate.
  - assert (forall s, reads_between st (mkState (v_parser st) (v_ticks st) (S (v_reads st)) s) (v_reads st)) as Hn
      by (intros s; unfold reads_between; simpl; lia).
    destruct r as [[| | | | |b| | |]|]; cbn [token_of_read] in Hr;
      try (injection Hr as <- <-; apply (DF_absent _ _ _ (v_reads st) _ (Hn _) Er); intros ?; discriminate).
    destruct (utf8_valid b) eqn:Eu; [discriminate|]. injection Hr as <- <-.
    apply (DF_utf8 _ _ _ (v_reads st) b); auto. rewrite <- utf8_valid_iff, Eu. discriminate.
  - injection Hr as <- <-. apply (DF_store _ _ _ (v_reads st)); auto. unfold reads_between. simpl. lia.
Qed.

Lemma cid_refused E nt slice fuel c st e st' : with_parser slice st -> from_cid E nt fuel c st = (Err e, st') ->
  cid_fault E (reads_between st st') c e \/
  exists u v, holds E c u /\ reachable E u v /\ fault E nt slice (ticks_between st st') (reads_between st st') v e.
Proof.
  intros Hp Hr. unfold from_cid in Hr. apply bind_err in Hr as [Hr | (t & s1 & Ht & Hr)].
  - left. apply require_token_cid_err, Hr.
  - pose proof (proper_require_token slice E c st) as F1. rewrite Ht in F1. cbn [snd] in F1.
    assert (follows slice s1 st') as F2.
    { pose proof Hr as Hr'. unfold from_token in Hr'. apply bind_err in Hr' as [Hr' | (u & s2 & Hu & Hr')].
      - apply lift_err in Hr' as [_ ->]. split; [auto|]. split; lia.
      - unfold lift in Hu. injection Hu as _ <-. pose proof (proper_from_ucan slice E nt fuel u s1) as F. rewrite Hr' in F. exact F. }
    apply require_token_ok in Ht as (H1 & H2 & H3 & H4).
    destruct F1 as (F1 & F1' & F1''). destruct F2 as (_ & F2' & F2'').
    destruct (token_refused E nt slice fuel t s1 e st' (F1 Hp) Hr) as [Hf | (u & v & K1 & K2 & K3)].
    + left. apply (DF_token _ _ _ (v_reads st) t); auto. subst s1. unfold reads_between. simpl in *. lia.
    + right. exists u, v. split.
      * split; [exact H1|]. exists (v_reads st), t. split; [exact H2|]. split; [apply utf8_valid_iff, H3 | exact K1].
      * split; [exact K2|]. unfold fault in *. destruct K3 as [K|K]; [left; eapply own_fault_mono; [|exact K] | right; eapply link_fault_mono; [|exact K]].
        -- intros n Hn. unfold ticks_between in *. lia.
        -- intros n Hn. unfold reads_between in *. lia.
Qed.

(* ---------------------------------------------------------------- C114 *)

Lemma key_kinds : Forall2 shortest_varint [237; 4613; 234; 235; 4608; 231; 3357]%N
  [ed25519_magic; rsa_magic; bls12381g1_magic; bls12381g2_magic; p256_magic; secp256k1_magic; did_ipld_prefix].
Proof.
  unfold ed25519_magic, rsa_magic, bls12381g1_magic, bls12381g2_magic, p256_magic, secp256k1_magic, did_ipld_prefix.
  repeat apply Forall2_cons; [..|apply Forall2_nil].
  all: match goal with |- shortest_varint ?n [?a; ?b] =>
    change a with (byteN (128 + n mod 128)); apply SV_more; [lia|];
    let q := eval vm_compute in (n / 128)%N in change (n / 128)%N with q; change b with (byteN q); apply SV_last; lia end.
Qed.

Lemma signature_kind_code v n : varsig_code v = n <-> In (v, n) signature_kinds.
Proof.
  split.
  - intros <-. destruct v; cbv; tauto.
  - cbn [signature_kinds In]. intros H. repeat (destruct H as [H|H]; [injection H as <- <-; reflexivity|]). destruct H.
Qed.

Lemma signature_kind_of_code n : match varsig_of_code n with
  | Ok v => In (v, n) signature_kinds | Err e => e = EVarsigPrefix /\ ~ In n (map snd signature_kinds) | _ => False end.
Proof.
  unfold varsig_of_code.
  repeat match goal with |- context [(n =? ?k)%N] => destruct (N.eqb_spec n k); [subst n; cbv; tauto|] end.
  split; [reflexivity|]. cbn [signature_kinds map snd In]. intros H. repeat (destruct H as [H|H]; [congruence|]). destruct H.
Qed.

Lemma signature_kinds_code_unique v w n : In (v, n) signature_kinds -> In (w, n) signature_kinds -> v = w.
Proof.
  intros H1 H2. apply signature_kind_code in H1. apply signature_kind_code in H2.
  destruct v, w; try reflexivity; cbv in H1, H2; congruence.
Qed.

Lemma signature_kind_ok n v : varsig_of_code n = Ok v <-> In (v, n) signature_kinds.
Proof.
  pose proof (signature_kind_of_code n) as H. split.
  - intros E. rewrite E in H. exact H.
  - intros Hin. destruct (varsig_of_code n) as [w|e|p|]; try contradiction.
    + f_equal. apply (signature_kinds_code_unique w v n); assumption.
    + destruct H as [_ H]. exfalso. apply H. apply (in_map snd) in Hin. exact Hin.
Qed.

Lemma signature_kind_err n e : varsig_of_code n = Err e <-> e = EVarsigPrefix /\ ~ In n (map snd signature_kinds).
Proof.
  pose proof (signature_kind_of_code n) as H. split.
  - intros E. rewrite E in H. exact H.
  - intros [-> Hn]. destruct (varsig_of_code n) as [w|e|p|]; try contradiction.
    + exfalso. apply Hn. apply (in_map snd) in H. exact H.
    + destruct H as [-> _]. reflexivity.
Qed.

Lemma alg_name a s : alg_to_string a = s <-> exists v, In (s, a, v) jwt_kinds.
Proof.
  split.
  - intros <-. destruct a; [exists VEdDSA | exists VRS256 | exists VES256 | exists VES384 | exists VES512]; cbv; tauto.
  - intros [v H]. cbn [jwt_kinds In] in H. repeat (destruct H as [H|H]; [injection H as <- <- <-; reflexivity|]). destruct H.
Qed.

Lemma alg_read s : match alg_of_string s with
  | Ok a => exists v, In (s, a, v) jwt_kinds
  | Err e => e = EAlgorithmName /\ forall a v, ~ In (s, a, v) jwt_kinds | _ => False end.
Proof.
  unfold alg_of_string.
  repeat match goal with |- context [bytes_eqb s ?k] => destruct (bytes_eqb_spec s k);
    [subst s; match goal with |- exists v, In (_, ?a, v) _ => exists (varsig_of_alg a); cbv; tauto end|] end.
  split; [reflexivity|]. intros a v H. cbn [jwt_kinds In] in H. repeat (destruct H as [H|H]; [congruence|]). destruct H.
Qed.

Lemma jwt_name_unique s a b v w : In (s, a, v) jwt_kinds -> In (s, b, w) jwt_kinds -> a = b /\ v = w.
Proof.
  cbn [jwt_kinds In]. intros H1 H2.
  repeat (destruct H1 as [H1|H1]; [injection H1 as E1 E2 E3; subst s a v;
    repeat (destruct H2 as [H2|H2]; [first [discriminate H2 | injection H2 as <- <-; split; reflexivity]|]); destruct H2|]). destruct H1.
Qed.

Lemma alg_read_ok s a : alg_of_string s = Ok a <-> exists v, In (s, a, v) jwt_kinds.
Proof.
  pose proof (alg_read s) as H. split.
  - intros E. rewrite E in H. exact H.
  - intros [v Hv]. destruct (alg_of_string s) as [b|e|p|]; try contradiction.
    + destruct H as [w Hw]. destruct (jwt_name_unique _ _ _ _ _ Hv Hw) as [-> _]. reflexivity.
    + destruct H as [_ H]. destruct (H _ _ Hv).
Qed.

Lemma alg_read_err s e : alg_of_string s = Err e <-> e = EAlgorithmName /\ forall a v, ~ In (s, a, v) jwt_kinds.
Proof.
  pose proof (alg_read s) as H. split.
  - intros E. rewrite E in H. exact H.
  - intros [-> Hn]. destruct (alg_of_string s) as [b|e|p|]; try contradiction.
    + destruct H as [w Hw]. destruct (Hn _ _ Hw).
    + destruct H as [-> _]. reflexivity.
Qed.

Lemma varsig_of_alg_kind a v : varsig_of_alg a = v <-> exists s, In (s, a, v) jwt_kinds.
Proof.
  split.
  - intros <-. exists (alg_to_string a). destruct a; cbv; tauto.
  - intros [s H]. cbn [jwt_kinds In] in H. repeat (destruct H as [H|H]; [injection H as <- <- <-; reflexivity|]). destruct H.
Qed.

Lemma kind_read_ok s v : varsig_of_string s = Ok v <-> exists a, In (s, a, v) jwt_kinds.
Proof.
  unfold varsig_of_string. split.
  - destruct (alg_of_string s) as [a|e|p|] eqn:E; try discriminate. cbn [rbind]. intros [= <-].
    apply alg_read_ok in E as [v Hv]. exists a. rewrite (proj2 (varsig_of_alg_kind a v) (ex_intro _ s Hv)). exact Hv.
  - intros [a Ha]. rewrite (proj2 (alg_read_ok s a) (ex_intro _ v Ha)). cbn [rbind].
    rewrite (proj2 (varsig_of_alg_kind a v) (ex_intro _ s Ha)). reflexivity.
Qed.

Lemma alg_of_kind v : match alg_of_varsig v with
  | Ok a => exists s, In (s, a, v) jwt_kinds | Err e => e = EVarsigAlgorithm /\ ~ In v (map snd jwt_kinds) | _ => False end.
Proof.
  destruct v; cbn [alg_of_varsig];
    first [match goal with |- exists s, In (s, ?a, _) _ => exists (alg_to_string a); cbv; tauto end
          | split; [reflexivity|]; cbn [jwt_kinds map snd In]; intros H; repeat (destruct H as [H|H]; [discriminate H|]); destruct H].
Qed.

Lemma alg_of_kind_ok v a : alg_of_varsig v = Ok a <-> exists s, In (s, a, v) jwt_kinds.
Proof.
  pose proof (alg_of_kind v) as H. split.
  - intros E. rewrite E in H. exact H.
  - intros [s Hs]. apply (ex_intro (fun s => In (s, a, v) jwt_kinds)) in Hs. apply varsig_of_alg_kind in Hs as <-. destruct a; reflexivity.
Qed.

Lemma alg_of_kind_err v e : alg_of_varsig v = Err e <-> e = EVarsigAlgorithm /\ ~ In v (map snd jwt_kinds).
Proof.
  pose proof (alg_of_kind v) as H. split.
  - intros E. rewrite E in H. exact H.
  - intros [-> Hn]. destruct (alg_of_varsig v) as [b|e|p|]; try contradiction.
    + destruct H as [w Hw]. exfalso. apply Hn. apply (in_map snd) in Hw. exact Hw.
    + destruct H as [-> _]. reflexivity.
Qed.

Lemma not_varint s : varint_decode s = None <-> forall c rest n, leb128 c n -> s <> c ++ rest.
Proof.
  split.
  - intros E c rest n Hc ->. rewrite (proj2 (varint_decode_iff (c ++ rest) n rest)) in E by eauto. discriminate.
  - intros H. destruct (varint_decode s) as [[n rest]|] eqn:E; [|reflexivity].
    apply varint_decode_iff in E as (c & -> & Hc). destruct (H c rest n Hc eq_refl).
Qed.

Lemma varint_at c n rest : leb128 c n -> varint_decode (c ++ rest) = Some (n, rest).
Proof. intros H. apply varint_decode_iff. eauto. Qed.

Lemma signature_fault_iff s e : signature_decode s = Err e <-> signature_fault s e.
Proof.
  unfold signature_decode. split.
  - destruct (varint_decode s) as [[n buf]|] eqn:E1; cbn [ok_or rbind].
    2:{ intros [= <-]. apply SF_code. apply not_varint. exact E1. }
    apply varint_decode_iff in E1 as (c & -> & Hc).
    destruct (varint_decode buf) as [[k buf']|] eqn:E2; cbn [ok_or rbind].
    2:{ intros [= <-]. apply (SF_length c buf n Hc). apply not_varint. exact E2. }
    apply varint_decode_iff in E2 as (l & -> & Hl).
    destruct (varsig_of_code n) as [v|e'|p|] eqn:E3; cbn [rbind].
    + apply signature_kind_ok in E3.
      destruct (alg_of_varsig v) as [a|e'|p|] eqn:E4; cbn [rbind].
      * destruct (k <=? N.of_nat (length buf'))%N; discriminate.
      * intros [= <-]. apply alg_of_kind_err in E4 as [-> Hn]. apply (SF_jwt c l buf' v n k); assumption.
      * discriminate.
      * discriminate.
    + intros [= <-]. apply signature_kind_err in E3 as [-> Hn]. apply (SF_kind c l buf' n k); assumption.
    + discriminate.
    + discriminate.
  - intros Hf. destruct Hf as [s Hn | c s n Hc Hn | c l rest n k Hc Hl Hn | c l rest v n k Hc Hl Hin Hn].
    + apply not_varint in Hn. rewrite Hn. reflexivity.
    + apply not_varint in Hn. rewrite (varint_at c n s Hc). cbn [ok_or rbind]. rewrite Hn. reflexivity.
    + rewrite (varint_at c n _ Hc). cbn [ok_or rbind]. rewrite (varint_at l k _ Hl). cbn [ok_or rbind].
      rewrite (proj2 (signature_kind_err n _) (conj eq_refl Hn)). reflexivity.
    + rewrite (varint_at c n _ Hc). cbn [ok_or rbind]. rewrite (varint_at l k _ Hl). cbn [ok_or rbind].
      rewrite (proj2 (signature_kind_ok n v) Hin). cbn [rbind]. rewrite (proj2 (alg_of_kind_err v _) (conj eq_refl Hn)). reflexivity.
Qed.

Lemma principal_iff s p : principle_of_string s = Ok p <-> principal_bytes s p.
Proof.
  unfold principle_of_string, principal_bytes. split.
  - destruct (strip_prefix did_key_prefix s) as [r|] eqn:E1.
    + apply strip_prefix_some in E1 as ->. destruct (b58_decode r) as [bs|] eqn:E2; [|discriminate]. intros [= <-].
      apply b58_decode_iff in E2 as ->. left. reflexivity.
    + destruct (strip_prefix did_prefix s) as [r|] eqn:E2; [|discriminate]. intros [= <-].
      apply strip_prefix_some in E2 as ->. right. exists r. split; [reflexivity|]. split; [|reflexivity].
      intros k ->. change (did_prefix ++ B "key:z" ++ k) with (did_key_prefix ++ k) in E1. rewrite strip_prefix_app in E1. discriminate.
  - intros [-> | (r & -> & Hn & ->)].
    + change (did_key_text p) with (did_key_prefix ++ b58_encode p). rewrite strip_prefix_app, b58_roundtrip. reflexivity.
    + destruct (strip_prefix did_key_prefix (B "did:" ++ r)) as [k|] eqn:E.
      * apply strip_prefix_some in E. change (did_key_prefix ++ k) with (B "did:" ++ B "key:z" ++ k) in E.
        apply app_inv_head in E. destruct (Hn k E).
      * change (B "did:") with did_prefix. rewrite strip_prefix_app. reflexivity.
Qed.

Lemma principal_fault_iff s e : principle_of_string s = Err e <-> principal_fault s e.
Proof.
  unfold principle_of_string. split.
  - destruct (strip_prefix did_key_prefix s) as [r|] eqn:E1.
    + apply strip_prefix_some in E1 as ->. destruct (b58_decode r) as [bs|] eqn:E2; [discriminate|]. intros [= <-].
      apply PF_base58. intros bs ->. rewrite b58_roundtrip in E2. discriminate.
    + destruct (strip_prefix did_prefix s) as [r|] eqn:E2; [discriminate|]. intros [= <-].
      apply PF_did. intros r ->. change (B "did:" ++ r) with (did_prefix ++ r) in E2. rewrite strip_prefix_app in E2. discriminate.
  - intros [t Hn | r Hn].
    + destruct (strip_prefix did_key_prefix t) as [k|] eqn:E1.
      { apply strip_prefix_some in E1 as ->. destruct (Hn (B "key:z" ++ k) eq_refl). }
      destruct (strip_prefix did_prefix t) as [k|] eqn:E2; [|reflexivity].
      apply strip_prefix_some in E2 as ->. destruct (Hn k eq_refl).
    + change (B "did:key:z" ++ r) with (did_key_prefix ++ r). rewrite strip_prefix_app.
      destruct (b58_decode r) as [bs|] eqn:E; [|reflexivity]. apply b58_decode_iff in E. destruct (Hn bs E).
Qed.

(* ---------------------------------------------------------------- C115 *)

Lemma blake2b_written X s token : exists c,
  fst (blake2b_write_token X s token) = Ok c /\ c = cid_new_v1 85 45600 (x_hash X 45600 token) /\
  mem_read (snd (blake2b_write_token X s token)) c = Ok (Some (IBytes token)) /\
  (forall d, d <> c -> mem_read (snd (blake2b_write_token X s token)) d = mem_read s d).
Proof.
  exists (cid_new_v1 85 45600 (x_hash X 45600 token)). unfold blake2b_write_token. cbn [raw_encode fst snd].
  split; [reflexivity|]. split; [reflexivity|]. split.
  - unfold mem_read. rewrite hget_hinsert. change raw_codec with 85%N. change blake2b_256 with 45600%N. rewrite cid_eqb_refl. reflexivity.
  - intros d Hd. unfold mem_read. rewrite hget_hinsert. change raw_codec with 85%N. change blake2b_256 with 45600%N.
    destruct (cid_eqb d (cid_new_v1 85 45600 (x_hash X 45600 token))) eqn:E; [|reflexivity]. apply cid_eqb_eq in E. contradiction.
Qed.

(** Citing with hash code [h] finds what a store keeps under that hash. *)
Lemma cited_under_hash E h u pu n : word h -> (length (x_hash (e_ext E) h (encode (e_ext E) u)) <= 64)%nat ->
  e_read E n (cid_new_v1 85 h (x_hash (e_ext E) h (encode (e_ext E) u))) = Ok (Some (IBytes (encode (e_ext E) u))) ->
  parse_token (e_ext E) (encode (e_ext E) u) = Ok pu ->
  resolves E (fun _ => True) (proof_text (e_ext E) u (Some h)) pu.
Proof.
  intros Hh Hl Hr Hp. exists (to_cid (e_ext E) h u), n, (encode (e_ext E) u). split.
  - unfold proof_text. apply parse_cid_text. unfold to_cid, cid_v1, cid_new_v1, raw_codec. simpl.
    split; [reflexivity|]. split; [unfold word; lia|]. split; [exact Hh|]. exact Hl.
  - split; [reflexivity|]. split; [exact I|]. split; [exact Hr|]. split; [apply encode_utf8 | exact Hp].
Qed.
