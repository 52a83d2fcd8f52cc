(** Facts about parsing, signing and checking tokens (C18-C25, C60, C74). *)
From Coq Require Import Sorting.Permutation.
From Verif Require Export TokenFacts TimeFacts.

(* ----------------------------------------------------------------- parsing *)

(** C18 *)
Lemma parse_token_covers X t u : parse_token X t = Ok u ->
  exists H P S rest hj pj,
    t = H ++ B "." ++ P ++ B "." ++ S ++ rest /\ (rest = [] \/ exists r, rest = B "." ++ r) /\
    ~ In x2e H /\ ~ In x2e P /\ ~ In x2e S /\
    u_signed_data u = H ++ B "." ++ P /\
    H = b64_encode hj /\ header_of_json X hj = Some (u_header u) /\
    P = b64_encode pj /\ payload_of_json X pj = Some (u_payload u) /\
    S = b64_encode (u_signature u).
Proof.
  intros Hp. apply parse_token_iff in Hp as (h64 & p64 & s64 & more & hj & pj & Es & E1 & E2 & E3 & E4 & E5 & E6).
  destruct (split_on_join x2e t) as [Hj Hf]. rewrite Es in Hj, Hf.
  inversion Hf as [|? ? Hh Hf']; subst. inversion Hf' as [|? ? Hp Hf'']; subst. inversion Hf'' as [|? ? Hs _]; subst.
  exists h64, p64, s64, (match more with [] => [] | _ => x2e :: join x2e more end), hj, pj.
  split.
  { destruct more as [|m more]; cbn [join]; change (B ".") with [x2e]; cbn [app]; [rewrite app_nil_r; reflexivity|].
    reflexivity. }
  split; [destruct more as [|m more]; [left; reflexivity | right; eexists; reflexivity]|].
  repeat (split; [assumption|]). split; [apply b64_decode_iff, E1|]. split; [assumption|]. split; [apply b64_decode_iff, E3|].
  split; [assumption|]. apply b64_decode_iff, E5.
Qed.

Lemma split_on_length sep t : length (split_on sep t) = S (count_occ Byte.byte_eq_dec t sep).
Proof.
  induction t as [|c t IH]; [reflexivity|]. cbn [split_on count_occ]. pose proof (split_on_nonnil sep t).
  destruct (split_on sep t) as [|x l]; [contradiction|]. cbn [length] in IH.
  destruct (Byte.byte_eq_dec c sep) as [->|Hn].
  - rewrite byte_eqb_refl. cbn [length]. lia.
  - apply byte_eqb_neq in Hn. rewrite Hn. cbn [length]. lia.
Qed.

Lemma split_on_app_any sep a b : exists l x y m, split_on sep a = l ++ [x] /\ split_on sep b = y :: m /\
  split_on sep (a ++ b) = l ++ (x ++ y) :: m.
Proof.
  pose proof (split_on_nonnil sep b). destruct (split_on sep b) as [|y m] eqn:Eb; [contradiction|].
  induction a as [|c a (l & x & y' & m' & H1 & [= <- <-] & H3)].
  - exists [], [], y, m. repeat split. exact Eb.
  - destruct (Byte.eqb c sep) eqn:Ec; cbn [app split_on].
    + exists ([] :: l), x, y, m. rewrite H1, H3, Ec.
      split; [destruct l; reflexivity|]. split; [reflexivity|]. destruct l; reflexivity.
    + destruct l as [|l0 l].
      * exists [], (c :: x), y, m. rewrite H1, H3, Ec. repeat split.
      * exists ((c :: l0) :: l), x, y, m. rewrite H1, H3, Ec. repeat split.
Qed.

Lemma split_on_dot t r : split_on x2e (t ++ B "." ++ r) = split_on x2e t ++ split_on x2e r.
Proof.
  destruct (split_on_app_any x2e t (B "." ++ r)) as (l & x & y & m & H1 & H2 & ->).
  change (B "." ++ r) with (x2e :: r) in H2. cbn [split_on] in H2. pose proof (split_on_nonnil x2e r).
  destruct (split_on x2e r) as [|z n]; [contradiction|]. rewrite byte_eqb_refl in H2. injection H2 as <- <-.
  rewrite app_nil_r, H1, <- app_assoc. reflexivity.
Qed.

(** C19: segments after the third are ignored; fewer than three are an error. *)
Lemma extra_segments_ignored X t r : (2 <= count_occ Byte.byte_eq_dec t x2e)%nat ->
  parse_token X (t ++ B "." ++ r) = parse_token X t.
Proof.
  intros Hc. unfold parse_token. rewrite split_on_dot.
  pose proof (split_on_length x2e t) as Hl. destruct (split_on x2e t) as [|a [|b [|c l]]]; cbn [length] in Hl; try lia.
  reflexivity.
Qed.

Lemma two_dots_needed X t u : parse_token X t = Ok u -> (2 <= count_occ Byte.byte_eq_dec t x2e)%nat.
Proof.
  intros Hp. apply parse_token_iff in Hp as (h64 & p64 & s64 & more & hj & pj & Es & _).
  pose proof (split_on_length x2e t) as Hl. rewrite Es in Hl. cbn [length] in Hl. lia.
Qed.

Lemma parse_token_no_panic X t : (exists u, parse_token X t = Ok u) \/ (exists e, parse_token X t = Err e).
Proof.
  unfold parse_token.
  destruct (split_on x2e t) as [|h64 segs]; [right; eexists; reflexivity|].
  destruct segs as [|p64 [|s64 more]]; cbn [nth_error ok_or rbind]; unfold ok_or;
  repeat match goal with
  | |- context [match ?o with Some _ => _ | None => _ end] => destruct o; cbn [rbind]
  end; first [right; eexists; reflexivity | left; eexists; reflexivity].
Qed.

(** C20 *)
Lemma reencode_canonical X t u : floats_survive X -> parse_token X t = Ok u -> payload_unreserved (u_payload u) ->
  (encode X u = t <-> exists v, ucan_carried X v /\ t = encode X v).
Proof.
  intros HF Hp Hu. pose proof (parse_token_carried X t u HF Hp Hu) as Hc. split.
  - intros <-. exists u. split; [exact Hc | reflexivity].
  - intros (v & Hv & ->). rewrite token_roundtrip in Hp by exact Hv. injection Hp as Hp.
    assert (content v = content u) as E.
    { rewrite <- Hp. reflexivity. }
    unfold content in E. injection E as E1 E2 E3. unfold encode. rewrite E1, E2, E3. reflexivity.
Qed.

(** C74 *)
Lemma opt_none_iff {A} k (f : ipld -> option A) m o : opt k f m = Some o ->
  (o = None <-> mget k m = None \/ mget k m = Some INull).
Proof.
  unfold opt. destruct (mget k m) as [i|]; [|intros [= <-]; tauto].
  destruct i; try (destruct (f _); [|discriminate]; intros [= <-]; split; [discriminate | intros [H | H]; discriminate]).
  intros [= <-]. tauto.
Qed.

Lemma payload_exp X m p : payload_of_ipld X (IMap m) = Some p ->
  (p_exp p = None <-> mget (B "exp") m = None \/ mget (B "exp") m = Some INull) /\
  (forall e, p_exp p = Some e <-> mget (B "exp") m = Some (IInt (Z.of_N e)) /\ (e <= 18446744073709551615)%N).
Proof.
  cbn [payload_of_ipld]. intros Hp.
  destruct (req (B "ucv") str_of_ipld m) as [ucv|]; [|discriminate].
  destruct (req (B "iss") str_of_ipld m) as [iss|]; [|discriminate].
  destruct (req (B "aud") str_of_ipld m) as [aud|]; [|discriminate].
  destruct (opt (B "exp") u64_of_ipld m) as [exp|] eqn:E4; [|discriminate].
  destruct (opt (B "nbf") u64_of_ipld m) as [nbf|]; [|discriminate].
  destruct (opt (B "nnc") str_of_ipld m) as [nnc|]; [|discriminate].
  destruct (req (B "cap") (caps_of_ipld X) m) as [cap|]; [|discriminate].
  destruct (opt (B "fct") (map_of_ipld (value_of_ipld X)) m) as [fct|]; [|discriminate].
  destruct (opt (B "prf") (list_of_ipld str_of_ipld) m) as [prf|]; [|discriminate].
  injection Hp as <-. cbn [p_exp]. split; [apply (opt_none_iff _ _ _ _ E4)|].
  intros e. unfold opt in E4. destruct (mget (B "exp") m) as [i|]; [|injection E4 as <-; split; [discriminate | intros [H _]; discriminate]].
  destruct i as [| |z| | | | | |]; try discriminate.
  - injection E4 as <-; split; [discriminate | intros [H _]; discriminate].
  - cbn [u64_of_ipld] in E4. destruct (_ && _)%bool eqn:E; [|discriminate]. injection E4 as <-. unfold u64_max in E. split.
    + intros [= <-]. split; [|lia]. rewrite Z2N.id by lia. reflexivity.
    + intros [[= ->] He]. rewrite N2Z.id. reflexivity.
Qed.

Lemma parse_token_exp X t u : parse_token X t = Ok u ->
  exists H P r pj m, t = H ++ B "." ++ P ++ B "." ++ r /\ ~ In x2e H /\ ~ In x2e P /\ P = b64_encode pj /\
    dagjson_decode X pj = Some (IMap m) /\
    (p_exp (u_payload u) = None <-> mget (B "exp") m = None \/ mget (B "exp") m = Some INull) /\
    (forall e, p_exp (u_payload u) = Some e <-> mget (B "exp") m = Some (IInt (Z.of_N e)) /\ (e <= 18446744073709551615)%N).
Proof.
  intros Hp. apply parse_token_covers in Hp as (H & P & S & rest & hj & pj & Ht & _ & H1 & H2 & _ & _ & _ & _ & H3 & H4 & _).
  unfold payload_of_json in H4. destruct (dagjson_decode X pj) as [i|] eqn:E; [|discriminate].
  destruct i as [| | | | | | |m|]; try discriminate. apply payload_exp in H4.
  exists H, P, (S ++ rest), pj, m. split; [exact Ht|]. tauto.
Qed.

(* ------------------------------------------------------------------ signing *)

(** C23 *)
Lemma sign_verifies X rng s u k st : sign X rng s = Ok u ->
  (forall d g, key_sign (s_issuer s) d = Ok g -> key_verify k d g = Ok tt) ->
  (forall d, key_did (s_issuer s) = Ok d -> fst (did_parse (v_parser st) d) = Ok k) ->
  fst (check_signature u st) = Ok tt.
Proof.
  intros Hu Hv Hd. apply sign_iff in Hu as (_ & Hp & _ & Hs). apply check_signature_ok.
  exists k. apply ucan_payload_iff in Hp as (_ & Hi & _). split; [apply Hd, Hi | apply Hv, Hs].
Qed.

(** C25 *)
Lemma validate_signed E u nt st : fst (validate E u nt st) = Ok tt -> signed_by_issuer (v_parser st) u.
Proof. intros Hv. apply validate_ok_iff in Hv. tauto. Qed.

Lemma parsed_payload_authentic E t u nt st : parse_token (e_ext E) t = Ok u -> fst (validate E u nt st) = Ok tt ->
  exists k hj pj, fst (did_parse (v_parser st) (p_iss (u_payload u))) = Ok k /\
    key_verify k (b64_encode hj ++ B "." ++ b64_encode pj) (u_signature u) = Ok tt /\
    header_of_json (e_ext E) hj = Some (u_header u) /\ payload_of_json (e_ext E) pj = Some (u_payload u).
Proof.
  intros Hp Hv. apply parse_token_covers in Hp as (H & P & S & rest & hj & pj & _ & _ & _ & _ & _ & Hd & -> & Hh & -> & Hpl & _).
  apply validate_signed in Hv as (k & Hk & Hver). exists k, hj, pj. rewrite Hd in Hver. auto.
Qed.

Lemma constructor_forgery E u nt st h p : fst (validate E u nt st) = Ok tt ->
  p_iss p = p_iss (u_payload u) -> p_exp p = None -> p_nbf p = None ->
  fst (validate E (mkUcan h p (u_signed_data u) (u_signature u)) nt st) = Ok tt.
Proof.
  intros Hv Hi He Hn. apply validate_ok_iff in Hv as (_ & _ & Hs). apply validate_ok_iff. cbn [u_payload].
  split; [|split].
  - intros e. rewrite He. discriminate.
  - intros b. rewrite Hn. discriminate.
  - destruct Hs as (k & Hk & Hver). exists k. cbn [u_payload u_signed_data u_signature]. rewrite Hi. auto.
Qed.

(** C24 *)
Lemma header_irrelevant E h h' p d s nt st : fst (validate E (mkUcan h p d s) nt st) = fst (validate E (mkUcan h' p d s) nt st).
Proof. reflexivity. Qed.

Lemma sign_header X rng s u : sign X rng s = Ok u -> h_alg (u_header u) = key_alg (s_issuer s) /\ h_typ (u_header u) = B "JWT".
Proof. intros Hu. apply sign_iff in Hu as (-> & _). split; reflexivity. Qed.

(** C08 *)
Lemma sign_caps_shape X rng s u : sign X rng s = Ok u -> caps_shape (p_cap (u_payload u)) /\ no_empty_caveats (p_cap (u_payload u)).
Proof.
  intros Hu. apply sign_iff in Hu as (_ & Hp & _). apply ucan_payload_iff in Hp as (_ & _ & _ & _ & _ & _ & Hc & _).
  apply caps_of_list_spec in Hc as (_ & _ & Hf & Ho & _). split.
  - intros r abs Hr. split; [apply (Hf r abs Hr)|]. intros a cs Ha c Hin. eapply Ho; eassumption.
  - intros r abs Hr a cs Ha. apply (proj2 (Hf r abs Hr) a cs Ha).
Qed.

(* ---------------------------------------------------------- order of calls *)

Lemma caps_of_list_filters l l' : (forall r a, filter (same_key r a) l = filter (same_key r a) l') -> caps_of_list l = caps_of_list l'.
Proof.
  intros Hf. assert (Permutation l l') as Hp by (apply filters_permutation, Hf).
  assert ((forall c, In c l -> object_caveat (cap_caveat c)) \/ (exists c, In c l /\ ~ object_caveat (cap_caveat c))) as [Ho | (c & Hc & Hn)].
  { clear. induction l as [|c l [IH | IH]]; [left; intros ? []| |].
    - destruct (is_object (cap_caveat c)) eqn:E.
      + apply is_object_iff in E. left. intros d [<- | Hd]; auto.
      + right. exists c. split; [left; reflexivity|]. rewrite <- is_object_iff. congruence.
    - destruct IH as (d & Hd & Hn). right. exists d. split; [right; exact Hd | exact Hn]. }
  - destruct (caps_of_list_ok l Ho) as [m Hm]. destruct (caps_of_list_ok l') as [m' Hm'].
    { intros c Hc. apply Ho. eapply Permutation_in; [apply Permutation_sym, Hp | exact Hc]. }
    rewrite Hm, Hm'. f_equal. apply caps_of_list_spec in Hm as (_ & Hs & Hfu & _ & Hl).
    apply caps_of_list_spec in Hm' as (_ & Hs' & Hfu' & _ & Hl'). apply lookup2_ext; try assumption.
    intros r a. rewrite Hl, Hl', Hf. reflexivity.
  - rewrite (caps_of_list_err l c Hc Hn), (caps_of_list_err l' c); [reflexivity | | exact Hn]. eapply Permutation_in; eassumption.
Qed.

(** Builder states that agree up to the order of independent claims. *)
Definition builder_like (b b' : builder) : Prop :=
  b_issuer b = b_issuer b' /\ b_audience b = b_audience b' /\ b_lifetime b = b_lifetime b' /\ b_expiration b = b_expiration b' /\
  b_not_before b = b_not_before b' /\ b_facts b = b_facts b' /\ b_proofs b = b_proofs b' /\ b_add_nonce b = b_add_nonce b' /\
  forall r a, filter (same_key r a) (b_capabilities b) = filter (same_key r a) (b_capabilities b').

Lemma builder_like_refl b : builder_like b b.
Proof. repeat split. Qed.
Lemma builder_like_trans a b c : builder_like a b -> builder_like b c -> builder_like a c.
Proof.
  intros (H1 & H2 & H3 & H4 & H5 & H6 & H7 & H8 & H9) (G1 & G2 & G3 & G4 & G5 & G6 & G7 & G8 & G9).
  do 8 (split; [congruence|]). intros r x. rewrite H9. apply G9.
Qed.

Lemma builder_like_step X b b' o : builder_like b b' -> builder_like (builder_step X b o) (builder_step X b' o).
Proof.
  destruct b as [i1 a1 c1 l1 e1 n1 f1 p1 k1], b' as [i2 a2 c2 l2 e2 n2 f2 p2 k2]. intros (H1 & H2 & H3 & H4 & H5 & H6 & H7 & H8 & H9).
  cbn [b_issuer b_audience b_lifetime b_expiration b_not_before b_facts b_proofs b_add_nonce b_capabilities] in *. subst.
  assert (forall l r a, filter (same_key r a) (c1 ++ l) = filter (same_key r a) (c2 ++ l)) as Ha.
  { intros l r a. rewrite !filter_app, H9. reflexivity. }
  destruct o as [k|a|n|n|n|k [v|]| |a h|c|l|a h]; cbn [builder_step]; try (repeat split; solve [apply H9 | apply Ha]).
  unfold builder_like. cbn [b_issuer b_audience b_lifetime b_expiration b_not_before b_facts b_proofs b_add_nonce b_capabilities].
  do 8 (split; [reflexivity|]). intros r x. destruct (parse_cap _ _ _ _ _ _); [apply Ha | apply H9].
Qed.

Lemma builder_like_run X ops : forall b b', builder_like b b' -> builder_like (fold_left (builder_step X) ops b) (fold_left (builder_step X) ops b').
Proof. induction ops as [|o ops IH]; intros b b' Hb; [exact Hb|]. apply IH, builder_like_step, Hb. Qed.

Lemma minsert_comm {V} k k' (v v' : V) (m : list (bytes * V)) : msorted m -> k <> k' -> minsert k v (minsert k' v' m) = minsert k' v' (minsert k v m).
Proof.
  intros Hs Hn. apply mget_ext; try (repeat apply minsert_sorted; assumption). intros x.
  destruct (cmp_dec x k) as [E | Hk]; destruct (cmp_dec x k') as [E' | Hk']; try subst x.
  - contradiction.
  - rewrite mget_minsert_eq, mget_minsert_neq, mget_minsert_eq by assumption. reflexivity.
  - rewrite mget_minsert_eq, mget_minsert_neq, mget_minsert_eq by assumption. reflexivity.
  - rewrite !mget_minsert_neq by assumption. reflexivity.
Qed.

Lemma same_key_other r a c d : cap_resource c <> cap_resource d \/ cap_ability c <> cap_ability d ->
  filter (same_key r a) [c; d] = filter (same_key r a) [d; c].
Proof.
  intros Hn. cbn [filter]. destruct (same_key r a c) eqn:Ec, (same_key r a d) eqn:Ed; try reflexivity.
  apply same_key_iff in Ec as [<- <-]. apply same_key_iff in Ed as [E1 E2]. destruct Hn; congruence.
Qed.

Lemma builder_like_swap X b a a' : msorted (b_facts b) -> independent a a' ->
  builder_like (builder_step X (builder_step X b (addition_op a)) (addition_op a')) (builder_step X (builder_step X b (addition_op a')) (addition_op a)).
Proof.
  destruct b as [i1 a1 c1 l1 e1 n1 f1 p1 k1]. cbn [b_facts]. intros Hs Hi.
  destruct a as [k v|c], a' as [k' v'|c']; cbn [addition_op builder_step independent] in *; unfold builder_like;
    cbn [b_issuer b_audience b_lifetime b_expiration b_not_before b_facts b_proofs b_add_nonce b_capabilities];
    do 5 (split; [reflexivity|]); (split; [try reflexivity | split; [reflexivity | split; [reflexivity|]]]); try reflexivity.
  - symmetry. apply minsert_comm; assumption.
  - intros r x. rewrite <- !app_assoc, !filter_app. f_equal. rewrite <- !filter_app. apply (same_key_other r x c c'). exact Hi.
Qed.

Lemma builder_step_facts X b o : msorted (b_facts b) -> msorted (b_facts (builder_step X b o)).
Proof. destruct b as [i1 a1 c1 l1 e1 n1 f1 p1 k1], o as [k|a|n|n|n|k [v|]| |a h|c|l|a h]; cbn; try trivial. apply minsert_sorted. Qed.

Lemma builder_run_facts X ops : forall b, msorted (b_facts b) -> msorted (b_facts (fold_left (builder_step X) ops b)).
Proof. induction ops as [|o ops IH]; intros b Hb; [exact Hb|]. apply IH, builder_step_facts, Hb. Qed.

Lemma independent_sym a b : independent a b -> independent b a.
Proof. destruct a, b; cbn; intuition congruence. Qed.

Lemma builder_like_perm X adds adds' : Permutation adds adds' -> ForallOrdPairs independent adds -> forall b, msorted (b_facts b) ->
  builder_like (fold_left (builder_step X) (map addition_op adds) b) (fold_left (builder_step X) (map addition_op adds') b).
Proof.
  induction 1 as [|a l l' Hp IH|a a' l|l1 l2 l3 H1 IH1 H2 IH2]; intros Hd b Hb.
  - apply builder_like_refl.
  - inversion Hd; subst. cbn [map fold_left]. apply IH; [assumption | apply builder_step_facts, Hb].
  - inversion Hd as [|? ? Ha Hd']; subst. inversion Ha as [|? ? Ha' _]; subst. cbn [map fold_left].
    apply builder_like_run, builder_like_swap; [exact Hb | exact Ha'].
  - eapply builder_like_trans; [apply IH1; assumption | apply IH2; [|exact Hb]].
    clear -H1 Hd. assert (forall l l', Permutation l l' -> ForallOrdPairs independent l -> ForallOrdPairs independent l') as Hperm.
    { clear. induction 1 as [|a l l' Hp IH|a a' l|l1 l2 l3 H1 IH1 H2 IH2]; intros Hd; auto.
      - inversion Hd as [|? ? Ha Hd']; subst. constructor; [|auto]. eapply Permutation_Forall; eassumption.
      - inversion Hd as [|? ? Ha Hd']; subst. inversion Hd' as [|? ? Ha' Hd'']; subst. inversion Ha as [|? ? Hx Ha'']; subst.
        constructor; [constructor; [apply independent_sym, Hx | exact Ha'] | constructor; assumption]. }
    eapply Hperm; eassumption.
Qed.

Lemma builder_like_sign X t rng b b' : builder_like b b' ->
  (let? s := build X t b in sign X rng s) = (let? s := build X t b' in sign X rng s).
Proof.
  intros (H1 & H2 & H3 & H4 & H5 & H6 & H7 & H8 & H9). unfold build, implied_expiration. rewrite H1, H2, H3, H4, H5, H6, H7, H8.
  destruct (b_issuer b') as [k|]; [|reflexivity]. destruct (b_audience b') as [a|]; [|reflexivity].
  assert (forall e, sign X rng (mkSignable k a (b_capabilities b) e (b_not_before b') (b_facts b') (b_proofs b') (b_add_nonce b')) =
                    sign X rng (mkSignable k a (b_capabilities b') e (b_not_before b') (b_facts b') (b_proofs b') (b_add_nonce b'))) as Hs.
  { intros e. unfold sign, ucan_payload, ucan_header.
    cbn [s_issuer s_audience s_capabilities s_expiration s_not_before s_facts s_proofs s_add_nonce].
    rewrite (caps_of_list_filters _ _ H9). reflexivity. }
  destruct (b_expiration b') as [e|]; [apply Hs|]. destruct (b_lifetime b') as [l|]; [|apply Hs].
  cbn [rbind]. destruct (u64_add X t l); [apply Hs | reflexivity..].
Qed.

(** C60 *)
Lemma canonical_text X t rng before adds adds' after : Permutation adds adds' -> ForallOrdPairs independent adds ->
  (let? s := build X t (builder_run X (before ++ map addition_op adds ++ after)) in sign X rng s) =
  (let? s := build X t (builder_run X (before ++ map addition_op adds' ++ after)) in sign X rng s).
Proof.
  intros Hp Hi. apply builder_like_sign. unfold builder_run. rewrite !fold_left_app. apply builder_like_run, builder_like_perm; try assumption.
  apply builder_run_facts. constructor.
Qed.

Lemma signed_parses X rng s u : signable_carried X s -> sign X rng s = Ok u -> exists v, parse_token X (encode X u) = Ok v /\ content v = content u.
Proof. intros Hs Hu. exists u. split; [eapply sign_roundtrip; eassumption | reflexivity]. Qed.

Lemma sign_verifies_parsed X rng s u v k st : sign X rng s = Ok u -> signable_carried X s -> parse_token X (encode X u) = Ok v ->
  (forall d g, key_sign (s_issuer s) d = Ok g -> key_verify k d g = Ok tt) ->
  (forall d, key_did (s_issuer s) = Ok d -> fst (did_parse (v_parser st) d) = Ok k) ->
  fst (check_signature v st) = Ok tt.
Proof.
  intros Hu Hs Hp. rewrite (sign_roundtrip X rng s u Hs Hu) in Hp. injection Hp as <-. apply (sign_verifies X rng). exact Hu.
Qed.

Lemma sign_caps_shape_parsed X rng s u v : sign X rng s = Ok u -> signable_carried X s -> parse_token X (encode X u) = Ok v ->
  caps_shape (p_cap (u_payload v)) /\ no_empty_caveats (p_cap (u_payload v)).
Proof.
  intros Hu Hs Hp. rewrite (sign_roundtrip X rng s u Hs Hu) in Hp. injection Hp as <-. eapply sign_caps_shape, Hu.
Qed.
