(** Facts about the DID parser and the supplied key types (C26-C31). *)
From Verif Require Export SMapFacts Base58Facts CapMapFacts Key Ipld KeySupport Builder Spec.

(** What a parse yields when nothing is cached. *)
Definition resolve (ctors : smap bytes ctor) (did : bytes) : res key :=
  match strip_prefix did_key_prefix did with
  | None => Err ENotDidKey
  | Some rest =>
      match b58_decode rest with
      | None => Err EBase58
      | Some (m0 :: m1 :: tl) =>
          match mget [m0; m1] ctors with
          | Some ctor => ctor tl
          | None => Err EUnknownMagic
          end
      | Some _ => Panic PDidSlice
      end
  end.

Definition cache_ok (p : did_parser) : Prop :=
  forall did k, mget did (dp_cache p) = Some k -> resolve (dp_ctors p) did = Ok k.

Lemma did_parse_spec p did : cache_ok p ->
  fst (did_parse p did) = resolve (dp_ctors p) did /\
  dp_ctors (snd (did_parse p did)) = dp_ctors p /\
  cache_ok (snd (did_parse p did)).
Proof.
  intros Hc. pose proof (Hc did) as Hcd. unfold did_parse, resolve in *.
  destruct (strip_prefix did_key_prefix did) as [rest|] eqn:Ep; [|auto].
  destruct (mget did (dp_cache p)) as [k|] eqn:Eg.
  { split; [|auto]. simpl. symmetry. apply (Hcd k eq_refl). }
  destruct (b58_decode rest) as [[|m0 [|m1 tl]]|] eqn:Eb; auto.
  destruct (mget [m0; m1] (dp_ctors p)) as [ct|] eqn:Em; auto.
  destruct (ct tl) as [k|e|q|] eqn:Ec; auto.
  simpl. rewrite mget_minsert_eq. split; [reflexivity|]. split; [reflexivity|].
  intros did' k'. simpl. destruct (bytes_dec did' did) as [->|Hne].
  - rewrite mget_minsert_eq. intros [= <-]. unfold resolve. rewrite Ep, Eb, Em. exact Ec.
  - rewrite mget_minsert_neq by exact Hne. apply Hc.
Qed.

Lemma did_parse_fail p did : (forall k, fst (did_parse p did) <> Ok k) -> snd (did_parse p did) = p.
Proof.
  unfold did_parse. destruct (strip_prefix did_key_prefix did); [|reflexivity].
  destruct (mget did (dp_cache p)); [reflexivity|].
  destruct (b58_decode b) as [[|m0 [|m1 tl]]|]; try reflexivity.
  destruct (mget [m0; m1] (dp_ctors p)) as [ct|]; [|reflexivity].
  destruct (ct tl) as [k|e|q|]; try reflexivity.
  simpl. rewrite mget_minsert_eq. intros Hk. exfalso. apply (Hk k). reflexivity.
Qed.

Lemma cache_ok_new slice : cache_ok (did_parser_new slice).
Proof. intros did k. discriminate. Qed.

Lemma parser_after_ok slice dids :
  cache_ok (parser_after slice dids) /\ dp_ctors (parser_after slice dids) = mof_list slice.
Proof.
  unfold parser_after. assert (forall p, cache_ok p -> dp_ctors p = mof_list slice ->
    cache_ok (fold_left (fun p d => snd (did_parse p d)) dids p) /\
    dp_ctors (fold_left (fun p d => snd (did_parse p d)) dids p) = mof_list slice) as Hf.
  { induction dids as [|d dids IH]; intros p Hc He; [auto|]. simpl.
    destruct (did_parse_spec p d Hc) as (_ & H1 & H2). apply IH; [exact H2 | congruence]. }
  apply Hf; [apply cache_ok_new | reflexivity].
Qed.

Lemma parser_after_resolve slice dids did :
  fst (did_parse (parser_after slice dids) did) = resolve (mof_list slice) did.
Proof.
  destruct (parser_after_ok slice dids) as [H1 H2]. rewrite <- H2. apply did_parse_spec, H1.
Qed.

Lemma cache_invisible slice dids did :
  fst (did_parse (parser_after slice dids) did) = fst (did_parse (did_parser_new slice) did).
Proof. rewrite parser_after_resolve. symmetry. apply (parser_after_resolve slice []). Qed.

(* ----------------------------------------------------------------- dispatch *)

Lemma last_for_some {V} (k : bytes) (l : list (bytes * V)) v : forall d,
  last_for k l d = Some v <->
  (exists a b, l = a ++ (k, v) :: b /\ ~ In k (map fst b)) \/ (~ In k (map fst l) /\ d = Some v).
Proof.
  induction l as [|[k' v'] l IH]; intros d.
  - simpl. split; [intros ->; right; auto|].
    intros [(a & b & E & _) | [_ ->]]; [destruct a; discriminate | reflexivity].
  - cbn [last_for]. rewrite IH. clear IH. destruct (cmp_dec k k') as [->|Hne].
    + rewrite cmp_refl. split.
      * intros [(a & b & -> & Hn) | [Hn [= ->]]].
        -- left. exists ((k', v') :: a), b. auto.
        -- left. exists [], l. auto.
      * intros [(a & b & E & Hn) | [Hn _]]; [|exfalso; apply Hn; left; reflexivity].
        destruct a as [|x a]; simpl in E; injection E as E1 E2.
        -- right. subst. auto.
        -- left. exists a, b. auto.
    + assert (cmp k k' <> Eq) as Hc by (rewrite cmp_eq; exact Hne).
      assert ((match cmp k k' with Eq => Some v' | _ => d end) = d) as -> by (destruct (cmp k k'); congruence).
      split.
      * intros [(a & b & -> & Hn) | [Hn ->]].
        -- left. exists ((k', v') :: a), b. auto.
        -- right. split; [|reflexivity]. intros [E | E]; [simpl in E; congruence | exact (Hn E)].
      * intros [(a & b & E & Hn) | [Hn ->]].
        -- destruct a as [|x a]; simpl in E; injection E as E1 E2; [congruence|].
           left. exists a, b. auto.
        -- right. split; [|reflexivity]. intros E. apply Hn. right. exact E.
Qed.

Lemma registered_iff slice m c : registered slice m c <-> mget m (mof_list slice) = Some c.
Proof.
  rewrite mget_mof_list, last_for_some. unfold registered. split; [left; assumption|].
  intros [Hx | [_ Hx]]; [exact Hx | discriminate].
Qed.

Lemma last_for_default {V} (k : bytes) (l : list (bytes * V)) : forall w, last_for k l (Some w) <> None.
Proof.
  induction l as [|[a b] l IH]; intros w; [discriminate|]. cbn [last_for]. destruct (cmp k a); apply IH.
Qed.

Lemma not_registered_iff (slice : list (bytes * ctor)) m : mget m (mof_list slice) = None <-> ~ In m (map fst slice).
Proof.
  rewrite mget_mof_list. split; [|apply last_for_notin].
  induction slice as [|[k v] l IH]; intros E Hin; [contradiction|].
  cbn [last_for] in E. destruct Hin as [Hin | Hin].
  - simpl in Hin. subst. rewrite cmp_refl in E. apply (last_for_default _ _ _ E).
  - destruct (cmp m k); [apply (last_for_default _ _ _ E) | |]; apply (IH E Hin).
Qed.

Lemma strip_none_iff did : strip_prefix did_key_prefix did = None <-> forall r, did <> B "did:key:z" ++ r.
Proof.
  split.
  - intros E r ->. change (B "did:key:z") with did_key_prefix in E. rewrite strip_prefix_app in E. discriminate.
  - intros Hn. destruct (strip_prefix did_key_prefix did) eqn:E; [|reflexivity].
    apply strip_prefix_some in E. exfalso. apply (Hn _ E).
Qed.

Lemma did_text_decode did bs : did = did_key_text bs <->
  exists r, strip_prefix did_key_prefix did = Some r /\ b58_decode r = Some bs.
Proof.
  unfold did_key_text. split.
  - intros ->. exists (b58_encode bs). split; [apply strip_prefix_app | apply b58_roundtrip].
  - intros (r & E & D). apply strip_prefix_some in E. apply b58_decode_iff in D. subst. reflexivity.
Qed.

Lemma did_key_text_inj x y : did_key_text x = did_key_text y -> x = y.
Proof. unfold did_key_text. intros E. apply app_inv_head in E. apply b58_encode_inj, E. Qed.

Lemma resolve_text ctors bs : resolve ctors (did_key_text bs) =
  match bs with
  | m0 :: m1 :: tl => match mget [m0; m1] ctors with Some c => c tl | None => Err EUnknownMagic end
  | _ => Panic PDidSlice
  end.
Proof.
  unfold resolve. destruct (proj1 (did_text_decode _ bs) eq_refl) as (r & -> & ->). reflexivity.
Qed.

Lemma resolve_magic ctors m tl : length m = 2%nat -> resolve ctors (did_key_text (m ++ tl)) =
  match mget m ctors with Some c => c tl | None => Err EUnknownMagic end.
Proof.
  intros Hm. rewrite resolve_text. destruct m as [|m0 [|m1 [|? ?]]]; try discriminate. reflexivity.
Qed.

Lemma dispatch slice dids m c tl : length m = 2%nat -> registered slice m c ->
  fst (did_parse (parser_after slice dids) (did_key_text (m ++ tl))) = c tl.
Proof.
  intros Hm Hr. apply registered_iff in Hr. rewrite parser_after_resolve, resolve_magic by exact Hm.
  exact (f_equal (fun o : option ctor => match o with Some c => c tl | None => Err EUnknownMagic end) Hr).
Qed.

Lemma dispatch_unknown slice dids m tl : length m = 2%nat -> ~ In m (map fst slice) ->
  fst (did_parse (parser_after slice dids) (did_key_text (m ++ tl))) = Err EUnknownMagic.
Proof.
  intros Hm Hr. apply not_registered_iff in Hr. rewrite parser_after_resolve, resolve_magic by exact Hm.
  exact (f_equal (fun o : option ctor => match o with Some c => c tl | None => Err EUnknownMagic end) Hr).
Qed.

Lemma dispatch_other slice dids did : (forall r, did <> B "did:key:z" ++ r) ->
  fst (did_parse (parser_after slice dids) did) = Err ENotDidKey.
Proof.
  intros Hn. rewrite parser_after_resolve. unfold resolve. apply strip_none_iff in Hn. rewrite Hn. reflexivity.
Qed.

Lemma dispatch_bad_base58 slice dids r : (forall bs, r <> b58_encode bs) ->
  fst (did_parse (parser_after slice dids) (B "did:key:z" ++ r)) = Err EBase58.
Proof.
  intros Hn. rewrite parser_after_resolve. unfold resolve. change (B "did:key:z") with did_key_prefix.
  rewrite strip_prefix_app. destruct (b58_decode r) eqn:E; [|reflexivity].
  apply b58_decode_iff in E. exfalso. apply (Hn _ E).
Qed.

Lemma did_parse_ok_iff slice dids did k :
  fst (did_parse (parser_after slice dids) did) = Ok k <->
  exists m c rest, length m = 2%nat /\ did = did_key_text (m ++ rest) /\
                   registered slice m c /\ c rest = Ok k.
Proof.
  split.
  - rewrite parser_after_resolve. unfold resolve.
    destruct (strip_prefix did_key_prefix did) as [r|] eqn:Ep; [|discriminate].
    destruct (b58_decode r) as [[|m0 [|m1 tl]]|] eqn:Eb; try discriminate.
    match goal with |- context [mget ?a ?b] => destruct (mget a b) as [c|] eqn:Em end; [|discriminate].
    intros Hk. exists [m0; m1], c, tl. split; [reflexivity|]. split; [|split; [|exact Hk]].
    + apply did_text_decode. exists r. auto.
    + apply registered_iff, Em.
  - intros (m & c & rest & Hm & -> & Hr & Hk). rewrite (dispatch slice dids m c rest Hm Hr). exact Hk.
Qed.

Lemma did_parse_panic_iff slice dids did q :
  (forall m c bs q', In (m, c) slice -> c bs <> Panic q') ->
  (fst (did_parse (parser_after slice dids) did) = Panic q <->
   q = PDidSlice /\ exists bs, (length bs < 2)%nat /\ did = did_key_text bs).
Proof.
  intros Hc. split.
  - rewrite parser_after_resolve. unfold resolve.
    destruct (strip_prefix did_key_prefix did) as [r|] eqn:Ep; [|discriminate].
    destruct (b58_decode r) as [[|m0 [|m1 tl]]|] eqn:Eb; try discriminate.
    + intros [= <-]. split; [reflexivity|]. exists []. split; [simpl; lia|].
      apply did_text_decode. exists r. auto.
    + intros [= <-]. split; [reflexivity|]. exists [m0]. split; [simpl; lia|].
      apply did_text_decode. exists r. auto.
    + match goal with |- context [mget ?a ?b] => destruct (mget a b) as [c|] eqn:Em end; [|discriminate].
      intros Hp. exfalso. apply registered_iff in Em as (a & b & -> & _).
      eapply Hc; [|exact Hp]. apply in_or_app. right. left. reflexivity.
  - intros (-> & bs & Hl & ->). rewrite parser_after_resolve, resolve_text.
    destruct bs as [|? [|? ?]]; try reflexivity. simpl in Hl. lia.
Qed.

(* ---------------------------------------------------------------- key types *)

Lemma supported_did m b k : supported_key m b k -> key_did k = Ok (did_key_text (m ++ b)) /\ length m = 2%nat.
Proof.
  intros [Pub Priv C pk sk b' E | Pub Priv C pk sk b' E | Pub Priv C sha pk sk b' E];
    cbn [key_did ed25519_key p256_key rsa_key]; rewrite E; auto.
Qed.

Lemma supported_resolves m b k slice dids c did : supported_key m b k -> key_did k = Ok did ->
  registered slice m c -> fst (did_parse (parser_after slice dids) did) = c b.
Proof.
  intros Hs Hd Hr. apply supported_did in Hs as [Hs Hm]. rewrite Hs in Hd. injection Hd as <-.
  apply dispatch; assumption.
Qed.

Lemma supported_did_inj m b k m' b' k' : supported_key m b k -> supported_key m' b' k' ->
  key_did k = key_did k' -> m = m' /\ b = b' /\ key_alg k = key_alg k'.
Proof.
  intros H1 H2 E. pose proof (supported_did _ _ _ H1) as [E1 L1]. pose proof (supported_did _ _ _ H2) as [E2 L2].
  rewrite E1, E2 in E. assert (did_key_text (m ++ b) = did_key_text (m' ++ b')) as E0 by congruence. clear E. apply did_key_text_inj in E0 as E. clear E0.
  assert (m = m' /\ b = b') as [-> ->].
  { destruct m as [|x [|y [|? ?]]]; try discriminate. destruct m' as [|x' [|y' [|? ?]]]; try discriminate.
    simpl in E. injection E as -> -> ->. auto. }
  split; [reflexivity|]. split; [reflexivity|]. destruct H1; inversion H2; reflexivity.
Qed.

Lemma public_only_sign k d : public_only k -> key_sign k d = Err ENoPrivateKey.
Proof. intros []; reflexivity. Qed.

Lemma public_only_did k : public_only k -> exists did, key_did k = Ok did.
Proof. intros []; eexists; reflexivity. Qed.

Lemma public_only_never_signs X rng s u : public_only (s_issuer s) -> sign X rng s <> Ok u.
Proof.
  intros Hp. unfold sign. destruct (ucan_payload rng s) as [p| | |]; try discriminate.
  simpl. rewrite (public_only_sign _ _ Hp). discriminate.
Qed.

Lemma public_only_sign_error X rng s : public_only (s_issuer s) ->
  (forall c, In c (s_capabilities s) -> object_caveat (cap_caveat c)) ->
  sign X rng s = Err ENoPrivateKey.
Proof.
  intros Hp Hc. destruct (public_only_did _ Hp) as [did Hd].
  destruct (caps_of_list_ok _ Hc) as [m Hm].
  unfold sign, ucan_payload. rewrite Hd. cbn [rbind]. rewrite Hm. cbn [rbind].
  rewrite public_only_sign by exact Hp. reflexivity.
Qed.

Lemma standard_ctor_public m c b k : standard_ctor m c -> c b = Ok k -> public_only k.
Proof.
  intros []; unfold bytes_to_ed25519_key, bytes_to_p256_key, bytes_to_rsa_key;
    destruct (cr_decode C b) as [pk|]; try discriminate; intros [= <-]; constructor.
Qed.

Lemma parsed_key_public slice dids did k : (forall m c, In (m, c) slice -> standard_ctor m c) ->
  fst (did_parse (parser_after slice dids) did) = Ok k -> public_only k.
Proof.
  intros Hs Hk. apply did_parse_ok_iff in Hk as (m & c & rest & _ & _ & (a & b & -> & _) & Hk).
  eapply standard_ctor_public; [|exact Hk]. apply (Hs m). apply in_or_app. right. left. reflexivity.
Qed.

(** The key a DID resolves to under the standard constructor of its type. *)
Lemma ed25519_roundtrip {Pub Priv} (C : crypto Pub Priv) pk sk b did slice dids :
  cr_encode C pk = Some b -> cr_decode C b = Some pk ->
  key_did (ed25519_key C pk sk) = Ok did -> registered slice [xed; x01] (bytes_to_ed25519_key C) ->
  fst (did_parse (parser_after slice dids) did) = Ok (ed25519_key C pk None).
Proof.
  intros He Hd Hk Hr. rewrite (supported_resolves _ b (ed25519_key C pk sk) slice dids _ did (SK_ed25519 _ _ _ _ He) Hk Hr).
  unfold bytes_to_ed25519_key. rewrite Hd. reflexivity.
Qed.

Lemma p256_roundtrip {Pub Priv} (C : crypto Pub Priv) pk sk b did slice dids :
  cr_encode C pk = Some b -> cr_decode C b = Some pk ->
  key_did (p256_key C pk sk) = Ok did -> registered slice [x80; x24] (bytes_to_p256_key C) ->
  fst (did_parse (parser_after slice dids) did) = Ok (p256_key C pk None).
Proof.
  intros He Hd Hk Hr. rewrite (supported_resolves _ b (p256_key C pk sk) slice dids _ did (SK_p256 _ _ _ _ He) Hk Hr).
  unfold bytes_to_p256_key. rewrite Hd. reflexivity.
Qed.

Lemma rsa_roundtrip {Pub Priv} (C : crypto Pub Priv) sha pk sk b did slice dids :
  cr_encode C pk = Some b -> cr_decode C b = Some pk ->
  key_did (rsa_key C sha pk sk) = Ok did -> registered slice [x85; x24] (bytes_to_rsa_key C sha) ->
  fst (did_parse (parser_after slice dids) did) = Ok (rsa_key C sha pk None).
Proof.
  intros He Hd Hk Hr. rewrite (supported_resolves _ b (rsa_key C sha pk sk) slice dids _ did (SK_rsa _ sha _ _ _ He) Hk Hr).
  unfold bytes_to_rsa_key. rewrite Hd. reflexivity.
Qed.
