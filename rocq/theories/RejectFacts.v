(** Why a proof chain is refused (C110-C112). *)
From Verif Require Import Prelude Ord SMap Base58 Value Utf8 Cid Url Ext Json Capability Semantics Key Ucan Store Chain Spec SpecChain SpecReject
  SpecWire SpecJson BaseNFacts TokenFacts WireFacts JsonGrammarFacts ChainFacts ChainMoreFacts.

(* ------------------------------------------------------------- C110: locality *)

Lemma local_validate E E' u nt st : e_ext E' = e_ext E -> (forall n, e_clock E' n = e_clock E n) -> validate E' u nt st = validate E u nt st.
Proof.
  intros Hx Hc. assert (forall s, now E' s = now E s) as Hn by (intros s; unfold now; rewrite Hc; reflexivity).
  unfold validate, is_expired, is_too_early, bind. destruct (p_exp (u_payload u)) as [x|].
  - destruct nt as [t|].
    + cbn [ret]. destruct (x <? t)%N; [reflexivity|]. destruct (p_nbf (u_payload u)); [rewrite Hn|]; reflexivity.
    + rewrite Hn. destruct (now E st) as [[t| | |] s]; try reflexivity. cbn [ret]. destruct (x <? t)%N; [reflexivity|].
      destruct (p_nbf (u_payload u)); [rewrite Hn|]; reflexivity.
  - cbn [ret]. destruct (p_nbf (u_payload u)); [rewrite Hn|]; reflexivity.
Qed.

Lemma bind_ext {A C} (m m' : M A) (f f' : A -> M C) st : m st = m' st -> (forall a s, m st = (Ok a, s) -> f a s = f' a s) ->
  bind m f st = bind m' f' st.
Proof. intros Hm Hf. unfold bind. rewrite <- Hm. destruct (m st) as [[a| | |] s]; try reflexivity. apply Hf. reflexivity. Qed.

Lemma mmap_ext {A C} (f f' : A -> M C) l : (forall a s, In a l -> f a s = f' a s) -> forall s, mmap f l s = mmap f' l s.
Proof.
  induction l as [|a l IH]; intros Hf s; [reflexivity|]. cbn [mmap]. apply bind_ext; [apply Hf; left; reflexivity|].
  intros b s' _. apply bind_ext; [apply IH; intros; apply Hf; right; assumption|]. reflexivity.
Qed.

Lemma local_from_ucan E E' nt fuel : forall u st, agree_below E E' u -> from_ucan E' nt fuel u st = from_ucan E nt fuel u st.
Proof.
  induction fuel as [|f IH]; intros u st (Hx & Hc & Hr); [reflexivity|]. rewrite !from_ucan_S, Hx.
  apply bind_ext; [apply local_validate; assumption|]. intros _ s1 _.
  apply bind_ext; [|reflexivity]. apply mmap_ext. intros text s Hin. unfold build_proof. rewrite Hx.
  apply bind_ext; [reflexivity|]. intros c s2 E1. apply lift_ok in E1 as [E1 ->]. apply ok_or_ok in E1.
  assert (require_token E' c s = require_token E c s) as Eq.
  { unfold require_token, read_token. apply bind_ext; [|reflexivity].
    destruct (N.eqb_spec (cid_codec c) raw_codec) as [Ec|Ec]; [|reflexivity]. cbn [negb]. apply bind_ext; [|reflexivity].
    unfold store_read. rewrite (Hr u text c (v_reads s) (Re_self E u) Hin E1 Ec). reflexivity. }
  apply bind_ext; [exact Eq|]. intros tok s3 E2. rewrite Eq in E2. apply bind_ext; [reflexivity|]. intros pu s4 E3. apply lift_ok in E3 as [E3 ->].
  apply bind_ext; [|reflexivity]. apply IH. split; [exact Hx|]. split; [exact Hc|].
  intros v t d n Hv Ht Hd Hk. apply (Hr v t); try assumption. econstructor; [|exact Hv].
  exists text. split; [exact Hin|]. apply require_token_ok in E2 as (K1 & K2 & K3 & _).
  exists c, (v_reads s), tok. repeat split; auto.
Qed.

(* --------------------------------------------------------- C112: bad tokens *)

Lemma header_segment_iff X s : header_segment X s <-> exists d h, b64_decode s = Some d /\ header_of_json X d = Some h.
Proof.
  assert (forall d m, dagjson_decode X d = Some (IMap m) <-> json_document X d (IMap m)) as H by (intros; apply dagjson_grammar; right; split; intros; discriminate).
  unfold header_segment. split.
  - intros (d & m & h & -> & H1 & H2). exists d, h. split; [rewrite <- b64_encode_rfc; apply b64_roundtrip | apply header_read_iff; exists m; rewrite H; auto].
  - intros (d & h & H1 & H2). apply b64_decode_iff in H1 as ->. apply header_read_iff in H2 as (m & K1 & K2). exists d, m, h. rewrite b64_encode_rfc. rewrite <- H. auto.
Qed.

Lemma payload_segment_iff X s : payload_segment X s <-> exists d p, b64_decode s = Some d /\ payload_of_json X d = Some p.
Proof.
  assert (forall d m, dagjson_decode X d = Some (IMap m) <-> json_document X d (IMap m)) as H by (intros; apply dagjson_grammar; right; split; intros; discriminate).
  unfold payload_segment. split.
  - intros (d & m & p & -> & H1 & H2). exists d, p. split; [rewrite <- b64_encode_rfc; apply b64_roundtrip | apply payload_read_iff; exists m; rewrite H; auto].
  - intros (d & p & H1 & H2). apply b64_decode_iff in H1 as ->. apply payload_read_iff in H2 as (m & K1 & K2). exists d, m, p. rewrite b64_encode_rfc. rewrite <- H. auto.
Qed.

Lemma not_base64_iff s : (forall d, s <> base64url d) <-> b64_decode s = None.
Proof.
  split.
  - intros H. destruct (b64_decode s) as [d|] eqn:E; [|reflexivity]. apply b64_decode_iff in E. rewrite b64_encode_rfc in E. destruct (H d E).
  - intros H d ->. rewrite <- b64_encode_rfc, b64_roundtrip in H. discriminate.
Qed.

Lemma b64_no_dot s d : b64_decode s = Some d -> ~ In x2e s.
Proof. intros H. apply b64_decode_iff in H as ->. apply b64_encode_no_dot. Qed.

Lemma segment_split s more : segment s more -> split_on x2e (s ++ more) = s :: match more with [] => [] | _ :: r => split_on x2e r end.
Proof.
  intros [Hn [-> | (r & ->)]]; [rewrite app_nil_r; apply split_on_none, Hn|]. change (B "." ++ r) with (x2e :: r). apply split_on_app, Hn.
Qed.

Lemma split_segment t s l : split_on x2e t = s :: l -> exists more, t = s ++ more /\ segment s more /\
  (l = [] /\ more = [] \/ exists r, more = B "." ++ r /\ split_on x2e r = l).
Proof.
  intros E. destruct (split_on_join x2e t) as [Hj Hf]. rewrite E in Hj, Hf. inversion Hf as [|? ? Hn Hl]; subst.
  destruct l as [|x l].
  - exists []. cbn [join]. rewrite app_nil_r. split; [reflexivity|]. split; [split; [exact Hn | left; reflexivity] | left; auto].
  - exists (B "." ++ join x2e (x :: l)). split; [reflexivity|]. split; [split; [exact Hn | right; eauto]|]. right. exists (join x2e (x :: l)).
    split; [reflexivity|]. clear E Hf Hn. revert x Hl. induction l as [|y l IH]; intros x Hl; inversion Hl as [|? ? Hx Hl']; subst.
    + cbn [join]. apply split_on_none, Hx.
    + change (join x2e (x :: y :: l)) with (x ++ x2e :: join x2e (y :: l)). rewrite split_on_app by exact Hx. f_equal. apply IH, Hl'.
Qed.

Lemma token_fault_iff X t e : parse_token X t = Err e <-> token_fault X t e.
Proof.
  split.
  - unfold parse_token. destruct (split_on x2e t) as [|h64 l] eqn:Es; [destruct (split_on_nonnil x2e t Es)|].
    destruct (split_segment _ _ _ Es) as (more & -> & Hseg & Hl). clear Es.
    assert (exists sd, (match h64 :: l with [] => Err EMissingSignedData | [a] => Ok a | a :: b :: _ => Ok (a ++ B "." ++ b) end) = Ok sd) as [sd ->]
      by (destruct l; eauto).
    cbn [rbind nth_error ok_or]. destruct (b64_decode h64) as [hj|] eqn:E1; cbn [rbind ok_or].
    2:{ intros [= <-]. apply TF_header_base64; [exact Hseg | apply not_base64_iff, E1]. }
    destruct (header_of_json X hj) as [h|] eqn:E2; cbn [rbind ok_or].
    2:{ intros [= <-]. pose proof E1 as E1'. apply b64_decode_iff in E1'. rewrite b64_encode_rfc in E1'. subst h64. apply TF_header_json; [exact Hseg|].
        intros Hh. apply header_segment_iff in Hh as (d & h & K1 & K2). congruence. }
    assert (header_segment X h64) as Hh by (apply header_segment_iff; eauto).
    destruct Hl as [[-> ->] | (r & -> & Er)]; [cbn [nth_error ok_or rbind]; intros [= <-]; rewrite app_nil_r; apply TF_no_payload, Hh|].
    destruct l as [|p64 l]; [destruct (split_on_nonnil x2e r Er)|]. destruct (split_segment _ _ _ Er) as (more & -> & Hseg' & Hl). clear Er.
    cbn [nth_error ok_or rbind]. destruct (b64_decode p64) as [pj|] eqn:E3; cbn [rbind ok_or].
    2:{ intros [= <-]. apply TF_payload_base64; [exact Hh | exact Hseg' | apply not_base64_iff, E3]. }
    destruct (payload_of_json X pj) as [p|] eqn:E4; cbn [rbind ok_or].
    2:{ intros [= <-]. pose proof E3 as E3'. apply b64_decode_iff in E3'. rewrite b64_encode_rfc in E3'. subst p64. apply TF_payload_json; [exact Hh | exact Hseg'|].
        intros Hp. apply payload_segment_iff in Hp as (d & p & K1 & K2). congruence. }
    assert (payload_segment X p64) as Hp by (apply payload_segment_iff; eauto).
    destruct Hl as [[-> ->] | (r & -> & Er)]; [cbn [nth_error ok_or rbind]; intros [= <-]; rewrite app_nil_r; apply TF_no_signature; assumption|].
    destruct l as [|s64 l]; [destruct (split_on_nonnil x2e r Er)|]. destruct (split_segment _ _ _ Er) as (more & -> & Hseg2 & _). clear Er.
    cbn [nth_error ok_or rbind]. destruct (b64_decode s64) as [sj|] eqn:E5; cbn [rbind ok_or]; [discriminate|].
    intros [= <-]. apply TF_signature_base64; [exact Hh | exact Hp | exact Hseg2 | apply not_base64_iff, E5].
  - assert (forall h r, header_segment X h -> exists d hh, split_on x2e (h ++ B "." ++ r) = h :: split_on x2e r /\ b64_decode h = Some d /\ header_of_json X d = Some hh) as HH.
    { intros h r Hh. apply header_segment_iff in Hh as (d & hh & K1 & K2). exists d, hh. split; [|auto].
      change (B "." ++ r) with (x2e :: r). apply split_on_app, (b64_no_dot _ _ K1). }
    assert (forall h r, payload_segment X h -> exists d hh, split_on x2e (h ++ B "." ++ r) = h :: split_on x2e r /\ b64_decode h = Some d /\ payload_of_json X d = Some hh) as PP.
    { intros h r Hh. apply payload_segment_iff in Hh as (d & hh & K1 & K2). exists d, hh. split; [|auto].
      change (B "." ++ r) with (x2e :: r). apply split_on_app, (b64_no_dot _ _ K1). }
    unfold parse_token.
    intros [s more Hs Hn | d more Hs Hn | h Hh | h s more Hh Hs Hn | h d more Hh Hs Hn | h p Hh Hp | h p s more Hh Hp Hs Hn].
    + rewrite segment_split by exact Hs. apply not_base64_iff in Hn. destruct more; [|destruct (split_on x2e more)];
        cbn [nth_error ok_or rbind]; rewrite Hn; reflexivity.
    + rewrite segment_split by exact Hs. assert (b64_decode (base64url d) = Some d) as Hd by (rewrite <- b64_encode_rfc; apply b64_roundtrip).
      assert (header_of_json X d = None) as He.
      { destruct (header_of_json X d) eqn:E; [|reflexivity]. destruct Hn. apply header_segment_iff. eauto. }
      destruct more; [|destruct (split_on x2e more)]; cbn [nth_error ok_or rbind]; rewrite Hd; cbn [ok_or rbind]; rewrite He; reflexivity.
    + apply header_segment_iff in Hh as (d & hh & K1 & K2). rewrite split_on_none by exact (b64_no_dot _ _ K1).
      cbn [nth_error ok_or rbind]. rewrite K1. cbn [ok_or rbind]. rewrite K2. reflexivity.
    + destruct (HH h (s ++ more) Hh) as (d & hh & -> & K1 & K2). rewrite segment_split by exact Hs. apply not_base64_iff in Hn.
      cbn [nth_error ok_or rbind]. rewrite K1. cbn [ok_or rbind]. rewrite K2. cbn [ok_or rbind]. rewrite Hn. reflexivity.
    + destruct (HH h (base64url d ++ more) Hh) as (d' & hh & -> & K1 & K2). rewrite segment_split by exact Hs.
      assert (b64_decode (base64url d) = Some d) as Hd by (rewrite <- b64_encode_rfc; apply b64_roundtrip).
      assert (payload_of_json X d = None) as He.
      { destruct (payload_of_json X d) eqn:E; [|reflexivity]. destruct Hn. apply payload_segment_iff. eauto. }
      cbn [nth_error ok_or rbind]. rewrite K1. cbn [ok_or rbind]. rewrite K2. cbn [ok_or rbind]. rewrite Hd. cbn [ok_or rbind]. rewrite He. reflexivity.
    + destruct (HH h p Hh) as (d' & hh & -> & K1 & K2). apply payload_segment_iff in Hp as (d & pp & L1 & L2).
      rewrite split_on_none by exact (b64_no_dot _ _ L1).
      cbn [nth_error ok_or rbind]. rewrite K1. cbn [ok_or rbind]. rewrite K2. cbn [ok_or rbind]. rewrite L1. cbn [ok_or rbind]. rewrite L2. reflexivity.
    + destruct (HH h (p ++ B "." ++ s ++ more) Hh) as (d' & hh & -> & K1 & K2). destruct (PP p (s ++ more) Hp) as (d & pp & -> & L1 & L2).
      rewrite segment_split by exact Hs. apply not_base64_iff in Hn.
      cbn [nth_error ok_or rbind]. rewrite K1. cbn [ok_or rbind]. rewrite K2. cbn [ok_or rbind]. rewrite L1. cbn [ok_or rbind]. rewrite L2. cbn [ok_or rbind]. rewrite Hn. reflexivity.
Qed.

(* ------------------------------------------------------------- C111: reasons *)

Lemma bind_err {A C} (m : M A) (f : A -> M C) st e st' : bind m f st = (Err e, st') ->
  m st = (Err e, st') \/ exists a s, m st = (Ok a, s) /\ f a s = (Err e, st').
Proof. unfold bind. destruct (m st) as [[a|e'| |] s]; intros Hb; try discriminate; [right; eauto | left; injection Hb as -> ->; reflexivity]. Qed.

Lemma lift_err {A} (r : res A) st e st' : lift r st = (Err e, st') -> r = Err e /\ st' = st.
Proof. intros [= -> <-]. auto. Qed.

Lemma resolve_fault slice did e : resolve (mof_list slice) did = Err e <-> did_fault slice did e.
Proof.
  split.
  - unfold resolve. destruct (strip_prefix did_key_prefix did) as [rest|] eqn:Ep.
    2:{ intros [= <-]. constructor. apply strip_none_iff, Ep. }
    destruct (b58_decode rest) as [bs|] eqn:Eb.
    2:{ intros [= <-]. apply strip_prefix_some in Ep. subst did. apply DF_base58. intros bs ->. rewrite (proj2 (b58_decode_iff _ _) eq_refl) in Eb. discriminate. }
    assert (did = did_key_text bs) as -> by (apply did_text_decode; exists rest; auto).
    destruct bs as [|m0 [|m1 tl]]; try discriminate.
    change (m0 :: m1 :: tl) with ([m0; m1] ++ tl).
    match goal with |- context [mget ?a ?b] => destruct (mget a b) as [c|] eqn:Em end.
    + intros He. apply (DF_key slice [m0; m1] c tl e); [reflexivity | apply registered_iff, Em | exact He].
    + intros [= <-]. apply DF_kind; [reflexivity | apply not_registered_iff, Em].
  - pose proof (fun d => parser_after_resolve slice [] d) as Hr. intros Hf. rewrite <- Hr.
    destruct Hf as [did Hn | r Hn | m rest Hm Hn | m c rest e Hm Hn He];
      [apply dispatch_other | apply dispatch_bad_base58 | apply dispatch_unknown | rewrite (dispatch slice [] m c rest)]; assumption.
Qed.

Lemma own_fault_mono E nt slice (T T' : nat -> Prop) u e : (forall n, T n -> T' n) -> own_fault E nt slice T u e -> own_fault E nt slice T' u e.
Proof.
  intros HT [x t H1 H2 H3 | b n H1 H2 H3 | e0 H1 | m c rest k e0 H1 H2 H3 H4 H5].
  - apply (OF_expired _ _ _ _ _ x t); auto. destruct nt; [exact H2|]. destruct H2 as (n & K1 & K2). eauto.
  - apply (OF_early _ _ _ _ _ b n); auto.
  - apply OF_issuer, H1.
  - apply (OF_signature _ _ _ _ _ m c rest k); assumption.
Qed.

Lemma link_fault_mono E (R R' : nat -> Prop) u e : (forall n, R n -> R' n) -> link_fault E R u e -> link_fault E R' u e.
Proof.
  intros HR. assert (forall t pu, resolves E R t pu -> resolves E R' t pu) as Hres.
  { intros t pu (c & n & tok & K1 & K2 & K3 & K4). exists c, n, tok. auto. }
  intros [text e0 H1 H2 | text pu H1 H2 H3 | text pu H1 H2 H3 | c i H1 H2 H3].
  - apply (LF_citation _ _ _ text); [exact H1|].
    destruct H2 as [K1 | c K1 K2 | c n e0 K1 K2 K3 | c n r K1 K2 K3 K4 | c n b K1 K2 K3 K4 | c n b e0 K1 K2 K3 K4];
      [apply CF_cid | apply (CF_codec _ _ _ c) | apply (CF_store _ _ _ c n) | apply (CF_absent _ _ _ c n r) | apply (CF_utf8 _ _ _ c n b) |
       apply (CF_token _ _ _ c n b)]; auto.
  - apply (LF_audience _ _ _ text pu); auto.
  - apply (LF_lifetime _ _ _ text pu); auto.
  - apply (LF_index _ _ _ c i); auto.
Qed.

Lemma validate_err E slice u nt st e st' : with_parser slice st -> validate E u nt st = (Err e, st') ->
  own_fault E nt slice (ticks_between st st') u e.
Proof.
  intros Hp Hv. unfold validate in Hv.
  assert (proper_m slice (is_expired E u nt)) as P1.
  { unfold is_expired. destruct (p_exp (u_payload u)); [|auto with proper]. apply proper_bind; auto with proper. destruct nt; auto with proper. }
  assert (proper_m slice (is_too_early E u)) as P2.
  { unfold is_too_early. destruct (p_nbf (u_payload u)); [|auto with proper]. apply proper_bind; auto with proper. }
  apply bind_err in Hv as [Hv | (b & s1 & H1 & Hv)].
  { exfalso. unfold is_expired in Hv. destruct (p_exp (u_payload u)); [|discriminate]. destruct nt; discriminate. }
  destruct b.
  { apply lift_err in Hv as [Hv ->]. injection Hv as <-. unfold is_expired in H1. destruct (p_exp (u_payload u)) as [x|] eqn:Ex; [|discriminate].
    apply bind_ok in H1 as (t & s & Ht & Hx). injection Hx as Hlt <-. apply N.ltb_lt in Hlt.
    apply (OF_expired _ _ _ _ _ x t); [exact Ex | | exact Hlt]. destruct nt as [t0|]; injection Ht as <- <-; [reflexivity|].
    exists (v_ticks st). split; [|reflexivity]. unfold ticks_between. simpl. lia. }
  specialize (P1 st). rewrite H1 in P1. cbn [snd] in P1.
  apply bind_err in Hv as [Hv | (b & s2 & H2 & Hv)].
  { exfalso. unfold is_too_early in Hv. destruct (p_nbf (u_payload u)); discriminate. }
  destruct b.
  { apply lift_err in Hv as [Hv ->]. injection Hv as <-. unfold is_too_early in H2. destruct (p_nbf (u_payload u)) as [x|] eqn:Ex; [|discriminate].
    apply bind_ok in H2 as (t & s & Ht & Hx). injection Hx as Hlt <-. apply N.ltb_lt in Hlt. injection Ht as <- <-.
    apply (OF_early _ _ _ _ _ x (v_ticks s1)); [exact Ex | | exact Hlt]. destruct P1 as (_ & P1 & _). unfold ticks_between. simpl. lia. }
  specialize (P2 s1). rewrite H2 in P2. cbn [snd] in P2.
  assert (with_parser slice s2) as [dids Hd] by (apply P2, P1, Hp).
  unfold check_signature in Hv. apply bind_err in Hv as [Hv | (k & s3 & H3 & Hv)].
  - apply OF_issuer, resolve_fault. unfold parse_did in Hv. rewrite Hd in Hv.
    destruct (did_parse (parser_after slice dids) (p_iss (u_payload u))) as [r q] eqn:Er. injection Hv as -> _.
    pose proof (parser_after_resolve slice dids (p_iss (u_payload u))) as Hf. rewrite Er in Hf. symmetry. exact Hf.
  - unfold parse_did in H3. rewrite Hd in H3.
    destruct (did_parse (parser_after slice dids) (p_iss (u_payload u))) as [r q] eqn:Er. injection H3 as -> _.
    assert (fst (did_parse (parser_after slice dids) (p_iss (u_payload u))) = Ok k) as Hok by (rewrite Er; reflexivity).
    apply did_parse_ok_iff in Hok as (m & c & rest & K1 & K2 & K3 & K4). injection Hv as Hv _.
    apply (OF_signature _ _ _ _ _ m c rest k); assumption.
Qed.

Lemma require_token_err E c st e st' text : parse_cid (e_ext E) text = Some c -> require_token E c st = (Err e, st') ->
  citation_fault E (reads_between st st') text e.
Proof.
  intros Hc Hr. unfold require_token, read_token, bind, store_read, lift in Hr.
  destruct (N.eqb_spec (cid_codec c) raw_codec) as [Ek|Ek]; cbn [negb] in Hr.
  2:{ injection Hr as <- <-. apply (CF_codec _ _ _ c); [exact Hc | exact Ek]. }
  destruct (e_read E (v_reads st) c) as [r|e0|p|] eqn:Er; try discriminate.
  - assert (forall s, reads_between st (mkState (v_parser st) (v_ticks st) (S (v_reads st)) s) (v_reads st)) as Hn
      by (intros s; unfold reads_between; simpl; lia).
    destruct r as [[| | | | |b| | |]|]; cbn [token_of_read] in Hr;
      try (injection Hr as <- <-; apply (CF_absent _ _ _ c (v_reads st) _ Hc (Hn _) Er); intros ?; discriminate).
    destruct (utf8_valid b) eqn:Eu; [discriminate|]. injection Hr as <- <-.
    apply (CF_utf8 _ _ _ c (v_reads st) b); auto. rewrite <- utf8_valid_iff, Eu. discriminate.
  - injection Hr as <- <-. apply (CF_store _ _ _ c (v_reads st)); auto. unfold reads_between. simpl. lia.
Qed.

Lemma validate_link_err pu u e : validate_link_to pu u = Err e ->
  e = ELinkAudience /\ p_aud (u_payload pu) <> p_iss (u_payload u) \/ e = ELinkLifetime /\ ~ lifetime_within (u_payload u) (u_payload pu).
Proof.
  unfold validate_link_to. destruct (bytes_eqb_spec (p_aud (u_payload pu)) (p_iss (u_payload u))) as [E|E].
  - destruct (lifetime_encompasses pu u) eqn:El; [discriminate|]. intros [= <-]. right. split; [reflexivity|].
    rewrite <- lifetime_within_iff, El. discriminate.
  - intros [= <-]. auto.
Qed.

Lemma redelegations_err X n l : forall acc e, redelegations_from X n acc l = Err e ->
  e = ENoProofAtIndex /\ exists c i, In c l /\ names_proof X c i /\ (N.of_nat n <= i)%N.
Proof.
  induction l as [|c l IH]; intros acc e He; [discriminate|]. cbn [redelegations_from] in He.
  assert (forall acc', redelegations_from X n acc' l = Err e -> e = ENoProofAtIndex /\ exists c' i, In c' (c :: l) /\ names_proof X c' i /\ (N.of_nat n <= i)%N) as K.
  { intros acc' H. destruct (IH acc' e H) as (-> & c' & i & K1 & K2). split; [reflexivity|]. exists c', i. split; [right; exact K1 | exact K2]. }
  destruct (parse_proof_cap X c) as [v|] eqn:Ev; [|exact (K _ He)].
  destruct (v_resource v) as [[[m|]|]| |] eqn:Er; try exact (K _ He).
  destruct (m <? N.of_nat n)%N eqn:El; [exact (K _ He)|]. injection He as <-. split; [reflexivity|].
  exists c, m. split; [left; reflexivity|]. split; [|lia].
  apply parse_proof_index. eauto.
Qed.

Lemma chain_reason E nt slice fuel : forall u st e st' (T R : nat -> Prop), with_parser slice st ->
  from_ucan E nt fuel u st = (Err e, st') ->
  (forall n, ticks_between st st' n -> T n) -> (forall n, reads_between st st' n -> R n) ->
  exists v, reachable E u v /\ fault E nt slice T R v e.
Proof.
  induction fuel as [|f IH]; intros u st e st' T R Hp Hr HT HR; [discriminate|].
  rewrite from_ucan_S in Hr. apply bind_err in Hr as [Hv | ([] & s1 & H1 & Hr)].
  { exists u. split; [constructor|]. left. eapply own_fault_mono; [exact HT | exact (validate_err _ _ _ _ _ _ _ Hp Hv)]. }
  pose proof (proper_validate slice E u nt st) as F1. rewrite H1 in F1. cbn [snd] in F1.
  assert (with_parser slice s1) as Hp1 by (apply F1, Hp).
  apply bind_err in Hr as [Hm | (ps & s2 & Hm & Hr)].
  2:{ apply bind_err in Hr as [Hr | (red & s3 & _ & Hr)]; [|discriminate].
      apply lift_err in Hr as [Hr ->]. apply redelegations_err in Hr as (-> & c & i & K1 & K2 & K3).
      exists u. split; [constructor|]. right. apply (LF_index _ _ _ c i); [apply claims_iter, K1 | exact K2|].
      apply (mmap_ok slice) in Hm; [|intros a; apply proper_build_proof, proper_from_ucan].
      assert (length (cited u) = length ps) as -> by (clear -Hm; induction Hm; simpl; congruence). exact K3. }
  assert (forall text, In text (cited u) -> In text (cited u)) as Hsub by auto.
  clear H1. revert Hsub Hm. generalize (cited u) at 1 3. intros l. revert s1 Hp1 F1.
  induction l as [|text l IHl]; intros s1 Hp1 F1 Hsub Hm; [discriminate|].
  pose proof (proper_build_proof slice E (from_ucan E nt f) u text (proper_from_ucan slice E nt f) s1) as Fb.
  cbn [mmap] in Hm. apply bind_err in Hm as [Hm | (pc & s2 & H2 & Hm)].
  - assert (In text (cited u)) as Hin by (apply Hsub; left; reflexivity). clear Hsub IHl Fb.
    unfold build_proof in Hm. apply bind_err in Hm as [Hm | (d & r1 & E1 & Hm)].
    { exists u. split; [constructor|]. right. apply lift_err in Hm as [Hm _]. apply (LF_citation _ _ _ text); [exact Hin|].
      destruct (parse_cid (e_ext E) text) eqn:Ec; [discriminate|]. injection Hm as <-. apply CF_cid, Ec. }
    apply lift_ok in E1 as [E1 ->]. apply ok_or_ok in E1.
    apply bind_err in Hm as [Hm | (tok & r2 & E2 & Hm)].
    { exists u. split; [constructor|]. right. eapply link_fault_mono; [|apply (LF_citation _ _ _ text); [exact Hin|]; exact (require_token_err _ _ _ _ _ _ E1 Hm)].
      intros n [Hn1 Hn2]. apply HR. destruct F1 as (_ & _ & F1). unfold reads_between. lia. }
    pose proof (proper_require_token slice E d s1) as F2. rewrite E2 in F2. cbn [snd] in F2.
    apply require_token_ok in E2 as (K1 & K2 & K3 & K4).
    assert (v_reads r2 = S (v_reads s1)) as K5 by (rewrite K4; reflexivity). clear K4.
    apply bind_err in Hm as [Hm | (pu & r3 & E3 & Hm)].
    { apply lift_err in Hm as [Hm ->]. exists u. split; [constructor|]. right. apply (LF_citation _ _ _ text); [exact Hin|].
      apply (CF_token _ _ _ d (v_reads s1) tok); [assumption | | assumption | apply token_fault_iff, Hm]. apply HR. destruct F1 as (_ & _ & F1). unfold reads_between. lia. }
    apply lift_ok in E3 as [E3 ->].
    apply bind_err in Hm as [Hm | (pc & r4 & E4 & Hm)].
    + destruct (IH pu r2 e st' T R) as (v & Hv & Hf); [apply F2, Hp1 | exact Hm | | |].
      * intros n [Hn1 Hn2]. apply HT. destruct F1 as (_ & F1 & _), F2 as (_ & F2 & _). unfold ticks_between. lia.
      * intros n [Hn1 Hn2]. apply HR. destruct F1 as (_ & _ & F1), F2 as (_ & _ & F2). unfold reads_between. lia.
      * exists v. split; [|exact Hf]. econstructor; [|exact Hv]. exists text. split; [exact Hin|]. exists d, (v_reads s1), tok. repeat split; auto.
    + pose proof (proper_from_ucan slice E nt f pu r2) as F3. rewrite E4 in F3. cbn [snd] in F3.
      apply bind_err in Hm as [Hm | ([] & r5 & _ & Hm)]; [|discriminate]. apply lift_err in Hm as [Hm ->].
      rewrite (from_ucan_root _ _ _ _ _ _ _ E4) in Hm.
      assert (resolves E R text pu) as Hres.
      { exists d, (v_reads s1), tok. repeat split; auto. apply HR.
        destruct F1 as (_ & _ & F1), F2 as (_ & _ & F2), F3 as (_ & _ & F3). unfold reads_between. lia. }
      exists u. split; [constructor|]. right. apply validate_link_err in Hm as [[-> Hm] | [-> Hm]];
        [apply (LF_audience _ _ _ text pu) | apply (LF_lifetime _ _ _ text pu)]; assumption.
  - rewrite H2 in Fb. cbn [snd] in Fb.
    apply bind_err in Hm as [Hm | (cs & s3 & _ & Hm)]; [|discriminate].
    apply (IHl s2); [apply Fb, Hp1 | eapply follows_trans; eassumption | intros; apply Hsub; right; assumption | exact Hm].
Qed.

(* ------------------------------------------------- C111: faults preclude acceptance *)

Lemma Forall2_in_l {A C} (P : A -> C -> Prop) l l' a : Forall2 P l l' -> In a l -> exists c, In c l' /\ P a c.
Proof.
  intros Hf. induction Hf as [|x y l l' Hp _ IH]; [contradiction|].
  intros [-> | Hin]; [exists y; split; [left; reflexivity | exact Hp]|].
  destruct (IH Hin) as (c & Hc & Hq). exists c. split; [right; exact Hc | exact Hq].
Qed.

Lemma did_fault_no_key slice did e k dids : did_fault slice did e -> fst (did_parse (parser_after slice dids) did) <> Ok k.
Proof. intros Hf. rewrite parser_after_resolve, (proj2 (resolve_fault slice did e) Hf). discriminate. Qed.

Lemma own_fault_invalid E nt slice T T' u e : (forall n m, e_clock E n = e_clock E m) -> valid_now E nt slice T u -> own_fault E nt slice T' u e -> False.
Proof.
  intros Hs (H1 & H2 & k' & H3 & H4) [x t K1 K2 K3 | b n K1 K2 K3 | e0 K1 | m c rest k e0 K1 K2 K3 K4 K5].
  - specialize (H1 x K1). destruct nt as [t'|]; [subst; lia|]. destruct H1 as (n & _ & H1), K2 as (n' & _ & ->). rewrite (Hs n n') in H1. lia.
  - destruct (H2 b K1) as (n' & _ & H). rewrite (Hs n' n) in H. lia.
  - exact (did_fault_no_key _ _ _ _ [] K1 H3).
  - assert (k' = k) as ->.
    { pose proof (dispatch slice [] m c rest K1 K3) as Hd. rewrite K2, K4 in *. cbn [fst] in *.
      change (did_parser_new slice) with (parser_after slice []) in H3. congruence. }
    congruence.
Qed.

Lemma valid_reach E nt slice T R c v : steady E -> valid_chain E nt slice T R c -> reachable E (c_ucan c) v ->
  exists d, c_ucan d = v /\ valid_chain E nt slice T R d.
Proof.
  intros Hs Hv Hr. remember (c_ucan c) as u eqn:Eu. revert c Eu Hv. induction Hr as [u | u w v Hc Hr IH]; intros c Eu Hv; [exists c; auto|].
  destruct Hc as (text & Hin & Hres). inversion Hv as [u0 ps red V1 V2 V3 V4 V5 Ec]. subst c. cbn [c_ucan] in Eu. subst u0.
  destruct (Forall2_in_l _ _ _ _ V2 Hin) as (pc & Hpc & Hres').
  assert (c_ucan pc = w) as Ew.
  { destruct Hres as (d & n & tok & A1 & A2 & A3 & A4 & A5 & A6), Hres' as (d' & n' & tok' & B1 & B2 & B3 & B4 & B5 & B6).
    rewrite A1 in B1. injection B1 as <-. destruct Hs as [_ Hs]. rewrite (Hs n n'), B4 in A4. injection A4 as <-. congruence. }
  apply (IH pc); [symmetry; exact Ew | apply V5, Hpc].
Qed.

Lemma link_fault_invalid E nt slice T R R' c e : steady E -> valid_chain E nt slice T R c -> link_fault E R' (c_ucan c) e -> False.
Proof.
  intros [_ Hs] Hv Hf. inversion Hv as [u0 ps red V1 V2 V3 V4 V5 Ec]. subst c. cbn [c_ucan] in Hf.
  destruct Hf as [text e0 H1 H2 | text pu H1 H2 H3 | text pu H1 H2 H3 | c i H1 H2 H3].
  - destruct (Forall2_in_l _ _ _ _ V2 H1) as (pc & _ & d & n & tok & A1 & A2 & A3 & A4 & A5 & A6).
    destruct H2 as [K1 | c K1 K2 | c m e0 K1 K2 K3 | c m r K1 K2 K3 K4 | c m b K1 K2 K3 K4 | c m b e0 K1 K2 K3 K4];
      rewrite A1 in K1; try discriminate K1; injection K1 as <-; try contradiction; rewrite (Hs m n), A4 in K3; try discriminate K3.
    + injection K3 as <-. eapply K4; reflexivity.
    + injection K3 as <-. apply K4, utf8_valid_iff, A5.
    + injection K3 as <-. apply token_fault_iff in K4. congruence.
  - destruct (Forall2_in_l _ _ _ _ V2 H1) as (pc & Hpc & d & n & tok & A1 & A2 & A3 & A4 & A5 & A6).
    destruct H2 as (d' & n' & tok' & B1 & B2 & B3 & B4 & B5 & B6). rewrite A1 in B1. injection B1 as <-. rewrite (Hs n' n), A4 in B4. injection B4 as <-.
    rewrite A6 in B6. injection B6 as <-. destruct (V3 pc Hpc) as [L1 _]. contradiction.
  - destruct (Forall2_in_l _ _ _ _ V2 H1) as (pc & Hpc & d & n & tok & A1 & A2 & A3 & A4 & A5 & A6).
    destruct H2 as (d' & n' & tok' & B1 & B2 & B3 & B4 & B5 & B6). rewrite A1 in B1. injection B1 as <-. rewrite (Hs n' n), A4 in B4. injection B4 as <-.
    rewrite A6 in B6. injection B6 as <-. destruct (V3 pc Hpc) as [_ L1]. contradiction.
  - destruct V4 as (_ & V4 & V4'). assert (In i red) as Hin by (apply V4; eauto). apply V4' in Hin.
    assert (length (cited u0) = length ps) as El by (clear -V2; induction V2; simpl; congruence). lia.
Qed.

Lemma chain_verdict E nt slice u st : steady E -> responsive E slice -> well_behaved E slice -> with_parser slice st -> Acc (cites E) u ->
  (forall v, reachable E u v -> ~ short_did (p_iss (u_payload v))) ->
  (exists c, (exists fuel, fst (from_ucan E nt fuel u st) = Ok c) /\ forall v e, reachable E u v -> ~ fault E nt slice (fun _ => True) (fun _ => True) v e) \/
  (exists e v, (exists fuel, fst (from_ucan E nt fuel u st) = Err e) /\ reachable E u v /\ fault E nt slice (fun _ => True) (fun _ => True) v e).
Proof.
  intros Hs Hr Hw Hp Ha Hsh.
  destruct (chain_terminates E slice nt u Hr Ha st Hp) as (f & r & st' & Hd & Hf). specialize (Hf f (le_n _)).
  destruct r as [c|e|p|]; [left; exists c | right; exists e | exfalso | contradiction].
  - split; [exists f; rewrite Hf; reflexivity|]. intros v e Hv Hx.
    assert (exists fuel, fst (from_ucan E nt fuel u st) = Ok c) as Hacc by (exists f; rewrite Hf; reflexivity).
    apply (chain_accepted_iff _ _ slice _ _ _ Hs Hp) in Hacc as [<- V].
    destruct (valid_reach _ _ _ _ _ _ _ Hs V Hv) as (d & <- & Vd). destruct Hx as [Hx|Hx].
    + inversion Vd as [u0 ps red V1 V2 V3 V4 V5 Ec]. subst d. eapply own_fault_invalid; [apply Hs | exact V1 | exact Hx].
    + eapply link_fault_invalid; eassumption.
  - destruct (chain_reason E nt slice f u st e st' (fun _ => True) (fun _ => True) Hp Hf) as (v & Hv & Hx); auto.
    exists v. split; [exists f; rewrite Hf; reflexivity | auto].
  - destruct (chain_abort E nt slice f Hw u st p st' Hp Hf) as (_ & v & Hv & Hx). exact (Hsh v Hv Hx).
Qed.

Lemma chain_accepted_no_fault E nt slice u st : steady E -> responsive E slice -> well_behaved E slice -> with_parser slice st -> Acc (cites E) u ->
  (forall v, reachable E u v -> ~ short_did (p_iss (u_payload v))) ->
  ((exists fuel c, fst (from_ucan E nt fuel u st) = Ok c) <->
   forall v e, reachable E u v -> ~ fault E nt slice (fun _ => True) (fun _ => True) v e).
Proof.
  intros Hs Hr Hw Hp Ha Hsh. destruct (chain_verdict E nt slice u st Hs Hr Hw Hp Ha Hsh) as [(c & (f & Hf) & Hn) | (e & v & (f & Hf) & Hv & Hx)].
  - split; [auto|]. intros _. eauto.
  - split; [|intros Hn; destruct (Hn v e Hv Hx)]. intros (f' & c & Hf'). exfalso.
    assert (forall a b, (a <= b)%nat -> fst (from_ucan E nt a u st) <> Diverged -> from_ucan E nt b u st = from_ucan E nt a u st) as Hle.
    { intros a b H1 H2. exact (refines_fuel_le E nt a b u H1 st H2). }
    pose proof (Hle f (Nat.max f f') ltac:(lia) ltac:(rewrite Hf; discriminate)) as H1.
    pose proof (Hle f' (Nat.max f f') ltac:(lia) ltac:(rewrite Hf'; discriminate)) as H2.
    rewrite H1 in H2. rewrite <- H2, Hf in Hf'. discriminate.
Qed.

Lemma reachable_inv E u v : reachable E u v -> v = u \/ exists w, cites E w u /\ reachable E w v.
Proof. intros [w | a b c Hc Hr]; eauto. Qed.
