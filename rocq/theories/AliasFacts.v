(** Facts about several DIDs of one key (C131). *)
From Verif Require Import Prelude Ord SMap Base58 Value Ext Key KeySupport Der Ucan Builder Store Chain Spec SpecAlias OrdFacts DidFacts SignFacts ChainFacts ReduceFacts DerFacts.

Lemma magic_in_slice slice m (c : ctor) : registered slice m c -> In (m, c) slice.
Proof. intros (a & b & -> & _). apply in_or_app. right. left. reflexivity. Qed.

Section Three.
  Context {PubE PrivE PubP PrivP PubR PrivR : Type} (CE : crypto PubE PrivE) (CP : crypto PubP PrivP) (CR : crypto PubR PrivR)
    (sha256 : bytes -> bytes).
  Notation slice := (three_types CE CP CR sha256).

  Lemma three_ed : registered slice [xed; x01] (bytes_to_ed25519_key CE).
  Proof. eexists [], _. split; [reflexivity|]. cbn. intuition discriminate. Qed.
  Lemma three_p256 : registered slice [x80; x24] (bytes_to_p256_key CP).
  Proof. eexists [_], _. split; [reflexivity|]. cbn. intuition discriminate. Qed.
  Lemma three_rsa : registered slice [x85; x24] (bytes_to_rsa_key CR sha256).
  Proof. eexists [_; _], []. split; [reflexivity|]. intros []. Qed.

  Lemma own_text (o : option bytes) (m b : bytes) : m <> [] ->
    (Ok (did_key_of (match o with Some b' => m ++ b' | None => [] end)) = Ok (did_key_text (m ++ b)) :> res bytes <-> o = Some b).
  Proof.
    intros Hm. change did_key_of with did_key_text. split.
    - intros E. assert (did_key_text (match o with Some b' => m ++ b' | None => [] end) = did_key_text (m ++ b)) as E' by congruence.
      apply did_key_text_inj in E'. destruct o as [b'|]; [apply app_inv_head in E'; congruence|].
      destruct m; [contradiction | discriminate].
    - intros ->. reflexivity.
  Qed.

  Lemma own_did_iff dids :
    (forall did k, fst (did_parse (parser_after slice dids) did) = Ok k -> key_did k = Ok did) <->
    own_encoding_only CE /\ own_encoding_only CP /\ own_encoding_only CR.
  Proof.
    split.
    - intros H. split; [|split].
      + intros b pk Hd. apply (own_text _ [xed; x01] b); [discriminate|].
        apply (H _ (ed25519_key CE pk None)). rewrite (dispatch slice dids [xed; x01] _ b eq_refl three_ed). unfold bytes_to_ed25519_key. rewrite Hd. reflexivity.
      + intros b pk Hd. apply (own_text _ [x80; x24] b); [discriminate|].
        apply (H _ (p256_key CP pk None)). rewrite (dispatch slice dids [x80; x24] _ b eq_refl three_p256). unfold bytes_to_p256_key. rewrite Hd. reflexivity.
      + intros b pk Hd. apply (own_text _ [x85; x24] b); [discriminate|].
        apply (H _ (rsa_key CR sha256 pk None)). rewrite (dispatch slice dids [x85; x24] _ b eq_refl three_rsa). unfold bytes_to_rsa_key. rewrite Hd. reflexivity.
    - intros (He & Hp & Hr) did k H. apply did_parse_ok_iff in H as (m & c & rest & _ & -> & Hreg & Hc).
      apply magic_in_slice in Hreg. cbn [three_types In] in Hreg.
      destruct Hreg as [E | [E | [E | []]]]; injection E as <- <-.
      + unfold bytes_to_ed25519_key in Hc. destruct (cr_decode CE rest) as [pk|] eqn:Ed; [|discriminate]. apply He in Ed. injection Hc as <-.
        apply (own_text (cr_encode CE pk) [xed; x01] rest); [discriminate | exact Ed].
      + unfold bytes_to_p256_key in Hc. destruct (cr_decode CP rest) as [pk|] eqn:Ed; [|discriminate]. apply Hp in Ed. injection Hc as <-.
        apply (own_text (cr_encode CP pk) [x80; x24] rest); [discriminate | exact Ed].
      + unfold bytes_to_rsa_key in Hc. destruct (cr_decode CR rest) as [pk|] eqn:Ed; [|discriminate]. apply Hr in Ed. injection Hc as <-.
        apply (own_text (cr_encode CR pk) [x85; x24] rest); [discriminate | exact Ed].
  Qed.
End Three.

Lemma rsa_canonical {Priv} (sgn : Priv -> bytes -> option bytes) vrf : own_encoding_only (rsa_crate sgn vrf).
Proof. intros b [n e] H. cbn [cr_decode cr_encode rsa_crate] in *. apply from_pkcs1_iff in H as [_ H]. exact H. Qed.

Section Sec1.
  Context {Pub Priv : Type} (C : crypto Pub Priv).

  Lemma second_did pk sk b slice dids : sec1_codec C -> cr_encode C pk = Some b ->
    registered slice [x80; x24] (bytes_to_p256_key C) ->
    exists did, key_did (p256_key C pk sk) <> Ok did /\ fst (did_parse (parser_after slice dids) did) = Ok (p256_key C pk None).
  Proof.
    intros Hs He Hr. destruct (Hs pk b He) as (x & y & Hx & Hy & Hb & Hd). exists (did_key_text ([x80; x24] ++ x04 :: x ++ y)). split.
    - cbn [key_did p256_key]. rewrite He. change did_key_of with did_key_text. intros E.
      assert (did_key_text (p256_magic ++ b) = did_key_text ([x80; x24] ++ x04 :: x ++ y)) as E' by congruence.
      apply did_key_text_inj in E'. apply (app_inv_head p256_magic) in E'. rewrite Hb in E'.
      destruct (N.odd (bN (last y x00))); discriminate.
    - rewrite (dispatch slice dids [x80; x24] _ _ eq_refl Hr). unfold bytes_to_p256_key. rewrite Hd. reflexivity.
  Qed.

  (** Tokens under the second name verify, and link to nothing addressed to the first. *)
  Lemma second_token X rng s u pk sk slice dids did st : 
    fst (did_parse (parser_after slice dids) did) = Ok (p256_key C pk None) ->
    (forall d g, cr_sign C sk d = Some g -> cr_verify C pk d g = true) ->
    s_issuer s = under did (p256_key C pk (Some sk)) -> v_parser st = parser_after slice dids ->
    sign X rng s = Ok u -> p_iss (u_payload u) = did /\ fst (check_signature u st) = Ok tt.
  Proof.
    intros Hd Hv Hs Hp Hu. split.
    - apply sign_iff in Hu as (_ & Hpay & _). apply ucan_payload_iff in Hpay as (_ & Hi & _). rewrite Hs in Hi. cbn [under key_did] in Hi. congruence.
    - apply (sign_verifies X rng s u (p256_key C pk None) st Hu).
      + intros d g Hg. rewrite Hs in Hg. cbn [under key_sign p256_key] in Hg. unfold km_sign in Hg. cbn [key_verify p256_key].
        unfold km_verify. destruct (cr_sign C sk d) as [g'|] eqn:E; [|discriminate]. injection Hg as <-. rewrite (Hv d g' E). reflexivity.
      + intros d Hg. rewrite Hs in Hg. cbn [under key_did] in Hg. injection Hg as <-. rewrite Hp. exact Hd.
  Qed.
End Sec1.

(** A proof addressed to the first name supports nothing issued under the second. *)
Lemma names_apart E nt slice fuel u st c st' d pc k :
  with_parser slice st -> from_ucan E nt fuel u st = (Ok c, st') -> sub_chain d c -> In pc (c_proofs d) ->
  key_did k <> Ok (p_iss (u_payload (c_ucan d))) -> key_did k <> Ok (p_aud (u_payload (c_ucan pc))).
Proof.
  intros Hp Hr Hs Hin. rewrite (proj1 (valid_link _ _ _ _ _ _ _ _ (proj2 (from_ucan_valid _ _ _ _ _ _ _ _ Hp Hr)) Hs Hin)). auto.
Qed.

Lemma rsa_own_did {Priv} (sgn : Priv -> bytes -> option bytes) vrf sha256 slice dids did k tl :
  registered slice [x85; x24] (bytes_to_rsa_key (rsa_crate sgn vrf) sha256) -> did = did_key_text ([x85; x24] ++ tl) ->
  fst (did_parse (parser_after slice dids) did) = Ok k -> key_did k = Ok did.
Proof.
  intros Hr -> H. rewrite (dispatch slice dids [x85; x24] _ _ eq_refl Hr) in H. unfold bytes_to_rsa_key in H.
  destruct (cr_decode (rsa_crate sgn vrf) tl) as [pk|] eqn:Ed; [|discriminate]. apply rsa_canonical in Ed. injection H as <-.
  apply (own_text (cr_encode (rsa_crate sgn vrf) pk) [x85; x24] tl); [discriminate | exact Ed].
Qed.
