(** Proofs about RSA tokens and second signatures (C138, C139). *)
From Verif Require Import Prelude Ord SMap Base58 BaseN Value Cbor Ext Capability Semantics Json Key KeySupport Der Sha256 RsaSign Ucan Store Chain
  Spec SpecWire SpecCbor SpecSha SpecDer SpecRsa SpecTwin OrdFacts CborFacts BaseNFacts DidFacts TimeFacts ChainFacts ReduceFacts TokenFacts SignFacts DerFacts ShaFacts RsaFacts.

(* ------------------------------------------------------------ RSA, by token *)

Lemma octet_nonzero n k : octets n k -> n <> 0%N.
Proof. intros H. apply octets_iff in H. apply H. Qed.

Lemma material_verify range n e sk data sig : n <> 0%N ->
  (key_verify (rsa_material range (n, e) sk) data sig = Ok tt <->
   loose_signature n e data sig /\ (range = true -> place_value 256 (map bN sig) < n)%N) /\
  (key_verify (rsa_material range (n, e) sk) data sig <> Ok tt -> key_verify (rsa_material range (n, e) sk) data sig = Err ESignature).
Proof.
  intros Hn. cbn [key_verify rsa_material rsa_key]. unfold km_verify. cbn [cr_verify rsa_pkcs1 rsa_crate].
  rewrite <- (verify_iff range n e data sig Hn). destruct (rsa_verify range (n, e) (sha256 data) sig).
  - split; [split; reflexivity | intros H; contradiction H; reflexivity].
  - split; [split; discriminate | reflexivity].
Qed.

Lemma material_sign range n e d data :
  (forall sig, rsa_pair n e d ->
     (key_sign (rsa_material range (n, e) (Some (mkRsaPriv n e d))) data = Ok sig <-> pkcs1_signature n e data sig)) /\
  (forall sig, key_sign (rsa_material range (n, e) (Some (mkRsaPriv n e d))) data = Ok sig -> pkcs1_signature n e data sig) /\
  (rsa_pair n e d -> (256 ^ 61 <= n)%N -> exists sig, key_sign (rsa_material range (n, e) (Some (mkRsaPriv n e d))) data = Ok sig) /\
  (forall pk, key_sign (rsa_material range pk None) data = Err ENoPrivateKey).
Proof.
  cbn [key_sign rsa_material rsa_key]. unfold km_sign. cbn [cr_sign rsa_pkcs1 rsa_crate].
  assert (forall sig, (ok_or (rsa_sign (mkRsaPriv n e d) (sha256 data)) ESigning = Ok sig <-> rsa_sign (mkRsaPriv n e d) (sha256 data) = Some sig)) as HO.
  { intros sig. destruct (rsa_sign (mkRsaPriv n e d) (sha256 data)); cbn [ok_or]; split; congruence. }
  split; [|split; [|split]].
  - intros sig HP. rewrite HO. exact (RsaFacts.sign_iff (mkRsaPriv n e d) data sig HP).
  - intros sig H. apply HO in H. exact (RsaFacts.sign_verifies (mkRsaPriv n e d) data sig H).
  - intros HP Hn. destruct (sign_total (mkRsaPriv n e d) data HP Hn) as [sig H]. exists sig. apply HO, H.
  - reflexivity.
Qed.

Lemma check_signature_with u st k slice : with_parser slice st ->
  (forall dids, fst (did_parse (parser_after slice dids) (p_iss (u_payload u))) = Ok k) ->
  fst (check_signature u st) = key_verify k (u_signed_data u) (u_signature u).
Proof.
  intros [dids Hp] Hk. specialize (Hk dids). unfold check_signature, bind, parse_did, verify. rewrite Hp.
  destruct (did_parse (parser_after slice dids) (p_iss (u_payload u))) as [r p]. cbn [fst] in Hk. subst r. reflexivity.
Qed.
Lemma rsa_did_key range slice n e t dids : registered slice [x85; x24] (bytes_to_rsa_key (rsa_pkcs1 range) sha256) ->
  rsa_public_key n e t -> rsa_taken n e ->
  fst (did_parse (parser_after slice dids) (did_key_text ([x85; x24] ++ t))) = Ok (rsa_material range (n, e) None).
Proof.
  intros Hr Ht Hn. rewrite (dispatch slice dids [x85; x24] _ t eq_refl Hr).
  apply (rsa_ctor_iff rsa_sign (rsa_verify range) sha256). exists n, e. split; [exact Hn|]. split; [exact Ht | reflexivity].
Qed.
Lemma taken_nonzero n e : rsa_taken n e -> n <> 0%N.
Proof. intros (_ & _ & H & _) ->. destruct e; discriminate. Qed.
Lemma rsa_token range slice n e t u st : registered slice [x85; x24] (bytes_to_rsa_key (rsa_pkcs1 range) sha256) ->
  with_parser slice st -> rsa_public_key n e t -> rsa_taken n e -> p_iss (u_payload u) = did_key_text ([x85; x24] ++ t) ->
  (fst (check_signature u st) = Ok tt <->
   loose_signature n e (u_signed_data u) (u_signature u) /\ (range = true -> place_value 256 (map bN (u_signature u)) < n)%N).
Proof.
  intros Hr Hp Ht Hn Hi. rewrite (check_signature_with u st (rsa_material range (n, e) None) slice Hp).
  - apply material_verify, (taken_nonzero n e Hn).
  - intros dids. rewrite Hi. apply (rsa_did_key range slice n e t dids Hr Ht Hn).
Qed.

(* --------------------------------------------- without the test of the range *)

Lemma range_loss n e data sig : loose_signature n e data sig -> exists k sig',
  octets n k /\ pkcs1_signature n e data sig' /\ (place_value 256 (map bN sig') = place_value 256 (map bN sig) mod n)%N.
Proof.
  intros (k & em & s & m & Ho & He & Hs & Hm & E). pose proof (octet_nonzero n k Ho) as Hn.
  pose proof (N.mod_lt s n Hn) as Hlt. assert (s mod n < 256 ^ N.of_nat k)%N as Hb by (destruct Ho as (_ & _ & Ho); lia).
  assert (be_number k (s mod n) (be_bytes k (s mod n))) as Hs' by (apply be_number_iff; split; [reflexivity | exact Hb]).
  exists k, (be_bytes k (s mod n)). split; [exact Ho|]. assert (Hv := proj2 Hs'). split; [split|].
  - exists k, em, (s mod n)%N, m. repeat split; try assumption; try apply Ho; try apply Hs'; try apply Hm. rewrite pow_mod_idem by exact Hn. exact E.
  - rewrite Hv. exact Hlt.
  - rewrite Hv. destruct Hs as [_ Hs]. rewrite Hs. reflexivity.
Qed.
Lemma range_twin n e k data sig i : octets n k -> loose_signature n e data sig ->
  (place_value 256 (map bN sig) + i * n < 256 ^ N.of_nat k)%N -> exists sig',
  loose_signature n e data sig' /\ (place_value 256 (map bN sig') = place_value 256 (map bN sig) + i * n)%N.
Proof.
  intros Ho (k' & em & s & m & Ho' & He & Hs & Hm & E) Hb. pose proof (octet_nonzero n k Ho) as Hn.
  assert (k' = k) as -> by (apply octets_iff in Ho as [-> _]; apply octets_iff in Ho' as [-> _]; reflexivity).
  pose proof (proj2 Hs) as Hv. rewrite Hv in *. exists (be_bytes k (s + i * n)).
  assert (be_number k (s + i * n) (be_bytes k (s + i * n))) as Hs' by (apply be_number_iff; split; [reflexivity | exact Hb]).
  split; [|apply Hs']. exists k, em, (s + i * n)%N, m. split; [exact Ho|]. split; [exact He|]. split; [exact Hs'|]. split; [exact Hm|].
  rewrite <- E. rewrite <- (pow_mod_idem (s + i * n)%N), N.mod_add by exact Hn. apply pow_mod_idem, Hn.
Qed.

(* ------------------------------------------------------- another signature *)

(** [u] with the signature [g]. *)
Definition resigned (u : ucan) (g : bytes) : ucan := mkUcan (u_header u) (u_payload u) (u_signed_data u) g.

Lemma resigned_check u g st st' k : fst (did_parse (v_parser st) (p_iss (u_payload u))) = Ok k ->
  check_signature u st = (Ok tt, st') -> key_verify k (u_signed_data u) g = Ok tt -> check_signature (resigned u g) st = (Ok tt, st').
Proof.
  intros Hk H Hg. unfold check_signature, bind, parse_did, verify in *. cbn [u_payload u_signed_data u_signature resigned].
  destruct (did_parse (v_parser st) (p_iss (u_payload u))) as [r p]. cbn [fst] in Hk. subst r. cbn beta iota in *.
  injection H as _ <-. rewrite Hg. reflexivity.
Qed.

Lemma resigned_chain E nt fuel u g st c st' slice k : with_parser slice st ->
  (forall dids, fst (did_parse (parser_after slice dids) (p_iss (u_payload u))) = Ok k) ->
  key_verify k (u_signed_data u) g = Ok tt ->
  from_ucan E nt fuel u st = (Ok c, st') ->
  from_ucan E nt fuel (resigned u g) st = (Ok (Chain (resigned u g) (c_proofs c) (c_redelegations c)), st').
Proof.
  intros [dids Hp] Hk Hg. destruct fuel as [|f]; [discriminate|]. cbn [from_ucan].
  change (mmap (build_proof E (from_ucan E nt f) (resigned u g))) with (mmap (build_proof E (from_ucan E nt f) u)).
  cbn [u_payload resigned]. 
  unfold bind at 1. destruct (validate E u nt st) as [rv stv] eqn:Ev. destruct rv as [[]| | |]; try discriminate.
  assert (validate E (resigned u g) nt st = (Ok tt, stv)) as Ev'.
  { unfold validate in *. change (is_expired E (resigned u g) nt) with (is_expired E u nt). change (is_too_early E (resigned u g)) with (is_too_early E u).
    unfold bind in *. destruct (is_expired E u nt st) as [[[]| | |] st1] eqn:E1; try discriminate.
    destruct (is_too_early E u st1) as [[[]| | |] st2] eqn:E2; try discriminate.
    apply (resigned_check u g st2 stv k); [|exact Ev | exact Hg].
    assert (v_parser st2 = v_parser st) as ->; [|rewrite Hp; apply Hk].
    assert (v_parser st1 = v_parser st) as H1.
    { unfold is_expired, bind, now, ret in E1. destruct (p_exp (u_payload u)); [destruct nt|]; apply (f_equal snd) in E1; cbn [snd] in E1; rewrite <- E1; reflexivity. }
    rewrite <- H1. unfold is_too_early, bind, now, ret in E2. destruct (p_nbf (u_payload u)); apply (f_equal snd) in E2; cbn [snd] in E2; rewrite <- E2; reflexivity. }
  unfold bind at 3. rewrite Ev'. unfold bind.
  destruct ((match p_prf (u_payload u) with Some l => mmap (build_proof E (from_ucan E nt f) u) l | None => ret [] end) stv) as [[ps| | |] stp]; try discriminate.
  destruct (lift (redelegations_from (e_ext E) (length ps) [] (caps_iter (p_cap (u_payload u)))) stp) as [[rd| | |] str]; try discriminate.
  unfold ret. intros H. injection H as <- <-. reflexivity.
Qed.

Lemma resigned_reduce {S A} (SO : scope_ops S) (AO : ability_ops A) parse u g ps rd :
  reduce SO AO parse (Chain (resigned u g) ps rd) = reduce SO AO parse (Chain u ps rd).
Proof. reflexivity. Qed.

(** The token with another signature. *)
Lemma resigned_token X t u : parse_token X t = Ok u -> exists rest,
  t = u_signed_data u ++ B "." ++ b64_encode (u_signature u) ++ rest /\ (rest = [] \/ exists r, rest = B "." ++ r) /\
  forall g, parse_token X (u_signed_data u ++ B "." ++ b64_encode g ++ rest) = Ok (resigned u g).
Proof.
  intros H. apply parse_token_covers in H as (h & p & s & rest & hj & pj & Et & Hr & Hh & Hp & _ & E6 & E1 & E2 & E3 & E4 & E5).
  exists rest. rewrite E6, <- E5. split; [rewrite Et, <- !app_assoc; reflexivity|]. split; [exact Hr|].
  intros g. apply parse_token_iff.
  assert (exists more, split_on x2e (b64_encode g ++ rest) = b64_encode g :: more) as [more Em].
  { destruct Hr as [-> | [r ->]].
    - rewrite app_nil_r, split_on_none by apply b64_encode_no_dot. eauto.
    - change (B "." ++ r) with (x2e :: r). rewrite split_on_app by apply b64_encode_no_dot. eauto. }
  exists h, p, (b64_encode g), more, hj, pj. split.
  - change (B ".") with [x2e]. rewrite <- !app_assoc. cbn [app]. rewrite split_on_app by exact Hh. rewrite split_on_app by exact Hp. rewrite Em. reflexivity.
  - split; [apply b64_decode_iff, E1|]. split; [exact E2|]. split; [apply b64_decode_iff, E3|]. split; [exact E4|].
    split; [apply b64_roundtrip | exact E6].
Qed.

(* -------------------------------------------------------------------- ECDSA *)

Section Group.
  Variable G : ec_group.
  Hypothesis laws : ec_laws G.
  Local Open Scope N_scope.
  Declare Scope group_scope.
  Notation "P + Q" := (g_add G P Q) : group_scope.
  Local Open Scope group_scope.
  Notation q := (g_order G).
  Notation O := (g_zero G).
  Notation times := (g_times G).

  Let assoc : forall P Q R, P + (Q + R) = P + Q + R. Proof. apply laws. Qed.
  Let comm : forall P Q, P + Q = Q + P. Proof. apply laws. Qed.
  Let zero : forall P, O + P = P. Proof. apply laws. Qed.
  Let neg : forall P, P + g_neg G P = O. Proof. apply laws. Qed.
  Let full : forall P, times q P = O. Proof. apply laws. Qed.
  Let even : forall P, g_first G (g_neg G P) = g_first G P. Proof. apply laws. Qed.
  Let odd : N.Odd q. Proof. apply laws. Qed.
  Let big : (1 < q)%N. Proof. apply laws. Qed.
  Let small : (q <= 256 ^ 32)%N. Proof. apply laws. Qed.

  Lemma times_succ n P : times (N.succ n) P = P + times n P.
  Proof. unfold g_times. apply N.iter_succ. Qed.
  Lemma times_add a b P : times (a + b)%N P = times a P + times b P.
  Proof.
    induction a as [|a IH] using N.peano_ind; [symmetry; apply zero|].
    rewrite N.add_succ_l, !times_succ, IH. apply assoc.
  Qed.
  Lemma times_zero n : times n O = O.
  Proof. induction n as [|n IH] using N.peano_ind; [reflexivity|]. rewrite times_succ, IH. apply zero. Qed.
  Lemma times_mul a P : times (a * q)%N P = O.
  Proof.
    induction a as [|a IH] using N.peano_ind; [reflexivity|]. rewrite N.mul_succ_l, times_add, IH, full. apply zero.
  Qed.
  Lemma times_mod a P : times (a mod q)%N P = times a P.
  Proof.
    rewrite (N.div_mod a q) at 2 by lia. rewrite times_add, (N.mul_comm q), times_mul. symmetry. apply zero.
  Qed.
  Lemma neg_unique P Q : P + Q = O -> Q = g_neg G P.
  Proof.
    intros H. rewrite <- (zero Q), <- (neg P), (comm P), <- assoc, H, comm. apply zero.
  Qed.
  Lemma swap A B C D : (A + B) + (C + D) = (A + C) + (B + D).
  Proof. rewrite <- !assoc. f_equal. rewrite !assoc. f_equal. apply comm. Qed.
  Lemma times_opposite z w P : (w <= q)%N -> times ((z * w) mod q)%N P + times ((z * (q - w)) mod q)%N P = O.
  Proof.
    intros Hw. rewrite !times_mod, <- times_add. replace (z * w + z * (q - w))%N with (z * q)%N; [apply times_mul|].
    rewrite <- N.mul_add_distr_l. f_equal. lia.
  Qed.

  (** The pair (r, q - s) signs what (r, s) signs. *)
  Lemma ecdsa_twin Q z r s : ecdsa_pair G Q z r s -> ecdsa_pair G Q z r (q - s) /\ (q - s <> s)%N.
  Proof.
    intros (Hr & Hs & w & x & Hw & Hx & Hm). split.
    - split; [exact Hr|]. split; [lia|]. exists (q - w mod q)%N, x. pose proof (N.mod_lt w q ltac:(lia)) as Hlt.
      split; [|split; [|exact Hm]].
      + rewrite <- Hw, <- (N.mul_mod_idemp_r s w) by lia. remember (w mod q)%N as v eqn:Ev. clear Ev Hw Hx Hm x w.
        rewrite <- (N.mod_add ((q - s) * (q - v)) (s + v) q), <- (N.mod_add (s * v) q q) by lia. f_equal. nia.
      + rewrite <- Hx. rewrite <- (N.mul_mod_idemp_r z w), <- (N.mul_mod_idemp_r r w) by lia. remember (w mod q)%N as v eqn:Ev.
        rewrite <- (even (times ((z * v) mod q)%N (g_base G) + _)). f_equal. apply neg_unique.
        rewrite swap, !times_opposite by lia. apply zero.
    - destruct odd as [j Hj]. lia.
  Qed.

  Lemma signature_twin Q data sig : ecdsa_signature G Q data sig -> exists sig', ecdsa_signature G Q data sig' /\ sig' <> sig.
  Proof.
    intros (d & z & rb & r & sb & s & Hd & Hz & Hr & Hs & -> & H). destruct (ecdsa_twin _ _ _ _ H) as [H' Hn].
    assert (be_number 32 (q - s) (be_bytes 32 (q - s))) as Hs'.
    { apply be_number_iff. split; [reflexivity|]. change (N.of_nat 32) with 32%N. apply (N.lt_le_trans _ q); [apply H' | exact small]. }
    exists (rb ++ be_bytes 32 (q - s)). split.
    - exists d, z, rb, r, (be_bytes 32 (q - s)), (q - s)%N. repeat split; try assumption; try apply Hz; try apply Hr; try apply Hs'; apply H'.
    - intros E. apply app_inv_head in E. apply Hn. rewrite <- (proj2 Hs'), E. apply Hs.
  Qed.
End Group.

Lemma crypto_twin {Pub Priv} (C : crypto Pub Priv) b pk data sig : ecdsa_crypto C -> cr_decode C b = Some pk -> cr_verify C pk data sig = true ->
  exists sig', cr_verify C pk data sig' = true /\ sig' <> sig.
Proof.
  intros (G & point & HL & HV) Hb H. apply (HV b pk _ _ Hb) in H. destruct (signature_twin G HL _ _ _ H) as (sig' & H' & Hn).
  exists sig'. split; [apply (HV b pk _ _ Hb), H' | exact Hn].
Qed.

(* ------------------------------------------------------------------- tokens *)

Lemma accepted_twin {Pub Priv} (C : crypto Pub Priv) E nt fuel t st c st' slice tl : ecdsa_crypto C ->
  registered slice [x80; x24] (bytes_to_p256_key C) -> with_parser slice st ->
  from_token E nt fuel t st = (Ok c, st') -> p_iss (u_payload (c_ucan c)) = did_key_text ([x80; x24] ++ tl) ->
  exists a s s' rest c', t = a ++ B "." ++ s ++ rest /\ s' <> s /\
    a = u_signed_data (c_ucan c) /\ ~ In x2e s /\ ~ In x2e s' /\ (rest = [] \/ exists r, rest = B "." ++ r) /\
    from_token E nt fuel (a ++ B "." ++ s' ++ rest) st = (Ok c', st') /\
    u_header (c_ucan c') = u_header (c_ucan c) /\ u_payload (c_ucan c') = u_payload (c_ucan c) /\
    c_proofs c' = c_proofs c /\
    forall S A (SO : scope_ops S) (AO : ability_ops A) parse, reduce SO AO parse c' = reduce SO AO parse c.
Proof.
  intros HE Hreg Hp H Hi. unfold from_token in *. unfold bind at 1, lift at 1 in H.
  destruct (parse_token (e_ext E) t) as [u| | |] eqn:Et; try discriminate.
  pose proof (from_ucan_root _ _ _ _ _ _ _ H) as Hc.
  rewrite Hc in *. apply resigned_token in Et as (rest & -> & Hr & Ht).
  assert (exists pk, cr_decode C tl = Some pk /\ cr_verify C pk (u_signed_data u) (u_signature u) = true) as (pk & Hpk & Hv).
  { destruct fuel; [discriminate|]. cbn [from_ucan] in H. unfold bind at 1 in H.
    destruct (validate E u nt st) as [[[]| | |] stv] eqn:Ev; try discriminate. clear H. unfold validate, bind in Ev.
    destruct (is_expired E u nt st) as [[[]| | |] st1] eqn:E1; try discriminate.
    destruct (is_too_early E u st1) as [[[]| | |] st2] eqn:E2; try discriminate.
    assert (with_parser slice st2) as Hp2.
    { destruct Hp as [dids Hp]. exists dids. rewrite <- Hp. transitivity (v_parser st1).
      - unfold is_too_early, bind, now, ret in E2. destruct (p_nbf (u_payload u)); apply (f_equal snd) in E2; cbn [snd] in E2; rewrite <- E2; reflexivity.
      - unfold is_expired, bind, now, ret in E1. destruct (p_exp (u_payload u)); [destruct nt|]; apply (f_equal snd) in E1; cbn [snd] in E1; rewrite <- E1; reflexivity. }
    destruct Hp2 as [dids Hp2]. unfold check_signature, bind, parse_did, verify in Ev. rewrite Hi, Hp2 in Ev.
    pose proof (dispatch slice dids [x80; x24] _ tl eq_refl Hreg) as Hd. unfold bytes_to_p256_key in Hd.
    destruct (did_parse (parser_after slice dids) (did_key_text ([x80; x24] ++ tl))) as [r p]. cbn [fst] in Hd.
    destruct (cr_decode C tl) as [pk|]; [|subst r; discriminate]. cbn [ok_or rbind] in Hd. subst r. exists pk. split; [reflexivity|].
    apply (f_equal fst) in Ev. cbn [fst key_verify p256_key] in Ev. unfold km_verify in Ev. destruct (cr_verify C pk _ _); [reflexivity | discriminate]. }
  destruct (crypto_twin C tl pk _ _ HE Hpk Hv) as (g & Hg & Hne).
  exists (u_signed_data u), (b64_encode (u_signature u)), (b64_encode g), rest, (Chain (resigned u g) (c_proofs c) (c_redelegations c)).
  split; [reflexivity|]. split; [intros E'; apply Hne, b64_encode_inj, E'|]. split; [reflexivity|]. split; [apply b64_encode_no_dot|].
  split; [apply b64_encode_no_dot|]. split; [exact Hr|]. split.
  - unfold bind at 1, lift at 1. rewrite Ht. apply (resigned_chain E nt fuel u g st c st' slice (p256_key C pk None) Hp); [|cbn [key_verify p256_key]; unfold km_verify; rewrite Hg; reflexivity | exact H].
    intros dids. rewrite Hi, (dispatch slice dids [x80; x24] _ tl eq_refl Hreg). unfold bytes_to_p256_key. rewrite Hpk. reflexivity.
  - split; [reflexivity|]. split; [reflexivity|]. split; [reflexivity|]. intros S A SO AO parse.
    destruct c as [u' ps rd]. cbn [c_ucan] in Hc. subst u'. apply resigned_reduce.
Qed.

Lemma three_parts X h p s u : ~ In x2e h -> ~ In x2e p -> ~ In x2e s -> parse_token X (h ++ B "." ++ p ++ B "." ++ s) = Ok u ->
  u_signed_data u = h ++ B "." ++ p /\ s = b64_encode (u_signature u) /\
  exists pj, b64_decode p = Some pj /\ payload_of_json X pj = Some (u_payload u).
Proof.
  intros Hh Hp Hs H. apply parse_token_iff in H as (h' & p' & s' & more & hj & pj & Es & _ & _ & E3 & E4 & E5 & E6).
  change (B ".") with [x2e] in Es. cbn [app] in Es. rewrite split_on_app in Es by exact Hh. rewrite split_on_app in Es by exact Hp.
  rewrite split_on_none in Es by exact Hs. injection Es as <- <- <- <-.
  split; [exact E6|]. split; [apply b64_decode_iff, E5 | eauto].
Qed.
Lemma accepted_rsa E nt fuel t st c st' slice range tl n e :
  registered slice [x85; x24] (bytes_to_rsa_key (rsa_pkcs1 range) sha256) -> with_parser slice st ->
  from_token E nt fuel t st = (Ok c, st') -> p_iss (u_payload (c_ucan c)) = did_key_text ([x85; x24] ++ tl) -> rsa_public_key n e tl ->
  parse_token (e_ext E) t = Ok (c_ucan c) /\
  loose_signature n e (u_signed_data (c_ucan c)) (u_signature (c_ucan c)) /\
  (range = true -> place_value 256 (map bN (u_signature (c_ucan c))) < n)%N.
Proof.
  intros Hr Hp H Hi Ht. unfold from_token in H. unfold bind at 1, lift at 1 in H.
  destruct (parse_token (e_ext E) t) as [u| | |] eqn:Et; try discriminate.
  pose proof (from_ucan_root _ _ _ _ _ _ _ H) as Hc. pose proof (from_ucan_valid _ _ _ _ _ _ _ _ Hp H) as [_ HV].
  inversion HV as [u' ps rd Hnow _ _ _ _ Ec]. subst c. cbn [c_ucan] in *. subst u'. split; [reflexivity|].
  destruct Hnow as (_ & _ & k & Hk & Hv).
  rewrite Hi in Hk. change (did_parser_new slice) with (parser_after slice []) in Hk. rewrite (dispatch slice [] [x85; x24] _ tl eq_refl Hr) in Hk.
  apply (rsa_ctor_iff rsa_sign (rsa_verify range) sha256) in Hk as (n' & e' & Hn & Ht' & ->).
  destruct (public_key_inj _ _ _ _ _ Ht Ht') as [<- <-]. apply (material_verify range n e None _ _ (taken_nonzero n e Hn)), Hv.
Qed.
Lemma rsa_one_token E E' nt nt' fuel fuel' st st' c c' str str' slice h p s s' tl n e d :
  registered slice [x85; x24] (bytes_to_rsa_key (rsa_pkcs1 true) sha256) -> with_parser slice st -> with_parser slice st' ->
  e_ext E = e_ext E' -> ~ In x2e h -> ~ In x2e p -> ~ In x2e s -> ~ In x2e s' ->
  from_token E nt fuel (h ++ B "." ++ p ++ B "." ++ s) st = (Ok c, str) ->
  from_token E' nt' fuel' (h ++ B "." ++ p ++ B "." ++ s') st' = (Ok c', str') ->
  p_iss (u_payload (c_ucan c)) = did_key_text ([x85; x24] ++ tl) -> rsa_public_key n e tl -> rsa_pair n e d -> s = s'.
Proof.
  intros Hr Hp Hp' HX Hh Hpp Hs Hs' H H' Hi Ht HP.
  destruct (accepted_rsa _ _ _ _ _ _ _ _ _ _ _ _ Hr Hp H Hi Ht) as (Et & Hl & Hb).
  destruct (three_parts _ _ _ _ _ Hh Hpp Hs Et) as (Ed & Es & pj & Ep & Epp).
  assert (exists u', parse_token (e_ext E') (h ++ B "." ++ p ++ B "." ++ s') = Ok u' /\ c_ucan c' = u') as (u' & Et' & Hc').
  { unfold from_token in H'. unfold bind at 1, lift at 1 in H'. destruct (parse_token (e_ext E') _) as [u'| | |]; try discriminate.
    exists u'. split; [reflexivity | exact (from_ucan_root _ _ _ _ _ _ _ H')]. }
  destruct (three_parts _ _ _ _ _ Hh Hpp Hs' Et') as (Ed' & Es' & pj' & Ep' & Epp'). rewrite Ep in Ep'. injection Ep' as <-.
  rewrite HX, Epp' in Epp. injection Epp as Epp. rewrite <- Hc' in *. rewrite <- Epp in Hi.
  destruct (accepted_rsa _ _ _ _ _ _ _ _ _ _ _ _ Hr Hp' H' Hi Ht) as (_ & Hl' & Hb').
  rewrite Es, Es'. f_equal. rewrite Ed in Hl. rewrite Ed' in Hl'.
  apply (signature_unique n e d (h ++ B "." ++ p)); [exact HP | split; [exact Hl | apply Hb, eq_refl] | split; [exact Hl' | apply Hb', eq_refl]].
Qed.
