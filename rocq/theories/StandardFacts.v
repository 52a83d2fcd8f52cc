(** Acceptance in terms of the standards (C160). *)
From Coq Require Import Sorting.Permutation.
From Verif Require Import Prelude Ord SMap Base58 Value Cid Ext Json Capability Semantics Key KeySupport Der Sha256 Sha512 RsaSign Ed25519 P256 Multihash Ucan Store Chain
  Spec SpecWire SpecJson SpecUrl SpecKeys SpecCbor SpecSha SpecSha512 SpecDer SpecRsa SpecTwin SpecEd SpecP256 SpecBlake3 SpecHash SpecSecurity SpecStandard
  OrdFacts ChainFacts StoreFacts DidFacts UrlTextFacts KeysFacts JsonGrammarFacts DerFacts TwinFacts EdFacts Sha512Facts P256Facts P256TokenFacts Blake3TreeFacts HashFacts ReduceFacts SecurityFacts EntryFacts.

Lemma registered_perm slice slice' m c : Permutation slice slice' -> NoDup (map fst slice') -> In (m, c) slice' -> registered slice m c.
Proof.
  intros HP HN Hin. apply (Permutation_in _ (Permutation_sym HP)) in Hin. apply in_split in Hin as (a & b & ->). exists a, b. split; [reflexivity|].
  apply (Permutation_NoDup (Permutation_map fst (Permutation_sym HP))) in HN. rewrite map_app in HN. cbn [map fst] in HN.
  apply NoDup_remove_2 in HN. intros H. apply HN, in_or_app. right. exact H.
Qed.
Lemma keys_nodup range nonce : NoDup (map fst (standard_keys range nonce)).
Proof.
  cbn [standard_keys map fst]. repeat constructor; cbn [In]; intros H; repeat (destruct H as [H|H]; try discriminate); assumption.
Qed.
Lemma registered_in slice m c : registered slice m c -> In (m, c) slice.
Proof. intros (a & b & -> & _). apply in_or_app. right. left. reflexivity. Qed.

Lemma check_iff slice u st : with_parser slice st -> (fst (check_signature u st) = Ok tt <-> signed_by_issuer (did_parser_new slice) u).
Proof.
  intros Hp. unfold signed_by_issuer. split.
  - intros H. destruct (fst (did_parse (did_parser_new slice) (p_iss (u_payload u)))) as [k|e|p|] eqn:E.
    + exists k. split; [reflexivity|]. rewrite <- H. symmetry. apply (check_signature_with u st k slice Hp). intros dids. rewrite cache_invisible. exact E.
    + rewrite (check_signature_fault u st e slice Hp) in H; [discriminate|]. intros dids. rewrite cache_invisible. exact E.
    + exfalso. destruct Hp as [dids Hp]. rewrite <- (cache_invisible slice dids) in E. revert H E. unfold check_signature, bind, parse_did. rewrite Hp.
      destruct (did_parse (parser_after slice dids) (p_iss (u_payload u))) as [r p']. cbn [fst]. intros H ->. discriminate.
    + exfalso. destruct Hp as [dids Hp]. rewrite <- (cache_invisible slice dids) in E. revert H E. unfold check_signature, bind, parse_did. rewrite Hp.
      destruct (did_parse (parser_after slice dids) (p_iss (u_payload u))) as [r p']. cbn [fst]. intros H ->. discriminate.
  - intros (k & E & H). rewrite <- H. apply (check_signature_with u st k slice Hp). intros dids. rewrite cache_invisible. exact E.
Qed.

Lemma standard_check range nonce slice u st : Permutation slice (standard_keys range nonce) -> with_parser slice st ->
  (fst (check_signature u st) = Ok tt <-> standard_signature range (u_signed_data u) (u_signature u) (p_iss (u_payload u))).
Proof.
  intros HP Hp. assert (forall m c, In (m, c) (standard_keys range nonce) -> registered slice m c) as HR
    by (intros m c; apply (registered_perm _ _ _ _ HP (keys_nodup range nonce))).
  pose proof (HR _ _ (or_introl eq_refl)) as R1. pose proof (HR _ _ (or_intror (or_introl eq_refl))) as R2.
  pose proof (HR _ _ (or_intror (or_intror (or_introl eq_refl)))) as R3. clear HR. split.
  - intros H. pose proof (proj1 (check_iff slice u st Hp) H) as (k & E & _).
    rewrite <- (cache_invisible slice []) in E. apply did_parse_ok_iff in E as (m & c & rest & _ & E & HR & HK).
    apply registered_in, (Permutation_in _ HP) in HR. destruct HR as [HR|[HR|[HR|[]]]]; injection HR as <- <-; rewrite E.
    + apply (SS_ed25519 range _ _ sha512); [intros m; apply sha512_iff; reflexivity|]. exact (proj1 (ed_token sha512 slice rest u st R1 Hp E) H).
    + apply (rsa_ctor_iff rsa_sign (rsa_verify range) sha256) in HK as (n & e & Hn & Ht & _).
      destruct (proj1 (rsa_token range slice n e rest u st R2 Hp Ht Hn E) H) as [H1 H2]. exact (SS_rsa range _ _ n e rest Ht Hn H1 H2).
    + destruct (proj1 (p256_token nonce slice rest u st R3 Hp E) H) as (P & H1 & H2). exact (SS_p256 range _ _ P rest H1 H2).
  - intros H. remember (p_iss (u_payload u)) as did eqn:E. symmetry in E. destruct H as [H ab HH HZ | n e t Ht Hn H1 H2 | P bs H1 H2].
    + apply (ed_token sha512 slice ab u st R1 Hp E). revert HZ. apply zip215_ext. intros m. apply sha512_iff, HH.
    + apply (rsa_token range slice n e t u st R2 Hp Ht Hn E). auto.
    + apply (p256_token nonce slice bs u st R3 Hp E). exists P. auto.
Qed.

Lemma standard_issuer range nonce slice u : Permutation slice (standard_keys range nonce) ->
  (signed_by_issuer (did_parser_new slice) u <-> standard_signature range (u_signed_data u) (u_signature u) (p_iss (u_payload u))).
Proof.
  intros HP. assert (with_parser slice (mkState (did_parser_new slice) 0 0 0)) as Hp by (exists []; reflexivity).
  rewrite <- (check_iff slice u _ Hp). apply (standard_check range nonce slice u _ HP Hp).
Qed.

(* ---------------------------------------------------------------------- stores *)

Lemma last_written_iff X c ops blocks : writes ops blocks -> forall d b, last_written X c ops d = Some b <->
  (exists before after, blocks = before ++ b :: after /\ block_cid X b = c /\ forall b', In b' after -> block_cid X b' <> c) \/
  ((forall b', In b' blocks -> block_cid X b' <> c) /\ d = Some b).
Proof.
  induction 1 as [|b0 ops bs H IH|o ops bs Ho H IH]; intros d b.
  - cbn [last_written]. split; [right; split; [intros b' []|assumption]|]. intros [(x & y & E & _)|[_ E]]; [destruct x; discriminate | exact E].
  - cbn [last_written]. rewrite IH. clear IH. destruct (cid_eqb c (block_cid X b0)) eqn:E.
    + apply cid_eqb_eq in E. split.
      * intros [(x & y & -> & Hc & Hy)|[Hn [= ->]]]; left; [exists (b0 :: x), y; auto | exists [], bs; auto].
      * intros [(x & y & E' & Hc & Hy)|[Hn _]]; [|exfalso; apply (Hn b0 (or_introl eq_refl)); auto].
        destruct x as [|x0 x]; injection E' as E1 E2; subst; [right; split; [exact Hy | reflexivity] | left; exists x, y; auto].
    + assert (block_cid X b0 <> c) as Hne by (intros <-; rewrite cid_eqb_refl in E; discriminate). split.
      * intros [(x & y & -> & Hc & Hy)|[Hn ->]]; [left; exists (b0 :: x), y; auto|]. right. split; [|reflexivity]. intros b' [<-|Hb]; auto.
      * intros [(x & y & E' & Hc & Hy)|[Hn ->]]; [|right; split; [|reflexivity]; intros b' Hb; apply Hn; right; exact Hb].
        destruct x as [|x0 x]; injection E' as E1 E2; subst; [contradiction | left; exists x, y; auto].
  - rewrite <- IH. destruct o as [i|c']; [|reflexivity]. destruct i as [ | | | | |b1| | | ]; try reflexivity. exfalso. apply (Ho b1). reflexivity.
Qed.
Lemma read_latest X ops blocks c b : multihashed X -> writes ops blocks ->
  (mem_read (snd (store_run X [] ops)) c = Ok (Some (IBytes b)) <-> exists d, c = mkCid 1 85 30 d /\ latest blocks d b).
Proof.
  intros HX HW. unfold mem_read. rewrite store_run_get. cbn [hget].
  assert (forall b d, block_cid X b = mkCid 1 85 30 d <-> blake3_of b d) as HB.
  { intros b' d. unfold block_cid, cid_new_v1, raw_codec, blake3_256. pose proof (hash_digest X b' HX) as K. split; [intros [= <-]; exact K|].
    intros K'. f_equal. apply (blake3_fun b'); assumption. }
  pose proof (last_written_iff X c ops blocks HW None b) as HL. split.
  - destruct (last_written X c ops None) as [b'|]; [|discriminate]. intros [= ->]. destruct (proj1 HL eq_refl) as [(x & y & -> & <- & Hy)|[_ ?]]; [|discriminate].
    exists (x_hash X 30 b). split; [reflexivity|]. exists x, y. split; [reflexivity|]. split; [apply hash_digest, HX|]. intros b' Hb Hd. apply (Hy b' Hb). apply HB, Hd.
  - intros (d & -> & x & y & -> & Hb & Hy). rewrite (proj2 HL); [reflexivity|]. left. exists x, y. split; [reflexivity|].
    split; [apply HB, Hb|]. intros b' Hb' Hd. apply (Hy b' Hb'), HB, Hd.
Qed.
Lemma standing_steady E now ops : standing E now ops -> steady E.
Proof. intros [H1 H2]. split; [intros n m; rewrite !H1; reflexivity | intros n m c; rewrite !H2; reflexivity]. Qed.
Lemma resolves_iff E now ops blocks text u : multihashed (e_ext E) -> standing E now ops -> writes ops blocks ->
  (resolves E (fun _ => True) text u <-> stands_for (e_ext E) blocks text u).
Proof.
  intros HX [_ HS] HW. unfold resolves, stands_for. split.
  - intros (c & n & t & H1 & _ & _ & H2 & H3 & H4). rewrite HS in H2. apply (read_latest _ _ _ _ _ HX HW) in H2 as (d & -> & HL).
    exists d, t. split; [apply cid_text_iff, H1|]. split; [exact HL|]. split; [apply utf8_valid_iff, H3 | apply token_grammar_iff, H4].
  - intros (d & b & H1 & HL & H3 & H4). exists (mkCid 1 85 30 d), O, b. split; [apply cid_text_iff, H1|]. split; [reflexivity|]. split; [exact I|].
    split; [rewrite HS; apply (read_latest _ _ _ _ _ HX HW); exists d; auto|]. split; [apply utf8_valid_iff, H3 | apply token_grammar_iff, H4].
Qed.

(* ---------------------------------------------------------------------- chains *)

Lemma valid_now_iff range nonce slice E nt now ops u : Permutation slice (standard_keys range nonce) -> standing E now ops ->
  (valid_now E nt slice (fun _ => True) u <->
   in_time nt now (u_payload u) /\ standard_signature range (u_signed_data u) (u_signature u) (p_iss (u_payload u))).
Proof.
  intros HP [HC _]. unfold valid_now, in_time. rewrite (standard_issuer range nonce slice u HP). split.
  - intros (H1 & H2 & H3). split; [|exact H3]. split.
    + intros e He. specialize (H1 e He). destruct nt; [exact H1|]. destruct H1 as (n & _ & H1). rewrite HC in H1. exact H1.
    + intros b Hb. destruct (H2 b Hb) as (n & _ & H). rewrite HC in H. exact H.
  - intros ((H1 & H2) & H3). split; [|split; [|exact H3]].
    + intros e He. specialize (H1 e He). destruct nt; [exact H1|]. exists O. rewrite HC. auto.
    + intros b Hb. exists O. rewrite HC. auto.
Qed.
Lemma redelegates_iff X u n red : rooted X -> (redelegates X u n red <-> redelegates_texts u n red).
Proof.
  intros HX. assert (forall i, (exists c, claims u c /\ names_proof X c i) <-> exists c, claims u c /\ cap_ability c = B "ucan/DELEGATE" /\ SpecUrl.proof_text (cap_resource c) i) as E.
  { intros i. split; intros (c & H1 & H2); exists c; (split; [exact H1|]); apply (names_proof_text X c i HX), H2. }
  unfold redelegates, redelegates_texts. split; intros (H1 & H2 & H3); (split; [exact H1|]); (split; [|exact H3]); intros i; rewrite H2, E; reflexivity.
Qed.
Lemma chain_nested (P : chain -> Prop) : (forall u proofs red, (forall pc, In pc proofs -> P pc) -> P (Chain u proofs red)) -> forall c, P c.
Proof.
  intros HP. fix IH 1. intros [u proofs red]. apply HP. induction proofs as [|p ps IHp]; [intros pc []|].
  intros pc [<-|Hin]; [apply IH | exact (IHp pc Hin)].
Qed.
Lemma standard_chain_iff range nonce slice E nt now ops blocks c : Permutation slice (standard_keys range nonce) -> standing E now ops -> writes ops blocks ->
  multihashed (e_ext E) -> rooted (e_ext E) ->
  (valid_chain E nt slice (fun _ => True) (fun _ => True) c <-> standard_chain (e_ext E) range nt now blocks c).
Proof.
  intros HP HS HW HX HR. induction c as [u proofs red IH] using chain_nested. split.
  - intros H. inversion H as [? ? ? H1 H2 H3 H4 H5]; subst. apply (valid_now_iff range nonce slice E nt now ops u HP HS) in H1 as [H1 H1'].
    constructor; [exact H1 | exact H1' | | exact H3 | apply (redelegates_iff (e_ext E)), H4; exact HR | intros pc Hin; apply (IH pc Hin), H5, Hin].
    revert H2. apply Forall2_impl. intros t pc. apply (resolves_iff E now ops blocks _ _ HX HS HW).
  - intros H. inversion H as [? ? ? H1 H1' H2 H3 H4 H5]; subst.
    constructor; [apply (valid_now_iff range nonce slice E nt now ops u HP HS); auto | | exact H3 | apply (redelegates_iff (e_ext E)), H4; exact HR | intros pc Hin; apply (IH pc Hin), H5, Hin].
    revert H2. apply Forall2_impl. intros t pc. apply (resolves_iff E now ops blocks _ _ HX HS HW).
Qed.
Lemma standard_token range nonce slice E nt now ops blocks t c st : Permutation slice (standard_keys range nonce) -> standing E now ops -> writes ops blocks ->
  multihashed (e_ext E) -> rooted (e_ext E) -> with_parser slice st ->
  ((exists fuel, fst (from_token E nt fuel t st) = Ok c) <->
   token_grammar (e_ext E) t (c_ucan c) /\ standard_chain (e_ext E) range nt now blocks c).
Proof.
  intros HP HS HW HX HR Hp. rewrite (token_entry E nt slice t c st (standing_steady E now ops HS) Hp).
  rewrite (standard_chain_iff range nonce slice E nt now ops blocks c HP HS HW HX HR). reflexivity.
Qed.

(* ------------------------------------------------------------ one chain for a UCAN *)

Lemma writes_map blocks : writes (map (fun b => SWrite (IBytes b)) blocks) blocks.
Proof. induction blocks; constructor; assumption. Qed.
Lemma latest_fun blocks d b b' : latest blocks d b -> latest blocks d b' -> b = b'.
Proof.
  intros H H'. set (X := with_hashes (mkExt (fun _ => []) (fun _ => None) true true (fun _ _ => None) (fun _ _ => None) (fun _ _ => []) true)).
  assert (multihashed X) as HX by apply with_hashes_multihashed. clearbody X.
  pose proof (proj2 (read_latest X _ blocks (mkCid 1 85 30 d) b HX (writes_map blocks)) (ex_intro _ d (conj eq_refl H))) as K.
  pose proof (proj2 (read_latest X _ blocks (mkCid 1 85 30 d) b' HX (writes_map blocks)) (ex_intro _ d (conj eq_refl H'))) as K'. congruence.
Qed.
Lemma stands_for_fun X blocks text u u' : stands_for X blocks text u -> stands_for X blocks text u' -> u = u'.
Proof.
  intros (d & b & H1 & H2 & _ & H3) (d' & b' & K1 & K2 & _ & K3). apply cid_text_iff in H1, K1. assert (d' = d) as -> by congruence.
  rewrite (latest_fun _ _ _ _ K2 H2) in K3. apply token_grammar_iff in H3, K3. congruence.
Qed.
Lemma redelegates_texts_fun u n red red' : redelegates_texts u n red -> redelegates_texts u n red' -> red = red'.
Proof. intros (H1 & H2 & _) (K1 & K2 & _). apply ssorted_ext; [apply ssorted_lt, H1 | apply ssorted_lt, K1|]. intros i. rewrite H2, K2. reflexivity. Qed.
Lemma standard_chain_fun X range nt now blocks c : forall range' nt' now' c', standard_chain X range nt now blocks c -> standard_chain X range' nt' now' blocks c' ->
  c_ucan c = c_ucan c' -> c = c'.
Proof.
  induction c as [u proofs red IH] using chain_nested. intros range' nt' now' c' H H' E. inversion H as [? ? ? _ _ H2 _ H4 H5]; subst.
  inversion H' as [u' proofs' red' _ _ K2 _ K4 K5]; subst. cbn [c_ucan] in E. subst u'.
  assert (proofs = proofs') as <-.
  { clear H H' H4 K4. revert proofs' K2 K5. induction H2 as [|t pc ts pcs Hs _ IHl]; intros proofs' K2 K5; inversion K2 as [|? pc' ? pcs' Hs' K2']; subst; [reflexivity|]. f_equal.
    - apply (IH pc (or_introl eq_refl) range' nt' now' pc'); [apply H5; left; reflexivity | apply K5; left; reflexivity | exact (stands_for_fun _ _ _ _ _ Hs Hs')].
    - apply IHl; [intros p Hp; apply IH; right; exact Hp | intros p Hp; apply H5; right; exact Hp | exact K2' | intros p Hp; apply K5; right; exact Hp]. }
  rewrite (redelegates_texts_fun _ _ _ _ H4 K4). reflexivity.
Qed.

(* ---------------------------------------------------------------- unforgeability *)

Lemma standard_unforgeable range nonce slice (signed : bytes -> bytes -> Prop) : Permutation slice (standard_keys range nonce) ->
  (unforgeable slice signed <-> forall did data sig, standard_signature range data sig did -> signed did data).
Proof.
  intros HP.
  assert (forall did data sig, (exists k, fst (did_parse (did_parser_new slice) did) = Ok k /\ key_verify k data sig = Ok tt) <-> standard_signature range data sig did) as HS.
  { intros did data sig. exact (standard_issuer range nonce slice (mkUcan (mkHeader [] []) (mkPayload [] did [] None None None [] None None) data sig) HP). }
  unfold unforgeable. split.
  - intros H did data sig K. apply HS in K as (k & H1 & H2). exact (H did k data sig H1 H2).
  - intros H did k d s H1 H2. apply (H did d s). apply HS. exists k. auto.
Qed.

Section Line.
  Context {S A : Type} (SO : scope_ops S) (AO : ability_ops A).
  Variable parse : capability -> option (view S A).

  Lemma trail_line X range nt now blocks c v o : trail SO AO parse c v o -> standard_chain X range nt now blocks c ->
    standard_line SO AO parse X range blocks (c_ucan c) v o.
  Proof.
    induction 1 as [c v Hh | c pc v w o Hh Hp Htr IH He | c pc v o Hp Htr IH]; intros Hv.
    - apply SL_claim; [|exact Hh]. inversion Hv; subst. assumption.
    - destruct Hp as (i & _ & Hi). inversion Hv as [u ps red _ Hs Hf Hl _ Hps]; subst. cbn [c_proofs c_ucan] in *.
      pose proof (nth_error_In _ _ Hi) as Hin. destruct (Forall2_nth_r _ _ _ Hf i pc Hi) as (text & Ht & Hr).
      apply (SL_enabled SO AO parse X range blocks u (c_ucan pc) text v w); auto. eapply nth_error_In, Ht.
    - destruct Hp as (i & Hred & Hi). inversion Hv as [u ps red _ Hs Hf Hl Hrd Hps]; subst. cbn [c_proofs c_ucan c_redelegations] in *.
      pose proof (nth_error_In _ _ Hi) as Hin. destruct (Forall2_nth_r _ _ _ Hf i pc Hi) as (text & Ht & Hr).
      destruct Hrd as (_ & Hrd & _). apply Hrd in Hred as (cap & Hc & Ha & Hn).
      apply (SL_redelegated SO AO parse X range blocks u (c_ucan pc) text cap (N.of_nat i)); auto. rewrite Nnat.Nat2N.id. exact Ht.
  Qed.
  Lemma report_line range nonce slice E nt now ops blocks fuel t st c r x : Permutation slice (standard_keys range nonce) -> standing E now ops -> writes ops blocks ->
    multihashed (e_ext E) -> rooted (e_ext E) -> with_parser slice st ->
    fst (from_token E nt fuel t st) = Ok c -> reduce SO AO parse c = Ok r -> In x r ->
    exists o, In o (i_originators x) /\ standard_line SO AO parse (e_ext E) range blocks (c_ucan c) (i_capability x) o.
  Proof.
    intros HP HS HW HX HR Hp Hf Hred Hx. destruct (genuine_originator SO AO parse c r x Hred Hx) as (o & Ho & Htr). exists o. split; [exact Ho|].
    apply (trail_line (e_ext E) range nt now blocks c _ _ Htr).
    apply (standard_token range nonce slice E nt now ops blocks t c st HP HS HW HX HR Hp). exists fuel. exact Hf.
  Qed.
  (** Every originator issued a UCAN of the chain. *)
  Lemma report_issued range nonce slice E nt now ops blocks fuel t st c r x o : Permutation slice (standard_keys range nonce) -> standing E now ops -> writes ops blocks ->
    multihashed (e_ext E) -> rooted (e_ext E) -> with_parser slice st ->
    fst (from_token E nt fuel t st) = Ok c -> reduce SO AO parse c = Ok r -> In x r -> In o (i_originators x) ->
    exists u, in_chain u c /\ p_iss (u_payload u) = o /\ issued range u.
  Proof.
    intros HP HS HW HX HR Hp Hf Hred Hx Ho. destruct (report_originators SO AO parse c r x Hred Hx) as (_ & _ & Hall).
    destruct (Hall o Ho) as (u & Hu & Hi). exists u. split; [exact Hu|]. split; [exact Hi|].
    assert (standard_chain (e_ext E) range nt now blocks c) as HC
      by (apply (standard_token range nonce slice E nt now ops blocks t c st HP HS HW HX HR Hp); exists fuel; exact Hf).
    destruct Hu as (d & Hd & <-). clear -HC Hd. induction Hd as [d|c pc d Hin Hd IH]; [inversion HC; subst; assumption|].
    inversion HC; subst. cbn [c_proofs] in Hin. auto.
  Qed.
End Line.
