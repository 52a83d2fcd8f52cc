(** Proofs about stores whose answers have the digest of the CID (C169-C170). *)
From Verif Require Import Prelude Ord SMap Value Cid Ext Json Capability Semantics Key Ucan Store Builder Chain Fixtures
  Spec SpecChain SpecWire SpecHash SpecAllHashes SpecAddressed
  WireFacts OrdFacts SMapFacts StoreFacts CidFacts ChainFacts ReduceFacts ChainMoreFacts HashFacts AllHashesFacts.

Lemma addressed_agree E E' n n' cid t t' : addressed E -> addressed E' -> cid_codec cid = 85%N ->
  e_read E n cid = Ok (Some (IBytes t)) -> e_read E' n' cid = Ok (Some (IBytes t')) -> t = t' \/ collision (cid_hash_code cid) t t'.
Proof.
  intros HA HA' Hc H H'. destruct (list_eq_dec Byte.byte_eq_dec t t') as [->|Hne]; [left; reflexivity|]. right. split; [exact Hne|].
  exists (cid_digest cid). split; [exact (HA n cid t Hc H) | exact (HA' n' cid t' Hc H')].
Qed.
Lemma collide_root E E' u ps red text cid n n' t t' : In text (cited u) -> parse_cid (e_ext E) text = Some cid ->
  e_read E n cid = Ok (Some (IBytes t)) -> e_read E' n' cid = Ok (Some (IBytes t')) -> collision (cid_hash_code cid) t t' -> stores_collide E E' (Chain u ps red).
Proof.
  intros. exists u, text, cid, n, n', t, t'. repeat (split; [first [assumption | exact (in_chain_root (Chain u ps red))]|]). assumption.
Qed.
Lemma collide_proof E E' pc u ps red : In pc ps -> stores_collide E E' pc -> stores_collide E E' (Chain u ps red).
Proof.
  intros Hin (v & text & cid & n & n' & t & t' & H & Hr). exists v, text, cid, n, n', t, t'. split; [exact (in_chain_proof v pc (Chain u ps red) Hin H) | exact Hr].
Qed.

Lemma proofs_agree E E' (u : ucan) red all : addressed E -> addressed E' -> e_ext E' = e_ext E ->
  forall l ps ps', (forall text, In text l -> In text (cited u)) -> (forall q, In q ps -> In q all) ->
  Forall2 (fun text pc => resolves E (fun _ => True) text (c_ucan pc)) l ps -> Forall2 (fun text pc => resolves E' (fun _ => True) text (c_ucan pc)) l ps' ->
  (forall q q', In q ps -> In q' ps' -> c_ucan q = c_ucan q' -> q = q' \/ stores_collide E E' q) ->
  ps = ps' \/ stores_collide E E' (Chain u all red).
Proof.
  intros HA HA' Hx l ps ps' Hl Hall Hres. revert ps' Hl Hall. induction Hres as [|text pc l ps Hr Hres IHl]; intros ps' Hl Hall Hres' IH;
    inversion Hres' as [|? pc' ? ps'' Hr' Hres'']; subst; [left; reflexivity|].
  destruct Hr as (d & n & tok & P1 & P2 & _ & P3 & _ & P4), Hr' as (d' & n' & tok' & Q1 & Q2 & _ & Q3 & _ & Q4).
  rewrite Hx in Q1. assert (d' = d) as -> by congruence.
  destruct (addressed_agree E E' n n' d tok tok' HA HA' P2 P3 Q3) as [<-|Hcol]; [|right; eapply collide_root; try eassumption; apply Hl; left; reflexivity].
  rewrite Hx in Q4. assert (c_ucan pc = c_ucan pc') as Hu by congruence.
  destruct (IH pc pc' (or_introl eq_refl) (or_introl eq_refl) Hu) as [<-|Hcol]; [|right; eapply collide_proof; [apply Hall; left; reflexivity | exact Hcol]].
  destruct (IHl ps'') as [<-|Hcol]; [intros; apply Hl; right; assumption | intros; apply Hall; right; assumption | exact Hres''
    | intros q q' Hq Hq'; apply IH; right; assumption | left; reflexivity | right; exact Hcol].
Qed.
Lemma resolves_true E R l ps : Forall2 (fun text pc => resolves E R text (c_ucan pc)) l ps -> Forall2 (fun text pc => resolves E (fun _ => True) text (c_ucan pc)) l ps.
Proof.
  induction 1 as [|text pc l ps (c & n & t & H1 & H2 & _ & H3) _ IH]; constructor; [|exact IH]. exists c, n, t. tauto.
Qed.
Lemma addressed_chains E E' nt nt' slice slice' T T' R R' c : addressed E -> addressed E' -> e_ext E' = e_ext E ->
  forall c', c_ucan c = c_ucan c' -> valid_chain E nt slice T R c -> valid_chain E' nt' slice' T' R' c' -> c = c' \/ stores_collide E E' c.
Proof.
  intros HA HA' Hx c' Hc Hv. revert c' Hc. induction Hv as [u ps red _ Hres _ Hred _ IH]. intros c' Hc Hv'.
  destruct Hv' as [u' ps' red' _ Hres' _ Hred' Hps']. cbn [c_ucan] in Hc. subst u'.
  destruct (proofs_agree E E' u red ps HA HA' Hx (cited u) ps ps') as [<-|Hcol]; [auto | auto | eapply resolves_true, Hres | eapply resolves_true, Hres'
    | intros q q' Hq Hq' Hu; exact (IH q Hq q' Hu (Hps' q' Hq')) | | right; exact Hcol].
  left. f_equal. destruct Hred as (S1 & R1 & _), Hred' as (S2 & R2 & _). rewrite Hx in R2.
  apply ssorted_lt in S1. apply ssorted_lt in S2. apply (ssorted_ext red red' S1 S2). intros i. rewrite R1, R2. reflexivity.
Qed.
Theorem addressed_one_chain E E' nt nt' slice slice' f f' u st st' c c' : addressed E -> addressed E' -> e_ext E' = e_ext E ->
  with_parser slice st -> with_parser slice' st' -> fst (from_ucan E nt f u st) = Ok c -> fst (from_ucan E' nt' f' u st') = Ok c' ->
  c = c' \/ stores_collide E E' c.
Proof.
  intros HA HA' Hx Hp Hp' H1 H2. destruct (from_ucan E nt f u st) as [r1 s1] eqn:E1, (from_ucan E' nt' f' u st') as [r2 s2] eqn:E2.
  cbn [fst] in *. subst. destruct (from_ucan_valid _ _ _ _ _ _ _ _ Hp E1) as [Hc V1]. destruct (from_ucan_valid _ _ _ _ _ _ _ _ Hp' E2) as [Hc' V2].
  eapply addressed_chains; try eassumption. congruence.
Qed.

Theorem memory_addressed E : memory_backed E -> all_multihashed (e_ext E) -> addressed E.
Proof.
  intros Hm HX n c t Hc Hr. rewrite (memory_token_cid E n c t Hm Hr). unfold block_cid, cid_new_v1, blake3_256. cbn [cid_hash_code cid_digest].
  assert (exists d, table_digest 30 t d) as (d & Hd).
  { destruct (table_digests 30%N 32%nat SpecBlake3.blake3_of t) as (d & Hd & _); [unfold hash_table; cbn [In]; auto 20|]. exists d, 32%nat, SpecBlake3.blake3_of.
    split; [unfold hash_table; cbn [In]; auto 20 | exact Hd]. }
  rewrite (HX 30%N t d Hd). exact Hd.
Qed.
Lemma blake2b_held X tokens c t : hget c (fold_left (fun s t => snd (blake2b_write_token X s t)) tokens []) = Some t ->
  c = cid_new_v1 raw_codec blake2b_256 (x_hash X blake2b_256 t).
Proof.
  assert (forall tokens s, (forall c t, hget c s = Some t -> c = cid_new_v1 raw_codec blake2b_256 (x_hash X blake2b_256 t)) ->
    hget c (fold_left (fun s t => snd (blake2b_write_token X s t)) tokens s) = Some t -> c = cid_new_v1 raw_codec blake2b_256 (x_hash X blake2b_256 t)) as H.
  { induction tokens0 as [|k ks IH]; intros s Hs H; [exact (Hs _ _ H)|]. cbn [fold_left] in H. apply IH in H; [exact H|].
    intros c0 t0 H0. unfold blake2b_write_token, raw_encode in H0. cbn [snd] in H0. rewrite hget_hinsert in H0.
    destruct (cid_eqb c0 _) eqn:Ec; [|exact (Hs _ _ H0)]. apply cid_eqb_eq in Ec. injection H0 as <-. exact Ec. }
  apply H. intros c0 t0 H0. discriminate H0.
Qed.
Theorem blake2b_addressed X clock tokens : all_multihashed X ->
  addressed (mkEnv X clock (fun _ c => mem_read (fold_left (fun s t => snd (blake2b_write_token X s t)) tokens []) c)).
Proof.
  intros HX n c t Hc Hr. cbn [e_read] in Hr. unfold mem_read in Hr. destruct (hget c _) as [b|] eqn:Eb; [|discriminate Hr]. injection Hr as <-.
  rewrite (blake2b_held X tokens c b Eb). unfold cid_new_v1, blake2b_256. cbn [cid_hash_code cid_digest].
  assert (exists d, table_digest 45600 b d) as (d & Hd).
  { destruct (table_digests 45600%N 32%nat (SpecBlake2s.blake2b_of 32) b) as (d & Hd & _); [unfold hash_table; cbn [In]; auto 20|]. exists d, 32%nat, (SpecBlake2s.blake2b_of 32).
    split; [unfold hash_table; cbn [In]; auto 20 | exact Hd]. }
  rewrite (HX 45600%N b d Hd). exact Hd.
Qed.

(* ------------------------------------------------------------------ moving a chain to another store *)

Lemma portable_proofs E E' (u : ucan) red all : addressed E -> addressed E' -> e_ext E' = e_ext E -> steady E' ->
  forall l ps, (forall text, In text l -> In text (cited u)) -> holds_citations E' (Chain u all red) ->
  Forall2 (fun text pc => resolves E (fun _ => True) text (c_ucan pc)) l ps ->
  Forall2 (fun text pc => resolves E' (fun _ => True) text (c_ucan pc)) l ps \/ stores_collide E E' (Chain u all red).
Proof.
  intros HA HA' Hx HE' l ps Hl Hh Hres. revert Hl. induction Hres as [|text pc l ps Hr Hres IHl]; intros Hl; [left; constructor|].
  destruct Hr as (d & n & tok & P1 & P2 & _ & P3 & P4 & P5).
  assert (In text (cited u)) as Hin by (apply Hl; left; reflexivity).
  destruct (Hh u text d (in_chain_root (Chain u all red)) Hin ltac:(rewrite Hx; exact P1)) as (tok' & Q3).
  destruct (addressed_agree E E' n 0 d tok tok' HA HA' P2 P3 Q3) as [<-|Hcol]; [|right; eapply collide_root; eassumption].
  destruct IHl as [H|Hcol]; [intros; apply Hl; right; assumption | left | right; exact Hcol].
  constructor; [|exact H]. exists d, 0%nat, tok. rewrite Hx. tauto.
Qed.
Lemma proofs_all (P : chain -> Prop) (Q : Prop) ps : (forall pc, In pc ps -> P pc \/ Q) -> (forall pc, In pc ps -> P pc) \/ Q.
Proof.
  induction ps as [|p ps IH]; intros H; [left; intros ? []|]. destruct (H p (or_introl eq_refl)) as [Hp|]; [|right; assumption].
  destruct IH as [Hps|]; [intros; apply H; right; assumption | left; intros ? [<-|]; auto | right; assumption].
Qed.
Lemma portable_chain E E' nt slice c : addressed E -> addressed E' -> e_ext E' = e_ext E -> steady E' -> (forall n, e_clock E' n = e_clock E n) ->
  valid_chain E nt slice (fun _ => True) (fun _ => True) c -> holds_citations E' c ->
  valid_chain E' nt slice (fun _ => True) (fun _ => True) c \/ stores_collide E E' c.
Proof.
  intros HA HA' Hx HE' Hk Hv. induction Hv as [u ps red Hnow Hres Hlink Hred _ IH]. intros Hh.
  destruct (portable_proofs E E' u red ps HA HA' Hx HE' (cited u) ps ltac:(auto) Hh Hres) as [Hres'|]; [|right; assumption].
  destruct (proofs_all (valid_chain E' nt slice (fun _ => True) (fun _ => True)) (stores_collide E E' (Chain u ps red)) ps) as [Hps|]; [| |right; assumption].
  { intros pc Hin. destruct (IH pc Hin) as [|Hcol]; [|left; assumption | right; eapply collide_proof; eassumption].
    intros v text cid Hv. apply Hh. exact (in_chain_proof v pc (Chain u ps red) Hin Hv). }
  left. constructor; [|exact Hres' | exact Hlink | rewrite Hx; exact Hred | exact Hps].
  destruct Hnow as (H1 & H2 & H3). split; [|split; [|exact H3]].
  - intros e He. specialize (H1 e He). destruct nt; [exact H1|]. destruct H1 as (n & Hn & Hle). exists n. rewrite Hk. auto.
  - intros b Hb. destruct (H2 b Hb) as (n & Hn & Hle). exists n. rewrite Hk. auto.
Qed.
Theorem portable E E' nt slice u c st st' : steady E -> steady E' -> addressed E -> addressed E' -> e_ext E' = e_ext E -> (forall n, e_clock E' n = e_clock E n) ->
  with_parser slice st -> with_parser slice st' -> (exists fuel, fst (from_ucan E nt fuel u st) = Ok c) -> holds_citations E' c ->
  (exists fuel, fst (from_ucan E' nt fuel u st') = Ok c) \/ stores_collide E E' c.
Proof.
  intros HE HE' HA HA' Hx Hk Hp Hp' Ha Hh. apply (chain_accepted_iff E nt slice u c st HE Hp) in Ha as [Hu Hv].
  destruct (portable_chain E E' nt slice c HA HA' Hx HE' Hk Hv Hh) as [Hv'|]; [left | right; assumption].
  apply (chain_accepted_iff E' nt slice u c st' HE' Hp'). auto.
Qed.
Theorem needs_blocks E nt slice u c st : steady E -> with_parser slice st -> (exists fuel, fst (from_ucan E nt fuel u st) = Ok c) -> holds_citations E c.
Proof.
  intros HE Hp Ha. apply (chain_accepted_iff E nt slice u c st HE Hp) in Ha as [_ Hv]. intros v text cid (d & Hsub & <-). revert Hv.
  induction Hsub as [d | d pc e Hin _ IH]; intros Hv Ht Hc; destruct Hv as [w ps red _ Hres _ _ Hps].
  - cbn [c_ucan] in Ht. clear Hps. induction Hres as [|text' pc l ps Hr _ IHl]; [destruct Ht|]. destruct Ht as [->|Ht]; [|exact (IHl Ht)].
    destruct Hr as (cid' & n & tok & P1 & _ & _ & P3 & _). exists tok. rewrite (proj2 HE 0%nat n). congruence.
  - exact (IH (Hps pc Hin) Ht Hc).
Qed.
Theorem pinned E R X code a t d v : e_ext E = X -> addressed E -> all_multihashed X -> token_text X a t -> table_digest code t d ->
  resolves E R (proof_text X a (Some code)) v -> parse_token X t = Ok v \/ exists t', parse_token X t' = Ok v /\ collision code t t'.
Proof.
  intros HE HA HX Ht Hd (cid & n & tok & P1 & P2 & _ & P3 & _ & P5). rewrite HE in P1, P5. unfold proof_text in P1.
  pose proof (HX code t d Hd) as Eh. pose proof Hd as (k & f & Hin & Hf). destruct (table_codes code k f Hin) as [Hc Hk].
  destruct (table_digests code k f t Hin) as (d' & _ & Hl & Hu). rewrite <- (Hu d Hf) in Hl.
  apply token_text_iff in Ht. rewrite parse_cid_text in P1.
  - injection P1 as <-. pose proof (HA n _ tok P2 P3) as Hd'. unfold to_cid, cid_new_v1 in Hd'. cbn [cid_hash_code cid_digest] in Hd'. rewrite <- Ht, Eh in Hd'.
    destruct (list_eq_dec Byte.byte_eq_dec t tok) as [<-|Hne]; [left; exact P5 | right]. exists tok. split; [exact P5|]. split; [exact Hne|]. exists d. auto.
  - unfold to_cid. rewrite <- Ht, Eh. unfold cid_v1, cid_new_v1, Spec.word, raw_codec. cbn [cid_version cid_codec cid_hash_code cid_digest]. repeat split; try lia.
Qed.
