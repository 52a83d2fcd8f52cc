(** Proofs about BLAKE2s (C167). *)
From Verif Require Import Prelude Cbor Sha256 Ed25519 Blake3 Blake2b Blake2s Spec SpecWire SpecCbor SpecSha SpecSha512 SpecEd SpecBlake3 SpecBlake2 SpecBlake2s OrdFacts Base58Facts CborFacts Sha512Facts Blake2Facts Blake2bFacts ShaFacts EdTextFacts Blake3Facts Blake3TreeFacts.
Local Open Scope N_scope.
Local Opaque b3_g b3_compress.

Lemma round_part sigma m s : b2s_round sigma m s = part 8 (fun i => nth (nth i sigma O) m 0) s.
Proof. reflexivity. Qed.
Local Opaque b2s_round.
Fixpoint start (r : nat) (m s : list N) : list N := match r with O => s | S r' => b2s_round (sigma_at r') m (start r' m s) end.
Lemma start_S r m s : start (S r) m s = b2s_round (sigma_at r) m (start r m s).
Proof. unfold start. reflexivity. Qed.
Lemma fold_start m s : forall rs' rs, firstn 10 b2_sigma = rs ++ rs' ->
  fold_left (fun s sigma => b2s_round sigma m s) rs' (start (length rs) m s) = start 10 m s.
Proof.
  induction rs' as [|row rs' IH]; intros rs E.
  - rewrite app_nil_r in E. rewrite <- E. unfold fold_left. reflexivity.
  - assert (sigma_at (length rs) = row) as Er by (unfold sigma_at; rewrite <- (firstn_skipn 10 b2_sigma), E, <- app_assoc, app_nth2, Nat.sub_diag by lia; reflexivity).
    specialize (IH (rs ++ [row])). rewrite app_length, <- app_assoc in IH. cbn [length app] in IH. rewrite Nat.add_1_r in IH. specialize (IH E).
    rewrite start_S, Er in IH. rewrite fold_cons. exact IH.
Qed.
Lemma start_ok m s : words_ok 16 s -> forall r, words_ok 16 (start r m s).
Proof. intros Hs. induction r as [|r IH]; [exact Hs|]. rewrite start_S, round_part. apply part_ok; [lia | exact IH]. Qed.

Definition stage (m s : list N) (n : nat) : list N := part (n mod 8) (fun i => nth (nth i (sigma_at (n / 8)) O) m 0) (start (n / 8) m s).
Lemma stage_at m s r j : (j <= 8)%nat -> stage m s (8 * r + j) = part j (fun i => nth (nth i (sigma_at r) O) m 0) (start r m s).
Proof.
  intros Hj. unfold stage. destruct (Nat.eq_dec j 8) as [->|].
  - replace (8 * r + 8)%nat with (8 * S r + 0)%nat by lia. destruct (div_place (S r) 0 ltac:(lia)) as [-> ->]. rewrite part_0, start_S, round_part. reflexivity.
  - destruct (div_place r j ltac:(lia)) as [-> ->]. reflexivity.
Qed.

Lemma ones_negb x : x < 2 ^ 32 -> N.lxor x 0xffffffff = word_of (fun i => negb (bit x i)) /\ N.lxor x 0xffffffff < 2 ^ 32.
Proof.
  intros Hx. assert (N.lxor x 0xffffffff < 2 ^ 32) as Hb by (apply lxor_bound; [exact Hx | reflexivity]).
  split; [|exact Hb]. apply word_of_eq; [exact Hb|]. intros i Hi. unfold bit. rewrite N.lxor_spec.
  change 0xffffffff with (N.ones 32). rewrite N.ones_spec_low by lia. apply xorb_true_r.
Qed.

Definition tail_words (t : N) (last : bool) : list N :=
  [N.lxor (nth 4 b3_iv 0) (low32 t); N.lxor (nth 5 b3_iv 0) (low32 (N.shiftr t 32));
   if last then N.lxor (nth 6 b3_iv 0) 0xffffffff else nth 6 b3_iv 0; nth 7 b3_iv 0].
Lemma tail_words_ok t last : words_ok 8 (firstn 4 b3_iv ++ tail_words t last).
Proof.
  apply (words_ok_app 4 4).
  - apply nth_list_ok; [|reflexivity]. repeat (constructor; [reflexivity|]). constructor.
  - apply nth_list_ok; [|reflexivity]. constructor; [apply lxor_bound; [apply b3_iv_ok | apply low32_bound]|].
    constructor; [apply lxor_bound; [apply b3_iv_ok | apply low32_bound]|].
    constructor; [destruct last; reflexivity|]. constructor; [reflexivity | constructor].
Qed.
Theorem compress2s_correct h m t last : words_ok 8 h ->
  b2s_compression h m t last (b2s_compress h m t last) /\ words_ok 8 (b2s_compress h m t last).
Proof.
  intros Hh. unfold b2s_compress. cbv zeta. fold (tail_words t last). set (s := h ++ _).
  assert (words_ok 16 s) as Hs by (apply (words_ok_app 8 8); [exact Hh | apply tail_words_ok]).
  rewrite (fold_start m s (firstn 10 b2_sigma) [] eq_refl : fold_left (fun s sigma => b2s_round sigma m s) (firstn 10 b2_sigma) s = start 10 m s).
  pose proof (start_ok m s Hs 10) as H12. split.
  - exists b3_iv, (fun n i => nth i (stage m s n) 0). split; [apply b3_iv_initial; reflexivity|].
    assert (forall i, nth i (stage m s 0) 0 = nth i s 0) as E0.
    { intros i. pose proof (stage_at m s 0 0 ltac:(lia)) as S0. rewrite part_0 in S0. change (8 * 0 + 0)%nat with 0%nat in S0. rewrite S0. reflexivity. }
    pose proof Hh as [Hl _].
    split; [intros i Hi; rewrite E0; unfold s; apply app_nth1; lia|].
    assert (forall i, nth (8 + i)%nat (stage m s 0) 0 = nth i (firstn 4 b3_iv ++ tail_words t last) 0) as E8.
    { intros i. rewrite E0. unfold s. rewrite app_nth2 by lia. f_equal. lia. }
    split; [intros i Hi; rewrite E8; do 4 (destruct i as [|i]; [reflexivity|]); lia|].
    split; [refine (eq_trans (E8 4%nat) _); cbn [nth app firstn b3_iv tail_words]; rewrite <- low32_mod; apply differing_lxor; [apply b3_iv_ok with (i := 4%nat) | apply low32_bound]|].
    split.
    { refine (eq_trans (E8 5%nat) _). cbn [nth app firstn b3_iv tail_words]. rewrite N.shiftr_div_pow2, <- low32_mod.
      apply differing_lxor; [apply b3_iv_ok with (i := 5%nat) | apply low32_bound]. }
    split.
    { refine (eq_trans (E8 6%nat) _). destruct last; [|reflexivity]. exact (proj1 (ones_negb (nth 6 b3_iv 0) (proj2 b3_iv_ok 6%nat))). }
    split; [exact (E8 7%nat)|]. split.
    + intros r j Hr Hj. rewrite (stage_at m s r j) by lia. replace (S (8 * r + j))%nat with (8 * r + S j)%nat by lia.
      rewrite (stage_at m s r (S j)) by lia. rewrite <- !sigma_table by lia.
      apply (part_step (fun i => nth (nth i (sigma_at r) O) m 0)); [exact Hj | apply start_ok, Hs].
    + pose proof (stage_at m s 10 0 ltac:(lia)) as S12. rewrite part_0 in S12.
      apply map_ext. intros i. change (stage m s (8 * 10 + 0)) with (stage m s 80) in S12. rewrite S12.
      rewrite <- (differing_lxor (nth i (start 10 m s) 0)) by apply H12. apply differing_lxor; [apply Hh | apply lxor_bound; apply H12].
  - apply nth_list_ok; [|rewrite map_length, seq_length; reflexivity]. apply Forall_forall. intros x Hx. apply in_map_iff in Hx as (i & <- & _).
    apply lxor_bound; [apply Hh | apply lxor_bound; apply H12].
Qed.
Theorem compression2s_fun h m t last out out' : b2s_compression h m t last out -> b2s_compression h m t last out' -> out = out'.
Proof.
  intros (iv & v & Hiv & Hh & H8 & H12 & H13 & H14 & H15 & Hq & ->) (iv' & w & Hiv' & Gh & G8 & G12 & G13 & G14 & G15 & Gq & ->).
  apply b3_iv_initial in Hiv as ->, Hiv' as ->.
  assert (forall n, (n <= 80)%nat -> forall i, (i < 16)%nat -> v n i = w n i) as E.
  { induction n as [|n IH]; intros Hn i Hi.
    - destruct (Nat.lt_ge_cases i 8) as [L|L]; [rewrite Hh, Gh by exact L; reflexivity|].
      destruct (Nat.lt_ge_cases i 12) as [L'|L']; [replace i with (8 + (i - 8))%nat by lia; rewrite H8, G8 by lia; reflexivity|].
      assert (i = 12 \/ i = 13 \/ i = 14 \/ i = 15)%nat as [-> | [-> | [-> | ->]]] by lia; congruence.
    - pose proof (Nat.div_mod n 8 ltac:(discriminate)) as En. pose proof (Nat.mod_upper_bound n 8 ltac:(discriminate)) as Hm.
      assert (n / 8 < 10)%nat as Hr by (apply Nat.div_lt_upper_bound; lia).
      specialize (Hq _ _ Hr Hm). specialize (Gq _ _ Hr Hm). rewrite <- En in Hq, Gq. apply quarters_quad in Hq, Gq.
      pose proof (quad_fine _ Hm) as Q. destruct (quad (n mod 8)) as [[[a b] c] dd]. destruct Q as [_ Q].
      exact (mixed_fun a b c dd _ _ _ _ _ _ Q (IH ltac:(lia)) Hq Gq i Hi). }
  apply map_ext_in. intros i Hi. apply in_seq in Hi. rewrite !E by lia. reflexivity.
Qed.
Local Opaque b2s_compress.

Lemma le_words4 out : Forall (fun x => x < 2 ^ 32) out -> Forall2 (le_number 4) out (map (le_bytes 4) out).
Proof. induction 1 as [|x l Hx _ IH]; cbn [map]; constructor; [|exact IH]. apply le_number_bytes. split; [reflexivity | exact Hx]. Qed.
Lemma concat_split64 (bs bs' : list bytes) : Forall (fun b => length b = 64%nat) bs -> Forall (fun b => length b = 64%nat) bs' -> forall b b',
  length bs = length bs' -> concat bs ++ b = concat bs' ++ b' -> bs = bs' /\ b = b'.
Proof.
  intros H. revert bs'. induction H as [|x bs Hx _ IH]; intros bs' H' b b' Hl E.
  - destruct bs'; [auto | discriminate Hl].
  - destruct H' as [|y bs' Hy H']; [discriminate Hl|]. cbn [concat] in E. rewrite <- !app_assoc in E.
    apply app_len in E as [-> E']; [|congruence]. destruct (IH bs' H' b b' ltac:(cbn [length] in Hl; lia) E') as [-> ->]. auto.
Qed.
Lemma init_ok n : (n <= 32)%nat -> chained_2s n [] (b2s_start n) /\ words_ok 8 (b2s_start n).
Proof.
  intros Hn. assert (0x01010000 + N.of_nat n < 2 ^ 32) as Hp by (change (2 ^ 32) with 4294967296; lia).
  assert (nth 0 b3_iv 0 < 2 ^ 32) as Hi by reflexivity.
  pose proof (differing_lxor (nth 0 b3_iv 0) (0x01010000 + N.of_nat n) Hi Hp) as E.
  unfold b2s_start. split.
  - rewrite E. assert (forall v, upd 0 v b3_iv = v :: tl b3_iv) as -> by reflexivity. apply C2s_start. apply b3_iv_initial. reflexivity.
  - apply upd_ok; [exact b3_iv_ok | lia | apply lxor_bound; assumption].
Qed.
Lemma blocks_correct n : forall fuel bs h m, chained_2s n bs h -> words_ok 8 h -> (length m < fuel)%nat -> (m = [] -> bs = []) ->
  exists (bs' : list bytes) b h', concat bs ++ m = concat bs' ++ b /\ (length b <= 64)%nat /\ (b = [] -> bs' = []) /\ chained_2s n bs' h' /\ words_ok 8 h' /\
    b2s_blocks fuel h (64 * N.of_nat (length bs)) m = b2s_compress h' (b3_words (b ++ repeat x00 (64 - length b))) (64 * N.of_nat (length bs') + N.of_nat (length b)) true.
Proof.
  induction fuel as [|fuel IH]; intros bs h m Hc Hh Hf He; [lia|]. cbn [b2s_blocks].
  destruct (Nat.leb_spec (length m) 64) as [Hm|Hm].
  - exists bs, m, h. repeat (split; [first [reflexivity | assumption]|]). reflexivity.
  - assert (length (firstn 64 m) = 64%nat) as Hb by (rewrite firstn_length; lia).
    destruct (compress2s_correct h (b3_words (firstn 64 m)) (64 * N.of_nat (length bs) + 64) false Hh) as [Hcomp Hok].
    replace (64 * N.of_nat (length bs) + 64) with (64 * N.of_nat (length (bs ++ [firstn 64 m]))) in * by (rewrite app_length; cbn [length]; lia).
    set (out := b2s_compress h (b3_words (firstn 64 m)) _ false) in *. clearbody out.
    destruct (IH (bs ++ [firstn 64 m]) out (skipn 64 m)) as (bs' & b & h' & E & H1 & H2 & H3 & H4 & H5); [|exact Hok | rewrite skipn_length; lia | |].
    + eapply C2s_block; [exact Hc | exact Hb | apply block_words_full, Hb|].
      replace (S (length bs)) with (length (bs ++ [firstn 64 m])) by (rewrite app_length; cbn [length]; lia). exact Hcomp.
    + intros H. apply (f_equal (@length _)) in H. rewrite skipn_length in H. cbn [length] in H. lia.
    + exists bs', b, h'. split; [|auto]. rewrite <- E, concat_app. cbn [concat]. rewrite app_nil_r, <- app_assoc, firstn_skipn. reflexivity.
Qed.
Lemma chained_lengths n bs h : chained_2s n bs h -> Forall (fun b => length b = 64%nat) bs.
Proof. induction 1 as [|bs b h m h' _ IH Hb _ _]; [constructor|]. apply Forall_app. auto. Qed.
Theorem blake2s_of_model n m : (n <= 32)%nat -> blake2s_of n m (blake2s n m).
Proof.
  intros Hn. destruct (init_ok n Hn) as [Hc Hh].
  destruct (blocks_correct n (S (length m)) [] (b2s_start n) m Hc Hh ltac:(lia) ltac:(reflexivity)) as (bs & b & h & E & Hl & He & Hbs & Hok & Hr).
  cbn [concat app length N.of_nat N.mul] in E, Hr.
  destruct (compress2s_correct h (b3_words (b ++ repeat x00 (64 - length b))) (64 * N.of_nat (length bs) + N.of_nat (length b)) true Hok) as [Hcomp Hout].
  unfold blake2s. rewrite Hr. set (out := b2s_compress _ _ _ _) in *. clearbody out.
  exists bs, b, h, (b3_words (b ++ repeat x00 (64 - length b))), out, (map (le_bytes 4) out).
  split; [exact E|]. split; [exact Hl|]. split; [exact He|]. split; [exact Hbs|]. split; [apply block_words_ok, Hl|].
  split; [|split; [apply le_words4; eapply words_ok_Forall; exact Hout | rewrite flat_map_concat_map; reflexivity]].
  replace (N.of_nat (length m)) with (64 * N.of_nat (length bs) + N.of_nat (length b)); [exact Hcomp|].
  rewrite E, app_length, (concat_length64 bs (chained_lengths n bs h Hbs)). lia.
Qed.
Lemma chained_fun n bs h : chained_2s n bs h -> forall h', chained_2s n bs h' -> h = h'.
Proof.
  induction 1 as [x iv Hiv | bs b h m h1 _ IH Hb Hm Hc]; intros h' H'.
  - inversion H' as [x' iv' Hiv' | bs' b' ? ? ? ? ? ? ? E]; [|destruct bs'; discriminate]. subst. apply b3_iv_initial in Hiv, Hiv'. congruence.
  - inversion H' as [x' iv' Hiv' E | bs' b' g m' ? Hbs' Hb' Hm' Hc' E]; [destruct bs; discriminate|]. subst.
    apply app_inj_tail in E as [-> ->]. rewrite (IH _ Hbs') in Hc. rewrite (block_words_fun b m m' Hm Hm') in Hc.
    eapply compression2s_fun; eassumption.
Qed.
Theorem blake2s_fun n m d d' : blake2s_of n m d -> blake2s_of n m d' -> d = d'.
Proof.
  intros (bs & b & h & w & out & words & E & Hl & He & Hc & Hw & Hcomp & Hwords & ->) (bs' & b' & h' & w' & out' & words' & E' & Hl' & He' & Hc' & Hw' & Hcomp' & Hwords' & ->).
  rewrite E' in E. symmetry in E. pose proof (chained_lengths n _ _ Hc) as F. pose proof (chained_lengths n _ _ Hc') as F'.
  assert (length bs = length bs') as Hn.
  { pose proof (f_equal (@length _) E) as Hlen. rewrite !app_length, !concat_length64 in Hlen by assumption.
    assert (length b = 0 -> length bs = 0)%nat as Z by (intros H; destruct b; [rewrite He by reflexivity; reflexivity | discriminate H]).
    assert (length b' = 0 -> length bs' = 0)%nat as Z' by (intros H; destruct b'; [rewrite He' by reflexivity; reflexivity | discriminate H]).
    clear -Hlen Z Z' Hl Hl'. lia. }
  destruct (concat_split64 bs bs' F F' b b' Hn E) as [<- <-].
  rewrite <- (chained_fun n bs h Hc h' Hc'), <- (block_words_fun b w w' Hw Hw') in Hcomp'. rewrite <- (compression2s_fun _ _ _ _ _ _ Hcomp Hcomp') in Hwords'.
  do 2 f_equal. eapply words_of_fun; eassumption.
Qed.
Theorem blake2s_iff n m d : (n <= 32)%nat -> (blake2s_of n m d <-> blake2s n m = d).
Proof. intros Hn. split; [intros H; exact (blake2s_fun n m _ _ (blake2s_of_model n m Hn) H) | intros <-; apply blake2s_of_model, Hn]. Qed.
Lemma blake2s_length n m : (n <= 32)%nat -> length (blake2s n m) = n.
Proof.
  intros Hn. destruct (blake2s_of_model n m Hn) as (bs & b & h & w & out & words & _ & _ & _ & _ & _ & Hc & Hw & ->).
  assert (length out = 8%nat) as Hl.
  { destruct Hc as (iv & v & _ & _ & _ & _ & _ & _ & _ & _ & ->). rewrite map_length, seq_length. reflexivity. }
  apply firstn_length_le. rewrite (le_concat_length 4 _ _ Hw), Hl. lia.
Qed.
