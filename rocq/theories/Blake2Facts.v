(** Proofs about BLAKE2b (C151). *)
From Verif Require Import Prelude Cbor Sha512 Ed25519 Blake3 Blake2b Spec SpecWire SpecCbor SpecSha SpecSha512 SpecEd SpecBlake2 OrdFacts Base58Facts CborFacts ShaFacts EdTextFacts Blake3Facts Blake3TreeFacts Sha512Facts.
Local Open Scope N_scope.

(* ------------------------------------------------------------------ mixing *)

Definition words5_ok (n : nat) (s : list N) : Prop := length s = n /\ forall i, nth i s 0 < 2 ^ 64.
Lemma upd_ok n i v s : words5_ok n s -> (i < n)%nat -> v < 2 ^ 64 -> words5_ok n (upd i v s).
Proof.
  intros [Hl Hs] Hi Hv. split; [rewrite upd_length; exact Hl|]. intros j. rewrite nth_upd by lia. destruct (j =? i)%nat; [exact Hv | apply Hs].
Qed.
Lemma nth_upd_eq n i v s : words5_ok n s -> (i < n)%nat -> nth i (upd i v s) 0 = v.
Proof. intros [Hl _] Hi. rewrite nth_upd by lia. rewrite Nat.eqb_refl. reflexivity. Qed.
Lemma nth_upd_ne n i j v s : words5_ok n s -> (i < n)%nat -> j <> i -> nth j (upd i v s) 0 = nth j s 0.
Proof. intros [Hl _] Hi Hj. rewrite nth_upd by lia. destruct (Nat.eqb_spec j i); [contradiction | reflexivity]. Qed.

Lemma differing_lxor x y : x < 2 ^ 64 -> y < 2 ^ 64 -> N.lxor x y = differing5 x y.
Proof. intros Hx Hy. apply word_of_eq; [apply lxor_bound; assumption|]. intros i _. unfold bit. apply N.lxor_spec. Qed.
Lemma turn_rotr k x : x < 2 ^ 64 -> (0 < k < 64)%nat -> rotr64 (N.of_nat k) x = turn5 k x.
Proof. intros Hx Hk. apply word_of_eq; [apply rotr_bound; assumption|]. intros i Hi. apply rotr_bit; assumption. Qed.
Lemma add3 a b c : add64 (add64 a b) c = (a + b + c) mod 2 ^ 64.
Proof. rewrite !add32_mod. rewrite add_mod_l by discriminate. reflexivity. Qed.

Lemma half_spec a b c d m r1 r2 s : NoDup [a; b; c; d] -> Forall (fun i => (i < 16)%nat) [a; b; c; d] -> words5_ok 16 s -> (0 < r1 < 64)%nat -> (0 < r2 < 64)%nat ->
  let s' := b2_half a b c d m (N.of_nat r1) (N.of_nat r2) s in
  words5_ok 16 s' /\ nth a s' 0 = (nth a s 0 + nth b s 0 + m) mod 2 ^ 64 /\ nth d s' 0 = turn5 r1 (differing5 (nth d s 0) (nth a s' 0)) /\
  nth c s' 0 = (nth c s 0 + nth d s' 0) mod 2 ^ 64 /\ nth b s' 0 = turn5 r2 (differing5 (nth b s 0) (nth c s' 0)) /\
  forall i, ~ In i [a; b; c; d] -> nth i s' 0 = nth i s 0.
Proof.
  intros Hd Hf Hs H1 H2. rewrite !Forall_cons_iff in Hf. destruct Hf as (La & Lb & Lc & Ld & _).
  rewrite !NoDup_cons_iff in Hd. cbn [In] in Hd. destruct Hd as (Na & Nb & Nc & _).
  assert (a <> b /\ a <> c /\ a <> d /\ b <> c /\ b <> d /\ c <> d) as (Nab & Nac & Nad & Nbc & Nbd & Ncd) by (clear -Na Nb Nc; intuition).
  clear Na Nb Nc. unfold b2_half. cbv beta zeta.
  pose proof (upd_ok 16 a _ s Hs La (add32_bound (add64 (nth a s 0) (nth b s 0)) m)) as O1.
  pose proof (nth_upd_eq 16 a (add64 (add64 (nth a s 0) (nth b s 0)) m) s Hs La) as E1.
  pose proof (fun j => nth_upd_ne 16 a j (add64 (add64 (nth a s 0) (nth b s 0)) m) s Hs La) as F1.
  set (s1 := upd a _ s) in *. clearbody s1. rewrite add3 in E1.
  assert (rotr64 (N.of_nat r1) (N.lxor (nth d s1 0) (nth a s1 0)) < 2 ^ 64) as B2 by (apply rotr_bound; [apply lxor_bound; apply O1 | assumption]).
  assert (rotr64 (N.of_nat r1) (N.lxor (nth d s1 0) (nth a s1 0)) = turn5 r1 (differing5 (nth d s 0) (nth a s1 0))) as V2.
  { rewrite turn_rotr by (auto; apply lxor_bound; apply O1). rewrite differing_lxor by apply O1. rewrite (F1 d) by auto. reflexivity. }
  set (v2 := rotr64 _ (N.lxor (nth d s1 0) _)) in *. clearbody v2.
  pose proof (upd_ok 16 d v2 s1 O1 Ld B2) as O2. pose proof (nth_upd_eq 16 d v2 s1 O1 Ld) as E2. pose proof (fun j => nth_upd_ne 16 d j v2 s1 O1 Ld) as F2.
  set (s2 := upd d v2 s1) in *. clearbody s2.
  pose proof (add32_mod (nth c s2 0) (nth d s2 0)) as V3. pose proof (add32_bound (nth c s2 0) (nth d s2 0)) as B3.
  set (v3 := add64 (nth c s2 0) _) in *. clearbody v3.
  pose proof (upd_ok 16 c v3 s2 O2 Lc B3) as O3. pose proof (nth_upd_eq 16 c v3 s2 O2 Lc) as E3. pose proof (fun j => nth_upd_ne 16 c j v3 s2 O2 Lc) as F3.
  set (s3 := upd c v3 s2) in *. clearbody s3.
  assert (rotr64 (N.of_nat r2) (N.lxor (nth b s3 0) (nth c s3 0)) < 2 ^ 64) as B4 by (apply rotr_bound; [apply lxor_bound; apply O3 | assumption]).
  assert (rotr64 (N.of_nat r2) (N.lxor (nth b s3 0) (nth c s3 0)) = turn5 r2 (differing5 (nth b s3 0) (nth c s3 0))) as V4.
  { rewrite turn_rotr by (auto; apply lxor_bound; apply O3). rewrite differing_lxor by apply O3. reflexivity. }
  set (v4 := rotr64 _ (N.lxor (nth b s3 0) _)) in *. clearbody v4.
  pose proof (upd_ok 16 b v4 s3 O3 Lb B4) as O4. pose proof (nth_upd_eq 16 b v4 s3 O3 Lb) as E4. pose proof (fun j => nth_upd_ne 16 b j v4 s3 O3 Lb) as F4.
  set (s4 := upd b v4 s3) in *. clearbody s4.
  assert (nth a s4 0 = nth a s1 0) as Ea by (rewrite F4, F3, F2 by auto; reflexivity).
  assert (nth d s4 0 = v2) as Ed by (rewrite F4, F3 by auto; exact E2).
  assert (nth c s4 0 = v3) as Ec by (rewrite F4 by auto; exact E3).
  split; [exact O4|]. rewrite Ea, Ed, Ec, E4. split; [exact E1|]. split; [exact V2|].
  split; [rewrite V3, E2, F2, F1 by auto; reflexivity|].
  split; [rewrite V4, E3, F3, F2, F1 by auto; reflexivity|].
  intros i Hi. cbn [In] in Hi. rewrite F4, F3, F2, F1 by (intros ->; apply Hi; auto). reflexivity.
Qed.
Lemma g_spec a b c d x y s : NoDup [a; b; c; d] -> Forall (fun i => (i < 16)%nat) [a; b; c; d] -> words5_ok 16 s ->
  words5_ok 16 (b2_g a b c d x y s) /\ mixed5 a b c d x y (fun i => nth i s 0) (fun i => nth i (b2_g a b c d x y s) 0).
Proof.
  intros Hd Hf Hs. unfold b2_g.
  destruct (half_spec a b c d x 32 24 s Hd Hf Hs) as (O1 & A1 & D1 & C1 & B1 & R1); [lia | lia|].
  change (N.of_nat 32) with 32 in *. change (N.of_nat 24) with 24 in *. set (s1 := b2_half a b c d x 32 24 s) in *. clearbody s1.
  destruct (half_spec a b c d y 16 63 s1 Hd Hf O1) as (O2 & A2 & D2 & C2 & B2 & R2); [lia | lia|].
  change (N.of_nat 16) with 16 in *. change (N.of_nat 63) with 63 in *. set (s2 := b2_half a b c d y 16 63 s1) in *. clearbody s2.
  split; [exact O2|]. exists (nth a s1 0), (nth b s1 0), (nth c s1 0), (nth d s1 0).
  do 8 (split; [assumption|]). intros i Hi. rewrite R2, R1 by exact Hi. reflexivity.
Qed.
Lemma mixed_fun a b c d x y v v' w w' : Forall (fun i => (i < 16)%nat) [a; b; c; d] -> (forall i, (i < 16)%nat -> v i = w i) ->
  mixed5 a b c d x y v v' -> mixed5 a b c d x y w w' -> forall i, (i < 16)%nat -> v' i = w' i.
Proof.
  intros Hf E (a1 & b1 & c1 & d1 & A1 & D1 & C1 & B1 & A2 & D2 & C2 & B2 & R) (a1' & b1' & c1' & d1' & A1' & D1' & C1' & B1' & A2' & D2' & C2' & B2' & R').
  rewrite !Forall_cons_iff in Hf. destruct Hf as (La & Lb & Lc & Ld & _).
  rewrite <- (E a La), <- (E b Lb) in A1'. rewrite <- A1 in A1'. subst a1'. rewrite <- (E d Ld), <- D1 in D1'. subst d1'.
  rewrite <- (E c Lc), <- C1 in C1'. subst c1'. rewrite <- (E b Lb), <- B1 in B1'. subst b1'. clear A1 D1 C1 B1.
  rewrite <- A2 in A2'. rewrite A2', <- D2 in D2'. rewrite D2', <- C2 in C2'. rewrite C2', <- B2 in B2'.
  intros i Hi. destruct (in_dec Nat.eq_dec i [a; b; c; d]) as [H|H]; [|rewrite R, R' by exact H; apply E, Hi].
  cbn [In] in H. destruct H as [<- | [<- | [<- | [<- | []]]]]; congruence.
Qed.


(* ------------------------------------------------------------------ rounds *)

Lemma quarters5_quad j v v' x y : quarters5 j v v' x y <-> match quad j with (a, b, c, d) => mixed5 a b c d x y v v' end.
Proof. unfold quarters5, quad. destruct (j <? 4)%nat; reflexivity. Qed.
Fixpoint part (j : nat) (w : nat -> N) (s : list N) : list N :=
  match j with
  | O => s
  | S j' => match quad j' with (a, b, c, d) => b2_g a b c d (w (2 * j')%nat) (w (2 * j' + 1)%nat) (part j' w s) end
  end.
Local Opaque b2_g.
Lemma round_part sigma m s : b2_round sigma m s = part 8 (fun i => nth (nth i sigma O) m 0) s.
Proof. reflexivity. Qed.
Local Opaque b2_round.
Lemma part_ok w s j : (j <= 8)%nat -> words5_ok 16 s -> words5_ok 16 (part j w s).
Proof.
  intros Hj Hs. induction j as [|j IH]; [exact Hs|]. cbn [part]. pose proof (quad_fine j ltac:(lia)) as Q.
  destruct (quad j) as [[[a b] c] d]. destruct Q as [Q1 Q2]. apply (g_spec a b c d _ _ _ Q1 Q2), IH. lia.
Qed.
Lemma part_step w s j : (j < 8)%nat -> words5_ok 16 s ->
  quarters5 j (fun i => nth i (part j w s) 0) (fun i => nth i (part (S j) w s) 0) (w (2 * j)%nat) (w (2 * j + 1)%nat).
Proof.
  intros Hj Hs. apply quarters5_quad. cbn [part]. pose proof (quad_fine j Hj) as Q.
  destruct (quad j) as [[[a b] c] d]. destruct Q as [Q1 Q2]. apply (g_spec a b c d _ _ _ Q1 Q2), part_ok; [lia | exact Hs].
Qed.
Lemma part_0 w s : part 0 w s = s.
Proof. reflexivity. Qed.

Definition sigma_at (r : nat) : list nat := nth r b2_sigma [].
Lemma sigma_table r i : (r < 12)%nat -> (i < 16)%nat -> nth i (sigma_at r) O = sigma_word r i.
Proof.
  intros Hr Hi. assert (map (fun r => map (sigma_word r) (seq 0 16)) (seq 0 12) = b2_sigma) as E by (vm_compute; reflexivity).
  unfold sigma_at. rewrite <- E. rewrite (nth_indep _ [] (map (sigma_word 0) (seq 0 16))) by (rewrite map_length, seq_length; exact Hr).
  rewrite (map_nth (fun r => map (sigma_word r) (seq 0 16)) (seq 0 12) O r), seq_nth by exact Hr. cbn [Nat.add].
  rewrite (nth_indep _ O (sigma_word r O)) by (rewrite map_length, seq_length; exact Hi).
  rewrite (map_nth (sigma_word r)), seq_nth by exact Hi. reflexivity.
Qed.
Fixpoint start (r : nat) (m s : list N) : list N := match r with O => s | S r' => b2_round (sigma_at r') m (start r' m s) end.
Lemma start_S r m s : start (S r) m s = b2_round (sigma_at r) m (start r m s).
Proof. unfold start. reflexivity. Qed.
Lemma fold_cons {A B} (f : A -> B -> A) x l a : fold_left f (x :: l) a = fold_left f l (f a x).
Proof. reflexivity. Qed.
Lemma fold_start m s : forall rs' rs, b2_sigma = rs ++ rs' ->
  fold_left (fun s sigma => b2_round sigma m s) rs' (start (length rs) m s) = start 12 m s.
Proof.
  induction rs' as [|row rs' IH]; intros rs E.
  - rewrite app_nil_r in E. rewrite <- E. unfold fold_left. reflexivity.
  - assert (sigma_at (length rs) = row) as Er by (unfold sigma_at; rewrite E, app_nth2, Nat.sub_diag by lia; reflexivity).
    specialize (IH (rs ++ [row])). rewrite app_length, <- app_assoc in IH. cbn [length app] in IH. rewrite Nat.add_1_r in IH. specialize (IH E).
    rewrite start_S, Er in IH. rewrite fold_cons. exact IH.
Qed.
Lemma start_ok m s : words5_ok 16 s -> forall r, words5_ok 16 (start r m s).
Proof. intros Hs. induction r as [|r IH]; [exact Hs|]. rewrite start_S, round_part. apply part_ok; [lia | exact IH]. Qed.

Definition stage (m s : list N) (n : nat) : list N := part (n mod 8) (fun i => nth (nth i (sigma_at (n / 8)) O) m 0) (start (n / 8) m s).
Lemma stage_at m s r j : (j <= 8)%nat -> stage m s (8 * r + j) = part j (fun i => nth (nth i (sigma_at r) O) m 0) (start r m s).
Proof.
  intros Hj. unfold stage. destruct (Nat.eq_dec j 8) as [->|].
  - replace (8 * r + 8)%nat with (8 * S r + 0)%nat by lia. destruct (div_place (S r) 0 ltac:(lia)) as [-> ->]. rewrite part_0, start_S, round_part. reflexivity.
  - destruct (div_place r j ltac:(lia)) as [-> ->]. reflexivity.
Qed.

Lemma b2_iv_ok : words5_ok 8 b2_iv.
Proof. split; [reflexivity|]. intros i. do 8 (destruct i as [|i]; [reflexivity|]). destruct i; reflexivity. Qed.
Lemma b2_iv_initial iv : initial_value5 iv <-> iv = b2_iv.
Proof. apply initial_value_iff. Qed.
Lemma nth_list5_ok n l : Forall (fun x => x < 2 ^ 64) l -> length l = n -> words5_ok n l.
Proof. intros Hf Hl. split; [exact Hl|]. intros i. destruct (nth_in_or_default i l 0) as [H | ->]; [|reflexivity]. rewrite Forall_forall in Hf. apply Hf, H. Qed.
Lemma words5_ok_Forall n l : words5_ok n l -> Forall (fun x => x < 2 ^ 64) l.
Proof. intros [Hl Hs]. apply Forall_forall. intros x Hx. destruct (In_nth l x 0 Hx) as (i & _ & <-). apply Hs. Qed.
Lemma words5_ok_app n k l r : words5_ok n l -> words5_ok k r -> words5_ok (n + k) (l ++ r).
Proof.
  intros Hl Hr. apply nth_list5_ok; [apply Forall_app; split; eapply words5_ok_Forall; eassumption|].
  rewrite app_length. destruct Hl as [-> _], Hr as [-> _]. reflexivity.
Qed.
Lemma ones_negb x : x < 2 ^ 64 -> N.lxor x 0xffffffffffffffff = word_of5 (fun i => negb (bit x i)) /\ N.lxor x 0xffffffffffffffff < 2 ^ 64.
Proof.
  intros Hx. assert (N.lxor x 0xffffffffffffffff < 2 ^ 64) as Hb by (apply lxor_bound; [exact Hx | reflexivity]).
  split; [|exact Hb]. apply word_of_eq; [exact Hb|]. intros i Hi. unfold bit. rewrite N.lxor_spec.
  change 0xffffffffffffffff with (N.ones 64). rewrite N.ones_spec_low by lia. apply xorb_true_r.
Qed.

Definition tail_words (t : N) (last : bool) : list N :=
  [N.lxor (nth 4 b2_iv 0) (low64 t); N.lxor (nth 5 b2_iv 0) (low64 (N.shiftr t 64));
   if last then N.lxor (nth 6 b2_iv 0) 0xffffffffffffffff else nth 6 b2_iv 0; nth 7 b2_iv 0].
Lemma tail_words_ok t last : words5_ok 8 (firstn 4 b2_iv ++ tail_words t last).
Proof.
  apply (words5_ok_app 4 4).
  - apply nth_list5_ok; [|reflexivity]. repeat (constructor; [reflexivity|]). constructor.
  - apply nth_list5_ok; [|reflexivity]. constructor; [apply lxor_bound; [apply b2_iv_ok | apply low32_bound]|].
    constructor; [apply lxor_bound; [apply b2_iv_ok | apply low32_bound]|].
    constructor; [destruct last; reflexivity|]. constructor; [reflexivity | constructor].
Qed.
Theorem compress5_correct h m t last : words5_ok 8 h ->
  b2_compression h m t last (b2_compress h m t last) /\ words5_ok 8 (b2_compress h m t last).
Proof.
  intros Hh. unfold b2_compress. cbv zeta. fold (tail_words t last). set (s := h ++ _).
  assert (words5_ok 16 s) as Hs by (apply (words5_ok_app 8 8); [exact Hh | apply tail_words_ok]).
  rewrite (fold_start m s b2_sigma [] eq_refl : fold_left (fun s sigma => b2_round sigma m s) b2_sigma s = start 12 m s).
  pose proof (start_ok m s Hs 12) as H12. split.
  - exists b2_iv, (fun n i => nth i (stage m s n) 0). split; [apply b2_iv_initial; reflexivity|].
    assert (forall i, nth i (stage m s 0) 0 = nth i s 0) as E0.
    { intros i. pose proof (stage_at m s 0 0 ltac:(lia)) as S0. rewrite part_0 in S0. change (8 * 0 + 0)%nat with 0%nat in S0. rewrite S0. reflexivity. }
    pose proof Hh as [Hl _].
    split; [intros i Hi; rewrite E0; unfold s; apply app_nth1; lia|].
    assert (forall i, nth (8 + i)%nat (stage m s 0) 0 = nth i (firstn 4 b2_iv ++ tail_words t last) 0) as E8.
    { intros i. rewrite E0. unfold s. rewrite app_nth2 by lia. f_equal. lia. }
    split; [intros i Hi; rewrite E8; do 4 (destruct i as [|i]; [reflexivity|]); lia|].
    split; [refine (eq_trans (E8 4%nat) _); cbn [nth app firstn b2_iv tail_words]; rewrite <- low32_mod; apply differing_lxor; [apply b2_iv_ok with (i := 4%nat) | apply low32_bound]|].
    split.
    { refine (eq_trans (E8 5%nat) _). cbn [nth app firstn b2_iv tail_words]. rewrite N.shiftr_div_pow2, <- low32_mod.
      apply differing_lxor; [apply b2_iv_ok with (i := 5%nat) | apply low32_bound]. }
    split.
    { refine (eq_trans (E8 6%nat) _). destruct last; [|reflexivity]. exact (proj1 (ones_negb (nth 6 b2_iv 0) (proj2 b2_iv_ok 6%nat))). }
    split; [exact (E8 7%nat)|]. split.
    + intros r j Hr Hj. rewrite (stage_at m s r j) by lia. replace (S (8 * r + j))%nat with (8 * r + S j)%nat by lia.
      rewrite (stage_at m s r (S j)) by lia. rewrite <- !sigma_table by lia.
      apply (part_step (fun i => nth (nth i (sigma_at r) O) m 0)); [exact Hj | apply start_ok, Hs].
    + pose proof (stage_at m s 12 0 ltac:(lia)) as S12. rewrite part_0 in S12.
      apply map_ext. intros i. change (stage m s (8 * 12 + 0)) with (stage m s 96) in S12. rewrite S12.
      rewrite <- (differing_lxor (nth i (start 12 m s) 0)) by apply H12. apply differing_lxor; [apply Hh | apply lxor_bound; apply H12].
  - apply nth_list5_ok; [|rewrite map_length, seq_length; reflexivity]. apply Forall_forall. intros x Hx. apply in_map_iff in Hx as (i & <- & _).
    apply lxor_bound; [apply Hh | apply lxor_bound; apply H12].
Qed.
Theorem compression5_fun h m t last out out' : b2_compression h m t last out -> b2_compression h m t last out' -> out = out'.
Proof.
  intros (iv & v & Hiv & Hh & H8 & H12 & H13 & H14 & H15 & Hq & ->) (iv' & w & Hiv' & Gh & G8 & G12 & G13 & G14 & G15 & Gq & ->).
  apply b2_iv_initial in Hiv as ->, Hiv' as ->.
  assert (forall n, (n <= 96)%nat -> forall i, (i < 16)%nat -> v n i = w n i) as E.
  { induction n as [|n IH]; intros Hn i Hi.
    - destruct (Nat.lt_ge_cases i 8) as [L|L]; [rewrite Hh, Gh by exact L; reflexivity|].
      destruct (Nat.lt_ge_cases i 12) as [L'|L']; [replace i with (8 + (i - 8))%nat by lia; rewrite H8, G8 by lia; reflexivity|].
      assert (i = 12 \/ i = 13 \/ i = 14 \/ i = 15)%nat as [-> | [-> | [-> | ->]]] by lia; congruence.
    - pose proof (Nat.div_mod n 8 ltac:(discriminate)) as En. pose proof (Nat.mod_upper_bound n 8 ltac:(discriminate)) as Hm.
      assert (n / 8 < 12)%nat as Hr by (apply Nat.div_lt_upper_bound; lia).
      specialize (Hq _ _ Hr Hm). specialize (Gq _ _ Hr Hm). rewrite <- En in Hq, Gq. apply quarters5_quad in Hq, Gq.
      pose proof (quad_fine _ Hm) as Q. destruct (quad (n mod 8)) as [[[a b] c] dd]. destruct Q as [_ Q].
      exact (mixed_fun a b c dd _ _ _ _ _ _ Q (IH ltac:(lia)) Hq Gq i Hi). }
  apply map_ext_in. intros i Hi. apply in_seq in Hi. rewrite !E by lia. reflexivity.
Qed.
Local Opaque b2_compress.

(* ------------------------------------------------------------------ blocks *)

Lemma b2_words_spec n : forall s, length s = (8 * n)%nat ->
  words5_ok n (b2_words s) /\ exists pieces, s = concat pieces /\ Forall2 (le_number 8) (b2_words s) pieces.
Proof.
  induction n as [|n IH]; intros s Hs.
  - destruct s; [|discriminate Hs]. cbn [b2_words]. split; [apply nth_list5_ok; [constructor | reflexivity]|]. exists []. split; [reflexivity | constructor].
  - destruct s as [|b0 [|b1 [|b2 [|b3 [|b4 [|b5 [|b6 [|b7 r]]]]]]]]; cbn [length] in Hs; try lia.
    destruct (IH r ltac:(lia)) as (Ho & pieces & E & Hf). cbn [b2_words]. split.
    + apply (words5_ok_app 1 n [_]); [|exact Ho]. apply nth_list5_ok; [|reflexivity]. constructor; [exact (le_value_bound [b0; b1; b2; b3; b4; b5; b6; b7]) | constructor].
    + exists ([b0; b1; b2; b3; b4; b5; b6; b7] :: pieces). split; [rewrite E; reflexivity|]. constructor; [|exact Hf]. exact (le_number_value [b0; b1; b2; b3; b4; b5; b6; b7]).
Qed.
Lemma words5_fun : forall pieces pieces' m m', concat pieces = concat pieces' -> Forall2 (le_number 8) m pieces -> Forall2 (le_number 8) m' pieces' -> m = m'.
Proof.
  induction pieces as [|p ps IH]; intros pieces' m m' E H H'; inversion H; subst.
  - inversion H' as [|x q ? ? Hq]; subst; [reflexivity|]. apply le_number_iff in Hq as [Hl _]. destruct q; [discriminate Hl | discriminate E].
  - match goal with X : le_number 8 _ p |- _ => apply le_number_iff in X as [Hl <-] end.
    inversion H' as [|x q ? qs Hq Hqs]; subst; [destruct p; [discriminate Hl | discriminate E]|].
    apply le_number_iff in Hq as [Hl' <-]. cbn [concat] in E.
    apply app_len in E as [-> E']; [|congruence]. f_equal. exact (IH _ _ _ E' ltac:(eassumption) Hqs).
Qed.
Lemma block_words5_ok b : (length b <= 128)%nat -> block_words5 b (b2_words (b ++ repeat x00 (128 - length b))).
Proof.
  intros Hb. assert (length (b ++ repeat x00 (128 - length b)) = 128%nat) as Hl by (rewrite app_length, repeat_length; lia).
  destruct (b2_words_spec 16 _ Hl) as (Ho & pieces & E & Hf).
  exists (repeat x00 (128 - length b)), pieces. repeat split; [exact E | | exact Hl | exact Hf]. apply Forall_forall. intros x Hx. symmetry. exact (repeat_spec _ _ _ Hx).
Qed.
Lemma block_words5_full b : length b = 128%nat -> block_words5 b (b2_words b).
Proof. intros Hb. pose proof (block_words5_ok b ltac:(lia)) as H. rewrite Hb in H. cbn [Nat.sub repeat] in H. rewrite app_nil_r in H. exact H. Qed.
Lemma block_words5_fun b m m' : block_words5 b m -> block_words5 b m' -> m = m'.
Proof.
  intros (z & ps & E & Hz & Hl & Hf) (z' & ps' & E' & Hz' & Hl' & Hf'). apply (words5_fun ps ps' m m'); [|exact Hf | exact Hf'].
  rewrite <- E, <- E'. f_equal. rewrite (zeros_repeat z Hz), (zeros_repeat z' Hz'). f_equal. rewrite app_length in Hl, Hl'. lia.
Qed.
Lemma init_ok : blocks_chained5 [] b2_init /\ words5_ok 8 b2_init.
Proof.
  assert (N.lxor (nth 0 b2_iv 0) 0x01010020 = differing5 (nth 0 b2_iv 0) 0x01010020) as E by (apply differing_lxor; reflexivity).
  unfold b2_init. split.
  - rewrite E. assert (forall v, upd 0 v b2_iv = v :: tl b2_iv) as -> by reflexivity. apply BC5_start. apply b2_iv_initial. reflexivity.
  - apply upd_ok; [exact b2_iv_ok | lia | reflexivity].
Qed.
Lemma blocks_correct : forall fuel bs h m, blocks_chained5 bs h -> words5_ok 8 h -> (length m < fuel)%nat -> (m = [] -> bs = []) ->
  exists (bs' : list bytes) b h', concat bs ++ m = concat bs' ++ b /\ (length b <= 128)%nat /\ (b = [] -> bs' = []) /\ blocks_chained5 bs' h' /\ words5_ok 8 h' /\
    b2_blocks fuel h (128 * N.of_nat (length bs)) m = b2_compress h' (b2_words (b ++ repeat x00 (128 - length b))) (128 * N.of_nat (length bs') + N.of_nat (length b)) true.
Proof.
  induction fuel as [|fuel IH]; intros bs h m Hc Hh Hf He; [lia|]. cbn [b2_blocks].
  destruct (Nat.leb_spec (length m) 128) as [Hm|Hm].
  - exists bs, m, h. repeat (split; [first [reflexivity | assumption]|]). reflexivity.
  - assert (length (firstn 128 m) = 128%nat) as Hb by (rewrite firstn_length; lia).
    destruct (compress5_correct h (b2_words (firstn 128 m)) (128 * N.of_nat (length bs) + 128) false Hh) as [Hcomp Hok].
    replace (128 * N.of_nat (length bs) + 128) with (128 * N.of_nat (length (bs ++ [firstn 128 m]))) in * by (rewrite app_length; cbn [length]; lia).
    set (out := b2_compress h (b2_words (firstn 128 m)) _ false) in *. clearbody out.
    destruct (IH (bs ++ [firstn 128 m]) out (skipn 128 m)) as (bs' & b & h' & E & H1 & H2 & H3 & H4 & H5); [|exact Hok | rewrite skipn_length; lia | |].
    + eapply BC5_block; [exact Hc | exact Hb | apply block_words5_full, Hb|].
      replace (S (length bs)) with (length (bs ++ [firstn 128 m])) by (rewrite app_length; cbn [length]; lia). exact Hcomp.
    + intros H. apply (f_equal (@length _)) in H. rewrite skipn_length in H. cbn [length] in H. lia.
    + exists bs', b, h'. split; [|auto]. rewrite <- E, concat_app. cbn [concat]. rewrite app_nil_r, <- app_assoc, firstn_skipn. reflexivity.
Qed.
Lemma concat_length128 (bs : list bytes) : Forall (fun b => length b = 128%nat) bs -> length (concat bs) = (128 * length bs)%nat.
Proof. induction 1 as [|b bs Hb _ IH]; cbn [concat length]; [reflexivity|]. rewrite app_length, IH. lia. Qed.
Lemma chained5_lengths bs h : blocks_chained5 bs h -> Forall (fun b => length b = 128%nat) bs.
Proof. induction 1 as [|bs b h m h' _ IH Hb _ _]; [constructor|]. apply Forall_app. auto. Qed.
Lemma le_words8 out : Forall (fun x => x < 2 ^ 64) out -> Forall2 (le_number 8) out (map (le_bytes 8) out).
Proof. induction 1 as [|x l Hx _ IH]; cbn [map]; constructor; [|exact IH]. apply le_number_bytes. split; [reflexivity | exact Hx]. Qed.
Lemma first_words : forall k out, firstn (8 * k) (concat (map (le_bytes 8) out)) = flat_map (le_bytes 8) (firstn k out).
Proof.
  induction k as [|k IH]; intros out; [reflexivity|]. destruct out as [|x out]; [cbn [map concat firstn flat_map]; apply firstn_nil|].
  cbn [firstn flat_map map concat]. replace (8 * S k)%nat with (8 + 8 * k)%nat by lia.
  pose proof (le_bytes_length 8 x) as Hl. rewrite firstn_app, Hl. rewrite firstn_all2 by lia. rewrite <- IH. do 2 f_equal. lia.
Qed.
Theorem blake2b256_of_model m : blake2b256_of m (blake2b256 m).
Proof.
  destruct init_ok as [Hc Hh].
  destruct (blocks_correct (S (length m)) [] b2_init m Hc Hh ltac:(lia) ltac:(reflexivity)) as (bs & b & h & E & Hl & He & Hbs & Hok & Hr).
  cbn [concat app length N.of_nat N.mul] in E, Hr.
  destruct (compress5_correct h (b2_words (b ++ repeat x00 (128 - length b))) (128 * N.of_nat (length bs) + N.of_nat (length b)) true Hok) as [Hcomp Hout].
  unfold blake2b256. rewrite Hr. set (out := b2_compress _ _ _ _) in *. clearbody out.
  exists bs, b, h, (b2_words (b ++ repeat x00 (128 - length b))), out, (map (le_bytes 8) out).
  split; [exact E|]. split; [exact Hl|]. split; [exact He|]. split; [exact Hbs|]. split; [apply block_words5_ok, Hl|].
  split; [|split; [apply le_words8; eapply words5_ok_Forall; exact Hout | symmetry; exact (first_words 4 out)]].
  replace (N.of_nat (length m)) with (128 * N.of_nat (length bs) + N.of_nat (length b)); [exact Hcomp|].
  rewrite E, app_length, (concat_length128 bs (chained5_lengths bs h Hbs)). lia.
Qed.
Lemma chained5_fun bs h : blocks_chained5 bs h -> forall h', blocks_chained5 bs h' -> h = h'.
Proof.
  induction 1 as [x iv Hiv | bs b h m h1 _ IH Hb Hm Hc]; intros h' H'.
  - inversion H' as [x' iv' Hiv' | bs' b' ? ? ? ? ? ? ? E]; [|destruct bs'; discriminate]. subst. apply b2_iv_initial in Hiv, Hiv'. congruence.
  - inversion H' as [x' iv' Hiv' E | bs' b' g m' ? Hbs' Hb' Hm' Hc' E]; [destruct bs; discriminate|]. subst.
    apply app_inj_tail in E as [-> ->]. rewrite (IH _ Hbs') in Hc. rewrite (block_words5_fun b m m' Hm Hm') in Hc.
    eapply compression5_fun; eassumption.
Qed.
Lemma concat_split128 (bs bs' : list bytes) : Forall (fun b => length b = 128%nat) bs -> Forall (fun b => length b = 128%nat) bs' -> forall b b',
  length bs = length bs' -> concat bs ++ b = concat bs' ++ b' -> bs = bs' /\ b = b'.
Proof.
  intros H. revert bs'. induction H as [|x bs Hx _ IH]; intros bs' H' b b' Hl E.
  - destruct bs'; [auto | discriminate Hl].
  - destruct H' as [|y bs' Hy H']; [discriminate Hl|]. cbn [concat] in E. rewrite <- !app_assoc in E.
    apply app_len in E as [-> E']; [|congruence]. destruct (IH bs' H' b b' ltac:(cbn [length] in Hl; lia) E') as [-> ->]. auto.
Qed.
Lemma words_of_fun k : forall (out : list N) words words', Forall2 (le_number k) out words -> Forall2 (le_number k) out words' -> words = words'.
Proof.
  intros out words words' H. revert words'. induction H as [|x w out words Hx _ IH]; intros words' H'; inversion H' as [|? w' ? ? Hx' H'']; subst; [reflexivity|].
  apply le_number_bytes in Hx as [-> _], Hx' as [-> _]. f_equal. apply IH, H''.
Qed.
Theorem blake2b256_fun m d d' : blake2b256_of m d -> blake2b256_of m d' -> d = d'.
Proof.
  intros (bs & b & h & w & out & words & E & Hl & He & Hc & Hw & Hcomp & Hwords & ->) (bs' & b' & h' & w' & out' & words' & E' & Hl' & He' & Hc' & Hw' & Hcomp' & Hwords' & ->).
  rewrite E' in E. symmetry in E. pose proof (chained5_lengths _ _ Hc) as F. pose proof (chained5_lengths _ _ Hc') as F'.
  assert (length bs = length bs') as Hn.
  { pose proof (f_equal (@length _) E) as Hlen. rewrite !app_length, !concat_length128 in Hlen by assumption.
    assert (length b = 0 -> length bs = 0)%nat as Z by (intros H; destruct b; [rewrite He by reflexivity; reflexivity | discriminate H]).
    assert (length b' = 0 -> length bs' = 0)%nat as Z' by (intros H; destruct b'; [rewrite He' by reflexivity; reflexivity | discriminate H]).
    clear -Hlen Z Z' Hl Hl'. lia. }
  destruct (concat_split128 bs bs' F F' b b' Hn E) as [<- <-].
  rewrite <- (chained5_fun bs h Hc h' Hc'), <- (block_words5_fun b w w' Hw Hw') in Hcomp'. rewrite <- (compression5_fun _ _ _ _ _ _ Hcomp Hcomp') in Hwords'.
  do 2 f_equal. eapply words_of_fun; eassumption.
Qed.
Theorem blake2b256_iff m d : blake2b256_of m d <-> blake2b256 m = d.
Proof. split; [intros H; exact (blake2b256_fun m _ _ (blake2b256_of_model m) H) | intros <-; apply blake2b256_of_model]. Qed.
Lemma blake2b256_length m : length (blake2b256 m) = 32%nat.
Proof.
  destruct (blake2b256_of_model m) as (bs & b & h & w & out & words & _ & _ & _ & _ & _ & Hc & Hw & ->).
  assert (length out = 8%nat) as Hl.
  { destruct Hc as (iv & v & _ & _ & _ & _ & _ & _ & _ & _ & ->). rewrite map_length, seq_length. reflexivity. }
  assert (length (concat words) = (8 * length out)%nat) as E; [|rewrite firstn_length, E, Hl; reflexivity]. clear -Hw.
  induction Hw as [|x w out words Hx _ IH]; cbn [concat length]; [reflexivity|]. rewrite app_length, IH. apply le_number_iff in Hx as [-> _]. lia.
Qed.
