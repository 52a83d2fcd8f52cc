(** Proofs about BLAKE3 (C150). *)
From Verif Require Import Prelude Cbor Sha256 Ed25519 Blake3 Spec SpecWire SpecCbor SpecSha SpecEd SpecBlake3 OrdFacts Base58Facts CborFacts ShaFacts EdTextFacts.
Local Open Scope N_scope.

(* ------------------------------------------------------------------ mixing *)

Lemma upd_length v : forall l i, length (upd i v l) = length l.
Proof. induction l as [|x l IH]; intros [|i]; cbn [upd length]; auto. Qed.
Lemma nth_upd v : forall l i j, (i < length l)%nat -> nth j (upd i v l) 0 = if (j =? i)%nat then v else nth j l 0.
Proof.
  induction l as [|x l IH]; intros i j Hi; [cbn [length] in Hi; lia|].
  destruct i as [|i], j as [|j]; cbn [upd nth Nat.eqb]; try reflexivity. apply IH. cbn [length] in Hi. lia.
Qed.
Definition words_ok (n : nat) (s : list N) : Prop := length s = n /\ forall i, nth i s 0 < 2 ^ 32.
Lemma upd_ok n i v s : words_ok n s -> (i < n)%nat -> v < 2 ^ 32 -> words_ok n (upd i v s).
Proof.
  intros [Hl Hs] Hi Hv. split; [rewrite upd_length; exact Hl|]. intros j. rewrite nth_upd by lia. destruct (j =? i)%nat; [exact Hv | apply Hs].
Qed.
Lemma nth_upd_eq n i v s : words_ok n s -> (i < n)%nat -> nth i (upd i v s) 0 = v.
Proof. intros [Hl _] Hi. rewrite nth_upd by lia. rewrite Nat.eqb_refl. reflexivity. Qed.
Lemma nth_upd_ne n i j v s : words_ok n s -> (i < n)%nat -> j <> i -> nth j (upd i v s) 0 = nth j s 0.
Proof. intros [Hl _] Hi Hj. rewrite nth_upd by lia. destruct (Nat.eqb_spec j i); [contradiction | reflexivity]. Qed.

Lemma differing_lxor x y : x < 2 ^ 32 -> y < 2 ^ 32 -> N.lxor x y = differing x y.
Proof. intros Hx Hy. apply word_of_eq; [apply lxor_bound; assumption|]. intros i _. unfold bit. apply N.lxor_spec. Qed.
Lemma turn_rotr k x : x < 2 ^ 32 -> (0 < k < 32)%nat -> rotr (N.of_nat k) x = turn k x.
Proof. intros Hx Hk. apply word_of_eq; [apply rotr_bound; assumption|]. intros i Hi. apply rotr_bit; assumption. Qed.
Lemma add3 a b c : add32 (add32 a b) c = (a + b + c) mod 2 ^ 32.
Proof. rewrite !add32_mod. rewrite add_mod_l by discriminate. reflexivity. Qed.

Lemma half_spec a b c d m r1 r2 s : NoDup [a; b; c; d] -> Forall (fun i => (i < 16)%nat) [a; b; c; d] -> words_ok 16 s -> (0 < r1 < 32)%nat -> (0 < r2 < 32)%nat ->
  let s' := b3_half a b c d m (N.of_nat r1) (N.of_nat r2) s in
  words_ok 16 s' /\ nth a s' 0 = (nth a s 0 + nth b s 0 + m) mod 2 ^ 32 /\ nth d s' 0 = turn r1 (differing (nth d s 0) (nth a s' 0)) /\
  nth c s' 0 = (nth c s 0 + nth d s' 0) mod 2 ^ 32 /\ nth b s' 0 = turn r2 (differing (nth b s 0) (nth c s' 0)) /\
  forall i, ~ In i [a; b; c; d] -> nth i s' 0 = nth i s 0.
Proof.
  intros Hd Hf Hs H1 H2. rewrite !Forall_cons_iff in Hf. destruct Hf as (La & Lb & Lc & Ld & _).
  rewrite !NoDup_cons_iff in Hd. cbn [In] in Hd. destruct Hd as (Na & Nb & Nc & _).
  assert (a <> b /\ a <> c /\ a <> d /\ b <> c /\ b <> d /\ c <> d) as (Nab & Nac & Nad & Nbc & Nbd & Ncd) by (clear -Na Nb Nc; intuition).
  clear Na Nb Nc. unfold b3_half. cbv beta zeta.
  pose proof (upd_ok 16 a _ s Hs La (add32_bound (add32 (nth a s 0) (nth b s 0)) m)) as O1.
  pose proof (nth_upd_eq 16 a (add32 (add32 (nth a s 0) (nth b s 0)) m) s Hs La) as E1.
  pose proof (fun j => nth_upd_ne 16 a j (add32 (add32 (nth a s 0) (nth b s 0)) m) s Hs La) as F1.
  set (s1 := upd a _ s) in *. clearbody s1. rewrite add3 in E1.
  assert (rotr (N.of_nat r1) (N.lxor (nth d s1 0) (nth a s1 0)) < 2 ^ 32) as B2 by (apply rotr_bound; [apply lxor_bound; apply O1 | assumption]).
  assert (rotr (N.of_nat r1) (N.lxor (nth d s1 0) (nth a s1 0)) = turn r1 (differing (nth d s 0) (nth a s1 0))) as V2.
  { rewrite turn_rotr by (auto; apply lxor_bound; apply O1). rewrite differing_lxor by apply O1. rewrite (F1 d) by auto. reflexivity. }
  set (v2 := rotr _ (N.lxor (nth d s1 0) _)) in *. clearbody v2.
  pose proof (upd_ok 16 d v2 s1 O1 Ld B2) as O2. pose proof (nth_upd_eq 16 d v2 s1 O1 Ld) as E2. pose proof (fun j => nth_upd_ne 16 d j v2 s1 O1 Ld) as F2.
  set (s2 := upd d v2 s1) in *. clearbody s2.
  pose proof (add32_mod (nth c s2 0) (nth d s2 0)) as V3. pose proof (add32_bound (nth c s2 0) (nth d s2 0)) as B3.
  set (v3 := add32 (nth c s2 0) _) in *. clearbody v3.
  pose proof (upd_ok 16 c v3 s2 O2 Lc B3) as O3. pose proof (nth_upd_eq 16 c v3 s2 O2 Lc) as E3. pose proof (fun j => nth_upd_ne 16 c j v3 s2 O2 Lc) as F3.
  set (s3 := upd c v3 s2) in *. clearbody s3.
  assert (rotr (N.of_nat r2) (N.lxor (nth b s3 0) (nth c s3 0)) < 2 ^ 32) as B4 by (apply rotr_bound; [apply lxor_bound; apply O3 | assumption]).
  assert (rotr (N.of_nat r2) (N.lxor (nth b s3 0) (nth c s3 0)) = turn r2 (differing (nth b s3 0) (nth c s3 0))) as V4.
  { rewrite turn_rotr by (auto; apply lxor_bound; apply O3). rewrite differing_lxor by apply O3. reflexivity. }
  set (v4 := rotr _ (N.lxor (nth b s3 0) _)) in *. clearbody v4.
  pose proof (upd_ok 16 b v4 s3 O3 Lb B4) as O4. pose proof (nth_upd_eq 16 b v4 s3 O3 Lb) as E4. pose proof (fun j => nth_upd_ne 16 b j v4 s3 O3 Lb) as F4.
  set (s4 := upd b v4 s3) in *. clearbody s4.
  assert (nth a s4 0 = nth a s1 0) as Ea by (rewrite F4, F3, F2 by auto; reflexivity).
  assert (nth d s4 0 = v2) as Ed by (rewrite F4, F3 by auto; exact E2).
  assert (nth c s4 0 = v3) as Ec by (rewrite F4 by auto; exact E3).
  split; [exact O4|]. rewrite Ea, Ed, Ec, E4. split; [exact E1|]. split; [exact V2|].
  split; [rewrite V3, E2, F2, F1 by auto; reflexivity|].
  split; [rewrite V4, E3, F3, F2, F1 by auto; reflexivity|].
  intros i Hi. cbn [In] in Hi. rewrite F4, F3, F2, F1 by (intros ->; apply Hi; auto). reflexivity.
Qed.
Lemma g_spec a b c d x y s : NoDup [a; b; c; d] -> Forall (fun i => (i < 16)%nat) [a; b; c; d] -> words_ok 16 s ->
  words_ok 16 (b3_g a b c d x y s) /\ mixed a b c d x y (fun i => nth i s 0) (fun i => nth i (b3_g a b c d x y s) 0).
Proof.
  intros Hd Hf Hs. unfold b3_g.
  destruct (half_spec a b c d x 16 12 s Hd Hf Hs) as (O1 & A1 & D1 & C1 & B1 & R1); [lia | lia|].
  change (N.of_nat 16) with 16 in *. change (N.of_nat 12) with 12 in *. set (s1 := b3_half a b c d x 16 12 s) in *. clearbody s1.
  destruct (half_spec a b c d y 8 7 s1 Hd Hf O1) as (O2 & A2 & D2 & C2 & B2 & R2); [lia | lia|].
  change (N.of_nat 8) with 8 in *. change (N.of_nat 7) with 7 in *. set (s2 := b3_half a b c d y 8 7 s1) in *. clearbody s2.
  split; [exact O2|]. exists (nth a s1 0), (nth b s1 0), (nth c s1 0), (nth d s1 0).
  do 8 (split; [assumption|]). intros i Hi. rewrite R2, R1 by exact Hi. reflexivity.
Qed.
Lemma mixed_fun a b c d x y v v' w w' : Forall (fun i => (i < 16)%nat) [a; b; c; d] -> (forall i, (i < 16)%nat -> v i = w i) ->
  mixed a b c d x y v v' -> mixed a b c d x y w w' -> forall i, (i < 16)%nat -> v' i = w' i.
Proof.
  intros Hf E (a1 & b1 & c1 & d1 & A1 & D1 & C1 & B1 & A2 & D2 & C2 & B2 & R) (a1' & b1' & c1' & d1' & A1' & D1' & C1' & B1' & A2' & D2' & C2' & B2' & R').
  rewrite !Forall_cons_iff in Hf. destruct Hf as (La & Lb & Lc & Ld & _).
  rewrite <- (E a La), <- (E b Lb) in A1'. rewrite <- A1 in A1'. subst a1'. rewrite <- (E d Ld), <- D1 in D1'. subst d1'.
  rewrite <- (E c Lc), <- C1 in C1'. subst c1'. rewrite <- (E b Lb), <- B1 in B1'. subst b1'. clear A1 D1 C1 B1.
  rewrite <- A2 in A2'. rewrite A2', <- D2 in D2'. rewrite D2', <- C2 in C2'. rewrite C2', <- B2 in B2'.
  intros i Hi. destruct (in_dec Nat.eq_dec i [a; b; c; d]) as [H|H]; [|rewrite R, R' by exact H; apply E, Hi].
  cbn [In] in H. destruct H as [<- | [<- | [<- | [<- | []]]]]; congruence.
Qed.

(* ------------------------------------------------------------------ rounds *)

Definition quad (j : nat) : nat * nat * nat * nat :=
  if (j <? 4)%nat then (j, 4 + j, 8 + j, 12 + j)%nat else (j - 4, 4 + (j + 1) mod 4, 8 + (j + 2) mod 4, 12 + (j + 3) mod 4)%nat.
Lemma quarters_quad j v v' x y : quarters j v v' x y <-> match quad j with (a, b, c, d) => mixed a b c d x y v v' end.
Proof. unfold quarters, quad. destruct (j <? 4)%nat; reflexivity. Qed.
Definition quad_ok (q : nat * nat * nat * nat) : Prop := match q with (a, b, c, d) => NoDup [a; b; c; d] /\ Forall (fun i => (i < 16)%nat) [a; b; c; d] end.
Lemma quad_fine j : (j < 8)%nat -> quad_ok (quad j).
Proof.
  intros Hj. do 8 (destruct j as [|j]; [cbn; split; [repeat constructor; cbn [In]; lia | repeat constructor; lia]|]). lia.
Qed.
Fixpoint part (j : nat) (w : nat -> N) (s : list N) : list N :=
  match j with
  | O => s
  | S j' => match quad j' with (a, b, c, d) => b3_g a b c d (w (2 * j')%nat) (w (2 * j' + 1)%nat) (part j' w s) end
  end.
Local Opaque b3_g.
Lemma round_part m s : b3_round m s = part 8 (fun i => nth i m 0) s.
Proof. reflexivity. Qed.
Local Opaque b3_round.
Lemma part_ok w s j : (j <= 8)%nat -> words_ok 16 s -> words_ok 16 (part j w s).
Proof.
  intros Hj Hs. induction j as [|j IH]; [exact Hs|]. cbn [part]. pose proof (quad_fine j ltac:(lia)) as Q.
  destruct (quad j) as [[[a b] c] d]. destruct Q as [Q1 Q2]. apply (g_spec a b c d _ _ _ Q1 Q2), IH. lia.
Qed.
Lemma part_step w s j : (j < 8)%nat -> words_ok 16 s ->
  quarters j (fun i => nth i (part j w s) 0) (fun i => nth i (part (S j) w s) 0) (w (2 * j)%nat) (w (2 * j + 1)%nat).
Proof.
  intros Hj Hs. apply quarters_quad. cbn [part]. pose proof (quad_fine j Hj) as Q.
  destruct (quad j) as [[[a b] c] d]. destruct Q as [Q1 Q2]. apply (g_spec a b c d _ _ _ Q1 Q2), part_ok; [lia | exact Hs].
Qed.

Lemma moved_from_lt i : (i < 16)%nat -> (moved_from i < 16)%nat.
Proof. intros Hi. do 16 (destruct i as [|i]; [cbn; lia|]). lia. Qed.
Lemma nth_permute m i : (i < 16)%nat -> nth i (b3_permute m) 0 = nth (moved_from i) m 0.
Proof. intros Hi. do 16 (destruct i as [|i]; [reflexivity|]). lia. Qed.
Local Opaque b3_permute.
Fixpoint permuted (r : nat) (m : list N) : list N := match r with O => m | S r' => b3_permute (permuted r' m) end.
Lemma nth_permuted m : forall r i, (i < 16)%nat -> nth i (permuted r m) 0 = nth (word_place r i) m 0.
Proof.
  induction r as [|r IH]; intros i Hi; [reflexivity|]. cbn [permuted word_place]. rewrite nth_permute by exact Hi. apply IH, moved_from_lt, Hi.
Qed.
Fixpoint start (r : nat) (m s : list N) : list N := match r with O => s | S r' => b3_round (permuted r' m) (start r' m s) end.
Lemma rounds_S n m s : b3_rounds (S n) m s = b3_rounds n (b3_permute m) (b3_round m s).
Proof. unfold b3_rounds. reflexivity. Qed.
Lemma permuted_S r m : permuted (S r) m = b3_permute (permuted r m).
Proof. unfold permuted. reflexivity. Qed.
Lemma start_S r m s : start (S r) m s = b3_round (permuted r m) (start r m s).
Proof. unfold start. reflexivity. Qed.
Lemma rounds_start m s : forall n r, b3_rounds n (permuted r m) (start r m s) = start (r + n) m s.
Proof.
  induction n as [|n IH]; intros r.
  - rewrite Nat.add_0_r. reflexivity.
  - rewrite rounds_S, <- permuted_S, <- start_S. rewrite IH. f_equal. lia.
Qed.
Lemma start_ok m s : words_ok 16 s -> forall r, words_ok 16 (start r m s).
Proof. intros Hs. induction r as [|r IH]; [exact Hs|]. cbn [start]. rewrite round_part. apply part_ok; [lia | exact IH]. Qed.

Lemma part_0 w s : part 0 w s = s.
Proof. reflexivity. Qed.
Definition stage (m s : list N) (n : nat) : list N := part (n mod 8) (fun i => nth i (permuted (n / 8) m) 0) (start (n / 8) m s).
Lemma div_place r j : (j < 8)%nat -> ((8 * r + j) / 8 = r /\ (8 * r + j) mod 8 = j)%nat.
Proof.
  intros Hj. rewrite (Nat.mul_comm 8 r). split.
  - rewrite Nat.div_add_l by discriminate. rewrite Nat.div_small by exact Hj. lia.
  - rewrite Nat.add_comm, Nat.mod_add by discriminate. apply Nat.mod_small, Hj.
Qed.
Lemma stage_at m s r j : (j <= 8)%nat -> stage m s (8 * r + j) = part j (fun i => nth i (permuted r m) 0) (start r m s).
Proof.
  intros Hj. unfold stage. destruct (Nat.eq_dec j 8) as [->|].
  - replace (8 * r + 8)%nat with (8 * S r + 0)%nat by lia. destruct (div_place (S r) 0 ltac:(lia)) as [-> ->]. rewrite part_0, start_S, round_part. reflexivity.
  - destruct (div_place r j ltac:(lia)) as [-> ->]. reflexivity.
Qed.

Lemma b3_iv_ok : words_ok 8 b3_iv.
Proof. split; [reflexivity|]. intros i. do 8 (destruct i as [|i]; [reflexivity|]). destruct i; reflexivity. Qed.
Lemma b3_iv_initial iv : initial_value iv <-> iv = b3_iv.
Proof. apply initial_value_iff. Qed.
Lemma nth_list_ok n l : Forall (fun x => x < 2 ^ 32) l -> length l = n -> words_ok n l.
Proof. intros Hf Hl. split; [exact Hl|]. intros i. destruct (nth_in_or_default i l 0) as [H | ->]; [|reflexivity]. rewrite Forall_forall in Hf. apply Hf, H. Qed.
Lemma words_ok_Forall n l : words_ok n l -> Forall (fun x => x < 2 ^ 32) l.
Proof. intros [Hl Hs]. apply Forall_forall. intros x Hx. destruct (In_nth l x 0 Hx) as (i & _ & <-). apply Hs. Qed.
Lemma words_ok_app n k l r : words_ok n l -> words_ok k r -> words_ok (n + k) (l ++ r).
Proof.
  intros Hl Hr. apply nth_list_ok; [apply Forall_app; split; eapply words_ok_Forall; eassumption|].
  rewrite app_length. destruct Hl as [-> _], Hr as [-> _]. reflexivity.
Qed.

Lemma first_state h t len d : words_ok 8 h -> len < 2 ^ 32 -> d < 2 ^ 32 ->
  words_ok 16 (h ++ firstn 4 b3_iv ++ [low32 t; low32 (N.shiftr t 32); len; d]).
Proof.
  intros Hh Hlen Hd. apply (words_ok_app 8 8); [exact Hh|]. apply nth_list_ok; [|reflexivity].
  repeat (constructor; [first [assumption | apply low32_bound | reflexivity]|]). constructor.
Qed.
Theorem compress_correct h m t len d : words_ok 8 h -> len < 2 ^ 32 -> d < 2 ^ 32 ->
  b3_compression h m t len d (b3_compress h m t len d) /\ words_ok 8 (b3_compress h m t len d).
Proof.
  intros Hh Hlen Hd. pose proof (first_state h t len d Hh Hlen Hd) as Hs.
  unfold b3_compress. set (s := h ++ _) in *.
  rewrite (rounds_start m s 7 0 : b3_rounds 7 m s = start 7 m s).
  pose proof (start_ok m s Hs 7) as H7. split.
  - exists b3_iv, (fun n i => nth i (stage m s n) 0). split; [apply b3_iv_initial; reflexivity|].
    assert (forall i, nth i (stage m s 0) 0 = nth i s 0) as E0.
    { intros i. pose proof (stage_at m s 0 0 ltac:(lia)) as S0. rewrite part_0 in S0. change (8 * 0 + 0)%nat with 0%nat in S0. rewrite S0. reflexivity. }
    destruct Hh as [Hl _].
    split; [intros i Hi; rewrite E0; unfold s; apply app_nth1; lia|].
    assert (forall i, nth (8 + i)%nat (stage m s 0) 0 = nth i (firstn 4 b3_iv ++ [low32 t; low32 (N.shiftr t 32); len; d]) 0) as E8.
    { intros i. rewrite E0. unfold s. rewrite app_nth2 by lia. f_equal. lia. }
    split; [intros i Hi; rewrite E8; do 4 (destruct i as [|i]; [reflexivity|]); lia|].
    split; [refine (eq_trans (E8 4%nat) _); cbn [nth app firstn b3_iv]; apply low32_mod|].
    split; [refine (eq_trans (E8 5%nat) _); cbn [nth app firstn b3_iv]; rewrite low32_mod, N.shiftr_div_pow2; reflexivity|].
    split; [exact (E8 6%nat)|]. split; [exact (E8 7%nat)|]. split.
    + intros r j Hr Hj. rewrite (stage_at m s r j) by lia. replace (S (8 * r + j))%nat with (8 * r + S j)%nat by lia.
      rewrite (stage_at m s r (S j)) by lia. rewrite <- !nth_permuted by lia. apply (part_step (fun i => nth i (permuted r m) 0)); [exact Hj | apply start_ok, Hs].
    + pose proof (stage_at m s 7 0 ltac:(lia)) as S7. rewrite part_0 in S7.
      apply map_ext. intros i. change (stage m s (8 * 7 + 0)) with (stage m s 56) in S7. rewrite S7. apply differing_lxor; apply H7.
  - apply nth_list_ok; [|rewrite map_length, seq_length; reflexivity]. apply Forall_forall. intros x Hx. apply in_map_iff in Hx as (i & <- & _).
    apply lxor_bound; apply H7.
Qed.
Theorem compression_fun h m t len d out out' : b3_compression h m t len d out -> b3_compression h m t len d out' -> out = out'.
Proof.
  intros (iv & v & Hiv & Hh & H8 & H12 & H13 & H14 & H15 & Hq & ->) (iv' & w & Hiv' & Gh & G8 & G12 & G13 & G14 & G15 & Gq & ->).
  apply b3_iv_initial in Hiv as ->, Hiv' as ->.
  assert (forall n, (n <= 56)%nat -> forall i, (i < 16)%nat -> v n i = w n i) as E.
  { induction n as [|n IH]; intros Hn i Hi.
    - destruct (Nat.lt_ge_cases i 8) as [L|L]; [rewrite Hh, Gh by exact L; reflexivity|].
      destruct (Nat.lt_ge_cases i 12) as [L'|L']; [replace i with (8 + (i - 8))%nat by lia; rewrite H8, G8 by lia; reflexivity|].
      assert (i = 12 \/ i = 13 \/ i = 14 \/ i = 15)%nat as [-> | [-> | [-> | ->]]] by lia; congruence.
    - pose proof (Nat.div_mod n 8 ltac:(discriminate)) as En. pose proof (Nat.mod_upper_bound n 8 ltac:(discriminate)) as Hm.
      assert (n / 8 < 7)%nat as Hr by (apply Nat.div_lt_upper_bound; lia).
      specialize (Hq _ _ Hr Hm). specialize (Gq _ _ Hr Hm). rewrite <- En in Hq, Gq. apply quarters_quad in Hq, Gq.
      pose proof (quad_fine _ Hm) as Q. destruct (quad (n mod 8)) as [[[a b] c] dd]. destruct Q as [_ Q].
      exact (mixed_fun a b c dd _ _ _ _ _ _ Q (IH ltac:(lia)) Hq Gq i Hi). }
  apply map_ext_in. intros i Hi. apply in_seq in Hi. rewrite !E by lia. reflexivity.
Qed.
