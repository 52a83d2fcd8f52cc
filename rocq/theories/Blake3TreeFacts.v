(** Proofs about the chunks and the tree of BLAKE3 (C150). *)
From Verif Require Import Prelude Cbor Sha256 Ed25519 Blake3 Spec SpecWire SpecCbor SpecSha SpecEd SpecBlake3 OrdFacts Base58Facts CborFacts ShaFacts EdTextFacts Blake3Facts.
Local Open Scope N_scope.
Local Opaque b3_compress.

(* ------------------------------------------------------------------ words of a block *)

Lemma app_len {A} : forall (a a' b b' : list A), length a = length a' -> a ++ b = a' ++ b' -> a = a' /\ b = b'.
Proof.
  induction a as [|x a IH]; intros [|x' a'] b b' Hl E; try discriminate Hl; [auto|]. cbn [app] in E. injection E as <- E.
  destruct (IH a' b b' ltac:(cbn [length] in Hl; lia) E) as [-> ->]. auto.
Qed.

Lemma le4 b0 b1 b2 b3 : le_value [b0; b1; b2; b3] < 2 ^ 32.
Proof. exact (le_value_bound [b0; b1; b2; b3]). Qed.
Lemma b3_words_spec n : forall s, length s = (4 * n)%nat ->
  words_ok n (b3_words s) /\ exists pieces, s = concat pieces /\ Forall2 (le_number 4) (b3_words s) pieces.
Proof.
  induction n as [|n IH]; intros s Hs.
  - destruct s; [|discriminate Hs]. cbn [b3_words]. split; [apply nth_list_ok; [constructor | reflexivity]|]. exists []. split; [reflexivity | constructor].
  - destruct s as [|b0 [|b1 [|b2 [|b3 r]]]]; cbn [length] in Hs; try lia.
    destruct (IH r ltac:(lia)) as (Ho & pieces & E & Hf). cbn [b3_words]. split.
    + apply (words_ok_app 1 n [_]); [|exact Ho]. apply nth_list_ok; [|reflexivity]. constructor; [apply le4 | constructor].
    + exists ([b0; b1; b2; b3] :: pieces). split; [rewrite E; reflexivity|]. constructor; [|exact Hf]. exact (le_number_value [b0; b1; b2; b3]).
Qed.
Lemma words_fun : forall pieces pieces' m m', concat pieces = concat pieces' -> Forall2 (le_number 4) m pieces -> Forall2 (le_number 4) m' pieces' -> m = m'.
Proof.
  induction pieces as [|p ps IH]; intros pieces' m m' E H H'; inversion H; subst.
  - inversion H' as [|x q ? ? Hq]; subst; [reflexivity|]. apply le_number_iff in Hq as [Hl _]. destruct q; [discriminate Hl | discriminate E].
  - match goal with X : le_number 4 _ p |- _ => apply le_number_iff in X as [Hl <-] end.
    inversion H' as [|x q ? qs Hq Hqs]; subst; [destruct p; [discriminate Hl | discriminate E]|].
    apply le_number_iff in Hq as [Hl' <-]. cbn [concat] in E.
    apply app_len in E as [-> E']; [|congruence]. f_equal. exact (IH _ _ _ E' ltac:(eassumption) Hqs).
Qed.
Lemma zeros_repeat (z : bytes) : Forall (eq x00) z -> z = repeat x00 (length z).
Proof. induction 1 as [|x z <- _ IH]; cbn [length repeat]; congruence. Qed.
Lemma block_words_ok b : (length b <= 64)%nat -> block_words b (b3_words (b ++ repeat x00 (64 - length b))) /\ words_ok 16 (b3_words (b ++ repeat x00 (64 - length b))).
Proof.
  intros Hb. assert (length (b ++ repeat x00 (64 - length b)) = 64%nat) as Hl by (rewrite app_length, repeat_length; lia).
  destruct (b3_words_spec 16 _ Hl) as (Ho & pieces & E & Hf). split; [|exact Ho].
  exists (repeat x00 (64 - length b)), pieces. repeat split; [exact E | | exact Hl | exact Hf]. apply Forall_forall. intros x Hx. symmetry. exact (repeat_spec _ _ _ Hx).
Qed.
Lemma block_words_full b : length b = 64%nat -> block_words b (b3_words b) /\ words_ok 16 (b3_words b).
Proof. intros Hb. pose proof (block_words_ok b ltac:(lia)) as H. rewrite Hb in H. cbn [Nat.sub repeat] in H. rewrite app_nil_r in H. exact H. Qed.
Lemma block_words_fun b m m' : block_words b m -> block_words b m' -> m = m'.
Proof.
  intros (z & ps & E & Hz & Hl & Hf) (z' & ps' & E' & Hz' & Hl' & Hf'). apply (words_fun ps ps' m m'); [|exact Hf | exact Hf'].
  rewrite <- E, <- E'. f_equal. rewrite (zeros_repeat z Hz), (zeros_repeat z' Hz'). f_equal. rewrite app_length in Hl, Hl'. lia.
Qed.

(* ------------------------------------------------------------------ chunks *)

Definition last_of (o : b3_output) : b3_last := B3Last (bo_cv o) (bo_words o) (bo_counter o) (bo_len o) (bo_flags o).
Definition output_ok (o : b3_output) : Prop := words_ok 8 (bo_cv o) /\ words_ok 16 (bo_words o) /\ bo_len o < 2 ^ 32 /\ bo_flags o < 8.
Lemma chaining_ok o : output_ok o -> b3_value (last_of o) (b3_chaining o) /\ words_ok 8 (b3_chaining o).
Proof.
  intros (Hc & _ & Hl & Hf). apply compress_correct; [exact Hc | exact Hl|].
  apply N.lt_trans with 8; [exact Hf | reflexivity].
Qed.

Definition chunk_ok (t : N) (chunk : bytes) (c : b3_chunk) : Prop :=
  bc_counter c = t /\ words_ok 8 (bc_cv c) /\ exists bs : list bytes, chunk = concat bs ++ bc_block c /\ length bs = bc_compressed c /\
    Forall (fun b => length b = 64%nat) bs /\
    blocks_chained t bs (bc_cv c) /\ (bc_block c = [] -> bs = []) /\ (length (bc_block c) <= 64)%nat.
Lemma new_chunk_ok t : chunk_ok t [] (b3_new_chunk t).
Proof.
  split; [reflexivity|]. split; [exact b3_iv_ok|]. exists []. repeat split; [constructor | | cbn; lia]. constructor. apply b3_iv_initial. reflexivity.
Qed.
(** Once a full block is compressed there is an empty one, before bytes are added. *)
Definition chunk_ready (t : N) (chunk : bytes) (c : b3_chunk) : Prop :=
  bc_counter c = t /\ words_ok 8 (bc_cv c) /\ exists bs : list bytes, chunk = concat bs ++ bc_block c /\ length bs = bc_compressed c /\
    Forall (fun b => length b = 64%nat) bs /\
    blocks_chained t bs (bc_cv c) /\ (length (bc_block c) < 64)%nat.
Lemma flush_ready t chunk c : chunk_ok t chunk c -> chunk_ready t chunk (b3_flush c).
Proof.
  intros (Ht & Hc & bs & E & Hn & Hf & Hb & He & Hl). unfold b3_flush. destruct (Nat.eqb_spec (length (bc_block c)) 64) as [H64|H64].
  - destruct (block_words_full (bc_block c) H64) as [Hw Ho].
    assert (b3_start_flag c = match bs with [] => 1 | _ => 0 end) as Hs.
    { unfold b3_start_flag. rewrite <- Hn. destruct bs; reflexivity. }
    destruct (compress_correct (bc_cv c) (b3_words (bc_block c)) (bc_counter c) 64 (b3_start_flag c) Hc) as [Hcomp Hcv].
    { reflexivity. } { rewrite Hs. destruct bs; reflexivity. }
    set (out := b3_compress _ _ _ _ _) in *. clearbody out.
    split; [exact Ht|]. split; [exact Hcv|]. exists (bs ++ [bc_block c]). cbn [bc_block bc_compressed bc_cv].
    split; [rewrite concat_app; cbn [concat]; rewrite !app_nil_r; exact E|].
    split; [rewrite app_length; cbn [length]; lia|]. split; [apply Forall_app; auto|]. split; [|cbn; lia].
    eapply BC_block; [exact Hb | exact H64 | exact Hw|]. rewrite Hs, Ht in Hcomp. exact Hcomp.
  - split; [exact Ht|]. split; [exact Hc|]. exists bs. repeat split; try assumption. lia.
Qed.
Lemma chunk_update_ok t : forall fuel chunk c input, chunk_ok t chunk c -> (length input <= fuel)%nat -> chunk_ok t (chunk ++ input) (b3_chunk_update fuel c input).
Proof.
  induction fuel as [|fuel IH]; intros chunk c input Hc Hfuel.
  - destruct input; [|cbn [length] in Hfuel; lia]. rewrite app_nil_r. exact Hc.
  - cbn [b3_chunk_update]. destruct input as [|b input']; [rewrite app_nil_r; exact Hc|]. set (input := b :: input') in *.
    destruct (flush_ready t chunk c Hc) as (Ht & Hcv & bs & E & Hn & Hf & Hb & Hl). set (f := b3_flush c) in *. clearbody f.
    set (want := (64 - length (bc_block f))%nat). assert (0 < want)%nat as Hw by (unfold want; lia).
    rewrite <- (firstn_skipn want input) at 1. rewrite app_assoc. apply IH.
    + split; [exact Ht|]. split; [exact Hcv|]. exists bs. cbn [bc_block bc_compressed bc_cv].
      split; [rewrite E, app_assoc; reflexivity|]. repeat split; try assumption.
      * intros H. apply app_eq_nil in H as [_ H]. unfold input in H. destruct want; [lia | discriminate H].
      * rewrite app_length, firstn_length. unfold want. lia.
    + rewrite skipn_length. unfold input in *. cbn [length] in *. lia.
Qed.
Lemma concat_length64 (bs : list bytes) : Forall (fun b => length b = 64%nat) bs -> length (concat bs) = (64 * length bs)%nat.
Proof. induction 1 as [|b bs Hb _ IH]; cbn [concat length]; [reflexivity|]. rewrite app_length, IH. lia. Qed.
Lemma chunk_len_ok t chunk c : chunk_ok t chunk c -> b3_chunk_len c = length chunk.
Proof.
  intros (_ & _ & bs & -> & Hn & Hf & _). unfold b3_chunk_len. rewrite app_length, concat_length64, Hn by exact Hf. reflexivity.
Qed.
Lemma chunk_output_ok t chunk c : chunk_ok t chunk c -> chunk_last t chunk (last_of (b3_chunk_output c)) /\ output_ok (b3_chunk_output c).
Proof.
  intros (Ht & Hc & bs & E & Hn & Hf & Hb & He & Hl). destruct (block_words_ok (bc_block c) Hl) as [Hw Ho].
  assert (N.lor (b3_start_flag c) chunk_end = match bs with [] => 3 | _ => 2 end) as Hs.
  { unfold b3_start_flag. rewrite <- Hn. destruct bs; reflexivity. }
  unfold b3_chunk_output, last_of, output_ok. cbn [bo_cv bo_words bo_counter bo_len bo_flags]. rewrite Hs. split.
  - exists bs, (bc_block c), (bc_cv c), (b3_words (bc_block c ++ repeat x00 (64 - length (bc_block c)))). rewrite Ht. auto 10.
  - split; [exact Hc|]. split; [exact Ho|]. split; [|destruct bs; reflexivity]. apply N.le_lt_trans with 64; [lia | reflexivity].
Qed.

(* ------------------------------------------------------------------ the stack *)

Inductive stack_ok : N -> bytes -> list (list N) -> Prop :=
| SO_nil : stack_ok 0 [] []
| SO_cons n m st k piece nd cv : stack_ok n m st -> length piece = (1024 * 2 ^ k)%nat -> (2 ^ N.of_nat (S k) | n) ->
    b3_tree n piece nd -> b3_value nd cv -> words_ok 8 cv -> stack_ok (n + 2 ^ N.of_nat k) (m ++ piece) (cv :: st).

Lemma parent_ok l r : words_ok 8 l -> words_ok 8 r -> output_ok (b3_parent_output l r).
Proof. intros Hl Hr. split; [exact b3_iv_ok|]. split; [exact (words_ok_app 8 8 l r Hl Hr)|]. split; reflexivity. Qed.
Lemma pow2_succ k : 2 ^ N.of_nat (S k) = 2 * 2 ^ N.of_nat k.
Proof. rewrite Nat2N.inj_succ. apply N.pow_succ_r'. Qed.
Lemma pow2_pos k : 0 < 2 ^ N.of_nat k.
Proof. pose proof (N.pow_nonzero 2 (N.of_nat k) ltac:(discriminate)). lia. Qed.
(** A power that divides the number divides its lowest bit. *)
Lemma low_power j k n : (2 ^ N.of_nat (S k) | n) -> (2 ^ N.of_nat j | n + 2 ^ N.of_nat k) -> (j <= k)%nat.
Proof.
  intros [a Ha] [b Hb]. destruct (Nat.le_gt_cases j k) as [|H]; [assumption|]. exfalso.
  replace j with (S k + (j - S k))%nat in Hb by lia. rewrite Nat2N.inj_add, N.pow_add_r in Hb.
  rewrite !pow2_succ in *. pose proof (pow2_pos k) as Hp. set (p := 2 ^ N.of_nat k) in *. clearbody p. set (x := b * 2 ^ N.of_nat (j - S k)).
  assert (p * (2 * a + 1) = p * (2 * x)) as E by (unfold x; rewrite Ha in Hb; lia).
  apply N.mul_cancel_l in E; lia.
Qed.
Lemma push_ok : forall p n m st k piece nd cv, stack_ok n m st -> length piece = (1024 * 2 ^ k)%nat -> N.pos p * 2 ^ N.of_nat k = n + 2 ^ N.of_nat k ->
  b3_tree n piece nd -> b3_value nd cv -> words_ok 8 cv -> stack_ok (n + 2 ^ N.of_nat k) (m ++ piece) (b3_push p st cv).
Proof.
  induction p as [q IH | q IH | ]; intros n m st k piece nd cv Hst Hl Hp Ht Hv Hc.
  - assert (n = N.pos q * 2 ^ N.of_nat (S k)) as En by (rewrite pow2_succ; lia).
    cbn [b3_push]. destruct st; (eapply SO_cons; try eassumption; rewrite En; apply N.divide_factor_r).
  - pose proof (pow2_pos k) as Pk. destruct Hst as [|n m st k' top ndt cvt Hst Hlt Hdt Htt Hvt Hct].
    + exfalso. assert (2 * 2 ^ N.of_nat k <= 0 + 2 ^ N.of_nat k) by (rewrite <- Hp; apply N.mul_le_mono_r; lia). lia.
    + assert (k' = k) as ->.
      { assert (k <= k')%nat as H1.
        { apply (low_power k k' n Hdt). exists (N.pos q~0 - 1). rewrite N.mul_sub_distr_r, Hp. lia. }
        assert (k' <= k)%nat as H2; [|lia].
        destruct (Nat.le_gt_cases k' k) as [|H]; [assumption|]. exfalso.
        assert (S k <= k)%nat; [|lia]. apply (low_power (S k) k (n + 2 ^ N.of_nat k')).
        - apply N.divide_add_r.
          + destruct Hdt as [a Ha]. rewrite Ha. replace (S k') with (S k + (S k' - S k))%nat by lia. rewrite Nat2N.inj_add, N.pow_add_r.
            exists (a * 2 ^ N.of_nat (S k' - S k)). lia.
          + replace k' with (S k + (k' - S k))%nat by lia. rewrite Nat2N.inj_add, N.pow_add_r. exists (2 ^ N.of_nat (k' - S k)). lia.
        - exists (N.pos q). rewrite <- Hp, pow2_succ. lia. }
      cbn [b3_push]. rewrite <- app_assoc, <- N.add_assoc. replace (2 ^ N.of_nat k + 2 ^ N.of_nat k) with (2 ^ N.of_nat (S k)) by (rewrite pow2_succ; lia).
      destruct (chaining_ok (b3_parent_output cvt cv) (parent_ok _ _ Hct Hc)) as [Hpv Hpc].
      apply (IH n m st (S k) (top ++ piece) (last_of (b3_parent_output cvt cv))); [exact Hst | | | | exact Hpv | exact Hpc].
      * rewrite app_length, Hlt, Hl. cbn [Nat.pow]. lia.
      * rewrite pow2_succ. lia.
      * refine (B3_parent n k top piece ndt nd cvt cv b3_iv Hlt _ Htt Hvt Ht Hv _); [|apply b3_iv_initial; reflexivity].
        pose proof (Nat.pow_nonzero 2 k). lia.
  - assert (n = 0) as -> by lia. cbn [b3_push]. destruct st; (eapply SO_cons; try eassumption; exists 0; reflexivity).
Qed.
Lemma fold_ok n m st : stack_ok n m st -> forall rest o j, b3_tree n rest (last_of o) -> output_ok o -> (2 ^ N.of_nat j | n) ->
  (length rest <= 1024 * 2 ^ j)%nat -> (rest = [] -> st = []) ->
  let o' := fold_left (fun o cv => b3_parent_output cv (b3_chaining o)) st o in b3_tree 0 (m ++ rest) (last_of o') /\ output_ok o'.
Proof.
  induction 1 as [|n m st k piece nd cv Hst IH Hl Hd Ht Hv Hc]; intros rest o j Hr Ho Hj Hlen He; cbn [fold_left]; [split; assumption|].
  rewrite <- app_assoc. destruct (chaining_ok o Ho) as [Hov Hoc].
  pose proof (low_power j k n Hd Hj) as Hjk. pose proof (Nat.pow_le_mono_r 2 j k ltac:(discriminate) Hjk) as Hpow.
  assert (rest <> []) as Hne by (intros H; discriminate (He H)).
  apply IH with (j := S k).
  - refine (B3_parent n k piece rest nd (last_of o) cv (b3_chaining o) b3_iv Hl _ Ht Hv Hr Hov _); [|apply b3_iv_initial; reflexivity].
    destruct rest; [contradiction|]. cbn [length] in *. lia.
  - exact (parent_ok _ _ Hc Hoc).
  - exact Hd.
  - rewrite app_length, Hl. cbn [Nat.pow]. lia.
  - intros H. apply app_eq_nil in H as [_ H]. contradiction.
Qed.

(* ------------------------------------------------------------------ the hasher *)

Definition hash_ok (m : bytes) (h : b3_hasher) : Prop :=
  exists t front chunk, m = front ++ chunk /\ stack_ok t front (bh_stack h) /\ chunk_ok t chunk (bh_chunk h) /\
    (length chunk <= 1024)%nat /\ (chunk = [] -> bh_stack h = []).
Definition hash_ready (m : bytes) (h : b3_hasher) : Prop :=
  exists t front chunk, m = front ++ chunk /\ stack_ok t front (bh_stack h) /\ chunk_ok t chunk (bh_chunk h) /\ (length chunk < 1024)%nat.
Lemma new_ok : hash_ok [] b3_new.
Proof. exists 0, [], []. split; [reflexivity|]. split; [exact SO_nil|]. split; [apply new_chunk_ok|]. split; [cbn; lia | reflexivity]. Qed.
Lemma next_ready m h : hash_ok m h -> hash_ready m (b3_next h).
Proof.
  intros (t & front & chunk & -> & Hst & Hc & Hl & He). unfold b3_next. rewrite (chunk_len_ok t chunk _ Hc).
  destruct (Nat.eqb_spec (length chunk) 1024) as [H1024|H1024]; [|exists t, front, chunk; split; [reflexivity | split; [exact Hst | split; [exact Hc | lia]]]].
  destruct (chunk_output_ok t chunk _ Hc) as [Hlast Ho]. destruct (chaining_ok _ Ho) as [Hv Hcv].
  pose proof Hc as (Ht & _). rewrite Ht. exists (N.succ t), (front ++ chunk), []. rewrite app_nil_r. split; [reflexivity|]. cbn [bh_stack bh_chunk].
  split; [|split; [apply new_chunk_ok | cbn; lia]]. rewrite <- N.add_1_r.
  apply (push_ok (N.succ_pos t) t front _ 0 chunk (last_of (b3_chunk_output (bh_chunk h)))); [exact Hst | exact H1024 | | | exact Hv | exact Hcv].
  - rewrite N.succ_pos_spec. cbn [N.of_nat N.pow]. lia.
  - apply B3_chunk; [lia | exact Hlast].
Qed.
Lemma updates_ok : forall fuel m h input, hash_ok m h -> (length input <= fuel)%nat -> hash_ok (m ++ input) (b3_updates fuel h input).
Proof.
  induction fuel as [|fuel IH]; intros m h input Hh Hfuel.
  - destruct input; [|cbn [length] in Hfuel; lia]. rewrite app_nil_r. exact Hh.
  - cbn [b3_updates]. destruct input as [|b input']; [rewrite app_nil_r; exact Hh|]. set (input := b :: input') in *.
    destruct (next_ready m h Hh) as (t & front & chunk & -> & Hst & Hc & Hl). set (g := b3_next h) in *. clearbody g.
    rewrite (chunk_len_ok t chunk _ Hc). set (want := (1024 - length chunk)%nat). assert (0 < want)%nat as Hw by (unfold want; lia).
    rewrite <- (firstn_skipn want input) at 1. rewrite app_assoc. apply IH.
    + exists t, front, (chunk ++ firstn want input). cbn [bh_stack bh_chunk]. split; [rewrite app_assoc; reflexivity|]. split; [exact Hst|].
      split; [apply chunk_update_ok; [exact Hc | lia]|]. split.
      * rewrite app_length, firstn_length. unfold want. lia.
      * intros H. apply app_eq_nil in H as [_ H]. unfold input in H. destruct want; [lia | discriminate H].
    + rewrite skipn_length. unfold input in *. cbn [length] in *. lia.
Qed.
Lemma update_ok m h input : hash_ok m h -> hash_ok (m ++ input) (b3_update h input).
Proof. intros H. apply updates_ok; [exact H | lia]. Qed.

Lemma le_words out : words_ok 8 out -> exists words, Forall2 (le_number 4) out words /\ flat_map (le_bytes 4) out = concat words.
Proof.
  intros H. apply words_ok_Forall in H. exists (map (le_bytes 4) out). split; [|apply flat_map_concat_map].
  induction H as [|x l Hx _ IH]; cbn [map]; constructor; [|exact IH]. apply le_number_bytes. split; [reflexivity | exact Hx].
Qed.
Lemma finalize_ok m h : hash_ok m h -> blake3_of m (b3_finalize h).
Proof.
  intros (t & front & chunk & -> & Hst & Hc & Hl & He). destruct (chunk_output_ok t chunk _ Hc) as [Hlast Ho].
  destruct (fold_ok t front _ Hst chunk (b3_chunk_output (bh_chunk h)) 0) as [Htree Hout]; [apply B3_chunk; assumption | exact Ho | exists t; cbn; lia | cbn; lia | exact He|].
  unfold b3_finalize. set (o := fold_left _ _ _) in *. clearbody o. destruct Hout as (Hcv & Hw & Hlen & Hf).
  assert (N.lor (bo_flags o) b3_root = bo_flags o + 8) as Hlor.
  { unfold b3_root. symmetry. rewrite <- N.lxor_lor, N.add_nocarry_lxor; [reflexivity| |]; apply N.bits_inj; intros i; rewrite N.land_spec, N.bits_0;
      (destruct (N.eq_dec i 3) as [->|Hi];
       [rewrite (testbit_high (bo_flags o) 3 3 Hf) by lia; reflexivity | change 8 with (2 ^ 3); rewrite (N.pow2_bits_false 3 i) by auto; apply andb_false_r]). }
  destruct (compress_correct (bo_cv o) (bo_words o) 0 (bo_len o) (bo_flags o + 8) Hcv Hlen) as [Hcomp Hok].
  { apply N.lt_trans with 16; [lia | reflexivity]. }
  destruct (le_words _ Hok) as (words & Hf2 & Hcat).
  exists (bo_cv o), (bo_words o), (bo_counter o), (bo_len o), (bo_flags o), (b3_compress (bo_cv o) (bo_words o) 0 (bo_len o) (bo_flags o + 8)), words.
  split; [exact Htree|]. split; [exact Hcomp|]. split; [exact Hf2|]. unfold b3_root_bytes. rewrite Hlor. exact Hcat.
Qed.

(* ------------------------------------------------------------------ one digest *)

Lemma value_fun nd h h' : b3_value nd h -> b3_value nd h' -> h = h'.
Proof. destruct nd. apply compression_fun. Qed.
Lemma chained_lengths t bs h : blocks_chained t bs h -> Forall (fun b => length b = 64%nat) bs.
Proof. induction 1 as [|bs b h m h' _ IH Hb _ _]; [constructor|]. apply Forall_app. auto. Qed.
Lemma chained_fun t bs h : blocks_chained t bs h -> forall h', blocks_chained t bs h' -> h = h'.
Proof.
  induction 1 as [iv Hiv | bs b h m h1 _ IH Hb Hm Hc]; intros h' H'.
  - inversion H' as [iv' Hiv' | bs' b' ? ? ? ? ? ? ? E]; [|destruct bs'; discriminate]. subst. apply b3_iv_initial in Hiv as ->, Hiv' as ->. reflexivity.
  - inversion H' as [iv' Hiv' E | bs' b' g m' ? Hbs' Hb' Hm' Hc' E]; [destruct bs; discriminate|]. subst.
    apply app_inj_tail in E as [-> ->]. rewrite (IH _ Hbs') in Hc. rewrite (block_words_fun b m m' Hm Hm') in Hc.
    eapply compression_fun; eassumption.
Qed.
Lemma concat_split (bs bs' : list bytes) : Forall (fun b => length b = 64%nat) bs -> Forall (fun b => length b = 64%nat) bs' -> forall b b',
  length bs = length bs' -> concat bs ++ b = concat bs' ++ b' -> bs = bs' /\ b = b'.
Proof.
  intros H. revert bs'. induction H as [|x bs Hx _ IH]; intros bs' H' b b' Hl E.
  - destruct bs'; [auto | discriminate Hl].
  - destruct H' as [|y bs' Hy H']; [discriminate Hl|]. cbn [concat] in E. rewrite <- !app_assoc in E.
    apply app_len in E as [-> E']; [|congruence]. destruct (IH bs' H' b b' ltac:(cbn [length] in Hl; lia) E') as [-> ->]. auto.
Qed.
Lemma chunk_last_fun t c n n' : chunk_last t c n -> chunk_last t c n' -> n = n'.
Proof.
  intros (bs & b & h & m & -> & Hl & He & Hc & Hm & ->) (bs' & b' & h' & m' & E & Hl' & He' & Hc' & Hm' & ->).
  pose proof (chained_lengths _ _ _ Hc) as F. pose proof (chained_lengths _ _ _ Hc') as F'.
  assert (length bs = length bs') as Hn.
  { pose proof (f_equal (@length _) E) as Hlen. rewrite !app_length, !concat_length64 in Hlen by assumption.
    assert (length b = 0 -> length bs = 0)%nat as Z by (intros H; destruct b; [rewrite He by reflexivity; reflexivity | discriminate H]).
    assert (length b' = 0 -> length bs' = 0)%nat as Z' by (intros H; destruct b'; [rewrite He' by reflexivity; reflexivity | discriminate H]).
    clear -Hlen Z Z' Hl Hl'. lia. }
  destruct (concat_split bs bs' F F' b b' Hn E) as [<- <-].
  rewrite (chained_fun t bs h Hc h' Hc'), (block_words_fun b m m' Hm Hm'). reflexivity.
Qed.
Lemma tree_fun t m n : b3_tree t m n -> forall n', b3_tree t m n' -> n = n'.
Proof.
  assert (forall k, (0 < 2 ^ k)%nat) as Hpos by (intros k; pose proof (Nat.pow_nonzero 2 k); lia).
  induction 1 as [t m n Hl Hc | t k l r nl nr hl hr iv Hl Hr _ IHl Hvl _ IHr Hvr Hiv]; intros n' H'.
  - inversion H' as [? ? ? _ Hc' | ? k l r ? ? ? ? ? Hl' Hr' _ _ _ _ _ ]; subst; [eapply chunk_last_fun; eassumption|].
    rewrite app_length in Hl. specialize (Hpos k). lia.
  - inversion H' as [? ? ? Hl' _ E | ? k' l' r' nl' nr' hl' hr' iv' Hl' Hr' Tl Hvl' Tr Hvr' Hiv' Et E]; subst.
    + rewrite app_length in Hl'. specialize (Hpos k). lia.
    + assert (k' = k) as ->.
      { pose proof (f_equal (@length _) E) as Hlen. rewrite !app_length in Hlen.
        destruct (Nat.lt_trichotomy k k') as [H | [H | H]]; [|auto|]; exfalso.
        - pose proof (Nat.pow_le_mono_r 2 (S k) k' ltac:(discriminate) H) as Hp. cbn [Nat.pow] in Hp. lia.
        - pose proof (Nat.pow_le_mono_r 2 (S k') k ltac:(discriminate) H) as Hp. cbn [Nat.pow] in Hp. lia. }
      apply app_len in E as [-> ->]; [|congruence].
      rewrite <- (IHl _ Tl) in Hvl'. rewrite <- (IHr _ Tr) in Hvr'. rewrite (value_fun _ _ _ Hvl Hvl'), (value_fun _ _ _ Hvr Hvr').
      apply b3_iv_initial in Hiv as ->, Hiv' as ->. reflexivity.
Qed.
Lemma bytes_of_words : forall (out : list N) words words', Forall2 (le_number 4) out words -> Forall2 (le_number 4) out words' -> words = words'.
Proof.
  intros out words words' H. revert words'. induction H as [|x w out words Hx _ IH]; intros words' H'; inversion H' as [|? w' ? ? Hx' H'']; subst; [reflexivity|].
  apply le_number_bytes in Hx as [-> _], Hx' as [-> _]. f_equal. apply IH, H''.
Qed.
Theorem blake3_fun m d d' : blake3_of m d -> blake3_of m d' -> d = d'.
Proof.
  intros (h & w & t & len & f & out & words & Ht & Hc & Hw & ->) (h' & w' & t' & len' & f' & out' & words' & Ht' & Hc' & Hw' & ->).
  pose proof (tree_fun _ _ _ Ht _ Ht') as E. injection E as <- <- <- <- <-. rewrite <- (compression_fun _ _ _ _ _ _ _ Hc Hc') in Hw'.
  f_equal. eapply bytes_of_words; eassumption.
Qed.
Theorem blake3_iff m d : blake3_of m d <-> blake3 m = d.
Proof.
  assert (blake3_of m (blake3 m)) as H by (apply finalize_ok; exact (update_ok [] b3_new m new_ok)).
  split; [intros Hd; exact (blake3_fun m _ _ H Hd) | intros <-; exact H].
Qed.
Theorem blake3_pieces pieces : b3_finalize (fold_left b3_update pieces b3_new) = blake3 (concat pieces).
Proof.
  assert (forall ps m h, hash_ok m h -> hash_ok (m ++ concat ps) (fold_left b3_update ps h)) as G.
  { induction ps as [|p ps IH]; intros m h H; cbn [concat fold_left]; [rewrite app_nil_r; exact H|]. rewrite app_assoc. apply IH, update_ok, H. }
  symmetry. apply blake3_iff. apply finalize_ok. exact (G pieces [] b3_new new_ok).
Qed.
Lemma blake3_of_length m d : blake3_of m d -> length d = 32%nat.
Proof.
  intros (h & w & t & len & f & out & words & _ & Hc & Hw & ->). assert (length out = 8%nat) as Hl.
  { destruct Hc as (iv & v & _ & _ & _ & _ & _ & _ & _ & _ & ->). rewrite map_length, seq_length. reflexivity. }
  assert (length (concat words) = (4 * length out)%nat) as ->; [|rewrite Hl; reflexivity]. clear -Hw.
  induction Hw as [|x w out words Hx _ IH]; cbn [concat length]; [reflexivity|]. rewrite app_length, IH. apply le_number_iff in Hx as [-> _]. lia.
Qed.
Lemma blake3_length m : length (blake3 m) = 32%nat.
Proof. apply (blake3_of_length m). apply blake3_iff. reflexivity. Qed.
