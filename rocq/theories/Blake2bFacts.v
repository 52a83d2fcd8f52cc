(** Proofs about BLAKE2b with digests of any length (C167). *)
From Verif Require Import Prelude Cbor Sha512 Ed25519 Blake3 Blake2b Blake2s Spec SpecWire SpecCbor SpecSha SpecSha512 SpecEd SpecBlake2 SpecBlake2s OrdFacts Base58Facts CborFacts ShaFacts EdTextFacts Blake3Facts Blake3TreeFacts Sha512Facts Blake2Facts.
Local Open Scope N_scope.
Local Opaque b2_compress.

Lemma init_ok n : (n <= 64)%nat -> chained_2b n [] (b2_start n) /\ words5_ok 8 (b2_start n).
Proof.
  intros Hn. assert (0x01010000 + N.of_nat n < 2 ^ 64) as Hp by (change (2 ^ 64) with 18446744073709551616; lia).
  assert (nth 0 b2_iv 0 < 2 ^ 64) as Hi by reflexivity.
  pose proof (differing_lxor (nth 0 b2_iv 0) (0x01010000 + N.of_nat n) Hi Hp) as E.
  unfold b2_start. split.
  - rewrite E. assert (forall v, upd 0 v b2_iv = v :: tl b2_iv) as -> by reflexivity. apply C2b_start. apply b2_iv_initial. reflexivity.
  - apply upd_ok; [exact b2_iv_ok | lia | apply lxor_bound; assumption].
Qed.
Lemma blocks_correct n : forall fuel bs h m, chained_2b n bs h -> words5_ok 8 h -> (length m < fuel)%nat -> (m = [] -> bs = []) ->
  exists (bs' : list bytes) b h', concat bs ++ m = concat bs' ++ b /\ (length b <= 128)%nat /\ (b = [] -> bs' = []) /\ chained_2b n bs' h' /\ words5_ok 8 h' /\
    b2_blocks fuel h (128 * N.of_nat (length bs)) m = b2_compress h' (b2_words (b ++ repeat x00 (128 - length b))) (128 * N.of_nat (length bs') + N.of_nat (length b)) true.
Proof.
  induction fuel as [|fuel IH]; intros bs h m Hc Hh Hf He; [lia|]. cbn [b2_blocks].
  destruct (Nat.leb_spec (length m) 128) as [Hm|Hm].
  - exists bs, m, h. repeat (split; [first [reflexivity | assumption]|]). reflexivity.
  - assert (length (firstn 128 m) = 128%nat) as Hb by (rewrite firstn_length; lia).
    destruct (compress5_correct h (b2_words (firstn 128 m)) (128 * N.of_nat (length bs) + 128) false Hh) as [Hcomp Hok].
    replace (128 * N.of_nat (length bs) + 128) with (128 * N.of_nat (length (bs ++ [firstn 128 m]))) in * by (rewrite app_length; cbn [length]; lia).
    set (out := b2_compress h (b2_words (firstn 128 m)) _ false) in *. clearbody out.
    destruct (IH (bs ++ [firstn 128 m]) out (skipn 128 m)) as (bs' & b & h' & E & H1 & H2 & H3 & H4 & H5); [|exact Hok | rewrite skipn_length; lia | |].
    + eapply C2b_block; [exact Hc | exact Hb | apply block_words5_full, Hb|].
      replace (S (length bs)) with (length (bs ++ [firstn 128 m])) by (rewrite app_length; cbn [length]; lia). exact Hcomp.
    + intros H. apply (f_equal (@length _)) in H. rewrite skipn_length in H. cbn [length] in H. lia.
    + exists bs', b, h'. split; [|auto]. rewrite <- E, concat_app. cbn [concat]. rewrite app_nil_r, <- app_assoc, firstn_skipn. reflexivity.
Qed.
Lemma chained_lengths n bs h : chained_2b n bs h -> Forall (fun b => length b = 128%nat) bs.
Proof. induction 1 as [|bs b h m h' _ IH Hb _ _]; [constructor|]. apply Forall_app. auto. Qed.
Theorem blake2b_of_model n m : (n <= 64)%nat -> blake2b_of n m (blake2b n m).
Proof.
  intros Hn. destruct (init_ok n Hn) as [Hc Hh].
  destruct (blocks_correct n (S (length m)) [] (b2_start n) m Hc Hh ltac:(lia) ltac:(reflexivity)) as (bs & b & h & E & Hl & He & Hbs & Hok & Hr).
  cbn [concat app length N.of_nat N.mul] in E, Hr.
  destruct (compress5_correct h (b2_words (b ++ repeat x00 (128 - length b))) (128 * N.of_nat (length bs) + N.of_nat (length b)) true Hok) as [Hcomp Hout].
  unfold blake2b. rewrite Hr. set (out := b2_compress _ _ _ _) in *. clearbody out.
  exists bs, b, h, (b2_words (b ++ repeat x00 (128 - length b))), out, (map (le_bytes 8) out).
  split; [exact E|]. split; [exact Hl|]. split; [exact He|]. split; [exact Hbs|]. split; [apply block_words5_ok, Hl|].
  split; [|split; [apply le_words8; eapply words5_ok_Forall; exact Hout | rewrite flat_map_concat_map; reflexivity]].
  replace (N.of_nat (length m)) with (128 * N.of_nat (length bs) + N.of_nat (length b)); [exact Hcomp|].
  rewrite E, app_length, (concat_length128 bs (chained_lengths n bs h Hbs)). lia.
Qed.
Lemma chained_fun n bs h : chained_2b n bs h -> forall h', chained_2b n bs h' -> h = h'.
Proof.
  induction 1 as [x iv Hiv | bs b h m h1 _ IH Hb Hm Hc]; intros h' H'.
  - inversion H' as [x' iv' Hiv' | bs' b' ? ? ? ? ? ? ? E]; [|destruct bs'; discriminate]. subst. apply b2_iv_initial in Hiv, Hiv'. congruence.
  - inversion H' as [x' iv' Hiv' E | bs' b' g m' ? Hbs' Hb' Hm' Hc' E]; [destruct bs; discriminate|]. subst.
    apply app_inj_tail in E as [-> ->]. rewrite (IH _ Hbs') in Hc. rewrite (block_words5_fun b m m' Hm Hm') in Hc.
    eapply compression5_fun; eassumption.
Qed.
Theorem blake2b_fun n m d d' : blake2b_of n m d -> blake2b_of n m d' -> d = d'.
Proof.
  intros (bs & b & h & w & out & words & E & Hl & He & Hc & Hw & Hcomp & Hwords & ->) (bs' & b' & h' & w' & out' & words' & E' & Hl' & He' & Hc' & Hw' & Hcomp' & Hwords' & ->).
  rewrite E' in E. symmetry in E. pose proof (chained_lengths n _ _ Hc) as F. pose proof (chained_lengths n _ _ Hc') as F'.
  assert (length bs = length bs') as Hn.
  { pose proof (f_equal (@length _) E) as Hlen. rewrite !app_length, !concat_length128 in Hlen by assumption.
    assert (length b = 0 -> length bs = 0)%nat as Z by (intros H; destruct b; [rewrite He by reflexivity; reflexivity | discriminate H]).
    assert (length b' = 0 -> length bs' = 0)%nat as Z' by (intros H; destruct b'; [rewrite He' by reflexivity; reflexivity | discriminate H]).
    clear -Hlen Z Z' Hl Hl'. lia. }
  destruct (concat_split128 bs bs' F F' b b' Hn E) as [<- <-].
  rewrite <- (chained_fun n bs h Hc h' Hc'), <- (block_words5_fun b w w' Hw Hw') in Hcomp'. rewrite <- (compression5_fun _ _ _ _ _ _ Hcomp Hcomp') in Hwords'.
  do 2 f_equal. eapply words_of_fun; eassumption.
Qed.
Theorem blake2b_iff n m d : (n <= 64)%nat -> (blake2b_of n m d <-> blake2b n m = d).
Proof. intros Hn. split; [intros H; exact (blake2b_fun n m _ _ (blake2b_of_model n m Hn) H) | intros <-; apply blake2b_of_model, Hn]. Qed.
Lemma le_concat_length k : forall (out : list N) words, Forall2 (le_number k) out words -> length (concat words) = (k * length out)%nat.
Proof. induction 1 as [|x w out words Hx _ IH]; cbn [concat length]; [lia|]. rewrite app_length, IH. apply le_number_iff in Hx as [-> _]. lia. Qed.
Lemma blake2b_length n m : (n <= 64)%nat -> length (blake2b n m) = n.
Proof.
  intros Hn. destruct (blake2b_of_model n m Hn) as (bs & b & h & w & out & words & _ & _ & _ & _ & _ & Hc & Hw & ->).
  assert (length out = 8%nat) as Hl.
  { destruct Hc as (iv & v & _ & _ & _ & _ & _ & _ & _ & _ & ->). rewrite map_length, seq_length. reflexivity. }
  apply firstn_length_le. rewrite (le_concat_length 8 _ _ Hw), Hl. lia.
Qed.
