(** Facts about base64/base32 (C69). *)
From Verif Require Export OrdFacts BaseN.

Lemma bits_val_acc l acc :
  fold_left (fun acc (b : bool) => 2 * acc + (if b then 1 else 0))%N l acc =
  (acc * 2 ^ N.of_nat (length l) + bits_val l)%N.
Proof.
  unfold bits_val. revert acc. induction l as [|b l IH]; intros acc.
  - simpl. lia.
  - cbn [fold_left length]. rewrite IH, (IH (2 * 0 + _)%N), Nat2N.inj_succ, N.pow_succ_r'. destruct b; lia.
Qed.

Lemma bits_val_cons b l :
  bits_val (b :: l) = ((if b then 1 else 0) * 2 ^ N.of_nat (length l) + bits_val l)%N.
Proof. unfold bits_val at 1. cbn [fold_left]. rewrite bits_val_acc. destruct b; reflexivity. Qed.

Lemma bits_val_bound l : (bits_val l < 2 ^ N.of_nat (length l))%N.
Proof.
  induction l as [|b l IH]; [reflexivity|].
  rewrite bits_val_cons. cbn [length]. rewrite Nat2N.inj_succ, N.pow_succ_r'. destruct b; lia.
Qed.

Lemma bits_of_length k n : length (bits_of k n) = k.
Proof. induction k; simpl; auto. Qed.

Lemma bits_val_bits_of k n : bits_val (bits_of k n) = (n mod 2 ^ N.of_nat k)%N.
Proof.
  induction k as [|k IH].
  - simpl. rewrite N.mod_1_r. reflexivity.
  - cbn [bits_of]. rewrite bits_val_cons, IH, bits_of_length, Nat2N.inj_succ, N.pow_succ_r'.
    rewrite (N.mul_comm 2), N.mod_mul_r by (try apply N.pow_nonzero; discriminate).
    rewrite N.testbit_eqb. set (q := (n / 2 ^ N.of_nat k)%N).
    destruct (q mod 2 =? 1)%N eqn:E; [apply N.eqb_eq in E | apply N.eqb_neq in E].
    + rewrite E. lia.
    + assert (q mod 2 = 0)%N as -> by (pose proof (N.mod_lt q 2 ltac:(discriminate)); lia). lia.
Qed.

Lemma bits_of_bits_val l k : length l = k -> bits_of k (bits_val l) = l.
Proof.
  intros <-. assert (forall n, bits_of (length l) (n * 2 ^ N.of_nat (length l) + bits_val l) = l) as Hg.
  { induction l as [|b l IH]; intros n; [reflexivity|].
    cbn [length bits_of]. rewrite bits_val_cons, Nat2N.inj_succ, N.pow_succ_r'.
    set (p := (2 ^ N.of_nat (length l))%N) in *.
    assert (p <> 0)%N as Hp by (apply N.pow_nonzero; discriminate).
    replace (n * (2 * p) + ((if b then 1 else 0) * p + bits_val l))%N
      with ((2 * n + (if b then 1 else 0)) * p + bits_val l)%N by lia.
    rewrite IH. f_equal. rewrite N.testbit_eqb. fold p.
    rewrite N.div_add_l by exact Hp. rewrite (N.div_small (bits_val l)) by apply bits_val_bound.
    rewrite N.add_0_r. destruct b.
    - replace (2 * n + 1)%N with (1 + n * 2)%N by lia. rewrite N.mod_add by discriminate. reflexivity.
    - replace (2 * n + 0)%N with (0 + n * 2)%N by lia. rewrite N.mod_add by discriminate. reflexivity. }
  specialize (Hg 0%N). exact Hg.
Qed.

(* ------------------------------------------------------------------- groups *)

Lemma take_pad_length k l : length (take_pad k l) = k.
Proof. revert l. induction k; intros [|b l]; simpl; auto. Qed.

Lemma take_pad_app k l r : length l = k -> take_pad k (l ++ r) = l.
Proof. intros <-. induction l; simpl; [reflexivity | congruence]. Qed.

Lemma take_pad_short k l : (length l <= k)%nat -> take_pad k l = l ++ repeat false (k - length l).
Proof.
  revert l. induction k as [|k IH]; intros [|b l] Hl; simpl in *; try lia; auto.
  - rewrite (IH []) by (simpl; lia). simpl. rewrite Nat.sub_0_r. reflexivity.
  - rewrite IH by lia. reflexivity.
Qed.

Lemma groups_length k fuel l : Forall (fun g => length g = k) (groups fuel k l).
Proof.
  revert l. induction fuel as [|f IH]; intros l; simpl; [constructor|].
  destruct l; constructor; auto. apply take_pad_length.
Qed.

Lemma groups_concat k fuel l : (0 < k)%nat -> (length l <= fuel)%nat ->
  exists p, (p < k)%nat /\ concat (groups fuel k l) = l ++ repeat false p.
Proof.
  intros Hk. revert l. induction fuel as [|f IH]; intros l Hl.
  - destruct l; [|simpl in Hl; lia]. exists 0%nat. auto.
  - destruct l as [|b l]; [exists 0%nat; auto|]. cbn [groups]. simpl concat.
    set (m := b :: l) in *. destruct (Nat.le_gt_cases (length m) k) as [Hs|Hs].
    + exists (k - length m)%nat. split; [unfold m; simpl; lia|].
      rewrite skipn_all2 by exact Hs. rewrite take_pad_short by exact Hs.
      destruct f; simpl; rewrite app_nil_r; reflexivity.
    + destruct (IH (skipn k m)) as (p & Hp & E).
      { rewrite skipn_length. lia. }
      exists p. split; [exact Hp|]. rewrite E, app_assoc. f_equal.
      rewrite <- (firstn_skipn k m) at 1. rewrite take_pad_app by (apply firstn_length_le, Nat.lt_le_incl, Hs).
      apply firstn_skipn.
Qed.

Lemma concat_length_k k (gs : list (list bool)) :
  Forall (fun g => length g = k) gs -> length (concat gs) = (k * length gs)%nat.
Proof. induction 1 as [|g gs Hg _ IH]; simpl; [lia|]. rewrite app_length. lia. Qed.

(** The groups are determined by what they spell. *)
Lemma groups_unique k gs : (0 < k)%nat -> Forall (fun g => length g = k) gs ->
  forall data p fuel, (p < k)%nat -> data ++ repeat false p = concat gs ->
  (length data <= fuel)%nat -> groups fuel k data = gs.
Proof.
  intros Hk Hgs. induction Hgs as [|g gs Hg Hgs IH]; intros data p fuel Hp E Hf.
  - simpl in E. apply app_eq_nil in E as [-> _]. destruct fuel; reflexivity.
  - simpl in E. assert (length data + p = k + k * length gs)%nat as Hlen.
    { apply (f_equal (@length bool)) in E. rewrite !app_length, repeat_length, (concat_length_k k gs Hgs) in E. lia. }
    destruct data as [|b data]; [simpl in Hlen; lia|].
    destruct fuel as [|f]; [simpl in Hf; lia|].
    cbn [groups]. set (m := b :: data) in *.
    destruct (Nat.le_gt_cases k (length m)) as [Hs|Hs].
    + assert (g = firstn k m) as Eg.
      { apply (f_equal (firstn k)) in E. rewrite firstn_app in E.
        replace (k - length m)%nat with 0%nat in E by lia. simpl in E. rewrite app_nil_r in E.
        rewrite E. rewrite <- Hg at 1. rewrite firstn_app, firstn_all, Nat.sub_diag. simpl.
        symmetry. apply app_nil_r. }
      assert (skipn k m ++ repeat false p = concat gs) as Es.
      { apply (f_equal (skipn k)) in E. rewrite skipn_app in E.
        replace (k - length m)%nat with 0%nat in E by lia. simpl in E. rewrite E.
        rewrite <- Hg. rewrite skipn_app, skipn_all, Nat.sub_diag. reflexivity. }
      f_equal.
      * rewrite Eg. rewrite <- (firstn_skipn k m) at 1. apply take_pad_app. apply firstn_length_le, Hs.
      * apply (IH _ p); [exact Hp | exact Es|]. rewrite skipn_length. lia.
    + assert (gs = []) as ->.
      { destruct gs; [reflexivity|]. cbn [length] in Hlen. rewrite Nat.mul_succ_r in Hlen. lia. }
      cbn [concat] in E. cbn [length] in Hlen. rewrite app_nil_r in E. f_equal.
      * rewrite take_pad_short by lia. rewrite <- E. f_equal. f_equal. lia.
      * rewrite skipn_all2 by lia. destruct f; reflexivity.
Qed.

(* ---------------------------------------------------------------- alphabets *)

Definition good_alphabet (k : nat) (a : alphabet) : Prop :=
  NoDup a /\ N.of_nat (length a) = (2 ^ N.of_nat k)%N.

Lemma letter_index_from_some a i c j :
  letter_index_from a i c = Some j ->
  (i <= j < i + N.of_nat (length a))%N /\ nth (N.to_nat (j - i)) a x00 = c.
Proof.
  revert i. induction a as [|x a IH]; intros i; cbn [letter_index_from length]; [discriminate|].
  destruct (Byte.eqb c x) eqn:E.
  - intros [= <-]. apply byte_eqb_eq in E. subst. split; [lia|]. rewrite N.sub_diag. reflexivity.
  - intros Hx. apply IH in Hx as [Hb Hn]. split; [lia|].
    replace (N.to_nat (j - i)) with (S (N.to_nat (j - (i + 1)))) by lia. exact Hn.
Qed.

Lemma letter_index_some a c j :
  letter_index a c = Some j -> (j < N.of_nat (length a))%N /\ letter a j = c.
Proof.
  intros Hx. apply letter_index_from_some in Hx as [Hb Hn]. split; [lia|].
  rewrite N.sub_0_r in Hn. exact Hn.
Qed.

Lemma letter_index_from_nth a i n : NoDup a -> (n < length a)%nat ->
  letter_index_from a i (nth n a x00) = Some (i + N.of_nat n)%N.
Proof.
  intros Hd. revert i n. induction Hd as [|x a Hx Hd IH]; intros i n Hn; [simpl in Hn; lia|].
  destruct n as [|n]; cbn [nth letter_index_from].
  - rewrite byte_eqb_refl. f_equal. lia.
  - simpl in Hn. assert (Byte.eqb (nth n a x00) x = false) as ->.
    { apply byte_eqb_neq. intros E. apply Hx. rewrite <- E. apply nth_In. lia. }
    rewrite IH by lia. f_equal. lia.
Qed.

Lemma letter_index_letter a n : NoDup a -> (n < N.of_nat (length a))%N ->
  letter_index a (letter a n) = Some n.
Proof.
  intros Hd Hn. unfold letter_index, letter. rewrite letter_index_from_nth by (try exact Hd; lia).
  f_equal. lia.
Qed.

Lemma letter_indices_map a l : NoDup a -> Forall (fun n => (n < N.of_nat (length a))%N) l ->
  letter_indices a (map (letter a) l) = Some l.
Proof.
  intros Hd Hl. induction Hl as [|n l Hn _ IH]; [reflexivity|].
  cbn [map letter_indices]. rewrite letter_index_letter, IH by assumption. reflexivity.
Qed.

Lemma letter_indices_some a s l : letter_indices a s = Some l ->
  s = map (letter a) l /\ Forall (fun n => (n < N.of_nat (length a))%N) l.
Proof.
  revert l. induction s as [|c s IH]; intros l; cbn [letter_indices].
  - intros [= <-]. auto.
  - destruct (letter_index a c) as [i|] eqn:E; [|discriminate].
    destruct (letter_indices a s) as [l'|]; [|discriminate]. intros [= <-].
    apply letter_index_some in E as [Hi <-]. destruct (IH _ eq_refl) as [-> Hl]. auto.
Qed.

Lemma letter_in a n : (n < N.of_nat (length a))%N -> In (letter a n) a.
Proof. intros Hn. apply nth_In. lia. Qed.

(* ------------------------------------------------------------ encode/decode *)

Lemma to_bits_length bs : length (to_bits bs) = (8 * length bs)%nat.
Proof. induction bs as [|b bs IH]; [reflexivity|]. cbn [to_bits flat_map]. rewrite app_length. fold (to_bits bs). simpl length at 1. simpl length. lia. Qed.

Lemma flat_map_concat_map {T U} (f : T -> list U) l : flat_map f l = concat (map f l).
Proof. induction l; simpl; congruence. Qed.

Lemma map_bits_of_val k gs : Forall (fun g => length g = k) gs -> map (bits_of k) (map bits_val gs) = gs.
Proof.
  induction 1 as [|g gs Hg _ IH]; [reflexivity|]. simpl. rewrite IH, bits_of_bits_val by exact Hg. reflexivity.
Qed.

Lemma of_to_bits bs fuel : (8 * length bs <= fuel)%nat ->
  map (fun g => byteN (bits_val g)) (groups fuel 8 (to_bits bs)) = bs.
Proof.
  intros Hf. rewrite (groups_unique 8 (map (fun b => bits_of 8 (bN b)) bs)) with (p := 0%nat).
  - rewrite map_map. etransitivity; [|apply map_id]. apply map_ext. intros b.
    rewrite bits_val_bits_of. change (2 ^ N.of_nat 8)%N with 256%N.
    rewrite N.mod_small by apply bN_bound. apply byteN_bN.
  - lia.
  - apply Forall_map, Forall_forall. intros b _. apply bits_of_length.
  - lia.
  - rewrite <- flat_map_concat_map. apply app_nil_r.
  - rewrite to_bits_length. exact Hf.
Qed.

Lemma to_bits_of_groups gs : Forall (fun g => length g = 8%nat) gs ->
  to_bits (map (fun g => byteN (bits_val g)) gs) = concat gs.
Proof.
  induction 1 as [|g gs Hg _ IH]; [reflexivity|]. cbn [map to_bits flat_map concat].
  fold (to_bits (map (fun g => byteN (bits_val g)) gs)). rewrite IH. f_equal.
  rewrite bN_byteN_small; [apply bits_of_bits_val, Hg|].
  pose proof (bits_val_bound g) as Hb. rewrite Hg in Hb. exact Hb.
Qed.

Lemma forallb_negb_repeat l : forallb negb l = true -> l = repeat false (length l).
Proof.
  induction l as [|b l IH]; [reflexivity|]. simpl. rewrite andb_true_iff, negb_true_iff.
  intros [-> Hl]. f_equal. auto.
Qed.

Lemma forallb_repeat_negb n : forallb negb (repeat false n) = true.
Proof. induction n; auto. Qed.

Section Codec.
  Context (k : nat) (a : alphabet).
  Hypothesis Hk : (0 < k <= 8)%nat.
  Hypothesis Ha : good_alphabet k a.

  Lemma basen_roundtrip bs : basen_decode k a (basen_encode k a bs) = Some bs.
  Proof.
    destruct Ha as [Hd Hlen]. unfold basen_decode, basen_encode.
    set (bits := to_bits bs). set (gs := groups (length bits) k bits).
    assert (Forall (fun g => length g = k) gs) as Hgs by apply groups_length.
    rewrite <- map_map. rewrite letter_indices_map; [|exact Hd|].
    2:{ apply Forall_map. eapply Forall_impl; [|exact Hgs]. intros g Hg. rewrite Hlen, <- Hg. apply bits_val_bound. }
    rewrite flat_map_concat_map, map_bits_of_val by exact Hgs.
    destruct (groups_concat k (length bits) bits) as (p & Hp & E); [lia | lia|].
    fold gs in E. rewrite E. rewrite app_length, repeat_length.
    assert (length bits = 8 * length bs)%nat as Hl by apply to_bits_length.
    assert (Nat.div (length bits + p) 8 = length bs) as ->.
    { rewrite Hl. replace (8 * length bs + p)%nat with (p + length bs * 8)%nat by lia.
      rewrite Nat.div_add, Nat.div_small by lia. reflexivity. }
    rewrite <- Hl. rewrite firstn_app, firstn_all, Nat.sub_diag, skipn_app, skipn_all, Nat.sub_diag. simpl.
    rewrite app_nil_r, repeat_length, forallb_repeat_negb.
    assert (p <? k = true)%nat as -> by (apply Nat.ltb_lt; exact Hp). simpl.
    f_equal. apply of_to_bits. lia.
  Qed.

  Lemma basen_canonical s bs : basen_decode k a s = Some bs -> basen_encode k a bs = s.
  Proof.
    destruct Ha as [Hd Hlen]. unfold basen_decode.
    destruct (letter_indices a s) as [idx|] eqn:Ei; [|discriminate].
    apply letter_indices_some in Ei as [-> Hidx].
    set (bits := flat_map (bits_of k) idx). set (n := Nat.div (length bits) 8).
    set (data := firstn (8 * n) bits). set (pad := skipn (8 * n) bits).
    destruct (length pad <? k)%nat eqn:Ep; [|discriminate].
    destruct (forallb negb pad) eqn:En; [|discriminate]. cbv [andb].
    intros Hbs. apply (f_equal (fun o => match o with Some x => x | None => [] end)) in Hbs. cbv beta iota in Hbs.
    subst bs. apply Nat.ltb_lt in Ep. apply forallb_negb_repeat in En.
    assert (data ++ pad = bits) as Hbits by apply firstn_skipn.
    assert (length data = 8 * n)%nat as Hld.
    { unfold data. rewrite firstn_length. apply Nat.min_l. unfold n. pose proof (Nat.mul_div_le (length bits) 8). lia. }
    destruct (groups_concat 8 (length data) data) as (q & Hq & Eq); [lia | lia|].
    assert (Forall (fun g => length g = 8%nat) (groups (length data) 8 data)) as Hg8 by apply groups_length.
    assert (q = 0)%nat as ->.
    { apply (f_equal (@length bool)) in Eq. rewrite app_length, repeat_length, (concat_length_k 8 _ Hg8), Hld in Eq. lia. }
    simpl in Eq. rewrite app_nil_r in Eq.
    unfold basen_encode. rewrite to_bits_of_groups by exact Hg8. rewrite Eq.
    rewrite (groups_unique k (map (bits_of k) idx)) with (p := length pad).
    - rewrite map_map. apply map_ext_in. intros i Hi. rewrite bits_val_bits_of. f_equal.
      apply N.mod_small. rewrite Forall_forall in Hidx. rewrite <- Hlen. apply Hidx, Hi.
    - lia.
    - apply Forall_map, Forall_forall. intros i _. apply bits_of_length.
    - exact Ep.
    - rewrite <- En, Hbits. unfold bits. apply flat_map_concat_map.
    - lia.
  Qed.

  Lemma basen_decode_iff s bs : basen_decode k a s = Some bs <-> s = basen_encode k a bs.
  Proof.
    split; [intros E; symmetry; apply basen_canonical, E | intros ->; apply basen_roundtrip].
  Qed.

  Lemma basen_encode_in bs c : In c (basen_encode k a bs) -> In c a.
  Proof.
    destruct Ha as [_ Hlen]. unfold basen_encode. intros Hin. apply in_map_iff in Hin as (g & <- & Hg).
    pose proof (groups_length k (length (to_bits bs)) (to_bits bs)) as Hl. rewrite Forall_forall in Hl.
    apply letter_in. rewrite Hlen, <- (Hl g Hg). apply bits_val_bound.
  Qed.

  Lemma basen_encode_inj x y : basen_encode k a x = basen_encode k a y -> x = y.
  Proof. intros E. pose proof (basen_roundtrip x) as H1. rewrite E, basen_roundtrip in H1. congruence. Qed.
End Codec.

Fixpoint nodupb (a : bytes) : bool :=
  match a with [] => true | x :: a' => negb (existsb (Byte.eqb x) a') && nodupb a' end.
Lemma nodupb_ok a : nodupb a = true -> NoDup a.
Proof.
  induction a as [|x a IH]; simpl; [constructor|]. rewrite andb_true_iff, negb_true_iff. intros [H1 H2].
  constructor; auto. intros Hin. assert (existsb (Byte.eqb x) a = true); [|congruence].
  apply existsb_exists. exists x. split; [exact Hin | apply byte_eqb_refl].
Qed.

Lemma good_base64url : good_alphabet 6 base64url_alphabet.
Proof. split; [apply nodupb_ok; vm_compute; reflexivity | vm_compute; reflexivity]. Qed.
Lemma good_base64std : good_alphabet 6 base64std_alphabet.
Proof. split; [apply nodupb_ok; vm_compute; reflexivity | vm_compute; reflexivity]. Qed.
Lemma good_base32 : good_alphabet 5 base32_alphabet.
Proof. split; [apply nodupb_ok; vm_compute; reflexivity | vm_compute; reflexivity]. Qed.

Lemma b64_decode_iff s bs : b64_decode s = Some bs <-> s = b64_encode bs.
Proof. apply basen_decode_iff; [lia | exact good_base64url]. Qed.
Lemma b64_roundtrip bs : b64_decode (b64_encode bs) = Some bs.
Proof. apply b64_decode_iff. reflexivity. Qed.
Lemma b64_encode_inj x y : b64_encode x = b64_encode y -> x = y.
Proof. apply basen_encode_inj; [lia | exact good_base64url]. Qed.
Lemma b64_encode_in bs c : In c (b64_encode bs) -> In c base64url_alphabet.
Proof. apply basen_encode_in. exact good_base64url. Qed.
Lemma b64_encode_no_dot bs : ~ In x2e (b64_encode bs).
Proof.
  intros Hin. apply b64_encode_in in Hin.
  assert (existsb (Byte.eqb x2e) base64url_alphabet = true) as E; [|vm_compute in E; discriminate].
  apply existsb_exists. exists x2e. split; [exact Hin | reflexivity].
Qed.
Lemma b64std_decode_iff s bs : b64std_decode s = Some bs <-> s = b64std_encode bs.
Proof. apply basen_decode_iff; [lia | exact good_base64std]. Qed.
Lemma b32_decode_iff s bs : b32_decode s = Some bs <-> s = b32_encode bs.
Proof. apply basen_decode_iff; [lia | exact good_base32]. Qed.
Lemma b32_encode_in bs c : In c (b32_encode bs) -> In c base32_alphabet.
Proof. apply basen_encode_in. exact good_base32. Qed.

(** Length of the encoding: one letter per [k] bits, rounded up. *)
Lemma groups_count k fuel l : (0 < k)%nat -> (length l <= fuel)%nat ->
  (length l <= k * length (groups fuel k l) < length l + k)%nat.
Proof.
  intros Hk Hf. destruct (groups_concat k fuel l Hk Hf) as (p & Hp & E).
  apply (f_equal (@length bool)) in E.
  rewrite (concat_length_k k _ (groups_length k fuel l)), app_length, repeat_length in E. lia.
Qed.

Lemma b64_encode_length bs : (8 * length bs <= 6 * length (b64_encode bs) < 8 * length bs + 6)%nat.
Proof.
  unfold b64_encode, basen_encode. rewrite map_length, <- to_bits_length. apply groups_count; lia.
Qed.
