(** Proofs about the bases of multibase (C162-C163). *)
From Verif Require Import Prelude Ord OrdFacts BaseN BaseNFacts Base58 Base58Facts Value Cid CidFacts Ext Multibase Ucan Chain Spec SpecWire WireFacts SpecIpld SpecKeys KeysFacts SpecJson SpecCbor SpecBlake3 SpecStandard SpecMultibase.

Definition b2n (b : bool) : N := if b then 1%N else 0%N.

Lemma place_value_bits l : place_value 2 (map b2n l) = bits_val l.
Proof.
  induction l as [|b l IH]; [reflexivity|]. rewrite bits_val_cons. cbn [map place_value]. rewrite map_length, IH. reflexivity.
Qed.

Lemma binary_bools l : Forall (fun d => d < 2)%N l -> exists bl, l = map b2n bl.
Proof.
  induction 1 as [|d l Hd _ [bl ->]]; [exists []; reflexivity|].
  exists ((d =? 1)%N :: bl). cbn [map]. f_equal. unfold b2n. destruct (N.eqb_spec d 1); lia.
Qed.

Lemma binary_iff k n l : binary k n l <-> (n < 2 ^ N.of_nat k)%N /\ l = map b2n (bits_of k n).
Proof.
  split.
  - intros (Hl & Hf & <-). destruct (binary_bools _ Hf) as [bl ->]. rewrite map_length in Hl. rewrite place_value_bits. subst k.
    split; [apply bits_val_bound|]. rewrite bits_of_bits_val by reflexivity. reflexivity.
  - intros [Hn ->]. split; [rewrite map_length; apply bits_of_length|]. split.
    + apply Forall_map, Forall_forall. intros [|] _; reflexivity.
    + rewrite place_value_bits, bits_val_bits_of. apply N.mod_small, Hn.
Qed.

Lemma b2n_map_inj l l' : map b2n l = map b2n l' -> l = l'.
Proof.
  revert l'. induction l as [|x l IH]; intros [|y l'] E; try discriminate; [reflexivity|].
  injection E as E1 E2. f_equal; [|auto]. destruct x, y; try discriminate; reflexivity.
Qed.

Lemma digit_iff a n c : digit a n c <-> (n < N.of_nat (length a))%N /\ letter a n = c.
Proof.
  unfold digit, letter. split.
  - intros H. split; [|apply nth_error_nth, H]. assert (nth_error a (N.to_nat n) <> None) as Hn by congruence.
    apply nth_error_Some in Hn. lia.
  - intros [Hn <-]. apply nth_error_nth'. lia.
Qed.

Lemma digits_iff a l t : Forall2 (digit a) l t <-> Forall (fun n => (n < N.of_nat (length a))%N) l /\ t = map (letter a) l.
Proof.
  split.
  - induction 1 as [|n c l t H _ [IH1 ->]]; [split; [constructor | reflexivity]|]. apply digit_iff in H as [Hn <-]. auto.
  - intros [H ->]. induction H; cbn [map]; constructor; auto. apply digit_iff. auto.
Qed.

Lemma octets_iff bs o : Forall2 (fun b l => binary 8 (bN b) l) bs o <-> o = map (fun b => map b2n (bits_of 8 (bN b))) bs.
Proof.
  split.
  - induction 1 as [|b l bs o H _ ->]; [reflexivity|]. apply binary_iff in H as [_ ->]. reflexivity.
  - intros ->. induction bs; cbn [map]; constructor; auto. apply binary_iff. split; [apply bN_bound | reflexivity].
Qed.

Lemma values_iff k vs ls : Forall2 (binary k) vs ls <-> Forall (fun n => n < 2 ^ N.of_nat k)%N vs /\ ls = map (fun n => map b2n (bits_of k n)) vs.
Proof.
  split.
  - induction 1 as [|n l vs ls H _ [IH ->]]; [split; [constructor | reflexivity]|]. apply binary_iff in H as [Hn ->]. auto.
  - intros [H ->]. induction H; cbn [map]; constructor; auto. apply binary_iff. auto.
Qed.

Lemma zeros_iff z : Forall (eq 0%N) z <-> z = map b2n (repeat false (length z)).
Proof.
  split.
  - induction 1 as [|x z <- _ IH]; [reflexivity|]. cbn [length repeat map]. rewrite <- IH. reflexivity.
  - intros ->. apply Forall_map. generalize (length z). intros n. induction n; constructor; auto.
Qed.

Lemma concat_map_b2n {T} (f : T -> list bool) l : concat (map (fun x => map b2n (f x)) l) = map b2n (concat (map f l)).
Proof. induction l as [|x l IH]; [reflexivity|]. cbn [map concat]. rewrite map_app, IH. reflexivity. Qed.

Lemma bits_text_iff k a bs t : (0 < k <= 8)%nat -> good_alphabet k a -> (bits_text k a bs t <-> t = basen_encode k a bs).
Proof.
  intros Hk [Hd Ha]. split.
  - intros (o & z & vs & ls & Ho & Hz & Hz0 & Hv & Ht & E). apply octets_iff in Ho as ->. apply values_iff in Hv as [Hv ->].
    apply digits_iff in Ht as [_ ->]. apply zeros_iff in Hz0. rewrite Hz0 in E. rewrite !concat_map_b2n, <- map_app in E.
    apply b2n_map_inj in E. unfold basen_encode. rewrite (groups_unique k (map (bits_of k) vs)) with (p := length z).
    + rewrite map_map. apply map_ext_in. intros i Hi. rewrite bits_val_bits_of. f_equal. symmetry. apply N.mod_small.
      rewrite Forall_forall in Hv. apply Hv, Hi.
    + lia.
    + apply Forall_map, Forall_forall. intros i _. apply bits_of_length.
    + exact Hz.
    + unfold to_bits. rewrite flat_map_concat_map. exact E.
    + lia.
  - intros ->. unfold basen_encode. set (bits := to_bits bs). set (gs := groups (length bits) k bits).
    assert (Forall (fun g => length g = k) gs) as Hgs by apply groups_length.
    destruct (groups_concat k (length bits) bits) as (p & Hp & E); [lia | lia|]. fold gs in E.
    assert (Forall (fun n => n < 2 ^ N.of_nat k)%N (map bits_val gs)) as Hv.
    { apply Forall_map. eapply Forall_impl; [|exact Hgs]. cbv beta. intros g <-. apply bits_val_bound. }
    exists (map (fun b => map b2n (bits_of 8 (bN b))) bs), (map b2n (repeat false p)), (map bits_val gs),
      (map (fun n => map b2n (bits_of k n)) (map bits_val gs)).
    split; [apply octets_iff; reflexivity|]. split; [rewrite map_length, repeat_length; exact Hp|].
    split; [apply zeros_iff; rewrite map_length, repeat_length; reflexivity|].
    split; [apply values_iff; split; [exact Hv | reflexivity]|].
    split; [apply digits_iff; split; [rewrite Ha; exact Hv | rewrite map_map; reflexivity]|].
    rewrite !concat_map_b2n, <- map_app, map_bits_of_val by exact Hgs. rewrite E, <- flat_map_concat_map. reflexivity.
Qed.

Lemma bits_decode_iff k a bs t : (0 < k <= 8)%nat -> good_alphabet k a -> (basen_decode k a t = Some bs <-> bits_text k a bs t).
Proof. intros Hk Ha. rewrite bits_text_iff, basen_decode_iff by assumption. reflexivity. Qed.

Lemma related_length {T U} (R : T -> U -> Prop) l l' : Forall2 R l l' -> length l = length l'.
Proof. induction 1; cbn [length]; congruence. Qed.

Lemma concat_const {T} n (ls : list (list T)) : Forall (fun l => length l = n) ls -> length (concat ls) = (n * length ls)%nat.
Proof. induction 1 as [|l ls Hl _ IH]; [cbn; lia|]. cbn [concat length]. rewrite app_length. lia. Qed.

Lemma bits_text_length k a bs t : bits_text k a bs t -> exists z, (z < k)%nat /\ (8 * length bs + z = k * length t)%nat.
Proof.
  intros (o & z & vs & ls & Ho & Hz & _ & Hv & Ht & E). exists (length z). split; [exact Hz|].
  apply (f_equal (@length N)) in E. rewrite app_length in E.
  assert (length (concat o) = 8 * length bs)%nat as E1.
  { rewrite (related_length _ _ _ Ho). apply concat_const. clear -Ho. induction Ho as [|b l bs o [H _] _ IH]; constructor; auto. }
  assert (length (concat ls) = k * length t)%nat as E2.
  { rewrite <- (related_length _ _ _ Ht), (related_length _ _ _ Hv). apply concat_const. clear -Hv. induction Hv as [|b l bs o [H _] _ IH]; constructor; auto. }
  lia.
Qed.

(* ------------------------------------------------------------------ padding *)

Lemma unpadded_spec s : exists n, s = unpadded s ++ repeat x3d n.
Proof.
  induction s as [|c s [n IH]]; [exists 0%nat; reflexivity|]. cbn [unpadded]. destruct (unpadded s) as [|x u] eqn:E.
  - destruct (Byte.eqb c x3d) eqn:Ec.
    + apply byte_eqb_eq in Ec as ->. exists (S n). cbn [app repeat]. f_equal. exact IH.
    + exists n. cbn [app]. f_equal. exact IH.
  - exists n. cbn [app]. f_equal. exact IH.
Qed.

Lemma unpadded_padding n : unpadded (repeat x3d n) = [].
Proof. induction n as [|n IH]; [reflexivity|]. cbn [repeat unpadded]. rewrite IH. reflexivity. Qed.

Lemma unpadded_app t n : ~ In x3d t -> unpadded (t ++ repeat x3d n) = t.
Proof.
  induction t as [|c t IH]; intros H; [apply unpadded_padding|]. cbn [app unpadded]. rewrite IH by (intros Hi; apply H; right; exact Hi).
  destruct t; [|reflexivity]. destruct (Byte.eqb c x3d) eqn:E; [|reflexivity]. apply byte_eqb_eq in E as ->. destruct H. left. reflexivity.
Qed.

Lemma padding_iff l : Forall (eq x3d) l <-> l = repeat x3d (length l).
Proof.
  split.
  - induction 1 as [|x l <- _ IH]; [reflexivity|]. cbn [length repeat]. rewrite <- IH. reflexivity.
  - intros ->. generalize (length l). intros n. induction n; constructor; auto.
Qed.

Section Padded.
  Context (k m w : nat) (a : alphabet).
  Hypothesis Hk : (0 < k <= 8)%nat.
  Hypothesis Ha : good_alphabet k a.
  Hypothesis Hw : (w * k = 8 * m)%nat.
  Hypothesis Hp : ~ In x3d a.

  Lemma padded_decode_sound fuel : forall s bs, padded_decode fuel k w a s = Some bs -> padded_text k m w a bs s.
  Proof.
    induction fuel as [|f IH]; intros s bs.
    - destruct s; [intros [= <-]; constructor | discriminate].
    - destruct s as [|c s']; [intros [= <-]; constructor|]. set (s := c :: s'). unfold s at 1. cbn [padded_decode]. fold s.
      destruct (length s <? w)%nat eqn:El; [discriminate|]. apply Nat.ltb_ge in El.
      destruct (unpadded (firstn w s)) as [|x u] eqn:Eu; [discriminate|].
      destruct (basen_decode k a (x :: u)) as [b|] eqn:Eb; [|discriminate].
      destruct (padded_decode f k w a (skipn w s)) as [r|] eqn:Er; [|discriminate]. intros [= <-].
      destruct (unpadded_spec (firstn w s)) as [n En]. rewrite Eu in En.
      rewrite <- (firstn_skipn w s), En, <- app_assoc. apply bits_decode_iff in Eb; [|assumption..].
      destruct (bits_text_length _ _ _ _ Eb) as (z & Hz & Ez).
      assert (length (x :: u) + length (repeat x3d n) = w)%nat as Ew.
      { rewrite <- app_length, <- En. apply firstn_length_le, El. }
      apply PD_block; [| exact Eb | apply padding_iff; rewrite repeat_length; reflexivity | exact Ew | apply IH, Er].
      cbn [length] in Ez, Ew. nia.
  Qed.

  Lemma padded_decode_complete bs s : padded_text k m w a bs s -> forall fuel, (length s <= fuel)%nat -> padded_decode fuel k w a s = Some bs.
  Proof.
    induction 1 as [|bs t p rest text Hb Ht Hpad Hlen _ IH]; intros fuel Hf; [destruct fuel; reflexivity|].
    destruct (bits_text_length _ _ _ _ Ht) as (z & Hz & Ez).
    assert (t <> []) as Hne by (intros ->; cbn [length] in Ez; lia).
    apply padding_iff in Hpad. rewrite !app_length in Hf.
    assert (firstn w (t ++ p ++ text) = t ++ p) as E1.
    { rewrite app_assoc, <- Hlen, <- app_length, firstn_app, firstn_all, Nat.sub_diag. cbn [firstn]. apply app_nil_r. }
    assert (skipn w (t ++ p ++ text) = text) as E2.
    { rewrite app_assoc, <- Hlen, <- app_length, skipn_app, skipn_all, Nat.sub_diag. reflexivity. }
    assert (unpadded (t ++ p) = t) as E3.
    { rewrite Hpad. apply unpadded_app. intros Hi. apply bits_text_iff in Ht; [|assumption..]. subst t. apply Hp. eapply basen_encode_in; [exact Ha | exact Hi]. }
    assert (w <= length (t ++ p ++ text))%nat as E4 by (rewrite !app_length; lia).
    set (s := t ++ p ++ text) in *. assert (s <> []) as Hs by (unfold s; destruct t; [contradiction | discriminate]).
    assert (length t <> 0)%nat as Ht0 by (destruct t; [contradiction | discriminate]).
    destruct fuel as [|f]; [lia|]. clearbody s. destruct s as [|c s']; [contradiction|]. cbn [padded_decode].
    rewrite (proj2 (Nat.ltb_ge _ _) E4), E1, E2, E3. destruct t as [|x u]; [contradiction|].
    apply bits_decode_iff in Ht; [|assumption..]. rewrite Ht, IH by lia. reflexivity.
  Qed.

  Lemma padded_decode_iff bs s : padded_decode (length s) k w a s = Some bs <-> padded_text k m w a bs s.
  Proof. split; [apply padded_decode_sound | intros H; apply padded_decode_complete; [exact H | lia]]. Qed.

  Lemma bits_text_exists bs : exists t, bits_text k a bs t.
  Proof. exists (basen_encode k a bs). apply bits_text_iff; auto. Qed.

  Lemma padded_exists : (0 < m)%nat -> forall n bs, (length bs <= n)%nat -> exists t, padded_text k m w a bs t.
  Proof.
    intros Hm. induction n as [|n IH]; intros bs Hl; [destruct bs; [exists []; constructor | cbn in Hl; lia]|].
    destruct bs as [|b bs']; [exists []; constructor|]. set (bs := b :: bs') in *.
    assert (length bs = S (length bs'))%nat as Hc by reflexivity.
    destruct (IH (skipn m bs)) as [t Ht]; [rewrite skipn_length; lia|].
    destruct (bits_text_exists (firstn m bs)) as [u Hu]. destruct (bits_text_length _ _ _ _ Hu) as (z & Hz & Ez).
    pose proof (firstn_length m bs) as Hfl.
    exists (u ++ repeat x3d (w - length u) ++ t). rewrite <- (firstn_skipn m bs) at 1.
    apply PD_block; [lia | exact Hu | apply padding_iff; rewrite repeat_length; reflexivity | | exact Ht].
    rewrite repeat_length. nia.
  Qed.
End Padded.

(* ------------------------------------------------------------------ other bases *)

Section Positional.
  Context (b : N) (a : alphabet).
  Hypothesis Hb : (2 <= b)%N.
  Hypothesis Hd : NoDup a.
  Hypothesis Hl : N.of_nat (length a) = b.

  Lemma basex_roundtrip bs : basex_decode b a (basex_encode b a bs) = Some bs.
  Proof.
    unfold basex_encode, basex_decode. destruct (span _ (map bN bs)) as [z r] eqn:E.
    pose proof (canonical_tail 256 _ _ _ (map_bN_lt bs) E) as Hc. apply span_zeros in E as [E _].
    pose proof (to_digits_canonical b Hb (of_digits 256 r)) as Hcb.
    rewrite letter_indices_map; [|exact Hd|].
    2:{ rewrite Hl. apply Forall_app. split; [apply Forall_repeat_lt; lia|]. apply Hcb. }
    rewrite span_zeros_app by (destruct Hcb as [_ Hx]; exact Hx).
    rewrite to_digits_value by exact Hb. rewrite to_of_digits by (try lia; exact Hc).
    rewrite <- E. f_equal. apply map_byteN_bN.
  Qed.

  Lemma basex_canonical s bs : basex_decode b a s = Some bs -> basex_encode b a bs = s.
  Proof.
    unfold basex_decode. destruct (letter_indices a s) as [idx|] eqn:Ei; [|discriminate].
    apply letter_indices_some in Ei as [-> Hidx]. rewrite Hl in Hidx.
    destruct (span _ idx) as [z r] eqn:E. intros Hbs.
    apply (f_equal (fun o => match o with Some x => x | None => [] end)) in Hbs. cbv beta iota in Hbs. subst bs.
    pose proof (canonical_tail b _ _ _ Hidx E) as Hc. apply span_zeros in E as [E _].
    pose proof (to_digits_canonical 256 ltac:(lia) (of_digits b r)) as Hc256.
    unfold basex_encode. rewrite map_bN_byteN.
    2:{ apply Forall_app. split; [apply Forall_repeat_lt; reflexivity|]. apply Hc256. }
    rewrite span_zeros_app by (destruct Hc256 as [_ Hx]; exact Hx).
    rewrite to_digits_value by lia. rewrite to_of_digits by (try exact Hb; exact Hc). rewrite <- E. reflexivity.
  Qed.

  Lemma repeat_map {T U} (f : T -> U) x n : map f (repeat x n) = repeat (f x) n.
  Proof. induction n as [|n IH]; [reflexivity|]. cbn [repeat map]. rewrite IH. reflexivity. Qed.

  Lemma number_text_iff bs t : number_text b a bs t <-> t = basex_encode b a bs.
  Proof.
    split.
    - intros (z & rest & ds & -> & Hn & Ht & Hz & Hv). apply digits_iff in Ht as [Hf ->]. apply Forall_app in Hf as [_ Hf]. rewrite Hl in Hf.
      unfold basex_encode. rewrite (map_app bN), repeat_map. change (bN x00) with 0%N. rewrite span_zeros_app by exact Hn. f_equal. f_equal.
      rewrite <- place_value_digits, <- Hv, place_value_digits, to_of_digits; [reflexivity | exact Hb | split; assumption].
    - intros ->. unfold basex_encode. destruct (span _ (map bN bs)) as [z r] eqn:E. pose proof (span_zeros _ _ _ E) as [Hs Hr].
      assert (map bN (map byteN r) = r) as Hbr.
      { apply map_bN_byteN. pose proof (map_bN_lt bs) as Hf. rewrite Hs in Hf. apply Forall_app in Hf as [_ Hf]. exact Hf. }
      destruct (to_digits_canonical b Hb (of_digits 256 r)) as [Hf Hh].
      exists z, (map byteN r), (to_digits b (of_digits 256 r)). rewrite Hbr. split.
      + rewrite <- (map_byteN_bN bs), Hs, map_app, repeat_map. reflexivity.
      + split; [exact Hr|]. split; [apply digits_iff; split; [|reflexivity]|].
        * rewrite Hl. apply Forall_app. split; [apply Forall_repeat_lt; lia | exact Hf].
        * split; [exact Hh|]. rewrite !place_value_digits. apply to_digits_value, Hb.
  Qed.

  Lemma basex_decode_iff bs t : basex_decode b a t = Some bs <-> number_text b a bs t.
  Proof. rewrite number_text_iff. split; [intros E; symmetry; apply basex_canonical, E | intros ->; apply basex_roundtrip]. Qed.
End Positional.

(* ------------------------------------------------------------------ case *)

Definition letter_pair (c : byte) (up : bool) : byte := if up then to_upper c else to_lower c.

Lemma to_lower_bN c : bN (to_lower c) = if ((65 <=? bN c) && (bN c <=? 90))%N then (bN c + 32)%N else bN c.
Proof.
  unfold to_lower. destruct ((65 <=? bN c) && (bN c <=? 90))%N eqn:E; [|reflexivity]. apply andb_true_iff in E as [E1 E2].
  apply N.leb_le in E1, E2. apply bN_byteN_small. lia.
Qed.
Lemma to_upper_bN c : bN (to_upper c) = if ((97 <=? bN c) && (bN c <=? 122))%N then (bN c - 32)%N else bN c.
Proof.
  unfold to_upper. destruct ((97 <=? bN c) && (bN c <=? 122))%N eqn:E; [|reflexivity]. apply andb_true_iff in E as [E1 E2].
  apply N.leb_le in E1, E2. apply bN_byteN_small. lia.
Qed.

Lemma bN_inj c d : bN c = bN d -> c = d.
Proof. intros E. rewrite <- (byteN_bN c), <- (byteN_bN d), E. reflexivity. Qed.

Lemma same_to_lower c d : to_lower c = c -> (same_letter c d <-> to_lower d = c).
Proof.
  intros Hc. apply (f_equal bN) in Hc. rewrite to_lower_bN in Hc. split.
  - intros [<- | (i & Hi & H)]; apply bN_inj; rewrite to_lower_bN.
    + exact Hc.
    + destruct (N.leb_spec 65 (bN c)), (N.leb_spec (bN c) 90), (N.leb_spec 65 (bN d)), (N.leb_spec (bN d) 90); cbn [andb] in *; lia.
  - intros E. apply (f_equal bN) in E. rewrite to_lower_bN in E.
    destruct (N.leb_spec 65 (bN d)) as [H1|H1]; [|left; apply bN_inj; symmetry; exact E].
    destruct (N.leb_spec (bN d) 90) as [H2|H2]; [|left; apply bN_inj; symmetry; exact E].
    cbn [andb] in E. right. exists (bN d - 65)%N. split; [lia|]. right. lia.
Qed.

Lemma same_to_upper c d : to_upper c = c -> (same_letter c d <-> to_upper d = c).
Proof.
  intros Hc. apply (f_equal bN) in Hc. rewrite to_upper_bN in Hc. split.
  - intros [<- | (i & Hi & H)]; apply bN_inj; rewrite to_upper_bN.
    + exact Hc.
    + destruct (N.leb_spec 97 (bN c)), (N.leb_spec (bN c) 122), (N.leb_spec 97 (bN d)), (N.leb_spec (bN d) 122); cbn [andb] in *; lia.
  - intros E. apply (f_equal bN) in E. rewrite to_upper_bN in E.
    destruct (N.leb_spec 97 (bN d)) as [H1|H1]; [|left; apply bN_inj; symmetry; exact E].
    destruct (N.leb_spec (bN d) 122) as [H2|H2]; [|left; apply bN_inj; symmetry; exact E].
    cbn [andb] in E. right. exists (bN d - 97)%N. split; [lia|]. left. lia.
Qed.

Lemma same_text_fold (f : byte -> byte) t t' : (forall c d, f c = c -> (same_letter c d <-> f d = c)) ->
  Forall (fun c => f c = c) t -> (Forall2 same_letter t t' <-> map f t' = t).
Proof.
  intros Hf Ht. split.
  - intros H. induction H as [|c d t t' H _ IH]; [reflexivity|]. inversion Ht as [|? ? H1 H2]; subst. cbn [map]. f_equal; [apply Hf; assumption | auto].
  - revert t Ht. induction t' as [|d t' IH]; intros t Ht <-; cbn [map] in *; constructor.
    + inversion Ht; subst. apply Hf; [assumption | reflexivity].
    + inversion Ht; subst. apply IH; [assumption | reflexivity].
Qed.

Lemma number_text_letters b a (f : byte -> byte) bs t : forallb (fun c => Byte.eqb (f c) c) a = true -> number_text b a bs t -> Forall (fun c => f c = c) t.
Proof.
  intros Ha (z & rest & ds & _ & _ & Ht & _). apply Forall_forall. intros c Hc. rewrite forallb_forall in Ha. apply byte_eqb_eq, Ha.
  clear - Ht Hc. induction Ht as [|n x l t H _ IH]; [destruct Hc|]. destruct Hc as [<- | Hc]; [|exact (IH Hc)]. eapply nth_error_In, H.
Qed.

Ltac good := split; [apply nodupb_ok; vm_compute; reflexivity | vm_compute; reflexivity].
Ltac nopad := let H := fresh in intros H; vm_compute in H; repeat (destruct H as [H|H]; [discriminate|]); destruct H.
Ltac nodup := apply nodupb_ok; vm_compute; reflexivity.
Ltac bits_base := rewrite bits_decode_iff; [|lia|good].
Ltac pad_base m := rewrite (padded_decode_iff _ m); [|lia|good|reflexivity|nopad].
Ltac number_base := rewrite basex_decode_iff; [|lia|nodup|reflexivity].

Lemma mb_other l t : ~ In l base_letters -> mb_decode l t = None.
Proof. intros H. destruct l; try reflexivity; exfalso; apply H; vm_compute; tauto. Qed.

Lemma base_text_letter l bs t : base_text l bs t -> In l base_letters.
Proof. intros H. destruct H; vm_compute; tauto. Qed.

Lemma mb_decode_sound l t bs : mb_decode l t = Some bs -> base_text l bs t.
Proof.
  intros H. destruct (in_dec Byte.byte_eq_dec l base_letters) as [Hi|Hi]; [|rewrite mb_other in H by exact Hi; discriminate].
  revert H. cbn [base_letters In] in Hi.
  repeat (destruct Hi as [<-|Hi]; [cbn [mb_decode]|]); [..|destruct Hi].
  - intros [= ->]. constructor.
  - bits_base. apply BT_base2.
  - bits_base. apply BT_base8.
  - number_base. apply BT_base10.
  - bits_base. apply BT_base16.
  - bits_base. apply BT_base16upper.
  - bits_base. apply BT_base32.
  - bits_base. apply BT_base32upper.
  - pad_base 5%nat. apply BT_base32pad.
  - pad_base 5%nat. apply BT_base32padupper.
  - bits_base. apply BT_base32hex.
  - bits_base. apply BT_base32hexupper.
  - pad_base 5%nat. apply BT_base32hexpad.
  - pad_base 5%nat. apply BT_base32hexpadupper.
  - bits_base. apply BT_base32z.
  - number_base. intros H. eapply BT_base36; [exact H|]. apply (same_text_fold to_lower); [exact same_to_lower | | reflexivity].
    eapply number_text_letters; [|exact H]. vm_compute. reflexivity.
  - number_base. intros H. eapply BT_base36upper; [exact H|]. apply (same_text_fold to_upper); [exact same_to_upper | | reflexivity].
    eapply number_text_letters; [|exact H]. vm_compute. reflexivity.
  - number_base. apply BT_base58btc.
  - number_base. apply BT_base58flickr.
  - bits_base. apply BT_base64.
  - pad_base 3%nat. apply BT_base64pad.
  - bits_base. apply BT_base64url.
  - pad_base 3%nat. apply BT_base64urlpad.
Qed.

Lemma mb_decode_complete l t bs : base_text l bs t -> mb_decode l t = Some bs.
Proof.
  intros H. destruct H; cbn [mb_decode]; [reflexivity | ..];
    try (bits_base; exact H); try (pad_base 5%nat; exact H); try (pad_base 3%nat; exact H); try (number_base; exact H).
  - assert (map to_lower t' = t) as ->; [|number_base; exact H]. apply (same_text_fold to_lower); [exact same_to_lower | | assumption].
    eapply number_text_letters; [|exact H]. vm_compute. reflexivity.
  - assert (map to_upper t' = t) as ->; [|number_base; exact H]. apply (same_text_fold to_upper); [exact same_to_upper | | assumption].
    eapply number_text_letters; [|exact H]. vm_compute. reflexivity.
Qed.

Lemma mb_decode_iff l t bs : mb_decode l t = Some bs <-> base_text l bs t.
Proof. split; [apply mb_decode_sound | apply mb_decode_complete]. Qed.

Lemma base_text_fun l bs bs' t : base_text l bs t -> base_text l bs' t -> bs = bs'.
Proof. intros H H'. apply mb_decode_iff in H, H'. congruence. Qed.

Lemma with_multibase_ok X : multibased (with_multibase X).
Proof. intros l t bs. apply mb_decode_iff. Qed.

(* ------------------------------------------------------------------ each base writes all bytes *)

Lemma bits_ex k a bs : (0 < k <= 8)%nat -> good_alphabet k a -> exists t, bits_text k a bs t.
Proof. intros Hk Ha. exists (basen_encode k a bs). apply bits_text_iff; auto. Qed.
Lemma number_ex b a bs : (2 <= b)%N -> NoDup a -> N.of_nat (length a) = b -> exists t, number_text b a bs t.
Proof. intros Hb Hd Hl. exists (basex_encode b a bs). apply number_text_iff; auto. Qed.

Lemma same_refl t : Forall2 same_letter t t.
Proof. induction t; constructor; auto. left. reflexivity. Qed.

Ltac ex_bits k a bs := let t := fresh in destruct (bits_ex k a bs) as [t ?]; [lia | good | exists t; constructor; assumption].
Ltac ex_pad k m w a bs := let t := fresh in destruct (padded_exists k m w a) with (n := length bs) (bs := bs) as [t ?]; [lia | good | reflexivity | lia | lia | exists t; constructor; assumption].
Ltac ex_num b a bs := let t := fresh in destruct (number_ex b a bs) as [t ?]; [lia | nodup | reflexivity | exists t; constructor; assumption].

Lemma base_text_exists l bs : In l base_letters -> exists t, base_text l bs t.
Proof.
  intros Hi. cbn [base_letters In] in Hi. repeat (destruct Hi as [<-|Hi]); [..|destruct Hi].
  - exists bs. constructor.
  - ex_bits 1%nat (B "01") bs.
  - ex_bits 3%nat (B "01234567") bs.
  - ex_num 10%N (B "0123456789") bs.
  - ex_bits 4%nat (B "0123456789abcdef") bs.
  - ex_bits 4%nat (B "0123456789ABCDEF") bs.
  - ex_bits 5%nat base32_alphabet bs.
  - ex_bits 5%nat base32_upper bs.
  - ex_pad 5%nat 5%nat 8%nat base32_alphabet bs.
  - ex_pad 5%nat 5%nat 8%nat base32_upper bs.
  - ex_bits 5%nat base32hex_lower bs.
  - ex_bits 5%nat base32hex_upper bs.
  - ex_pad 5%nat 5%nat 8%nat base32hex_lower bs.
  - ex_pad 5%nat 5%nat 8%nat base32hex_upper bs.
  - ex_bits 5%nat base32z_alphabet bs.
  - destruct (number_ex 36 base36_lower bs) as [t Ht]; [lia | nodup | reflexivity|]. exists t. eapply BT_base36; [exact Ht | apply same_refl].
  - destruct (number_ex 36 base36_upper bs) as [t Ht]; [lia | nodup | reflexivity|]. exists t. eapply BT_base36upper; [exact Ht | apply same_refl].
  - ex_num 58%N base58_alphabet bs.
  - ex_num 58%N base58flickr_alphabet bs.
  - ex_bits 6%nat base64std_alphabet bs.
  - ex_pad 6%nat 3%nat 4%nat base64std_alphabet bs.
  - ex_bits 6%nat base64url_alphabet bs.
  - ex_pad 6%nat 3%nat 4%nat base64url_alphabet bs.
Qed.

Lemma bits_one k a bs t t' : (0 < k <= 8)%nat -> good_alphabet k a -> bits_text k a bs t -> bits_text k a bs t' -> t = t'.
Proof. intros Hk Ha H H'. apply bits_text_iff in H, H'; try assumption. congruence. Qed.
Lemma number_one b a bs t t' : (2 <= b)%N -> NoDup a -> N.of_nat (length a) = b -> number_text b a bs t -> number_text b a bs t' -> t = t'.
Proof. intros Hb Hd Hl H H'. apply number_text_iff in H, H'; try assumption. congruence. Qed.

Lemma strict_one l bs t t' : strict_letter l -> base_text l bs t -> base_text l bs t' -> t = t'.
Proof.
  intros Hs H H'. destruct H; inversion H'; subst; try reflexivity;
    try (eapply bits_one; [| |eassumption|eassumption]; [lia | good]);
    try (eapply number_one; [| | |eassumption|eassumption]; [lia | nodup | reflexivity]);
    exfalso; unfold strict_letter in Hs; cbn [In] in Hs; repeat (destruct Hs as [Hs|Hs]; [discriminate|]); exact Hs.
Qed.

(* ------------------------------------------------------------------ CIDs *)

Lemma bits_in k a bs t c : bits_text k a bs t -> In c t -> In c a.
Proof.
  intros (o & z & vs & ls & _ & _ & _ & _ & Ht & _) Hc. induction Ht as [|n x l t H _ IH]; [destruct Hc|].
  destruct Hc as [<- | Hc]; [eapply nth_error_In, H | exact (IH Hc)].
Qed.
Lemma number_in b a bs t c : number_text b a bs t -> In c t -> In c a.
Proof.
  intros (z & rest & ds & _ & _ & Ht & _) Hc. induction Ht as [|n x l t H _ IH]; [destruct Hc|].
  destruct Hc as [<- | Hc]; [eapply nth_error_In, H | exact (IH Hc)].
Qed.
Lemma padded_in k m w a bs t c : padded_text k m w a bs t -> In c t -> c = x3d \/ In c a.
Proof.
  induction 1 as [|bs t p rest text _ Ht Hp _ _ IH]; [intros []|]. intros Hc. apply in_app_iff in Hc as [Hc|Hc].
  - right. eapply bits_in; eassumption.
  - apply in_app_iff in Hc as [Hc|Hc]; [|auto]. left. rewrite Forall_forall in Hp. symmetry. apply Hp, Hc.
Qed.
Lemma same_slash t t' : Forall2 same_letter t t' -> In x2f t' -> In x2f t.
Proof.
  induction 1 as [|c d t t' H _ IH]; [intros []|]. intros [-> | Hi]; [left | right; auto].
  destruct H as [-> | (i & Hi & [[_ H] | [_ H]])]; [reflexivity | exfalso; change (bN x2f) with 47%N in H; lia..].
Qed.

Ltac noslash H := vm_compute in H; repeat (destruct H as [H|H]; [discriminate|]); destruct H.

Lemma base_noslash l bs t : slashless l -> base_text l bs t -> ~ In x2f t.
Proof.
  intros (_ & H0 & Hm & HM) H Hi. destruct H; try contradiction;
    try (apply (bits_in _ _ _ _ _ H) in Hi; noslash Hi);
    try (apply (padded_in _ _ _ _ _ _ _ H) in Hi; destruct Hi as [Hi|Hi]; [discriminate | noslash Hi]);
    try (apply (number_in _ _ _ _ _ H) in Hi; noslash Hi);
    match goal with HS : Forall2 same_letter _ _ |- _ => apply (same_slash _ _ HS) in Hi end; apply (number_in _ _ _ _ _ H) in Hi; noslash Hi.
Qed.

Lemma number58_iff bs t : number_text 58 base58_alphabet bs t <-> base58_text bs t.
Proof. rewrite number_text_iff by (try lia; try nodup; reflexivity). rewrite base58_text_iff. reflexivity. Qed.

Lemma base_text_nil l bs : base_text l bs [] -> bs = [].
Proof. intros H. apply mb_decode_iff in H. destruct l; try discriminate; vm_compute in H; injection H as H; auto. Qed.

Lemma spelled_iff X s bs : multibased X -> bs <> [] -> (multibase_text X s bs <-> spelled s bs).
Proof.
  intros HX Hne. split.
  - intros H. destruct H as [s bs [r ->] H46 Ht | bs | t bs Ht | l r bs H1 H2 H3 H4 H5].
    + apply SP_v0; [rewrite app_length in H46; cbn [B] in H46; change (length (B "Qm")) with 2%nat in H46; lia | apply number58_iff, Ht].
    + apply (SP_base x62). apply BT_base32. apply (bits_text_iff 5 base32_alphabet); [lia | good|]. symmetry. exact (b32_encode_rfc bs).
    + apply (SP_base x7a). apply BT_base58btc. apply number58_iff, Ht.
    + apply SP_base. apply HX, H5.
  - intros H. destruct H as [r bs Hr Ht | l t bs Ht].
    + apply MT_v0; [exists r; reflexivity | rewrite app_length, Hr; reflexivity | apply number58_iff, Ht].
    + destruct (Byte.byte_eq_dec l x62) as [->|H1].
      { inversion Ht as [| | | | | |? ? H| | | | | | | | | | | | | | | |]; subst. apply (bits_text_iff 5 base32_alphabet) in H; [|lia|good]. subst t.
        change (x62 :: basen_encode 5 base32_alphabet bs) with (B "b" ++ b32_encode bs). rewrite b32_encode_rfc. apply MT_base32. }
      destruct (Byte.byte_eq_dec l x7a) as [->|H2].
      { inversion Ht as [| | | | | | | | | | | | | | | | |? ? H| | | | |]; subst. apply (MT_base58 X t bs). apply number58_iff, H. }
      apply MT_other; [exact H1 | exact H2 | | | apply HX, Ht].
      * intros ->. apply Hne, (base_text_nil l), Ht.
      * intros r' E. injection E as -> _. apply base_text_letter in Ht. noslash Ht.
Qed.

Lemma spells_iff X t c : multibased X -> (parse_cid X t = Some c <-> spells t c).
Proof.
  intros HX. rewrite cid_text_iff. unfold cid_text, spells.
  split; intros (s & bs & H1 & H2 & H3); exists s, bs; (split; [exact H1|]); (split; [|exact H3]); apply (spelled_iff X s bs HX (cid_bytes_nonnil _ _ H3)); exact H2.
Qed.

Lemma spells_fun t c c' : spells t c -> spells t c' -> c = c'.
Proof.
  intros H H'. pose proof (with_multibase_ok (mkExt (fun _ => []) (fun _ => None) true true (fun _ _ => None) (fun _ _ => None) (fun _ _ => []) true)) as HX.
  apply (spells_iff _ _ _ HX) in H, H'. congruence.
Qed.

Lemma cid_spelled l bs c : slashless l -> cid_bytes bs c -> exists t, base_text l bs t /\ spells (l :: t) c.
Proof.
  intros Hl Hc. destruct (base_text_exists l bs (proj1 Hl)) as [t Ht]. exists t. split; [exact Ht|].
  exists (l :: t), bs. split; [right; split; [reflexivity|]|split; [apply SP_base, Ht | exact Hc]].
  intros b a E. assert (In x2f (l :: t)) as Hi.
  { rewrite E. apply in_app_iff. right. left. reflexivity. }
  destruct Hi as [-> | Hi]; [|apply (base_noslash l bs t Hl Ht Hi)]. destruct Hl as [Hl _]. noslash Hl.
Qed.

Lemma same_proof E R t t' c u : multibased (e_ext E) -> spells t c -> spells t' c -> (resolves E R t u <-> resolves E R t' u).
Proof.
  intros HX H H'. apply (spells_iff (e_ext E) _ _ HX) in H, H'. unfold resolves. rewrite H, H'. reflexivity.
Qed.

Lemma v1_spelled c l : cid_v1 c -> slashless l -> exists t, base_text l (cid_to_bytes c) t /\ spells (l :: t) c.
Proof. intros Hc Hl. apply cid_spelled; [exact Hl|]. apply cid_bytes_iff. rewrite <- (app_nil_r (cid_to_bytes c)). apply cid_of_to_bytes, Hc. Qed.

Lemma stands_spelled X blocks text u : multibased X ->
  (stands_for X blocks text u <-> exists d b, spells text (mkCid 1 85 30 d) /\ latest blocks d b /\ utf8_text b /\ token_grammar X b u).
Proof.
  intros HX. unfold stands_for. split; intros (d & b & H & H'); exists d, b; (split; [|exact H']).
  - apply (spells_iff X _ _ HX), cid_text_iff, H.
  - apply cid_text_iff, (spells_iff X _ _ HX), H.
Qed.
