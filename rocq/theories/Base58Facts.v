(** Facts about positional numerals, base58 and decimal (C70). *)
From Verif Require Export BaseNFacts Base58.

Lemma of_digits_acc b l acc :
  fold_left (fun acc d => acc * b + d)%N l acc = (acc * b ^ N.of_nat (length l) + of_digits b l)%N.
Proof.
  unfold of_digits. revert acc. induction l as [|d l IH]; intros acc.
  - simpl. lia.
  - cbn [fold_left length]. rewrite IH, (IH (0 * b + d)%N), Nat2N.inj_succ, N.pow_succ_r'. lia.
Qed.

Lemma of_digits_app b l1 l2 : of_digits b (l1 ++ l2) = (of_digits b l1 * b ^ N.of_nat (length l2) + of_digits b l2)%N.
Proof. unfold of_digits at 1. rewrite fold_left_app, of_digits_acc. reflexivity. Qed.

Lemma of_digits_snoc b l d : of_digits b (l ++ [d]) = (of_digits b l * b + d)%N.
Proof. unfold of_digits. rewrite fold_left_app. reflexivity. Qed.

Lemma of_digits_bound b l : (0 < b)%N -> Forall (fun d => (d < b)%N) l ->
  (of_digits b l < b ^ N.of_nat (length l))%N.
Proof.
  intros Hb. induction l as [|d l IH] using rev_ind; intros F; [reflexivity|].
  apply Forall_app in F as [F1 F2]. inversion F2. subst. specialize (IH F1).
  rewrite of_digits_snoc, app_length, Nat.add_1_r, Nat2N.inj_succ, N.pow_succ_r'. nia.
Qed.

Lemma size_nat_bound n : (n < 2 ^ N.of_nat (N.size_nat n))%N.
Proof.
  destruct n as [|p]; [reflexivity|]. cbn [N.size_nat].
  induction p as [p IH|p IH|]; cbn [Pos.size_nat]; rewrite ?Nat2N.inj_succ, ?N.pow_succ_r'; [| |reflexivity]; lia.
Qed.

Section Digits.
  Context (b : N).
  Hypothesis Hb : (2 <= b)%N.

  Lemma digits_le_value fuel n : (n < 2 ^ N.of_nat fuel)%N -> of_digits b (rev (digits_le fuel b n)) = n.
  Proof.
    revert n. induction fuel as [|f IH]; intros n Hn.
    - simpl in *. unfold of_digits. simpl. lia.
    - cbn [digits_le]. destruct (N.eqb_spec n 0) as [->|Hne]; [reflexivity|].
      cbn [rev]. rewrite of_digits_snoc, IH.
      + rewrite N.mul_comm. symmetry. apply N.div_mod. lia.
      + rewrite Nat2N.inj_succ, N.pow_succ_r' in Hn.
        apply N.div_lt_upper_bound; [lia|]. nia.
  Qed.

  Lemma digits_le_lt fuel n : Forall (fun d => (d < b)%N) (digits_le fuel b n).
  Proof.
    revert n. induction fuel as [|f IH]; intros n; cbn [digits_le]; [constructor|].
    destruct (n =? 0)%N; constructor; auto. apply N.mod_lt. lia.
  Qed.

  Lemma digits_le_last fuel n d l : (n < 2 ^ N.of_nat fuel)%N -> digits_le fuel b n = l ++ [d] -> d <> 0%N.
  Proof.
    revert n l. induction fuel as [|f IH]; intros n l Hn E.
    - simpl in E. destruct l; discriminate.
    - cbn [digits_le] in E. destruct (N.eqb_spec n 0) as [->|Hne]; [destruct l; discriminate|].
      destruct l as [|x l]; simpl in E.
      + injection E as <- E. intros Hz.
        assert (n / b < 2 ^ N.of_nat f)%N as Hq.
        { rewrite Nat2N.inj_succ, N.pow_succ_r' in Hn. apply N.div_lt_upper_bound; [lia | nia]. }
        pose proof (digits_le_value f (n / b) Hq) as Hv. rewrite E in Hv. simpl in Hv. unfold of_digits in Hv. simpl in Hv.
        pose proof (N.div_mod n b ltac:(lia)) as Hd. rewrite <- Hv, Hz in Hd. lia.
      + injection E as _ E. eapply IH; [|exact E].
        rewrite Nat2N.inj_succ, N.pow_succ_r' in Hn. apply N.div_lt_upper_bound; [lia | nia].
  Qed.

  (** Digits below the base without leading zero. *)
  Definition canonical (l : list N) : Prop :=
    Forall (fun d => (d < b)%N) l /\ match l with [] => True | d :: _ => d <> 0%N end.

  Lemma to_digits_value n : of_digits b (to_digits b n) = n.
  Proof. apply digits_le_value, size_nat_bound. Qed.

  Lemma to_digits_canonical n : canonical (to_digits b n).
  Proof.
    unfold to_digits. split; [apply Forall_rev, digits_le_lt|].
    destruct (rev (digits_le (N.size_nat n) b n)) as [|d l] eqn:E; [exact I|].
    apply (f_equal (@rev N)) in E. rewrite rev_involutive in E. simpl in E.
    eapply digits_le_last; [apply size_nat_bound | exact E].
  Qed.

  Lemma canonical_snoc l d : canonical (l ++ [d]) -> canonical l /\ (d < b)%N.
  Proof.
    intros [F Hh]. apply Forall_app in F as [F1 F2]. inversion F2. subst. split; [|assumption].
    split; [exact F1|]. destruct l; [exact I | exact Hh].
  Qed.

  Lemma canonical_inj l l' : canonical l -> canonical l' -> of_digits b l = of_digits b l' -> l = l'.
  Proof.
    revert l'. induction l as [|d l IH] using rev_ind; intros l' H1 H2 E.
    - destruct l' as [|d' l'] using rev_ind; [reflexivity|]. exfalso.
      destruct (canonical_snoc _ _ H2) as [H3 Hd]. rewrite of_digits_snoc in E. unfold of_digits at 1 in E. simpl in E.
      clear IHl'. assert (of_digits b l' = 0 /\ d' = 0)%N as [E0 ->] by nia.
      destruct l' as [|x l']; [destruct H2 as [_ H2]; simpl in H2; contradiction|].
      destruct H3 as [_ Hx]. simpl in Hx. unfold of_digits in E0. cbn [fold_left] in E0.
      rewrite of_digits_acc in E0. assert (b ^ N.of_nat (length l') <> 0)%N by (apply N.pow_nonzero; lia). nia.
    - destruct l' as [|d' l' _] using rev_ind.
      + exfalso. destruct (canonical_snoc _ _ H1) as [H3 Hd]. rewrite of_digits_snoc in E. unfold of_digits at 2 in E. simpl in E.
        assert (of_digits b l = 0 /\ d = 0)%N as [E0 ->] by nia.
        destruct l as [|x l]; [destruct H1 as [_ H1]; simpl in H1; contradiction|].
        destruct H3 as [_ Hx]. simpl in Hx. unfold of_digits in E0. cbn [fold_left] in E0.
        rewrite of_digits_acc in E0. assert (b ^ N.of_nat (length l) <> 0)%N by (apply N.pow_nonzero; lia). nia.
      + destruct (canonical_snoc _ _ H1) as [H3 Hd]. destruct (canonical_snoc _ _ H2) as [H4 Hd'].
        rewrite !of_digits_snoc in E.
        assert (of_digits b l = of_digits b l') as El.
        { apply (f_equal (fun x => x / b)%N) in E. rewrite !N.div_add_l, !N.div_small, !N.add_0_r in E by lia. exact E. }
        rewrite El in E. assert (d = d') as -> by lia. f_equal. auto.
  Qed.

  Lemma to_of_digits l : canonical l -> to_digits b (of_digits b l) = l.
  Proof.
    intros Hc. apply canonical_inj; [apply to_digits_canonical | exact Hc | apply to_digits_value].
  Qed.

  Lemma to_digits_zero n : to_digits b n = [] <-> n = 0%N.
  Proof.
    split; [|intros ->; reflexivity]. intros E. rewrite <- (to_digits_value n), E. reflexivity.
  Qed.
End Digits.

Lemma span_zeros l z r : span (fun d => (d =? 0)%N) l = (z, r) ->
  l = repeat 0%N z ++ r /\ match r with [] => True | d :: _ => d <> 0%N end.
Proof.
  revert z r. induction l as [|d l IH]; intros z r; simpl.
  - intros [= <- <-]. auto.
  - destruct (N.eqb_spec d 0) as [->|Hd].
    + destruct (span _ l) as [n r'] eqn:E. intros [= <- <-]. destruct (IH _ _ eq_refl) as [-> Hr]. auto.
    + intros [= <- <-]. auto.
Qed.

Lemma span_zeros_app z r : match r with [] => True | d :: _ => d <> 0%N end ->
  span (fun d => (d =? 0)%N) (repeat 0%N z ++ r) = (z, r).
Proof.
  intros Hr. induction z as [|z IH]; simpl.
  - destruct r as [|d r]; [reflexivity|]. simpl. destruct (N.eqb_spec d 0); [contradiction | reflexivity].
  - rewrite IH. reflexivity.
Qed.

Lemma base58_nodup : NoDup base58_alphabet.
Proof. apply nodupb_ok. vm_compute. reflexivity. Qed.

Lemma Forall_repeat_lt z b : (0 < b)%N -> Forall (fun d => (d < b)%N) (repeat 0%N z).
Proof. intros Hb. induction z; constructor; auto. Qed.

Lemma map_byteN_bN l : map byteN (map bN l) = l.
Proof. rewrite map_map. etransitivity; [|apply map_id]. apply map_ext, byteN_bN. Qed.

Lemma map_bN_byteN l : Forall (fun d => (d < 256)%N) l -> map bN (map byteN l) = l.
Proof.
  intros F. rewrite map_map. etransitivity; [|apply map_id]. apply map_ext_in. intros d Hd.
  rewrite Forall_forall in F. apply bN_byteN_small, F, Hd.
Qed.

Lemma map_bN_lt l : Forall (fun d => (d < 256)%N) (map bN l).
Proof. apply Forall_map, Forall_forall. intros b _. apply bN_bound. Qed.

Lemma canonical_tail b l z r : Forall (fun d => (d < b)%N) l -> span (fun d => (d =? 0)%N) l = (z, r) -> canonical b r.
Proof.
  intros F E. apply span_zeros in E as [-> Hr]. apply Forall_app in F as [_ F]. split; [exact F | exact Hr].
Qed.

Lemma b58_roundtrip bs : b58_decode (b58_encode bs) = Some bs.
Proof.
  unfold b58_encode, b58_decode. destruct (span _ (map bN bs)) as [z r] eqn:E.
  pose proof (canonical_tail 256 _ _ _ (map_bN_lt bs) E) as Hc.
  apply span_zeros in E as [E _].
  pose proof (to_digits_canonical 58 ltac:(lia) (of_digits 256 r)) as Hc58.
  rewrite letter_indices_map; [|exact base58_nodup|].
  2:{ apply Forall_app. split; [apply Forall_repeat_lt; reflexivity|]. apply Hc58. }
  rewrite span_zeros_app by (destruct Hc58 as [_ Hx]; exact Hx).
  rewrite to_digits_value by lia. rewrite to_of_digits by (try lia; exact Hc).
  rewrite <- E. f_equal. apply map_byteN_bN.
Qed.

Lemma b58_canonical s bs : b58_decode s = Some bs -> b58_encode bs = s.
Proof.
  unfold b58_decode. destruct (letter_indices base58_alphabet s) as [idx|] eqn:Ei; [|discriminate].
  apply letter_indices_some in Ei as [-> Hidx]. change (N.of_nat (length base58_alphabet)) with 58%N in Hidx.
  destruct (span _ idx) as [z r] eqn:E. intros Hbs.
  apply (f_equal (fun o => match o with Some x => x | None => [] end)) in Hbs. cbv beta iota in Hbs. subst bs.
  pose proof (canonical_tail 58 _ _ _ Hidx E) as Hc. apply span_zeros in E as [E _].
  pose proof (to_digits_canonical 256 ltac:(lia) (of_digits 58 r)) as Hc256.
  unfold b58_encode. rewrite map_bN_byteN.
  2:{ apply Forall_app. split; [apply Forall_repeat_lt; reflexivity|]. apply Hc256. }
  rewrite span_zeros_app by (destruct Hc256 as [_ Hx]; exact Hx).
  rewrite to_digits_value by lia. rewrite to_of_digits by (try lia; exact Hc). rewrite <- E. reflexivity.
Qed.

Lemma b58_decode_iff s bs : b58_decode s = Some bs <-> s = b58_encode bs.
Proof. split; [intros E; symmetry; apply b58_canonical, E | intros ->; apply b58_roundtrip]. Qed.

Lemma b58_encode_inj x y : b58_encode x = b58_encode y -> x = y.
Proof. intros E. pose proof (b58_roundtrip x) as H1. rewrite E, b58_roundtrip in H1. congruence. Qed.

Lemma b58_encode_in bs c : In c (b58_encode bs) -> In c base58_alphabet.
Proof.
  unfold b58_encode. destruct (span _ (map bN bs)) as [z r].
  intros Hin. apply in_map_iff in Hin as (d & <- & Hd). apply letter_in.
  change (N.of_nat (length base58_alphabet)) with 58%N.
  apply in_app_iff in Hd as [Hd | Hd].
  - apply repeat_spec in Hd. subst. reflexivity.
  - pose proof (to_digits_canonical 58 ltac:(lia) (of_digits 256 r)) as [F _].
    rewrite Forall_forall in F. apply F, Hd.
Qed.

(* ------------------------------------------------------------------ decimal *)

Lemma digit_char_val d : (d < 10)%N -> digit_val (digit_char d) = d /\ is_digit (digit_char d) = true.
Proof.
  intros Hd. unfold digit_val, is_digit, digit_char. rewrite bN_byteN_small by lia. split; lia.
Qed.

Lemma dec_print_digits n : forallb is_digit (dec_print n) = true.
Proof.
  unfold dec_print. destruct (n =? 0)%N; [reflexivity|]. apply forallb_forall. intros c Hc.
  apply in_map_iff in Hc as (d & <- & Hd).
  pose proof (to_digits_canonical 10 ltac:(lia) n) as [F _]. rewrite Forall_forall in F.
  apply digit_char_val, F, Hd.
Qed.

Lemma map_digit_val l : Forall (fun d => (d < 10)%N) l -> map digit_val (map digit_char l) = l.
Proof.
  intros F. rewrite map_map. etransitivity; [|apply map_id]. apply map_ext_in. intros d Hd.
  rewrite Forall_forall in F. apply digit_char_val, F, Hd.
Qed.

Lemma dec_value_print n : dec_value (dec_print n) = n.
Proof.
  unfold dec_value, dec_print. destruct (N.eqb_spec n 0) as [->|Hn]; [reflexivity|].
  pose proof (to_digits_canonical 10 ltac:(lia) n) as [F _].
  rewrite map_digit_val by exact F. apply to_digits_value. lia.
Qed.

Lemma dec_print_inj n m : dec_print n = dec_print m -> n = m.
Proof. intros E. rewrite <- (dec_value_print n), E. apply dec_value_print. Qed.

(** A decimal starts with a digit, and with '0' only if it is "0". *)
Lemma dec_print_head n : exists c r, dec_print n = c :: r /\ is_digit c = true /\ (c = x30 -> r = [] /\ n = 0%N).
Proof.
  unfold dec_print. destruct (N.eqb_spec n 0) as [->|Hn].
  - exists x30, []. repeat split; auto.
  - pose proof (to_digits_canonical 10 ltac:(lia) n) as [F Hh].
    destruct (to_digits 10 n) as [|d l] eqn:E.
    + apply to_digits_zero in E; [contradiction | lia].
    + simpl. exists (digit_char d), (map digit_char l). inversion F. subst.
      split; [reflexivity|]. split; [apply digit_char_val; assumption|].
      intros Hc. exfalso. apply Hh. destruct (digit_char_val d) as [Hv _]; [assumption|].
      rewrite Hc in Hv. rewrite <- Hv. reflexivity.
Qed.

Lemma dec_print_nonnil n : dec_print n <> [].
Proof. destruct (dec_print_head n) as (c & r & -> & _). discriminate. Qed.

Lemma is_digit_not_plus c : is_digit c = true -> c <> x2b.
Proof. intros Hd ->. discriminate. Qed.

Lemma parse_usize_print n : (n <= usize_max)%N -> parse_usize (dec_print n) = Some n.
Proof.
  intros Hn. unfold parse_usize. destruct (dec_print_head n) as (c & r & E & Hc & _).
  assert (match dec_print n with x2b :: r => r | _ => dec_print n end = dec_print n) as Hp.
  { rewrite E. destruct c; try reflexivity. discriminate Hc. }
  rewrite Hp. rewrite dec_print_digits, dec_value_print.
  assert (n <=? usize_max = true)%N as -> by (apply N.leb_le; exact Hn).
  rewrite E. reflexivity.
Qed.
