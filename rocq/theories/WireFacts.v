(** The wire formats (C103-C107). *)
From Verif Require Import Prelude Ord SMap BaseN Base58 Varint Utf8 Value Cid Ext Json Capability Key Ucan Builder Ipld KeySupport Spec SpecIpldSerde SpecWire
  OrdFacts SMapFacts BaseNFacts Base58Facts JsonFacts CidFacts TokenFacts IpldSerdeFacts.

(* ------------------------------------------------------------ base64, base32 *)

Lemma groups_fuel_irrel k : (0 < k)%nat -> forall f f' l, (length l <= f)%nat -> (length l <= f')%nat -> groups f k l = groups f' k l.
Proof.
  intros Hk. induction f as [|f IH]; intros f' l Hf Hf'.
  - destruct l; [|simpl in Hf; lia]. destruct f'; reflexivity.
  - destruct l as [|x l]; [destruct f'; reflexivity|]. destruct f' as [|f']; [simpl in Hf'; lia|].
    cbn [groups]. f_equal. apply IH; rewrite skipn_length; cbn [length] in *; lia.
Qed.

Lemma groups_cons k g r : (0 < k)%nat -> length g = k -> groups (length (g ++ r)) k (g ++ r) = g :: groups (length r) k r.
Proof.
  intros Hk Hg. rewrite app_length, Hg. destruct k as [|k]; [lia|]. cbn [plus groups].
  destruct (g ++ r) as [|x l] eqn:E; [apply app_eq_nil in E as [-> _]; discriminate|]. rewrite <- E.
  rewrite take_pad_app by exact Hg. f_equal.
  assert (skipn (S k) (g ++ r) = r) as ->.
  { rewrite <- Hg, skipn_app, skipn_all, Nat.sub_diag. reflexivity. }
  apply groups_fuel_irrel; lia.
Qed.

Lemma groups_last k g : (0 < length g)%nat -> (length g <= k)%nat -> groups (length g) k g = [g ++ repeat false (k - length g)].
Proof.
  intros H1 H2. destruct g as [|x g]; [simpl in H1; lia|]. cbn [length groups]. rewrite take_pad_short by exact H2.
  cbn [app]. f_equal. rewrite skipn_all2 by exact H2. destruct g; reflexivity.
Qed.

Lemma bits_of_split j k n : bits_of (j + k) n = bits_of j (n / 2 ^ N.of_nat k) ++ bits_of k n.
Proof.
  induction j as [|j IH]; [reflexivity|]. cbn [plus bits_of app]. rewrite IH. f_equal.
  rewrite N.div_pow2_bits. f_equal. lia.
Qed.

Lemma bits_val_app l r : bits_val (l ++ r) = (bits_val l * 2 ^ N.of_nat (length r) + bits_val r)%N.
Proof. unfold bits_val at 1. rewrite fold_left_app. fold (bits_val l). apply bits_val_acc. Qed.

Lemma bits_val_pad l n : bits_val (l ++ repeat false n) = (bits_val l * 2 ^ N.of_nat n)%N.
Proof.
  rewrite bits_val_app, repeat_length. assert (bits_val (repeat false n) = 0%N) as ->; [|lia].
  induction n as [|n IH]; [reflexivity|]. cbn [repeat]. rewrite bits_val_cons, IH. reflexivity.
Qed.

Lemma letter_sextet n : (n < 64)%N -> letter base64url_alphabet n = sextet n.
Proof.
  intros Hn. assert (forallb (fun i => Byte.eqb (letter base64url_alphabet (N.of_nat i)) (sextet (N.of_nat i))) (seq 0 64) = true) as H by (vm_compute; reflexivity).
  rewrite forallb_forall in H. specialize (H (N.to_nat n)). rewrite N2Nat.id in H. apply Byte.byte_dec_bl, H, in_seq. lia.
Qed.

Lemma letter_quintet n : (n < 32)%N -> letter base32_alphabet n = quintet n.
Proof.
  intros Hn. assert (forallb (fun i => Byte.eqb (letter base32_alphabet (N.of_nat i)) (quintet (N.of_nat i))) (seq 0 32) = true) as H by (vm_compute; reflexivity).
  rewrite forallb_forall in H. specialize (H (N.to_nat n)). rewrite N2Nat.id in H. apply Byte.byte_dec_bl, H, in_seq. lia.
Qed.

Lemma bits_of_length k n : length (bits_of k n) = k.
Proof. induction k as [|k IH]; cbn [bits_of length]; congruence. Qed.

(** The text of a list of bits. *)
Definition bits_text (k : nat) (a : alphabet) (bits : list bool) : bytes :=
  map (fun g => letter a (bits_val g)) (groups (length bits) k bits).

Lemma bits_text_cons k a g r : (0 < k)%nat -> length g = k -> bits_text k a (g ++ r) = letter a (bits_val g) :: bits_text k a r.
Proof. intros Hk Hg. unfold bits_text. rewrite groups_cons by assumption. reflexivity. Qed.

Lemma bits_text_last k a g : (0 < length g)%nat -> (length g <= k)%nat ->
  bits_text k a g = [letter a (bits_val g * 2 ^ N.of_nat (k - length g))].
Proof. intros H1 H2. unfold bits_text. rewrite groups_last by assumption. cbn [map]. rewrite bits_val_pad. reflexivity. Qed.

Lemma bits_text_nil k a : bits_text k a [] = [].
Proof. reflexivity. Qed.

Ltac bits_len := rewrite ?app_length, ?bits_of_length; lia.
Ltac bits_num :=
  rewrite ?bits_val_app, ?bits_val_bits_of, ?app_length, ?bits_of_length;
  repeat match goal with |- context [N.of_nat ?n] => let m := eval vm_compute in (N.of_nat n) in change (N.of_nat n) with m end;
  repeat match goal with |- context [(2 ^ ?n)%N] => let m := eval vm_compute in (2 ^ n)%N in change (2 ^ n)%N with m end.

Lemma byte_bits j k (b : byte) : (j + k = 8)%nat -> bits_of 8 (bN b) = bits_of j (bN b / 2 ^ N.of_nat k) ++ bits_of k (bN b).
Proof. intros <-. apply bits_of_split. Qed.

Lemma to_bits_cons b bs : BaseN.to_bits (b :: bs) = bits_of 8 (bN b) ++ BaseN.to_bits bs.
Proof. reflexivity. Qed.

Ltac letters L := repeat (apply (f_equal2 cons); [rewrite <- L; [f_equal; bits_num; lia | lia]|]).

Lemma b64_encode_rfc : forall bs, b64_encode bs = base64url bs.
Proof.
  fix IH 1. intros [|a [|b [|c bs]]].
  - reflexivity.
  - pose proof (bN_bound a). change (b64_encode [a]) with (bits_text 6 base64url_alphabet (BaseN.to_bits [a])).
    rewrite to_bits_cons, (byte_bits 6 2 a eq_refl). change (BaseN.to_bits []) with (@nil bool). rewrite app_nil_r.
    rewrite bits_text_cons by bits_len. rewrite bits_text_last by bits_len.
    cbn [base64url]. letters letter_sextet. reflexivity.
  - pose proof (bN_bound a). pose proof (bN_bound b). change (b64_encode [a; b]) with (bits_text 6 base64url_alphabet (BaseN.to_bits [a; b])).
    rewrite !to_bits_cons, (byte_bits 6 2 a eq_refl), (byte_bits 4 4 b eq_refl). change (BaseN.to_bits []) with (@nil bool). rewrite app_nil_r.
    rewrite <- !app_assoc. rewrite bits_text_cons by bits_len. rewrite (app_assoc (bits_of 2 _)), bits_text_cons by bits_len. rewrite bits_text_last by bits_len.
    cbn [base64url]. letters letter_sextet. reflexivity.
  - pose proof (bN_bound a). pose proof (bN_bound b). pose proof (bN_bound c).
    change (b64_encode (a :: b :: c :: bs)) with (bits_text 6 base64url_alphabet (BaseN.to_bits (a :: b :: c :: bs))).
    rewrite !to_bits_cons, (byte_bits 6 2 a eq_refl), (byte_bits 4 4 b eq_refl), (byte_bits 2 6 c eq_refl).
    rewrite <- !app_assoc. rewrite bits_text_cons by bits_len. rewrite (app_assoc (bits_of 2 _)), bits_text_cons by bits_len.
    rewrite (app_assoc (bits_of 4 _)), bits_text_cons by bits_len. rewrite bits_text_cons by bits_len.
    change (bits_text 6 base64url_alphabet (BaseN.to_bits bs)) with (b64_encode bs). rewrite IH.
    cbn [base64url]. letters letter_sextet. reflexivity.
Qed.

Lemma byte_bits3 i j k (b : byte) : (i + (j + k) = 8)%nat ->
  bits_of 8 (bN b) = bits_of i (bN b / 2 ^ N.of_nat (j + k)) ++ bits_of j (bN b / 2 ^ N.of_nat k) ++ bits_of k (bN b).
Proof. intros H. rewrite (byte_bits i (j + k) b H). f_equal. apply bits_of_split. Qed.

Ltac take1 := rewrite bits_text_cons by bits_len.
Ltac take2 k := rewrite (app_assoc (bits_of k _)), bits_text_cons by bits_len.

Lemma b32_encode_rfc : forall bs, b32_encode bs = base32 bs.
Proof.
  fix IH 1. intros [|a [|b [|c [|d [|e bs]]]]].
  - reflexivity.
  - pose proof (bN_bound a). change (b32_encode [a]) with (bits_text 5 base32_alphabet (BaseN.to_bits [a])).
    rewrite !to_bits_cons, (byte_bits 5 3 a eq_refl). change (BaseN.to_bits []) with (@nil bool). rewrite app_nil_r, <- ?app_assoc.
    take1. rewrite bits_text_last by bits_len. cbn [base32]. letters letter_quintet. reflexivity.
  - pose proof (bN_bound a). pose proof (bN_bound b). change (b32_encode [a; b]) with (bits_text 5 base32_alphabet (BaseN.to_bits [a; b])).
    rewrite !to_bits_cons, (byte_bits 5 3 a eq_refl), (byte_bits3 2 5 1 b eq_refl). change (BaseN.to_bits []) with (@nil bool). rewrite app_nil_r, <- ?app_assoc.
    take1. take2 3%nat. take1. rewrite bits_text_last by bits_len. cbn [base32]. letters letter_quintet. reflexivity.
  - pose proof (bN_bound a). pose proof (bN_bound b). pose proof (bN_bound c).
    change (b32_encode [a; b; c]) with (bits_text 5 base32_alphabet (BaseN.to_bits [a; b; c])).
    rewrite !to_bits_cons, (byte_bits 5 3 a eq_refl), (byte_bits3 2 5 1 b eq_refl), (byte_bits 4 4 c eq_refl).
    change (BaseN.to_bits []) with (@nil bool). rewrite app_nil_r, <- ?app_assoc.
    take1. take2 3%nat. take1. take2 1%nat. rewrite bits_text_last by bits_len. cbn [base32]. letters letter_quintet. reflexivity.
  - pose proof (bN_bound a). pose proof (bN_bound b). pose proof (bN_bound c). pose proof (bN_bound d).
    change (b32_encode [a; b; c; d]) with (bits_text 5 base32_alphabet (BaseN.to_bits [a; b; c; d])).
    rewrite !to_bits_cons, (byte_bits 5 3 a eq_refl), (byte_bits3 2 5 1 b eq_refl), (byte_bits 4 4 c eq_refl), (byte_bits3 1 5 2 d eq_refl).
    change (BaseN.to_bits []) with (@nil bool). rewrite app_nil_r, <- ?app_assoc.
    take1. take2 3%nat. take1. take2 1%nat. take2 4%nat. take1. rewrite bits_text_last by bits_len. cbn [base32]. letters letter_quintet. reflexivity.
  - pose proof (bN_bound a). pose proof (bN_bound b). pose proof (bN_bound c). pose proof (bN_bound d). pose proof (bN_bound e).
    change (b32_encode (a :: b :: c :: d :: e :: bs)) with (bits_text 5 base32_alphabet (BaseN.to_bits (a :: b :: c :: d :: e :: bs))).
    rewrite !to_bits_cons, (byte_bits 5 3 a eq_refl), (byte_bits3 2 5 1 b eq_refl), (byte_bits 4 4 c eq_refl), (byte_bits3 1 5 2 d eq_refl), (byte_bits 3 5 e eq_refl).
    rewrite <- ?app_assoc.
    take1. take2 3%nat. take1. take2 1%nat. take2 4%nat. take1. take2 2%nat. take1.
    change (bits_text 5 base32_alphabet (BaseN.to_bits bs)) with (b32_encode bs). rewrite IH.
    cbn [base32]. letters letter_quintet. reflexivity.
Qed.

(* ------------------------------------------------------------------ positional *)

Lemma place_value_digits b l : place_value b l = of_digits b l.
Proof.
  induction l as [|d l IH]; [reflexivity|]. change (d :: l) with ([d] ++ l). rewrite of_digits_app. cbn [place_value app]. rewrite IH.
  unfold of_digits at 2. cbn [fold_left]. lia.
Qed.

Lemma b58_encode_text bs : base58_text bs (b58_encode bs).
Proof.
  unfold b58_encode. destruct (span _ (map bN bs)) as [z r] eqn:E.
  pose proof (span_zeros _ _ _ E) as [Hs Hr].
  exists z, (map byteN r), (to_digits 58 (of_digits 256 r)).
  assert (map bN (map byteN r) = r) as Hb.
  { apply map_bN_byteN. pose proof (map_bN_lt bs) as Hf. rewrite Hs in Hf. apply Forall_app in Hf as [_ Hf]. exact Hf. }
  rewrite Hb. destruct (to_digits_canonical 58 ltac:(lia) (of_digits 256 r)) as [Hf Hh].
  repeat split.
  - rewrite <- (map_byteN_bN bs), Hs, map_app. f_equal. clear. induction z as [|z IH]; [reflexivity|]. cbn [repeat map]. rewrite IH. reflexivity.
  - exact Hr.
  - rewrite map_app. f_equal. clear. induction z as [|z IH]; [reflexivity|]. cbn [repeat map]. rewrite IH. reflexivity.
  - exact Hf.
  - exact Hh.
  - rewrite !place_value_digits. apply to_digits_value. lia.
Qed.

Lemma base58_text_iff bs t : base58_text bs t <-> t = b58_encode bs.
Proof.
  split; [|intros ->; apply b58_encode_text]. intros (z & rest & ds & -> & Hn & -> & Hf & Hd & Hv).
  unfold b58_encode. rewrite map_app. assert (map bN (repeat x00 z) = repeat 0%N z) as ->.
  { clear. induction z as [|z IH]; [reflexivity|]. cbn [repeat map]. rewrite IH. reflexivity. }
  rewrite span_zeros_app by exact Hn. rewrite map_app. f_equal.
  - clear. induction z as [|z IH]; [reflexivity|]. cbn [repeat map]. rewrite IH. reflexivity.
  - rewrite <- place_value_digits, <- Hv, place_value_digits, to_of_digits; [reflexivity | lia | split; assumption].
Qed.

Lemma decimal_text_iff n t : decimal_text n t <-> t = dec_print n.
Proof.
  unfold dec_print. split.
  - intros (ds & -> & Hf & <- & H). rewrite place_value_digits. destruct H as [->|[Hne Hh]]; [reflexivity|].
    pose proof (to_of_digits 10 ltac:(lia) ds (conj Hf Hh)) as Ht.
    destruct (N.eqb_spec (of_digits 10 ds) 0) as [E|_]; [|rewrite Ht; reflexivity].
    rewrite E in Ht. cbn in Ht. congruence.
  - intros ->. destruct (N.eqb_spec n 0) as [->|Hne].
    + exists [0%N]. repeat split; [constructor; [lia | constructor] | left; reflexivity].
    + destruct (to_digits_canonical 10 ltac:(lia) n) as [Hf Hh]. exists (to_digits 10 n). repeat split.
      * exact Hf.
      * rewrite place_value_digits. apply to_digits_value. lia.
      * right. split; [|exact Hh]. rewrite to_digits_zero by lia. exact Hne.
Qed.

Lemma integer_text_iff z t : integer_text z t <-> t = json_int z.
Proof.
  unfold integer_text, json_int. destruct (Z.ltb_spec z 0) as [Hz|Hz]; split.
  - intros [[H _]|[_ (t' & -> & H)]]; [lia|]. apply decimal_text_iff in H. rewrite H. reflexivity.
  - intros ->. right. split; [exact Hz|]. exists (dec_print (Z.to_N (- z))). split; [reflexivity|]. apply decimal_text_iff. reflexivity.
  - intros [[_ H]|[H _]]; [|lia]. apply decimal_text_iff in H. exact H.
  - intros ->. left. split; [exact Hz|]. apply decimal_text_iff. reflexivity.
Qed.

(* ------------------------------------------------------------------------ JSON *)

Lemma char_text_iff c t : char_text c t <-> t = json_escape c.
Proof.
  split.
  - intros H. inversion H as [c' Hc H1 H2 E1 E2| | | | | | | |c' d Hi E1 E2|c' d Hi E1 E2]; subst; try reflexivity.
    + destruct c; try reflexivity; try (exfalso; apply Hc; reflexivity); try (exfalso; apply H1; reflexivity); exfalso; apply H2; reflexivity.
    + repeat (destruct Hi as [Hi|Hi]; [injection Hi as <- <-; reflexivity|]). destruct Hi.
    + repeat (destruct Hi as [Hi|Hi]; [injection Hi as <- <-; reflexivity|]). destruct Hi.
  - assert (forall d, json_escape c = B "\u000" ++ [d] ->
      In (c, d) [(x00, x30); (x01, x31); (x02, x32); (x03, x33); (x04, x34); (x05, x35); (x06, x36); (x07, x37); (x0b, x62); (x0e, x65); (x0f, x66)] ->
      char_text c (json_escape c)) as H0 by (intros d ->; apply CT_0).
    assert (forall d, json_escape c = B "\u001" ++ [d] ->
      In (c, d) [(x10, x30); (x11, x31); (x12, x32); (x13, x33); (x14, x34); (x15, x35); (x16, x36); (x17, x37);
        (x18, x38); (x19, x39); (x1a, x61); (x1b, x62); (x1c, x63); (x1d, x64); (x1e, x65); (x1f, x66)] ->
      char_text c (json_escape c)) as H1 by (intros d ->; apply CT_1).
    intros ->. destruct c; try (apply CT_plain; [vm_compute; discriminate | discriminate | discriminate]); try solve [constructor];
      (let h d := first [apply (H0 d); [reflexivity | simpl; tauto] | apply (H1 d); [reflexivity | simpl; tauto]] in
       first [h x30 | h x31 | h x32 | h x33 | h x34 | h x35 | h x36 | h x37 | h x38 | h x39 | h x61 | h x62 | h x63 | h x64 | h x65 | h x66]).
Qed.

Lemma Forall2_fun {A C} (R : A -> C -> Prop) (f : A -> C) : (forall a c, R a c <-> c = f a) -> forall l cs, Forall2 R l cs <-> cs = map f l.
Proof.
  intros H l cs. split.
  - induction 1 as [|a c l cs Ha _ IH]; [reflexivity|]. apply H in Ha as ->. rewrite IH. reflexivity.
  - intros ->. induction l as [|a l IH]; constructor; [apply H; reflexivity | exact IH].
Qed.

Lemma string_text_iff s t : string_text s t <-> t = json_string s.
Proof.
  unfold string_text, json_string. rewrite flat_map_concat_map. split.
  - intros (cs & H & ->). apply (Forall2_fun _ _ char_text_iff) in H as ->. reflexivity.
  - intros ->. exists (map json_escape s). split; [apply (Forall2_fun _ _ char_text_iff); reflexivity | reflexivity].
Qed.

Lemma sep_concat_commas l : sep_concat l = commas l.
Proof.
  induction l as [|x [|y l] IH]; [reflexivity | cbn [commas map concat sep_concat]; rewrite app_nil_r; reflexivity|].
  change (sep_concat (x :: y :: l)) with (x ++ [x2c] ++ sep_concat (y :: l)). rewrite IH. cbn [commas map concat]. rewrite <- !app_assoc. reflexivity.
Qed.

Definition member_print {A} (f : A -> bytes) (kv : bytes * A) : bytes := json_string (fst kv) ++ [x3a] ++ f (snd kv).

Lemma member_text_iff {A} (R : A -> bytes -> Prop) (f : A -> bytes) : (forall a t, R a t <-> t = f a) ->
  forall kv t, member_text R kv t <-> t = member_print f kv.
Proof.
  intros H kv t. unfold member_text, member_print. split.
  - intros (k & v & Hk & Hv & ->). apply string_text_iff in Hk as ->. apply H in Hv as ->. reflexivity.
  - intros ->. exists (json_string (fst kv)), (f (snd kv)). repeat split; [apply string_text_iff; reflexivity | apply H; reflexivity].
Qed.

Lemma list_text_iff {A} (R : A -> bytes -> Prop) (f : A -> bytes) : (forall a t, R a t <-> t = f a) ->
  forall l t, list_text R l t <-> t = [x5b] ++ sep_concat (map f l) ++ [x5d].
Proof.
  intros H l t. unfold list_text, array_text. rewrite sep_concat_commas. split.
  - intros (ts & Hts & ->). apply (Forall2_fun _ _ H) in Hts as ->. reflexivity.
  - intros ->. exists (map f l). split; [apply (Forall2_fun _ _ H); reflexivity | reflexivity].
Qed.

Lemma map_text_iff {A} (R : A -> bytes -> Prop) (f : A -> bytes) : (forall a t, R a t <-> t = f a) ->
  forall m t, map_text R m t <-> t = [x7b] ++ sep_concat (map (member_print f) m) ++ [x7d].
Proof.
  intros H m t. unfold map_text, object_text. rewrite sep_concat_commas. split.
  - intros (ts & Hts & ->). apply (Forall2_fun _ _ (member_text_iff _ _ H)) in Hts as ->. reflexivity.
  - intros ->. exists (map (member_print f) m). split; [apply (Forall2_fun _ _ (member_text_iff _ _ H)); reflexivity | reflexivity].
Qed.

Definition value_print (X : ext) (v : value) : bytes := json_print X (ipld_of_value v).

Lemma value_text_iff X v : forall t, value_text X v t <-> t = value_print X v.
Proof.
  unfold value_print. induction v as [|b|k|s|l IH|m IH] using value_induction; intros t; cbn [ipld_of_value json_print].
  - split; [intros H; inversion H; reflexivity | intros ->; constructor].
  - split; [intros H; inversion H; reflexivity | intros ->; destruct b; constructor].
  - destruct k as [n|z|f]; cbn [ipld_of_value json_print].
    + assert (json_int (Z.of_N n) = dec_print n) as ->.
      { unfold json_int. destruct (Z.ltb_spec (Z.of_N n) 0); [lia|]. rewrite N2Z.id. reflexivity. }
      split; [intros H; inversion H; apply decimal_text_iff; assumption | intros ->; constructor; apply decimal_text_iff; reflexivity].
    + split; [intros H; inversion H; apply integer_text_iff; assumption | intros ->; constructor; apply integer_text_iff; reflexivity].
    + split; [intros H; inversion H; reflexivity | intros ->; constructor].
  - split; [intros H; inversion H; apply string_text_iff; assumption | intros ->; constructor; apply string_text_iff; reflexivity].
  - rewrite sep_concat_commas, map_map. change ([x5b] ++ commas ?l ++ [x5d]) with (array_text l). split.
    + intros H. inversion H as [| | | | | | |l' ts Hf|]; subst. f_equal. clear H. induction Hf as [|a c l ts Ha _ IHf]; [reflexivity|].
      inversion IH as [|a' l' H1 H2]; subst. apply H1 in Ha as ->. cbn [map]. f_equal. apply IHf. exact H2.
    + intros ->. constructor. induction IH as [|a l Ha _ IHf]; constructor; [apply Ha; reflexivity | exact IHf].
  - rewrite sep_concat_commas, map_map. cbn [fst snd]. change ([x7b] ++ commas ?l ++ [x7d]) with (object_text l). split.
    + intros H. inversion H as [| | | | | | | |m' ts Hf]; subst. f_equal. clear H. induction Hf as [|a c l ts Ha _ IHf]; [reflexivity|].
      inversion IH as [|a' l' H1 H2]; subst. destruct Ha as (k & v & Hk & Hv & ->). apply string_text_iff in Hk as ->. apply H1 in Hv as ->.
      cbn [map]. f_equal. apply IHf. exact H2.
    + intros ->. constructor. induction IH as [|a l Ha _ IHf]; constructor; [|exact IHf].
      exists (json_string (fst a)), (json_print X (ipld_of_value (snd a))). repeat split; [apply string_text_iff; reflexivity | apply Ha; reflexivity].
Qed.

Lemma capabilities_text_iff X c t : capabilities_text X c t <-> t = json_print X (ipld_of_caps c).
Proof.
  unfold capabilities_text.
  rewrite (map_text_iff _ _ (map_text_iff _ _ (list_text_iff _ _ (value_text_iff X)))).
  unfold ipld_of_caps. cbn [json_print]. rewrite map_map. unfold member_print. cbn [fst snd].
  assert (forall E E' : (bytes * smap bytes (list value)) -> bytes, (forall a, E a = E' a) ->
    (t = [x7b] ++ sep_concat (map E c) ++ [x7d] <-> t = [x7b] ++ sep_concat (map E' c) ++ [x7d])) as HE.
  { intros E E' HE. rewrite (map_ext _ _ HE). reflexivity. }
  apply HE. intros a. cbn [json_print]. rewrite map_map. cbn [fst snd]. do 5 f_equal. apply map_ext. intros b. cbn [json_print]. rewrite map_map. reflexivity.
Qed.

Lemma facts_text_iff X f t : map_text (value_text X) f t <-> t = json_print X (ipld_of_facts f).
Proof. rewrite (map_text_iff _ _ (value_text_iff X)). unfold ipld_of_facts. cbn [json_print]. rewrite map_map. reflexivity. Qed.

Lemma strings_text_iff X l t : list_text string_text l t <-> t = json_print X (IList (map IStr l)).
Proof. rewrite (list_text_iff _ _ string_text_iff). cbn [json_print]. rewrite map_map. reflexivity. Qed.

Lemma u64_text_iff X n t : decimal_text n t <-> t = json_print X (ipld_of_u64 n).
Proof.
  rewrite decimal_text_iff. unfold ipld_of_u64. cbn [json_print]. unfold json_int. destruct (Z.ltb_spec (Z.of_N n) 0); [lia|]. rewrite N2Z.id. reflexivity.
Qed.

Lemma optional_text_iff {A} key (R : A -> bytes -> Prop) f : (forall a t, R a t <-> t = f a) -> forall o t,
  optional_text key R o t <-> t = match o with Some a => key ++ f a | None => [] end.
Proof.
  intros H [a|] t; cbn [optional_text]; [|reflexivity]. split.
  - intros (v & Hv & ->). apply H in Hv as ->. reflexivity.
  - intros ->. exists (f a). split; [apply H; reflexivity | reflexivity].
Qed.

Lemma header_text_iff X h t : header_text h t <-> t = header_to_json X h.
Proof.
  assert (header_to_json X h = B "{""alg"":" ++ json_string (h_alg h) ++ B ",""typ"":" ++ json_string (h_typ h) ++ B "}") as ->.
  { unfold header_to_json, dagjson_encode, ipld_of_header. cbn [json_print map fst snd sep_concat].
    generalize (json_string (h_alg h)) (json_string (h_typ h)). intros a b. rewrite <- !app_assoc. reflexivity. }
  unfold header_text. split.
  - intros (a & b & Ha & Hb & ->). apply string_text_iff in Ha as ->. apply string_text_iff in Hb as ->. reflexivity.
  - intros ->. exists (json_string (h_alg h)), (json_string (h_typ h)). repeat split; apply string_text_iff; reflexivity.
Qed.

Lemma payload_json X p : payload_to_json X p =
  B "{""aud"":" ++ json_string (p_aud p) ++ B ",""cap"":" ++ json_print X (ipld_of_caps (p_cap p)) ++
  B ",""exp"":" ++ match p_exp p with Some n => json_print X (ipld_of_u64 n) | None => B "null" end ++
  match p_fct p with Some f => B ",""fct"":" ++ json_print X (ipld_of_facts f) | None => [] end ++
  B ",""iss"":" ++ json_string (p_iss p) ++
  match p_nbf p with Some n => B ",""nbf"":" ++ json_print X (ipld_of_u64 n) | None => [] end ++
  match p_nnc p with Some s => B ",""nnc"":" ++ json_string s | None => [] end ++
  match p_prf p with Some l => B ",""prf"":" ++ json_print X (IList (map IStr l)) | None => [] end ++
  B ",""ucv"":" ++ json_string (p_ucv p) ++ B "}".
Proof.
  unfold payload_to_json, dagjson_encode, ipld_of_payload.
  change (json_print X (IMap ?m)) with ([x7b] ++ sep_concat (map (member_print (json_print X)) m) ++ [x7d]).
  rewrite !map_app. cbn [map]. unfold member_print at 1 2 3 5 9. cbn [fst snd].
  change (json_print X (IStr ?s)) with (json_string s).
  generalize (json_string (p_aud p)) (json_print X (ipld_of_caps (p_cap p))) (json_string (p_iss p)) (json_string (p_ucv p)).
  intros aud cap iss ucv.
  assert (exists e, json_print X match p_exp p with Some n => ipld_of_u64 n | None => INull end = e /\
    match p_exp p with Some n => json_print X (ipld_of_u64 n) | None => B "null" end = e) as (e & -> & Hx) by (destruct (p_exp p); eauto).
  transitivity (B "{""aud"":" ++ aud ++ B ",""cap"":" ++ cap ++ B ",""exp"":" ++ e ++
    match p_fct p with Some f => B ",""fct"":" ++ json_print X (ipld_of_facts f) | None => [] end ++
    B ",""iss"":" ++ iss ++
    match p_nbf p with Some n => B ",""nbf"":" ++ json_print X (ipld_of_u64 n) | None => [] end ++
    match p_nnc p with Some s => B ",""nnc"":" ++ json_string s | None => [] end ++
    match p_prf p with Some l => B ",""prf"":" ++ json_print X (IList (map IStr l)) | None => [] end ++
    B ",""ucv"":" ++ ucv ++ B "}"); [|rewrite <- Hx; reflexivity]. clear Hx.
  destruct (p_fct p) as [f|], (p_nbf p) as [nbf|], (p_nnc p) as [nnc|], (p_prf p) as [prf|];
    cbn [opt_field map app]; unfold member_print; cbn [fst snd]; change (json_print X (IStr ?s)) with (json_string s);
    try generalize (json_print X (ipld_of_facts f)); try generalize (json_print X (ipld_of_u64 nbf));
    try generalize (json_string nnc); try generalize (json_print X (IList (map IStr prf))); intros;
    cbn [sep_concat]; rewrite <- !app_assoc; reflexivity.
Qed.

Lemma payload_text_iff X p t : payload_text X p t <-> t = payload_to_json X p.
Proof.
  rewrite payload_json. unfold payload_text. split.
  - intros (aud & cap & exp & fct & iss & nbf & nnc & prf & ucv & H1 & H2 & H3 & H4 & H5 & H6 & H7 & H8 & H9 & ->).
    apply string_text_iff in H1 as ->. apply capabilities_text_iff in H2 as ->. apply string_text_iff in H5 as ->. apply string_text_iff in H9 as ->.
    apply (optional_text_iff _ _ _ (facts_text_iff X)) in H4 as ->. apply (optional_text_iff _ _ _ (u64_text_iff X)) in H6 as ->.
    apply (optional_text_iff _ _ _ string_text_iff) in H7 as ->. apply (optional_text_iff _ _ _ (strings_text_iff X)) in H8 as ->.
    destruct (p_exp p) as [n|]; [apply (u64_text_iff X) in H3 as ->|rewrite H3]; reflexivity.
  - intros ->. do 9 eexists.
    split; [apply string_text_iff; reflexivity|]. split; [apply capabilities_text_iff; reflexivity|].
    split; [instantiate (1 := match p_exp p with Some n => json_print X (ipld_of_u64 n) | None => B "null" end); destruct (p_exp p); [apply (u64_text_iff X)|]; reflexivity|].
    split; [apply (optional_text_iff _ _ _ (facts_text_iff X)); reflexivity|]. split; [apply string_text_iff; reflexivity|].
    split; [apply (optional_text_iff _ _ _ (u64_text_iff X)); reflexivity|]. split; [apply (optional_text_iff _ _ _ string_text_iff); reflexivity|].
    split; [apply (optional_text_iff _ _ _ (strings_text_iff X)); reflexivity|]. split; [apply string_text_iff; reflexivity|]. reflexivity.
Qed.

(* ---------------------------------------------------------------------- tokens *)

Lemma token_text_iff X u t : token_text X u t <-> t = encode X u.
Proof.
  unfold token_text, encode, header_b64, payload_b64. split.
  - intros (h & p & Hh & Hp & ->). apply (header_text_iff X) in Hh as ->. apply payload_text_iff in Hp as ->. rewrite !b64_encode_rfc. reflexivity.
  - intros ->. exists (header_to_json X (u_header u)), (payload_to_json X (u_payload u)).
    split; [apply (header_text_iff X); reflexivity|]. split; [apply payload_text_iff; reflexivity|]. rewrite !b64_encode_rfc. reflexivity.
Qed.

Lemma encode_is_token_text X u t : encode X u = t <-> token_text X u t.
Proof. rewrite token_text_iff. split; congruence. Qed.

Lemma header_read_iff X s h : header_of_json X s = Some h <-> exists m, dagjson_decode X s = Some (IMap m) /\ header_data m h.
Proof.
  unfold header_of_json. destruct (dagjson_decode X s) as [d|] eqn:Ed; [|split; [discriminate | intros (m & E & _); discriminate]].
  destruct d as [| | | | | | |m|]; try (split; [discriminate | intros (m' & E & _); discriminate]).
  assert (msorted m) as Hs by (apply keys_increasing_msorted; eapply dagjson_decode_keys, Ed).
  pose proof (fun a => required_iff (B "alg") _ _ m a Hs str_of_ipld_iff) as H1.
  pose proof (fun a => required_iff (B "typ") _ _ m a Hs str_of_ipld_iff) as H2.
  cbn [header_of_ipld]. split.
  - intros HE. exists m. split; [reflexivity|].
    destruct (req (B "alg") str_of_ipld m) eqn:E1; [|discriminate]. destruct (req (B "typ") str_of_ipld m) eqn:E2; [|discriminate].
    injection HE as <-. constructor; cbn [h_alg h_typ]; [apply H1 | apply H2]; reflexivity.
  - intros (m' & [= <-] & [D1 D2]). apply H1 in D1. apply H2 in D2. rewrite D1, D2. destruct h; reflexivity.
Qed.

Lemma payload_read_iff X s p : payload_of_json X s = Some p <-> exists m, dagjson_decode X s = Some (IMap m) /\ payload_data X m p.
Proof.
  unfold payload_of_json. destruct (dagjson_decode X s) as [d|] eqn:Ed; [|split; [discriminate | intros (m & E & _); discriminate]].
  destruct d as [| | | | | | |m|]; try (split; [discriminate | intros (m' & E & _); discriminate]).
  assert (msorted m) as Hs by (apply keys_increasing_msorted; eapply dagjson_decode_keys, Ed).
  pose proof (fun a => required_iff (B "ucv") _ _ m a Hs str_of_ipld_iff) as H1.
  pose proof (fun a => required_iff (B "iss") _ _ m a Hs str_of_ipld_iff) as H2.
  pose proof (fun a => required_iff (B "aud") _ _ m a Hs str_of_ipld_iff) as H3.
  pose proof (fun a => optional_iff (B "exp") _ _ m a Hs u64_of_ipld_iff) as H4.
  pose proof (fun a => optional_iff (B "nbf") _ _ m a Hs u64_of_ipld_iff) as H5.
  pose proof (fun a => optional_iff (B "nnc") _ _ m a Hs str_of_ipld_iff) as H6.
  pose proof (fun a => required_iff (B "cap") _ _ m a Hs (caps_of_ipld_iff X)) as H7.
  pose proof (fun a => optional_iff (B "fct") _ _ m a Hs (facts_of_ipld_iff X)) as H8.
  pose proof (fun a => optional_iff (B "prf") _ _ m a Hs (fun d l => list_of_ipld_iff str_of_ipld _ d l str_of_ipld_iff)) as H9.
  cbn [payload_of_ipld]. split.
  - intros HE. exists m. split; [reflexivity|].
    destruct (req (B "ucv") str_of_ipld m) eqn:E1; [|discriminate]. destruct (req (B "iss") str_of_ipld m) eqn:E2; [|discriminate].
    destruct (req (B "aud") str_of_ipld m) eqn:E3; [|discriminate]. destruct (opt (B "exp") u64_of_ipld m) eqn:E4; [|discriminate].
    destruct (opt (B "nbf") u64_of_ipld m) eqn:E5; [|discriminate]. destruct (opt (B "nnc") str_of_ipld m) eqn:E6; [|discriminate].
    destruct (req (B "cap") (caps_of_ipld X) m) eqn:E7; [|discriminate].
    destruct (opt (B "fct") (map_of_ipld (value_of_ipld X)) m) eqn:E8; [|discriminate].
    destruct (opt (B "prf") (list_of_ipld str_of_ipld) m) eqn:E9; [|discriminate].
    injection HE as <-. constructor; cbn [p_ucv p_iss p_aud p_exp p_nbf p_nnc p_cap p_fct p_prf];
      [apply H1 | apply H2 | apply H3 | apply H4 | apply H5 | apply H6 | apply H7 | apply H8 | apply H9]; reflexivity.
  - intros (m' & [= <-] & [D1 D2 D3 D4 D5 D6 D7 D8 D9]).
    apply H1 in D1. apply H2 in D2. apply H3 in D3. apply H4 in D4. apply H5 in D5. apply H6 in D6. apply H7 in D7. apply H8 in D8. apply H9 in D9.
    rewrite D1, D2, D3, D4, D5, D6, D7, D8, D9. destruct p; reflexivity.
Qed.

Lemma split_three t h p s more : split_on x2e t = h :: p :: s :: more ->
  exists r, t = h ++ B "." ++ p ++ B "." ++ s ++ r /\ (r = [] \/ exists r', r = B "." ++ r').
Proof.
  intros E. destruct (split_on_join x2e t) as [Ht _]. rewrite E in Ht. cbn [join] in Ht. destruct more as [|m more].
  - exists []. rewrite app_nil_r. split; [symmetry; exact Ht | left; reflexivity].
  - eexists. split; [symmetry; exact Ht|]. right. eexists. reflexivity.
Qed.

Lemma parse_token_read X t u : parse_token X t = Ok u <-> token_read X t u.
Proof.
  rewrite parse_token_iff. unfold token_read. split.
  - intros (h64 & p64 & s64 & more & hj & pj & Es & E1 & E2 & E3 & E4 & E5 & E6).
    apply b64_decode_iff in E1 as ->. apply b64_decode_iff in E3 as ->. apply b64_decode_iff in E5 as ->.
    apply header_read_iff in E2 as (hm & E2 & Hh). apply payload_read_iff in E4 as (pm & E4 & Hp).
    apply split_three in Es as (r & -> & Hr). exists hj, pj, hm, pm, r. rewrite <- !b64_encode_rfc. repeat (split; [assumption || reflexivity|]). assumption.
  - intros (h & p & hm & pm & more & -> & Hm & E2 & Hh & E4 & Hp & E6). rewrite <- !b64_encode_rfc in *.
    exists (b64_encode h), (b64_encode p), (b64_encode (u_signature u)),
      (match more with [] => [] | _ :: r => split_on x2e r end), h, p.
    split.
    + change (B ".") with [x2e]. cbn [app].
      rewrite split_on_app by apply b64_encode_no_dot. rewrite split_on_app by apply b64_encode_no_dot. do 2 f_equal.
      destruct Hm as [->|(r & ->)]; [rewrite app_nil_r; apply split_on_none, b64_encode_no_dot|].
      change (B "." ++ r) with (x2e :: r). apply split_on_app, b64_encode_no_dot.
    + repeat (split; [first [apply b64_roundtrip | apply header_read_iff; eauto | apply payload_read_iff; eauto]|]). exact E6.
Qed.

(* ------------------------------------------------------------------------ CIDs *)

Lemma varint_leb fuel : forall n, (n < 128 ^ N.of_nat fuel)%N -> (0 < fuel)%nat -> shortest_varint n (varint_encode_fuel fuel n).
Proof.
  induction fuel as [|f IH]; intros n Hn Hf; [lia|]. cbn [varint_encode_fuel]. destruct (N.ltb_spec n 128) as [H|H].
  - constructor. exact H.
  - rewrite N.add_comm. apply SV_more; [exact H|]. rewrite Nat2N.inj_succ, N.pow_succ_r' in Hn. apply IH.
    + apply N.div_lt_upper_bound; [lia | exact Hn].
    + destruct f; [|lia]. cbn in Hn. lia.
Qed.

Lemma cid_text_of X code u t : token_text X u t -> (code <= 18446744073709551615)%N -> (length (x_hash X code t) <= 64)%nat ->
  exists cb, shortest_varint code cb /\
    cid_to_string (to_cid X code u) = B "b" ++ base32 ([x01; x55] ++ cb ++ [byteN (N.of_nat (length (x_hash X code t)))] ++ x_hash X code t).
Proof.
  intros Ht Hc Hl. apply token_text_iff in Ht as ->. exists (varint_encode code). split.
  - apply varint_leb; [|lia]. eapply N.le_lt_trans; [exact Hc | reflexivity].
  - unfold cid_to_string, to_cid, cid_new_v1. cbn [cid_version]. change (1 =? 0)%N with false. cbv iota. rewrite b32_encode_rfc.
    unfold cid_to_bytes, multihash_bytes. cbn [cid_version cid_codec cid_hash_code cid_digest]. change (1 =? 0)%N with false. cbv iota.
    do 2 f_equal. assert (varint_encode (N.of_nat (length (x_hash X code (encode X u)))) = [byteN (N.of_nat (length (x_hash X code (encode X u))))]) as ->.
    { unfold varint_encode. cbn [varint_encode_fuel]. destruct (N.ltb_spec (N.of_nat (length (x_hash X code (encode X u)))) 128); [reflexivity | lia]. }
    reflexivity.
Qed.

Lemma default_proof_text X b u t : token_text X u t -> length (x_hash X 30 t) = 32%nat ->
  b_proofs (builder_step X b (WitnessedBy u None)) = b_proofs b ++ [B "b" ++ base32 ([x01; x55; x1e; x20] ++ x_hash X 30 t)].
Proof.
  intros Ht Hl. assert (b_proofs (builder_step X b (WitnessedBy u None)) = b_proofs b ++ [cid_to_string (to_cid X 30 u)]) as -> by (destruct b; reflexivity).
  destruct (cid_text_of X 30 u t Ht ltac:(lia) ltac:(lia)) as (cb & Hc & ->).
  inversion Hc as [n Hn|n bs Hn _]; subst; [|lia]. rewrite Hl. reflexivity.
Qed.

(* ------------------------------------------------------------------------ DIDs *)

Lemma key_did_text m b k : supported_key m b k -> exists text, key_did k = Ok (B "did:key:z" ++ text) /\ base58_text (m ++ b) text.
Proof.
  intros H. exists (b58_encode (m ++ b)). split; [|apply b58_encode_text].
  inversion H as [Pub Priv C pk sk b' E|Pub Priv C pk sk b' E|Pub Priv C sha pk sk b' E]; subst; cbn [key_did ed25519_key p256_key rsa_key]; rewrite E; reflexivity.
Qed.

Lemma key_alg_names {Pub Priv} (C : crypto Pub Priv) sha256 pk sk :
  key_alg (ed25519_key C pk sk) = B "EdDSA" /\ key_alg (p256_key C pk sk) = B "ES256" /\ key_alg (rsa_key C sha256 pk sk) = B "RS256".
Proof. repeat split. Qed.

Lemma signed_constants X rng s u : sign X rng s = Ok u ->
  h_typ (u_header u) = B "JWT" /\ h_alg (u_header u) = key_alg (s_issuer s) /\ p_ucv (u_payload u) = B "0.10.0-canary".
Proof.
  unfold sign. destruct (ucan_payload rng s) as [p| | |] eqn:E; try discriminate. cbn [rbind].
  destruct (key_sign (s_issuer s) _) as [sg| | |]; try discriminate. cbn [rbind]. intros [= <-]. cbn [u_header u_payload h_typ h_alg ucan_header].
  apply ucan_payload_iff in E as (E & _). repeat split. exact E.
Qed.
