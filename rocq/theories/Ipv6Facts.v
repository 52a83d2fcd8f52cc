(** Proofs about texts of IPv6 addresses (C164-C165). *)
From Verif Require Import Prelude Ord OrdFacts Url Ext Value Capability Semantics BaseN BaseNFacts Base58 Base58Facts Hier Fixtures Ipv6 TokenFacts Spec SpecUrl SpecWire WireFacts SpecHier UrlTextFacts HierFacts SpecIpv6.

Lemma hex_digit_iff c d : hex_digit c = Some d <-> hex_letter c d.
Proof.
  unfold hex_digit, hex_letter. cbv zeta. pose proof (bN_bound c).
  destruct (N.leb_spec 48 (bN c)), (N.leb_spec (bN c) 57), (N.leb_spec 65 (bN c)), (N.leb_spec (bN c) 70), (N.leb_spec 97 (bN c)), (N.leb_spec (bN c) 102);
    cbn [andb]; (split; [intros E; try discriminate E; apply (f_equal (fun o => match o with Some x => x | None => 0%N end)) in E; cbv beta iota in E; lia |
      intros E; first [f_equal; lia | exfalso; lia]]).
Qed.

Lemma hex_letter_lt c d : hex_letter c d -> (d < 16)%N.
Proof. unfold hex_letter. lia. Qed.

Lemma hex_letters_lt t ds : Forall2 hex_letter t ds -> Forall (fun d => d < 16)%N ds.
Proof. induction 1; constructor; auto. eapply hex_letter_lt; eassumption. Qed.

Lemma same_length {T U} (R : T -> U -> Prop) l l' : Forall2 R l l' -> length l = length l'.
Proof. induction 1; cbn [length]; congruence. Qed.

(** Not a hexadecimal digit at the front. *)
Definition no_hex (r : bytes) : Prop := match r with [] => True | c :: _ => hex_digit c = None end.

Lemma hex_digits_sound k s ds r : hex_digits k s = (ds, r) -> exists t, s = t ++ r /\ Forall2 hex_letter t ds /\ (length t <= k)%nat /\ (length t = k \/ no_hex r).
Proof.
  revert s ds r. induction k as [|k IH]; intros s ds r; cbn [hex_digits].
  - intros [= <- <-]. exists []. split; [reflexivity|]. split; [constructor|]. split; [cbn [length]; lia | left; reflexivity].
  - destruct s as [|c s]; [intros [= <- <-]; exists []; split; [reflexivity|]; split; [constructor|]; split; [cbn [length]; lia | right; exact I]|].
    destruct (hex_digit c) as [d|] eqn:Ec.
    + destruct (hex_digits k s) as [ds' r'] eqn:E. intros [= <- <-]. destruct (IH _ _ _ E) as (t & -> & H1 & H2 & H3).
      exists (c :: t). split; [reflexivity|]. split; [constructor; [apply hex_digit_iff, Ec | exact H1]|]. cbn [length]. split; [lia|].
      destruct H3; [left; lia | right; assumption].
    + intros [= <- <-]. exists []. split; [reflexivity|]. split; [constructor|]. split; [cbn [length]; lia | right; exact Ec].
Qed.

Lemma hex_digits_complete k t ds r : Forall2 hex_letter t ds -> (length t <= k)%nat -> no_hex r -> hex_digits k (t ++ r) = (ds, r).
Proof.
  intros H. revert k. induction H as [|c d t ds Hc _ IH]; intros k Hk Hr.
  - cbn [app]. destruct k; [reflexivity|]. destruct r as [|c r]; [reflexivity|]. cbn [hex_digits]. cbn [no_hex] in Hr. rewrite Hr. reflexivity.
  - cbn [length] in Hk. destruct k as [|k]; [lia|]. cbn [app hex_digits]. apply hex_digit_iff in Hc. rewrite Hc, IH by (try lia; exact Hr). reflexivity.
Qed.

Lemma piece_hex n t r : piece n t -> no_hex r -> exists ds, hex_digits 4 (t ++ r) = (ds, r) /\ of_digits 16 ds = n /\ ds <> [].
Proof.
  intros (ds & H1 & H2 & <-) Hr. exists ds. split; [apply hex_digits_complete; [exact H1 | lia | exact Hr]|].
  split; [symmetry; apply place_value_digits|]. intros ->. inversion H1; subst. cbn in H2. lia.
Qed.

Lemma piece_head n t : piece n t -> exists c r, t = c :: r /\ Byte.eqb c x3a = false.
Proof.
  intros (ds & H1 & H2 & _). destruct H1 as [|c d t ds Hc _]; [cbn in H2; lia|]. exists c, t. split; [reflexivity|].
  destruct (Byte.eqb c x3a) eqn:E; [|reflexivity]. apply byte_eqb_eq in E as ->. apply hex_digit_iff in Hc. discriminate.
Qed.

(* ------------------------------------------------------------------ IPv4 *)

Lemma dec_print_value s : forallb is_digit s = true -> (s = B "0" \/ exists c r, s = c :: r /\ c <> x30) -> dec_print (dec_value s) = s.
Proof.
  intros Hd Hz. symmetry. apply decimal_text_iff. exists (map digit_val s). rewrite forallb_forall in Hd.
  assert (forall c, In c s -> (48 <= bN c <= 57)%N) as Hr by (intros c Hc; apply Hd in Hc; unfold is_digit in Hc; lia).
  split; [|split; [|split]].
  - rewrite map_map. rewrite <- (map_id s) at 1. apply map_ext_in. intros c Hc. apply Hr in Hc. unfold digit_val.
    replace (48 + (bN c - 48))%N with (bN c) by lia. symmetry. apply byteN_bN.
  - apply Forall_map, Forall_forall. intros c Hc. apply Hr in Hc. unfold digit_val. lia.
  - apply place_value_digits.
  - destruct Hz as [-> | (c & r & -> & Hc)]; [left; reflexivity | right]. split; [discriminate|]. cbn [map no_leading_zero]. intros E. apply Hc.
    pose proof (Hr c (or_introl eq_refl)) as H. unfold digit_val in E. rewrite <- (byteN_bN c). replace (bN c) with 48%N by lia. reflexivity.
Qed.

Lemma v4_number_iff s n : v4_number s = Some n <-> decimal_text n s /\ (n <= 255)%N.
Proof.
  rewrite decimal_text_iff. split.
  - unfold v4_number. destruct s as [|c r]; [discriminate|]. destruct (forallb is_digit (c :: r)) eqn:Ed; [|discriminate].
    destruct (negb (Byte.eqb c x30) || is_empty r) eqn:Ez; [|discriminate]. destruct (dec_value (c :: r) <=? 255)%N eqn:El; [|discriminate].
    cbn [andb]. intros E. apply (f_equal (fun o => match o with Some x => x | None => 0%N end)) in E. cbv beta iota in E. subst n.
    apply N.leb_le in El. split; [|exact El]. symmetry. apply dec_print_value; [exact Ed|]. destruct (Byte.eqb c x30) eqn:E0.
    + apply byte_eqb_eq in E0 as ->. destruct r; [left; reflexivity | discriminate].
    + right. exists c, r. split; [reflexivity|]. intros ->. discriminate.
  - intros [-> Hn]. pose proof (dec_print_digits n) as Hd. pose proof (dec_value_print n) as Hv.
    destruct (dec_print_head n) as (c & r & E & _ & H0). rewrite E in *. unfold v4_number. rewrite Hd, Hv, (proj2 (N.leb_le _ _) Hn).
    destruct (Byte.eqb c x30) eqn:E0; [|reflexivity]. apply byte_eqb_eq in E0. destruct (H0 E0) as [-> _]. reflexivity.
Qed.

Lemma decimal_no c n t : is_digit c = false -> decimal_text n t -> ~ In c t.
Proof.
  intros Hc Ht Hi. apply decimal_text_iff in Ht as ->. pose proof (dec_print_digits n) as H. rewrite forallb_forall in H. apply H in Hi. congruence.
Qed.

Lemma v4_pieces_iff s l : v4_pieces s = Some l <-> dotted l s.
Proof.
  split.
  - unfold v4_pieces. destruct (split_on_join x2e s) as [Hj _]. destruct (split_on x2e s) as [|ta [|tb [|tc [|td [|? ?]]]]]; try discriminate;
      cbn [map]; try (repeat match goal with |- context [match v4_number ?x with _ => _ end] => destruct (v4_number x) end; discriminate).
    destruct (v4_number ta) as [a|] eqn:Ea; [|discriminate]. destruct (v4_number tb) as [b|] eqn:Eb; [|discriminate].
    destruct (v4_number tc) as [c|] eqn:Ec; [|discriminate]. destruct (v4_number td) as [d|] eqn:Ed; [|discriminate].
    intros E. apply (f_equal (fun o => match o with Some x => x | None => [] end)) in E. cbv beta iota in E. subst l.
    apply v4_number_iff in Ea as [? ?], Eb as [? ?], Ec as [? ?], Ed as [? ?].
    exists a, b, c, d, ta, tb, tc, td. repeat (split; [assumption|]). split; [auto|]. split; [symmetry; exact Hj|]. rewrite !(N.mul_comm _ 256). reflexivity.
  - intros (a & b & c & d & ta & tb & tc & td & Ha & Hb & Hc & Hd & (? & ? & ? & ?) & -> & ->). unfold v4_pieces.
    change (ta ++ B "." ++ tb ++ B "." ++ tc ++ B "." ++ td) with (ta ++ x2e :: tb ++ x2e :: tc ++ x2e :: td).
    rewrite !split_on_app, split_on_none by (eapply decimal_no; [reflexivity | eassumption]). cbn [map].
    rewrite (proj2 (v4_number_iff ta a)), (proj2 (v4_number_iff tb b)), (proj2 (v4_number_iff tc c)), (proj2 (v4_number_iff td d)) by auto.
    rewrite !(N.mul_comm _ 256). reflexivity.
Qed.

Lemma dotted_first l t : dotted l t -> exists ds r, hex_digits 4 t = (ds, x2e :: r) /\ ds <> [] /\ length l = 2%nat /\ exists c u, t = c :: u /\ Byte.eqb c x3a = false.
Proof.
  intros (a & b & c & d & ta & tb & tc & td & Ha & _ & _ & _ & (Hle & _) & -> & ->).
  assert (exists ds, Forall2 hex_letter ta ds /\ (length ta <= 4)%nat /\ ta <> []) as (ds & H1 & H2 & H3).
  { apply decimal_text_iff in Ha as ->. assert (length (dec_print a) <= 4)%nat as Hl.
    { destruct (dec_print_head a) as (x & r & E & Hx & H0). pose proof (dec_value_print a) as Hv. rewrite E in *. pose proof (dec_print_digits a) as Hd. rewrite E in Hd.
      destruct (Nat.le_gt_cases (length (x :: r)) 4) as [|Hgt]; [assumption|]. exfalso.
      assert (x <> x30) as Hx0. { intros ->. destruct (H0 eq_refl) as [-> _]. cbn in Hgt. lia. }
      unfold dec_value in Hv. cbn [map] in Hv. rewrite <- place_value_digits in Hv. cbn [place_value] in Hv. rewrite map_length in Hv.
      cbn [length] in Hgt. assert (1 <= digit_val x)%N as Hdv.
      { unfold digit_val. unfold is_digit in Hx. destruct (N.eq_dec (bN x) 48) as [E48|]; [|lia]. destruct Hx0. rewrite <- (byteN_bN x), E48. reflexivity. }
      assert (10 ^ 4 <= 10 ^ N.of_nat (length r))%N as Hp by (apply N.pow_le_mono_r; lia). change (10 ^ 4)%N with 10000%N in Hp. clear - Hv Hdv Hp Hle. nia. }
    exists (map digit_val (dec_print a)). split; [|split; [exact Hl | apply dec_print_nonnil]].
    pose proof (dec_print_digits a) as Hd. induction (dec_print a) as [|x l IH]; cbn [map]; constructor.
    - cbn [forallb] in Hd. apply andb_true_iff in Hd as [Hd _]. unfold is_digit in Hd. unfold hex_letter, digit_val. lia.
    - apply IH; [cbn [length] in Hl; lia|]. cbn [forallb] in Hd. apply andb_true_iff in Hd. apply Hd. }
  exists ds, (tb ++ B "." ++ tc ++ B "." ++ td). split; [apply hex_digits_complete; [exact H1 | exact H2 | reflexivity]|].
  split; [intros ->; inversion H1; subst; contradiction|]. split; [reflexivity|].
  destruct H1 as [|x dx ta ds Hx _]; [contradiction|]. eexists x, _. split; [reflexivity|].
  destruct (Byte.eqb x x3a) eqn:E; [|reflexivity]. apply byte_eqb_eq in E as ->. apply hex_digit_iff in Hx. discriminate.
Qed.

(* ------------------------------------------------------------------ the loop *)

Lemma ending_head l t : ending l t -> exists c u, t = c :: u /\ Byte.eqb c x3a = false.
Proof.
  intros H. destruct H as [n t H | l t H | n t l u H _].
  - apply piece_head in H. exact H.
  - destruct (dotted_first _ _ H) as (_ & _ & _ & _ & _ & Hc). exact Hc.
  - apply piece_head in H as (c & r & -> & Hc). exists c, (r ++ B ":" ++ u). split; [reflexivity | exact Hc].
Qed.

Lemma ending_length l t : ending l t -> (1 <= length l)%nat.
Proof. intros H. destruct H as [n t H | l t H | n t l u H _]; cbn [length]; try lia. destruct (dotted_first _ _ H) as (_ & _ & _ & _ & -> & _). lia. Qed.

Lemma v6_loop_ending b t : ending b t -> forall fuel P comp, (length P + length b <= 8)%nat -> (length t <= fuel)%nat -> v6_loop fuel P comp t = Some (P ++ b, comp).
Proof.
  induction 1 as [n t H | l t H | n t l u H Hl IH]; intros fuel P comp HP Hf.
  - destruct (piece_head _ _ H) as (c & r & E & Hc). destruct (piece_hex n t [] H I) as (ds & Ed & <- & _). rewrite app_nil_r in Ed.
    destruct fuel as [|f]; [subst t; cbn in Hf; lia|]. rewrite E in *. cbn [v6_loop]. cbn [length] in HP.
    rewrite (proj2 (Nat.eqb_neq (length P) 8)) by lia. rewrite Hc, Ed. reflexivity.
  - destruct (dotted_first _ _ H) as (ds & r & Ed & Hds & Hl & c & u & E & Hc). apply v4_pieces_iff in H.
    destruct fuel as [|f]; [subst t; cbn in Hf; lia|]. rewrite E in *. cbn [v6_loop].
    rewrite (proj2 (Nat.eqb_neq (length P) 8)) by lia. rewrite Hc, Ed. rewrite (proj2 (Nat.ltb_ge 6 (length P))) by lia.
    destruct ds; [contradiction|]. cbn [orb is_empty]. rewrite H. reflexivity.
  - destruct (piece_head _ _ H) as (c & r & E & Hc). destruct (piece_hex n t (x3a :: u) H eq_refl) as (ds & Ed & <- & _).
    change (B ":" ++ u) with (x3a :: u) in *. rewrite app_length in Hf. cbn [length] in Hf, HP.
    destruct fuel as [|f]; [lia|]. rewrite E in *. cbn [app] in *. cbn [v6_loop]. rewrite (proj2 (Nat.eqb_neq (length P) 8)) by lia. rewrite Hc, Ed.
    destruct (ending_head _ _ Hl) as (x & y & -> & _). cbn [is_empty]. rewrite IH; [rewrite <- app_assoc; reflexivity | rewrite app_length; cbn [length]; lia | cbn [length] in *; lia].
Qed.

(** "::" after the pieces [a], then the rest [b]. *)
Lemma v6_loop_gap b tb : (b = [] /\ tb = []) \/ ending b tb -> forall fuel P, (S (length P) + length b <= 8)%nat -> (S (length tb) <= fuel)%nat ->
  v6_loop fuel P None (x3a :: tb) = Some (P ++ [0%N] ++ b, Some (S (length P))).
Proof.
  intros Hb fuel P HP Hf. destruct fuel as [|f]; [lia|]. cbn [v6_loop]. rewrite (proj2 (Nat.eqb_neq (length P) 8)) by lia. rewrite byte_eqb_refl.
  destruct Hb as [[-> ->] | Hb].
  - destruct f; reflexivity.
  - rewrite (v6_loop_ending b tb Hb) by (rewrite ?app_length; cbn [length]; lia). rewrite <- app_assoc. reflexivity.
Qed.

Lemma v6_loop_pieces a ta : pieces piece a ta -> forall b tb fuel P, (b = [] /\ tb = []) \/ ending b tb -> (length P + length a + 1 + length b <= 8)%nat ->
  (length ta + 2 + length tb <= fuel)%nat -> v6_loop fuel P None (ta ++ B "::" ++ tb) = Some (P ++ a ++ [0%N] ++ b, Some (length P + length a + 1)%nat).
Proof.
  induction 1 as [n t H | n t l u H Hl IH]; intros b tb fuel P Hb HP Hf.
  - destruct (piece_head _ _ H) as (c & r & E & Hc). destruct (piece_hex n t (B "::" ++ tb) H eq_refl) as (ds & Ed & <- & _).
    destruct fuel as [|f]; [lia|]. rewrite E in *. cbn [app] in *. cbn [v6_loop]. cbn [length] in HP, Hf. rewrite (proj2 (Nat.eqb_neq (length P) 8)) by lia. rewrite Hc, Ed.
    change (B "::" ++ tb) with (x3a :: x3a :: tb). cbn [is_empty]. rewrite (v6_loop_gap b tb Hb) by (rewrite ?app_length; cbn [length]; lia).
    rewrite <- app_assoc, app_length. cbn [length app]. repeat f_equal. lia.
  - destruct (piece_head _ _ H) as (c & r & E & Hc). destruct (piece_hex n t (x3a :: (u ++ B "::" ++ tb)) H eq_refl) as (ds & Ed & <- & _).
    rewrite !app_length in Hf. cbn [length] in Hf, HP. change (length (B ":")) with 1%nat in Hf.
    destruct fuel as [|f]; [lia|]. rewrite <- !app_assoc. change (B ":" ++ u ++ B "::" ++ tb) with (x3a :: (u ++ B "::" ++ tb)).
    rewrite E in *. cbn [app] in *. cbn [v6_loop]. rewrite (proj2 (Nat.eqb_neq (length P) 8)) by lia. rewrite Hc, Ed.
    assert (is_empty (u ++ x3a :: x3a :: tb) = false) as He by (destruct u; reflexivity).
    change (u ++ B "::" ++ tb) with (u ++ x3a :: x3a :: tb) at 1. rewrite He. rewrite (IH b tb f (P ++ [of_digits 16 ds]) Hb) by (rewrite ?app_length; cbn [length] in *; lia).
    rewrite <- app_assoc, app_length. cbn [length app]. replace (length P + 1 + length l + 1)%nat with (length P + S (length l) + 1)%nat by lia. reflexivity.
Qed.

Lemma v6_loop_sound fuel : forall P comp s P' comp', v6_loop fuel P comp s = Some (P', comp') -> (length P <= 8)%nat ->
  (length P' <= 8)%nat /\
  ((comp' = comp /\ exists b, P' = P ++ b /\ (b = [] /\ s = [] \/ ending b s)) \/
   (comp = None /\ exists a b ta tb, P' = P ++ a ++ [0%N] ++ b /\ comp' = Some (length P + length a + 1)%nat /\
      (a = [] /\ s = B ":" ++ tb \/ pieces piece a ta /\ s = ta ++ B "::" ++ tb) /\ (b = [] /\ tb = [] \/ ending b tb))).
Proof.
  induction fuel as [|f IH]; intros P comp s P' comp' H HP.
  - destruct s; [|discriminate]. cbn [v6_loop] in H. injection H as <- <-. split; [exact HP|]. left. split; [reflexivity|]. exists []. rewrite app_nil_r. auto.
  - destruct s as [|c s]; cbn [v6_loop] in H.
    { injection H as <- <-. split; [exact HP|]. left. split; [reflexivity|]. exists []. rewrite app_nil_r. auto. }
    destruct (Nat.eqb_spec (length P) 8) as [|H8]; [discriminate|]. destruct (Byte.eqb c x3a) eqn:Ec.
    + apply byte_eqb_eq in Ec as ->. destruct comp as [|]; [discriminate|].
      apply IH in H as [Hl H]; [|rewrite app_length; cbn [length]; lia]. split; [exact Hl|]. right. split; [reflexivity|].
      destruct H as [(-> & b & -> & Hb) | (? & _)]; [|discriminate]. exists [], b, [], s. rewrite <- app_assoc. cbn [length].
      split; [reflexivity|]. split; [f_equal; lia|]. split; [left; split; reflexivity|].
      destruct Hb as [[-> ->] | Hb]; [left; split; reflexivity | right; exact Hb].
    + destruct (hex_digits 4 (c :: s)) as [ds r] eqn:Ed. destruct (hex_digits_sound _ _ _ _ Ed) as (t & Es & Hh & Ht & Hn).
      assert (r <> c :: s -> piece (of_digits 16 ds) t) as Hp.
      { intros Hr. exists ds. split; [exact Hh|]. split; [|apply place_value_digits]. destruct t; [destruct Hr; symmetry; exact Es | cbn [length] in *; lia]. }
      destruct r as [|x r].
      * injection H as <- <-. rewrite app_length. cbn [length]. split; [lia|]. left. split; [reflexivity|]. exists [of_digits 16 ds]. split; [reflexivity|]. right.
        rewrite Es, app_nil_r. apply EN_one, Hp. discriminate.
      * assert (x = x2e \/ x = x3a \/ (x <> x2e /\ x <> x3a)) as [-> | [-> | [Hx1 Hx2]]].
        { destruct (Byte.eqb x x2e) eqn:E1; [left; apply byte_eqb_eq, E1|]. destruct (Byte.eqb x x3a) eqn:E2; [right; left; apply byte_eqb_eq, E2|].
          right. right. split; intros ->; discriminate. }
        { destruct (Nat.ltb_spec 6 (length P)) as [|H6]; [discriminate|]. destruct (is_empty ds); [discriminate|]. cbn [orb] in H.
          destruct (v4_pieces (c :: s)) as [l|] eqn:E4; [|discriminate]. injection H as <- <-. apply v4_pieces_iff in E4.
          destruct (dotted_first _ _ E4) as (_ & _ & _ & _ & Hl & _). rewrite app_length, Hl. split; [lia|]. left. split; [reflexivity|]. exists l.
          split; [reflexivity|]. right. apply EN_dotted, E4. }
        { destruct (is_empty r) eqn:Er; [discriminate|]. assert (piece (of_digits 16 ds) t) as Hpt. { apply Hp. intros E. injection E as <- _. discriminate. }
          apply IH in H as [Hl H]; [|rewrite app_length; cbn [length]; lia]. split; [exact Hl|].
          destruct H as [(-> & b & -> & Hb) | (-> & a & b & ta & tb & -> & -> & Ha & Hb)].
          - left. split; [reflexivity|]. exists (of_digits 16 ds :: b). rewrite <- app_assoc. split; [reflexivity|]. right.
            destruct Hb as [[_ ->] | Hb]; [discriminate|]. rewrite Es. change (t ++ x3a :: r) with (t ++ B ":" ++ r). apply EN_more; assumption.
          - right. split; [reflexivity|]. rewrite app_length. cbn [length]. destruct Ha as [[-> E] | [Ha E]].
            + exists [of_digits 16 ds], b, t, tb. rewrite <- app_assoc. split; [reflexivity|]. cbn [length]. split; [f_equal; lia|]. split; [|exact Hb]. right.
              split; [apply PS_one, Hpt|]. rewrite Es, E. reflexivity.
            + exists (of_digits 16 ds :: a), b, (t ++ B ":" ++ ta), tb. rewrite <- app_assoc. split; [reflexivity|]. cbn [length]. split; [f_equal; lia|]. split; [|exact Hb]. right.
              split; [apply PS_more; assumption|]. rewrite Es, E, <- !app_assoc. reflexivity. }
        { exfalso. revert H. clear - Hx1 Hx2. destruct x; try discriminate; [destruct Hx1 | destruct Hx2]; reflexivity. }
Qed.

Lemma gap_shape (a b : list N) (z : nat) : (1 <= z)%nat -> (length a + z + length b = 8)%nat ->
  v6_finish (a ++ [0%N] ++ b) (Some (length a + 1)%nat) = Some (a ++ repeat 0%N z ++ b).
Proof.
  intros Hz Hl. unfold v6_finish. rewrite (app_assoc a [0%N] b). set (a0 := a ++ [0%N]).
  assert (length a + 1 = length a0)%nat as -> by (unfold a0; rewrite app_length; reflexivity).
  assert (firstn (length a0) (a0 ++ b) = a0) as -> by (rewrite firstn_app, Nat.sub_diag, firstn_all, firstn_O, app_nil_r; reflexivity).
  assert (skipn (length a0) (a0 ++ b) = b) as -> by (rewrite skipn_app, Nat.sub_diag, skipn_all, skipn_O; reflexivity).
  unfold a0. rewrite !app_length, <- app_assoc. cbn [length app].
  replace (8 - (length a + 1 + length b))%nat with (z - 1)%nat by lia. destruct z as [|z]; [lia|]. cbn [repeat app]. rewrite Nat.sub_succ, Nat.sub_0_r. reflexivity.
Qed.

Lemma gap_back (a b l : list N) : (length (a ++ [0%N] ++ b) <= 8)%nat -> v6_finish (a ++ [0%N] ++ b) (Some (length a + 1)%nat) = Some l ->
  exists z, (1 <= z)%nat /\ l = a ++ repeat 0%N z ++ b /\ length l = 8%nat.
Proof.
  intros Hl H. rewrite !app_length in Hl. cbn [length] in Hl. exists (8 - length a - length b)%nat. rewrite (gap_shape a b (8 - length a - length b)) in H by lia.
  apply (f_equal (fun o => match o with Some x => x | None => [] end)) in H. cbv beta iota in H. subst l. split; [lia|]. split; [reflexivity|].
  rewrite !app_length, repeat_length. lia.
Qed.

Lemma ending_long b t : ending b t -> length b = 8%nat -> exists c d r, t = c :: d :: r.
Proof.
  intros H. destruct H as [n t H | l t H | n t l u H Hl]; intros H8; [cbn in H8; lia | destruct (dotted_first _ _ H) as (_ & _ & _ & _ & E & _); lia |].
  destruct (piece_head _ _ H) as (c & r & -> & _). cbn [app]. destruct r as [|d r]; eexists c, _, _; reflexivity.
Qed.

Lemma v6_parse_plain c s : Byte.eqb c x3a = false -> s <> [] -> v6_parse (c :: s) = let?? (l, compress) := v6_loop (length (c :: s)) [] None (c :: s) in v6_finish l compress.
Proof. intros Hc Hs. unfold v6_parse. destruct s as [|d s]; [contradiction|]. destruct c; try reflexivity. discriminate. Qed.

Lemma v6_parse_iff t l : v6_parse t = Some l <-> address_text t l.
Proof.
  split.
  - intros H. destruct t as [|c t]; [discriminate|]. destruct (Byte.eqb c x3a) eqn:Ec.
    + apply byte_eqb_eq in Ec as ->. unfold v6_parse in H. destruct t as [|d t]; [discriminate|]. destruct (Byte.eqb d x3a) eqn:Ed; [|destruct d; discriminate].
      apply byte_eqb_eq in Ed as ->. destruct (v6_loop _ [0%N] (Some 1%nat) t) as [[P' comp']|] eqn:E; [|discriminate].
      apply v6_loop_sound in E as [Hl E]; [|cbn [length]; lia]. destruct E as [(-> & b & -> & Hb) | (? & _)]; [|discriminate].
      apply (gap_back [] b l) in H as (z & Hz & -> & H8); [|exact Hl]. split; [exact H8|]. right. exists [], z, b, [], t.
      split; [reflexivity|]. split; [exact Hz|]. split; [reflexivity|]. split; [left; auto | exact Hb].
    + destruct t as [|d t]; [unfold v6_parse in H; destruct c; discriminate|]. rewrite v6_parse_plain in H by (try exact Ec; discriminate).
      destruct (v6_loop _ [] None (c :: d :: t)) as [[P' comp']|] eqn:E; [|discriminate].
      apply v6_loop_sound in E as [Hl E]; [|cbn [length]; lia]. destruct E as [(-> & b & -> & Hb) | (_ & a & b & ta & tb & -> & -> & Ha & Hb)].
      * cbn [v6_finish app] in H. destruct (Nat.eqb_spec (length b) 8) as [H8|]; [|discriminate]. apply (f_equal (fun o => match o with Some x => x | None => [] end)) in H.
        cbv beta iota in H. subst l. split; [exact H8|]. left. destruct Hb as [[-> _] | Hb]; [discriminate | exact Hb].
      * cbn [app length Nat.add] in H, Hl. apply (gap_back a b l) in H as (z & Hz & -> & H8); [|exact Hl]. split; [exact H8|]. right.
        destruct Ha as [[_ Ha] | [Ha Hs]]; [injection Ha as -> _; discriminate|]. exists a, z, b, ta, tb. split; [reflexivity|]. split; [exact Hz|]. split; [exact Hs|]. auto.
  - intros (H8 & [He | (a & z & b & ta & tb & -> & Hz & -> & Ha & Hb)]).
    + destruct (ending_long _ _ He H8) as (c & d & r & ->). destruct (ending_head _ _ He) as (c' & r' & E & Hc). injection E as <- _.
      rewrite v6_parse_plain by (try exact Hc; discriminate). rewrite (v6_loop_ending l _ He) by (cbn [length]; lia). cbn [v6_finish app]. rewrite H8. reflexivity.
    + rewrite !app_length, repeat_length in H8. destruct Ha as [[-> ->] | Ha].
      * cbn [app length] in *. change (B "::" ++ tb) with (x3a :: x3a :: tb). unfold v6_parse.
        assert (v6_loop (length (x3a :: x3a :: tb)) [0%N] (Some 1%nat) tb = Some ([0%N] ++ b, Some 1%nat)) as ->.
        { destruct Hb as [[-> ->] | Hb]; [reflexivity|]. apply (v6_loop_ending b tb Hb _ [0%N]); clear - H8 Hz; cbn [length] in *; lia. }
        apply (gap_shape [] b z); [exact Hz | cbn [length]; lia].
      * assert (exists c r, ta = c :: r /\ Byte.eqb c x3a = false) as (c & r & -> & Hc).
        { destruct Ha as [n t H | n t k u H _]; destruct (piece_head _ _ H) as (c & r & -> & Hc); eexists _, _; (split; [reflexivity | exact Hc]). }
        cbn [app]. rewrite v6_parse_plain by (try exact Hc; destruct r; discriminate). change (c :: r ++ B "::" ++ tb) with ((c :: r) ++ B "::" ++ tb).
        rewrite (v6_loop_pieces a (c :: r) Ha b tb) by (try exact Hb; rewrite ?app_length; change (length (B "::")) with 2%nat; cbn [length]; lia).
        apply (gap_shape a b z); [exact Hz | lia].
Qed.

Lemma address_text_unique t l l' : address_text t l -> address_text t l' -> l = l'.
Proof. intros H H'. apply v6_parse_iff in H, H'. congruence. Qed.

Lemma place_value_lt b ds : Forall (fun d => d < b)%N ds -> (place_value b ds < b ^ N.of_nat (length ds) \/ ds = [])%N.
Proof.
  induction 1 as [|d ds Hd _ IH]; [right; reflexivity|]. left. cbn [place_value length]. rewrite Nat2N.inj_succ, N.pow_succ_r'.
  destruct IH as [IH | ->]; [|cbn [place_value length]; change (N.of_nat 0) with 0%N; rewrite N.pow_0_r; lia]. set (p := (b ^ N.of_nat (length ds))%N) in *. clearbody p. nia.
Qed.

Lemma piece_lt n t : piece n t -> (n < 65536)%N.
Proof.
  intros (ds & H1 & H2 & <-). pose proof (same_length _ _ _ H1) as Hl. apply hex_letters_lt in H1. destruct (place_value_lt 16 ds H1) as [H | ->]; [|reflexivity].
  eapply N.lt_le_trans; [exact H|]. change 65536%N with (16 ^ 4)%N. apply N.pow_le_mono_r; lia.
Qed.

Lemma ending_lt l t : ending l t -> Forall (fun n => n < 65536)%N l.
Proof.
  induction 1 as [n t H | l t H | n t l u H _ IH]; [constructor; [eapply piece_lt, H | constructor] | | constructor; [eapply piece_lt, H | exact IH]].
  destruct H as (a & b & c & d & ta & tb & tc & td & _ & _ & _ & _ & (? & ? & ? & ?) & _ & ->). repeat constructor; lia.
Qed.

Lemma pieces_lt l t : pieces piece l t -> Forall (fun n => n < 65536)%N l.
Proof. induction 1 as [n t H | n t l u H _ IH]; constructor; try (eapply piece_lt, H); [constructor | exact IH]. Qed.

Lemma address_text_address t l : address_text t l -> address l.
Proof.
  intros (H8 & H). split; [exact H8|]. destruct H as [H | (a & z & b & ta & tb & -> & _ & _ & Ha & Hb)]; [eapply ending_lt, H|].
  apply Forall_app. split; [destruct Ha as [[-> _] | Ha]; [constructor | eapply pieces_lt, Ha]|]. apply Forall_app.
  split; [clear; induction z; cbn [repeat]; constructor; [reflexivity | assumption] | destruct Hb as [[-> _] | Hb]; [constructor | eapply ending_lt, Hb]].
Qed.

(* ------------------------------------------------------------------ printing *)

Lemma hex_lower_iff c d : hex_letter c d /\ ~ (65 <= bN c <= 70)%N <-> (d < 16)%N /\ c = hex_lower d.
Proof.
  unfold hex_letter, hex_lower. split.
  - intros [H Hn]. split; [lia|]. apply bN_inj. destruct (N.ltb_spec d 10); rewrite bN_byteN by lia; lia.
  - intros [Hd ->]. destruct (N.ltb_spec d 10); rewrite bN_byteN by lia; lia.
Qed.

Lemma lower_letters t ds : Forall2 (fun c d => hex_letter c d /\ ~ (65 <= bN c <= 70)%N) t ds <-> Forall (fun d => d < 16)%N ds /\ t = map hex_lower ds.
Proof.
  split.
  - induction 1 as [|c d t ds Hc _ [IH ->]]; [split; constructor|]. apply hex_lower_iff in Hc as [Hd ->]. split; [constructor; assumption | reflexivity].
  - intros [H ->]. induction H as [|d ds Hd _ IH]; cbn [map]; constructor; [apply hex_lower_iff; auto | exact IH].
Qed.

Lemma short_piece_iff n t : short_piece n t <-> t = hex_print n.
Proof.
  unfold hex_print. split.
  - intros (ds & H & <- & Hz). apply lower_letters in H as [Hf ->]. rewrite place_value_digits. destruct Hz as [-> | [Hne Hh]]; [reflexivity|].
    pose proof (to_of_digits 16 ltac:(lia) ds (conj Hf Hh)) as Ht.
    destruct (N.eqb_spec (of_digits 16 ds) 0) as [E|_]; [|rewrite Ht; reflexivity]. rewrite E in Ht. cbn in Ht. congruence.
  - intros ->. destruct (N.eqb_spec n 0) as [-> | Hne].
    + exists [0%N]. split; [apply lower_letters; split; [constructor; [lia | constructor] | reflexivity]|]. split; [reflexivity | left; reflexivity].
    + destruct (to_digits_canonical 16 ltac:(lia) n) as [Hf Hh]. exists (to_digits 16 n). split; [apply lower_letters; auto|].
      split; [rewrite place_value_digits; apply to_digits_value; lia|]. right. split; [|exact Hh]. rewrite to_digits_zero by lia. exact Hne.
Qed.

Lemma short_piece_piece n t : short_piece n t -> (n < 65536)%N -> piece n t.
Proof.
  intros (ds & H & <- & Hz) Hn. exists ds. split; [clear - H; induction H as [|c d t ds [Hc _] _ IH]; constructor; assumption|]. split; [|reflexivity].
  rewrite (same_length _ _ _ H). destruct Hz as [-> | [Hne Hh]]; [cbn [length]; lia|]. destruct ds as [|d ds]; [contradiction|]. cbn [no_leading_zero] in Hh.
  cbn [place_value] in Hn. cbn [length]. split; [lia|]. destruct (Nat.le_gt_cases (length ds) 3) as [|Hg]; [lia|]. exfalso.
  assert (16 ^ 4 <= 16 ^ N.of_nat (length ds))%N as Hp by (apply N.pow_le_mono_r; lia). change (16 ^ 4)%N with 65536%N in Hp. clear - Hn Hh Hp. nia.
Qed.

Lemma v6_join_iff l t : v6_join l = t <-> (l = [] /\ t = [] \/ pieces short_piece l t).
Proof.
  revert t. induction l as [|n l IH]; intros t.
  - cbn [v6_join]. split; [intros <-; auto | intros [[_ ->] | H]; [reflexivity | inversion H]].
  - split.
    + intros <-. right. destruct l as [|m l]; [apply PS_one, short_piece_iff; reflexivity|].
      change (v6_join (n :: m :: l)) with (hex_print n ++ B ":" ++ v6_join (m :: l)). apply PS_more; [apply short_piece_iff; reflexivity|].
      destruct (proj1 (IH (v6_join (m :: l))) eq_refl) as [[? _] | H]; [discriminate | exact H].
    + intros [[? _] | H]; [discriminate|]. inversion H as [m u Hm | m u k v Hm Hk]; subst.
      * apply short_piece_iff in Hm as ->. reflexivity.
      * apply short_piece_iff in Hm as ->. destruct l as [|m l]; [inversion Hk|]. rewrite <- (proj2 (IH v) (or_intror Hk)). reflexivity.
Qed.

Lemma nth_firstn_lt {T} (d : T) n l : forall k, (k < n)%nat -> nth k (firstn n l) d = nth k l d.
Proof. revert l. induction n as [|n IH]; intros l k Hk; [lia|]. destruct l as [|x l]; [reflexivity|]. destruct k; [reflexivity|]. cbn [firstn nth]. apply IH. lia. Qed.

Lemma nth_skipn_add {T} (d : T) n l : forall k, nth k (skipn n l) d = nth (n + k) l d.
Proof. revert l. induction n as [|n IH]; intros l k; [reflexivity|]. destruct l as [|x l]; [destruct k; reflexivity|]. cbn [skipn Nat.add nth]. apply IH. Qed.

Lemma skipn_plus {T} n m (l : list T) : skipn n (skipn m l) = skipn (n + m) l.
Proof. revert l. induction m as [|m IH]; intros l; [rewrite Nat.add_0_r; reflexivity|]. rewrite Nat.add_succ_r. destruct l as [|x l]; [rewrite !skipn_nil; reflexivity | cbn [skipn]; apply IH]. Qed.

(** Zeros at [s], [s + 1], ... up to [n] of them. *)
Definition run (l : list N) (s n : nat) : Prop := (s + n <= length l)%nat /\ forall k, (s <= k < s + n)%nat -> nth k l 1%N = 0%N.

Lemma run_iff l s n : run l s n <-> exists a b, l = a ++ repeat 0%N n ++ b /\ length a = s.
Proof.
  split.
  - intros [Hl H]. exists (firstn s l), (skipn (s + n) l). split; [|apply firstn_length_le; lia].
    assert (firstn n (skipn s l) = repeat 0%N n) as E.
    { apply nth_ext with (d := 1%N) (d' := 1%N); [rewrite repeat_length, firstn_length_le; [reflexivity | rewrite skipn_length; lia]|].
      rewrite firstn_length_le by (rewrite skipn_length; lia). intros k Hk. rewrite nth_firstn_lt by exact Hk. rewrite nth_skipn_add. rewrite H by lia.
      symmetry. apply (repeat_spec n). apply nth_In. rewrite repeat_length. exact Hk. }
    rewrite <- E, <- (firstn_skipn s l) at 1. f_equal. rewrite Nat.add_comm, <- skipn_plus. symmetry. apply firstn_skipn.
  - intros (a & b & -> & <-). split; [rewrite !app_length, repeat_length; lia|]. intros k Hk. rewrite app_nth2 by lia. rewrite app_nth1 by (rewrite repeat_length; lia).
    apply (repeat_spec n). apply nth_In. rewrite repeat_length. lia.
Qed.

Definition beaten (best : option (nat * nat)) (s n : nat) : Prop := exists s' n', best = Some (s', n') /\ (n < n' \/ n = n' /\ s' <= s)%nat.

Definition searching (l : list N) (i : nat) (start : option nat) (best : option (nat * nat)) : Prop :=
  (i <= length l)%nat /\
  match start with
  | Some s => (s < i)%nat /\ run l s (i - s) /\ (s = O \/ nth (s - 1) l 1 <> 0)%N
  | None => (i = O \/ nth (i - 1) l 1 <> 0)%N
  end /\
  (forall s n, (1 <= n)%nat -> (s + n <= i)%nat -> run l s n -> (exists s0, start = Some s0 /\ s0 <= s)%nat \/ beaten best s n) /\
  match best with
  | Some (s', n') => (1 <= n')%nat /\ run l s' n' /\ (s' + n' <= i)%nat /\ match start with Some s0 => (s' <= s0)%nat | None => True end
  | None => True
  end.

Lemma searching_finish l i start best : searching l i start best ->
  (forall s n, (1 <= n)%nat -> (s + n <= i)%nat -> run l s n -> beaten (finish_sequence i start best) s n) /\
  match finish_sequence i start best with Some (s', n') => (1 <= n')%nat /\ run l s' n' /\ (s' + n' <= i)%nat | None => True end.
Proof.
  intros (Hi & Hs & Hr & Hb). destruct start as [s0|]; cbn [finish_sequence].
  - destruct Hs as (Hlt & Hrun & _). destruct best as [[s' n']|].
    + destruct Hb as (H1 & H2 & H3 & H4). destruct (Nat.ltb_spec n' (i - s0)) as [Hn|Hn].
      * split; [|split; [lia | split; [exact Hrun | lia]]]. intros s n H1' H2' H3'. exists s0, (i - s0)%nat. split; [reflexivity|].
        destruct (Hr s n H1' H2' H3') as [(? & E & Hle) | (s1 & n1 & E & Hle)]; [injection E as <-; lia | injection E as <- <-; lia].
      * split; [|auto]. intros s n H1' H2' H3'. exists s', n'. split; [reflexivity|].
        destruct (Hr s n H1' H2' H3') as [(? & E & Hle) | (s1 & n1 & E & Hle)]; [injection E as <-; lia | injection E as <- <-; lia].
    + split; [|split; [lia | split; [exact Hrun | lia]]]. intros s n H1' H2' H3'. exists s0, (i - s0)%nat. split; [reflexivity|].
      destruct (Hr s n H1' H2' H3') as [(? & E & Hle) | (s1 & n1 & E & Hle)]; [injection E as <-; lia | discriminate].
  - split.
    + intros s n H1' H2' H3'. destruct (Hr s n H1' H2' H3') as [(? & E & Hle) | H]; [discriminate | exact H].
    + destruct best as [[s' n']|]; [|exact I]. destruct Hb as (H1 & H2 & H3 & _). auto.
Qed.

Lemma run_shorter l s n n' : run l s n -> (n' <= n)%nat -> run l s n'.
Proof. intros [H1 H2] Hn. split; [lia|]. intros k Hk. apply H2. lia. Qed.

Lemma zero_sequence_search l r : forall i start best, searching l i start best -> skipn i l = r ->
  (forall s n, (1 <= n)%nat -> run l s n -> beaten (zero_sequence i start best r) s n) /\
  match zero_sequence i start best r with Some (s', n') => run l s' n' | None => True end.
Proof.
  induction r as [|p r IH]; intros i start best Hq E.
  - cbn [zero_sequence]. assert (i = length l) as Ei.
    { destruct Hq as [Hi _]. apply (f_equal (@length N)) in E. rewrite skipn_length in E. cbn [length] in E. lia. }
    destruct (searching_finish _ _ _ _ Hq) as [H1 H2]. split.
    + intros s n Hn Hr. apply H1; [exact Hn | destruct Hr; lia | exact Hr].
    + destruct (finish_sequence i start best) as [[s' n']|]; [apply H2 | exact I].
  - assert (nth i l 1%N = p /\ skipn (S i) l = r /\ (S i <= length l)%nat) as (Ep & Er & Hi).
    { split; [|split].
      - rewrite <- (Nat.add_0_r i). rewrite <- nth_skipn_add, E. reflexivity.
      - replace (S i) with (1 + i)%nat by lia. rewrite <- skipn_plus, E. reflexivity.
      - apply (f_equal (@length N)) in E. rewrite skipn_length in E. cbn [length] in E. lia. }
    cbn [zero_sequence]. destruct (N.eqb_spec p 0) as [Hz|Hz].
    + apply IH; [|exact Er]. destruct Hq as (_ & Hs & Hr & Hb). rewrite Hz in Ep. split; [exact Hi|]. split; [|split].
      * destruct start as [s0|].
        { destruct Hs as (H1 & [_ H2] & H3). split; [lia|]. split; [|exact H3]. split; [lia|]. intros k Hk. destruct (Nat.eq_dec k i) as [-> | ]; [exact Ep | apply H2; lia]. }
        { split; [lia|]. split; [|exact Hs]. split; [lia|]. intros k Hk. replace k with i by lia. exact Ep. }
      * intros s n Hn Hl Hrun. destruct (Nat.le_gt_cases (s + n) i) as [Hle|Hgt].
        { destruct (Hr s n Hn Hle Hrun) as [(s0 & -> & H) | H]; [left; exists s0; auto | right; exact H]. }
        left. destruct start as [s0|].
        { exists s0. split; [reflexivity|]. destruct Hs as (H1 & _ & H3). destruct (Nat.le_gt_cases s0 s) as [|Hlt]; [assumption|]. exfalso.
          destruct H3 as [H3|H3]; [lia|]. apply H3. apply Hrun. lia. }
        { exists i. split; [reflexivity|]. destruct (Nat.le_gt_cases i s) as [|Hlt]; [assumption|]. exfalso. destruct Hs as [Hs|Hs]; [lia|]. apply Hs. apply Hrun. lia. }
      * destruct best as [[s' n']|]; [|exact I]. destruct Hb as (H1 & H2 & H3 & H4). split; [exact H1|]. split; [exact H2|]. split; [lia|]. destruct start; lia.
    + apply IH; [|exact Er]. destruct (searching_finish _ _ _ _ Hq) as [H1 H2]. split; [exact Hi|]. split; [|split].
      * right. rewrite Nat.sub_succ, Nat.sub_0_r, Ep. exact Hz.
      * intros s n Hn Hl Hrun. right. apply H1; [exact Hn | | exact Hrun]. destruct (Nat.le_gt_cases (s + n) i) as [|Hgt]; [assumption|]. exfalso. apply Hz. rewrite <- Ep. apply Hrun. lia.
      * destruct (finish_sequence i start best) as [[s' n']|]; [|exact I]. destruct H2 as (H2 & H3 & H4). split; [exact H2|]. split; [exact H3|]. split; [lia | exact I].
Qed.

Lemma longest_spec l :
  match longest_zero_sequence l with
  | Some (s, n) => (2 <= n)%nat /\ run l s n /\ forall s' n', run l s' n' -> (n' < n \/ n' = n /\ s <= s')%nat
  | None => forall s' n', run l s' n' -> (n' <= 1)%nat
  end.
Proof.
  assert (searching l 0 None None) as Hq.
  { split; [lia|]. split; [left; reflexivity|]. split; [|exact I]. intros s n ? ?. lia. }
  destruct (zero_sequence_search l l 0 None None Hq eq_refl) as [H1 H2]. unfold longest_zero_sequence.
  destruct (zero_sequence 0 None None l) as [[s n]|].
  - destruct (Nat.ltb_spec n 2) as [Hn|Hn].
    + intros s' n' Hr. destruct n' as [|n']; [lia|]. destruct (H1 s' (S n') ltac:(lia) Hr) as (s1 & n1 & E & H). injection E as <- <-. lia.
    + split; [exact Hn|]. split; [exact H2|]. intros s' n' Hr. destruct n' as [|n']; [lia|]. destruct (H1 s' (S n') ltac:(lia) Hr) as (s1 & n1 & E & H). injection E as <- <-. exact H.
  - intros s' n' Hr. destruct n' as [|n']; [lia|]. destruct (H1 s' (S n') ltac:(lia) Hr) as (s1 & n1 & E & H). discriminate.
Qed.

Lemma v6_print_iff l t : l <> [] -> (v6_print l = t <-> canonical_address l t).
Proof.
  intros Hne. unfold v6_print. pose proof (longest_spec l) as H. destruct (longest_zero_sequence l) as [[s n]|].
  - destruct H as (Hn & Hr & Hmax). destruct (proj1 (run_iff l s n) Hr) as (a & b & El & Ha).
    assert (firstn s l = a) as Ea by (rewrite El, <- Ha, firstn_app, Nat.sub_diag, firstn_all, firstn_O, app_nil_r; reflexivity).
    assert (skipn (s + n) l = b) as Eb.
    { rewrite El, app_assoc. replace (s + n)%nat with (length (a ++ repeat 0%N n)) by (rewrite app_length, repeat_length; lia).
      rewrite skipn_app, Nat.sub_diag, skipn_all, skipn_O. reflexivity. }
    rewrite Ea, Eb. split.
    + intros <-. left. exists a, n, b, (v6_join a), (v6_join b). split; [exact El|]. split; [exact Hn|]. split.
      { intros a' z' b' E. rewrite Ha. apply Hmax. apply run_iff. exists a', b'. auto. }
      split; [reflexivity|]. split; apply v6_join_iff; reflexivity.
    + intros [(a' & z' & b' & ta & tb & El' & Hz & Hm & -> & Hta & Htb) | [Hm _]].
      * assert (z' = n /\ length a' = s) as [-> Ha'].
        { pose proof (Hm a n b El). pose proof (Hmax (length a') z' (proj2 (run_iff l _ _) (ex_intro _ a' (ex_intro _ b' (conj El' eq_refl))))). lia. }
        assert (a' = a /\ b' = b) as [-> ->].
        { rewrite El in El'. assert (a = a') as <-.
          { apply (f_equal (firstn s)) in El'. rewrite <- Ha in El' at 1. rewrite <- Ha' in El'.
            rewrite !firstn_app, !Nat.sub_diag, !firstn_all, !firstn_O, !app_nil_r in El'. exact El'. }
          apply app_inv_head in El'. apply app_inv_head in El'. auto. }
        apply v6_join_iff in Hta, Htb. rewrite Hta, Htb. reflexivity.
      * specialize (Hm a n b El). lia.
  - split.
    + intros E. right. split; [|apply v6_join_iff in E as [[? _] | E]; [contradiction | exact E]].
      intros a z b El. apply (H (length a)). apply run_iff. exists a, b. auto.
    + intros [(a & z & b & ta & tb & El & Hz & _) | [_ Hp]].
      * specialize (H (length a) z (proj2 (run_iff l _ _) (ex_intro _ a (ex_intro _ b (conj El eq_refl))))). lia.
      * apply v6_join_iff. right. exact Hp.
Qed.

Lemma short_pieces l t : pieces short_piece l t -> Forall (fun n => n < 65536)%N l -> pieces piece l t.
Proof.
  induction 1 as [n t H | n t l u H _ IH]; intros Hf; inversion Hf as [|? ? Hn Hl]; subst; constructor; try (apply short_piece_piece; assumption). apply IH, Hl.
Qed.

Lemma pieces_ending l t : pieces piece l t -> ending l t.
Proof. induction 1 as [n t H | n t l u H _ IH]; [apply EN_one, H | apply EN_more; assumption]. Qed.

Lemma canonical_read l t : address l -> canonical_address l t -> address_text t l.
Proof.
  intros [H8 Hf] [(a & z & b & ta & tb & -> & Hz & _ & -> & Ha & Hb) | [_ Hp]]; (split; [exact H8|]).
  - right. apply Forall_app in Hf as [Fa Hf]. apply Forall_app in Hf as [_ Fb]. exists a, z, b, ta, tb. split; [reflexivity|]. split; [lia|]. split; [reflexivity|].
    split; [destruct Ha as [Ha | Ha]; [left; exact Ha | right; apply short_pieces; assumption] |
            destruct Hb as [Hb | Hb]; [left; exact Hb | right; apply pieces_ending, short_pieces; assumption]].
  - left. apply pieces_ending, short_pieces; assumption.
Qed.

Lemma address_nonnil l : address l -> l <> [].
Proof. intros [H _] ->. discriminate. Qed.

Lemma v6_host_iff t h : v6_host t = Some h <-> exists l, address_text t l /\ canonical_address l h.
Proof.
  unfold v6_host. split.
  - destruct (v6_parse t) as [l|] eqn:E; [|discriminate]. intros H. injection H as H. exists l. apply v6_parse_iff in E. split; [exact E|].
    apply v6_print_iff; [apply address_nonnil; eapply address_text_address, E | exact H].
  - intros (l & H1 & H2). apply v6_print_iff in H2; [|apply address_nonnil; eapply address_text_address, H1]. apply v6_parse_iff in H1. rewrite H1, H2. reflexivity.
Qed.

Lemma v6_host_again t h : v6_host t = Some h -> v6_host h = Some h.
Proof.
  intros H. apply v6_host_iff in H as (l & H1 & H2). apply v6_host_iff. exists l. split; [|exact H2]. apply canonical_read; [eapply address_text_address, H1 | exact H2].
Qed.

Lemma hex_lower_in d : (d < 16)%N -> In (hex_lower d) (B "0123456789abcdef:.").
Proof.
  intros Hd. assert (In d (map N.of_nat (seq 0 16))) as Hi by (apply in_map_iff; exists (N.to_nat d); split; [lia | apply in_seq; lia]).
  cbn in Hi. repeat (destruct Hi as [<- | Hi]; [vm_compute; tauto|]). destruct Hi.
Qed.

Lemma short_piece_letters n t : short_piece n t -> Forall (fun c => In c (B "0123456789abcdef:.")) t.
Proof.
  intros (ds & H & _). apply lower_letters in H as [Hf ->]. apply Forall_map. eapply Forall_impl; [|exact Hf]. intros d. apply hex_lower_in.
Qed.

Lemma short_pieces_letters l t : (l = [] /\ t = [] \/ pieces short_piece l t) -> Forall (fun c => In c (B "0123456789abcdef:.")) t.
Proof.
  intros [[_ ->] | H]; [constructor|]. induction H as [n t H | n t l u H _ IH]; [eapply short_piece_letters, H|].
  apply Forall_app. split; [eapply short_piece_letters, H|]. apply Forall_app. split; [constructor; [vm_compute; tauto | constructor] | exact IH].
Qed.

Lemma url2_stable : stable_rules url2_rules.
Proof.
  split; [reflexivity|]. split; [apply Forall_forall; intros c Hc; vm_compute in Hc; repeat (destruct Hc as [<- | Hc]; [reflexivity|]); destruct Hc|].
  intros a h H. cbn [ur_ipv6 url2_rules] in H |- *. split; [eapply v6_host_again, H|]. apply v6_host_iff in H as (l & _ & Hc).
  destruct Hc as [(x & z & y & ta & tb & _ & _ & _ & -> & Ha & Hb) | [_ Hp]]; [|eapply short_pieces_letters; right; exact Hp].
  apply Forall_app. split; [eapply short_pieces_letters, Ha|]. apply Forall_app. split; [repeat (constructor; [vm_compute; tauto|]); constructor | eapply short_pieces_letters, Hb].
Qed.

(** Two texts of hosts in brackets are read as the same host exactly if they are texts of the same address. *)
Lemma same_host t t' h : v6_host t = Some h -> (v6_host t' = Some h <-> exists l, address_text t l /\ address_text t' l).
Proof.
  intros H. apply v6_host_iff in H as (l & H1 & H2). split.
  - intros H'. apply v6_host_iff in H' as (l' & H1' & H2'). exists l. split; [exact H1|].
    assert (l = l') as ->; [|exact H1']. eapply address_text_unique; apply canonical_read; eauto using address_text_address.
  - intros (l' & H3 & H4). apply v6_host_iff. exists l. split; [|exact H2]. rewrite (address_text_unique _ _ _ H1 H3). exact H4.
Qed.

(* ------------------------------------------------------------------ scopes *)

Lemma scope_of_authority R X a p s : follows R X -> visible (a ++ p) -> Forall mark a -> (p = [] \/ exists r, p = B "/" ++ r) ->
  (names_scope X (B "wnfs://" ++ a ++ p) s <-> exists h, authority_text R a (Some h) /\ s = mkWnfs h (path_after_authority R p)).
Proof.
  intros [Hf _] Hv Hm Hp. unfold names_scope, parse_url, url_parse.
  assert (url_input (B "wnfs://" ++ a ++ p) = B "wnfs" ++ x3a :: (B "/" ++ B "/" ++ a ++ p)) as ->.
  { symmetry. apply cleaned_iff. change (B "wnfs" ++ x3a :: (B "/" ++ B "/" ++ a ++ p)) with (B "wnfs://" ++ a ++ p).
    apply visible_clean. apply Forall_app. split; [repeat (constructor; [cbn; lia|]); constructor | exact Hv]. }
  assert (parse_scheme (B "wnfs" ++ x3a :: (B "/" ++ B "/" ++ a ++ p)) = Some (B "wnfs", B "/" ++ B "/" ++ a ++ p)) as ->
    by (apply parse_scheme_iff; exists (B "wnfs"); split; [reflexivity | exact wnfs_scheme_text]).
  change (existsb (bytes_eqb (B "wnfs")) special_schemes) with false. change (starts_with_slash (B "/" ++ B "/" ++ a ++ p)) with true. cbn [orb].
  rewrite Hf by exact wnfs_not_special. change (B "/" ++ B "/" ++ a ++ p) with (x2f :: x2f :: (a ++ p)). unfold url_hier.
  assert (split_authority (a ++ p) = (a, p)) as ->.
  { apply split_authority_iff. split; [reflexivity|]. split; [exact Hm|]. intros c r E. unfold mark. destruct Hp as [-> | (w & ->)]; [discriminate | injection E as <- _; tauto]. }
  destruct (parse_authority R a) as [host|] eqn:Ea.
  - destruct host as [h|].
    + split.
      * intros (u & Hu & Hs). injection Hu as <-. cbn in Hs. exists h. split; [apply parse_authority_iff, Ea | congruence].
      * intros (h' & Ha & ->). apply parse_authority_iff in Ha. rewrite Ea in Ha. injection Ha as <-. eexists. split; reflexivity.
    + split.
      * intros (u & Hu & Hs). injection Hu as <-. discriminate Hs.
      * intros (h' & Ha & ->). apply parse_authority_iff in Ha. congruence.
  - split; [intros (u & Hu & _); discriminate|]. intros (h' & Ha & ->). apply parse_authority_iff in Ha. congruence.
Qed.

Definition address_char (c : byte) : Prop := ~ In c (B "/?#@[]").

Lemma bracket_authority R t h : Forall address_char t ->
  (authority_text R (B "[" ++ t ++ B "]") (Some h) <-> exists b, ur_ipv6 R t = Some b /\ h = B "[" ++ b ++ B "]").
Proof.
  intros Ht. rewrite Forall_forall in Ht. split.
  - intros [[? _] | (user & u & port & h' & E & Hu & Hh & Hp & E')]; [discriminate|]. injection E' as <-.
    assert (user = []) as ->.
    { destruct Hu as [-> | (w & ->)]; [reflexivity|]. exfalso. assert (In x40 (B "[" ++ t ++ B "]")) as Hi by (rewrite E; apply in_or_app; left; apply in_or_app; right; left; reflexivity).
      apply in_app_or in Hi as [Hi | Hi]; [destruct Hi as [? | []]; discriminate|]. apply in_app_or in Hi as [Hi | Hi]; [|destruct Hi as [? | []]; discriminate].
      apply (Ht _ Hi). vm_compute. tauto. }
    cbn [app] in E. destruct Hh as [(a & b & -> & Ha & Hb & ->) | (Hne & Hf & _)].
    + assert (port = []) as ->.
      { destruct Hp as [-> | (ds & -> & Hd & _)]; [reflexivity|]. exfalso. change (B "[" ++ t ++ B "]") with (x5b :: t ++ B "]") in E.
        destruct ds as [|d ds] using rev_ind.
        - rewrite app_nil_r, app_comm_cons in E. apply app_inj_tail in E as [_ E]. discriminate.
        - rewrite !app_assoc, app_comm_cons in E. apply app_inj_tail in E as [_ E]. subst d. apply Forall_app in Hd as [_ Hd]. inversion Hd as [|? ? Hx _]; subst. cbn in Hx. lia. }
      rewrite app_nil_r in E. apply app_inv_head in E. apply app_inj_tail in E as [E _]. subst a. exists b. auto.
    + exfalso. destruct u as [|c u]; [contradiction|]. injection E as <- _. inversion Hf as [|? ? Hc _]; subst. apply Hc. vm_compute. tauto.
  - intros (b & Hb & ->). right. exists [], (B "[" ++ t ++ B "]"), [], (B "[" ++ b ++ B "]"). cbn [app]. rewrite app_nil_r. split; [reflexivity|]. split; [left; reflexivity|].
    split; [|split; [left; reflexivity | reflexivity]]. left. exists t, b. split; [reflexivity|]. split; [|auto]. apply Forall_forall. intros c Hc. specialize (Ht c Hc).
    unfold address_char in Ht. split; [|split]; intros ->; apply Ht; vm_compute; tauto.
Qed.

Lemma bracket_marks t : Forall address_char t -> Forall mark (B "[" ++ t ++ B "]").
Proof.
  intros Ht. constructor; [repeat split; discriminate|]. apply Forall_app. split; [|constructor; [repeat split; discriminate | constructor]].
  eapply Forall_impl; [|exact Ht]. intros c Hc. unfold address_char in Hc. repeat split; intros ->; apply Hc; vm_compute; tauto.
Qed.

Lemma bracket_scope X t p s : follows url2_rules X -> visible (t ++ p) -> Forall address_char t -> (p = [] \/ exists r, p = B "/" ++ r) ->
  (names_scope X (B "wnfs://[" ++ t ++ B "]" ++ p) s <->
   exists l h, address_text t l /\ canonical_address l h /\ s = mkWnfs (B "[" ++ h ++ B "]") (path_after_authority url2_rules p)).
Proof.
  intros Hf Hv Ht Hp. replace (B "wnfs://[" ++ t ++ B "]" ++ p) with (B "wnfs://" ++ (B "[" ++ t ++ B "]") ++ p) by (rewrite <- !app_assoc; reflexivity).
  rewrite (scope_of_authority url2_rules X _ p s Hf); [| | apply bracket_marks, Ht | exact Hp].
  - split.
    + intros (h & Ha & ->). apply bracket_authority in Ha as (b & Hb & ->); [|exact Ht]. cbn [ur_ipv6 url2_rules] in Hb. apply v6_host_iff in Hb as (l & H1 & H2). exists l, b. auto.
    + intros (l & h & H1 & H2 & ->). exists (B "[" ++ h ++ B "]"). split; [|reflexivity]. apply bracket_authority; [exact Ht|]. exists h. split; [|reflexivity].
      cbn [ur_ipv6 url2_rules]. apply v6_host_iff. exists l. auto.
  - unfold visible in *. apply Forall_app in Hv as [Hv1 Hv2]. rewrite !Forall_app. split; [split; [|split; [exact Hv1|]] | exact Hv2]; repeat (constructor; [cbn; lia|]); constructor.
Qed.

Lemma canonical_unique l t t' : address l -> canonical_address l t -> canonical_address l t' -> t = t'.
Proof. intros Ha H H'. apply v6_print_iff in H, H'; try (apply address_nonnil; assumption). congruence. Qed.

Lemma address_scopes X t l p s : follows url2_rules X -> visible (t ++ p) -> Forall address_char t -> (p = [] \/ exists r, p = B "/" ++ r) -> address_text t l ->
  forall t', visible t' -> Forall address_char t' -> address_text t' l ->
  (names_scope X (B "wnfs://[" ++ t ++ B "]" ++ p) s <-> names_scope X (B "wnfs://[" ++ t' ++ B "]" ++ p) s).
Proof.
  intros Hf Hv Ht Hp Hl t' Hv' Ht' Hl'. rewrite !bracket_scope by (try assumption; apply Forall_app in Hv as [_ Hv]; apply Forall_app; auto).
  split; intros (k & h & H1 & H2 & H3); exists l, h; [rewrite (address_text_unique _ _ _ Hl H1) | rewrite (address_text_unique _ _ _ Hl' H1)]; split; auto.
  - rewrite <- (address_text_unique _ _ _ Hl H1). exact Hl'.
  - rewrite <- (address_text_unique _ _ _ Hl' H1). exact Hl.
Qed.

Lemma address_apart X t t' l l' p p' s s' : follows url2_rules X -> visible (t ++ p) -> visible (t' ++ p') -> Forall address_char t -> Forall address_char t' ->
  (p = [] \/ exists r, p = B "/" ++ r) -> (p' = [] \/ exists r, p' = B "/" ++ r) -> address_text t l -> address_text t' l' ->
  names_scope X (B "wnfs://[" ++ t ++ B "]" ++ p) s -> names_scope X (B "wnfs://[" ++ t' ++ B "]" ++ p') s' ->
  sc_contains wnfs_scope s s' = true -> l = l'.
Proof.
  intros Hf Hv Hv' Ht Ht' Hp Hp' Hl Hl' Hs Hs' Hc. apply (below_iff _ _ _ _ _ _ Hf Hs Hs') in Hc as [Ho _].
  apply bracket_scope in Hs as (k & h & H1 & H2 & ->); try assumption. apply bracket_scope in Hs' as (k' & h' & H1' & H2' & ->); try assumption.
  cbn [w_origin] in Ho. apply app_inv_head in Ho. apply app_inj_tail in Ho as [-> _].
  rewrite (address_text_unique _ _ _ Hl H1), (address_text_unique _ _ _ Hl' H1'). eapply address_text_unique; apply canonical_read; eauto using address_text_address.
Qed.

Lemma address_chars t l : address_text t l -> Forall address_char t /\ visible t.
Proof.
  assert (forall c d, hex_letter c d -> address_char c /\ (33 <= bN c)%N) as Hx.
  { intros c d H. split; [|unfold hex_letter in H; lia]. intros Hi. apply hex_digit_iff in H. vm_compute in Hi. repeat (destruct Hi as [<- | Hi]; [discriminate H|]). destruct Hi. }
  assert (forall n t, piece n t -> Forall (fun c => address_char c /\ (33 <= bN c)%N) t) as Hpc.
  { intros n u (ds & H & _). induction H; constructor; eauto. }
  assert (Forall (fun c => address_char c /\ (33 <= bN c)%N) (B ":")) as Hcol by (constructor; [split; [vm_compute; intuition discriminate | cbn; lia] | constructor]).
  assert (Forall (fun c => address_char c /\ (33 <= bN c)%N) (B ".")) as Hdot by (constructor; [split; [vm_compute; intuition discriminate | cbn; lia] | constructor]).
  assert (forall n u, decimal_text n u -> Forall (fun c => address_char c /\ (33 <= bN c)%N) u) as Hdc.
  { intros n u H. apply decimal_text_iff in H as ->. apply Forall_forall. intros c Hc. pose proof (dec_print_digits n) as Hd. rewrite forallb_forall in Hd. apply Hd in Hc. unfold is_digit in Hc.
    apply (Hx c (bN c - 48)%N). unfold hex_letter. lia. }
  assert (forall k u, ending k u -> Forall (fun c => address_char c /\ (33 <= bN c)%N) u) as Hen.
  { induction 1 as [n u H | k u H | n u k v H _ IH]; [eapply Hpc, H | | rewrite !Forall_app; eauto].
    destruct H as (a & b & c & d & ta & tb & tc & td & Ha & Hb & Hc & Hd & _ & -> & _). rewrite !Forall_app. repeat split; eauto. }
  assert (forall k u, pieces piece k u -> Forall (fun c => address_char c /\ (33 <= bN c)%N) u) as Hps by (intros k u H; eapply Hen, pieces_ending, H).
  intros [_ H]. cut (Forall (fun c => address_char c /\ (33 <= bN c)%N) t).
  { intros F. split; eapply Forall_impl; try exact F; cbn beta; tauto. }
  destruct H as [H | (a & z & b & ta & tb & _ & _ & -> & Ha & Hb)]; [eapply Hen, H|]. change (B "::") with (B ":" ++ B ":"). rewrite !Forall_app.
  split; [destruct Ha as [[_ ->] | Ha]; [constructor | eauto]|]. split; [auto|]. destruct Hb as [[_ ->] | Hb]; [constructor | eauto].
Qed.

Lemma same_scopes X t t' l p s : follows url2_rules X -> address_text t l -> address_text t' l -> visible p -> (p = [] \/ exists r, p = B "/" ++ r) ->
  (names_scope X (B "wnfs://[" ++ t ++ B "]" ++ p) s <-> names_scope X (B "wnfs://[" ++ t' ++ B "]" ++ p) s).
Proof.
  intros Hf H H' Hv Hp. destruct (address_chars _ _ H) as [H1 H2], (address_chars _ _ H') as [H1' H2'].
  apply (address_scopes X t l p s Hf); try assumption. apply Forall_app. auto.
Qed.

Lemma scopes_apart X t t' l l' p p' s s' : follows url2_rules X -> address_text t l -> address_text t' l' -> visible p -> visible p' ->
  (p = [] \/ exists r, p = B "/" ++ r) -> (p' = [] \/ exists r, p' = B "/" ++ r) ->
  names_scope X (B "wnfs://[" ++ t ++ B "]" ++ p) s -> names_scope X (B "wnfs://[" ++ t' ++ B "]" ++ p') s' ->
  sc_contains wnfs_scope s s' = true -> l = l'.
Proof.
  intros Hf H H' Hv Hv' Hp Hp'. destruct (address_chars _ _ H) as [H1 H2], (address_chars _ _ H') as [H1' H2'].
  apply address_apart; try assumption; apply Forall_app; auto.
Qed.

Lemma hosts_read X t p : follows url2_rules X -> visible (t ++ p) -> Forall (fun c => ~ In c (B "/?#@[]")) t -> (p = [] \/ exists r, p = B "/" ++ r) ->
  ((exists s, names_scope X (B "wnfs://[" ++ t ++ B "]" ++ p) s) <-> exists l, address_text t l) /\
  (forall s l h, names_scope X (B "wnfs://[" ++ t ++ B "]" ++ p) s -> address_text t l -> canonical_address l h -> w_origin s = B "[" ++ h ++ B "]").
Proof.
  intros Hf Hv Ht Hp. split.
  - split.
    + intros (s & H). apply bracket_scope in H as (l & h & H & _); try assumption. exists l. exact H.
    + intros (l & H). eexists. apply bracket_scope; try assumption. exists l, (v6_print l). split; [exact H|]. split; [|reflexivity].
      apply v6_print_iff; [apply address_nonnil; eapply address_text_address, H | reflexivity].
  - intros s l h H Hl Hh. apply bracket_scope in H as (l' & h' & H & Hh' & ->); try assumption. rewrite <- (address_text_unique _ _ _ Hl H) in Hh'.
    rewrite (canonical_unique l h h'); [reflexivity | eapply address_text_address, Hl | exact Hh | exact Hh'].
Qed.

Lemma stable_here X t s : follows url2_rules X -> names_scope X t s -> names_scope X (sc_to_string wnfs_scope s) s.
Proof. intros Hf. apply (scope_again url2_rules X t s Hf url2_stable). Qed.

Lemma print_parse l : address l -> v6_parse (v6_print l) = Some l.
Proof. intros H. apply v6_parse_iff, canonical_read; [exact H|]. apply v6_print_iff; [apply address_nonnil, H | reflexivity]. Qed.

