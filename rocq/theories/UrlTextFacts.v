(** The texts of resources (C109). *)
From Verif Require Import Prelude Ord Base58 Url Ext Value Capability Semantics Spec SpecWire SpecJson SpecUrl
  OrdFacts Base58Facts JsonFacts WireFacts SemanticsFacts JsonGrammarFacts.

(* ------------------------------------------------------------------ cleaning *)

Lemma drop_while_spec s : exists a, s = a ++ drop_while c0_or_space s /\ Forall blank a /\
  forall c r, drop_while c0_or_space s = c :: r -> ~ blank c.
Proof.
  induction s as [|x s (a & E & Ha & Hn)]; [exists []; repeat split; [constructor | discriminate]|].
  cbn [drop_while]. destruct (c0_or_space x) eqn:Ex.
  - exists (x :: a). split; [cbn [app]; f_equal; exact E | split; [constructor; [unfold c0_or_space in Ex; unfold blank; lia | exact Ha] | exact Hn]].
  - exists []. split; [reflexivity | split; [constructor|]]. intros c r [= -> ->]. unfold c0_or_space in Ex. unfold blank. lia.
Qed.

Lemma drop_while_blank a s : Forall blank a -> (forall c r, s = c :: r -> ~ blank c) -> drop_while c0_or_space (a ++ s) = s.
Proof.
  intros Ha Hs. induction Ha as [|c a Hc _ IH]; cbn [app].
  - destruct s as [|c s]; [reflexivity|]. cbn [drop_while]. specialize (Hs c s eq_refl). unfold c0_or_space, blank in *. replace (bN c <=? 32)%N with false by lia. reflexivity.
  - cbn [drop_while]. unfold c0_or_space, blank in *. replace (bN c <=? 32)%N with true by lia. exact IH.
Qed.

Lemma without_breaks_iff t s : without_breaks t s <-> s = filter (fun c => negb (tab_or_newline c)) t.
Proof.
  assert (forall c, tab_or_newline c = true <-> tab_newline c) as Hc by (intros c; destruct c; vm_compute; split; intuition discriminate).
  split.
  - intros H. induction H as [|c t s H _ IH|c t s H _ IH]; [reflexivity| |]; cbn [filter].
    + apply Hc in H. rewrite H. exact IH.
    + destruct (tab_or_newline c) eqn:E; [apply Hc in E; contradiction|]. cbn [negb]. rewrite <- IH. reflexivity.
  - intros ->. induction t as [|c t IH]; [constructor|]. cbn [filter]. destruct (tab_or_newline c) eqn:E; cbn [negb].
    + constructor; [apply Hc, E | exact IH].
    + constructor; [intros H; apply Hc in H; congruence | exact IH].
Qed.

Lemma rev_cons_end {T} (c : T) r m : rev m = c :: r -> m = rev r ++ [c].
Proof. intros E. rewrite <- (rev_involutive m), E. reflexivity. Qed.

Lemma cleaned_iff t s : cleaned t s <-> s = url_input t.
Proof.
  unfold cleaned, url_input. split.
  - intros (a & m & b & -> & Ha & Hb & H1 & H2 & Hs). apply without_breaks_iff in Hs. subst s. f_equal. unfold url_trim.
    assert (drop_while c0_or_space (a ++ m ++ b) = match m with [] => [] | _ => m ++ b end) as ->.
    { destruct m as [|c m].
      - cbn [app]. rewrite <- (app_nil_r (a ++ b)). apply drop_while_blank; [apply Forall_app; auto | discriminate].
      - apply drop_while_blank; [exact Ha|]. intros c' r [= <- _]. exact (H1 c m eq_refl). }
    destruct m as [|c m]; [reflexivity|]. rewrite rev_app_distr, drop_while_blank.
    + symmetry. apply rev_involutive.
    + apply Forall_rev, Hb.
    + intros c' r E. apply rev_cons_end in E. exact (H2 _ _ E).
  - intros ->. destruct (drop_while_spec t) as (a & Et & Ha & H1). set (m1 := drop_while c0_or_space t) in *.
    destruct (drop_while_spec (rev m1)) as (b & Em & Hb & H2). set (m := drop_while c0_or_space (rev m1)) in *.
    exists a, (rev m), (rev b). assert (m1 = rev m ++ rev b) as Em1 by (rewrite <- rev_app_distr, <- Em; symmetry; apply rev_involutive).
    split; [rewrite <- Em1; exact Et | split; [exact Ha | split; [apply Forall_rev, Hb | split; [|split]]]].
    + intros c r E. apply (H1 c (r ++ rev b)). rewrite Em1, E. reflexivity.
    + intros c r E. apply (H2 c (rev r)). rewrite <- (rev_involutive m), E, rev_app_distr. reflexivity.
    + apply without_breaks_iff. unfold url_trim. fold m1. fold m. reflexivity.
Qed.

(* -------------------------------------------------------------------- scheme *)

Lemma letter_of_iff c l : letter_of c l <-> is_alpha c = true /\ l = to_lower c.
Proof.
  unfold letter_of, is_alpha, to_lower. destruct ((65 <=? bN c) && (bN c <=? 90))%N eqn:E.
  - split.
    + intros [H [H' | H']]; [lia|]. split; [lia|]. apply bN_inj. rewrite bN_byteN_small; lia.
    + intros [_ ->]. rewrite bN_byteN_small by lia. lia.
  - split.
    + intros [H [H' | H']]; [|lia]. split; [lia|]. apply bN_inj. lia.
    + intros [H ->]. lia.
Qed.

Lemma scheme_char_iff c l : letter_of c l \/ other_of c l <-> scheme_char c = true /\ l = to_lower c.
Proof.
  rewrite letter_of_iff. unfold other_of, scheme_char.
  assert (In c (B "+-.") <-> ((bN c =? 43) || (bN c =? 45) || (bN c =? 46))%N = true) as Ho.
  { split; [cbn; intros [<- | [<- | [<- | []]]]; reflexivity|]. intros H.
    assert (bN c = bN x2b \/ bN c = bN x2d \/ bN c = bN x2e) as Hc by (change (bN x2b) with 43%N; change (bN x2d) with 45%N; change (bN x2e) with 46%N; lia).
    destruct Hc as [Hc | [Hc | Hc]]; apply bN_inj in Hc; subst c; cbn; tauto. }
  assert (is_digit c = true <-> (48 <= bN c <= 57)%N) as Hd by (unfold is_digit; lia).
  assert (is_digit c = true \/ ((bN c =? 43) || (bN c =? 45) || (bN c =? 46))%N = true -> to_lower c = c) as Hl.
  { unfold to_lower, is_digit. intros H. replace ((65 <=? bN c) && (bN c <=? 90))%N with false by lia. reflexivity. }
  rewrite Ho, <- Hd. set (o := ((bN c =? 43) || (bN c =? 45) || (bN c =? 46))%N) in *. clearbody o. rewrite !orb_true_iff. split.
  - intros [[H ->] | [-> H]]; [tauto|]. split; [tauto | symmetry; apply Hl; tauto].
  - intros [[[H | H] | H] ->]; [left; auto | right; split; [symmetry; apply Hl; auto | auto] | right; split; [symmetry; apply Hl; auto | auto]].
Qed.

Lemma scheme_rest_iff s sch rest : scheme_rest s = Some (sch, rest) <->
  exists t, s = t ++ x3a :: rest /\ Forall2 (fun c l => letter_of c l \/ other_of c l) t sch.
Proof.
  revert sch. induction s as [|c s IH]; intros sch; cbn [scheme_rest].
  - split; [discriminate | intros (t & E & _); destruct t; discriminate].
  - destruct (N.eqb_spec (bN c) 58) as [Ec|Ec].
    + assert (c = x3a) as -> by (apply bN_inj; exact Ec). split.
      * intros [= <- <-]. exists []. split; [reflexivity | constructor].
      * intros (t & E & H). destruct H as [|c l t sch H _]; [injection E as ->; reflexivity|]. injection E as <- _.
        apply scheme_char_iff in H as [H _]. discriminate.
    + destruct (scheme_char c) eqn:Es.
      * split.
        -- destruct (scheme_rest s) as [[sch' r]|] eqn:E; [|discriminate]. intros [= <- <-].
           destruct (IH sch') as [H _]. destruct (H eq_refl) as (t & -> & Ht). exists (c :: t). split; [reflexivity|]. constructor; [|exact Ht].
           apply scheme_char_iff. auto.
        -- intros (t & E & H). destruct H as [|c' l t sch' H Ht]; [injection E as -> _; contradiction Ec; reflexivity|]. injection E as <- ->.
           destruct (IH sch') as [_ H']. rewrite H' by (exists t; auto). apply scheme_char_iff in H as [_ ->]. reflexivity.
      * split; [discriminate|]. intros (t & E & H). destruct H as [|c' l t sch' H Ht]; [injection E as -> _; contradiction Ec; reflexivity|].
        injection E as <- ->. apply scheme_char_iff in H as [H _]. congruence.
Qed.

Lemma parse_scheme_iff s sch rest : parse_scheme s = Some (sch, rest) <-> exists t, s = t ++ x3a :: rest /\ scheme_text t sch.
Proof.
  unfold parse_scheme, scheme_text. destruct s as [|c s].
  - split; [discriminate | intros (t & E & _); destruct t; discriminate].
  - split.
    + destruct (is_alpha c) eqn:Ea; [|discriminate]. intros H. apply scheme_rest_iff in H as (t & E & H).
      destruct H as [|c' l t sch H Ht]; [injection E as -> _; discriminate|]. injection E as <- ->. exists (c :: t). split; [reflexivity|].
      apply scheme_char_iff in H as [_ ->]. exists c, t, (to_lower c), sch. split; [reflexivity | split; [reflexivity | split; [apply letter_of_iff; auto | exact Ht]]].
    + intros (t & E & (c' & t' & l & s' & -> & -> & Hl & Ht)). injection E as <- ->. pose proof Hl as Hl'. apply letter_of_iff in Hl' as [-> _].
      apply scheme_rest_iff. exists (c :: t'). split; [reflexivity | constructor; auto].
Qed.

(* ---------------------------------------------------------------------- path *)

Lemma until_query_spec s : exists q, s = until_query s ++ q /\ query_text q /\ Forall (fun c => c <> x3f /\ c <> x23) (until_query s).
Proof.
  induction s as [|c s (q & E & Hq & Hp)]; [exists []; repeat split; [left; reflexivity | constructor]|]. cbn [until_query].
  destruct ((bN c =? 63) || (bN c =? 35))%N eqn:Ec.
  - exists (c :: s). split; [reflexivity | split; [|constructor]]. right. exists s.
    assert (bN c = bN x3f \/ bN c = bN x23) as [H | H] by (change (bN x3f) with 63%N; change (bN x23) with 35%N; lia); apply bN_inj in H; subst c; auto.
  - exists q. split; [cbn [app]; f_equal; exact E | split; [exact Hq | constructor; [|exact Hp]]]. split; intros ->; discriminate.
Qed.

Lemma until_query_app p q : Forall (fun c => c <> x3f /\ c <> x23) p -> query_text q -> until_query (p ++ q) = p.
Proof.
  intros Hp Hq. induction Hp as [|c p [H1 H2] _ IH]; cbn [app until_query].
  - destruct Hq as [-> | (r & [-> | ->])]; reflexivity.
  - assert (((bN c =? 63) || (bN c =? 35))%N = false) as ->.
    { apply orb_false_iff. split; apply N.eqb_neq; intros E; [apply H1 | apply H2]; apply bN_inj; exact E. }
    f_equal. exact IH.
Qed.

Lemma upper_hex_iff n c : (n < 16)%N -> (upper_hex c n <-> c = hex_digit_upper n).
Proof.
  intros Hn. unfold upper_hex, hex_digit_upper. destruct (N.ltb_spec n 10).
  - split; [intros H'; apply bN_inj; rewrite bN_byteN_small; lia | intros ->; rewrite bN_byteN_small; lia].
  - split; [intros H'; apply bN_inj; rewrite bN_byteN_small; lia | intros ->; rewrite bN_byteN_small; lia].
Qed.

Lemma path_char_iff c t : path_char c t <-> t = pct_encode_byte c.
Proof.
  pose proof (bN_bound c) as Hc. unfold pct_encode_byte. split.
  - intros [c' H | c' h l nh nl H Hh Hl E].
    + replace ((bN c' <? 32) || (127 <=? bN c'))%N with false by lia. reflexivity.
    + replace ((bN c' <? 32) || (127 <=? bN c'))%N with true by lia.
      assert (nh < 16)%N by (unfold upper_hex in Hh; lia). assert (nl < 16)%N by (unfold upper_hex in Hl; lia).
      rewrite E. replace ((nh * 16 + nl) / 16)%N with nh by lia. replace ((nh * 16 + nl) mod 16)%N with nl by lia.
      apply upper_hex_iff in Hh, Hl; try assumption. subst. reflexivity.
  - intros ->. destruct ((bN c <? 32) || (127 <=? bN c))%N eqn:E; [|constructor; lia].
    apply (PC_percent c _ _ (bN c / 16) (bN c mod 16)); try lia; apply upper_hex_iff; try reflexivity; lia.
Qed.

Lemma special_iff sch : existsb (bytes_eqb sch) special_schemes = true <-> special sch.
Proof.
  rewrite existsb_exists. unfold special. split.
  - intros (x & Hx & E). apply bytes_eqb_eq in E. subst x. exact Hx.
  - intros H. exists sch. split; [exact H | apply bytes_eqb_eq; reflexivity].
Qed.

(* ---------------------------------------------------------------------- URLs *)

Lemma parse_url_text X t u : parse_url X t = Some u <->
  opaque_text t u \/ exists sch rest, hierarchical_text t sch rest /\ x_url_hier X sch rest = Some u.
Proof.
  unfold parse_url, url_parse. split.
  - destruct (parse_scheme (url_input t)) as [[sch rest]|] eqn:Ep; [|discriminate]. apply parse_scheme_iff in Ep as (name & Ein & Hn).
    destruct (existsb (bytes_eqb sch) special_schemes || starts_with_slash rest) eqn:Eh.
    + intros H. right. exists sch, rest. split; [|exact H]. exists (url_input t), name. split; [apply cleaned_iff; reflexivity|].
      split; [exact Ein | split; [exact Hn|]]. apply orb_true_iff in Eh as [Eh | Eh]; [left; apply special_iff, Eh | right].
      apply starts_with_slash_iff in Eh as (r & ->). exists r. reflexivity.
    + intros [= <-]. left. apply orb_false_iff in Eh as [Es Er]. destruct (until_query_spec rest) as (q & Eq & Hq & Hp).
      exists (url_input t), name, (until_query rest), q, (map pct_encode_byte (until_query rest)). cbn [url_scheme url_path url_host].
      split; [apply cleaned_iff; reflexivity|]. split; [rewrite <- Eq; exact Ein|]. split; [exact Hn|].
      split; [intros H; apply special_iff in H; congruence|]. rewrite <- Eq.
      split; [intros r ->; discriminate|]. split; [exact Hp | split; [exact Hq|]]. split; [|split; [apply flat_map_concat_map | reflexivity]].
      apply (Forall2_fun path_char pct_encode_byte path_char_iff). reflexivity.
  - intros [(s & name & p & q & cs & Hc & -> & Hn & Hs & Hr & Hp & Hq & Hcs & Hpath & Hh) | (sch & rest & (s & name & Hc & -> & Hn & Hh) & Hx)].
    + apply cleaned_iff in Hc. rewrite <- Hc.
      assert (parse_scheme (name ++ B ":" ++ p ++ q) = Some (url_scheme u, p ++ q)) as -> by (apply parse_scheme_iff; exists name; split; [reflexivity | exact Hn]).
      assert (existsb (bytes_eqb (url_scheme u)) special_schemes = false) as -> by (apply not_true_is_false; intros H; apply special_iff in H; contradiction).
      assert (starts_with_slash (p ++ q) = false) as -> by (apply not_true_is_false; intros H; apply starts_with_slash_iff in H as (r & H); exact (Hr r H)).
      cbn [orb]. unfold opaque_path. rewrite until_query_app by assumption. apply (Forall2_fun path_char pct_encode_byte path_char_iff) in Hcs.
      replace (flat_map pct_encode_byte p) with (url_path u) by (rewrite Hpath, Hcs; symmetry; apply flat_map_concat_map).
      rewrite <- Hh. destruct u; reflexivity.
    + apply cleaned_iff in Hc. rewrite <- Hc.
      assert (parse_scheme (name ++ B ":" ++ rest) = Some (sch, rest)) as -> by (apply parse_scheme_iff; exists name; split; [reflexivity | exact Hn]).
      assert (existsb (bytes_eqb sch) special_schemes || starts_with_slash rest = true) as ->.
      { apply orb_true_iff. destruct Hh as [Hh | (r & ->)]; [left; apply special_iff, Hh | right; reflexivity]. }
      exact Hx.
Qed.

(* --------------------------------------------------------------- proof indices *)

Definition usize_digits (ds : bytes) : option N :=
  match ds with [] => None | _ => if forallb is_digit ds && (dec_value ds <=? usize_max)%N then Some (dec_value ds) else None end.

Lemma parse_usize_iff s i : parse_usize s = Some i <-> exists plus ds, s = plus ++ ds /\ (plus = [] \/ plus = B "+") /\ digits ds /\
  i = place_value 10 (map (fun d => (bN d - 48)%N) ds) /\ (i < 2 ^ 64)%N.
Proof.
  change (2 ^ 64)%N with 18446744073709551616%N.
  assert (forall ds, usize_digits ds = Some i <->
    digits ds /\ i = place_value 10 (map (fun d => (bN d - 48)%N) ds) /\ (i < 18446744073709551616)%N) as H.
  { intros ds. rewrite digits_forallb, <- dec_value_place. unfold usize_digits, usize_max. destruct ds as [|d ds]; [split; [discriminate | intros [[H _] _]; contradiction]|].
    set (l := d :: ds). destruct (forallb is_digit l); cbn [andb].
    - destruct (N.leb_spec (dec_value l) 18446744073709551615).
      + split; [intros [= <-]; repeat split; [discriminate | lia] | intros (_ & -> & _); reflexivity].
      + split; [discriminate | intros (_ & -> & ?); lia].
    - split; [discriminate | intros [[_ H] _]; discriminate]. }
  destruct s as [|c s].
  - change (parse_usize []) with (usize_digits []). rewrite H. split; [intros ([Hd _] & _); contradiction|]. intros (plus & ds & E & _ & [Hd _] & _). symmetry in E. apply app_eq_nil in E as [_ ->]. contradiction.
  - destruct (Byte.eqb c x2b) eqn:Ec.
    + apply byte_eqb_eq in Ec. subst c. change (parse_usize (x2b :: s)) with (usize_digits s). rewrite H. split.
      * intros (Hd & Hi & Hlt). exists (B "+"), s. auto.
      * intros (plus & ds & E & [-> | ->] & Hd & Hi & Hlt).
        -- cbn [app] in E. subst ds. destruct Hd as [_ Hd]. inversion Hd as [|? ? Hb]. change (bN x2b) with 43%N in Hb. lia.
        -- injection E as ->. auto.
    + apply byte_eqb_neq in Ec.
      assert (parse_usize (c :: s) = usize_digits (c :: s)) as -> by (destruct c; (reflexivity || congruence)).
      rewrite H. split.
      * intros (Hd & Hi & Hlt). exists [], (c :: s). auto.
      * intros (plus & ds & E & [-> | ->] & Hd & Hi & Hlt); [cbn [app] in E; subst ds; auto | injection E as -> _; contradiction].
Qed.

(** A path made of a plus sign and digits is written as it is. *)
Lemma digits_path p cs : Forall2 path_char p cs -> Forall (fun c => (48 <= bN c <= 57)%N \/ c = x2b) (concat cs) -> concat cs = p.
Proof.
  intros H. induction H as [|c t p cs Hc _ IH]; intros Hd; [reflexivity|]. cbn [concat] in *. apply Forall_app in Hd as [Hd1 Hd2].
  destruct Hc as [c Hc | c h l nh nl Hc _ _ _].
  - cbn [app]. f_equal. apply IH, Hd2.
  - inversion Hd1 as [|? ? [Hb | Hb]]; [change (bN x25) with 37%N in Hb; lia | discriminate].
Qed.

Lemma plain_path p : Forall (fun c => (48 <= bN c <= 57)%N \/ c = x2b) p -> Forall2 path_char p (map (fun c => [c]) p).
Proof.
  intros H. induction H as [|c p Hc _ IH]; cbn [map]; constructor; [|exact IH]. constructor. destruct Hc as [Hc | ->]; [lia|]. change (bN x2b) with 43%N. lia.
Qed.

Lemma index_path plus ds : (plus = [] \/ plus = B "+") -> digits ds -> Forall (fun c => (48 <= bN c <= 57)%N \/ c = x2b) (plus ++ ds).
Proof.
  intros Hp [_ Hd]. apply Forall_app. split; [destruct Hp as [-> | ->]; [constructor | constructor; [right; reflexivity | constructor]]|].
  apply Forall_forall. intros c Hc. left. rewrite Forall_forall in Hd. exact (Hd c Hc).
Qed.

Lemma prf_letters t : scheme_text t (B "prf") <-> exists a b c, t = [a; b; c] /\ In a (B "pP") /\ In b (B "rR") /\ In c (B "fF").
Proof.
  assert (forall l u, (97 <= bN l <= 122)%N -> (bN u + 32 = bN l)%N -> forall c, letter_of c l <-> In c [l; u]) as Hl.
  { intros l u H1 H2 c. unfold letter_of. cbn. split.
    - intros [_ [H | H]]; [left; symmetry; apply bN_inj, H | right; left; apply bN_inj; lia].
    - intros [<- | [<- | []]]; split; auto. }
  assert (forall l u, (97 <= bN l <= 122)%N -> (bN u + 32 = bN l)%N -> forall c, letter_of c l \/ other_of c l <-> In c [l; u]) as Hl'.
  { intros l u H1 H2 c. rewrite <- (Hl l u H1 H2 c). split; [|auto]. intros [H | [-> [H | H]]]; [exact H | lia|].
    exfalso. cbn in H. destruct H as [<- | [<- | [<- | []]]]; change (bN x2b) with 43%N in *; change (bN x2d) with 45%N in *; change (bN x2e) with 46%N in *; lia. }
  assert (97 <= bN x70 <= 122 /\ bN x50 + 32 = bN x70)%N as [P1 P2] by (split; [split|]; vm_compute; congruence).
  assert (97 <= bN x72 <= 122 /\ bN x52 + 32 = bN x72)%N as [R1 R2] by (split; [split|]; vm_compute; congruence).
  assert (97 <= bN x66 <= 122 /\ bN x46 + 32 = bN x66)%N as [F1 F2] by (split; [split|]; vm_compute; congruence).
  split.
  - intros (a & t' & l & s' & -> & E & Ha & Ht). injection E as <- <-. inversion Ht as [|b ? t1 ? Hb Ht1]; subst. inversion Ht1 as [|c ? t2 ? Hc Ht2]; subst. inversion Ht2; subst.
    exists a, b, c. apply (Hl _ _ P1 P2) in Ha. apply (Hl' _ _ R1 R2) in Hb. apply (Hl' _ _ F1 F2) in Hc. auto.
  - intros (a & b & c & -> & Ha & Hb & Hc). exists a, [b; c], x70, [x72; x66]. split; [reflexivity | split; [reflexivity|]].
    split; [apply (Hl _ _ P1 P2), Ha|]. constructor; [apply (Hl' _ _ R1 R2), Hb | constructor; [apply (Hl' _ _ F1 F2), Hc | constructor]].
Qed.

Lemma names_proof_opaque X c i :
  (forall t u, parse_url X t = Some u -> url_scheme u = B "prf" -> opaque_text t u \/ url_path u = [] \/ exists r, url_path u = B "/" ++ r) ->
  (names_proof X c i <-> cap_ability c = B "ucan/DELEGATE" /\ proof_text (cap_resource c) i).
Proof.
  intros Hroot. unfold names_proof. split.
  - intros [Hab (u & Hu & Hs & Hi)]. split; [exact Hab|]. apply parse_usize_iff in Hi as (plus & ds & Ep & Hplus & Hd & Hi & Hlt).
    destruct (Hroot _ _ Hu Hs) as [(s & name & p & q & cs & Hc & -> & Hn & _ & _ & _ & Hq & Hcs & Hpath & _) | Hx].
    + rewrite Hs in Hn. apply prf_letters in Hn as (a & b & d & -> & Ha & Hb & Hdd).
      rewrite (digits_path p cs Hcs) in Hpath by (rewrite <- Hpath, Ep; apply index_path; assumption).
      exists ([a; b; d] ++ B ":" ++ p ++ q), a, b, d, plus, ds, q. split; [exact Hc|]. split; [rewrite <- Hpath, Ep, <- app_assoc; reflexivity|].
      repeat (split; [assumption|]). assumption.
    + exfalso. destruct Hx as [Hx | (r & Hx)]; rewrite Hx in Ep.
      * symmetry in Ep. apply app_eq_nil in Ep as [_ ->]. destruct Hd as [Hd _]. contradiction.
      * pose proof (index_path plus ds Hplus Hd) as H. rewrite <- Ep in H. inversion H as [|? ? [Hb | Hb]]; [change (bN x2f) with 47%N in Hb; lia | discriminate].
  - intros [Hab (s & a & b & d & plus & ds & q & Hc & -> & Ha & Hb & Hdd & Hplus & Hd & Hq & Hi & Hlt)]. split; [exact Hab|].
    pose proof (index_path plus ds Hplus Hd) as Hpath.
    exists (mkUrl (B "prf") (plus ++ ds) None). split; [|split; [reflexivity | apply parse_usize_iff; exists plus, ds; auto]].
    apply parse_url_text. left. exists ([a; b; d] ++ B ":" ++ plus ++ ds ++ q), [a; b; d], (plus ++ ds), q, (map (fun c => [c]) (plus ++ ds)).
    cbn [url_scheme url_path url_host]. split; [exact Hc|]. split; [rewrite <- app_assoc; reflexivity|].
    split; [apply prf_letters; exists a, b, d; auto|]. split; [unfold special; cbn; intuition discriminate|].
    split. { intros r E. destruct (plus ++ ds) as [|x l] eqn:El; [apply app_eq_nil in El as [_ ->]; destruct Hd as [Hd _]; contradiction|].
      injection E as -> _. inversion Hpath as [|? ? [Hx | Hx]]; [change (bN x2f) with 47%N in Hx; lia | discriminate]. }
    split; [apply Forall_forall; intros x Hx; rewrite Forall_forall in Hpath; specialize (Hpath x Hx); split; intros ->; destruct Hpath as [H | H]; try discriminate; revert H; vm_compute; intuition congruence|].
    split; [exact Hq|]. split; [apply plain_path, Hpath|]. split; [|reflexivity]. clear. induction (plus ++ ds) as [|x l IH]; [reflexivity|]. cbn [map concat app]. f_equal. exact IH.
Qed.

Lemma names_proof_text X c i : rooted X -> (names_proof X c i <-> cap_ability c = B "ucan/DELEGATE" /\ proof_text (cap_resource c) i).
Proof.
  intros Hroot. apply names_proof_opaque. intros t u Hu _. apply parse_url_text in Hu as [H | (sch & rest & _ & Hx)]; [left; exact H | right; exact (Hroot _ _ _ Hx)].
Qed.

(* -------------------------------------------------------------- capabilities *)

Lemma capability_text_iff {S A} (SO : scope_ops S) (AO : ability_ops A) X c v : parse_capability SO AO X c = Some v <-> capability_text SO AO X c v.
Proof.
  unfold capability_text, url_text. split.
  - intros H. pose proof H as H'. unfold parse_capability, parse_cap in H.
    destruct (parse_url X (cap_resource c)) as [u|] eqn:Eu; [|discriminate].
    assert (url_scheme u <> B "as") as Has.
    { intros E. unfold parse_capability in H'. rewrite (as_never_parses SO AO X u) in H' by assumption. discriminate. }
    clear H'. assert (forall k, parse_resource SO u = Some k ->
      url_path u = B "*" /\ k = Unscoped \/ url_path u <> B "*" /\ exists s, sc_of_url SO u = Some s /\ k = Scoped s) as Hk.
    { intros k. unfold parse_resource. destruct (bytes_eqb_spec (url_path u) (B "*")) as [E|E]; [intros [= <-]; auto|].
      destruct (sc_of_url SO u) as [s|]; [|discriminate]. intros [= <-]. right. split; [exact E | eauto]. }
    apply parse_url_text in Eu.
    destruct (bytes_eqb_spec (url_scheme u) (B "my")) as [Em|Em].
    + destruct (parse_resource SO u) as [k|]; [|discriminate]. destruct (ab_of_string AO (cap_ability c)) as [a|] eqn:Ea; [|discriminate].
      injection H as <-. exists u, k. repeat split; auto.
    + destruct (bytes_eqb_spec (url_scheme u) (B "as")) as [Ea'|_]; [contradiction|].
      destruct (parse_resource SO u) as [k|]; [|discriminate]. destruct (ab_of_string AO (cap_ability c)) as [a|] eqn:Ea; [|discriminate].
      injection H as <-. exists u, k. repeat split; auto.
  - intros (u & k & Hu & Hk & Hr & Ha & Hc). apply parse_url_text in Hu.
    assert (parse_resource SO u = Some k) as Hp.
    { unfold parse_resource. destruct Hk as [[-> ->] | [Hn (s & Hs & ->)]]; [rewrite bytes_eqb_refl; reflexivity|].
      destruct (bytes_eqb_spec (url_path u) (B "*")); [contradiction|]. rewrite Hs. reflexivity. }
    unfold parse_capability, parse_cap. rewrite Hu, Hp, Ha. destruct v as [r a cav]. cbn [v_resource v_ability v_caveat] in *. subst cav.
    destruct Hr as [[E ->] | (E1 & E2 & ->)].
    + rewrite E. reflexivity.
    + destruct (bytes_eqb_spec (url_scheme u) (B "my")); [contradiction|]. destruct (bytes_eqb_spec (url_scheme u) (B "as")); [contradiction|]. reflexivity.
Qed.
