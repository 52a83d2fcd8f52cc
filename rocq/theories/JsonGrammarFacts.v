(** The DAG-JSON reader and the grammar of JSON (C108-C110). *)
From Verif Require Import Prelude Ord SMap BaseN Base58 Utf8 Value Cid Ext Json Capability Ucan Spec SpecIpldSerde SpecWire SpecJson
  OrdFacts SMapFacts BaseNFacts Base58Facts CapMapFacts JsonFacts DidFacts WireFacts.

(* --------------------------------------------------------------------- UTF-8 *)

Lemma byte_of a n : bN a = n -> a = byteN n.
Proof. intros <-. symmetry. apply byteN_bN. Qed.

Lemma utf8_char_encode n c : utf8_char n c -> c = utf8_encode n /\ scalar n.
Proof.
  unfold scalar, tail_byte, utf8_encode. intros [a Ha | n' a b Ha Hb E Hn | n' a b d Ha Hb Hd E Hn Hs | n' a b d e Ha Hb Hd He E Hn Hs]; unfold tail_byte, scalar in *.
  - assert (bN a <? 128 = true)%N as -> by lia. rewrite byteN_bN. split; [reflexivity | lia].
  - assert (n' <? 128 = false)%N as -> by lia. assert (n' <? 2048 = true)%N as -> by lia. split; [|lia].
    f_equal; [apply byte_of; lia|]. f_equal. apply byte_of. lia.
  - assert (n' <? 128 = false)%N as -> by lia. assert (n' <? 2048 = false)%N as -> by lia. assert (n' <? 65536 = true)%N as -> by lia. split; [|lia].
    f_equal; [apply byte_of; lia|]. f_equal; [apply byte_of; lia|]. f_equal. apply byte_of. lia.
  - assert (n' <? 128 = false)%N as -> by lia. assert (n' <? 2048 = false)%N as -> by lia. assert (n' <? 65536 = false)%N as -> by lia. split; [|lia].
    f_equal; [apply byte_of; lia|]. f_equal; [apply byte_of; lia|]. f_equal; [apply byte_of; lia|]. f_equal. apply byte_of. lia.
Qed.

Lemma encode_utf8_char n : scalar n -> utf8_char n (utf8_encode n).
Proof.
  unfold scalar, utf8_encode. intros Hs. destruct (N.ltb_spec n 128) as [H1|H1].
  - rewrite <- (bN_byteN_small n) at 1 by lia. constructor. rewrite bN_byteN_small; lia.
  - destruct (N.ltb_spec n 2048) as [H2|H2]; [|destruct (N.ltb_spec n 65536) as [H3|H3]]; constructor; unfold tail_byte, scalar;
      rewrite ?bN_byteN_small by lia; lia.
Qed.

Lemma utf8_char_iff n c : utf8_char n c <-> scalar n /\ c = utf8_encode n.
Proof. split; [intros H; apply utf8_char_encode in H; tauto | intros [H ->]; apply encode_utf8_char, H]. Qed.

Lemma utf8_text_cons n c s : utf8_char n c -> utf8_text s -> utf8_text (c ++ s).
Proof. intros Hc (cs & -> & Hs). exists (c :: cs). split; [reflexivity | constructor; eauto]. Qed.

Lemma utf8_valid_text : forall k s, (length s <= k)%nat -> utf8_valid s = true -> utf8_text s.
Proof.
  induction k as [|k IH]; intros s Hk Hv.
  - destruct s; [exists []; split; [reflexivity | constructor] | simpl in Hk; lia].
  - destruct s as [|a s]; [exists []; split; [reflexivity | constructor]|]. cbn [utf8_valid length] in *. unfold is_cont, in_range in Hv.
    destruct (N.ltb_spec (bN a) 128) as [Ha|Ha]; [exact (utf8_text_cons _ [a] s (U8_1 a Ha) (IH s ltac:(lia) Hv))|].
    destruct s as [|b s]; [discriminate|]. cbn [length] in Hk.
    destruct (_ && _)%bool eqn:E2 in Hv.
    { apply andb_true_iff in Hv as [Hb Hv]. apply (utf8_text_cons ((bN a - 192) * 64 + (bN b - 128)) [a; b] s); [|apply IH; [lia | exact Hv]].
      constructor; unfold tail_byte; lia. }
    destruct s as [|c s]; [discriminate|]. cbn [length] in Hk.
    destruct (_ && _)%bool eqn:E3 in Hv.
    { rewrite !andb_true_iff in Hv. destruct Hv as [[Hb Hc] Hv].
      apply (utf8_text_cons ((bN a - 224) * 4096 + (bN b - 128) * 64 + (bN c - 128)) [a; b; c] s); [|apply IH; [lia | exact Hv]].
      destruct (N.eqb_spec (bN a) 224); [|destruct (N.eqb_spec (bN a) 237)]; constructor; unfold tail_byte, scalar; lia. }
    destruct s as [|d s]; [discriminate|]. cbn [length] in Hk.
    destruct (_ && _)%bool eqn:E4 in Hv; [|discriminate].
    rewrite !andb_true_iff in Hv. destruct Hv as [[[Hb Hc] Hd] Hv].
    apply (utf8_text_cons ((bN a - 240) * 262144 + (bN b - 128) * 4096 + (bN c - 128) * 64 + (bN d - 128)) [a; b; c; d] s); [|apply IH; [lia | exact Hv]].
    destruct (N.eqb_spec (bN a) 240); [|destruct (N.eqb_spec (bN a) 244)]; constructor; unfold tail_byte, scalar; lia.
Qed.

Ltac decide_if := match goal with |- context [if ?b then _ else _] =>
  first [replace b with true by lia | replace b with false by lia] end.

Lemma utf8_valid_cons n c s : utf8_char n c -> utf8_valid (c ++ s) = utf8_valid s.
Proof.
  intros [a Ha | n' a b Ha Hb E Hn | n' a b d Ha Hb Hd E Hn Hs | n' a b d e Ha Hb Hd He E Hn Hs];
    unfold tail_byte, scalar in *; cbn [app utf8_valid]; unfold is_cont, in_range.
  - decide_if. reflexivity.
  - decide_if. decide_if. replace ((128 <=? bN b) && (bN b <=? 191))%N with true by lia. reflexivity.
  - decide_if. decide_if. decide_if. replace ((128 <=? bN d) && (bN d <=? 191))%N with true by lia.
    match goal with |- context [(?x && true && _)%bool] => assert (x = true) as -> end; [|reflexivity].
    destruct (N.eqb_spec (bN a) 224); [|destruct (N.eqb_spec (bN a) 237)]; lia.
  - decide_if. decide_if. decide_if. decide_if. replace ((128 <=? bN d) && (bN d <=? 191))%N with true by lia.
    replace ((128 <=? bN e) && (bN e <=? 191))%N with true by lia.
    match goal with |- context [(?x && true && _ && _)%bool] => assert (x = true) as -> end; [|reflexivity].
    destruct (N.eqb_spec (bN a) 240); [|destruct (N.eqb_spec (bN a) 244)]; lia.
Qed.

Lemma utf8_valid_iff s : utf8_valid s = true <-> utf8_text s.
Proof.
  split; [intros H; exact (utf8_valid_text (length s) s (le_n _) H)|]. intros (cs & -> & Hc).
  induction Hc as [|c cs [n Hn] _ IH]; [reflexivity|]. cbn [concat]. rewrite (utf8_valid_cons n) by exact Hn. exact IH.
Qed.

(* ------------------------------------------------------------------- strings *)

Lemma white_ws w r : white w -> skip_ws (w ++ r) = skip_ws r.
Proof.
  intros H. induction H as [|c w Hc _ IH]; [reflexivity|]. cbn [app skip_ws].
  assert (is_ws c = true) as -> by (cbn in Hc; intuition (subst; reflexivity)). exact IH.
Qed.

Lemma skip_ws_white s : exists w, white w /\ s = w ++ skip_ws s.
Proof.
  induction s as [|c s (w & Hw & IH)]; [exists []; split; [constructor | reflexivity]|]. cbn [skip_ws]. destruct (is_ws c) eqn:E.
  - exists (c :: w). split; [constructor; [|exact Hw]; destruct c; try discriminate; cbn; tauto | cbn [app]; f_equal; exact IH].
  - exists []. split; [constructor | reflexivity].
Qed.

Lemma hex_digit_val c n : hex_digit c n <-> hex_val c = Some n.
Proof.
  unfold hex_digit, hex_val.
  destruct ((48 <=? bN c) && (bN c <=? 57))%N eqn:E1; [|destruct ((97 <=? bN c) && (bN c <=? 102))%N eqn:E2; [|destruct ((65 <=? bN c) && (bN c <=? 70))%N eqn:E3]].
  - split; [intros H; f_equal; lia | intros [= <-]; lia].
  - split; [intros H; f_equal; lia | intros [= <-]; lia].
  - split; [intros H; f_equal; lia | intros [= <-]; lia].
  - split; [lia | discriminate].
Qed.

Lemma hex4_quad a b c d n : hex4 a b c d = Some n <-> hex_quad [a; b; c; d] n.
Proof.
  unfold hex4, hex_quad. split.
  - destruct (hex_val a) as [na|] eqn:Ea; [|discriminate]. destruct (hex_val b) as [nb|] eqn:Eb; [|discriminate].
    destruct (hex_val c) as [nc|] eqn:Ec; [|discriminate]. destruct (hex_val d) as [nd|] eqn:Ed; [|discriminate]. intros [= <-].
    exists a, b, c, d, na, nb, nc, nd. rewrite !hex_digit_val. repeat split; auto. unfold place_value. cbn. lia.
  - intros (a' & b' & c' & d' & na & nb & nc & nd & E & Ha & Hb & Hc & Hd & ->). injection E as <- <- <- <-.
    rewrite hex_digit_val in Ha, Hb, Hc, Hd. rewrite Ha, Hb, Hc, Hd. f_equal. unfold place_value. cbn. lia.
Qed.

Lemma body_plain c s : c <> x22 -> c <> x5c -> json_str_body (c :: s) = if (bN c <? 32)%N then None else push [c] (json_str_body s).
Proof. intros H1 H2. destruct c; (reflexivity || congruence). Qed.

Lemma body_escape e s : e <> x75 -> json_str_body (x5c :: e :: s) = let?? b := simple_escape e in push [b] (json_str_body s).
Proof. intros H. destruct e; (reflexivity || congruence). Qed.

Lemma body_unicode a b c d s : json_str_body (x5c :: x75 :: a :: b :: c :: d :: s) =
  let?? n := hex4 a b c d in
  if ((56320 <=? n) && (n <=? 57343))%N then None
  else if ((55296 <=? n) && (n <=? 56319))%N then
    match s with
    | x5c :: x75 :: g1 :: g2 :: g3 :: g4 :: s4 =>
        let?? m := hex4 g1 g2 g3 g4 in
        if ((56320 <=? m) && (m <=? 57343))%N
        then push (utf8_encode (65536 + (n - 55296) * 1024 + (m - 56320))) (json_str_body s4)
        else None
    | _ => None
    end
  else push (utf8_encode n) (json_str_body s).
Proof. reflexivity. Qed.

Lemma simple_escape_in e c : In (e, c) [(x22, x22); (x5c, x5c); (x2f, x2f); (x62, x08); (x66, x0c); (x6e, x0a); (x72, x0d); (x74, x09)] <->
  simple_escape e = Some c.
Proof.
  split.
  - cbn. intros H. repeat (destruct H as [H | H]; [injection H as <- <-; reflexivity|]). contradiction.
  - destruct e; try discriminate; intros [= <-]; cbn; tauto.
Qed.

Lemma string_body_reads t s : string_body t s -> forall r, json_str_body (t ++ x22 :: r) = Some (s, r).
Proof.
  intros H. induction H as [| c t s Hc H1 H2 _ IH | e c t s He _ IH | h n c t s Hh Hc _ IH | h n g m c t s Hh Hn Hg Hm Hc _ IH]; intros r.
  - reflexivity.
  - cbn [app]. rewrite body_plain by assumption. replace (bN c <? 32)%N with false by lia. rewrite IH. reflexivity.
  - apply simple_escape_in in He. change (B "\") with [x5c]. cbn [app].
    rewrite body_escape by (intros ->; discriminate). rewrite He, IH. reflexivity.
  - pose proof Hh as (h1 & h2 & h3 & h4 & ? & ? & ? & ? & -> & _). apply hex4_quad in Hh. apply utf8_char_iff in Hc as [Hs ->].
    change (B "\u") with [x5c; x75]. cbn [app]. rewrite body_unicode, Hh, IH. unfold scalar in Hs.
    replace ((56320 <=? n) && (n <=? 57343))%N with false by lia. replace ((55296 <=? n) && (n <=? 56319))%N with false by lia. reflexivity.
  - pose proof Hh as (h1 & h2 & h3 & h4 & ? & ? & ? & ? & -> & _). apply hex4_quad in Hh. apply utf8_char_iff in Hc as [Hs ->].
    pose proof Hg as (g1 & g2 & g3 & g4 & ? & ? & ? & ? & -> & _). apply hex4_quad in Hg.
    change (B "\u") with [x5c; x75]. cbn [app]. rewrite body_unicode, Hh.
    replace ((56320 <=? n) && (n <=? 57343))%N with false by lia. replace ((55296 <=? n) && (n <=? 56319))%N with true by lia.
    rewrite Hg, IH. replace ((56320 <=? m) && (m <=? 57343))%N with true by lia. reflexivity.
Qed.

Lemma push_some b o s r : push b o = Some (s, r) -> exists s', o = Some (s', r) /\ s = b ++ s'.
Proof. unfold push. destruct o as [[s' r']|]; [|discriminate]. intros [= <- <-]. eauto. Qed.

Lemma body_is_string : forall k x s r, (length x <= k)%nat -> json_str_body x = Some (s, r) ->
  exists t, x = t ++ x22 :: r /\ string_body t s.
Proof.
  induction k as [|k IH]; intros x s r Hk H; [destruct x; [discriminate | simpl in Hk; lia]|].
  destruct x as [|c x]; [discriminate|]. cbn [length] in Hk.
  destruct (Byte.eqb c x22) eqn:E1.
  { apply byte_eqb_eq in E1. subst c. injection H as <- <-. exists []. split; [reflexivity | constructor]. }
  apply byte_eqb_neq in E1. destruct (Byte.eqb c x5c) eqn:E2.
  2: { apply byte_eqb_neq in E2. rewrite body_plain in H by assumption. destruct (N.ltb_spec (bN c) 32) as [Hc|Hc]; [discriminate|].
       apply push_some in H as (s' & H & ->). apply IH in H as (t & -> & Ht); [|lia]. exists (c :: t). split; [reflexivity | constructor; assumption]. }
  apply byte_eqb_eq in E2. subst c. destruct x as [|e x]; [discriminate|]. cbn [length] in Hk.
  destruct (Byte.eqb e x75) eqn:E3.
  2: { apply byte_eqb_neq in E3. rewrite body_escape in H by assumption. destruct (simple_escape e) as [b|] eqn:Ee; [|discriminate].
       apply push_some in H as (s' & H & ->). apply IH in H as (t & -> & Ht); [|lia]. exists (x5c :: e :: t).
       split; [reflexivity | apply (SB_escape e b t s'); [apply simple_escape_in, Ee | exact Ht]]. }
  apply byte_eqb_eq in E3. subst e. destruct x as [|a [|b [|c [|d x]]]]; try discriminate. rewrite body_unicode in H. cbn [length] in Hk.
  destruct (hex4 a b c d) as [n|] eqn:Eh; [|discriminate]. apply hex4_quad in Eh.
  destruct (_ && _)%bool eqn:En in H; [discriminate|]. destruct (_ && _)%bool eqn:En' in H.
  - destruct x as [|y1 x]; [discriminate|]. assert (y1 = x5c) as -> by (destruct y1; (reflexivity || discriminate)).
    destruct x as [|y2 x]; [discriminate|]. assert (y2 = x75) as -> by (destruct y2; (reflexivity || discriminate)).
    destruct x as [|g1 [|g2 [|g3 [|g4 x]]]]; try discriminate. cbn [length] in Hk. destruct (hex4 g1 g2 g3 g4) as [m|] eqn:Eg; [|discriminate].
    apply hex4_quad in Eg. destruct (_ && _)%bool eqn:Em in H; [|discriminate].
    apply push_some in H as (s' & H & ->). apply IH in H as (t & -> & Ht); [|lia].
    exists (B "\u" ++ [a; b; c; d] ++ B "\u" ++ [g1; g2; g3; g4] ++ t). split; [reflexivity|].
    apply (SB_pair [a; b; c; d] n [g1; g2; g3; g4] m); try assumption; try lia. apply encode_utf8_char. unfold scalar. lia.
  - apply push_some in H as (s' & H & ->). apply IH in H as (t & -> & Ht); [|lia].
    exists (B "\u" ++ [a; b; c; d] ++ t). split; [reflexivity|].
    apply (SB_unicode [a; b; c; d] n); try assumption. apply encode_utf8_char. unfold scalar.
    destruct Eh as (?&?&?&?&na & nb & nc & nd & _ & Ha & Hb & Hc & Hd & ->). unfold hex_digit in *. unfold place_value in *. cbn in *. lia.
Qed.

Lemma literal_reads t s r : string_literal t s -> exists t', t = x22 :: t' /\ parse_string (t' ++ r) = Some (s, r).
Proof.
  intros (body & -> & Hb & Hu). exists (body ++ B """"). split; [reflexivity|]. unfold parse_string. change (B """") with [x22].
  rewrite <- app_assoc. cbn [app]. rewrite (string_body_reads _ _ Hb). apply utf8_valid_iff in Hu. rewrite Hu. reflexivity.
Qed.

Lemma string_is_literal x s r : parse_string x = Some (s, r) -> exists t, x22 :: x = t ++ r /\ string_literal t s.
Proof.
  unfold parse_string. destruct (json_str_body x) as [[s' r']|] eqn:E; [|discriminate]. destruct (utf8_valid s') eqn:Eu; [|discriminate].
  intros [= -> ->]. apply (body_is_string (length x)) in E as (t & -> & Ht); [|lia].
  exists (B """" ++ t ++ B """"). split; [change (B """") with [x22]; rewrite <- !app_assoc; reflexivity|].
  exists t. split; [reflexivity | split; [exact Ht | apply utf8_valid_iff, Eu]].
Qed.

(* ------------------------------------------------------------------- numbers *)

Definition point_text (frac : bytes) : Prop := frac = [] \/ exists d, frac = B "." ++ d /\ digits d.
Definition exponent_text (exp : bytes) : Prop :=
  exp = [] \/ exists e sg d, exp = e ++ sg ++ d /\ (e = B "e" \/ e = B "E") /\ (sg = [] \/ sg = B "+" \/ sg = B "-") /\ digits d.
Definition int_text (int : bytes) : Prop := digits int /\ (int = B "0" \/ forall r, int <> B "0" ++ r).

Lemma lex_number int frac exp r : stops r -> int_text int -> point_text frac -> exponent_text exp ->
  lex_int (int ++ frac ++ exp ++ r) = Some (int, frac ++ exp ++ r) /\
  lex_frac (frac ++ exp ++ r) = Some (frac, exp ++ r) /\ lex_exp (exp ++ r) = Some (exp, r).
Proof.
  intros Hr [Hi Hz] Hf He.
  assert (match exp ++ r with [] => True | c :: _ => is_digit c = false end) as Her.
  { destruct He as [-> | (e & sg & d & -> & [-> | ->] & _)]; [apply stops_digit, Hr | reflexivity | reflexivity]. }
  assert (match frac ++ exp ++ r with [] => True | c :: _ => is_digit c = false end) as Hfr.
  { destruct Hf as [-> | (d & -> & _)]; [exact Her | reflexivity]. }
  split; [apply lex_int_app; assumption|]. split.
  { destruct Hf as [-> | (d & -> & Hd)].
    - cbn [app]. destruct He as [-> | (e & sg & d & -> & [-> | ->] & _)]; [apply lex_frac_none, Hr | reflexivity | reflexivity].
    - change (B "." ++ d) with (x2e :: d). cbn [app]. unfold lex_frac. apply digits_forallb in Hd as [H1 H2].
      rewrite span_digits_app by assumption. destruct d; [contradiction | reflexivity]. }
  { destruct He as [-> | (e & sg & d & -> & He & Hsg & Hd)]; [apply lex_exp_none, Hr|].
    apply digits_forallb in Hd as [H1 H2]. pose proof (span_digits_app d r H2 (stops_digit r Hr)) as Hsp.
    assert (exists c, e = [c] /\ match c with x65 | x45 => true | _ => false end = true) as (c & -> & Hc).
    { destruct He as [-> | ->]; eexists; (split; [reflexivity | reflexivity]). }
    cbn [app]. unfold lex_exp. rewrite Hc. rewrite <- app_assoc.
    destruct Hsg as [-> | [-> | ->]].
    - cbn [app]. destruct d as [|c0 d]; [contradiction|].
      assert (is_digit c0 = true) as Hc0 by (cbn [forallb] in H2; apply andb_true_iff in H2; tauto).
      cbn [app] in *. replace (match c0 with x2b => ([x2b], d ++ r) | x2d => ([x2d], d ++ r) | _ => ([], c0 :: d ++ r) end) with (@nil byte, c0 :: d ++ r)
        by (destruct c0; try reflexivity; discriminate).
      rewrite Hsp. reflexivity.
    - change (B "+") with [x2b]. cbn [app]. rewrite Hsp. destruct d; [contradiction | reflexivity].
    - change (B "-") with [x2d]. cbn [app]. rewrite Hsp. destruct d; [contradiction | reflexivity]. }
Qed.

Lemma parse_number_lex X neg int frac exp r : stops r -> int_text int -> point_text frac -> exponent_text exp ->
  parse_number X neg (int ++ frac ++ exp ++ r) =
  let tok := (if neg then [x2d] else []) ++ int ++ frac ++ exp in
  let as_float := let?? f := x_f64_parse X tok in Some (IFloat f, r) in
  match frac ++ exp with
  | [] =>
      let v := dec_value int in
      if neg then
        if ((1 <=? v) && (v <=? 9223372036854775808))%N then Some (IInt (- Z.of_N v), r) else as_float
      else
        if (v <=? u64_max)%N then Some (IInt (Z.of_N v), r) else as_float
  | _ => as_float
  end.
Proof.
  intros Hr Hi Hf He. unfold parse_number. destruct (lex_number int frac exp r Hr Hi Hf He) as (-> & -> & ->). reflexivity.
Qed.

Lemma span_digits_spec s d r : span_digits s = (d, r) -> s = d ++ r /\ forallb is_digit d = true.
Proof.
  revert d r. induction s as [|c s IH]; intros d r H; cbn [span_digits] in H; [injection H as <- <-; split; reflexivity|].
  destruct (is_digit c) eqn:E.
  - destruct (span_digits s) as [d' r'] eqn:Es. injection H as <- <-. destruct (IH _ _ eq_refl) as [-> Hd]. cbn [forallb app]. rewrite E, Hd. split; reflexivity.
  - injection H as <- <-. split; reflexivity.
Qed.

Lemma digits_of_span d : d <> [] -> forallb is_digit d = true -> digits d.
Proof. intros H1 H2. apply digits_forallb. split; assumption. Qed.

Lemma lex_int_spec s d r : lex_int s = Some (d, r) -> s = d ++ r /\ int_text d.
Proof.
  unfold lex_int. destruct (span_digits s) as [d' r'] eqn:E. apply span_digits_spec in E as [-> Hd].
  destruct d' as [|c [|c' d']]; [discriminate| |].
  - intros H. assert (Some ([c], r') = Some (d, r)) as H' by (destruct c; exact H). injection H' as <- <-. split; [reflexivity|].
    split; [apply digits_of_span; [discriminate | exact Hd]|].
    destruct (Byte.eqb c x30) eqn:Ec; [apply byte_eqb_eq in Ec; subst; left; reflexivity|]. apply byte_eqb_neq in Ec. right. intros t Ht. injection Ht. congruence.
  - destruct (Byte.eqb c x30) eqn:Ec; [apply byte_eqb_eq in Ec; subst; discriminate|]. apply byte_eqb_neq in Ec. intros H.
    assert (Some (c :: c' :: d', r') = Some (d, r)) as H' by (destruct c; (exact H || congruence)). injection H' as <- <-. split; [reflexivity|].
    split; [apply digits_of_span; [discriminate | exact Hd]|]. right. intros t Ht. injection Ht. congruence.
Qed.

Lemma lex_frac_spec s f r : lex_frac s = Some (f, r) -> s = f ++ r /\ point_text f.
Proof.
  destruct s as [|c s]; [intros [= <- <-]; split; [reflexivity | left; reflexivity]|]. destruct (Byte.eqb c x2e) eqn:Ec.
  - apply byte_eqb_eq in Ec. subst c. cbn [lex_frac]. destruct (span_digits s) as [d r'] eqn:E. apply span_digits_spec in E as [-> Hd].
    destruct d as [|c d]; [discriminate|]. intros [= <- <-]. split; [reflexivity|]. right. exists (c :: d). split; [reflexivity | apply digits_of_span; [discriminate | exact Hd]].
  - apply byte_eqb_neq in Ec. intros H. assert (Some ([], c :: s) = Some (f, r)) as H' by (destruct c; (exact H || congruence)).
    injection H' as <- <-. split; [reflexivity | left; reflexivity].
Qed.

Lemma lex_exp_spec s e r : lex_exp s = Some (e, r) -> s = e ++ r /\ exponent_text e.
Proof.
  destruct s as [|c s]; [intros [= <- <-]; split; [reflexivity | left; reflexivity]|]. unfold lex_exp.
  destruct (match c with x65 | x45 => true | _ => false end) eqn:Ec; [|intros [= <- <-]; split; [reflexivity | left; reflexivity]].
  assert ([c] = B "e" \/ [c] = B "E") as Hc by (destruct c; try discriminate; auto).
  assert (exists sg s'', match s with x2b :: t => ([x2b], t) | x2d :: t => ([x2d], t) | _ => ([], s) end = (sg, s'') /\
    s = sg ++ s'' /\ (sg = [] \/ sg = B "+" \/ sg = B "-")) as (sg & s'' & -> & -> & Hsg).
  { destruct s as [|b s]; [exists [], []; auto|]. destruct (Byte.eqb b x2b) eqn:E1; [apply byte_eqb_eq in E1; subst; exists [x2b], s; auto|].
    destruct (Byte.eqb b x2d) eqn:E2; [apply byte_eqb_eq in E2; subst; exists [x2d], s; auto|]. apply byte_eqb_neq in E1, E2.
    exists [], (b :: s). split; [destruct b; (reflexivity || congruence) | auto]. }
  destruct (span_digits s'') as [d r'] eqn:E. apply span_digits_spec in E as [-> Hd]. destruct d as [|c0 d]; [discriminate|].
  intros [= <- <-]. split; [cbn [app]; f_equal; rewrite <- app_assoc; reflexivity|]. right. exists [c], sg, (c0 :: d).
  split; [reflexivity | split; [exact Hc | split; [exact Hsg | apply digits_of_span; [discriminate | exact Hd]]]].
Qed.

Lemma dec_value_place d : dec_value d = place_value 10 (map (fun c => (bN c - 48)%N) d).
Proof. rewrite place_value_digits. reflexivity. Qed.

Definition sign_of (neg : bool) : bytes := if neg then [x2d] else [].

(** The outcome of reading a number, once its parts are known. *)
Definition number_outcome (X : ext) (neg : bool) (int frac exp r : bytes) : option (ipld * bytes) :=
  let tok := sign_of neg ++ int ++ frac ++ exp in
  let as_float := let?? f := x_f64_parse X tok in Some (IFloat f, r) in
  match frac ++ exp with
  | [] =>
      let v := dec_value int in
      if neg then
        if ((1 <=? v) && (v <=? 9223372036854775808))%N then Some (IInt (- Z.of_N v), r) else as_float
      else
        if (v <=? u64_max)%N then Some (IInt (Z.of_N v), r) else as_float
  | _ => as_float
  end.

Lemma outcome_iff X neg int frac exp r i whole : (whole = true <-> frac = [] /\ exp = []) ->
  let t := sign_of neg ++ int ++ frac ++ exp in
  let n := place_value 10 (map (fun c => (bN c - 48)%N) int) in
  let integer := whole = true /\ (sign_of neg = [] /\ (n < 2 ^ 64)%N \/ sign_of neg = B "-" /\ (0 < n <= 2 ^ 63)%N) in
  (integer /\ i = IInt (if sign_of neg then Z.of_N n else - Z.of_N n) \/
   ~ integer /\ exists f, x_f64_parse X t = Some f /\ i = IFloat f) <-> number_outcome X neg int frac exp r = Some (i, r).
Proof.
  intros Hw. unfold number_outcome. cbv zeta. rewrite dec_value_place.
  set (t := sign_of neg ++ int ++ frac ++ exp). clearbody t.
  set (n := place_value 10 _). clearbody n. unfold u64_max.
  change (2 ^ 64)%N with 18446744073709551616%N. change (2 ^ 63)%N with 9223372036854775808%N.
  set (fl := let?? f := x_f64_parse X t in Some (IFloat f, r)).
  assert (fl = Some (i, r) <-> exists f, x_f64_parse X t = Some f /\ i = IFloat f) as Hfl.
  { unfold fl. destruct (x_f64_parse X t) as [f|].
    - split; [intros [= <-]; eauto | intros (f' & [= ->] & ->); reflexivity].
    - split; [discriminate | intros (? & ? & _); discriminate]. }
  clearbody fl. destruct (frac ++ exp) as [|c0 l0] eqn:Efe.
  - apply app_eq_nil in Efe. assert (whole = true) as -> by tauto. destruct neg; cbn [sign_of].
    + destruct ((1 <=? n) && (n <=? 9223372036854775808))%N eqn:En.
      * split; [intros [[_ ->] | [H _]]; [reflexivity | exfalso; apply H; split; [reflexivity | right; split; [reflexivity | lia]]]|].
        intros [= <-]. left. split; [split; [reflexivity | right; split; [reflexivity | lia]] | reflexivity].
      * rewrite Hfl. split; [intros [[[_ [[H _] | [_ H]]] _] | [_ H]]; [discriminate | lia | exact H]|].
        intros H. right. split; [|exact H]. intros [_ [[H' _] | [_ H']]]; [discriminate | lia].
    + destruct (n <=? 18446744073709551615)%N eqn:En.
      * split; [intros [[_ ->] | [H _]]; [reflexivity | exfalso; apply H; split; [reflexivity | left; split; [reflexivity | lia]]]|].
        intros [= <-]. left. split; [split; [reflexivity | left; split; [reflexivity | lia]] | reflexivity].
      * rewrite Hfl. split; [intros [[[_ [[_ H] | [H _]]] _] | [_ H]]; [lia | discriminate | exact H]|].
        intros H. right. split; [|exact H]. intros [_ [[_ H'] | [H' _]]]; [lia | discriminate].
  - assert (whole <> true) as Hn by (intros E; apply Hw in E as [-> ->]; discriminate).
    rewrite Hfl. split; [intros [[[H _] _] | [_ H]]; [contradiction | exact H] | intros H; right; split; [intros [H' _]; contradiction | exact H]].
Qed.

Lemma number_data_iff X t i r : number_data X t i <-> exists neg int frac exp, t = sign_of neg ++ int ++ frac ++ exp /\
  int_text int /\ point_text frac /\ exponent_text exp /\ number_outcome X neg int frac exp r = Some (i, r).
Proof.
  split.
  - intros (sign & int & whole & (frac & exp & Et & Hs & Hi & Hz & Hf & He & Hw) & H).
    assert (exists neg, sign = sign_of neg) as [neg ->] by (destruct Hs as [-> | ->]; [exists false | exists true]; reflexivity).
    exists neg, int, frac, exp. split; [exact Et | split; [split; assumption | split; [exact Hf | split; [exact He|]]]].
    rewrite <- (outcome_iff X neg int frac exp r i whole Hw). rewrite <- Et. exact H.
  - intros (neg & int & frac & exp & -> & [Hi Hz] & Hf & He & H).
    exists (sign_of neg), int, (match frac ++ exp with [] => true | _ => false end).
    assert (match frac ++ exp with [] => true | _ => false end = true <-> frac = [] /\ exp = []) as Hw.
    { destruct (frac ++ exp) eqn:E; [apply app_eq_nil in E; tauto|]. split; [discriminate | intros [-> ->]; discriminate]. }
    split; [|apply (outcome_iff X neg int frac exp r i _ Hw), H].
    exists frac, exp. split; [reflexivity|]. split; [destruct neg; [right | left]; reflexivity|]. repeat (split; [assumption|]). exact Hw.
Qed.

Lemma outcome_rest X neg int frac exp r i r' : number_outcome X neg int frac exp r = Some (i, r') -> r' = r.
Proof.
  unfold number_outcome. destruct (x_f64_parse X _); destruct (frac ++ exp), neg; try destruct (_ && _)%bool; try destruct (_ <=? _)%N; congruence.
Qed.

Lemma number_reads X t i r : number_data X t i -> stops r -> exists neg t', t = sign_of neg ++ t' /\
  (exists c t'', t' = c :: t'' /\ is_digit c = true) /\ parse_number X neg (t' ++ r) = Some (i, r).
Proof.
  intros H Hr. apply (number_data_iff X t i r) in H as (neg & int & frac & exp & -> & Hi & Hf & He & H).
  exists neg, (int ++ frac ++ exp). split; [reflexivity|]. split.
  - destruct Hi as [Hd _]. apply digits_forallb in Hd as [Hne Hd]. destruct int as [|c int]; [contradiction|].
    cbn [forallb] in Hd. apply andb_true_iff in Hd as [Hc _]. exists c, (int ++ frac ++ exp). split; [reflexivity | exact Hc].
  - rewrite <- !app_assoc. rewrite parse_number_lex by assumption. exact H.
Qed.

Lemma number_is_data X neg s i r : parse_number X neg s = Some (i, r) -> exists t, s = t ++ r /\ number_data X (sign_of neg ++ t) i.
Proof.
  unfold parse_number. destruct (lex_int s) as [[int s1]|] eqn:E1; [|discriminate]. apply lex_int_spec in E1 as [-> Hi].
  destruct (lex_frac s1) as [[frac s2]|] eqn:E2; [|discriminate]. apply lex_frac_spec in E2 as [-> Hf].
  destruct (lex_exp s2) as [[exp s3]|] eqn:E3; [|discriminate]. apply lex_exp_spec in E3 as [-> He]. cbv beta iota.
  intros H. assert (number_outcome X neg int frac exp s3 = Some (i, r)) as H' by exact H. clear H.
  pose proof (outcome_rest _ _ _ _ _ _ _ _ H') as ->. exists (int ++ frac ++ exp). split; [rewrite <- !app_assoc; reflexivity|].
  apply (number_data_iff X _ i s3). exists neg, int, frac, exp. auto.
Qed.

(* ------------------------------------------------------------------- objects *)

Lemma base64std_encode b : b64std_encode b = base64std b.
Proof.
  unfold base64std. rewrite <- b64_encode_rfc. unfold b64std_encode, b64_encode, basen_encode. rewrite map_map. apply map_ext. intros g.
  set (f := fun c : byte => match c with x2d => x2b | x5f => x2f | _ => c end).
  change (letter base64std_alphabet (bits_val g) = f (letter base64url_alphabet (bits_val g))).
  exact (map_nth f base64url_alphabet x00 (N.to_nat (bits_val g))).
Qed.

Lemma last_entries_mof {V} (es m : list (bytes * V)) : last_entries es m <-> m = mof_list es.
Proof.
  assert (forall k v, In (k, v) (mof_list es) <-> exists a b, es = a ++ (k, v) :: b /\ ~ In k (map fst b)) as Hm.
  { intros k v. transitivity (mget k (mof_list es) = Some v).
    - split; [apply in_mget, mof_list_sorted | apply mget_in].
    - rewrite mget_mof_list, last_for_some. split; [intros [H | [_ H]]; [exact H | discriminate] | auto]. }
  split; [|intros ->; split; [apply keys_increasing_msorted, mof_list_sorted | exact Hm]]. intros [Hs H].
  apply keys_increasing_msorted in Hs. apply mget_ext; [exact Hs | apply mof_list_sorted|]. intros k.
  destruct (mget k (mof_list es)) as [v|] eqn:E.
  - apply in_mget; [exact Hs|]. apply H, Hm, mget_in, E.
  - destruct (mget k m) as [v|] eqn:E'; [|reflexivity]. apply mget_in, H, Hm in E'. apply in_mget in E'; [congruence | apply mof_list_sorted].
Qed.

Lemma ipld_of_entries_cases X es : 
  (exists s, es = link_entries s /\ ipld_of_entries X es = let?? c := parse_cid X s in Some (ILink c)) \/
  (exists s, es = bytes_entries s /\ ipld_of_entries X es = let?? b := b64std_decode s in Some (IBytes b)) \/
  (forall s, es <> link_entries s /\ es <> bytes_entries s) /\ ipld_of_entries X es = Some (IMap (mof_list es)).
Proof.
  unfold link_entries, bytes_entries.
  destruct es as [|[k x] [|kv m]]; [right; right; split; [intros s; split; discriminate | reflexivity] | |].
  - destruct (bytes_eqb_spec k (B "/")) as [->|Hk].
    + destruct x as [| | | |s| | |mm|]; try (right; right; split; [intros s'; split; discriminate | reflexivity]).
      * left. exists s. split; reflexivity.
      * destruct mm as [|[k' x'] [|]]; try (right; right; split; [intros s'; split; discriminate | try destruct x'; reflexivity]).
        destruct x' as [| | | |s| | | |]; try (right; right; split; [intros s'; split; discriminate | reflexivity]).
        destruct (bytes_eqb_spec k' (B "bytes")) as [->|Hk'].
        -- right. left. exists s. split; reflexivity.
        -- right. right. split; [intros s'; split; [discriminate | intros [= -> _]; contradiction]|]. cbn [ipld_of_entries B].
           change (ipld_of_entries X [(B "/", IMap [(k', IStr s)])]) with
             (if bytes_eqb k' (B "bytes") then let?? b := b64std_decode s in Some (IBytes b) else Some (IMap (mof_list [(B "/", IMap [(k', IStr s)])]))).
           destruct (bytes_eqb_spec k' (B "bytes")); [contradiction | reflexivity].
    + right. right. split; [intros s; split; intros [= -> _]; contradiction|].
      destruct k as [|c [|c' k]]; [reflexivity| |destruct c; reflexivity].
      assert (c <> x2f) as Hc by (intros ->; apply Hk; reflexivity). destruct c; (reflexivity || congruence).
  - right. right. split; [intros s; split; discriminate|].
    destruct k as [|c [|c' k]]; [reflexivity | destruct c; try reflexivity; destruct x as [| | | |s| | |[|[? []] [|]]|]; reflexivity | destruct c; reflexivity].
Qed.

Lemma object_data_iff X es i : object_data X es i <-> ipld_of_entries X es = Some i.
Proof.
  unfold object_data. destruct (ipld_of_entries_cases X es) as [(s & -> & E) | [(s & -> & E) | [Hn E]]]; rewrite E; clear E.
  - split.
    + intros [(s' & c & Es & Hc & ->) | [(b & Es & _) | [H _]]].
      * injection Es as <-. rewrite Hc. reflexivity.
      * discriminate.
      * exfalso. destruct (H s) as [H' _]. apply H'. reflexivity.
    + destruct (parse_cid X s) as [c|] eqn:Ec; [|discriminate]. intros [= <-]. left. exists s, c. auto.
  - split.
    + intros [(s' & c & Es & _) | [(b & Es & ->) | [H _]]].
      * discriminate.
      * injection Es as ->. rewrite <- base64std_encode. assert (b64std_decode (b64std_encode b) = Some b) as -> by (apply b64std_decode_iff; reflexivity). reflexivity.
      * exfalso. destruct (H s) as [_ H']. apply H'. reflexivity.
    + destruct (b64std_decode s) as [b|] eqn:Eb; [|discriminate]. intros [= <-]. right. left. exists b. rewrite <- base64std_encode.
      apply b64std_decode_iff in Eb. subst s. auto.
  - split.
    + intros [(s & c & -> & _) | [(b & -> & _) | [_ (m & Hm & ->)]]].
      * destruct (Hn s) as [H _]. contradiction H; reflexivity.
      * destruct (Hn (base64std b)) as [_ H]. contradiction H; reflexivity.
      * apply last_entries_mof in Hm. subst m. reflexivity.
    + intros [= <-]. right. right. split; [exact Hn|]. exists (mof_list es). split; [apply last_entries_mof; reflexivity | reflexivity].
Qed.

(* -------------------------------------------------------------------- values *)

Lemma json_null X n : json_data X n (B "null") INull.
Proof. destruct n; left; split; reflexivity. Qed.
Lemma json_true X n : json_data X n (B "true") (IBool true).
Proof. destruct n; right; left; split; reflexivity. Qed.
Lemma json_false X n : json_data X n (B "false") (IBool false).
Proof. destruct n; right; right; left; split; reflexivity. Qed.
Lemma json_number X n t i : number_data X t i -> json_data X n t i.
Proof. intros H. destruct n; right; right; right; left; exact H. Qed.
Lemma json_literal X n t s : string_literal t s -> json_data X n t (IStr s).
Proof. intros H. destruct n; right; right; right; right; left; exists s; split; (exact H || reflexivity). Qed.

Lemma data_starts X n t i : json_data X n t i -> starts t.
Proof.
  assert (number_data X t i -> starts t) as Hnum.
  { intros H. apply (number_reads X t i []) in H as (neg & t' & -> & (c & t'' & -> & Hc) & _); [|exact I].
    destruct neg; [repeat split; discriminate|]. apply digit_starts, Hc. }
  assert (forall c r, is_ws c = false -> c <> x5d -> c <> x7d -> starts (c :: r)) as Hs by (intros c r H1 H2 H3; exact (conj H1 (conj H2 H3))).
  assert (starts (B "null") /\ starts (B "true") /\ starts (B "false")) as (H1 & H2 & H3) by (repeat split; discriminate).
  destruct n; cbn [json_data]; intros [[-> _] | [[-> _] | [[-> _] | [H | [(s & (b & -> & _) & _) | H]]]]]; try assumption; try exact (Hnum H);
    try (apply (Hs x22); (reflexivity || discriminate)); [contradiction|].
  destruct H as [(w & _ & -> & _) | [(ts & l & _ & -> & _) | [(w & _ & -> & _) | (ts & es & _ & -> & _)]]].
  - apply (Hs x5b (w ++ B "]")); (reflexivity || discriminate).
  - apply (Hs x5b (commas ts ++ B "]")); (reflexivity || discriminate).
  - apply (Hs x7b (w ++ B "}")); (reflexivity || discriminate).
  - apply (Hs x7b (commas ts ++ B "}")); (reflexivity || discriminate).
Qed.

Lemma parse_value_white X f n w s : white w -> parse_value X f n (w ++ s) = parse_value X f n s.
Proof. intros Hw. destruct f; [reflexivity|]. cbn [parse_value]. rewrite white_ws by exact Hw. reflexivity. Qed.

Lemma white_stops w r : white w -> stops r -> stops (w ++ r).
Proof. intros Hw Hr. destruct Hw as [|c w Hc _]; [exact Hr|]. cbn [app stops]. cbn in Hc. intuition (subst; (reflexivity || discriminate)). Qed.

Lemma commas_cons t t' ts : commas (t :: t' :: ts) = t ++ x2c :: commas (t' :: ts).
Proof. reflexivity. Qed.
Lemma commas_one t : commas [t] = t.
Proof. unfold commas. cbn. apply app_nil_r. Qed.

Definition no_number (i : ipld) : Prop := (forall z, i <> IInt z) /\ (forall f, i <> IFloat f).

Lemma number_is_number X t i : number_data X t i -> ~ no_number i.
Proof. intros (sg & int & wh & _ & [[_ ->] | [_ (f & _ & ->)]]) [H1 H2]; [exact (H1 _ eq_refl) | exact (H2 _ eq_refl)]. Qed.

Definition takes (X : ext) (n : nat) : Prop := forall t i, json_data X n t i -> forall fuel rest, (2 * length t <= fuel)%nat -> stops rest \/ no_number i ->
  parse_value X fuel n (t ++ rest) = Some (i, rest).

Lemma padded_take X n t i fuel rest : takes X n -> padded (json_data X n) t i -> (2 * length t <= fuel)%nat -> stops rest ->
  exists w, white w /\ parse_value X fuel n (t ++ rest) = Some (i, w ++ rest).
Proof.
  intros HT (w & t' & w' & Hw & Hw' & Ht & ->) Hf Hr. exists w'. split; [exact Hw'|]. rewrite <- !app_assoc.
  rewrite !app_length in Hf. rewrite parse_value_white by exact Hw. apply HT; [exact Ht | lia | left; apply white_stops; assumption].
Qed.

Lemma elems_take X n ts l : takes X n -> Forall2 (padded (json_data X n)) ts l -> ts <> [] -> forall fuel rest,
  (2 * length (commas ts) + 1 <= fuel)%nat -> parse_elems X fuel n (commas ts ++ x5d :: rest) = Some (l, rest).
Proof.
  intros HT H. induction H as [|t i ts l Ht Hts IH]; intros Hne fuel rest Hf; [contradiction|]. clear Hne.
  destruct fuel as [|f]; [lia|]. cbn [parse_elems]. destruct ts as [|t' ts].
  - rewrite commas_one in *. destruct (padded_take X n t i f (x5d :: rest) HT Ht) as (w & Hw & ->); [lia | repeat split; discriminate|].
    rewrite white_ws by exact Hw. inversion Hts. reflexivity.
  - rewrite commas_cons in *. rewrite app_length in Hf. cbn [length] in Hf. rewrite <- app_assoc. cbn [app].
    destruct (padded_take X n t i f (x2c :: commas (t' :: ts) ++ x5d :: rest) HT Ht) as (w & Hw & ->); [lia | repeat split; discriminate|].
    rewrite white_ws by exact Hw. cbn [skip_ws is_ws]. rewrite IH by (try discriminate; lia). reflexivity.
Qed.

Lemma entries_take X n ts es : takes X n -> Forall2 (member (json_data X n)) ts es -> ts <> [] -> forall fuel rest,
  (2 * length (commas ts) + 1 <= fuel)%nat -> parse_entries X fuel n (commas ts ++ x7d :: rest) = Some (es, rest).
Proof.
  intros HT H. induction H as [|t [k i] ts es Ht Hts IH]; intros Hne fuel rest Hf; [contradiction|]. clear Hne.
  destruct fuel as [|f]; [lia|]. cbn [parse_entries]. destruct Ht as (w & kt & w' & v & Hw & Hw' & Hk & Hv & ->). cbn [fst snd] in *.
  assert (forall tail, skip_ws ((w ++ kt ++ w' ++ B ":" ++ v) ++ tail) = kt ++ w' ++ x3a :: v ++ tail) as Hskip.
  { intros tail. rewrite <- !app_assoc. rewrite white_ws by exact Hw. destruct Hk as (body & -> & _). reflexivity. }
  destruct ts as [|t' ts].
  - rewrite commas_one in *. rewrite !app_length in Hf. change (length (B ":")) with 1%nat in Hf.
    rewrite Hskip. destruct (literal_reads kt k (w' ++ x3a :: v ++ x7d :: rest) Hk) as (kt' & -> & Hp). cbn [app].
    rewrite Hp. rewrite white_ws by exact Hw'. cbn [skip_ws is_ws].
    destruct (padded_take X n v i f (x7d :: rest) HT Hv) as (w2 & Hw2 & ->); [lia | repeat split; discriminate|].
    rewrite white_ws by exact Hw2. inversion Hts. reflexivity.
  - rewrite commas_cons in *. rewrite !app_length in Hf. change (length (B ":")) with 1%nat in Hf. cbn [length] in Hf.
    rewrite <- (app_assoc _ (x2c :: _)). cbn [app]. rewrite Hskip.
    destruct (literal_reads kt k (w' ++ x3a :: v ++ x2c :: commas (t' :: ts) ++ x7d :: rest) Hk) as (kt' & -> & Hp). cbn [app].
    rewrite Hp. rewrite white_ws by exact Hw'. cbn [skip_ws is_ws].
    destruct (padded_take X n v i f (x2c :: commas (t' :: ts) ++ x7d :: rest) HT Hv) as (w2 & Hw2 & ->); [lia | repeat split; discriminate|].
    rewrite white_ws by exact Hw2. cbn [skip_ws is_ws]. rewrite IH by (try discriminate; lia). reflexivity.
Qed.

Lemma skip_white_starts w t r : white w -> starts t -> skip_ws (w ++ t ++ r) = t ++ r.
Proof. intros Hw Ht. rewrite white_ws by exact Hw. apply skip_starts, Ht. Qed.

(** The first byte after the white space of a nonempty list of elements. *)
Lemma elems_start {A} (R : bytes -> A -> Prop) ts l r : Forall2 R ts l -> ts <> [] ->
  (forall t a, R t a -> exists w t' w', white w /\ starts t' /\ t = w ++ t' ++ w') ->
  exists c s, skip_ws (commas ts ++ r) = c :: s /\ c <> x5d /\ c <> x7d.
Proof.
  intros H Hne HR. destruct H as [|t a ts l Ht _]; [contradiction|]. destruct (HR t a Ht) as (w & t' & w' & Hw & Hs & ->).
  unfold commas. rewrite <- !app_assoc. rewrite skip_white_starts by assumption. destruct t' as [|c t']; [contradiction|]. destruct Hs as (_ & H1 & H2).
  cbn [app]. eauto.
Qed.

Lemma literal_starts t s : string_literal t s -> starts t.
Proof. intros (b & -> & _). repeat split; discriminate. Qed.

Lemma value_takes X n : takes X n.
Proof.
  assert (forall n t i, number_data X t i -> forall fuel rest, (2 * length t <= fuel)%nat -> stops rest -> parse_value X fuel n (t ++ rest) = Some (i, rest)) as Hnum.
  { clear n. intros n t i H fuel rest Hf Hr. destruct (number_reads X t i rest H Hr) as (neg & t' & -> & (c & t'' & -> & Hc) & Hp).
    rewrite app_length in Hf. cbn [length] in Hf. destruct fuel as [|f]; [lia|]. destruct neg; cbn [sign_of app] in *.
    - cbn [parse_value skip_ws is_ws]. exact Hp.
    - cbn [parse_value]. assert (skip_ws (c :: t'' ++ rest) = c :: t'' ++ rest) as -> by (destruct c; (discriminate || reflexivity)).
      destruct c; try discriminate; exact Hp. }
  assert (forall n t s, string_literal t s -> forall fuel rest, (2 * length t <= fuel)%nat -> parse_value X fuel n (t ++ rest) = Some (IStr s, rest)) as Hstr.
  { clear n. intros n t s H fuel rest Hf. destruct (literal_reads t s rest H) as (t' & -> & Hp). cbn [length] in Hf. destruct fuel as [|f]; [lia|].
    cbn [app parse_value skip_ws is_ws]. rewrite Hp. reflexivity. }
  induction n as [|n IH]; intros t i H fuel rest Hf Hr; cbn [json_data] in H;
    destruct H as [[-> ->] | [[-> ->] | [[-> ->] | [H | [(s & H & ->) | H]]]]];
    try (destruct fuel as [|f]; [simpl in Hf; lia | reflexivity]); try (apply Hnum; [assumption | assumption | destruct Hr as [Hr | Hr]; [exact Hr | destruct (number_is_number X t i H Hr)]]);
    try (apply Hstr; assumption); [contradiction|].
  destruct H as [(w & Hw & -> & ->) | [(ts & l & Hne & -> & H & ->) | [(w & Hw & -> & ->) | (ts & es & Hne & -> & H & Ho)]]].
  - destruct fuel as [|f]; [simpl in Hf; lia|]. rewrite <- !app_assoc. cbn [parse_value B app skip_ws is_ws].
    change (B "[" ++ w ++ B "]" ++ rest) with (x5b :: w ++ x5d :: rest). cbn [skip_ws is_ws]. rewrite white_ws by exact Hw. reflexivity.
  - unfold array_text in *. rewrite !app_length in Hf. change (length (B "[")) with 1%nat in Hf. change (length (B "]")) with 1%nat in Hf.
    destruct fuel as [|f]; [lia|]. rewrite <- !app_assoc. change (B "[" ++ commas ts ++ B "]" ++ rest) with (x5b :: commas ts ++ x5d :: rest).
    cbn [parse_value skip_ws is_ws].
    destruct (elems_start _ ts l (x5d :: rest) H Hne) as (c & s & Es & Hc & _).
    { intros t a (w & t' & w' & Hw & _ & Ht & ->). exists w, t', w'. split; [exact Hw | split; [exact (data_starts _ _ _ _ Ht) | reflexivity]]. }
    rewrite Es, (elems_take X n ts l IH H Hne) by lia. clear - Hc. destruct c; (reflexivity || congruence).
  - destruct fuel as [|f]; [simpl in Hf; lia|]. rewrite <- !app_assoc.
    change (B "{" ++ w ++ B "}" ++ rest) with (x7b :: w ++ x7d :: rest). cbn [parse_value skip_ws is_ws]. rewrite white_ws by exact Hw. reflexivity.
  - unfold object_text in *. rewrite !app_length in Hf. change (length (B "{")) with 1%nat in Hf. change (length (B "}")) with 1%nat in Hf.
    destruct fuel as [|f]; [lia|]. rewrite <- !app_assoc. change (B "{" ++ commas ts ++ B "}" ++ rest) with (x7b :: commas ts ++ x7d :: rest).
    cbn [parse_value skip_ws is_ws].
    destruct (elems_start _ ts es (x7d :: rest) H Hne) as (c & s & Es & _ & Hc).
    { intros t a (w & k & w' & v & Hw & _ & Hk & _ & ->). exists w, k, (w' ++ B ":" ++ v). split; [exact Hw | split; [exact (literal_starts _ _ Hk) | reflexivity]]. }
    rewrite Es, (entries_take X n ts es IH H Hne) by lia.
    apply object_data_iff in Ho. rewrite Ho. clear - Hc. destruct c; (reflexivity || congruence).
Qed.

(** What a successful parse has read. *)
Definition value_read (X : ext) (f : nat) : Prop := forall n s i r, parse_value X f n s = Some (i, r) ->
  exists w t, white w /\ s = w ++ t ++ r /\ json_data X n t i.
Definition elems_read (X : ext) (f : nat) : Prop := forall n s l r, parse_elems X f n s = Some (l, r) ->
  exists ts, ts <> [] /\ s = commas ts ++ x5d :: r /\ Forall2 (padded (json_data X n)) ts l.
Definition entries_read (X : ext) (f : nat) : Prop := forall n s es r, parse_entries X f n s = Some (es, r) ->
  exists ts, ts <> [] /\ s = commas ts ++ x7d :: r /\ Forall2 (member (json_data X n)) ts es.

Lemma strip_some p s r : strip_prefix p s = Some r -> s = p ++ r.
Proof.
  revert s. induction p as [|c p IH]; intros s H; [injection H as <-; reflexivity|]. destruct s as [|c' s]; [discriminate|].
  cbn [strip_prefix] in H. destruct (Byte.eqb c c') eqn:E; [|discriminate]. apply byte_eqb_eq in E. subst. cbn [app]. f_equal. apply IH, H.
Qed.

Lemma elems_step X f : value_read X f -> elems_read X f -> elems_read X (S f).
Proof.
  intros HV HE n s l r H. cbn [parse_elems] in H. destruct (parse_value X f n s) as [[x s1]|] eqn:Ev; [|discriminate].
  apply HV in Ev as (w & t & Hw & -> & Ht). destruct (skip_ws_white s1) as (w' & Hw' & E1). destruct (skip_ws s1) as [|c s2]; [discriminate|]. subst s1.
  assert (padded (json_data X n) (w ++ t ++ w') x) as Hp by (exists w, t, w'; auto).
  destruct (Byte.eqb c x5d) eqn:Ec.
  { apply byte_eqb_eq in Ec. subst c. injection H as <- <-. exists [w ++ t ++ w']. split; [discriminate | split; [|constructor; [exact Hp | constructor]]].
    rewrite commas_one, <- !app_assoc. reflexivity. }
  apply byte_eqb_neq in Ec. assert (c = x2c) as -> by (destruct c; (reflexivity || discriminate || congruence)). clear Ec.
  destruct (parse_elems X f n s2) as [[l' r']|] eqn:Ee; [|discriminate]. injection H as <- <-. apply HE in Ee as (ts & Hne & -> & Hts).
  exists ((w ++ t ++ w') :: ts). split; [discriminate | split; [|constructor; assumption]]. destruct ts as [|t' ts]; [contradiction|].
  rewrite commas_cons, <- !app_assoc. reflexivity.
Qed.

Lemma entries_step X f : value_read X f -> entries_read X f -> entries_read X (S f).
Proof.
  intros HV HE n s es r H. cbn [parse_entries] in H. destruct (skip_ws_white s) as (w & Hw & Es). destruct (skip_ws s) as [|q s0]; [discriminate|]. subst s.
  assert (q = x22) as -> by (destruct q; (reflexivity || discriminate)). destruct (parse_string s0) as [[k s1]|] eqn:Ek; [|discriminate].
  apply string_is_literal in Ek as (kt & Ek & Hk). rewrite Ek.
  destruct (skip_ws_white s1) as (w' & Hw' & E1). destruct (skip_ws s1) as [|c s2]; [discriminate|]. subst s1.
  assert (c = x3a) as -> by (destruct c; (reflexivity || discriminate)).
  destruct (parse_value X f n s2) as [[x s3]|] eqn:Ev; [|discriminate]. apply HV in Ev as (w2 & t & Hw2 & -> & Ht).
  destruct (skip_ws_white s3) as (w3 & Hw3 & E3). destruct (skip_ws s3) as [|c s4]; [discriminate|]. subst s3.
  assert (member (json_data X n) (w ++ kt ++ w' ++ B ":" ++ w2 ++ t ++ w3) (k, x)) as Hm.
  { exists w, kt, w', (w2 ++ t ++ w3). repeat (split; [assumption|]). split; [exists w2, t, w3; auto | reflexivity]. }
  change (x3a :: w2 ++ t ++ w3 ++ c :: s4) with (B ":" ++ w2 ++ t ++ w3 ++ c :: s4).
  destruct (Byte.eqb c x7d) eqn:Ec.
  { apply byte_eqb_eq in Ec. subst c. injection H as <- <-. exists [w ++ kt ++ w' ++ B ":" ++ w2 ++ t ++ w3].
    split; [discriminate | split; [|constructor; [exact Hm | constructor]]]. rewrite commas_one, <- !app_assoc. reflexivity. }
  apply byte_eqb_neq in Ec. assert (c = x2c) as -> by (destruct c; (reflexivity || discriminate || congruence)). clear Ec.
  destruct (parse_entries X f n s4) as [[l' r']|] eqn:Ee; [|discriminate]. injection H as <- <-. apply HE in Ee as (ts & Hne & -> & Hts).
  exists ((w ++ kt ++ w' ++ B ":" ++ w2 ++ t ++ w3) :: ts). split; [discriminate | split; [|constructor; assumption]]. destruct ts as [|t' ts]; [contradiction|].
  rewrite commas_cons, <- !app_assoc. reflexivity.
Qed.

(** The cases of [parse_value] by the first byte. *)
Lemma value_cases X f n c s1 i r : skip_ws (c :: s1) = c :: s1 -> parse_value X (S f) n (c :: s1) = Some (i, r) ->
  (c = x6e /\ i = INull /\ s1 = B "ull" ++ r) \/ (c = x74 /\ i = IBool true /\ s1 = B "rue" ++ r) \/ (c = x66 /\ i = IBool false /\ s1 = B "alse" ++ r) \/
  (c = x22 /\ exists s, parse_string s1 = Some (s, r) /\ i = IStr s) \/
  (c = x2d /\ parse_number X true s1 = Some (i, r)) \/ parse_number X false (c :: s1) = Some (i, r) \/
  (exists d, n = S d /\
    ((c = x5b /\ ((skip_ws s1 = x5d :: r /\ i = IList []) \/ exists l, parse_elems X f d s1 = Some (l, r) /\ i = IList l)) \/
     (c = x7b /\ ((skip_ws s1 = x7d :: r /\ i = IMap []) \/ exists es, parse_entries X f d s1 = Some (es, r) /\ ipld_of_entries X es = Some i)))).
Proof.
  intros Hs H. cbn [parse_value] in H. rewrite Hs in H.
  destruct (Byte.eqb c x6e) eqn:E1.
  { apply byte_eqb_eq in E1. subst c. destruct (strip_prefix (B "ull") s1) as [r'|] eqn:E; [|discriminate]. injection H as <- <-. apply strip_some in E. tauto. }
  destruct (Byte.eqb c x74) eqn:E2.
  { apply byte_eqb_eq in E2. subst c. destruct (strip_prefix (B "rue") s1) as [r'|] eqn:E; [|discriminate]. injection H as <- <-. apply strip_some in E. tauto. }
  destruct (Byte.eqb c x66) eqn:E3.
  { apply byte_eqb_eq in E3. subst c. destruct (strip_prefix (B "alse") s1) as [r'|] eqn:E; [|discriminate]. injection H as <- <-. apply strip_some in E. tauto. }
  do 3 right. destruct (Byte.eqb c x22) eqn:E4.
  { apply byte_eqb_eq in E4. subst c. left. destruct (parse_string s1) as [[t r']|]; [|discriminate]. injection H as <- <-. eauto. }
  right. destruct (Byte.eqb c x2d) eqn:E5; [apply byte_eqb_eq in E5; subst c; left; auto|].
  right. destruct (Byte.eqb c x5b) eqn:E6.
  { apply byte_eqb_eq in E6. subst c. right. destruct n as [|d]; [discriminate|]. exists d. split; [reflexivity|]. left. split; [reflexivity|].
    destruct (skip_ws s1) as [|b s2].
    - right. destruct (parse_elems X f d s1) as [[l r']|]; [|discriminate]. injection H as <- <-. eauto.
    - destruct (Byte.eqb b x5d) eqn:Eb; [apply byte_eqb_eq in Eb; subst b; injection H as <- <-; auto|].
      right. apply byte_eqb_neq in Eb.
      assert ((let?? (l, r) := parse_elems X f d s1 in Some (IList l, r)) = Some (i, r)) as H' by (destruct b; (exact H || congruence)). clear H.
      destruct (parse_elems X f d s1) as [[l r']|]; [|discriminate]. injection H' as <- <-. eauto. }
  destruct (Byte.eqb c x7b) eqn:E7.
  { apply byte_eqb_eq in E7. subst c. right. destruct n as [|d]; [discriminate|]. exists d. split; [reflexivity|]. right. split; [reflexivity|].
    destruct (skip_ws s1) as [|b s2].
    - right. destruct (parse_entries X f d s1) as [[l r']|]; [|discriminate]. destruct (ipld_of_entries X l) eqn:El; [|discriminate]. injection H as <- <-. eauto.
    - destruct (Byte.eqb b x7d) eqn:Eb; [apply byte_eqb_eq in Eb; subst b; injection H as <- <-; auto|].
      right. apply byte_eqb_neq in Eb.
      assert ((let?? (es, r) := parse_entries X f d s1 in let?? i := ipld_of_entries X es in Some (i, r)) = Some (i, r)) as H' by (destruct b; (exact H || congruence)). clear H.
      destruct (parse_entries X f d s1) as [[l r']|]; [|discriminate]. destruct (ipld_of_entries X l) eqn:El; [|discriminate]. injection H' as <- <-. eauto. }
  left. apply byte_eqb_neq in E1, E2, E3, E4, E5, E6, E7.
  assert ((if is_digit c then parse_number X false (c :: s1) else None) = Some (i, r)) as H' by (destruct c; (exact H || congruence)). clear H.
  destruct (is_digit c); [exact H' | discriminate].
Qed.

Lemma value_step X f : value_read X f -> elems_read X f -> entries_read X f -> value_read X (S f).
Proof.
  intros HV HE HM n s i r H. destruct (skip_ws_white s) as (w & Hw & Es).
  rewrite Es in H. rewrite parse_value_white in H by exact Hw.
  assert (skip_ws (skip_ws s) = skip_ws s) as Hss by (rewrite Es at 2; rewrite white_ws by exact Hw; reflexivity).
  destruct (skip_ws s) as [|c s1]; [discriminate|].
  assert (forall t, c :: s1 = t ++ r -> json_data X n t i -> exists w t, white w /\ s = w ++ t ++ r /\ json_data X n t i) as Hgo.
  { intros t Et Ht. exists w, t. rewrite <- Et. auto. }
  destruct (value_cases X f n c s1 i r Hss H) as [(-> & -> & ->) | [(-> & -> & ->) | [(-> & -> & ->) | [(-> & t & Hp & ->) | [[-> Hp] | [Hp | (d & -> & Hd)]]]]]].
  - exact (Hgo (B "null") eq_refl (json_null X n)).
  - exact (Hgo (B "true") eq_refl (json_true X n)).
  - exact (Hgo (B "false") eq_refl (json_false X n)).
  - apply string_is_literal in Hp as (t' & E & Ht). exact (Hgo t' E (json_literal X n t' t Ht)).
  - apply number_is_data in Hp as (t & -> & Ht). exact (Hgo (sign_of true ++ t) eq_refl (json_number X n _ i Ht)).
  - apply number_is_data in Hp as (t & E & Ht). exact (Hgo (sign_of false ++ t) E (json_number X n _ i Ht)).
  - destruct Hd as [[-> [[E ->] | (l & He & ->)]] | [-> [[E ->] | (es & He & Ho)]]].
    + destruct (skip_ws_white s1) as (w' & Hw' & E'). rewrite E in E'. apply (Hgo (B "[" ++ w' ++ B "]")).
      * rewrite E', <- !app_assoc. reflexivity.
      * do 5 right. left. exists w'. auto.
    + apply HE in He as (ts & Hne & -> & Hts). apply (Hgo (array_text ts)).
      * unfold array_text. rewrite <- !app_assoc. reflexivity.
      * do 6 right. left. exists ts, l. auto.
    + destruct (skip_ws_white s1) as (w' & Hw' & E'). rewrite E in E'. apply (Hgo (B "{" ++ w' ++ B "}")).
      * rewrite E', <- !app_assoc. reflexivity.
      * do 7 right. left. exists w'. auto.
    + apply HM in He as (ts & Hne & -> & Hts). apply (Hgo (object_text ts)).
      * unfold object_text. rewrite <- !app_assoc. reflexivity.
      * do 8 right. exists ts, es. apply object_data_iff in Ho. auto.
Qed.

Lemma all_read X f : value_read X f /\ elems_read X f /\ entries_read X f.
Proof.
  induction f as [|f (HV & HE & HM)]; [repeat split; intros n s i r H; discriminate H|].
  split; [apply value_step; assumption | split; [apply elems_step; assumption | apply entries_step; assumption]].
Qed.

Lemma json_data_nonempty X n t i : json_data X n t i -> (1 <= length t)%nat.
Proof. intros H. apply data_starts in H. destruct t; [contradiction | simpl; lia]. Qed.

(** Exactly the documents that are read; a number at the top must not run into what follows. *)
Lemma dagjson_grammar X t i : (x_dagjson_end X = true \/ (forall z, i <> IInt z) /\ (forall f, i <> IFloat f)) ->
  (dagjson_decode X t = Some i <-> json_document X t i).
Proof.
  intros Hi. unfold dagjson_decode, json_document. change max_depth with 127%nat. split.
  - destruct (parse_value X (2 * length t + 2) 127 t) as [[i' r]|] eqn:E; [|discriminate]. apply all_read in E as (w & d & Hw & -> & Hd).
    destruct (x_dagjson_end X) eqn:Ex.
    + destruct (skip_ws_white r) as (w' & Hw' & Er). destruct (skip_ws r) as [|]; [|discriminate]. intros [= <-]. rewrite app_nil_r in Er. subst w'.
      exists (w ++ d ++ r), []. rewrite app_nil_r. split; [reflexivity | split; [exists w, d, r; auto | reflexivity]].
    + intros [= <-]. exists (w ++ d), r. rewrite <- app_assoc. split; [reflexivity | split; [|discriminate]]. exists w, d, []. rewrite app_nil_r. repeat split; auto. constructor.
  - intros (d & rest & -> & (w & t' & w' & Hw & Hw' & Hd & ->) & Hrest).
    assert (parse_value X (2 * length ((w ++ t' ++ w') ++ rest) + 2) 127 ((w ++ t' ++ w') ++ rest) = Some (i, w' ++ rest)) as ->.
    { rewrite <- !app_assoc. rewrite parse_value_white by exact Hw. apply value_takes; [exact Hd | rewrite !app_length; lia |].
      destruct Hi as [Hx | Hi]; [left | right; exact Hi]. rewrite (Hrest Hx). exact (white_stops w' [] Hw' I). }
    destruct (x_dagjson_end X) eqn:Ex; [|reflexivity]. rewrite Hrest by reflexivity. rewrite white_ws by exact Hw'. reflexivity.
Qed.

Lemma token_grammar_iff X t u : parse_token X t = Ok u <-> token_grammar X t u.
Proof.
  rewrite parse_token_read. unfold token_read, token_grammar.
  assert (forall d m, dagjson_decode X d = Some (IMap m) <-> json_document X d (IMap m)) as H.
  { intros d m. apply dagjson_grammar. right. split; intros; discriminate. }
  split; intros (h & p & hm & pm & more & H1 & H2 & H3 & H4 & H5 & H6); exists h, p, hm, pm, more; apply H in H3, H5; tauto.
Qed.
