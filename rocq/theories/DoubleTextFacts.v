From Coq Require Import Floats.SpecFloat.
From Verif Require Import Prelude Ord Base58 Value Ext Json Key Ucan Double Spec SpecWire SpecDouble OrdFacts Base58Facts WireFacts JsonFacts JsonGrammarFacts TokenFacts DoubleFacts DoublePrintFacts DoubleSearchFacts.
Local Open Scope Z_scope.

(* ------------------------------------------------------------------ digit strings *)

Lemma digits_value_app a b : digits_value (a ++ b) = digits_value a * 10 ^ Z.of_nat (length b) + digits_value b.
Proof.
  rewrite !digits_value_dec. unfold dec_value. rewrite map_app, of_digits_app, map_length, N2Z.inj_add, N2Z.inj_mul, N2Z.inj_pow, nat_N_Z. reflexivity.
Qed.

Lemma digits_value_zeros z : Forall (eq x30) z -> digits_value z = 0.
Proof. intros H. induction H as [|c z <- _ IH]; [reflexivity|]. change (x30 :: z) with ([x30] ++ z). rewrite digits_value_app, IH. reflexivity. Qed.

Lemma zeros_digits z : Forall (eq x30) z -> Forall (fun c => (48 <= bN c <= 57)%N) z.
Proof. intros H. eapply Forall_impl; [|exact H]. intros c <-. vm_compute. split; discriminate. Qed.

Lemma digits_value_print n : digits_value (dec_print n) = Z.of_N n.
Proof. rewrite digits_value_dec, dec_value_print. reflexivity. Qed.

Lemma digits_app a b : digits a -> Forall (fun c => (48 <= bN c <= 57)%N) b -> digits (a ++ b).
Proof. intros [H1 H2] H3. split; [destruct a; [contradiction | discriminate]|]. apply Forall_app. split; assumption. Qed.

Lemma digits_app_r a b : Forall (fun c => (48 <= bN c <= 57)%N) a -> digits b -> digits (a ++ b).
Proof. intros H1 [H2 H3]. split; [destruct a; [exact H2 | discriminate]|]. apply Forall_app. split; assumption. Qed.

Definition exp_form (x : Z) (t : bytes) : Prop := exists sg d, t = sg ++ d /\ digits d /\ ((sg = [] \/ sg = B "+") /\ x = digits_value d \/ sg = B "-" /\ x = - digits_value d).
Lemma integer_exp x t : integer_text x t -> exp_form x t.
Proof.
  rewrite integer_text_iff. intros ->. unfold json_int. destruct (Z.ltb_spec x 0) as [L|L].
  - exists (B "-"), (dec_print (Z.to_N (- x))). split; [reflexivity|]. split; [apply dec_print_int|]. right. split; [reflexivity|]. rewrite digits_value_print. lia.
  - exists [], (dec_print (Z.to_N x)). split; [reflexivity|]. split; [apply dec_print_int|]. left. split; [left; reflexivity|]. rewrite digits_value_print. lia.
Qed.

(* -------------------------------------------------------------------- the layout *)

Lemma zeros_all n : Forall (eq x30) (zeros n).
Proof. apply Forall_forall. intros c Hc. apply repeat_spec in Hc. auto. Qed.
Lemma zeros_length n : 0 <= n -> Z.of_nat (length (zeros n)) = n.
Proof. intros H. unfold zeros. rewrite repeat_length. lia. Qed.

Lemma layout_shown m k : shown (dec_print (Z.to_N m)) (Z.of_nat (length (dec_print (Z.to_N m))) + k) (layout m k).
Proof.
  unfold layout. set (ds := dec_print (Z.to_N m)). assert (ds <> []) as Hne by apply dec_print_nonnil. set (len := Z.of_nat (length ds)).
  assert (0 < len) as Hl by (unfold len; destruct ds; [contradiction | cbn [length]; lia]).
  destruct (Z.leb_spec 0 k) as [L1|L1]; cbn [andb].
  - destruct (Z.leb_spec (len + k) 16) as [L2|L2]; cbn [andb].
    + apply Sh_whole; [rewrite Nat2Z.inj_add, zeros_length by lia; reflexivity | lia | apply zeros_all].
    + rewrite andb_false_r. destruct (Z.leb_spec (len + k) 0) as [L3|L3]; [lia|]. rewrite andb_false_r.
      destruct (Z.eqb_spec len 1) as [L4|L4].
      * destruct ds as [|d [|d' r]] eqn:Ed; [contradiction | | unfold len in L4; cbn [length] in L4; lia]. apply Sh_exp1; [reflexivity | right; lia|]. apply integer_text_iff. reflexivity.
      * destruct ds as [|d r] eqn:Ed; [contradiction|]. cbn [firstn skipn]. apply Sh_exp; [reflexivity | | right; lia | apply integer_text_iff; reflexivity]. intros ->. apply L4. reflexivity.
  - destruct (Z.ltb_spec 0 (len + k)) as [L2|L2]; cbn [andb].
    + destruct (Z.leb_spec (len + k) 16) as [L3|L3]; cbn [andb].
      * apply Sh_point; [symmetry; apply firstn_skipn | | | rewrite firstn_length_le; unfold len in *; lia | exact L3].
        -- intros E. apply (f_equal (@length byte)) in E. rewrite firstn_length_le in E by (unfold len in *; lia). cbn [length] in E. lia.
        -- intros E. apply (f_equal (@length byte)) in E. rewrite skipn_length in E. cbn [length] in E. unfold len in *. lia.
      * destruct (Z.leb_spec (len + k) 0) as [L4|L4]; [lia|]. rewrite andb_false_r.
        destruct (Z.eqb_spec len 1) as [L5|L5]; [lia|]. destruct ds as [|d r] eqn:Ed; [contradiction|]. cbn [firstn skipn]. apply Sh_exp; [reflexivity | | right; lia | apply integer_text_iff; reflexivity]. intros ->. apply L5. reflexivity.
    + destruct (Z.leb_spec (len + k) 0) as [L3|L3]; [|lia]. rewrite andb_true_r. destruct (Z.ltb_spec (-5) (len + k)) as [L4|L4].
      * apply Sh_small; [apply zeros_length; lia | exact L4 | apply zeros_all].
      * destruct (Z.eqb_spec len 1) as [L5|L5].
        -- destruct ds as [|d [|d' r]] eqn:Ed; [contradiction | | unfold len in L5; cbn [length] in L5; lia]. apply Sh_exp1; [reflexivity | left; lia|]. apply integer_text_iff. reflexivity.
        -- destruct ds as [|d r] eqn:Ed; [contradiction|]. cbn [firstn skipn]. apply Sh_exp; [reflexivity | | left; lia | apply integer_text_iff; reflexivity]. intros ->. apply L5. reflexivity.
Qed.

Definition sign_text (neg : bool) : bytes := if neg then B "-" else [].
Lemma sign_cases neg : sign_text neg = [] /\ neg = false \/ sign_text neg = B "-" /\ neg = true.
Proof. destruct neg; auto. Qed.

Lemma head_zero (a b : bytes) : a <> [] -> (forall r, a ++ b <> B "0" ++ r) -> forall r, a <> B "0" ++ r.
Proof. intros Ha H r ->. apply (H (r ++ b)). rewrite app_assoc. reflexivity. Qed.

Lemma shown_value neg ds P t : digits ds -> (forall r, ds <> B "0" ++ r) -> shown ds P t ->
  float_text (sign_text neg ++ t) /\ exists i, 0 <= i /\ number_value (sign_text neg ++ t) neg (digits_value ds * 10 ^ i) (P - Z.of_nat (length ds) - i).
Proof.
  intros Hd Hz H.
  assert (forall int frac fd exp x, t = int ++ frac ++ exp -> digits int -> (int = B "0" \/ forall r, int <> B "0" ++ r) ->
    (frac = [] /\ fd = [] \/ frac = B "." ++ fd /\ digits fd) -> (exp = [] /\ x = 0 \/ exists e, exp = B "e" ++ e /\ exp_form x e) -> (frac <> [] \/ exp <> []) ->
    forall i, 0 <= i -> digits_value (int ++ fd) = digits_value ds * 10 ^ i -> x - Z.of_nat (length fd) = P - Z.of_nat (length ds) - i ->
    float_text (sign_text neg ++ t) /\ exists i, 0 <= i /\ number_value (sign_text neg ++ t) neg (digits_value ds * 10 ^ i) (P - Z.of_nat (length ds) - i)) as Hgen.
  { intros int frac fd exp x -> Hi Hiz Hf He Hfe i Hi0 Ev Ek. split.
    - exists (sign_text neg), int, frac, exp. split; [reflexivity|]. split; [destruct neg; auto|]. split; [exact Hi|]. split; [exact Hiz|].
      split; [destruct Hf as [[-> _] | [-> Hf]]; eauto|]. split; [|exact Hfe].
      destruct He as [[-> _] | (e & -> & sg & d & -> & Hdd & Hs)]; [left; reflexivity|]. right. exists (B "e"), sg, d. split; [reflexivity|]. split; [left; reflexivity|]. split; [destruct Hs as [[[-> | ->] _] | [-> _]]; auto | exact Hdd].
    - exists i. split; [exact Hi0|]. rewrite <- Ev, <- Ek. exists (sign_text neg), int, frac, fd, exp, x. split; [reflexivity|]. split; [apply sign_cases|]. split; [exact Hi|]. split; [exact Hiz|].
      split; [exact Hf|]. split; [|split; reflexivity]. destruct He as [He | (e & -> & sg & d & -> & Hdd & Hs)]; [left; exact He|]. right. exists (B "e"), sg, d. auto. }
  destruct Hd as [Hne Hall].
  destruct H as [z Hl HP Hzz | a b Ed Ha Hb Hl HP | z Hl HP Hzz | d e Ed HP He | d r e Ed Hr HP He].
  - apply (Hgen (ds ++ z) (B ".0") (B "0") [] 0) with (i := Z.of_nat (length z) + 1).
    + rewrite <- !app_assoc, app_nil_r. reflexivity.
    + apply digits_app; [split; assumption | apply zeros_digits, Hzz].
    + right. intros r E. destruct ds as [|c ds]; [contradiction|]. injection E as -> _. apply (Hz ds). reflexivity.
    + right. split; [reflexivity|]. apply (dec_print_int 0).
    + left. auto.
    + left. discriminate.
    + lia.
    + rewrite <- app_assoc, digits_value_app. rewrite (digits_value_zeros (z ++ B "0")) by (apply Forall_app; split; [exact Hzz | repeat constructor]). rewrite app_length, Nat2Z.inj_add. change (Z.of_nat (length (B "0"))) with 1. apply Z.add_0_r.
    + change (length (B "0")) with 1%nat. lia.
  - apply (Hgen a (B "." ++ b) b [] 0) with (i := 0).
    + rewrite app_nil_r. reflexivity.
    + subst ds. apply Forall_app in Hall as [H1 _]. split; assumption.
    + right. subst ds. apply (head_zero a b Ha Hz).
    + right. split; [reflexivity|]. subst ds. apply Forall_app in Hall as [_ H2]. split; assumption.
    + left. auto.
    + left. discriminate.
    + lia.
    + subst ds. rewrite Z.mul_1_r. reflexivity.
    + subst ds. rewrite app_length. lia.
  - apply (Hgen (B "0") (B "." ++ z ++ ds) (z ++ ds) [] 0) with (i := 0).
    + rewrite app_nil_r. reflexivity.
    + apply (dec_print_int 0).
    + left. reflexivity.
    + right. split; [reflexivity|]. apply digits_app_r; [apply zeros_digits, Hzz | split; assumption].
    + left. auto.
    + left. discriminate.
    + lia.
    + rewrite app_assoc, digits_value_app, (digits_value_zeros (B "0" ++ z)) by (constructor; [reflexivity | exact Hzz]). rewrite Z.mul_1_r. lia.
    + rewrite app_length. lia.
  - apply (Hgen ds [] [] (B "e" ++ e) (P - 1)) with (i := 0).
    + rewrite Ed. reflexivity.
    + split; assumption.
    + right. exact Hz.
    + left. auto.
    + right. exists e. split; [reflexivity | apply integer_exp, He].
    + right. discriminate.
    + lia.
    + rewrite app_nil_r, Z.mul_1_r. reflexivity.
    + rewrite Ed. cbn [length]. lia.
  - apply (Hgen [d] (B "." ++ r) r (B "e" ++ e) (P - 1)) with (i := 0).
    + rewrite <- !app_assoc. reflexivity.
    + rewrite Ed in Hall. apply Forall_app in Hall as [H1 _]. split; [discriminate | exact H1].
    + right. apply (head_zero [d] r ltac:(discriminate)). rewrite <- Ed. exact Hz.
    + right. split; [reflexivity|]. rewrite Ed in Hall. apply Forall_app in Hall as [_ H2]. split; assumption.
    + right. exists e. split; [reflexivity | apply integer_exp, He].
    + left. discriminate.
    + lia.
    + rewrite Ed, Z.mul_1_r. reflexivity.
    + rewrite Ed, app_length. cbn [length]. lia.
Qed.

Lemma number_value_fun t n1 m1 k1 n2 m2 k2 : number_value t n1 m1 k1 -> number_value t n2 m2 k2 -> n1 = n2 /\ m1 = m2 /\ k1 = k2.
Proof. intros H1 H2. apply read_decimal_iff in H1, H2. rewrite H1 in H2. injection H2. auto. Qed.

(* ------------------------------------------------------------------- the printer *)

(** What is printed for a double that is not zero. *)
Lemma print_found neg p e : shaped (Zpos p) e -> exists m c m' k' i,
  found neg p e m c /\ 0 < m' < 10 ^ c /\ (m' = m /\ k' = decade (num p e) (den e) - c \/ m = 10 /\ m' = 1 /\ c = 1 /\ k' = decade (num p e) (den e) - c + 1) /\
  (forall j, m' <> 10 * j) /\
  double_print (S754_finite neg p e) = sign_text neg ++ layout m' k' /\ 0 <= i /\ number_value (sign_text neg ++ layout m' k') neg (m' * 10 ^ i) (k' - i) /\
  float_text (sign_text neg ++ layout m' k').
Proof.
  intros Hs. destruct (search neg p e Hs) as (m & c & Es & Hf). pose proof (fo_range _ _ _ _ _ Hf) as Hc. pose proof (qq_decade p e Hs c ltac:(lia)) as Hq. pose proof (ten_pos (c - 1) ltac:(lia)) as H0.
  assert (0 < m <= 10 ^ c) as Hm by (destruct (fo_near _ _ _ _ _ Hf); lia).
  assert (exists m' k', settle m (decade (num p e) (den e) - c) = (m', k') /\ 0 < m' < 10 ^ c /\
    (m' = m /\ k' = decade (num p e) (den e) - c \/ m = 10 /\ m' = 1 /\ c = 1 /\ k' = decade (num p e) (den e) - c + 1) /\ (forall j, m' <> 10 * j)) as (m' & k' & Et & Hm' & Hset & Htight).
  { unfold settle. destruct (Z.eqb_spec m 10) as [E10 | E10].
    - destruct (found_tight neg p e Hs m c 1 Hf ltac:(lia)) as [_ Ec]. exists 1, (decade (num p e) (den e) - c + 1). split; [reflexivity|]. rewrite Ec. change (10 ^ 1) with 10. split; [lia|]. split; [right; auto|]. intros j. lia.
    - exists m, (decade (num p e) (den e) - c). split; [reflexivity|]. assert (forall j, m <> 10 * j) as Ht by (intros j Ej; apply E10; apply (found_tight neg p e Hs m c j Hf Ej)).
      split; [|split; [left; auto | exact Ht]]. split; [lia|]. destruct (Z.eq_dec m (10 ^ c)) as [Ec|]; [|lia]. exfalso. apply (Ht (10 ^ (c - 1))). rewrite Ec. replace c with (1 + (c - 1)) at 1 by lia. rewrite Z.pow_add_r by lia. reflexivity. }
  assert (double_print (S754_finite neg p e) = sign_text neg ++ layout m' k') as Ep.
  { unfold double_print. fold (num p e) (den e). rewrite Es, Et. reflexivity. }
  destruct (dec_print_int (Z.to_N m')) as [Hd Hz].
  destruct (shown_value neg (dec_print (Z.to_N m')) (Z.of_nat (length (dec_print (Z.to_N m'))) + k') (layout m' k') Hd) as [Hft (i & Hi & Hv)]; [|apply layout_shown|].
  { destruct Hz as [Hz | Hz]; [|exact Hz]. exfalso. pose proof (digits_value_print (Z.to_N m')) as Hx. rewrite Hz in Hx. change (digits_value (B "0")) with 0 in Hx. lia. }
  rewrite digits_value_print, Z2N.id in Hv by lia. exists m, c, m', k', i. split; [exact Hf|]. split; [exact Hm'|]. split; [exact Hset|]. split; [exact Htight|]. split; [exact Ep|]. split; [exact Hi|]. split; [|exact Hft].
  replace (k' - i) with (Z.of_nat (length (dec_print (Z.to_N m'))) + k' - Z.of_nat (length (dec_print (Z.to_N m'))) - i) by lia. exact Hv.
Qed.

Lemma parse_value t neg m k : number_value t neg m k -> double_parse t = round_decimal neg m k.
Proof. intros H. apply read_decimal_iff in H. unfold double_parse. rewrite H. reflexivity. Qed.
Lemma parse_R t neg p e n m k : number_value t n m k -> double_parse t = Some (S754_finite neg p e) -> n = neg /\ R neg p e m k.
Proof.
  intros Hv H. pose proof (number_value_nonneg _ _ _ _ Hv) as Hm. rewrite (parse_value _ _ _ _ Hv) in H. assert (n = neg) as ->; [|split; [reflexivity | split; assumption]].
  apply round_decimal_iff in H as [_ H]; [|exact Hm]. symmetry. exact H.
Qed.

Lemma zero_value neg : number_value (sign_text neg ++ B "0.0") neg 0 (-1).
Proof. apply read_decimal_iff. destruct neg; vm_compute; reflexivity. Qed.

Lemma print_zero neg : double_print (S754_zero neg) = sign_text neg ++ B "0.0".
Proof. reflexivity. Qed.

Lemma print_reads f : finite_float f -> double_parse (double_print f) = Some f.
Proof.
  intros Hf. destruct f as [neg| | |neg p e]; cbn [finite_float] in Hf; try contradiction.
  - rewrite print_zero, (parse_value _ _ _ _ (zero_value neg)). vm_compute. destruct neg; reflexivity.
  - apply bounded_shaped in Hf. destruct (print_found neg p e Hf) as (m & c & m' & k' & i & Hfo & Hm' & Hset & _ & -> & Hi & Hv & _).
    rewrite (parse_value _ _ _ _ Hv), round_decimal_shift by lia. replace (k' - i + i) with k' by lia. destruct (fo_reads _ _ _ _ _ Hfo) as [_ HR].
    destruct Hset as [[-> ->] | (-> & -> & -> & ->)]; [exact HR|]. etransitivity; [|exact HR]. rewrite <- (round_decimal_shift neg 1 1) by lia. reflexivity.
Qed.

Lemma print_text f : finite_float f -> float_text (double_print f).
Proof.
  intros Hf. destruct f as [neg| | |neg p e]; cbn [finite_float] in Hf; try contradiction.
  - rewrite print_zero. exists (sign_text neg), (B "0"), (B ".0"), []. split; [destruct neg; reflexivity|]. split; [destruct neg; auto|]. split; [apply (dec_print_int 0)|]. split; [left; reflexivity|].
    split; [right; exists (B "0"); split; [reflexivity | apply (dec_print_int 0)]|]. split; [left; reflexivity | left; discriminate].
  - apply bounded_shaped in Hf. destruct (print_found neg p e Hf) as (m & c & m' & k' & i & _ & _ & _ & _ & -> & _ & _ & H). exact H.
Qed.

Lemma double_carried X f : x_f64_print X = double_print -> x_f64_parse X = double_parse -> finite_float f -> float_carried X f.
Proof. intros E1 E2 Hf. unfold float_carried. rewrite E1, E2. split; [exact Hf|]. split; [apply print_text, Hf | apply print_reads, Hf]. Qed.

Lemma doubles_survive X : x_f64_print X = double_print -> x_f64_parse X = double_parse -> floats_survive X.
Proof.
  intros E1 E2 t f H. apply (double_carried X f E1 E2). rewrite E2 in H. apply double_parse_iff in H as (neg & m & k & _ & (Hf & _) & _). exact Hf.
Qed.

(** Shape. *)
Lemma print_shape neg p e : finite_float (S754_finite neg p e) -> exists ds P t, tight ds /\ shown ds P t /\ double_print (S754_finite neg p e) = (if neg then B "-" else []) ++ t.
Proof.
  intros Hf. apply bounded_shaped in Hf. destruct (print_found neg p e Hf) as (m & c & m' & k' & i & Hfo & Hm' & Hset & Ht & Ep & _).
  exists (dec_print (Z.to_N m')), (Z.of_nat (length (dec_print (Z.to_N m'))) + k'), (layout m' k'). split; [|split; [apply layout_shown | exact Ep]].
  destruct (dec_print_int (Z.to_N m')) as [Hd Hz]. split; [exact Hd|]. split.
  - destruct Hz as [Hz | Hz]; [|exact Hz]. exfalso. pose proof (digits_value_print (Z.to_N m')) as Hx. rewrite Hz in Hx. change (digits_value (B "0")) with 0 in Hx. lia.
  - intros r Er. apply (Ht (digits_value r)). pose proof (digits_value_print (Z.to_N m')) as Hx. rewrite Er, digits_value_app in Hx. change (digits_value (B "0")) with 0 in Hx. change (10 ^ Z.of_nat (length (B "0"))) with 10 in Hx. lia.
Qed.

(** Shortest. *)
Lemma print_shortest t f c : double_parse t = Some f -> digits_suffice t c -> digits_suffice (double_print f) c.
Proof.
  intros Hp (n & a & i & k & Hv & Hi & Ha). assert (finite_float f) as Hf by (apply double_parse_iff in Hp as (? & ? & ? & _ & (Hf & _) & _); exact Hf).
  destruct f as [neg| | |neg p e]; cbn [finite_float] in Hf; try contradiction.
  - exists neg, 0, 0, (-1). split; [exact (zero_value neg)|]. lia.
  - apply bounded_shaped in Hf. destruct (parse_R _ _ _ _ _ _ _ Hv Hp) as [-> HR]. apply R_shift in HR; [|lia | exact Hi].
    destruct (print_found neg p e Hf) as (m & c0 & m' & k' & i' & Hfo & Hm' & Hset & _ & -> & Hi' & Hv' & _).
    pose proof (found_shortest neg p e Hf m c0 a _ c Hfo HR ltac:(lia)) as Hc. pose proof (fo_range _ _ _ _ _ Hfo) as Hr. exists neg, m', i', (k' - i'). split; [exact Hv'|]. split; [exact Hi'|].
    assert (10 ^ c0 <= 10 ^ c) by (apply Z.pow_le_mono_r; lia). lia.
Qed.

(** Distances of a representation. *)
Section Dist.
  Variables (neg : bool) (p : positive) (e : Z).
  Hypothesis Hs : shaped (Zpos p) e.
  Let f := S754_finite neg p e.

  Lemma distance_D m k k' : 0 <= m -> den e * distance (signed neg m) k f k' = D p e m k * T k' * 2 ^ unit_exp.
  Proof.
    intros Hm. pose proof (den_pos e) as Hd. pose proof U_pos as HU. unfold distance. rewrite <- signed_ten. change neg with (negative f) at 1. rewrite away_same.
    destruct (rescale (num p e) (den e) (2 ^ unit_exp) (magnitude f) (10 ^ Z.max 0 k) (10 ^ Z.max 0 (- k)) m) as [_ X]; [lia | lia | apply ratio_magnitude, Hs|].
    unfold ten_num. fold (ten_den k) in X. rewrite Z.mul_assoc, X. unfold D, T, aa, bb. fold (ten_den k) (ten_den k'). rewrite <- !Z.mul_assoc. f_equal. apply Z.mul_comm.
  Qed.

  Lemma distance_le m k m' k' : 0 <= m -> 0 <= m' -> (distance (signed neg m) k f k' <= distance (signed neg m') k' f k <-> D p e m k * T k' <= D p e m' k' * T k).
  Proof.
    intros H1 H2. pose proof (den_pos e) as Hd. pose proof U_pos as HU. rewrite (Z.mul_le_mono_pos_l _ _ (den e)) by exact Hd. rewrite !distance_D by assumption.
    rewrite <- Z.mul_le_mono_pos_r by exact HU. reflexivity.
  Qed.
  Lemma distance_eq m k m' k' : 0 <= m -> 0 <= m' -> (distance (signed neg m) k f k' = distance (signed neg m') k' f k <-> D p e m k * T k' = D p e m' k' * T k).
  Proof.
    intros H1 H2. pose proof (distance_le m k m' k' H1 H2). pose proof (distance_le m' k' m k H2 H1). lia.
  Qed.

  Lemma D_le_l m i k m' k' : 0 <= i -> (D p e (m * 10 ^ i) k * T k' <= D p e m' k' * T k <-> D p e m (k + i) * T k' <= D p e m' k' * T (k + i)).
  Proof.
    intros Hi. pose proof (D_shift p e m i k Hi) as Es. pose proof (ten_den_pos k) as H1. pose proof (ten_den_pos (k + i)) as H2.
    rewrite (Z.mul_le_mono_pos_r _ _ (T (k + i))) by exact H2. rewrite (Z.mul_le_mono_pos_r (D p e m (k + i) * T k') _ (T k)) by exact H1.
    replace (D p e (m * 10 ^ i) k * T k' * T (k + i)) with (D p e (m * 10 ^ i) k * T (k + i) * T k') by ring. rewrite Es.
    replace (D p e m (k + i) * T k * T k') with (D p e m (k + i) * T k' * T k) by ring. replace (D p e m' k' * T k * T (k + i)) with (D p e m' k' * T (k + i) * T k) by ring. reflexivity.
  Qed.
  Lemma D_le_r m k m' i k' : 0 <= i -> (D p e m k * T k' <= D p e (m' * 10 ^ i) k' * T k <-> D p e m k * T (k' + i) <= D p e m' (k' + i) * T k).
  Proof.
    intros Hi. pose proof (D_shift p e m' i k' Hi) as Es. pose proof (ten_den_pos k') as H1. pose proof (ten_den_pos (k' + i)) as H2.
    rewrite (Z.mul_le_mono_pos_r _ _ (T (k' + i))) by exact H2. rewrite (Z.mul_le_mono_pos_r (D p e m k * T (k' + i)) _ (T k')) by exact H1.
    replace (D p e (m' * 10 ^ i) k' * T k * T (k' + i)) with (D p e (m' * 10 ^ i) k' * T (k' + i) * T k) by ring. rewrite Es.
    replace (D p e m' (k' + i) * T k' * T k) with (D p e m' (k' + i) * T k * T k') by ring. replace (D p e m k * T k' * T (k' + i)) with (D p e m k * T (k' + i) * T k') by ring. reflexivity.
  Qed.
End Dist.

(** Equal numbers. *)
Lemma same_shift m i k : 0 <= i -> same_number (m * 10 ^ i) k m (k + i).
Proof.
  intros Hi. unfold same_number, ten_num, ten_den. rewrite <- !Z.mul_assoc, <- !Z.pow_add_r by lia. f_equal. f_equal. lia.
Qed.
Lemma same_opp m k m' k' : same_number m k m' k' -> same_number (- m) k (- m') k'.
Proof. unfold same_number, ten_num. intros H. rewrite !Z.mul_opp_l, H. reflexivity. Qed.
Lemma same_sym m k m' k' : same_number m k m' k' -> same_number m' k' m k.
Proof. unfold same_number. auto. Qed.
Lemma same_trans m1 k1 m2 k2 m3 k3 : same_number m1 k1 m2 k2 -> same_number m2 k2 m3 k3 -> same_number m1 k1 m3 k3.
Proof.
  unfold same_number. intros H1 H2. pose proof (ten_den_pos k2) as Hd. apply (Z.mul_reg_r _ _ (ten_den k2)); [lia|].
  replace (ten_num m1 k1 * ten_den k3 * ten_den k2) with (ten_num m1 k1 * ten_den k2 * ten_den k3) by ring. rewrite H1.
  replace (ten_num m2 k2 * ten_den k1 * ten_den k3) with (ten_num m2 k2 * ten_den k3 * ten_den k1) by ring. rewrite H2. ring.
Qed.

(** Closest. *)
Lemma print_closest t f c neg m k neg' m' k' : double_parse t = Some f -> digits_suffice t c -> ~ digits_suffice (double_print f) (c - 1) ->
  number_value t neg m k -> number_value (double_print f) neg' m' k' ->
  neg = neg' /\ distance (signed neg m') k' f k <= distance (signed neg m) k f k' /\
  (distance (signed neg m') k' f k = distance (signed neg m) k f k' ->
   same_number m' k' m k \/ exists a b j, same_number m' k' a j /\ same_number m k b j /\ Z.even a = true /\ (b = a + 1 \/ b = a - 1)).
Proof.
  intros Hp (n & a & i & k0 & Hv0 & Hi & Ha) Hnw Hv Hv'. assert (finite_float f) as Hf by (apply double_parse_iff in Hp as (? & ? & ? & _ & (Hf & _) & _); exact Hf).
  pose proof (number_value_nonneg _ _ _ _ Hv) as Hm0. pose proof (number_value_nonneg _ _ _ _ Hv') as Hm0'.
  destruct f as [z| | |z p e]; cbn [finite_float] in Hf; try contradiction.
  - assert (neg = z) as ->.
    { rewrite (parse_value _ _ _ _ Hv) in Hp. apply round_decimal_iff in Hp as [_ Hp]; [|exact Hm0]. symmetry. exact Hp. }
    rewrite print_zero in Hv'. destruct (number_value_fun _ _ _ _ _ _ _ Hv' (zero_value z)) as (-> & -> & ->). split; [reflexivity|].
    assert (distance (signed z 0) (-1) (S754_zero z) k = 0) as Ez by (unfold distance, away, ten_num, signed; destruct z; reflexivity). rewrite Ez.
    pose proof (ten_den_pos (-1)) as Hd. split.
    + unfold distance. apply Z.mul_nonneg_nonneg; [apply Z.abs_nonneg | lia].
    + intros E. left. unfold distance in E. symmetry in E. apply Z.eq_mul_0 in E as [E | E]; [|lia]. unfold away in E. apply (proj1 (Z.abs_0_iff _)) in E. cbn [scaled] in E. rewrite Z.mul_0_r, Z.sub_0_r in E. apply Z.eq_mul_0 in E as [E | E]; [|pose proof (pow_pos 1074 ltac:(lia)); lia].
      unfold same_number. assert (ten_num m k = 0) as ->; [|reflexivity]. unfold ten_num, signed in *. destruct z; [rewrite Z.mul_opp_l in E|]; lia.
  - apply bounded_shaped in Hf. destruct (number_value_fun _ _ _ _ _ _ _ Hv Hv0) as (<- & -> & <-). destruct (parse_R _ _ _ _ _ _ _ Hv Hp) as [-> HR].
    destruct (print_found z p e Hf) as (m1 & c1 & m2 & k2 & i2 & Hfo & Hm2 & Hset & _ & Ep & Hi2 & Hv2 & _). rewrite Ep in *. destruct (number_value_fun _ _ _ _ _ _ _ Hv' Hv2) as (-> & -> & ->).
    split; [reflexivity|]. apply R_shift in HR; [|lia | exact Hi]. pose proof (fo_range _ _ _ _ _ Hfo) as Hr.
    assert (c = c1) as ->.
    { pose proof (found_shortest z p e Hf m1 c1 a _ c Hfo HR ltac:(lia)) as Hc. destruct (Z.eq_dec c c1) as [|Hne]; [assumption|]. exfalso. apply Hnw. exists z, m2, i2, (k2 - i2). split; [exact Hv2|]. split; [exact Hi2|].
      assert (10 ^ c1 <= 10 ^ (c - 1)) by (apply Z.pow_le_mono_r; lia). lia. }
    assert (exists i1, 0 <= i1 /\ m1 = m2 * 10 ^ i1 /\ k2 = decade (num p e) (den e) - c1 + i1) as (i1 & Hi1 & Em1 & Ek1).
    { destruct Hset as [[-> ->] | (-> & -> & -> & ->)]; [exists 0; lia | exists 1; lia]. }
    set (E := decade (num p e) (den e)) in *.
    assert (D p e (m2 * 10 ^ i2) (k2 - i2) * T k <= D p e (a * 10 ^ i) k * T (k2 - i2) <-> D p e m1 (E - c1) * T (k + i) <= D p e a (k + i) * T (E - c1)) as Hle.
    { rewrite D_le_l, D_le_r by assumption. replace (k2 - i2 + i2) with k2 by lia. rewrite Em1, D_le_l by assumption. rewrite <- Ek1. reflexivity. }
    assert (D p e (a * 10 ^ i) k * T (k2 - i2) <= D p e (m2 * 10 ^ i2) (k2 - i2) * T k <-> D p e a (k + i) * T (E - c1) <= D p e m1 (E - c1) * T (k + i)) as Hge.
    { rewrite D_le_l, D_le_r by assumption. replace (k2 - i2 + i2) with k2 by lia. rewrite Em1, D_le_r by assumption. rewrite <- Ek1. reflexivity. }
    split.
    + apply distance_le; [exact Hf | exact Hm0' | exact Hm0|]. apply Hle. apply (found_closest z p e Hf); [exact Hfo | exact HR | lia].
    + intros Ed. apply distance_eq in Ed; [|exact Hf | exact Hm0' | exact Hm0]. 
      assert (D p e m1 (E - c1) * T (k + i) = D p e a (k + i) * T (E - c1)) as Ed'.
      { apply Z.le_antisymm; [apply Hle; rewrite Ed; apply Z.le_refl | apply Hge; rewrite Ed; apply Z.le_refl]. }
      destruct (found_tie z p e Hf m1 c1 a (k + i) Hfo HR ltac:(lia) Ed') as (j & Hj0 & Ej & Hj). fold E in Hj0, Ej.
      assert (same_number (m2 * 10 ^ i2) (k2 - i2) m1 (E - c1)) as S1.
      { eapply same_trans; [apply same_shift; exact Hi2|]. replace (k2 - i2 + i2) with (E - c1 + i1) by lia. apply same_sym. rewrite Em1. apply same_shift, Hi1. }
      assert (same_number (a * 10 ^ i) k j (E - c1)) as S2.
      { eapply same_trans; [apply same_shift; exact Hi|]. rewrite Ej. replace (k + i) with (E - c1 + (k + i - (E - c1))) at 1 by lia. apply same_sym, same_shift, Hj0. }
      destruct (Z.eq_dec j m1) as [-> | Hne]; [left; eapply same_trans; [exact S1 | apply same_sym, S2]|]. right. exists m1, j, (E - c1). destruct (Hj Hne) as [Hev Hjj]. auto.
Qed.

Lemma double_refused t : double_parse t = None <->
  (forall neg m k, number_value t neg m k -> ten_den k * ((2 ^ 54 - 1) * 2 ^ 970) <= ten_num m k).
Proof.
  assert (forall neg m k, number_value t neg m k -> (double_parse t = None <-> ten_den k * ((2 ^ 54 - 1) * 2 ^ 970) <= ten_num m k)) as H.
  { intros neg m k Hv. pose proof (number_value_nonneg _ _ _ _ Hv) as Hm. rewrite (parse_value _ _ _ _ Hv). unfold round_decimal. fold (ten_num m k) (ten_den k).
    assert (0 <= ten_num m k) as Hn by (apply Z.mul_nonneg_nonneg; [exact Hm | apply Z.pow_nonneg; lia]).
    pose proof (round_facts (ten_num m k) (ten_den k) Hn (ten_den_pos k) neg) as Hr. rewrite Z.le_ngt. destruct (round_ratio neg (ten_num m k) (ten_den k)) as [g|].
    - split; [discriminate|]. intros Hn'. exfalso. apply Hn', Hr.
    - split; [intros _; exact Hr | reflexivity]. }
  split; [intros E neg m k Hv; apply (H _ _ _ Hv), E|]. intros Ha.
  destruct (read_decimal t) as [[[neg m] k]|] eqn:E; [|unfold double_parse; rewrite E; reflexivity].
  apply read_decimal_iff in E. apply (H _ _ _ E), (Ha _ _ _ E).
Qed.

(** The digits and the point can be told from the text, and give the text. *)
Lemma tight_print ds : tight ds -> ds = dec_print (Z.to_N (digits_value ds)) /\ (forall j, digits_value ds <> 10 * j) /\ 0 < digits_value ds.
Proof.
  intros (Hd & Hz & Hl). assert (ds = dec_print (Z.to_N (digits_value ds))) as E.
  { rewrite digits_value_dec, N2Z.id. apply decimal_text_iff. exists (map digit_val ds). destruct Hd as [Hne Hd]. rewrite Forall_forall in Hd. split.
    - rewrite map_map, <- (map_id ds) at 1. apply map_ext_in. intros c Hc. specialize (Hd c Hc). unfold digit_val. apply bN_inj. rewrite bN_byteN_small; lia.
    - split; [apply Forall_forall; intros x Hx; apply in_map_iff in Hx as (c & <- & Hc); specialize (Hd c Hc); unfold digit_val; lia|]. split; [rewrite place_value_digits; reflexivity|].
      right. destruct ds as [|c r]; [contradiction|]. split; [discriminate|]. cbn [map no_leading_zero]. intros E0. apply (Hz r). specialize (Hd c (or_introl eq_refl)). unfold digit_val in E0.
      assert (c = x30) as -> by (apply bN_inj; change (bN x30) with 48%N; lia). reflexivity. }
  split; [exact E|]. pose proof (digits_value_nonneg ds) as H0.
  assert (forall j, digits_value ds <> 10 * j) as H10.
  { intros j Ej. destruct Hd as [Hne Hd]. destruct (exists_last Hne) as (r & c & ->). rewrite digits_value_app in Ej. cbn [length] in Ej. change (10 ^ Z.of_nat 1) with 10 in Ej.
    apply Forall_app in Hd as [_ Hc]. inversion Hc as [|? ? Hc' _]; subst. assert (digits_value [c] = Z.of_N (bN c) - 48) as Ev.
    { unfold digits_value. cbn [map place_value length]. change (10 ^ N.of_nat 0)%N with 1%N. lia. }
    rewrite Ev in Ej. apply (Hl r). f_equal. assert (bN c = 48)%N as Ec by lia. apply (bN_inj c x30) in Ec. rewrite Ec. reflexivity. }
  split; [exact H10|]. specialize (H10 0). lia.
Qed.

Lemma ten_powers x i y j : (forall a, x <> 10 * a) -> (forall a, y <> 10 * a) -> 0 <= i -> 0 <= j -> x * 10 ^ i = y * 10 ^ j -> x = y /\ i = j.
Proof.
  assert (forall x i y j, (forall a, x <> 10 * a) -> 0 <= i -> 0 <= j -> x * 10 ^ i = y * 10 ^ j -> j <= i) as H.
  { intros x' i' y' j' Hx Hi Hj E. destruct (Z.le_gt_cases j' i') as [L|L]; [exact L|]. exfalso. apply (Hx (y' * 10 ^ (j' - i' - 1))).
    apply (Z.mul_reg_r _ _ (10 ^ i')); [pose proof (ten_pos i' Hi); lia|]. rewrite E. replace j' with (1 + (j' - i' - 1) + i') at 1 by lia. rewrite !Z.pow_add_r by lia. change (10 ^ 1) with 10. ring. }
  intros Hx Hy Hi Hj E. pose proof (H _ _ _ _ Hx Hi Hj E). symmetry in E. pose proof (H _ _ _ _ Hy Hj Hi E). assert (i = j) as -> by lia. split; [|reflexivity].
  symmetry. apply (Z.mul_reg_r _ _ (10 ^ j)); [pose proof (ten_pos j Hj); lia | exact E].
Qed.

Lemma shown_inj ds ds' P P' t : tight ds -> tight ds' -> shown ds P t -> shown ds' P' t -> ds = ds' /\ P = P'.
Proof.
  intros H H' S S'. destruct (tight_print _ H) as (E & H10 & _). destruct (tight_print _ H') as (E' & H10' & _).
  destruct (shown_value false ds P t) as [_ (i & Hi & Hv)]; [apply H | apply H | exact S|]. destruct (shown_value false ds' P' t) as [_ (i' & Hi' & Hv')]; [apply H' | apply H' | exact S'|].
  destruct (number_value_fun _ _ _ _ _ _ _ Hv Hv') as (_ & Em & Ek). destruct (ten_powers _ _ _ _ H10 H10' Hi Hi' Em) as [Ed Ei].
  assert (ds = ds') as Eds by (rewrite E, E', Ed; reflexivity). split; [exact Eds|]. rewrite Eds, Ei in Ek. lia.
Qed.

Lemma zeros_eq (z z' : bytes) : Forall (eq x30) z -> Forall (eq x30) z' -> length z = length z' -> z = z'.
Proof.
  intros H. revert z'. induction H as [|c z <- _ IH]; intros [|c' z'] H' El; try discriminate; [reflexivity|]. inversion H' as [|? ? <- Hz]; subst. f_equal. apply IH; [exact Hz | injection El; auto].
Qed.

Lemma app_split_eq {A} (a b a' b' : list A) : a ++ b = a' ++ b' -> length a = length a' -> a = a' /\ b = b'.
Proof.
  revert a'. induction a as [|x a IH]; intros [|y a'] E El; try discriminate; [auto|]. injection E as -> E. injection El as El. destruct (IH _ E El) as [-> ->]. auto.
Qed.

Lemma shown_fun ds P t t' : ds <> [] -> shown ds P t -> shown ds P t' -> t = t'.
Proof.
  intros Hne H H'. assert (1 <= Z.of_nat (length ds)) as H1 by (destruct ds; [contradiction | cbn [length]; lia]).
  assert (forall x : bytes, x <> [] -> 1 <= Z.of_nat (length x)) as Hln by (intros [|? ?] Hx; [contradiction | cbn [length]; lia]).
  destruct H as [z Hl HP Hzz | a b Ed Ha Hb Hl HP | z Hl HP Hzz | d e Ed HP He | d r e Ed Hr HP He];
  destruct H' as [z' Hl' HP' Hzz' | a' b' Ed' Ha' Hb' Hl' HP' | z' Hl' HP' Hzz' | d' e' Ed' HP' He' | d' r' e' Ed' Hr' HP' He'];
    try (exfalso; clear He He'; lia); try (exfalso; clear He; lia); try (exfalso; clear He'; lia); try (exfalso; lia).
  - do 2 f_equal. apply zeros_eq; [exact Hzz | exact Hzz' | lia].
  - exfalso. rewrite Ed', app_length in Hl. specialize (Hln b' Hb'). lia.
  - exfalso. rewrite Ed, app_length in Hl'. specialize (Hln b Hb). lia.
  - rewrite Ed in Ed'. destruct (app_split_eq _ _ _ _ Ed' ltac:(lia)) as [-> ->]. reflexivity.
  - exfalso. specialize (Hln a Ha). lia.
  - exfalso. specialize (Hln a' Ha'). lia.
  - do 2 f_equal. apply zeros_eq; [exact Hzz | exact Hzz' | lia].
  - rewrite Ed in Ed'. injection Ed' as ->. apply integer_text_iff in He, He'. congruence.
  - exfalso. rewrite Ed in Ed'. injection Ed' as _ E. symmetry in E. contradiction.
  - exfalso. rewrite Ed in Ed'. injection Ed' as _ E. contradiction.
  - rewrite Ed in Ed'. injection Ed' as -> ->. apply integer_text_iff in He, He'. congruence.
Qed.

Lemma double_value_carried X n f : x_f64_print X = double_print -> x_f64_parse X = double_parse -> finite_float f -> carried X n (VNum (Float f)).
Proof. intros E1 E2 Hf. constructor. apply double_carried; assumption. Qed.

Lemma doubles_reencode X t u : x_f64_print X = double_print -> x_f64_parse X = double_parse ->
  parse_token X t = Ok u -> payload_unreserved (u_payload u) ->
  exists u', parse_token X (encode X u) = Ok u' /\ content u' = content u /\ encode X u' = encode X u.
Proof. intros E1 E2. apply reencode_preserves, doubles_survive; assumption. Qed.
