(** Facts about DAG-JSON (C71). *)
From Coq Require Import Sorting.Sorted.
From Verif Require Export CidFacts SMapFacts CapMapFacts Json.

(* ------------------------------------------------------------- IPLD values *)

Section IpldInd.
  Variable P : ipld -> Prop.
  Hypothesis Hnull : P INull.
  Hypothesis Hbool : forall b, P (IBool b).
  Hypothesis Hint : forall z, P (IInt z).
  Hypothesis Hfloat : forall f, P (IFloat f).
  Hypothesis Hstr : forall s, P (IStr s).
  Hypothesis Hbytes : forall s, P (IBytes s).
  Hypothesis Hlist : forall l, Forall P l -> P (IList l).
  Hypothesis Hmap : forall m, Forall (fun kv => P (snd kv)) m -> P (IMap m).
  Hypothesis Hlink : forall c, P (ILink c).

  Fixpoint ipld_induction (i : ipld) : P i.
  Proof.
    destruct i as [|b|z|f|s|s|l|m|c];
      [exact Hnull | apply Hbool | apply Hint | apply Hfloat | apply Hstr | apply Hbytes | | | apply Hlink].
    - apply Hlist. induction l as [|x l IH]; constructor; [apply ipld_induction | exact IH].
    - apply Hmap. induction m as [|x m IH]; constructor; [apply ipld_induction | exact IH].
  Defined.
End IpldInd.

Section ValueInd.
  Variable P : value -> Prop.
  Hypothesis Hnull : P VNull.
  Hypothesis Hbool : forall b, P (VBool b).
  Hypothesis Hnum : forall n, P (VNum n).
  Hypothesis Hstr : forall s, P (VStr s).
  Hypothesis Harr : forall l, Forall P l -> P (VArr l).
  Hypothesis Hobj : forall m, Forall (fun kv => P (snd kv)) m -> P (VObj m).

  Fixpoint value_induction (v : value) : P v.
  Proof.
    destruct v as [|b|n|s|l|m]; [exact Hnull | apply Hbool | apply Hnum | apply Hstr | |].
    - apply Harr. induction l as [|x l IH]; constructor; [apply value_induction | exact IH].
    - apply Hobj. induction m as [|x m IH]; constructor; [apply value_induction | exact IH].
  Defined.
End ValueInd.

Definition ireserved (m : list (bytes * ipld)) : Prop :=
  (exists s, m = [(B "/", IStr s)]) \/ (exists s, m = [(B "/", IMap [(B "bytes", IStr s)])]).

Inductive wire (X : ext) : nat -> ipld -> Prop :=
| W_null n : wire X n INull
| W_bool n b : wire X n (IBool b)
| W_int n z : (-9223372036854775808 <= z <= 18446744073709551615)%Z -> wire X n (IInt z)
| W_float n f : float_carried X f -> wire X n (IFloat f)
| W_str n s : utf8_valid s = true -> wire X n (IStr s)
| W_bytes n s : wire X (S (S n)) (IBytes s)
| W_list n l : Forall (wire X n) l -> wire X (S n) (IList l)
| W_map n m : msorted m -> Forall (fun kv => utf8_valid (fst kv) = true /\ wire X n (snd kv)) m ->
              ~ ireserved m -> wire X (S n) (IMap m)
| W_link n c : parse_cid X (cid_to_string c) = Some c -> utf8_valid (cid_to_string c) = true -> wire X (S n) (ILink c).

(* ------------------------------------------------------------------ strings *)

Lemma json_escape_body c t : json_str_body (json_escape c ++ t) = push [c] (json_str_body t).
Proof. destruct c; try reflexivity; cbn; destruct (json_str_body t) as [[? ?]|]; reflexivity. Qed.

Lemma json_str_body_print s r : json_str_body (flat_map json_escape s ++ x22 :: r) = Some (s, r).
Proof.
  induction s as [|c s IH]; [reflexivity|]. cbn [flat_map]. rewrite <- app_assoc, json_escape_body, IH. reflexivity.
Qed.

Lemma parse_string_print s r : utf8_valid s = true -> parse_string (flat_map json_escape s ++ x22 :: r) = Some (s, r).
Proof. intros Hs. unfold parse_string. rewrite json_str_body_print, Hs. reflexivity. Qed.

Lemma json_string_app s r : json_string s ++ r = x22 :: flat_map json_escape s ++ x22 :: r.
Proof. unfold json_string. rewrite <- !app_assoc. reflexivity. Qed.

(* ------------------------------------------------------------------ numbers *)

(** The text that may follow a number. *)
Definition stops (s : bytes) : Prop :=
  match s with [] => True | c :: _ => is_digit c = false /\ c <> x2e /\ c <> x65 /\ c <> x45 end.

Lemma digits_forallb d : digits d <-> d <> [] /\ forallb is_digit d = true.
Proof.
  unfold digits. rewrite forallb_forall, Forall_forall. unfold is_digit. split; intros [H1 H2]; (split; [exact H1|]); intros c Hc; specialize (H2 c Hc); lia.
Qed.

Lemma span_digits_app d r : forallb is_digit d = true -> match r with [] => True | c :: _ => is_digit c = false end ->
  span_digits (d ++ r) = (d, r).
Proof.
  intros Hd Hr. induction d as [|c d IH].
  - destruct r as [|c r]; [reflexivity|]. cbn [app span_digits]. rewrite Hr. reflexivity.
  - cbn [forallb] in Hd. apply andb_true_iff in Hd as [Hc Hd]. cbn [app span_digits]. rewrite Hc, IH by exact Hd. reflexivity.
Qed.

Lemma lex_int_app d r : digits d -> (d = B "0" \/ forall t, d <> B "0" ++ t) ->
  match r with [] => True | c :: _ => is_digit c = false end -> lex_int (d ++ r) = Some (d, r).
Proof.
  intros Hd Hz Hr. apply digits_forallb in Hd as [Hne Hd]. unfold lex_int. rewrite span_digits_app by assumption.
  destruct d as [|c [|c' d]]; [contradiction | destruct c; reflexivity|].
  destruct Hz as [Hz | Hz]; [discriminate|].
  assert (c <> x30) as Hc by (intros ->; apply (Hz (c' :: d)); reflexivity).
  destruct c; (reflexivity || congruence).
Qed.

Lemma dec_print_int n : digits (dec_print n) /\ (dec_print n = B "0" \/ forall t, dec_print n <> B "0" ++ t).
Proof.
  split; [apply digits_forallb; split; [apply dec_print_nonnil | apply dec_print_digits]|].
  destruct (dec_print_head n) as (c & r & E & Hc & Hz). rewrite E.
  destruct (byte_eqb_eq c x30) as [_ _]. destruct (Byte.eqb c x30) eqn:Ec.
  - apply byte_eqb_eq in Ec. subst c. destruct (Hz eq_refl) as [-> _]. left. reflexivity.
  - apply byte_eqb_neq in Ec. right. intros t Ht. injection Ht. intros _ ->. contradiction.
Qed.

Lemma stops_digit r : stops r -> match r with [] => True | c :: _ => is_digit c = false end.
Proof. destruct r; [trivial | intros [H _]; exact H]. Qed.

Lemma lex_frac_none r : stops r -> lex_frac r = Some ([], r).
Proof. destruct r as [|c r]; [reflexivity|]. intros (_ & H & _). unfold lex_frac. destruct c; (reflexivity || congruence). Qed.

Lemma lex_exp_none r : stops r -> lex_exp r = Some ([], r).
Proof. destruct r as [|c r]; [reflexivity|]. intros (_ & _ & H & H'). unfold lex_exp. destruct c; (reflexivity || congruence). Qed.

Lemma parse_number_int X neg v r : stops r -> parse_number X neg (dec_print v ++ r) =
  if neg then if ((1 <=? v) && (v <=? 9223372036854775808))%N then Some (IInt (- Z.of_N v), r)
              else let?? f := x_f64_parse X (x2d :: dec_print v) in Some (IFloat f, r)
  else if (v <=? u64_max)%N then Some (IInt (Z.of_N v), r) else let?? f := x_f64_parse X (dec_print v) in Some (IFloat f, r).
Proof.
  intros Hr. unfold parse_number. destruct (dec_print_int v) as [H1 H2].
  rewrite lex_int_app by (first [exact H1 | exact H2 | apply stops_digit, Hr]). rewrite lex_frac_none, lex_exp_none by exact Hr.
  cbn [app]. rewrite dec_value_print, app_nil_r. destruct neg; reflexivity.
Qed.

Lemma parse_number_float X r sign int frac exp f : stops r ->
  (sign = [] \/ sign = B "-") -> digits int -> (int = B "0" \/ forall t, int <> B "0" ++ t) ->
  (frac = [] \/ exists d, frac = B "." ++ d /\ digits d) ->
  (exp = [] \/ exists e sg d, exp = e ++ sg ++ d /\ (e = B "e" \/ e = B "E") /\ (sg = [] \/ sg = B "+" \/ sg = B "-") /\ digits d) ->
  (frac <> [] \/ exp <> []) -> x_f64_parse X (sign ++ int ++ frac ++ exp) = Some f ->
  parse_number X (match sign with [] => false | _ => true end) (int ++ frac ++ exp ++ r) = Some (IFloat f, r).
Proof.
  intros Hr Hs Hi Hz Hf He Hne Hp. unfold parse_number.
  assert (match exp ++ r with [] => True | c :: _ => is_digit c = false end) as Her.
  { destruct He as [-> | (e & sg & d & -> & [-> | ->] & _)]; [apply stops_digit, Hr | reflexivity | reflexivity]. }
  assert (match frac ++ exp ++ r with [] => True | c :: _ => is_digit c = false end) as Hfr.
  { destruct Hf as [-> | (d & -> & _)]; [exact Her | reflexivity]. }
  rewrite lex_int_app by assumption.
  assert (lex_frac (frac ++ exp ++ r) = Some (frac, exp ++ r)) as ->.
  { destruct Hf as [-> | (d & -> & Hd)].
    - cbn [app]. destruct He as [-> | (e & sg & d & -> & [-> | ->] & _)]; [apply lex_frac_none, Hr | reflexivity | reflexivity].
    - change (B "." ++ d) with (x2e :: d). cbn [app]. unfold lex_frac. apply digits_forallb in Hd as [H1 H2].
      rewrite span_digits_app by assumption. destruct d; [contradiction | reflexivity]. }
  assert (lex_exp (exp ++ r) = Some (exp, r)) as ->.
  { destruct He as [-> | (e & sg & d & -> & He & Hsg & Hd)]; [apply lex_exp_none, Hr|].
    apply digits_forallb in Hd as [H1 H2]. pose proof (span_digits_app d r H2 (stops_digit r Hr)) as Hsp.
    assert (exists c, e = [c] /\ match c with x65 | x45 => true | _ => false end = true) as (c & -> & Hc).
    { destruct He as [-> | ->]; eexists; (split; [reflexivity | reflexivity]). }
    cbn [app]. unfold lex_exp. rewrite Hc. rewrite <- app_assoc.
    destruct Hsg as [-> | [-> | ->]].
    - cbn [app]. destruct d as [|c0 d]; [contradiction|].
      assert (is_digit c0 = true) as Hc0 by (cbn [forallb] in H2; apply andb_true_iff in H2; tauto).
      cbn [app] in *. replace (match c0 with x2b => ([x2b], d ++ r) | x2d => ([x2d], d ++ r) | _ => ([], c0 :: d ++ r) end) with (@nil byte, c0 :: d ++ r)
        by (destruct c0; try reflexivity; discriminate).
      rewrite Hsp. reflexivity.
    - change (B "+") with [x2b]. cbn [app]. rewrite Hsp. destruct d; [contradiction | reflexivity].
    - change (B "-") with [x2d]. cbn [app]. rewrite Hsp. destruct d; [contradiction | reflexivity]. }
  assert (exists a b, frac ++ exp = a :: b) as (a & b & Eab).
  { destruct (frac ++ exp) as [|a b] eqn:E; [|eauto]. apply app_eq_nil in E as [-> ->]. destruct Hne; congruence. }
  destruct Hs as [-> | ->].
  - cbn [app] in *. rewrite Hp, Eab. reflexivity.
  - change (B "-") with [x2d] in *. cbn [app] in *. rewrite Hp, Eab. reflexivity.
Qed.

(* --------------------------------------------------------------- the values *)

(** How printed values start. *)
Definition starts (s : bytes) : Prop :=
  match s with [] => False | c :: _ => is_ws c = false /\ c <> x5d /\ c <> x7d end.

Lemma digit_starts c r : is_digit c = true -> starts (c :: r).
Proof. intros Hc. destruct c; try discriminate; repeat split; discriminate. Qed.

Lemma print_starts X n i : wire X n i -> starts (json_print X i).
Proof.
  intros Hw. destruct Hw as [n|n [|]|n z Hz|n f Hf|n s Hs|n s|n l Hl|n m Hm Hv Hr|n c Hc Hu]; try (repeat split; discriminate).
  - cbn [json_print]. unfold json_int. destruct (z <? 0)%Z; [repeat split; discriminate|].
    destruct (dec_print_head (Z.to_N z)) as (c & r & -> & Hc & _). apply digit_starts, Hc.
  - destruct Hf as (_ & (sg & d & fr & ex & E & Hsg & Hd & _) & _). cbn [json_print]. rewrite E.
    destruct Hsg as [-> | ->]; [|repeat split; discriminate].
    apply digits_forallb in Hd as [Hne Hd]. destruct d as [|c d]; [contradiction|]. cbn [app].
    apply digit_starts. cbn [forallb] in Hd. apply andb_true_iff in Hd. tauto.
Qed.

Lemma skip_starts s r : starts s -> skip_ws (s ++ r) = s ++ r.
Proof. destruct s as [|c s]; [contradiction|]. intros (Hc & _). cbn [app skip_ws]. rewrite Hc. reflexivity. Qed.

Lemma not_close_list {T} c s (a : bytes -> T) b : c <> x5d -> match c :: s with x5d :: r => a r | _ => b end = b.
Proof. intros Hc. destruct c; (reflexivity || congruence). Qed.
Lemma not_close_map {T} c s (a : bytes -> T) b : c <> x7d -> match c :: s with x7d :: r => a r | _ => b end = b.
Proof. intros Hc. destruct c; (reflexivity || congruence). Qed.

Definition reads (X : ext) (n : nat) (i : ipld) : Prop :=
  forall fuel rest, (2 * length (json_print X i) <= fuel)%nat -> stops rest ->
    parse_value X fuel n (json_print X i ++ rest) = Some (i, rest).

Lemma parse_elems_print X n l : l <> [] -> Forall (wire X n) l -> Forall (reads X n) l -> forall fuel rest,
  (2 * length (sep_concat (map (json_print X) l)) + 1 <= fuel)%nat ->
  parse_elems X fuel n (sep_concat (map (json_print X) l) ++ x5d :: rest) = Some (l, rest).
Proof.
  induction l as [|x l IH]; intros Hne Hw Hr fuel rest Hf; [contradiction|].
  inversion Hw as [|? ? Hwx Hwl]; subst. inversion Hr as [|? ? Hrx Hrl]; subst.
  destruct fuel as [|f]; [lia|]. cbn [parse_elems].
  destruct l as [|y l].
  - cbn [map sep_concat] in *. rewrite (Hrx f (x5d :: rest)) by (lia || (repeat split; discriminate)).
    reflexivity.
  - change (sep_concat (map (json_print X) (x :: y :: l))) with (json_print X x ++ [x2c] ++ sep_concat (map (json_print X) (y :: l))) in *.
    rewrite !app_length in Hf. cbn [length] in Hf.
    rewrite <- !app_assoc. rewrite (Hrx f) by (lia || (repeat split; discriminate)).
    cbn [app skip_ws is_ws]. rewrite IH by (try discriminate; try assumption; lia). reflexivity.
Qed.

Definition print_entry (X : ext) (kv : bytes * ipld) : bytes := json_string (fst kv) ++ [x3a] ++ json_print X (snd kv).

Lemma parse_entries_print X n m : m <> [] -> Forall (fun kv => utf8_valid (fst kv) = true /\ wire X n (snd kv)) m ->
  Forall (fun kv => reads X n (snd kv)) m -> forall fuel rest,
  (2 * length (sep_concat (map (print_entry X) m)) + 1 <= fuel)%nat ->
  parse_entries X fuel n (sep_concat (map (print_entry X) m) ++ x7d :: rest) = Some (m, rest).
Proof.
  induction m as [|[k x] m IH]; intros Hne Hw Hr fuel rest Hf; [contradiction|].
  inversion Hw as [|? ? [Hk Hwx] Hwl]; subst. inversion Hr as [|? ? Hrx Hrl]; subst. cbn [fst snd] in *.
  destruct fuel as [|f]; [lia|]. cbn [parse_entries].
  assert (exists tail, sep_concat (map (print_entry X) ((k, x) :: m)) ++ x7d :: rest =
    x22 :: flat_map json_escape k ++ x22 :: x3a :: json_print X x ++ tail /\
    (2 * length (json_print X x) <= f)%nat /\
    ((m = [] /\ tail = x7d :: rest) \/
     (m <> [] /\ tail = x2c :: sep_concat (map (print_entry X) m) ++ x7d :: rest /\
      (2 * length (sep_concat (map (print_entry X) m)) + 1 <= f)%nat))) as (tail & Et & Hfx & Htail).
  { destruct m as [|y m].
    - exists (x7d :: rest). cbn [map sep_concat] in *. unfold print_entry at 1 in Hf. cbn [fst snd] in Hf. rewrite !app_length in Hf.
      split; [|split; [lia | left; auto]]. unfold print_entry. cbn [fst snd]. rewrite <- !app_assoc, json_string_app. reflexivity.
    - exists (x2c :: sep_concat (map (print_entry X) (y :: m)) ++ x7d :: rest).
      change (sep_concat (map (print_entry X) ((k, x) :: y :: m))) with (print_entry X (k, x) ++ [x2c] ++ sep_concat (map (print_entry X) (y :: m))) in *.
      rewrite !app_length in Hf. unfold print_entry at 1 in Hf. rewrite !app_length in Hf. cbn [fst snd length] in Hf.
      split; [|split; [lia | right; split; [discriminate | split; [reflexivity | lia]]]].
      unfold print_entry at 1. cbn [fst snd]. rewrite <- !app_assoc, json_string_app. reflexivity. }
  rewrite Et. cbn [skip_ws is_ws]. rewrite parse_string_print by exact Hk. cbn [skip_ws is_ws].
  rewrite (Hrx f tail Hfx) by (destruct Htail as [[_ ->] | (_ & -> & _)]; repeat split; discriminate).
  destruct Htail as [[-> ->] | (Hm & -> & Hfm)].
  - reflexivity.
  - cbn [skip_ws is_ws]. rewrite IH by assumption. reflexivity.
Qed.

Lemma sep_concat_starts {T} (f : T -> bytes) l : l <> [] -> (forall x, In x l -> starts (f x)) -> starts (sep_concat (map f l)).
Proof.
  destruct l as [|x l]; [contradiction|]. intros _ Hs. specialize (Hs x (or_introl eq_refl)).
  cbn [map sep_concat]. destruct (map f l); [exact Hs|]. destruct (f x) as [|c r]; [contradiction | exact Hs].
Qed.

Lemma ipld_of_entries_map X m : msorted m -> ~ ireserved m -> ipld_of_entries X m = Some (IMap m).
Proof.
  intros Hs Hr. assert (Some (IMap (mof_list m)) = Some (IMap m)) as E by (rewrite mof_list_id by exact Hs; reflexivity).
  destruct m as [|[k x] [|kv m]]; [exact E| |].
  - cbn [ipld_of_entries]. destruct k as [|c [|c' k]]; [exact E| |destruct c; exact E].
    destruct (Byte.eqb c x2f) eqn:Ec.
    + apply byte_eqb_eq in Ec. subst c. destruct x as [| | | |s| | |mm|]; try exact E.
      * exfalso. apply Hr. left. exists s. reflexivity.
      * destruct mm as [|[k' x'] [|]]; try exact E; destruct x' as [| | | |s| | | |]; try exact E.
        destruct (bytes_eqb_spec k' (B "bytes")) as [->|]; [|exact E].
        exfalso. apply Hr. right. exists s. reflexivity.
    + apply byte_eqb_neq in Ec. destruct c; try exact E. contradiction.
  - destruct k as [|c [|c' k]]; [exact E | destruct c; try exact E; destruct x as [| | | |s| | |[|[? []] [|]]|]; exact E | destruct c; exact E].
Qed.

Lemma braces a s b r : (a :: s ++ [b]) ++ r = a :: s ++ b :: r :> bytes.
Proof. cbn [app]. rewrite <- app_assoc. reflexivity. Qed.

(** Reading back a printed object. *)
Lemma parse_object_print X n m fuel rest : m <> [] ->
  Forall (fun kv => utf8_valid (fst kv) = true /\ wire X n (snd kv)) m -> Forall (fun kv => reads X n (snd kv)) m ->
  (2 * length (sep_concat (map (print_entry X) m)) + 2 <= fuel)%nat ->
  parse_value X fuel (S n) (x7b :: sep_concat (map (print_entry X) m) ++ x7d :: rest) =
  let?? i := ipld_of_entries X m in Some (i, rest).
Proof.
  intros Hne Hw Hr Hf. destruct fuel as [|fu]; [lia|]. cbn [parse_value skip_ws is_ws].
  assert (starts (sep_concat (map (print_entry X) m))) as Hst.
  { apply sep_concat_starts; [exact Hne|]. intros x _. repeat split; discriminate. }
  rewrite skip_starts by exact Hst. rewrite parse_entries_print by (assumption || lia).
  destruct (sep_concat (map (print_entry X) m)) as [|c t]; [contradiction|]. destruct Hst as (_ & _ & Hc).
  cbn [app]. destruct c; (reflexivity || congruence).
Qed.

Lemma b64std_utf8 s : utf8_valid (b64std_encode s) = true.
Proof.
  assert (forall l, (forall c, In c l -> In c base64std_alphabet) -> utf8_valid l = true) as Hu.
  { induction l as [|c l IH]; intros Hl; [reflexivity|]. cbn [utf8_valid].
    assert (bN c <? 128 = true)%N as ->.
    { specialize (Hl c (or_introl eq_refl)). apply N.ltb_lt.
      assert (forallb (fun c => bN c <? 128)%N base64std_alphabet = true) as Ha by reflexivity.
      rewrite forallb_forall in Ha. specialize (Ha c Hl). lia. }
    apply IH. intros c' Hc'. apply Hl. right. exact Hc'. }
  apply Hu. intros c. apply basen_encode_in. apply good_base64std.
Qed.

Lemma parse_value_print X i : forall n, wire X n i -> reads X n i.
Proof.
  induction i as [|b|z|f|s|s|l IH|m IH|c] using ipld_induction; intros n Hw fuel rest Hf Hr;
    destruct fuel as [|fu]; try (exfalso; pose proof (print_starts X n _ Hw) as Hst; match type of Hst with starts ?p => destruct p; [contradiction | cbn [length] in Hf; lia] end).
  - reflexivity.
  - destruct b; reflexivity.
  - inversion Hw as [| |n' z' Hz| | | | | |]; subst. cbn [json_print] in *. unfold json_int in *.
    destruct (Z.ltb_spec z 0) as [Hneg|Hpos].
    + cbn [app parse_value skip_ws is_ws]. rewrite parse_number_int by exact Hr.
      assert ((1 <=? Z.to_N (- z)) && (Z.to_N (- z) <=? 9223372036854775808) = true)%N as -> by lia.
      do 3 f_equal. lia.
    + destruct (dec_print_head (Z.to_N z)) as (c & r & E & Hc & _).
      pose proof (parse_number_int X false (Z.to_N z) rest Hr) as Hp. rewrite E in *. cbn [app] in *.
      assert (Z.to_N z <=? u64_max = true)%N as Hle by (unfold u64_max; lia). rewrite Hle, Z2N.id in Hp by exact Hpos.
      cbn [parse_value]. assert (skip_ws (c :: r ++ rest) = c :: r ++ rest) as -> by (cbn [skip_ws]; destruct c; try discriminate; reflexivity).
      rewrite Hc, Hp. destruct c; try discriminate; reflexivity.
  - inversion Hw as [| | |n' f' Hfc| | | | |]; subst. cbn [json_print] in *.
    destruct Hfc as (_ & (sg & d & fr & ex & E & Hsg & Hd & Hz & Hfr & Hex & Hne) & Hp). rewrite E in *.
    pose proof (parse_number_float X rest sg d fr ex f Hr Hsg Hd Hz Hfr Hex Hne Hp) as Hpn.
    rewrite <- !app_assoc. cbn [parse_value]. destruct Hsg as [-> | ->].
    + apply digits_forallb in Hd as [Hd0 Hd]. destruct d as [|c d]; [contradiction|]. cbn [forallb] in Hd. apply andb_true_iff in Hd as [Hc _].
      cbn [app] in *. assert (skip_ws (c :: d ++ fr ++ ex ++ rest) = c :: d ++ fr ++ ex ++ rest) as -> by (cbn [skip_ws]; destruct c; try discriminate; reflexivity).
      rewrite Hc, Hpn. destruct c; try discriminate; reflexivity.
    + change (B "-") with [x2d] in *. cbn [app skip_ws is_ws]. exact Hpn.
  - inversion Hw; subst. cbn [json_print] in *. rewrite json_string_app. cbn [parse_value skip_ws is_ws].
    rewrite parse_string_print by assumption. reflexivity.
  - inversion Hw as [| | | | |n' s'| | |]; subst.
    assert (forall n, reads X n (IStr (b64std_encode s))) as Rs.
    { intros n fuel r Hfu _. destruct fuel as [|fu']; [cbn [json_print] in Hfu; unfold json_string in Hfu; rewrite !app_length in Hfu; cbn [length] in Hfu; lia|].
      cbn [json_print]. rewrite json_string_app. cbn [parse_value skip_ws is_ws]. rewrite parse_string_print by apply b64std_utf8. reflexivity. }
    set (inner := [(B "bytes", IStr (b64std_encode s))]).
    assert (Forall (fun kv => utf8_valid (fst kv) = true /\ wire X n' (snd kv)) inner) as Wi by (repeat constructor; apply b64std_utf8).
    assert (wire X (S n') (IMap inner)) as Wm.
    { constructor; [repeat constructor | exact Wi|]. intros [[s' E] | [s' E]]; discriminate. }
    assert (reads X (S n') (IMap inner)) as Ri.
    { intros fuel r Hfu _. change (json_print X (IMap inner)) with (x7b :: sep_concat (map (print_entry X) inner) ++ [x7d]) in *.
      cbn [length] in Hfu. rewrite app_length in Hfu. cbn [length] in Hfu. rewrite braces.
      rewrite (parse_object_print X n' inner fuel r); [reflexivity | discriminate | exact Wi | constructor; [apply Rs | constructor] | lia]. }
    assert (json_print X (IBytes s) = x7b :: sep_concat (map (print_entry X) [(B "/", IMap inner)]) ++ [x7d]) as Epr.
    { subst inner. cbn [json_print map sep_concat print_entry fst snd app]. unfold print_entry. cbn [fst snd json_print map sep_concat app].
      rewrite <- !app_assoc. cbn [app]. rewrite <- !app_assoc. cbn [app]. rewrite <- !app_assoc. reflexivity. }
    rewrite Epr in *.
    cbn [length] in Hf. rewrite app_length in Hf. cbn [length] in Hf. rewrite braces.
    rewrite (parse_object_print X (S n') [(B "/", IMap inner)] (S fu) rest);
      [| discriminate | constructor; [split; [reflexivity | exact Wm] | constructor] | constructor; [exact Ri | constructor] | lia].
    cbn [ipld_of_entries inner]. change (bytes_eqb (B "bytes") (B "bytes")) with true. cbn iota.
    assert (b64std_decode (b64std_encode s) = Some s) as -> by (apply b64std_decode_iff; reflexivity). reflexivity.
  - inversion Hw as [| | | | | |n' l' Hl| |]; subst. cbn [json_print] in *. cbn [app] in *. rewrite <- app_assoc. cbn [app].
    cbn [length] in Hf. rewrite app_length in Hf. cbn [length] in Hf.
    destruct l as [|x l]; [reflexivity|].
    assert (Forall (reads X n') (x :: l)) as Hrl.
    { rewrite Forall_forall in *. intros y Hy. apply IH; [exact Hy | apply Hl, Hy]. }
    assert (starts (sep_concat (map (json_print X) (x :: l)))) as Hst.
    { apply sep_concat_starts; [discriminate|]. intros y Hy. rewrite Forall_forall in Hl. apply (print_starts X n'), Hl, Hy. }
    cbn [parse_value skip_ws is_ws]. rewrite skip_starts by exact Hst.
    rewrite parse_elems_print by (try discriminate; try assumption; lia).
    destruct (sep_concat (map (json_print X) (x :: l))) as [|c t]; [contradiction|]. destruct Hst as (_ & Hc & _).
    cbn [app]. destruct c; (reflexivity || congruence).
  - inversion Hw as [| | | | | | |n' m' Hs Hm Hres|]; subst.
    change (json_print X (IMap m)) with (x7b :: sep_concat (map (print_entry X) m) ++ [x7d]) in *.
    cbn [length] in Hf. rewrite app_length in Hf. cbn [length] in Hf. rewrite braces.
    destruct m as [|kv m]; [reflexivity|].
    rewrite parse_object_print; [rewrite ipld_of_entries_map by assumption; reflexivity | discriminate | exact Hm | | lia].
    rewrite Forall_forall in *. intros y Hy. apply IH; [exact Hy | apply Hm, Hy].
  - inversion Hw as [| | | | | | | |n' c' Hc Hu]; subst.
    change (json_print X (ILink c)) with (x7b :: sep_concat (map (print_entry X) [(B "/", IStr (cid_to_string c))]) ++ [x7d]) in *.
    cbn [length] in Hf. rewrite app_length in Hf. cbn [length] in Hf. rewrite braces.
    rewrite (parse_object_print X n' [(B "/", IStr (cid_to_string c))] (S fu) rest).
    + cbn [ipld_of_entries]. change (B "/") with [x2f]. cbn iota. rewrite Hc. reflexivity.
    + discriminate.
    + constructor; [split; [reflexivity | constructor; exact Hu] | constructor].
    + constructor; [|constructor]. intros fuel r Hfu _. cbn [snd] in *.
      destruct fuel as [|fu']; [cbn [json_print] in Hfu; unfold json_string in Hfu; rewrite !app_length in Hfu; cbn [length] in Hfu; lia|].
      cbn [json_print]. rewrite json_string_app. cbn [parse_value skip_ws is_ws]. rewrite parse_string_print by exact Hu. reflexivity.
    + lia.
Qed.

Lemma wire_weaken X i : forall n n', wire X n i -> (n <= n')%nat -> wire X n' i.
Proof.
  induction i as [|b|z|f|s|s|l IH|m IH|c] using ipld_induction; intros n n' Hw Hn; inversion Hw; subst;
    try (constructor; assumption); destruct n' as [|n']; try lia.
  - destruct n' as [|n']; [lia|]. constructor.
  - constructor. rewrite Forall_forall in *. intros x Hx. apply (IH x Hx n0); [auto | lia].
  - constructor; try assumption. rewrite Forall_forall in *. intros x Hx.
    match goal with H : forall x, In x m -> utf8_valid _ = true /\ _ |- _ => destruct (H x Hx) as [H1x H2x] end.
    split; [exact H1x|]. apply (IH x Hx n0); [exact H2x | lia].
  - constructor; assumption.
Qed.

Lemma dagjson_roundtrip X i : wire X max_depth i -> dagjson_decode X (dagjson_encode X i) = Some i.
Proof.
  intros Hw. unfold dagjson_decode, dagjson_encode.
  pose proof (parse_value_print X i max_depth Hw (2 * length (json_print X i) + 2)%nat [] ltac:(lia) I) as Hp.
  rewrite app_nil_r in Hp. rewrite Hp. destruct (x_dagjson_end X); reflexivity.
Qed.

Lemma dagjson_roundtrip_trailing X i rest : wire X max_depth i -> stops rest -> x_dagjson_end X = false ->
  dagjson_decode X (dagjson_encode X i ++ rest) = Some i.
Proof.
  intros Hw Hs He. unfold dagjson_decode, dagjson_encode.
  rewrite (parse_value_print X i max_depth Hw) by (try assumption; rewrite app_length; lia). rewrite He. reflexivity.
Qed.

(* ------------------------------------------------------------- JSON values *)

Lemma reserved_ipld m : ireserved (map (fun kv => (fst kv, ipld_of_value (snd kv))) m) -> reserved m.
Proof.
  intros [[s E] | [s E]]; destruct m as [|[k v] [|]]; try discriminate; injection E as -> E.
  - left. destruct v as [| |[]| | |]; try discriminate. injection E as ->. eexists. reflexivity.
  - right. destruct v as [| |[]| | |[|[k' v'] [|]]]; try discriminate. injection E as -> E.
    destruct v' as [| |[]| | |]; try discriminate. injection E as ->. eexists. reflexivity.
Qed.

Lemma carried_wire X v : forall n, carried X n v -> wire X n (ipld_of_value v).
Proof.
  induction v as [|b|k|s|l IH|m IH] using value_induction; intros n Hc; inversion Hc; subst; cbn [ipld_of_value].
  - constructor.
  - constructor.
  - constructor. lia.
  - constructor. lia.
  - constructor. assumption.
  - constructor. assumption.
  - constructor. rewrite Forall_map. rewrite Forall_forall in *. intros x Hx. apply IH; auto.
  - constructor.
    + apply (msorted_map ipld_of_value). apply keys_increasing_msorted. assumption.
    + rewrite Forall_map. rewrite Forall_forall in *. intros kv Hkv. cbn [fst snd].
      match goal with H : forall x, In x m -> utf8_valid _ = true /\ _ |- _ => destruct (H kv Hkv) as [H1x H2x] end.
      split; [exact H1x|]. apply IH; assumption.
    + intros Hr. match goal with H : ~ reserved _ |- _ => apply H, reserved_ipld, Hr end.
Qed.

Definition value_list_of (X : ext) := fix go (l : list ipld) : option (list value) := match l with
  | [] => Some [] | x :: l' => let?? y := value_of_ipld X x in let?? l'' := go l' in Some (y :: l'') end.
Definition value_map_of (X : ext) := fix go (m : list (bytes * ipld)) : option (list (bytes * value)) := match m with
  | [] => Some [] | (k, x) :: m' => let?? y := value_of_ipld X x in let?? m'' := go m' in Some ((k, y) :: m'') end.

Lemma value_of_list X l : value_of_ipld X (IList l) = let?? vs := value_list_of X l in Some (VArr vs).
Proof. reflexivity. Qed.
Lemma value_of_map X m : value_of_ipld X (IMap m) = let?? vs := value_map_of X m in Some (VObj vs).
Proof. reflexivity. Qed.

Lemma value_of_ipld_of X v : forall n, carried X n v -> value_of_ipld X (ipld_of_value v) = Some v.
Proof.
  induction v as [|b|k|s|l IH|m IH] using value_induction; intros n Hc; inversion Hc; subst; cbn [ipld_of_value]; try reflexivity.
  - cbn [value_of_ipld]. unfold value_of_int. match goal with H : x_value_i128 X = true |- _ => rewrite H end.
    assert ((0 <=? Z.of_N k0) && (Z.of_N k0 <=? Z.of_N u64_max) = true)%Z as -> by (unfold u64_max; lia). rewrite N2Z.id. reflexivity.
  - cbn [value_of_ipld]. unfold value_of_int. match goal with H : x_value_i128 X = true |- _ => rewrite H end.
    assert ((0 <=? z) = false)%Z as -> by lia. cbn [andb].
    assert ((-9223372036854775808 <=? z) && (z <? 0) = true)%Z as -> by lia. reflexivity.
  - match goal with H : float_carried _ ?f |- _ => destruct H as [H _]; destruct f; try contradiction; reflexivity end.
  - rewrite value_of_list. match goal with H : Forall (carried _ _) _ |- _ => rename H into Hl end.
    assert (value_list_of X (map ipld_of_value l) = Some l) as ->; [|reflexivity].
    clear Hc. induction l as [|x l IHl]; [reflexivity|].
    apply Forall_cons_iff in IH as [IHx IH]. apply Forall_cons_iff in Hl as [Hx Hl]. cbn [map value_list_of].
    rewrite (IHx _ Hx). fold (value_list_of X). rewrite (IHl IH Hl). reflexivity.
  - rewrite value_of_map. match goal with H : Forall (fun kv => utf8_valid _ = true /\ _) _ |- _ => rename H into Hm end.
    assert (value_map_of X (map (fun kv => (fst kv, ipld_of_value (snd kv))) m) = Some m) as ->; [|reflexivity].
    repeat match goal with H : ~ reserved _ |- _ => clear H | H : keys_increasing _ |- _ => clear H end.
    clear Hc. induction m as [|[k x] m IHm]; [reflexivity|].
    apply Forall_cons_iff in IH as [IHx IH]. apply Forall_cons_iff in Hm as [[_ Hx] Hm]. cbn [map value_map_of fst snd] in *.
    rewrite (IHx _ Hx). fold (value_map_of X). rewrite (IHm IH Hm). reflexivity.
Qed.

(** [from_dag_json(to_dag_json(v))] *)
Lemma value_dagjson_roundtrip X v : carried X 127 v ->
  exists i, dagjson_decode X (dagjson_encode X (ipld_of_value v)) = Some i /\ value_of_ipld X i = Some v.
Proof.
  intros Hc. exists (ipld_of_value v). split; [apply dagjson_roundtrip, carried_wire, Hc | eapply value_of_ipld_of, Hc].
Qed.

Lemma value_dagjson_trailing X v rest : carried X 127 v -> x_dagjson_end X = false ->
  (forall c r, rest = c :: r -> ~ (48 <= bN c <= 57)%N /\ c <> x2e /\ c <> x65 /\ c <> x45) ->
  exists i, dagjson_decode X (dagjson_encode X (ipld_of_value v) ++ rest) = Some i /\ value_of_ipld X i = Some v.
Proof.
  intros Hc He Hr. exists (ipld_of_value v). split; [|eapply value_of_ipld_of, Hc].
  apply dagjson_roundtrip_trailing; [apply carried_wire, Hc | | exact He].
  destruct rest as [|c r]; [exact I|]. destruct (Hr c r eq_refl) as (H1 & H2 & H3 & H4).
  split; [unfold is_digit; lia | auto].
Qed.

Lemma value_dagjson_injective X v w : carried X 127 v -> carried X 127 w ->
  dagjson_encode X (ipld_of_value v) = dagjson_encode X (ipld_of_value w) -> v = w.
Proof.
  intros Hv Hw E. apply value_dagjson_roundtrip in Hv as (i & H1 & H2). apply value_dagjson_roundtrip in Hw as (j & H3 & H4).
  rewrite E, H3 in H1. congruence.
Qed.
