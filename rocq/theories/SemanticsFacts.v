(** Facts about URLs with an opaque path and about parsing capabilities. *)
From Verif Require Import Prelude Ord SMap Base58 Value Url Ext Caveat Capability Semantics Key Json Ucan Store Builder Chain Spec
  OrdFacts SMapFacts ValueFacts CapFacts Base58Facts ChainFacts TokenFacts.

(* ----------------------------------------------------------- opaque URLs *)

Definition plain_char (c : byte) : Prop := (33 <= bN c <= 126)%N /\ bN c <> 63%N /\ bN c <> 35%N.
Definition lower_letter (c : byte) : Prop := (97 <= bN c <= 122)%N.

Lemma lower_plain c : lower_letter c -> plain_char c.
Proof. unfold lower_letter, plain_char. lia. Qed.

Lemma drop_while_plain s : Forall plain_char s -> drop_while c0_or_space s = s.
Proof.
  intros H. destruct H as [|c r Hc Hr]; [reflexivity|]. cbn. unfold c0_or_space.
  destruct (N.leb_spec (bN c) 32); [unfold plain_char in Hc; lia | reflexivity].
Qed.

Lemma url_input_plain s : Forall plain_char s -> url_input s = s.
Proof.
  intros H. unfold url_input, url_trim. rewrite (drop_while_plain s H).
  rewrite drop_while_plain; [|apply Forall_rev; exact H]. rewrite rev_involutive.
  induction H as [|c r Hc Hr IH]; [reflexivity|]. cbn. unfold tab_or_newline at 1.
  assert (E : ((bN c =? 9) || (bN c =? 10) || (bN c =? 13))%N = false).
  { unfold plain_char in Hc. rewrite !orb_false_iff, !N.eqb_neq. lia. }
  rewrite E. cbn. f_equal. exact IH.
Qed.

Lemma opaque_path_plain s : Forall plain_char s -> opaque_path s = s.
Proof.
  intros H. unfold opaque_path. assert (E : until_query s = s).
  { induction H as [|c r Hc Hr IH]; [reflexivity|]. cbn.
    assert (E : ((bN c =? 63) || (bN c =? 35))%N = false).
    { unfold plain_char in Hc. rewrite !orb_false_iff, !N.eqb_neq. lia. }
    rewrite E. f_equal. exact IH. }
  rewrite E. induction H as [|c r Hc Hr IH]; [reflexivity|]. cbn [flat_map].
  assert (P : pct_encode_byte c = [c]).
  { unfold pct_encode_byte. destruct (N.ltb_spec (bN c) 32), (N.leb_spec 127 (bN c)); unfold plain_char in Hc; cbn; try lia; reflexivity. }
  rewrite P. cbn [app]. f_equal. apply IH. cbn in E.
  destruct ((bN c =? 63) || (bN c =? 35))%N; [discriminate | injection E as E; exact E].
Qed.

Lemma scheme_rest_lower sch rest : Forall lower_letter sch -> scheme_rest (sch ++ x3a :: rest) = Some (sch, rest).
Proof.
  induction 1 as [|c r Hc Hr IH]; [reflexivity|]. cbn [app scheme_rest].
  unfold lower_letter in Hc.
  replace (bN c =? 58)%N with false by (symmetry; apply N.eqb_neq; lia).
  assert (E : scheme_char c = true).
  { unfold scheme_char, is_alpha. destruct (N.leb_spec 97 (bN c)), (N.leb_spec (bN c) 122); lia. }
  rewrite E, IH. cbn. unfold to_lower.
  destruct (N.leb_spec 65 (bN c)), (N.leb_spec (bN c) 90); try lia; reflexivity.
Qed.

Lemma starts_with_slash_iff s : starts_with_slash s = true <-> exists r, s = x2f :: r.
Proof.
  split.
  - destruct s as [|c r]; [discriminate|]. intros H. exists r. f_equal. destruct c; try discriminate; reflexivity.
  - intros [r ->]. reflexivity.
Qed.

Lemma parse_url_opaque X c sch rest : lower_letter c -> Forall lower_letter sch ->
  ~ In (c :: sch) special_schemes -> Forall plain_char rest -> (forall r, rest <> x2f :: r) ->
  parse_url X ((c :: sch) ++ x3a :: rest) = Some (mkUrl (c :: sch) rest None).
Proof.
  intros Hc Hs Hns Hr Hslash. unfold parse_url, url_parse.
  rewrite url_input_plain.
  2: { apply Forall_app. split.
       - constructor; [apply lower_plain; exact Hc | eapply Forall_impl; [apply lower_plain | exact Hs]].
       - constructor; [unfold plain_char; cbn; lia | exact Hr]. }
  unfold parse_scheme. cbn [app].
  assert (Ha : is_alpha c = true).
  { unfold is_alpha. unfold lower_letter in Hc. destruct (N.leb_spec 97 (bN c)), (N.leb_spec (bN c) 122); lia. }
  rewrite Ha. change (c :: sch ++ x3a :: rest) with ((c :: sch) ++ x3a :: rest).
  rewrite scheme_rest_lower by (constructor; assumption). cbn beta iota.
  assert (E1 : existsb (bytes_eqb (c :: sch)) special_schemes = false).
  { apply not_true_is_false. rewrite existsb_exists. intros (x & Hin & E). apply bytes_eqb_eq in E. subst x. contradiction. }
  assert (E2 : starts_with_slash rest = false).
  { apply not_true_is_false. rewrite starts_with_slash_iff. intros [r E]. exact (Hslash r E). }
  rewrite E1, E2. cbn [orb]. rewrite opaque_path_plain by exact Hr. reflexivity.
Qed.

(** A string without ':' is no URL. *)
Lemma scheme_rest_colon s : scheme_rest s <> None -> In x3a s.
Proof.
  induction s as [|c r IH]; cbn; [congruence|].
  destruct (N.eqb_spec (bN c) 58) as [E|]; [left; apply bN_inj; exact E|].
  destruct (scheme_char c); [|congruence]. destruct (scheme_rest r) as [[? ?]|]; [|congruence].
  intros _. right. apply IH. discriminate.
Qed.

Lemma drop_while_in {T} (p : T -> bool) l x : In x (drop_while p l) -> In x l.
Proof. induction l as [|y l IH]; cbn; [tauto|]. destruct (p y); [right; auto | auto]. Qed.

Lemma url_input_in s c : In c (url_input s) -> In c s.
Proof.
  unfold url_input, url_trim. rewrite filter_In. intros [H _]. apply in_rev in H.
  apply drop_while_in in H. apply in_rev in H. apply drop_while_in in H. exact H.
Qed.

Lemma parse_url_colon X s u : parse_url X s = Some u -> In x3a s.
Proof.
  unfold parse_url, url_parse, parse_scheme. intros H. apply (url_input_in s).
  destruct (url_input s) as [|c r] eqn:E; [discriminate|].
  destruct (is_alpha c); [|discriminate].
  destruct (scheme_rest (c :: r)) eqn:E2; [|discriminate].
  apply scheme_rest_colon. congruence.
Qed.

(* --------------------------------------------------------- proof resources *)

Lemma is_digit_range c : is_digit c = true -> (48 <= bN c <= 57)%N.
Proof. unfold is_digit. rewrite andb_true_iff, !N.leb_le. tauto. Qed.

Lemma dec_print_plain n : Forall plain_char (dec_print n).
Proof.
  apply Forall_forall. intros c Hc. pose proof (dec_print_digits n) as H. rewrite forallb_forall in H.
  specialize (H c Hc). apply is_digit_range in H. unfold plain_char. lia.
Qed.

Lemma dec_print_no_slash n r : dec_print n <> x2f :: r.
Proof.
  destruct (dec_print_head n) as (c & r' & E & Hd & _). rewrite E. intros H. injection H as -> _.
  discriminate.
Qed.

Lemma lower_prf : lower_letter x70 /\ Forall lower_letter [x72; x66].
Proof. split; [|repeat constructor]; unfold lower_letter; cbn; lia. Qed.

Lemma parse_prf_url X n : parse_url X (B "prf:" ++ dec_print n) = Some (mkUrl (B "prf") (dec_print n) None).
Proof.
  change (B "prf:" ++ dec_print n) with ((x70 :: [x72; x66]) ++ x3a :: dec_print n).
  apply parse_url_opaque.
  - apply lower_prf.
  - apply lower_prf.
  - cbn. intros H. repeat (destruct H as [H|H]; [discriminate H|]). exact H.
  - apply dec_print_plain.
  - apply dec_print_no_slash.
Qed.

Lemma dec_print_not_star n : dec_print n <> B "*".
Proof.
  destruct (dec_print_head n) as (c & r & E & Hd & _). rewrite E. intros H. injection H as -> _. discriminate.
Qed.

Lemma parse_index_eq X n cav :
  parse_cap proof_scope proof_ability X (B "prf:" ++ dec_print n) (B "ucan/DELEGATE") cav =
  match parse_usize (dec_print n) with
  | Some i => Some (mkView (RPlain (Scoped (Index i))) Delegate (parse_caveat cav))
  | None => None
  end.
Proof.
  unfold parse_cap. rewrite parse_prf_url.
  cbn [url_scheme]. change (bytes_eqb (B "prf") (B "my")) with false. change (bytes_eqb (B "prf") (B "as")) with false.
  cbn beta iota. unfold parse_resource. cbn [url_path].
  destruct (bytes_eqb (dec_print n) (B "*")) eqn:E; [apply bytes_eqb_eq in E; destruct (dec_print_not_star n E)|].
  cbn [proof_scope sc_of_url url_scheme url_path]. change (bytes_eqb (B "prf") (B "prf")) with true. cbn beta iota.
  unfold proof_selection_of_string. rewrite E. destruct (parse_usize (dec_print n)); [|reflexivity]. cbn beta iota.
  cbn [proof_ability ab_of_string]. change (bytes_eqb (B "ucan/DELEGATE") (B "ucan/DELEGATE")) with true. reflexivity.
Qed.

Lemma parse_index X n cav : (n <= 18446744073709551615)%N ->
  parse_cap proof_scope proof_ability X (B "prf:" ++ dec_print n) (B "ucan/DELEGATE") cav =
  Some (mkView (RPlain (Scoped (Index n))) Delegate (parse_caveat cav)).
Proof. intros Hn. rewrite parse_index_eq, parse_usize_print by exact Hn. reflexivity. Qed.

Lemma index_roundtrip X n cav : (n <= 18446744073709551615)%N ->
  parse_proof_cap X (mkCap (sc_to_string proof_scope (Index n)) (B "ucan/DELEGATE") cav) =
  Some (mkView (RPlain (Scoped (Index n))) Delegate cav).
Proof. intros Hn. exact (parse_index X n (Some cav) Hn). Qed.

Lemma index_print_inj m n : sc_to_string proof_scope (Index m) = sc_to_string proof_scope (Index n) -> m = n.
Proof. cbn [proof_scope sc_to_string]. intros H. apply app_inv_head in H. exact (dec_print_inj _ _ H). Qed.

Lemma index_too_big X n cav : (18446744073709551615 < n)%N ->
  parse_proof_cap X (mkCap (sc_to_string proof_scope (Index n)) (B "ucan/DELEGATE") cav) = None.
Proof.
  intros Hn. etransitivity; [exact (parse_index_eq X n (Some cav))|].
  assert (P : parse_usize (dec_print n) = None).
  { unfold parse_usize. destruct (dec_print_head n) as (c & r & Ed & Hd & _).
    assert (match dec_print n with x2b :: r => r | _ => dec_print n end = dec_print n) as Hp.
    { rewrite Ed. destruct c; try reflexivity. discriminate Hd. }
    rewrite Hp, dec_value_print.
    destruct (N.leb_spec n usize_max) as [H|H]; [change usize_max with 18446744073709551615%N in H; lia|].
    rewrite andb_false_r, Ed. reflexivity. }
  rewrite P. reflexivity.
Qed.

Lemma names_index X n cav : (n <= 18446744073709551615)%N ->
  names_proof X (mkCap (B "prf:" ++ dec_print n) (B "ucan/DELEGATE") cav) n.
Proof.
  intros Hn. split; [reflexivity|]. exists (mkUrl (B "prf") (dec_print n) None).
  split; [apply parse_prf_url | split; [reflexivity | apply parse_usize_print; exact Hn]].
Qed.

(* --------------------------------------------------------------------- prf:* *)

Lemma parse_star_url X : parse_url X (B "prf:*") = Some (mkUrl (B "prf") (B "*") None).
Proof.
  change (B "prf:*") with ((x70 :: [x72; x66]) ++ x3a :: [x2a]). apply parse_url_opaque.
  - apply lower_prf.
  - apply lower_prf.
  - cbn. intros H. repeat (destruct H as [H|H]; [discriminate H|]). exact H.
  - repeat constructor; unfold plain_char; cbn; lia.
  - intros r H. discriminate H.
Qed.

Lemma star_parses X cav : parse_proof_cap X (mkCap (B "prf:*") (B "ucan/DELEGATE") cav) =
  Some (mkView (RPlain Unscoped) Delegate cav).
Proof. unfold parse_proof_cap, parse_capability, parse_cap. cbn [cap_resource]. rewrite parse_star_url. reflexivity. Qed.

(** Containment of proof selections, and of the delegations read from their texts. *)
Lemma selection_contains_iff a b : sc_contains proof_scope a b = true <-> a = All \/ a = b.
Proof.
  destruct a as [m|], b as [n|]; cbn [sc_contains proof_scope proof_selection_eqb orb]; rewrite ?orb_false_r.
  - rewrite N.eqb_eq. split; [intros ->; auto | intros [[=]|[= ->]]; reflexivity].
  - split; [discriminate | intros [[=]|[=]]].
  - tauto.
  - tauto.
Qed.

Lemma delegations_enable X o m n : (m <= 18446744073709551615)%N -> (n <= 18446744073709551615)%N -> object_ok o ->
  exists every one other,
    parse_proof_cap X (mkCap (B "prf:*") (B "ucan/DELEGATE") (VObj o)) = Some every /\
    parse_proof_cap X (mkCap (B "prf:" ++ dec_print m) (B "ucan/DELEGATE") (VObj o)) = Some one /\
    parse_proof_cap X (mkCap (B "prf:" ++ dec_print n) (B "ucan/DELEGATE") (VObj o)) = Some other /\
    view_enables proof_scope proof_ability every one = true /\
    view_enables proof_scope proof_ability one every = false /\
    (view_enables proof_scope proof_ability one other = true <-> m = n).
Proof.
  intros Hm Hn Ho. exists (mkView (RPlain Unscoped) Delegate (VObj o)), (mkView (RPlain (Scoped (Index m))) Delegate (VObj o)),
    (mkView (RPlain (Scoped (Index n))) Delegate (VObj o)).
  split; [apply star_parses|]. split; [exact (index_roundtrip X m (VObj o) Hm)|]. split; [exact (index_roundtrip X n (VObj o) Hn)|].
  unfold view_enables. cbn [v_caveat v_resource v_ability caveat_of_value resource_contains uri_contains].
  rewrite (caveat_enables_refl o Ho), !andb_true_r. split; [reflexivity|]. split; [reflexivity|].
  rewrite selection_contains_iff. split; [intros [[=]|[= ->]]; reflexivity | intros ->; auto].
Qed.

Lemma star_names_nothing X ab cav i : ~ names_proof X (mkCap (B "prf:*") ab cav) i.
Proof.
  intros (_ & uri & Hu & _ & Hp). cbn [cap_resource] in Hu. rewrite parse_star_url in Hu. injection Hu as <-.
  discriminate Hp.
Qed.

Lemma accepted_redelegates E nt fuel u st c st' : from_ucan E nt fuel u st = (Ok c, st') ->
  redelegates (e_ext E) u (length (c_proofs c)) (c_redelegations c).
Proof.
  destruct fuel as [|f]; [discriminate|]. intros Hr.
  apply from_ucan_ok in Hr as (s1 & proofs & red & _ & _ & Hred & ->). cbn [c_proofs c_redelegations].
  exact Hred.
Qed.

(** A UCAN whose only proof claims are [prf:*] redelegates nothing. *)
Lemma star_redelegates_nothing E nt fuel u st c st' : from_ucan E nt fuel u st = (Ok c, st') ->
  (forall cap, claims u cap -> cap_ability cap = B "ucan/DELEGATE" -> cap_resource cap = B "prf:*") ->
  c_redelegations c = [].
Proof.
  intros Hr Hc. destruct (accepted_redelegates _ _ _ _ _ _ _ Hr) as (_ & Hi & _).
  destruct (c_redelegations c) as [|i r]; [reflexivity|]. exfalso.
  destruct (proj1 (Hi i) (or_introl eq_refl)) as ([res ab cav] & Hcl & Hn).
  pose proof (Hc _ Hcl (proj1 Hn)) as Er. cbn [cap_resource] in Er. subst res.
  exact (star_names_nothing _ _ _ _ Hn).
Qed.

(** Adding a claim of [prf:*] makes no difference to what is redelegated. *)
Lemma star_contributes_nothing E nt fuel u st c st' i : from_ucan E nt fuel u st = (Ok c, st') ->
  In i (c_redelegations c) ->
  exists cap, claims u cap /\ names_proof (e_ext E) cap i /\ cap_resource cap <> B "prf:*".
Proof.
  intros Hr Hin. destruct (accepted_redelegates _ _ _ _ _ _ _ Hr) as (_ & Hi & _).
  destruct (proj1 (Hi i) Hin) as ([res ab cav] & Hcl & Hn). exists (mkCap res ab cav).
  split; [exact Hcl | split; [exact Hn|]]. cbn [cap_resource]. intros ->. exact (star_names_nothing _ _ _ _ Hn).
Qed.

(* ------------------------------------------------------------------------ as: *)

Lemma split_on_free sep s p : In p (split_on sep s) -> ~ In sep p.
Proof. intros H. exact (proj1 (Forall_forall _ _) (proj2 (split_on_join sep s)) p H). Qed.

Lemma extract_did_no_colon path did r : extract_did path = Some (did, r) -> ~ In x3a r.
Proof.
  unfold extract_did. destruct (split_on x3a path) as [|p1 [|p2 [|v rest]]] eqn:E; try discriminate.
  destruct (bytes_eqb p1 (B "did") && bytes_eqb p2 (B "key")); [|discriminate].
  intros H. injection H as _ <-. intros Hin. apply in_concat in Hin as (p & Hp & Hc).
  assert (In p (split_on x3a path)) by (rewrite E; do 3 right; exact Hp).
  exact (split_on_free _ _ _ H Hc).
Qed.

Section Sem.
  Context {S A : Type} (SO : scope_ops S) (AO : ability_ops A).

  Lemma as_never_parses X uri res ab cav : parse_url X res = Some uri -> url_scheme uri = B "as" ->
    parse_cap SO AO X res ab cav = None.
  Proof.
    intros Hu Hs. unfold parse_cap. rewrite Hu, Hs. cbn beta iota.
    change (bytes_eqb (B "as") (B "my")) with false. change (bytes_eqb (B "as") (B "as")) with true. cbn beta iota.
    destruct (extract_did (url_path uri)) as [[did r]|] eqn:E; [|reflexivity].
    destruct (parse_url X r) as [u|] eqn:E2; [|reflexivity].
    destruct (extract_did_no_colon _ _ _ E (parse_url_colon _ _ _ E2)).
  Qed.

  Lemma as_never_view X res ab cav v did k : parse_cap SO AO X res ab cav = Some v -> v_resource v <> RAs did k.
  Proof.
    intros H. pose proof H as H0. unfold parse_cap in H. destruct (parse_url X res) as [uri|] eqn:Eu; [|discriminate].
    destruct (bytes_eqb (url_scheme uri) (B "as")) eqn:Ea.
    - apply bytes_eqb_eq in Ea. rewrite (as_never_parses X uri res ab cav Eu Ea) in H0. discriminate.
    - destruct (bytes_eqb (url_scheme uri) (B "my")).
      + destruct (parse_resource SO uri); [|discriminate]. destruct (ab_of_string AO ab); [|discriminate].
        injection H as <-. discriminate.
      + destruct (parse_resource SO uri); [|discriminate]. destruct (ab_of_string AO ab); [|discriminate].
        injection H as <-. discriminate.
  Qed.

  (* ---------------------------------------------------------------- printing *)

  Lemma print_parse_scoped X s a cav uri : parse_url X (sc_to_string SO s) = Some uri ->
    url_scheme uri <> B "my" -> url_scheme uri <> B "as" -> url_path uri <> B "*" ->
    sc_of_url SO uri = Some s -> ab_of_string AO (ab_to_string AO a) = Some a ->
    parse_capability SO AO X (cap_of_view SO AO (mkView (RPlain (Scoped s)) a cav)) =
    Some (mkView (RPlain (Scoped s)) a cav).
  Proof.
    intros Hu Hm Ha Hp Hs Hab. unfold parse_capability, cap_of_view, parse_cap.
    cbn [cap_resource cap_ability cap_caveat v_resource v_ability v_caveat resource_to_string uri_to_string].
    rewrite Hu. cbn beta iota.
    destruct (bytes_eqb (url_scheme uri) (B "my")) eqn:E1; [apply bytes_eqb_eq in E1; contradiction|].
    destruct (bytes_eqb (url_scheme uri) (B "as")) eqn:E2; [apply bytes_eqb_eq in E2; contradiction|].
    unfold parse_resource. destruct (bytes_eqb (url_path uri) (B "*")) eqn:E3; [apply bytes_eqb_eq in E3; contradiction|].
    rewrite Hs. cbn beta iota. rewrite Hab. reflexivity.
  Qed.

  Lemma star_no_url X : parse_url X (B "*") = None.
  Proof.
    destruct (parse_url X (B "*")) as [u|] eqn:E; [|reflexivity].
    apply parse_url_colon in E. cbn in E. destruct E as [E|[]]. discriminate E.
  Qed.

  Lemma print_wildcard_lost X a cav :
    parse_capability SO AO X (cap_of_view SO AO (mkView (RPlain Unscoped) a cav)) = None.
  Proof.
    unfold parse_capability, cap_of_view, parse_cap.
    cbn [cap_resource v_resource resource_to_string uri_to_string]. rewrite star_no_url. reflexivity.
  Qed.

  Lemma my_url X : parse_url X (B "my:*") = Some (mkUrl (B "my") (B "*") None).
  Proof.
    change (B "my:*") with ((x6d :: [x79]) ++ x3a :: [x2a]). apply parse_url_opaque.
    - unfold lower_letter. cbn. lia.
    - repeat constructor; cbn; lia.
    - cbn. intros H. repeat (destruct H as [H|H]; [discriminate H|]). exact H.
    - repeat constructor; unfold plain_char; cbn; lia.
    - intros r H. discriminate H.
  Qed.

  Lemma print_my_wildcard X a cav : ab_of_string AO (ab_to_string AO a) = Some a ->
    parse_capability SO AO X (cap_of_view SO AO (mkView (RMy Unscoped) a cav)) = Some (mkView (RMy Unscoped) a cav).
  Proof.
    intros Hab. unfold parse_capability, cap_of_view, parse_cap.
    cbn [cap_resource cap_ability cap_caveat v_resource v_ability v_caveat resource_to_string uri_to_string].
    change (B "my:" ++ B "*") with (B "my:*"). rewrite my_url. cbn beta iota. cbn [url_scheme].
    change (bytes_eqb (B "my") (B "my")) with true. cbn beta iota.
    unfold parse_resource. cbn [url_path]. change (bytes_eqb (B "*") (B "*")) with true. cbn beta iota.
    rewrite Hab. reflexivity.
  Qed.

  (** A round trip that succeeds determines what the pieces do. *)
  Lemma print_parse_scoped_iff X s a cav :
    parse_capability SO AO X (cap_of_view SO AO (mkView (RPlain (Scoped s)) a cav)) =
      Some (mkView (RPlain (Scoped s)) a cav) <->
    (exists uri, parse_url X (sc_to_string SO s) = Some uri /\ url_scheme uri <> B "my" /\ url_scheme uri <> B "as" /\
                 url_path uri <> B "*" /\ sc_of_url SO uri = Some s) /\
    ab_of_string AO (ab_to_string AO a) = Some a.
  Proof.
    split.
    - intros H. unfold parse_capability, cap_of_view in H.
      cbn [cap_resource cap_ability cap_caveat v_resource v_ability v_caveat resource_to_string uri_to_string] in H.
      pose proof H as H0. unfold parse_cap in H.
      destruct (parse_url X (sc_to_string SO s)) as [uri|] eqn:Eu; [|discriminate].
      destruct (bytes_eqb (url_scheme uri) (B "as")) eqn:E2.
      { apply bytes_eqb_eq in E2. rewrite (as_never_parses X uri _ _ _ Eu E2) in H0. discriminate. }
      destruct (bytes_eqb (url_scheme uri) (B "my")) eqn:E1.
      { destruct (parse_resource SO uri); [|discriminate]. destruct (ab_of_string AO (ab_to_string AO a)); discriminate. }
      unfold parse_resource in H. destruct (bytes_eqb (url_path uri) (B "*")) eqn:E3.
      { destruct (ab_of_string AO (ab_to_string AO a)); discriminate. }
      destruct (sc_of_url SO uri) as [s'|] eqn:Es; [|discriminate].
      destruct (ab_of_string AO (ab_to_string AO a)) as [a'|] eqn:Ea; [|discriminate].
      injection H as -> ->. split; [|reflexivity]. exists uri.
      apply bytes_eqb_neq in E1, E2, E3. auto.
    - intros [(uri & Hu & Hm & Ha & Hp & Hs) Hab]. eapply print_parse_scoped; eassumption.
  Qed.
End Sem.

(** For the proof semantics: every indexed capability that was parsed survives. *)
Lemma proof_view_roundtrip X c v i : parse_proof_cap X c = Some v -> v_resource v = RPlain (Scoped (Index i)) ->
  parse_proof_cap X (cap_of_view proof_scope proof_ability v) = Some v.
Proof.
  intros H Hr. destruct v as [r ab cav]. cbn [v_resource] in Hr. subst r. destruct ab.
  assert (Hi : (i <= 18446744073709551615)%N).
  { assert (N : exists uri, parse_usize (url_path uri) = Some i).
    { pose proof (proj1 (parse_proof_index X c i)) as P. destruct P as (_ & uri & _ & _ & P).
      - eexists. split; [exact H | reflexivity].
      - exists uri. exact P. }
    destruct N as [uri P]. unfold parse_usize in P.
    destruct (match url_path uri with x2b :: r => r | _ => url_path uri end) as [|d ds]; [discriminate|].
    destruct (forallb is_digit (d :: ds)); [|discriminate].
    destruct (N.leb_spec (dec_value (d :: ds)) usize_max) as [L|]; [|discriminate]. injection P as <-. exact L. }
  unfold cap_of_view. cbn [v_resource v_ability v_caveat resource_to_string uri_to_string proof_ability ab_to_string].
  apply index_roundtrip. exact Hi.
Qed.
