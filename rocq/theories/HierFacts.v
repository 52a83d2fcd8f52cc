(** Facts about hierarchical URLs (C132-C133). *)
From Coq Require Import Relations.Relation_Operators.
From Verif Require Import Prelude Ord Base58 Url Ext Semantics Hier Fixtures Spec SpecWire SpecUrl SpecHier OrdFacts WireFacts TokenFacts SignFacts UrlTextFacts FixtureFacts.

(* ------------------------------------------------------------------ characters *)

Lemma segment_char_iff R c t : segment_char R c t <-> t = encode_char (ur_encoded R) c.
Proof.
  unfold encode_char. pose proof (bN_bound c) as Hc.
  assert (forall nh nl, bN c = (nh * 16 + nl)%N -> (nl < 16)%N -> nh = (bN c / 16)%N /\ nl = (bN c mod 16)%N) as Hd by (intros; lia).
  assert (bN c / 16 < 16)%N as Hq by lia. assert (bN c mod 16 < 16)%N as Hm by lia.
  assert (forall h nh, upper_hex h nh -> (nh < 16)%N) as Hh by (unfold upper_hex; lia).
  destruct (ur_encoded R c) eqn:Ee.
  - split.
    + intros H. inversion H as [c' _ Hn | c' h l nh nl _ H1 H2 H3]; subst; [congruence|].
      destruct (Hd nh nl H3 (Hh _ _ H2)) as [-> ->]. apply upper_hex_iff in H1; [|exact Hq]. apply upper_hex_iff in H2; [|exact Hm].
      subst. reflexivity.
    + intros ->. apply (SC_percent R c _ _ (bN c / 16) (bN c mod 16)); [auto | apply upper_hex_iff; auto | apply upper_hex_iff; auto | lia].
  - rewrite <- path_char_iff. split.
    + intros H. inversion H as [c' Hp _ | c' h l nh nl [H0|H0] H1 H2 H3]; subst; [constructor; exact Hp | | congruence].
      apply (PC_percent c h l nh nl); auto.
    + intros H. inversion H as [c' Hp | c' h l nh nl H0 H1 H2 H3]; subst; [constructor; auto|].
      apply (SC_percent R c h l nh nl); auto.
Qed.

Lemma Forall2_map_iff {A C} (P : A -> C -> Prop) (f : A -> C) : (forall a c, P a c <-> c = f a) ->
  forall l m, Forall2 P l m <-> m = map f l.
Proof.
  intros H l. induction l as [|a l IH]; intros m; split.
  - intros E. inversion E. reflexivity.
  - intros ->. constructor.
  - intros E. inversion E as [|? c ? m' H1 H2]; subst. apply H in H1. apply IH in H2. subst. reflexivity.
  - intros ->. cbn [map]. constructor; [apply H; reflexivity | apply IH; reflexivity].
Qed.

Lemma segment_text_iff R s t : segment_text R s t <-> t = flat_map (encode_char (ur_encoded R)) s.
Proof.
  unfold segment_text. rewrite flat_map_concat_map. split.
  - intros (cs & H & ->). apply (Forall2_map_iff _ _ (segment_char_iff R)) in H. subst. reflexivity.
  - intros ->. eexists. split; [apply (Forall2_map_iff _ _ (segment_char_iff R)); reflexivity | reflexivity].
Qed.

(* ------------------------------------------------------------------------ dots *)

Lemma single_dot_iff s : single_dot s = true <-> dot s.
Proof.
  unfold single_dot. cbn [map existsb]. rewrite !Bool.orb_true_iff, !bytes_eqb_eq. split.
  - intros [-> | [-> | [-> | H]]]; [constructor | constructor | constructor | discriminate].
  - intros []; auto.
Qed.

Lemma double_dot_iff s : double_dot s = true <-> parent s.
Proof.
  unfold double_dot. cbn [map existsb]. rewrite !Bool.orb_true_iff, !bytes_eqb_eq. split.
  - intros H. repeat destruct H as [-> | H]; try discriminate;
      first [ solve [exists (B "."), (B "."); split; [constructor | split; [constructor | reflexivity]]]
      | solve [exists (B "."), (B "%2e"); split; [constructor | split; [constructor | reflexivity]]]
      | solve [exists (B "."), (B "%2E"); split; [constructor | split; [constructor | reflexivity]]]
      | solve [exists (B "%2e"), (B "."); split; [constructor | split; [constructor | reflexivity]]]
      | solve [exists (B "%2e"), (B "%2e"); split; [constructor | split; [constructor | reflexivity]]]
      | solve [exists (B "%2e"), (B "%2E"); split; [constructor | split; [constructor | reflexivity]]]
      | solve [exists (B "%2E"), (B "."); split; [constructor | split; [constructor | reflexivity]]]
      | solve [exists (B "%2E"), (B "%2e"); split; [constructor | split; [constructor | reflexivity]]]
      | solve [exists (B "%2E"), (B "%2E"); split; [constructor | split; [constructor | reflexivity]]] ].
  - intros (a & b & Ha & Hb & ->). destruct Ha, Hb; vm_compute; tauto.
Qed.

Lemma dot_not_parent s : dot s -> double_dot s = false.
Proof. intros []; vm_compute; reflexivity. Qed.

Lemma name_iff s : name s <-> double_dot s = false /\ single_dot s = false.
Proof.
  unfold name. rewrite <- single_dot_iff, <- double_dot_iff. destruct (double_dot s), (single_dot s); intuition congruence.
Qed.

Lemma resolve_names l : forall done, Forall name l -> resolve_dots done l = rev done ++ l.
Proof.
  induction l as [|s l IH]; intros done H; cbn [resolve_dots]; [symmetry; apply app_nil_r|].
  inversion H as [|? ? Hs Hl]; subst. apply name_iff in Hs as [-> ->]. rewrite IH by exact Hl. cbn [rev]. rewrite <- app_assoc. reflexivity.
Qed.

Lemma resolve_cons_not_last done s n r : resolve_dots done (s :: n :: r) =
  if double_dot s then resolve_dots (tl done) (n :: r)
  else if single_dot s then resolve_dots done (n :: r) else resolve_dots (s :: done) (n :: r).
Proof. reflexivity. Qed.

(** A step does not change what is resolved. *)
Lemma undot_resolve l l' : undot l l' -> resolve_dots [] l = resolve_dots [] l'.
Proof.
  assert (forall p a c, a <> [] -> c <> [] -> (forall done, resolve_dots done a = resolve_dots done c) ->
    forall done, resolve_dots done (p ++ a) = resolve_dots done (p ++ c)) as Hp.
  { intros p a c Ha Hc H. induction p as [|s p IH]; intros done; cbn [app]; [apply H|].
    cbn [resolve_dots].
    assert (match p ++ a with [] => true | _ => false end = match p ++ c with [] => true | _ => false end) as E
      by (destruct p; [destruct a, c; try contradiction; reflexivity | reflexivity]).
    rewrite E. destruct (double_dot s); [apply IH|]. destruct (single_dot s); apply IH. }
  intros H. destruct H as [l s n r Hs | l s Hs | l a s n r Ha Hs | l a s Ha Hs | s n r Hs | s Hs].
  - apply Hp; [discriminate | discriminate |]. intros done. rewrite resolve_cons_not_last, (dot_not_parent s Hs). apply single_dot_iff in Hs. rewrite Hs. reflexivity.
  - apply Hp; [discriminate | discriminate |]. intros done. cbn [resolve_dots]. rewrite (dot_not_parent s Hs). apply single_dot_iff in Hs. rewrite Hs. reflexivity.
  - apply Hp; [discriminate | discriminate |]. intros done. rewrite !resolve_cons_not_last. apply name_iff in Ha as [-> ->].
    apply double_dot_iff in Hs. rewrite Hs. reflexivity.
  - apply Hp; [discriminate | discriminate |]. intros done. cbn [resolve_dots]. apply name_iff in Ha as [-> ->].
    apply double_dot_iff in Hs. rewrite Hs. reflexivity.
  - rewrite resolve_cons_not_last. apply double_dot_iff in Hs. rewrite Hs. reflexivity.
  - cbn [resolve_dots]. apply double_dot_iff in Hs. rewrite Hs. reflexivity.
Qed.

Lemma name_nil : name [].
Proof. apply name_iff. split; reflexivity. Qed.

Lemma resolve_reached segs : forall done, Forall name done ->
  clos_refl_trans _ undot (rev done ++ segs) (resolve_dots done segs) /\ Forall name (resolve_dots done segs).
Proof.
  induction segs as [|s segs IH]; intros done Hd; cbn [resolve_dots].
  - rewrite app_nil_r. split; [apply rt_refl | apply Forall_rev, Hd].
  - destruct (double_dot s) eqn:E2; [|destruct (single_dot s) eqn:E1].
    + apply double_dot_iff in E2. destruct segs as [|n r].
      * cbn [resolve_dots rev]. destruct done as [|a done]; cbn [tl rev app].
        { split; [apply rt_step, U_root_last, E2 | constructor; [exact name_nil | constructor]]. }
        inversion Hd as [|? ? Ha Hd']; subst. split.
        { rewrite <- app_assoc. apply rt_step. cbn [app]. apply U_parent_last; assumption. }
        apply Forall_app. split; [apply Forall_rev, Hd' | constructor; [exact name_nil | constructor]].
      * destruct done as [|a done]; cbn [tl].
        { destruct (IH [] (Forall_nil _)) as [H1 H2]. split; [|exact H2].
          eapply rt_trans; [|exact H1]. apply rt_step. cbn [rev app]. apply U_root, E2. }
        inversion Hd as [|? ? Ha Hd']; subst. destruct (IH done Hd') as [H1 H2]. split; [|exact H2].
        eapply rt_trans; [|exact H1]. apply rt_step. cbn [rev]. rewrite <- app_assoc. cbn [app]. apply U_parent; assumption.
    + apply single_dot_iff in E1. destruct segs as [|n r].
      * cbn [resolve_dots rev]. split; [apply rt_step, U_dot_last, E1|].
        apply Forall_app. split; [apply Forall_rev, Hd | constructor; [exact name_nil | constructor]].
      * destruct (IH done Hd) as [H1 H2]. split; [|exact H2]. eapply rt_trans; [|exact H1]. apply rt_step, U_dot, E1.
    + assert (Forall name (s :: done)) as Hd' by (constructor; [apply name_iff; auto | exact Hd]).
      destruct (IH (s :: done) Hd') as [H1 H2]. split; [|exact H2]. cbn [rev] in H1. rewrite <- app_assoc in H1. exact H1.
Qed.

Lemma undotted_iff l l' : undotted l l' <-> l' = resolve_dots [] l.
Proof.
  split.
  - intros [Hr Hn]. assert (resolve_dots [] l' = l') as E by exact (resolve_names l' [] Hn). rewrite <- E at 1. clear Hn E. symmetry.
    induction Hr as [x y H | x | x y z _ IH1 _ IH2]; [apply undot_resolve, H | reflexivity | congruence].
  - intros ->. exact (resolve_reached l [] (Forall_nil _)).
Qed.

(* ------------------------------------------------------------------------ path *)

Lemma path_of_join l : l <> [] -> path_of l = x2f :: join x2f l.
Proof.
  induction l as [|s l IH]; [contradiction|]. intros _. destruct l as [|s' l].
  - cbn. rewrite app_nil_r. reflexivity.
  - unfold path_of in *. cbn [map concat]. cbn [map concat] in IH. rewrite IH by discriminate. reflexivity.
Qed.

Lemma path_of_flat l : path_of l = flat_map (fun s => x2f :: s) l.
Proof. unfold path_of. rewrite flat_map_concat_map. reflexivity. Qed.

Definition mark (c : byte) : Prop := c <> x2f /\ c <> x3f /\ c <> x23.

Lemma join_in c : forall l, In c (join x2f l) -> c = x2f \/ exists s, In s l /\ In c s.
Proof.
  induction l as [|s l IH]; [intros []|]. destruct l as [|s' l].
  - cbn [join]. intros H. right. exists s. split; [left; reflexivity | exact H].
  - intros H. change (In c (s ++ x2f :: join x2f (s' :: l))) in H. apply in_app_or in H as [H | [H | H]].
    + right. exists s. split; [left; reflexivity | exact H].
    + left. congruence.
    + destruct (IH H) as [-> | (t & Ht & Hc)]; [left; reflexivity | right; exists t; split; [right; exact Ht | exact Hc]].
Qed.

Lemma split_join l : l <> [] -> Forall (fun s => ~ In x2f s) l -> split_on x2f (join x2f l) = l.
Proof.
  induction l as [|s l IH]; [contradiction|]. intros _ H. inversion H as [|? ? Hs Hl]; subst. destruct l as [|s' l].
  - cbn [join]. apply split_on_none, Hs.
  - change (split_on x2f (s ++ x2f :: join x2f (s' :: l)) = s :: s' :: l). rewrite split_on_app by exact Hs. rewrite IH; [reflexivity | discriminate | exact Hl].
Qed.

Lemma path_text_iff R t p : path_text R t p <-> exists r, t = x2f :: r /\ p = rooted_path R r.
Proof.
  unfold path_text, rooted_path. split.
  - intros (l & q & l' & out & -> & Hq & Hn & Hf & Hs & Hu & ->). rewrite path_of_join by exact Hn. exists (join x2f l ++ q). split; [reflexivity|].
    rewrite until_query_app; [|apply Forall_forall; intros c Hc | exact Hq].
    + rewrite split_join; [|exact Hn | apply Forall_forall; intros s Hin Hc].
      * apply (Forall2_map_iff _ _ (segment_text_iff R)) in Hs. apply undotted_iff in Hu. subst. apply path_of_flat.
      * rewrite Forall_forall in Hf. specialize (Hf s Hin). rewrite Forall_forall in Hf. destruct (Hf _ Hc) as [H _]. exact (H eq_refl).
    + apply join_in in Hc as [-> | (s & Hin & Hc)]; [split; discriminate|].
      rewrite Forall_forall in Hf. specialize (Hf s Hin). rewrite Forall_forall in Hf. destruct (Hf _ Hc) as (_ & H). exact H.
  - intros (r & -> & ->). destruct (until_query_spec r) as (q & Er & Hq & Hu).
    destruct (split_on_join x2f (until_query r)) as [Ej Ef].
    exists (split_on x2f (until_query r)), q. eexists. eexists. split.
    { rewrite path_of_join by apply split_on_nonnil. rewrite Ej. cbn [app]. rewrite <- Er. reflexivity. }
    split; [exact Hq|]. split; [apply split_on_nonnil|]. split.
    { apply Forall_forall. intros s Hs. apply Forall_forall. intros c Hc. split.
      - intros ->. rewrite Forall_forall in Ef. exact (Ef s Hs Hc).
      - rewrite Forall_forall in Hu. apply Hu. rewrite <- Ej. clear - Hs Hc. revert Hs. generalize (split_on x2f (until_query r)). intros l.
        induction l as [|a l IH]; [intros []|]. destruct l as [|b l].
        + intros [-> | []]. exact Hc.
        + intros [-> | Hs]; change (In c ((s ++ x2f :: join x2f (b :: l)))) || change (In c ((a ++ x2f :: join x2f (b :: l)))); apply in_or_app;
            [left; exact Hc | right; right; apply IH, Hs]. }
    split; [apply (Forall2_map_iff _ _ (segment_text_iff R)); reflexivity|]. split; [apply undotted_iff; reflexivity | symmetry; apply path_of_flat].
Qed.

(* ------------------------------------------------------------------- authority *)

Lemma forbidden_iff c : forbidden_host c = true <-> In c (x00 :: x09 :: x0a :: x0d :: B " #/:<>?@[\]^|").
Proof.
  unfold forbidden_host. rewrite existsb_exists. split.
  - intros (d & Hd & E). apply Byte.byte_dec_bl in E. subst d.
    cbn in Hd |- *. intuition.
  - intros H. exists c. split; [cbn in H |- *; intuition | apply Byte.byte_dec_lb, eq_refl].
Qed.

Lemma all_allowed s : existsb forbidden_host s = false <-> Forall (fun c => ~ In c (x00 :: x09 :: x0a :: x0d :: B " #/:<>?@[\]^|")) s.
Proof.
  rewrite <- Bool.not_true_iff_false, existsb_exists, Forall_forall. split.
  - intros H c Hc Hf. apply H. exists c. split; [exact Hc | apply forbidden_iff, Hf].
  - intros H (c & Hc & Hf). exact (H c Hc (proj1 (forbidden_iff c) Hf)).
Qed.

Lemma no_brackets s : existsb bracket s = false <-> Forall (fun c => c <> x5b /\ c <> x5d) s.
Proof.
  rewrite <- Bool.not_true_iff_false, existsb_exists, Forall_forall. unfold bracket. split.
  - intros H c Hc. split; intros ->; apply H; eexists; (split; [exact Hc | reflexivity]).
  - intros H (c & Hc & Hf). destruct (H c Hc) as [H1 H2]. apply Bool.orb_true_iff in Hf as [E | E]; apply N.eqb_eq in E;
      [apply H1 | apply H2]; apply bN_inj; rewrite E; reflexivity.
Qed.

Lemma path_chars_iff t cs : Forall2 path_char t cs <-> cs = map pct_encode_byte t.
Proof. apply Forall2_map_iff, path_char_iff. Qed.

(** Reading a host without an '@'. *)
Lemma parse_host_iff R t h : ~ In x40 t -> (t <> [] /\ parse_host R t = Some h <-> host_text R t h).
Proof.
  intros Hat. unfold host_text. split.
  - intros [Hn H]. destruct t as [|c r]; [contradiction|]. unfold parse_host in H.
    destruct (Byte.eqb c x5b) eqn:Ec.
    + apply Byte.byte_dec_bl in Ec. subst c. left.
      destruct (rev r) as [|d b] eqn:Er; [discriminate|].
      destruct (Byte.eqb d x5d) eqn:Ed; [apply Byte.byte_dec_bl in Ed; subst d | exfalso; destruct d; discriminate].
      destruct (existsb bracket b) eqn:Eb; [discriminate|]. apply no_brackets in Eb.
      destruct (ur_ipv6 R (rev b)) as [i|] eqn:Ei; [|discriminate]. injection H as <-.
      assert (r = rev b ++ [x5d]) as -> by (rewrite <- (rev_involutive r), Er; reflexivity).
      exists (rev b), i. split; [reflexivity|]. split; [|split; [exact Ei | reflexivity]].
      apply Forall_forall. intros c Hc. rewrite Forall_forall in Eb. destruct (Eb c (proj2 (in_rev b c) Hc)) as [H1 H2].
      split; [exact H1|]. split; [exact H2|]. intros ->. apply Hat. right. apply in_or_app. left. exact Hc.
    + assert ((if existsb forbidden_host (c :: r) then None else Some (flat_map pct_encode_byte (c :: r))) = Some h) as H'
        by (destruct c; try exact H; discriminate). clear H.
      destruct (existsb forbidden_host (c :: r)) eqn:Ef; [discriminate|]. apply all_allowed in Ef. right. split; [exact Hn|]. split; [exact Ef|].
      eexists. split; [apply path_chars_iff; reflexivity|]. rewrite <- flat_map_concat_map. congruence.
  - intros [(a & b & -> & Ha & Hi & ->) | (Hn & Hf & cs & Hc & ->)].
    + split; [discriminate|]. change (B "[" ++ a ++ B "]") with (x5b :: (a ++ [x5d])). unfold parse_host.
      rewrite rev_app_distr. cbn [rev app].
      assert (existsb bracket (rev a) = false) as ->.
      { apply no_brackets, Forall_rev. eapply Forall_impl; [|exact Ha]. cbn beta. tauto. }
      rewrite rev_involutive, Hi. reflexivity.
    + split; [exact Hn|]. apply path_chars_iff in Hc. subst. apply all_allowed in Hf. unfold parse_host.
      assert (forall r, t <> x5b :: r) as Hb by (intros r ->; discriminate).
      destruct t as [|c r]; [contradiction|].
      assert (parse_host R (c :: r) = if existsb forbidden_host (c :: r) then None else Some (flat_map pct_encode_byte (c :: r))) as E
        by (destruct c; try reflexivity; exfalso; exact (Hb r eq_refl)).
      unfold parse_host in E. rewrite E, Hf, flat_map_concat_map. reflexivity.
Qed.

Lemma split_port_text s : forall i h p, split_port i s = (h, p) -> s = h ++ match p with Some ds => x3a :: ds | None => [] end.
Proof.
  induction s as [|c s IH]; intros i h p H; cbn [split_port] in H; [injection H as <- <-; reflexivity|].
  destruct ((bN c =? 58)%N && negb i) eqn:E.
  - apply andb_prop in E as [E _]. apply N.eqb_eq in E. injection H as <- <-. cbn [app]. f_equal. apply bN_inj. rewrite E. reflexivity.
  - destruct (split_port _ s) as [h' p'] eqn:Es. apply IH in Es. injection H as <- <-. cbn [app]. f_equal. exact Es.
Qed.

Definition port_end (p : option bytes) : bytes := match p with Some ds => x3a :: ds | None => [] end.

Lemma split_port_plain h p : Forall (fun c => c <> x3a /\ c <> x5b /\ c <> x5d) h -> split_port false (h ++ port_end p) = (h, p).
Proof.
  intros H. induction H as [|c h (H1 & H2 & H3) _ IH]; cbn [app].
  - destruct p; reflexivity.
  - cbn [split_port]. assert ((bN c =? 58)%N = false) as -> by (apply N.eqb_neq; intros E; apply H1, bN_inj, E). cbn [andb].
    assert ((bN c =? 91)%N = false) as -> by (apply N.eqb_neq; intros E; apply H2, bN_inj, E).
    assert ((bN c =? 93)%N = false) as -> by (apply N.eqb_neq; intros E; apply H3, bN_inj, E). rewrite IH. reflexivity.
Qed.

Lemma split_port_inside a p : Forall (fun c => c <> x5b /\ c <> x5d) a -> split_port true (a ++ x5d :: port_end p) = (a ++ [x5d], p).
Proof.
  intros H. induction H as [|c a (H1 & H2) _ IH]; cbn [app].
  - cbn [split_port]. change ((bN x5d =? 58)%N && negb true) with false. cbn iota.
    change ((bN x5d =? 91)%N) with false. change ((bN x5d =? 93)%N) with true. cbn iota. destruct p; reflexivity.
  - cbn [split_port negb]. rewrite andb_false_r.
    assert ((bN c =? 91)%N = false) as -> by (apply N.eqb_neq; intros E; apply H1, bN_inj, E).
    assert ((bN c =? 93)%N = false) as -> by (apply N.eqb_neq; intros E; apply H2, bN_inj, E). rewrite IH. reflexivity.
Qed.

Lemma split_port_host R t h p : host_text R t h -> split_port false (t ++ port_end p) = (t, p).
Proof.
  intros [(a & b & -> & Ha & _) | (_ & Hf & _)].
  - change (B "[" ++ a ++ B "]") with (x5b :: (a ++ [x5d])). cbn [app]. rewrite <- app_assoc. cbn [app].
    cbn [split_port]. change ((bN x5b =? 58)%N && negb false) with false. change ((bN x5b =? 91)%N) with true. cbn iota.
    rewrite split_port_inside; [reflexivity|]. eapply Forall_impl; [|exact Ha]. cbn beta. tauto.
  - apply split_port_plain. eapply Forall_impl; [|exact Hf]. cbn beta. intros c Hc.
    repeat split; intros ->; apply Hc; cbn; tauto.
Qed.

Lemma is_digit_iff c : is_digit c = true <-> (48 <= bN c <= 57)%N.
Proof. unfold is_digit. rewrite andb_true_iff, !N.leb_le. tauto. Qed.

Lemma port_ok_iff p : port_ok p = true <-> port_text (port_end p).
Proof.
  unfold port_text. destruct p as [ds|]; cbn [port_ok port_end].
  - rewrite andb_true_iff, forallb_forall, N.leb_le. unfold dec_value. rewrite <- place_value_digits. split.
    + intros [H1 H2]. right. exists ds. split; [reflexivity|]. split; [apply Forall_forall; intros c Hc; apply is_digit_iff, H1, Hc | exact H2].
    + intros [H | (ds' & E & H1 & H2)]; [discriminate|]. injection E as <-. split; [|exact H2].
      rewrite Forall_forall in H1. intros c Hc. apply is_digit_iff, H1, Hc.
  - split; auto.
Qed.

Lemma after_at_none s : after_at s = None <-> ~ In x40 s.
Proof.
  induction s as [|c s IH]; cbn [after_at]; [split; [intros _ [] | reflexivity]|].
  destruct (after_at s) eqn:E.
  - split; [discriminate|]. intros H. exfalso. assert (after_at s = None) as E' by (rewrite E; apply IH; intros Hi; apply H; right; exact Hi). congruence.
  - destruct (N.eqb_spec (bN c) 64) as [Ec|Ec].
    + split; [discriminate|]. intros H. exfalso. apply H. left. apply bN_inj. rewrite Ec. reflexivity.
    + split; [|reflexivity]. intros _ [-> | Hi]; [apply Ec; reflexivity | exact (proj1 IH eq_refl Hi)].
Qed.

Lemma after_at_some s r : after_at s = Some r <-> exists u, s = u ++ x40 :: r /\ ~ In x40 r.
Proof.
  revert r. induction s as [|c s IH]; intros r; cbn [after_at].
  - split; [discriminate|]. intros (u & H & _). destruct u; discriminate.
  - destruct (after_at s) as [r'|] eqn:E.
    + split.
      * intros [= <-]. destruct (proj1 (IH r') eq_refl) as (u & -> & Hn). exists (c :: u). split; [reflexivity | exact Hn].
      * intros ([|d u] & H & Hn); injection H as -> H; [subst s; apply after_at_none in Hn; congruence|].
        apply IH. exists u. auto.
    + destruct (N.eqb_spec (bN c) 64) as [Ec|Ec].
      * split.
        { intros [= <-]. exists []. split; [cbn [app]; f_equal; apply bN_inj; rewrite Ec; reflexivity | apply after_at_none, E]. }
        intros ([|d u] & H & Hn); injection H as -> H; [cbn; f_equal; exact H|]. exfalso. apply after_at_none in E. apply E. subst s. apply in_or_app. right. left. reflexivity.
      * split; [discriminate|]. intros ([|d u] & H & Hn); injection H as -> H; [exfalso; apply Ec; reflexivity|].
        exfalso. apply after_at_none in E. apply E. subst s. apply in_or_app. right. left. reflexivity.
Qed.

Lemma in_port c p : port_text (port_end p) -> In c (port_end p) -> c <> x40.
Proof.
  intros [H | (ds & H & Hd & _)] Hi; [rewrite H in Hi; destruct Hi|]. rewrite H in Hi. destruct Hi as [<- | Hi]; [discriminate|].
  rewrite Forall_forall in Hd. specialize (Hd c Hi). cbn beta in Hd. intros ->. cbn in Hd. lia.
Qed.

Lemma host_no_at R t h : host_text R t h -> ~ In x40 t.
Proof.
  intros [(a & b & -> & Ha & _) | (_ & Hf & _)].
  - change (B "[" ++ a ++ B "]") with (x5b :: (a ++ [x5d])). intros [H | H]; [discriminate|]. apply in_app_or in H as [H | [H | []]]; [|discriminate].
    rewrite Forall_forall in Ha. destruct (Ha _ H) as (_ & _ & H'). exact (H' eq_refl).
  - intros H. rewrite Forall_forall in Hf. apply (Hf _ H). cbn. tauto.
Qed.

Lemma port_text_end p : port_text p -> exists q, p = port_end q.
Proof. intros [-> | (ds & -> & _)]; [exists None; reflexivity | exists (Some ds); reflexivity]. Qed.

Lemma host_port_iff R hp host : ~ In x40 hp -> hp <> [] ->
  ((let '(h, p) := split_port false hp in
    match h, p with
    | [], Some _ => None
    | [], None => Some None
    | _, _ => if port_ok p then let?? host := parse_host R h in Some (Some host) else None
    end) = Some host <->
   exists t port h, hp = t ++ port /\ host_text R t h /\ port_text port /\ host = Some h).
Proof.
  intros Ha Hn. split.
  - destruct (split_port false hp) as [h p] eqn:Es. apply split_port_text in Es. intros H.
    assert (h <> [] /\ port_ok p = true /\ exists i, parse_host R h = Some i /\ host = Some i) as (Hh & Hp & i & Hi & Ei).
    { destruct h as [|c h]; [destruct p; [discriminate | contradiction]|]. split; [discriminate|].
      destruct (port_ok p); [|discriminate]. split; [reflexivity|]. destruct (parse_host R (c :: h)) as [i|]; [|discriminate].
      exists i. split; [reflexivity | congruence]. }
    apply port_ok_iff in Hp. exists h, (port_end p), i. split; [exact Es|]. split; [|split; [exact Hp | exact Ei]].
    apply parse_host_iff; [|auto]. intros Hin. apply Ha. rewrite Es. apply in_or_app. left. exact Hin.
  - intros (t & port & h & -> & Ht & Hp & ->). destruct (port_text_end port Hp) as (q & ->).
    rewrite (split_port_host R t h q Ht). apply port_ok_iff in Hp.
    apply (parse_host_iff R t h (host_no_at R t h Ht)) in Ht as [Ht0 Ht]. destruct t as [|c t]; [contradiction|]. rewrite Hp, Ht. reflexivity.
Qed.

Lemma parse_authority_iff R a host : parse_authority R a = Some host <-> authority_text R a host.
Proof.
  unfold parse_authority, authority_text. destruct (after_at a) as [r|] eqn:E.
  - apply after_at_some in E as (u & -> & Hr). destruct r as [|c r].
    + split; [discriminate|]. intros [[H _] | (user & t & port & h & Ha & Hu & Ht & Hp & ->)]; [destruct u; discriminate|].
      exfalso. destruct (port_text_end port Hp) as (q & ->).
      assert (t ++ port_end q <> []) as Hne by (destruct t; [destruct Ht as [(x & y & Ht & _) | (Ht & _)]; [discriminate Ht | contradiction] | discriminate]).
      destruct (exists_last Hne) as (l & d & Hl). rewrite Hl in Ha. rewrite app_assoc in Ha. apply app_inj_tail in Ha as [_ <-].
      assert (In x40 (t ++ port_end q)) as Hi by (rewrite Hl; apply in_or_app; right; left; reflexivity).
      apply in_app_or in Hi as [Hi | Hi]; [exact (host_no_at R t h Ht Hi) | exact (in_port _ q Hp Hi eq_refl)].
    + rewrite (host_port_iff R (c :: r) host Hr) by discriminate. split.
      * intros (t & port & h & Hh & H). right. exists (u ++ B "@"), t, port, h. rewrite <- Hh, <- app_assoc. split; [reflexivity|].
        split; [right; exists u; reflexivity | exact H].
      * intros [[H _] | (user & t & port & h & Ha & Hu & Ht & Hp & ->)]; [destruct u; discriminate|].
        exists t, port, h. split; [|auto]. assert (~ In x40 (t ++ port)) as Hn.
        { intros Hi. apply in_app_or in Hi as [Hi | Hi]; [exact (host_no_at R t h Ht Hi)|]. destruct (port_text_end port Hp) as (q & ->). exact (in_port _ q Hp Hi eq_refl). }
        destruct Hu as [-> | (u' & ->)].
        { exfalso. apply Hn. cbn [app] in Ha. rewrite <- Ha. apply in_or_app. right. left. reflexivity. }
        rewrite <- app_assoc in Ha. change (B "@" ++ t ++ port) with (x40 :: (t ++ port)) in Ha.
        assert (after_at (u ++ x40 :: c :: r) = Some (c :: r)) as E1 by (apply after_at_some; eauto).
        assert (after_at (u ++ x40 :: c :: r) = Some (t ++ port)) as E2 by (apply after_at_some; exists u'; auto). congruence.
  - apply after_at_none in E. destruct a as [|c a].
    + cbn [split_port]. split.
      * intros [= <-]. left. auto.
      * intros [[_ ->] | (user & t & port & h & Ha & _ & Ht & _)]; [reflexivity|]. exfalso. symmetry in Ha. apply app_eq_nil in Ha as [_ Ha]. apply app_eq_nil in Ha as [-> _].
        destruct Ht as [(x & y & Ht & _) | (Ht & _)]; [discriminate Ht | contradiction].
    + rewrite (host_port_iff R (c :: a) host E) by discriminate. split.
      * intros (t & port & h & Hh & H). right. exists [], t, port, h. split; [exact Hh|]. split; [left; reflexivity | exact H].
      * intros [[H _] | (user & t & port & h & Ha & Hu & H)]; [discriminate|]. exists t, port, h. split; [|exact H].
        destruct Hu as [-> | (u' & ->)]; [exact Ha|]. exfalso. apply E. rewrite Ha. apply in_or_app. left. apply in_or_app. right. left. reflexivity.
Qed.

(* ------------------------------------------------------------------------ rest *)

Lemma authority_end_iff c : authority_end c = false <-> mark c.
Proof.
  unfold authority_end, mark. rewrite !Bool.orb_false_iff, !N.eqb_neq. split.
  - intros [[H1 H2] H3]. repeat split; intros ->; [apply H1 | apply H2 | apply H3]; reflexivity.
  - intros (H1 & H2 & H3). repeat split; intros E; [apply H1 | apply H2 | apply H3]; apply bN_inj; rewrite E; reflexivity.
Qed.

Lemma split_authority_iff s a r : split_authority s = (a, r) <->
  s = a ++ r /\ Forall mark a /\ forall c t, r = c :: t -> ~ mark c.
Proof.
  revert a r. induction s as [|c s IH]; intros a r; cbn [split_authority].
  - split.
    + intros [= <- <-]. split; [reflexivity|]. split; [constructor | discriminate].
    + intros (H & _ & _). symmetry in H. apply app_eq_nil in H as [-> ->]. reflexivity.
  - destruct (authority_end c) eqn:E.
    + assert (~ mark c) as Hc by (intros Hm; apply authority_end_iff in Hm; congruence). split.
      * intros [= <- <-]. split; [reflexivity|]. split; [constructor|]. intros d t [= <- _]. exact Hc.
      * intros (H & Ha & _). destruct a as [|d a]; [cbn [app] in H; subst; reflexivity|]. injection H as <- _. inversion Ha; contradiction.
    + destruct (split_authority s) as [a' r'] eqn:Es. apply authority_end_iff in E. destruct (proj1 (IH a' r') eq_refl) as (H1 & H2 & H3). split.
      * intros [= <- <-]. split; [cbn [app]; congruence|]. split; [constructor; assumption | exact H3].
      * intros (H & Ha & Hr). destruct a as [|d a]; [exfalso; exact (Hr c s (eq_sym H) E)|]. injection H as <- H. inversion Ha; subst.
        assert ((a', r') = (a, r)) as [= <- <-] by (apply IH; auto). reflexivity.
Qed.

Lemma rest_iff R sch rest u : (exists r, rest = B "/" ++ r) -> (url_hier R sch rest = Some u <-> url_scheme u = sch /\ rest_text R rest (url_host u) (url_path u)).
Proof.
  intros (r & ->). unfold rest_text. change (B "/" ++ r) with (x2f :: r). destruct u as [us up uh]. cbn [url_scheme url_host url_path]. destruct r as [|c r].
  - unfold url_hier. rewrite path_text_iff. split.
    + intros [= <- <- <-]. split; [reflexivity|]. right. split; [reflexivity|]. split; [discriminate|]. exists []. split; reflexivity.
    + intros (-> & [(a & t & H & _) | (-> & _ & r & E & ->)]); [discriminate|]. injection E as <-. reflexivity.
  - destruct (Byte.eqb c x2f) eqn:Ec.
    + apply Byte.byte_dec_bl in Ec. subst c. unfold url_hier. destruct (split_authority r) as [a p] eqn:Ea.
      apply split_authority_iff in Ea as (-> & Hm & Hp). split.
      * destruct (parse_authority R a) as [host|] eqn:Eh; [|discriminate]. intros [= <- <- <-]. apply parse_authority_iff in Eh.
        split; [reflexivity|]. left. exists a, p. split; [reflexivity|]. split; [exact Hm|]. split; [exact Eh|].
        destruct p as [|d p]; [left; split; [left; reflexivity | reflexivity]|]. specialize (Hp d p eq_refl). unfold mark in Hp.
        destruct (Byte.byte_eq_dec d x2f) as [-> | H1]; [right; apply path_text_iff; exists p; split; reflexivity|]. left.
        split; [right; exists p; cbn [B app]; destruct (Byte.byte_eq_dec d x3f) as [-> | H2]; [left; reflexivity|];
          destruct (Byte.byte_eq_dec d x23) as [-> | H3]; [right; reflexivity | exfalso; tauto]|].
        unfold path_after_authority. destruct d; try reflexivity. exfalso. apply H1. reflexivity.
      * intros (-> & [(a' & t & H & Hm' & Hh & Ht) | (-> & H & _)]); [|exfalso; exact (H (a ++ p) eq_refl)].
        assert (a = a' /\ p = t) as [<- <-].
        { injection H as H. assert (split_authority (a ++ p) = (a, p)) as E1 by (apply split_authority_iff; auto).
          assert (split_authority (a ++ p) = (a', t)) as E2; [|split; congruence].
          apply split_authority_iff. split; [exact H|]. split; [exact Hm'|]. intros d q ->. unfold mark.
          destruct Ht as [[[Hq | (w & [Hq | Hq])] _] | Hq]; [discriminate | injection Hq as -> _; tauto | injection Hq as -> _; tauto |].
          apply path_text_iff in Hq as (w & Hq & _). injection Hq as -> _. tauto. }
        apply parse_authority_iff in Hh. rewrite Hh. f_equal. f_equal.
        destruct Ht as [[[-> | (w & [-> | ->])] ->] | Ht]; [reflexivity | reflexivity | reflexivity |].
        apply path_text_iff in Ht as (w & -> & ->). reflexivity.
    + assert (url_hier R sch (x2f :: c :: r) = Some (mkUrl sch (rooted_path R (c :: r)) None)) as -> by (destruct c; try reflexivity; discriminate).
      split.
      * intros [= <- <- <-]. split; [reflexivity|]. right. split; [reflexivity|]. split.
        { intros t E. injection E as -> _. discriminate. }
        apply path_text_iff. exists (c :: r). split; reflexivity.
      * intros (-> & [(a & t & H & _) | (-> & _ & Ht)]); [injection H as -> _; discriminate|].
        apply path_text_iff in Ht as (w & E & ->). injection E as <-. reflexivity.
Qed.

(* ----------------------------------------------------------------------- texts *)

Lemma rest_slash R rest h p : rest_text R rest h p -> exists r, rest = B "/" ++ r.
Proof.
  intros [(a & t & -> & _) | (_ & _ & H)].
  - exists (B "/" ++ a ++ t). reflexivity.
  - apply path_text_iff in H as (r & -> & _). exists r. reflexivity.
Qed.

Lemma hier_url_text R X t u : follows R X -> ~ special (url_scheme u) -> (parse_url X t = Some u <-> opaque_text t u \/ hier_text R t u).
Proof.
  intros [Hf Hs] Hn. rewrite parse_url_text. split.
  - intros [H | (sch & rest & (s & nm & Hc & -> & Hsch & Hr) & Hx)]; [left; exact H|]. right.
    pose proof (Hs _ _ _ Hx) as <-. destruct Hr as [Hr | (r & ->)]; [contradiction|].
    rewrite Hf in Hx by exact Hn. apply rest_iff in Hx as [_ Hx]; [|eauto].
    exists (nm ++ B ":" ++ B "/" ++ r), nm, (B "/" ++ r). auto.
  - intros [H | (s & nm & rest & Hc & -> & Hsch & _ & Hr)]; [left; exact H|]. right.
    destruct (rest_slash _ _ _ _ Hr) as (r & ->). exists (url_scheme u), (B "/" ++ r). split.
    + exists (nm ++ B ":" ++ B "/" ++ r), nm. split; [exact Hc|]. split; [reflexivity|]. split; [exact Hsch | right; exists r; reflexivity].
    + rewrite Hf by exact Hn. apply rest_iff; [eauto|]. auto.
Qed.

Lemma wnfs_not_special : ~ special (B "wnfs").
Proof. intros H. cbn in H. intuition discriminate. Qed.

Lemma names_scope_iff R X t s : follows R X -> (names_scope X t s <-> hier_text R t (mkUrl (B "wnfs") (w_path s) (Some (w_origin s)))).
Proof.
  intros Hf. unfold names_scope. destruct s as [o p]. cbn [w_origin w_path]. split.
  - intros (u & Hu & Hs). cbn [sc_of_url wnfs_scope] in Hs. destruct (url_host u) as [h|] eqn:Eh; [|discriminate].
    destruct (bytes_eqb (url_scheme u) (B "wnfs")) eqn:Es; [|discriminate]. apply bytes_eqb_eq in Es. injection Hs as <- <-.
    apply (hier_url_text R X t u Hf) in Hu as [(s & sch & q & r & cs & H) | Hu].
    + exfalso. destruct H as (_ & _ & _ & _ & _ & _ & _ & _ & _ & H). congruence.
    + destruct u as [a b c]. cbn [url_host url_scheme url_path] in *. congruence.
    + rewrite Es. exact wnfs_not_special.
  - intros H. exists (mkUrl (B "wnfs") p (Some o)). split; [apply (hier_url_text R X t _ Hf); [exact wnfs_not_special | right; exact H] | reflexivity].
Qed.

(* --------------------------------------------------------------- shape of paths *)

Lemma resolve_nonnil l : forall done, l <> [] -> resolve_dots done l <> [].
Proof.
  induction l as [|s l IH]; [contradiction|]. intros done _. destruct l as [|n r].
  - cbn [resolve_dots]. destruct (double_dot s); [|destruct (single_dot s)]; cbn [rev]; intros E; symmetry in E; apply app_cons_not_nil in E; exact E.
  - rewrite resolve_cons_not_last. destruct (double_dot s); [|destruct (single_dot s)]; apply IH; discriminate.
Qed.

Lemma resolve_all (P : bytes -> Prop) l : P [] -> Forall P l -> forall done, Forall P done -> Forall P (resolve_dots done l).
Proof.
  intros H0 Hl. induction Hl as [|s l Hs _ IH]; intros done Hd; cbn [resolve_dots]; [apply Forall_rev, Hd|].
  assert (Forall P (tl done)) as Ht by (destruct Hd; [constructor | assumption]).
  destruct (double_dot s); [apply IH; destruct l; [constructor|]; assumption|].
  destruct (single_dot s); [apply IH; destruct l; [constructor|]; assumption | apply IH; constructor; assumption].
Qed.

(** A character that can stand in a path as it is. *)
Definition own_char (R : url_rules) (c : byte) : Prop := mark c /\ encode_char (ur_encoded R) c = [c] /\ (33 <= bN c < 127)%N.

Lemma stable_hex R n : stable_rules R -> (n < 16)%N -> own_char R (hex_digit_upper n).
Proof.
  intros (_ & H & _) Hn. rewrite Forall_forall in H.
  assert (forall c, In c (B "0123456789ABCDEF") -> own_char R c) as Hc.
  { intros c Hc. assert (ur_encoded R c = false) as E by (apply H; right; exact Hc). unfold own_char, mark, encode_char. rewrite E.
    clear - Hc. cbn in Hc. decompose [or] Hc; try contradiction; subst c; (split; [repeat split; discriminate|]; split; [reflexivity | cbn; lia]). }
  apply Hc. unfold hex_digit_upper.
  assert (In n (map N.of_nat (seq 0 16))) as Hi.
  { apply in_map_iff. exists (N.to_nat n). split; [apply N2Nat.id | apply in_seq; lia]. }
  clear - Hi. cbn in Hi. decompose [or] Hi; try contradiction; subst n; cbn; tauto.
Qed.

Lemma encode_own R c : stable_rules R -> mark c -> Forall (own_char R) (encode_char (ur_encoded R) c).
Proof.
  intros HR Hm. pose proof (bN_bound c) as Hc. unfold encode_char at 1.
  assert (own_char R x25) as Hp.
  { destruct HR as (_ & H & _). rewrite Forall_forall in H. split; [repeat split; discriminate|]. split; [|cbn; lia].
    unfold encode_char. rewrite (H x25) by (left; reflexivity). reflexivity. }
  assert (Forall (own_char R) [x25; hex_digit_upper (bN c / 16); hex_digit_upper (bN c mod 16)]) as Hh.
  { constructor; [exact Hp|]. constructor; [apply stable_hex; [exact HR | lia]|]. constructor; [apply stable_hex; [exact HR | lia] | constructor]. }
  destruct (ur_encoded R c) eqn:E; [exact Hh|]. unfold pct_encode_byte at 1.
  destruct ((bN c <? 32) || (127 <=? bN c))%N eqn:Er; [exact Hh|]. constructor; [|constructor].
  split; [exact Hm|]. split.
  - unfold encode_char. rewrite E. unfold pct_encode_byte. rewrite Er. reflexivity.
  - assert (bN c <> 32)%N as Hs; [|lia]. intros E'. assert (c = x20) as -> by (apply bN_inj; exact E').
    destruct HR as (H & _). congruence.
Qed.

(** The segments of a path that was read. *)
Lemma path_text_shape R t p : path_text R t p -> exists l, l <> [] /\ p = path_of l /\ Forall name l /\
  Forall (fun s => ~ In x2f s) l /\ (stable_rules R -> Forall (Forall (own_char R)) l).
Proof.
  intros (l & q & l' & out & _ & _ & Hn & Hf & Hs & Hu & ->). exists out.
  assert (Hu' := Hu). apply undotted_iff in Hu'. destruct Hu as [_ Hnames].
  apply (Forall2_map_iff _ _ (segment_text_iff R)) in Hs.
  split; [subst; apply resolve_nonnil; destruct l; [contradiction | discriminate]|]. split; [reflexivity|]. split; [exact Hnames|].
  split.
  - subst. apply resolve_all; [intros [] | | constructor]. apply Forall_forall. intros s Hs Hi. apply in_map_iff in Hs as (m & <- & Hm).
    apply in_flat_map in Hi as (c & Hc & Hi). rewrite Forall_forall in Hf. specialize (Hf m Hm). rewrite Forall_forall in Hf. destruct (Hf c Hc) as (H1 & _).
    assert (forall n, (n < 16)%N -> hex_digit_upper n <> x2f) as Hx.
    { intros n Hl E. apply (f_equal bN) in E. unfold hex_digit_upper in E. destruct (N.ltb_spec n 10); rewrite bN_byteN_small in E by lia; change (bN x2f) with 47%N in E; lia. }
    pose proof (bN_bound c) as Hb.
    assert (In x2f [x25; hex_digit_upper (bN c / 16); hex_digit_upper (bN c mod 16)] -> False) as Hh.
    { intros [E | [E | [E | []]]]; [discriminate | apply (Hx (bN c / 16)%N); [lia | exact E] | apply (Hx (bN c mod 16)%N); [lia | exact E]]. }
    unfold encode_char in Hi. destruct (ur_encoded R c); [exact (Hh Hi)|]. unfold pct_encode_byte in Hi.
    destruct ((bN c <? 32) || (127 <=? bN c))%N; [exact (Hh Hi)|]. destruct Hi as [E | []]. exact (H1 E).
  - intros HR. subst. apply resolve_all; [constructor | | constructor]. apply Forall_forall. intros s Hs. apply in_map_iff in Hs as (m & <- & Hm).
    apply Forall_flat_map, Forall_forall. intros c Hc. apply encode_own; [exact HR|]. rewrite Forall_forall in Hf. specialize (Hf m Hm). rewrite Forall_forall in Hf. exact (Hf c Hc).
Qed.

Lemma own_segment R s : Forall (own_char R) s -> flat_map (encode_char (ur_encoded R)) s = s.
Proof. intros H. induction H as [|c s (_ & Hc & _) _ IH]; [reflexivity|]. cbn [flat_map]. rewrite Hc, IH. reflexivity. Qed.

Lemma path_text_own R l : l <> [] -> Forall name l -> Forall (Forall (own_char R)) l -> path_text R (path_of l) (path_of l).
Proof.
  intros Hn Hl Ho. exists l, [], l, l. split; [symmetry; apply app_nil_r|]. split; [left; reflexivity|]. split; [exact Hn|]. split.
  { eapply Forall_impl; [|exact Ho]. intros s Hs. eapply Forall_impl; [|exact Hs]. intros c (Hm & _). exact Hm. }
  split.
  { apply (Forall2_map_iff _ _ (segment_text_iff R)). clear - Ho. induction Ho as [|s l Hs _ IH]; [reflexivity|]. cbn [map]. f_equal; [symmetry; apply own_segment, Hs | exact IH]. }
  split; [split; [apply rt_refl | exact Hl] | reflexivity].
Qed.

(* ------------------------------------------------------------ reading again *)

Lemma plain_chars t : Forall (fun c => 32 <= bN c < 127)%N t -> Forall2 path_char t (map (fun c => [c]) t).
Proof. intros H. induction H; cbn [map]; constructor; [constructor; assumption | assumption]. Qed.

Lemma concat_single {T} (t : list T) : concat (map (fun c => [c]) t) = t.
Proof. induction t as [|c t IH]; [reflexivity|]. cbn. rewrite IH. reflexivity. Qed.

Lemma host_again R t h : stable_rules R -> host_text R t h ->
  host_text R h h /\ Forall mark h /\ Forall (fun c => 33 <= bN c < 127)%N h.
Proof.
  intros HR [(a & b & -> & Ha & Hi & ->) | (Hn & Hf & cs & Hc & ->)].
  - destruct HR as (_ & _ & H6). destruct (H6 a b Hi) as [Hb Hd].
    assert (forall c, In c (B "0123456789abcdef:.") -> (c <> x5b /\ c <> x5d /\ c <> x40) /\ mark c /\ (33 <= bN c < 127)%N) as Hk.
    { intros c Hc. clear - Hc. cbn in Hc. decompose [or] Hc; try contradiction; subst c; (split; [repeat split; discriminate|]; split; [repeat split; discriminate | cbn; lia]). }
    change (B "[" ++ b ++ B "]") with (x5b :: (b ++ [x5d])). split; [|split].
    + left. exists b, b. split; [reflexivity|]. split; [|split; [exact Hb | reflexivity]]. eapply Forall_impl; [|exact Hd]. intros c Hc. apply Hk, Hc.
    + constructor; [repeat split; discriminate|]. apply Forall_app. split; [|constructor; [repeat split; discriminate | constructor]].
      eapply Forall_impl; [|exact Hd]. intros c Hc. apply Hk, Hc.
    + constructor; [cbn; lia|]. apply Forall_app. split; [|constructor; [cbn; lia | constructor]].
      eapply Forall_impl; [|exact Hd]. intros c Hc. apply Hk, Hc.
  - apply path_chars_iff in Hc. subst cs. rewrite <- flat_map_concat_map.
    assert (Forall (fun c => ~ In c (x00 :: x09 :: x0a :: x0d :: B " #/:<>?@[\]^|") /\ (33 <= bN c < 127)%N) (flat_map pct_encode_byte t)) as H.
    { apply Forall_flat_map. eapply Forall_impl; [|exact Hf]. intros c Hc. pose proof (bN_bound c) as Hb. unfold pct_encode_byte.
      destruct ((bN c <? 32) || (127 <=? bN c))%N eqn:E.
      - assert (forall n, (n < 16)%N -> ~ In (hex_digit_upper n) (x00 :: x09 :: x0a :: x0d :: B " #/:<>?@[\]^|") /\ (33 <= bN (hex_digit_upper n) < 127)%N) as Hx.
        { intros n Hl. assert (In n (map N.of_nat (seq 0 16))) as Hi.
          { apply in_map_iff. exists (N.to_nat n). split; [apply N2Nat.id | apply in_seq; lia]. }
          clear - Hi. cbn in Hi. decompose [or] Hi; try contradiction; subst n; (split; [intros H; cbn in H; intuition discriminate | cbn; lia]). }
        constructor; [split; [intros H; cbn in H; intuition discriminate | cbn; lia]|].
        constructor; [apply Hx; lia|]. constructor; [apply Hx; lia | constructor].
      - constructor; [|constructor]. split; [exact Hc|].
        assert (bN c <> 32)%N as Hs; [|lia]. intros E'. apply Hc. assert (c = x20) as -> by (apply bN_inj; exact E'). cbn. tauto. }
    assert (Forall (fun c => 33 <= bN c < 127)%N (flat_map pct_encode_byte t)) as Hv by (eapply Forall_impl; [|exact H]; cbn beta; tauto).
    split; [|split; [|exact Hv]].
    + right. split; [destruct t as [|c t]; [contradiction|]; cbn [flat_map]; unfold pct_encode_byte at 1; destruct ((bN c <? 32) || (127 <=? bN c))%N; discriminate|].
      split; [eapply Forall_impl; [|exact H]; cbn beta; tauto|]. eexists. split; [apply plain_chars; eapply Forall_impl; [|exact Hv]; cbn beta; lia|].
      symmetry. apply concat_single.
    + eapply Forall_impl; [|exact H]. intros c [Hc _]. repeat split; intros ->; apply Hc; cbn; tauto.
Qed.

Lemma visible_clean s : visible s -> cleaned s s.
Proof.
  intros H. exists [], s, []. split; [cbn [app]; symmetry; apply app_nil_r|]. split; [constructor|]. split; [constructor|]. split; [|split].
  - intros c r ->. inversion H; subst. unfold blank. lia.
  - intros c r ->. apply Forall_app in H as [_ H]. inversion H; subst. unfold blank. lia.
  - induction H as [|c s Hc _ IH]; constructor; [|exact IH]. intros Ht. unfold tab_newline in Ht. cbn in Ht.
    destruct Ht as [<- | [<- | [<- | []]]]; cbn in Hc; lia.
Qed.

Lemma wnfs_scheme_text : scheme_text (B "wnfs") (B "wnfs").
Proof.
  exists x77, (B "nfs"), x77, (B "nfs"). split; [reflexivity|]. split; [reflexivity|].
  assert (forall c, (97 <= bN c <= 122)%N -> letter_of c c) as H by (intros c Hc; split; [exact Hc | left; reflexivity]).
  split; [apply H; cbn; lia|]. change (B "nfs") with [x6e; x66; x73].
  constructor; [left; apply H; cbn; lia|]. constructor; [left; apply H; cbn; lia|]. constructor; [left; apply H; cbn; lia | constructor].
Qed.

Lemma path_visible R l : Forall (Forall (own_char R)) l -> visible (path_of l).
Proof.
  intros H. unfold visible, path_of. induction H as [|s l Hs _ IH]; [constructor|]. cbn [map concat]. constructor; [cbn; lia|].
  apply Forall_app. split; [|exact IH]. eapply Forall_impl; [|exact Hs]. intros c (_ & _ & H). cbn beta. lia.
Qed.

Lemma scope_segments R X t s : follows R X -> names_scope X t s -> exists l, w_path s = path_of l /\ Forall name l /\ Forall (fun x => ~ In x2f x) l.
Proof.
  intros Hf H. apply (names_scope_iff R X t s Hf) in H as (s' & sch & rest & _ & _ & _ & _ & Hr). cbn [url_host url_path] in Hr.
  destruct Hr as [(a & q & _ & _ & _ & [[_ Hp] | Hp]) | (E & _)]; [ | | discriminate].
  - exists []. split; [exact Hp | split; constructor].
  - apply path_text_shape in Hp as (l & _ & Hl & Hn & Hs & _). eauto.
Qed.

Lemma scope_again R X t s : follows R X -> stable_rules R -> names_scope X t s -> names_scope X (sc_to_string wnfs_scope s) s.
Proof.
  intros Hf HR H. apply (names_scope_iff R X t s Hf) in H as (s' & sch & rest & _ & _ & _ & _ & Hr). apply (names_scope_iff R X _ s Hf).
  cbn [url_host url_path] in Hr. destruct s as [o p]. cbn [w_origin w_path sc_to_string wnfs_scope] in *.
  destruct Hr as [(a & q & _ & _ & Ha & Hp) | (E & _)]; [|discriminate].
  destruct Ha as [[_ E] | (user & th & port & h & _ & _ & Hh & _ & E)]; [discriminate|]. injection E as <-.
  destruct (host_again R th o HR Hh) as (Hh' & Hm & Hv).
  assert (visible p /\ (query_text p /\ p = [] \/ path_text R p p)) as [Hvp Hp'].
  { destruct Hp as [[_ ->] | Hp]; [split; [constructor | left; split; [left|]; reflexivity]|].
    apply path_text_shape in Hp as (l & Hn & -> & Hl & _ & Ho). specialize (Ho HR). split; [apply (path_visible R), Ho | right; apply path_text_own; assumption]. }
  exists (B "wnfs://" ++ o ++ p), (B "wnfs"), (B "//" ++ o ++ p). split.
  { apply visible_clean. apply Forall_app. split; [repeat (constructor; [cbn; lia|]); constructor|]. apply Forall_app. split; [|exact Hvp].
    eapply Forall_impl; [|exact Hv]. cbn beta. lia. }
  split; [reflexivity|]. split; [exact wnfs_scheme_text|]. split; [exact wnfs_not_special|]. cbn [url_host url_path]. left. exists o, p.
  split; [reflexivity|]. split; [exact Hm|]. split; [|exact Hp']. right. exists [], o, [], o. split; [cbn [app]; symmetry; apply app_nil_r|].
  split; [left; reflexivity|]. split; [exact Hh'|]. split; [left; reflexivity | reflexivity].
Qed.

(* ------------------------------------------------------------------ containment *)

Lemma split_path l : Forall (fun s => ~ In x2f s) l -> split_on x2f (path_of l) = [] :: l.
Proof.
  intros H. destruct l as [|s l]; [reflexivity|]. rewrite path_of_join by discriminate.
  change (x2f :: join x2f (s :: l)) with ([] ++ x2f :: join x2f (s :: l)). rewrite split_on_app by (intros []).
  rewrite split_join; [reflexivity | discriminate | exact H].
Qed.

Lemma contains_segments o o' l l' : Forall (fun s => ~ In x2f s) l -> Forall (fun s => ~ In x2f s) l' ->
  (sc_contains wnfs_scope (mkWnfs o (path_of l)) (mkWnfs o' (path_of l')) = true <-> o = o' /\ exists r, l' = l ++ r).
Proof.
  intros H H'. cbn [sc_contains wnfs_scope w_origin w_path]. destruct (bytes_eqb o o') eqn:E; cbn [negb].
  - apply bytes_eqb_eq in E. rewrite !split_path by assumption. rewrite parts_contain_iff. cbn [app]. split.
    + intros (r & Hr). injection Hr as Hr. eauto.
    + intros (_ & r & ->). exists r. reflexivity.
  - split; [discriminate|]. intros [-> _]. rewrite bytes_eqb_refl in E. discriminate.
Qed.

(* ------------------------------------------------------- user, port and query *)

Lemma after_authority_query R p q : (p = [] \/ exists r, p = B "/" ++ r) -> Forall (fun c => c <> x3f /\ c <> x23) p -> query_text q ->
  path_after_authority R (p ++ q) = path_after_authority R p.
Proof.
  intros [-> | (r & ->)] Hp Hq.
  - destruct Hq as [-> | (r & [-> | ->])]; reflexivity.
  - change (B "/" ++ r) with (x2f :: r) in *. cbn [app path_after_authority]. inversion Hp as [|? ? _ Hr]; subst. unfold rooted_path.
    rewrite until_query_app by assumption. pose proof (until_query_app r [] Hr (or_introl eq_refl)) as E. rewrite app_nil_r in E. rewrite E. reflexivity.
Qed.

Lemma scope_of_text R X user t port p q h s : follows R X -> visible (user ++ t ++ port ++ p ++ q) -> Forall mark (user ++ t) ->
  (user = [] \/ exists u, user = u ++ B "@") -> host_text R t h -> port_text port ->
  (p = [] \/ exists r, p = B "/" ++ r) -> Forall (fun c => c <> x3f /\ c <> x23) p -> query_text q ->
  (names_scope X (B "wnfs://" ++ user ++ t ++ port ++ p ++ q) s <-> s = mkWnfs h (path_after_authority R p)).
Proof.
  intros [Hf _] Hv Hm Hu Ht Hport Hp Hpc Hq. unfold names_scope.
  assert (parse_url X (B "wnfs://" ++ user ++ t ++ port ++ p ++ q) = Some (mkUrl (B "wnfs") (path_after_authority R p) (Some h))) as E.
  { unfold parse_url, url_parse.
    assert (url_input (B "wnfs://" ++ user ++ t ++ port ++ p ++ q) = B "wnfs" ++ x3a :: (B "/" ++ B "/" ++ user ++ t ++ port ++ p ++ q)) as ->.
    { symmetry. apply cleaned_iff. change (B "wnfs" ++ x3a :: (B "/" ++ B "/" ++ user ++ t ++ port ++ p ++ q)) with (B "wnfs://" ++ user ++ t ++ port ++ p ++ q).
      apply visible_clean. apply Forall_app. split; [repeat (constructor; [cbn; lia|]); constructor | exact Hv]. }
    assert (parse_scheme (B "wnfs" ++ x3a :: (B "/" ++ B "/" ++ user ++ t ++ port ++ p ++ q)) = Some (B "wnfs", B "/" ++ B "/" ++ user ++ t ++ port ++ p ++ q)) as ->
      by (apply parse_scheme_iff; exists (B "wnfs"); split; [reflexivity | exact wnfs_scheme_text]).
    change (existsb (bytes_eqb (B "wnfs")) special_schemes) with false. change (starts_with_slash (B "/" ++ B "/" ++ user ++ t ++ port ++ p ++ q)) with true. cbn [orb].
    rewrite Hf by exact wnfs_not_special. change (B "/" ++ B "/" ++ user ++ t ++ port ++ p ++ q) with (x2f :: x2f :: (user ++ t ++ port ++ p ++ q)).
    unfold url_hier. assert (split_authority (user ++ t ++ port ++ p ++ q) = (user ++ t ++ port, p ++ q)) as ->.
    { apply split_authority_iff. split; [rewrite <- !app_assoc; reflexivity|]. split.
      - rewrite app_assoc. apply Forall_app. split; [exact Hm|]. destruct Hport as [-> | (ds & -> & Hd & _)]; [constructor|].
        constructor; [repeat split; discriminate|]. eapply Forall_impl; [|exact Hd]. intros c Hc. repeat split; intros ->; cbn in Hc; lia.
      - intros c r E. unfold mark. destruct Hp as [-> | (w & ->)]; [|injection E as <- _; tauto].
        cbn [app] in E. destruct Hq as [-> | (w & [-> | ->])]; [discriminate | injection E as <- _; tauto | injection E as <- _; tauto]. }
    assert (parse_authority R (user ++ t ++ port) = Some (Some h)) as ->.
    { apply parse_authority_iff. right. exists user, t, port, h. auto. }
    rewrite after_authority_query by assumption. reflexivity. }
  rewrite E. split.
  - intros (u & [= <-] & Hs). cbn in Hs. congruence.
  - intros ->. eexists. split; [reflexivity|]. reflexivity.
Qed.

Lemma path_of_app l r : path_of (l ++ r) = path_of l ++ path_of r.
Proof. unfold path_of. rewrite map_app, concat_app. reflexivity. Qed.

Lemma below_iff R X t t' s s' : follows R X -> names_scope X t s -> names_scope X t' s' ->
  (sc_contains wnfs_scope s s' = true <->
   w_origin s = w_origin s' /\ exists r, w_path s' = w_path s ++ path_of r /\ Forall (fun x => name x /\ ~ In x2f x) r).
Proof.
  intros Hf H H'. destruct (scope_segments R X t s Hf H) as (l & Hl & _ & Hs). destruct (scope_segments R X t' s' Hf H') as (l' & Hl' & Hn & Hs').
  destruct s as [o p], s' as [o' p']. cbn [w_origin w_path] in *. subst p p'. rewrite contains_segments by assumption.
  split; intros [-> (r & Hr)]; (split; [reflexivity|]; exists r).
  - subst l'. rewrite path_of_app. split; [reflexivity|]. apply Forall_app in Hn as [_ Hn]. apply Forall_app in Hs' as [_ Hs'].
    clear - Hn Hs'. induction Hn; inversion Hs'; subst; constructor; auto.
  - destruct Hr as [Hr Hr']. rewrite <- path_of_app in Hr. apply (f_equal (split_on x2f)) in Hr. rewrite !split_path in Hr.
    + injection Hr as Hr. exact Hr.
    + apply Forall_app. split; [exact Hs|]. eapply Forall_impl; [|exact Hr']. cbn beta. tauto.
    + exact Hs'.
Qed.

Lemma same_scope R X user t port p q h s : follows R X -> visible (user ++ t ++ port ++ p ++ q) -> Forall mark (user ++ t) ->
  (user = [] \/ exists u, user = u ++ B "@") -> host_text R t h -> port_text port ->
  (p = [] \/ exists r, p = B "/" ++ r) -> Forall (fun c => c <> x3f /\ c <> x23) p -> query_text q ->
  (names_scope X (B "wnfs://" ++ user ++ t ++ port ++ p ++ q) s <-> names_scope X (B "wnfs://" ++ t ++ p) s).
Proof.
  intros Hf Hv Hm Hu Ht Hport Hp Hpc Hq. rewrite (scope_of_text R X user t port p q h s) by assumption.
  pose proof (scope_of_text R X [] t [] p [] h s Hf) as E. cbn [app] in E. rewrite !app_nil_r in E. rewrite E; [reflexivity| | | | | | | |]; try assumption.
  - unfold visible in *. rewrite !Forall_app in *. tauto.
  - apply Forall_app in Hm. tauto.
  - left. reflexivity.
  - left. reflexivity.
  - left. reflexivity.
Qed.

Lemma proof_texts R X c i : follows R X -> (names_proof X c i <-> cap_ability c = B "ucan/DELEGATE" /\ SpecUrl.proof_text (cap_resource c) i).
Proof.
  intros Hf. apply names_proof_opaque. intros t u Hu Hs.
  assert (~ special (url_scheme u)) as Hsp by (rewrite Hs; intros H; cbn in H; intuition discriminate).
  apply (hier_url_text R X t u Hf Hsp) in Hu. destruct Hu as [H | (s & sch & rest & _ & _ & _ & _ & Hr)]; [left; exact H|]. right.
  assert (forall w p, path_text R w p -> exists r, p = B "/" ++ r) as Hp.
  { intros w p H. apply path_text_shape in H as (l & Hn & -> & _). destruct l as [|a l]; [contradiction|]. exists (a ++ path_of l). reflexivity. }
  destruct Hr as [(a & w & _ & _ & _ & [[_ H] | H]) | (_ & _ & H)]; [left; exact H | right; exact (Hp _ _ H) | right; exact (Hp _ _ H)].
Qed.
