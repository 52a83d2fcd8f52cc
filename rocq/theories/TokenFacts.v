(** Facts about token strings (C16-C25). *)
From Coq Require Import Sorting.Sorted.
From Verif Require Export JsonFacts Key Value Capability Ucan Builder.

(* -------------------------------------------------------------- splitting *)

Lemma split_on_none sep s : ~ In sep s -> split_on sep s = [s].
Proof.
  induction s as [|c s IH]; intros Hn; [reflexivity|]. cbn [split_on]. rewrite IH by (intros H; apply Hn; right; exact H).
  assert (Byte.eqb c sep = false) as -> by (apply byte_eqb_neq; intros ->; apply Hn; left; reflexivity). reflexivity.
Qed.

Lemma split_on_nonnil sep s : split_on sep s <> [].
Proof. destruct s as [|c s]; [discriminate|]. cbn [split_on]. destruct (split_on sep s); [discriminate|]. destruct (Byte.eqb c sep); discriminate. Qed.

Lemma split_on_app sep a b : ~ In sep a -> split_on sep (a ++ sep :: b) = a :: split_on sep b.
Proof.
  intros Hn. induction a as [|c a IH].
  - cbn [app split_on]. rewrite byte_eqb_refl. pose proof (split_on_nonnil sep b). destruct (split_on sep b); [contradiction | reflexivity].
  - cbn [app split_on]. rewrite IH by (intros H; apply Hn; right; exact H).
    assert (Byte.eqb c sep = false) as -> by (apply byte_eqb_neq; intros ->; apply Hn; left; reflexivity). reflexivity.
Qed.

(** Joining with the separator. *)
Fixpoint join (sep : byte) (l : list bytes) : bytes :=
  match l with [] => [] | [x] => x | x :: l' => x ++ sep :: join sep l' end.

Lemma split_on_join sep s : join sep (split_on sep s) = s /\ Forall (fun x => ~ In sep x) (split_on sep s).
Proof.
  induction s as [|c s [IH1 IH2]]; [split; [reflexivity | repeat constructor; intros []]|].
  cbn [split_on]. pose proof (split_on_nonnil sep s) as Hn. destruct (split_on sep s) as [|x l]; [contradiction|].
  inversion IH2 as [|? ? Hx Hl]; subst. destruct (Byte.eqb c sep) eqn:E.
  - apply byte_eqb_eq in E. subst c. split; [cbn [join] in *; reflexivity|]. constructor; [intros [] | assumption].
  - apply byte_eqb_neq in E. split.
    + destruct l; reflexivity.
    + constructor; [|exact Hl]. intros [H | H]; [congruence | contradiction].
Qed.

(* ------------------------------------------------------------------- maps *)

Lemma traverse_map {A C} (f : C -> option A) (g : A -> C) l : (forall x, In x l -> f (g x) = Some x) -> traverse f (map g l) = Some l.
Proof.
  induction l as [|x l IH]; intros Hf; [reflexivity|]. cbn [map traverse]. rewrite Hf by (left; reflexivity).
  rewrite IH by (intros y Hy; apply Hf; right; exact Hy). reflexivity.
Qed.

Lemma map_of_ipld_map {A} (f : ipld -> option A) (g : A -> ipld) m : (forall k x, In (k, x) m -> f (g x) = Some x) ->
  map_of_ipld f (IMap (map (fun kv => (fst kv, g (snd kv))) m)) = Some m.
Proof.
  intros Hf. cbn [map_of_ipld]. apply traverse_map. intros [k x] Hx. cbn [fst snd]. rewrite (Hf k x Hx). reflexivity.
Qed.

Lemma value_map_of_traverse X m : map_of_ipld (value_of_ipld X) (IMap m) = value_map_of X m.
Proof.
  cbn [map_of_ipld]. induction m as [|[k x] m IH]; [reflexivity|]. cbn [traverse value_map_of fst snd].
  destruct (value_of_ipld X x) as [v|]; [|reflexivity]. fold (value_map_of X). rewrite IH. reflexivity.
Qed.

Lemma value_list_of_traverse X l : list_of_ipld (value_of_ipld X) (IList l) = value_list_of X l.
Proof. cbn [list_of_ipld]. induction l as [|x l IH]; [reflexivity|]. cbn [traverse value_list_of]. fold (value_list_of X). rewrite IH. reflexivity. Qed.

Lemma caps_roundtrip_ipld X c : caps_carried X c -> caps_of_ipld X (ipld_of_caps c) = Some c.
Proof.
  intros [_ Hc]. rewrite Forall_forall in Hc. unfold caps_of_ipld, ipld_of_caps.
  apply (map_of_ipld_map _ (fun abs => IMap (map (fun av => (fst av, IList (map ipld_of_value (snd av)))) abs))).
  intros r abs Hr. destruct (Hc _ Hr) as (_ & _ & Ha). cbn [snd] in Ha. rewrite Forall_forall in Ha.
  apply (map_of_ipld_map _ (fun vs => IList (map ipld_of_value vs))).
  intros a vs Hv. destruct (Ha _ Hv) as (_ & Hvs). cbn [snd] in Hvs. rewrite Forall_forall in Hvs.
  cbn [list_of_ipld]. apply traverse_map. intros v Hin. eapply value_of_ipld_of, Hvs, Hin.
Qed.

Lemma facts_roundtrip_ipld X f : carried X 126 (VObj f) -> map_of_ipld (value_of_ipld X) (ipld_of_facts f) = Some f.
Proof.
  intros Hf. inversion Hf as [| | | | | | |n m Hk Hm Hr]; subst. rewrite Forall_forall in Hm. unfold ipld_of_facts.
  apply (map_of_ipld_map _ ipld_of_value). intros k x Hx. eapply value_of_ipld_of, (Hm _ Hx).
Qed.

Lemma u64_of_ipld_of n : (n <= 18446744073709551615)%N -> u64_of_ipld (ipld_of_u64 n) = Some n.
Proof.
  intros Hn. unfold ipld_of_u64, u64_of_ipld.
  assert ((0 <=? Z.of_N n) && (Z.of_N n <=? Z.of_N u64_max) = true)%Z as -> by (unfold u64_max; lia). rewrite N2Z.id. reflexivity.
Qed.

Lemma str_list_of_ipld l : list_of_ipld str_of_ipld (IList (map IStr l)) = Some l.
Proof. cbn [list_of_ipld]. apply traverse_map. reflexivity. Qed.

(* --------------------------------------------------------------- payloads *)

Definition payload_entries (p : payload) : list (bytes * ipld) :=
  match ipld_of_payload p with IMap m => m | _ => [] end.

Lemma payload_entries_sorted p : msorted (payload_entries p).
Proof.
  unfold payload_entries, ipld_of_payload. destruct (p_fct p), (p_nbf p), (p_nnc p), (p_prf p); cbn [opt_field app];
    repeat (constructor; [|repeat (constructor; [reflexivity|]); constructor]); constructor.
Qed.

Lemma payload_roundtrip_fields X p : caps_of_ipld X (ipld_of_caps (p_cap p)) = Some (p_cap p) ->
  opt_all (fun n => n <= 18446744073709551615)%N (p_exp p) -> opt_all (fun n => n <= 18446744073709551615)%N (p_nbf p) ->
  opt_all (fun f => map_of_ipld (value_of_ipld X) (ipld_of_facts f) = Some f) (p_fct p) ->
  payload_of_ipld X (ipld_of_payload p) = Some p.
Proof.
  intros Hcap Hexp Hnbf Hfct. pose proof (payload_entries_sorted p) as Hs.
  assert (ipld_of_payload p = IMap (payload_entries p)) as -> by reflexivity.
  assert (forall k i, In (k, i) (payload_entries p) -> mget k (payload_entries p) = Some i) as Hget by (intros; apply in_mget; assumption).
  assert (forall {A} k (f : A -> ipld) (g : ipld -> option A) (o : option A),
    In k [B "fct"; B "nbf"; B "nnc"; B "prf"] -> (forall i, In (k, i) (payload_entries p) <-> exists a, o = Some a /\ i = f a) ->
    (forall a, o = Some a -> g (f a) = Some a /\ f a <> INull) -> opt k g (payload_entries p) = Some o) as Hopt.
  { intros A k f g o _ Hin Hg. unfold opt. destruct o as [a|].
    - rewrite (Hget k (f a)) by (apply Hin; eauto). destruct (Hg a eq_refl) as [Hg1 Hg2]. rewrite Hg1. destruct (f a); congruence.
    - destruct (mget k (payload_entries p)) as [i|] eqn:E; [|reflexivity]. apply mget_in in E. apply Hin in E as (a & Ha & _). discriminate. }
  assert (forall k i, In (k, i) (payload_entries p) ->
    (k = B "aud" /\ i = IStr (p_aud p)) \/ (k = B "cap" /\ i = ipld_of_caps (p_cap p)) \/
    (k = B "exp" /\ i = match p_exp p with Some n => ipld_of_u64 n | None => INull end) \/
    (k = B "fct" /\ exists f, p_fct p = Some f /\ i = ipld_of_facts f) \/ (k = B "iss" /\ i = IStr (p_iss p)) \/
    (k = B "nbf" /\ exists n, p_nbf p = Some n /\ i = ipld_of_u64 n) \/ (k = B "nnc" /\ exists n, p_nnc p = Some n /\ i = IStr n) \/
    (k = B "prf" /\ exists l, p_prf p = Some l /\ i = IList (map IStr l)) \/ (k = B "ucv" /\ i = IStr (p_ucv p))) as Hinv.
  { intros k i Hin. unfold payload_entries, ipld_of_payload in Hin.
    repeat (apply in_app_or in Hin as [Hin | Hin]); repeat (destruct Hin as [Hin | Hin]; [injection Hin as <- <-; tauto|]); try contradiction.
    - destruct (p_fct p) as [f|]; [|contradiction]. destruct Hin as [[= <- <-] | []]. do 3 right. left. eauto.
    - destruct (p_nbf p) as [f|]; [|contradiction]. destruct Hin as [[= <- <-] | []]. do 5 right. left. eauto.
    - destruct (p_nnc p) as [f|]; [|contradiction]. destruct Hin as [[= <- <-] | []]. do 6 right. left. eauto.
    - destruct (p_prf p) as [f|]; [|contradiction]. destruct Hin as [[= <- <-] | []]. do 7 right. left. eauto. }
  assert (forall k i, In (k, i) [(B "aud", IStr (p_aud p)); (B "cap", ipld_of_caps (p_cap p));
         (B "exp", match p_exp p with Some n => ipld_of_u64 n | None => INull end); (B "iss", IStr (p_iss p)); (B "ucv", IStr (p_ucv p))] ->
         In (k, i) (payload_entries p)) as Hreq.
  { intros k i Hin. unfold payload_entries, ipld_of_payload. rewrite !in_app_iff. simpl. simpl in Hin. tauto. }
  cbn [payload_of_ipld]. unfold req.
  rewrite (Hget (B "ucv") (IStr (p_ucv p))) by (apply Hreq; simpl; tauto).
  rewrite (Hget (B "iss") (IStr (p_iss p))) by (apply Hreq; simpl; tauto).
  rewrite (Hget (B "aud") (IStr (p_aud p))) by (apply Hreq; simpl; tauto).
  rewrite (Hget (B "cap") (ipld_of_caps (p_cap p))) by (apply Hreq; simpl; tauto).
  cbn [str_of_ipld]. rewrite Hcap.
  assert (opt (B "exp") u64_of_ipld (payload_entries p) = Some (p_exp p)) as ->.
  { unfold opt. rewrite (Hget (B "exp") _) by (apply Hreq; simpl; right; right; left; reflexivity).
    rename Hexp into He. destruct (p_exp p) as [n|]; [|reflexivity].
    rewrite u64_of_ipld_of by (apply He; reflexivity). reflexivity. }
  assert (opt (B "nbf") u64_of_ipld (payload_entries p) = Some (p_nbf p)) as ->.
  { apply (Hopt _ (B "nbf") ipld_of_u64); [simpl; tauto | |].
    - intros i. split; [intros Hin; apply Hinv in Hin; intuition; try discriminate | ].
      intros (a & Ha & ->). unfold payload_entries, ipld_of_payload. rewrite Ha. rewrite !in_app_iff. simpl. tauto.
    - intros a Ha. split; [apply u64_of_ipld_of; apply Hnbf, Ha | discriminate]. }
  assert (opt (B "nnc") str_of_ipld (payload_entries p) = Some (p_nnc p)) as ->.
  { apply (Hopt _ (B "nnc") IStr); [simpl; tauto | |].
    - intros i. split; [intros Hin; apply Hinv in Hin; intuition; try discriminate | ].
      intros (a & Ha & ->). unfold payload_entries, ipld_of_payload. rewrite Ha. rewrite !in_app_iff. simpl. tauto.
    - intros a Ha. split; [reflexivity | discriminate]. }
  assert (opt (B "fct") (map_of_ipld (value_of_ipld X)) (payload_entries p) = Some (p_fct p)) as ->.
  { apply (Hopt _ (B "fct") ipld_of_facts); [simpl; tauto | |].
    - intros i. split; [intros Hin; apply Hinv in Hin; intuition; try discriminate | ].
      intros (a & Ha & ->). unfold payload_entries, ipld_of_payload. rewrite Ha. rewrite !in_app_iff. simpl. tauto.
    - intros a Ha. split; [apply Hfct, Ha | discriminate]. }
  assert (opt (B "prf") (list_of_ipld str_of_ipld) (payload_entries p) = Some (p_prf p)) as ->.
  { apply (Hopt _ (B "prf") (fun l => IList (map IStr l))); [simpl; tauto | |].
    - intros i. split; [intros Hin; apply Hinv in Hin; intuition; try discriminate | ].
      intros (a & Ha & ->). unfold payload_entries, ipld_of_payload. rewrite Ha. rewrite !in_app_iff. simpl. tauto.
    - intros a Ha. split; [apply str_list_of_ipld | discriminate]. }
  destruct p; reflexivity.
Qed.

Lemma payload_roundtrip_ipld X p : payload_carried X p -> payload_of_ipld X (ipld_of_payload p) = Some p.
Proof.
  intros Hp. apply payload_roundtrip_fields; [apply caps_roundtrip_ipld, Hp | apply Hp | apply Hp|].
  intros f Hf. apply facts_roundtrip_ipld, (pc_fct _ _ Hp), Hf.
Qed.

Lemma header_roundtrip_ipld h : header_of_ipld (ipld_of_header h) = Some h.
Proof. destruct h. reflexivity. Qed.

(* ------------------------------------------------- what the wire carries *)

Lemma caps_wire X n c : caps_carried X c -> (125 <= n)%nat -> wire X (S n) (ipld_of_caps c).
Proof.
  intros [Hk Hc] Hn. rewrite Forall_forall in Hc. unfold ipld_of_caps. constructor.
  - apply (msorted_map (fun abs => IMap (map (fun av => (fst av, IList (map ipld_of_value (snd av)))) abs))). apply keys_increasing_msorted, Hk.
  - rewrite Forall_map, Forall_forall. intros [r abs] Hr. destruct (Hc _ Hr) as (Hu & Hka & Ha). cbn [fst snd] in *.
    split; [exact Hu|]. destruct n as [|n]; [lia|]. rewrite Forall_forall in Ha. constructor.
    + apply (msorted_map (fun vs => IList (map ipld_of_value vs))). apply keys_increasing_msorted, Hka.
    + rewrite Forall_map, Forall_forall. intros [a vs] Hv. destruct (Ha _ Hv) as (Hua & Hvs). cbn [fst snd] in *.
      split; [exact Hua|]. destruct n as [|n]; [lia|]. constructor. rewrite Forall_map. rewrite Forall_forall in *.
      intros v Hin. apply (wire_weaken X _ 123); [apply carried_wire, Hvs, Hin | lia].
    + intros [[s E] | [s E]]; destruct abs as [|[] [|]]; discriminate.
  - intros [[s E] | [s E]]; destruct c as [|[r abs] [|]]; try discriminate. injection E as _ E. destruct abs as [|[] [|]]; discriminate.
Qed.

Lemma facts_wire X f : carried X 126 (VObj f) -> wire X 126 (ipld_of_facts f).
Proof. intros Hf. exact (carried_wire X _ _ Hf). Qed.

Lemma payload_wire X p : payload_carried X p -> wire X max_depth (ipld_of_payload p).
Proof.
  intros Hp. unfold max_depth. constructor; [exact (payload_entries_sorted p) | |].
  - rewrite !Forall_app.
    assert (forall n, opt_all (fun n => n <= 18446744073709551615)%N (Some n) -> wire X 126 (ipld_of_u64 n)) as Hu.
    { intros n Hn. specialize (Hn n eq_refl). cbn beta in Hn. constructor. lia. }
    split; [|split; [|split; [|split; [|split; [|split]]]]].
    + constructor; [split; [reflexivity | constructor; apply Hp]|].
      constructor; [split; [reflexivity | apply caps_wire; [apply Hp | lia]]|].
      constructor; [|constructor]. split; [reflexivity|]. cbn [snd]. pose proof (pc_exp _ _ Hp) as He.
      destruct (p_exp p); [apply Hu, He | constructor].
    + pose proof (pc_fct _ _ Hp) as Hf. destruct (p_fct p) as [f|]; constructor; [|constructor].
      split; [reflexivity | apply facts_wire, Hf; reflexivity].
    + repeat constructor. apply Hp.
    + pose proof (pc_nbf _ _ Hp) as Hf. destruct (p_nbf p) as [f|]; constructor; [|constructor]. split; [reflexivity | apply Hu, Hf].
    + pose proof (pc_nnc _ _ Hp) as Hf. destruct (p_nnc p) as [f|]; constructor; [|constructor]. split; [reflexivity | constructor; apply Hf; reflexivity].
    + pose proof (pc_prf _ _ Hp) as Hf. destruct (p_prf p) as [f|]; constructor; [|constructor]. split; [reflexivity|].
      constructor. rewrite Forall_map. specialize (Hf f eq_refl). rewrite Forall_forall in *. intros t Ht. constructor. apply Hf, Ht.
    + repeat constructor. apply Hp.
  - intros [[s E] | [s E]]; discriminate.
Qed.

Lemma header_wire X h : utf8_valid (h_alg h) = true -> utf8_valid (h_typ h) = true -> wire X max_depth (ipld_of_header h).
Proof.
  intros Ha Ht. unfold max_depth. constructor; [repeat constructor | repeat constructor; assumption | intros [[s E] | [s E]]; discriminate].
Qed.

Lemma header_json_roundtrip X h : utf8_valid (h_alg h) = true -> utf8_valid (h_typ h) = true -> header_of_json X (header_to_json X h) = Some h.
Proof.
  intros Ha Ht. unfold header_of_json, header_to_json. rewrite dagjson_roundtrip by (apply header_wire; assumption). apply header_roundtrip_ipld.
Qed.

Lemma payload_json_roundtrip X p : payload_carried X p -> payload_of_json X (payload_to_json X p) = Some p.
Proof.
  intros Hp. unfold payload_of_json, payload_to_json. rewrite dagjson_roundtrip by (apply payload_wire, Hp). apply payload_roundtrip_ipld, Hp.
Qed.

(* ----------------------------------------------------------------- tokens *)

Lemma parse_token_iff X t u : parse_token X t = Ok u <->
  exists h64 p64 s64 more hj pj, split_on x2e t = h64 :: p64 :: s64 :: more /\
    b64_decode h64 = Some hj /\ header_of_json X hj = Some (u_header u) /\
    b64_decode p64 = Some pj /\ payload_of_json X pj = Some (u_payload u) /\
    b64_decode s64 = Some (u_signature u) /\ u_signed_data u = h64 ++ B "." ++ p64.
Proof.
  unfold parse_token. split.
  - intros Hp. destruct (split_on x2e t) as [|h64 [|p64 rest]] eqn:Es.
    + discriminate.
    + cbn [rbind nth_error ok_or] in Hp. destruct (b64_decode h64) as [hj|]; [|discriminate]. cbn [rbind ok_or] in Hp.
      destruct (header_of_json X hj); discriminate.
    + cbn [rbind nth_error ok_or] in Hp. destruct (b64_decode h64) as [hj|] eqn:E1; [|discriminate]. cbn [rbind ok_or] in Hp.
      destruct (header_of_json X hj) as [h|] eqn:E2; [|discriminate]. cbn [rbind ok_or] in Hp.
      destruct (b64_decode p64) as [pj|] eqn:E3; [|discriminate]. cbn [rbind ok_or] in Hp.
      destruct (payload_of_json X pj) as [p|] eqn:E4; [|discriminate]. cbn [rbind ok_or] in Hp.
      destruct rest as [|s64 more]; [discriminate|]. cbn [nth_error rbind ok_or] in Hp.
      destruct (b64_decode s64) as [s|] eqn:E5; [|discriminate]. cbn [rbind ok_or] in Hp. injection Hp as <-.
      exists h64, p64, s64, more, hj, pj. repeat split; assumption.
  - intros (h64 & p64 & s64 & more & hj & pj & -> & E1 & E2 & E3 & E4 & E5 & E6).
    cbn [rbind nth_error ok_or]. rewrite E1. cbn [rbind ok_or]. rewrite E2. cbn [rbind ok_or]. rewrite E3. cbn [rbind ok_or].
    rewrite E4. cbn [rbind ok_or]. rewrite E5. cbn [rbind ok_or]. rewrite <- E6. destruct u; reflexivity.
Qed.

Lemma encode_split X u : split_on x2e (encode X u) =
  [header_b64 X (u_header u); payload_b64 X (u_payload u); b64_encode (u_signature u)].
Proof.
  unfold encode. change (B ".") with [x2e]. cbn [app].
  rewrite split_on_app by apply b64_encode_no_dot. rewrite split_on_app by apply b64_encode_no_dot.
  rewrite split_on_none by apply b64_encode_no_dot. reflexivity.
Qed.

Lemma token_roundtrip X u : ucan_carried X u ->
  parse_token X (encode X u) = Ok (mkUcan (u_header u) (u_payload u) (signing_input X (u_header u) (u_payload u)) (u_signature u)).
Proof.
  intros (Ha & Ht & Hp). apply parse_token_iff.
  exists (header_b64 X (u_header u)), (payload_b64 X (u_payload u)), (b64_encode (u_signature u)), [],
    (header_to_json X (u_header u)), (payload_to_json X (u_payload u)). cbn [u_header u_payload u_signature u_signed_data].
  split; [apply encode_split|]. split; [apply b64_roundtrip|]. split; [apply header_json_roundtrip; assumption|].
  split; [apply b64_roundtrip|]. split; [apply payload_json_roundtrip, Hp|]. split; [apply b64_roundtrip | reflexivity].
Qed.

(* ---------------------------------------------------------------- signing *)

Lemma ascii_utf8 s : Forall (fun c => bN c < 128)%N s -> utf8_valid s = true.
Proof.
  induction s as [|c s IH]; intros Hf; [reflexivity|]. inversion Hf as [|? ? Hc Hs]; subst. cbn [utf8_valid].
  assert (bN c <? 128 = true)%N as -> by lia. apply IH, Hs.
Qed.

Lemma b64_utf8 s : utf8_valid (b64_encode s) = true.
Proof.
  apply ascii_utf8, Forall_forall. intros c Hc. apply b64_encode_in in Hc.
  assert (forallb (fun c => bN c <? 128)%N base64url_alphabet = true) as Ha by reflexivity.
  rewrite forallb_forall in Ha. specialize (Ha c Hc). lia.
Qed.

Lemma none_if_nil_some {A} (l l' : list A) : none_if_nil l = Some l' -> l' = l.
Proof. destruct l; [discriminate|]. intros [= <-]. reflexivity. Qed.

Lemma ucan_payload_iff rng s p : ucan_payload rng s = Ok p <->
  p_ucv p = ucan_version /\ key_did (s_issuer s) = Ok (p_iss p) /\ p_aud p = s_audience s /\
  p_exp p = s_expiration s /\ p_nbf p = s_not_before s /\ p_nnc p = (if s_add_nonce s then Some (b64_encode rng) else None) /\
  caps_of_list (s_capabilities s) = Ok (p_cap p) /\ p_fct p = none_if_nil (s_facts s) /\ p_prf p = none_if_nil (s_proofs s).
Proof.
  unfold ucan_payload. split.
  - destruct (key_did (s_issuer s)) as [d| | |]; try discriminate. cbn [rbind].
    destruct (caps_of_list (s_capabilities s)) as [c| | |]; try discriminate. cbn [rbind]. intros [= <-]. cbn. repeat split.
  - intros (H1 & -> & H3 & H4 & H5 & H6 & -> & H8 & H9). cbn [rbind]. destruct p; cbn in *. subst. reflexivity.
Qed.

Lemma sign_iff X rng s u : sign X rng s = Ok u <->
  u_header u = ucan_header s /\ ucan_payload rng s = Ok (u_payload u) /\
  u_signed_data u = signing_input X (u_header u) (u_payload u) /\ key_sign (s_issuer s) (u_signed_data u) = Ok (u_signature u).
Proof.
  unfold sign. split.
  - destruct (ucan_payload rng s) as [p| | |]; try discriminate. cbn [rbind].
    destruct (key_sign (s_issuer s) (signing_input X (ucan_header s) p)) as [g| | |] eqn:E; try discriminate.
    cbn [rbind]. intros [= <-]. cbn [u_header u_payload u_signed_data u_signature]. split; [reflexivity|]. split; [reflexivity|]. split; [reflexivity | exact E].
  - intros (H1 & -> & H3 & H4). cbn [rbind]. destruct u as [h p d g]; cbn [u_header u_payload u_signed_data u_signature] in *. rewrite <- H1, <- H3, H4. reflexivity.
Qed.

Lemma caps_of_list_members l m : caps_of_list l = Ok m ->
  caps_sorted m /\ caps_full m /\ forall r abs a vs v, In (r, abs) m -> In (a, vs) abs -> In v vs -> In (mkCap r a v) l.
Proof.
  intros E. pose proof (caps_of_list_spec _ _ E) as (_ & Hs & Hf & _ & _). split; [exact Hs|]. split; [exact Hf|].
  intros r abs a vs v Hr Ha Hv. apply caps_of_list_iter in E as (Hp & _ & _).
  eapply Permutation.Permutation_in; [exact Hp|]. apply caps_iter_in. exists abs, vs. auto.
Qed.

Lemma payload_carried_sign X rng s p : signable_carried X s -> ucan_payload rng s = Ok p -> payload_carried X p.
Proof.
  intros Hs Hp. apply ucan_payload_iff in Hp as (H1 & H2 & H3 & H4 & H5 & H6 & H7 & H8 & H9). constructor.
  - rewrite H1. reflexivity.
  - eapply sc_did; eassumption.
  - rewrite H3. exact (sc_aud _ _ Hs).
  - rewrite H4. exact (sc_exp _ _ Hs).
  - rewrite H5. exact (sc_nbf _ _ Hs).
  - rewrite H6. intros n. destruct (s_add_nonce s); [intros [= <-]; apply b64_utf8 | discriminate].
  - apply caps_of_list_members in H7 as ([Hk Ha] & Hf & Hm). split; [exact Hk|]. apply Forall_forall. intros [r abs] Hr. cbn [fst snd].
    destruct (Hf r abs Hr) as [Hne Hcs].
    assert (forall a vs, In (a, vs) abs -> exists v, In v vs) as Hne'.
    { intros a vs Hin. specialize (Hcs a vs Hin). destruct vs as [|v vs]; [contradiction | exists v; left; reflexivity]. }
    split; [|split; [apply (Ha r abs Hr)|]].
    + destruct abs as [|[a vs] abs]; [contradiction|]. destruct (Hne' a vs (or_introl eq_refl)) as [v Hv].
      pose proof (sc_cap _ _ Hs _ (Hm r _ a vs v Hr (or_introl eq_refl) Hv)) as Hc. apply Hc.
    + apply Forall_forall. intros [a vs] Hin. cbn [fst snd]. split.
      * destruct (Hne' a vs Hin) as [v Hv]. apply (sc_cap _ _ Hs _ (Hm r _ a vs v Hr Hin Hv)).
      * apply Forall_forall. intros v Hv. apply (sc_cap _ _ Hs _ (Hm r _ a vs v Hr Hin Hv)).
  - rewrite H8. intros f Hf. apply none_if_nil_some in Hf as ->. exact (sc_fct _ _ Hs).
  - rewrite H9. intros f Hf. apply none_if_nil_some in Hf as ->. exact (sc_prf _ _ Hs).
Qed.

Lemma sign_carried X rng s u : signable_carried X s -> sign X rng s = Ok u ->
  ucan_carried X u /\ u_signed_data u = signing_input X (u_header u) (u_payload u).
Proof.
  intros Hs Hu. apply sign_iff in Hu as (H1 & H2 & H3 & _). split; [|exact H3]. split; [|split].
  - rewrite H1. exact (sc_alg _ _ Hs).
  - rewrite H1. reflexivity.
  - eapply payload_carried_sign; eassumption.
Qed.

(** C16 *)
Lemma sign_roundtrip X rng s u : signable_carried X s -> sign X rng s = Ok u -> parse_token X (encode X u) = Ok u.
Proof.
  intros Hs Hu. destruct (sign_carried _ _ _ _ Hs Hu) as [Hc Hd]. rewrite token_roundtrip by exact Hc.
  rewrite <- Hd. destruct u; reflexivity.
Qed.

(** C17 *)
Lemma token_injective X u v : ucan_carried X u -> ucan_carried X v -> encode X u = encode X v -> content u = content v.
Proof.
  intros Hu Hv E. apply token_roundtrip in Hu. apply token_roundtrip in Hv. rewrite E, Hv in Hu.
  exact (eq_sym (f_equal (fun r => match r with Ok w => content w | _ => content u end) Hu)).
Qed.

(* ------------------------------------------------- what the parser yields *)

Inductive parsed (X : ext) : nat -> ipld -> Prop :=
| Pd_null n : parsed X n INull
| Pd_bool n b : parsed X n (IBool b)
| Pd_int n z : parsed X n (IInt z)
| Pd_float n t f : x_f64_parse X t = Some f -> parsed X n (IFloat f)
| Pd_str n s : utf8_valid s = true -> parsed X n (IStr s)
| Pd_bytes n s : parsed X n (IBytes s)
| Pd_list n l : Forall (parsed X n) l -> parsed X (S n) (IList l)
| Pd_map n m : msorted m -> Forall (fun kv => utf8_valid (fst kv) = true /\ parsed X n (snd kv)) m -> parsed X (S n) (IMap m)
| Pd_link n c : parsed X n (ILink c).

Lemma parse_number_sound X neg s i r n : parse_number X neg s = Some (i, r) -> parsed X n i.
Proof.
  unfold parse_number. destruct (lex_int s) as [[d s1]|]; [|discriminate]. destruct (lex_frac s1) as [[fr s2]|]; [|discriminate].
  destruct (lex_exp s2) as [[ex s3]|]; [|discriminate].
  assert (forall t, (let?? f := x_f64_parse X t in Some (IFloat f, s3)) = Some (i, r) -> parsed X n i) as Hf.
  { intros t. destruct (x_f64_parse X t) eqn:E; [|discriminate]. intros [= <- _]. econstructor. exact E. }
  destruct (fr ++ ex); [|apply Hf]. destruct neg; [destruct (_ && _) | destruct (_ <=? _)%N]; try apply Hf;
    intros [= <- _]; constructor.
Qed.

Lemma parse_string_sound s t r : parse_string s = Some (t, r) -> utf8_valid t = true.
Proof. unfold parse_string. destruct (json_str_body s) as [[t' r']|]; [|discriminate]. destruct (utf8_valid t') eqn:E; [|discriminate]. intros [= <- _]. exact E. Qed.

Lemma mof_list_in {V} (l : list (bytes * V)) x : In x (mof_list l) -> In x l.
Proof.
  unfold mof_list. assert (forall m, In x (fold_left (fun m kv => minsert (fst kv) (snd kv) m) l m) -> In x m \/ In x l) as Hg.
  { induction l as [|[k v] l IH]; intros m Hin; [left; exact Hin|]. cbn [fold_left fst snd] in Hin. apply IH in Hin as [Hin | Hin].
    - apply minsert_in in Hin as [-> | Hin]; [right; left; reflexivity | left; exact Hin].
    - right. right. exact Hin. }
  intros Hin. apply Hg in Hin as [[] | Hin]. exact Hin.
Qed.

Lemma ipld_of_entries_sound X n es i : Forall (fun kv => utf8_valid (fst kv) = true /\ parsed X n (snd kv)) es ->
  ipld_of_entries X es = Some i -> parsed X (S n) i.
Proof.
  intros Hes E.
  assert (parsed X (S n) (IMap (mof_list es))) as Hmap.
  { constructor; [apply mof_list_sorted|]. rewrite Forall_forall in *. intros x Hx. apply Hes, mof_list_in, Hx. }
  destruct es as [|[k v] [|e es]]; try (injection E as <-; exact Hmap).
  - destruct k as [|c [|c' k]]; try (injection E as <-; exact Hmap).
    + destruct (Byte.eqb c x2f) eqn:Ec.
      * apply byte_eqb_eq in Ec. subst c. cbn [ipld_of_entries] in E.
        destruct v as [| | | |s| | |[|[k v] [|]]|]; try (injection E as <-; exact Hmap).
        -- destruct (parse_cid X s); [injection E as <-; constructor | discriminate].
        -- destruct v; try (injection E as <-; exact Hmap). destruct (bytes_eqb k (B "bytes")); [|injection E as <-; exact Hmap].
           destruct (b64std_decode s); [injection E as <-; constructor | discriminate].
        -- destruct v; injection E as <-; exact Hmap.
      * apply byte_eqb_neq in Ec.
        assert (Some (IMap (mof_list [([c], v)])) = Some i) as Ei by (destruct c; (exact E || contradiction Ec; reflexivity)).
        injection Ei as <-. exact Hmap.
    + assert (Some (IMap (mof_list [(c :: c' :: k, v)])) = Some i) as Ei by (destruct c; exact E). injection Ei as <-. exact Hmap.
  - assert (Some (IMap (mof_list ((k, v) :: e :: es))) = Some i) as Ei.
    { destruct k as [|c [|]]; [exact E | destruct c; try exact E; destruct v as [| | | | | | |[|[? []] [|]]|]; exact E | destruct c; exact E]. }
    injection Ei as <-. exact Hmap.
Qed.

Lemma parse_sound X fuel :
  (forall d s i r, parse_value X fuel d s = Some (i, r) -> parsed X d i) /\
  (forall d s l r, parse_elems X fuel d s = Some (l, r) -> Forall (parsed X d) l) /\
  (forall d s es r, parse_entries X fuel d s = Some (es, r) -> Forall (fun kv => utf8_valid (fst kv) = true /\ parsed X d (snd kv)) es).
Proof.
  induction fuel as [|fuel (IHv & IHl & IHe)]; [repeat split; discriminate|]. split; [|split].
  - intros d s i r. cbn [parse_value]. destruct (skip_ws s) as [|c s1]; [discriminate|].
    destruct c; cbn [is_digit]; try discriminate;
      try (destruct (strip_prefix _ s1); [|discriminate]; intros [= <- _]; constructor);
      try apply parse_number_sound.
    + destruct (parse_string s1) as [[t r']|] eqn:E; [|discriminate]. intros [= <- _]. constructor. eapply parse_string_sound, E.
    + destruct d as [|d]; [discriminate|].
      assert ((let?? (l, r0) := parse_elems X fuel d s1 in Some (IList l, r0)) = Some (i, r) -> parsed X (S d) i) as Hl.
      { destruct (parse_elems X fuel d s1) as [[l r']|] eqn:E; [|discriminate]. intros [= <- _]. constructor. eapply IHl, E. }
      destruct (skip_ws s1) as [|c s2]; [exact Hl|]. destruct c; try exact Hl. intros [= <- _]. repeat constructor.
    + destruct d as [|d]; [discriminate|].
      assert ((let?? (es, r0) := parse_entries X fuel d s1 in let?? i0 := ipld_of_entries X es in Some (i0, r0)) = Some (i, r) -> parsed X (S d) i) as Hl.
      { destruct (parse_entries X fuel d s1) as [[l r']|] eqn:E; [|discriminate]. destruct (ipld_of_entries X l) eqn:E'; [|discriminate].
        intros [= <- _]. eapply ipld_of_entries_sound; [eapply IHe, E | exact E']. }
      destruct (skip_ws s1) as [|c s2]; [exact Hl|]. destruct c; try exact Hl. intros [= <- _]. repeat constructor.
  - intros d s l r. cbn [parse_elems]. destruct (parse_value X fuel d s) as [[x s1]|] eqn:E; [|discriminate]. apply IHv in E.
    destruct (skip_ws s1) as [|c s2]; [discriminate|]. destruct c; try discriminate.
    + destruct (parse_elems X fuel d s2) as [[l' r']|] eqn:E'; [|discriminate]. intros [= <- _]. constructor; [exact E | eapply IHl, E'].
    + intros [= <- _]. repeat constructor. exact E.
  - intros d s es r. cbn [parse_entries]. destruct (skip_ws s) as [|c s0]; [discriminate|]. destruct c; try discriminate.
    destruct (parse_string s0) as [[k s1]|] eqn:Ek; [|discriminate]. apply parse_string_sound in Ek.
    destruct (skip_ws s1) as [|c s2]; [discriminate|]. destruct c; try discriminate.
    destruct (parse_value X fuel d s2) as [[x s3]|] eqn:E; [|discriminate]. apply IHv in E.
    destruct (skip_ws s3) as [|c s4]; [discriminate|]. destruct c; try discriminate.
    + destruct (parse_entries X fuel d s4) as [[l' r']|] eqn:E'; [|discriminate]. intros [= <- _]. constructor; [split; assumption | eapply IHe, E'].
    + intros [= <- _]. repeat constructor; assumption.
Qed.

Lemma dagjson_decode_sound X s i : dagjson_decode X s = Some i -> parsed X 127 i.
Proof.
  unfold dagjson_decode. destruct (parse_value X _ max_depth s) as [[i' r]|] eqn:E; [|discriminate].
  intros Hd. assert (i' = i) as <-.
  { destruct (x_dagjson_end X); [|congruence]. destruct (skip_ws r); congruence. }
  eapply parse_sound. exact E.
Qed.

Lemma traverse_forall2 {A C} (f : A -> option C) l l' : traverse f l = Some l' <-> Forall2 (fun a c => f a = Some c) l l'.
Proof.
  revert l'. induction l as [|x l IH]; intros l'; cbn [traverse].
  - split; [intros [= <-]; constructor | inversion 1; reflexivity].
  - split.
    + destruct (f x) eqn:E; [|discriminate]. destruct (traverse f l) eqn:E'; [|discriminate]. intros [= <-].
      constructor; [exact E | apply IH; reflexivity].
    + inversion 1 as [|? ? ? ? E E']; subst. rewrite E. apply IH in E'. rewrite E'. reflexivity.
Qed.

Lemma Forall2_impl {A C} (R S : A -> C -> Prop) l l' : (forall a c, R a c -> S a c) -> Forall2 R l l' -> Forall2 S l l'.
Proof. intros Himp. induction 1; constructor; auto. Qed.

Lemma map_of_ipld_forall2 {A} (f : ipld -> option A) m l : map_of_ipld f (IMap m) = Some l <->
  Forall2 (fun ki ka => fst ki = fst ka /\ f (snd ki) = Some (snd ka)) m l.
Proof.
  cbn [map_of_ipld]. split; intros HF.
  - apply traverse_forall2 in HF. eapply Forall2_impl; [|exact HF]. intros [k i] [k' a]; cbn [fst snd].
    destruct (f i); [|discriminate]. intros [= <- <-]. auto.
  - apply traverse_forall2. eapply Forall2_impl; [|exact HF]. intros [k i] [k' a]; cbn [fst snd]. intros [-> ->]. reflexivity.
Qed.

Lemma Forall2_keys {A C} (R : A -> C -> Prop) (m : list (bytes * A)) (m' : list (bytes * C)) :
  Forall2 (fun a c => fst a = fst c /\ R (snd a) (snd c)) m m' -> map fst m = map fst m'.
Proof. induction 1 as [|? ? ? ? [E _] _ IH]; [reflexivity|]. cbn [map]. congruence. Qed.

Lemma Forall2_in_r {A C} (R : A -> C -> Prop) l l' c : Forall2 R l l' -> In c l' -> exists a, In a l /\ R a c.
Proof. induction 1 as [|x y l l' Hxy HF IH]; intros Hin; [contradiction|]. destruct Hin as [<- | Hin]; [exists x; auto with datatypes|]. destruct (IH Hin) as (a & Ha & Hr). exists a. auto with datatypes. Qed.

Lemma map_of_ipld_parsed {A} X n (f : ipld -> option A) i m : parsed X n i -> map_of_ipld f i = Some m ->
  exists n', n = S n' /\ msorted m /\ forall k a, In (k, a) m -> utf8_valid k = true /\ exists j, parsed X n' j /\ f j = Some a.
Proof.
  intros Hp Hm. destruct i as [| | | | | | |mi|]; try discriminate. inversion Hp as [| | | | | | |n' ? Hs Hf|]; subst.
  apply map_of_ipld_forall2 in Hm. exists n'. split; [reflexivity|]. split.
  - eapply msorted_keys; [exact (Forall2_keys (fun i a => f i = Some a) _ _ Hm) | exact Hs].
  - intros k a Hin. destruct (Forall2_in_r _ _ _ _ Hm Hin) as ([k' j] & Hj & Hk & Hfj). cbn [fst snd] in *. subst k'.
    rewrite Forall_forall in Hf. destruct (Hf _ Hj) as [Hu Hpj]. split; [exact Hu | exists j; auto].
Qed.

Lemma list_of_ipld_parsed {A} X n (f : ipld -> option A) i l : parsed X n i -> list_of_ipld f i = Some l ->
  exists n', n = S n' /\ forall a, In a l -> exists j, parsed X n' j /\ f j = Some a.
Proof.
  intros Hp Hm. destruct i as [| | | | | |li| |]; try discriminate. inversion Hp as [| | | | | |n' ? Hf| |]; subst.
  cbn [list_of_ipld] in Hm. apply traverse_forall2 in Hm. exists n'. split; [reflexivity|].
  intros a Hin. destruct (Forall2_in_r _ _ _ _ Hm Hin) as (j & Hj & Hfj). rewrite Forall_forall in Hf. eauto.
Qed.

Lemma value_of_int_ok X n z v : value_of_int X z = Some v -> carried X n v.
Proof.
  unfold value_of_int. destruct (x_value_i128 X) eqn:Ex; [|discriminate].
  destruct ((0 <=? z) && (z <=? Z.of_N u64_max))%Z eqn:E.
  - intros [= <-]. constructor; [unfold u64_max in E; lia | exact Ex].
  - destruct ((-9223372036854775808 <=? z) && (z <? 0))%Z eqn:E'; [|discriminate].
    intros [= <-]. constructor; [lia | exact Ex].
Qed.

Lemma parsed_carried X i : floats_survive X -> forall n v, parsed X n i -> value_of_ipld X i = Some v -> unreserved v -> carried X n v.
Proof.
  intros HF. induction i as [|b|z|f|s|s|l IH|m IH|c] using ipld_induction; intros n v Hp Hv Hu; try discriminate.
  - injection Hv as <-. constructor.
  - injection Hv as <-. constructor.
  - eapply value_of_int_ok, Hv.
  - inversion Hp as [| | |? t ? Ht| | | | |]; subst. apply HF in Ht. pose proof Ht as [Hfin _]. cbn [value_of_ipld] in Hv.
    destruct f; try contradiction; injection Hv as <-; constructor; exact Ht.
  - injection Hv as <-. inversion Hp; subst. constructor. assumption.
  - rewrite value_of_list, <- value_list_of_traverse in Hv. destruct (list_of_ipld (value_of_ipld X) (IList l)) as [vs|] eqn:E; [|discriminate].
    injection Hv as <-. inversion Hp as [| | | | | |n' ? Hf| |]; subst. inversion Hu as [| | | |? Hus|]; subst. constructor.
    cbn [list_of_ipld] in E. apply traverse_forall2 in E. rewrite Forall_forall in *. intros v Hin.
    destruct (Forall2_in_r _ _ _ _ E Hin) as (j & Hj & Hjv). apply (IH j Hj); auto.
  - rewrite value_of_map, <- value_map_of_traverse in Hv. destruct (map_of_ipld (value_of_ipld X) (IMap m)) as [vs|] eqn:E; [|discriminate].
    injection Hv as <-. inversion Hp as [| | | | | | |n' ? Hs Hf|]; subst. inversion Hu as [| | | | |? Hr Hus]; subst.
    apply map_of_ipld_forall2 in E. constructor.
    + apply keys_increasing_msorted. eapply msorted_keys; [exact (Forall2_keys (fun i a => value_of_ipld X i = Some a) _ _ E) | exact Hs].
    + rewrite Forall_forall in *. intros [k v] Hin. destruct (Forall2_in_r _ _ _ _ E Hin) as ([k' j] & Hj & Hk & Hjv). cbn [fst snd] in *. subst k'.
      destruct (Hf _ Hj) as [Hku Hpj]. split; [exact Hku|]. apply (IH _ Hj); auto. apply (Hus _ Hin).
    + exact Hr.
Qed.

Lemma req_parsed {A} X n k (f : ipld -> option A) m a : Forall (fun kv => utf8_valid (fst kv) = true /\ parsed X n (snd kv)) m ->
  req k f m = Some a -> exists j, parsed X n j /\ f j = Some a.
Proof.
  intros Hm. unfold req. destruct (mget k m) as [i|] eqn:E; [|discriminate]. intros Hf. apply mget_in in E.
  rewrite Forall_forall in Hm. destruct (Hm _ E) as [_ Hp]. eauto.
Qed.

Lemma opt_parsed {A} X n k (f : ipld -> option A) m o : Forall (fun kv => utf8_valid (fst kv) = true /\ parsed X n (snd kv)) m ->
  opt k f m = Some o -> opt_all (fun a => exists j, parsed X n j /\ f j = Some a) o.
Proof.
  intros Hm Ho a ->. unfold opt in Ho. destruct (mget k m) as [i|] eqn:E; [|discriminate]. apply mget_in in E.
  rewrite Forall_forall in Hm. destruct (Hm _ E) as [_ Hp]. cbn [snd] in Hp. exists i. split; [exact Hp|].
  destruct i; try discriminate; (destruct (f _); [injection Ho as <-; reflexivity | discriminate]).
Qed.

Lemma str_of_ipld_parsed X n j s : parsed X n j -> str_of_ipld j = Some s -> utf8_valid s = true.
Proof. intros Hp Hs. destruct j; try discriminate. injection Hs as <-. inversion Hp; subst. assumption. Qed.

Lemma u64_of_ipld_bound j n : u64_of_ipld j = Some n -> (n <= 18446744073709551615)%N.
Proof.
  destruct j; try discriminate. cbn [u64_of_ipld]. destruct (_ && _) eqn:E; [|discriminate]. intros [= <-]. unfold u64_max in E. lia.
Qed.

Lemma header_of_json_sound X s h : header_of_json X s = Some h -> utf8_valid (h_alg h) = true /\ utf8_valid (h_typ h) = true.
Proof.
  unfold header_of_json. destruct (dagjson_decode X s) as [i|] eqn:E; [|discriminate]. apply dagjson_decode_sound in E.
  destruct i as [| | | | | | |m|]; try discriminate. cbn [header_of_ipld].
  inversion E as [| | | | | | |n' ? Hs Hf|]; subst.
  destruct (req (B "alg") str_of_ipld m) eqn:E1; [|discriminate]. destruct (req (B "typ") str_of_ipld m) eqn:E2; [|discriminate].
  intros [= <-]. cbn. apply (req_parsed X _ _ _ _ _ Hf) in E1 as (j1 & Hp1 & Hj1). apply (req_parsed X _ _ _ _ _ Hf) in E2 as (j2 & Hp2 & Hj2).
  split; [exact (str_of_ipld_parsed _ _ _ _ Hp1 Hj1) | exact (str_of_ipld_parsed _ _ _ _ Hp2 Hj2)].
Qed.

Lemma payload_of_json_sound X s p : floats_survive X -> payload_of_json X s = Some p -> payload_unreserved p -> payload_carried X p.
Proof.
  intros HF. unfold payload_of_json. destruct (dagjson_decode X s) as [i|] eqn:E; [|discriminate]. apply dagjson_decode_sound in E.
  destruct i as [| | | | | | |m|]; try discriminate. cbn [payload_of_ipld].
  inversion E as [| | | | | | |n' ? Hs Hf|]; subst. clear E Hs.
  destruct (req (B "ucv") str_of_ipld m) as [ucv|] eqn:E1; [|discriminate].
  destruct (req (B "iss") str_of_ipld m) as [iss|] eqn:E2; [|discriminate].
  destruct (req (B "aud") str_of_ipld m) as [aud|] eqn:E3; [|discriminate].
  destruct (opt (B "exp") u64_of_ipld m) as [exp|] eqn:E4; [|discriminate].
  destruct (opt (B "nbf") u64_of_ipld m) as [nbf|] eqn:E5; [|discriminate].
  destruct (opt (B "nnc") str_of_ipld m) as [nnc|] eqn:E6; [|discriminate].
  destruct (req (B "cap") (caps_of_ipld X) m) as [cap|] eqn:E7; [|discriminate].
  destruct (opt (B "fct") (map_of_ipld (value_of_ipld X)) m) as [fct|] eqn:E8; [|discriminate].
  destruct (opt (B "prf") (list_of_ipld str_of_ipld) m) as [prf|] eqn:E9; [|discriminate].
  intros [= <-] [Huc Huf].
  assert (forall k a, req k str_of_ipld m = Some a -> utf8_valid a = true) as Hstr.
  { intros k a Hr. apply (req_parsed X _ _ _ _ _ Hf) in Hr as (j & Hp & Hj). exact (str_of_ipld_parsed _ _ _ _ Hp Hj). }
  constructor; cbn [p_ucv p_iss p_aud p_exp p_nbf p_nnc p_cap p_fct p_prf] in *.
  - eapply Hstr, E1.
  - eapply Hstr, E2.
  - eapply Hstr, E3.
  - intros n ->. destruct (opt_parsed X _ _ _ _ _ Hf E4 n eq_refl) as (j & _ & Hj). eapply u64_of_ipld_bound, Hj.
  - intros n ->. destruct (opt_parsed X _ _ _ _ _ Hf E5 n eq_refl) as (j & _ & Hj). eapply u64_of_ipld_bound, Hj.
  - intros n ->. destruct (opt_parsed X _ _ _ _ _ Hf E6 n eq_refl) as (j & Hp & Hj). exact (str_of_ipld_parsed _ _ _ _ Hp Hj).
  - apply (req_parsed X _ _ _ _ _ Hf) in E7 as (j & Hp & Hj). unfold caps_of_ipld in Hj.
    apply (map_of_ipld_parsed X _ _ _ _ Hp) in Hj as (n1 & En1 & Hs1 & Hm1). split; [apply keys_increasing_msorted, Hs1|].
    apply Forall_forall. intros [r abs] Hr. cbn [fst snd]. destruct (Hm1 r abs Hr) as (Hu1 & j1 & Hp1 & Hj1). split; [exact Hu1|].
    apply (map_of_ipld_parsed X _ _ _ _ Hp1) in Hj1 as (n2 & En2 & Hs2 & Hm2). split; [apply keys_increasing_msorted, Hs2|].
    apply Forall_forall. intros [a vs] Ha. cbn [fst snd]. destruct (Hm2 a vs Ha) as (Hu2 & j2 & Hp2 & Hj2). split; [exact Hu2|].
    apply (list_of_ipld_parsed X _ _ _ _ Hp2) in Hj2 as (n3 & En3 & Hm3). apply Forall_forall. intros v Hv.
    destruct (Hm3 v Hv) as (j3 & Hp3 & Hj3). assert (n3 = 123) as -> by lia.
    eapply parsed_carried; [exact HF | exact Hp3 | exact Hj3|]. specialize (Huc r abs a vs Hr Ha). rewrite Forall_forall in Huc. apply Huc, Hv.
  - intros f ->. destruct (opt_parsed X _ _ _ _ _ Hf E8 f eq_refl) as (j & Hp & Hj).
    destruct j as [| | | | | | |mj|]; try discriminate. apply (parsed_carried X (IMap mj)); [exact HF | exact Hp | | apply Huf; reflexivity].
    rewrite value_of_map, <- value_map_of_traverse, Hj. reflexivity.
  - intros l ->. destruct (opt_parsed X _ _ _ _ _ Hf E9 l eq_refl) as (j & Hp & Hj).
    apply (list_of_ipld_parsed X _ _ _ _ Hp) in Hj as (n1 & _ & Hm1). apply Forall_forall. intros t Ht.
    destruct (Hm1 t Ht) as (j1 & Hp1 & Hj1). exact (str_of_ipld_parsed _ _ _ _ Hp1 Hj1).
Qed.

Lemma parse_token_carried X t u : floats_survive X -> parse_token X t = Ok u -> payload_unreserved (u_payload u) -> ucan_carried X u.
Proof.
  intros HF Hp Hu. apply parse_token_iff in Hp as (h64 & p64 & s64 & more & hj & pj & _ & _ & Hh & _ & Hpl & _ & _).
  apply header_of_json_sound in Hh as [Ha Ht]. split; [exact Ha|]. split; [exact Ht|]. eapply payload_of_json_sound; eassumption.
Qed.

(** C21 *)
Lemma reencode_preserves X t u : floats_survive X -> parse_token X t = Ok u -> payload_unreserved (u_payload u) ->
  exists u', parse_token X (encode X u) = Ok u' /\ content u' = content u /\ encode X u' = encode X u.
Proof.
  intros HF Hp Hu. apply (parse_token_carried X t u HF Hp) in Hu. apply token_roundtrip in Hu.
  eexists. split; [exact Hu|]. split; reflexivity.
Qed.
