(** Facts about the in-memory store (C36, C40-C44). *)
From Verif Require Export ChainFacts CidFacts BaseNFacts Builder.

Lemma hget_hinsert c b s c' : hget c' (hinsert c b s) = if cid_eqb c' c then Some b else hget c' s.
Proof.
  induction s as [|[d x] s IH]; simpl; [reflexivity|].
  destruct (cid_eqb c d) eqn:E.
  - apply cid_eqb_eq in E as ->. simpl. destruct (cid_eqb c' d); reflexivity.
  - simpl. rewrite IH. destruct (cid_eqb c' d) eqn:E'; [|reflexivity].
    apply cid_eqb_eq in E' as ->. destruct (cid_eqb d c) eqn:E2; [|reflexivity].
    apply cid_eqb_eq in E2 as ->. rewrite cid_eqb_refl in E. discriminate.
Qed.

Lemma cid_dec (a b : cid) : {a = b} + {a <> b}.
Proof.
  destruct (cid_eqb a b) eqn:E; [left; apply cid_eqb_eq, E|].
  right. intros ->. rewrite cid_eqb_refl in E. discriminate.
Qed.

(** The value under [c] is the last block with that CID written. *)
Fixpoint last_written (X : ext) (c : cid) (ops : list store_op) (d : option bytes) : option bytes :=
  match ops with
  | [] => d
  | SWrite (IBytes b) :: ops' => last_written X c ops' (if cid_eqb c (block_cid X b) then Some b else d)
  | _ :: ops' => last_written X c ops' d
  end.

Lemma store_run_get X c ops : forall s, hget c (snd (store_run X s ops)) = last_written X c ops (hget c s).
Proof.
  induction ops as [|o ops IH]; intros s; [reflexivity|].
  cbn [store_run last_written]. destruct o as [i|c'].
  - cbn [store_step]. unfold mem_write. destruct i; cbn [raw_encode];
      try (specialize (IH s); destruct (store_run X s ops); exact IH).
    match goal with |- context [hinsert ?a ?b s] => specialize (IH (hinsert a b s));
      rewrite hget_hinsert in IH; destruct (store_run X (hinsert a b s) ops); exact IH end.
  - cbn [store_step]. specialize (IH s). destruct (store_run X s ops); exact IH.
Qed.

Lemma last_written_some X c ops d b : last_written X c ops d = Some b ->
  d = Some b \/ written ops b /\ block_cid X b = c.
Proof.
  revert d. induction ops as [|o ops IH]; intros d Hl; [left; exact Hl|].
  cbn [last_written] in Hl.
  assert (forall d', last_written X c ops d' = Some b -> d' = d -> d = Some b \/ written (o :: ops) b /\ block_cid X b = c) as Hk.
  { intros d' Hd ->. destruct (IH _ Hd) as [Hb | [Hw Hc]]; [left; exact Hb | right; split; [right; exact Hw | exact Hc]]. }
  destruct o as [i|c']; [|eapply Hk; eauto].
  destruct i as [| | | | |b'| | |]; try (eapply Hk; eauto; fail).
  destruct (cid_eqb c (block_cid X b')) eqn:E; [|eapply Hk; eauto].
  destruct (IH _ Hl) as [[= ->] | [Hw Hc]].
  - right. split; [left; reflexivity|]. apply cid_eqb_eq in E. auto.
  - right. split; [right; exact Hw | exact Hc].
Qed.

Lemma last_written_in X c ops : forall d b, written ops b -> block_cid X b = c ->
  exists b', last_written X c ops d = Some b' /\ written ops b' /\ block_cid X b' = c.
Proof.
  induction ops as [|o ops IH] using rev_ind; intros d b Hw Hc; [destruct Hw|].
  assert (forall l d, last_written X c (l ++ [o]) d =
    match o with
    | SWrite (IBytes b) => if cid_eqb c (block_cid X b) then Some b else last_written X c l d
    | _ => last_written X c l d
    end) as Hs.
  { intros l. induction l as [|[i|c'] l IHl]; intros d0.
    - destruct o as [[]|]; reflexivity.
    - cbn [last_written app]. destruct i; apply IHl.
    - cbn [last_written app]. apply IHl. }
  rewrite Hs. unfold written in *.
  assert (In (SWrite (IBytes b)) ops -> exists b', last_written X c ops d = Some b' /\ In (SWrite (IBytes b')) (ops ++ [o]) /\ block_cid X b' = c) as Hold.
  { intros Hin. destruct (IH d b Hin Hc) as (b' & H1 & H2 & H3). exists b'. split; [exact H1|]. split; [apply in_or_app; left; exact H2 | exact H3]. }
  apply in_app_or in Hw as [Hw | [-> | []]].
  - destruct o as [[| | | | |b0| | |]|c']; try (apply Hold, Hw).
    destruct (cid_eqb c (block_cid X b0)) eqn:E; [|apply Hold, Hw].
    exists b0. split; [reflexivity|]. split; [apply in_or_app; right; left; reflexivity | apply cid_eqb_eq in E; auto].
  - rewrite Hc, cid_eqb_refl. exists b. split; [reflexivity|]. split; [apply in_or_app; right; left; reflexivity | exact Hc].
Qed.

Lemma block_cid_inj X b b' : block_cid X b = block_cid X b' <-> x_hash X 30 b = x_hash X 30 b'.
Proof.
  unfold block_cid, cid_new_v1, blake3_256. split; [intros Hx; exact (f_equal cid_digest Hx) | intros ->; reflexivity].
Qed.

(** What a store reached from the empty one returns. *)
Lemma mem_read_content X ops c b : mem_read (snd (store_run X [] ops)) c = Ok (Some (IBytes b)) ->
  written ops b /\ block_cid X b = c.
Proof.
  unfold mem_read. rewrite store_run_get. simpl.
  destruct (last_written X c ops None) as [b'|] eqn:E; [|discriminate]. intros [= <-].
  destruct (last_written_some _ _ _ _ _ E) as [|Hw]; [discriminate | exact Hw].
Qed.

Lemma mem_read_written X ops b : collision_free X ops -> written ops b ->
  mem_read (snd (store_run X [] ops)) (block_cid X b) = Ok (Some (IBytes b)).
Proof.
  intros Hf Hw. unfold mem_read. rewrite store_run_get. simpl.
  destruct (last_written_in X (block_cid X b) ops None b Hw eq_refl) as (b' & -> & Hw' & Hc).
  apply block_cid_inj in Hc. rewrite (Hf b' b Hw' Hw Hc). reflexivity.
Qed.

Lemma mem_read_absent X ops c : (forall b, written ops b -> block_cid X b <> c) ->
  mem_read (snd (store_run X [] ops)) c = Ok None.
Proof.
  intros Hn. unfold mem_read. rewrite store_run_get. simpl.
  destruct (last_written X c ops None) as [b|] eqn:E; [|reflexivity].
  destruct (last_written_some _ _ _ _ _ E) as [|[Hw Hc]]; [discriminate|]. exfalso. eapply Hn; eassumption.
Qed.

(** The [i]-th outcome is that of the [i]-th operation in the state after the earlier ones. *)
Lemma store_run_nth X ops : forall s i o r, nth_error ops i = Some o ->
  (nth_error (fst (store_run X s ops)) i = Some r <-> r = fst (store_step X (snd (store_run X s (firstn i ops))) o)).
Proof.
  induction ops as [|o' ops IH]; intros s i o r Hn; [destruct i; discriminate|].
  destruct i as [|i]; cbn [nth_error firstn store_run] in *.
  - injection Hn as ->. cbn [snd]. destruct (store_step X s o) as [x s1]. destruct (store_run X s1 ops). simpl. split; congruence.
  - destruct (store_step X s o') as [x s1]. specialize (IH s1 i o r Hn).
    destruct (store_run X s1 ops), (store_run X s1 (firstn i ops)). simpl in *. exact IH.
Qed.

Lemma in_firstn_nth {T} (l : list T) i x : In x (firstn i l) <-> exists j, (j < i)%nat /\ nth_error l j = Some x.
Proof.
  revert i. induction l as [|a l IH]; intros i.
  - rewrite firstn_nil. split; [contradiction|]. intros (j & _ & Hj). destruct j; discriminate.
  - destruct i as [|i]; cbn [firstn].
    + split; [contradiction|]. intros (j & Hj & _). lia.
    + cbn [In]. rewrite IH. split.
      * intros [-> | (j & Hj & Hn)]; [exists O; split; [lia | reflexivity] | exists (S j); split; [lia | exact Hn]].
      * intros ([|j] & Hj & Hn); cbn [nth_error] in Hn; [left; congruence | right; exists j; split; [lia | exact Hn]].
Qed.

Lemma write_outcome X ops i b r : op_at X ops i (SWrite (IBytes b)) r -> r = OWrite (Ok (block_cid X b)).
Proof. intros [Ho Hr]. apply (store_run_nth X ops [] i _ r Ho) in Hr. exact Hr. Qed.

Lemma read_outcome X ops i c r : op_at X ops i (SRead c) r ->
  r = ORead (mem_read (snd (store_run X [] (firstn i ops))) c).
Proof. intros [Ho Hr]. apply (store_run_nth X ops [] i _ r Ho) in Hr. exact Hr. Qed.

Lemma collision_free_firstn X i ops : collision_free X ops -> collision_free X (firstn i ops).
Proof.
  intros Hf b b' Hb Hb'. unfold written in *. apply Hf; unfold written.
  - rewrite <- (firstn_skipn i ops). apply in_or_app. left. exact Hb.
  - rewrite <- (firstn_skipn i ops). apply in_or_app. left. exact Hb'.
Qed.

Lemma store_read_back X ops i j b c r : collision_free X ops -> (i < j)%nat ->
  op_at X ops i (SWrite (IBytes b)) (OWrite (Ok c)) -> op_at X ops j (SRead c) r ->
  r = ORead (Ok (Some (IBytes b))).
Proof.
  intros Hf Hij Hw Hr. pose proof (write_outcome _ _ _ _ _ Hw) as Hc. injection Hc as ->.
  apply read_outcome in Hr as ->. f_equal. apply mem_read_written; [apply collision_free_firstn, Hf|].
  unfold written. apply in_firstn_nth. exists i. split; [exact Hij | apply Hw].
Qed.

Lemma store_read_absent X ops j c r :
  (forall i o, (i < j)%nat -> ~ op_at X ops i o (OWrite (Ok c))) -> op_at X ops j (SRead c) r ->
  r = ORead (Ok None).
Proof.
  intros Hn Hr. apply read_outcome in Hr as ->. f_equal. apply mem_read_absent.
  intros b Hw Hc. unfold written in Hw. apply in_firstn_nth in Hw as (i & Hi & Ho).
  apply (Hn i (SWrite (IBytes b)) Hi). split; [exact Ho|]. apply (store_run_nth X ops [] i _ _ Ho). simpl. rewrite Hc. reflexivity.
Qed.

Lemma store_write_refused X ops i x r : (forall b, x <> IBytes b) -> op_at X ops i (SWrite x) r ->
  r = OWrite (Err EStore).
Proof.
  intros Hx [Ho Hr]. apply (store_run_nth X ops [] i _ r Ho) in Hr as ->. simpl. unfold mem_write.
  destruct x; try reflexivity. exfalso. eapply Hx. reflexivity.
Qed.

(** Reads leave every later outcome as it would have been. *)
Lemma store_reads_neutral X before c after s :
  store_run X s (before ++ SRead c :: after) =
  (fst (store_run X s before) ++ ORead (mem_read (snd (store_run X s before)) c) :: fst (store_run X (snd (store_run X s before)) after),
   snd (store_run X s (before ++ after))) /\
  fst (store_run X s (before ++ after)) =
  fst (store_run X s before) ++ fst (store_run X (snd (store_run X s before)) after).
Proof.
  revert s. induction before as [|o before IH]; intros s; cbn [app store_run].
  - cbn [store_step]. simpl. destruct (store_run X s after). simpl. auto.
  - destruct (store_step X s o) as [x s1]. destruct (IH s1) as [E1 E2]. rewrite E1.
    destruct (store_run X s1 before), (store_run X s1 (before ++ after)). simpl in *. split; [reflexivity | congruence].
Qed.

(* ------------------------------------------------------------------- tokens *)

Lemma utf8_ascii s : Forall (fun c => (bN c < 128)%N) s -> utf8_valid s = true.
Proof.
  induction 1 as [|c s Hc _ IH]; [reflexivity|]. cbn [utf8_valid].
  apply N.ltb_lt in Hc. rewrite Hc. exact IH.
Qed.

Lemma b64_ascii bs : Forall (fun c => (bN c < 128)%N) (b64_encode bs).
Proof.
  apply Forall_forall. intros c Hc. apply b64_encode_in in Hc. revert c Hc.
  apply Forall_forall. apply Forall_forall. intros c Hc. 
  assert (forallb (fun c => (bN c <? 128)%N) base64url_alphabet = true) as Hall by reflexivity.
  rewrite forallb_forall in Hall. specialize (Hall c Hc). lia.
Qed.

Lemma encode_ascii X u : Forall (fun c => (bN c < 128)%N) (encode X u).
Proof.
  unfold encode, header_b64, payload_b64. repeat (apply Forall_app; split); try apply b64_ascii.
  all: constructor; [reflexivity | constructor].
Qed.

Lemma encode_utf8 X u : utf8_valid (encode X u) = true.
Proof. apply utf8_ascii, encode_ascii. Qed.

Lemma read_token_fst E c st : fst (read_token E c st) =
  if negb (cid_codec c =? 85)%N then Err ECodec
  else rbind (e_read E (v_reads st) c) token_of_read.
Proof.
  unfold read_token, raw_codec. destruct (negb _); [reflexivity|].
  unfold bind, store_read, lift. destruct (e_read E (v_reads st) c); reflexivity.
Qed.

Lemma written_token_read E X s token c st : e_ext E = X ->
  fst (mem_write_token X s token) = Ok c ->
  (forall n d, e_read E n d = mem_read (snd (mem_write_token X s token)) d) -> utf8_valid token = true ->
  fst (read_token E c st) = Ok (Some token) /\ fst (require_token E c st) = Ok token.
Proof.
  intros <- Hc Hr Hu. unfold mem_write_token, mem_write in *. simpl in Hc, Hr. injection Hc as <-.
  assert (fst (read_token E (block_cid (e_ext E) token) st) = Ok (Some token)) as Hrt.
  { rewrite read_token_fst. simpl. rewrite Hr. unfold mem_read. rewrite hget_hinsert, cid_eqb_refl. simpl. rewrite Hu. reflexivity. }
  split; [exact Hrt|]. unfold require_token, bind. destruct (read_token _ _ st) as [r s']. simpl in Hrt. subst r. reflexivity.
Qed.

Lemma token_cid X s u : fst (mem_write_token X s (encode X u)) = Ok (to_cid X 30 u).
Proof. reflexivity. Qed.

Lemma stored_token_reads X E ops token st : collision_free X ops -> written ops token -> utf8_valid token = true ->
  (forall n d, e_read E n d = mem_read (snd (store_run X [] ops)) d) ->
  fst (read_token E (block_cid X token) st) = Ok (Some token).
Proof.
  intros Hf Hw Hu Hr. rewrite read_token_fst. simpl. rewrite Hr, mem_read_written by assumption. simpl. rewrite Hu. reflexivity.
Qed.

(** A proof cited by the builder with the default hasher resolves. *)
Lemma cited_proof_resolves X E ops u pu : collision_free X ops -> e_ext E = X ->
  (forall n d, e_read E n d = mem_read (snd (store_run X [] ops)) d) ->
  written ops (encode X u) -> (length (x_hash X 30 (encode X u)) <= 64)%nat ->
  parse_token X (encode X u) = Ok pu ->
  resolves E (fun _ => True) (proof_text X u None) pu.
Proof.
  intros Hf <- Hr Hw Hl Hp. exists (to_cid (e_ext E) 30 u), O, (encode (e_ext E) u).
  split.
  - unfold proof_text. apply parse_cid_text. unfold to_cid, cid_v1, cid_new_v1, word, raw_codec, default_hasher, blake3_256. simpl.
    repeat split; try lia.
  - split; [reflexivity|]. split; [exact I|]. split; [|split; [apply encode_utf8 | exact Hp]].
    rewrite Hr. apply (mem_read_written (e_ext E) ops (encode (e_ext E) u)); assumption.
Qed.

Lemma read_token_never_none E c st : fst (read_token E c st) <> Ok None.
Proof.
  rewrite read_token_fst. destruct (negb _); [discriminate|].
  destruct (e_read E (v_reads st) c) as [[[| | | | |b| | |]|]|e|q|]; simpl; try discriminate.
  destruct (utf8_valid b); discriminate.
Qed.

Lemma read_token_absent E c st : cid_codec c = 85%N -> e_read E (v_reads st) c = Ok None ->
  fst (read_token E c st) = Err ENoUcanForCid.
Proof. intros Hc Hr. rewrite read_token_fst, Hc, Hr. reflexivity. Qed.

Lemma read_token_codec E c st : cid_codec c <> 85%N -> read_token E c st = (Err ECodec, st).
Proof. intros Hc. unfold read_token, raw_codec. apply N.eqb_neq in Hc. rewrite Hc. reflexivity. Qed.

Lemma read_token_ok_iff E c st token : fst (read_token E c st) = Ok (Some token) <->
  cid_codec c = 85%N /\ e_read E (v_reads st) c = Ok (Some (IBytes token)) /\ utf8_valid token = true.
Proof.
  rewrite read_token_fst. destruct (N.eqb_spec (cid_codec c) 85) as [Ec|Ec]; simpl.
  - destruct (e_read E (v_reads st) c) as [[[| | | | |b| | |]|]|e|q|]; simpl;
      try (split; [discriminate | intros (_ & Hx & _); discriminate]).
    destruct (utf8_valid b) eqn:Eu; split; try discriminate.
    + intros [= <-]. auto.
    + intros (_ & [= ->] & _). reflexivity.
    + intros (_ & [= ->] & Hx). congruence.
  - split; [discriminate | intros (Hx & _); contradiction].
Qed.

Lemma memory_token_cid E n c token : memory_backed E -> e_read E n c = Ok (Some (IBytes token)) ->
  c = block_cid (e_ext E) token.
Proof. intros Hm Hr. destruct (Hm n) as [ops Ho]. rewrite Ho in Hr. apply mem_read_content in Hr as [_ Hc]. auto. Qed.

Lemma other_hash_never_resolves E R text c pu : memory_backed E -> parse_cid (e_ext E) text = Some c ->
  cid_hash_code c <> 30%N -> ~ resolves E R text pu.
Proof.
  intros Hm Hc Hh (cd & n & token & H1 & _ & _ & H4 & _). rewrite Hc in H1. injection H1 as <-.
  apply (memory_token_cid E n c token Hm) in H4. apply Hh. rewrite H4. reflexivity.
Qed.

Lemma other_hash_rejected E slice nt fuel u st text c d : memory_backed E -> with_parser slice st ->
  In text (cited u) -> parse_cid (e_ext E) text = Some c -> cid_hash_code c <> 30%N ->
  fst (from_ucan E nt fuel u st) <> Ok d.
Proof.
  intros Hm Hp Hin Hc Hh Hok. destruct (from_ucan E nt fuel u st) as [r st'] eqn:Er. simpl in Hok. subst r.
  pose proof (from_ucan_root _ _ _ _ _ _ _ Er) as Hu.
  apply (from_ucan_sound E nt slice) with (T := fun _ => True) (R := fun _ => True) in Er; auto.
  inversion Er as [u' ps red _ Hf _ _ _]; subst. simpl in *.
  assert (exists pc, resolves E (fun _ => True) text (c_ucan pc)) as [pc Hr].
  { clear - Hf Hin. induction Hf as [|a b l l' Hab _ IH]; [contradiction|].
    destruct Hin as [-> | Hin]; [exists b; exact Hab | apply IH, Hin]. }
  eapply other_hash_never_resolves; eassumption.
Qed.

Lemma builder_other_hash X h a : word h -> (length (x_hash X h (encode X a)) <= 64)%nat ->
  exists c, parse_cid X (proof_text X a (Some h)) = Some c /\ cid_hash_code c = h.
Proof.
  intros Hw Hl. exists (to_cid X h a). split; [|reflexivity]. unfold proof_text. apply parse_cid_text.
  unfold to_cid, cid_v1, cid_new_v1, raw_codec. simpl. split; [reflexivity|]. split; [unfold word; lia|]. auto.
Qed.

Lemma memory_resolves E R text pu : memory_backed E -> resolves E R text pu ->
  exists token, parse_cid (e_ext E) text = Some (cid_new_v1 85 30 (x_hash (e_ext E) 30 token)) /\
                parse_token (e_ext E) token = Ok pu.
Proof.
  intros Hm (c & n & token & Hc & _ & _ & Hr & _ & Hp). exists token. split; [|exact Hp].
  rewrite Hc, (memory_token_cid E n c token Hm Hr). reflexivity.
Qed.
