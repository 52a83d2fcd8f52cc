(** Facts about the serialised IPLD data of UCANs (C87-C93). *)
From Coq Require Import Floats.SpecFloat.
From Verif Require Import Prelude Ord SMap Value Cid Ext Json Capability Key Ucan Ipld IpldSerde Spec SpecIpld SpecIpldSerde
  OrdFacts SMapFacts ValueFacts JsonFacts TokenFacts SignFacts IpldFacts Url Semantics Chain SpecSecurity ChainFacts ReduceFacts SecurityFacts.

(* ------------------------------------------------------------ lists and maps *)

Lemma Forall2_iff {A C} (R S : A -> C -> Prop) l l' : (forall a c, In a l -> R a c <-> S a c) -> Forall2 R l l' <-> Forall2 S l l'.
Proof.
  intros HRS. split; intros HF; induction HF; constructor; try (apply HRS; [left; reflexivity | assumption]);
    apply IHHF; intros; apply HRS; right; assumption.
Qed.

Lemma Forall2_map_l {A C} (g : A -> C) l : Forall2 (fun c a => c = g a) (map g l) l.
Proof. induction l; constructor; auto. Qed.

Lemma Forall2_eq_map {A C} (g : A -> C) l l' : Forall2 (fun c a => c = g a) l' l <-> l' = map g l.
Proof.
  split; [|intros ->; apply Forall2_map_l]. induction 1 as [|? ? ? ? E _ IH]; [reflexivity|]. cbn [map]. congruence.
Qed.

Lemma list_of_ipld_iff {A} (f : ipld -> option A) R d l : (forall x a, f x = Some a <-> R x a) ->
  list_of_ipld f d = Some l <-> list_data R d l.
Proof.
  intros HR. unfold list_data. destruct d as [| | | | | |ds| |]; cbn [list_of_ipld];
    try (split; [discriminate | intros (x & E & _); discriminate]).
  rewrite traverse_forall2. rewrite (Forall2_iff _ R) by (intros; apply HR). split.
  - intros HF. exists ds. auto.
  - intros (x & [= <-] & HF). exact HF.
Qed.

Lemma map_of_ipld_iff {A} (f : ipld -> option A) R d l : (forall x a, f x = Some a <-> R x a) ->
  map_of_ipld f d = Some l <-> map_data R d l.
Proof.
  intros HR. unfold map_data. destruct d as [| | | | | | |m|];
    try (split; [discriminate | intros (x & E & _); discriminate]).
  rewrite map_of_ipld_forall2. rewrite (Forall2_iff _ (fun x y => fst x = fst y /\ R (snd x) (snd y)))
    by (intros; rewrite HR; reflexivity).
  split.
  - intros HF. exists m. auto.
  - intros (x & [= <-] & HF). exact HF.
Qed.

(* -------------------------------------------------------------------- values *)

Lemma value_of_int_iff X z v : value_of_int X z = Some v <-> value_data X (IInt z) v.
Proof.
  unfold value_of_int. destruct (x_value_i128 X) eqn:EX.
  - destruct ((0 <=? z) && (z <=? Z.of_N u64_max))%Z eqn:E1.
    + assert (0 <= z <= 18446744073709551615)%Z as Hz by (unfold u64_max in E1; lia). split.
      * intros [= <-]. replace z with (Z.of_N (Z.to_N z)) at 1 by lia. constructor; [exact EX | lia].
      * inversion 1; subst; [rewrite N2Z.id; reflexivity | lia].
    + destruct ((-9223372036854775808 <=? z) && (z <? 0))%Z eqn:E2.
      * split; [intros [= <-]; constructor; [exact EX | lia] | inversion 1; subst; [unfold u64_max in E1; lia | reflexivity]].
      * split; [discriminate | inversion 1; subst; unfold u64_max in E1; lia].
  - split; [discriminate | inversion 1; congruence].
Qed.

Lemma value_list_iff X l vs : Forall (fun d => forall v, value_of_ipld X d = Some v <-> value_data X d v) l ->
  value_list_of X l = Some vs <-> Forall2 (value_data X) l vs.
Proof.
  intros IH. rewrite <- value_list_of_traverse. cbn [list_of_ipld]. rewrite traverse_forall2. apply Forall2_iff.
  intros d v Hin. rewrite Forall_forall in IH. apply IH, Hin.
Qed.

Lemma value_of_ipld_iff X d : forall v, value_of_ipld X d = Some v <-> value_data X d v.
Proof.
  induction d as [|b|z|f|s|s|l IH|m IH|c] using ipld_induction; intros v.
  - split; [intros [= <-]; constructor | inversion 1; reflexivity].
  - split; [intros [= <-]; constructor | inversion 1; reflexivity].
  - apply value_of_int_iff.
  - destruct f; (split; [intros [= <-]; constructor | inversion 1; reflexivity]).
  - split; [intros [= <-]; constructor | inversion 1; reflexivity].
  - split; [discriminate | inversion 1].
  - rewrite value_of_list. pose proof (fun vs => value_list_iff X l vs IH) as HL. split.
    + destruct (value_list_of X l) as [vs|]; [|discriminate]. intros [= <-]. constructor. apply HL. reflexivity.
    + inversion 1 as [| | | | | | | | |? vs HF|]; subst. apply HL in HF. rewrite HF. reflexivity.
  - rewrite value_of_map.
    assert (forall vs, value_map_of X m = Some vs <-> Forall2 (fun d v => fst d = fst v /\ value_data X (snd d) (snd v)) m vs) as HM.
    { intros vs. rewrite <- value_map_of_traverse. eapply iff_trans; [apply map_of_ipld_forall2|]. apply Forall2_iff. intros d w Hin.
      rewrite Forall_forall in IH. rewrite (IH _ Hin). reflexivity. }
    split.
    + destruct (value_map_of X m) as [vs|]; [|discriminate]. intros [= <-]. constructor. apply HM. reflexivity.
    + inversion 1 as [| | | | | | | | | |? vs HF]; subst. apply HM in HF. rewrite HF. reflexivity.
  - split; [discriminate | inversion 1].
Qed.

Lemma Forall2_same {A C} (R : C -> A -> Prop) (g : A -> C) l : Forall (fun a => R (g a) a) l -> Forall2 R (map g l) l.
Proof. induction 1; constructor; auto. Qed.

Lemma Forall2_same_inv {A C} (R : C -> A -> Prop) (g : A -> C) l : Forall2 R (map g l) l -> Forall (fun a => R (g a) a) l.
Proof. induction l; inversion 1; subst; constructor; auto. Qed.

(** A value is read back unless it holds an integer and integers are refused. *)
Lemma value_data_of X v : json_ok v -> value_data X (ipld_of_value v) v <-> x_value_i128 X = true \/ integer_free v.
Proof.
  induction v as [|b|n|s|l IH|m IH] using value_induction; intros Hok; cbn [ipld_of_value].
  - split; [right; constructor | constructor].
  - split; [right; constructor | constructor].
  - inversion Hok as [| |? Hn| | |]; subst. destruct n as [n|z|f]; cbn [number_ok] in Hn.
    + split; [inversion 1; auto | intros [E | HI]; [constructor; [exact E | lia] | inversion HI]].
    + split; [inversion 1; auto | intros [E | HI]; [constructor; [exact E | lia] | inversion HI]].
    + split; [right; constructor|]. intros _. destruct f; try contradiction; constructor.
  - split; [right; constructor | constructor].
  - inversion Hok as [| | | |? Hl|]; subst. rewrite Forall_forall in *. split.
    + intros HV. destruct (x_value_i128 X) eqn:EX; [left; reflexivity|]. right. constructor. rewrite Forall_forall. intros v Hin.
      inversion HV as [| | | | | | | | |? ? HF|]; subst. apply Forall2_same_inv in HF. rewrite Forall_forall in HF.
      destruct (proj1 (IH v Hin (Hl v Hin)) (HF v Hin)) as [E | E]; [discriminate | exact E].
    + intros HI. constructor. apply Forall2_same. rewrite Forall_forall. intros v Hin. apply IH; auto.
      destruct HI as [E | HI]; [left; exact E | right]. inversion HI as [| | | |? HF|]; subst. rewrite Forall_forall in HF. auto.
  - inversion Hok as [| | | | |? Hm]; subst. apply object_ok_inv in Hm as [_ Hm]. rewrite Forall_forall in *. split.
    + intros HV. destruct (x_value_i128 X) eqn:EX; [left; reflexivity|]. right. constructor. rewrite Forall_forall. intros [k v] Hin.
      inversion HV as [| | | | | | | | | |? ? HF]; subst. apply (Forall2_same_inv _ (fun kv : bytes * value => (fst kv, ipld_of_value (snd kv)))) in HF.
      rewrite Forall_forall in HF. destruct (Hm k v Hin) as [_ Hv].
      destruct (proj1 (IH (k, v) Hin Hv) (proj2 (HF (k, v) Hin))) as [E | E]; [discriminate | exact E].
    + intros HI. constructor. apply (Forall2_same _ (fun kv : bytes * value => (fst kv, ipld_of_value (snd kv)))).
      rewrite Forall_forall. intros [k v] Hin. destruct (Hm k v Hin) as [_ Hv]. cbn [fst snd]. split; [reflexivity|].
      apply (IH (k, v) Hin Hv). destruct HI as [E | HI]; [left; exact E | right].
      inversion HI as [| | | | |? HF]; subst. rewrite Forall_forall in HF. apply (HF _ Hin).
Qed.

(** What was read is read again. *)
Lemma value_data_again X d : forall v, value_data X d v -> value_data X (ipld_of_value v) v.
Proof.
  induction d as [|b|z|f|s|s|l IH|m IH|c] using ipld_induction; intros v HV; inversion HV; subst; cbn [ipld_of_value]; try constructor; try assumption.
  - match goal with HF : Forall2 _ _ _ |- _ => rename HF into HF0 end. apply Forall2_same. rewrite Forall_forall in *.
    intros v Hin. destruct (Forall2_in_r _ _ _ _ HF0 Hin) as (d & Hd & Hdv). apply (IH d Hd), Hdv.
  - match goal with HF : Forall2 _ _ _ |- _ => rename HF into HF0 end.
    apply (Forall2_same _ (fun kv : bytes * value => (fst kv, ipld_of_value (snd kv)))). rewrite Forall_forall in *.
    intros [k v] Hin. destruct (Forall2_in_r _ _ _ _ HF0 Hin) as (d & Hd & _ & Hdv). split; [reflexivity|]. apply (IH d Hd), Hdv.
Qed.

(* ------------------------------------------------------- capabilities and facts *)

Lemma caps_of_ipld_iff X d c : caps_of_ipld X d = Some c <-> caps_data X d c.
Proof.
  apply map_of_ipld_iff. intros. apply map_of_ipld_iff. intros. apply list_of_ipld_iff. intros. apply value_of_ipld_iff.
Qed.

Lemma facts_of_ipld_iff X d f : map_of_ipld (value_of_ipld X) d = Some f <-> map_data (value_data X) d f.
Proof. apply map_of_ipld_iff. intros. apply value_of_ipld_iff. Qed.

Lemma map_data_map {A} (R : ipld -> A -> Prop) (g : A -> ipld) l :
  map_data R (IMap (map (fun kv => (fst kv, g (snd kv))) l)) l <-> Forall (fun kv => R (g (snd kv)) (snd kv)) l.
Proof.
  unfold map_data. split.
  - intros (m & [= <-] & HF). apply (Forall2_same_inv _ (fun kv : bytes * A => (fst kv, g (snd kv)))) in HF.
    rewrite Forall_forall in *. intros kv Hin. apply (HF kv Hin).
  - intros HF. eexists. split; [reflexivity|]. apply (Forall2_same _ (fun kv : bytes * A => (fst kv, g (snd kv)))).
    rewrite Forall_forall in *. intros kv Hin. split; [reflexivity | apply (HF kv Hin)].
Qed.

Lemma list_data_map {A} (R : ipld -> A -> Prop) (g : A -> ipld) l :
  list_data R (IList (map g l)) l <-> Forall (fun a => R (g a) a) l.
Proof.
  unfold list_data. split.
  - intros (m & [= <-] & HF). apply Forall2_same_inv in HF. exact HF.
  - intros HF. eexists. split; [reflexivity|]. apply Forall2_same, HF.
Qed.

Lemma caps_data_of X c : caps_data X (ipld_of_caps c) c <-> forall v, caveat_in v c -> value_data X (ipld_of_value v) v.
Proof.
  unfold caps_data, ipld_of_caps, caveat_in.
  rewrite (map_data_map _ (fun abs => IMap (map (fun av => (fst av, IList (map ipld_of_value (snd av)))) abs))), Forall_forall. split.
  - intros HF v (r & abs & a & vs & Hr & Ha & Hv). specialize (HF _ Hr). cbn [snd] in HF.
    apply (map_data_map _ (fun vs => IList (map ipld_of_value vs))) in HF. rewrite Forall_forall in HF. specialize (HF _ Ha). cbn [snd] in HF.
    apply list_data_map in HF. rewrite Forall_forall in HF. apply HF, Hv.
  - intros HV [r abs] Hr. cbn [snd]. apply (map_data_map _ (fun vs => IList (map ipld_of_value vs))). rewrite Forall_forall.
    intros [a vs] Ha. cbn [snd]. apply list_data_map. rewrite Forall_forall. intros v Hv. apply HV. exists r, abs, a, vs. auto.
Qed.

Lemma facts_data_of X f : map_data (value_data X) (ipld_of_facts f) f <-> forall v, fact_in v (Some f) -> value_data X (ipld_of_value v) v.
Proof.
  unfold ipld_of_facts, fact_in. rewrite (map_data_map _ ipld_of_value), Forall_forall. split.
  - intros HF v (m & k & [= <-] & Hin). apply (HF _ Hin).
  - intros HV [k v] Hin. apply HV. exists f, k. auto.
Qed.

Lemma caveat_ok v c : caps_ok c -> caveat_in v c -> json_ok v.
Proof.
  intros [_ Hc] (r & abs & a & vs & Hr & Ha & Hv). rewrite Forall_forall in Hc. destruct (Hc _ Hr) as (_ & _ & Hc'). cbn [snd] in Hc'.
  rewrite Forall_forall in Hc'. destruct (Hc' _ Ha) as [_ Hc'']. cbn [snd] in Hc''. rewrite Forall_forall in Hc''. apply Hc'', Hv.
Qed.

Lemma fact_ok v f : opt_all object_ok f -> fact_in v f -> json_ok v.
Proof. intros Hf (m & k & E & Hin). apply Hf, object_ok_inv in E as [_ E]. apply (E _ _ Hin). Qed.

Lemma caps_data_again X d c : caps_data X d c -> caps_data X (ipld_of_caps c) c.
Proof.
  intros (m & -> & HF). apply caps_data_of. intros v (r & abs & a & vs & Hr & Ha & Hv).
  destruct (Forall2_in_r _ _ _ _ HF Hr) as (d1 & _ & _ & m1 & _ & HF1). cbn [snd] in HF1.
  destruct (Forall2_in_r _ _ _ _ HF1 Ha) as (d2 & _ & _ & l2 & _ & HF2). cbn [snd] in HF2.
  destruct (Forall2_in_r _ _ _ _ HF2 Hv) as (d3 & _ & Hd3). eapply value_data_again, Hd3.
Qed.

Lemma facts_data_again X d f : map_data (value_data X) d f -> map_data (value_data X) (ipld_of_facts f) f.
Proof.
  intros (m & -> & HF). apply facts_data_of. intros v (f' & k & [= <-] & Hin).
  destruct (Forall2_in_r _ _ _ _ HF Hin) as (d1 & _ & _ & Hd1). eapply value_data_again, Hd1.
Qed.

(* ------------------------------------------------------------- scalar fields *)

Lemma ipld_of_vec_int_list b : ipld_of_vec b = int_list b.
Proof. reflexivity. Qed.

Lemma u8_of_ipld_iff d c : u8_of_ipld d = Some c <-> d = IInt (Z.of_N (bN c)).
Proof.
  destruct d as [| |z| | | | | |]; try (split; discriminate). cbn [u8_of_ipld].
  pose proof (bN_bound c) as Hc.
  destruct ((0 <=? z) && (z <=? 255))%Z eqn:E.
  - split; [intros [= <-]; rewrite bN_byteN_small by lia; f_equal; lia |]. intros [= ->]. rewrite N2Z.id. rewrite byteN_bN. reflexivity.
  - split; [discriminate|]. intros [= ->]. lia.
Qed.

Lemma vec_of_ipld_iff d b : vec_of_ipld d = Some b <-> d = int_list b.
Proof.
  unfold vec_of_ipld, int_list. rewrite (list_of_ipld_iff _ (fun d c => d = IInt (Z.of_N (bN c)))) by apply u8_of_ipld_iff.
  unfold list_data. setoid_rewrite Forall2_eq_map. split; [intros (l & -> & ->); reflexivity | intros ->; eauto].
Qed.

Lemma str_of_ipld_iff d s : str_of_ipld d = Some s <-> d = IStr s.
Proof. destruct d; cbn; (split; [intros; try discriminate; congruence | congruence]). Qed.

Lemma links_of_ipld_iff d l : list_of_ipld cid_of_ipld d = Some l <-> d = IList (map ILink l).
Proof.
  rewrite (list_of_ipld_iff _ (fun d c => d = ILink c)).
  - unfold list_data. setoid_rewrite Forall2_eq_map. split; [intros (l' & -> & ->); reflexivity | intros ->; eauto].
  - intros x c. destruct x; cbn; (split; [intros; try discriminate; congruence | congruence]).
Qed.

Lemma u64_of_ipld_iff d n : u64_of_ipld d = Some n <-> u64_data d n.
Proof.
  unfold u64_data. destruct d as [| |z| | | | | |]; try (split; [discriminate | intros [E _]; discriminate]). cbn [u64_of_ipld].
  destruct ((0 <=? z) && (z <=? Z.of_N u64_max))%Z eqn:E; unfold u64_max in E.
  - split; [intros [= <-]; split; [f_equal; lia | lia] | intros [[= ->] _]; rewrite N2Z.id; reflexivity].
  - split; [discriminate | intros [[= ->] Hn]; lia].
Qed.

Lemma required_iff {A} k (f : ipld -> option A) R m a : msorted m -> (forall d a, f d = Some a <-> R d a) ->
  req k f m = Some a <-> required m k R a.
Proof.
  intros Hs HR. unfold req, required. split.
  - destruct (mget k m) as [d|] eqn:E; [|discriminate]. intros Hf. exists d. split; [apply mget_in, E | apply HR, Hf].
  - intros (d & Hin & Hd). rewrite (in_mget _ _ _ Hs Hin). apply HR, Hd.
Qed.

Lemma optional_iff {A} k (f : ipld -> option A) R m o : msorted m -> (forall d a, f d = Some a <-> R d a) ->
  opt k f m = Some o <-> optional m k R o.
Proof.
  intros Hs HR. unfold opt, optional. destruct (mget k m) as [d|] eqn:E.
  - assert (forall d', In (k, d') m <-> d' = d) as Hd.
    { intros d'. split; [intros Hin; apply (in_mget _ _ _ Hs) in Hin; congruence | intros ->; apply mget_in, E]. }
    destruct o as [a|].
    + split.
      * intros Hf. exists d. split; [apply Hd; reflexivity|].
        destruct d; try discriminate; (split; [discriminate|]); apply HR; (destruct (f _); [congruence | discriminate]).
      * intros (d' & Hin & Hn & Hr). apply Hd in Hin. subst d'. apply HR in Hr. rewrite Hr. destruct d; congruence.
    + split.
      * intros Hf d' Hin. apply Hd in Hin. subst d'. destruct d; try reflexivity; (destruct (f _); discriminate).
      * intros Hn. rewrite (Hn d) by (apply Hd; reflexivity). reflexivity.
  - assert (forall d', ~ In (k, d') m) as Hd by (intros d' Hin; apply (in_mget _ _ _ Hs) in Hin; congruence).
    destruct o as [a|].
    + split; [discriminate | intros (d' & Hin & _); destruct (Hd _ Hin)].
    + split; [intros _ d' Hin; destruct (Hd _ Hin) | reflexivity].
Qed.

(* --------------------------------------------------------------------- C89 *)

(** Exactly which data is read as which UCAN. *)
Lemma ucan_ipld_of_data_iff X m i : keys_increasing m -> ucan_ipld_of_data X (IMap m) = Some i <-> ucan_ipld_data X m i.
Proof.
  intros Hk. assert (msorted m) as Hs by (apply keys_increasing_msorted, Hk). cbn [ucan_ipld_of_data].
  pose proof (fun a => required_iff (B "v") _ _ m a Hs str_of_ipld_iff) as H1.
  pose proof (fun a => required_iff (B "iss") _ _ m a Hs vec_of_ipld_iff) as H2.
  pose proof (fun a => required_iff (B "aud") _ _ m a Hs vec_of_ipld_iff) as H3.
  pose proof (fun a => required_iff (B "s") _ _ m a Hs vec_of_ipld_iff) as H4.
  pose proof (fun a => required_iff (B "cap") _ _ m a Hs (caps_of_ipld_iff X)) as H5.
  pose proof (fun a => optional_iff (B "prf") _ _ m a Hs links_of_ipld_iff) as H6.
  pose proof (fun a => optional_iff (B "exp") _ _ m a Hs u64_of_ipld_iff) as H7.
  pose proof (fun a => optional_iff (B "fct") _ _ m a Hs (facts_of_ipld_iff X)) as H8.
  pose proof (fun a => optional_iff (B "nnc") _ _ m a Hs str_of_ipld_iff) as H9.
  pose proof (fun a => optional_iff (B "nbf") _ _ m a Hs u64_of_ipld_iff) as H10.
  split.
  - intros HE.
    destruct (req (B "v") str_of_ipld m) eqn:E1; [|discriminate]. destruct (req (B "iss") vec_of_ipld m) eqn:E2; [|discriminate].
    destruct (req (B "aud") vec_of_ipld m) eqn:E3; [|discriminate]. destruct (req (B "s") vec_of_ipld m) eqn:E4; [|discriminate].
    destruct (req (B "cap") (caps_of_ipld X) m) eqn:E5; [|discriminate]. destruct (opt (B "prf") (list_of_ipld cid_of_ipld) m) eqn:E6; [|discriminate].
    destruct (opt (B "exp") u64_of_ipld m) eqn:E7; [|discriminate]. destruct (opt (B "fct") (map_of_ipld (value_of_ipld X)) m) eqn:E8; [|discriminate].
    destruct (opt (B "nnc") str_of_ipld m) eqn:E9; [|discriminate]. destruct (opt (B "nbf") u64_of_ipld m) eqn:E10; [|discriminate].
    injection HE as <-. constructor; cbn [ui_v ui_iss ui_aud ui_s ui_cap ui_prf ui_exp ui_fct ui_nnc ui_nbf];
      [apply H1 | apply H2 | apply H3 | apply H4 | apply H5 | apply H6 | apply H7 | apply H8 | apply H9 | apply H10]; reflexivity.
  - intros [D1 D2 D3 D4 D5 D6 D7 D8 D9 D10].
    apply H1 in D1. apply H2 in D2. apply H3 in D3. apply H4 in D4. apply H5 in D5. apply H6 in D6. apply H7 in D7. apply H8 in D8.
    apply H9 in D9. apply H10 in D10. rewrite D1, D2, D3, D4, D5, D6, D7, D8, D9, D10. destruct i; reflexivity.
Qed.

Lemma ucan_ipld_of_data_map X d i : ucan_ipld_of_data X d = Some i -> exists m, d = IMap m.
Proof. destruct d; try discriminate. eauto. Qed.

(* --------------------------------------------------------------------- C87 *)

Definition data_entries (i : ucan_ipld) : list (bytes * ipld) := match ucan_ipld_to_data i with IMap m => m | _ => [] end.

Lemma data_entries_sorted i : msorted (data_entries i).
Proof. unfold data_entries, ucan_ipld_to_data. repeat (constructor; [|repeat (constructor; [reflexivity|]); constructor]); constructor. Qed.

Lemma data_entries_in i k d : In (k, d) (data_entries i) <->
  (k = B "aud" /\ d = int_list (ui_aud i)) \/ (k = B "cap" /\ d = ipld_of_caps (ui_cap i)) \/
  (k = B "exp" /\ d = null_or ipld_of_u64 (ui_exp i)) \/ (k = B "fct" /\ d = null_or ipld_of_facts (ui_fct i)) \/
  (k = B "iss" /\ d = int_list (ui_iss i)) \/ (k = B "nbf" /\ d = null_or ipld_of_u64 (ui_nbf i)) \/
  (k = B "nnc" /\ d = null_or IStr (ui_nnc i)) \/ (k = B "prf" /\ d = null_or (fun l => IList (map ILink l)) (ui_prf i)) \/
  (k = B "s" /\ d = int_list (ui_s i)) \/ (k = B "v" /\ d = IStr (ui_v i)).
Proof.
  unfold data_entries, ucan_ipld_to_data. cbn [In]. split.
  - intros HE. repeat (destruct HE as [HE | HE]; [injection HE as <- <-; tauto|]). destruct HE.
  - intros HE. repeat (destruct HE as [[-> ->] | HE]; [tauto|]). destruct HE as [-> ->]. tauto.
Qed.

Lemma null_or_optional {A} i k (f : A -> ipld) (R : ipld -> A -> Prop) o : In (k, null_or f o) (data_entries i) ->
  (forall a, f a <> INull) -> optional (data_entries i) k R o <-> opt_all (fun a => R (f a) a) o.
Proof.
  intros Hin Hf. assert (forall d, In (k, d) (data_entries i) -> d = null_or f o) as Hu.
  { intros d Hd. apply (in_mget _ _ _ (data_entries_sorted i)) in Hd. apply (in_mget _ _ _ (data_entries_sorted i)) in Hin. congruence. }
  unfold optional, opt_all. destruct o as [a|]; cbn [null_or] in *.
  - split.
    + intros (d & Hd & _ & Hr) a' [= <-]. apply Hu in Hd. subst d. exact Hr.
    + intros Ha. exists (f a). auto.
  - split; [discriminate|]. intros _ d Hd. apply Hu, Hd.
Qed.

Lemma entry_required {A} i k d (R : ipld -> A -> Prop) a : In (k, d) (data_entries i) -> required (data_entries i) k R a <-> R d a.
Proof.
  intros Hin. split.
  - intros (d' & Hd & Hr). apply (in_mget _ _ _ (data_entries_sorted i)) in Hd. apply (in_mget _ _ _ (data_entries_sorted i)) in Hin. congruence.
  - intros Hr. exists d. auto.
Qed.

Ltac data_entry := apply data_entries_in; tauto.

Lemma written_data X i : ucan_ipld_data X (data_entries i) i <->
  caps_data X (ipld_of_caps (ui_cap i)) (ui_cap i) /\
  opt_all (fun n => n <= 18446744073709551615)%N (ui_exp i) /\ opt_all (fun n => n <= 18446744073709551615)%N (ui_nbf i) /\
  opt_all (fun f => map_data (value_data X) (ipld_of_facts f) f) (ui_fct i).
Proof.
  assert (In (B "exp", null_or ipld_of_u64 (ui_exp i)) (data_entries i)) as Hexp by data_entry.
  assert (In (B "nbf", null_or ipld_of_u64 (ui_nbf i)) (data_entries i)) as Hnbf by data_entry.
  assert (In (B "fct", null_or ipld_of_facts (ui_fct i)) (data_entries i)) as Hfct by data_entry.
  assert (In (B "nnc", null_or IStr (ui_nnc i)) (data_entries i)) as Hnnc by data_entry.
  assert (In (B "prf", null_or (fun l => IList (map ILink l)) (ui_prf i)) (data_entries i)) as Hprf by data_entry.
  assert (In (B "cap", ipld_of_caps (ui_cap i)) (data_entries i)) as Hcap by data_entry.
  split.
  - intros [_ _ _ _ D5 _ D7 D8 _ D10].
    apply (entry_required _ _ _ _ _ Hcap) in D5. apply (null_or_optional _ _ _ _ _ Hexp) in D7; [|discriminate].
    apply (null_or_optional _ _ _ _ _ Hnbf) in D10; [|discriminate]. apply (null_or_optional _ _ _ _ _ Hfct) in D8; [|discriminate].
    split; [exact D5|]. split; [intros n E; apply (D7 _ E)|]. split; [intros n E; apply (D10 _ E) | exact D8].
  - intros (D5 & D7 & D10 & D8). constructor.
    + apply (entry_required i (B "v") (IStr (ui_v i))); [data_entry | reflexivity].
    + apply (entry_required i (B "iss") (int_list (ui_iss i))); [data_entry | reflexivity].
    + apply (entry_required i (B "aud") (int_list (ui_aud i))); [data_entry | reflexivity].
    + apply (entry_required i (B "s") (int_list (ui_s i))); [data_entry | reflexivity].
    + apply (entry_required _ _ _ _ _ Hcap). exact D5.
    + apply (null_or_optional _ _ _ _ _ Hprf); [discriminate | intros a _; reflexivity].
    + apply (null_or_optional _ _ _ _ _ Hexp); [discriminate | intros a E; split; [reflexivity | apply D7, E]].
    + apply (null_or_optional _ _ _ _ _ Hfct); [discriminate | exact D8].
    + apply (null_or_optional _ _ _ _ _ Hnnc); [discriminate | intros a _; reflexivity].
    + apply (null_or_optional _ _ _ _ _ Hnbf); [discriminate | intros a E; split; [reflexivity | apply D10, E]].
Qed.

Lemma data_roundtrip_iff X i : ucan_ipld_ok i ->
  ucan_ipld_of_data X (ucan_ipld_to_data i) = Some i <->
  x_value_i128 X = true \/ forall v, caveat_in v (ui_cap i) \/ fact_in v (ui_fct i) -> integer_free v.
Proof.
  intros [Hc He Hf Hn]. change (ucan_ipld_to_data i) with (IMap (data_entries i)).
  rewrite (ucan_ipld_of_data_iff X _ i (proj2 (keys_increasing_msorted _) (data_entries_sorted i))), written_data.
  assert (forall v, caveat_in v (ui_cap i) \/ fact_in v (ui_fct i) -> json_ok v) as Hok.
  { intros v [Hv | Hv]; [eapply caveat_ok | eapply fact_ok]; eassumption. }
  rewrite caps_data_of. split.
  - intros (HC & _ & _ & HF). destruct (x_value_i128 X) eqn:EX; [left; reflexivity | right]. intros v Hv.
    assert (value_data X (ipld_of_value v) v) as HV.
    { destruct Hv as [Hv | (f & k & E & Hin)]; [apply HC, Hv|]. specialize (HF _ E). rewrite facts_data_of in HF. apply HF. exists f, k. auto. }
    apply (value_data_of X v (Hok v Hv)) in HV as [E | E]; [congruence | exact E].
  - intros HI. assert (forall v, caveat_in v (ui_cap i) \/ fact_in v (ui_fct i) -> value_data X (ipld_of_value v) v) as HV.
    { intros v Hv. apply (value_data_of X v (Hok v Hv)). destruct HI as [E | HI]; [left; exact E | right; apply HI, Hv]. }
    split; [intros v Hv; apply HV; left; exact Hv|]. split; [exact He|]. split; [exact Hn|].
    intros f Ef. apply facts_data_of. intros v Hv. apply HV. right. rewrite Ef. exact Hv.
Qed.

Lemma data_roundtrip X i : ucan_ipld_ok i -> x_value_i128 X = true -> ucan_ipld_of_data X (ucan_ipld_to_data i) = Some i.
Proof. intros Hi EX. apply data_roundtrip_iff; auto. Qed.

(** Reading what was read and written again. *)
Lemma data_again X m i : keys_increasing m -> ucan_ipld_of_data X (IMap m) = Some i -> ucan_ipld_of_data X (ucan_ipld_to_data i) = Some i.
Proof.
  intros Hk Hd. apply (ucan_ipld_of_data_iff X m i Hk) in Hd as [_ _ _ _ D5 _ D7 D8 _ D10].
  change (ucan_ipld_to_data i) with (IMap (data_entries i)).
  apply (ucan_ipld_of_data_iff X _ i (proj2 (keys_increasing_msorted _) (data_entries_sorted i))), written_data.
  assert (forall o k, optional m k u64_data o -> opt_all (fun n => n <= 18446744073709551615)%N o) as Hu.
  { intros o k Ho n ->. destruct Ho as (d & _ & _ & _ & Hn). exact Hn. }
  split; [destruct D5 as (d & _ & D5); eapply caps_data_again, D5|]. split; [eapply Hu, D7|]. split; [eapply Hu, D10|].
  intros f Ef. rewrite Ef in D8. destruct D8 as (d & _ & _ & D8). eapply facts_data_again, D8.
Qed.

(** Different UCANs are written differently. *)
Definition reading_ext : ext := mkExt (fun _ => []) (fun _ => None) true false (fun _ _ => None) (fun _ _ => None) (fun _ _ => []) false.

Lemma data_injective i i' : ucan_ipld_ok i -> ucan_ipld_ok i' -> ucan_ipld_to_data i = ucan_ipld_to_data i' -> i = i'.
Proof.
  intros Hi Hi' E. apply (data_roundtrip reading_ext) in Hi; [|reflexivity]. apply (data_roundtrip reading_ext) in Hi'; [|reflexivity]. congruence.
Qed.

(* --------------------------------------------------------------------- C88 *)

Lemma written_bytes i m k b : ucan_ipld_to_data i = IMap m ->
  (k = B "iss" /\ b = ui_iss i) \/ (k = B "aud" /\ b = ui_aud i) \/ (k = B "s" /\ b = ui_s i) ->
  forall d, In (k, d) m <-> d = int_list b.
Proof.
  intros E. change (ucan_ipld_to_data i) with (IMap (data_entries i)) in E. injection E as <-. intros Hk d. rewrite data_entries_in.
  split.
  - intros HE. destruct Hk as [[-> ->] | [[-> ->] | [-> ->]]];
      repeat (destruct HE as [[Hk ->] | HE]; [try discriminate Hk; reflexivity|]); destruct HE as [Hk _]; discriminate Hk.
  - intros ->. destruct Hk as [[-> ->] | [[-> ->] | [-> ->]]]; tauto.
Qed.

Lemma byte_strings_refused X m k b : keys_increasing m -> k = B "iss" \/ k = B "aud" \/ k = B "s" ->
  In (k, IBytes b) m -> ucan_ipld_of_data X (IMap m) = None.
Proof.
  intros Hk Hin Hm. destruct (ucan_ipld_of_data X (IMap m)) as [i|] eqn:E; [|reflexivity].
  apply (ucan_ipld_of_data_iff X m i Hk) in E as [_ D2 D3 D4 _ _ _ _ _ _]. pose proof (proj1 (keys_increasing_msorted _) Hk) as Hs.
  apply (in_mget _ _ _ Hs) in Hm.
  destruct Hin as [-> | [-> | ->]]; [destruct D2 as (d & Hd & ->) | destruct D3 as (d & Hd & ->) | destruct D4 as (d & Hd & ->)];
    apply (in_mget _ _ _ Hs) in Hd; rewrite Hm in Hd; discriminate.
Qed.

(* --------------------------------------------------------------------- C90 *)

Lemma principle_to_string_cases p : (exists s, principle_to_string p = Ok s) /\ ~ no_principal p \/ (exists q, principle_to_string p = Panic q) /\ no_principal p.
Proof.
  destruct (principle_to_string p) as [s|e|q|] eqn:E.
  - left. split; [eauto|]. intros Hn. apply principle_to_string_panic in Hn as (q & Hq). congruence.
  - exfalso. unfold principle_to_string in E. destruct p as [|a [|b r]]; try discriminate. destruct (bytes_eqb _ _); [destruct (utf8_valid r)|]; discriminate.
  - right. split; [eauto|]. apply principle_to_string_panic. eauto.
  - exfalso. unfold principle_to_string in E. destruct p as [|a [|b r]]; try discriminate. destruct (bytes_eqb _ _); [destruct (utf8_valid r)|]; discriminate.
Qed.

Lemma of_ipld_panic X i : (exists q, ucan_of_ipld X i = Panic q) <->
  (exists q, signature_decode (ui_s i) = Panic q) \/
  (exists a sig, signature_decode (ui_s i) = Ok (a, sig)) /\ (no_principal (ui_iss i) \/ no_principal (ui_aud i)).
Proof.
  unfold ucan_of_ipld. destruct (signature_decode (ui_s i)) as [[a sig]|e|q|].
  - destruct (principle_to_string_cases (ui_iss i)) as [[(s & Es) Hn] | [(q & Eq) Hn]].
    + rewrite Es. destruct (principle_to_string_cases (ui_aud i)) as [[(s' & Es') Hn'] | [(q & Eq) Hn']].
      * rewrite Es'. split; [intros (q & [=]) | intros [(q & [=]) | [_ [H | H]]]; contradiction].
      * rewrite Eq. split; [intros _; right; split; [eauto | auto] | intros _; exists q; reflexivity].
    + rewrite Eq. split; [intros _; right; split; [eauto | auto] | intros _; exists q; reflexivity].
  - split; [intros (q & [=]) | intros [(q & [=]) | [(a & s & [=]) _]]].
  - split; [intros _; left; eauto | intros _; exists q; reflexivity].
  - split; [intros (q & [=]) | intros [(q & [=]) | [(a & s & [=]) _]]].
Qed.

Lemma of_ipld_ok X i : (exists u, ucan_of_ipld X i = Ok u) <->
  (exists a sig, signature_decode (ui_s i) = Ok (a, sig)) /\ ~ no_principal (ui_iss i) /\ ~ no_principal (ui_aud i).
Proof.
  unfold ucan_of_ipld. destruct (signature_decode (ui_s i)) as [[a sig]|e|q|];
    try (split; [intros (q' & [=]) | intros [(a & s & [=]) _]]).
  destruct (principle_to_string_cases (ui_iss i)) as [[(s & Es) Hn] | [(q & Eq) Hn]].
  - rewrite Es. destruct (principle_to_string_cases (ui_aud i)) as [[(s' & Es') Hn'] | [(q & Eq) Hn']].
    + rewrite Es'. split; [intros _; split; eauto | intros _; eexists; reflexivity].
    + rewrite Eq. split; [intros (q' & [=]) | intros (_ & _ & Hq); contradiction].
  - rewrite Eq. split; [intros (q' & [=]) | intros (_ & Hq & _); contradiction].
Qed.

(** The signature bytes [s] hold the algorithm and the length [n], followed by [rest]. *)
Lemma of_ipld_aborts_iff X i : (exists q, ucan_of_ipld X i = Panic q) <->
  exists a c l n rest, ui_s i = c ++ l ++ rest /\ leb128 c (jwt_code a) /\ leb128 l n /\
    ((N.of_nat (length rest) < n)%N \/ no_principal (ui_iss i) \/ no_principal (ui_aud i)).
Proof.
  rewrite of_ipld_panic. split.
  - intros [(q & Hq) | ((a & sig & Hs) & Hn)].
    + apply signature_decode_panic in Hq as (_ & c & l & rest & a & n & E & Hc & Hl & Hlt). exists a, c, l, n, rest. auto.
    + apply signature_decode_ok in Hs as (c & l & rest & E & Hc & Hl). exists a, c, l, (N.of_nat (length sig)), (sig ++ rest). auto.
  - intros (a & c & l & n & rest & E & Hc & Hl & HA).
    destruct (N.ltb_spec (N.of_nat (length rest)) n) as [Hlt | Hge].
    + left. exists PVarsigSlice. apply signature_decode_panic. split; [reflexivity|]. exists c, l, rest, a, n. auto.
    + right. split; [|destruct HA as [HA | HA]; [lia | exact HA]]. exists a, (firstn (N.to_nat n) rest).
      apply signature_decode_ok. exists c, l, (skipn (N.to_nat n) rest). rewrite firstn_skipn. split; [exact E|]. split; [exact Hc|].
      rewrite firstn_length. replace (N.of_nat (Nat.min (N.to_nat n) (length rest))) with n by lia. exact Hl.
Qed.

Lemma of_ipld_terminates X i : ucan_of_ipld X i <> Diverged.
Proof.
  unfold ucan_of_ipld. destruct (signature_decode (ui_s i)) as [[a sig]|e|q|] eqn:E; try discriminate; [|destruct (signature_decode_terminates _ E)].
  destruct (principle_to_string_cases (ui_iss i)) as [[(s & Es) Hn] | [(q & Eq) Hn]]; [rewrite Es | rewrite Eq; discriminate].
  destruct (principle_to_string_cases (ui_aud i)) as [[(s' & Es') Hn'] | [(q & Eq) Hn']]; [rewrite Es' | rewrite Eq]; discriminate.
Qed.

(* --------------------------------------------------------------------- C91 *)

Lemma payload_of_ipld_data X j p : payload_of_ipld X j = Some p -> (forall m, j = IMap m -> keys_increasing m) ->
  caps_data X (ipld_of_caps (p_cap p)) (p_cap p) /\
  opt_all (fun n => n <= 18446744073709551615)%N (p_exp p) /\ opt_all (fun n => n <= 18446744073709551615)%N (p_nbf p) /\
  opt_all (fun f => map_data (value_data X) (ipld_of_facts f) f) (p_fct p).
Proof.
  intros Hp Hk. destruct j as [| | | | | | |m|]; try discriminate. specialize (Hk m eq_refl).
  pose proof (proj1 (keys_increasing_msorted _) Hk) as Hs. cbn [payload_of_ipld] in Hp.
  destruct (req (B "ucv") str_of_ipld m); [|discriminate]. destruct (req (B "iss") str_of_ipld m); [|discriminate].
  destruct (req (B "aud") str_of_ipld m); [|discriminate].
  destruct (opt (B "exp") u64_of_ipld m) as [e|] eqn:E1; [|discriminate]. destruct (opt (B "nbf") u64_of_ipld m) as [n|] eqn:E2; [|discriminate].
  destruct (opt (B "nnc") str_of_ipld m); [|discriminate].
  destruct (req (B "cap") (caps_of_ipld X) m) as [c|] eqn:E3; [|discriminate].
  destruct (opt (B "fct") (map_of_ipld (value_of_ipld X)) m) as [f|] eqn:E4; [|discriminate].
  destruct (opt (B "prf") (list_of_ipld str_of_ipld) m); [|discriminate]. injection Hp as <-. cbn [p_cap p_exp p_nbf p_fct].
  apply (optional_iff _ _ _ _ _ Hs u64_of_ipld_iff) in E1. apply (optional_iff _ _ _ _ _ Hs u64_of_ipld_iff) in E2.
  apply (required_iff _ _ _ _ _ Hs (caps_of_ipld_iff X)) in E3. apply (optional_iff _ _ _ _ _ Hs (facts_of_ipld_iff X)) in E4.
  split; [destruct E3 as (d & _ & Hd); eapply caps_data_again, Hd|].
  split; [intros x ->; destruct E1 as (d & _ & _ & _ & Hx); exact Hx|].
  split; [intros x ->; destruct E2 as (d & _ & _ & _ & Hx); exact Hx|].
  intros x ->. destruct E4 as (d & _ & _ & Hx). eapply facts_data_again, Hx.
Qed.

Lemma dagjson_decode_keys X s m : dagjson_decode X s = Some (IMap m) -> keys_increasing m.
Proof. intros Hd. apply dagjson_decode_sound in Hd. inversion Hd; subst. apply keys_increasing_msorted. assumption. Qed.

Lemma token_data_again X t u i : parse_token X t = Ok u -> ucan_to_ipld X u = Ok i ->
  ucan_ipld_of_data X (ucan_ipld_to_data i) = Some i.
Proof.
  intros Ht Hi.
  assert (exists s, payload_of_json X s = Some (u_payload u)) as (s & Hs).
  { apply parse_token_covers in Ht as (H & P & S & rest & hj & pj & _ & _ & _ & _ & _ & _ & _ & _ & _ & Hpl & _). eauto. }
  unfold payload_of_json in Hs. destruct (dagjson_decode X s) as [j|] eqn:Ej; [|discriminate].
  apply payload_of_ipld_data in Hs as (HC & He & Hn & HF); [|intros m ->; eapply dagjson_decode_keys, Ej].
  change (ucan_ipld_to_data i) with (IMap (data_entries i)).
  apply (ucan_ipld_of_data_iff X _ i (proj2 (keys_increasing_msorted _) (data_entries_sorted i))), written_data.
  assert (ui_cap i = p_cap (u_payload u) /\ ui_exp i = p_exp (u_payload u) /\ ui_nbf i = p_nbf (u_payload u) /\ ui_fct i = p_fct (u_payload u)) as (-> & -> & -> & ->); [|auto].
  unfold ucan_to_ipld in Hi.
  destruct (match p_prf (u_payload u) with Some proofs => _ | None => _ end) as [prf|e|q|]; try discriminate.
  destruct (principle_of_string (p_iss (u_payload u))) as [iss|e|q|]; try discriminate.
  destruct (principle_of_string (p_aud (u_payload u))) as [aud|e|q|]; try discriminate.
  destruct (alg_of_string (h_alg (u_header u))) as [a|e|q|]; try discriminate.
  injection Hi as <-. auto.
Qed.

Lemma jwt_through_data X t u : parse_token X t = Ok u -> ipld_carried u ->
  exists i u', ucan_to_ipld X u = Ok i /\ ucan_ipld_of_data X (ucan_ipld_to_data i) = Some i /\ ucan_of_ipld X i = Ok u' /\
    u_header u' = u_header u /\ u_payload u' = u_payload u /\ u_signature u' = u_signature u /\ encode X u' = encode X u.
Proof.
  intros Ht Hc. destruct (ipld_roundtrip X u Hc) as (i & u' & Hi & Hu & H1 & H2 & H3 & _). exists i, u'.
  split; [exact Hi|]. split; [eapply token_data_again; eassumption|]. split; [exact Hu|]. split; [exact H1|]. split; [exact H2|].
  split; [exact H3 | eapply ipld_reencodes; eassumption].
Qed.

(* --------------------------------------------------------------------- C92 *)

Lemma payload_data_roundtrip X p : payload_ok p ->
  payload_of_ipld X (ipld_of_payload p) = Some p <->
  x_value_i128 X = true \/ forall v, caveat_in v (p_cap p) \/ fact_in v (p_fct p) -> integer_free v.
Proof.
  intros [Hc He Hf Hn].
  assert (forall v, caveat_in v (p_cap p) \/ fact_in v (p_fct p) -> json_ok v) as Hok.
  { intros v [Hv | Hv]; [eapply caveat_ok | eapply fact_ok]; eassumption. }
  split.
  - intros HP. apply payload_of_ipld_data in HP as (HC & _ & _ & HF).
    2:{ intros m E. change (ipld_of_payload p) with (IMap (payload_entries p)) in E. injection E as <-. apply keys_increasing_msorted, payload_entries_sorted. }
    destruct (x_value_i128 X) eqn:EX; [left; reflexivity | right]. intros v Hv.
    assert (value_data X (ipld_of_value v) v) as HV.
    { destruct Hv as [Hv | (f & k & E & Hin)]; [rewrite caps_data_of in HC; apply HC, Hv|].
      specialize (HF _ E). rewrite facts_data_of in HF. apply HF. exists f, k. auto. }
    apply (value_data_of X v (Hok v Hv)) in HV as [E | E]; [congruence | exact E].
  - intros HI. assert (forall v, caveat_in v (p_cap p) \/ fact_in v (p_fct p) -> value_data X (ipld_of_value v) v) as HV.
    { intros v Hv. apply (value_data_of X v (Hok v Hv)). destruct HI as [E | HI]; [left; exact E | right; apply HI, Hv]. }
    apply payload_roundtrip_fields; [|exact He | exact Hn|].
    + apply caps_of_ipld_iff, caps_data_of. auto.
    + intros f Ef. apply facts_of_ipld_iff, facts_data_of. intros v Hv. apply HV. right. rewrite Ef. exact Hv.
Qed.

Lemma ucan_of_data_of X h p sd s : ucan_of_data X (ucan_to_data (mkUcan h p sd s)) =
  let?? q := payload_of_ipld X (ipld_of_payload p) in Some (mkUcan h q sd s).
Proof.
  unfold ucan_to_data, ucan_of_data. cbn [u_header u_payload u_signature u_signed_data].
  set (m := [(B "header", ipld_of_header h); (B "payload", ipld_of_payload p); (B "signature", ipld_of_vec s); (B "signed_data", ipld_of_vec sd)]).
  assert (msorted m) as Hs by (unfold m; repeat (constructor; [|repeat (constructor; [reflexivity|]); constructor]); constructor).
  unfold req. rewrite (in_mget (B "header") (ipld_of_header h) m Hs) by (left; reflexivity).
  rewrite (in_mget (B "payload") (ipld_of_payload p) m Hs) by (right; left; reflexivity).
  rewrite (in_mget (B "signed_data") (ipld_of_vec sd) m Hs) by (right; right; right; left; reflexivity).
  rewrite (in_mget (B "signature") (ipld_of_vec s) m Hs) by (right; right; left; reflexivity).
  rewrite header_roundtrip_ipld. destruct (payload_of_ipld X (ipld_of_payload p)); [|reflexivity].
  rewrite (proj2 (vec_of_ipld_iff (ipld_of_vec sd) sd) eq_refl), (proj2 (vec_of_ipld_iff (ipld_of_vec s) s) eq_refl). reflexivity.
Qed.

Lemma ucan_data_roundtrip_iff X u : payload_ok (u_payload u) ->
  ucan_of_data X (ucan_to_data u) = Some u <->
  x_value_i128 X = true \/ forall v, caveat_in v (p_cap (u_payload u)) \/ fact_in v (p_fct (u_payload u)) -> integer_free v.
Proof.
  intros Hp. rewrite <- (payload_data_roundtrip X _ Hp). destruct u as [h p sd s]. rewrite ucan_of_data_of. cbn [u_payload].
  destruct (payload_of_ipld X (ipld_of_payload p)) as [q|]; split; intros E; congruence.
Qed.

Lemma token_ucan_data X t u : parse_token X t = Ok u -> ucan_of_data X (ucan_to_data u) = Some u.
Proof.
  intros Ht.
  assert (exists s, payload_of_json X s = Some (u_payload u)) as (s & Hs).
  { apply parse_token_covers in Ht as (H & P & S & rest & hj & pj & _ & _ & _ & _ & _ & _ & _ & _ & _ & Hpl & _). eauto. }
  unfold payload_of_json in Hs. destruct (dagjson_decode X s) as [j|] eqn:Ej; [|discriminate].
  apply payload_of_ipld_data in Hs as (HC & He & Hn & HF); [|intros m ->; eapply dagjson_decode_keys, Ej].
  destruct u as [h p sd sg]. rewrite ucan_of_data_of. cbn [u_payload] in *.
  rewrite payload_roundtrip_fields; [reflexivity | apply caps_of_ipld_iff, HC | exact He | exact Hn|].
  intros f Hf. apply facts_of_ipld_iff, HF, Hf.
Qed.

(* --------------------------------------------------------------------- C93 *)

(** A UCAN whose signed bytes are its own signing input. *)
Lemma own_authentic X slice signed u : unforgeable slice signed -> signed_by_issuer (did_parser_new slice) u ->
  u_signed_data u = signing_input X (u_header u) (u_payload u) -> payload_carried X (u_payload u) -> authentic X signed u.
Proof.
  intros Hf (k & Hk & Hv) Hd Hc. exists (header_to_json X (u_header u)), (payload_to_json X (u_payload u)).
  split; [|apply payload_json_roundtrip, Hc]. change (signed (p_iss (u_payload u)) (signing_input X (u_header u) (u_payload u))).
  rewrite <- Hd. apply (Hf _ k _ _ Hk Hv).
Qed.

Lemma chain_authentic E nt slice signed T R c d : unforgeable slice signed -> valid_chain E nt slice T R c ->
  authentic (e_ext E) signed (c_ucan c) -> sub_chain d c -> authentic (e_ext E) signed (c_ucan d).
Proof.
  intros Hf Hv Ha Hs. inversion Hs as [c' | d' pc c' Hin Hs']; subst; [exact Ha|].
  inversion Hv as [u ps red _ HF _ _ Hps]; subst. cbn [c_proofs] in Hin. apply In_nth_error in Hin as (i & Hi).
  destruct (Forall2_nth_r _ _ _ HF i pc Hi) as (text & _ & cid & n & token & _ & _ & _ & _ & _ & Htok).
  eapply accepted_authentic; [exact Hf | apply Hps; eapply nth_error_In, Hi | exact Htok | exact Hs'].
Qed.

Lemma report_of_own {S A} (SO : scope_ops S) (AO : ability_ops A) parse E nt slice signed fuel u st c st' r x :
  unforgeable slice signed -> with_parser slice st ->
  u_signed_data u = signing_input (e_ext E) (u_header u) (u_payload u) -> payload_carried (e_ext E) (u_payload u) ->
  from_ucan E nt fuel u st = (Ok c, st') -> reduce SO AO parse c = Ok r -> In x r ->
  exists o, In o (i_originators x) /\ authority SO AO parse E signed u (i_capability x) o.
Proof.
  intros Hf Hp Hd Hc Hr Hred Hx. destruct (from_ucan_valid E nt slice _ _ _ _ _ Hp Hr) as [Hu Hv].
  destruct (genuine_originator SO AO parse c r x Hred Hx) as (o & Ho & Htr). exists o. split; [exact Ho|]. rewrite <- Hu.
  eapply trail_authority; [exact Htr | exact Hv|]. intros d Hs. eapply chain_authentic; [exact Hf | exact Hv | | exact Hs].
  rewrite Hu. eapply own_authentic; [exact Hf | | exact Hd | exact Hc]. rewrite <- Hu.
  apply (valid_in_chain _ _ _ _ _ _ _ Hv). exists c. split; [constructor | reflexivity].
Qed.
