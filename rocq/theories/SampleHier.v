(** Samples for C132-C133. *)
From Coq Require Import Floats.SpecFloat.
From Verif Require Import Prelude Url Ext Value Capability Semantics Samples Hier Fixtures Spec SpecUrl SpecHier UrlTextFacts HierFacts.

(** url 2.x, without IPv6 addresses, and a library that follows it; special schemes are not read. *)
Definition plain_rules : url_rules := mkRules path_encoded (fun _ => None).
Definition hier_ext : ext :=
  mkExt (fun _ => B "0.0") (fun _ => Some (S754_zero false)) true true (fun _ _ => None)
    (fun sch rest => if existsb (bytes_eqb sch) special_schemes then None else match rest with x2f :: _ => url_hier plain_rules sch rest | _ => None end)
    (fun _ => toy_hash) true.

Lemma url_hier_scheme R sch rest u : url_hier R sch rest = Some u -> url_scheme u = sch.
Proof.
  unfold url_hier. destruct rest as [|c r]; [discriminate|].
  repeat match goal with |- context [match ?x with _ => _ end] => destruct x end; try discriminate; intros H; apply (f_equal (option_map url_scheme)) in H; cbn in H; congruence.
Qed.

Lemma hier_follows : follows plain_rules hier_ext.
Proof.
  split.
  - intros sch r H. cbn [x_url_hier hier_ext]. destruct (existsb (bytes_eqb sch) special_schemes) eqn:E; [apply special_iff in E; contradiction | reflexivity].
  - intros sch rest u. cbn [x_url_hier hier_ext]. destruct (existsb (bytes_eqb sch) special_schemes); [discriminate|].
    destruct rest as [|c r]; [discriminate|]. intros H. apply (url_hier_scheme plain_rules sch (c :: r)). destruct c; first [exact H | discriminate H].
Qed.

Lemma plain_stable : stable_rules plain_rules.
Proof. split; [reflexivity|]. split; [repeat constructor | discriminate]. Qed.

Lemma reads t s : option_map (sc_of_url wnfs_scope) (parse_url hier_ext t) = Some (Some s) -> names_scope hier_ext t s.
Proof. unfold names_scope. destruct (parse_url hier_ext t) as [u|]; [|discriminate]. intros H. exists u. split; [reflexivity|]. cbn [option_map] in H. congruence. Qed.
Lemma reads_not t s : match parse_url hier_ext t with Some u => sc_of_url wnfs_scope u = None | None => True end -> ~ names_scope hier_ext t s.
Proof. intros H (u & H1 & H2). rewrite H1 in H. congruence. Qed.
