(** Samples for C164-C165. *)
From Coq Require Import Floats.SpecFloat.
From Verif Require Import Prelude Url Ext Value Capability Semantics Samples Hier Ipv6 Fixtures Spec SpecUrl SpecHier UrlTextFacts SampleHier.

Definition v6_ext : ext :=
  mkExt (fun _ => B "0.0") (fun _ => Some (S754_zero false)) true true (fun _ _ => None)
    (fun sch rest => if existsb (bytes_eqb sch) special_schemes then None else match rest with x2f :: _ => url_hier url2_rules sch rest | _ => None end)
    (fun _ => toy_hash) true.

Lemma v6_follows : follows url2_rules v6_ext.
Proof.
  split.
  - intros sch r H. cbn [x_url_hier v6_ext]. destruct (existsb (bytes_eqb sch) special_schemes) eqn:E; [apply special_iff in E; contradiction | reflexivity].
  - intros sch rest u. cbn [x_url_hier v6_ext]. destruct (existsb (bytes_eqb sch) special_schemes); [discriminate|].
    destruct rest as [|c r]; [discriminate|]. intros H. apply (url_hier_scheme url2_rules sch (c :: r)). destruct c; first [exact H | discriminate H].
Qed.

Lemma v6_reads t s : option_map (sc_of_url wnfs_scope) (parse_url v6_ext t) = Some (Some s) -> names_scope v6_ext t s.
Proof. unfold names_scope. destruct (parse_url v6_ext t) as [u|]; [|discriminate]. intros H. exists u. split; [reflexivity|]. cbn [option_map] in H. congruence. Qed.
Lemma v6_reads_not t s : match parse_url v6_ext t with Some u => sc_of_url wnfs_scope u = None | None => True end -> ~ names_scope v6_ext t s.
Proof. intros H (u & H1 & H2). rewrite H1 in H. congruence. Qed.
