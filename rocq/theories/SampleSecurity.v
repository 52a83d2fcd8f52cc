(** Keys that cannot be forged, used by the examples. *)
From Verif Require Import Prelude Ord SMap BaseN Base58 Value Cid Url Ext Json Capability Semantics Key Ucan Store Builder Chain
  Spec SpecSecurity OrdFacts BaseNFacts DidFacts TokenFacts Samples.

(** Keys that verify nothing but the three UCANs of the sample delegation. *)
Definition signed_texts : list (bytes * bytes) :=
  [(alice, u_signed_data root_ucan); (bob, u_signed_data mid_ucan); (mallory, u_signed_data leaf_ucan)].
Definition strict_key (name : bytes) : key :=
  mkKey (B "EdDSA") (Ok (did_of name)) (fun _ => Err ENoPrivateKey)
    (fun d s => if existsb (fun p => bytes_eqb (fst p) name && bytes_eqb (snd p) d) signed_texts then Ok tt else Err ESignature).
Definition strict_slice : list (bytes * ctor) := [(ed25519_magic, fun bs => Ok (strict_key bs))].
Definition signed_by (did d : bytes) : Prop := exists name, did = did_of name /\ In (name, d) signed_texts.

Lemma strict_unforgeable : unforgeable strict_slice signed_by.
Proof.
  intros did k d s Hk Hv. apply (did_parse_ok_iff strict_slice []) in Hk as (m & c & rest & _ & -> & (b & a & Hreg & _) & Hc).
  assert (m = ed25519_magic /\ c = fun bs => Ok (strict_key bs)) as [-> ->].
  { destruct b as [|p b]; [injection Hreg as <- <- _; auto | destruct b; discriminate]. }
  injection Hc as <-. exists rest. split; [reflexivity|]. cbn [strict_key key_verify] in Hv.
  destruct (existsb _ signed_texts) eqn:Ex in Hv; [|discriminate].
  apply existsb_exists in Ex as ([n t] & Hin & He). apply andb_prop in He as [H1 H2]. cbn [fst snd] in *.
  apply bytes_eqb_eq in H1, H2. subst. exact Hin.
Qed.

(** Alice's signed bytes under a payload she did not write. *)
Definition forged_payload : payload :=
  mkPayload ucan_version (did_of alice) (did_of mallory) None None None
    [(B "mailto:a@x", [(B "email/send", [VObj []])])] None None.
Definition forged_ucan : ucan := mkUcan (u_header root_ucan) forged_payload (u_signed_data root_ucan) (u_signature root_ucan).

Lemma forged_inauthentic : ~ authentic sample_ext signed_by forged_ucan.
Proof.
  intros (hj & pj & (name & Hd & Hin) & Hp). change (p_iss (u_payload forged_ucan)) with (did_of alice) in Hd.
  apply (did_key_text_inj (ed25519_magic ++ alice) (ed25519_magic ++ name)) in Hd. apply app_inv_head in Hd. subst name.
  destruct Hin as [E | [E | [E | []]]]; [|discriminate E | discriminate E]. injection E as E.
  apply (f_equal (split_on x2e)) in E. rewrite (split_on_app x2e (b64_encode hj) (b64_encode pj)) in E by apply b64_encode_no_dot.
  rewrite (split_on_none x2e (b64_encode pj)) in E by apply b64_encode_no_dot.
  apply (f_equal (fun l => match nth_error l 1 with Some s => b64_decode s | None => None end)) in E. cbn [nth_error] in E.
  rewrite b64_roundtrip in E.
  apply (f_equal (fun o => match o with Some s => payload_of_json sample_ext s | None => None end)) in E. rewrite Hp in E.
  apply (f_equal (fun o => match o with Some p => p_aud p | None => [] end)) in E. vm_compute in E. discriminate E.
Qed.
