(** A toy codec in the shape of SEC 1: the points of the curve y = x. *)
From Verif Require Import Prelude Ord SMap Base58 Value Ext Key KeySupport Capability Ucan Builder Store Chain Spec SpecAlias OrdFacts Samples.

Definition diag_encode (x : bytes) : option bytes :=
  if Nat.eqb (length x) 32 then Some ((if N.odd (bN (last x x00)) then x03 else x02) :: x) else None.
Definition diag_decode (b : bytes) : option bytes :=
  match b with
  | t :: x =>
      if Byte.eqb t x04
      then if Nat.eqb (length x) 64 && bytes_eqb (firstn 32 x) (skipn 32 x) then Some (firstn 32 x) else None
      else match diag_encode x with Some b' => if bytes_eqb b b' then Some x else None | None => None end
  | [] => None
  end.
(** Signatures repeat the key and the message. *)
Definition diag_crypto : crypto bytes bytes :=
  mkCrypto diag_encode diag_decode (fun k d => Some (k ++ d)) (fun k d g => bytes_eqb g (k ++ d)).

Lemma diag_sec1 : sec1_codec diag_crypto.
Proof.
  intros x b H. cbn [cr_encode diag_crypto] in H. unfold diag_encode in H.
  destruct (Nat.eqb (length x) 32) eqn:E; [|discriminate]. injection H as <-. apply Nat.eqb_eq in E.
  exists x, x. split; [exact E|]. split; [exact E|]. split; [reflexivity|].
  cbn [cr_decode diag_crypto diag_decode]. change (Byte.eqb x04 x04) with true. cbn iota.
  rewrite <- E, app_length, firstn_app, skipn_app, Nat.sub_diag, firstn_all, skipn_all. cbn [firstn skipn app].
  rewrite app_nil_r, (proj2 (bytes_eqb_eq x x) eq_refl). rewrite E. reflexivity.
Qed.

Definition diag_pub : bytes := repeat x41 32.
Definition diag_key : key := p256_key diag_crypto diag_pub (Some diag_pub).
Definition long_name : bytes := did_key_text ([x80; x24] ++ x04 :: diag_pub ++ diag_pub).
Definition diag_parser : list (bytes * ctor) := [([x80; x24], bytes_to_p256_key diag_crypto)].
Definition diag_signable : signable := mkSignable (under long_name diag_key) (did_of bob) [] None None [] [] false.

(** Alice delegates to the key's own DID, the key to bob: under its own name, and under the long one. *)
Definition own_name : bytes := match key_did diag_key with Ok d => d | _ => [] end.
Definition diag_state : vstate :=
  mkState (did_parser_new [([xed; x01], fun bs => Ok (toy bs)); ([x80; x24], bytes_to_p256_key diag_crypto)]) 0 0 0.
Definition to_diag : ucan := Eval vm_compute in make
  [IssuedBy (toy alice); ForAudience own_name; ClaimingCapability (mail "a@x" "email/send" (VObj []))].
Definition from_diag (k : key) : ucan := make
  [IssuedBy k; ForAudience (did_of bob); WitnessedBy to_diag None; ClaimingCapability (mail "a@x" "email/send" (VObj []))].
Definition diag_outcome (k : key) : res unit :=
  match fst (from_ucan (sample_env 50 [to_diag]) None 5 (from_diag k) diag_state) with
  | Ok _ => Ok tt | Err e => Err e | Panic p => Panic p | Diverged => Diverged end.

Lemma diag_round : forall pk b, cr_encode diag_crypto pk = Some b -> cr_decode diag_crypto b = Some pk.
Proof.
  intros x b. cbn [cr_encode cr_decode diag_crypto]. intros H. assert (H' := H). unfold diag_encode in H'.
  destruct (Nat.eqb (length x) 32); [|discriminate]. injection H' as Hb.
  assert (diag_decode b = match diag_encode x with Some b' => if bytes_eqb b b' then Some x else None | None => None end) as ->
    by (rewrite <- Hb; destruct (N.odd (bN (last x x00))); reflexivity).
  rewrite H, (proj2 (bytes_eqb_eq b b) eq_refl). reflexivity.
Qed.

Lemma own_did_false : exists Pub Priv (C : crypto Pub Priv) slice did k,
  sec1_codec C /\ (forall pk b, cr_encode C pk = Some b -> cr_decode C b = Some pk) /\
  registered slice [x80; x24] (bytes_to_p256_key C) /\ fst (did_parse (did_parser_new slice) did) = Ok k /\ key_did k <> Ok did.
Proof.
  exists bytes, bytes, diag_crypto, diag_parser, long_name, (p256_key diag_crypto diag_pub None).
  split; [exact diag_sec1|]. split; [exact diag_round|]. split; [exists [], []; split; [reflexivity | intros []]|].
  split; [vm_compute; reflexivity | vm_compute; discriminate].
Qed.
