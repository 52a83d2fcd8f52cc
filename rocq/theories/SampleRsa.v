(** A small RSA key and tokens of it; ECDSA on the group of three elements. *)
From Coq Require Import ZArith.Znumtheory.
From Verif Require Import Prelude Ord SMap Base58 BaseN Value Cbor Ext Json Capability Semantics Key KeySupport Der Sha256 RsaSign Ucan Builder Store Chain
  Spec SpecWire SpecCbor SpecSha SpecDer SpecRsa SpecTwin OrdFacts CborFacts DerFacts ShaFacts RsaFacts TwinFacts Samples.

(** The 63 primes from 5 to 677 that are 2 modulo 3. *)
Definition small_primes : list N :=
  [5; 11; 17; 23; 29; 41; 47; 53; 59; 71; 83; 89; 101; 107; 113; 131; 137; 149; 167; 173; 179; 191; 197; 227; 233; 239; 251; 257; 263;
   269; 281; 293; 311; 317; 347; 353; 359; 383; 389; 401; 419; 431; 443; 449; 461; 467; 479; 491; 503; 509; 521; 557; 563; 569; 587;
   593; 599; 617; 641; 647; 653; 659; 677]%N.
Definition small_n : N :=
  1036716017773570827847758104418454484578581374989534659285524383110777222148131759161583475713016539987869951357719673044491560672759383080677050535.
Definition small_d : N := 6009450930289905242326771488833760914202121370645488718870388362667.

Lemma small_pair : rsa_pair small_n 3 small_d.
Proof.
  exists small_primes. split.
  - apply (NoDup_map_inv (fun x => x)). rewrite map_id.
    assert (forall l, (fix inc l := match l with x :: ((y :: _) as l') => (x <? y)%N && inc l' | _ => true end) l = true -> NoDup l) as H; [|apply H; vm_compute; reflexivity].
    intros l H. assert (Sorting.Sorted.StronglySorted N.lt l) as HS.
    { apply Sorting.Sorted.Sorted_StronglySorted; [intros a b c; apply N.lt_trans|]. induction l as [|x [|y l] IH]; [constructor | constructor; constructor|].
      apply andb_true_iff in H as [H1 H2]. constructor; [apply IH, H2 | constructor; apply N.ltb_lt, H1]. }
    clear H. induction HS as [|x l _ IH HF]; constructor; [|exact IH]. intros Hin. rewrite Forall_forall in HF. apply HF in Hin. lia.
  - split; [vm_compute; reflexivity|]. intros p Hp.
    assert (forallb (fun p => primeb p && ((3 * small_d - 1) mod (p - 1) =? 0)%N) small_primes = true) as H by (vm_compute; reflexivity).
    rewrite forallb_forall in H. apply H in Hp. clear H. apply andb_true_iff in Hp as [H1 H2]. apply primeb_iff in H1. split; [exact H1|].
    apply N.eqb_eq in H2. exists ((3 * small_d - 1) / (p - 1))%N. assert (p - 1 <> 0)%N as Hz by (destruct H1; lia).
    pose proof (N.div_mod (3 * small_d - 1) (p - 1) Hz) as E. rewrite H2, N.add_0_r in E. rewrite (N.mul_comm (_ / _)), <- E. vm_compute. reflexivity.
Qed.

Lemma small_taken : rsa_taken small_n 3.
Proof.
  split; [vm_compute; reflexivity|]. split; [split; [discriminate | vm_compute; reflexivity]|]. split; [vm_compute; reflexivity|].
  split; apply N.odd_spec; vm_compute; reflexivity.
Qed.

(** Its DID. *)
Definition small_der : bytes := match rsa_to_pkcs1 (small_n, 3%N) with Some b => b | None => [] end.
Definition small_did : bytes := did_key_text ([x85; x24] ++ small_der).
Definition rsa_slice (range : bool) : list (bytes * ctor) := [([x85; x24], bytes_to_rsa_key (rsa_pkcs1 range) sha256)].
Definition rsa_state (range : bool) : vstate := mkState (did_parser_new (rsa_slice range)) 0 0 0.

(** A token with the signature [g]. *)
Definition fixed_signer (alg did g : bytes) : key := mkKey alg (Ok did) (fun _ => Ok g) (fun _ _ => Ok tt).
Definition small_ucan (g : bytes) : ucan := make
  [IssuedBy (fixed_signer (B "RS256") small_did g); ForAudience (did_of bob); ClaimingCapability (mail "a@x" "email/send" (VObj []))].
Definition small_data : bytes := u_signed_data (small_ucan []).
Definition small_sig : bytes := be_bytes 62
  982647481556546412749239710512386313287119065048800604048533686650582614563020000673520984300789432955384127091099627090101166362429195677302415863.
Definition small_token (g : bytes) : bytes := encode sample_ext (small_ucan g).
(** The signature plus the modulus. *)
Definition small_twin : bytes := be_bytes 62 (be_value small_sig + small_n).

Definition outcome (t : bytes) (st : vstate) : res unit :=
  match fst (from_token (sample_env 50 []) None 5 t st) with
  | Ok _ => Ok tt | Err e => Err e | Panic p => Panic p | Diverged => Diverged end.

Lemma small_signed : pkcs1_signature small_n 3 small_data small_sig.
Proof. apply verify_strict; [discriminate | vm_compute; reflexivity]. Qed.
Lemma small_der_ok : rsa_public_key small_n 3 small_der.
Proof. apply to_pkcs1_iff. vm_compute. reflexivity. Qed.

(* ------------------------------------------------------- three elements *)

Inductive three := T0 | T1 | T2.
Definition three_add (a b : three) : three :=
  match a, b with T0, x => x | x, T0 => x | T1, T1 => T2 | T2, T2 => T1 | _, _ => T0 end.
Definition three_neg (a : three) : three := match a with T0 => T0 | T1 => T2 | T2 => T1 end.
Definition three_group : ec_group :=
  mkGroup three three_add T0 three_neg T1 3 (fun a => match a with T0 => None | _ => Some 1%N end).
Lemma three_laws : ec_laws three_group.
Proof.
  repeat split; try (intros [] [] []; reflexivity); try (intros [] []; reflexivity); try (intros []; reflexivity).
  - exists 1%N. reflexivity.
  - vm_compute. discriminate.
Qed.

(** Verification: w is s itself, as s is its own inverse. *)
Definition three_verify (pk : three) (data sig : bytes) : bool :=
  let r := be_value (firstn 32 sig) in let s := be_value (skipn 32 sig) in let z := be_value (sha256 data) in
  (length sig =? 64)%nat && (r =? 1)%N && ((s =? 1) || (s =? 2))%N &&
  match three_add (g_times three_group ((z * s) mod 3) T1) (g_times three_group ((r * s) mod 3) pk) with T0 => false | _ => true end.
Definition three_crypto : crypto three unit :=
  mkCrypto (fun pk => Some [match pk with T0 => x00 | T1 => x01 | T2 => x02 end])
           (fun b => match b with [x01] => Some T1 | [x02] => Some T2 | _ => None end)
           (fun _ _ => None) three_verify.
Lemma three_ecdsa : ecdsa_crypto three_crypto.
Proof.
  exists three_group, (fun pk => pk). split; [exact three_laws|]. intros b pk data sig _. cbn [cr_verify three_crypto]. unfold three_verify.
  rewrite !andb_true_iff, orb_true_iff, Nat.eqb_eq, !N.eqb_eq. split.
  - intros [[[Hl Hr] Hs] HP]. exists (sha256 data), (be_value (sha256 data)), (firstn 32 sig), 1%N, (skipn 32 sig), (be_value (skipn 32 sig)).
    split; [apply sha256_iff; reflexivity|]. split; [split; [apply sha256_length | apply be_value_place]|].
    split; [split; [rewrite firstn_length; lia | rewrite be_value_place; exact Hr]|].
    split; [split; [rewrite skipn_length; lia | apply be_value_place]|]. split; [symmetry; apply firstn_skipn|].
    rewrite Hr in HP. split; [split; reflexivity|]. cbn [g_order three_group].
    split; [destruct Hs as [-> | ->]; split; reflexivity|]. exists (be_value (skipn 32 sig)), 1%N.
    split; [destruct Hs as [-> | ->]; reflexivity|]. split; [|reflexivity].
    cbn [g_add g_first g_base g_point three_group]. unfold g_point in *. 
    destruct (three_add (g_times three_group ((be_value (sha256 data) * be_value (skipn 32 sig)) mod 3) T1) (g_times three_group ((1 * be_value (skipn 32 sig)) mod 3) pk)); [discriminate | reflexivity | reflexivity].
  - intros (d & z & rb & r & sb & s & Hd & Hz & Hr & Hs & -> & HR & HS & w & x & Hw & Hx & Hm). apply sha256_iff in Hd. subst d.
    destruct Hr as [Hrl Hr]. destruct Hs as [Hsl Hs]. destruct Hz as [_ Hz]. rewrite be_value_place in Hr, Hs, Hz.
    assert (firstn 32 (rb ++ sb) = rb) as E1 by (rewrite <- Hrl, firstn_app, Nat.sub_diag, firstn_all, app_nil_r; reflexivity).
    assert (skipn 32 (rb ++ sb) = sb) as E2 by (rewrite <- Hrl, skipn_app, Nat.sub_diag, skipn_all; reflexivity).
    rewrite E1, E2, app_length, Hrl, Hsl, Hr, Hs, Hz. cbn [g_order three_group] in *.
    assert (r = 1)%N as ->. { rewrite <- Hm. revert Hx. cbn [g_first three_group]. destruct (g_add three_group _ _); [discriminate | |]; intros H; injection H as <-; reflexivity. }
    split; [split; [split; reflexivity | lia]|].
    assert (w mod 3 = s)%N as Ew.
    { rewrite <- N.mul_mod_idemp_r in Hw by discriminate. pose proof (N.mod_lt w 3 ltac:(discriminate)) as Hlt.
      remember (w mod 3)%N as v. assert (s = 1 \/ s = 2)%N as [-> | ->] by lia; assert (v = 0 \/ v = 1 \/ v = 2)%N as [-> | [-> | ->]] by lia; vm_compute in Hw; congruence. }
    rewrite <- (N.mul_mod_idemp_r z w), <- (N.mul_mod_idemp_r 1 w), Ew in Hx by discriminate. revert Hx. cbn [g_first g_add g_base three_group].
    destruct (three_add _ _); [discriminate | reflexivity | reflexivity].
Qed.

Definition three_did : bytes := did_key_text ([x80; x24] ++ [x02]).
Definition three_slice : list (bytes * ctor) := [([x80; x24], bytes_to_p256_key three_crypto)].
Definition three_state : vstate := mkState (did_parser_new three_slice) 0 0 0.
Definition three_sig (s : N) : bytes := be_bytes 32 1 ++ be_bytes 32 s.
Definition three_token (s : N) : bytes := encode sample_ext (make
  [IssuedBy (fixed_signer (B "ES256") three_did (three_sig s)); ForAudience (did_of bob); ClaimingCapability (mail "a@x" "email/send" (VObj []))]).

Definition three_ucan : ucan := Eval vm_compute in make
  [IssuedBy (fixed_signer (B "ES256") three_did []); ForAudience (did_of bob); ClaimingCapability (mail "a@x" "email/send" (VObj []))].
Definition three_head : bytes := header_b64 sample_ext (u_header three_ucan).
Definition three_body : bytes := payload_b64 sample_ext (u_payload three_ucan).
Lemma no_dot s : existsb (Byte.eqb x2e) s = false -> ~ In x2e s.
Proof.
  intros H Hin. assert (existsb (Byte.eqb x2e) s = true) as E; [|congruence]. apply existsb_exists. exists x2e. split; [exact Hin | reflexivity].
Qed.
Lemma two_tokens : exists Pub Priv (C : crypto Pub Priv) slice E nt fuel st h p s s' c c' str str',
  ecdsa_crypto C /\ slice = [([x80; x24], bytes_to_p256_key C)] /\ with_parser slice st /\
  ~ In x2e h /\ ~ In x2e p /\ ~ In x2e s /\ ~ In x2e s' /\ s <> s' /\
  from_token E nt fuel (h ++ B "." ++ p ++ B "." ++ s) st = (Ok c, str) /\
  from_token E nt fuel (h ++ B "." ++ p ++ B "." ++ s') st = (Ok c', str').
Proof.
  exists three, unit, three_crypto, three_slice, (sample_env 50 []), None, 5%nat, three_state, three_head, three_body,
    (b64_encode (three_sig 1)), (b64_encode (three_sig 2)).
  assert (forall s, outcome (three_head ++ B "." ++ three_body ++ B "." ++ s) three_state = Ok tt -> exists c str,
    from_token (sample_env 50 []) None 5 (three_head ++ B "." ++ three_body ++ B "." ++ s) three_state = (Ok c, str)) as H.
  { intros s. unfold outcome. generalize (three_head ++ B "." ++ three_body ++ B "." ++ s). intros t.
    destruct (from_token (sample_env 50 []) None 5 t three_state) as [[c| | |] str]; cbn [fst]; intros H; try discriminate. eauto. }
  destruct (H (b64_encode (three_sig 1)) ltac:(vm_compute; reflexivity)) as (c & str & H1).
  destruct (H (b64_encode (three_sig 2)) ltac:(vm_compute; reflexivity)) as (c' & str' & H2).
  exists c, c', str, str'. split; [exact three_ecdsa|]. split; [reflexivity|]. split; [exists []; reflexivity|].
  split; [apply no_dot; vm_compute; reflexivity|]. split; [apply no_dot; vm_compute; reflexivity|].
  split; [apply no_dot; vm_compute; reflexivity|]. split; [apply no_dot; vm_compute; reflexivity|].
  split; [vm_compute; discriminate|]. split; [exact H1 | exact H2].
Qed.
Lemma small_signs range : key_sign (rsa_material range (small_n, 3%N) (Some (mkRsaPriv small_n 3 small_d))) small_data = Ok small_sig.
Proof. apply (proj1 (material_sign range small_n 3 small_d small_data)); [exact small_pair | exact small_signed]. Qed.
