(** Browser keys with the exponent 65537. *)
From Verif Require Import Prelude Ord Base58 Value Key KeySupport Cbor WebCrypto Der Ucan Builder Spec SpecWire SpecCbor SpecWebCrypto SpecDer
  OrdFacts CborFacts SignFacts DerFacts Samples SampleWebCrypto.

(** Public and private keys are moduli; a signature repeats the modulus and the digest. *)
Definition mersenne (bits : N) : N := N.pred (2 ^ bits).
Definition modulus_sign (n : N) (d : bytes) : option bytes := Some (der_uint_bytes n ++ toy_sha d).
Definition modulus_crate : crypto rsa_pub N :=
  rsa_crate (fun n d => Some (der_uint_bytes n ++ d)) (fun pk d g => bytes_eqb g (der_uint_bytes (fst pk) ++ d)).
Definition modulus_browser : browser N N :=
  mkBrowser (Ok tt) (fun n => option_map spki (rsa_to_pkcs1 (n, 65537%N))) modulus_sign
    (fun n d g => Some (bytes_eqb g (der_uint_bytes n ++ toy_sha d))).
Definition modulus_gen (p : key_params) : option (N * N) :=
  if (17 <? kp_modulus_length p)%N && (kp_modulus_length p <=? 16384)%N && bytes_eqb (kp_exponent p) [x01; x00; x01]
  then Some (mersenne (kp_modulus_length p), mersenne (kp_modulus_length p)) else None.

Lemma mersenne_size k : (0 < k)%N -> N.size (mersenne k) = k /\ N.Odd (mersenne k).
Proof.
  intros Hk. unfold mersenne. assert (2 ^ k = 2 * 2 ^ N.pred k)%N as Hp by (rewrite <- N.pow_succ_r by lia; f_equal; lia).
  assert (0 < 2 ^ N.pred k)%N by (apply N.neq_0_lt_0, N.pow_nonzero; discriminate). split.
  - apply N.le_antisymm; [apply size_bounds; lia|]. apply N.nlt_ge. intros Hl.
    assert (N.pred (2 ^ k) < 2 ^ N.pred k)%N as Hs; [apply size_bounds; lia|].
    assert (k = 1 \/ 1 < k)%N as [-> | H1] by lia; [cbn in Hl; lia|].
    assert (2 ^ N.pred k = 2 * 2 ^ N.pred (N.pred k))%N by (rewrite <- N.pow_succ_r by lia; f_equal; lia). lia.
  - exists (N.pred (2 ^ N.pred k)). lia.
Qed.

Lemma modulus_exported n : (N.size n <= 65536)%N -> exported_rsa modulus_browser n n 65537.
Proof.
  intros Hn. destruct (rsa_to_pkcs1 (n, 65537%N)) as [b|] eqn:E.
  - exists b. split; [apply to_pkcs1_iff, E|]. split; [reflexivity|]. cbn [w_export modulus_browser]. rewrite E. reflexivity.
  - exfalso. apply (to_pkcs1_total n 65537%N); [exact Hn | vm_compute; discriminate | exact E].
Qed.

Lemma modulus_generates : generates modulus_browser modulus_gen.
Proof.
  intros p wk sk. unfold modulus_gen. destruct (N.ltb_spec 17 (kp_modulus_length p)) as [H1|]; cbn [andb]; [|discriminate].
  destruct (N.leb_spec (kp_modulus_length p) 16384) as [H2|]; cbn [andb]; [|discriminate].
  destruct (bytes_eqb (kp_exponent p) [x01; x00; x01]) eqn:E; [|discriminate]. apply bytes_eqb_eq in E. rewrite E.
  intros H. assert (mersenne (kp_modulus_length p) = wk) as <- by congruence. clear H.
  exists (mersenne (kp_modulus_length p)). destruct (mersenne_size (kp_modulus_length p)) as [S O]; [lia|].
  split; [exact S|]. split; [exact O|]. change (place_value 256 (map bN [x01; x00; x01])) with 65537%N.
  apply modulus_exported. rewrite S. lia.
Qed.

(** A 510-bit modulus whose encoding contains that of a 479-bit one where the browser's key is cut. *)
Definition inner_modulus : N := be_value (repeat x7b 60).
Definition outer_modulus : N := be_value ([x30; x43; x02; x3c] ++ repeat x7b 60).

Definition modulus_signable (n : N) : signable :=
  mkSignable (web_key modulus_crate modulus_browser toy_sha n (Some n)) (did_of bob) [] None None [] [] false.

Definition modulus_slice : list (bytes * ctor) := [([x85; x24], bytes_to_rsa_key modulus_crate toy_sha)].
Definition modulus_parser : did_parser := did_parser_new modulus_slice.
Definition signed_and_checked (size : option N) : res unit :=
  let? ks := web_generate modulus_browser modulus_gen size in
  let? u := sign sample_ext [] (modulus_signable (fst ks)) in
  fst (check_signature u (mkState modulus_parser 0 0 0)).

Lemma modulus_web size bits : bits = match size with Some k => k | None => 2048%N end -> (17 <? bits)%N = true -> (bits <=? 16384)%N = true ->
  web_generate modulus_browser modulus_gen size = Ok (mersenne bits, Some (mersenne bits)).
Proof.
  intros Hb H1 H2. unfold web_generate. cbn [w_subtle modulus_browser rbind]. unfold modulus_gen.
  cbn [generate_params kp_modulus_length kp_exponent]. rewrite <- Hb, H1, H2. reflexivity.
Qed.
Lemma signed_ok size bits : bits = match size with Some k => k | None => 2048%N end -> (1944 <=? bits)%N = true -> (bits <=? 4096)%N = true ->
  signed_and_checked size = Ok tt.
Proof.
  intros Hb H1 H2. apply N.leb_le in H1, H2. assert (17 <? bits = true)%N as B1 by (apply N.ltb_lt; lia). assert (bits <=? 16384 = true)%N as B2 by (apply N.leb_le; lia).
  pose proof (modulus_web size bits Hb B1 B2) as Hw. unfold signed_and_checked. rewrite Hw. cbn [rbind fst].
  destruct (mersenne_size bits ltac:(lia)) as [Hs Ho]. assert (exported_rsa modulus_browser (mersenne bits) (mersenne bits) 65537) as Hx by (apply modulus_exported; lia).
  assert (rsa_taken (mersenne bits) 65537) as Ht by (apply taken_65537; [exact Ho | lia | lia]).
  destruct (web_rsa_did (fun n d => Some (der_uint_bytes n ++ d)) (fun pk d g => bytes_eqb g (der_uint_bytes (fst pk) ++ d)) modulus_browser toy_sha
    (mersenne bits) (Some (mersenne bits)) None (mersenne bits) ltac:(lia) Hx) as [HD _]. assert (1944 <= N.size (mersenne bits))%N as H4 by lia. specialize (HD (conj H4 Ht)).
  fold modulus_crate in HD.
  generalize dependent (mersenne bits). intros n. intros. pose proof Hx as (b & Hkb & _).
  destruct (sign sample_ext [] (modulus_signable n)) as [u|e|q|] eqn:Eu.
  - cbn [rbind]. apply (sign_verifies sample_ext [] _ u (rsa_key modulus_crate toy_sha (n, 65537%N) None) _ Eu).
    + intros d g Hk. cbn [s_issuer modulus_signable key_sign web_key web_sign w_subtle modulus_browser w_sign rbind ok_or modulus_sign] in Hk.
      cbn [key_verify rsa_key]. unfold km_verify. cbn [cr_verify modulus_crate rsa_crate fst]. injection Hk as <-. rewrite (proj2 (bytes_eqb_eq _ _) eq_refl). reflexivity.
    + intros did Hk. cbn [s_issuer modulus_signable] in Hk. rewrite HD in Hk. cbn [v_parser].
      exact (proj1 (rsa_resolves _ _ toy_sha n 65537 None b did modulus_slice [] Hkb Hk (ex_intro _ [] (ex_intro _ [] (conj eq_refl (fun x => x))))) Ht).
  - exfalso. revert Eu. unfold sign, ucan_payload. cbn [s_issuer modulus_signable]. rewrite HD. discriminate.
  - exfalso. revert Eu. unfold sign, ucan_payload. cbn [s_issuer modulus_signable]. rewrite HD. discriminate.
  - exfalso. revert Eu. unfold sign, ucan_payload. cbn [s_issuer modulus_signable]. rewrite HD. discriminate.
Qed.
Lemma signed_aborts size bits : bits = match size with Some k => k | None => 2048%N end -> (936 <=? bits)%N = true -> (bits <=? 16384)%N = true ->
  (1944 <=? bits)%N && (bits <=? 4096)%N = false -> signed_and_checked size = Panic PPayloadExpect.
Proof.
  intros Hb H1 H2 H3. pose proof H2 as B2. apply N.leb_le in H1, H2. assert (17 <? bits = true)%N as B1 by (apply N.ltb_lt; lia).
  pose proof (modulus_web size bits Hb B1 B2) as Hw. unfold signed_and_checked. rewrite Hw. cbn [rbind fst].
  rewrite (generated_sign (fun n d => Some (der_uint_bytes n ++ d)) (fun pk d g => bytes_eqb g (der_uint_bytes (fst pk) ++ d)) modulus_browser toy_sha
    sample_ext [] (modulus_signable (mersenne bits)) modulus_gen size _ _ bits modulus_generates Hw Hb ltac:(lia)); [reflexivity | | reflexivity].
  intros [A1 A2]. apply N.leb_le in A1, A2. rewrite A1, A2 in H3. discriminate.
Qed.
