(** Certificates: the field prime and the order of the base point of P-256 are primes, and a number that is no cube. *)
From Coq Require Import ZArith.Znumtheory ZArith.Zpow_facts.
From Verif Require Import Prelude PrimeFacts EdPrimeFacts.
Local Open Scope Z_scope.

Definition trial_ok (n : Z) (k : nat) : bool := forallb (fun d => negb (n mod Z.of_nat d =? 0)) (seq 2 (k - 2)).
Lemma trial n k : (1 <? n) = true -> (0 <=? k) = true -> (n <? k * k) = true -> trial_ok n (Z.to_nat k) = true -> prime n.
Proof.
  intros Hn Hk0 Hk H. apply Z.ltb_lt in Hn, Hk. apply Z.leb_le in Hk0. destruct (prime_dec n) as [|Hc]; [assumption|]. exfalso.
  destruct (small_prime_divisor n Hn Hc) as (r & Hr & Hd & Hle). assert (2 <= r) as H2 by (destruct Hr; lia).
  unfold trial_ok in H. rewrite forallb_forall in H. specialize (H (Z.to_nat r)).
  assert (r < k) as Hrk by (clear -Hle Hk H2 Hk0; nia).
  rewrite in_seq in H. specialize (H ltac:(lia)). rewrite Z2Nat.id in H by lia.
  apply negb_true_iff, Z.eqb_neq in H. apply H. apply Z.mod_divide; [lia | exact Hd].
Qed.
Lemma fermat_cube n t h w : n - 1 = h + (h + h) -> 0 <= h -> t ^ h mod n = w -> (w * (w * w)) mod n = 1 -> t ^ (n - 1) mod n = 1.
Proof.
  intros E Hh Hw H. rewrite E, !Z.pow_add_r by lia. rewrite Zmult_mod, (Zmult_mod (t ^ h) (t ^ h)), Hw.
  rewrite Zmult_mod_idemp_r. exact H.
Qed.
(** One factor, the powers shared. *)
Lemma pocklington_one n q R a c0 s0 s1 u v : 1 < n -> prime q ->
  (n - 1 =? q * R) = true -> (0 <=? R) = true -> (R <? q) = true ->
  chain_exp s0 0 = R -> chain n a s0 1 = c0 -> chain_exp s1 0 = q -> chain n c0 s1 1 = 1 ->
  u * (c0 - 1) + v * n = 1 -> prime n.
Proof.
  intros Hn Hq HS HR0 HR E0 C0 E1 C1 U. apply Z.eqb_eq in HS. apply Z.ltb_lt in HR. apply Z.leb_le in HR0.
  assert (0 < n /\ n <> 0) as [Hnp Hn0] by (clear -Hn; lia). assert (0 <= q) as Hq0 by (destruct Hq; clear -H; lia).
  pose proof (chain_pow n a s0 R c0 Hn0 E0 C0) as A0.
  pose proof (pow_chain n a R c0 s1 q 1 Hnp HR0 Hq0 A0 E1 C1) as A1.
  apply (pocklington n q R a); try assumption; [split; assumption | | exact (bezout_mod _ _ _ _ _ Hn0 A0 U)].
  rewrite HS, (Z.mul_comm q R), A1. apply Z.mod_1_l, Hn.
Qed.

Lemma prime_q22_6 : prime 3969899.
Proof. apply (trial 3969899 1993); vm_compute; reflexivity. Qed.

Lemma prime_q40_11 : prime 1002328039319.
Proof.
  apply (pocklington_one 1002328039319 3969899 252482 2 221842812587
    [(true, 0x0); (true, 0x0); (true, 0x0); (true, 0x0); (false, 0x0); (true, 0x231a47); (true, 0x44df0829cf); (false, 0xa9db850af); (true, 0x52c663c2c); (false, 0x6a2ad8fa84); (false, 0x8e916f053a); (true, 0x85a350552c); (false, 0xb63031c9e); (false, 0x6c87db848e); (false, 0xb5bdb85028); (false, 0xcd0108f62e); (true, 0xa30bd1fc6c); (false, 0xd98591c2e3)]
    [(true, 0x0); (true, 0x24e7b548f916e5a9db9); (true, 0x1f8c858ac0fef4ea407); (true, 0x19483425b3498143d); (false, 0x623c2cfb26); (false, 0xab80b2424d); (true, 0x782503c2769ca915633); (false, 0x407fe66fb1); (false, 0xa39204a69); (true, 0x2e6378ec14b1f33e878e); (false, 0x7b7d448d); (false, 0xda007be530); (true, 0x414068cbe6437c3b908); (true, 0x15326231f1a9a9ee55); (false, 0x23e951b91a); (true, 0x3c6e3451b5184a460bb); (true, 0x20f31934d65b2d01152a); (false, 0x99cd6bc06d); (true, 0x25cfb727d494cc06e8de); (false, 0x91e5276cc); (true, 0x1c952642ca6f353e1cbd); (true, 0x8a00a2bc165e88361e)]
    718861591819 (-159103877307));
    [reflexivity | exact prime_q22_6 | vm_compute; reflexivity ..].
Qed.

Lemma prime_3 : prime 3.
Proof. apply (trial 3 2); vm_compute; reflexivity. Qed.

Lemma prime_155317 : prime 155317.
Proof. apply (trial 155317 395); vm_compute; reflexivity. Qed.

Lemma prime_q28_7 : prime 191039911.
Proof.
  apply (pocklington_one 191039911 155317 1230 2 76243073
    [(true, 0x0); (false, 0x0); (false, 0x0); (true, 0x0); (true, 0x0); (false, 0x59e); (false, 0x83d83a8); (true, 0x28b00a8); (true, 0xe230710); (true, 0x63454be); (false, 0x5984005)]
    [(true, 0x0); (false, 0x1d04c45); (false, 0x215b2a); (true, 0x1568e22bea4b8); (false, 0x1ab36f4); (true, 0x25f9d4467f8358); (true, 0x1ab9fe8f88c71); (true, 0x231184f7823ced); (true, 0x14e5a537096ec); (false, 0xbf1124); (true, 0x139a1868535c53); (false, 0x2f18986); (true, 0x30bc63e0b3e2); (true, 0x21a9a42471e20c); (false, 0x33cba11); (true, 0x83ed916c86f0c); (false, 0x12dc0d0); (true, 0x7cdfc0810e9)]
    69522358 (-27746025));
    [reflexivity | exact prime_155317 | vm_compute; reflexivity ..].
Qed.

Lemma prime_q58_13 : prime 208150935158385979.
Proof.
  apply (pocklington_split 208150935158385979 3 191039911 363189266 2 170670613552422248 89709188498985666 190094474308917318
    [(true, 0x0); (false, 0x0); (true, 0x0); (false, 0x0); (true, 0x0); (true, 0x0); (false, 0x1627ce35); (true, 0x400a1e333025a53); (false, 0xaa15037814de); (false, 0x383b63d787795a); (true, 0xed999e3ed79442); (false, 0x108967646926a4); (true, 0x210fba644ca43b0); (true, 0x366a4512aa57159); (true, 0x2cdae1788df1f49); (false, 0x6a9dbd8a716e); (true, 0xbda6808d5278a5); (false, 0x1d010eb81d301c); (true, 0x662e0a40cd154b); (false, 0x25b29aca6894); (false, 0x16f8ad458ef2d54); (false, 0x708d0252942c4e); (false, 0x19c747ed16e1f70); (false, 0x1dcf16cbaaf1f8); (true, 0x30eae2861522d66); (false, 0x2c4acad5ee5b970); (false, 0x2a024c0db3c08f1); (true, 0x364560bf4d4924b); (false, 0x5f8f1c81b48feb)]
    [(true, 0x0); (true, 0x4998c1706fb7597d14e1f09e749da)]
    [(true, 0x0); (false, 0x1f129e2f9de5cb2); (true, 0x6930221fd311c0c2ea5e1b428a6); (true, 0x1c1368a14b55c7074d498b59d6ae); (false, 0x2de51855fbdecc1); (true, 0x34dae65aaed6e2ad298b3ef8c88c5); (true, 0x16e1e9b58f16a658d093af132d3bd); (false, 0x12a7bc2960966); (false, 0xeb5c43d16d70d2); (false, 0x3726e9b92802b8); (true, 0x5fcd285ddde38f8199dc937b143b3); (true, 0x47369588fad588a26565dde033d12); (false, 0x9f95d782741b14); (false, 0xb8f28c1f051a21); (false, 0x230de4d1cc9f5cf); (false, 0x98c30e9d277fd); (true, 0x53a71c897b7754d996e79722d9c7); (false, 0x35c1a29534160e); (false, 0x4d0599f016b1ac); (true, 0xa96c4500e027c9aa0cd6e870317); (true, 0x75375cc9f39ca8d905fb4e6103a); (false, 0x717d234240962a); (true, 0x3d9a53d40bb57875c8c7b6225fb07); (false, 0x8579edb38d4fe6); (false, 0xe61bda89569b95); (true, 0x525177f01758613bd7d9cef4927); (true, 0x3c0e314826c8e4d7c035adabb4fe); (true, 0x1d1b14c7eda08513453e4f882e6e)]
    [(true, 0x0); (false, 0x895bc9f0908a82); (true, 0x2c75c47b99f6661c8852889859b14); (true, 0x37c461fec325d177283886918542); (false, 0x36cf12a6cfbc90); (true, 0x36b80026ebeaa4a15aea771fa42d2); (true, 0x1b282b0112118c8b9b0cab378cf2); (false, 0x156e6a8bfbd4e8b); (false, 0x1f82c301a38c124); (false, 0x1148de35c68954e); (true, 0x2c7b9d165e7925e7e238190a6625a); (true, 0x286c17268d587fee6b05cc858cad2); (false, 0x526661412cdc3); (false, 0x425d9a8d56fcc9); (false, 0x10a5b6b0d6793); (false, 0x204ecfa027c861b); (true, 0x1773fd29fdce4837bd66d225bc9db); (false, 0x2d104487c868149); (false, 0x298588ab081e84a); (true, 0x246ca140fc61df6cf36af866d85d4); (true, 0x16df127b872990dde66068509dc1a); (false, 0x374a87ad537efb); (true, 0x12d01188544de4d7a4750e4f25b9a); (false, 0x1fd2f3cec105312); (false, 0x2dbc1fb75120c); (true, 0x1c4889a42bce749001d4adc1efa3d); (true, 0x21d13f9f1a0ac675711fc309e058b); (true, 0xfc42af97f8bf082499cff344553)]
    133855595432530999 (-57689276452991746) 75402465335951546 (-68861530690349139));
    [reflexivity | exact prime_3 | exact prime_q28_7 | discriminate | vm_compute; reflexivity ..].
Qed.

Lemma prime_q92_14 : prime 2624747550333869278416773953.
Proof.
  apply (pocklington_one 2624747550333869278416773953 208150935158385979 12609828288 2 9274061155462587152010873
    [(true, 0x0); (false, 0x0); (true, 0x0); (true, 0x0); (true, 0x0); (false, 0x0); (true, 0x3); (true, 0xa238738cb353ec29d89927b); (true, 0xefa4dceb9ed7930d1e2483a); (true, 0xccd2ae2b03cf2492f47d0d); (true, 0x3d413dd74caec338c2f6b3d); (false, 0x1e1708aa5eaa378ac52de2d); (false, 0x97204b0d276f6297d044f); (true, 0x37eea4f987bb5e0b2cb7285); (true, 0x29015b011c83a90edfaff18); (false, 0x584529a1139055b73bccfb); (true, 0xc2486afea1125e0d2525831); (false, 0x46e530f3c924173bf0bdce9); (true, 0xa040e6bf2eb89c3e165499e); (false, 0x1ee16d7b63399fa5df60481); (true, 0x2116db8411b9d811ff135fe); (true, 0x10c35315468a352262445eef); (false, 0x305c91b701e5256c0439d); (true, 0x104d7c356bba4b44a3dba15); (false, 0x13687af23082691efae888c); (true, 0x34f282eb8e413413a52bab4); (true, 0x1a97003b51a405e04546915); (true, 0x17425525f1e798d90c4bf4f); (false, 0x8abff2f342e942977e3156); (false, 0x1b70135ee9af3d137531ee); (false, 0x33847a5fc70ee295604ddcf); (false, 0x724adfcdd2c301c25839968); (false, 0x6a5e6550866380de9f838c8); (false, 0xedb4c584cb4929ca8a9f07)]
    [(true, 0x0); (false, 0x6f05de70755868e7c12); (true, 0xf2477e440274829c23714a7751c872d1a0de84299f5); (true, 0x2fb975df762e469d238d6b9000a9e56947628c955238); (true, 0x3f2b26ce9c9e574c8d53d2dfb72051fa3bd980c59b09); (false, 0x1ca0d008b97006e6160506f); (false, 0x64ba52484075007a23ca464); (false, 0x871330cbf72a60cb27fb467); (true, 0x313ab37b599aec6dd533a5697a770b317298630e25d); (true, 0x23bda6c47244d5fa47fffb98acf401f1ce4e27b57496); (true, 0x1efbec248263a234485995a3cf39271d3bdc60009f60); (false, 0x39ab207834678892b3aabb9); (false, 0x30a3a88a1ad16e485f7f8b); (false, 0x3f9a5d411985dd1cfc99fab); (false, 0x2ecc3bccc002331362fdda5); (false, 0x16fc8d70a520624aec9808); (false, 0x4822b2587793f79327bd6); (false, 0x4ec593e1b9bb13d5b41d47); (false, 0x3c890053ea9e90ad7bbba4); (false, 0x55fa1e3e918fd02963cfb75); (true, 0x356ff7440e65a1e46b96cb64af5b90c2d1b43d48bb3); (false, 0xf452412b299e5b1d572a9); (true, 0x131b3d135492fe5f63a94931f0dfd6bf86e75933b09d); (true, 0x1acb505dfc883f6ccd99afc85f8230ff4eba2f5816d1); (false, 0x46b80208e25e09ff2aba23); (false, 0x14a2a5eebf4062ae1ba7b93); (false, 0x1ec49a1144a7815bc0d7a6c); (false, 0x30388d29e9a1c34f591fe); (true, 0xe9a43a8a9beabda4e1b220fe22c7a0691178a821580); (true, 0x2e4de89313d84fcc1d23c13e0ce45abb888ad0ee1706); (false, 0x14b7f3dded4245200ae770d); (true, 0xa4227f4cfaff4503f7848a3a0c82493164e903d95a); (false, 0x11e1dc85c955346b3c700); (true, 0x2507f46d04b277ce1c336c432c093736878b08214aed); (true, 0x1f778aec9b966d5e611620ad5298efce3290931a1d63); (true, 0x87a03a849bf7110db1bf17af02e983e04eb28d4d00); (false, 0x4f480a30d9091b6a4f83e30); (false, 0x1af176321a094d7384ceb80); (false, 0x280d8fadabc04b351efb36e); (true, 0xc41fdb18866b0181af7c37972c32ab7c4f2fa20808); (true, 0xc4c7089ce3b4016a9b4f353d3cde5cdf13f8337f28a); (true, 0xd9cb8f7773ac5b36d28a48a6f5c5ac0adbad6c8ba00); (true, 0x23bfdbd9849e47f16ab4774a984cd7e59ceb96ed8cbe); (true, 0xc20e8ab234dbadaf33a1964229b40de7d93d46f0015); (true, 0x1f446b75334a532d489b3051deab263a2e50dfdc5772); (false, 0x603e5cb4ea54191017b481c); (true, 0x1a2c405db1ba12ea47c956d41dab34eacd53a36b5ad7); (true, 0x224073402146c40b20ab39d64f8f29189f62000e40d7); (false, 0xd0ec47420ac1a4312cdb62); (true, 0x24b8bbe686b804be196c30f34c7ee3a645c8c93c7a92); (false, 0xf39c6fd816374aa9f3639e); (false, 0x5a459ec493c763c98a8eeb); (true, 0x8f3d12e2174c49dfc7327b7d474ccf5cf27c5e9ef75); (true, 0x23c556d1ddc8860bd80cc0cd28aa63724a86fc215e2d); (true, 0x4bb3bca9eb06e428e37b1b659692b205aa429000794); (false, 0x45a67bc2474660bfdd0bd0d); (true, 0xfcc8c95dafcb66e23a8e887cf2fbafc44785d7f5390); (true, 0x245534f38fc2efc54e2abd908df09900f894e925133f)]
    2035673288804527262494271578 (-7192675947259547095846255));
    [reflexivity | exact prime_q58_13 | vm_compute; reflexivity ..].
Qed.

Lemma prime_n256 : prime 115792089210356248762697446949407573529996955224135760342422259061068512044369.
Proof.
  apply (pocklington_split 115792089210356248762697446949407573529996955224135760342422259061068512044369 1002328039319 2624747550333869278416773953 44013050614219118277426053354358264624 2 33422750357966337878331101054518575604830426967606952675588495505287672049735 87100853353288773503221377379439407917267979139877395891460378271501865302703 75826181402772799521319382390190118258099127975743022721581095372707945421081
    [(true, 0x0); (false, 0x0); (false, 0x0); (false, 0x0); (false, 0x0); (true, 0x0); (false, 0x0); (false, 0x0); (false, 0x100); (true, 0x1fffffffdfffffffe000000010c64154be9d39091d685829ecdc2); (true, 0x40eec8423ba68162e27da3be7b47d80853df11e7f6ff5a9cb4f2eb204184bf5c); (true, 0x7d6f7192f5d52cdaa8e36f1a7aae65b94db48ad850a0746aeebb17b47bb5d6f); (false, 0xacd0a1eb937d47a84721cd878e689905aac41dcdfb887783a591f472ab9d03d6); (false, 0x417364c77665dd0f444b09e5f7aa8527c2feb2af9a1534ef76fefb7db2a2e883); (true, 0x50b0012cfdbc41d0eecb58cc7e2ce9feba72a8c568b150e7d88169f43909e2); (false, 0x5bb60bb38d5efe4c7fed82a7ea5124856c917676868147f327c606d917640ed0); (false, 0x1dd22ae9328f59854875de969f053fa8d7efaf2eab84789aa1ef3dc92ad2d1ef); (true, 0x3f2d7dc313928e0f493362578d63cd4ae80fc48f949db07b279a7c76e7f6b8e8); (true, 0xb50b37e262d252bb15e86e74d44bb6d412146cf7519df23f5ee9ed088549058e); (false, 0x632d8cdfee3aa1c9dcd1cf8836a3500b0601a999297a8d960d54a0a1f17577); (true, 0x1cf95f2aa0dca915dec527313be4ee89b3c5eac85d69a9f4ef4693c5cc9efb0fd); (false, 0x2d429aa8a207ace43fd4d2df08275917c52bf66ff118cc272d93e85d3cd9a); (true, 0x188b9b8278af124292e9e8ea8a24ff0ddc11af956045c0fc919be6bee71bbe5cc); (true, 0x124645fc032c6f2c8b5f5682aae388072cee32224888789ed7c021bc64bb92cc3); (true, 0x197da2f42cc8095b89dddd832494fd539027991ac611279587b383fc48b4ab99); (false, 0x1a2cf79f65600cbf7961d71088ff5f9712db3cc69cb8e3692034b16ea7fc043); (true, 0x10dfb640f2dd05fee205746316b5b140628cf0f77b0f65b4ce66b3c235af8b476); (true, 0xf548e0b03037786e7ab70647872363d72404c1b7d0e81a5dab856c59e8f2d7e7); (true, 0x155af880191279320aa2f6dd7c02abe2f352391a2acfe23234e9eae4575b7ca7e); (true, 0x489c964312ec95dec4660e6768dfb3bbabc92e3b50a825ddf34e4be75fea7a9a); (false, 0x23589f82f515a72210ec03761cf539101d0ad46013527f6efb0cf7a61c61c8b3); (false, 0x87d636c89a9b5f196d8d72a08c65a173f78999d4faa760b4b8c3dd39eab84d66); (true, 0x2891671f7215034542c0f7842b4034ccef1775e16c14a69904270f7e1693bbc); (false, 0x2636545a6f9cc571d398f7b772321ce67c072ac8faf8d26e320352d52e87d08d); (true, 0x195cbeb4d1c04599d82606b1f949e8c0e058fde96a80175bc93254142c278ee8d); (true, 0x1e1118d4dce71a942786e53d427627a26bc2e1a4e225a65e5e1dc06fc0bf9db25); (true, 0xb34248859da871c4a5a795bdab91cdae888f4466d47ce206f062cf5404d12ba9); (true, 0x529f929f5ece302354344c4badd800ac291a0e1b22cb24c87527f8574e3bfbd1); (false, 0xd5cd933877ba7e418062cb5fda60f8d40a74f86a2bff55392af9986609b35fa0); (true, 0x271d83382003b0387a550e470a986867a26cabba9c68cd1114f5f885c8567c2a); (true, 0x107abfdb9fa27c0e7499af6ac19f133a78d2ce519691c18ba86d1e323470980f8); (false, 0x9820e9fef5554355395934b0bfc54b1811d02c79ebcb9ba05449a39292c354f0); (false, 0x6fc64170c37273a74aa600f9876bb5a718e82752b9e1084426c238286adf2404); (true, 0x5db2816814faa36ea528acfa9e095e9a56bf65f06111dd969af179ffccee9ad4); (false, 0xe3fb455c66906619e4aea56e16c7ba0941ed12a8b0a2b9f592dcf132a5a17ca3); (true, 0x1733e4cd0cab1170389e08b429ba36b0cf01c2708b2de77151aab3dcb14d95ba2); (false, 0x60df532fce1472e205c23f31f8703d29a4a029a537064c39ae78bc5d8e1bc0a0); (false, 0x4ece6eaa53abce295e0dbd6c51ae720fd711931086755fca309df36b597fb8b4); (true, 0x1a112926b4ba989c55e15db10eea46ea6b88b91678249e7ed7350d5bc83570377); (false, 0x9e976f39e564dd4afefb3fd7398580626b98044a72e1479df55d4f5aadee9c54); (true, 0x2b06a630b0b9d3050ac0bee545991b6dbaba071fa25a1dfebac89dfdd9dfb5be); (true, 0xe5e29b3586a340cc5281956e10596a09418053a02b2f35267aacca9dc0f4ba30); (true, 0x1a34f0a72db2dee6b8ba70055d3d92375b00ab9e67eb01dbdf15e442ba9f6a663); (false, 0xca46a81330abe0e02f4dcb98289caa1540cc277548379ba75f2e38bdd8cc8d7e); (false, 0x2d2f63d430168bfe935b50bfd4f232a77104c4964b4d9ae7741972a306abcbdd); (true, 0x522776d5f694ed94d39e818cd9ebe50b75c2e05a5935fd18c06c1eb7d8c7858a); (true, 0x2c7fa6a5b420ada8ad481b74933ad94648049faf59b8ccd330cf93e851b162c5); (false, 0x2676b403aad5ded53262e3b59045026b6592aeef32f409db50abfdd5a699c90e); (false, 0xd93733a8ef40078c3a51e789db21a0a1171570e985729174184966185acbb72c); (false, 0x18f01236e72c4e9a2d9542e980d02590b058a658c349c303b5fef92538acae09); (true, 0x11ffc332bca4dc877a6f4ba80b8dde14f8d3a8d187a8474f28568cba2917bf097); (true, 0x647f813eccaa8deb3609a9fbee11840430ee383ff4f7f62d72e11f51fbb522bf); (false, 0x43665fe1fcbb6f45e276e700dc2e128c9d889bc3d4132108c2d1ce3831666218); (true, 0x2e1108dacf2788485fc511eb49f1501170aa8b04bf023fc55209c981f018f); (true, 0x3f4319a829cafbb0b588b7d7da8736f9e0fc85e069327348623ba73dc73fa92b); (false, 0x209a5518c18285da2f0869697b8bc91b690c122e759be0a6f4e059b6810d10d4); (false, 0xde01c77ce719e93dee130a6becd35a13084c6f58ed27607a2b7ce69baa23dd1); (false, 0xd0cffe8ece9a7126fa472685749e617066595b0426388157082c247c37365a7e); (true, 0x1e2e93fd2ee3b14f2eb5e8ab5418aa708df0c95e426d680a9216bab87cf0ce276); (false, 0x4fe9e23888ec3fd7c578043ae184aca9b2b6af4554ec0c69db6bbba3eab4eff); (true, 0xeed27293ecdacb758ac7f3de99402fcaeff50db315628d497efd58a513db11eb); (false, 0xc293c5ee373f219cb804279958bd49b222786353c49c718b27a73be30c039e2); (true, 0x1a6cce44190478db4e22074ae08aae87abe382675b868b2c7d5d306583d9f3887); (false, 0x1fb06595ab5eb0ca52075196dd907114a4d2b6f752152e35274e2ea6c1cc1d4); (true, 0x46d62265db07f8580dcbf72e18cd35b12b155696a46df256b0c02f23b45c433f); (false, 0x17c2235ca75abf084dc89d7a2f90280100632b67147899038f8fe3bd83c6a22b); (false, 0x51c76dce476804e793f8ffbda8efd3ce64cd81013a58a3917026c9caa5a00320); (true, 0xe945c4662cbd231dc558d6843cdc0106f91df2133d0c01a19cc7ed0030c4d90); (true, 0x15732f715b9cda15efded8695b09d5eb34a612cd5c22f919e7580b393c0b42d11); (false, 0x4f7a745c55041cd402c2da6e632feef1076af38545e13f7ecd9a0fff6eb6cf2); (true, 0x12cdc8c8712d4743c5a3b09662e5aa2052b535a423aaf9014cd0be2b9d4b2ff8c); (true, 0x1d16f0192952e1ed86a07ee122ee4fcfceddf0f257f49de6bd97cc6b5a616b90d); (true, 0x22d7b5fe4ccc7bca4ad55de5616af4ae980ceb4d7119483e659584168c29197); (true, 0xd78e332a0c3c83fed9312516ffd29868b3946aeb18a40c711e1a1155f11a004d); (true, 0x1b804fd448427cf341392104b857239c1280350fe4f3a34121ab99fc242612ba1); (false, 0xb0fc429153f50175fc7e8de13d0198ffa00625fad77637753e019c136c4bd07); (false, 0x4ebbc0e38d3150237eed5fe03520e7731889aa2ad7729cd446cb8060889797); (false, 0x1b013aaca7cfd7a57a6ed88ea85c13e569c602ac2f19759402b7981f125e092e); (true, 0x4e3f0a4f88d436e77a6bb49969f553bf682d1f86418dbdd9711e7321019c1633); (true, 0x100cab1e1db33100d91d17807a3ee04ce5a666c0d5111c6e4be64f5594eab9a4e); (true, 0x1909fa4804180d59d905b70f0cc8579b41e64c0f66e15d817e723f4bbff4f6c1b); (true, 0x1238a96c5ed24fe48f9c222ce7522af8b4e1f73023d9b7f50a2c82880b5f0461); (false, 0xbda9f70c02d73baec2c65ed5121bfa93bccb1a65b755f88353bf37e01d529d79); (true, 0x14840fdcbeef88ccac7aa2413b2f58fc0d001856273dce778c7942b5cf3b6dc21); (false, 0x79b159c1ab453e4dfad68bde5c7df8c583856a27ef0cfd81803f1ae5e7990d6b); (false, 0x2b7faa9051c1660acf666b7181414666c2e596cef73db5f8ff8717ee578bdc5); (true, 0x39bf589f8c962a5ba161c7abfd06bf3c7376b070f958237a6d204acccade41c); (false, 0x703f2753b633bfd447018fc712e215f8b30573186831c4e7c35d01e23f05a80c); (false, 0x6512c1d46f89dad1226cf6b145ff7d8c961f968758e000716a2a1826ebd385a3); (false, 0x32bbbe2e139cd9f12efc786b3b7a68a7967335a46d7c260ca8b93dfc40a6f5ad); (false, 0x1705e610fb9e00fb5cbf51364f4933e94b5cf7cad1eac42799fa01cfb10fc0a3); (true, 0x1cfe9bd0a4ca18113d3a9408fd72dffbdcf0c119c97a3f8f51355cd18319e69ce); (true, 0x62390a696f60b37d5ca36a87b76254c6964e95ce6657e8cb1e2bda338b3581b); (true, 0x2a2a2063e828da60e9ee1251685d9fda1577b08d2a1561eedffeb59205649623); (false, 0x884feccef4b8fddcfb877d34738cc8151faa3ed546815cba6fb5f878973d29f); (true, 0xf6a951020d781cb5ce1953600d323f56b92e1e20451f3fd84bd29cd056c3f57); (false, 0xba87aeebf990cf81755cfed7fddb0793120291ea4e2e40d20d05b974588bacb); (true, 0xb88cddfb3ff6de41784ee56dae851042cee251d0f88efd5e8423ac5bfaca19d1); (true, 0x10b8debfe6f706fa43869380a04a3c7e91733c349e913e2c82a4d5957067ed078); (true, 0x2c72620fe3f2814fce892e7c02a7bc2a12592542e589f453b85cdf9c74a073f); (false, 0x1ff0dedb047175a4313d7692fa3267d74507f9c42f061f9c738ff9af0358f21e); (true, 0x298ecf828771bd2184368c7b0d06d87063886ac75b4b70d040636b5cf2b208bf); (false, 0x34035d67d1605e129a2e67bac8e5ed74517db3bc0d97ba5ac40de507dca3abc8); (true, 0x8f4861cfa3503db995d74d169f980729f4c564f8a140088373b11ff1c911b124); (false, 0x1ea27110edf1080826b8c5bc4c30a3d71841d0aa89154e2e0337c2b4fface); (false, 0xd39c38f5e6b18c03ee59763cecec2569defd234854c5deb80478b2f8ba4b74e); (true, 0x241d17a896124703aa7359e88e73c6225bfd65930056ff9e8afa54901f91b6); (true, 0xeca7d2d43d79a6678dc6a8da2ac5f0ab6139dc97a09718c28d9ef6b1dd6781aa); (false, 0x39968fedc5da84f34753fa3451401be257fe3472fec3bef69b7b071a78158946); (false, 0x3c9fe9d0b2ba5794d6515b4517a0708165501c7f68426d575d5b0230d82364ee); (true, 0x1f94ce04ab7a7642bcd433840dc8d9133b2d8dc1730a4aa493f00c65c3c654fbb); (true, 0xa2064f037591f7aa0a59156a7432fb03332c2ff2e91df88e51220a1fc35443b1); (false, 0x962e2b19944beaf1624c90c18a274c2baa2c6b8807f6f1ed466f8e0e9bfa0486); (false, 0x7e68d2fd66a3162f0afa673a43474b3ea4f2e2d701049e6ed790e8d75e583fde); (false, 0x30e9164ee0ca0d5b03338875f6662f1fd0b66bf3c9fdaa9908285ee4ee2bad06); (false, 0xd8f494d4aa7cff0954df671450410fc69edb6ddfb3aef7efc39d9c7c0eabac2)]
    [(true, 0x0); (true, 0x6280ca323b4ee73e3aa704de70a09139a201d57d7015ae40bc9c881b1c7224e5de2ddcc30f2595305b8530c54d4c1843d1d988df43824900aac368f69ec0c8a); (true, 0x78f31df7ca3c4c26411ffb247d2d566c28f68d0ae45090f9e849ac5805bc37173b98bf6d6130e5ed012c87b49a09f421e150541cce11a79b444d00db09a659c); (false, 0x7b0f15f17bceecc4ede67bcfb0914f79a420b1910cb038120eeec0758dd253b5); (true, 0x1770c1051477d59c6f4a0319ccced99dcaf8ad7837a3255e7495cce9cbcddfbb7d1ec603049680888d44d447a11f84160089d449d537ee0988c7d0d5c68d5219); (false, 0xf5303be72987f5b2729c7b3c95ab10c5ad3b9d6bb5335e1f921f2db978beb87a); (false, 0x16b86e6bf8b7bd66b3179900366c1aff3b76068f488fe1f3d53080536dcf7a90); (true, 0xf5c9874227b53b0ad5d02ba555fd126ee9dd60caade9e18f8a3befafc87201008788939eeedca4f5f41a3d1febbe2a7b6ad7a41655ee9c06e59f724ff8db7c6); (false, 0x604b12ce8dfcdfa95af90101058deaa9421d3954aeea23165bb7762804a70); (true, 0x176db65c85ab97107fa520b84e8a0d117b7b024078709ccc4626a613605f000f7cab7c689d8eb8bbb563e84a8e8e67cf2634eb3cc562ceadbecdbd6a60036847); (false, 0x7dc8b349d49f1e77a3faefa48ea122aa47e7253c40495daf3e1674034a6a2d68); (true, 0x21374b59edb930e67ce4f98a32899b081c66a6bb201707debe54e630a92657a14b674364e64deb48c539f62bc224fff9c094f753cff1ca47b63afa90f50f5ea9); (true, 0x3027451f6905461c1c3e9ab7ef67fd307f647437e2d41147f807d0905886728a8900f815aa2464ba471daf80d5bcc68333b764a42fe819c95e619fbd1c58431e); (true, 0x157a1e740e5a07f9b9b1a81271780a43aecd26b156eff01b710682c8322e56708b0322ef1d8244577db3ffb57cf2f0514d25a17ebee9ece06919e4e4d7044c15); (true, 0x3d005822e97fc9416667045054bffe543a48f19b1654104c73dc68b51bf5b69f9f81fa11353f8e99bca4f7585acb2e7dbabfa9fbc03ea6216c19a4875a14fc8f); (true, 0x29481265d011cc4ab0fc4da065c1ce2dc05041c8b1d65503a37421157ced86361c9d1f96dfb5705568fdbcbec9716cdbe544923e25a9a4bcc20cfa03c2737fbe); (false, 0x7bb4403d89de1aaec7315e8b09f23770fb038055aaa67f1afc1453b943fc8651); (true, 0xec838ac0f9cb65abef81be876228778379d52f45328307ab7c298a4f8045ac8964e828ae7f59eb36a63ffe9aca6610b877ecd30d44023897b798828d087ef08); (true, 0x47ee0c5321d5430ab14c0c7132af32a96bdcfec45cc130d07adb1ddd3b31158766f6811d3a2434a6f37aab2ab70d499a06ef306825c86f5f30530fd11175d8d5); (false, 0x4c559d857a2c352ce43726b7c91ed5309c7157b050d00b1daf7c646e698231f0); (true, 0x19971d010b12db0519067d73907cb854a4110fa0bab651792b03aa7ea6395b83c99c90b2c94c5f186ddff5808b0b475c51bbc208a1bf1be28c83e4b536c1127); (false, 0xc34fe2ae2e2b15885a4d03acb80eb4095934cea9ab8fab8ef2ed6ad0ba073190); (false, 0x382693410b729bd405510c7c68eaeb9c204ede49ac18d4b9f9f5cef2cd2bc3c); (false, 0x9f266555105e933a5199854a491d5706ed37713027b7bee20e708b324096abad); (false, 0x37ed5543ae49684404e85b73d362a4027224837485c6cda6d7584b7facf391b); (false, 0x701c8ac55552220df718824674e82e70bdef6a9cef409b454856affbdbc11b7b); (false, 0x6ef0cab653e2419876b7a2fdc9bf0f0ff6b6177550c273c598f31fdb0a9333c); (true, 0x44524a420eeca4e15419c653136e09e302c59ec9cacd02c5efcbd0c1c63cadb4abbf2d0daf0dc93efdb109d1b141255e4be9dffc5e3267476c723eccbafd8d5); (true, 0x1b26d714396546364fd19e482c5b85a40699a5e829e6a9f27cb92dc8071b543527e91beec348caed291260d626e7af5e9aac90228e4a8c7e422f4525e275ac); (true, 0xe46ad126b11cc79bf17775e7353931c0aa1eff7c579f10ccce03f6be250d8588e35d3e5c5b2b1dca7b194cd843cfc25ea4c89940a51583c9d61ea9b204e71); (true, 0xcb5a888af67ecb487c6da222f554a18071fd12a43ac785a1dbc5bfa8b87a1a17a0d2a8fcd5a32dfa1796edb502a5f39d0564848ac97a73743aaf51cc51ce); (true, 0x70a9e4fbb22b30a152ec5c20881f54472fa5ebe852273d4c3a2026e91024483c49df5b5f14e33f16d3c0c1200762fc277b4e0a285bd6f2d2c6f1f44560dd81); (true, 0x1b9ffb61866d17d9ef8de9736822addf84683b08c1d372b2190ea7c0356f08418b87745e80a2114551c0d58801ce9d6a11686f86e383bfa480e9b853bced04d5); (false, 0x12c93651d4a3f3513bbb43ec8e042e3fd6921ac83f69e5d25120790eae32150b); (false, 0x1772c825f3622f3461cb1335b82c1e5e7b82675c497e918f220db1472788c37e); (true, 0x27cfbe591ef7f321fc8b51f987019249729296d95a8002cd233d82bacc7ead53470a3143f0c92c15f340a92785ecf489f892b93f2d7d328ea8681c995f532ecb); (false, 0x2199c1df76597ecfb9cb64c8fda8083c980db0913f991ab8e963475eba1a5e2); (true, 0x13b43749e05bd9bdf5564e3241b42619d28f1280041bd63b172d00dd5bf1f30455f546044142e29ad2f46b5886113d086446377c6e17dd3457a4233238fe290b); (true, 0x1d7ed3d2610057d76e66fbf3543ba57943312732c0c13f44b0ab870230515b8135ef4dedc75f5318e047295b64b03071d76125806bda14ec2a837723bc395f8b); (true, 0x3ba3309817b13d554324b1e35c6a928db59634acd0351562592238017675cebacaed564df0e20a31ccacde05ec2e84745f1a23e2e62d152c022268f957e8e8e0)]
    [(true, 0x0); (false, 0x15542caae02a56bb899a604aecdf35def2c948fc51c5271bc0037dd43ae18421); (false, 0x36bbb4976f3fe8dd97ad63b6f1afd03842302f57f1b4abe93a211981dccc9c90); (false, 0x99e6ecfecdddac8539fd20bed51ec5d96517aecf9a042b8dd34d8fd53f55bc2); (false, 0x9430e7e0b4d195d7934fa9bd6fa69b10cedfe08f1a0775f3c0fe2e486f26b5); (true, 0xc90a77d3a3906a22aa77ae05d0ac224182a860714c396533b8e38b7d66af984fafd99918fc8a94bb2d1a31695fb803bb47b5823077054afd091b5cbef950ce3); (true, 0x24a54c080a3ea949bb74d82a7a608412736294cd8aa9abdb3a709821fd35665d6caa6671424f8fa487b8d9d9da0250e4fef3efaef66d61c27f507a1f4db76e34); (true, 0xab5210ffe7823b5bca3707e4958cc8047a9ced69d180f2b1bff8c077179cc014205c2e3c778a4d79c06622fd678c7d5c699805e0ef9d9ebb96c8cd27a369a7a); (true, 0x53fb880376606f128849630127bd1de75984d7ed4200ce8b8e3db46f31562ed94ed8c79b92f6ca36e7b93ba5034edfe317479d42da70f8bb2f60fb47768879); (false, 0x15248e004f7d5318ba5abee9dd0120a6c203980a5dbac6f0dd57c8f11edbb01e); (true, 0x3363522c3cfccb33b03811c43dc83924da66f87aa0098641c272d3755992d4cae30c9751088883b690d39c0972ee1744bc0a96d9d9359b4aa67ce148e3ff52d3); (true, 0x12c526e0e7b2da4179d79dffbf4fbd4d3ec3a42ed5243348846a5bb023f5eeca0fc82ae8d9626a0c0d44465ab64efcb2169fabd27a65ca38a833151a8763c16c); (false, 0x578dd146e80c3b13a04f118728c8f9a0afed1824d7ab30e3af9b146ce18b9ad3); (false, 0x4bb83e3e10f1e73f1fb4f5fc4d1ad66efe773abff04bb07214c92b4b4f379f0); (true, 0xb8f22f855d39e0921bcbcc76fbc7c3f398ccece061973d225b06bf0da600f080898a4ef44db374b7cff46c27a898994339df9a67c40db2fa6779d2e5d4b2ab); (false, 0xd75416a75b87908c4312074c51a09cdbec0661712de7387ec8f92166cd36245); (false, 0xa87fee9e0b309dd7c0f45f92706e74a9299e9e26092859165cd19c95e15163c); (false, 0x97a2b5819a3bf7506492a90f6bb3e6a57ca8ba518c46d7333775b39daf78abce); (true, 0x1d8d2ee88eccf77d42eedcefedafad79d812b22b03fd13ef1bb9dad301d6734533172db8e887ef9a6a14ab35b31fdce4462c257827e540e6d870715e74b1db32); (true, 0x18db3f820b3c4801f8c17229268a16705a3ccb6d2aac4489fc2f772cb78d682d33719dfa4aef33dfc7706d13d3af2325f5d95b48b5ff76608c6df3359323845); (true, 0x2047395bda9c42aaaa56d60c0091bea7ca7245f67686df6287a185bc14481f6798bc2a0c1d9f92ce53e2f228b25d6162ae5fd7af8a3b555486a465a9cfb803ab); (true, 0x2df0a3200c60a88456f334ef89a3f9a41e45ddf88012560342d48a1597a8cbd2cb14423d89bfa2351a8007866ec4310dbedead7b1ce88cc9881b38aabd672f61); (true, 0x19925002fe2de39bd4103aebc4401cd65376d963219ce38359a5b2be81075c932cc1a571e0d44ec83af61b96e5704a9bb2de9dd8f66bb1c0b94b40e9dfbda1d3); (false, 0x7f21a15e89b6ca02f6d2d88549d329bdb0954058d7cf2349fc761b4941fb64c1); (true, 0x40c53eee12b2a9a7351e77f3b067b280cd9dbbe5a9e155791357ee826d36522957e475dfa1f4c7569c8c02d1e55306fcf7229b84f9f0fc5dafe9afbfdb2c792a); (false, 0x5b9793800bec7e385d5b2c109a8e716df03b0639bf745bc835bcefb37cadf8ae); (false, 0x79eb5151bf3b3e3ca0881eca14751dcc5ef391e730b7e38dd26ad087a55967e5); (true, 0x22bd09bede4d9e7b5ceadb2c7f98c50ab302beddc1d8f3648063cddf0d90a8c71ea3b277cca0036449b1314630d0b9ae28896459ae84467c477f1af41f485207); (true, 0x8a709cb466a1258ce36193916c42665b6c5eedda0052c3a1503b1d338636374e8e7df7b38c17450f682ecf22be34bbce24496e3f3c33156f57b439195503e89); (true, 0x11b4f2bb3c8e493e87f7c7f7648a3a82d8a8b3814ba4670c7277677a3d5188f6e6cad84af3170e77de2be6ed0464f780c476ca64882ee57f9d50f25a7e7ae76a); (false, 0x554a384af54d0a0c3fe4483c09aed6d019330123e177de18e019cae9ae4f37); (true, 0x37493946bd784b1ef8b395ba49ac3a478822087ca3390cd3b7fda568a15b72c81535eebee17a775b5274eed604ca2680c19a92c949e0d00a967d6d746065cd49); (false, 0xd676e52eced5c2e632360c79cd3e7ee9a2513baeef13f91a5683dbd4696e5304); (false, 0xc566b26066ff981352634780f5256ac286de9ec628695b485e594a65e611253); (false, 0x21e9c9920b99e8700508e053a4c266d848905b33047eaef7d9fdbf0881cb2b1); (false, 0x3ba4a4814c23286ffc91fb7baebfa03e5ae458c9e6ba4d989bc59e2fb3af750a); (true, 0xa8def52fab5db9e22bf2d82c0df229e413b713e72bac7918766a894db0180374fd47eb436b9734b3abfaee1d8913456f6f2dc4a38d9ab2dc96abad6d79b59e4); (false, 0x58d3cc523e653c40f1740eb63bc3246e872c020eb574586c61d51cc18774ae7d); (false, 0x2f44991488b882d989c1090d5138c526e1825d9cceb38ac027da2557c2a7db6e); (true, 0x17605575c53b702b8154fd3090569483b20110734f8b86baa21b6f7e57785c4427c30d9abc5b9b814e7888b474099d2358eb679ec2575730ec0ecc44894f718); (true, 0x1bf9e5340721fa59848853db3d3da63e708c77c3277eed77ee6955960ef2f25a2b163759e110a38c5c1629d157362ee62feb868e66067d09b6ae68b96a29ef52); (true, 0x17187263991d9395af7f1062613293c9aefc48e485f63460bcc112b0c40a5056aef031ea30057fbcafa4723fe165909bc586c5765f87a0641c1f1beba09b10f); (false, 0x4e15e3a92ab7530cced353ec4b91066d44abc9a2f354dc1bf32937d4606ef109); (true, 0x3c7dfde1739626d36d22b48fb6b9c88fe735acc4e4fdc6fd2b262bba94bb5ee8a863ceb0da12005a58df5937c5e0dcb85ec96fed42e8cb5c414a6633518051d); (false, 0x260dd753dea576bec620e9b6a6f822e5684d52b383fe4d9ca8c45401c1a05a18); (false, 0xf9a641750782f77efeb6de72926708f0fe89694708cae9b470a9178ffeeb139); (true, 0x83ec56605df5031a1446872c495f19f0c6810a9a0fdd3993138f94b3ec883f034e3297ad6ad17526fb2a85ce37a953b29bf7a5ed9110b2ce7ee56603a1d5fe); (true, 0x12c3b787d2a1b9e4cc4c75ddbf86eaedd969927e7d0e3311caf95aa1014489d8c3695ea16df398e9ded1f38659ab791432cf6483d08920755ecdf56fba11e3e); (true, 0x12a740a16ca6930874c13cad033351e3ba45f9b400eadfa407be83577bf8ac5ca9f6166c3659cde5545206ee5fcbf3887b8e12134a4fe85f0002d8d2ca8befc); (true, 0x73a0895c662b602afa4b5631457b3af76c49f4ee63f59e3d5088bf4b0912e887f9b2159fda8fd6a4854c3204f771bc43f57e5f30494d07f80e2058ef37e5ba6); (true, 0x31983190ee0bcc61d808f685c3135fe3a4fb0d3dce3a8d114d626b970102702bd9d14c86379d4fb67205d9917569048a59a20af69b56898755e1b354d0bfcde4); (false, 0x1f095d85f10f2dc7d577a78a745a65de9618078f5629c9487af524cbbf956fd4); (false, 0xa555e3ffb58f78ad5457684ba660b825ae71fad501823c52c44e208488281a40); (true, 0x6276ca075b329d1710db0ef6cf940fc3eb433e0567675caf03476af772575393e09fb88a7c3bba1f088de1aa7e12dc948a5c8a1a3a65b38c1907445d90e70fa); (true, 0x305c0c59f11f1a8a7f0b1a05eeebde8deb2b415699a0155985d0f85c05d832214019e27cbeecffc6397c586190d60c0c786f09a257e018ee19cd2ac83ef770ac); (false, 0xda33e7b59c857334593ae844db319d1917252341f9a494ab160a03355bf51f7f); (false, 0x4498736e8234e3df8834ad47a54213cf55e273620fa774e4ed804028ece17d5b); (false, 0xf8756ff98efa300a9f92e79135b3bd3ce88ce84f72f6dcb2308d8b0e7bd73a16); (true, 0x35a8abdf16bdd7138292f4b7c021092564234961345a2563c6ed489dd4cd5fd6ab36b16d0bf12fc0d15d4fcb0d0a8aefd8c31a4ed99296d77f3e1e71c2bdf05); (true, 0x2b4fcb300d94e412ddeae1796f9bb63f527ae95ff60a419bd6cede59b46c3f6ccc9df25612ee841080ad3aa9a4553e194fc825f4bd69cc22d92e9912c23e9224); (false, 0x644284e777a90ad2f906aa8e98b0c29f2c4daf80471643bebc4a2c78adb3669); (true, 0x2d6b20bd98d893bb5173cbf6ab30caac7fcb2323ac49739b0ad24b8599b09c9ee367d3a326c0bc6959ba65ed16d389416c57bc6e0805560e892466adff41332a); (true, 0x421db148fa43ba21814b54e70a4b16069fe10b4a9e4e5695e151804d70206ef3a2fec07453ff82e13401a32e05e8f011992ba6298649d214703ebf54e8bd5b97); (true, 0xa5a911e5650e995e42bb1bfbb63a0718cf65aadbed171873b472ff5ee0b636428dd0925827e766020a136facd814925225400e007b1f4318f4e9d2f17d73f81); (true, 0x1db195d70ff9d1559a0cb0e3512c050773c9f3a1bb8ab28c5fda964f6d6310c554e74a08a68e44dd7c9d121fc41d441b02a83a377d1710c00875079e0b2a72fb); (false, 0x121c01e359ee14d05af236c6e175ed9bc39e6937ff3d26336cd4b62cf441b52); (true, 0x12b740ea116f8536c4c69c302d4716e03857f6258b2c433bcdef609d6ca107da8e6b59710a6fb1ee1f12569672e21f4119ed6c21c8dfc78d9719cfb6ec1c5589); (true, 0x465df4c3423065d04dca7a1abccf20a8bc26bfa83fad60ff256836db8ac7dbc725e88c2cd27fa25fcb6dee89506a98b1ea6c7f1287258591980e34219a5488b3); (false, 0x1468c2680082416696f22d7cf10ddd37c179001668fc894a82731239feb8a10); (false, 0x8c1aacb3c69c31c08f7984c816b935e30ccbdfc3f12a704a26f99d94cb21f43b); (true, 0x7e367b39700b5423afe380b8a21f8ba4034551fcba88b24b60d8446f254bfd00adb24245854480c3a47bb433757be71177281523e2caade205e434e8a14bb46); (false, 0x1bb6f713cf755e004950b6c982b9b3059f26e214f73e22521040b9373fd3284a); (true, 0x1beb8f38164d3c8679ac4a3c4d84ae937f9d4d044bfb1048524678c49dcc301e33fc059f0fe44bd7478a024cbb0ff3c7948f8864f1fe1bd73c3f05a58cdeebb9); (false, 0x59da39f4ae79278fc848763540090ac0949bc40bc8bf856dd069dbac9492fb4); (true, 0x13416c0b736bf568d2b622480bc6660de3b6abdfee5392fef3ed8d172fe568ac6a11478593c894cac2809d833ccf8ae4a9cd5ebd1d3dadc2fc007bd0aa4325f); (false, 0xc256ce37883baf69f88dd52cdf8376fe09d8be95bde83cac220cf9bba423c59c); (true, 0x38601a13b8034bd6ae3db8bb26f696493a5524dd2fbf056522b3e767576088c41bf706a0b7897b492fb15a8a7e8d19889aa449f4ade7492ac8d4066ebca6045c); (false, 0x44660ea46dd124edeebc88c7a3dcae99da3bea34e581ab9e2eaef2e5b3f22c59); (true, 0x106d72acdf2e0754372010ce8526a9b2fb09d5a1e777571105881c0aaa470baf0683b71c6da11ff9e87288934a0678dee411af6f4deece099e49f9c4cf4b5a49); (false, 0x209e692bd78a9627763bff87fdbcf08928bb4120109dfccf9b8228db70a61633); (false, 0x3875e886895e18d72e35919b7ae4cb52b3b142bb0b8ce94aae6d7c60b867d03); (false, 0x17ee6ba9901097affb99e4bb55ab77d40b5d5b81de69e80b901f0a8923fa10db); (true, 0x1f14a262c74ad24415dff8099161113d8e46d864c94a6277bf7832128e4e199d2bfca76869613d16c5efcb5530aba38d1fac5c6a164f3d1983f94eb1a7deb653); (true, 0x1f122dcd0e7a6777a1fc47c12afe4fe8fc5f53d9992c193ae888f34aff42f66af825520e8611ac31ebb1c0962b884efe2070515a43da2fd1a23dc903643ee2ae); (false, 0x7b11c8305b049ced1fd1d97db2adfcee93853ec8716bfe1527e3e8e5b01dacd); (true, 0x22ae7efbf40854c055c3ccde128d5590d86f328e4d3fa704bac3d97b08078db0e2f235c499d85ddcff42639432ece1c40986f5e4a8d3db54a71e7b5c1cabd6); (false, 0x4f3bfdbc7790474368d4b00ad3757f336acc121339d10afd50cc498db5b4de5f); (false, 0x566877361f0043b32617e42385f29caf3b8b7d658938e7e801a2bd50fc5957f4); (false, 0x2aa8a040bf96308ea0f63d074bb9feb61a0fdd17116179cd5342d30fdb02b65d); (false, 0x6caf091822aacf713eeec485670cb1d63dfce486eda7b81b9bf0c5d66addeb3); (false, 0x11cb7fe9babc3ad8bd8cd068f276254d3ae5366f5e7c7173e0ab31a5d306c72c); (true, 0x37c45eea982e25d1c01278ce81b33b9ac3b08f77e82d299c67033f8c6a5e11ced22207452b473b9d189c007e962f00a7855aa57b8125355a278ad4a0ab7e3477)]
    [(true, 0x0); (false, 0x90da5385ee58259f3390d485047059b429c010db4a36cba21ca13d4838baa8e8); (false, 0x5425f6ab116ed06cc125f5760464eb18d1a722f8dc46dec80d83ce28aaaae698); (false, 0xadcc41752f4d6b46b1d4d6f9f0359268ed368095fbfb3dcaf39fcddcdbd1e7c8); (false, 0x4567a223eda66007276a4399e310498068910d3cf18a4921ed25c0111cb999e); (true, 0x73f3d36ec913b227f934144c762a36dc632c31c50fc0369bbf1f3a7144e92d3733a4fd8d542584b7b81ddcd4f6c9707666fbcf032bb36b12388c29e49696920); (true, 0x1fb3d7e872c0293e810bcc8978db59940a8647765e9460078c25e0ac869d1baf5046f52d78f4548d7c53ae5a4937808d061fb3c4c292455b6aae8b0ed488de4b); (true, 0x8f2ad71167169071b00c5fb22a3560c077f8b50a668d154784afb70382de34d5233608ce1d7b64ad9d4ba3ca14561fcb939f382cbd54d31b2b8b329965f340c); (true, 0x53ad3a1edcd0d447801f890b3f26ed57a969688f222584425f4ec47f1ef3d1bc45523e2a0723a5b7d8e18bc757e68c1d02c9efc739db49224cb19ca926ceafec); (false, 0x2e7a659957ec385e75d7dc4c0c65bb8f08135ef99e20ccdd78474c6ce7b78ac8); (true, 0x7d65d04a91351378e64f8cdb0ee5be15182df8e885c0788b1287d3c0b38abbe1c0c748fb88239526a66472d897634fc736dfeae8419cbda95a5980ace07655); (true, 0x4995b3ebfcbb53174bd9c6b4a26670296389991306b9babc4112935ea21048e128f565c6597624b56635f3a832a8cab5f03250c8a15f913c0f01d215c6ffcb08); (false, 0x11b190ba52b12b24e85becd3748f2a3b99a4f8454c359d003056c65cf9e6fad1); (false, 0xe54e25e7b38a456d485b6b5b221fbf7c98d742f0666e9b5958e4f6f633eb636b); (true, 0x515aa79db4a9491b1d5140d73bfe46de995ef967b817d9e2a0a866b6104ec36708683dbb1554a9b03cc816331e26aba32b3e2ceda0dd51a80dff50c0d9ff0cd9); (false, 0x561e46b390d46e0f8ba643a69917153ead45934b9e0c3f02e243fe64b24242); (false, 0x21ad78e75f07ab7687dae9e204d118aa6a2d08fe136682582ff8a46c95d70d8e); (false, 0x85987e222659645da981c4604c4784510dc3ced1b4ff4dc81081363f5fb60ebf); (true, 0x6cee6abd2757484dd3d3dc08577ca1fb84acc9a3c5b067adcac780568dd7e7c44665b7eb18f42bdbc61cce0d11c3b00891dd96c900c252b7300093afbeb53fc); (true, 0x129cfe43e10881376d54bc020401daa38056fe78e18ae0baf507ce9b09efa3f4a0aead658433b8cb1e9fdbfd8ddaece5fa71b7c56dbcc252857ac3a0eaa3637d); (true, 0x85f657634a2b7c3158fe7806afc4d25afa3e84f3d3edb1ccc96996e798e03044db930eea6aa1560257724f0897d048b9f5215830956a3fba2c9bc75f87e416f); (true, 0x146b5233d18f5f2351121a674d969bb530158408ccf6a4e94bb568f4f6152ab3d6059bee36f364e906bca8b6fab8eb20d1bf9f62928af339f221060500dc7f6); (true, 0x497a1870754bad76dc3c4f807f8c4a1125a96d312b8874ddda6b02d33e438363b6960b5e44ad09cc8d91eed5df501b77c93671ead6816cd22d3d1ef43e0134); (false, 0x6ad30aaab5dc846b96a1e1bcb4e9e8058bd70c6af2f2aa11cf6e32bda19bad85); (true, 0x51552fa2fb73a190dbcd181376d390b08d2b5d002e71afe8a3bdfd3949c2222832b6bf3d0bfd6416a8f4ca8a36f9b91bf87e39ce075e7a23850de0a2cee95e3c); (false, 0x52fdf6de3b66cc6448abb406425dcd41d8f9600aa8c321e692669b4020edc95); (false, 0xa2cfbee65208f7f57afeed228d930d48d3a53747cc6c9bd9e2ed946a26ee94c); (true, 0x1685cf0cfbcdde50db72f14b7756a50c2b92656397a2d2f492446ee9c7569b4ebce189d9e29f16bb640244df93f5867819af6d1fcf6668d8cd4b59f66210c0b); (true, 0x181415db151eb63c1819893c718157bcb9e67cfefa211f1967c8f1738f4d18a08cfcb63e3f797794b44130a35c10523857e1324372d2dabaa5d7b1c4b49d1278); (true, 0x9d940e598cacebf2720f37ffad00bc289f42457f6a687c3ea6747e73c0805e591ff522f25b18b2e3e0c8fb5364c20a525ae576c51ed3e6e5ccbbf5f9e435962d); (false, 0x1df08288a69112547db62c2d95476e78737eedd5c1fd9f3fade5bdd75c698892); (true, 0x9daf844349a7c1f619dc9d4223ff8fd1c17e58db74cf93854aad4fa949db79aee5ee8bcc6e18d59ee7f8174cc3ed76ede153660a81043ed280636ba78c224b42); (false, 0x1181250cd50b243c6377aa82b0734163b3a727a26aa9fa64b16ba91c2e7997ef); (false, 0x5144dba07e7242ab1593db9ffa7edbcfdce0b89d6540d6c0fdc67a428ea7a42); (false, 0x465965f140ec398e3bac23cf6168812aea1965d017921605d6d94ed74e60a565); (false, 0x47dacf18337a0c83ce09ba0b16b07ef852dc4a0d09d79e34e77e2d362ef9ba82); (true, 0x8745a85b000e66882d3900afdd912bab30ddfb1cd9e0204503ea5452f295b10f423197157ed63982bc5afc4edab72688443287638ef87d6e2ddaa908ebef8e8); (false, 0xcd1e51525426499173909aaac06a90d44eadca35170cd227ec51b7bbd2640bd); (false, 0x27e41aa4569f1f5bdb53c148ec34b6f5e41115040ea46ab54e7b1b2555831d40); (true, 0xde990d0d9ae8082754010b443f1437e62001b247b68bbf8b0f4a143e31ec58a94598ac6bb14822c4ce98e9575962897987157a5f73ac8f85476e946f9fc1c5d); (true, 0x4295054593700223044b6679592f288382bd45d433594ae1101cba8a0116e2e06e0264cd0e05ab2e48aafae687f51bd201f122bfe5393b0a6977d1712c7cb888); (true, 0x3e963df1758410563a7e812b92d98499ad5f426fe2e68793d702cd3454255cd8ec024838a5b78de3eba47999e0738cb2361af624826f16d6819ccbfbbbbf4134); (false, 0x70681d2c19012ea140b2c6bf1abcd3c9ef20c70cfba617e9606ba1f8d1a0d04); (true, 0x453440470464c3fa7037757ae5d2e649a1ab09bf43f5463d1aa9f9b18bf44e87978dc90d951de87046e89c31588abba57aacdfa3ebd2a2153af4c2e629343ad7); (false, 0x2d4c9b1c7b9791dc8b1e30fd15fd2941f32217c337a81ff7f90cf2721797cf8f); (false, 0x96041c9c1dbaacf37873afe7a6d6c101dc8a87a2057bdee1bc35c0bffe3c744e); (true, 0x4cff3aff142284ed7aef1f13e476fc41b838686471b03d2012712baead8ba02d19b46d45c59a7815ee787cc93568f3d55e79e33c2e95a25a5aff0595393a31); (true, 0x975b3c73e5edff869131f43885581ac671f8aa76371cca9e447f0a2ab993e30aa9284b559080d27e1dc7034218715e616f3e0157073adaeb05a008375a39af67); (true, 0xbc9726a98b9ecd56b7c0bf915edd277c52ebf2545c9d04354aadd727df5bf9534d10103570096ac75f6e1faa221b545f7e20791945a4022cb8a2a47e6c807d53); (true, 0xb160893d9eb7b09b8a7fbd307dccbc4aa679efb64d3c60eaf003de3d6e1dad7189e50b938bd883abc4320c26156fd416dd191b9b7d7fa4847b09939a640547fa); (true, 0x7cf46d8f877a834b3ca4c1c4b1fd08939ee442b928abcbc9539d2b26021b43a6e401055a1e383eb5818d047855ac1a3ccfa6080bbc201a4cc8bc3171f73edc00); (false, 0x687aac09ee015807c699ae9aecb02374afed08c3bfa77504721ffc63e5ed3150); (false, 0x6d43b17bf75325411aa5432020eeb5aca226cea359005c669228f09e937ea83); (true, 0x9c4d5b32705844d2cdfe86a6cdee25dac880fef81fb23f667fefa09da929345ed9ed0b248df81feaa9d5666a5f019dd4496df3673479775fe1d127815802ff98); (true, 0x656b81e1d2f91450e209c211db03da7038a0d0a12c9cc074e7fcebcb955d40f067463765775730f1fef7e61bf3414be6f38a362d61c86053e99072494270c23e); (false, 0x2740e767a38829dcb07680b0394f47d8d77a35255d0a5750008b23bbda955bc8); (false, 0x1a09757daa94bbe5f760520d3ba6bacd33d51214a270eb32bbce1276f40892e0); (false, 0x78854ef502937f3727df68accac60ef253f02902fa58fb121aacfebd25d4e4ce); (true, 0xfa93e1e31e823967f0068eabc9a0b31a2ffbabcc9d3198aff59af1842325da4c038c06f087b4ae8fe4825a43274c66033b960916b18e3cbd37646f26924a82); (true, 0xbafed99c32cb069a71f278dfc4be2f5b69bd46b91a1aaca48603d78ce6f0e09daee28a36857ce4a4d777809ff631b1c5583e5a5c830a30d0cad0a57b9c6c46c9); (false, 0x188981d678c22d35f679ad47802f6c18d870105ce5bef5695fca0d038a281a7); (true, 0x39565f2274a48c02b64202a25c5734f9a0b62859940cee10fda613c35f968fa51248c4ac2bf0f798a84bc61d4744c92a3e3cbf098313d64a9c97f8da159ec5); (true, 0x44c4ca468cd4cacadedb09d7526ec619eecfd6ef1982cf73965ea74d3aa208c4f2edc4b0224825062b6f1b306902440e7359f7562062a33d483a2eaed967c3c3); (true, 0x3fe3976d22ab0ceb85a04be328b090ce7351b849d7ac835818e7f1124914f2c75d9b0e50eaf556ebcdd8f800e7306310c33a19a434f8d82b9538f798f3349462); (true, 0x452280f9e3157c9a74552278688007318b43bb41d0350792d726cb6a394a8ecb61fc3d43290315b9561c18d449b9cd806c6ae4fd9aa3ccabc07c550f2afebc44); (false, 0xacd1252c97c4f38183950fab6c82c80902cde26daac01c72b86e8d0b5fbad3fa); (true, 0x1ac1de6b65529f209967eceff305c584d43e77e43500bf333193fef5ad3c80675098a0b6fc453d51482b3eff2da974404ed39e19054a401af22d881dcf6ca0fc); (true, 0x6adffbfe6c5923f3d394c3c784216e23bd8ec0c75e3d491422668bc27da4744eb4790e02e61bfd5b851dcb1d77d2741423f0e7c7c8230ca8832de6cc0a14ef8); (false, 0x23d13cd4f5a98da1ef7e6eb8752962380cf801b4707337cc1b2af46a1b0a4a62); (false, 0xfc0236f0834a5d908104aacd35eed9f335123352cd1b82c98c70a5c81b808ffc); (true, 0x29e1fa8a1e96a3fcc5f6962e1c0a16a86488aa69262b5fc6f0a988686c32403c0dce2683b9651fbff68a4f6f03584aa57596f6a6732201067403ca789b8f76ab); (false, 0x27e61da21cd9b7ea3f8002a0e97357312e6e7a4a2ac39596217a17efbe18d59b); (true, 0x87feca1d3ad4f6f8fc0c3eee7ebab7211c0519d36b2c0a22ae163d7ca4b7f20ebeaad27c9f2e199bdd7cd8cdc46e0653647814d8b023406a4e2a0ea00dc26fc6); (false, 0x124d3b0544e2e22f33ccb96a0739024615ec21466bc7780d48c2ab006ed7c305); (true, 0x4ab79ee233f96bfabc9c8146cf6065eb5c9a6f7cdc9425cdf0b8921cb7e1e6f59a6b70641f0c0cc2b2a3093eb36135c63c3838112c40d700c2b3c106d3fc14a2); (false, 0x29f3a2e09a8126d1cc3f1ac9072bba980d08960a8c9fe57aca383652e04129de); (true, 0x1b3a0418b26c864656e9c8652a5d61df713e7188db3115a0850e2a82f862e10ab3874eff3a3a4b660692c0c43f1248586e6b60928fdaf290385070342130f84); (false, 0x1693706a19628efa5e729cb8f14d4f0df66ecc48eb48ce24665b10223a3d3134); (true, 0x24f630493b5176c3bfb52aa32be5ba4267fbd90f6f336f8d506c65c7616a8f839bfd3fad205187335f60ae71ae53bddb52f8a9dbcba774e058dd6c046b52c361); (false, 0x47df89d1d92b16b91597d2629d3b51e5592fbeec4b3cbee001cee8ce4cbb5b50); (false, 0xe6141a22103fa6303a5a6cf0d7f917f82038e78fe7bfe369b26281731e498502); (false, 0x354dfa0ea14ac14655b604c9aa74dc2e5a4b14b369d84a3fe973527c3c653e63); (true, 0x201b01de8c5f3db0792a0434298ad7d9c4ba79732151e81c1cf53962e56df14e54bf17a81f4a3aea910ab2b049ecced08eb9ba99e9c72f557a8e3b119c61039f); (true, 0x39c031e96b0077bd26488f509caedfb19ae98a590bd4d94a25ed58d88ff7d59270eb765f102139b0707f9c5eef0aa69eb4766f9c36aceba4a71cef5d91919f29); (false, 0x6d77412d5e8e20ddaf2d01cc925c91228de55d63889f3498c373064fdb09bba); (true, 0x4c47dba96adde006b701199ff0457541af4eb6e58f1eb4499fee7f0fb4dee36a4745233f9a109b5b5791a8a830086cb3ea4e01a4c7275e0c9b5f4e2c051038c); (false, 0x2d60303dbdffc2bb6edcae56d1bf1f5b589ebdfeaa6b84670f19c3a3713e0d41); (false, 0xbeea7cf7ba33a01a12f0e74140c2cc4b6a2612666acb011e0e4f1eb5ab45e363); (false, 0x51d0cb001eb7063d4b708e906ba5dc82b78d7502971f88dc08a31052ea5367ca); (false, 0x171c0634e7dea48830cc145ab16c7df836dc374a681ff8f6aa68b8691e98b5c9); (false, 0x7ccd02b72b1c068930f8bd1e151899463a1db690cbabfa6e42390f3d2af3e2df); (true, 0x97f331ec4b64c0d4455931309b7f23950bde848f13f18ae8e7c7109d02236b23f26b3b40cd196eb8fbf040b01604d47d58d2d0ea9fc53fa1b79b0525434e766b)]
    51921223869577043025896233410665706485550009771255122920941358412934482395187 (-39056061057604895623894328425221634065315908529882929548383616334901599789017) 9631013060085677371482002832704039550345574303883859918124457045788451041694 (-6306846593464998713267894978977654199470285288516574978017596443495004344351));
    [reflexivity | exact prime_q40_11 | exact prime_q92_14 | discriminate | vm_compute; reflexivity ..].
Qed.

Lemma prime_11 : prime 11.
Proof. apply (trial 11 4); vm_compute; reflexivity. Qed.

Lemma prime_3769 : prime 3769.
Proof. apply (trial 3769 62); vm_compute; reflexivity. Qed.

Lemma prime_q28_8 : prime 204061199.
Proof.
  apply (pocklington_split 204061199 11 3769 4922 3 60168761 31745931 56016089
    [(true, 0x0); (false, 0x0); (false, 0x0); (true, 0x0); (true, 0x5); (false, 0x5e2d42c); (false, 0x47992); (true, 0x1deac2aa); (true, 0x4ce5d68); (true, 0x1c871d52); (false, 0xab112a1); (true, 0x9d10906); (false, 0x7800718)]
    [(true, 0x0); (false, 0x10eb55b); (true, 0x5673f75053ac2); (true, 0x1ff1534e3cd257)]
    [(true, 0x0); (true, 0x3cada1046c02a); (true, 0x7917b16028465); (false, 0x300b701); (true, 0x29ea8f2e97f661); (false, 0x98545); (true, 0x2f33d76db5503); (true, 0x67d5a09e321f3); (true, 0x1b0fec02c76eca); (false, 0x9804f49); (false, 0x2ac1a3d); (true, 0x1778a2cba6c40)]
    [(true, 0x0); (true, 0x8e984a4bfe76); (true, 0x1c934dafd6ec3); (false, 0x5df2092); (true, 0x7a2e3ce21b72); (false, 0xc18635f); (true, 0x1d1638f04f798); (true, 0x4c9705920185); (true, 0xedd902bed07a5); (false, 0x13fb0ad); (false, 0x190c6); (true, 0x146b7071178905)]
    89683642 (-13952141) 180927367 (-49665705));
    [reflexivity | exact prime_11 | exact prime_3769 | discriminate | vm_compute; reflexivity ..].
Qed.

Lemma prime_q35_9 : prime 34282281433.
Proof.
  apply (pocklington_one 34282281433 204061199 168 2 29889646155
    [(true, 0x0); (false, 0x0); (true, 0x0); (false, 0x0); (true, 0x0); (false, 0x80); (false, 0xaae74b6b); (false, 0x2dfb40d0e)]
    [(true, 0x0); (true, 0x2a39ae259037f070ad); (false, 0x163b73f35); (false, 0x2f80b8cd); (false, 0x2496f5fc9); (false, 0xf8209a77); (true, 0xc3cc521bd801d95); (false, 0x9df8bc56); (true, 0x34ceb99970598713f2); (false, 0x63465d2fb); (false, 0x1fcc376); (true, 0x1fe9e7148402ce2099); (true, 0xa0d8cc048cccacfcd); (false, 0xac0215e0); (true, 0x272dc12233c4040675); (true, 0x1c870c0f00ee71b2b); (true, 0x7ed71b5033b194a23); (false, 0x3ed152549); (true, 0x34e6929d39175e1002); (false, 0x341e2923); (false, 0x585dd676); (false, 0x356bd466a); (false, 0x43f0572c0); (false, 0x110dd3ca9); (true, 0xada2d264126287a5); (true, 0x1485ef0991b99e4271); (true, 0xc8d85cb52e211400d); (true, 0x15dfd31ef7bf6bb8ea)]
    5692688330 (-4963276443));
    [reflexivity | exact prime_q28_8 | vm_compute; reflexivity ..].
Qed.

Lemma prime_173 : prime 173.
Proof. apply (trial 173 14); vm_compute; reflexivity. Qed.

Lemma prime_3677 : prime 3677.
Proof. apply (trial 3677 61); vm_compute; reflexivity. Qed.

Lemma prime_q36_10 : prime 66417393611.
Proof.
  apply (pocklington_split 66417393611 173 3677 104410 2 57881791380 66219752670 43034750751
    [(true, 0x0); (true, 0x0); (false, 0x0); (false, 0x0); (true, 0x0); (false, 0x4237); (true, 0x1821b3f8a7); (true, 0xa18021cd4); (true, 0xb0b3f508a); (true, 0x83d19b2ce); (true, 0xdb6662441); (false, 0xcc2bb6b); (true, 0x1173cf21e3); (true, 0x6380e21e2); (false, 0x9405b221); (true, 0x9c980a87f); (false, 0x226dc58bf)]
    [(true, 0x0); (false, 0xbbea53518); (true, 0x846f845a357c1fcdc8); (false, 0x47c497aab); (true, 0x69a13627a7e33200b); (true, 0xc38a09b55e11455c43); (false, 0x690a4f621); (true, 0x78c7164d9665e16)]
    [(true, 0x0); (true, 0x9e47856d6abd9b22d4); (true, 0x38eaef646acc117541); (false, 0x55d00729b); (false, 0x9103b6db); (true, 0x7480234684bc5bbbff); (false, 0x83517567a); (true, 0x8c70892d5dfe97cc64); (true, 0x3e9629d4cc42171b2f); (true, 0x476108538abbb1fe7c); (false, 0x3cbc5ca2d); (true, 0x2adac40de3c12963f)]
    [(true, 0x0); (true, 0xed01c88edf6f157b70); (true, 0xafd5d729e935837d08); (false, 0x383a8c3fd); (false, 0xc8a6f281a); (true, 0xdea58f8113c8ca5aba); (false, 0x6f0c6af38); (true, 0x5238336ce127f196d); (true, 0x3ee89023362ca73743); (true, 0x6905a4f429e305ec5); (false, 0x24ef2d3c); (true, 0x1f1afea3e49a85f1c7)]
    49445954925 (-49298816584) 13216419853 (-8563499759));
    [reflexivity | exact prime_173 | exact prime_3677 | discriminate | vm_compute; reflexivity ..].
Qed.

Lemma prime_q44_12 : prime 11290956913871.
Proof.
  apply (pocklington_one 11290956913871 66417393611 170 2 11005834445932
    [(true, 0x0); (false, 0x0); (true, 0x0); (false, 0x0); (true, 0x0); (false, 0x0); (true, 0x31dbc55e42e); (false, 0xbb413be728)]
    [(true, 0x0); (true, 0x61aa37181fdf14f501b911); (true, 0x11c914fa5d55e46d599e77); (true, 0xc76a062d2e0424405cbff); (false, 0x7f9d9c17b36); (true, 0x21e838fc5d691dc007ae80); (true, 0x70e61048701f58a2ad6cf); (true, 0x1fbde41bee02669f4f12e0); (false, 0x18036365e9c); (true, 0x53e2b993e458b41d1cf62a); (true, 0x1ff3d20bdad32deddc7c8f); (false, 0x8876ff73b00); (true, 0x5236dc5cd15c712a7d4039); (true, 0x13c03eda9485644936e676); (false, 0x19ab8b5e2d0); (false, 0xc2d6ba4a19); (true, 0x13efd399ebdf183dee71e9); (false, 0x286a6378e4f); (false, 0x3f2b66a9841); (false, 0x25bb7bcc213); (true, 0x1903171b7a2ac5deb4f29c); (true, 0x5a4e9434cf0fb71c39723); (true, 0x469d356a671bd5ac54ac96); (true, 0x17dd8af74397b2ddc1855); (true, 0xcb2f82b1a0fd6efb3998); (true, 0x197a64b105b4b4cc107d); (true, 0x62e3c1ff7b065298523b); (true, 0x46876dba3d9c6bb8ac41fb); (true, 0x24ad343cabad374d44295e); (true, 0x7ff8271698eef164d0b25); (false, 0x3f1c764f3e0); (false, 0x38be281a596); (true, 0x456118ffb1971520eb43c3); (false, 0x5731744249f); (true, 0x38196914280ac3a399e063); (true, 0x5d3e28d090082600ea80c5)]
    4247528171144 (-4140268376953));
    [reflexivity | exact prime_q36_10 | vm_compute; reflexivity ..].
Qed.

Lemma prime_q150_15 : prime 774023187263532362759620327192479577272145303.
Proof.
  apply (pocklington_split 774023187263532362759620327192479577272145303 34282281433 11290956913871 1999647778344266217114 2 382856780726745578423543748248074185762066565 62363334908586357327233683356375951471604756 698029168169450376428688776093377774925254396
    [(true, 0x0); (true, 0x0); (false, 0x0); (true, 0x0); (true, 0x0); (false, 0x0); (false, 0x0); (false, 0x760303dd850303dc9); (true, 0x15e80dda47db44d41abe4defbf493d23fe174e); (true, 0x4a7089c049c5c0545be0ac12a8c95427ba2a5); (false, 0x3648f8033803857fb23533d6fc6125abe2e4d); (false, 0xbc893373a3c65ed671e8ed63ea9e1ebc54f); (true, 0x8c155089df3ceb1fe4035a598f09fbe27ff3); (true, 0x3aef0fcc6db335515a40fefa9e832eaa9a7c54); (false, 0xee63e81bcb5738a82e2806ea8ce0ffa29580a); (true, 0x42636de4ee8a57707f85af6b37d6844f7449ae); (false, 0x163fc5eb434cc964a1d4cd321a94dc5f4c7a97); (true, 0x331dfa6f4d04cda4e6918eb6aaaf275944414f); (true, 0xa646e03ea28843a71f9725e23515e5184081d); (false, 0x73bb32111e5132b6b2207c8cbd28db62332f8); (false, 0x12881b8de41d3ef5e5cb4b764aaab0ba173389); (false, 0x215f8d5104d89d83a29ec38b7e66ebdb894125); (false, 0x8b698d3c25d3549a0ab643226144de4a736ac); (false, 0xaac48630348d055f72e2830b51563c8f6d4fa); (false, 0x8e6f5d8e69288a57d99078b172fb53183b327); (false, 0x5bc9b294cde1b6ec3eb75c1f6c950b1081b21); (false, 0x71c38e1ffb60606b8218b363faa8a89204be); (false, 0x628c96910e098a466c526ff5c27e41ea19bb6); (false, 0x10e4f5d00c67cb8d70309ff9f3969a5a4a5587); (true, 0xfcd9597ec7ad0773ff960e6242f3e57775152); (true, 0x36379f313c188685a50ab8ebdc90e1b5f9adbf); (true, 0x1405edc71cf9405a4d706fe1b3663cfc88fed5); (true, 0x3a6e7c5ba60b2071920f83246f32a44b728660); (false, 0xd466e4ed624f507785db54108cb87896463c1); (true, 0x418bd274b9bc43f89923f8095de24b143c63ad); (false, 0x21c81723d97226ef0b5777ac6985f27deea89f); (false, 0x18aae9e869ead9ef9ed42ed60ff986e63489); (false, 0xceb34b1ab8d4d49c77569fd5aa3b4df8c5685); (false, 0xb480184c754cb5eb53cf7f71d55fd766a6d63); (true, 0x52ebbc8c6fe3dca5d19391020fcc916c9d837); (true, 0x4fa3904136bd0d2ff72fed6f894bb9ceda); (true, 0x35b3f96d3628562c5ab8964f7db4b4be43b6); (false, 0xeb883790d721d11effb7b68704ddd4e268782); (true, 0x37eb99e9d28b988dfa978dc4d8b1d6fa8dba1a); (true, 0x237b3075003f4b9d061fcea4a425b2b359f638); (false, 0x542642014967e9f6465b2b948a04955d3cb3c); (true, 0x97424b0bddf2bb21f580fa72f7eae418b6a51); (false, 0x3a912127d0ee9812e4c26e87697d9ee8d4234); (false, 0xe6cfe5d65b6751abf80795c21fc9fb9411a99); (false, 0x60c3d20e3c07d41062d45752ea7dcb32ecf0f); (false, 0x60e67d451581b9e5e3b31057ca3c94a1ef32); (true, 0xa9a65a34f99e3c5a278b467f0a91aff7c9a60); (false, 0x93a07c699b17845abe027106f056972d50b0e); (false, 0x1f5d58755b932afaa33aec7e9d1278b762de23); (true, 0x466e31858f657faf17ce5361949ab460b7cd1); (true, 0x2d21d789c61b7f315aff53c2c7c9c841d3ad6b); (false, 0x2be2b0dc7cc12dfecc8f59176bd0853bd21e); (true, 0xc7ab76b0a363013927c8d4112968b59565974); (true, 0x3202977c7b54a71a9577cce5c45f8fe4760c24); (false, 0x184f1cc2890b8bb35a93113abe8fcfa70789a7); (true, 0x1719d785e8c03d138f20d380c353b0bba9c093); (true, 0xda3fd56fe227d10eed65848deeb55f4128119); (false, 0x73b9a510a253a4abea26ac688a29db2937c0); (true, 0xe10cf9c7a1912d84ab19896cafa715e7feb19); (false, 0x673c06078b9d416268bd81cf864f83236dbc8); (false, 0x1d1653f18d29037a20a65a9cf1b7d7ba15494e); (true, 0x346c8b79b647ad85cee3a4c83565626d349ddd); (true, 0x3ae7c14cb078b36cee20d1d60f9a76cf66cf64); (false, 0x8ebb1b0aa54d8017be919d5588544eaf66); (true, 0x285f5f4443a5a2ddd71f55f058532317758ac8); (false, 0xaf09526c22ee40f68b875650600c89b2928bd)]
    [(true, 0x0); (true, 0x91c94204619c4c4b8aca9af23b2e9e8399ec8805ac299887fe78340968e3338274a5d96012); (true, 0x1772f23e46ffdb78cc80862fcacbb85ec90f91f84d8d21612b1b8a753e249af8b76e5e71cd1); (true, 0x40c96cfb36d9cf91649048ce6ff2a43d461bff5b9a79054fd5afb6329600adadbd3ae6d657); (true, 0x2272a81d9d9186c87dd5574e076a90a622ce6796ca47f7e34072967f33f318999a28fb4eb0d); (true, 0x3f18a794bd801ac218c1cef4fde36e8d7a25f5566e09589323ad5c7d030fba2f23d1f0740d); (true, 0x52d279aa4d6969b386792a3e0c0ec299122f07f0af31491af0356cced0f6e2a21f6270f625); (true, 0x423710d1699e97f1862115906d7718ac3f90cf39525a0d0d3104cd653deee28f3d852d5921); (false, 0x4a6917e662c4cdedb7dca30be3833914006a); (true, 0x1254d62877c2cb9d7f4f30d0f7941cbe872a4c2e25b749f256aa72f900631490e4682551f85); (true, 0xa83697fe7c55caf6ffc70e9d35271e2cb46c907bfa8f897d9c1bd892e8209c822a7a267e2a); (false, 0x175ea615eb1528c337d0bb06be853fe96c746f); (true, 0xa50058dcc32fda6755e7b5746ea71d8bb62bb4867e7d768505f295207a692e502f6f6370e4); (true, 0x4006f92b38e2e55fd7a2325dd4980445d282e303d1fc8659daa0f7ced89185663d7b7e9cb0); (false, 0x2a01db54744ecff15d7765d2143701d972a); (false, 0x3d0d0938e3e93cd68c949a23ca648caa3eb52); (false, 0xad1ed321db6a5535f5cd1576b9c407ddaa729); (true, 0x1b33ab0aae4fbf02b7c9bb6a3790a2220e8e4edd7e3b4a15897179d6da6886f2ed890331); (false, 0x1b2bf7c4ebba7642d1d90464b9efd6afcf4d2b); (false, 0x281f0a480da7bc1c6e5ae0fc7003ed9c0cb4a); (false, 0x38c2b7ac590b8a9e56ac8d8a41a302772902b); (false, 0x92b8bcf01025c350f9df3270b49bd687cc790); (true, 0x320005eb86f038b7bd90231544e0b5b0263f706ea95426fab7334af71d2ea2cbcfbc574345); (true, 0x17679b6fdcb95815900785ea71f476d27d5e7b512c4299ce0ad2fd0c3e075af38f4025b91c7); (false, 0x1195023c3f0a3a046c6b1f6c16e1358b259c18); (false, 0x11ca599481981c2578c0c6f2e4513a3a197e8d); (true, 0x1f8d15c13b1b93f2163363490ac1e966a4996a47527afcdb083449d8af3feac5a4f6b1f49da); (true, 0x939b30ab267847069aac7f02e84fd576b1ac48030f937acd1438bae5ba2686d9a9587cd31f); (true, 0xf7178e30f064d3ac545d7ddd6144b192d687513a88ccf7cf7ab99c78733bbcfc74515639b6); (false, 0x8e4c37990d5aa7c90553605624ba3dcc9702); (true, 0x758bf8531940837613e7eb6e64ab5f273b516cf988effcdbe8571a91eaba65b6fedca36dec); (true, 0xda5a4b30e2ac2509787000d122e23e8f23bc955a4609a4742b446d745d58a07efd18a13f2f); (false, 0x2240b63e4515f8a4697a25712a7555d42b7670); (false, 0x1c2875138efb9601bdb2136d57ec99453d98f); (true, 0x143b7bef9a22c3e8341e3766b1d9ad9815ca95288798d67d26c2fd2304cd26b9f230c085c07)]
    [(true, 0x0); (false, 0x87de611fb51e8bee2873ddee57f55b6cfb2e0); (true, 0x1f20039540644a7d4dc1b20e71bd60e9c2286007724c2fa61fc10903da5c6bb6ba4f3d6f21c); (false, 0xb0f123016810753785749d56f4a10405d2165); (false, 0x3913917d6a413c06525a3447cf6935595b1f5); (true, 0xb394cdd8329391ec3d9b0ecf5dfeed908df4bb45dab116ced5e179cf4397d6002e79833a71); (false, 0x43be14caafa42cc60cfc33ed8aa34191f773); (false, 0x40dcd830d5097f0aa42e16d733f4c52c7090e); (false, 0xffd5df8a867bb34fe74f138185c234b3f6551); (true, 0x78d051dfaa81bbb60f5e7884290f7cee9a2ef241554e2b74ee35db89bbd52cee4a586f092c); (false, 0x21cb61547c96088c9e36d02a550dc3c11e9b); (false, 0x7e8856315f8d34adc0761e022bc8343ae2284); (true, 0x1470a6a945930752ae7a33a91a20ce98b600dd52e2312dc8217f4464aa678fe7e8f99ed1718); (true, 0x28a45e090cc4997e327389714b57ff593fe7a56b403e3577172ea3e32cf0f8a3446e6549d1); (true, 0x1c4d13633dae7c3fe03e44d4a50e67b1fdc09891c07baac1eea355d2bbe54292c9a62f9b87); (false, 0x85531aff5d5f2c9f2fbef9a70d416cf6abef3); (false, 0xe6ef3773cb522103ee9b11731b22d29571cc); (false, 0x1b63f831039c200b5eefd080d6e050b1c6b84c); (false, 0xad8dc9fd65e327fe9a380bbba7878f06214e); (true, 0x1ca92f5ab6ab2f0039c342f7c8295f26d79f088388ade806206ac704b5bd12090fd6a708567); (false, 0x84b65093f453adba2c4bb44b41680372dc50); (true, 0x2270a887266a5847d91bd7de4e1987ec74dab91e4a066781bdeb6e7cab6dda05e002b91a20c); (true, 0xc1156310ecb857017b7c35fdab1c97e6b5fc47e3601cf22109be002755f2683ac78f1d8311); (true, 0x6c0e905717a6ac0ebc0e9b84364abc26564d9eea70413f9422362d9d10325e1f5944e9219); (true, 0xeaf866e4d9e5c2574260b590c41957e75b702c1f2ddd02690c5d60c6fec617c272126bcb4b); (false, 0x4395f5f9ba391362efdf4aeb23522eaa87346); (false, 0xb95681a69c94bcb0fbe9f0cd526107c1bc8cc); (true, 0x4797bab989e8eeb4ba5b2f64525a69854a2ee3ea89d7d2f4bee315355084605d48259ae26c); (true, 0x60d01b85e95cfac53df41d0b6d51649fb010b96d274d15a64fcef2207a268a1603da325f62); (true, 0x5cb4cb1e9b57e6edbcc33d4fddd3fafeeda8a07f52b2254c0e8f01689ea2d56521ef87ad40); (false, 0x14da989a4507e73f9ea50bfde74aa69dcd3f20); (true, 0x211febda6c55a6c50c61c76356f61399c382fd3e696d4641ceb404d997577ef9804b1ad60a7); (true, 0x1ccf443db392d4bd4d05d43aaa750e8f9b25ad5162256721bdf4cf7cdd28564e48898632c84); (true, 0x35a896303d73d155681b8666737c78f010375cd7049a3bb1f8c3f772d6216aea978eee60a2); (false, 0x27c3673893d7732e987bb8b6fe7fc5f467147); (false, 0x24c51ada70e35e68ba1910fd9e51c0f4231e9); (true, 0x3d03a7a031a3531589fdd16540f9b4b17928d856e153593679c2d30a119b619bdb950796f1); (true, 0xcc35538d27817a9c94bcc992e35a4262b9b304704f42b982936327b0095ea9f784e5b23dd6); (false, 0xa8499b34cdfe79bacadc663568c74b05695); (false, 0x3fafc9ad6514aeb6c74686874549cf5881e41); (true, 0x22f71f8dc1574fd844e41d84769d5ae3658833e3e8500d5c80320a27ad56e088b02c4dce70); (true, 0x58ec0b536f21a4d627a7087590aac7181c4944a501d8ba5f9cc4af609fee6b3104f864c26); (true, 0x1b0f8a259b16135a31f1e6c196ad91142ab42a40d077087aac01958f92b9727477945d2959d); (true, 0x2081d8c56719db19b2a5bef63aaa0364e725c3ac16b14346082a2d1bc055cc4e637dcb9202f)]
    [(true, 0x0); (false, 0x39ae14bca33db6ec5f6cce5ff51df229649d); (true, 0xb5b9d6aa6a8430a839500cec58bec03318d38defdf8fc2221d18ad71dec21b576d7be5439); (false, 0x19a5e6ac40f84a6926c15387e04b4cd7b4cdc5); (false, 0xd25fc661683721f78c599b65419e68ef73717); (true, 0x3b87c9ec4f8ee61dbfd330f8d63b29033cfa1735f48f9a35780e795ff34f4a6d4021cbb55b); (false, 0x102b83247f1d0d4202ae5decaa8c39e00a8906); (false, 0x16610ece2f091558ea3d42bdd40de70e572758); (false, 0x23d1332a71bbebe24654dbd94978fa308668); (true, 0x569b87635ce1551b8cb20cce37a7b7ab3ef01daf90ee9fc0fac2857fbf491730131b1e965c); (false, 0x441d443a90b350a5ec0bd06aa29f7918a8e1); (false, 0x15b89b73369fc57adfd1f4359af42e02404a); (true, 0x4ade70fad60c422b32c4173102289f682ce13af03d641e466d9b22e1763bafb9b8cd1d38c4); (true, 0x5ded8a5558c5174cafb1aa823c095add6541e156feed2afc029159c0362012f92f525baf71); (true, 0x48937d139d629b76bbaf9ba6ca1049b211077dd759043285ccabef822466458727a7a72513); (false, 0x3eb7d9d8537b44d2c7c100bd77ecdba071060); (false, 0x55e49cb82f2447e4fb660746550064933f2f3); (false, 0x1a8c3c81fdc31931a53455b62b14976a0460d); (false, 0x7a518ac76a922b467b31eaf59b018b54ec8b); (true, 0x171b3046ab95883b1d418789445af007358c4191b48df2fe0f9dbad2a536396c398d8c8bdb); (false, 0x130ab2ddee98687683a0e0801cbe80d8a9e297); (true, 0x1a30d25c20198af2c75b2952fefff36a77929186363e120de5b2f2095237c02aab8d8af5d4); (true, 0x594e48ea36798483fdba116a80918c59668a5dd12bea1683269a1f0fc71cee064a809fefe4); (true, 0x14107347215c3d64d1e32ab9c3ceb1c476390bab9a7fc8a6c3098a0b0ec6846aa9f8c8e057); (true, 0x3cb134fd26e12e13a15620e660a89e8b6a8ecabc6b1667d526e0926e0ea011ce0567f94d30); (false, 0x36b15aa99f55549751bf517d8ac05025600af); (false, 0xbc34a22e791f98751a3ed04e289ce287ce90e); (true, 0x146021fa5df2eb5be1c7e6eecc8d731beb8a45ee6d3da01e49c0c83d11a1136d8c52dc2748); (true, 0x3c6d0fe08e0a9979ff1c9b8f00307b1c1c7bdb22aa005e0edf015e62b74459f52875faf217); (true, 0x1d6ca5f76a17a4a04728d239b1041e23bce737cbe62b9f1f568b76bac6ae107da02eff4c8); (false, 0x1440ee74087ac3c69b370b813420384114bcaf); (true, 0xb936cb1ab47d6793786ffac72a866c342a6603fd6df7bf47b4385942e66fe661f95ebae67); (true, 0x6bec371cc704ce7eb936904a68d4ccb14babd1b689b986594ec2242f751505d97f4513ba); (true, 0x289afb646f707ef45b8a8d9ba8fd45aa772679407728208ec35d9bac30c61ab41ca0da2104); (false, 0x210a724b8dc1239a676f272ee2bd1350050cb); (false, 0xbaa6bc1f9d085547274138f86e0e43c9b48b); (true, 0x4d46accd6497c1d1b20d8ea4bd7c20b8dc846d7d2b67053a7a464014693faa1f1e8d5f4441); (true, 0x2ee1e502e060f2c4ad79102ce5fabf601cd1f44f10c1050c736ff62475d60fc269c7102e36); (false, 0x1e8ccbf74ab705eeed66b5e7050f715f226dbd); (false, 0x2cbad5e4b254dbb60a4548166d7ed888fef9); (true, 0x45f114476447440b313dba106019a7b32b18a0fc5a360c7d11926aededa44a73b1e98e05e5); (true, 0x1c3d980581550ae305033b8abf935dcd68170fd661e90f3a50a69a56c1ec1f46e62194fd0f); (true, 0x19ef12df95eb5e11870ed687dee43d1789807c4d0f85b2b8acc61fc7082945d5d999d8a669); (true, 0x20010e5819b4401d1e347d361ce1c191e9c647f0f9dd72d705a53e9b89ebef1687fc421605)]
    320823578353898442153005187681585320549721256 (-25848874546239207388856993115695594837749793) 596433626971722769764445466971315030968158209 (-537875447859951926046752772011491486450717718));
    [reflexivity | exact prime_q35_9 | exact prime_q44_12 | discriminate | vm_compute; reflexivity ..].
Qed.

Lemma prime_q160_16 : prime 835945042244614951780389953367877943453916927241.
Proof.
  apply (pocklington_one 835945042244614951780389953367877943453916927241 774023187263532362759620327192479577272145303 1080 2 759074791811550622595041579907670563367995104130
    [(true, 0x0); (false, 0x0); (false, 0x0); (false, 0x0); (false, 0x0); (true, 0x0); (true, 0x0); (true, 0x0); (false, 0x6fe4849cefe4849c101b7b62a036); (false, 0x88105dd341037d77d72f9ecc2975840f4666add4); (false, 0x153dae2a357a1aec4e4fed836d930f365974f0e)]
    [(true, 0x0); (false, 0x78bc14a2c651318eab04e3530c54ea14d6cfcea0); (false, 0x57ce071634e61f945ade563176736e7b08f643e5); (false, 0x4dc06609e8fbd756c25af536be8a67b99b6baca7); (true, 0x14c2923b8c5a7732e0fa6c4207d9ad0058ca2f8d85f166d87e60b2a962b31163b5aabc2c538188ca); (false, 0x14edeaf8abcb1a803f3888b4ae2537d28ad2ac96); (true, 0x843fc6b081eb39147c740e6d8afe586bc67a26928a42762da6860ababce411fb5b7774d4759cdc5); (false, 0x7391faca8059141a045018e6bf5b9c3d9e471b5); (true, 0x2cb7fa9ccc8c0a2920acea82e35e737811e40b230fcd5423477eeb05d38a9a264fbd0efc13c139e0); (true, 0x36d06a490738fb10ebb0ae423cee0d3daf5e64b3af5bf030a992834c683ad998dab8f12f90063fc); (false, 0x5cda24036ce06b76518921302e20843f5a2f6897); (true, 0x505eb7269da87d07314ff108274ba8a0951404285b886444d9d473bbb113d84a99b17249c82181b); (false, 0xad769d86939d961a5eca7e003884698788299d0); (true, 0x7e9fd99cc9494b0aa52aa7bb3848f58c2efc5a7066b1b7f03cacbf1d578887b05417615a6f57a7); (false, 0x13a6db1bedd9ad7b74c82078c93fe06b7e6d3054); (true, 0x4cfef2aac6413fb987f875facb20c1cc07d781639cdd5ca3ab9a9fcc7998f43e8b49b4e9057f11); (false, 0xa1bb40c42ad6ab8e511608fa52fb8b4d9c43); (true, 0x6d43c55ddfc8419da5536ce7ed5fa55735db831599ce4c0083135c7c8a8a8810e3b557c601fa9b0); (true, 0xd8dd30896f818d3e5e5b9bc00f617490fb0031cfa569cbaefc30807ab1f9c8c75c75e2136f8d2a4); (false, 0x1a886a3512ff5acf00565ac322283ccc38bd7ce0); (false, 0x7ba3e69997df113d84083f446f4cec958709e0c2); (true, 0x8785fe6a4d92baef2220a8fd1750c6b73b5e54200d0821c836e72323d6be129e171ee36315d55aa); (true, 0x22ac868ace5ae3df8442f026781dd5d068f112be087b6362125901d99dcdb94674c70585bce3cbc0); (false, 0x9227e5c43eeed00cf413f266497987f9dab6b78a); (true, 0x444fd80dc5cc0af7fe6b7f75fb7a7b385dfceac61bacf7406a2d105184f04722501bda45a3cf731d); (true, 0x3cc526071712f2bd4da90e77a9bb9c3f7054573a763e96fa329f56af30645acb89bab716650f4144); (false, 0x145b39933095a34983ae805cff8044aacc987537); (true, 0x82803ac4b9674cc389d4412ecc8f6fcab19eafa379c0aefd52beb1235e551cbdc497b6da8ded089); (false, 0x8f9bf1bbf4cbf95a8ec3cd240cbd32d4c2fbe420); (true, 0x2898ad1a47ed2e777f77f777a62fdc1290ae8ad2bf6a27db9eace73c0df57699ea9582df303f3f7b); (true, 0x23d5999f2767476580c512d659a7001f4e1f0e190f2ae46979ef72d3d5ea593b25d60b16e436813d); (true, 0x3b23ce591402f92d70c829108a2be72e8a2a743560e867941ce5de58849d191777067971a9167111); (false, 0x758bf3998e486e3263bcf151f78cff91314c8b2e); (false, 0x2d5b9e5711a1057fd40c26e07383544bc87d5915); (true, 0x61cb4e96fa8739852ff8041afa6bf6d7f4c08dd8b680558e9750b013e91af6897f4ede756ea388c); (false, 0x7d02ee07b4f29d85362d0df6c1712110b3f4985); (false, 0x245f81d4a7a4523f07dc37c6980cef41464c601); (false, 0x670b046bbae0c77266d46791c0c5f3403f88656); (false, 0xec9c53bf28bcd8917a1319a3164b91dd105bec4); (false, 0x739c03e5192f9cba085ed20abdb0ede38558fe19); (false, 0x51c2d9ea4ac8ec1d822ff74d7111d562aaadfb14); (true, 0x12738eceeafc4f784cd53d870e5f3f74a13d99bc1bba07de419f7141044ad764e44236bf5d51753b); (false, 0xc02b990057a18e1551b88c9f39ee2955505c478); (true, 0x3740e3a4362bf533d3eb99e610eac6680537979f91731e9019022eda2bc91763edce0ba6b69a); (true, 0x112316faec3caa244657b2fc8784096f491b16cf00c1cbb4ba6aaa1b615fec57bcc1a6e97f6c592c); (false, 0x47d1d11072e09091cb58df41185b1f79fc5a1f4f); (true, 0x1c9744ffc5108c9f2397e6389549de01480864dfc74299d6b1bfa278e37b799e63c797eda2fceb); (false, 0x6e2adbd0f8e9981453f4e7ac6889d377878ddf5); (true, 0x312f26bdaeed3d4de9752e16980c6d2e6ceec271cd2b127a02bd151e2b31cbd5b90998b6a99923f1); (false, 0x3735686c6c198df150f2f0c6e1e089792ed9cd68); (true, 0x2f70459cd5efd15c0a5d11c35155cdef90078706c5000054e4b15b767d1db6a432df88ea750ff684); (true, 0x1bd497a8c9bfee22e26719ae01a1cc67217691fa275c5acd63b5fc80594fb5d2d950e43eab113c71); (true, 0x13217ef1ab553737970212ead0fd179f66ef28fe2a39607a1f11b418491f1aa09757450866a3a29c); (false, 0x33d5ae6b1b3de6914c7ac4502ef35ae81c9eeac1); (false, 0x670ed73475ca40c3c1717611347e6d56dd2a728e); (false, 0x5371d1b7e506ba60b652108f5d4df480a230dd9c); (false, 0x8558e148ee4fb3d866cce6a30ad632ba9aa8c85); (false, 0x192f9cc89bef35484ebff63116198fae709168bd); (false, 0x6f2fa2c39c376aad3ac21a6c00684ade0a1cf652); (false, 0x184ea2fbb4b918ba5d13d4cce10267d51ab866f8); (false, 0x7f853ff0099c6d5b6496c66e96cde2c4d4149e5); (false, 0x2ceaff193861899320ed0b9b0a4d53590f4b4e0f); (true, 0x47d302f42a6036548fe7b69cbd273754a19905930973f36905f3964393e80882237d9fe3f01ef07); (true, 0x1301fee723959da9f04f1dcb1cccf1c7b04dd9fec48df1c5d3bd09fc234cabd8eef5fbe547ac7163); (true, 0xe4c3cd88bf04a66d5a4a9956c433d7c2af34bd4e6e6fc55f257b16c5be4adf56fea5763ff180df); (true, 0x45fc39b43c3ff61a493edef3706762448ff9ef778f765a7f03a721f71e03e6af34bf24e96e2e421d); (false, 0x29231e3be29717a048b4a2b8056094f11d1aabf1); (false, 0x3c0d751b846d21520162bb2225a4eafdcb13f594); (true, 0x1d05bd36ff86fb948786efd7bab6ee8e976a52175e69b27154192c785a8de4015c1526b9e05c2214); (false, 0x29be8d8c4b5680d11a31fb0c261fe22a3ac43a6d); (false, 0x19880d686938cdfb532839218ac5b304f0b485); (false, 0x1ecb2433ae3893943c1b934f5af29b5dff166743); (true, 0x5ebf8329e45ef54fab7ecf434899e0d2557b495d1594aef7cf5668ea7c51596cb54f3db91a1b49); (true, 0x4a08e75508be0e29bf8c06de20142f71679b0ecc8c87df0a763685b133952ba7d18149679a029a53); (false, 0x71d1e5283a8a1beba9b3afaf515df685aa3cc4c9); (true, 0x2a6313535b68a0701417f7955181b958e381802ea21ab73cae3464a62fb2a27162616c1549a78e5e); (true, 0x20348bdd648b9c7fbb45ea7ce57aa2c991f8447163d2aa197b9ebcfbc90066964cad667c6e16a8f6); (true, 0x1ce7dfdaef7e2ead3ab6f047a8f17eba4d55670f1a68f760b711789fbc42271c16e9c6badbfed0ed); (true, 0x425f5aa4bed25609c643a68a5e50952f2878743a450730761d06bc7b73a756c57cfdbe2157baf8ff); (false, 0x19b6ceb3af7a777fb1ec870e4a85480c76815f5); (false, 0x148fb4e079793b4c3327e0fe6787cb7dfb3ce80); (false, 0x7ae437f2d1a1c2a78717ab16d94569d7f12154b3); (true, 0x27c3918dc62bfd6d9551a8787a201552bf63efd6ff5f2c0da1de700674bae50ce819df5415ca24f7); (true, 0x4b6b92d6037024dc5308b1fc48a7524ce1b458641a02d672ef509dea173c7643d1929b6931bd33c); (true, 0x61b3e764ad340c03e02a292f69f790dcb7c083fd1f0be94eaae7112157de36b7920675395832d27); (false, 0x2684045a3defcb6e658e75423ebf6185418c9848); (false, 0x4616365dbe6c8d8f359da26ace6916a22c099b28); (false, 0x7c4541dd508773363fbf909f3d263efb6bb32c03); (false, 0xa0dee305e4a788279cc6b73be794981a4c5e6df); (true, 0x2fca96222472d61cd1c10f77e2673824d828ba773e12c8dc100d29303f68885d5431423c8c9801b); (true, 0x2517cac5dabe31943d196b52d67cd6ec688e0d757200d4a66af3b93117aa2ce8167ad888d29ed4d2); (false, 0x41f16aef64b9521fbd2625295508ca3f9a52562); (false, 0x69502af31f7c081d420b1856088c4f1e3d37be88); (false, 0x262b6a323d67528de2076f328869fe8de8227dcc); (true, 0x27e1fff11d13e685c1802c03d64f2921b3b3c65409b327d169ef9000deb5196bcbab9a2eaa3b3be); (true, 0x3ff08c2e07a96689b96896fcce2cfe11c3a0c24fd3dac107f05e2f1a146565ca82e3c66332a5c61e); (false, 0x206cf5687deb98f159d0133271124fc4494a3d9); (true, 0x276bd4cac8614e0b53bddeff395ce377eecb8c160f879a4a086cf00eab0dcbdd9a51b7f13e7d8f46); (true, 0x1ba5072dfd608b42548f47c24db29fcdb6e1c76a02de4a78847a1a234b6ddc19b2105d153780afa6); (true, 0x47ada6513179d3af94daeed07eea160b7382f13ab0c751b31d3adcadc41ee75634bb312f45bd723b); (true, 0xf544f77e3243055c1fb0b58fc3d8aa5b021123bad49b7742d87fa22b75458099709dc0fad7d7d92); (true, 0x1a836326609eb01737cc4a5b08622a0e80f6d50b749980e9ef1a7b9dd6abf19cd9fc57f1a1e56fdf); (false, 0x12925e8e3ff6a5c7838be15585687255c5eb2257); (false, 0x6bb90d22e10f4c21ede9d82ecac7bd0af6f6647); (true, 0x35936a073076d41008e5e1ad372dd44847b32ea6a61fe4a5898178cc33113ef42810320291e6432e); (true, 0xa8afc379f355f8e8f5791ca7064b8a841ec6966f1bb9d083118fc660ba28f9f2c307fff72cd02b7); (true, 0x1b136410ef5c757e58be4034f1f1697424f372623aa9c24c9a70b7b3621f0849813dcf0f5a4b4489); (false, 0x1af2397d44963a4937e12b8302c50801a9219b9); (false, 0x82f947855a3ecac01c8af210924a2b76ccbf587); (false, 0x51a7c2968b6c33c5070a39f8f284b2e3d0d1c959); (true, 0x38933de47ef7201df54b595e309709471fcac18a88f6272f1a0d56c66b995e91783c669a073aefa5); (true, 0x1ef91e4dc44eacf7720f2d5376cb89972f2f7d64a9654ae900c172be84014dc2c34540daf8da993); (false, 0x1d55ab0ef6f49d59050b17586e0b490d73357f64); (false, 0x435d915f0768e390d8b41cbee048ef67c9b6d04); (false, 0x2d2571ef6678801ce71f1b60a9231fed6c7c8510); (true, 0x1ed97d4584e24891c74e00d2a382c1ae252742ea3821c1637fae17379a49399d03b9214395b29062); (false, 0x20242ab5923f4a4bd95db4ce65983cff9fd9cfb); (true, 0x306bbdc68fbb459a4d3b0801df9831c04acb65725968025e6a6630d58ff311e28c3691d75b46e159); (false, 0x2f92b807cb21ae7ace3a85762a5e7f27285cdc76); (true, 0x3b6717245a9c226750c2e20bf43288898339a1780b1c1b4225b5e7c1ac92653438f81550b155d993); (false, 0x1e6f8c87069afdd596f11bb35f45fdb824fc2de8); (false, 0x47276d327083c09f9fb1bce278e19d8968a9c643); (false, 0x211e131abbcf3bb6672653cf9c51bef01e9c2d52); (false, 0xbb20eeae106b9b2b93e5dcf78f891eadd268295); (false, 0x2f9df022a2d8700a3d46d8bbbdccc1c3b19eb980); (true, 0xd0d60935234395a66ede547809f2b81c1609cde00ae9ea8f52fee0a9187e22c8e6d93a7c203299d); (false, 0x556fc5ae2d23a40462809b5f38e11d44334fa656); (false, 0x3a30b5139c564081a35f583753e0cc9cd90fa39a); (false, 0x2ddea9a6e597677fef4891dc99c4daa023fbc4a4); (false, 0x710f87855f604ddc6067d4f45c4537161279a1); (true, 0x1226c35f20785d4f6c77c55adbd1020268fd9bc5df2a0da70f1962a2d08e1739e4d56366eb8b1c1a); (true, 0x5eae45cb267e5c4f3e9b7274181dc29a89092e6c328fff9733b0c61dc6d916e83602aed6d35ef62); (true, 0x3a4bcc833f94f1d9fad29d857c4c20e3d39df1485d95d53b89a6365319193f7f0442925030f0257); (false, 0x4ce9bc6bc5951b03329ed923a74ec2207fe2a040); (true, 0x2ce22f3e805a05c84504633f15f35630a3b400142d250fe7d7e99c19aed1f5bfba42cacc04a147); (true, 0x1f1cfef9edfdef0a1a0621131e604a36e1e3020198bf25925e1f4e2db47104005e261c2c1cf9cb48); (false, 0x67d429c1df22b9347d5f72e9c284ebb25c4a3680); (true, 0xdbe59fc0f37be13fdca17d980329730c8806268ad5d82c7ad272c4f4ff663f306bb903e489ad29); (false, 0x685e599945f756abc3f2970863d0cd5e5ff7c35); (true, 0x12b20af9c0a9885799d56b54d72ee5d7e3dd76079f9d373db5543178759a1a5965a2cb97f15685e7); (false, 0x1322b80d198ccda4badde7cafd037fdba0c3cff1); (true, 0xd9eaea1038ce62faacfd3ced7bb7822cae59b35e3f95171f00a2571f04d8d39168289818b886); (true, 0x1fa354359699714ce5744839c2d041c2e76d45e830e6e51108e3b2b5ed5128bb979c7c9e9ea6678d); (false, 0x47cd2d621dd34f75936a9c221f9050a1e8babfa7); (false, 0x330d02d034e29c4a4f73583a04c11569ca90f1d); (true, 0x62cdebe6dcfcd185e3bb17618a6a4fde1d0f5889c1004bb4b7377dcd739f580e87e8b09e28f9b8); (false, 0x13c555f55f95c89c8a67ec45cfe15111ad07bede); (true, 0x3fb234f53a2d4e002bab510b50f2c9327487e9e79b6a4b59da3f4afae01ad7913e13cf04b1dafd4c); (true, 0x453383664eb1c38c56c42ea67af33a1c982eb2b5ff44ef34c56db229ffd082a355e7a5fba452162); (true, 0x27f4dc8ff1235186ec885297bec07a7d4005e7d41ccc6d6dde09cdbb39c9ed159dc9db5f80a48f0f)]
    829816007257442285709994915664332448456883264405 (-753509359011803945872605034392251507628474740084));
    [reflexivity | exact prime_q150_15 | vm_compute; reflexivity ..].
Qed.

Lemma noncube_p256 : 0xe6bc85a78096c1f9b695d42f2c755e0275c2a78c319ffe2632a254c7351713cf ^ 38597363070118749587565815649802524510028714471763438065177877102955699284650 mod 115792089210356248762697446949407573530086143415290314195533631308867097853951 = 80768483248157236106747038522432628956378793144262492973261479290122044592944.
Proof. apply (chain_val 115792089210356248762697446949407573530086143415290314195533631308867097853951 0xe6bc85a78096c1f9b695d42f2c755e0275c2a78c319ffe2632a254c7351713cf [(true, 0x0); (false, 0xcff74afe5ed2862cd48a46c85f0a104e6de277cafab7cb40e1f29a920060920f); (true, 0x21b2377534d11bddd13d47bd17728b666f34d91cc2e4f6b7b0771402d3a3f5b7e33bb839b4b223aa0df5128add7c84798bd7d3d2fccfe3c0b54bc503870122c0); (false, 0x201a8f5407dd427dffe606afba45e9e4847f68c3dfab3df16a1266b7fcb0e); (true, 0x7c5975cde7e5cd22ada8cdfd9d22ba1728eb67c4cb80e4116685e409d418409cb49cbb3fde3d33c7a8858ce57eecafaf33958e17d70283f0ff766613e4aba9af); (false, 0x1c5092cd6c4d40165b0f27b33b2833c2f7cc2a24da8f20710a2e7c6a2d399005); (true, 0x81618918bbf50de543323889b55cc91a9d2b1aa32fa86b76f62844784c3b85703a1f4ef9d7cedbb36b731745971e9ebed501eda006037c921fbcaa834828a183); (false, 0x683cac640ee2da35d8c6cefab6ebdb5024349f580c82d271407db17a776f386e); (true, 0x2ca22f4f34a6ce427035a473b358a27dc8c4c87179a817204d1fdd0afd301b8b842d597f77d9609a8f8d3b271fc677c606bce1c076955e99cfb9c108ae40fd); (false, 0xd5b1c26971c712afd99af42e5ce4a1f365bf023c2c34a3dd9085fbd3eb7d4635); (true, 0x2e4919241e980c7317b89cb520e296a9eb5974150e1b28097ee00d76b0971149d0dd2fa0e66f92fea904d1bb754cd32cefd95b5025c37bc189ac9de77ecb8936); (false, 0x244102c64c1525a672421f4fd4e64542cba94ee22651c132c0e9e8c855be7a1f); (true, 0x1a9e5fea14cd8374fc3382299320b100deb4bf01b639d8b881bdd3452147b8cbf51022dc06a89593885f1ba953329d3e1a294e22c2f9b81555f069e03b2b488a); (false, 0x19cfcceec4416588b212675aab0928605639469decba3f4e49acdedfb5593e06); (true, 0x777eb17d3474cd395401f9d64da3073aa997c7e2fdd159212cf32c630d558d0ea394af4903ff9a0885a901352967a93c669f19ce1eb24676d9ff7b6dd46a2f21); (false, 0x2cac5226962a9cb91da19d3c778db5a0b72c4a8f86bbdce61818a163ffe28ced); (true, 0x5827bd82a071d9ab7db25cc73ee930143a10bd2e815ec69ffab3035c87e582c280914bc75d008a12ee763aed5ef2408e6047de2db98df325458ad19e39c8d8d); (false, 0xb333fda99f6508935418cad9037b4147ef90ca8c166c8ac249722bf8cacdf316); (true, 0x7596d648437969fbffa1f08e28b56b888a5818dad9c0c0c7740e87936c5fd7818fa61081fdbbf762a87cb3a734c8c974112bd71f4c05cb915a43da79349df64a); (false, 0x107d91908da5365efae2799a6a561c90148f850b6efa442fbbb6e34b60c223); (true, 0x7d6f794bded5e1c32094149fd17fe03223aa79a848c122fb325eacb267408d70b7292b6e03cd19beb2a0941c57e997857ecfd436a1628ad56ee283448a973128); (false, 0x33af7434fdf108a2f40e6aa05506b4a014c2927d098f91354da28866b3dee0c1); (true, 0x21b58e1a40eb1794fed01e100f05c7a090ded77293316324052b1923d2b631d49a945537ebd235b85fe624e6ff4780026c51b55eeec11fc28e73ebab1508e85c); (false, 0x55fd9a54e4f737e5bb8f82e0be4bac980c926363791508ca51df97a964beed29); (true, 0x83ed84e06a2078a7e08dfdfde3322b90f1b40cf3507b3a3b7510dda1435c9bdd12c95bd235930bb4c78c59fae2c782de4b2092ba90a0511b7d10d5308ee596fe); (false, 0x66f3c5a5502dbc4a6db25a2d8f240d674f25bb73b08d109a6fb19ca7905bdeca); (true, 0x257fcd24481fe495c9fefb4d05a04908dfbd8661a297d67ffb8b1cc949afd85e89b63509fdb29db4e1296841f7c97e8fcdfe293a997c1324750b48afddde5bba); (false, 0x39f0f88d404d9a459ba193de83cf82454c8c8817a854434b33fc781d9944eea7); (true, 0x8e7f3c655e0f9e78097ea03d272f40f97144bdb0e014ab8069d4de6ae930d6bce10a59c90b90f1012dd682a261a70956bcb6cffb9edd075e84a19cde5ed1cfb2); (false, 0x58ce79a71417e18b69e1ceb0f505a325fcb282d205b905aae342e2ae8cc571b9); (true, 0x6b258c8087a000bb4c4f20bfb0532a9bf1b482eb0e2b4541d0b44aac5ad07a86ee63cdfd16f0af90285cce538b0b2caf6b88a944206e6908dc58b51774a3357); (false, 0x7a3800950827a3d11fa8359c51e94a0ca1b4a1da2d2149526d05ae81179722); (false, 0xbea075d5fac2b4fd614782414875708ecc914870bba639807041666e36b9e5eb); (false, 0xc54b9529ba58a78fdfc1384cae7f750fd57956886e1ddfdc543a279fbcfb9b5a); (false, 0x43cf8e28e6148e05fdbf4000602f20f50f80e4ddb9287476a6eb52f7f9e410cb); (false, 0x75b151534d8a04633e55c1e0001eb2f4ae4ea74834214b3098dea42dc0acd250); (false, 0xe7f754fd02fea0787925191d74c52c100ebad01c411d55148709619e991cfa50); (false, 0x88c3953d7f6080144544bf63a43a25c2d88c02e721b2c19f4092017abf347726); (false, 0xe403bac3e09bb0a9fdb01bcf3cf0f83d6077e47bc570f70acf4adac363cbb66); (false, 0x21ba59bc0b6101a954fcb92c3c707988f9a9f5dea5c2cdcc8c6102b876e2a5); (false, 0x3725477eb921c854d4a7a9b6a89596b208469536b242c79aef0d919af4b13e11); (false, 0xcf9e81f5600b7d4e71f1d1a3e3fffd76e1439544d12fd87ddc7a515c0d41f867); (false, 0xbe28673585c85db3192d79631c34aeb712e82dc00f0980032c150ad90c99299); (false, 0x4654391fcd2d2bf8ad287af986e924e4921cde0ace05ef9bd190baabc1c7f733); (false, 0xea7938459763c9e41e5fac07b810ce880904c6d3a2184f326523c33c22cc6c7e); (false, 0x9d68fc3cf91a067ab8a1125edb28ac2c55403cc023fb842b369eacd8b1061a3); (false, 0xec4b2ad51d2d768f8a881d1914cfe631a1b3adf94cd85aa13ad02b137a192b18); (false, 0x16d0b3c1304204ef0fb3a2416396de5a811f171a0b44c5cfd64a9beb46285fcf); (false, 0x8a262f2f3cf44bea9e441ae0ae45afd2194a8afd4a6e500b983d0743f3f7897e); (false, 0xefb684c4d3bdb54d3285639417a7d8c21ab1630ea9d195316e914f5e5847664b); (false, 0xb5e83f5cebc7148fcedb5baec8b61777e4e3adee347f27789ac87047db4e5711); (false, 0xf055cef3d1fc64aee1f6ae61051a831a6ae23c0f27105f4a8259bee87c33e258); (false, 0xa067e55485925a33c55e845beda30706cf6da635c76e314ba3c1cf62687cad1d); (false, 0xc9b4ebde37c6b38219e231e5ef868c3f679f6777e6ec73074336a683bf7a9f3a); (false, 0x7ba9785c3973a9775fb737320ba327a3f173478e89054bb1a1ec3cbd3c2b4505); (false, 0x1bcb6c23bfd52ca1bbc9ae67fcf6f67393548de9583a11bce0dd21ac15510264); (false, 0xb10ee2090d7775735b793038495be1d56838e5eb33c4211b739fd1c7e88be285); (false, 0xfb362c0f09762e21ec286f077c581251800c40ed5c38e6bab9b5b062355c5b2f); (false, 0x762076b254f0ef04a7ba8693540105b9ad0063294b881f062f1d67378f3a7); (false, 0x94f02e4663f1404ec4d852c179307de6f130951b656a38ba344811e186f01170); (false, 0x9aa1c353059bb5dc60a57a391309584c0b474b5c7d19cccdabdd95927d1fc2c8); (false, 0x5f4df0d64011556d234bbc2f71bac59f4ac01dfa4e3fe844647a78ffe0a15b8); (false, 0x72084ee6b74fe8eee298a16ec0cde5036b8f6fe1a4bf3c2b59ca115ba6f49e33); (false, 0x7520704fc76b9cfb064d166c43fdee5bee29f3eab5f6db42e89a2cfc262cec80); (true, 0x206048ddb69cb62511b1824c6af58cf633029a9f348288cebe150c8f2bc28780f55e10f93d518c801438c2c44ee36df1bb540572acecf955865b203e92e5328); (false, 0x678ec767b3e874755606a67931a0fcd9eb936b265c5d5a4d8589a8668a5a188c); (true, 0xafd1f77be48e3ee3032b278eb3168647088eea1b5c5cf480535fc936fb149e190cdf26361cd5344ffbe7858d53fb248b86f0641ffe7e9be8377353394367ce4a); (false, 0x71e60ab7e2ed495bd980e8775ec623590ae0f80d46ab369d1fb92c3942abf05c); (true, 0x100d05bf280e7e57996ebb76231c2483ef83e7186c7bc59f5da3f84ee6be69252856aa2d3c76a735fd7df384e88365a3195387ef7b77a3530aac7dd1981ff616); (false, 0x580fe819cc4805c8650c1aeee0f54b7c44ce6c2cef09d3eda55eaa39fefeffbd); (true, 0x279dd5221b44b5301ae355f2432fdc8b753d317aa16f472c887fac69e567e14fce4ad8912743e7faff599f8d8dd9ced118e56127f036ee9536db51647c0630f1); (false, 0x340581f8ed2437ac5a1f1db9e2f9b9b7ad70cd029ae0fd87c0d7ac54c85ec1); (true, 0x85c99fbc59568fdceb74c13745c18d4d626a37579f249dee786680343bbf94f07135b1f4a966f62195a7bc09ec09f0a82a19dcabed034e537c2e69b62046e0bd); (false, 0x395d08f47a83cf94ea20ff8af181ff096b83718f8891fa0dd8a4a09dc3e43ca3); (true, 0xcc99331c4ce12b13a863b3fa53561331cc9b098e4ca68a53ab9f9f89114a8963125fe59e19cf6eb4329d1c40afbeab170404d2ef11c74295740f72fea45f6a5b); (false, 0xa1de361d9846025f61ada9c70fb36c905963bbb2d108c4dd314b500c4041048d); (true, 0x2f611a874b932f31d8e71c3d2adb69b058268332c6f03614cdb67f668a06c9bbda65e19cc6b5b4afa22f8f6a6faffb7b634511e2b07673c984459634ad05ee94); (false, 0x33068aeb36f963f602fb0214a95ce8a184eeda311dd7bfbfae23400a6847f15b); (true, 0x1a1b74f69b9e0570520a68c3361fbdc6ac6047b2729eff68eb86126c2d5c4ed045fb52defc20dda3cba45a0dd3626dbb6e74fad498b5e0691d10df83498db439); (false, 0x583ccffdd150a34624a7adc166100b9985fc57d3bf57d1e5d5d24c30983a33a1); (true, 0x60d172375fef7e35e0e521dbd9770d817719ed4e6282a709afc744467044cf7a0eaca5301b2ac1dde17d5f3ddcfb77dd788d789d241a98b1f0a5f554915e8549); (false, 0x507e77b29216784fa3f6999471aef58637840196f04b730ca14d8319ab72ae05); (true, 0xb40ec9d33dd09196d6a3307c4721313dc05b763674e2e3259a8a6d25e2053d7830f50046e80d49692604c442990a19aee09b95f5bdea872b46891ddd00e79e48); (false, 0xb1183489c47dfce669f7aa1424284bce3d03fd841e04d02d77799665768a14fc); (true, 0x5cde004926678f25350002868dc2eec1c546305c4769ad142dc0a379464731c31565e9c1ac6303273ac74af57f569a25b30267d1206881c9f44f36010acf3d15); (false, 0xe94d203c01bc01675445ffa9408ad5b274a2415fef2739c1e2d249d057577d76); (true, 0x43e7c94da05c18737a7409d3f1cf6efa7f2fb68d2dd506cf9b1937dfd3ac08ef47b23d07a80bf5c368656d168ace0e0dc5f68b4729aa664466929504f15c5f); (false, 0x5643e2bd4d02e7f50d9d2556db7cfbd66151a1f50db7448696fc73a13554ea7d); (true, 0x1f7d68b80a8589aa9ab4a45f0c986143f66d1d1f7142d5ec542e8bddfa9df449abe7ae97bf4927b948011cae5afe27c48bb2f4a3e20048d223928189e928eb1); (false, 0xcdec2eb715dcd7c8829d0069ccc648ee023bae48084074bc81a26cd1ebe58589); (true, 0xa663dc1313e2447314a49826fa91734966eee184932f3dcb6669652bf70ea12946a364b7752439ada857b15695c0eb39d45b04aad94a4d84af7acba01f4800ae); (false, 0x4170f00f3dafa819ff7c9f7f49b816e44f6b49c891a4c9233ccb3f5604940b75); (true, 0x7c426732bb57cb1ed369ebc44a62dca72f7fcac0b71c61e76e5be3d04ea77c62e168ef4e99e733cee6e0dad9301581670fb9bac8f907bb9721bc27cb2e93025); (false, 0xaee377a0ae315633990b980e314d72a40ecb5c79a960db717b0345715deb8973); (true, 0x1da810772d6961651263cffffae268d8bfebe9e37d7923b850d70996dbe0fa0f9c257fc6248d136b026359f253c836829fbffa2aa4af58808d1b2e7404cae650); (false, 0x508591f9a92dadbe107eb91656619d101713fad0f093f329a3d1f0964638640c); (true, 0x44a8a6b2dc8038d17d20371f6d2f965b5fcb43530040bc9de1ac6a5b9d3fcb4668f0068d503d7678d63764e0a7caac09c7fb55b9b0736b8a2d87b80edb7d71e8); (false, 0xe1cc16c360ca275489f2dc352adc47db8f3e41871ae7b525ffd7c0f2f448637c); (true, 0xa2a4bf136a9d5a9c910b6ebc853b8b1f566b8deb071361fc06ce241292438d04217dc8ed4315bc96fafd52c5e26b917be1b1ffce11829d7799b443cf2be9f4d3); (false, 0x7b785adf20b0e0df27859ee93ec41defbca6a693f77bee88b0646ec7d126873); (true, 0xa9021df5a4848c16975fc91d68de5bc503e23592a7117ec2e9b7b9bf71d63340df65d1a0d33c45cb2844df7b81f48e5f55d7d0bc865755d6b48d916e62bb33cc); (false, 0x1298ce7c855f0b586ea9288dc27ca94d96981f55abba8b4df734865646362cf); (true, 0x158cc2a6fe8738c0ae2818c9bd64368f9528081105b8c042c01534f9d65d5abd4fee75e61c180f9620b0fdbc79836203603735dc84a0b1c9b8997689aeb8e515); (false, 0xf8a169df2bae00f0e573433cc0c81d72bc85141e5bfacf4e93ed39e95ee7004); (true, 0x38373c5ec687ac7567a02b97bdc168dd22b5e9749dc9de38c4946edddf71309bf7bdd69531516d5ab54e63930aa5e90317f4065a2d1e4e2ccdc09ad0c0979ef3); (false, 0xdf3660c6e694ceefc3e99cf246c14b92f436eda7e72f19ea250073df57346a3a); (true, 0x70bfa27e9c9006217f7625ca96fd00cfa3cf1782cacb7d3029897800942fb77a858c9446a23d69106a452fc1ebf20bf15fd9583f205db9d7b3a2c50d05529805); (false, 0x383caddee8188f72a33be377ea7e325300aaa6876a4d7f96091d5d588a296d9); (true, 0xaacb545aa6307a3eadc592f4df5b01cd04b9425a2d450b3a81e00ba40444765e91ba25c17096cdcfa7d154968a3b770ca382b622ace7c8b3b5dc1197207c7a80); (false, 0xdf8b2e9a51bda4359f635f99fb2e30f42bd6245b12ee866b329a2c649424294); (true, 0x44d9fa1f133fb79856f0ddbf51271c95fbd23191c2ff9ca69de9a085ff61f417ade3fa1100493d74f109e408686928256f103a17b5f6fbc40b773e2abf32a38f); (false, 0xf73e32cbfec6f6b54af3984e9ad1bbf8da2f179878713ac1752af9b1c0fe34); (true, 0x1bb5dd45ffb04840229847a73c9a93ce06cf0bd41da75dd0345faf97849801fab2a5f3f7406ffc8dbdbfd31d0da5393544f30ec8fc756f8c866518260be34939); (false, 0x20f32ff099637cd245ecbd5bff22956fa99d59197d009830c43b6173ccde6758); (true, 0x84b27b3adc0f0ef3f51836136e81e49c102025414e8f626aeae8dbcaa595ad06c56558983931e494cf9c1b1fad3773c09f1997b2b8c5547fb3591b5b41d4dfb0); (false, 0x3ffc3048c1b4a5d81304babd93e97750158248427a7688190212ba4dff0a52e8); (true, 0x651c3290b3ca582d7a757c57e1326d6d0848091d4813719ff2053564153712ff3be9c493ffdd069a513c531f49d097bb80879cffaba1190357d8c0bd995b23eb); (false, 0x32e8d67dc375695181d1cbf2b808dcdcf97d833fd68fa6d6edb135f9dd89e53d); (true, 0x6e8fff1891ba0410cb5ebbb079df99d6f9c67bff81dd85907affc62c1e6c22838068775f0ddea55f66ee8a70c46aac775198afcdea7fa8b82daf5b420ee385a6); (false, 0xeef1669347c2ad34b0f35f35bd4134ae10cb24105f7bd1bf137238c3a809786e); (true, 0xa9c7d72ec145f4f368437325a1673e263a7842d77020dec2f522f99ab4169370bf715f67dc307a795ace9d01e8f455c799913df325b1fd463be74f9cb46040a); (false, 0x3788b1b4bfd0c361fe5a3298b1950ce1e87ec307cfba5eb9faf1ad10636b5b72); (true, 0x7238e77af4ffbd5109fc662b2c82b418dec69622c385f477469ecac87a7c6fe6d4b05600c85303c3e0ada12b4210e1966019759d123062b2b7ea5880c759d342); (false, 0xad657d63dc535c3799fbf137e284bef2f970d7226bf23f200563048270409cf3); (true, 0x3b94231889154da94bd48667206f25ef39ed47db5c5631d2398d7b9609ba898d63aa896f1bf9a5255aa90c608d5a1422b80445ed99014c52501f73cfd5e6e1d); (false, 0x1f61686f5bff7850ad02165ca0c34c851dc00c63ce9c483bb0544dda8e08c9db); (true, 0x562ce918cd37a2b35f322ee8cc390c7f3a1078bf1682ca8b20ca807a148f7d0f5239667a4e93a1b10300d5151c16a1c4fef60225a22db08972c0bc932210a5d0); (false, 0x15c1477e7479fe50a9a6d09f5de24981a728f96039165588153f97f8949f685); (true, 0x721405202d7c04029818dea6a91cdeec611ff4f9b90baea3af262e3f53c3d678f14cfd1942cd4d7c44e41e5bfa1ad5eb188c2d91c356049bd37ea309947d1a2); (false, 0x2a41b015aee20cbf6152fe86a8e61cfda0844275083f7d0f3a2d8e96516373f); (true, 0x6f017b5d8d71cdbdf9a50dcaa79fa1d7c70e33650ecbdb4e6ac3d1cbb6c7db21b02c66e2812b24f883d862874fc572caf001a04fef0edd8c46f54e323e578a6); (false, 0x5ce322231d2678f8da03025678dffb0d81b24c8afd47e3681efeefa045535fb6); (true, 0x60689211d528e94490f6b2205a3a3e9be654279976eb745f2acc0740ce5ce537329bb23e246a11ec8008cbfbf197aa25357d8d65bf20e53dbb417e90483693ca); (false, 0x42eba0f7aab432b7681130e11e2e4b15ef37c66bfd96fc1250595d6401d3b1e); (true, 0xc7e5864bc7b672d9f1b3652ff534d5d429f7a623c411c47f8cb5b85a1152434918e33cbd3485161ad6e043416bcbad2576a30673ce6b7f2eda502ecff4526161); (false, 0x715815fcbb157ef19887365c016738e89f936bf20be11190d6332943191789f6); (true, 0xa249ffeb8ec9e0009380a187c6e85c875a9a017d73ced1c3dc8682902695056c45329b5220f938fc8015a45c1918f9a182736c240daf7ea9b8b707e8e844a05c); (false, 0xd9a881acd76fce964a4ad76d30c7b91b0958efebfcf329825f4c1e5cd13f1f72); (true, 0x270809460e18eb9bc4c42992807278270e233646c972852d15a89fb0189ee6ba5bc2f06627e56619f9a9c3ff2b0a6443e9dc8a3f964ef244fab3df124686f60a); (false, 0x87fd7e0a692c9cf98cd525277daec86bb512ae68ac30f599a868fe5b360c61ad); (true, 0x2156e22f71d4e29f0328b8e11f26c35fdc429bc48c428419962efde0e5ae83c4490a3c0377f6e4d7aaf55ce7ab0d764a77457008934b5bce6f7eba0fc9f66b5); (false, 0x2098c35a2bdf80680de2c0db45b54d249a21a6511cc93d0490b61e7df867eefe); (true, 0xc3ad593a3deb37c6d6f999d9ee51ac7ae41b4e7549b9a3c83605dfecc9f6d8519d9c91261060997b8b45fa4d00daee3f260b620855b5821e9d74157018ae86e2); (false, 0x7bf3519fed55767b430bb7df9a2abe40872733456601468a45f0e9e1031932c3); (true, 0xb9b07461088ea62a3ed996396a562cb9e16688a7d70de15cc6026f5ee2eb7ccd0c994e6189447b82454114b58947c26da1b8d0a217549c542d1fb1debad09c76); (false, 0x351d7832f4ef716ed6147da89c336207d8dcd2b942ed9ff01ceeb507b980be34); (true, 0x2cbfb491ca68a087582bce0a487b1257bcec695f1914be61927aa2b8d76317f06b30ad31a2ee3e0b87dd7a02dac8e6f829580dd7f89b613de42b54cdb0527e5); (false, 0xed0e8b76cd1abcbed85ea26fa12ea13720a32d442e3e44b34a1b7fff2b072); (true, 0x4b156938e9ddc30837930c198e02153f5593b61a5fac88f7b3b7ddee7b44a59237cdb545cb11af21d923a0e11b69a0c3c62943cd27a36c3cf8e0b6ce554aa46); (false, 0x617187e3a6b7624602d14158493252c94c392666fd00322cf0d071ebec68551); (true, 0x17b1c5504240e63fde25a0ee4d9d6afed56e64f0848c3017df65847d326c26c752ffef6bc0ed1d9f765a1695d116d338dc1c9197bc4df92408a5a8f0bf35f019); (false, 0x8d037f139a2e1754a03a77b7696b4affb47a54d13e9736924802419cdb34fe0e); (true, 0x24303bfc5073f2df2164b390e51c829fdc6a06b90da34248358bd9069e80951c0c1a70b9de2c74ba539893f8e6c96de34792ea1b2218630766391c5ef9c7b7f9); (false, 0x2e02ef4c2b039b3dbcf5615296cb6ea57f0179ec1a4385f320b0ba8904a8b67); (true, 0x61e64cdd3d265827b0e5691f3e6fd993931e5ceeab5bb262bb217ad4c9ee95f7875efaea3e7a8d30ef41dea52b745e8103445531e41005713b6decb873f0d2a1); (false, 0x26d3469adfa59b43ec6aa8e8457fcaa902a45b4877527c7171c0269d1e7c9b7e); (true, 0xa86b8cacb703f4a0a049d47e5de2c1512a763bc8f7ee6eaabb94bf7bc6632b8190498ab3118c8a00b53e54c20c6884a4c48f1e56e4232dae57c6db88d0ed292a); (false, 0x2722f71e05415dc7739329035bac760deceffbc7672877a06688a29eb33ced1b); (true, 0x12a5399dcd218d6face752bddd8c543d915d2fe8abb17bf927d1291250870ee0fed3d6cf8ef621f9f7ed4dc08716f68222acdc2ccda012501a0b9230061fdca); (true, 0x4f3872ce70a73b458105c082c8e679039767e488edc3862bbac07645b84125541f0ac557a47ef79558aa856cfd7d03f1855c35d062caccf66b1391fefab31c08); (false, 0x610768765c93762bdd6feac3a944a0f834c3bb363e76106099089ec7cda171d1); (true, 0xcab5a93a577b6d688bd07c84234c9ba467b9ef9e7d67f75d63aa8c60aed2f9f3e2c6594cac0e350b0a22d79d4b4e5406c9c605aadb326440fe668e330473f9e1); (false, 0x6c8a6faf57a4293b01d956f85b5a4a558be6e837c95eb700a0ec4ef539b2fda9); (true, 0x1f13f265ec9baabc8ed9f4ce86da5d6b730944fb0f44a525ad933ed5e7e4b735b70b5ee9e269864ecd4b4f92ab81d9a6b67b0cc27c034c07989c047cba945e92); (false, 0x998a142a9c1eec051a2f95db591e6f6d8272d60b11c0c28d8c534f59827223a1); (true, 0x1fe51a6adafb210fd30f3b541294fff802b07fe85d67bbe11c130cd05be2cb5ae36657fbcda65ac806a53cb9add227bece60869b4642ecb0eb2edb027d121d45); (false, 0x26ab260a0fc508a464cfb2d2edf465b7008a1cdab2ab85444b9e4be80323c5ce); (true, 0x202ac1c5a32a70cf947be6fd81902754cbbefd4bda36cd00d1dc95dee6111e1988925fde4670ecb8e8af60a8a1f8d1b5b277da521c28595607d259d951ea7185); (false, 0x390f0307b5ff3ac69ff7525b04902aa2fb260c53e8ea898a0acd8a24a467001d); (true, 0x66610af57178f1219661c824cac72b3343b6c80dd6a5ff95308ef10ec1eea26c4a3b194d33a03714ed1dc79596915450905a4585fd694c7c2515b011049cc576); (false, 0x7ed0f673853defea66672eda46777ae134cf85c63bf20e9c698ea8f283a907d3); (true, 0x3500910354a14e88ca7680bf103a186f15b0456780731455ce1963b98e577041fab059ebdd966956a4404dfc36cb320a9323e14739ebd74c0ec70f600e78242b); (false, 0x38e1de0ebc5572b75968e5b98d518e872ff73711f23be9f3ab7f91bd171a8fb5); (true, 0x1608d759a176f09ae10359d84f9c31d20c82f5497a880ad749eac572ef5e66afa8a9c23eb91712f05b678830db30431c667b84bfd3c64f74f626f8bc14ca21cb); (false, 0x934d8d928cc78f8916a7a47a670602ffa049114680da363f6b9540d7b34db2f5); (true, 0x3a374be695b12e55822accc15910e99796f409c7e25e1448e9cf030de5f9e867709361d3afbde98a875ea60bb2845ccd195e8d6fe4eed894e23a570994ac481a); (false, 0x9a034dcba04b8f792bcbae452b9e0398e0513251f45da8c126f32fb8bc82c83e); (true, 0x2239ed54f3a7c378b31c56db94836ecd1efbcb1197fd5159d7b38a3914125ce084c642a8873077b348298dcebd34a45b7b4664478e7c59a2e6e0e48109aeaf35); (false, 0x67cfc9f2ed3d57c1e19b3f32817d883da4c65ee69341f50c2415a99e4a481eeb); (true, 0x1247b4b4c5a1324c337b5de752e80f4bf1502220da1eaf53d9295160083309f512af166833c56f5fe7008f9fa39679cb258c37cd596351455f750236515f4c91); (false, 0x23954fa7400386bc83108292fa582b27f06a7488c881dc2bb0174e050b98677c); (true, 0x80c2362fa9719ec67b3d28606ebfac8698a05ce3e7e6d74f6f7e6d947b6b49eb7118b9771dc29d948ce409dd2f8e4d0344e80e2102de876368f2c400cea6c32e); (false, 0x8a3b7ba09b6b351b7ad856b5207eb95b029759a97dab22589e2c26b87b108c3); (true, 0x717a5866c62d195419156e66e8388d885cf503f2aa6cd1f59b7fb3d64d85346ff30c18dd503f765f8c388389ab40077c13e63da706e4288fe137fd8f520fe735); (false, 0x163e67d9df7ef526ce4cbf070dcb647669666c669376926b95639169ac4da7bc); (true, 0xeda4ea10f06d95713948251a0dc5c4d088da779369a4e541fad030bc6967654e96fe393b2f691e9180f661a2041663d788e473a1fadfb9bde1909f580e0f01c); (false, 0x8e47de5c3d0da098a9f7c7a2b2f35c3b52ec1ca6527cb3d608ceb3412ffb4547); (true, 0xc4e0b9eb3f5a714fd52f61ecc920d8c465836c531d52e4a91e9f0b8a4c2f972f8cf8d4089a676d9bb31c0a74766f036a170bd89cb302a63e95ebcaa33a5d1718); (false, 0x8acbe397a0616a4850bc0b5460538e51785debab5db6bc4ddf3834a20564ee7e); (true, 0x297ca7132488535d5f2fbb6afdc22898f095f6722a32f1e973818a13e820e17eb98d1e4b16d6da80ffc725293d2bd1b7876e4930f6bd22af779626780978534b); (false, 0x83d2fbf635f2b4037fcf75158143049e846decc0f625d3055333c9db8b735224); (true, 0x527443989fdee0779264909ff42e1735c5d0effe00a81b35bf2078de6fefa77b84dbb331df53bd122c918b398d3a3dbb129181d9544d12136de246f8e7c598c7); (false, 0x14edfe4458c8e59c55fa5930251fd1e58bfbdd25bf11144830c6a3f86f1fa185); (true, 0xb49e3d792326128dcc09f7e26772baf238bc6a216576d0f74e8bcc37517b1ad31902a437847276ebc63258d26395ad4e800df547058a1fec398f3dde7f5d1413); (false, 0x791656b5bbf26dc08b6f1969bd208fe77967a25399a21b0db1e82382bda302e); (true, 0xd6be3824f9323d266cb6d8c042b8d86f2cdcb0acda8d5e3c96735d0bce8f0d82168f72706e878f05109f0ed44146f6a5aaa1d290da69237b4f1467dc3011b694); (false, 0xbd85acab52a55947e94826083af3a9f76719cbd47e0d493fd83a2ebec75c47a0); (true, 0x7a4540bcf624b6fa3e493b9e4d07512ce968deb165d169462384384715af74bef0187c7807eba4902dd7cad7154a46f4be5b9ed9a22402683b3df4fbb162a415); (false, 0x20d654454ee39551c3231d431472894640ada014d73ba8c93293bc3a43508860); (true, 0x534e4fbd7e296e1dac76e5c2d6fcb32b6013d49044284c316c8392b3ac6575c5bca11bbbf0749ad883847534203612135cef6958f62eaaf579fcc2fb37108486); (false, 0xd671d73a9521d8d1a20bc30388262917fd7cae022201f007d24898fa4b987a); (true, 0x244eec6648893dfb10123497f74eb13b75e95097769dc51cafb875f177114856ffb1d731a59d2a6e1187efd5cbf74d3d69ce67d4299765e603b6e748da7204c9); (false, 0x39fa83ec0d70cba3cde3847fa06fd4bebc5fe9d119e9dd99066a28c1a61b4711); (true, 0xadc5ce1eb0183f4b085a0dbe296817b117031313cbf9657b0d618396c26bcf21476964bc0f1c8ee9d0767fe464d200456a3072eb1322b397739ae60e8b75ce11); (false, 0xba6305e88cdcde4fac98cfb9b9c83da661c0f0dce5d35f54fa8d4c53ed19daa); (true, 0x6018f52d1f37c4c3a97174e13138d6cc586385fb2a817ad7dc834e2c743a2d8bc4b077dc92cae3adf09366b043818b2540d2f55a3cc6bdeb27a44335e0fcadef); (false, 0x6a7bfd4d1c0a10c4877f5fdc3a1769f8c863922719f93ed8cd919ecdeb0e9830); (true, 0xaea5780eb0c9dd8dc01f90c9921f8b2b5ac5cc3fc0c680c08024de0f22ea4c4b15f8872db0f1736b4262fdeb1d65db6029d467bc77a7a212846d4866a85248e); (false, 0x339667a8fb806cf11872d3e06c44476752df7e5d85690edeecd06342fe78918f); (true, 0x67bb07f038e8e1969030db74b118fc5a019c4f19647405761f9d075c3e48282ebe14e90ebb1da14f5686ede908074c75910dc2b689adc080ede60af34f988319); (false, 0x56af6438c0704756fa81b3802c75a73f36dc24c0f88a4d343698b4e4d865d577); (true, 0x506935e3b99ec0b00272c9aa16f0587de48658370a3191b449404713634ad4b9344f2b67b10042224072d9774a0d270bccc1648be68a0f2d5a1c5cf4d7523059); (false, 0x7006b0b63e36585db7720a733b146c80d261819a2cfe1fd2fe266fcce8cf77a3); (true, 0x374ec06941c90fc6da1a20d492c038b45233403f7993f3561160a55bb97932f034d85e6d6d782c21cb105fe34133e51dadda1429e0f1559a4940f12f2aeffea7); (false, 0x6f84e08aacc9fad81d295a6117a4a56e4f57f3712a386c2d0b9f0ee810413e18); (true, 0x4bbbbb75ad147ccb10e232a43371d0c5f000ac620b4241583c7fb7846585818e0c6ebac0e3cec7d91a29487b19cab57276605dd6f879e75bf3444ee39a7e135f); (false, 0x5b7e30425795123555e627ef41208e0b6ba683fc1bfe8763ca475824b7bcbc2e); (true, 0x1daacbf0277cfdd97a85b7f24e715555172d49a06a6a63878592482134c9cb3c5af750dae81fcc525355444af59f246d4c568808579439a43b9245acf234b449); (false, 0x119c352b1f911a9837ef0929461fb5bc749f9ad5e6d4e47602803ceac0d162de); (true, 0x343680b30ebed17c5578d8de10853e54cee4abb614258958df2a3d4400c5bc47b4aab4944f5e0211af4fafadf8e43e456577029265561271d6a391a8e6d5a2af); (false, 0x9cfd728d92b51957aadd210028bc0b619de98fdfbc7c0f358594c92a21edd83d); (true, 0x4945616465f2b6c1e59eda860c969437248aa7effd639ad1226e10bf6fda6f6cf3e24b91ed9e7a662d650d606f27f22a55f35dc8ad108e5cdcf9b760028d02b3); (false, 0x35193d3b242bdd98caed37741c40cb7b1bb14c988b278a179b7bafb4a4943d21); (true, 0x94fa22c1b72e32065223529a1daadaa6da1ef460c57780c7d5893e304a5497e76c0f694ce5964849f632ad3234dae2084675bd89ae588d04b3c3f92cf448b0f); (false, 0x130fd81f602bd0ebf69325bbba2d5957972faf547fcc07df2e04621dfbef7070); (true, 0xbf70a306d73bc40a5ae1e7500a926fa8db24c749b603a531eafd747aa4e075d318b348ad28f4df5359d41a27f98bb3c4154c16cb1b18db503b774de0076b93e); (false, 0x37e6965fdf930c675fc3ea5bb396eb0e7c34814b0c4bbc5b13dcb8c967e4bd90); (true, 0x395c128961f159e8b242178a12b59ed28c116d4c369e7de68ac7a464945a0be3113d241b70cb316c3d9dc83a502b4499d5b75dd9a2e3beb86b23b3c526d3abd); (false, 0x3133edc82e75730259a3c244c181072f51b14b4e1ebfba4a40cc7533d6fdfd); (true, 0x4cceded83c0f469ef30090bff876cb990567ffee6fbeb4becadc9148cdc2c2344eb6216dccc372530f0a06d0d090a333896de0e53f81bb3ba26835fe05ef46a8); (false, 0x168e3f5ca92c73a7bc9c5f372da3481c5576e757a51ad28320da749bbcdbf41e); (true, 0x1b97771df365cb3d79a3b278e3f67d4e7479cbd476362d36d890c2a7904714f6416425c54b6e24604b1be54f231f628ad79f6fa2171d726a7229c309edcb7f9); (false, 0xd8e0c8df5373d0d65b2f4b33a9169486888b8397c531644ae76b9c6f82b6b51d); (true, 0x9d901b914e4a778c3fe7dd3cabab2ff753710c267f69e74c3f3deb3aa47bd7c323e38b56c45b49ce69a964283a95a2ba0680105ecd400ac82bd124c400f17889); (false, 0x51c61dc207aea081d7659a319aca9757d3c93d3df2b0f1a27c247b986827269); (true, 0x1ecfa682d15b32aea96e2eb912d493b4ae3d2f599cfc70f0bb386ae4c7e9b2ede3783f28b24963eb642fd7cd856a21b6c6a2d36675c7c6a2352dde82cd9b3949); (false, 0x2a7f1b7ff23f1a9b25af68c886ef63138a576b0f376f3266cec3026a1b40cba3); (true, 0xd9170e893b424dfff95bb3e9c20f367fae553762fabf88cad965aa18193ebbefe233e7a4bbbdb8a147819d67ad5d62e584fe2ab93c0f5d6cc46ae5916b6eb68f); (false, 0x40c7df652a22a2e9ef917a0943ec661a1703cb214ace6beccc587572d5b7c8a); (true, 0x577999ba5a889bc1122e6c93d23437c38c2a19c6d2dedd7e0ace7e960a9a464278d893090ce17c5805ea9cc9b240411b8c414e7c9c729d7c99b9ffb7463621c9); (false, 0x7ce378a0cd2a34c9a81269673a5db51c79ca1fe296907f17812c7a2f9b415f70); (true, 0x28dfbe4cb802ae2b5234daeb29872ca1a977d9a650527a5cfa1f4bdeb3b8a054f6c05a8eaf6bba02580555dd493fed39956a99b600b523987ca3c475948ae3d9); (false, 0x15dd4874de57f1bc059aff8a48a22617801dd44dd9a8372f13d53599592); (true, 0xde423722c15b046a30f746698e852421792a70ac4b8aef2c98f09c682f49507fcb48d84160c5465205fd52f83c3c01c6629070a234f3c422c146e691176748); (false, 0xd0ec3811f5175e79655a97e9448013cf59cb501576db6f80a871b9047beb0be1); (true, 0x1463b5930d9f0dca89dfad873bc78413115b5741d126d75185fc618c4f0136d2e1b56e796ccdbd157146f61b06bd1ac7f787696470af47b9327724bc116d2302); (false, 0x412f76d94de941405ed20168505629df9fb66771995bf14d5c64d298307366); (true, 0xd45cbabfae053b210136ac05278155b730eef0c683eed627c25018bbae87f751f6a0ffd95cced00efc96875f7c32ad97988a6510f480ed67c872f87d99d87926); (false, 0x1d4d1efa36b903a358c9c3b35cdc38b8241a0a12ed415b67ccabdc3b277276b5); (true, 0x4d0c9a0ab5910010c9ee5fbb8fdd1d59e0f76c81d77c471457b6d1191c90e2c40138d04125f02a3213ae44b2bf057fe4a58649ae8308d0b0469df802674df141); (false, 0x6bf10b667aaa5a5606570b2a9f033d3a62de1f4fc8da4c080bfabe3f6b612bb); (true, 0x10798db1aa608e0db81079d781bcc199295eba05de1f5f1495e2d16ca48bf466ffeda0a1708209496f11213e22596717fbef952228a511548b1a49dcc387e6f); (false, 0xe720e41529c71c8a3ab9d6ea0c4d46c73e2ea0348bc29dc01b723fe59547684); (true, 0xbe3c365a524d53d28b075c9fcb6de7836d35a6f8587c7f81b6549a735d2c58cdf8f78f2f61baa70c7f8008a1616f4be6e0199c9d47325f8cafb064aa0ae317); (false, 0x176bc13d8be3cf20de6dd8e19bac391015b91123333c9ac54ea3caedf304dd6c)]); vm_compute; reflexivity. Qed.
Lemma fermat_p256 : 0xe6bc85a78096c1f9b695d42f2c755e0275c2a78c319ffe2632a254c7351713cf ^ (115792089210356248762697446949407573530086143415290314195533631308867097853951 - 1) mod 115792089210356248762697446949407573530086143415290314195533631308867097853951 = 1.
Proof. apply (fermat_cube 115792089210356248762697446949407573530086143415290314195533631308867097853951 0xe6bc85a78096c1f9b695d42f2c755e0275c2a78c319ffe2632a254c7351713cf 38597363070118749587565815649802524510028714471763438065177877102955699284650 80768483248157236106747038522432628956378793144262492973261479290122044592944); [reflexivity | discriminate | exact noncube_p256 | vm_compute; reflexivity]. Qed.
Lemma bezout_p256 : exists u v, u * (0xe6bc85a78096c1f9b695d42f2c755e0275c2a78c319ffe2632a254c7351713cf ^ 138516389665330497628477975950 - 1) + v * 115792089210356248762697446949407573530086143415290314195533631308867097853951 = 1.
Proof. apply (chain_bezout 115792089210356248762697446949407573530086143415290314195533631308867097853951 0xe6bc85a78096c1f9b695d42f2c755e0275c2a78c319ffe2632a254c7351713cf 138516389665330497628477975950 [(true, 0x0); (true, 0xbb71538f28bcf85376c532c5120f36cecfc99ab204f798e72a477f56d583849f3824e01dd6206f14e18d5d450d63f456d65cb77504a44d8a7f53dfe31e604425); (false, 0x9d7cf3d9be7029b943846a172a10ba4dfbedc7f3c4dbbfa31ccdd167410e726a); (true, 0x50cd1c56ec999cf76b31e8db1a07a25567301b7cf7be56bb97706dcd2808f2a19044573ace08a33db86fb6b52d635d911370f77f160b3c86dfdb27111592b2e3); (true, 0x10e44856d6e647c408952e99f1ca27249806b204374c3a53aa06f1a433616c5cd26e7c6513ba8dc24ac808b0d066c6182108810f0052931f0144fb88ec5854a0); (true, 0xb17521a2063a09be885805f290c3a22d261a18fbf90b5287fc2e9f683ee4c25061ba915dde2ffb012c8429e97259a9d97402bdf68fcf5721d5d43bb63ff7e60e); (true, 0x4746cab04fc8e32ef7a76e5704c1cd41994af9ca773ea59ada8c1d95d6114ebd44da5b4aac45ebb1014023e2274eae036cb64e73a1bc206e93961d577819cd); (true, 0x41db5f95ce8676bd83858e3a816bcf701becd0dacf4945fd8c871cf5ec29cad2e33c1fd1cf43a4eea86282a1dc7dfbb393237b4d6615888d0ef90aabac1efb36); (true, 0x2935fbe3e644b48e53a51681b4947c3eecac7afc32721fc79099214bf6460da62f4f3a15ec4f27ddebc45d5e9f61d4bb783c49a16a00a9279fe69b52daa295d8); (true, 0xe29cf177ab0689585e8da1144580960c184f17f7cf00dbc0c8a6bdec5ddc79b42b0d7f33f9a1437eb28d037b5a83677920bad966ecffb4fa81efab4b70e9453); (false, 0xa9f90d89e6ad85f2db49d6e1f0a43629e9fc0fad77f9d40a4632600411abe46f); (false, 0xa546884d8b5ba50b3db3e1fbb3d41dfd37e2469d2a2ff6ebe2e4e44aa4bb0a20); (true, 0xa1df6d8b63ba5774e5bbd18d1e0bc9e3d9d225210ddb25e0cf101d00f06d0924b9ac261b41243e1a2db21fbd6c06449dfc204e2de81b675c7315a1218a84af18); (false, 0xf278bf7c6df607b5e1410ec6768be9ebaff22b28b2bd2f4724ae4e2c0da177b3); (false, 0x155c5139149a587d07f9109797cd505f2f064dcedd285db1dd88a91f0441266); (true, 0x200c8ea0483c3d4d78b34b4175539e2d4b0da86abef6963e606127e4f337709f83f1d19543d54e07059e57fe7cb11155850583e1dbf852ee4e35fccd4a8d7bd8); (false, 0x895a45403847a7d8133deb3f37fdf6f8f59e0bbbb71418e9d386da400805e735); (false, 0xc3a2b4ffeefdf110449baf3c16ebb728a0794111cefc1499486acbc65f7a515d); (false, 0x5426f64d2de913e2be1378496f08a67d7e68151fa4961c2f693167a605047a43); (false, 0x5d2feac33211378e686fa4c149e2a84037cfa08486a3825dd3fc976a000d4ad2); (true, 0x11cc25e150b5dc331a353644b388e686f328231faceb26aa42d138775e5961832fe286279ea599f80d0cde04de8197fae0e8352c852326c7a4210d3794b9c0c); (false, 0x9192e2aa480bc122c0c400f24bb98a369c6f3ab393d2c0fc6098687e823a41ec); (false, 0xca5dc459590cb5e25840502bc7f4784737a8ce94b733cc2886266839df7c62a); (true, 0x17b7f5f3edad688c42143a367ec481bb1f59492810c90838182980507d7f550e50958bda764480891dbf0b2446fd10c9d760a5053b56f070b01482eb3c3ca58c); (false, 0x124a04cdf6dd72a30d6c6396264f6ef3b548e880c55463968153fecb4f182949); (false, 0x260d964f430296d1041e14e70b3222966642f145a8ef7e2306517725fd8584e); (true, 0x38d52db3cf1a741d7c6ed915675d58e7da9aacec4e444157c9f6eee4bf6d1b7752468e74413345266c0633943a908369c6999081a66930e2d041b6edd351127); (true, 0xdf6ee617d74d3f77b99002a072300f1c2c2f8ff9c4aa9c0cdecb0bb332c18fff2108ea3fcc0dab090b2d066d2b6f6e38ce87f4068b37cbccd8aacb80aba8f224); (true, 0x2903a8b111ba5fe058e76c07765b91c2979151ec6de39f18d5f4159d6f63a6ca51456c75afa694f55bd588b045d75b7bf68065168e31411805a9150e0fda83); (false, 0x3a5b8e895f4364b0ce00d6e1592de89afb194dc36008e19752159ed97997bf64); (false, 0xda1a92f5219913facf265b5293c573486c65a666ab9117b9eb49d5e9f546a7); (false, 0x19ebebe30dd43b10a1d1a955c33e6b305e2627b2d62968cd99751981d33cbc3d); (true, 0xcd1dfd9ab03f2c3b14bcee496eda8f372ef9753beea677ba1ebedea791efc4ce07e2250ec3f8ce411e2e6fd5a995462f0f47e2e3a44c13495e5a894124d90cd2); (true, 0x1b0201512d98535e72d06f8997c64e056c727ce3e1c42df8038bc0402d87c429947873336e8f1cf9ea2e0f08c8c56f401f2199ae24aabaa9f601449b5bb87e); (true, 0x2765d354bb6c133bf2c565a3621ce4b5d497c846232925fb7c13694d37f59ca5387fc9e5e0c74675214683069f0f7ba0741d8be890779ec30f91ce2c05de562d); (true, 0x171e012d6d98f29132184ce223e0f43e5751592843708e69a7e78c77b76f2525ddd0c91f427a2427db38406f3e24125b9e67b4a372ce74107053b12c4765a8); (true, 0x380d192da695d441158d480dac1a079d27c5cbcd2dc617274370d69a60304607ede909de14a058e14ce1d4bef56ac28fbfa92619c8d05b0f50335f574ba89cdc); (true, 0xb7052e678360d1eb75f17019a71cdad975371e82c42a195c3cdd2f15757daff40d48f7dec77c54186d72ec251d66a5f33ca1067b8bf5b1bc973ea6cbc8ba5f5a); (true, 0x1311e2aa746361175b145b17b34a78eff5bf3b367910f087f7524395031dd02e10f901ff6790be7c08a11007e543c6aeb37fa62d5c84f2a6bb15957f81c30b36); (true, 0xe37498683f45d43157233bebeb383628875f4b32908f5d3faa90eaa9edb08c2986474ab5b23bc9506f4d2a51c31c719432fdb081b4189f918ba9dd98962b5d90); (true, 0x141483799b0eea068ba701603ba38c34431bd709d0203a17dc59cfae3e1a289e4cda53b2beb5a14443ed595391ce5538e7f91d5fab18980d6939e4429dc7ba9a); (true, 0x1c9fce62893df2bd0bc512b7e09f106905d4d4b98b79d8467623f66877880b8d67f32686b0ff78fb9e3099acef837661c31be337118e08a36ad4ba56c86cbb32); (true, 0x287976c4c6a735bdcc7fa9ca5c103ff3dbd87453a73e497f7b98325a2a7fe94ad69b807689dd4a8d227a3736ddfbee103f3e0c1c97da4c42db6e7b0e2a45f8e7); (true, 0x6a46ac82b8ea0f56fdbb30c1f905f4fb88c7fdc08f17b48e30d301de367b4610e209c26693d5a9ee08a97c732a551297ba59b34c4028c5267aeafbac19e3ad6); (true, 0x5d76e2282c603e978d6ad800a9a3de6ed98e5a8e38cbb7e460ce95af3e1bcad2f9d7c9beaa6876b6f409e0337747ecf4110e3be7582db75ed427e7280bed1583); (true, 0xc187acfdb46201933fcf714bd84c31984e15366e2eba1d9224233d2865e9ce5a043347cbe4a100b483e43bcb095a70673ba44f59747b18953d29307ce1c2ec2e); (true, 0x52d1996af88092b1c4178b560b77d08f4ee2b3a5db2364624beac03a16d8871f3216c5f9519e03132ace3dce0dbaf2f078f7dde896141730a56c95bd2515f47c); (true, 0xb3fe43ac53e7bc9ebb523609316b5f5ea32308c270ac834dc78e8b38fdd7ee24854aeb0d195eeca15de095ad18fae3aa1f77a36cf77429a149fdb433467fa8e3); (true, 0x767e61260697dae3f125fd945e78adbcebfb015eb5083acb78d937d72a0f1e34e1e2fc5ba462d1ce6862204bc12bdde205bdb7c4177c54e14cb2aa751194f347); (true, 0x93c927d39986484fb98f051f7aef23be04238a1f8ed19e9021e74f550ed7e2b5b03208053907efa3f4182199f7511c67fb91e98aec80b8afaeac9e2c49746a78); (true, 0x30de79b5cf7fc35e2b7851172d15b4dc447cab7f888fb4932ac1462a5927f68b911ab9bc286eaa5420553899a76850cd624983aa1833011799c4466d15648ac); (true, 0x7dd591c139c2333a2accc3bc164a4339c9d161b3c77a62c207b658de5b0832d67deca8a330504ec473d773e58861e38320c822fc1ae2047372bf195f25f); (true, 0x1c6d975f625d886b642ac55e2a872c00bd72938cedc398dc49c863216fa34ab732ce90eb67c5f368c6b3d569276ffb252fe8e6c0f6b1da3cf07b339a58c036); (true, 0xc0a1381d86e1355438a1a97057db371594969117aaa0cde76056c0551be2b09e335069ffb4e0fae575f4522b1561450b377edc1f59cdf8a541a47c6fbb6bdefc); (true, 0x1c54ecd8358d55b0fd34a2a23dbe315e6736f0d418b17f1c0c3ff373581bea6524aba993c0814a8860b0576662123bb041257ec8c23413a6f8ad79028bd5bfd); (true, 0x4c10372c5a14a46a33b72ad498fa0aef2d7531e9c56e377d43ae9ab8878c468780e605c7dbc0f52533ba6f0c9efb72c871a523b6837fc5684a736650886df336); (true, 0x7015d5e31d226562328782d3a74d5c9cc79171e5c070ec51d4980f93b68780e3d366b3ac05884b42936a82aab96a61af8679db4caa6a15d1e93701e8ad293bff); (true, 0x8e193d4be1ab01af43875ff85e3a9dde973b4546ef2ee1d5f4b9ddb1bed705a0c02f6e681a018910c94a59776825407708da79b35cb9dbe5e6354d7fe5162ea6); (true, 0x71636ec0abca5551ddd3074aedc0b1cc8fab4593e7ce94dcbc4dacc612039ee9f0175041c077320e43a0fa46d4623fd5fe4cc1dfd6968a78d815b151ea7774db); (true, 0x8d85cda96b5277edd0d0d9c64f65215f275e32e3650147f972345ee50cfc98ada44b0b2a58052960cf6c17ad0c9b01be779c9b5c31a2a8a48ed1fea48177e2f); (true, 0xf5316ddbeb9ac1569fb836e1852d044eb7f6b4198046f3fa7d33b055bb93c306506d72c8dc2026275ba54e50881f19c5e4f3d0d8773ddd917ee6020c12cb49); (true, 0x43478af86bb7c27f92dea9a755da6bda8d4720e0814f05f783a859ce36df44f1c4976c4a4598c9eb70ddccf44a06252d3bbb16d99d89c02e26d32e0e5dc2492b); (true, 0x547710d43d1db4487840650d9c42cdb3f403cc12feaad265d4256356845da74f28ee6d1c77bb7410416e8c1afcb267c19c58c3b41568a7c54d86c82921f4be19); (true, 0x9f8a40cd56d9f6f3f672ab91dbbade109a2327cd4fcf07e24f1d2773f2fe5a0003fe3a2a2cd7926788b7783aeb244fbf498eac824bfbecc5c544254ad6c3d4f5); (false, 0x2984c1eb0f0a6a25219c6076adde8ab8ca466f5251ceaebc0d1b232f6bc65a3f); (false, 0xc0ed00f2af5221e74c10a3a840ed8482fac55310b9b1f78073965efb526b9d32); (true, 0x224589d24273910eb24d830c56e5f9bd8a9fe30b75ba6025db2facb66213aa05f26eac86cacf44616868936e0f0c8c7e4c4bf192acba179d35064f7396de636b); (false, 0x2cadb60dee0905f6e4204969c6fb37ebda884c070db328496fce0dc3388d0d37); (false, 0x15b12aeddf205edeb2702198bcc9677f24afb37c2a029a7ef91e5088a9824d5e); (false, 0xb4e4accfd7921277a69ff635c2186b8fbbb15c669668ee05722559065a5dbb3c); (false, 0x11283ab9a3990af83bdf4b34780d60d2487197aa01ec4ca9b05e07adbaffdf35); (false, 0x4daa5dd7db72ebafbf4ce91d64005074d954a35ad664fc669c25ab73cb16773c); (false, 0xfda95ae495664338f7abde1844ddf37ddee91adc183ef3340163054108c4caaa); (false, 0x7a45c9a2a18122f7900a4ed96807a70c382ffae4358e1ecfe1d0bb42dbae810); (true, 0x80244418b66bd90bb0da031c4f5aa1118076a25a7a7b724dc2c3e45e20520fcf125a92160bed3d38ddf0290c75d52d966c71518e38becce6f796440d476bcb45); (true, 0xa695907eed4eb9920fee9940c2b4d5d9b7bfa01392f66c144819dde88e6af577baeb711215af1468333961617ae65e784a35a4a8d8c934486c30af96339f1bc7); (false, 0xaf7374664b6c1ded8a64141cc9eeabd4b8aa31ec72653b01a08fe14f1b8d8d5); (true, 0x50d23dedac59ce016b203cfdd86f6e19d34b7aed3366317d3515ac5981e992f9cec0763f3b0bdd749075a14222547bf2be3b8dc293590a718eff4459c4dd976d); (true, 0xe966322fb2cfa4db99c1d7ca3074382058e97faa6c44e18c5ee644a041764c9722538317d2a55016e028cf2bbcf09c1c17a3b60b6fb16234fc90af5084d9118); (false, 0x152a70f950c1bca0a6268c5dec79757fd295d4fc580ec7c9d124a22d6244f8c6); (true, 0xb03d273dbd6ee4fdc621215a2f0ed375e714a5a2f342e838c929d664e77c244ec12e3df8e91552218b410736e126c377ada6a54743c45562729eaa519ab231e); (true, 0xadad203d95a48edc10c04b3b2fcb3b1853255334e2472b2538a4d8cb00df6681e2f5c6d8d894ca2f987a9c138eac8018407a86f6947950b177497fdbca7b990a); (true, 0x578537373abe81c10a2240804541723ef11e735195d4b6e8484efd92dfa09a9e966a7c6dbb878c53af38fcc2f91f649e4165786be7fec1d104f2adcd9b90f593); (true, 0x856469f03dddb9d1886cd6ce612f86266881c589beffa2a50334660fd6e809aae42996133aad9053f5bc6d613abf3476217b743e110ea599d2583a458b63d7e2); (false, 0xa51bac28a4cfad3e5084ae5a926499c4aa5f6ba7507f5ca581f7cd8d0f30bd37); (true, 0xdc6b5c4a4b87dbf8925e087556ca927d4a800f978139bf2e3d0eb57c7cf7963e47ff0c087ea95310d03bd90a50821ce13e8c836b6709a99735de4b3c2ff5d28a); (true, 0x15ad219c9847b16f03b689125bdec89101d825722fa7fc80cfa7fd991fed7fb8044c2f4e1ebe7b678af14d1e97f6778aa94e6b3d3ae0ab67852daa80178e23fb); (false, 0xb24e2bf5b9b7643b414b47a2280239b681156ad3674851fe3e7f3b60041492f5); (true, 0xfe53aeac3aa9bfab3846646ee324d065a71924507340eff647915df3d7c719ed8ec7ff9c39118dee8dcec80c9332133ecc2e36a53972e0d42a542d967aa24ea); (true, 0xdfda2e7ce1c713077a7efae7e2efd98584762a9980d5bce27edfe3f7b750f7e6f041c9a4d5346e1b207253f375aed8a47bad08daaf712c8756f3067312148ed); (false, 0x5c79b962a0cdc200d2d9821cdca7fa72dd70183dde28dffd503ccf8adec811eb); (false, 0x12264d8fb16aad9c12b686f13c3696aa6d05caad23cdc5666083b77a5d022a5); (false, 0x1dc8cbd6ef6199c9185c70df41b81e8fc86ed2b55bf88abb16b11bae3b3c977); (true, 0xbc4bd1425b918df681f586f88652f0d5f118870880b21bf458af75828d20191893e1ba51b13aaee3b7feaf315d223c00f31ae05ef8544c6d8ff83abaee95f21f); (true, 0x604d75e5ae189d6558d9a4a1b2ace6e18c1a9238bbf937b4f7920eb20d933c77df9d1cb32eb479574ab986b3b136d34aebb8ddd9feeac34507e159046ca5bdae); (true, 0x3d4fdc293e69372576ce1bf775eaacbce445d7bf4f44c1629f40babfac6d5087670775743e8e61a8b4a87fd08c480692a17d0463effc86997ecd8f8de9801322); (false, 0xaaf1156d3724e2477d455d2d2e50785b77aa33dfbed22942022a5682dfa3bc47)] 88317366895747718866507594745489967980392585225534747653593813090709493439563 3032591365268859109820100848552172150586886180138443325073730917973435726141 (-2313029206725566276750707350195650199641380653301900069468539783265092765791)); vm_compute; reflexivity. Qed.
Lemma prime_p256 : prime 115792089210356248762697446949407573530086143415290314195533631308867097853951.
Proof. apply (pocklington 115792089210356248762697446949407573530086143415290314195533631308867097853951 835945042244614951780389953367877943453916927241 138516389665330497628477975950 0xe6bc85a78096c1f9b695d42f2c755e0275c2a78c319ffe2632a254c7351713cf); [reflexivity | exact prime_q160_16 | reflexivity | split; [discriminate | reflexivity] | exact fermat_p256 | exact bezout_p256]. Qed.
