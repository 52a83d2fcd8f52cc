(** Certificates: 2^255 - 19 and the order of the base point of Ed25519 are primes, and a non-residue. *)
From Coq Require Import ZArith.Znumtheory ZArith.Zpow_facts.
From Verif Require Import Prelude ShaFacts PrimeFacts.
Local Open Scope Z_scope.

Lemma chain_val n a steps e y : chain_exp steps 0 = e -> chain n a steps 1 = y -> (y mod n =? y) = true -> (n =? 0) = false -> a ^ e mod n = y.
Proof. intros He Hy Hm Hn. apply Z.eqb_eq in Hm. apply Z.eqb_neq in Hn. rewrite (chain_pow n a steps e y Hn He Hy). exact Hm. Qed.
Lemma chain_one n a steps : chain_exp steps 0 = n - 1 -> chain n a steps 1 = 1 -> (1 <? n) = true -> a ^ (n - 1) mod n = 1.
Proof. intros He Hy Hn. apply Z.ltb_lt in Hn. rewrite (chain_pow n a steps (n - 1) 1 ltac:(lia) He Hy). apply Z.mod_1_l, Hn. Qed.
Lemma chain_bezout n a R steps c u v : chain_exp steps 0 = R -> chain n a steps 1 = c -> u * (c - 1) + v * n = 1 -> (n =? 0) = false ->
  exists u v, u * (a ^ R - 1) + v * n = 1.
Proof.
  intros He Hy Hu Hn. apply Z.eqb_neq in Hn. pose proof (chain_pow n a steps R c Hn He Hy) as E.
  exists u, (v + u * (c / n - a ^ R / n)). pose proof (Z.div_mod c n Hn) as Hc. pose proof (Z.div_mod (a ^ R) n Hn) as Ha. rewrite E in Ha.
  set (x := a ^ R) in *. clearbody x. set (s := c / n) in *. set (t := x / n) in *. set (m := c mod n) in *. clearbody s t m.
  transitivity (u * (c - 1) + v * n); [|exact Hu]. rewrite Ha, Hc. ring.
Qed.
Lemma pow_chain n a e c steps e' y : 0 < n -> 0 <= e -> 0 <= e' -> a ^ e mod n = c mod n -> chain_exp steps 0 = e' -> chain n c steps 1 = y ->
  a ^ (e * e') mod n = y mod n.
Proof. intros Hn H0 H1 E He Hy. rewrite Z.pow_mul_r, Zpower_mod, E, <- Zpower_mod by assumption. apply (chain_pow n c steps); [lia | assumption | assumption]. Qed.
Lemma bezout_mod n x c u v : n <> 0 -> x mod n = c mod n -> u * (c - 1) + v * n = 1 -> exists u v, u * (x - 1) + v * n = 1.
Proof.
  intros Hn E Hu. exists u, (v + u * (c / n - x / n)). pose proof (Z.div_mod c n Hn) as Hc. pose proof (Z.div_mod x n Hn) as Ha. rewrite E in Ha.
  set (s := c / n) in *. set (t := x / n) in *. set (m := c mod n) in *. clearbody s t m.
  transitivity (u * (c - 1) + v * n); [|exact Hu]. rewrite Ha, Hc. ring.
Qed.
(** Two factors, sharing the power for the remaining part of n - 1. *)
Lemma pocklington_split n q r S a c0 c1 c2 s0 s1 s2 s3 u1 v1 u2 v2 : 1 < n -> prime q -> prime r -> q <> r ->
  (n - 1 =? q * r * S) = true -> (n <? q * r * (q * r)) = true -> (0 <=? S) = true ->
  chain_exp s0 0 = S -> chain n a s0 1 = c0 -> chain_exp s1 0 = q -> chain n c0 s1 1 = c1 ->
  chain_exp s2 0 = r -> chain n c0 s2 1 = c2 -> chain_exp s3 0 = r -> chain n c1 s3 1 = 1 ->
  u1 * (c1 - 1) + v1 * n = 1 -> u2 * (c2 - 1) + v2 * n = 1 -> prime n.
Proof.
  intros Hn Hq Hr Hne HS Hlt HS0 E0 C0 E1 C1 E2 C2 E3 C3 U1 U2. apply Z.eqb_eq in HS. apply Z.ltb_lt in Hlt. apply Z.leb_le in HS0.
  assert (0 < n /\ n <> 0) as [Hnp Hn0] by (clear -Hn; lia). assert (0 <= q /\ 0 <= r) as [Hq0 Hr0] by (destruct Hq, Hr; clear -H H1; lia).
  pose proof (chain_pow n a s0 S c0 Hn0 E0 C0) as A0.
  pose proof (pow_chain n a S c0 s1 q c1 Hnp HS0 Hq0 A0 E1 C1) as A1.
  pose proof (pow_chain n a S c0 s2 r c2 Hnp HS0 Hr0 A0 E2 C2) as A2.
  pose proof (pow_chain n a (S * q) c1 s3 r 1 Hnp (Z.mul_nonneg_nonneg _ _ HS0 Hq0) Hr0 A1 E3 C3) as A3.
  apply (pocklington2 n q r (S * r) (S * q) a); try assumption.
  - clear -HS. rewrite HS. ring.
  - clear -HS. rewrite HS. ring.
  - replace (n - 1) with (S * q * r) by (clear -HS; rewrite HS; ring). rewrite A3. apply Z.mod_1_l, Hn.
  - exact (bezout_mod _ _ _ _ _ Hn0 A2 U2).
  - exact (bezout_mod _ _ _ _ _ Hn0 A1 U1).
Qed.

Lemma prime_353 : prime 353.
Proof. change 353 with (Z.of_N 353). apply primeb_iff. vm_compute. reflexivity. Qed.

Lemma prime_2 : prime 2.
Proof. change 2 with (Z.of_N 2). apply primeb_iff. vm_compute. reflexivity. Qed.

Lemma prime_83 : prime 83.
Proof. change 83 with (Z.of_N 83). apply primeb_iff. vm_compute. reflexivity. Qed.

Lemma prime_9463 : prime 9463.
Proof.
  apply (pocklington_split 9463 2 83 57 3 652 8732 9462
    [(true, 0x0); (true, 0x0); (true, 0x0); (false, 0x1f9); (false, 0x71f); (true, 0x1af9)]
    [(true, 0x0); (false, 0x2c)]
    [(true, 0x0); (false, 0x2c); (true, 0x50295d); (false, 0x6f1); (false, 0x27a); (true, 0x932ea); (true, 0xcd96)]
    [(true, 0x0); (false, 0x1f79); (true, 0x114b1c6); (false, 0x27a); (false, 0x39c); (true, 0x1f2ce14); (true, 0x291f979)]
    6606 (-6095) 4731 (-4730));
    [reflexivity | exact prime_2 | exact prime_83 | discriminate | vm_compute; reflexivity ..].
Qed.

Lemma fermat_37853 : 2 ^ (37853 - 1) mod 37853 = 1.
Proof. apply (chain_one 37853 2 [(true, 0x0); (false, 0x0); (false, 0x0); (true, 0x0); (false, 0x6); (false, 0x7e9a); (true, 0x50c); (true, 0x508d); (true, 0xd81c); (true, 0xbe9c); (false, 0x580f); (true, 0x58fe); (true, 0x264); (true, 0xe8c); (false, 0x2dc4); (false, 0x93db)]); vm_compute; reflexivity. Qed.
Lemma bezout_37853_0 : exists u v, u * (2 ^ 4 - 1) + v * 37853 = 1.
Proof. apply (chain_bezout 37853 2 4 [(true, 0x0); (false, 0x0); (false, 0x0)] 16 32806 (-13)); vm_compute; reflexivity. Qed.
Lemma prime_37853 : prime 37853.
Proof. apply (pocklington 37853 9463 4 2); [reflexivity | exact prime_9463 | reflexivity | split; [discriminate | reflexivity] | exact fermat_37853 | exact bezout_37853_0]. Qed.

Lemma fermat_75707 : 2 ^ (75707 - 1) mod 75707 = 1.
Proof. apply (chain_one 75707 2 [(true, 0x0); (false, 0x0); (false, 0x0); (true, 0x0); (false, 0x3); (false, 0x3f4a); (true, 0x35e); (true, 0x199c8); (true, 0x1b929); (true, 0x12ad); (false, 0x688); (true, 0xdd); (true, 0x12c97); (true, 0x726); (false, 0xeaab); (true, 0x13eb8); (false, 0x127b9)]); vm_compute; reflexivity. Qed.
Lemma bezout_75707_0 : exists u v, u * (2 ^ 2 - 1) + v * 75707 = 1.
Proof. apply (chain_bezout 75707 2 2 [(true, 0x0); (false, 0x0)] 4 25236 (-1)); vm_compute; reflexivity. Qed.
Lemma prime_75707 : prime 75707.
Proof. apply (pocklington 75707 37853 2 2); [reflexivity | exact prime_37853 | reflexivity | split; [discriminate | reflexivity] | exact fermat_75707 | exact bezout_75707_0]. Qed.

Lemma prime_7 : prime 7.
Proof. change 7 with (Z.of_N 7). apply primeb_iff. vm_compute. reflexivity. Qed.

Lemma prime_3 : prime 3.
Proof. change 3 with (Z.of_N 3). apply primeb_iff. vm_compute. reflexivity. Qed.

Lemma prime_11 : prime 11.
Proof. change 11 with (Z.of_N 11). apply primeb_iff. vm_compute. reflexivity. Qed.

Lemma prime_991 : prime 991.
Proof.
  apply (pocklington_split 991 3 11 30 2 261 50 113
    [(true, 0x0); (true, 0x0); (true, 0x0); (true, 0x21); (false, 0x4)]
    [(true, 0x0); (true, 0x4615)]
    [(true, 0x0); (false, 0x44); (true, 0x228c1); (true, 0x3cffd)]
    [(true, 0x0); (false, 0x2); (true, 0x34e2); (true, 0x59)]
    809 (-40) 292 (-33));
    [reflexivity | exact prime_3 | exact prime_11 | discriminate | vm_compute; reflexivity ..].
Qed.

Lemma prime_p24_16 : prime 8574133.
Proof.
  apply (pocklington_split 8574133 3 991 2884 2 1878232 3435729 7079057
    [(true, 0x0); (false, 0x0); (true, 0x0); (true, 0x0); (false, 0x0); (true, 0x3e9d7c); (false, 0x3b2535); (false, 0x7d3d1b); (false, 0xa40b8); (true, 0x87); (false, 0x5c36f); (false, 0x2cb83c)]
    [(true, 0x0); (true, 0xb3ed72e8d3)]
    [(true, 0x0); (true, 0xb3ed72e8d3); (true, 0x25a0e5c7285); (true, 0x234873d4158); (false, 0x200a54); (true, 0x60d79ce390); (true, 0x34bd4911282); (true, 0xb958e0c9169); (true, 0x327516a52d9); (true, 0xb827c71b0cb)]
    [(true, 0x0); (true, 0x44d4d709930); (true, 0x14b445e15c3f); (true, 0x18358e717188); (false, 0x51ec5e); (true, 0xa9ef641cff9); (true, 0xbb4f210427); (true, 0xf56f9884c72); (true, 0x93e44cc9bc8); (true, 0x15794beb1b33)]
    1014251 (-406419) 498358 (-411459));
    [reflexivity | exact prime_3 | exact prime_991 | discriminate | vm_compute; reflexivity ..].
Qed.

Lemma prime_p51_18 : prime 1919519569386763.
Proof.
  apply (pocklington_split 1919519569386763 7 8574133 31981902 2 1183722064785962 1059928654987441 1124719358789780
    [(true, 0x0); (true, 0x0); (true, 0x0); (true, 0x0); (false, 0x0); (true, 0x4b1); (false, 0x7674da0e234b); (false, 0x67441b3b452eb); (false, 0x1bea105783dd); (false, 0x3fb581dd0c04d); (false, 0x2061033bde6f0); (false, 0x22221ecd2c12f); (false, 0x50d152dedb96); (false, 0x405062f74fd17); (false, 0x11cb8f7995b07); (false, 0x16f9179a829); (true, 0xa6a5515dd426c); (false, 0x29ef3bc824daf); (true, 0x4adfe3cb38f); (false, 0x40cbed97a4b92); (false, 0x37d170a821b1a); (true, 0xaaf49e67dd387); (true, 0x23ea4ac2ea25d); (true, 0x8ddb2068ca660); (false, 0x20733333da30e)]
    [(true, 0x0); (true, 0xae802b84310a51ed9cd4cc072); (true, 0x1a421303fe73895ee3114845)]
    [(true, 0x0); (false, 0x297e823e4e067); (false, 0x2e16b51bfdfa5); (false, 0xf518607415cd); (false, 0xf1e81cfe6db7); (false, 0x26f10c90b0ec0); (true, 0xb785f76de02e44a4c8a88661); (false, 0x274e325e322cf); (true, 0x4392f9536eea0ef6383077a1e); (true, 0x175b98e02fd5d422e0179332bc); (false, 0x57bdeebd796); (true, 0x1b913276f6414ce38528e360c2); (false, 0x2d25b63f9c854); (true, 0x2345a27c749abbf4c702da67); (false, 0x1b6ea87672aea); (false, 0xd94bc97cfb4); (true, 0xdff2ee3a745aad64599362b54); (false, 0x44c6429c7e65c); (true, 0xb584669f96a5fd024a0ba541); (true, 0x13abfb8ff040a38b1f52d34918); (false, 0x22e2aa93f6955); (true, 0x1816d81f9938235df893dc8071); (false, 0x43cd16055cf); (true, 0x1976bf41942055c9fd52e3a4)]
    [(true, 0x0); (false, 0x2144e30a3ca68); (false, 0x43d85ed83004); (false, 0x9deaace0372); (false, 0xef8148638fa); (false, 0x1df3232986edb); (true, 0x145a45628d1d62b93a1e29772e); (false, 0x11dc3459497eb); (true, 0x14e4b0a133a27b899e3753bba5); (true, 0x1907e7ceba77fc618a99acfa95); (false, 0x6a7501a4524d); (true, 0x5709a8a71906de043f2c00ea5); (false, 0x619c82d1371d4); (true, 0x3aaf3ac777a2670cd2f0d17bf); (false, 0x237efe1cda61d); (false, 0x6a8905bf5f95f); (true, 0xee4fffdf2a9c821740f440ead); (false, 0x5dfec2560275f); (true, 0x352ff569da7e45997d88fa472); (true, 0x2126e7491aa76b2bf22dd384b); (false, 0x2da805cca8a5); (true, 0x3c345a2bada688eafcf66ebec); (false, 0x494263703b17f); (true, 0x66c550f2f7ee6fa8c064ae4f8)]
    1290547218147893 (-712619969572013) 681516913897206 (-399326622467171));
    [reflexivity | exact prime_7 | exact prime_p24_16 | discriminate | vm_compute; reflexivity ..].
Qed.

Lemma prime_p116_21 : prime 75445702479781427272750846543864801.
Proof.
  apply (pocklington_split 75445702479781427272750846543864801 75707 1919519569386763 519165620632800 2 66628784550627212900504873757094751 56747016255153332959347766392083459 58781699294900834553279248901967638
    [(true, 0x0); (true, 0x0); (true, 0x0); (false, 0x0); (true, 0x0); (true, 0x0); (false, 0x4); (false, 0x260e22dc1f841ff3c9c7e3d185e34); (false, 0x679a4f409b781a9a7e9ea11e9e880); (false, 0x9c68d29e82744cac062dec6e952); (false, 0x66301c6b911072f00d5ad4c3554a3); (true, 0x1a173c848d4bff04048f26a8b799f8); (false, 0x7520b537c7573cb830ad10cca4153); (true, 0x29a5620a85707602ccd674c06c69e); (true, 0x143e7baec17d75667a6d2eddc82db3); (false, 0x651046c98f67ac187d7779f79cec4); (true, 0x85071c938944965e554dfa7c53e8b); (true, 0x1fd1b0ae4454015bc9f9f0c9e3d8a); (false, 0x25d7ee089edacf6bd925fbeec800e); (true, 0x13c62f523645f901770c90ba2bf2); (false, 0x2187430e9b370586229657d754d4b); (true, 0x5579eebf48685e77f93401fd7b8ed); (false, 0xee58f69c75e7e811c1c429ef2d0c); (true, 0x197c2e88c38df401b2705d45d18c01); (false, 0x440297d026687269e2d5770902ba7); (false, 0x365ca23e271d3e6540d5396d7bb82); (true, 0x2c8196e615a2c7e7a6fb5f49d3c6); (true, 0x87be112e92b4c3efadd6d672db1cb); (false, 0x99458bf0d65dac261cc22cc23a10b); (false, 0x98d02cd68aa31e2249c09058eddcc); (true, 0x16d8f40fbb6a25a8bb66fde0dcb81); (false, 0x188d44647feda60a358cac51ab64c); (true, 0xa86da99fc877881f10798923867e5); (true, 0x144a8bf6b7c6c4a59791b0c3660ed5); (false, 0x3e23053b891551b9de3b64f858034); (true, 0xb830f20a6c30acc4547fc5c4bf39a); (true, 0x8821a0090773af2d75fe8b52b0e33); (true, 0x32fc14bac9af95b3b21e5dd4cfbd7); (true, 0x31e2a6de2d39e9f257675346615cf); (false, 0x83d1e171c1c3b7d60bda3343a98ec); (false, 0x1795e7d1cc8e58652d03b5e17cabd); (true, 0xf7f88c8c2954616e981f2bfe17232); (true, 0xe423328e6fb2327fe86a13883720d); (true, 0xc45e91d6bf3743bb67b3da440add3); (false, 0x3be9c25b91640ca6cffc6c77bb610); (false, 0x648c0f320df793318ecac44ec489); (false, 0x1ccf7f1db435b5d4c18f31d930a97); (false, 0x8ebe26b2e1163b529dbf2f3291484); (false, 0x150688641f169f1c1e0e6e3f30f0a)]
    [(true, 0x0); (false, 0xb55259df0e534f25ac881b42c0833); (false, 0x97d92d84d5eb75f7e45fa2779d934); (true, 0x3363272bba52b0473096715289f41d018c0ef6d96c30b3dc40f84e85fe); (false, 0x6995d1a17884e7b94ce0ad7ba6428); (false, 0xaa6ee6c4126d6ea072bc47c9b96da); (true, 0x523df4442563da3202cbc97dd4321439067a31808468d979503b2c3d86); (true, 0x5b9d0467971f29c4dc693896729969265388cd1c7bcccf0c7b87dc9e9c); (true, 0x5e7fc68b853d73a8635c8f3c242a8e753e5d734c75f230c038a5818fc); (true, 0xaa92d85b543b6590040331870ca2ccadaed48871ebae99b6cfc9c9d05); (false, 0x49593424a43f2ae7c76aed297e5b9); (true, 0x12ff3311337fd9e5c2e340bc440d3e748304d50264e1ed16f4761ba37f); (true, 0x43a870b0258a8d5968f03ec22d70818aad7fd1ee35d9d57376aa62b993); (true, 0x72dbcbd0a39fe64fafbb772e6e5e13dd876f43a188fc260eba8b780a81); (false, 0x14274c6a906a9518a7b330d61b68f); (true, 0xc478b544bad807b10a6c91caf16d9ee76f7647f501bdd93630f06af01); (true, 0x1802f889a348791968a7a227fdde25ff8166cc3e6a0037ef5fa125d84)]
    [(true, 0x0); (true, 0x916c349c09dedd6c0567ad5271141ca15763fc2b61d4d9961a04918212); (false, 0x54f1e46533913e1b0f902d0df7ab1); (true, 0x521e502641063d9c8d9113079e528b8bf22eaf5a176c8b823824e3b16c); (true, 0x52cae654846dfc1254422f1a0964d5d7cd1856a65fc50588cdbcb30a39); (false, 0x943137109b8f8e563c6604c3c53b); (true, 0x54e03780950d36338ca05eadf20caebb7d118736ed2699b99d2d867a93); (false, 0x125e370df44bcff517912ac2aa834); (false, 0x1924e7deb907d99b4ed83c1e2a90); (false, 0xbd7e1e43e71773f4d06188aa8202); (true, 0x7d71d6326fd8a01f36108d04972e5c7fe405ea462eb5bb9550dd08259); (true, 0x2bdff0a0fa4ee38176cb368323cc084a1eed33d668214d383435e6a8f0); (true, 0x699067b9371bb1bc3c3dbab3a3bb0888384de57a4555bd88b556ca90f6); (false, 0xb278bf525e8f148e8034da389a38a); (false, 0x23e9639f5b2c738a8d168d4a1d847); (true, 0x9d2c86c8dc4828f09d86c3458bedcfda20138056707078628cd27da49e); (false, 0x9ca40b1cd3049333d62f9039ac9f7); (true, 0x710882edfcaa69b7095a1e558c63a5bf944fcb2d5c7f246739b19e59); (false, 0xd7cbec1875de10dba8eca83c5d93); (true, 0x42b91fbc682aa0daa06619830e026ef6f9f214210cbc377c517c09a7ec); (true, 0x903dab35d83040a75386513a21736b89ae9a82400dea92f9cbdd130adc); (true, 0x19601acff37bfd993cc673f482e2168bfff708f4aebca6ba1a0207e83c); (true, 0x16209ca6638fad79a5662a33a4a76756c02d2b7cb5a039656fa9a7ba85); (true, 0x1586581f1aa6a5007ea99790345b9b5563286ee96389bbecdc48834ac); (false, 0x4ea4bd494ce0877a1f4fe034b55b7); (true, 0xca83697b5e9ec65e60b6edf3dfcc693a6ec343b6a17d72f39bd74ef3); (false, 0x3f1fe75f517f6a7ce3ea890cc6ef1); (false, 0x8ed0886ad782244e0da6219a771); (false, 0x64983426e595fa589968feb805317); (false, 0x6791330f4463841931b90ec57eb0e); (true, 0x18926f41dcbfa47973d03b9150a94c77b5b76569ab08a157c21af4d661); (false, 0xad871491845a1fa83e094a1454b3); (false, 0x4b68c6dcfe579427a20c5ffc0b968); (true, 0x172bf148d3e248e41056ed05db20701e25949dad525f6425195104ab39); (false, 0x7663dae718ea9acb46756a6d8b90); (true, 0x25b6964375fc6302eea879a23a99e95256df57a7b6fa70b364fc130d29); (false, 0x436bc3c26873817bbe1c34e45b5b1); (false, 0x954012c463401e45bd0bf8b19ead1); (true, 0x80de67a29f937859cffa63845e771754561a587ecdd862190a21980e83); (true, 0x72adc0a6e98d0afb134b4f127e27fa48384ecbf330b4f9d87c50666e5f); (true, 0x61560059a6478e2fef6f2a859c4860da8b6b5d0656d1d49df22064c7ac); (false, 0x15ab5e1e27a61d308b2df67ba7215); (true, 0x40db282cc3fb7a4baed469c62d39db08184321f66f811b1718bf0b9fa2); (false, 0xdbabc51a2faa590041524d9f4cc68); (false, 0x7f6376b6bdff5bf8532e887cdd96c); (false, 0xb94bf19856d636b345246894d0405); (false, 0xccf60e911e39ab1a11cc141facdee); (true, 0x9d49b0989dd34c98518e6b888a21802afe95eae498f60ad56e4fe3); (false, 0x2fdfa2354a8c7eda450382df5d16); (true, 0x422234137a5576d65ec56a00b39d26c3c865c0998254e4777e1d0300b2); (true, 0x1943d35750c3459f77a57088f1d4a74766602157fe510cd8af06fe8b1)]
    [(true, 0x0); (true, 0x59d75914c5a41a9b22fa88c40ae102e5143dac2b87ca10e72be0a4cbde); (false, 0x540da770283a7cd781a7833afe1e); (true, 0x2c78edef417ee56305b67310747df7315dd619becafaea5a70fdcc); (true, 0x196a4e5d843b9de83ed76cdaefc5b1ae75eb0a749c69771016a278ab6); (false, 0x4e569506265386f77caab4d269155); (true, 0x486c71a13a93ee717e5af8fab845d60207fd56607cb05b8c76ccb2fc94); (false, 0x1e3946df5c4cd4f65ab96a803f0c7); (false, 0x805cd1750b8a8ef6f286fe6affb0); (false, 0x37e06c9c7dd90639b721cf75e75f0); (true, 0x902899341a200efdb888942bde772002db9cf75e1c1a75fb309325a971); (true, 0x38327dd998979de336b2a970bcd6389488bbf5021a26176946327c8803); (true, 0x68eeb0af8c95b315841ea9c2a9180640e931fa99b4754e1af63c7d5eb); (false, 0x938bfa47b26fb03be4df3a001); (false, 0xd22e6ec55b82b7ea04fd010e6b80a); (true, 0x7162452383cb8e6ae5295a2af77ddb05b669d2d933a928f58180dc692); (false, 0x25cd0fa4ccd1df611b660e8d85f6); (true, 0x998e900826fc7dacbe5d2374ff1942fa3d6b6defc1071887d3bb4d8ddd); (false, 0x1b9567234e08f3280d126d8a5671); (true, 0x328df4399554a63a3d4ff40848f570e18046965ca50d0adf15908b6939); (true, 0x1e227254c4af2d489b2ac6f10b0c5cd74b4d325a262f5297d33310ae8); (true, 0x7261cfc5fd0dae4add9fa00e87314101b5a7f6f30b8bedf010b0b0478); (true, 0x293a9c2a9cb610596e13a971faa957df28faa3ac89e394ef867308bd9); (true, 0x920d3e0683962d0d8b8c754eb505211461c3708ed2a31c464c115667b7); (false, 0x9c2d55e7ec8c5e1a345a2b82eca2); (true, 0x1fd1be6359e24dad430e838c49acdcbc7601432e6df7560631a9e36f6); (false, 0x4f8cfa59dc78b418f877b036c667); (false, 0x823f6eeb610351391efbac451691); (false, 0x73a3841874b9611e5ba9ad0ae6075); (false, 0x52ce36106300a93acc32118f1a6e1); (true, 0x4015f58b5d040afebc171f241867a18e2049f12aff423355d6d2c6ee85); (false, 0x1d16e8fa7e323a8a56375228f72f5); (false, 0x4a1c9cb86c6214d08ec7346642e8d); (true, 0x281b634e9f145f8d85e19eae90f6e1d34c63a56dab317fa72053886745); (false, 0x63444fc41ea090c81a82f4a76394); (true, 0x21ca34316e52ec633fcd7f11e200c401f51adcebd4f218d6dabcd179f); (false, 0x55565dfcb5ea3e910684dd545c12d); (false, 0xbf6765a4de0a1fc2f7c119a48f858); (true, 0xdabe1309b8a167992882a5e38dc94ec9257f53d0ccc361dc113f24e72); (true, 0x56f4518bf844e0f698cdf4dc3caa9ba623fa748a74455b420f2353c69); (true, 0x74c6ffac920d565c294351aab0f2ba263bbab4846d38ab304926a96f16); (false, 0x538fc830fd43ab403479560c7bedc); (true, 0x42bea379e29839bdec3fe6163a12911043ea15d7f2a3f6d354a82e23ef); (false, 0xd2bf31c449f7766a4bd3331e00e4b); (false, 0x302d24a776c8e7c392c4ff723c721); (false, 0x40e636414d7fc2b6d3cb1136e5496); (false, 0xc4177a638c81673eaad83c870398); (true, 0x45915fbfa7ae0c2a3e0cde2eae05160249029ec5049f39005411583f6); (false, 0x7981f0b2bc40028e8100491f5e147); (true, 0x163f29dde55cfaf208435baa3ea340621ae1069f16e828c0fe84277fe7); (true, 0x4ff3b66be3e1d5c4b8c01418644409ad239a33bcc8497f89c8a7950e8f)]
    74602835786463724888147869570305675 (-56113048138023733339996598108928949) 8986369574106813140303762220009459 (-7001513097443202581781503170404782));
    [reflexivity | exact prime_75707 | exact prime_p51_18 | discriminate | vm_compute; reflexivity ..].
Qed.

Lemma prime_p236_24 : prime 74058212732561358302231226437062788676166966415465897661863160754340907.
Proof.
  apply (pocklington_split 74058212732561358302231226437062788676166966415465897661863160754340907 353 75445702479781427272750846543864801 2780763247480851816841359381413802 2 25686082838651505011370039260590883329232637451457271664974363710626838 69490809710348678725736597923071784769591275419387514694139338586948360 8562916886866218785688304546164188478888058893729309188831496247839076
    [(true, 0x0); (false, 0x0); (false, 0x0); (false, 0x0); (true, 0x0); (false, 0x0); (false, 0x0); (true, 0x0); (false, 0x5f6e200000); (false, 0x0); (false, 0x0); (true, 0x0); (true, 0x1a7cb8c905e3cc4000000000000000000000); (false, 0xb7ca); (true, 0xacbe73a622f42e13e3bd25db91ebb4ffe433b0fc44a9ab2666af5dcee0e); (false, 0x24b50ae55d5cb76fada5aac5f508b47e44c8dce915a76fcf163a66d760c); (false, 0x1f092a9337133a8a3e8c703923f04efea3f236350c3caa628e2d1dd94bf); (false, 0x42c31d72e050a4b4f85249a437a3cc6be2b1c2c5003470fefc7b8d7abc3); (true, 0x2a19b1c7b2931b3be33dc04b51a2459bf14c9f997119014546370f62219); (false, 0x791905447851c32f063d2d0838607f3fe90e3f2ff286a8cd7463fed25f7); (true, 0x13fd94d0bd254b7011a3014e2e20a0c5dd8321a3229a183b30d3fead6fca); (false, 0x1a16d00fa705f2b0340e238181156669b0c991a006d8545d4fe914552bb); (true, 0xd0aaa0c5d2f6e62257d6dc72d6d5d7509b30f0def8fe367ea38898fe270); (false, 0x25d403b56ae1fcefbaaaac2ae718a0eaadc6e4fc1b99a135cb47fb6dcb); (true, 0x12537f6aedb21fa94114b4907481e56060d8d5cd80f958675fb6c0fdf4ab); (false, 0x50cf2db6557bdcfdc258c9ec7ca4bada13683d8bdbd4da18df567eab24d); (true, 0x1592675d3d1cf626e10c076cfac2e468e1e1cdb6ef97a2237b99f72ac4c); (false, 0x76163cfafe1a748f4ea99d4644e756bccfc7a15c2f328d559b8b8dff00c); (false, 0x87ea1d7ccaf6d994f6180c3735c938d1bf423d099c0966b8990189e28a5); (true, 0x1097b0184c26a92e889d33fa15730e7a268ffce1c01dff47cba038b3f54b); (true, 0x55c255bc88645578bc22ff4fbeefa3364314029ed4d48ae67774f417a85); (false, 0x78672f4523ca8fa52fc5639ec4dd342c8c70d1b8461193ce83626d347c3); (false, 0x964abbc80c8adda92802113161643b29a677bbec602003cb16d5d60dab2); (true, 0x8f4ff749d593236e2953e16a80392afdc1d6b2412512a835f49ee62d6b4); (true, 0x30d89c7cdfae447ecaec8bcfd6cfde91be928e64b4f9cca36e526d30bfa); (false, 0xa673bf1ec45c6885d92877de78de8f9835baf0f87e2c5bc0a189618a052); (true, 0x80eb3f8929104c6a31b3895f05f550c099f4ba2bb5ffab8ae09d7344d1); (false, 0x19514941e32b628127bb4b44e5e6d122d83472a1488fd0307f3aead1fb1); (true, 0xe15c58fedc2395460fa17721427da0de2ecca808c6351f0f96f3ac5b591); (false, 0x8b28a9b77bc60cc4b01698940c8ab75594319ad7d35e02cf216b68db7ec); (true, 0x4fdb41c3f0f249a31ec3bd4986b0935c06c60ab247f44e7e7e1b5f396c); (false, 0xeceb0cc49d5f85f8a46ca52563015a3522b4c20c7a5921dba751ecc39f); (false, 0x6523cc3b52f9ecc143e4f8fb7f013128506265934b1acf79a057e3d49c9); (false, 0xa3ee4ee3e57b239805aa26e01b5ae5bf8978a974b81c7fb0da1892ca8dc); (true, 0x4761e842303f30b9ad4f2dc873e1746e0e48d7f8e9e1cf4c2d46a1a5a40); (false, 0x8e83f14b82adcb6753b986d5df13052a0840bbf549b01fdde3e71836); (false, 0x428db2f1d5a5c596042e906300f287c13514aa4f24693f632d9733119c2); (true, 0x2b6a0e21512649f5b0ce12fe19c6685fba1a40c48e3acc318ca68216d84); (false, 0x1189b19fd17427e7ebc46a26cf462a298af87833f3fa370ed69fea1c166); (true, 0x111d4abf66ac8463aab6e91ce3ab7a340407d966bef2c75aa9a84583565c); (false, 0x67f184ad0dfbe6f8f9bab89f589d01de0e5613500f9dc0db543623eb692); (false, 0x102b48fdfced4640ce833334b778c14fd6d3dccd96b44a9cabdc0b88c03); (true, 0x26fda65ead098e55e3b39443c500aa22a1626caa17f2f82a7f561efa); (true, 0x3bcfc396fcdfb2fd8d120ceb4614c9b2ce135a3b6efff7108806fa40789); (false, 0x5909220e584c27d212e827bfdcec1fc2652616c0ab205680fc300dabc9e); (false, 0x793d10063853d69dc190e645146cebcc2a4a6d1cae393ec53769ac07e67); (false, 0x9851d067b1fa82f3e505cb93cf1900b461e43a20939f5161320815ffa9c); (false, 0x39e7bfe00e4245f865dd17cfc05f5df3497a56d16d760e4ade6afd3f0c); (true, 0x2c5ea014ddd77923538ff4b4224f7cd12ef223ffc5a99450784bb3e013b); (true, 0xa1d773e99b06377364a05e5b02fc0c3621e0bf4e86c6ccafff8ae9f26f7); (true, 0x225bac65c924065c22d84005998c1f85bbb9fb19b8147b03e63a31a1c81); (false, 0x1ac4c28631eeb4e74ffd8a94f26b3a1eca5057e29dabad79a3da4ea64e4); (false, 0x4e5ab6254a0f34c991102dfb5193278caffe3bd2eaa2df091648bc9b73); (false, 0x22c0a2f10cf42f8cd17bd2b9f06ef76e10e8f94796cebc1cb9c9498740); (true, 0x96d175b00a99780e15c149f780413b852d0475f88eae3a48204574857ef); (false, 0x15ad7e573eb1eff8d87b441e172ec9a839cfa5114f27903db3ac7845e9f); (true, 0x39f049e6dbc2633f107b05f1e714f9423a14d889178ebdfee3fcb22892d); (true, 0xb8e9783447be14250f9eb1092078bded1c20cf56d337c9589f33e0f598); (false, 0x9b95773ad664fe695422abb37d024c3d98530fe6abf4eed58c870e24982); (true, 0x2101e4fe07414c455265ed09987bc269739bfaa4476d2ea81e320cd0cd9); (false, 0x355a38bf3370e07802778b822be64ad649238ef6e2e53787c6f8ef07); (true, 0xdebf72234ca1b83daa50b4d652c63faeef2a4d00d48d307e722809dc9b); (true, 0x1c84a0ee8a14b3f469e0df0bfeeda9b3e633209352434772ed660b152ea); (false, 0x21e10cfcab15c84bddabb276de5155073ac1fbbcfa1f16b8d945c7277c0); (true, 0x15a6e271fe53b93b2af20e089495ed2f9a1cda58a3b560811c2f90eaefc); (true, 0x11e2b0360bdb259167c7071350ad574fa73c262555a7173f830db23395aa); (false, 0x27f2737b4c0d7b17d795aa07d82bb8f637e45fe8e8d434abfffd687226b); (true, 0xab5a41ecf95278dd5c82fdee2ceca371a8159b988f786437aa9eac53953); (true, 0x365c111c31d58791be8f339abfb6c4338978ef397d8b98c01bc6e6d3254); (true, 0xf958d08101ec5ab78f8a3018459cd85ecb2d618c697191379ada269245d); (false, 0x18bbf65f0ab3a7425cd842189cf741642dd4194666493306c3f5f32df9a); (false, 0x4cf6e1f3875bbdcbc6fb81f69a8c7fa75f980ceadc6451df4352e229508); (true, 0xd66f5180c1910d8ff521e6cbc83c104032aa0c30808ddd1c68a337fd80c); (false, 0x259a902e1b1c4c3de0d1c73e4c18739dba45e7e81bd836476274d59024e); (false, 0xa43ef0738da8f579c28644f56d7bf5565421ac0352059f857629e15fb72); (true, 0x2a74df3c6842f23643add3e5b7c69b53dc216639e890037c2359c90f4c); (false, 0xa0788b24b5947e8495e13efcd601051465fdeede894d06dbc4d33b7fba6); (false, 0xa7be64a8833473e96fc68afbd3fb4d0866f0c0b803c0f8b9e23c7a2106a); (false, 0x154a1f6c0157325e9df0274a25f93644965184ff2bc5fd64b3cd230259f); (false, 0x566783b51928f21e3c3c4a2ac0f031852d73eddda072d3764c0798ef3be); (true, 0x6303c83a060531d77eb269519073bcc1f3ba81897d8a6d638eb9da6a5e); (true, 0x25807d8ab1449af66f04b269cbdb12650555e38d58e5cf43ced6b4153e); (false, 0x509fcbbcc8772c4ec37fc229664bc36701ca8dea7d19606a949463f5d90); (false, 0x653c55a02865bbc65fd2c5ce818f2e95f92dd52dfcc260173d101ee8f31); (true, 0x8bef579b3ecfb10cd43c94162d9d965e6a00bcb72884cb9d3dd52ac3c7f); (false, 0x831b079d42e044e7120672210d61503519add2443efb8150e2afea00104); (true, 0x592458c69e97c0a53927072c470b205ccc20763fa66930b26cd8eabd58); (false, 0x4ae57802be877637b8e3d20996eb55b2741150db83e318d9a99792c75); (true, 0x1330d40313bd8d77bb29e3a7af140591f3d923943fcdc6d77a9c0819f376); (true, 0xb2a8a3d8bd5e2986b60c8038eb57792cd4261976fe1ca5e09110073a025); (true, 0x928c72c954f0048ed019b1de7c79b8cfa3226b85ab2e31c7dc965edf9); (true, 0x6e3c404fc50cddbc99a7f312ee6aa455a9269ee87e0e21960a12a1e8c8); (true, 0x5d5f619f0c47af48173b8beef233e2b401e265b0bed70e003458bc847f6); (true, 0x1425bc2227497a39bde6d82623b42de9b480c065d48aa26079c31d37e13); (true, 0x3314fc13acc41a1e9e0de89db84c53ead290ce7a91679842094834bbd6); (false, 0x43f4edaac5d16af0569ec6b95ff91e65bd8fa745647414767f52bda31ba); (true, 0x90c43b8f50bf5adfa1cbc13959b334c0f7a45463d6dd45bb14b1409d807); (false, 0x16ca500e8f4c0ea321b979234ad1624365a93119f5f93ad4a7451476ef); (true, 0x17aaf1e291895807ae375f86d02af5def6991ea861fa003323a14332a3); (false, 0x87fdd9355f69980e1301df04bf955d9530f5dfeeced6bfed5953a7fa6f); (true, 0xed9d17faa303b4f86349ad79649c2dd6c83f6eb58d28aa5970207d5f61f); (false, 0x7b6b883534ae7ceda4a7ccddedcc1adc7df81329cecb48bb8b27097e69)]
    [(true, 0x0); (false, 0x14a72c2cba42730da766a8f5a838e7c2645b88299cbd798d5564d263418); (true, 0xb896c4f76ed77cc62ffc13e7875319df2bc2aaf4869e37c67b5bf1db011f43e80da5d02b4d56e685d317e1a56253ab9a2ef8f67d7df1139b60378); (true, 0x1075f746119dac2845e4881e2e1cac726d09123628aa2ec0f458b67d571c943c387ff6ed255304d5fbb1373bd469f35c65439673dc3d6a58813768); (false, 0x23d9aea770e6e3d9427ffca348e70b4eb5c636a3a25b0588060e20d2e4); (false, 0x1f510b3d52f36fe0058afae61f9cc8ddd5b4cb00a5d9f3380207ee64172); (false, 0xdfb4464fbc0ef046abe94f97d37045735c817a73f594a2f2bdba80642); (false, 0x1a58d16cb9c7190c1b082b98b44dac1de27fdad31ebf08821d3cb6ede13); (true, 0x1358aba9057bd3dc476e2d7e049bd80c634661ae1941add8a86ebaf58ea85c3ee2ade4a6b0849f6a75b615ffabd71520236067267fe01e5fe5e8fa)]
    [(true, 0x0); (true, 0x4cdd2868bd0367f65c66a088e93749884708f26e30165bc1fc8272f94dc2d22b8a80a2d2a077897bbf649b79d4fb074c163df34a59785b9e3dff4); (true, 0xd56f554c2a71249a165c487f0b021eafb73520407ac3b0154d3d80d42507148782ec94122e8448c2406e7ed8cd833e25d654dfe9f2e815128733e); (false, 0x6afcc3bd6b1854b2cc6cc6de438d746cd1de56bb66c9525d6c42f02546); (true, 0x7180b34805b667540eaf66a47530334c802b9d66c8f886ca96fe4403e3dac22dc5550ec4c6256240d373b744e4cda8b177f4dcbf44e2bd1291ac); (false, 0x10880792efef01bc11ae611d17713df98bed2cc7e71177058456e0022ec); (false, 0x166c7b186744ee5f2db4f09b11ae4d96ab00314339082531b66ab82b001); (false, 0x2722227ceb61800aeda8383b33a21f57a73dc622f38f84aaa41863b7acb); (false, 0x35e2c0c303ed5a3f35d36bce6819a7c08d88658f90396f0cb6ded247f5c); (true, 0x5762f38160bd2e0a3ffdce6fb2887d9a355d9e0d541bfa5ca72271edfc763d5fb8e0cb686dacf8cf4a30d3767a6ad44508dd14c1ef2dd009b8e8); (true, 0xf7bf9feef586e8c7e7b67577369ba07ed6e88ee3b819634d0717a581264fc45dc52ef7b75d1d3529324fe9da9ef035a329c684dbf2dd189070de9); (true, 0x1fef7067d18a524d3b4951c6d3374c6c4d5e5f15b0c5831a5fca3bd92b57800d24017a9463114e249c0c01340e7c0bf12ff9ab0153f31dfe04296); (true, 0x24aed81ce5d7747d94e0fd6e0757d061f661f5908d2620fabf75c5ef4c1b38a625cc6ed43e3751fadc1902f8e2db2abc358c8fb27c31f40fe53d35); (true, 0x576e4a39a08ae6d50d4d1ea9a6b98e4000d5af0047dadfcf6df04badfe7b5d89133fefb88edb6910d4a4af288270f9695ed1009012dd4b5c7b975); (false, 0x4654cf126a755d57b4078c40cb2d4ee7920abbb51f22578ccdeccd0d009); (false, 0x902da974b858e70cc59d7ef631b9fba04f5428a9a6f4d8609c1072574ae); (false, 0x4fa0eaee0f8271c58ae5260f45884c15dafa7b098d0434f60994b6b); (false, 0x80a8fd73ad388f0844843bf6a02115b7ac19a5fee465aaf7f54206b093); (true, 0xb14cc60bab16f27224f92a50b7c78dfed3c94f057cebc49186c347cd214a11928dc3ae763e8016afeb438d59c57e2d9524d8911587a415305a1d9); (false, 0x4da7efb8b3e08c2a6921f163d62d69c8ac09debb24f398af5ad7a4c9437); (true, 0x2485e7d9307716e22ff35342fb1d91512b5d764f53a8a482246c59effb2ecadf8fa36f9e0bcfba53d9b647d0287da34e1c43066d207316d4ab1a4); (false, 0x1e6f97dc348e8220da5037e5b7617cd6d2258c9c93ff1cbbfada3d867a); (true, 0x164ebc7c61a8a52f9074702b2673b5eadc5efef59a62b43a6395417c69d43cbebc5c1b716256823864a546cb1583e0ccbc3e3f413a5ce14dcbfa3); (false, 0x71813fa3b0085b4330b2acd8c798ddd21a4b1227c3e0c4ed4212d99ff92); (false, 0x6527cde9ac9b92f163eef3915db539a06f20c16f75a20f3fe0ebd51d025); (true, 0x20964d90e2e6a3fcc358d6e664becb9768d0faec22048dc11300b03012519a774ca77fe3e99fc8941d45da0eddd195a6d363b4bf61343ffcb7c2a); (false, 0x55ccbf31887d5fcaf24d3a81b0687de67d99406b75f8fd314e51b53b2c); (false, 0x15327deaea48225495058a533dcaf70c9ac5db6925cd64e78c00cbc6d87); (false, 0x5d2be3ef64359907565a000a36313b95e8ffad1d1b097d9452fff3e9ce4); (true, 0xd6b76327a1edd32786ed64e014497982005cd46319c51e7bfe2b405b5f8870da8f5b5426669ef785f20576a7544879cea351ce548a60c1a0d472); (true, 0x154b496894331147ef5d7a572dffe2e86b91be43b2c1e39e8fa315f6e0f7b68e9292c8f9f9266f559c863a87df82590862e83213faf07c723135f9); (true, 0x1d7cd0d338e3df88066cb66651ab1cfe9b55b997aee39f1c8953d2ccd91a317dd414ee045dc5a3d17e68f94b6e142e6622997238a759b898adcc67); (false, 0x16c579d4419e73a0c1beb51e4d1ee4c943231e9e22a67e96218993162de); (true, 0x26719ed7a4e9e4985810102b0159270a7debf0c270daa6f3c4e1745a8de42ab524e3303cc882d572c00f94c0f744b3c28c5cc55134f5d8a71826fb); (true, 0xa6637f3787a6e896487042686e1b6c6011a352ac9564d249c2e679e59d24fad13899dea6d54f56f9e7b02de066aff52e655b529917c972d7138d3); (true, 0x38ea72da80a28f8e80c0cef361fa2594433d29b3a0742857a768d238e219f2ba8465155dcaec435631bd8d66c87b3727ebf7670b87cffdbc6e410); (true, 0x27813fbe0c9a63cc5c902f3c3768067504a1152aa1573951827b4ea502d60ad572d13ec4a99d38461f76bf5095085c18d569277e5fdc4e17613846); (false, 0x1e9367057cc19a5eba8155c744e63ac9f5bcc119eda36a5e2ec67448ed8); (true, 0xab2ee5b0572e6daf18ef4481f3816916509367436da0eab18d2063cebbb2bc3cfaa9f9334d70f9fb4983e7eaf662a07919495789eb7656a28b66a); (true, 0x27d893dc915929e8c284db67a7465fa45d3389f5d150af7d13093d1ae1b7df58212729579a77c13a069bbde0661f37e1763fb3159d826afdc702e8); (true, 0x75203763ece4ff34c71bab94a47b911b817bf0010c51a8a0e5c8851820eb87eea388b3423231433d514bbaf4999838e7d583979b13eb0cdb0198); (false, 0x23f89d0aeb2b0e73e57c36b33e34de0786ebc3e05e185da06ddafa219c7); (false, 0x5180babdbf8c4fca2fa04c24bb3b48b6ddda8012ce88c84f86fb2c6f9af); (false, 0x65b4e4a66f09fa3f1cd2bb0aefdfe51a577d49d90bfb7fbced7392dc62c); (false, 0x47467a92528d9b00b3e1af618cc55253cd779ed5ab37f9223d441074c3); (false, 0x7f62f77b87cceec2044dd0234d3d0bed372079b77c2756d5f3d38bfd61); (false, 0xac982127823620ae59cd638e3a1586dfacf5a7647f841f95f28f565f99); (true, 0x209ada418b5baa9c58b607e5da6aa9c271344eea1aaacb6b3efcc1c9868b2a40c17a4a628a09f1a72bb204cf5ff8277a707f6bd5cac180fe0263a6); (false, 0x37bc66521faa78a48634534d3b084d95e1aa72fefc0dc57339ffd51c72e); (true, 0x911d3dcec2ad9146a0299d3fc328bf11d0feec75398e441d9477a5036442d5bcf3b598c5ea05e3ea2921730e14029d582375694487e1133e4f6b); (false, 0x4e4e17f518506a6d9133077f09392f57fc753e14ef0532516033f5fc); (true, 0xec92484d2deda43fd90b2605f5cc10e62ec16d045c9d113ffd037362830a41b7b514017b22e804da32fc96652c6799194c35d55e116abe594a335); (true, 0xbbfa446303985bde7ce78d303d14707115920015d44c5373d8ce6b9eec4552c145c1deacbf1e782ca8400a7f7e6b380c949e03e1d41ee7612a3a4); (false, 0x50c87be9de459fc8f524765ee570381b173a22c4896194724a7dd80d84f); (true, 0xeabe2f898cda5cc2358820a4a5713c2c321b29d87247358652527b9c0bd13403636fc75d1ae2b61fa03ef2c8078e32143d37df349983646); (false, 0x2078586715f81b629043ac89f5f1d081fdf56016c18392d0565cd08a402); (false, 0x27c632ef4f907e86ed37dcd55a6bd996b6c09dab56a05cd19e28a59c07); (false, 0x2fe040db34006a446932a1bc382fd1ebb7565f896fafffd9753011fa5ca); (false, 0x1a8f6fc36e665c7a3edb8d67e04e6921c922310f4073c46ecda3fe2d49c); (true, 0x1c1e0c7dfa91ef2cb65dcd8a16ac2689d7bb686915fe79ad98b17d80e6f5d44bd2604266496fbf45ee160cbaa806c8a289097dcb1f2c30300f5f81); (false, 0x17e1d93eb4b2e3241b95953366bb70b49fd39f36daa009ce64ab7eeef); (true, 0x13952c788a787d395fe0c50dd2b79f93013e4f5065b9f55a6ea554cfb6233ee4f1105752e1c88c0cbe21e9a2900fd386945f0d08b20130cea57c7); (true, 0x594be234e34a5ba1fe5b770c577ece7a98064394639c1c9697ca7c4b98d07581e798ada8ec10851a6f89cedf643b300a3189bdc56af5503cce5ed); (true, 0x19c261b331942112a5249fcc0adc64a4c5470c6524a44ae344dc1b7eee4dd4997eacde9fed0221f4786edafb821f1d6459cc2d446d0151eaa33698); (true, 0x17630a6c168aceb97712ad810c27102bc1a2959f9741e1bae5ff3aaf7da10d5a945d8e9f4320dbd0f9a348f4a82d1f1f2c4a53ea62eb9112a8376); (false, 0x77d24c9942b7dbc050dbde2f2b656b3a3d9213067a0c51c908f376a21ba); (false, 0x5f76b01c7c2dbe800fe07d5b24aa1e238ccc02ff82463ae4dd82b3a114); (true, 0x177518abefc7af37db3934be2ddacc1747c3137860f8a05e10afb1b0c785ba67552e529b458c8f72ec6728190ce5b3b8f4127f4d63fd57ce4d9db6); (false, 0x7b65246eae86b5f087d7717e8731af258a9d15d89320a7ba199750025cf); (false, 0xaad8ba957c761bd80b1089dff960facbd6727bf13336deafa75f6f03cf4); (true, 0x77e28f2dd003dc0e451e79ba95d89558462352473b3118e3fcbb5852f93e3d501183a6e12e2b9d4a4c6626a62305fea83674b4d2363352fb97160); (true, 0x572d73495cebbb99bf213de879158956562bf8ed779d578db9a5c3cebd8ac19111bd99540787e60e9f45a0662a383d2c7c8bf0e5fe6c3134c021b); (false, 0x17df29c466daae88320bc44db9f6bfee990e55773e8e57aea0c0e81995); (true, 0x1648bd7f182b175127489f5153005bfc572d8d39f2ce00279712725e53c12a1bd451898c656714be05ed6e6c0a83145a34ad93bc06f42e6f539e51); (true, 0x157ac0d75afd78b418e34b6599ceada6f5861de45c894b58807ddeb06f831264834480ed145aaa8bf469cff2e8085570311282c2cf58a0d264db8); (true, 0x11b959cb948fd678cd6c06418a2278a65393f650d6310ed4d8440252dcec1c248dac84f282da3887e578f1f6be2394f66ba25178031e78dc407149); (true, 0x73973300ffcf087b96e5cdb77c0b8c929732f328a1a24116bea84df5e8f432faccef7a0b16cd9858b95f2e70dcca0882b0f54a0c22d109bc577ad); (false, 0x309600f478c23e75e938d4285338954fbac1a38c9011ef265fbddfc300); (false, 0x9fdc6f77137848ac662342f5e7bdacd4a8a9b8941c2355fa4ff696baeb3); (false, 0x23bb6fd142ae42bb00b2b594a1212b18074f20d401d0ec2c2c10e381fc); (false, 0xa38fce597e7e0cb129232716c4cc73395d3a245a090c9db6b38a6f87707); (true, 0x74b5afa3da4e375d3cc04e86d2132802f05520144b0dfe1daf69cb1b307046c7363fd61f47d0b08761b731e3d3d61f29c1f98d6454aa62d314499); (true, 0x18de55450444d6f5c5e3e9e384faa5107a055b81621ee5189cb4bb80769d60fcc3fbe85916ece0504ac207185eeaf06ba1b3a46862e3161d27ac8b); (true, 0x6708bd7500988bd2ee928f90d14e6974c88b044dfe439e044d20bc68cb16eabef73a80c7518fac8806c5f6b6a2beba781ba716a8fa603c41faa7f); (false, 0x7c40193eface29d0f326ca5da806e9aae5c5e1c1b6d33ddd49b54accc04); (false, 0x1858b55ac868c7b162ec37ff796818a1366acec4f4cd4546961bd949a12); (true, 0x2215877d87589b71a1af60810d5319db321e08d1708fd9e7a0ad48ff05b160766e3042c7e375bc3ce6045147d17c30ca318ebdc8d0cdf0df9d694c); (true, 0x1665c88e993f18180ef0138346a6b1eb7299821c11a9e377487c5cf0702663501d07256c8efdd2e7cc37408aa913e81e9900666bbea9e07d8c1374); (true, 0x3cdd4457a157657f92dfddef17b5c8835d438f8ec9540b626be437efc53e515ac3202755f8e1309b10ac425baaeaed1346f1601c99a400e3db897); (false, 0x7a016f1c4e018a6ce14833115bb0aff5e81208c7fd46e83b4ae6f67a); (false, 0xe630ba78c006e087896121c621c2ede2c74cf379b5c3436b26f60cfd68); (true, 0x9a7088d76e6937a38bf1d72abaf30b35597999be136115985a705b28f46e459c9ebf7f36152be78d3182896efe2041260b87198a960c84b1aadb3); (false, 0x74316376e64f3cf67d96c78a04cae7edcbf25b5c5803e510decb60f4a); (true, 0x2332b9164782040595ade40a1679f04e1338aae22794bfa9cbc2caee22fa798413d2060b2bc9c0d7e1cc819729b800e7e25db514397cbbc64d7622); (false, 0xab3f6c5e939b9feeae94ef90d6c20e6466d61c85e1314d925d047ea25b2); (true, 0x549171a324157a5c9bcb6de5278c5653a1ed283c9969edc9d837a97210b5dcfba7a8f45d207cd302ea936be8a4117e926867e3d7846da99a10b4); (true, 0x36e899b862940839dde44d4766dac1c48230e9cd242d4ece06faac95454816ee85c4e568cef24288b82696692eee0f4b029621cb6c1b242894d0); (false, 0x157fef6e97c36bf9ca0e3ec50da7fb34ce3eb02a5325953dbab7898995); (true, 0x4374bcfceeec57be21bfb2b5dbd12fb4d4e1d2d5790da1f165bf8289ddd7338998a8a7b8ad8ee186e4242fbf6f47e7cdb53eb6b5d47f3d2646751); (true, 0x4d3f9ded901d9ca9d9c5477436a744ab5c9287e781209e7369813ceeedc920c937e5f244928b3b6f6f38cf7b39d68f228c81acb2199b2001d0f60); (false, 0xa5a5e8d9fe353e8413a11bbbef4179508b259a2a1a8e364864fe629fd1); (false, 0x4afda9e769fca9f475b978b53bb0afea42bd585e670feae6ababc0ba2ea); (true, 0x25050da899436599042c2edbd9073bf5ad143a9805209116cc6ee7accdde92a402acb987633cddb457bf44c7aa5cb221ce68fead52f131e5fbf6b1); (false, 0xae092bde36ad4b98f620715a9de52ee5d76821f0b8abac1d237652ba89); (false, 0x8ac8858602d56fbb4960433df2b261e84277c3ffa5be4b6c9272c9c3898); (false, 0x8ebb78ebfb19d1c98b77dd14e378b958afcd26f00e7441c875d1622ba6f); (true, 0x31ab5d05c5a54e84efb2d58a12862ae24b03e3c37e1a39dd6b723608abd8d8fb9cb613ab7c0e41afe3f3ddc4cf522ec4d4c07f3efe4c11155136e); (true, 0x895fe99c5cf1592a787ff6f37052567b6bf7ce12f1922ee9b382d3ddf0f1125f596f2330a8f94c8c965c433fc4a0e1c4ee593cf708692d65e52e5); (true, 0x1b8e4651680d7490ae807247c3ff0b89f002de5154b997c1eb2462d8f3c8b95cc5e4a3176ebd46a1620229837e3e6648872b05176cc06d859eaffa); (true, 0x3f5c2b3cbe58bbaa145b292783978d2e182c6569849f35b0aa03e4048f2c9a7800880e04c99ef7a28caf7193b8abd1b7f919226da8c0dc2ee786); (true, 0x292df751ed55a2eb48268657d3bad686693042d29a9d2939f1ef7ee715dd82b9da8b5f21ee48730ae53d82e740e4041b78b6ed0bad0b54a0cfd31); (false, 0x537578678eaf75c95adfbc71c924c112cc145655b787101c351b92ea63); (false, 0xb0095fddcd34d412e0d1eee48114248c72a7e393f65e45123a75241d44); (false, 0x90ff3226eee4a38557cfbb0080501fbfb0cfa05b70a72bf5eab9fc62f34); (false, 0xf72bf25e22c4cfce1eb414e345d8fc73b88ce771d8a2ff440483286f5c); (true, 0x23b304476a3c3ab3a311e6cf919edf718f5aaf2e0e7d6ca9f3d8632e949174a61874c9b2ef8acb86c4da6e030b37f58f8c02028338ba2fc5a4d3f4)]
    [(true, 0x0); (true, 0x5f1fc9e82ca048fa785e9888dcf0bafe2b5fdfc76bdd2f6d4a17924117abeb106c58da555af911beb65728d9ee8a1f05cf207b136d553f7422fbd6); (true, 0x471fe6d69e7c32b5cb95a2d5a22e150a2f8659e7ca546e843fea4bc9b0cd0b09615712c7ae3bc933106fd7b0f47ee8e83e74b4e96e96df5934f677); (false, 0x49e3980d574b2a0c32a5a79ef382a6ec4e5f09fafe9f50ef6c25396991); (true, 0x1cf1110261bf8c17535bac2a7d7e52fafff3f7a45a625b96ab7b3c24b0cb78ccde14843ae20fb9a3354a115d5ffdbd50160145c836cd255092a1); (false, 0x3bd63f48556dce99d8fca2adf3d85c5989d958cd68631289d13f6a84573); (false, 0x5bc5a3ece2a99a6204b9fbf268894f5f020cd78b550f4c3788a24fc5dab); (false, 0x3fc64b7b0c45be45e8d90e61d486c947c6f4db83543a0b51bb4bb25b49); (false, 0x8447685289dd67dd9084cfdc27609da60d014de0c1ac176fdb072657924); (true, 0x7aa36a2a499c8ba2da3381777709dd9ada2d46228d5cb86140b15f3b0fe1898b4b62237d957d0b124456c37ba414f262fb466f3a41a821ba0f329); (true, 0x55b0d2c07a9c984551aa798a847e3411422e6113c7a5da0a2fa9817d9387bd2fb49f9e3f4602701380ed1be0dc25f595d95b941afc38081973ad2); (true, 0x4826bd697e6463ebf3b233f262182dfb9daf3dd9438d6cca456de8872f9e7b57d323d1d630bf96b69f8c7a7a09841e23c4eba0424c78a20ad0b62a); (true, 0x4b52dd0e947608444f3ab58fe93db8eed350bea25d5ac5ad9235c06b330772400cdd024c7c10cad9b56dc174c6a6f42036fdbcaf0a08ecdb8f7b1); (true, 0x107388e26c80c9060c589862deb6b561fbce6d455825d30bc4348c6144005623bc08ae35ff73efe11351a6e60604b7fc0c919d5d474113f54f14af); (false, 0x3dac07e145c22dfbe2f288b497328743fa184c011ebc6b9b6cec46b83ad); (false, 0x6dd01e563806efbd9cd8129f4ad0bc7da58c025450a9daef8470d45be87); (false, 0x4e389eae28b7889f0a6353ce5f24bc87b4b6eaf5d7a00102a62d23c689d); (false, 0x2c664cc5747941bedf64ad8f48cbc885b578e6d4c8d5d356f79144b0e6b); (true, 0x633ee8b52fa1db0b3604a188ab076fd83de09c8473179d2e79f67a4b3c1c653439cc4dd1fc498b272fa8b7679c309d79da4d20fd24221feb02c921); (false, 0x78674fa07e31aeecae8b957ac0a3c3251566265b5f3f964c0d2d014fec); (true, 0x62be36387b689162258e0aa3231408f173d52cc9b9f6d2b1317aae3031584eeb728aa8e379eb1c4fd718e709ef2105c20dda057340fbd414ff4591); (false, 0x74879c176bcb7d007c95dcd3cee2f8821c4507ffd39e1b5f83a506725); (true, 0x3a6aee4c782519f08e225447d53f03ef79d4b208fa1b983e4467fd1463351ee2ffd1232b16fb12ae5ff4f76ad337be20d2c0e876f6391acc193d0f); (false, 0x39ec4769c3d0f7c9686c876b833be5faec5635c700c7150ec27163128df); (false, 0x40f17be53f279e5397a0ed4e8217c44c8c35509214501e2dcdad509a17f); (true, 0x31f6cb8f01539cd7da9767bd2acdeb7989ec21f6b45fa46414f6146275dbc698329caee08540513ffc98acdd231dc9535439b19b5ab4c3413cf234); (false, 0x1c6f3a79d0044cd449393d7b01fcd6553224940e8c432ff7a2ac9d3a8b6); (false, 0x3ddf39aadbf3c1ff1c7af3c839ca41e369626423b3a933d1a4d33c892ed); (false, 0x26403a782ddbe8267a068bcf75d9f435d608b29370aaa5c56ad522af130); (true, 0xe6d9f9c1d2065446a554ea417d795240af607960694e3b6756a34896fdc2865007e9be4ba39d771128062cbee532bb1bc7d58498889c4123c9d65); (true, 0xbf2a4d90f2c22dfe47cf4d1fee7980c65bac6b393291f4bbb92cc1202f63e6167905a7db311bda03c77a845eaa65abfbc1e0ba437784cdff3b3b1); (true, 0x160e914bc045ef33d23b2a223b51c5a16663189f5843fd2a845270fbce7e0d249e684bbf14c817d6380502fa069826ae59a4351b9e7e1f0aca0085); (false, 0x72a95186c7c293d181da30a192fd20dccd905c83c8d911cd39796a4e51a); (true, 0x57193eaa96e85b2b118138b93cc36856a33c12bf4a7720c4c2eba0610c689135553b3233401d630fa0c5921e9a8d346715ca79beeebc901b3c09b8); (true, 0x626e94f5ba204e164a6d92d28cddde6919f61c13f549690949f700af26e962f9354eb79ae99c33ea0274ede95847fa770e973e4e2288ccdf32ad); (true, 0x609894e65ba794efb2b57026b7b94b2874d7eb38487700612cdfc48b0c8be3355f60afb2f33b9574a95c78c05d84c6e85047d94054ebe4f8d6ec47); (true, 0x8a196b1ee311b4c9b1e43401300565e6ccdcd371271c96d2f8267fc85dbad56151527c1da3842955fbec59efa0b23f6663a09badf9d79831762a); (false, 0x6c169cb769f56d36e954b40d180ab097ed6077eb9f7d407661ef2ff21b9); (true, 0x1a301c1367fa9c7ae662315a3e0458f848f16b1984049192c7460e7123ffd7a9d82be6330d0e95879505201df626bed3dc4ad67d0b1aad10f9b32); (true, 0x3d45e32f97ff96e968791d23e166be3416381f25d018ffb98134df6a394f981e6c0de9f52a8f604a3d20db1df54d1bd29228d10f0ec32affbd1724); (true, 0xf9dc306d1b92f6a120c0400b3373d73bdf5611176d649339821c4766fd57a4ca3ab02ddde932bbf78e7a6d2b0334480a86f424e408d97ae1e6eac); (false, 0x2faf1409c2cbbcd4b9f0cb26d3e769be98f0ac2e66391778eed1e2b7964); (false, 0x21d578f92f51b1fdfb30f538fadbd258cb7e9ddc0fc6165b980b7490f27); (false, 0x1fc2572b4e6a7da1fff7063a60d8e7c1eaf51db9c373094bd2af67acfd); (false, 0x1f1253943967596c4166a9c29ae28e036a06a7095344af0452f4d5c1041); (false, 0x22efd284755fb8f0f2871d7d7f5321f41ae24854589c6aa683fd2f55); (false, 0x7eb5a0635bbd33455cb0001c8486eceae32dbf21e52aa42f7e1d7cdcf6c); (true, 0x3e597cae684344493ec3f04218bd429c89b42990dc2933b7f3526728faba1fb28e3a0fad7137f8fbfce688eab33ad98917ea8922cab814396dafb5); (false, 0x31121402f654fe3084d7244edbc5195a6d04e4b236d9e04286da540383e); (true, 0x72144f78dc946920710753b5ac4eff75803f881fa890400cb9602d8de05d643d17f3e5edc3c16a6cd5731f1acfd1d30471ab821fc672438ceacb5); (false, 0x1179ada276dbe612353b98eedff153416d98d3a598ebfd30d61fcaf75d); (true, 0x488d2dbcb8eead9284a0c2fba3e49cbd3c7423d760b456cafc35e85f5d46a8583c47672efeb03be7bd2435d786f145317ace4d369dec8216808f35); (true, 0xfc9645a8007eb206832df07a6cc7498732decdd0d9756f31305c2648d57482952fc14b2cf0874ba5dc06298dbfee31b5549cf33907b919c56946f); (false, 0x72bd52830210e578d79f4d7f508299d49e8e0be56ab98b5c8c01753fbf1); (true, 0xd76ca493686ca72ccbfeff6529632921b63d7b129573f176969992ef857fcaa4efb3b29fc13004bb1307d6d367d07cbfe732da54768984b908c4f); (false, 0x720b00d10b5d76975b245e060b8ec2f134f28db692eef9cc727c6a5346); (false, 0x143013a481046ec42a9fa6ed04a52965e193809484b792260d0ff562efa); (false, 0x50630de722f1ac6ec897630fa9327a06ba28a6a24fecb8f2a842c4432d); (false, 0x6035ed2d741d60d112640adca6ada42bb6a7e5b4e77a4ec262b10dc91e0); (true, 0x2dafa6c16a6f3fc9cfbe3f0306ab1877e606a5c0b2c6d3afec2ff23f9524bca10041c04847a4fe56bb862030371293d933df8a6ec48ec4cc77c8b3); (false, 0xddf0e7216750872463adaee06a35384531f3ff919cbd78955f9a8ff2f); (true, 0x3870d2ada307bfdca364156a51dc6f094e474e5d529e400857281958c83b0e027c37e95fad2bfad36bd96e42743339975374078ffe65e693f8edf4); (true, 0x1045b9989079f8db8b6828c89eaffdca4e85d35db06bef988a5b478ca2a89308b0c1f23c8f6c9b4f2423f861407a5514dbc33846586b0c4d0c475a); (true, 0x615ef8248e1a4776f70b12250d2c615971251431775455ad3cfd52ad567890368566279f5322993aed469ab240f7acab30a75496d3f08dff6acbc3); (true, 0xb9144b67b54ded7091a3c3116df452714e42289728b56e5df4cc3eae3bebd4d1ca26dadfca4c2007f46c86ea479f37361df6cc091165b23b9e76); (false, 0x24b5ceae1b5adbeb584f4fc66f10e82f07c4105d7021a9b33335d1d60c); (false, 0x2a596bf1aeea2b05482e355ecbd4cfb3c9680d250bcd4e5d2117f304964); (true, 0x77922dcc10d8ab3e7142e9090e4c5dc65841802a68978d21830dc2be3078c09ad22649bcac9d3ec5d30f769d86657e3bed12254896d1f2783a8b1); (false, 0x2333a321f7e50b6e379792482f06d648f4fe96b24a32ae498806a819a0c); (false, 0x5366639c097705978c4c1dabad46b974cfcac872078ad911a2fb0192370); (true, 0x11417bc5a69d320c6a801e6c2b7ca98077a3cd022c6eda4c6f7ba6fe9bb220820988277348ad7ce2c7c2d306c331f29e785fef58a917b61e35ba8); (true, 0xb18a1e461bb4e7bd1e443c828adcabb68a507d91952f5b83fe79e798943a9e6ffb02932621d1745157db072f85306dcc13868fd970d0bc6fc58a); (false, 0x548a2dc1a5882d35df7f1071ef33acb6d13063489a325aefeb9cdada9a4); (true, 0x503e2dbbfd53538c5c8dccfaf8f9254d24ca8da6e07bd4dd789857f3395bce5023c18608258473c78e62e281843160ba8ed1c46763c6754adc320e); (true, 0x2b72c5952379c7d8c7cea08d661a87498b8f5221103cd276d0d4dc499b5bb4fa946f7f623f212788e272fdab26d14ce88c1c7840b4de8f189c587); (true, 0x451a293f2a97ebb64dc9569e28fae3d28373ba8492139d2f6b771f3fa284ffcf286086ce1078929442a4445d7aac7040031604ce4631febdcf4737); (true, 0x43b6a9713b832cf38d2f529981b53922439e77ff11368279ad19a62e154c622f1d6abf242858051e29acfdd40d46038e8e0ec615a7344ddcf3fcf0); (false, 0x2e4028d376510224b45d8d1f1fc5f150337203963b3bca22f6e85e2cc4); (false, 0xf403c442c8fd1f58640f99bfa131e1a09df709510818c9b36938b0e31); (false, 0x2ff1246c31fde6bca4401f626a4dddafebd689e17647ee55461b07c0d62); (false, 0x2c8720383e79b23f0c4a6c3e6a0405d46b7a17381618e4edb8089fbd7); (true, 0x60a874a7fcc5deb957086fdd9d38be34e6692253927561445c133d1ca412ad2f3caf3ef6580e430fc998c17a717eef7d529db8b69bf90c2f4dabf8); (true, 0x546f9d753839d1c7aa984d241f023d2f928dfdfacba8d9be493e4e5695fbe2e6850421fdcd26dbabdd7473887975f74c9df3e9393090247b0719f); (true, 0x68099ce7ceded459d1c8eb4197448d7a9a8e037490c4d3e44b1f9860fc36cbfc6eb56f1aec7b8239789ea1236c0d2d49b2c9207ca4e81ec0fd88c8); (false, 0x3b2c1a15244bbd3351fda00e2acc764de097a4e0e1a9daf54929ab7bad1); (false, 0x9c964778f9c7c5fc90ad660cc8a1abd0a426f9d1fed9ff391b247e8be87); (true, 0x38cf13aa731e26faa32adf30a00a2a310a515030625804e4c731312e77525638b3d94b3a3f2fb80f8a26902d92814fbaeae664b3885792632426c); (true, 0x557c300fae32fd9a52fa4c26b7babba9b425ee65048e6ddb56a26cbc2eda2a00722e6bceadb67adf002398b96c83959811e0c8280ba44944f36f87); (true, 0x1048ba6ae7f59999377bfdcf73aa93c86302b92cdea6cd6ff09e66718692024cf2affe8bad75eb37c63434cc6c860fea105681e76079a656fbd02a); (false, 0x4b4efe43b13a1a3d4abfd085db117b077fc4e1133f3ffaef082d05e9b7a); (false, 0x1bdaeafaa2f3089c38ced1a447dfce70af5d4ae9eca951488287e917c49); (true, 0x62af2927bd279d1bc2e4cce31a7af4ee00f00a7a79fb07e77c724ff916b4fc0716cdcc47ced7a4ebc7deacb25faf70f1cc9652f506eae28ddd344e); (false, 0x592d124ccc85440f3c85ce3cd2c110b2ef0326d2af242bc6d76ea1bb68); (true, 0x12d622116014f638dfb518a2ea3bbe9436a748e21983adef4309cd0345dd464f2cb5a3e3b5bbca4f19bc0d599b1d2c8e665292489fc841733f637c); (false, 0x1124f04456120a69f5b1eac1a80cf1c3045b04a1ae377c934b8e315c71b); (true, 0x821f715144e6ba40fd00b06d3b67820b8c41a0740f50b84b0110f7a2d69350994e88e250c246a27c2a377cccfc753653353dfe745a65dbf88aa24); (true, 0x6a968e426e9ee13d4410a112bbefeba9c5874999e4881838c47dfa6c93e6ffaecf7857473ed7f470dfdcea6c8b17c1cf7c3fc76c9cad94ed947ea8); (false, 0x6029b6ec035dea45c3b3991d530d5cdf106409bca2687f302546796d648); (true, 0x480f8a46e3999ce3bc053dc7cbf93219249663f269f6a89ceb0999d34592818fb699e722efe601c9a3729a32d22fbd80ebefc7e10a4c2e241a47e0); (true, 0x20e01b77db78242b788cb0b21c9f58a852bdc944245711c53854e4580fe618bbdb7e8a2d431b559c78298358c1a4742aa7943ca36d44f8d120f2fa); (false, 0x72f98edb50bdec8433894c568f1a6131e165f1d88b4b5283dd29ffd182); (false, 0x30392936af7981757ca6a9209740c7b6dbd777abcee203945558636fa57); (true, 0x66c171e7424138eb99615968f03cefd6cf92b306c49c678c37ae40a1699f9bfad2a3d05390b59d21663d7a06e245d89da37411b508a7cd2db8f0d); (false, 0x46668a6275bf6c2de2c54cd66abb0c3787e4ae50a68f16045a5cd8a6e7d); (false, 0x1a3184fd9653f0997af4f9cbd148d5c297a221e4c6d5704223a60609b27); (false, 0x6ee039ab29898763553853ba2e181b1724c811696e4d010f2eee78c316d); (true, 0x15b02484bd1c1988712520169486ec8ca396acbce9d8fef073ceb00be8588a2f1eed26944cf9045f2b62e99738311d5f6da82c88cc7ceb9e994f9e); (true, 0x1d2e1d4c244da05222db34b8c63c90907bb4334d352aec4965351e456993f22f83b2c7a2a3c67dc0cfa0c94c002f8de9e7d54eb07d4b91217724ce); (true, 0x6762e8ae5327ec5d60552fb725f586473c9c3aaa8cd03344a8e5e2b78eaa0c957ad7c740cbd82b5a7020563d9d996fed5367b794676fd03f2a4657); (true, 0x8e43325502657e8c5454514f4affd48457c02431da2e202e5d68f1c3869fd569368fa611e47b455ba52cdf356c0f782e42c7cb13438c5641428ca); (true, 0x3483296f21133ec5d40a293f1d781327c03886ede57e0ca510e6d2732d4cd2c819d7245f6563fbf7950902077ed9ce574f537c2b779c80910b281); (false, 0x3c6d0e6aee07d9b5e433c99e9c3b2492c20af53c2334ec674c661d15e); (false, 0x905d41a44c53055cafa2fbce9ef3f1265a8f031880e6a9ccff0f95c4558); (false, 0x304fe8d80380101457b177a6f847cdd6370dc99ee74d986bb78cb7868e5); (false, 0x10871245e400fea5e77a049358637390d6d390a2ed16d429fd6cb0639d); (true, 0x11c84cae447b59288c32d05f831ac3ed4aba6da4cb65b7512aa3d59a4c5d86ae6e140d12b6f0b59a18cc8e42e51f5e067dab56904db89c95950d5)]
    70463328703800545008217672123162676565183935400628861884889913886334520 (-66117633491858138461393741777649859022484251587227054915412604379442197) 37940283535957283147790493383286696582099159842122763948555891970476459 (-4386812516739286907093083275457056104889941688880599415971985667035232));
    [reflexivity | exact prime_353 | exact prime_p116_21 | discriminate | vm_compute; reflexivity ..].
Qed.

Lemma nonresidue_25519 : 14802493890 ^ 28948022309329048855892746252171976963317496166410141009864396001978282409974 mod 57896044618658097711785492504343953926634992332820282019728792003956564819949 = 57896044618658097711785492504343953926634992332820282019728792003956564819948.
Proof. apply (chain_val 57896044618658097711785492504343953926634992332820282019728792003956564819949 14802493890 [(true, 0x0); (true, 0x0); (true, 0x0); (true, 0xdb4efbba64c23eaa1fe4cedf47d4c7f5ceb01293b0790896fb5cdbf31e70415); (true, 0x702da29a6ec6a0514617b3d7c4590df5531ce065ae461dbb50ee0fbb57d6e3eb4eda39f); (true, 0x156e74d3ddd38f8226238c96fc8713e8d8e82c9d9ccbf019367b05b478e8027ca61e6f430); (true, 0x10f2d2821e1d94b96bf6964f522fad973ad5b0ef9c1e931500e6957080e8b716a002229cb); (true, 0xf195366fedadda1fc2c0bb9d6475ff9db5c8c016d2f11a5dd2aacda0140e5229ebd3f919); (true, 0xf3c0518057f9b4522fc96a11aa771ab446c6d85586e034ba9b28e9fdcec6d71abc5fd9); (true, 0xc598f1bd5272eb699e0a7a966adbed473981ce3aa55b6272e010508dc4eb9908537168d0); (true, 0x2113da01dddddb1f297f166d26ecf8940705906aff8ae91cbff25f4945c4e23082cc1b2); (true, 0x1337b51553a59d1a00fa0d852eee38b95d6a6bd7e1201101debcfc3ea194739fb826f596b); (true, 0x181f52e5badd187986116e0a5e565c2f64b44fe624984ef6403229dbd36a67ec8ee1836); (true, 0x2d827dbcb478c66f5db65e1b0351fd9285782399c6dd935fc932f1df83c5dc4a1a7db8da); (true, 0x350b28529cf64cf6b65344a9546966ed8bf98a1a9f954e449174ad9fe296b705b4ca39c9); (true, 0x2055d1646a5229942db8e2dc27d54655e1b363325dd53d7a4cb908e86187c1b3bedbf4cd); (true, 0x18b05f4c7ea460f53162569508bf644a1d202d93000230f19aba8704764887cce017d3a04); (true, 0xe00f70a1a5f6caa43eac61a8b880820437638c74d13dc9b6883d60438310d1688cfc55e); (true, 0x3785328bfa3cb8f60c1773e26321299a9b8d38f61ec18362fd7afaae58187629d7b7a451); (true, 0x10a16d07c9c5de9f6c128067979095362623b3b7dd01fa09b895a2b691e45a119b07ad6); (true, 0x4e1b9474a0342a83e7697fd20decbf67f62f3e5d550cd93131d9441b8f3774607e44a2f4); (true, 0x58a71ebf65ffda7bdbc7b4bc52ed614d0ee195af5075ff8c031bbb16111dc83af29f672d); (true, 0xa2cc9fac099d99fbd281eb8dbf79bed1baf0d20fd96eb3194d008a5d7d74a1fbf5af4045); (true, 0x4af1bd552895d1ca12023acb1b6919785a8b82aa33bd14958f50a3c1f1253fd7ed381546); (true, 0x80810b94cee604d07a4a19dcca783d000eafc8bb1f943a3e82cbaceea65d4545aa368b69); (true, 0x9eea2ee91da69fd41bbf52f4ea5ce1347572af563faa3041ecde4a72e9f753a22a8475d0); (true, 0x165e030149b0edc3754eed27acf697bc10d70aea33f8362d45e8baec8ac6438dc4b03dd7c); (true, 0x9bf8c6cf01d76510902acc1d9724ce1e52c20de77e67cd935e8ffba22b7d668e9dcc3f1d); (true, 0xc7b4e5e22a2e41bae6497740dfc8c4c34b3db7401a588d2bbccffd42b0855a20892da5a); (true, 0xe71c05b2d2bf04c1e76687ce040be5d2eb1723f1efcf43f0965cdf4f727b4f4b1ce564b); (true, 0xa8155d2eb34201ed3da49dcd495efe0e2734356be6ca737e96bd447994eed745638d0d9a); (true, 0x76878ec0ea9e28f4c9ad3fb44ecd26a56e515569535b4b4be30be17f1a971715720820dd); (true, 0x1b4f66e2163a48053eaea3f0ea12e973e968bd3b378fb5ce07739cc7893b8c8048882eb); (true, 0x322992cefffd216ef7e79163adcfc265439441e052ff7a2e945c52f8cde2502bf21fa865); (true, 0x12a9b2e78c164dd44b18b84cf20c75b1b69f253de546f6427c2a615d8f138ecf1497c668b); (true, 0x2dec780e2c4fcb02e2b1577a478b69e74c38e43b22ced8683f11df979294c3ceba91cb85); (true, 0xc9702d36ac5b672a125026831e51b30c709fb421039d74a6ef9961e5bfcbad9349eb2e99); (true, 0x1011f160ffbcb248f0de704c0efd02667a4b2e2784d42984c849638ad4cc34d22ae45a17b); (true, 0x2b4a401bc9ebde2ca8f14cf40a9e201d5ea440627ec35f2ee80629e8cce36915de17a8c9); (true, 0x45cc6095c3852caf1065a605797d2b67bafce759bdb95e9a6c6e4124d3f0188d1da3c4e9); (true, 0x466b10ebffdee4a25a43d6a92f3e31d91738d0fd88e74432fe9c5aee7220ee6c57170894); (true, 0x36eef089fd06092f59d27130170aff0a4c2e3f208ebc8b228dc1e469b5ae8baac2a9043e); (true, 0x12c20f73e89c21830e6275459824333a485b5dfe6eb97a4c5aa1f0ff016ab31cf5fbfff21); (true, 0x5fbb2c36dc416547bdc3576ebfbd13ee1baef5f1d4f92eda2fa436fd36ccc3193e622833); (true, 0x1b2f86071b0653eb455118beed187e6b42dc3a0e6f75d557e73277537d4bed8d17f16f5); (true, 0x255457f32bf08377bfcde01d3157645fd0924c95d9294e63f551ab2009d3ccf2ad4e0196); (true, 0x53ac97a3a5c279b9cdf551775b7d482b29cdae963abd969ba3406759f56728490239dd38); (true, 0xaf6a7186e70779c9b7668e37e8049144b6d267d87f3705b06f60214f254e54ef99c69717); (true, 0x8fb90a625cf4677fbaf7d033391d0653b542f4151201c15f23c48b63bb72f5e7bcfd2ce); (true, 0x126e8cd7f07fd5a9beb04944057eebde76aeb2805b57264a23191da64ccac811abe954fbd); (true, 0x171849b6932e176648b0c7467566ec1f45a59d031f72de133b93664fe105dc0a5d2817d0); (true, 0x1190e2db3d1907f3fc6e4a0f7b6f75f12ab806c3d67d1fae07e3cf4fc5e50b9631e5f368); (true, 0xc7fff4cf6c89483a12a39332e9d5794466f93a9cc779e16f4615b7bcea361e64153871b6); (true, 0x118622d64b346f899a49527714d766804a3cfd21afb2f4262630aae72d3aa5ac442ca12cd); (true, 0x4225544a8e67b49f4759365c05c305b162f2ecaf6382f81f5af66b80f4e32b378221041); (true, 0x774382944e27795e0118590a67028816fbc7461c08123d9b96ee7a0624950fc484c8c60); (true, 0x9fda774a6e06cc5662249b8662093a25f47c1ef160f221f0b507d859f5e1930283d8351d); (true, 0x20eff81696b9e9b50ae787090887cb79dd7f4ee71f0fcce91e6f69006b9d21f0da194802); (true, 0x30192e8af2136f35f9ae8555eddde6cfe2df6ca56293366878564a1580acd006df90a13); (true, 0x114624ded3c2c593abe2040382d0fb2148614937fd19520d5503a89f2b18ebaf0f9d50a1); (true, 0x196401c0157aa60ab8c135242f5ad263cbca39558563f418ceb05746bb89125a03576089); (true, 0x16b86b83705d0976343bc8130d33d2169981f783dce2e5b65b7d8b59daa08d5c02b86689d); (true, 0x61affec7239e469e5ad1b9ba7ea263f5e9ba1f886188f1c53e4f3a030b5c99ff1e15704c); (true, 0x1a9f1608663ebadb1358394885432720d82f5822cd55985f7b4bb9c759d339de43013d5a); (true, 0x22a933d9923a8429543ede07cec297f55413da4afacf78f8da767997f9ff18652476cbb0); (true, 0x196521a59a599e0fe151a2a1cf00e1a833ac6a45ff82321de309144dd4c5624e0466e8d71); (true, 0x5d03aedba8505f0df864cc514f04d466a570017fd8663da0c690a3ea27d1ede87c4dbc9); (true, 0x1499b2084c004eb6d60e8f58336d25543efe33b88984bf23d6aef2c02df548dafcbe4c57); (true, 0x7c2878296c5e11ff9372fe38ea38522d4acb022b76f472b944f43ce9ab77fac25be63039); (true, 0x9767e4c8e38e0302718044255699e57f2ca75ad2cd8f2a6fb461681d032a475f0226ac83); (true, 0x15110b6ab2d429508d80e03451f4380bb4a85e476877d1b58968614c19613b3b2923011d3); (true, 0x7b67bf785a5f654f4b36fad642a4199ae89103959891cab1c7786ab4b5185868feeb925c); (true, 0x10897d77f323d5f9c1c4b1e48e5208c91469c854dfe4bce1e99d47dd55d87e816229effe7); (true, 0x3003d861f2f6ff23cbf8240bc80d8551a3b763579c34262fe8e5bb6a1ccfbf589c0d82af); (true, 0x16057dd2890a1491894682ec01c6c31f589dfa8725db4710cf4bc5c900f683933765183f1); (true, 0x8756085d499a3add98b42ace872831833b09cad916a33f7ff176a60a3e0fe6fb3f423ba4); (true, 0x5fdf5e8fdd39f37613536d65ca3c792fd4dfda8049a9f30e63873a4c07389c0d75d4b654); (true, 0x179536db38a3518ece052e07aa5f1da346c7d4489cdf78cf485d61abf7b671f5b9274395e); (true, 0x3a56a0d395a79cfa3f550a90fb90d599a847597a10dca0142e660c09eebf078147e67294); (true, 0xdd96d2882213d085b1182a0932c86e0bda3ae35797ae7ca5fcc1f0bf22dab94359dfa56e); (true, 0x94972cb3adfc743c32c300abd8a1cee7ee9d0be32d8bbb3f8e08ce95fd5a84919f831de4); (true, 0x11ed5a59db952cf523b0907a8ad714568d76a0b873a34d4cc2e53ca83c7679adcb31f7ed6); (true, 0x2fef82c84078cda9d4773717b5208b7eef05db12a943f07f4070b6bce185ca881de8cd86); (true, 0xc4ef986bd64d02a4a2396817699e21cbb0981505c70837b387bfdacd690c88dae62c4fd); (true, 0x190b3b7b0d1653b2f336f7eed13f2a3da321a6a658c713750a8e2d7b201b72306852f418e); (true, 0xa1f6d3689361c3e29412965b4a4072c9221b2ac3342d90fd05373c925b162a2471167545); (true, 0x11a45dfad201834e8b7aa69d50569f81de32fca48d8b65f7ec106f30fbd1d4bbe09a13ed9); (true, 0x13aeaa42bfde6c150eed470f9038341f69d498e754b0463e4d10c193112d29a47aa404413); (true, 0x37232c0015ffd2c9d7f54cfe5db7486985c8ff4c62dc234e97baa2b4bc19150d4f10046e); (true, 0x4f6795121d29959d4572bb80fd62967e5ba43be2d4b0996f378d52243fcfb8a57bf79139); (true, 0x1a0cdf627cd1ece812ac5694564b16eb337eddf20e62c782ea218fe4ad31bbc3b7cb781fa); (true, 0x2624fcba94d04bde5aef4754f6a4b6cb3174d338c3055ed358a2bcd1b7a981fa63a7f3f0); (true, 0x51ec23f45b3b52216bd5f4a1863da1e3c3ec3a0702960bbfbf47d1d5ed5e20fac3e31a68); (true, 0x1a49dd2d0f2667cf5840159488f0720513dde359d3bce7fcd4d808717f74d907df7d4); (true, 0xed28711db93044571558414f00a43e0ae77eb37e8865598db55202c08958a2ea5e400bde); (true, 0xb5f365d6e712e14d04567d4dc5987d29ffe8ec22cdd2777a852de6df2bcd80f213bbc737); (true, 0x17d2b6c71ff532890e430843d480d3914d5c61862d8111618221eb9f1713d89854efc3ee); (true, 0x155e492187fc4fe63e878473bed3e0c627249a7ef29744f41d635a0a750fc5260bcb27b35); (true, 0x90d0e441a6a67f7891746c6c1c9b82d9b597fb7bb86a2cd1bfbefcb11705bbc66f3344c4); (true, 0xf87876caee049dd2b3bb91e13c8b528227b44f9934e4832b738da8acf051e3e09c96a907); (true, 0x78634fe57320ea0a707ede093ad925cc2d8a866f57d38057620c437930008ae87181c8); (true, 0xdeab5e1354f9b39ef0dcab4751d4d6aafc653328b0fdd091b9d4f39007ec94806a1199d1); (true, 0x9c7d8bab0440d6bbd4adb380c2e8abc0d6de9a5ef99696d02e30792bbd402801969e415f); (true, 0x2de1809220edc3d859c42c4e1c6249fdbcdac791cdf0ab6f7edc68ea2b61075791190e); (true, 0x1f1c8402875bc8a4f431ff1ae729da8f61ea6c58141155a68a867fefd1aca7b72b2af16); (true, 0x759c15b61d784e9843173fd831b50c7cbe01fbff11df91315fdfa6fc994ae8b6441d9011); (true, 0x29b71ddfb0e3643f749aa7d7537a6d719d4d0d236c6cbe1f4e7178df6f6f9e04f783df89); (true, 0x107b96003f128b9128220affde67efceebd9aad42db8a737c985abc9f98cf54cfeea944ed); (true, 0x414f0f1eb5a991216410d8992f3e5ed7cc3f2b9d79d5f3d929ae08bdd0cce5c7a9f3960e); (true, 0xd61065491fb583affcbb7000e101dbe6e4f2c0c7c916e3ed9c514fd72b9c95ab15bfc4); (true, 0x1ed16c1eaa1b6717b78a7d14a986bbfeee50954f8e861b4bbe1f4c1ee5b060efb6ddbf35); (true, 0x335c587a9f458cfe5a4d4299bc7d1636fc7b0bbfc727fabeef46df910dca452178701553); (true, 0xe386e1a1f8f034d791feb67dae6a62a13002c970119f6ad128b69cba93e3b8ba24248e8); (true, 0x12b7edfe3c51defc3710278b2876198f69506048da9172d1f044f10b1e9c554f87d0e5ec3); (true, 0xda354af01451f6c6552777c63d455d725c9468bc491f1a2e40b61d0dde715f7df09ac17); (true, 0x2086a8d65af5b85a4ac286d0ac9df277e023956ee7c6eafb07e918646086d976b857f7ac); (true, 0xaab9dbe78a9ab79800ab5e068493564a88d28acea28a17abd1974e5e8647b87f697b10c); (true, 0xae7cf5670884f0711adc0da80c2e1dbb06cc740d9b01cf32ccfcef62c2fa37745062edb2); (true, 0x1310ee89b4fa84e3dbb85d53027d1ce2ff2329e470adfba2f4f0e73f1ca358028e8eef918); (true, 0xe4239f1cf8c80bec47610a43e72aab4c61a1e45924107d5f98ea50b784e77b03e2e182b); (true, 0x2f0b692512ac2c351f3eab93ce5044ee369b24a4d610530570239d25b183a4c0cd810946); (true, 0xea97b59d279302131d93ddf385560303c5e461221fb7c7d86a2ef4dc838204621fff104); (true, 0x1028205f65da0a8d48846414cb972afdc48cb81be6813650f8d39536503b9e63544e2f26); (true, 0xbb54760e31768cccc9297d8cd87aacd47db316be8a3edfc8b73ec7a0543b8e06fa4b353f); (true, 0x165932be0f425714540644df8797ccc5448177468fea0ef99c5ae7629760e8ffa8ca196c2); (true, 0x9f2a67a28a833e7e7c37921c50c1dac6e14c76fde4b6bd0aefccf726007a699c0d3817eb); (true, 0x1249148edeb1078453d465b9c333957df7955833d958d3f09d9a808561d794616b46f4256); (true, 0x36d037d39e0427906ffee746120c8cda3f2c55490a7a61d623a1ab1403c8ba2ae46a450); (true, 0x79f0ed72aa0c647232dda3529511ca3e77c6e9b61a213e61e0f8ed3b16f03f913cb72d40); (true, 0xed34a308393edc84c0a5c1f4958cf7cbc9e081ac17e03c5a0289ede3ace18d0a17cfa8e7); (true, 0x1a013aeb495dad0d15645652e0b0ac22d1a69e326aef10d15fb82e703a380dc5ab6e373b); (true, 0x3fd1c42ca2e4e8ebb0ce1673af8dcc665f33314342796620fec1912a7ebbf102f14829ef); (true, 0xff4ceab470517646db462c4dc42b9a932b5eb4bf23d8fac65cd1b84fbe59bbe8806f04b3); (true, 0xb822a1f943e5043e3d918e28cb0d83acb461a5fee7330a93379fe534d2486027f73bfce2); (true, 0x226a1e6509526588ec076f204bf20e153181872c39a56ad6328ce0bcb48b070b725644ad); (true, 0x159432e730422eeaf2d639fc2f5111712b2955230610ad307efee2020d05c51418fdd3b08); (true, 0x13925bf416cdf7ebe5cd51041478bbc89c5896ca8519319b5d15846f4253670090781758b); (true, 0x58b3e01f982991c39314c4b44ba3fabc794ebf45278145249d88973e7c72602cfdc69a3e); (true, 0x131d59e02478b340f1bcd6e3bde6791dae2a9c8c28b9339097858539dff18784d78ca65bd); (true, 0x5203e0ffdd7c7e4ccfb742fa1e3f0b93bc2720281d46dd0ac0efec329f234673f4c72bb2); (true, 0x90c52b3768e3807cac5580c1d0fd1107e62a7744717b03072c838adf9cad07e6a1c815db); (true, 0x109889c67a3bf03c4dd4a78d71d4ad12409183e91e1f221521d4f7eec2a61f6b8a7b3d527); (true, 0x35c781ae2e1f0415c28f05c28650a631fa665db2e7de14a864e055d0c1ccd9b2176839bc); (true, 0x8b28aad639ad0dc7d3d627e5ab1c86082530d75af704c07e7bc719e1b205fd9746d940eb); (true, 0x1364a044e1de28a3893ef36c95ba7f15c824f4fc7fa347c13c002bd7f00f14d3c2e1b155); (true, 0x8171e650e72d02db8c0fd00f43ba05644a65ed50890f22f81640739025a7d56b85024a34); (true, 0x9f4bd0dc7158de5928a9403f87e635b93617c0f6bc2a44bf02f96d6743a59fbe0296568d); (true, 0x1abc3ba3e5fcab784732b2e548fcd866c0ec92da4e0b6803d3490847f7fe171f04a712e36); (true, 0x18e31134446437c19284ec9637d2d01a0d2b656025aa91433177d39db8ff877a828ebc0); (true, 0x9fb8b52d8c94110b5de3e94d433b7e8a7fa5a100e7fc166eefa33240928fa71b10e41164); (true, 0x8156697bbff3e6aeb388615a16d42ee86ded158e41ad824e9fa543d16f7cc3237aea5be4); (true, 0x30f5b0867669c9194f723a666214ea71dac9ccf4667e98bd93f777bd38c25abafb194026); (true, 0xa1646c94d0c4c1e71f47cfece295c629135071532f2894dad655cedf3a3247908ca79b1); (true, 0x731c49c5202c9bd4a9c924264b25f80c01157129738e822be2ad01df408d25c582432b44); (true, 0x164ec205bca99d83d896a49b723a397165cdd6140120314cc1480defc40b88228bdffebe5); (true, 0x14a26d61a844b73fa700774125e68fe16267a2970eba643a685c0ab9b0658a8d772e9a4b3); (true, 0x11c7021567c3655895cbd863eb68ee92f0e7eecf223bb8eed6c576b8d4a1ed6119511f499); (true, 0x65f75c1819eeddc5268c12ac61f82688e59539b5bf6028d729def61b6cf98fb7dfc9d684); (true, 0x1832438bc210920c065a851377a5797a9ec92b1d6b9e7423e94cafc07dea647b8bf720e0c); (true, 0x3cd50b5512986175b229197121dec610772fbf1c24953b5696f3dadb4b1affb59c2fb5ce); (true, 0x1093cb393e25261fcf7ad27c275dc520c9312cae01211f81f5fab95b134623ea7514f5f92); (true, 0xb9c0aedb219ff7ece7551c7430b3312c79847e8ad24890dc0e09c0a983d080b9ed464fe5); (true, 0xb6f22f30769eedc9301b5bfcb0000598c11b1ea799010f3095c534962f4af90b9fff4387); (true, 0x19872535dfad4abf5018f63caafc822655219dd0021b829b6facd00afb32291b8d4a791d); (true, 0x132dae0df39b740d6232a378ceabf58de28fcd1c4e5e98d464cc35977a3c926b947da3e9); (true, 0x23867d1d9f005bc45f856b5c33b389e3e50619b39c084a371f68c28655ce4d29ce51b876); (true, 0x20c94d864102897093f476eddd9fc6f41effa9d1260905e09912ecf09587f00fe48f8110); (true, 0x9c23804d79710f1902f08d3589fed34e52780f52845dbad4a3aa5c9fca5e079729d34cfa); (true, 0xa834b0d649f22bba5e9955caba4c412f7946888f9ff5e76948282ca11a8fe4f14edf5e3e); (true, 0x480e5e8beceaeca0c40e2ad775e96f6f8e3aa202b11a47129f5e1bc2f55a2637b54dd448); (true, 0x13a6b5f5e6a4d80200c92ebd1e691d72bc19fba2c4abce11e0ed6e2b540cd11962978d568); (true, 0x504f7ceaa825d389d0e3b732181e526db699231c8bd9ccdd96ba1cc645752b535efbd4f5); (true, 0x158c7c1e7fe01c911eacec5ffdf92090ed79d69cde90c486e0a5a841545d5d69430c1b08e); (true, 0x10c6a3fd240da669da792043e93bcfb72446223ecbe842a5e3246c519fe9c0127f35a552f); (true, 0x1aa40165044642e9fe69b8dd0aaa860e2437931ffe30d4340a2c6f6b8406fd17432470dea); (true, 0x1014011396d57e7e235199afe0003caaf6c5bce5e6318e182c1de570633804e54ec004de0); (true, 0x4cf51b8f58298d649ee307207a80f4e9353c1c73625116c578a24239977b1c3528c5ce84); (true, 0x93ab3a1c50dce8d2d93ea6ea1ecc098720064c80698abcf855aefcd86cba54c749165fbe); (true, 0xbb34cdaa9fe67f1112dbb8e81202cf479cd26b485c583010a02193fe382fcea347a1ca87); (true, 0x191716ac66d9471f987cd19c9c6ffe6c5025719a4c54a6190e03746b14472797b5411d84); (true, 0xfeac1bd0e9e3ae8146202c1b824ae0f66ca29f7cffd5f083ddb1ff81b4b81c1603f93683); (true, 0x12e0a712a335b6c77e6af93f482529433ca1e701ee434c545cd7b4db0b74b399378bc105f); (true, 0x11bc6d6242d942a704304139cf6a1b5a9e50f3f4b861bf7c2c590f44216f382de9822a6a); (true, 0x8f5ae41b2b14403d5fdf265954058091d347a3e8e7681b54756381be78a42d0c91a8a5b); (true, 0x6fb3dc6b05f6667c48da74906f0f7ce67b2c89de25d7bbbec16972bd6415916330f25); (true, 0x9e337164a1cc1606df0644eb7c886bdd1954b1a0b911beb6322e2cc15e6dd08e76cf5e3c); (true, 0x180d19217e18b99dff111f3ba74b64238f8ce28dec2c7a3477bc392623ae5b4518c914c54); (true, 0x5ba657193250df963a0ae9814a0247060802e1052df9b1ae64e5e79af913e6bd612866db); (true, 0x3334dffab6a560112497541825904e2c8a72198b9422f39f59dc10d8676b68f529296a7a); (true, 0x2ad145ac2f936dd6870ccfa3c5d82790af6ed81a63d9974632751e3569f33340b02d157e); (true, 0x1744e47a1dbf0a8f55ff4ca17d237d66e84ffc7f26e083898d6dc15e36fca876c6d55cf01); (true, 0x15c0e9a2040bf2dd4d4d3a9bf6b07fef9d6a0f14e561670541a6eb47918705e5dfa0a6e5f); (true, 0xf0c27eb00998e4d0481b7487007ec1f60ec50570527871476f8f35ae017d63a9f2f92c6d); (true, 0x2031bdef6d118623367edcdc6b63b779ab28d3869ee3656357f862b971d8d7cc17cc21e); (true, 0x86466e0f4dc71749bd1826b58a2c0dbf097cdacab91da8c2721c58dd7b915fc41ab80073); (true, 0x78723e3df1bf8c8e97f51aa16776256ffcf7659513fb6e7825ea1ea5c9b106644425da9d); (true, 0x8c1532b4529ab909512512119ddca4527e8509c0db81a7bfab814f7cbb493dff55b03b8d); (true, 0x498a500cbea2aeca57a970821558ba215bbfa51329d5ec45edb8e0b96b6683ce20f92e8c); (true, 0xb53efa4ec47b0696120f5a2dca2665083a04bb9c137b1639df0066dbf90865f4df64072); (true, 0x6f6d8d3f03d5cca3741cc4ab1d395d8822d1394e9f432f3a14623771b7cad92acc89fd24); (true, 0xeaa6d6e4315a312c2a50724af701b822d1615b84d4dca8644375c15c8511aa8ba27885); (true, 0x549218b469d080081d8fc1783aa0fab2ba06a641da0c6369857b8b6ba5ce082743d18277); (true, 0x1b71a6c5f72538ffffae4413a7a51d84adde3f4958810b0e90eb7bea5560df70c044389c9); (true, 0x107a7051a8d5da4ba51c994ebd984bd07a763b7bf5eb48e80a81179f0bffc1e7592b591); (true, 0xe028b26e2a1a56adc6e22fc9f716e8c052835b5980177a205ef96fda0eea16d663bfc023); (true, 0xcc091e0e285760538a612907d48694709a63d34444ff5518e91b8b10cfe314b3fd084ba); (true, 0x2ab23b28120ac1359dab4bc6e4e487ef004a31d6cf5f86cbe16e038da6bd81a3f7f82f8); (true, 0x28c496eedee7b04c56ca4dfeb22497b7dc7ebbfba1016d097d19d1ee0130d49b0244e5c); (true, 0x3d4c90e60973454235830899c5c7d78643237334415f1a0ff65f2546179bd0a5461ff849); (true, 0xfd4df8f5877a7f2fe16a2303b44fb126f53f14319464e1e42da003a84c4d17556db14d98); (true, 0xa9d38c77d18e0d67e09f565cf1009f3ac5726943fa96f7766ff6ac02df78d55528b190df); (true, 0x6f9e1f2fdda0fd222682581618a9332bd5ab4eaaff307569f0d42e30645d7c9747b170e); (true, 0x1ce3c14ad301e9a466161a001dd981010f3d9caa0380e4887c639ed6ec8c19e12f1470a6); (true, 0x717c3c839a83297d5b7701386143eb9ed7dde3934baf69696c8400a799ba854a611e42b6); (true, 0x911ae381166fe98183abb537c507a49733c9dd45c4636855ffe76db5e8f1ae612e8a523b); (true, 0x1bbdbb8d052cdc35e108c4977e35714b123a825dc1510beea0415f35d57faf00bada0195); (true, 0x1b8957d5a80d3e11382903d8be6f8c4a6e4cee58fd03de32630b4cb800b4b17d7408a2776); (true, 0x1117af7b86107481a637a30b3130f6a2fd3e6eb7115de2c1d4c2c793e4cf602ccb8b211ef); (true, 0x35c290e80ff9d8e70e92a97fcf01182584dfcb12937e67fe8047d46be3fe35dd25fbc5); (true, 0x10f24334ae7a839cfccffe7a2e6a149bc06c222b186eafebefe51bc48ac58752916139de7); (true, 0x36d6b32c30a84b37c832395d3146810c4487c0849b7afc3e42a5982b79608fcd8e72a76b); (true, 0xca3b2db203710dcaa316296d2724203920f93f00e1a2f979aa6f35df98912f7208e6fe34); (true, 0x713a7d29c808e6bed335af752af755e98874d5e8e841848497506778108aa655bd98a0); (true, 0x72459d84e75f5357a05df2e468d9bc2a974bfcd4407dc129dbccda118abc79579b8d70a0); (true, 0x10c79c0986014f5d2068c95820d8eba049fe43ef8a83e38ae419946eaf0aa474b51f70390); (true, 0x989159b490eb7b16fe8b40cb7341bffe193e02e9d49a8332ad3ee7b405abe420ccf77aca); (true, 0x72c36c7a05838f93f5a7c1c1a44347fd5936f9143270cd6391b5b43f7efc2d91cb078b3c); (true, 0x11f2f4c1bf823fc590d103175573697c11fa5448e03bbd21edf9db1a29710bd3568236053); (true, 0x84672af3b72900e043a5de19779f844d47fd426f534032399f98ea2098403982c13d1e65); (true, 0x49b80812242602699c3c01b5bff59648b5e6c19885fc22441d00b9d308b8a49e6181105d); (true, 0x120ce8a9ecdf0aec4a9c3fc87510486cfb7da67e1da102d9526a96c358d4ca1b9d446f); (true, 0x8661700067d0666b30587ad0d553b9f4bde3fa2969825707153ed8bd90f6a6c3c0e192b8); (true, 0xb4b3992307f8bc2b8b694776a954a7aa95f2f2575abd5121797af66304eaeb314e82e208); (true, 0x545057fa80ee5319b8194c13e976e56df8f3ecb96c9d68a14eebb3dafb0471989aadb768); (true, 0xf1198257a6888e891eb89a617b0f3966a02afeea7aaca70931daa3efb1774a2f5988fd7); (true, 0x5d015a3ca7e27d60dee41b4a3eaf9ce6b613847fdc23b1f98755378feca681aa6e9434c5); (true, 0xc93ca21dd0bdb8102320725e7bfde25d57fdde67e2a9de018bad639b33a05f46c41a1017); (true, 0x1beef16c39716cf86561fff7a2da5892553ec3a09b1c0efee4745c825e2e3199de116f02); (true, 0x183f3251e8876a8fcfd3affdaa2c9537112cfb6bfcf9c076d1b6498258317e5eda6b0ec25); (true, 0x657a5cd9c1c1f7df60e3713fec9885994f121b323e9e23bb5c5a02db2e7fbc88aeb15225); (true, 0xd73c105fd4a926fde47ac944acdd9aa0bdc6e7e4ada2da0267f93a7a9738f7754ceccdcc); (true, 0xa6df89359745d48cef277ee672fd83950a1e7c23a3fee354b548fd1ad0cedd44077523f); (true, 0x12171f5680242981cc5e3102145b2b1be4ea45de2ad1e13290e798be5e99b05ac8258b9bd); (true, 0x14a72d86f08e26d7fbad297666b037aeaf39db7660204450789e8afb388f159d47a0c5f5); (true, 0x35dcbd66ff23803acd1ff396272c7c61a936abe9d806f7b6c58ff1c0c5d6e59249a2e5b6); (true, 0x1ab24a0e8627aba5e9f3d0b05ec6e22477b108c12ecc77c4e3d141ee3e9484e298af8a4be); (true, 0x5ba4a082e089ea9f71ff7200562abe2c916a8a119429abf494a4ae577c66cbe84771684); (true, 0xf0de2a95360f2f48a1d6d0e3b2fddf0338b893d4bc132b1b04e1086befc31bc85c91b810); (true, 0x148dcf185cff717ebabd53f40b47cb0d22df6088198d241294d1ab950efe1aa815b0cd20c); (true, 0x1120a40f01e5f9b3a08645c33e9e4c8f101ca182de9e05b45b43876345295bafd6f989526); (false, 0x59ac613c2464fc7b80b762f0687d340c5d7756fd3be0c74e4f2b58cdbae99de); (true, 0xc5a3c36f04fffdf5fdd737999b186d183916cc980d68caf1a7df2f3968b8bf44dd13520); (true, 0xa7ac09896a83eb0f1cc259e8993e73c48aba3d9fedd0d868f2ba72d266d4407566b3ef); (false, 0x37c459e2571e721678413079897a5739c506bd131e94221d4015f840cdfc3171)]); vm_compute; reflexivity. Qed.
Lemma fermat_25519 : 14802493890 ^ (57896044618658097711785492504343953926634992332820282019728792003956564819949 - 1) mod 57896044618658097711785492504343953926634992332820282019728792003956564819949 = 1.
Proof.
  change (57896044618658097711785492504343953926634992332820282019728792003956564819949 - 1) with (28948022309329048855892746252171976963317496166410141009864396001978282409974 + 28948022309329048855892746252171976963317496166410141009864396001978282409974). rewrite Z.pow_add_r, Zmult_mod, nonresidue_25519 by discriminate. vm_compute. reflexivity.
Qed.
Lemma bezout_25519_0 : exists u v, u * (14802493890 ^ 781764 - 1) + v * 57896044618658097711785492504343953926634992332820282019728792003956564819949 = 1.
Proof. apply (chain_bezout 57896044618658097711785492504343953926634992332820282019728792003956564819949 14802493890 781764 [(true, 0x0); (false, 0x0); (true, 0x0); (true, 0x18deb6d30366bcf2465d44f32cb7b1); (true, 0x70acac64c3bd2e32a1dc1c3b315169d82226ac1c7920b4b1a7ed6f18a38d1e667c0ffc); (true, 0x7778af3775d6d5cb65b7dca42cf618203c87663a31938dd2729a3f9372afb7e3ffe3bbbe); (true, 0xf30337d693b8722744a3da9a68d19444ddbe1b7bdd261992d2c8ca8ec7cf2329649c8b95); (false, 0x5c5413c989aca8d311c892d4969244ca514917ceb22d128ed1eab52060038c58); (true, 0x8a3bbbdcd612b8d9dbe896de7d66c6a6352e1b2da47b9f3ed5f3daead6d59beb85c9e); (true, 0x10bd3661caec039a744dc8ddb849a801688bc48b5a2dabfd88f8c0c6024cccf1a84c541f0); (false, 0x1ba3526741661ca63a9cb75f777a460776c1d306af215ffb538b0d431f050d34); (true, 0x6905c2700f0663a8b2140d9973c4d03acd5475af831c6bb68701e7c86ce39834b88750b1); (true, 0x649d522b196ca96590e421274152dc2a184bc764ac766d1c96293a12a73c5fab31455754); (true, 0x3c9a5aefc2ce2cadd1c6ca0505bcf23b440d08597ec689a83cedc1bd72119caa73fa0); (false, 0x6dd19eb325aeefc3f519eb60c93d4b73bcf996fbf6c6a19679bcd41f8bb91a00); (false, 0x9fbbabafdb1df225000e4143dc5161abd0e7846484271e68b159229a7cde6ac); (false, 0x8aefd73201ea147db031723687c794ed8eef2357fc7e9e4291d9c24776ce9); (true, 0xc669b5f46850fc16cb912e0ae7717f4134ad21ad4ab32a49de0282fc16bb7abc66b88390); (false, 0x40a80f69f252bf1407ed21591b871b048992498c910b992c9bd1584464de3a6); (false, 0x1a33f0ed56170e7f3d4e0216d092fc9ef4a4784b04838d37780662fd3408e2aa)] 20909520643987556847778711110693979710867742264783034635400894742951462752642 3028103445185691201823788458927359826302338697109258327247741379376329895047 (-1093618604108150259904924447694966872541021677936736463992306573080091502174)); vm_compute; reflexivity. Qed.
Lemma prime_25519 : prime 57896044618658097711785492504343953926634992332820282019728792003956564819949.
Proof. apply (pocklington 57896044618658097711785492504343953926634992332820282019728792003956564819949 74058212732561358302231226437062788676166966415465897661863160754340907 781764 14802493890); [reflexivity | exact prime_p236_24 | reflexivity | split; [discriminate | reflexivity] | exact fermat_25519 | exact bezout_25519_0]. Qed.

Lemma prime_73 : prime 73.
Proof. change 73 with (Z.of_N 73). apply primeb_iff. vm_compute. reflexivity. Qed.

Lemma fermat_3797 : 2 ^ (3797 - 1) mod 3797 = 1.
Proof. apply (chain_one 3797 2 [(true, 0x0); (true, 0x0); (true, 0x0); (false, 0x4); (true, 0x2f1); (true, 0x5e2); (false, 0x79); (true, 0x1210); (false, 0x20b); (true, 0xa97); (false, 0x999); (false, 0xed3)]); vm_compute; reflexivity. Qed.
Lemma bezout_3797_0 : exists u v, u * (2 ^ 52 - 1) + v * 3797 = 1.
Proof. apply (chain_bezout 3797 2 52 [(true, 0x0); (true, 0x0); (false, 0x0); (true, 0x2); (false, 0x5e); (false, 0x7b)] 3565 3357 (-3151)); vm_compute; reflexivity. Qed.
Lemma prime_3797 : prime 3797.
Proof. apply (pocklington 3797 73 52 2); [reflexivity | exact prime_73 | reflexivity | split; [discriminate | reflexivity] | exact fermat_3797 | exact bezout_3797_0]. Qed.

Lemma fermat_531581 : 2 ^ (531581 - 1) mod 531581 = 1.
Proof. apply (chain_one 531581 2 [(true, 0x0); (false, 0x0); (false, 0x0); (false, 0x0); (false, 0x0); (false, 0x1f8f); (false, 0x3054b); (true, 0x1c97); (true, 0x1443); (true, 0x99740); (false, 0x12d); (false, 0x160b3); (false, 0x429ad); (true, 0x12763); (true, 0x99d67); (true, 0x83378); (true, 0x778ef); (true, 0xc8bbe); (false, 0x4aba4); (false, 0x81c7b)]); vm_compute; reflexivity. Qed.
Lemma bezout_531581_0 : exists u v, u * (2 ^ 140 - 1) + v * 531581 = 1.
Proof. apply (chain_bezout 531581 2 140 [(true, 0x0); (false, 0x0); (false, 0x0); (false, 0x0); (true, 0x0); (true, 0xfc7c); (false, 0x64f55); (false, 0xc7c4)] 32301 50673 (-3079)); vm_compute; reflexivity. Qed.
Lemma prime_531581 : prime 531581.
Proof. apply (pocklington 531581 3797 140 2); [reflexivity | exact prime_3797 | reflexivity | split; [discriminate | reflexivity] | exact fermat_531581 | exact bezout_531581_0]. Qed.

Lemma prime_17 : prime 17.
Proof. change 17 with (Z.of_N 17). apply primeb_iff. vm_compute. reflexivity. Qed.

Lemma prime_2551 : prime 2551.
Proof.
  apply (pocklington_split 2551 3 17 50 2 1692 2089 2500
    [(true, 0x0); (true, 0x0); (false, 0x0); (false, 0x1); (true, 0x74f); (false, 0x1f3)]
    [(true, 0x0); (true, 0x1cf961)]
    [(true, 0x0); (false, 0x462); (false, 0xa1); (false, 0x33b); (true, 0x17c0e4)]
    [(true, 0x0); (false, 0x6ae); (false, 0x47b); (false, 0x38e); (true, 0x10fcf5)]
    1135 (-929) 1717 (-1682));
    [reflexivity | exact prime_3 | exact prime_17 | discriminate | vm_compute; reflexivity ..].
Qed.

Lemma fermat_p21_15 : 2 ^ (1224481 - 1) mod 1224481 = 1.
Proof. apply (chain_one 1224481 2 [(true, 0x0); (false, 0x0); (false, 0x0); (true, 0x0); (false, 0x0); (true, 0x1b672); (false, 0x7246f); (true, 0x208e08); (false, 0x2ec53); (true, 0x63646); (true, 0xb1fce); (true, 0xae926); (true, 0x241efb); (false, 0x6ab50); (false, 0xc3412); (true, 0x15a78d); (false, 0x3229b); (false, 0xebb64); (false, 0x12af1f); (false, 0x0); (false, 0x0)]); vm_compute; reflexivity. Qed.
Lemma bezout_p21_15_0 : exists u v, u * (2 ^ 480 - 1) + v * 1224481 = 1.
Proof. apply (chain_bezout 1224481 2 480 [(true, 0x0); (true, 0x0); (true, 0x0); (true, 0x0); (false, 0x36c); (false, 0xefb4e); (false, 0x1f3b); (false, 0x444f0); (false, 0x5d946)] 921659 1100631 (-828437)); vm_compute; reflexivity. Qed.
Lemma prime_p21_15 : prime 1224481.
Proof. apply (pocklington 1224481 2551 480 2); [reflexivity | exact prime_2551 | reflexivity | split; [discriminate | reflexivity] | exact fermat_p21_15 | exact bezout_p21_15_0]. Qed.

Lemma prime_p51_17 : prime 1257559732178653.
Proof.
  apply (pocklington_split 1257559732178653 531581 1224481 1932 2 896025394887893 1252739704402215 1139842034583224
    [(true, 0x0); (true, 0x0); (true, 0x0); (true, 0x0); (false, 0x0); (false, 0x394); (false, 0x2ce960d356a9f); (true, 0x12feece7f38f6); (true, 0x5ce8eaa217c1); (false, 0xb249c6a0939c); (false, 0x67283a6cdd84)]
    [(true, 0x0); (false, 0x244a5a1e88567); (false, 0x3243349e50f72); (false, 0x16569ca7bed64); (false, 0x35c9e6f2e44e0); (false, 0x1ce7e8cc34673); (false, 0x2bc990b9b2097); (true, 0xa5e36ef13793ac7c559995ad); (true, 0xcd2c303053757549089dfc8); (true, 0xbd2e574714284a9673daca63b); (false, 0x118249c3d8c46); (false, 0x1fd994e47e5); (false, 0x2b03de599c40); (true, 0xb16347bed87d77248adda393); (true, 0x25d0a3b2bad59601441f96e02); (true, 0x7796b971f2022aaf71438ea0); (true, 0x292e832770cabdd83008460ea); (true, 0x8722df9b5031e8ea2aecb34d4); (false, 0x73038a95e372); (true, 0xb9346a8ed8626724baef1471)]
    [(true, 0x0); (false, 0x244a5a1e88567); (false, 0x3243349e50f72); (true, 0x471c2e6be08408f3749b9e91a); (false, 0x8084b1adb414); (true, 0x848970bf48d98fa68622773d0); (false, 0x37065bd70837b); (true, 0xbbc39de1d13bc12a26397440a); (false, 0x122de71c07b4a); (true, 0x120e30eec48c44d6c908dd679); (true, 0x63b0e358fd6ff291a932abee2); (true, 0x56512efd375e58024a109052d); (true, 0x86a612322f794c92869a2852); (false, 0x27ad4f7d2d); (false, 0x3b58a84bd2364); (true, 0x12276b8937e3f862dd10690bd); (false, 0x1db8202e388b2); (false, 0x2132e158aa36); (false, 0x2613a3712f397); (false, 0x4507fd9378402); (true, 0x3594558dd786a4d91d5b0cac)]
    [(true, 0x0); (false, 0x46efe3e319fda); (false, 0x1395a232332b9); (true, 0x128130f7c97404db49236b932); (false, 0x6167f0aa6e7); (true, 0x726cf7ff87846a167d7803f51); (false, 0x17c3c39ef0777); (true, 0x68a64ae2f1fd3622b268a4fff); (false, 0x4f902b5deba9); (true, 0xe340a472a972b5eede8bfef44); (true, 0xb405646db06e622a4e27157a); (true, 0x1104f092b8dc6dfc76d171e); (true, 0xe494d0bacd61e0c9b343232f); (false, 0x519f3ffc02f1); (false, 0x1494c5c7c8415); (true, 0x7081cdc11ffb47cf07e682349); (false, 0x1e1a3d46f0a1); (false, 0x24600d7a5dac8); (false, 0xf081aeaf824b); (false, 0x58451600a1b1); (true, 0x6f0bda76e4f055c540c56133b)]
    790900187493841 (-787868792026441) 212927577457398 (-192995844966701));
    [reflexivity | exact prime_531581 | exact prime_p21_15 | discriminate | vm_compute; reflexivity ..].
Qed.

Lemma fermat_p62_19 : 2 ^ (4434155615661930479 - 1) mod 4434155615661930479 = 1.
Proof. apply (chain_one 4434155615661930479 2 [(true, 0x0); (true, 0x0); (true, 0x0); (true, 0x0); (false, 0x0); (true, 0x0); (true, 0x2147fbba8d768ea3); (false, 0x202eb6f67a87b0f2); (false, 0x219850633aa0ac); (false, 0x32c2e900b9fe8fbd); (true, 0x3a40bea7c03a0e80); (false, 0x3871ad15bb423418); (false, 0xbb94003a19252ec); (true, 0x5b20f437ba2417f2); (false, 0x3aa0a3947a5c52d6); (true, 0x24083c9c7010cea6); (false, 0x13aca9505726994); (false, 0x1162a5cdd9c2c724); (true, 0x1ab0f79d6d370881); (false, 0x2ccee29b0e7a8544); (false, 0x2cfa5998b506e9b4); (true, 0x13faf382d65684b5); (false, 0x25c1d9ed21c28982); (false, 0x352bccba542989b); (false, 0x8cb3e3febffd8a); (false, 0xa27e2140b90b7c5); (true, 0x2cb459fceaf8bbd6); (false, 0xa0505e2812d8988); (true, 0x17a40b80a59bf034); (false, 0x658b8a71cee18fe); (false, 0x3477c5c8332ed248); (false, 0x31e8370f2ae19ee9); (false, 0xdad3eaf2459546b); (false, 0x233bb44f293ccd7d); (true, 0x1dcca79b3a051d15); (true, 0x50d59e22c23e4e7e); (true, 0xb090f09b8ec6dce); (false, 0x6ddea9cbeda793e); (false, 0x1122ef92974ad8ab); (true, 0x185071cdf0f23362); (false, 0x9a3cdcf88d6b94); (true, 0x1aaf6da0515e8f96); (false, 0x3a90149e4773ebb2); (true, 0x44904da5673696bc); (false, 0x3b48b59d78023); (true, 0x6e410ea2a5b68986); (false, 0x258ea3a66af4424); (false, 0x2cd675326c3fb5d6); (true, 0x564fed4534786e7); (true, 0x10feb2d3b4d1a67); (false, 0x2539779a940004bb); (true, 0xdb556813d394d); (true, 0x12467be2ea00b386); (true, 0x2c5d546603b373b3); (true, 0x3de0df3d2644be72); (true, 0x1a37fc197a4af61e); (true, 0x720faff24208005d); (false, 0x92cde6dac8193f); (true, 0x58f2ce01f6e582f6); (true, 0x547e10eb3851615); (true, 0x50b483990d8f03f); (false, 0x0)]); vm_compute; reflexivity. Qed.
Lemma bezout_p62_19_0 : exists u v, u * (2 ^ 3526 - 1) + v * 4434155615661930479 = 1.
Proof. apply (chain_bezout 4434155615661930479 2 3526 [(true, 0x0); (true, 0x0); (false, 0x0); (true, 0x0); (true, 0x0); (true, 0x0); (false, 0x10a3fddd46bb4); (false, 0xce10e367ebaa305); (false, 0x64d428f1ebc73fb); (true, 0x10e15891c6449dc9); (true, 0x1e27fd9b83c5a318); (false, 0x17f6f31251208253)] 415787812636281767 1010501025739283171 (-94754006754933215)); vm_compute; reflexivity. Qed.
Lemma prime_p62_19 : prime 4434155615661930479.
Proof. apply (pocklington 4434155615661930479 1257559732178653 3526 2); [reflexivity | exact prime_p51_17 | reflexivity | split; [discriminate | reflexivity] | exact fermat_p62_19 | exact bezout_p62_19_0]. Qed.

Lemma fermat_p88_20 : 2 ^ (172054593956031949258510691 - 1) mod 172054593956031949258510691 = 1.
Proof. apply (chain_one 172054593956031949258510691 2 [(true, 0x0); (false, 0x0); (false, 0x0); (false, 0x0); (true, 0x0); (true, 0x0); (true, 0x0); (false, 0x731ee46aff6ad9); (false, 0x1545ecd9b5453957defb4); (true, 0x5a3b4cefed48be778697f9); (false, 0x16a62ca37271dbe4655f); (true, 0x28ceb45abb867c2422c88f); (false, 0x7e13466bc46679c63827f1); (false, 0x20349817e64c212ab76d96); (false, 0xc14f79e02cb4dde1107dd); (true, 0x559d62fbdeb26999df6f44); (true, 0x1e1be4b7f5d65c7eac222e); (true, 0x5a5cdeb200aebbe6fff6c5); (true, 0x51c0d38a8f8bb8bda4d150); (true, 0xc8fbded9206d937401fa3b); (true, 0x7d871e82989f0995a22ba); (false, 0x42bc9d0930949a5dba7a0); (true, 0x620b104f882a53c86e35b1); (false, 0x15ce7e642336df85f2e0f4); (false, 0x2c5ab13fccaa1387e12efc); (false, 0x15b059c3af2424ebba2b2a); (true, 0x140a9bd7be2149e84536e); (true, 0x5940b9462412be1201577); (true, 0xac5b7d2cf1b0c6c085a7f5); (false, 0x20cf5d622ca677a691e964); (true, 0x35771ad833650ab44e1f); (false, 0x74c63d46e96309b294002b); (false, 0x446344ce1cc353ec722a25); (true, 0xd9f51c27482dce7673f932); (false, 0x2df018bd870845faa); (false, 0x74e8be3a9b957c4213331); (true, 0x10c0fcc7862a096c5d045ed); (false, 0x238e0f87309ade3e740b0d); (false, 0x1018934e225b5b1ec911fa); (false, 0x387f8bc02b9a1a5cf0cbe3); (false, 0x4f02a507fd4a506a17003d); (false, 0x153f58d44b2a13782a1214); (false, 0x6ec39769c71dddb968dce); (false, 0xf3cc04eefea7267152a43); (true, 0x4cc374dc8dde89b350550); (true, 0xcceea05b866c2640d16c93); (true, 0x2012ca389afea56510840); (true, 0x1b7a2bce8c90bbd836fdfd); (true, 0x3497ed52c57d6bf49dca63); (false, 0x2d5cf0e9ac673360e25781); (false, 0x13173e067453b9aedc1062); (false, 0x47ccff46de9d01e94e123b); (true, 0x10e5ade1c762df914a6bb75); (false, 0x8fe399573352c8b277e0); (false, 0x4920d48a686c1f59b2fe75); (true, 0x6d4805ad0b6c115c3ed7df); (true, 0x4adc1d85936379469105a); (true, 0x641227c7ed052c7b8e1611); (true, 0x273a10495024a4cda84577); (true, 0x2d488a0f3810cfb1f27a08); (true, 0x3b235911904ed40a79b113); (false, 0x413d16a24aee5f7944bc0a); (false, 0x50145b897640780a264bf5); (true, 0x516ff730bd6a311c6d1388); (true, 0xa6a06adf5e8bc8f8d64605); (true, 0xc9c13426e7e52c896496d); (false, 0x37aa7ce5ba6fe5c6e186ee); (true, 0xa97df8a8466a15fa5413b); (true, 0x1283ba4082c56223350dad); (true, 0x1fa3e3da6b8cf34a8e1e31); (true, 0x22c905fb51613e108ff95c); (false, 0xc961da32ab3fc5fc1694c); (false, 0x4aa1009f1f26f9f13c1f73); (true, 0xde4d72cb186664bfcfcfa7); (false, 0xf90fad24d3904b50f2fb1); (true, 0x5135a0cec4aa7633170000); (false, 0xf45634cff02b92a50577a); (false, 0x10ee6eace3600ba3508e07); (false, 0x8142f5d50af97aa5cd3dee); (true, 0x933e8782ed208a40c1a3ee); (false, 0x1312bba24d889c49d5fb6b); (true, 0xac4d903fc303dea5ff524); (true, 0xa8dcc53ab27a323e64d5c3); (false, 0x1412e47183519c4867394f); (false, 0x3376af99c8d5b57f958ac); (false, 0x4b1a6ea6fdab737709d145); (true, 0x1120355f9bf638128e0360); (false, 0x8e51fa3a480f89f9de5161)]); vm_compute; reflexivity. Qed.
Lemma bezout_p88_20_0 : exists u v, u * (2 ^ 38802110 - 1) + v * 172054593956031949258510691 = 1.
Proof. apply (chain_bezout 172054593956031949258510691 2 38802110 [(true, 0x0); (false, 0x0); (false, 0x0); (true, 0x0); (false, 0x0); (true, 0x0); (false, 0x0); (false, 0x1cc7b91abfdab646); (false, 0x4eb0b2f689f7f4b2f7bee); (false, 0x40cd0fd43bfde1bda228c); (false, 0x1e2eab04a85b094080da7); (false, 0x6c2ffd71221a945b973730); (false, 0x5ef3c6d61bc6ad25dd25b4); (true, 0xd5281907fd96755c56a0); (false, 0x43f071ba21eaa3b6b05c77); (false, 0x641476a01fd83f02b50559); (true, 0x4e1d9f61470980949bdd72); (false, 0x52db0199da62908ef2243a); (true, 0x2a550c495f18e2c7741d97); (false, 0x29364d09c4e41a1f09a15); (true, 0x10db562cfeb085ebfe400c8); (true, 0x132a5c35d32283c3cc3bf9); (true, 0x8408f6819dbcf34648551); (true, 0x74534f5e6758c3bf32974); (true, 0x7d89ad8bc65b7cc9aed0d3); (false, 0x408e0a1194510d3567b52)] 81982237619807054769897707 154275350521713489305385904 (-73510611687487158067405653)); vm_compute; reflexivity. Qed.
Lemma prime_p88_20 : prime 172054593956031949258510691.
Proof. apply (pocklington 172054593956031949258510691 4434155615661930479 38802110 2); [reflexivity | exact prime_p62_19 | reflexivity | split; [discriminate | reflexivity] | exact fermat_p88_20 | exact bezout_p88_20_0]. Qed.

Lemma fermat_p134_22 : 2 ^ (19757330305831588566944191468367130476339 - 1) mod 19757330305831588566944191468367130476339 = 1.
Proof. apply (chain_one 19757330305831588566944191468367130476339 2 [(true, 0x0); (true, 0x0); (true, 0x0); (false, 0x0); (true, 0x0); (false, 0x0); (false, 0x0); (false, 0x468bb939cce552e87b1f2edfb); (false, 0x63da4e5bb6c6e962b652b77a735944e6); (false, 0x38ebda91cea7a926ea29ef03831da1961b); (true, 0x28be9f682fe8fe8c9df0073ff7b5899c64); (true, 0x6a0bcd01cdd39d5c6d0237b36b1a14c1c4); (true, 0x13ef510488467672852337648489cd8a25); (true, 0x442a8a271da31cef40676ee2e8365d25f2); (true, 0x34e925e0dea14b34929d75c749249fc227); (true, 0x528dad4982dde27fdaa55f06e30ade6d13); (false, 0x1010c90ca272b07f389c26103cd2a3e2d7); (false, 0xe15b9c09722e3554d667977a46080560f); (false, 0xa9c07a359e0bead2a3dcad621b98a0a68); (false, 0x8ea7d50f69dcf0e6317ecb4e7dcac004e); (true, 0x87dea9494aab7ef30ad014c94b5295875); (true, 0x2e09509cf40648199f31f4c1b3d61b2c86); (false, 0x25ac48e625bd90bcb5fd26c7307f56e90); (true, 0x335a9c4a8d583450464b5906d9f2cb2136); (true, 0x52fad3308e35d89b9a6f4668919fa78d2); (false, 0x70cb97f5d17cf9025c20e3a817dc4f9b1); (false, 0x1402c16ae2a101f1119ce79608ecd2271); (true, 0x47fa0ff1fb63c9d528a3add2cedb88d681); (true, 0x45e08a9d4c93023817d0eb932100484b9f); (true, 0x214f419b4346751dd6ee935e922e49c8d6); (true, 0xe833aff018b084a9565cd8d33b959dd); (true, 0x43b3200194d624266fccb51567a35e5763); (false, 0x11d5a9c4c104f4db1fe95b94b64f8f845a); (true, 0x28aa64aa6b6021756b07b13b07cb56e7a5); (true, 0x2d50bf6bf1a38c2029f56c6bc77af9734d); (true, 0x33e8fbe5befe03589c400c4a5909031cbd); (false, 0x24cb7fc4b02e0e36cf7cd99489f64dfa33); (false, 0x19616e4387f2751e63626da99000dc5d07); (true, 0x55833d1359b29b33941d005c921117990a); (true, 0x1e705588cb073b312368ce10b73d2f2afd); (true, 0x3dc804a11ec35d854abe141510f325d3c); (true, 0x4b3af7f5c7723f2b8e7bc84c3637731259); (false, 0x3a5e227bac996fbe6d7c1866ff941091e); (false, 0x32b0abd3fbecfd3eb06340920257e4111b); (false, 0x168076049530c3c07da7d4dc2bcfa480d); (false, 0x1284e535b64ad41fed1427abdc160e6695); (true, 0x1092145ce5f0c89fa861a814d7ca97d47c); (true, 0x74d55bdfaf2e2e89cbec14709a8d9dc10); (true, 0x561939783e7a87161470c1ec65c22e210e); (true, 0x38b81a3f4e48e816581d9a73480ec10295); (true, 0x22721c61464e06f7752495d9dd7d2e1f5b); (true, 0x2b5b7a3bde08d02283a55dc43d18b15d3); (true, 0xffd70ecc591ef3cd16606463292cd894); (true, 0x61b5df961056766b5c7ed6924624ef4); (false, 0x34e6805cb9df92ce7e7cb1b6508c927a1e); (false, 0xd5e0ebbf41db4f6b517f3d5e7a1bb3471); (false, 0xa78bd6d44b48c9b1c3a3edb981e3afdd4); (false, 0xeff707a4fbf064aebacd3e729f816f17); (true, 0x46610a4e5b42ca7c8f60c47d074079bba2); (false, 0x19afc4b9b3cbbfcccaedb559b8375ebd94); (true, 0x38102b5b6937b44d176ae28a317b8dd7); (false, 0x3928cc909b25533aa9f9165de76b39f095); (false, 0x21ee1e899f3aa53c6b8d096caeb9bf04ba); (true, 0x377c008490ef5ac8ffcf6f681111daf58); (false, 0x1447baf4c89983ed45d2c6a321a4e517c5); (true, 0x510e1c10df11f0a6a234613abaeeb68d11); (true, 0x16111b1ceb3f9a5b0c0f102a5f3d4f5c40); (false, 0xd2f3c496bb98832e428e907ab99d54b7c); (true, 0xe7512690da16f697c9a9977b2bee991); (false, 0x346b1aa41892cdc4ac512c77d3e139596c); (false, 0x1c7f0619873731bdc8964827be93459); (false, 0x1f48dc51cbb1a1bdc85ca4d92c674dde2); (false, 0x3f1aa2c2025d56074d888427a8e75e8d0); (true, 0x2d758f46228f0f1d9ad8d959442666f509); (true, 0x68a12e20386a0a6ef95a5b649b8c9b28); (true, 0x120d3ad2544415f8d3abd7ea5ef50e23a); (false, 0x20a1a0196987fe1f773c34c1e6c92ead81); (true, 0x6df500207c36f827ee9d3bd63859dbd221); (true, 0x39f9778f00170916ff1baf760e5eda392d); (false, 0x2cc16aef136440b1de068c8dfeb1268137); (true, 0x237e4304b393732b84a225a9cd62481a4f); (true, 0x61779a523b7b59aacf218c87aa96e0d4d8); (false, 0x4554c8cb20bdeee631c5049f2265edeff); (false, 0x3069d3a14a94357472056f55afce9bef3b); (false, 0x1e3a57cc12e05b4db4516bd884a2cbc8ba); (false, 0xb1784d9f3d7a5ac82dbe4d3ce1ef8ccbb); (true, 0x4de1185c6d1fca5c66726dc0437f3545c0); (false, 0xb9a5b35f910fae51f8a7856524935e4be); (true, 0x403ec1d5032f020fc69293000aa5a52a8); (true, 0x494f8f6959fe3f13bf51d602d77ca34b33); (false, 0x18c8eb689cfbd9259b0b03d1d58caebaa); (false, 0x504306106f4a271fef05ec7f6c0251243); (false, 0x6bdacae1d65ebad40f9283f3393c5f08); (true, 0x396f63afe3cbfa64b3a285943bfa2ec54d); (true, 0x533104746f13e22b35cc34b7e6fe86c2f); (false, 0x1ea3aafa3192b2891fc5566cdfcb95edf2); (true, 0x3d78f9d5586d37d45f814d05ebd2fccaba); (true, 0x71f24bd9d3ee1402b7caf6527c35c90cdc); (false, 0x27f6a67da71428c6e427e7fa5ace9928b8); (true, 0x27c943a48062ce3e48ef3c65c8f69d5367); (true, 0x3c48a74059e3f8b5327f1a865cb18a6063); (true, 0x4bc499efa2288a37325201263cfc9aa60a); (true, 0x5c00e882df9fcb9372238db15ef5b80187); (true, 0x2a5435f99eb9276c3835521b5d140e78fc); (false, 0xa7d3b8b055a3c11db0dfbc9ae4064ff); (false, 0x1fa160c432211683a8e4e8d8aa0ccfe296); (false, 0x165eb197bc71dfc86300efcfff4ffac451); (false, 0xeb72fd2d7b15411d17aa7ef7c436fbe14); (true, 0x492ccaaa988b92723bec4b3e8b1b1554be); (true, 0x55785dae08900fd09414758f8c62f851a); (false, 0x20dc09cc552f564fc1c49f37391593a375); (false, 0x2b1108f63a9324c5f7f6e1be4b549da); (false, 0xb722b7581e22a3ca434d2bb9f9d95441c); (false, 0x7af0e772a445f02d86e670d517d54d1a7); (true, 0x2bc77b374e41b1fbd3ff6c9036174f42); (false, 0x10e1ec4ed6a6c589d87dfef188fda83e0d); (false, 0x433f6deb25cf80dfbf00a9118b6bde5fb); (true, 0x224d42ce51a79b224ba57ae3b069dc3d10); (false, 0x12b23e7bc20df14bba44554038cd1130ba); (false, 0x2fec99b69207acf3ce1cf2c5d9979a58cc); (true, 0x45d8441d3295a74b0d0040316c1ebf2c); (true, 0x2e3c3f632860441b9fee0c50f816ca02f); (true, 0xfe3626f4a7340c74ac87f92a9f4308d2e); (true, 0x2a7e91079ed6bb7a63b7548830460162ef); (true, 0x2518080bd4f5ed2c253aca84bb40a74695); (true, 0x115cef1f2df04e8564e3015eb12079067c); (false, 0x398057af6d649bc9c0a9aafee4cd4ef7); (false, 0x16641927940e3917d4ffe707833fedf4d8); (true, 0xa6bd03c7d6b7f9b901998242f8cb34de4); (true, 0x4f6b0687e5532e57061e59f101cc25e5d8); (false, 0x362d4a08ee4c62f0ef48cb8a874d595640); (false, 0x20c669789ed9a128ff5e165d54284c01fb); (true, 0x63856cea81f05818ae3de6ccd2d95e73f0); (false, 0x3a0fc367dcf0ff0a5a1db0b1b7c3093f31)]); vm_compute; reflexivity. Qed.
Lemma bezout_p134_22_0 : exists u v, u * (2 ^ 114831751082918 - 1) + v * 19757330305831588566944191468367130476339 = 1.
Proof. apply (chain_bezout 19757330305831588566944191468367130476339 2 114831751082918 [(true, 0x0); (true, 0x0); (false, 0x0); (true, 0x0); (false, 0x0); (false, 0x0); (false, 0x0); (false, 0x468bb939cce552e87b1); (true, 0x689178206400a5c24cbc666bab1dbe911d); (true, 0x73b31e58ac3467fedc479139c439b0fe16); (true, 0x6590ab6c49d1c4628ee9e915e81e0c3533); (false, 0x38b27ff1a2af3ef4bf08a47050cbb07c80); (false, 0x11e18f0ff34fae25a8a700265ad705bf2); (false, 0x30e2ca1c4580cb6eb79ad2765348a45c09); (false, 0x349ff30bd8582c0d3fc3ed73d4b2eae135); (false, 0x2ae71a855c6d1a4fdf42ef7c2439683631); (true, 0x2dad2efc37df1154de375fd5aafc6eee6); (false, 0x10809d502bc7c19afe2ab900c62e741); (true, 0xfd40556fb383ab72323bcb0f6915b1da2); (true, 0x3a6e427104adbd2c960dc81dbcc6313b7); (false, 0x7bae148ccbf5a604a911de4083d0564a6); (false, 0x275e30e917546784d5b7c0b39f9b95fda); (true, 0x1e4cad12bf13beda809e89d3ccee64bbba); (true, 0x4a9513d786cca0ab1097e867b41f2b6c3); (false, 0x1687eef9d0561ac094d08edf05b3041fd5); (true, 0x1af5b78d798135f1af540c4359c0baa4a8); (true, 0x5512c9cd9a4d4012be28f7406794d7e218); (true, 0x2e8f14950377a06154f369e1c0e783e7a0); (false, 0x7d0e929e1b0d66913a7c0b005c5d8d45a); (true, 0x40407692daf6c21589183006c7e5cc3e4b); (true, 0x4c4712c7dcbc202970d1294083179c89); (false, 0x498d6dffa23e856e7476c66d4b77ac4e4); (true, 0x57a8ae49172290474ee7686088349e5681); (true, 0xbc805e3d8bb40dd46227471b43db6ec50); (true, 0x7bb4acb63cb24bde04a30d943bce24816); (false, 0x41a006eb76cc107ac8875357e1cb936fe); (false, 0x136b253c829292eed436f7e7d6f5f29a10); (true, 0x283d370c176c2e9753829930bd72865726); (true, 0x3c8a54151c95c13693bcce35af7b04f497); (true, 0x6616d061d4f74b9f36f6d7e416c94d82ca); (false, 0x3947f416aa9f415e1e1f9cf1566db5f718); (true, 0x16081ff23d2cf1b49f907682b6d66dc37d); (false, 0x157a5e53d97cd968ba31de2f95076c2b36); (false, 0x4a6b673ea18779aaa4464e6941c771c99); (true, 0x41a81ae33f71441e1cce23bc00d4addc); (true, 0x89c7a06fa0bd25731cf4c2cfd5ec0345f); (false, 0x22f82ea76a7c0775dea288aabb6afeb06f)] 9148758478138211201771971577098600188172 16371654433361644093796961727196399386194 (-7580999557119167215323054323116539631207)); vm_compute; reflexivity. Qed.
Lemma prime_p134_22 : prime 19757330305831588566944191468367130476339.
Proof. apply (pocklington 19757330305831588566944191468367130476339 172054593956031949258510691 114831751082918 2); [reflexivity | exact prime_p88_20 | reflexivity | split; [discriminate | reflexivity] | exact fermat_p134_22 | exact bezout_p134_22_0]. Qed.

Lemma fermat_p138_23 : 2 ^ (276602624281642239937218680557139826668747 - 1) mod 276602624281642239937218680557139826668747 = 1.
Proof. apply (chain_one 276602624281642239937218680557139826668747 2 [(true, 0x0); (true, 0x0); (false, 0x0); (false, 0x0); (true, 0x0); (false, 0x0); (true, 0x0); (true, 0x284fd78ebe39e63bb); (false, 0x34965db8655893ca96cbb5818da0b8e5cb); (false, 0x1e15e9f94f6352c261dd79f0e34b0f5f9ee); (true, 0x208fb54c46899406664a7191e4b47aac2fc); (true, 0x7aff055964d0059141364168a88730eb36); (false, 0x141c401a3f4383c5b1aa68621a1da2f9033); (true, 0x105dc1192d6a5eff0688e5d9104c1d5e938); (true, 0x100c70472678dee514fcee3964f4cdca88d); (true, 0x45b1d751c54df27b661726cd41916694d); (false, 0x15b2de052e426429eb5fdfb9469cfd8094); (false, 0x57761ccbbf16ee78ed6d95c914f87b5c98); (true, 0x2ab4166d0ad58124d5fb7b7a67cabce5c33); (false, 0xbf7546a81e3ceac8f76a68c99df0472bcf); (true, 0x2dc2f2599050232cc4ae1ff9d5f9fbf0c8e); (false, 0x16f3fc592102aaa485a58630d6194f70ba); (true, 0x30edabaa107d6a1b5faa1f09ec8dd80fdc4); (true, 0x404222ada5f56e9cb9af0c399da1e8af07d); (true, 0x537fa40829a408efff43c6ad1a84095ce3e); (true, 0x413e8481f06765074718b1249f7ab940f50); (true, 0x1b2c9ca88359c2814ab59863920981e500e); (false, 0x8a816fda821bd20e7ed077968b69b13862); (true, 0x3ee550bd1c4243a20939c613593911730e4); (false, 0x1b8f297fa65d491eac16b7581fae389aedd); (true, 0xdce25af7b55ab0e4e16567cef4084be8be); (true, 0x5d22249df9428f5bcd23402af669e0f9fcf); (true, 0x479770fd82ae06e1d17b48cdc24099a219b); (false, 0x2ba8ffe77bf2ddfe751be6287c2afaa571a); (false, 0x1302c7373eca8ed5c88409162fb5d3578ce); (false, 0x2d1574c762018c8dc8576fe9cd5632b198b); (false, 0x20e27abe85f17a2c8d2ce392d14de98e469); (true, 0x872cfc0274f1cdb614f5fa46d8f3146e95); (false, 0x1b60d40bf7405db5ea3a97fda5df8b80b3c); (true, 0x3a7361610c91989656835707c8db9b5fba); (false, 0xa091ae510ba4b0e7de5f0dcf8e3970b85d); (true, 0x1699a6592507600a40c4b564ebf7954241e); (false, 0x410209310c6b57e2e813a334d75e26ada7); (false, 0xbd34419a4fc883da57ed7546dfc343405f); (true, 0x1a0bf46a5d28aed5b59b9ce49dadc724472); (false, 0x135af4304dd0c5525f17ce6764b20abeb2d); (true, 0x6cb67f28c57496dd24bd484597c750e7c7); (true, 0x80a0a5731ceaaa0c0700ec282980348438); (false, 0x1c4c404adff125589309e7b714be3fc6e52); (true, 0x187babdeeafac12426c0930b3720cc6bb24); (true, 0x787349c97330d85b49a78919a0359c7db1); (true, 0x90411eb908da81eb9888f14d684004bee4); (true, 0x181655c186a545f9b4d88615e3e3df49d99); (true, 0x3b0601c0bcfacdf992be9676b23baa64f5c); (false, 0x191858843d8716a2785766b6685024a26a); (false, 0x26fe86122a35e1ddf72316f02ef65591a9e); (true, 0x3bc67f32eae95072ff0a136821fa942c0f2); (false, 0xa034c3a85a14e7dd70249b82f2678475e); (true, 0x1daa5a3aa5b01c68a07fe8c956debfa973b); (false, 0x23bb531a0662f64addc0b406a167fa87bcd); (false, 0x15201c15b3fdd7492050f41197a9d99ccb); (true, 0x23d3807b3400d5123578627e4fa46e58586); (false, 0x2a6e087241c781d90a20e07b1c5085e9be1); (false, 0x1163f817f7b926e120fc24bb0b36b01db0); (false, 0x236e7924bbcb5884d53a55841e8c160f36c); (false, 0x1dde300d0af1bfc135dad56f526a656dc0); (true, 0x216e7e8c6eeb278121053d4f8fdc56ae26b); (true, 0xc1b02d30a73e8e8a17f8efc7cfd5c6c1); (true, 0x4be36591cf6ed936c95a92cfff44d71bfe5); (false, 0x1d0213bf8c6e349c074a94608b3dbf7b6b); (true, 0x65648fde6e9b0c1e1414f6b87d667d09845); (true, 0x1c4eb7db7e31417e849a4f5312c18931dfe); (false, 0x106757244782c0f5510379b74abaa39311f); (true, 0x262a7ae80e99fc8c8435dd71927f8f3cfd); (true, 0x52fc41f715920210baeb898e941f59a73db); (false, 0x68bebd64ac11f857c1cea7e5ce5236a700); (false, 0xeccc375eb73b214e493815f007ee6ba38e); (true, 0x3a1fc0dd2be53b63fd4bc1ff86582b68abc); (true, 0x1dab76739f0425bea6e240f5e807f5124af); (true, 0xc1413ab39c84a9e37aea006f77ac2c0f24); (true, 0x1245e52fe0703262d01c79e1709fc6b20); (true, 0x1d2ccc29841dc561629a7afae0ac334d488); (true, 0x4b305bcd82d6476058c29cbf51f4d462846); (false, 0x5f4246c9e793be204c327f3161a38b794e); (true, 0x2d00c7aa6d96fbfe88d972fe0148b50206); (false, 0x185741e99b77210370a1b079e455e60478e); (true, 0x1a3e7c1f16f7cd93760414ebf8ed86b55b8); (false, 0x156ac293193f7aac427271579c6e4f251ae); (false, 0xcc16dc51257d474a4ec124ad90b0fd094b); (true, 0x2657a66e12c8820ed369296d35bc256ad48); (true, 0x589517bb3b4130e0d662c61ac3e2ee73449); (false, 0x465d38f0b21dcef512b74f6f804daad5f); (true, 0x15f69fecc31399fece00ee4115febb07127); (true, 0x2bb4cc4f8eff9982be354b12372e3e7e52c); (true, 0x62d9b7c5a055fb47088fde17070dffc6cea); (false, 0x97e858d26c2ad6a2929f57affca9cd7fe); (false, 0x6590e178bcb213cd7c9ef12601df3537a2); (false, 0x16c5c050244a3b7954131c3f5524545bbc); (false, 0x1c8b87bfde600cb2709ba1a0e591991469a); (false, 0x156f46538c0fc8fae6273bb5296f3fb7879); (false, 0x1ca3328c5435321296b298a0f7c3fb66e7); (false, 0x22f670c020d740a8dcaeedd6f0111c7d6f0); (true, 0x2f3fadb13fb69040d40f787c4407fe03c); (true, 0x52789afa126900c662cbd4e1f0c9d1f0fb4); (false, 0x12aa6e58f03b40dcb4779680df24385c1); (false, 0x1756f690e23940a007e3fa75a08fd6d0b6d); (true, 0x17fb33b2c509d6ef7338bb02af33bbf69f); (false, 0x272d11e9f28a82c9c50df3d88dc8b88c844); (true, 0x2c8aeb3f807366002fa21a0f885a1238904); (false, 0x48c5e39522b06f3742b4046de211bb60d); (true, 0x39d6c139df01a675d6b464590a7d28824c1); (false, 0x1c5bb5afbdd3e97800c1f45393ca1f65f80); (true, 0x19343a57b46a5d1634843f5d1b4c869979); (false, 0x16c4824e65edb5b89a5b7833d1e98a37de0); (true, 0x4e62766b5b527050fd52e92139f847e850); (false, 0xca3ccbbd7f6bf961f8a614213f50074955); (false, 0x4622a46658de350c18b941cd2cd71e5361); (false, 0x27bb79fda8546ab2c1d93122e1fea8fa09); (false, 0x647f956a1b2c479a6c3e2748fde3c9b0a6); (false, 0x1e9dbb0f72cbe11f9c240e396adfaadaf1); (false, 0xeb75d820f12559833563e14fdf41dec245); (true, 0x4526374745fb0a77887ef12fe4d48f6dd); (false, 0x172e2a7b2e301a3a7ca76488fc44f9c83a); (true, 0xd4725207bce853603f34924132e77789dd); (true, 0x508cd2e71e9a2996b8b5b350725dfb9b290); (true, 0x574abedf14ff72f40c34d77d087e5b4a3); (false, 0x161523e2ae435b6beea9d1782873cad6dfd); (true, 0x2c7a64018501d213f6e53b1a638249b030d); (false, 0x88adbf1d7c80584acdcc13851c2f258c5c); (false, 0x35a6a0f95ccf83ebaf2b5f5a27b728fe71); (true, 0x2cbd5d2175d8025a0b7ce31f2261549da); (true, 0x11475b7be0a321b71ab7d2357baefd5e89d); (false, 0x1d575cee3c6c9b004247b32d8bc8213); (false, 0x862242de82ba62c4d77eaf9fdee25620b3); (true, 0x1caecbc533386416298343188ab5be4); (false, 0x275d83903149626993909d8e44fcad013d5); (true, 0xf431ae81f1c78bf687e442b8db52b4a6d8); (false, 0x32cdcafae152df290ed9fa9b80caa8174c9)]); vm_compute; reflexivity. Qed.
Lemma bezout_p138_23_0 : exists u v, u * (2 ^ 14 - 1) + v * 276602624281642239937218680557139826668747 = 1.
Proof. apply (chain_bezout 276602624281642239937218680557139826668747 2 14 [(true, 0x0); (true, 0x0); (true, 0x0); (false, 0x0)] 16384 94074944912245044309966580483695483989395 (-5572)); vm_compute; reflexivity. Qed.
Lemma prime_p138_23 : prime 276602624281642239937218680557139826668747.
Proof. apply (pocklington 276602624281642239937218680557139826668747 19757330305831588566944191468367130476339 14 2); [reflexivity | exact prime_p134_22 | reflexivity | split; [discriminate | reflexivity] | exact fermat_p138_23 | exact bezout_p138_23_0]. Qed.

Lemma fermat_order : 2 ^ (7237005577332262213973186563042994240857116359379907606001950938285454250989 - 1) mod 7237005577332262213973186563042994240857116359379907606001950938285454250989 = 1.
Proof. apply (chain_one 7237005577332262213973186563042994240857116359379907606001950938285454250989 2 [(true, 0x0); (false, 0x0); (false, 0x0); (false, 0x0); (false, 0x0); (false, 0x0); (false, 0x0); (false, 0x0); (false, 0xf); (false, 0xffffffffffffffffffffffffffffffd78ffbe0a4404020b55c5ffcebe3b5668); (false, 0xcf34588528db9ed8dec1d2af2996f8650666c7487dd77bcb4528c04d42fd44); (false, 0x6140554ca18b3fe3b5d3febb2e81298dbc467b7c29b9ebfcbf7e38c46003440); (false, 0xc1c6f133f466eeb1f314f81cc60c1e2b6290ca0323d92100729c93172c2a54d); (false, 0xe45a020a33334b94a4ebc3c058b6d208c8a286cce9b55e4cfed7afcdfece5b0); (false, 0xf23f4cfda1e631bb282985047ff284c0b8ab7c89ef4b7f44f88e78d750a1812); (false, 0x9bcefbe524a14797f0197c9edc03693102731f2dbac3ea1e20f4e2b1aefd378); (false, 0xe071db031d03c272fef75ab2150313b6a1c53b1ab096198ebb0acef2f8a8139); (false, 0x6fe4156b62ed87627b3fce00392247bf086f6ac1bdfd7531234fc6a0f0e768a); (false, 0x5cf8098dd276e2b2f91303d32cfd89cdaea028ce77c2b3b5156210d2fdf3a64); (false, 0x7ea391ff82aabac25931fe4b769077b21d45f1569250a606ef7e4344fee9ff3); (false, 0x40b436d59da11539d52a0926282cccbacd28eb97d50f609d7f60e9a64020e); (false, 0x35978f1a7cc9c405fb69c6e58b038a233bd9121947c5d7d8047010921d9c9ba); (false, 0xb104c650d94d2ac4dacab9da662b72fa9e4bde464f1acdba2cc18aafdb81dfc); (false, 0xe104b523c1a4cb53a84f9649a0212e7c712ac6a6addd8793a03b8744454ecd1); (false, 0x860032a1416a0e60d8291cf3e5ebb6a74060b236a301535967ad3b13c2f0342); (false, 0x20fb18bf6ccacf7de4d635dec4d24a96e96bf8fd04195c24355cf14c72bb0a); (false, 0x322b6365e3470939d3499b83f725c40a4d1e58354ebac1f5e6c5677d410238f); (false, 0xb16719d105da75bf7b520bc4e429d70e9223eb9759131981b9648f3b3fb729e); (false, 0x3fe0bf5067d1d81a73be2d371b90fd511af613913ca0d74fd6b2dd88758115); (false, 0x7c19f501d9d36400207c37a0c71f27d70d6d0e20991974237b9ed9bc7b156d6); (false, 0x292352a294fad2b2396973519f0dac20b1fb112f4111cb49b772c3199285fc2); (false, 0x824f812672f3875bdb5843e75aa6f37e7ccd31e23f34e6a1e7d8e04f101e823); (false, 0x32432c86c380abc5ac53e9859c2eee9817c8daeb28234c0f1b30097573d602); (false, 0x1f37261bd9795072fad6312bde41163624af973fc05994cf00f8b82f3d1a689); (false, 0x52c4de4d828bdf181aba7c0de01ce8d769d774521256adeb084c84903963bca); (false, 0x25a3bf48fe0f0b46ac105fc17fceba097b53529858dfafa686f0bf1a872fdb0); (false, 0x70c16ae2e51c8b8df365831bb0180d987a2bfa85a4957cefb8eb74969fb3513); (false, 0xd60d489bff51f8a0077d84f2b180057aae5142b9a18f6a19d8ffd8c967bdb6); (false, 0x1b3c47656e80b252dd5fb1d1e89e26f87577f317a5aa095a0521e6132916471); (false, 0x9c4297bdde3fabba50186219c49c06399e5bb850d1b2ac2bc9199f0646c8776); (false, 0xfb9f24d4464581aa4364dbf3e1e2259f74dd08933527e165362b215f725003); (false, 0x13897fb21de4a051c18084982c39af78e82fcb93b4c56f05deef1d235c0f158); (false, 0x4bc9cff755365236ff0f7fe493762e5e684dff66d3ef46346c26332cf2da76f); (false, 0x2ce61e5085f25094dcecf3d5c06eb4b1a326a0d04b7cce4de2e90b767f754e6); (false, 0x83810d39feb8c5c12020294535393fd2e17831dd008c61534d1a696a0dfdab); (false, 0x175fd9493a85c99a5a42e4f42c344d1ab2bf302d50ac8cd0aac9f3a035fab); (false, 0x3f03ea53f83e3bc1d883e31fd0754b210a69d4f640ee8672d400ff39526b310); (false, 0x7ae04d7e0d04890bb13ebcc95c061c549ddbeb470a2857ce649b08278fab67f); (false, 0xb3bc1cdc5249e665c70d412f00b36d045e523b41a9dcf55aaeae10595c8bbd9); (false, 0x65b257a40481b9b16a317f7f5916c814ff9c54d02e15fb7e8dea68402cf237b); (false, 0x4f15ca78900271ea7ca6f94ef4bc3379122d5a716086ed20becfbc9506244fe); (false, 0xa0fa08c0db36c1d91f2eaa35d0f04cc2e94078958c35c9f9887e44f9597519c); (false, 0xc2731c7667c262c60ee3289996d69b596db2a84fc574e84eb4e01c93fae6e8); (false, 0xa259ca78f744091a57d66c235e25a40efb30178b0625bb925942d982faba718); (false, 0x15d3b97677c1dba25ef699da10278a181b30e2b3d83835e6d7a8124687d80f9); (false, 0x6a5a5245df3d53f76788162a5892a525c344d6d15bcc65d528362381bc5140d); (false, 0x1c9d9f4173e17e80e851c9d0dd12edda813fde61b2580775303876aae0a060); (false, 0x8e63a23a14d9fc5101a3971a149f4b5d6aeb3e4180a30ecc15bbee12736e4c); (false, 0x23824cc782c001374573c213fa035097c22b4bb7b368e9cb5ea26a12e8ab14d); (false, 0xa8e8ecc9e26e017bd6624ed437573d67ed5316fa093d94d6f433eb0e15fffc7); (false, 0x8c178e3c6942437d2f4226fb8eea5759a00cee858cd7d760cd0c9dab4d35717); (false, 0x239d13e1ed6cfe5e5345c08a1b285798ef6b47b69382048c30e0d0390c5500a); (false, 0x93601e90f93f4bf42243ddb167a2d2eee13250d1848c4e5aa34883594bd36e5); (false, 0x656b1fe6b181680edeebe60e5bc09139bb38b52d4df3cb90bb24a1cc2203a23); (false, 0x43843ebfb5c05bac0633a7359cae1672dc3011cdadc7e816ea722fcc5ff5ab5); (false, 0x2f5c03076e5eecec335883be91f8da07310d551d7f1ccfdd59185d6cc95f95d); (false, 0xc0b4083c89bd20523726dd50e9c55f50c1b9e2c07ddc3620eb0ebce62a68196); (false, 0x264e43b89de54b30b623f77588c17a146761b5ba3f88bbaac623f51796fee); (false, 0x8546f702f907a33206030c9776b59eec98a369c3a5264f789f44927242dfe9f); (false, 0xd3287777b142509f3f808e3164e600349fd5fdc531d48568a26c760b0af898); (false, 0x118661db15202dcff642db45234d96f65972ac974a3143fecedf6f11d336897); (false, 0x465f28b72051554b7a066161345b5a727f74875edfa23aca38c3211695ff907); (false, 0x1ae154ff705dda68dcfe7aa7d161ffb7dfe9bbc3dba7e8096ebc82ada4ae0f); (false, 0xa2efe207434d480689bca76073bb009f2ce1d969b014e7bc1ca154e743afedd); (false, 0x29dbd12552578e03bcaaa0e3343be60bebdf34c6b5be9a57af82830eb84df54); (false, 0x7e0e02e0042e26d433b0fd9793c69512feec63703b8f97f9f8f4c08ae4ca44d); (false, 0x852cd07c609215928847d327a2a873592a494a9aa39615fc5d2f4f88d839a9f); (false, 0xb4c299e3c148888ff4d83947a4ffb81ceb4a87456b6a063b53cb248c35fade); (false, 0x70bf8757bc8cea272ecd3d504518537751d2d20e64a0a88cd37de685fe26b0); (false, 0xb490085df6f939a1d37055e87c4395080476783133fd7f952d318c99423f8a1); (false, 0x4af5b291c79bc076cc534de4b54fa11e28d76f992ff70ddb443d6c7d801c759); (false, 0xd58591900e80d15be3840b25610d2a68f917488d07e288627537c78221f3b6e); (false, 0x282de91bb3eaf33baa7f727d20c370c7ac5bfa5903b9dd23060f5456b91bc0c); (false, 0x1ff87255a7f67cd814ccd1783808929b787c2df095fcee415654a229ec67412); (false, 0x47c6baaecfc27f9fb0177c41f46130beb3e90985e3acb0d73ff8b4d3c8eb6); (false, 0xf18585b6aa7964a6e4b98a9611baaad8260cfb663fc611e0c7d6762d94217f7); (false, 0xa32a0643aa3e480a48b6446e86e02d5f0781275ddf84316ca167335be881bd0); (false, 0x8858818588c18565a22bc0cedf7217b24038e3989dbf499c0128218f6063047); (false, 0x41afdb7b53250355c2e943eb217e1dac0df8a9b255f29e73f3b6b5861efe3); (false, 0x38834a88f6501120215996214f9c75f3c1e9bd40c22b440600880ca71ea25b0); (false, 0x350f00f740e7364ec2fad6e3aed3e83ba2d729aaa53c59ebf39ba8c89ed2c0d); (false, 0xd9cb2fecc84ba1ffc4b43fcba5dee4e050e81bd2d01f4ad6cb93e679b8b7e57); (false, 0xbb93d24f33bf1b7d2ad64fed672dd6e7766b87a9d5ae4c82839d4e19c252d69); (false, 0x25c33810b0249dc37e06ade68a100fee193e5342e53766d575872c37e830bf6); (false, 0x7571a790b0bd4fdec4bd91f1465e9cf01dd4831ed2a176745cc318ff26d7eff); (false, 0x58c9341922b5132d86bc72cf92ba2c18d7dab1caf45e696c6e4b22ff836d47); (false, 0x883f6c421080c92a60c8c37f682573a0be209e15939e41c2c87a6d1d95cd734); (false, 0x4f3fea776d2e3bca6282fc6e2a602096ad43e13b2c6f8b25bd66b9f77e18e7); (false, 0x63f2119c7836dc603ff3c06edda648d4d5ef042c3145a8a85a0e4555355c646); (false, 0x262b2acd0aa68a01cc734e6c912d2400d4749358def9ba6ad8c27e1b84610bf); (false, 0x4ab7ba808d26686ccbded30a1c5b64a213453b7bd7dc2638225cbbcb90feadc); (false, 0x123b0175217363ba8c63a3a33b5d3c0ee9a34561f6d6d79f992b73f391837ac); (false, 0x614eb35c1a1f4898386eabcb7178115a4841c56363437761fcbb99706048658); (false, 0x1d9798bbf0ac16509b0c9fbd945e20dd9ab1ab13efcf76d8dbb09b2aa8838d1); (false, 0xc70863a0c77f6b6f1cbe2562c705b416fc091cc5a8cc512a9e750bf71d21ee6); (false, 0x3fbbaae9a6bf8e1ab0fd1af6eb63f11ba71fe83e18b964145bc6b2eee60be8a); (false, 0x53d469264fbf80334b059b72034452b6939c609a434c854d014e576cd32957b); (false, 0x33b2c21d7bee47ccba0dcac9a7b24dd00d69e0badae2bd366774f0ede012483); (false, 0x879cc251f0ef7fafba7105fc8cad605ebc80044a41722dcab7cd0bd30d6d64); (false, 0x7436a133acca2bc05f0b616e5b507d316090cd5fe6a2f98dd88ec6141fd4b); (false, 0x9958e607d0884deda4fafbaf3fd4dadb9d2560450c9b6baca3ad914b5f1169e); (false, 0x21b563046a3829e8ed55bc93dc50e739c9b4b447d855c2771a7c5ea77e73dc4); (false, 0x25a4057995de3015c13bd20a89928add8d1ecd7fb935cdc2ded668ab43080e2); (false, 0x7f25a5459c354ecee073cbf955d4eea6d1528118d3e21151641f0ef35d6ed2e); (false, 0xce50a11673b4a6158ad37f78bf4d6db6a025d1f2d5235e39caa59c436907b29); (false, 0x9220f6fe10597318fa21020e294c334fe22af21ce42c6b3fc1c254b41d5951e); (false, 0x19c2ab48356d006c735a5e143fa0cf7bb2479fdb51312e5bdc8b372adf21192); (false, 0x138da80185c0fc85f8c29fade57d1303f18659f2989c933816c94c010602ac8); (false, 0x8b69fe8636e62d86b1072a3a06f30240b5c1d238a2a15bc1473ca61b0892ca8); (false, 0x652988cd34e08a3c947bcda28c5c626f9b424afcd204f86e96d5316b2c34d); (false, 0xad6695a53127971f7505a3d20802c6c69cf4c7dc87aa67e4dd8d4f06bfdaf51); (false, 0x4824e157702a7d1333a699ea89289e26565cec012c918d670b8cdf20fc7a35a); (false, 0x83ccb398a959c84d438f2cceb98caee188bfee63ecf56e76c576db24af31b3f); (false, 0x2991fda26eee237ebbf1f9bc490dece9fab8dcf873094517ee03f65c7554b); (false, 0xa934cfb4f7cf750a6131ee59ea6e56939357040b242c6646278ff24cf30a76f); (false, 0xf36b27e01bc59544d2111cfb7162dc9e2f2225effee5f577dccf8e4d4d6286f); (false, 0x4a10c70dfcd08cade32beaf21a5dd1860b54505d5c3871cfa89aaa3d79dd4a8); (false, 0x6f2d2dd409419fb5b1e64098dd7c05c1cb51eb6922014649e94ca73e96d5c98); (true, 0xfc14fa6cef913936bfb7159971f1aac0db45115a4d21f979be92e9cf04d8cdd); (false, 0xc34e8b28dcb8bacd659cbe046d9dc011719b9ea1f902bd80ebf10a659d9b87); (true, 0x8eb6bc20f9f4ac2e8ec232544c0e56e97a70eedf5cade53b253f326436e7c3); (false, 0x848b3ac6bf77fc6f53ed8f7110d4619ea8f75ef3ec57988afa543b3b7906d4f); (false, 0x1184a1e4129728b658ad3f7a2ddc2a3c92447febc9e0f8f0cb0d2da76eed540); (true, 0x4906f4d5d7bd59730a0c721c693ccc4691f2a5001ee225f107fc82b1f0f7c1e); (true, 0x11f84254af54a42f957f86a8bbed3035b1e57b3f5eefa8e4985a5eab8215f65e); (false, 0x93ebaf81bbe71c95933cd31179af9fbe8863030c6d6573b58b47f03185baed1); (true, 0x2ff39e21732688aa0f360c7bf36179f406acdb5d26fa182b485997ffdcaf3e); (true, 0x985c6007d2f540abc85d0fec7c536fc9a8651ebb6e996239c80cc887cdb5709); (true, 0x14e198423fe4db3ea12dedc42d8dfa2420dcc48e4419b10322b02928997b56ac); (true, 0x17b83be16efc45db00b4be07d18e2b99846d6b3ce8fc8d9c815ee1013549bf74); (false, 0xccc122609d6eb747bb02966f6b8aca5faf3ed907c7e44c1176182fd688bedbc); (true, 0xf1bb91366d80b27b35e06b83be4825181a66a4ce17bbe80a097460a7f3d350a); (true, 0x28c0bb8ecede5c9b69a4cb8d2d78d08ff4932647f5807c84531d0c33484ca5a); (true, 0x1beaeb8872b2669fb8689b31e1ea590c275553acbcad492eb144ca614f3a6502); (true, 0x7a6189dfbc7b79854357dce07419b601471f213584ae2be0eb30c48a321914); (true, 0x6009e71263b13b524052ab9647d0e0120bda4ddb6773d46fe93290ccaccb5e5); (false, 0x4876b2be6714c66ec246dfbd7f00fa333e1187cdc96bab2e9630b868e4c85ef); (false, 0x30babb5414ceae429ff18d42fea6f3147772336d3400d3ac09677b21bdceff4); (true, 0x46a09bf1068362dd4c4e73eb1ae9af3d11ad9a60ce85012ece14cb1b3d1a61b); (true, 0x1ea6952f9ee15b3cba3ca35625dbd56d9d7263da0a2ffb8fda732eed308829e4); (true, 0x63b0f00e67767e90cae141dffc3615f1a1a7cf29df3412ee348878a365c0fe3); (false, 0x16002ed57dfee752cebe3f6dcd2287ed6d6999368cf8edc3441dacac86ad29); (true, 0x12fc958281eb62f49accaedee9c3b04ac4bf31a3f5b98fd27d7ba0fa56184068); (true, 0x15ded385ac100d2e915cb2ccdf35287c2bbac659d258b8bb83e8e577c9cb51b); (true, 0x177706a33caac5671ae9b406cb159dba55657213881cb5743a60c7dce316f638); (true, 0xdf1f135a88d1a52cd1cd80cadb5c29f8a3fb8673fc0d5819550cd9c69dcbd3a); (false, 0x21bfb6d87ec2cd55ddfb77da20253098b7764247da20a422332f03f2ec87013); (true, 0x4cbb64091bc242d063dffb8abb6fe76647a3120ca68ad8c81a6372749a13f05); (false, 0x17cea2f57deb44799e1eb6b330a56b6ea168cde65c80e4e91096c7a08f4e170); (true, 0x12856ef4d1e116cf05ae094464fa0469360694a7f377db13e5066b5e195e550); (false, 0x13321ba994f53efc29a3c536d7480e70e326a1a7ebe1546d102c32deab7a805); (false, 0x7156466865e455f32b79071307c01b7158db8a4b92dca061b6888eaac88ce2); (false, 0x77e75dcbad4d9baf9b3c1559c5626450674c966b8bd1fe2516320de882c12a); (true, 0x14b67755dc05c3f0dd0782c6795a8102a9309800c48ff85953b00dab445cca65); (false, 0xfc94fcf7b28c0477b8a13f3c1252d6eb51f2d071b3273dc228d6383dc6c40a); (true, 0x236640b53c5a9155fd3eec85f9c607f6a8c4a5c86b2ba43a86b06117022c7c4); (true, 0xca900c052fb3f3f3e53b3ada92495423972e634ba40fdec8e4a9c159cf11c10); (true, 0x1d64dfab15dd8885a3d17201740c9642b6e759371a103aa89646950893b36426); (true, 0xb46fd66252b35701c3dd979f0788c977254232f7b3b8f526535f32f21ee9bf8); (false, 0x6e4284ac6e9b50335457cc5a167990b18691c14925711a56f5c4de5985bf5a7); (true, 0x707ad2496942d6d72f0dfd11bf2ed400ec8f75d349c5ef3e223ef8419027aab); (true, 0x26c363c3727a860f14c7a29dfc0f127aff0fedc7801839ec7250c61e2518340); (true, 0x52ac0ded2fcc8ed055235c0134fc0e60dbd282e9e23af7d7a0e769801cc1ba1); (true, 0x1962a03137636272ebb5c06cd3f34f0b3e371ac5e798d76a1f78425a4872339); (false, 0x18ae9fdbbea00635a69f3096d0d53ce0d6d4c30525fddead9d89e4d5d2298c); (false, 0x146920b074010421feb4cba0258f924056892dd4fe1e119253c3cbdb47b4fa); (true, 0x6bb5d487c4493add2e5b1547e457e931563a107c111660da152d375835028a0); (true, 0x39eb77e1005e1e0b92a000324b87fd2e904d31828f470675f1e7533bb46c384); (true, 0x9a1b26710c81187fa885527e5ee09cd58b48e981c9537a8b80cf98ed7eaf4a); (false, 0x47b3df27a00bf827093c0044dc37b896e683c48f06cda544df489d14b6dbc69); (false, 0xb4c8399eedec1a0266380d0831687ac44d8c4347c208f905e807580229d2ac5); (true, 0x5d13547a0f47248eaaec38bd23e472f22b6bad3e124ee051fa13bf515af6b88); (true, 0x1fbe04594406d0efd002893b06ecc91749f789752eddc6a433e56657226a3d7); (false, 0x5c5a208b9c83e12bb373d892eab28395a96b6f2e3a99f3aa2828edc86ee00db); (true, 0x1f67440930446c0cb11bfc2a56030996fe2d767f15f2a37d63f96f39c0f5013b); (false, 0x410cd7bae3927f1f67fe0e29218e5e4a6d9fa9bc02e8480680a0fed3b79669); (true, 0x507d24fb1e8c0f92ef2d900f62c09409d9ee28220777585a7595ca2be81e09); (true, 0x15c399f113532dceb0cd8d86ddc961f4e21f79241b555ad26b837cc4e64fb835); (false, 0xa4318d75e20e627d3632bf9cf310355ea4a51496e84e6fd5d8cbfd380baaf7f); (false, 0x49bdcfc946a667e9aff3da363edf604d53f17eb015969d2692dc495409ca083); (true, 0x16b73b604a95f647a063b8fd70a88ff54bd2017368ea16c1e9f336ac2f31c8a3); (false, 0x94222ef4972af453b02361d610aef2e445cb2587ff24222f1104b664066f31); (true, 0x1d12dda350fffcfd27f361084797b5ed5377b1bf478f182755ac9d0ea9167be4); (true, 0x1c40121367d0726c76c7a2045530d15a1f5db38ab132831643514a6dd2f9282a); (false, 0x757b4f6a3023add69bdb0dc91739e93a8d42d7b5e3af8ea337a1549634d0ae2); (false, 0x133a5a33f9b6ddf2a9a65b15eeedfca5bed739a7b5354fddc961d59487b84); (false, 0x5050cb98a3e6dd4ee1c85319e9ac2250c1ecef5e5f71b8a5d54faeb2c06d1de); (false, 0x1219d174d7e40ab46c5b0f661d70f82bdfbc58b22acca13c28cbec01b88f5f1); (false, 0x2e202a488194c9b33accbdedf274fa089aec88f54c2eb150c6ddc01414993ee); (false, 0xb53d0c65be3189380986dacafa506b66128f47f02be70d4154c291247c07a71); (true, 0x1b05d046060a70957ddc2a2c7a88675720459a81ef32dc7bae97472b53a5188); (false, 0x25bdec151ece9580d10e1176a194ebbbdfbd1f67600b66f9d99cc19f7d630e); (false, 0x265b98271f0d742152dd0ee849349ce4291ab7f31e5937bf684d56917c51); (true, 0x1be4da7fb3dc559df64bbfb9264e3e2e4753bbdbfe39be3dc73aeeea03b3561b); (false, 0x3db9b6b8db85a90803021727e684bf8a16c36846160839b21600463c68e5359); (false, 0x24dd04b3af130b3e440df58d3144c05cef6436acb7c395c7441ae3438b056ac); (true, 0x76cf870d3751f03811418c345a20ee4f35afe2468c6735d27958af58b2b6a1f); (true, 0xefab8dc52681f29bfcf0b279f59ccf0e9020e2cbd8295aca4861837d9b41cfb); (false, 0xa4cdd0fc22145516cd3760097581d0ae6333c724fc3b3e7fce388e3e31abcb2); (false, 0x12aee2544947b6b1c417aafc8e643325c39438495207e1d7f722ea15fbd3029); (false, 0xcc2d9eeeb9dc128e7a679ee6d85a2fa5bc06be4a42978fdb531e06d12ea58fe); (true, 0x156646ae3b23f30dad7408d9c926917f99a55026940d238ee6fccd6d13efd0d); (true, 0xf9c38f70f9c9f2be7ccd9067521715a562c800b8b95b33e1af819478c9fecb); (false, 0x1cdd7b0b4885973cacd08b123e9317577cd52cd2974e80f4f55e7385b901180); (false, 0x13223ca48810a582cf31144a8e78d8137a161ecc8d8b920f74a386883d78ad); (false, 0xb30eda3b4c11ec0d1ab998c0f52fe17b1034c81f1847afd798e66f4c83d18c7); (true, 0x456df91ebeb6f3c501d2bce21134c63356b5a909bd0cf87810864a40b4660b4); (true, 0xe3573370febe83dd5530366f3047cc5d28ad5e904178faae39d4f1abc30cbce); (false, 0x2d65479f7bc140faa609edcab3d0206a8a7479e0a43d9224b0b28cde0c5d4d9); (true, 0x1621bf551cabd9b43e3bd0f98d91af914c9ef50baff82b9a38f98c5a38bb1cb3); (false, 0x852dc685228a368886ea99b1e83e8b3ec75db0c4d2448501a43ff428c25c453); (false, 0x3a0fc7dcdd7274135690bdeb2816f3ad99b51f5e1919264a91c8f9589d40650); (true, 0x1d2c6f4c956b4258d2d050fc7d0305d7261af31da2b7d1d2786fdee9504212c); (false, 0x45854b87f2ba8dc27b4b055137eb9db7d4601ad9f7094fbf51a41af464daa2); (true, 0x129bf0505d9979703f9df89369817744633cd3368ad7c4540d8b205eb78e93e); (true, 0x689ec2e2ccce9c66cf5d331042f3b421d9ddb8b83bb393e7a8bbb482400); (true, 0xc13fb1661d1455ef02f1af3ac0b258798343b29f34656c249045d3cb814853); (false, 0xbd88594d6012374cdbeaee3784f07bd4063b146b772b9fc856f40aa5f87666b); (false, 0xe05716a9813188662c4775424f35955a806ffc3dd4fe67d46ea66f2e668ba); (true, 0x321c415b3891a8761cd9519d97749605c0e5b321e14d5b133b5bfb0195a1748); (true, 0xa367d68c52b169c8874d4a6d76032b614f2db66772778abc9d695b1058cfe89); (true, 0x7b15f37f58d046343c3ebdd48fd73de5101f37e8992edba8de9af69b795f872); (true, 0x1db669b64db57241f52c834e9080000e23a2026926b81290041e3c5a0c6bf794); (false, 0xee43ae5c3403c70fb1673725335e0b5ef415747988ec50b9d7de2d322814e31); (true, 0x162c3c11104fe6879d7fdf1817fc660274f73d0fb42b439f79cbb67b571e2d45); (false, 0x15ef886692e01d45c2ec36bf64535826eecbbc66367db38df5801d92da19de); (true, 0x2963e5e644fb2928eba02802c16fed1d81b7ea0306e5f666104520f8ca9146b); (true, 0x2ae89bd242138ca430a5539e3ba97b27f50952f70f90ef836617ec627193fa); (true, 0x60e7ce7ac5bf86ea8ea0ddfb5d3ca08b72cdcf70326937ca3b3578ddf0f6b27); (false, 0xbddfaebaa881c77e0eaeb61abbac9da729a80c3af2bf67fa3fa4e56014d8450); (true, 0x720ad7c9b727393a3098967fe758477d4a050fa829efaa18fa5306547213acf); (false, 0x20dca579a0161497c3e434a2d819c9816c82722847bce65538e6ecb01b7971); (false, 0x125175eb9f989786c800d209fc25126addbddd9d47cca17c46283c423f14d73); (true, 0x92a367c83e9e2bc5a0408bec5225fd8ba1ca6c9a050e1d1156e55e8d5ca140b); (true, 0xd27e8f10ceb9e1e158a136f9d9132b519a99fc2f4199e4147594c05d65d33d7); (true, 0x28d021edadb524ca39de739e1f1011b84bf888c5ecf15b3a72f71913cf664d7); (true, 0x83b47da1487612d171ae980011a3183901f0fddf7e30733a51c83b78070569); (true, 0x166c60cf4f19d7a1d6dfb46e753652fac6b429c2c13b6d18ea37fcd8c559eed8); (false, 0x9e8b01aa778a551bd222b05054aabc1343956c27116be002bc3ec461bb7f16e); (true, 0xaa683997b0a263dd0811f611a469eacb51818f6bb7d39ac79e16b0c66afe3ec); (true, 0x1681ade699a5f737db0ffefa2e1d6685f00e00ef17975b9aa68a9b131d2ecfc); (false, 0x5651bde9427c2b5f5dcdaa09d4731c4c70372e5c598569a79cddc07de2c15b4); (false, 0x1000000000000000000000000000000014def9dea2f79cd65812631a5cf5d3eb)]); vm_compute; reflexivity. Qed.
Lemma bezout_order_0 : exists u v, u * (2 ^ 26163907866482859529727157400808004 - 1) + v * 7237005577332262213973186563042994240857116359379907606001950938285454250989 = 1.
Proof. apply (chain_bezout 7237005577332262213973186563042994240857116359379907606001950938285454250989 2 26163907866482859529727157400808004 [(true, 0x0); (false, 0x0); (true, 0x0); (false, 0x0); (false, 0x0); (false, 0x0); (false, 0x0); (true, 0x0); (false, 0x3fffffffffffffffff); (false, 0xffffffffffffff5908310ae84319687a4ee882c58a7e4254486353252b439b8); (true, 0x42af92d4c08362210062fb00c6d4fa8001a8ba6e859499a336b7f96123d9260); (true, 0x9dc87fe171ffce772f62f5764d0eaa75a6a7caecb80c3daaeadbb8618d1ce4d); (true, 0x15a9803aa0d6d6c54be76ff0c0858cfd41f7ed53b0971334cc668f5d61dfc019); (true, 0x1be2910204742639347c2d99a4b45933dc80d96241d55cf6e15fea253214c); (true, 0xe3d4e68bcbf95b8509f4e8c6c67cd6c762a1eb62f555655bf34fab167521110); (true, 0x8e0de0a1b6e682cab3acb46cdd406c2fa187d7c230f2c8b69472b2aaff45c64); (false, 0x44c7038d653a3ba2feba311690e3e617efdaa35c8f98095f21962488bb631f); (true, 0xc0be1c8b321fced7650fda0f0d9e625bca02b012287597b961eee1c925be34); (false, 0x3f6ef8d068a20617284c69738cdce6a39e6b6da545214ce9fedac5c7ccd9c3c); (true, 0x1f061e1e651426a7ec1434a854aae067fe791738667eaf43713911d15dd41645); (true, 0xaa9d4464e7bae26749ad8fc0c94117a16e105b162f9b85da8efe8cf00109d13); (true, 0xe2e3bbb020775cad6431b0370fae8d850049672a2d37efa14e8055b66cedaaf); (true, 0x41920aad102d74081c08504cb60c15768748b1e3f21b354a3cc9b120912f025); (false, 0xae3c15ebb1fea704b95f1e396ca77a687ccecb47ead0ad20b56b093cc3ad5b3); (false, 0x6c23ce7654e0290ca92925e186aafbeb2dbbb02fd94ab82c59093fa31c69c9); (false, 0x43dd519e58913d497d9e4d67e0bd269286c59217103f317db910878ccf1a025); (true, 0x6650888661fba60ae1a413ad4ff34c6c4f1941d2c6c4debe7a388f109846514); (true, 0x151cc923cf6b678354d44bda1ac7ba190100ea1259a1318504a1cfbe14cd6afe); (true, 0x13dce289a5cc774b5d938af2d83a5959e0e305680a5ec569d15d3bddc74f5d5); (false, 0x15fade8c03db30e8a6d72e505252d182c4df9f3ef51dbe30dc05560ac1dc6e7); (true, 0x27073a6498ade16b2840d45fd0fd038b9a813d06711e5d35a7454f80954ed4); (false, 0x658648e6752bc61a9e08ccdd75d725effab188fcacc52a2a17781e5bfabcc2); (true, 0x1436d5014fe6349a15b0682872af4dd89f12de79777350dd96f1d988c7936d3); (true, 0x1a4e78164ebabda6c90c3f56802bb4e9f13964131a25ef8c64cf9f9dd87aae0c); (true, 0xc73c357d56a4dba6b75a95055d0bea12aa08efcd19dc4c111aaf8049d3db270); (true, 0x160232dd98ce72230fa12da41db007812b21abd5812a107b1bcd7fe97a91829); (true, 0x82bd50b318c4d7ff5ae23f8fd87dc53d9cedbcf6306fd302e2a00777c5f1e6c); (false, 0x72fded70ba3eb5de8d1191a2368f4b6fdeb4a01343d7067e833c6b482c496fc); (false, 0xbaba5903ed78bb8bfb71b327fad8f37ca0ed761ba72c37b32f671f4bd4bf498); (false, 0x38600efd7448d4f91d72f4959cc9455cd5fb81222a642e61bc4d60c665e9685); (true, 0x91d7b1ba02c10143b09a4878e2a3e5f631bf07ac0fb56f1e7ba1d3443d5c44); (true, 0x13ca834c076b70e719223e4cf4a843b08f736539655fc55e3331551a2909c948); (true, 0xfaae132a55b5b93a39a82046d862dd20bcc2fb6c5612019eba7b59b94c43821); (false, 0x37b5ccf58a5db1269ce507ddb2d28fdf7960d2e8a87d91bff5049a2f49313fb); (false, 0xedb27439123ee5d28757323472f18a08761a7bfaa9b02eb40d5c437550fd4); (true, 0x19c82e62cf8bcead57b4a40f6c22210604bcc4a79baca747f7d53364612c29c); (true, 0x1dbe2f8d350197d271f109a76d2040a2965b2f2ce820002f3575e951a5e0d23d); (true, 0x17530a0611b093081f7fbc42ab2cee701ba4fe61df0ae4c6706a1c2e6db03d99); (true, 0x2e92bc175ce41abe14201bb3d85d77dfe42c5091e0bc25e2f4a8d851c06a170); (false, 0x28b22498e1695ebe9f4b847b9bbc69c484d486ff909f9522359b54d6102c338); (false, 0x816cd8509c6375f3b9b482f5fa4e55cd99ba6b0ce1f4a6d7505b8ed5365d468); (true, 0xdbee15c574f773fa47e3098cb548fbe8560a1418b443c18ffa7f31743227dad); (true, 0xbfde2c6c6b77ab25b6ec4aa2402f5569a2b9c72f3dd7152d7bccc26ba44689); (false, 0xae8362faff191ae0f2696c447cdde4f28d3bc21545bf89600237d04858ade14); (false, 0x97d58b83f6627be4b5eed6b3d52b5e9665b958268c7d088b856e62a36a8aabf); (false, 0x6ff64030e6a6d51af9af0c5d7a649f24dcb40655dd0d4054baba72f64dabb4); (true, 0x180e64a6000cfe666b68c38e23d3272bcf13cc65e61b4b3c8e7b83e88bc7acd2); (true, 0x840786292d8a193b3a6b03610149d7d28e2a34041cfe33850d37bef0aec0182); (true, 0xe46abf4412f91e0de30febdabd6137e5be1ecfb5e70d73ebd23998bdadb3899); (false, 0x9c56ec748848af0a92985e50e442fda754c40d1eee5c5818449646f5c76b2e3); (true, 0xb292cebfa154a425de908d1e7d1c41a2df21c5be4d13e21c7732876500c43); (true, 0x214a442a212e576744135477b078293626e42e073a66bfa6b7ba0ef6e691ad7); (true, 0x31f443eb60333b3a49974d5c2437697c6b1f7d6ee7a1a2d5f8c48f054705806); (false, 0x25dd52bf25127d4a98cc615b6fd123e0334cf71c27a8045d4f9f002d849e661); (true, 0x1ba28b6d818c9c3bf997a9c01423d2251c561509704ca24e227e1c2d193f5ddf); (true, 0xd8638af1d5b1726abf4e19b64a9730b5d0e3fcc30ade5cc979002934f9a7369); (false, 0x25556c5b0cef080185f2b228da44db3c03252f7101da049b7a6c25c0b847052); (true, 0x141e1c30e07b8fef9dc5421c99bc6cadc809bef1d7e5d2e8257d4cfd6f54f207); (false, 0x4ad6573c3e5e5109e24dea9fd72f54f341f6403b37a99de4d096a5a53d84af5); (false, 0x34158b71cb41107b9b1b09f07ad2c65a0122bbb9e6d677bbd97c4f5a9d1640d); (false, 0xd46167a740aa630f7434bf9614812f1e4cd039c8db4b568236321863b14e352); (false, 0x2b3bb00feaf76acdd94e806abc864c5fa616b801cc9eaf1913c4134d394b33); (false, 0x3bc9e0a23f2a3b1d2fc427ee1c03118cb15a54f19185b6f156b3369ecb2ac68); (true, 0x52c098c619e120d70e33a07fea3b63a702d17675f828cd7c6625c01495cc4b6); (false, 0x3e62c7d79767251b7e91bdecbabfce8180c61fb3c1905e61c5f96cde6186693); (false, 0xea85cfa265eac2eea77c783c56647555dabef5df05f33bde918619a5083fbb); (false, 0x588686458b9dc3b0dca93660d3750663c394b1ce47caea624efc7cdc0c98ad); (true, 0x1e27e5fa4c9ba31705df87ef73385e7ee4db4161c9b4d2be520fae9fc3472280); (true, 0x11c73e9e686b396e983affab7c6d2ecffc37d7d7d6d111dea6e2146773dce9a); (true, 0x5a7a64a6cf085498dffaafe3aef8656a3ab120a041410be3799a6f3abc901f4); (false, 0x8e298a8c96dda4393d83fc37d291bbb82ff82b6f2a67856bb8c01776b2262b); (true, 0x1972c50125e1ddbab0e037a4a08e7ffe06d24a6c150d04a0bc4b4dbb78631da0); (false, 0x679ebbca4ba32885fe721507bcc8ddc95e2c43a1adbc0d5ec3b03b47c0ab8f7); (false, 0x319868166d6b3f158c12d0e2b1928b96d1f94a7838dc2ea17cf588b8d40483); (false, 0xbb9091ffb50e915022aff089bb2652d615b5db942d4316cc2b258d85775e27d); (true, 0x25828d7b815d302f0ce1c8a091baebae6ef48bcb83c47f14b77aa9edc30a995); (true, 0x984102bb62b69c5f2da85f277806b2a597d715c4452ae0f81e9c066fc4a7ba9); (false, 0xd0906ea81515e2ff3b23624a7a98a5a8349bbc0533f0f8f4e63d1605c450f51); (true, 0x1cd48d7a744dfd7c762e3064fa8ea412395b71b451d98d2454811170569e0ceb); (false, 0x429f22572424b3bba06746c718e7f1a3f39b117282e3faca131d401ef903152); (false, 0x2ac6fc54b940d9e21ca1a766983a1bd3c3d8ed1b397c76d9b55aa2013998e6a); (true, 0x904fa9f1b6214ea9f35e56536331c2ddd2593fc46d477d044b5d55afd06f38b); (false, 0xf0da40e060b9d43fb6406c8a84234cdc028af7ef0f183c058646f641f82113b); (false, 0x8af2778b92fb3578d9d2711603085c7509d9fd7efd8e5c92ab4652104b905c); (false, 0xc698bed83f8c3ba99532ba2061f4e049280c6b07412372f57325e3c74c0d092); (true, 0x4fbd301600c46f078d0d0d1242bf5af2ebb82a33bc7362a3c39bf779c285dd8); (true, 0x65bde4b62192da033b5e8541ebece4a86d8f4f66a8a1e54e9577ef27b9e8044); (false, 0x257797236adc0cc193c28d53df42728d1623a9a8dbcf01e8ad274dbc991e08b); (false, 0xa87955e05f8ca182ab055a6351698fe1fbafcdbd24bb9bf2058dd9f88867bb1); (true, 0x4b370f51ae99328ec88b37ff6a7d9f71168e53d76eae66949decf70df21f); (false, 0x7401c3eb3c6ae17c1af73266ad4365f5f87aa44a0cd71ac1bb9ea75158f95e); (true, 0xbf53e05e347093ac5a1509ca5538d0144ec3cce2d1d309845e4ef9777e3c); (false, 0x3b89274c06718f1ae87c118549b31dae24fb4281101fab9c68a29e6fea22273); (true, 0x5de67688d41b89681ec30f85aa4cbecd662398467fbface351deb035313dc73); (false, 0x405ce378c33bf8f8af196cc522f0206c3194895be1b0924d865291d7b9b); (true, 0x2bf311227b4fb241c05cea0480f012ae18229054f5d8b271c985ae4c6477a); (false, 0xcc952d5031b4a1b3fb7f743cebec1a6c49be2ad6772b8689410397425bb7b06); (false, 0x809b5a167b2b83da917758e80d9df266d864f86af5e8951c41909e336e196c2); (true, 0x12322d822ba77e47752c194f1ef75a58521a844fd638e62fa9a62cbcaaa8757e); (false, 0x57c3a9ea962bfc8b792495d8d24210105b45d29aa5883fe526c9cd7491274bb); (false, 0x2c35bb9fb0d22278b828504d50436322b0531a6a0741278a2c428dba1da93ce); (false, 0x3e0f9353fc3c9bb5cae7183849e7eb74fbf7df713f6485563d9f16844f1cd92); (true, 0x6630d0c320329c4e5a0f581bcb7e64f855d441df7ce492bc957285dcd76952c); (false, 0xa799dd034f77ee983fbcd43c06107bb7d9d503fb5c50e11bfe685f2e92b79); (false, 0x447d63db5cadc3422daf3b674e9eaccc9ddae2a0bddf9b8c46709293d644b00)] 2975531125133123119648879457563281269120703404158613135195788908093573672641 2233364593245673852815932892735013076939656528578070433728021143254617821614 (-918259049265850385831298250211759012539362291049224222049079815310237912731)); vm_compute; reflexivity. Qed.
Lemma prime_order : prime 7237005577332262213973186563042994240857116359379907606001950938285454250989.
Proof. apply (pocklington 7237005577332262213973186563042994240857116359379907606001950938285454250989 276602624281642239937218680557139826668747 26163907866482859529727157400808004 2); [reflexivity | exact prime_p138_23 | reflexivity | split; [discriminate | reflexivity] | exact fermat_order | exact bezout_order_0]. Qed.
