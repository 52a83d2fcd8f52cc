(** Multiples of the base point of P-256 for the samples of C158-C159, as trails like that of P256OrderFacts.v: the
    public key of RFC 6979, A.2.5, the point of the nonce of its signature of "sample", and the point of the nonce of a
    sample token.  Generated. *)
From Verif Require Import Prelude P256OrderFacts.
Local Open Scope Z_scope.

Definition key_0 : list trail_step :=
[ Twice 0xa249bcb3191802d3cb56fc75a8731f848e7b2caf080f3477a4e4d904a671af9d (-0x211d1d206a8228ca3f068bcb77b6c66e965b291a72799fab76713dc1b6ea6cd9) 0x66e168103bdfa57cdd53063189a61e37915827bb44d670bd3c287263db86185b (-0xb51838d2fa990fc8a24a572b59edda8bd8fcf1612aa22bdac765f9f95e4f3a0) 0x7cf27b188d034f7e8a52380304b51ac3c08969e277f21b35a60b48fc47669978 0x7775510db8ed040293d9ac69f7430dbba7dade63ce982299e04b79d227873d1
; Twice 0xc2489a9eef61dfa06d3741ff3b405300988bd0db42a937859069b9cefb576e35 (-0xab9e4db4a865c5d9faa5ffc347a001265457740d67c4105697320488b09397cd) 0x93721ef0cd0cb79b4714ba2c81dc32cce646a0350aa32bf6c06d0cf8f458a449 (-0x4cf01d696fc77cd660b950563834767fc99586c7873df1c1e82cf2a1c41e1447) 0xe2534a3532d08fbba02dde659ee62bd0031fe2db785596ef509302446b030852 0xe0f1575a4c633cc719dfee5fda862d764efc96c3f30ee0055c42c23f184ed8c6
; Less 0xc43b59aa5e07eece8d1178caa23df1d4a345f07fec8a4edd40df51f680a162b2 0x5b652c8adf483b2360eca8c7fcb8c62f2aa5e3d100613354e8a7173cf83bb603 0x966aef0fea5653263841c722629ba96305790db4693adf7db719871ec0930490 0x64d227e694e4e5016647f2282e64eaea8e27ac3c13e89e249fd056d96b2c890c 0x5ecbe4d1a6330a44c8f7ef951d4bf165e6c6b721efada985fb41661bc6e7fd6c 0x8734640c4998ff7e374b06ce1a64a2ecd82ab036384fb83d9a79b127a27d5032
; Twice 0xcffdb37b9cade05fdb719f4ad73b00878ccbbf536584dc9d3ea8a8ba9b0101fa 0x726399a3f23fd10ae6853c461d25a509fc4615517d9d58f497b21ba5a78eeb05 0xa8fc43aed0873d01c0a4800e6fb6c90e38c9bdd55b65ea5e1f2a3f7309faa45d (-0x420ecdfec3e99cab3c7931cea6ad7fc5bafacc584f1bec77f7745f1d94b52f5a) 0xb01a172a76a4602c92d3242cb897dde3024c740debb215b4c6b0aae93c2291a9 0xe85c10743237dad56fec0e2dfba703791c00f7701c7e16bdfd7c48538fc77fe2
; Twice 0xab40f035841123b3c17483cd304400824d7bb41358162d7ebd135cc10cca8974 (-0x348ac7784834a2e303c152ec0339547c8eff275f406c100b2d04617821052420) 0x728fd160ed2522748f1334895abad8bbafa0054f6b93fa07d657ddb8e98caa86 0x2820b70d38cddb3f21535615bf710810514d877896ac16fbabbb76803157a8f1 0x741dd5bda817d95e4626537320e5d55179983028b2f82c99d500c5ee8624e3c4 0x770b46a9c385fdc567383554887b1548eeb912c35ba5ca71995ff22cd4481d3
; Twice 0x1f6df16d7d668c1461a62603a25c5ecf812d0db7b105567aab06f20166315ff2 (-0x9c2d77d695e2ef6779374d1e8e57abd1080931b7146cffc64d6de8e2a75682bf) 0x3dbcfb00326c3df52cb4ff65f5ec2732ff89f147743f90e06f85f7be1daeb8f (-0xcaa52e85c930fe57d3f1056dbfc3fe09aaf62f0ba7c977131a231f70daac13a) 0xdb474918ec62ad7eb652b8b0af585aba9b2f394723ab103776e27d7d8c2aa4cb 0x85811d39bb743f28439794607b06d52b8a249c47830a37d221db656c94a7ab55
; More 0xc95e96ff2f498b5e550696d78cd45235c6d8819569ee99cc7be1a41508948616 0x583eb8269ad57b42bbdc1e7d64e448a08cbd9967c6cda24a558d3e7b23532ad2 0x9e65ac10931decb5dc1552391131d13847b3ce796abe9d476508c4e0a7193404 0x7e8ad89b168253fd72337e0e1ca202486573d1eb82a736e963cd9c7516bfeca1 0x3a67e2554b0c0bb685f4f52d8c07fa8441652fc5b76f1b2484a4dc45f200d687 0x27d0f1872f1fcf4326daf267163afb0d8c188af735a7618aa9ed16b302f79324
; Twice 0xb4000aca7f93134d40aba3522871b6448a205481a8f7d0c737ad34fa2fe2a296 0x100420ddce57fb2e9e444b4d81fc53fd0818afd9600484d5e5087619fb67f360 0x7e900f2d426b547677fc63920868404f2eaa4e20b4531dae857293dfa58658cc (-0x5a003204d7095c8783ec9b19d3c6eeb20ffd60ba1187afe440a7b16370db77ea) 0xba6821cba9bab3ba57a98127482a5de00c108a6ac3241ebb508c58a24d9edba2 0x8841c5de60c4af3b87375ec78cbd21e7e70a85292d77eb4f8f218b036784e120
; Twice 0x7580362744c9283aef2bcd53e1fbbe80352aeee569fc4926e460c3dc12e43a85 (-0x11a1dd81eb04627640596e5f67861de1f96d6d1b738c4baab297ddc9961e0b3b7) 0x35ee71b64d87b0af15e50ebfa4b4b9013bece113db6ffad92830b4605dec4f9b 0x3408c0dec13ddefbf4c5ca7f01f5a08811e9d0254b47e1b752910374efe148ba 0x490a19531f168d5c3a5ae6100839bb2d1d920d78e6aeac3f7da81966c0f72170 0xbbcd2f21db581bd5150313a57cfa2d9debe20d9f460117b588fcf9b0f4377794
; More 0x9a728564047c4401dfa0caa0ede89a3cb505ee56afa0f367bac7844f8b92243a (-0x148b7cead550d63c0b021454d78894d90f064732b49b33db743a1f71a493ffc5) 0x5d2dfbb7c5288ff2da86657ef5f5c01e52dda1fc2cc43a7829252b2abadfba91 (-0x514a138898e784d9e15c83c39579c6b6741ad64d6151c6d9d283f1bee533fb2e) 0xcfc746589e4a140785b3bf94c7269ad1b17ad259fbe717c276ae0b0e749833af 0x9ee25d020b5be979be4f9367e271322ce8a1006aef0e41f611e7bb1930978ef8
; Twice 0x77df087e51842e30eae52e258670e1b7be4be325eb257b3ac2f05008dbda0812 (-0x165205145c6717e214d0e4af3490ee6e7c77ae09885b07bd593e6f36815e20600) 0x38211c35744426dbcab2c723cab4717016180f9d596a538e4037fa243a155234 0x5f27915d1f1c7674f2d42724c17349474a758c965dd1d55d00c63e8af70c845b 0x4905e75173ba660cb54fa02c6f8cecb5f5f13eb7c354ef27c1668a7dbce0c1a 0x7363d88cfba339ffc79c9753dbe94d40f8a5658959d57023530dfc1901ca65dd
; Twice 0xca7a149ec4e9a6e9dbe25617ce15cd5eb63d01c0b12f63647ccb20c7cdb7a046 0xb64922662674d3e41e1780c7241dc7e40a5dd17cdc2c8c512f8dd5665545630d 0xa024e2c2d7e27e1a87998ecd73b0d7ca9e60b373ea77e57cf72c8e5bec50b2a3 (-0x8aec692769aae4843d56041ea5dc5928bb00c6173548067ae0554d360fbd9149) 0xb435f197289e0d4de4179d782451edd70a15d12ae58956235ee00446d9202d93 0xf2110937b9ef38dc6642fa24a1ac39b948811a0668ac15ace2bccb51829841c4
; Twice 0x2de3bb618be3a5db6b50d26358325e9043ab43b22d94318d62b9d4c5dd46a991 (-0x125cb0b7f51c4e12660f0f629c1290427a8f14b90516c2475cda0d4236de840d0) 0x839da762b8da0074d71c07866cf7b59e7c029a90f897ac55f5d6e3378eb2df2 0x1db8b4f3ba7cc2c4738fbe1a67379aa196a9c7a4d988d0f01c013347c2157006 0xe67f20163bae018989f4950eb3268481a32accdcf1b5398100b9b154c4796ed 0x311710e34f43e59999942df99ab9cf087e9a1c0695637d7ccc8c960681021848
; Less 0x45427670efcc1b9f858de046afd56f2f4b03c8d352b805fc59a00975d3a56b05 (-0x19137795e122bffa38ccf42e512493a209e72c91d54b32c8687f8b6e2d7c1876) 0x12bce51a3d08e01f43394c1650e8585b03f3a3566f60bc9ab5c7b08af7f5340c (-0x15bbb2a622e447253a9651f30de3734830bd3aee3ddda103d7a60fcd7a02219b) 0x5ebcb192ae36e5f2180017d2b5d4664c2c949a6f622e2b85b70f220f324408a2 0x1660792685b329ec7c2dfb5336b5f5c409db9ac0a7fb55bfad31a2038adde694
; Twice 0x3346f252f260c10800b5dc4679d232fae9dc0c0623a4c604b5034ae1f906fa7b (-0x60368112e84b4f2045c949de3859107a64416b9ac587afa60fe7966bf3750eaf) 0xa45583681955f285062bc271bbd85e6cd78b512ea3eb35f610d273762198970 0x2fd1a61bdbef524857761c47efcce217f2231dce492fe9a7eefeb7a3336250 0x5dcdf56724006324ef11389f11de5afecaf9c22baa7f93f77922dec2f669ef45 0x4b8be1844866d88554987730f4035d4a056b8795ccad3f37e216db4ce4127d6b
; Twice 0xc13d99f5b4ce4af7503b3ebbed31f88b7b572795441957535c7e8f4aec13d1f9 0xaef67918965a7eff99b86e53feb1cdcc7e124e0a7575964669216f6841109a2 0x91ddf0f7c82cc641ff4e410c5f84eb7647221aa9b3fb88b1ec59d1a2eace45fc (-0x592df251fcf0bf305f91db3a1295f1f4217c17bb3eddae254ec6e77dac5d4711) 0xd3f2757ee5e32268153e7dd893110b7987984a356ed332521cee32bced28eba3 0x5295aca33ac4ec2ef6005638908751a81e6b6788cfddb2fcd357a6a320ca0616
; Less 0x7081d74479318298f8706942acc32d60bcadcbe98e8cd44326a94b9a5a2dc914 0x2e14d5e584c4dfe554ccff7b9991b24e0a361dae5fc37dc1afae1e00c3c1ee07 0x3171de36c3836a43cea8730a2010ed0dc43ca37521471af1beb02ee2f39a8d40 0x46f44040298f751ce8e04f18f16f0080a02e167b55e18ed864e78eaf19aed0d0 0x327f56b00de8148c213c3b7073a436a24fd5649a664d8b838c34a0828cd14897 0x65fe97fe37c82f0aec804460433ff4fbcb22ca4c4e730b31da6982322fddf3aa
; Twice 0x748a3ef080a0e54f7b211a3ee983aba01edfc2201d405cab5b920db50d3ebb1c 0x3efaeac5c4b1c1ba2f9c3768e9027079f7803f14067263019d50c9fc448a3200 0x350d93b2146371387dfe5c198bb7fe06fb1c329677b0584392e051762f8092f3 (-0x36b57740fbd8b61ab951fc9e71e89cac73f5ae1d0f6d385594d93d1a6fbaffb4) 0xaaacba863fb04566bb9ce9cbc062a36d693e7da7b408f09be8cbec69182fecd5 0xfc039a4cb2125d9fc8843cc7efdb42f0512bcc3ef29649d2c738b695130fcbda
; Twice 0x6f0323fb9fa20cbcfe028ada85871c298b932caa3d7fa0e5c9138efa48a5d7c1 (-0x7acc46145fb03e05acdb2eabf0b49a29494590ece668ea3b9441194a694f4f0c) 0x3023b93e4186c30efce28cbf2a9505552192416a85b90258b29697d560e11582 0x1e9f0d9bf53f3364c9e13d62c419e12630eb59d4635750eeb2841a4e4b08b72 0xa642e65e02bfd28b58d9a700eb7ccbbebae090e3fea0331fed85f4c39520fb59 0xce43f745b08483c3c35bc22f3e3a81b6363b3bfa80fe67720ff3878db19ff214
; Twice 0x4e95476bc230281627b934e0ec0f0312a440fb9cbaa29733d71db06d2d3f8dbd (-0xc54e83d5a7be0e85c9e8f3ab91e9749f2a057d0e7fefc27de8819a7c6f968ab8) 0x181f4e91f9d1a620a97c43bde0480bd9437c1895b68cae82e2150e67d8732f6b 0xccfcded584236d8031cb2310175aa2cc3ee203bad4862f200b04e9cbd800ba1 0x7c864a72cb94c80e75fd260b9dd883e921d2baca955b04d18cdd1f6e31b0f642 0x459727e43f62a3b031c760115e8a8baf5b3226ea17c243eb0c2d731f740a8688
; Twice 0x5107fa2c3878902bda5c7d263491f675f1045a810d1677ed8c97519179726af (-0xb2f63bdc05e702e108c52ee22f46b5977948cc7787242091bee99aa887db92e7) 0x19a60c8fb847d45230b26d6ddbd6057e1c966c0de7327f30b64d2d90b8bd3f 0xa58fc7490e92167d626fb08bbbff0bda5f4f65186b9ad1e4682cf64b5df820 0x5bd567ee39d50503c58914a4687ed5f962e4f2bd35a01dc7ecd814b147a13c5c 0x2cc867e60052e86a9d115d3b987fe013ae6b6559c24d02ff5acfda297e55a9d2
; Twice 0x103a6d2dc5807b9c65bddb2336c0cc3ea2e107a1d9b3012fc42d7dd7dee11a6b (-0x5d26bf5e4a0e30d97566b7a66097834884d283f1dd47fee44c9fbf71b764da5f) 0x1075afb6104eb05606107cfb02fa7200c237358aa6c8ac714c0db58bec0db4c (-0x16c2e029a78bc246874d1fa00821f5cd177c0e8f81e23512895751f5aab8417) 0x72465598bad1b1d9eca862ce931c17e6f804aa8638b469c850a0bf71364e4b4d 0xd518331648f55aa6bdfee6a33ae8363ca3cef74acfc9121bcab8c1cab154195c
; Less 0xd6242855eecf73455af612f04ecd5d7589daa36ba17c93bb9fcf9a871fdda281 0x601e5b8dafb7c901f709f971cefaee5f3eee12d4bb89269a009e545a11ab91a 0xb320788bbce96f14b1ec8e53ecde5523393038ba6b6f3cb9007828046cb18024 (-0x1986940e175dab7a7706d03c163d3cea13e2c232b3693d8d3be3b08ebbef8396) 0x90ca3e8143c57f2082071e31337fc9a604e2cdd0e794dfb80d10349895abf742 0xa432928e524b7f11686587b09a243b0bd1d6fa30e21553ebb9ade932036b299
; Twice 0xf9618d7505d46681255e11ad7e687b176130d9eedead56d015776b01abdae543 (-0xe1adf9fb243c95d7041ca5d7fb076f7245930cb7425720bd5d98c4720bc5ef0d) 0xf2eeea5b191ea2a15bf0f963ea0f62a3a6a133c1d7a047be6fdd21b766dd8ca0 (-0x510fb8fba9497eb76069d434aeca86cff6254ea08ff7c368488d17c17971e2b7) 0xe400bf60d57be72fae0afbe5a17efa7e3edda6ff5d3c2df83ec0ae7f00f28da5 0xa2a71af158968ff9be16be8df606237c131632d889efeb1172968c73fd097fc7
; Twice 0xf22e6ac6656f80c9fae17d8662414d2463e16831a368d2cc34e44a140adc253a (-0x12d751403d78c8423574ef4d34241f37516ef74da3d353fe33ba2a288424be724) 0xe51bca4a88b7f39b31d84c0ef7d8a9d6aa5b4d56d2e0ce30447f34b1e88c5eee (-0x311ca137dc77edebcf02c5f1ed0f183d7e6236b2f980aa6973b65b7f5a3a679) 0xe73f5f9c545f92e6de7ce659ae2e36382cf6a652dd034dca9eaf20fc6fc114c8 0xa4e441f6a7fb6899bdf65b23b5be99a15819e92c369f6e41a71e04e598ec2cd2 ].
Definition key_1 : list trail_step :=
[ More 0x157f6b57e361fa9dd8b596e2575d70464ab804173accae4eb7562b6e76375ce 0xa6d0a4d5fddf541124e683494b2efa07e269654f5c44a6ee53722b69d3dca1 0x1ce27081b526b9ce5be45e6882a9011fd1fad41fc6e49b96a6be1011144c5 0x3a1659ab1ca603eb8342f10eea58207224ac1a44e033c9b6fe7a04f76318c1 0xbc03e60dfd7a967e630175ad49fac1d82f910731e50182d60127efc4d0415f2b 0xe622fb9a978285ee3fde6af09ff5fd991a6e34b45483d6923da99ea8fbf2d145
; Twice 0x5660bd2bf3f6056bf2e275079d4e9aaf97fe6ab6bbce8ddadee923dc68d0882f (-0x102f3be75016a48bad570ee751aaf3d9b0fb4deb2e769cd6b2f6421649bfd53ae) 0x1d2523a811cf5595adf4b405d31ad28e335ce5483d81d3836b6d81fd9510b8c2 0x1f11f0a1bb9fb65fcaf3181e305996a657717de1eb8cffc3d93143923d409b9c 0x5feea2be07c0380a184df5ee36083a10983b10e31454fe1a293ca5bfb95ff30d 0xb5dce6a80f691f2fa0a96f4ca9639e22878de8e9c6028c9b5b4a1edc3e8093d9
; Twice 0x93f4739f89ffdc79aff4c808067d08232188a60231439ae84a60cc272b94e1ba 0x665e10901c7d3df7fab432a7cdcb81c3d588f3837fe7f5d0d54369928d94c2a4 0x5582a6362a56468e732b35a083fe7c91ee0003ea36ab99810ed0d4198d7bd681 0x17a259fe554c4922077eb82ce4ee5e14e4f06dd938ae3cb4aa39c3c6884cae85 0x3709f8cf53144ec98964d6047e7f83cbf29bdaf0ec2bbc09266019b05cd46b8b 0xedc2e650cff9c07a5ceaab4db790475874efe9bb3dbcf66575b115a5566dd120
; More 0x1cdd1e9140a3f60921004a3af8cb37b18e6239655ad58eb9bd7d8cd42e833976 (-0x5de79eb8589b826211cd5c3659e21297f32bd2aecf0f0f540ab9d1498ceeec3) 0x3411dad93d4f42713481f51d000ce911c1ec5f7e8bd4b74b8c84389a5c9c33d (-0x2fad0b6466a01c737d935ac11ec0832feeaf9dd7f00dbe9a630965b9c561d5e) 0x517793a86f7aaeadac8fd10fb817eabb53ecc5f253c642118fa697edb4065780 0x29609d760a0636e2e6def639f692ed6f4bbfc4e52f6c0d8172738178fa50c194
; Twice 0x43f42f85e31192c10fba4ab24236bb0f918a29ea8255b4c41cc6185333db8dd7 (-0x37cf27ed1adb41d507be52150532be58807e273b461fcfca2244ab98ec616e9b) 0x1209b9cac6f03581b0b585c68ee47ecbc1c1fb95f9af128b80cc53fc9c1e688e (-0x216c9d9921618648eda0774db81e938312b234510f80d3cdc44a03b4c3dd959f) 0xcf629852a90d1a69af33b682650977976515ccf9dcec0b0aa78aa45ada82441f 0x28050c2124b8a8ec5550590e6ce16add59f50d2ba104ba4f3e82b14095655c44
; Twice 0x1f53fe4218fb5e1f49d9d6b65cb7d9b0f367adddeb12642673cd2725cc698cb (-0x1f7651132a423d63b9b956328309179433153b79e10673910c8264932bcaba098) 0x3d57322e145c1912c6faad59c11ccb542d4a0de9b61205f6042c141de7a85 0x17b92bf01efd9b861697b0ad3d3a79886e0fef489554a4c2a20c8f216dad774 0xd873304a101c85f467a7623f51cee392fe73c93a67f770e9e9f72ba2a0fa340 0x2fccb2857599cc314ce48b216da01b828985f963de21f143cd8e16a80c597405
; More 0x13092f77a96feffe81206d86e6ebd648e680bfb3041868f4d323dd66b7ee7895 (-0x6f5173a956d80a3f7bbb5655d4f9a0a69ac3f2fe4e2789a94fc1d7db2f250e2) 0x16a5d6023c80d04d9c322046a49ac72ddaa67264035030290d10c4919cde42d (-0xd8eb41872d213f8675199c667a43cd516b751d76f652e71eb6eaef18dae745c) 0xc3da380152d7c8b4185eca78074a3f6284c454fbad0d2d1e66ae878e8afd8510 0x73b39c679b9799d882798a7dbc440909e12ad652d8150d3a4b93dae6da4a298f
; Twice 0x351aaf2e57029e10675fe2a0cd2c7050ddfe93515836e874fd665092da06b377 (-0x191820469cb248c83c6f1f32d0517f89a007e5b5db6e043190e4b446f9167b9f5) 0xb040f51485534a51a11db54adc50eb4a5032753f5978d6a0c53081d25dbb226 0x1a3fbe7059b3eaa6afd19bdfb25c6bc1f0792a505124fd13a1236e7fe7d4ce3a 0x45504c18fcdc5110552e70cb98c32bfabb8a31226e5e9f971148768fa3444957 0x3f305fee190df456a66966f0480ca1eaaaaa7e29923abac78834c0d239bdc2aa
; Twice 0x92cb59d6398be67ee9b7b2739f4c794a7c5680eacbbae5564f6339b5655e6c30 0x102a69ddd0b3a94f741997d2e8ca50b74873796f5bb3a4e9fdf5b582a36fc2f0 0x542c94004716120fcbdee2b9847b5230cc1b3c736f9d2269519b7a8e92445d06 (-0x5c189a4a6ea8b6d4fa07c3f7d873e2c40813eec2afd8ce0f9a834cfb0a04eae0) 0xe5ec64e76c77a1f115601ae686aa257e2eb30300957d68f508008d80ccb45358 0x6609b1eb68e4794da4303c439e8ba3513ccf5e127bbb1352f35b30b4a1a50646
; Twice 0x8881bc566017c98d445278efbf7cc431881336dd0135e3ebeeda200810fcd925 (-0x1feb09b80271982ffdbe1374584fb627b74c9884e2e446f4528648cc0eb7ff17f) 0x48ca19db687f3241fcc054a603ad55adab18b8ff7310954078147a3dcdc63042 0x74543515e5ab20df73e6e87ae02083ce1f2d183a6991ae41d819cab616594abd 0xbc3a4cebecfb6d6be0bc6677d41178d972d755ba60b22274e4ec66d0d6548eb 0x4ab6f98de85bf220337e25ea2532f24add09108427f86f1ab32d52e32e432b38
; Twice 0x2ad605cbc20f08cfcfa92d3a4efec3f653d9f534056c857eaeab152e082f512b 0x1761c62331b395774f157d00d37e08aa9fb86e4d7d346fc726d1a5b40a1f2258 0x72aecd493a1e49d65548b648290b69e87b37b0d86e5c0a95da8ed93e6fb41dd (-0xc2ec2fd93790d2ba4ae15d32c7a01227bf28e694ca390edeab151470b1e545a) 0x54923b0b6d45607d383c3a7b49074f26aa9907fa7e61e7da591297ff63b6ed40 0x413d6c9c387581fe71bb034c386b331ef271fb1885d7318bd16ff48b9e4e0127
; Less 0x742fd74c13fa74eba7f05ec89adbb2e3a6e8abd61f42d9106bd8d48164290a62 (-0xa38bdd88262c58aeb34018b13e50ef461f6e2729b062f500cfaa5abd663a5f8) 0x34bb640de9d69424c27d12a4752bc92d289fd4ddbc9a99f2e4e18ac4f69a0415 (-0x38a609322b2d84c9af09912895cfb1b93398361c4485b157ef667ad93402e12a) 0xd1633f2088b5a9d92789da0ed3f93f3f6c4c0e17b40ad1f11a4c96f49e1a21c3 0xedba1632dca692776f3761edae85063b4dde47f1888b6734bfe956095eace589
; Twice 0x342ac5931bf7a74ecf4962777b055b1b5e3f2e550c6e295d87587425a97c1f71 (-0x1a0e691a3169baebbd62fa61504f015a376efaeef91572c11e0af4d2bf6c2415a) 0xaa167693abeee386326f74be88ef17bfc957d5d540103e6a21689cfb17d4e33 0xa3e9e3c8caad535559a46bfa1ab48c4b63cdcd3ae91805ad06b70e4fae7ecfe 0x9f1d3f5ca26ccc91139a54b242b3cf8a5b1fb659369fffc023c1f842209d9a8e 0xafe4e3577cc03fe422a83334bf9330f155498c2cd03df68b5db151138f3e20da
; Twice 0xde64086f82c72ee4bab179c702fe9dc0afd8f8f207a0269bbd0a5f29db620ec4 0x8ea688f76be13be5212d05604a7ea94069f2e6fd9e1c377532f376f08cf4e79 0xc131a5b8bf686f68732c502b3bc15b1b093fa3ebf63138f99b53c900ec195c6b 0x2473618285faf67d6927c39dd973291987dd8b38b94d06866a56af79005cb33b 0x7527a49f892bd2c0e50fb1d2ee8d43e7d460177fdba54ff2ab7ef61751c82d5f 0x18c7424e57379c095e0792ed45abe6e392562cbe99db396387ee0e1d797cbc5d
; Less 0x3cce84b3f0430b84a4427b8616e64cdd1d79905d513c770cc1016aec8a3f0bad 0x263d3533bd5b648f5ae2f0533cd11f191613b9933a0f35d8817a73a2123417d 0xe7174ce3d719c59e898587b51f9dd2de01368111dfbebd02280e6988473bcbf (-0x33622707192436a2670301171bd37f55fbaa1d9525585f6ba878054cc6b7839) 0x82ace147b7ac5dee5963886a49a550747420f6e2453c3798d84b8a509dc11fb3 0xf895367e94d998d0d32b854007bc0e62d269efc0365c824bebb3be3cc5c66ca6
; Twice 0x8d1beec88349789e3f4b40b4d39af16c7591f3e444baa9753e0ceaa2dfe482d7 0x49ee8097128e749407701d2655b3bd15f690830580b9be18a1ab8392a4256ea4 0x4dc7c8156b6bd99ce3254c2918b7f1780bd9e3d5c0fb12e0e1cbf3e44b825f76 (-0x3352997943f40b9c7d78d27ee09a7894b825a32a732067e72959dbc66c1bc162) 0xdfc8e9c1b0d645917a03903f509140bc855353eda553efef79936b4af3d730a1 0xeabf2ce1aa988e15619df83c2583797ee0e2ba939570992372cb2d04e704be16
; Twice 0xd3f4cce961ffe549a1bde06dae8bcd25a1ad966f12de4abbd3533ef9fd11057b (-0xc626d6931803e8d7fa7e0d9b793285381408e64c2c298603b9312607cfe73564) 0xaf7d73e0a7f0e097cc2f63fb2efdf4c8954497c783da1bc29c7e9ae754bc2516 0xb946a3e2dc008093241bfe9f6f0d2d6cb1c460e9b03cf90645d3ca8d4fa1b0a6 0x25b2da8c97c032bd1dbbffe19c86ca6f0da3291518c5a7d08a78e4581cced 0x2f2b7c9884dd03fd02066564a55c96e92af16341fbe4e22645e8e1e0598a5e0c
; Twice 0xbbb8ad386e7bf7d22319f4b1854b5b7d7c6e733a47fef70d9910239ff388dccb 0x452d964f1d1ac877571e21641f702a616c8d8c1660e9f6ae261f95713ed7f330 0x89a7524a7164924f37f4d530f88e2824261c262d3fa0181146b8dc8fdcae9724 (-0x5cd417dfdef967b961bd2b937cdadd45ad1ed94869ed3a20b51e2f516f497a65) 0x7e99ffc2a617a781320b7851483551a228c6087959d44f8864166ff209c88643 0x2c72912c2b4ea7a6d13ac35dd3385d4f8eea7a737bcfd0df3de2051bb421485d
; Twice 0xfbadfc68413c1c0e022664b3338a4037c4515bc4787fa26b0ade103a190a04f4 (-0x646eca0bc55192d140726075cfd1a198beff6f1e85ccb4bbf578a1c3ebaa38b0) 0xf76ea3348520185859899a78f1dc7659a3d6e737dbc4d30f6c04492a9c058bb6 0x354e08ef5561d97ca3f43ce9b968f2e9f4817df0254df4600fc6f6ed28935981 0x4861b6e5f004642ebc260529ef639f80a349c6eb1e98ae0ae6a31d32939d07c0 0x5aa0eb6a4c514e3d4619858d36d6f21c6bcc6a10902dd8d5707c84e27ffeb200
; Twice 0xef7374647b2d8a3a1bd5d79be0932b7b6c76aec042491189d60dc4cf9dcd8b6 (-0x32ccb11fbf328b72a94f74a219ad2b38c0716b2f50034aa9029b9366b550e803) 0xdff8c7664529b179d17ca65593f73322dd405ad2627003aaf881f4b7632504 (-0xa382b5229b607fd1bd9e4d7b8ed9bb544ad4dbeadb621d0937d0f734ced5e7e) 0xf7315f760b5a9d5fd69dfc83e911b78a646e764aa1108e1885ab1fb6cc6cb6e8 0x8dfeb8cb0f6cdefc669d412723c5d34bc8e9801ab82ea806d623de022543a912
; More 0x6603582141da7e41366854e6f5a189cc85b4ae2497d17a6ed0fa69ccef3f921e 0x37d402ea1f265df1ed9d3ffe4a3242f52ba827408ce9362ac838fbb4cb28f181 0x28a6aa45d83f3398de8d043d33aedfa02f101f8d9436008359c18bf4a79080f6 0x1090d54b6a1674de2ce7b4e9747e85d54431f473a642248a29170d437ff748c1 0xcd9f137e27160e6003e0dfb5dfb79dec783d506dc4e0be7c54d2716544b542fc 0x53440a17fc044e8e12b8319e59b204b578601e6bc4eb6d1efcbaf3a4bd63cd57
; Twice 0x92428b52c3a09bc482f8de6c9bb2ac171d6b54d806968491dfee75911e3eb0dd (-0x1905392fb0f0f9b85a46be4e056e68a8c99708461f9d09db77260158d152f7009) 0x538ff836dd3303e551e3b3e3a3339a72da83779f8d0d62d6f41be59f73d57e0f 0xb2e17b21b8a89a76191b7779ae0723b84c812511c102a0f6ecba93b462776bc 0xba0d880e597da16dc40341f82bb8b0e87b875bed2e3394d2bfa41ffcdba796e0 0xab00e12ceb06af8db0ea24ca25af0a7c03851ec3c8be2d4d2d0d184996ac7d91
; Twice 0xe2b3a6918d7c6814b65092de18bf4136e8a367fd946059dbf17750b37043bf07 (-0x66c96fee766324a9585732b297a8b3783b065ea1a96d629161f6cf3de7316ff1) 0xc8c1b02c227e4a2864b4dcfc9d737ac3d3b043e9dea109ae0cc1e972a12ae2fb 0x83ada2730578cc78c0b2138338e58e93a948466a36d0c03045585b24aabbf48d 0x255b5e01d9d67173106de48975bbb5a094651b3907d82499db5886569611276c 0x183118f45a968eaba9c0dbecc5d30d8870961780daaff2df60e5b99023b00f28
; Twice 0x1d2b21dc92cd7f71ac48377e0f466f0d115d5832ea3489f544874b778cda65f3 (-0xad756cd7614b717acf0851e2f083667a5715befbcf943c972c3ebafc5141543) 0x352ccf0612948be8f4c1cc1206211cd1b2b2a2dd35d8694f211f5fef034acfe (-0x95e25cc604f5e5a8632ec9d3b512d065db506f4edabafab10e6f9f87fde9e6b) 0x7792f0724efe3e0dcc8fe43465e4643ec84633f0f6b44f5c11f1ad0f568802cf 0xbd0f189dd13ac9fdca55777d818b9906a8c5de1c6730c602053cc5f3d0c30474
; More 0x3e786d576e78e91f6dc67d9908b0ea0da3accfb5fd92f2d7abd492f512d050d1 0x30bb06dda96711524136aa7d82c0ce37542372038e42b36ad4ae93bd44e73f6 0xf3e8d9d196c41d20d301b6adb6717f1be8ca2883fc46ab22f2edb12480cce67 0x5409d23aba4b702bda8428fa4acafc5d99791c9a817dbeeb527682deef32720 0x620ccb045307ff348c0cfe324c7b3238724779a0f7a1b3d2d90efda7ea0f53a3 0x3a9dc2e5b1e79e05b7cab1169a42b598e0a7dbcf7511bfdd94b830acf34e598 ].
Definition key_2 : list trail_step :=
[ Twice 0x8aa28ab988dcb683834ff4748ecfced7efdb2c6b9a3b6066cb5ab70b624b2b1b (-0x6cb19be441e9b942ca3f3c2dbfa0ae15c40cef53df2f5dbf392e4249b41230b8) 0x4b13a4c4309f5ee5ba80f2bc84293fb52bbd056435ee9efeedfcd0623ef4d825 0xfd757c21ad86ca63dce4be642f9659d3247c87784d9cf94665ebac95c50fd47 0x44cc4ad9b7c1f851d11bb915969d7c76fcafae4d9a1d6b1d6caec6775fea45b8 0x812c201d85aca8b2184d5e39e56aa8ec41ec86ad3aad1dc68ec16f5962340878
; Twice 0xa38ce7b0d37e4977bb23f2150caf57369b12d175ef38c6e959ebc3ec4988b924 0x6d94e2981aad133f6eeeccbb2f88cae5d7a5447b7b3f4591d9a8832603b64afd 0x687cbc99d0e77819a0a3b4db5aa738998b9dade2bf53d80d34bd53fe7482ef6e (-0x27edd65c22441098f2f4b2191f432d5777977bdd7a09e4cbdefaa084fd5ab86) 0x48b44943dacc075301e7810397a5a71b9e90c77cb0ff99373eb93c0b78d3710e 0x7adb909a1e2401cd266ab24cdee058129096208a9a997789a82e2947c12b0dea
; Less 0x280af999521d3bae7713279996469829f420087b4c097c2b946f8e971ed4fe04 (-0x56106c61dad0ca0014f230e30388ed78443d7fb93111fa31116c0334c7b6a01) 0x6436e78634298f7ab37ec1e4e925da0de0dbb7bb608f058b7a56b521cfe9f65 0xae8e6d5684994c8116c935df06770e08ac2b233aaac0fa2da1d329c879d215a 0x2f4da36b3faa3431c4474c02fc843ddc3a34adb77265aab1889ab776e3e5bd1 0x1c4f3a23757c21de286a4cb18ff58dee652f235cc3181bdd7920c712985cee64
; Twice 0x845b635882991a6f98cd1e769731c9e7e638cc6f974045a59b698108757a09fe 0x1d2bb17436924fd5aa79e3aab5e127510c86bcf23b6e06c2194a78db2202ab70 0x446e5f135296aecb6566d047acef755fcec914713632447919f833c305c0fd8e (-0x67d3cbe9b26fc6f3581bcca9e3e5f0c26ef1b0726ba5bd1ae10164367ab77be1) 0xcbc683d0de10ffad00f8405225968a0f7b5b82357bd509713adc4003dbc01df0 0xedcdeff7dd68998e5c1d8d8d31c249df018dbec22da552af852654020893e3f9
; Twice 0xf6a10d7034d91e9aaefa6228f4c8bb3ec635717ac8cc5618b8b9f292b514a61b (-0x1c6a4dc8c9d24aa70e2a6b421c139bb981149a56d57ad271293eb9fab1403f89) 0xed99eb267b02419baa410bbda33d7e016e423bfa78c5f06037fb5bc9530cd57b (-0xc50020caddfcdd7fbaea52fed76df13e539e94e34620746da2d86f4b92b9f45) 0xd88e49451ce900a3cf053c29922a2a3c6de34732a1ce3f9abaf7931a298ba074 0xe95925819962d5324ab5b12596b4be31c75dcd9daf7a28333255bcc78cd820d6
; Twice 0x1a777f6c952b6bdca53f6322ac33619ff5716558652a0ce4e2c19d3934a2599 (-0x2228d40e3645645959aa6f48286c50180163a8e240e8a43a652c3655333f17e1f) 0x2bc7da9c768e80025f26c742785952a9ef14324ca71c82bb86674f98256af 0x569110066972d0c5d9217d8741bc16c05e5005426607d9a990a34deba36a06 0xa4393b53d0e123d5b8da9fb69980cce94fe43a98ae9c86d57ab1591e1e64ab38 0xd68331ec5a077fc742c2358f12920fce50ff7527a85ebef2f236904e01dd860c
; Less 0xbc962630afd3a3df4716e3496997187b2858e23bf5921af929666bde4e7b6c00 0x2a160b7cec108d04085757ec351b9d77e519c0d6a7626df45ab476ee11a28001 0x8aece028d3ec42517fd714a71b3e13f8bf585ef17a312ca930ba8a4dc448fb0e 0x289318ef649fa7e6ac618ff6d89f357d394f95faabb46f8456dada7337299458 0x6d2516ad497d484c9e06f2ff2187d7a8755e2b35e36f33cc33ceb93ac2db8d40 0xc41529282994baca5b0050a7207377246250f6528fdf292571779bd60418ae4c
; Twice 0xd89a08c6588eea9022f5924d96d6b934b95fb6d83a2094622aea21e5ce460071 0xc035dc4dd3a003236738279be6fe83eeff2751f6c77b4481f79b0936acf4d0e5 0xb7444b7dfba50278bf2797834b44ff71065f47c887d3ca662f3de5519c4473e8 0x53a7dd0994de5819e06a6688fc87dbbee81b2fccfa8ac36bb6e0399e1786a0b7 0xa45d515544e63ee0e42def584f19d8df88e858c53997ee865c31ae030598b49 0x5ab9db6db90e0921b0fa6ae65d992b125fce73048c81430c8984c9d70a5ad072
; Twice 0x6d6b992cf9ca0ffd8cca0e84138a198e4b6d121122cf6557bd7e5ef4632d8819 0x4c51f1b48683bb3a9bbfd9929c3bc29d2c8b96756162bcceb799fc7296553a2c 0x2ec4cda9e2ba78ab541ab050703df456884958033833fab70a8c08c18b8e29bb (-0x60d3dad930807764f2a92f6fe3c5373038623fa17ad8035586887f0d19433a32) 0xeccf8e01276348c871e3c3bb108f084fb2bd6d3e1a0075cdc6cbde05a1ffa59a 0x835affd6bc1b1794b5ebac9aa197f1c9ca637fd133eb1887f50aba7f91f15b73
; Twice 0xecd0d8ae325da4dff548defb9269a4a7291790441567beeeddfb1dbdc4903d11 (-0x19e27e85ce30c97a366d1daa1b4524b4164d790070db9aee8f60d110a493f515d) 0xdb11b9e2da66a5915ef0a23dcb5ab93862eb3a546491c9996cc897c1b2d50952 0xa5f00786b25bb8fce228664d4e9c53473deb4829956f3b96b6d2e9be22a031e7 0x396e438a7c4380fdb63eec91eec997c7b77d41f0b00aad157a440f973886d93f 0x21b0db5e19edf3c718e9e9665e934da0d8dfb552fd7889e45367324cf996177f
; Less 0x3cf872b0b0e168a934393a0e12a97ccc17d330bb5a65d526e09edaa123db19e1 (-0xbd3efe240e8ef9b86be91685136275c4f442303bdc26517a3ffa53ddcb60215) 0xe8566e14b279c27c64f88ea21964a4c51d882e63099f9866d2585dcfa35f41f (-0xa9f246d6639110645fdd7c035e649986aced3c1334b3c43731838f80b85ca8b) 0x6607447fe04ea81bf673c58fe39117be683fc5cdc8a8b7d8f6aba29ab8aa100b 0x3f4b7ce61b9ddec11d9d267ed0c98919112b8250e91fe2e5a1e26a3a271308aa
; Twice 0x82d150de8dbd858ad01f148428302d799859f06365c299ed55eee69e111c6280 (-0x394d344782a7dabea616910f0bb41a74ce383ecbdf50c7ac1e5f996ac002b098) 0x42d941476fbd066ccb8fd8f8d50a9fbcce2a1e74d3ab6c94d401a207469a057d 0x6cf5a4a3dc22e6719f7522ae3a7f614f75e55e5886242e6819e2e4be5ca1d08 0x58b3a9473467c097aed3f42cb4d79111b29f8650bdaa706b2dd6bb0c872c2567 0x7dab7cba15e8e73c074e7c82b1a3ddd762908f7adf3df276d4a8e9af3f6f2e5e
; Twice 0xd74db040abcda0d71508329037a49e052bf8d6157140f730f2f0cdaffcb8c6c3 0x772e4a50013ac5b06e1c8be83da709ff454c351d77e11a02eaf19d6c3262c31c 0xb51395a0d5e7500d3ecea8c92e5d197a141f901f35c8891f4367431a14011034 (-0x18cd1359cfc79ad525b807ced353507e36cef4ed176fb7435b799e21f276713e) 0x7630d5ceb930f7b33aeedc3abe946a2a7c2a72319fd50161adca2649404afdef 0x87cda1a31423674157e8ae7e013600b6d10c455508c1392b6ba779766e6240cc
; More 0xbd51b6e21ff1d19cbb76dc85a0674dba922fafedd5a75e4694c8e2e7335660ff 0x83502b125760ce139d6788197684e9604cddec30c85717bcebe64c56af27130 0x8c01c21faceb55cf73e31efcebec3894e3856242cce76d18084d02f9b58edab0 0x19079b99e79a98103d40070ca6853d60f0d7d9a1e92e722491f7a2e67f396ed7 0x54586168debbc8dd1633d84ede7acc0fdb004e430a0aa619ffc2736786bf582c 0xdf633a52fcb7f7c6f3abf15ebccb9672eb9de29761b65397648bddc0c99c6b48
; Twice 0x890f57305c82a7c7db1a68fcebd4325d5b18966029db6eac016f1deb195d4b1e 0x9bd49ee84e59c00ef942ca311689d8e7b12a1a8d5ee4135d4252d215563d81cd 0x49616c3d61c203244ac5758282bf5871f228a6a6895920742b8e4c252eea163e (-0x1aa447577e7ff63d4675f87bfba21fd8bb2a651d067dcc2c9b13dcafb9b9aa57) 0x861b45551140fb972291a0faa427176aba43063da41461b442dd7515a741fd6a 0xf5edbf1b1880e56b52de4d39be489ff95125a0eb22ac250c13c1c81e516b631d
; Twice 0x370245bea4898ec2c66cc0104304f2ae9cae4d02bfe590d661e4ec6ad11a6ed2 (-0x691128a1986a1cfabd1be8c7fc72b959ba2efcf8394f0bdee80eea4a753377eb) 0xbd1f9fd207ffa25cde1454b7db4b2910b02bd42ba12a4e10d1d5620316b7db8 0x7139bcaff639b309ca22426205f8c8ac76c5af732241888d775c97af5b2a748 0x652c6ac7c2c63277f3a595a1e9b5e386dadf82b1518b05bba2758d8a7988a728 0xd953ed61229b5efe5d2ddc749f2162e0cd35de32251eb4a6c1ef42c06e14624f
; More 0x65ebd4806129ddfe3a623b02674efa9cebd4b62f67d20afe37025a0609daeb24 (-0x25b53b5a350f44be473677e85b1e4eb34b82db743ac9447d43601c8688d1a2e) 0x2893eeed49563c43f1fed03f7cbb9fb1d228fc0712ea717f1fc1bf68896e954d 0x14f9bd043919dda988a826eb17f466829e3c22a131aaab1180ee928d578879b 0x61e1743e57c44005934371ed3c657f3e588c61951b4a1b1a11346e061098489f 0xb3a4f2b104ec92ab793d171ec1e5f21efc2dd0a2cdf126c72c98d29521a33390
; Twice 0x13dfa061d14b8e2c854d16130a97a0a4958cd336d0d4fbd5671b1ce7016880b9 (-0x54618b721fc9f56262f91ed140831037ba1851a37eb07fade36c58b442330de0) 0x18af527558138e25965ca1cfb5973be21724393671c72f0063a5fc930dc06be (-0x7705b772b1e469277183cc6efed35f2c864971532c0a82983f844f7b71369df) 0xc1b455bbad003fe57af21d92c77b6e5e6852cd454660f2f84f9a454558b4fb31 0x7ebd528bb3f5e34f596b91917feca39c66e9ae75a0574cb3d266359093f3570f
; Twice 0xb9948ff7c18099e7e17354e68b3ef2a32eb7cd1063c5efde27a5837286c82997 (-0xfff37e27c79f57fee90323ea7653c70f9df812c08810c0c2bbb411808c402392) 0x86880e4b63a26362996ce724615c3a88395865df77b03b166345030ffc2e3670 0x74de4bab9bb8068aa118c4b65ef51050beb40335b738d5d6cdbfc4bce74affd4 0x207d5834494e8fc65d3f76b89e80df87492d895ad2558ce88e82350c6175f71f 0xab65a3ece45729db74aa016cd3655db3bcaac05a1d076060efcf6bbfdb39f163
; Twice 0x6b51257a1b76b160b6a4289965067bc68d0d5f83c92d40caa5b172744e65ffc8 0x8354e5442dd1b1c5f7befb14b1ef0f35daa232241031401ef3ca0a8f271e1c90 0x2cfcef0cfcb40e9e66f132cf448b68299b66e77ff33a07118f03508f42adaf6c (-0x508d0671ec16455c5cd33d91d560fef45209d58c78a0dba5ac344ee348d4a4fe) 0xe0a3e8068813787c44b48d6ea406d2a1816916da68ca444df0cf24383321cd6e 0x840c68286650601a5f42d3828375fe6e472a44aadaabd020a08d6763440e4ae7
; Less 0x2f72bdf186fa49d6a05505d08f3fbac87e3abc2ed66952128a8d9cd9c82fe66a 0x15c967a6d955b88cab09eb3d672bdfeac9db2d3d37a929a49d33216121a90f6c 0x8cb552c7065f85ff5118fe7ae05bc9822d76fdfb76ab9099a73d5b62fb65514 0x228fdbb26768c147866e948fb2eee547f40caebaffeac0ad786a6ebb418f0e75 0x262a8f3bdc9396a7583ab23cefe9463e4b17df5c25d5de702c5828e82e4a68f4 0x465c9fd82ed88b9539551382991f2b84cc74d3a3863718393564a848455bfa12
; Twice 0xc01ab8c1de618c97c47edd4cdeca37f8492f9d953df032f996958d407eb3517b 0x5887a3598e97a5fde43b94f1c724a0cd1ca3098e996c687bfc6411a95077c861 0x902817ed6a72d91e5a3a7338e801a6262489fef4ace5ad0aac0c4504b723e2fd 0x95f507666a285161099de8bbb749306b02bd066f8c8b68414d589d46ccf4450 0x19ad3646d3201ed2ffb8e0d0bddbefa29f0aab549a00397a70a930847a80222e 0x1a2087d315398c2e32762e742f61dcf98692d2e9b6baaa13ba18ca1b7a79f160
; Twice 0xbf34dd1b2a6905cf52d8695952b3efa61720fabc2903b303f9b75e26f5ec89c0 0x1f4d77a1475a6f8175cba52f2bb539f5dc2221eaa35964b34b9eaccd1b6df0c9 0x8ecfecd9aa19c84a2258405178ddbb97e98b80235ca0d9d49d87c0c79a9899ae (-0x5a77099d1d9c0a389bb64adcab5c94a6d2b21d5046c0d039e6a945ab2ac5f23e) 0x92cc1311c5b6e33712e178d2027cc3b41c8f52c8f808800bd055def669b76552 0x64ea08bdb74f74259b893dcaeaad42b8afb780fdc024e55889d08836052f7d62
; More 0x2fe69fc2ee20b6ecc6e6e9dff08e866dfd2a84b5a1d7eb91b39f39cf80a42450 0x76ddcae651ed593e0f84f7765779674fca1e1e53303f34b8fe7f135e48ae0ad 0x8f67e6d125e1c9b1636053948cbbcb44a47625e6decba059aa5fee2ecdf113f (-0x12936439b2f15af3b8fbeb0e0373875c17c1a4333acacf0bc6fee559fc44b264) 0xf612a56772475b2b9369109c0d1e95df6886647505aa6f203351cd9536358257 0xe606a1a4d61813e97b4157faf16264c2a25a9007268fd13a1b6308b643da0aaa
; Twice 0xdadaba7c32a9f852a7a8fc7e11e8d6b966dee78b6368831ddc7f776cc0dbd303 (-0x13c4b2803d5b4853e93c1b419747d5e69aa057d45eb1d7b11f427d24678650f4c) 0xbb19407e64c1bac5778155a9e21214936fd387b781c9c15db466f9c98416f599 0x9f6f2346314f4cf21c55554fa065a3b87e5636b3dc55b650c525336a9d225bc5 0x3b940f88eaebab58e97e86c85b92dc04e9f6c10587bf3a137baeac6e4cbbe2f4 0xe1b1ca9db77cc0841d9b81b5bdb1dd8a3a513bd2e098937afee6d5f1edc4c844 ].
Definition key_3 : list trail_step :=
[ Twice 0xa26625a8b3b8aec810933a69ae4cc87e622eba1c6928aa195255ccf51b4bae37 0xf4c06223a6db85a6f88e131e8c8ca5e9d6389827d497730b7a73b4235260ac75 0x6705706bf27497ebcaedb7c7f382b418a479a425f0c8a13a349b6c4cdae3f097 (-0x38fe3f71b362b3ece12fb4c91c15fb2f2505d4ae41e3f3541a686380b09a9322) 0x956b9b249055667d70175ab8bb2d808edf917a4a0cfb69dc09303dd56634fa80 0x5ec351fecd112480c36e9233d678ea65d91a1d8233d3f23d6cff2124f0976d86
; More 0xdfc1624d8b32af4c78221d5c80647399c02584876fb563a3ab2ffcc2eae2973b 0x24fef5ae004542d35ade977b52c75435a785a67b459c250ea113a0c6b04832a3 0xc3927b593ac0213bd82a4cda69f0dcb8fda00a3c21b19263bb2f94a032be9f1c 0x440b631733ed77e890696d9e7960dcc95fbb9173824f74ce715abce58e9eae88 0x4791f92385ab1ddc70f4049f815c5b5a14af35ab76aa741c07b47ff82d73899f 0xe7e7a504cff42d2b4e73b40b5f2d149f6680fb67080dfb2b9e0eccac1cd2fbdd
; Twice 0x6384dd1ef6c463554450357f8be069f11113b2f316cd33d4ca419a3cbd486fd7 0x7846fed8c7d4e97de33a69b8056f83ff5e0c694566d58c8d4251ed831f63ff0a 0x26b007fae078e122f3f3dabe84c35d3f0921c4e227b5c314f9cba5622faf70a6 (-0x323d3e2ff8b422995e537242c609b79c3e8d0c005e129889cd553048ce7d49cf) 0xc8cde396acb5e0b7f0e5226e51dc9d2320c0108733bb52616e07c7dc649483f9 0x5567daf999a40b3fd8783207521b8b43f423d004e7ccfd0a7c6d0346a02072be
; Twice 0xb45592591e2dffdf5b176d5749c471518f60ce98b204ab44b7153680f279242c (-0x16033e70a30cb3f1454b21a32c6e7c4428564cc288e010d4ef735ad39af3688c0) 0x7f0872685450f2384f196c91b31b8b3216ab5037a25348689a8862ef3d9442c6 0x12777e26a7b5b43893507e12b81c28bf2af0ce8f6fa25cdabd8c4607bb35a7be 0xae96ce6ed3872726bc5a1a4b2aa731f0e8e548d68a5643db0fc0d0ecdb1fa264 0xe2291fb165db6bb21448b6c6b69f1123d6d3047b0c69ae52fd73113ea451ee9c
; Twice 0x321dc2eca1f2789931b6ccdf15054fe924eb1e405ad21aac9bdff6ee69dc05ec (-0x10ca76645cc53a25daf8513a39f37e3921c406f6e0891f40810ae3628c4d1e273) 0x9cfa39a371a8bd3d3b4fed0cde10626bac0de1c142802962761d35264d60fa7 0xa97e4e73ec407fde69dd77e5e0b145a355fc69af8edf257c7540b807cb9d20f 0x787a1e0b2cf3756a28337459bb7b8b4856681abf6d434df9fd4afe3e7459dc6f 0x56357aea4d21f6ed9ca44f155d58a91ab7593af5dee3222d112682f80f242a4f
; More 0x8b21da1b7a05997a3ffc356b34ee3727199d8b74bebcb062bf624669a1c71e0b 0x74624642c18ec221fcf58429d50baf07adef215a63e25d90e833542f4624e07 0x4b9dc754170820349f26a513a330f2915afc7f827753952e868412f788b497bd (-0x2025275a232f1808466b49723429ca01278a3367b0716c4dbe316034c5d7c93f) 0xb39f9079b94af1bf98ea907e72ebb25549d99aa691b41f55ff049322ca628d31 0x96149afcab9824cdba43da1ceeeb41a9a7a24df088efa5d0f47811710b1fb81c
; Twice 0xf70df28b728b3e69a12868770a43c96f40cf9d36d7e4aa97e6c56c96a567f44a (-0x586d78ef97853e8f0c22b1d1b12c71992c263f8116f4384aa8006ee7f1aac610) 0xee6beacc8d6a2fe4a32a6780b87ce67129bf8427d6281d6f24435073750cb8c8 0xc29d535ebe2137a9fe8bd14482896f1114a67284a164ff70952da6382438344 0xa704fbd495cc91f21bbfe940e98f10df317a2b8e52c527380eee0c03c0f0c3ca 0xd782348ad5838efa8838a408c85146d21e04185de4abff3962a106dd116f2eee
; Twice 0xd1c1c19ec462cf9b7892e222d37d6b18726ef6e766fe931b22a0ef6d78609d91 0x1a425023116095b296da51c2b3d93c11a9c2f29d73a64d2c703c14b19f74fc8d 0xabddf0cb6c5c2b57a172010205392da72ea61e4ee6a8b82429fbf34e545c7768 0x47a8d21112b4ea47dcf1e4813a1ee5be5125af356a6c1df279d0e9e13e86ae1d 0x4f8fda0236caa9a4e9f321912d66f6db6fe192dc0eede47da6757eef50361bf5 0x7ac7669d64946c50d486a99cd258557cbecfc571bda754131fc86a16479e2fd4
; Less 0x172b19dc6a7c7bf86287649de191a21827d01880bf3761a1b852091eb352be63 (-0x27dd9e542bc8051474dbb8882e003c030a0fae72a4d9c98a93a32d7983e8ff4) 0x218c5e74fe3b49317674595c3b17aa2fa340343cf8881bdfced75800049b561 (-0x1a672d6a00e6cbaaa64a37b68cf12ec057dac0fa412891a0e0b0fcc697ed7e7) 0x61cbb7f4c6feb3835a36e7f38a60d962b5eb7a135758e71fffa7237bce7df11f 0x5c5ea2f3bd7886685975b1dfd40037dd2aacb4242d3b1158c02f7c1483725d07
; Twice 0xd0e03cbc23547f8f3df296f0e73f899681cd29b66cf9a36ed481c06b3e9146b2 0x26a78faf4265fef69102f32f7dfe3a71607b5bf61286997a14e0fe87a24cf384 0xaa6d271cbb7d0517952d31fc4a9b25f960a76a6a09414327a76e306133ad3ce8 0x1a46804a91d0aabe20d82b023b1ac77ac53c4588e7db48e63cca518289109c7e 0x4197aa4a2417803b9453171f381e613835c82300f2099826fe4ab2e4f7db2e6e 0x645f8b64c3dc7436cb3981ad63ae2adec61dbb1d569fdc027a527a51e8470489
; Twice 0x5834ae5a117fb47e168cb7d79e5c558009ccf5ed204f14b0c24dec605e8380 (-0x3225effcc4ef25c80d5ba8796ccb8c6ed576c6a2a66a731729afb234d4659937) 0x1e6442b555c1ba27226fe3fd315af6dad0d2316a2a93f064714c2dd5d41b (-0x1631f957d9aaa567450624b56fd911ae00a20be41dad1c5ef1bcdd13d3b0) 0x41d8151aeffaf270dd760dcaca9c3669dcf74fd9c7c0968fef73850713abb73f 0x3341e678a0ad4d8945faa9b2a19baa8b1e71bce2f163a76b42a2a71aff9fcc47
; Less 0xd614d9da096ab4e054f95cc2f0e47555ed9da091a15280e0d3316fbd318fb6b (-0x227ea3f18fdaff0c6ac5ce1785c0db681cacc55ba10e1b634e8c84d4a46d767) 0xb306ddebfe3a1aa98d0a761b7f848ecf8696e2135cc6389405212554eddc0c (-0x94d518c35df05e40e7a38cfbc3307ece9530b19f8a69da7f1d3669220c128f6) 0xf3d19fa587a99cadce1eb84c76e9e545af9cfc36bc62d138a6d7fb8ce5a460f0 0x6c192852116cf8eb1e8f036541e22b1ac8c656832206b1673314f9cd82b792c8
; Twice 0xc98d9ebbcfa1916fffa43f542584883ca350e6649c455790ebd0189d7a082622 (-0x20e6fc71c08f3c2ebfb0a2a680a1e15b3505ad7fb9760094e95d999a7dc37ba23) 0x9eafb19bc80a7e0bac21bb2962be4de2e59fc7d80edd4d664d86181bd9f33d99 0x3c9e71eb679a16d4d7316cbdb0165d3fc68dd338b9d6a896e3e134c408aea72d 0xa6d3161d761d59ee91db963c2ee3d19f8e419bb387d0d835d2670b50de78983d 0x186ab4f272a25c4b6ac5af30bd7f2fc360f7f629a0b69f18abdb00ca8d2a4e2b
; Twice 0xa4f669decabec29710644e92e3a14ede2740c3257a74a0f60e931a34e13dd83d (-0x126ab9317bca14750cdf47eac4c5fab5b99a001d2f0f1d412123300dce16654e6) 0x6a4ca4d5820738f95e199c459a773eba5fcf89c3233bac914f3ecf96fb411a0f 0x11468f3f7b9659d78af8f2fa88d072d389ba806982fae5b27b783615eaa21a10 0x8c03dc501fb670b4ab281a78c0cc83ee5ac09ca844160abb83b8bac93c08e81e 0x7c5509ba5e4aa21a1b420a0369c527436c5ef656ea3f850c338ea15f8511eb48
; More 0x90ad340b6d508adb805cc593a6bdc728e71c1ce9dd57360eca6647c2d62d86a8 0x129b0c08f11a48458c77a4738c578e158e288ea6063fd8a1dfd3398b0f2cc813 0x51c34fbc8ec44fba2617a63f7485c654094dcbcd2b68e720b7fcd81faf1418e4 (-0x30e7daa4a98bfdf23bca4bae34214c3d289a7cae15f7606d7b3ac38aa2f7c135) 0xe28d4ad901302a54507fc28873ae17f9173d41c6aec16f033e644fea1856bc70 0xfeb7c5ee06509e38f768e867bd272a140d75fda0e3f147e37c141ce5a95611b3
; Twice 0x97db18fb24be89a79614d6efb0828187410a470a85450e92a9b43ac547033ce9 (-0x12b4886c78d1095291ac0ae0189c6e94a12bec9baac6cf947b1a25859d94c0cd9) 0x5a1432fc5f8de4a409f88e2a20e47873c5eac8762c5c310081ffa4c0a6a6cba1 0x23ec7e0ddc5b7b86b7b56288191333e39adfc2c6b823997cf0a71945f6139359 0xa5fdc29d24bcf390fab5991c5d5a0849bfa92fc9437a67eb2527235a2fed5ed2 0xc2054a10f58a3dd074c6fa97b1ae665ea2061d14205e95eb0c3a0e9c716ebe74
; Twice 0x41be3abe218456d85120744eababb1b97a396fc0f4638b47b8e48211a88d9bb9 (-0xdf3c40ba28e23046af0afa4416f0a7c313ecfadd9a0c728c3c38a320a89f0edf) 0x10e2272fdd9bd0204b32e0d597df7320f374ffb1d4305d5258df50cef03b2275 0x1fbd1fa4ef6755f2680624b0acfb0678d73e89a534f3e00713d78eb5baf17455 0x2a66f84b9df33b4d51b7c9b31f38f6d24e3c694fffce90990409c76448e3f082 0xcf9daa05b559326a0be01aa7f9f8109de00c3dbd6143ae8ea3763b96372dddb1
; Twice 0x1bcb273cf2eb2d65cf2b23160ca0afff2b16eeee8e0c1ee9aa531efea6ed9839 0x1802ece30051828377d2a9d4e9a939e92e16d2ddadccd969b6cf13538a171d37 0x3047b7e1eeef89201a7eb9d4be8e40b8159998b1982ef21b33adac7a01ddadd (-0xc646ccf0fbf23ff99c199c280d2a8948b5ce5eb4f14d55cafe94fa8476c1ecc) 0x9c8b6de3a7a724009876986a9f8eb4671e53c80279feba5d701db7082e63b68a 0xdeb05ec64895065364fd4edf4bfa83bb083057afcbed2a9a71c70b5c04f62bbb
; Less 0xcf7f18fe6ffbe6a07470b9d2cf25fc30284e0d8ca865c2c061fb3d6b8e79d151 0x2815084631f9f0c4e8b4649bced8b2bfc63ad23e3cf5d9446fcb9e01c000197c 0xa82ec985f02bf64d3b97273bfb7f379c8a5251cd130bc1791531784247f9ec1b 0x7aeac768a2c5985ee827746a281d11586e2295da41b9f1d929c7d6ddbc81bcfd 0x4e51aeb79293647c6f1d69d1df2f411482e1a033ea2b390fe2979d7a6b4ce9c 0xe46706b355ba5444426c4711cfbd037b585fc48232cdedd4fb28936e14ba4190
; Twice 0x7707e54177921b960bbe9a0914fc634a4100a5127c45ebfc00499d8af7538238 0xd41dfd51779c755d41ba3a7ff7daeff3bf1b5dc914804712fe660147e6eb5e2d 0x375857616b64e7ad8a92042aec96f5ca26934d874aa53af6cb5986aaa5f371c8 (-0x65853f659d53aaa5ad4340b593a5327a50a058a9fb8e1512aaf88e5469efa6ed) 0xdf3c42adccaa76bd74d965d14745eabf128bc198b73fce8115a9e7e11b16c0d0 0x82d0dfa0ea82bf7d3138855fce8c7b278b7d77e783e62f3e52604e989c0eb423
; Twice 0x49279b0a50054e5b9436ce220430ba1f65bec6a5d381abb37554f48369622356 (-0x1fd3a856ef3c32eb607fede36b7e28ae1c181f860a4a2f725d418d318c1049e87) 0x14e79c8c9194822b5d6ba59856af7a34566180ba7d72ab7023ec347aee3dddb8 0x3c8b179ea81ca55b48910e6e701dc37edafc825e783cbf185e282d1ac6ec7859 0xb5e39fa82b654294a69e0d354fad4430f42f214682cfdbdde36255856c8fcfc 0x685263a36a1de5f0c8d18bede84895d3eb03eed4bdee7b74c9243bdda9eb896e
; Less 0xb3d36aa52c50b14c1fdc0cf5d6f5956294512163d472252b149072bcebc4fa70 (-0x433dd31bcb1e0069ec9879810fd693e258b0755c964e3fd0b9a20c7cc48e4d3d) 0x7e5155bc72fe6df5a73ac3fb1dce5159dedb260b94db8c09666297cacb186120 (-0x1e3c62046a51f448a67b4c6d2d41587da09df4a3683299dd1443885d12df9c9c) 0x36696eadec22ebe83d5fca9212cc33196d5f2d3b7be0ae6c630a0906ac35928e 0xa31075ba7a2fb3ebb645cc5600c8c186a998d972219064071f2f706c4fdad616
; Twice 0xe9d302a2aa2986ef3a70e66632e6c90b5884f65bfd764b4d425a5ee9f54fc322 0x1072ed473f804aa43d45ece70c37c7730cdf39a27e46ed1bb82a7c717a23c7271 0xd591c8ba477cd2d1cc6c953b4deaf1d97e3e4b39da57120b653a343a4def7954 (-0x3e86b2002329c9d684a0e2f63900f34b86103f542c17d8ba7ace0396b053203f) 0x7ade31376aeded9c435d9e67cc9195a680153e25ca6d4650649e126a0d3d24bc 0xc5c81b2423d121b24949a60328a312783cf6849421a834d413ee79c73645958f
; Twice 0x90632d3c60bce18bcfdd520ad5a6c9339fead0273d3d710f791ffde4c07a7cfe 0x2e30c5ecd2c5a1b499af4314ebfd5c062ba9c8aeb68c8b2e46f894ccb554ee69 0x516fb95042f5516391e46eaf1a389d2d10912fe7fe787ae48228bb1a1438888d 0x23a4a15e646d7c9d700d100fddf58c0514377885a72f29518443328b7f1dd4a3 0x3bac26d1242e7afc051e1f1a720c1dbf5ce60f206e8528b3a0653cce58dd4b19 0xbed033c3f43e4f5d998526d98fb4659c950ed7a0cb67615400dcd9b3a50b22ce
; Twice 0x25ca2527442a451d3a48c2d5c1e5935ec0f0ffbf15ec92133d69e924c2d881aa 0xe9b1df15bac3620f582058a19b50e57c0f429d837b9a7f358460d106e1723b8 0x5940e5c06a438c5950b2b01e37d0072ac3a47df75d6efe0fb2c655b18eb271f 0x2df6dfb7a6248dbbbb2749d33690511121b9fcf426051c5aa9b373891578f11 0x283618f07d9b5e047692df5dc8de9cede7c61d41079cb910990eb32f1fbd55d1 0xb0f131127477f4ad6deb92014510ce04113d1fa156ac93fdcd766e017ade9613 ].
Definition key_4 : list trail_step :=
[ Less 0x2c4e7b061b0e663ebee078dd9ff2991e980a48c3847daadaa1a9c17660e7f8af (-0xb934cb6dfaa978ea0fb9eb569a848a017a3c590fffd6e7402bee6625840e54d) 0x7ab125953cf606a49c6e92406a150d0099cf45d3fadad1784fdff63f2f6a14d (-0x108276542786427b8f460b792adee6d856703db2a550f33b103980af9f63537b) 0x879a47453abb07d7bd1669e2179e4d8f447f8a1e64cb245fabdbfef8f8061087 0x48b8f321c3d68a14c9913ffc053c0b62753ae9b0f718145313e10344dcec2408
; Twice 0x27ae37acb1edc5ecaa56c349ef415271f232bcc995a9f639c7a4b6957a03cd92 (-0xc0f0e74ee48370bf11e24a0ac728c7cc0565b9cc929b708bd8fa985fa10e7390) 0x6268b865f3a860140ea47ac625c8d635af33daa1efee3145d5e9cf4d46458dd (-0xd25203f7d3f78e5a1f7790d30eb477093fa8ef6c8f7fc50fa73af9f6cd219da) 0xdc687985638b499f0f586ef29e59e105a5d4a90c2e61dc960f9722f482d75f13 0x66dd6d134ea4b86f6e2b5c0a418ee555acec75f7743d8ab929abba1e4b58da46
; Twice 0x36acb4e38280f0536ca518d06d8263d71569cf84b5fd4e1eec1ce9d0d4bd3ac (-0x2368c2f341321faeb0cde4f0c57a76bcf25ff8118f374690215806918548d5fd8) 0xbad50d39843cd2fb3acda6e28bf2b669c19cbeea651310ec4377caf6737e8 (-0x192da4752afa441843a471ef84f79f0337f6613cc889008e0219d623d3b28) 0xdcde5d97f8a40e3f1e8433dc93180ba793e7d6559db1b80541492c80d7857552 0xacd7b03e0cd444fad3a2ef39e560d06f8184a54538250de66364136b39a80b3e
; Less 0xa350395227d2ff22c0e6d449f502d9612c0714a51bbc3842e8e5b9cbf25c01be 0x4895126fc2813161b0332dead3c79b1f334c5143ba0a337eff499df15d77f9ab 0x682f4222e7148701b53eab4832dee5c2cea0ea46cceb5991c062363b4fec88c8 0x8b3251a4604f8e084e375d244cf3db635debffe87b56f74c210bc03b30691f5b 0x2ac33056228d6c2062044d700c9ef4afb56922d7191366a46454425186159e4 0x29a7bd8a01bc85e88f13fa60f853eda45e92d69b033500db2cf98dc8cf30ddc1
; Twice 0x82f31b8070ec0906d988fd1637685d708467c7066c06e2e739ae3f59ca8a4db9 0x2a880c0349f3fdf8ae1b59fe5f432de5f38d109d5d2b049c5c711fa378ee5e3b 0x42fbcecbee764052ab2a66e4d6d18901e0517f31a4b28ceee013047f50a98262 (-0x4a04de9d82eb4381d944623cd769dfdcfd33612675e7e48cf6ef08966b8e5637) 0x93604ae3d8fb8b0d7adf0944015e0aa5f79437a85efd43c4e3ae2236f6f39e4b 0x8824ca8ab974f71b245d3c9992bde196be55482749237f6ef4910923c9746299
; Twice 0x12c78d92670e14245d822adb1b4f4ef7fa2653e69600706a7dfa6aa6828f3d86 (-0xea8dc26c0a10f89fb193fdfe9386d5434604ec09b708db2b4d3106f7cefa2444) 0x160ab75ffc5776da3cfd7d49902e74ee2c184b3b2b20f9f57b6465078b680a5 0x2156d882355f7b2cd47655eafa99661476d26e47eb4ae7b1bbcfd1f1bba15 0x9343e3438ee17f8a607f109f51b7de54c1a266db8650ed52c95e8e4c6d4c6633 0xee4bb5d6991931dddd79e573e55cec10cebeef8584249583fb7321dec0f46c0c
; Twice 0xf40c204eba4476b73d6129f63be6724a62af81040ad686f9ee74483821bb7204 0xc831cadf66e82fa0227d7c3ceaaa711c54537a151009953f790bd75425d7fa18 0xe8a71e2a072edda8b3a46e6b3d04d597a5a394325ffaa8305e4691df04934927 0x77fb920b724ace5d3504d95a1e17dc503e77e0d542b31e9755d58c25ef3f8280 0x1567f86777be34bd3fe36941370ad0609e6dcb5b01ff8279c5bf73aaf69a0cd1 0x82b7c73b65fac458f93c5fc972f9116f5d29989f296310ab43888ae561781ffc
; Less 0xe5b34858569c77b7fadafffbc0831be6df39b4ac03b057be836a7ebedd941646 (-0x4ce24fc6254be9b95291a33dcce19671ca7144b559c515ca9a52748a909fec31) 0xce1a3cfd1909192e893ac41533fa79de29df5ec167b71406ae2a117c1aa70167 (-0x1794d9703e797a722d4b306a961725cb7e0a27df51e833cbbad6b50c8d866287) 0x2fb0032da883ded19edce469a509c0294e959ea296967fad77486091ea544d24 0xffae5a3f96f4039d147a1280d584ddd01110e15716c88a76b0a4d7269390c4cb
; Twice 0x34fa52e4cf01e7eeac71447d80e369b56284ceac6266ceafd4e01366680faf59 0x4f2c8c39be7d13291e4faa05a32879cd07e9c5c8e147a67fb1479d7f0d1ba807 0xaf6a67300cb1d83856964d09c99ebe78210697b82cc171f7f6bce8e0a9a0271 (-0x98d5d75161fb2c478e651183edad77cf462bff5ed838cd83334ebbdd4395c29) 0x5dd887d1845c12f35b4a6172de886b2a1d382ddc493881ba3f6ebdc48a7a351a 0x5e4f9271ada8000ea73ba28643b9c8945a18fa022e3636d5f781c48f7a0d1086
; Twice 0x982edcb276ec4c1bc61cb10f8f6cc512b4d315854536e62a6ec64d30a37f8723 0x8ebe7a0ce9d9bc5156733d08cbf8d234674ec31c83b34b105ab71fddf6f7b45 0x5a77aea856163ec40b841814a607bf59435933413a55a2d7ede21dd96ceb6091 0xe5d6f3f286cc1f0b039d637d4c4f718ea554871f2d652dc4f7b533885f1f24f 0x45ae68144aa5420fa3b24b096de49b100ab915aba058a7defcb2030e4606e526 0x76bf45d979ef827d2b331786d8b4a585c9089b060e88740adfa1f68a3cde7c25
; Twice 0xabcfec8a6331b7a811145682bfbd1f2fc0e3c663be4bc69bce27a82fa8f1beb1 0x667dfb4f2db45653a42dde0fe3d1dfd34e175bb54d3586a516604c0a3f166dbf 0x734f6ee1b62fb6558e24704e2449c769f85318fb4b030d554d6e58cba204d794 (-0x30dff0f3b9d41b7c6d84f4717eb0ce99929c1b1a1b908939c9b86dff4bfe0742) 0x8e812f886f11c128eda127d40b882f0c799c6f886aa793170c82d63dfd4443a9 0x3d6aa092210e6bafccc86d60d7b34cd067fac6d85151e952901b14a0483cea06
; Twice 0xee6912ccb3beb3b4e999aedbee2f69de8ccabbe40efb6b9af5ff293463530831 (-0x7b9608b8ba1e131814409a797f915d4a74cc04552f6cf970a98e7d61b0d8459c) 0xde078a15e98aff9e9faced473c4f3e96e6c938d050c50daff5108639503d7a16 (-0x3a1c68ea97290ac050a979f84bb889411338f6a25e811678696e45788c8cfeea) 0xcce7277a062688800d354dac18eb71f819eea7e933675817108d32e98bbe0c25 0x8403a73952eb17b7acf3da1d8084686881bb4b0f15ecc671b880ad69236ed754
; Twice 0x2085b2fad0b04d869d770a3ae3aba37fccba924e76ec42532f687d0b73d48049 (-0x1ca78d8b82b9493e4e64fae0bfc670f0b95ad1553ecd1fa04eba35ec6872c55e0) 0x421b2922e0c5d15cd6da00d80aad19f7c60f083bd8d7db1f681ae7c3003cc96 0xb1620689ead8c8cab283d19b21e837d34a7cd186b4063e824cf92572dd2b1c7 0x75a2c0997a71f9866e90fb6cc9db795f954d405de231f43d8caa349567b8c91d 0x8be0a409262576f3b78955159324c9025bc1105ff270e6c24477bf0c07f7bb
; More 0x750392444b03197bc6b5fa42ccac0c4b4866f5433c4cb629c18d90edba2d150a 0x4d1a4b900eb898c6bce9a1db38422f4de466faa01f40afd6af0772360c45180 0x357c43bf6338d2e462f7178b30642a6bfa466bef892b24a902a915ed7e157faf (-0x33d25bd9700be78dbdb17fb4f60ff2d0ca4eb4067c247962c67ba0bc4fc66498) 0xe70289c9a03434111ed8dd9d40dde696e9e335ebcdfc4f95b8eb67192d029860 0xbccde9c0dcfd19ca787df20d1a130784b61d88c718b61cdef03c3f98c4880c0f
; Twice 0x987dd30d8a085342e5be616812c14ece058f6dd84cf93a7c1fcf90aedec08a00 (-0x19072a017cd20b9ddda66b925ee47eccea55456c6cb33ff29ab7bf43952e9c003) 0x5ad5a87837f7a9b9a5ce2664bc99dde2445c88cd49f2c5d133efd8ff81c884c8 0x730e043675c53a62e00ee6bbcd092cb5cac1d6b74ace96ea70154e2bdb691977 0x25dba9ce06b71912afd317b05a235b4320417056d18be57d18e722f472275408 0x94bc64a06813e9ef73bc9b259124d420f8bb8141375d1fde04cd18d4dbb87d68
; Twice 0x50bc9c59867b6ea9035031d9d256450752ed5ba6b35cad30d524fc8a7d08b15d 0x4d0536916c5a63cb5c3ad0f6c2fe72c7d9527f43fd0bd42f3f9dd7c95a1ad32d 0x19766cae107e525758ad438523ccbe836018f8dc065e40e5cc5b952a4b153c9d (-0x330efae0da5136db9c5f138942e4abeb0f0e38b73a23b5178e793819e5d2d2fa) 0xc7c11b6a25509b1ab3b43f962a194942ef1d76f8033d3d7666551d05c9785056 0x79e47af7844f6a3b9881ad03b4efd63b73aed1881652b28ceb5c99f8f271948
; Twice 0x535fcc81862cfabc5eb4f63a180e4bf28bca0c06cc7093c8b5a0914a26ac21f1 (-0x1cea308bcf7a834660dee2ac505542f686cabfafe90b830e0f2b494d3936092e7) 0x1b27427583a8b1cdd4fd187cf052b6fbea5538f4387fce2c9346e5cbe20862f9 0x1ecac6be179097861b50963328c7c08c17a532b718276566c392b41d948ed0ea 0x6935178bb00610bb7ba85707cf1949e964c4e27be2a9f6425daadae57b6fc72e 0xdc1624b9eee518eed1ebf7bc77d56cb126aa1468a8ca66a5ae1c549eabfefe4a
; Twice 0xa774fb0c714a473610ecfb2547f54b08fe605761fc6cd2f45762241ac1850ce (-0x6fb6e8802df88367c637d55a3a70332f2c9aa7f0c3b8c79331272a71b099da4f) 0x6d89d4ff22d0cffa4118dc16a0a7f86e8f3543c7b684c2492d1067f5813a4e (-0x4a9cc77ec51086bbec06c0bce4057fdcc9570b3d3f1c2f942d4cf41f60be4aa) 0xdb456dbf963a7edb8507dbcf3104a73b4b997fcc0747746a653fca1d0ec311b6 0xe007d965b9e8d1d33236557d0f2ebb0f346f0a7c4d2ff7fc2b873cf26ce4a39c
; More 0xed8fbd96b940056d4c1729aebe16b04c96bbfa24223643970ba29421b83968c9 0x681935caaafcf5cef613834ce076842531660dcd7a569ebfb62daa24dfa83187 0xdc7375bf4a3edb9701e0a12fe23dfc4a180169cdc81263f22a94e7f8549ff0bb 0x5b99a276aafd1b3bf5ff9ac121cb965b637f943c00253b1035d2e8e2eb82f3a5 0x788fbbaa7146805f115f804744913497da3d468b4277a822199fe3e831aa0a40 0x24f0884e38477bb16e30b7b81cb4aa81411c00970d04d0664424b69bb931baf
; Twice 0x32c6588a8284ee27c691b1347edc8eb8fca8d5419f163e6d81610c8e60ef6ae (-0xaa468ab6c01624957e010b57960fa1a3af974de29d900488f487dce4d816c5e7) 0xa12144339ef6b977c8ccc37fc85a2faff9ccbae31a0e1043255f41a18d7fb 0x2d4fbdcee5dc7fe0e147e7d9f1e56214bc417f6277cb729d5f74a300010277 0x6a4875064f76f31734a8c6410e98268736c8a36b7666aa86fbd0a224477fa1bf 0x30942cc4a24f9815272ef3a1fa778661859562dc29911154ad06bc64cabae476
; Twice 0x438c1a8b76881ea9e6aa9c938663708bb7086731f1fc71b0521208f78ba0de27 (-0x6abd84af48476e347da6df88d25c80ca42fdd041e453ec78a99b00862592de74) 0x11d2a2921d28278e18d4b18cd34a339bce5b78e6eca6824259f71e9d40676874 (-0x2459197b06da61211915e4d183a7ab7aa609a9a1add588abbd95405b4073eff) 0x72e49105a343b036246fa207ccbc295b46716a2ca48429dd66490feb7cefcee7 0xee32d36624be77a88411348cbc342a82490ea5113da6c8081b9a55ac24fe4b73
; Less 0x6249e5f90e4c3a6065f24efe5ae0944805860b8178d008b039e972cb2ebe09ff 0x2fea1896b26182dbf48494f28a5e204ad304ff8be78504f64e28141e87b7fb9 0x25bca967cb50b373f02225b703d8cc427e43d8f990535facb8739314e504e035 0x1da78adf5dfcac69c28dc8136bf775332d7ba8a2d2b090f8bb8aa14e95886e9e 0x25a7d71b213e21350497b9b7ca593c5704628090d656fe14888b18f80a643ab9 0x983ce81d36afd15bccec3c125d6f63d584beb4b199260be44da4ebdaafec5afd
; Twice 0xb1da2052a5896ad4cd246d23f936dad970cc9fc7198c7f7b956e6719e2aed831 0xc2e9d07d6af84b29aa7ef20089a7586b1ec1cecb170b29c9c3be32da900f4836 0x7b8f5a8dd54e126261a089e0879d1d58af01912bbd49aa814501ee253c7df715 (-0xad70a41f259de9efc998c10b7d2e6cd2fd0bd4a17bcb905fbd8aa96ca80d3e9) 0x35423aa2d039ed9b8a8c1b8a885a3e0ec06a1e034c5c385fc8de90e844e43b04 0x3aef998bab491ad5dd8b001f74378ebbec58abef0a6d1966290cba1e9d97abf
; Twice 0x487d17a489b354884b5d283eb36de2660e5837f1e900c73f20c9b984ab9e4a0 (-0x211c17ddfe95f7176bebbd85eb0db406e983442abe03e047cd1d30cfa05b1e93) 0x14869a6cbad8ed98ced68d0d25ea500f2995f5cc77f294fba8d3328eea937f 0xadbe804e419d955c69e37c7749de15993fbeb7e27f3e9b1585502949d33adb 0xee8bef5675242026e29e39aa205a9fab1b4e8865a5224574654ee8ac08f8177 0xc62d64d98ff030bf12ffeb403b0d1afdf45fab704c71ed5b16acf26a63144c3c
; Less 0x7a7a7909bd3c6b880745f2ba349c813d4083c67de7f338478ecf5c9f87d6cca7 (-0x2c1a8911c6be7b5e718bf05e13b51d9ddf8dd82e49bb04a6610066a48e543296) 0x3a98f5f519791f4afb3e2ed4c76f2643eda33fe9e547d779ff5c600ebdcc5f21 (-0x2c4411faf84c29646a16559d622c57aba3ee4337f357179f84d7bdf5de6d5b85) 0x6b6ea27ac9946f2d4f4abb590d79103ee3960f987cf619986676b7c31172b005 0x2a059dee1c39f3ed31b8f878fb8c2c6691cc26cda4c0cea04fb5cdc6247dd19d ].
Definition key_5 : list trail_step :=
[ Twice 0xf7f059658eaea4c7d26812ec2a26fcd8cde23c963665aec0ca474d49d7acf3c2 (-0x35db4445654d9c0200ad2b27bbf436c00c49f582e0db5aba662b3127d5291fac) 0xf021ae2aa719fd17998ed27ea1005a19b497daf5eada4ad22eec987fce35798d 0x8bbb687d503406eab1fd818a96fad24c1179e8f380facb4f1ca50c669703972 0x626a3b9bb226bde60911e9beb2d038e821c8e8a53d7386498094d7e5fc19f887 0x8de15884573472efd1b86ad9a83d530268650f2a31080f3469a61671c3020f51
; Twice 0xa1d8162069b0474b732f78b6eee075617aeb06f2bf611ca86f8118ee8f5f6991 0x41e470f8e1f7b4c29627085b66decef2ec950121066088b2999e244055e7b9ce 0x6651823a83dd2ba437b49de275b4c1e04d7bc0b35bf816ce00f80dd0d75b4f5f (-0x7ff18b4dbfb93cf9e86027d82a98204b983d8ba5d67dcd6b2494d55747581ad) 0x6f104463540b6cd3edafe4e95ac5b1ea664a25344e74256feb6f9320624da272 0xf9a32d1d0588700aff134aae3edb40cca0e8216cfb0d02d3dd2a9615ecde7
; Less 0xb8180c52af1ee178888abab28a03212212cfd955284f465d17146549dbce46d5 0x2daf1bc7d9f5b7bd448d8f135edbd52955fba32f9b7d1350ef361cc3961b5d0 0x846293f9b037a900436d156b1ef6e87ac3adbd9893ee8ffd6fa1f792dee4c17b 0x151ebacc05430547af3515e0efc5986fa9be3339ea1d7dbe9dd8e634ee6a5878 0x51b1b2f90d1da96356ccd6057e955491b99243fe22bdef63c31c360d246389ac 0x8cd2eaccfa54257f3043ac4eaf7953db0520b62862720022e1dd0b8364ec4b4f
; Twice 0x2fe65cb655ba7b90b86bf7a64fe1a590ec400d040904708913a3e741dd33930b (-0x1982e89a75bc5c1d3c22684fc4d35a4b6cc05ba88d35a823765cd0d00310901d) 0x8f66555b5a67946e3202f1af591d6589a74fc35fcc4d8a5019af3291e11badb (-0x1376fa25b2ae1ef75646283532d3ec38d762271165e26ebbd7c80b0a9d71f182) 0xb9b92430427d939e9e0415ef3c37cdcf4a2fdcfa0d1b4149841522e9be2249fc 0x1d7ad2dc15c47e06eb517db53369060ca229b2bd8dff9e18df12be597a118fbf
; Twice 0xf8f5555999a9fdae221715c968df16e95069aab79d6e07fbd224d3366cbb2c2d (-0x15ae0db505d8760df3382894f5bd96e15deca5805b1ec31005bf0bd8ab7ab20f9) 0xf21c407b05ca5ac21becbc7f1d647f2b7870403112dc3257e1991c4393269b65 (-0x309c073e2e76a33567bcde27e8ca80ad15dd8a4be3407f4fa8de71ca013e6967) 0xebb5249b05835415b76bdd1cbe3dda7bc07f72b3f4b931efb20e1d8ba03f8756 0x2a99924bc2a85fc690364bc6e5680d8a9e7ac4ffcc7ab5acf82e4e50f642c608
; Twice 0x686f5ea87646727541650a6ad4aa4e3c9704ecce8057eb998694115fd961672f (-0x268505c9b51cab3f3e43e534b0519e9c52a3989d37d541f6561dfff2d9e4fb447) 0x2a9aad5c43caa129cf2a1cb64ca7f400c4886be1736a65a964f3a2cbf6a20483 0x2815a957f9572c5144f03ce5a18cbeefb863891bab8a56455dbde3998577988f 0x8972e3e7e0b7a8775bd4d78843b2c3410b89767cc55ad15e81c48093bf57d078 0x30b93cf732f04452f06af398e91b8906e6140195c5c091e83e455e788c70b749
; Twice 0x40690fd68f1e0bf6e51655736ba8ff6798ad085fcbbc591d64548a24a400c022 (-0xc4dfe603a317f4b81d28620d4aadf0b62d2afa9bf775393f8f07e304a6e486a7) 0x1034b30956bff843a543e0ca5ebce6f1cddd1237fe338cf9fc32c960cf52f95f (-0xd97e45ea12307758d7b3ae321dd8a33a64a021de5ba78798f6945d3b8b0432a) 0xbf79c4ba98ac87b6b04c196582192f6c666ce518d1e8d298f7656ff570d65cf3 0xa98a844fced062c935c2dde66edee048adefa5d6e6d12d86f7d12a5072b41d37
; Less 0x32cbe1f0054b509d71f3ee751a955124a1a62b8d4179c31835c3957c7116fcda 0x10be558fcae7c65cb6ae93d85426188f07ea8e268e8f79269ecbd2da110c6ffa 0xa1446a1e635e1e9875f8e1c7be4314bfcf8c86bc0438ae2067441b5d17077db (-0x47f2dc397fe1d27974cb12eccd3424b2c99bde774ad039a07c66d13cd8ed658) 0xd62364c17e7c920671f66a462619a6724fd6732d4db8ef6215199cf36b3741f6 0x2692a3b5d60f99d70d4934ea171ac22904669a4cb4db16c6a2d51fff268913e3
; Twice 0xee76ce6669086556fe74727493f800e77d8d7f1daec976d0d3bc2674e17d245f (-0x1d1811e428bfaa03800425b56607b6e6dfa1d6baf62551701a6e4b08072ea1151) 0xde211eea363e8915e6512893fdf42c5903b5fc829e90effc853389d0f2e75357 (-0x249f9aff6365a7e047b9f08abde9623c2b373f05160774bdf861250be8402d4a) 0xfd7473bead5d97bd4c5e8b928117afef029a65c63a5621a8a75ab11da469aaac 0x742662097b481d5af1a29d33d88e3535f102a1dd8df45667b4df9d2189ea4b49
; Twice 0xba719f69b904ff47d4288add3443be35f045f832fb3225f966965e1828c726e1 (-0x2479f44424a5a58097f95c67d7617eb29af71d7bb6310445dd84b51985f0d57a5) 0x87c94e14473e66eefe1629f3ed446e62713383d71a5cb3dfdee7801316590750 0x1c121b2a77854f568071c8f999383351121f333398176c931ee97092fec7a13f 0xd6e97142cc888af84ea5cff0a6df922e464776fd979f58d758417b1b953b43b9 0x729c26c7b649281b9e2832ca54786fa9fcfd82a9f6958a3d95b88771aed2e389
; Less 0x41761ad65931e30b3929811a1dd6b8d7f65b7a40d9619c20b3ce18567d50e95a 0x1b91f7606625103691a980fb04863824343a3db9f3c4e61a9169246d3bf7f430 0x10bd301daa72fcfdfbaf2aa9197b84b9d68e75af494495feb98703bf55f8b9bc (-0x473274b5a0a46e0e91182853aa6cd4432b175deba26c895c8e95eb1cddee730) 0xe85055dc2d6b844d18a2cc98a6a8bc76199cb9adff4f394970f2154a7919a711 0xce6d6dc43667961100651b1b9aaff4dc5762bbf4fceae1964432cc69fb343057
; Twice 0x9e88199a6c864ccfb4cea52eead35cd7e92f783d4054e13ab90b56955b1d0924 (-0x178ca8d72c53d37f8878e2aea5671b0e41acb1e9ff6a7ec1440f7c7f2bebe2918) 0x622c47f636c4e3d0cf0e5dc9a9ed670aedc1ab6cecc6e9ad222bfe33e5a13a27 0x7743bb98dbd6652cdf6475c80df9175dd216c79723a9683aa89c0e8e41a02150 0x27b9184f9e681f4bd36120c8719c23c22930922cacd05f79c3be4f519de97915 0x59ce6101f325d4d63eb46007f8aff5fae13978ee5915720b4d133951945c4469
; Twice 0xdf762e0658bce904d7b4e603a4dcc6507eec7a35515bbd6ef105bbd5d5f49df (-0x8b13a3c687f15ec30a732140e771ffe985ae8f9e998b93cef5bd7c3fd347dc6) 0xc30f1abe47c84ee6f0584d0093cbb31ed933b76a065592a63e1483ae46c470 (-0x2fd5633ad994b0bf6609849c5d49a921c3df5386f2d7e24f6c98e34f0aaaafe) 0x5e858a1f8713888d08f8c8d460b0fa78f8b83af0c31aa5bf7be7724a6146c287 0x13cf4332ce09ed3a51a609192f8c6ae184412624de8076cbd1f0af9b0776944b
; More 0x1c88d924aa9a9195bf04502d7c21548584f1f166aa8ba346a842733558156c9a (-0x166b83b135e459d949670745caf764b47f2665b8fcb5edcd08e0d56a7b360a4) 0x32e38a777a47b355d549f4e6ef580e32b331804fa420f1d2dc81a66d2e09c72 (-0xdb3d3cbaf0248d646dbba176dd3e3d82f967d72ff3dc3f704b226b449ca3409) 0xd974474e9d4dc3da4a2db69def8e48b5c0a59526937237cbb3677f0f785763f9 0x5cc5d1b2c6fe79dd763cd0ec49000862025c23b1c6726b02467e16ef5c480118
; Twice 0xf58fd766f11ed04bf1bfab80a310598a97a844ef15b60aa22ad87f33bff0b4bb (-0x178281c9e0c45cfe5113e75f32a4050fafc081b279e44442e5620617450e1c080) 0xeb8ca31e4f5110a23eddf462d0a22102aec4caeaae187dd983d422092ca2ee35 0x769a1fb31217297f2679e9235c13556fafb1bb8e8b645eab27b41de0281ad55b 0x5dcf8ca4035bf0f94f233cc13276b1aa99eab0cbcb5eab5351b7c06ea42ba6dc 0x22787cd0eccf800d04e8480a6116ddfd2c601d60d881abd8cdb2f67b76ee5c72
; Twice 0x38f68ce9f9ab6703474b88a038a3cbcfe41d868efc6ec0863fe9de981de30e4c (-0x57ca413dfe6a3129efb433dfaa07d1cab8d9e1e0e7d5bde1952e367865d13483) 0xcaccb1989245c80cc219d717d25889b553b0b68871c9047ae1c409b092586d1 (-0xab70c7b873ad3ba329f25f61e9646db80392e47397095ea4972b2d00af6d00d) 0x8df730ade91528cfc5e53bb8beebf4031c9267df89fc87c3c6eec49d54629fa9 0x9daf4309d92521f9a11e5dd783f454e4cbf733caba861e15e8f3908f5566c0a5
; Twice 0x8ef62c630ccc7cee0d2a71e383e87cf7033a463b0103e5e46b5e95568e71f9d7 (-0x3c10fd09d6b12e391bc9e637d9a762557370e248dd6744525b9213fdd81c7676) 0x4fd605f78817ac489a1c4deec92ecad8c30c6ea61bce49d99d4df098b5249d8a 0x37e5a8b665029763570a55be3503c2e1e04951b7ed5c39a5ac7538c92eb7cf41 0x29df052d06f1e2a333261171bc286fb0e32d09e492a0a8ebf3ff2dbb140150c9 0xb91ebc878717e00a28ce4aaa7807a642c41be3aed7267f1ce7e8b4d0a1a22cbc
; Twice 0xe3b55c9d383e23324708470abb2c94ceb0742e72bbed74b6b1981ef4241fc3df 0x134c737ea4c397402792ab958dd9c0560cdafcc977a367e0d6f33bae30af861e8 0xca8b22bbb41c3dfe8a80c82876fdf12fb6c83dc5d447c799d95f0210692a2ea4 (-0x259ad019c60030a24548caf9d54d520c79b3f319dbbbeb326272eea190fe7b4d) 0x5425e9c048c5dcabef714691ee05ff5e1868d5ffaa3602b53bbf3eb9ff070953 0x34b85194bf9428f2cc0685537e9d328341df76ec40cf0e7257740e4cf71c79c1
; Twice 0xcb90219b008ca2b9fc7a782972527eca35dde859b41f30f7e71481fc128f9f2e 0xdcf98a482b24949c4ef61a515ee0ea47ead25c7c1863eb94a910ab3f8b535c 0xa1dde6724786e2b999908e31ee1d5fa2ad79864ee08931514554d2ba3220d208 (-0x261bff45b15ede74d70c014c10a93261598009eaf263ad48b7cba60021d43d0d) 0x841303be3159b992d26eb56a90ac8608c460ec7ff0f9b149fb8c96cbe470eba6 0x792ca563ff1371051614a853ae04798fbc4d2ff24b0fd2b8b944263ba81a1148
; Less 0x9cb19c10be96ffe4b3b9ae0e624e5066c5d5a3104057f754d19c697d1cf746d4 0xf4a6740165cb80e7082995fae89e331a93422f3be6e3e8901b99d87972d01fd 0x5fe8f16df67cef7a94820579f3a368356695f58281be0d0e469bfad43496cc3d 0x201cdf07198be8275abab495aa39dc834dcd2f03665535fd35664f0d392c5b41 0x4f9c1618d76bb9af88321610c14a55feedd8510fb923a92ff5aa4422983dbd91 0x47c61fcc5154416df2e146adf5772f8e6771ba391daa0b73f08723876c51315d
; Twice 0x9e68b0127c48e12861b6cd749aaa129efc41e5aa5092a2da0874aceb1e3eb0ab 0xe8e248a12d080d625673bfad25d6944d4e4223320a05846169d840e2d087222 0x62056426bb8dc1850f234668d4da671d4ac99f31ea628c3d02f2765feba7c8df (-0x5b10b74fa26597f2cbef2bc37efee739095533ce909b194557bfccc3cae87f8e) 0xe2c713de834f81ea7514f775ed7fb568768905ee9148a588aaa6d0cedbebdff6 0x4b0f178540211531d3be2e3cf5cc27b06593b6070cabb25a12f06f30b159e59e
; Twice 0x2652cdc65c748612380ddc7f03cff9eec21f957a4e353349851e97d5d29d33f0 (-0x24433445f768b54845144d9bec1beb286570223901e9a4c0952ca9499b51ffb17) 0x5bcafdf61a9cc186c99a9ebc90864dce5ea72f81a4004e280dbcd88f90e95f9 0x20ece102cd10b15057274cb6d7eaab0f4dc39c4224706caea7b375c5cc76dd79 0x6d64fd35b5e2cafd8a5d5d8e15fa5dd9c4049e8966a9e8e51f20309c020570d 0xd66810ec90787c510a51a6f09c752902dbd2da93ef81ca32ec598ee7cf18bd4b
; Less 0x4d8ffb9e1cc065a11c3579d119b4745b0307b78041bbf42235eb98d8cbf8069f (-0x1e6017456f808cb1c1fb13d48f8b59637565712f750e94a0b701d344241ff0a9) 0x177fee5846bf38756c3700268d99fc509d9118b392cb8bf292b51129dc4f72b4 (-0x3c44a0e3397a2a0941d622fb7129fab759e74dabb66884a09419f972d2659261) 0xcdc188479f2e479cdad4bdddfebd3aac33c903cef0fde9e8a6f71bf741d22fd2 0xc86758b98805a57e6050a6a26053630ee7bee85819cce2ab4a43e1b1701f6ff9
; Twice 0x29014acde43e7472a610c714e55c861b2e1fe2c52780815f0036d31f4cd70f84 (-0x1afeb735de32c4908d73d78f5d7e943f53d390b1672457e7016c92971d7644dff) 0x69169f7a524e14cb3823983cc441e8adb36df8e58e3573e575eee30a18059e7 0xa575b8a62610051313bcd56a822418207dd9b3776bb6e2917a5d8499e7056d 0xc9b88b5b81fe201c7f1d563434ae14fa10ac1564b779169dcbda761b8e84b653 0x5327bc24fd547e309d9891040070758a40aca4ea4964c1cfa6c1da20e581abf0
; Twice 0x4af26313be662ef346749f27192ab37330add14d5693507063152d1ceb96877a (-0x1ac297f59f9430e9725f5cf09882eadec655b153fe6692f916c9831d1cdd8a408) 0x15f106c6f7b059e52382eab2e3c04839fbcb3bbc33cc47a0e6e83be179331832 0x2c0edd1cb64bb4e8e45b9ee11e830d08e89a159dc65ee187e1695cd93eaaf49d 0x333ab52bc71c0299e21b86df02f5e23810794d3b584126b732938b9762d391b0 0x4c595a511f97c1991a5cc0db4d9a88d8045f3338763ae76c5edbd800ae68b35b ].
Definition key_6 : list trail_step :=
[ Twice 0x4458f7411c0ab0e68961b4792522b701858b6901f6b70a1c4f7e94adc9a00b5c 0xa0333f260cced3d0d54eb576314ae19fd803b3de42e72c2fe6f9b0f3eafcf95 0x123f624594b70c457bcf0e5d5e494dfa724511a817b417a61786f1a931072246 (-0x14e6c45d41d7e8e300821d46dccec8c8097573d8aee6bef44c08e5274a53553f) 0x818458b34fc3bddc15b4e9099b985501dab83467047c1e00d72e4ab716e107f6 0x9dafb65734f360df8f0d8981a206205136ef5df2776b0201e92bb721dc98743e
; More 0x471aabfc4939ae5abcc026cf0e89e8b79ece04fa1e92b300339436495b660999 0x63a6f75abb2dd46e9de4149e6fd1532677e82bfe599637d508885061cf74be9 0x13bfce2d6727af0e5ff73aaadde120384f3a9087631718811f5c07752a62d52f 0x2cca5b6673d2bd073ce13f21dbf8c57b477e641c9a067467339ec260fac6452 0x77702a37ca024e6c4a5b1c055dd9c3a74056b427bb5f1a41af543c38a7312814 0xd438b1115906ae5e86a5f24f57340a46f1cd357a8d072dd724ffd89cac1bb026
; Twice 0x246ce4c010207afd77ffe3b37783301f38f7403a77f3f6dbdf416c09f51c4450 (-0x6ac7ec4938ad40e45e707290cf2b5482b0a31c30f94e6088a4b777ce29678313) 0x52ecea7d82c3978ef6ab0362729fad13579fc82febf5b62145c43261e1d7157 0x6f8f4002caad3a1f69c6ebf83d742569c04aa150dc0917320532f72f000e1e6 0x466f63e95601d3cf449380314a91fbca7112b955ad35e64fc6a33634f375ba2f 0xc108f8bba4fb91902077b0619827ccfa1d417af14f207d4eb1c0b57565b45d50
; Twice 0xb0f0b115581171f97409bc3b078a8551272b79b24a477976ad67e378e1d6e316 0xd0b4009198805b8ea3c27e89138d774db328a3becb730e6d5858b2f4d6df1420 0x7a4bd5ca55e778c63fa63cfc585427938c82916953fb882b8e0c50bc9c236f54 (-0x24577a6063327f1a239fe98cf71db873253ccd1c8461a8927defa3d17fa61bf3) 0x7b03d0cb070f92ab71e3e12a3d6e0638d2fd53043329a3420fe33c7fd37000da 0xf2ddb526ec544eed20b9a3e4cee4c0d8e82ecea6d6d24851c600c3339087d30b
; Twice 0x9b1017cbf4b1e288b9cea41142f00d20b0bdb3b44cbe44f6c07d407fcf798553 0x74e1022616de0acb195ccce7807a198a5cbabfa4654ae34a117b3be42c7fe5c7 0x5dec7dd453f0c4d7cad1252e5b03453ba8efe666f4a404471c91cc0a0041ca05 (-0x451b7977a0d2a99ab545fac9c69456bbf90fa7b20c36f148b8dce1f7a234c65f) 0xed1b6ffb91205fc19d743763869a2c715f371e7fce2c1d7bf53adaafe147213a 0xd5268240fb7eee6c104bfa99ff4eb14e22ec3f4e0d6b9e478bf28c939f520776
; Twice 0x7544ffdeff968e9b700c51fe154786f48f6afca08ceed4f353f44869f3881a8c (-0x1cf8b5740f786f1a1012a590ea5e4dfeae84e5eea3f3db8fa907e498aa9281da7) 0x35b8247af98d8e3ed33a7ab59fa2a75a3f66ce91d85679d4ca1982665814feba 0x45e431853c0d67f3ac6fc4340eaf164ca39432a354321c726c333397c6b7677a 0x5488af581a6474444edafb0d305c00f387cf547f4b06c6247ec3fea0950778d6 0x39ba6050e9a912fc09eaf138f58fda4e7f8efd7643c46cf841e3acccb26f9eb4
; Less 0x4b1a9a3a411faacbf54ccecd14c1436d0e972d91574a65d24a007cc43d3bae03 (-0x69e47441f8f15bad697e79a3d621eaebd8b38f20615409db2cc66dfcbbcb217) 0x16089921e8f0853fb278a115e6dff066e9863c6d1f098c221511c3b418ab93e8 (-0x984685d6e4b980dbfd157b5179298a7b49e53071ee2a83aff5788a3e87882f6) 0x74f973294d5e269cce719d6e13377ad62a0fcd1887409fa20047673cc4b56c85 0xfbb49e1a9ecfe8e8f32d1ce69bd4a8e8f8d28e5ef292ef6b3c8da22ebe181149
; Twice 0xce6a1b9ae85804bd47edcce5a6255d18e10e66c605f6b12f43af1365f624276e 0xf58e4c0379f0d1a6fc1539bc370808c877cb2d6706bc8508e4e4c99503bc5e8c 0xa66ef068d39f0baba777a9b3215439343604cd7e094f4067bb4ae8f89737fc7e (-0x1137b476058732e0b4a87f1b6e0e8d52042eb489d39985cfb01d8c59fc620be0) 0x8a53fcb16d2d7c92032741b6230ab5ddcea18dae53b854beba2b0c2d92cfd6b8 0x6c7004e8a591530745999fd70a94bafee21d630ce63cf114b54e35b5bed27bed
; Twice 0xeb06e7beebd782cac728a337550dfbb612189ee18ffa08405848fee29b3ca84e (-0x1920756031df63279a334bb616a1750576ab45486958bf6dd5ab515f2b0a27af) 0xd7c5ada90b8081e47a163dc2df473b15dde5c49bf15f221e3c5e510b9f3d8183 (-0x27a4198450d6c637da5100bc92668d7f99af8c56c5401092ff64e3da8092373d) 0xb581ab6183cab32ffc07194fe0db3738b74a1e65b716fa17e71eac9640d44bd7 0x723a32d239d494a727c1ed5a4ae8c295efb087d95a81da1e190bb104961f4564
; Less 0x2b0637ed1a77d266b24034a6eb3bfc907c9f509d28148e1df16b36a259efe953 0xc81964263d0a7be898850bd519ba42e8dfd7b5b4d1f771e6807cc0e15f5ee46 0x73b16f0597452362feb6988276ce324645c98927f5fff1a90bf375cc5eddca6 0x144c09d321b6e094620af62f65ae7689d5721440d560004d1f79cc0050879ea8 0x3cbc94a11833a89c6ab5f24de5292b87bb5dbc8ceb3e8af2300c539de022ff22 0xb4f17b82ddd4c27c3976a2de660cdf656ec551cabe0ce97d88e2a53ffcaff4f3
; Twice 0x7ab7774c75af1c3f43880040594129c094837013a53b39c4b887919fa9225401 0x823eb1d9f69ca183b6f5e9ec0a70982444f79c7ab6346b1916307895713adfa3 0x3ad36130e1e6b4b638389e2505b62426d83f37fe2cdc0e58a7ddb26f107ec6e0 (-0x442acf1371b0864a6ed1f22fa4f78f1ec7d2fcd0b71c3d261f30962acd9a3052) 0xcaf0d273691ddb2b1585b7278c858ba8f9b5c5330b2a081ebc5eddf50e0d709d 0xed5a30d84169e0d01368455f24a75f545d82164ccf9653553a919abad5390d40
; Twice 0x7daecba09df2bf5bac33cf3609ac5427a12302afde7aaa4a21a4d6dc90f8edbf (-0xf9949818ba80c651abbc27e90d89f549e133c737dc4472311b279e70113704a8) 0x3db42a3488420e54bdb4cd7edd4ff063d79baf01a5dc7d08f0c9b835908e7ec1 (-0xf7aa7ba9fe6ba3ecbf8c574ce42d08fc8c7361e952928ab3886ae3036e26435) 0xea7840399d77797b5682139d55ab5be566a6a82db58ef7dcfe30ee17d34ed208 0x2f642278aba43af99dfe9967d005de47a464a262205ca464686e746fb144d0b6
; Less 0x574364b185684e7d065c8d11779004bf34a3b7d10738c660ba13fdd1a28b221e 0x2b6b4dd1110d053d81ebc6f192a79f06eacc063938baebc15b43043dd2bb2f4f 0x1dbee02ea2f2c573d20be381c5f410f09f8e9d8749a87f19c913b41ea4bad793 (-0x5aaff1e5729f1ec3273ebed134b009232d4daf6378a5cdbee86542a48424e64) 0xfb18f82d7170e6e19cc6efffe8ba877996cca50b6166a7484e86f08901f33e79 0xbdf32c0102f7b205b3c843a29ad3219dd83ac3423d3f4c6425e050c9557229a8
; Twice 0xbcc4abe39ad336f95f8be19fd9e5a2001ac6c6454ea32c2ea5c3389a60e0fff9 (-0x1cabce73a0dbb62a54b8cb5b6d930311d72c5d57f623a9dbecaba63acbc333940) 0x8b31738e7e869aea812c593c4ac84dbb796146406e05b5d44a0f11df22edd707 (-0x5310917555040118183d8bca30807195b00bfee2e4bde44f0d211e1f89c94) 0xfb2002900c292f703fcc75c90206509b37d86c7ccfbd84f7bfb19e1cd2b95a46 0xde9b9408e6fca3f4b2afe2009b36e46126a05e34969c4db074bc42522ed2fc5f
; Twice 0xd06c683e1d2f56d6ce80981537cf91bda433d86d259df147cd7cca74e9f8563b (-0x1788e01f8fef32a62d222780d1c2692e842b3b46e3cfd4c8bdc9ee2c1e9dc4661) 0xa9b0574db7f86b23ffe7a1bb41807ed70593956091bcd79dd51e94b7f5c49bb7 0x50b89c3b6dbeafbaf691d00b5e9ad22f56083218b5cdb6135b4c3014136f6b01 0x97fa5162830c9ba28afff8c59f42ee7596ff68e81ed1d1b723dc97d4e5ad98c4 0xec8c32b75e90b3b69fc70e4cc4a73cb3491ffb282574280d722e23624143b398
; More 0x505ad7c695c16b38c6cdea3f7732ce4cf43bdc46e8c4586e4a6db015f0d6cb15 0xe16b548c862c919bc74121a92f86d4640274db863cb8b6aa73a07e2468455dd 0x1938e718a4523fb24c2bc67e5ce603c9bb5556794088c037a019844b8eb428e3 0x2150692e29ecbe6c5a6d1fe817c77568b29f6d57eaea9456303190e66726cd1e 0x2dd7ec2b5e279f70f739e99ce8a4f26d7fe388e0bb322245588b55a258a41d42 0xb01de4bc5eadbdac2b204a094f806671a2ad6f6d7cf2ec89d6b13ce15b465130
; Twice 0x5ba8ba8c333aa9370b6d16c5683dc45834c1d01ba51c44ddaadf1845c0cbb9af 0x657c8b158222a66c58db52d21d8588eb540c757b193eb0397320595d721daf69 0x20d163d52d305c59970b038eb4cf82ae365947b554a1875475c35e64c8dd1082 (-0x24ee4649818ef9deb4679612c3e00fffaeb09bf49ae2b8db792388f179f6fc6c) 0x94fd504786737c5aa0e2e207fed3472b6e337fcb1cca6fa16163d41c99cd3b9f 0xba450a695cb41410c7ad76de3e7dbd83f51e279048d30b709505021214f6bbd1
; Twice 0xfe66b48706dbf98aafcb18213845e477f3b71745b3dc2a49c9d2ae2196c12033 0x6e14d7f3f56a5e50db8da013b89f1aff883ba4572bfc4f5780e76949a334f0fa 0xfccff77149541ac7eefa814234b1796dec03a32bf3233ff12bc8629aa531e348 (-0x23f4f822fc067ca77958b6776a090ceb22c7d1179ac88980f917e71445793705) 0xb92c21e20efa48089e2b04aa24c72f715a2d4c34a033c08411033ef4c68a3633 0x594c5d9a55178990fe5e85346fb5c01d4d06766301aea3e958806dd17b03a1ae
; Twice 0x57a57cbe4036529b12bdec0d9c6d9383be529ef21c7d2b2c4ec5b7220751e2d5 (-0x154ad16a83c95b384b97b8865e154846d945e16118747618d8a240a1cd63d9914) 0x1e01e5c377ae73873d13da339b4dae062d8085107df5566b4d4bbc643364baa4 (-0x13ed4510fb0a02269d742bcaceef8d97752da43726fe0f01c86dda7ad86e834d) 0xf3600dfd7baa593b06d0a7a60072e88b8d937ec179c031d9175999a7a0171377 0x2168f1e3967c17f4223a0b2ca094d2d07852ea76468be62b3267ae2f707fb971
; More 0x82fe4ef0b70558b630f7433db3c69c8068a87644a4177746665b5321f1f2be06 0x45bc102f6227618322a18b3911a15d1af127aa0ab0527050841db9df86118436 0x430744cd7aeb73613a1679eb64a657f7be08fddf33f0e69ecd4c739a318cce45 0xbe43ac7762384635383100335c9165622d86d9214be5d35967448ec20bf14b4 0xdc22b9c7acb790d003fcd3cd6e883c63982817f0a0b179d04e0d722bd541e05c 0x91e888598543edc90b13ddb208bf51846d6785f682db140eafc2324f67b297e5
; Twice 0xb9832032eefb44b74adb315da53a7312d60d6d2ad49c325ff0e329e20ab0c29a (-0x1646b8e4f77014e12a541da5cad770c818cfec56242152cdda670f6d7cdea7057) 0x866ec7b41c034c0dddc8c2bc4b6ff9520e3fcf6f6cf074f410453fb82b950f01 0x1fe8d4c530b259b87d1093b9d12dd2cf8d05090162de64dc432722195ac163ca 0xb01a0a559868448e224238d95c6c4154ca8772dd8436a8fcd0259088b0bf12ed 0xc1e465ff2506c512c362e55ef88fba6369eaca96c811150f143a68a9bbc7eab
; Twice 0xd80ec55c35d22cd07749e6a810b1c2b4a5044cafd773b0d45ed66d94b0b25ceb (-0x156f6f5d3ca7d6f328f05fa01d80453fdbb3c87bf33dce62237f729134fc2e7ba) 0xb658ede67f68888eac831c825d0573f6e1c4fc043a015afe0b25675912d9a541 0x44d1a53db3b4289d94c8b58690f36dbc88253e4f514f1e15b21a66413a96786d 0x5e8f71af9921f7adc7c661556887ff43cb9177f2e3256981030f900829e13f20 0x471415ec564065fba8d6922700224664e9dfd76b40d4157561186988592312f1
; More 0x78f67f8ee9f3bba90ee11833087381c51941ee5fccbba8a72f0c529921bf8434 (-0x5ebfe6ab732df963a9f48819a627b53ee29f2065094c443fde747de7682b30c) 0x392804ef9ab54132bccc5b84dd6985ba9fab3de915f8f2a1543c0d194a69c7c0 (-0xda16e22a9575b1f19085e2fc41097e2fb242ec8611b96a7c85003a3de26eb3f) 0x7b684e3604d66666c1663db3ad21e680d3ac1ecc81a9030ee57b894f39cd709a 0x1deb0daca291ad32ca188273ac342aca89706f011cfef50235352ab1f330d08
; Twice 0x956695b3c145054ce9624b90c540f115e3ee006c290e469a51271ee30524fb25 (-0xb0497773ddcc7c3c46189556cac9b4e37b2063bf7add5f06e084d988c60e1e67) 0x5730935f38f3abbcd353947cf63f005b70af936e4436f12a75ad360f26cdbbfe (-0x2172da2e0cfe327f7b4985e5a2da86feaa1fa408cd77ab32acaa53a3cac27962) 0xb4b8dc126609e60790e1c89fe0523aa2cab3010512ee46496488aa35bdfc6e23 0x63239cf474e6eda46d0c091077573d8fba3059cb4e90084a229b34bb946681c9
; Twice 0x91181167749a9aa6fb2dc5dd5a2ee61ad04d766b35c2c9616fd9ca1bcd5ae3db (-0x10e5c74f0bda8d68e0e0f693f78afa4d113e17695eb8cd6bfd6e39c5ec602398e) 0x523c45fac8e82d743093f37336676f0dc707ba398bbfdf0db5b31bb60ad7418e 0x4cbd06fdc0745cd1b03b0147d7b995aa76409078ce3f971a03c7e24eff0c729a 0x2d53b2eecdb7be7ac7974861dddd548c55051be42344bd37856424ae4da882a1 0xe845ea9e76c4e016de37aebfc09f342c11b05525742e38289e431cd8d1f8af07 ].
Definition key_7 : list trail_step :=
[ Less 0xf6bf1d24ee05f258815ace8df32757beaf66fab60f8a25df93ef9ce787cf3f9c (-0x3b8892296acaa3a8c7019e53605de9c2c0571b91e69d6e500970bf244208bab8) 0xedd3dab067b3d8925a6ecd4ddb96ffdb15b565c971a389ee5cc145793243f596 (-0x988d262a6afa6268b895ef0f6d65f348c26ba49366ce942071c8b1bb129b06cc) 0xcb996a390b707820d346cd1d350b6fc59278049bbe8a19cec59b0feb8218d76f 0xb6b2df57556f5f26df9359df887eca6ff1ba63bf47c0116921816c94d87eaa5
; Twice 0x3996fa9d671e36f8176654fb1bd6b4d24047c294882b7525db2840dad1dadb67 (-0x1e0a2ccc92b85d7805cdaa7c3431bf719df148536c969b105b6078b4477863866) 0xcf494a4caacaeb64ad465a20b181017454ed0e7609c3b71ac0352df0160020d 0x1ffdee6d75187e267e86b3516a547a98ddc53adf31f4c44c1f84f5108ad986c8 0x3d633fb1f559d636ff0c3ec3231d272ed4ba41bb75cdc5586d7573cc92a3b6a0 0x8a9f9645653391d47693123bc650afe226d1769519ac6535cc3d5f5fb7c8e46c
; Twice 0xa41e95384209f80d27aaa65e4215bb9c253901f5ca1aab2436c5a65af28f4763 0x85943f0bf288b36005b445794be5f4c5220e8039c95a69cc813f31ccc15b1875 0x693732d7cdfdfc3af2d3b4c311a5d57a59868c8d83c063fbf7e9a2c38d5ba8d5 0x182c061e14fd8a4b20c56e76273b4326e4ef815cb3bec3e985fd01875c7d2081 0x17aeecf3706b05246812682fa3188663c0696fe9c85304a6028283ee68964bde 0xf257cdfd384d23507bdbb43c70e9449aa8be0d6b686df150064e8359a6de531b
; More 0xf27bd8b9c1d0fcdfead16148681d267d39de84c501bc57f0c26bc7866d74898 (-0x4f01827cd57e8b1ee66a3a59dda88aa1d07c779e62eede6ad74a604597ec19a) 0xe5ae61aa1217bc6de10cfbac6be015725dfcf8e0bb84fde69ef7c3ae20709d (-0xc2affe7cd0d3d83b11bb9f9c8ea3be984bda7c69f7dbd6871b285042c1649bb) 0xe53909a3ac8b67c1f8a79154b726a0a019676d3e620509eb825ecbf390d73c69 0xc505c34b618645cc47a8e4cf7ff7008f6549ee1923cda08156db3db69c1878a2
; Twice 0xe4759524e427631c211513816bf44f67288d8466ce4a8295fe2bb76824edb196 (-0x1081607291b279ea5c6d3b590dff773b1d9577e053d0c43c8729e31edbb9338a8) 0xcbe1a7ac2ce4531ce36f40785da3500497927f67ce7a7a5ffbdfd8c853f82660 0x1ef0da0ce267ad65e6d3be806b6674927090806c9161f0ad44353e2d142d4599 0xc28d54724056c8fa3ade37b6a2e42d8f01bba1714bdf9a8e21deb565ad367172 0xf460dd4c89976945fb2fd13ebfe383f022d929ba6b6c66de7143afbaa74b80b1
; Twice 0x12fa29abbac123390ca20f82cdb00abdae6a6211a02d5438335880523676f9fd (-0x197544a2d97535cb2d18c55b501e70c62413d8e0343e89da82a25eb1473a72b91) 0x168225191dc81834532630e346e2e942a00bbf28333f019791d169f224ebcb0 (-0x2a121c8ce1d806ad0f0e989b31894076824cad3a77ec2503d0f3476cd996e1c) 0xe605cb78f2b0dd8e04a09fe5ac620eeebf27fbb9310d4bf1cb1b3aa9ed3bfdd5 0xb555c63aa164e0c14f5cb35fd6357de00bd8acfcf2d5b34e1d46df344871085c
; More 0x3f6698a1b106e1f4d9a7c98e920808d9819558a1abf827d31e2e7b9f14a22190 0x1e71d48478ffd0e27ce10dec8706d16c4b34c2ec81f9c2c9f9a50eca005f43f7 0xfb3a83da0ae8548749e610895b58a9c9ea0046e7c5098a95cf6eda2ddf156e1 0x23d69d892b0c4144f8086e3dd72b259214c60c6d5d39efa0e1741b5f39398842 0x55507a255e4950fd1e980778fdab0e911ec62c59df88f746dc4a468016c30776 0x76a500074773e143aed934f1cb62fcbaa4fa9962169358808afdce2580b35456
; Twice 0xc61b5160db1e93328e8df4fdece65910fa4582ff6aa728e7f1363c99e34beea1 0x6254ef0bb086c50054187f1634e2112bdc86a42c6d0276b43720b1acb12f02fd 0x994e44ccb08e383fc40f53fd9f6938993e387f25eed15dd2a1ef1ba55b31bf7d (-0x3fbffcd8ca2c6dec56e479dbf6fd2c14a1e4eff04f74d037b8f93d268d4bc998) 0xa7b1b38ed04765690c0758d12c3e8cd752ff5cb924a1c033c9b502ce647171d2 0x60aef448d36c765c605bdbbf9fd79ceb73652767fb0f2f5e3d722fd8337a7636
; Twice 0xf4cec02711fc0d719526b6957626031db4d5edb3dea4e8967b44e2a85ce28b26 (-0x90a24e7afe948fd91dea01047a29982c70b371fdc715b6ebb69288a892148b3f) 0xea1ac545337ed17b00bbccd9a0cced418a6993b55ba32a38873d0c1ae8d89893 0x9f16f14de6d05e956e7d0fb2ad31e4320e2a76c66c7b1f73673359623b4bfe13 0x154c29f477053b57b11fac121a58b6a46f72a6ab42057236cbc5cdb6aaffe93 0x22c66a2fdcf86282d9a6d7b872f068dbcc13db4080e72ac05b73fac185b9d837
; Twice 0xfd615cff0f76ba7136ad829a900b7f3acaefd6889e7d1296f7ccecfebecee2a6 0x44d150c29e8482a7b5d8d5d7686d28354b859d3e7a27cc6d7d2fe1b2271c95e4 0xfac996d8ba6c4c91f4f9071d047d56f6df8b9299325f5e433a4dbd3c4becd25b (-0xc79aa7c6d52d5c97cc0dfd7e24c3c7ef34e5895689d1e05a3da6a3bafdb3a211) 0xcaffb83cbf01a3843f8121f56d2cea4dd8071c51e025a2e69008948d6a5e58d9 0x4ae50d49bf8cd65d3d393bda4955ea1b38c124492e8c732a6950e19f2d7e3054
; Less 0xdacb6637b00a10ed2cb9112d4ba1ee39318641c9b7b53264c2e8964d6942a6d1 0x51f7ad4a17f9664602e2371039f6434d37f27b9409655f3edc06205a0b386396 0xbaff0bb2d7f1cce20820fd29b52eddf305ad2f03ab2ef6a6cb190b7a5c79d330 0x893b39f9457b7b6f5c5f5ffc3b50b6fd4e5b3b0d40c1863a1b12c3a62ef8b2d6 0x2a6e83ba07bd07d7f480a76eb3f63e830d19fba7abfab3ccfe1c4192fbfa6e62 0x21e3ab7ebe83e6ed4db3ce985b74b5ffde36d2297303b13d969eb4c82cc417a9
; Twice 0x5c4bcd5a599e0352242628798d8c3f5473ff18392b9979824c5125739120bc66 0x3565c3c9e6eb883a8a7825895f660b261f4cd4eb2ad0fbf34c49ebacdbe05dd 0x2146920b095a7a6e17fba753e1d03b3449af7352c21de14e2bfebaa90fca1fd3 (-0x289382bb1bcfc61ae7cf5cd20cbd0811a0147f7d2277bb8ab0039725821e25b8) 0x9afa29662db1fb2f1b9d16a7f480a5a6c0426a8d8e341fff247710c247fb3bb3 0x328a764745408315a9399f135634d03ac187a39ff10faacbcc6886a1e6e47859
; Twice 0x427883d378596e99382455b90d773aca0e702bcc1bfe7ec7d7103a990320e622 (-0xff36cff39b97666bff88800bbf9fe9dbdf4b7ca2ac2891bc57a5694fce65e62c) 0x11425cb4f573696eb7f981f30188070447d8261c2847ca677599277e6a88075f (-0x893d8eadb567649f973e6d1885101e053988f83a4ae2437f5e0e672c5f9ca44) 0xbc0311162d0be5f0fec59b511538cf04142a9e1186d222ceb28f4c3cfdf2ac7d 0xeb2cf5b411022ec9a5a4477922d1ccbcc4613b6b0267aa4036859b2861af468f
; Twice 0xc785df24a1aa95272b47528b19a9a27280f619682a94616b5162ba7d10925c14 (-0x2fa7a6b53bd74259584e6f313ee8b17d4cabd9f39450286342a96834b1912f40) 0x9b8166ed2d696cf37fd012267a0e66c45e97ac2f5467a81afe0bb4805ec73265 0x8e7cc91ca0af07ee6e5bf6f82cfc1b2b710138412a8d21b110be149819f89f99 0x53124c7583e23c6f7812001ac4b8e4578977089861acab69e0ab6be0ad03afb 0x8af87f85d529530e990fe03a6432667c44b496723796e5ba9ff477f1f3e8ef32
; More 0x78127210d4d38dba56c1f769a834b2312e0f5f97292b40c7aae7ed5c764279ca (-0x2fcb78cc314a2a7c3966b4dedf0031ce8affc8d2184b947990f6e221b38d1f75) 0x38514c443d088d8a59dc0a9f1d4ca3489362eb9f7c567baf430761c8eea05321 (-0x2ee92efe37a8f7b2cf68402e07bcb0ff8670571ce37aabc876044a34b01861aa) 0x69355c869ec6b6645796d75eae858123e3ee6255846cdf780ed0587e494fe8f4 0xff51c6b05884b746680245fff12115bf443894c3230adcb34a1bd0611d2b7aa
; Twice 0xcdb64075858a245d879c9fc71c86ff503ea9b30202a088ec38ffd467d6397183 (-0x68112b01026af9e1093e2907bb2277e6d574a659539af01d506531adfdc6924f) 0xa54d64fc94817c5dd77e979a03c0dd8a4ca65475f745959ff51dd7f4f1f087a9 (-0x713ab8921a59babb099b843c9815139e3d02d9afd55563b9c9e8ea4a1a851b9) 0x7203e8fb774e3f5b35218869081236d8aaa58d6825825d3e83f58d0d21fb9eca 0xdd1999668b7cb8b4a9ea36e0111c547f6ef893a32b05b17d63bf984240bd741b
; Twice 0x8ea1dd501cbf82213448ca628ac0d74e7c78ba35d7cb2e8f843480faaf1fbe83 0x5e098bfbe7b8fcae5e881ca3770cb3cb84b8d3ba99bc8846151dcd0c0106fe87 0x4f77f7dd4d73ffd02359a8c7c5d46dd531f07b89df3fadab058e014a360d5ef3 0xd34b7a0850d4d6885d40992bb03836f4b289a1972096b6adc68a3e27039459c 0x5a501d275eb359c0e443a1b077f27d274264ad22fb56637ebb2a6972bd96d868 0x96ed9788b1fbb7713a104ef45f7a03012cad7bff2451ca8118dea1a95e2811a7
; More 0xc1e5eff2794adbacca36f8c91e2c640ccb9e7529b5db420fe28f9e2b803e8844 (-0xcb5a1ac8aa4b2e72b2d57fc867eb10cf56b9e77e4ed3b5e4ab20b0af1889c16) 0x92dc82535673059da0cafa90a9aab75d9b929bdf6f2ba37e8a51f466d110af26 (-0x2ab1a48e43dfd1ec14e888fb3127527427c6a2022379fc81bf7080e5a18760b2) 0x92ae4ed8356285839648fa7a8db6bae1de4a429abc9a7c7cabf2a01084596638 0x3d1fe51d9fd9f6b7df3f6690b3ad2fb001caa67311bfd976a82edfa80ec6267
; Twice 0x2d893cba24f6f272c4e811075b4f65b9b95d377ea2470c356a5e95f3f2760dcc (-0xfac5eddfac5152f3a5b9a9754579a514981738721680c125a2b9eaeefa6d456b) 0x81988eb86bbb324d486fe12288a03aee92c227efefc80f28c73bbf63741eada 0x7a9e2a8fd6fdcf6f1bc5cb2a3ec2545709fa4676cf69e9182dff0a18fe75eed 0x6798c1293ad258da139220cbe420b6333b4a430f4ee21143e42f8da3975d78fa 0x9f762f95aef1f0901bf0b393f17fb62b068255b70ec0ad9a02f5e3baa95c2fee
; Twice 0x923b75fee7d1a869b6bd2cd13f3201ddbd6bf792f03c0a465f6e25cf866d19c5 0x38680e0119a575a8edf92166273644bbb291c04fd95a72aa20208fad7e83bc1d 0x5387e066add4dcd9095ddb366d9e0fcccb9d6b07c0ce003cdeccbedaac6ade2b (-0x24bfd7c06d41f30fd7aa9910844262e77b63889aa1b03ef10e78218b7e462348) 0xa7ee7f1f28ba6781147d115ff2fbcf5db58ef85a2ac17d69a632a7a2ae09fdd0 0x449687c6a4996bd49604b360f88f7f8f16b1af1a0a19a0bfa83c42ff9848e1c
; Twice 0xb7297b39fa944e21cfb466768fa8930b0e060b901ea0de5714622278ad9be56d (-0x14458c11d3da5a66f725224cf1eb6b00847b6e2c5cd19dcadcde84c17d238c0db) 0x830c54e61b2f64070450c8918de7195a94aeceb1acc8d0aad1ba2cf4e9659862 0x6fea2b29e50a081ed8c7bcf2fc04f11da1f22c72dbf48aa419c0331a3048493e 0xb83074ba2f02db91ecd2d98f4e429d612068101518e6022d59cfae47eebcd2b 0x7fe0b44a9f403421f90e191adaeee6e7beedddae96446f878b41c1893d090a63
; Twice 0x97767c0f22724bd7faf946743b40c7c7052198add6210906da5e86e2d2dc2fca 0x95c3e2b4b8f7dd36d1cbcde8669b338f25a4ed1c72d8a36a41d3aee405e2f16c 0x599cfd30ce523e4af1635da21b1305c103a0788af35a5bab9c645ded7c3eaab9 (-0x636b9125ad03c9595f8345329112be6bdffc7f8b25388b3ad1b6bdb60e562b1b) 0xb38cd9d5e48cbc33231b45fb8a571d37aaf325945cc425ac8dfc3c961282dbc7 0x41667cfa97767c5782f7166f0b6522ba79cd5513cab0ae62f8d8c304fdb09f6a
; More 0x5dbe1767097c807edd7c3124679f1ebef911fd7e627c6cc991430b2eccd7d385 0x1a8851591ab9cb372b33fbb7ee802bc1e961fd21bbe16f29f69ed8b68867d400 0x2253aa27be4de17f86d766dd5f996fef5855e33e6f19eeac3ef1dcc25bedffee 0x22138f0fb75d30a8b104f4b07e6d75a0998ec31ffb88c1987ea55516dbdc2f86 0x567dd3395821a55d3c441a768b56aa4e91f418bb45adb8f6eb9887c360fce4aa 0x6b99b474bac409891218cd9ebd5af3e396d70287e73c889554aa7d28ccd92d
; Twice 0xe09f5181db7ef66d67093ce0f2cdeb6c44f55a88be470f862dfa80e00bfacfff (-0x56ed845e8a8ad01ed744429574f7f84daf2c0a8022bf664096b981e92865aafd) 0xc51731ca5e77778473ae7bc9bc945c6fa9c49b9f878cc199ad1680c3db0d0a82 0x2cb47414c7e0b6df3af966f87ad08bbfaee3b9208be5b3a093b9d51676be7ad 0x534ea105470806152e7dfb16424d2b38e94bced7894353ad816bf317ea1da12f 0xe63dce186ebf7ae34cdfd7ca0013e2d628c34a651b97a756fa49e84c5db1bb05
; Twice 0x6d9e07df67091614601fc1a56ae8b8af100e50a6033df917100ed0990d01538 (-0x45016f70cfbfcc94317ab03996c893fb35e932c01013a3e65295a8ba2c2a3050) 0x2eeff44224aedaddbb427d8da468037548742a7e3a336bc516b97f03860b1a (-0x22c198898886bf760abc5cdb5cfa47381728b9f226b0e6a21feb4d6652d4184) 0xa47a0d9ec28401a3aaa69efa3e34dfe015b366f7be058eb8fa14c240ac0d04fc 0x430e5dd99d0104b1098a03815c00e61b6ab0a56835c6a80379c83430c7035d9f ].
Definition key_8 : list trail_step :=
[ Less 0x90206dd8ee34e78db9b67f0bc6ceb4c68e2e8a7db61e30e83dd16ab492dc3bc7 0x204e8677b83bc460e8f7a7f5f95213ef4d23c05b8edb4c644f743963986d904a 0x51247fb0027e0414e9d119bb1e6799d93e6a2145ffc22a3db14949319fa7ae5d 0x3ad9c464a7354239167f895c24af5bc31469db5abaebe8332dc7e8d71ebba35d 0x3bf202017bf0c3f65173a3a73d4fa67892baa1e9455b29a76ef61b28e2ff3b7c 0x27cac65d31d42f316c5cfcb18c8e2193805ad01e72a744c42711663df8e0683e
; Twice 0xfb43aecf79339b971182525f6b077eaa139eb8ae8580c02ea07382c694bf715c 0x240056596fe5baad9a16ef0ff43f0522133e0bf68ce50f079ffde52f42b9839d 0xf69dcab0c6411fb4df64da59f6ffd2e4ab4989a924b660d33315bb06ed82ad5b 0x35f99094b0c3374b534ae4b1b587029ec24b46e9af3dfef42c383583af6676bf 0x4f40584d99f014f6b8c1c5da8019e96047512da27fe05640b843941e0fe8f73 0x58b2a2628161424fe5b6d8706f4d14113be98db5144e8cfeeb3a7918496adabd
; Twice 0xf1659c810b13c4c69db092cdc113b201e38d46d553fb261be2fed7862775554a 0xa6fd24d15d6e4e6f1f7d8fded82082cbfc4496b1ba06ceb6975952b7bbf711b4 0xe3a07900b7fbf5a350337327d140f34543f94e2f950b889e67d3fd337148bab6 (-0x18413a00ac1cc74fe0e49c91bc7a0b04f298397006865affefdc50cad0023401) 0x1eacde96324bd10407b930d8132984b5beda8488e9918772a1d015eb4d59d534 0x6faebb0f3b742328cecd7003037517804c291c4477c8866ae2ed24cbfdd2b278
; Twice 0x2879d43bfc1064cfdc5ba2d2085d8223287750c1f6c841386e96338dd826039f 0x1849fc1a3e1ba5c84951a946f2c85702eac9025307a53912af2d907def9e369d 0x6664c4d15d31ad69f7ec4586a40b62c1313ddd313dc3e9c444555f05cfc840a (-0x1bcb0873e8c317ccf0c31596d1eebf6208ac5769ed13bcbeb7854cccf67b3e7f) 0xce75b0838932f774a3cdbb0394b13218f27df310b5fd4da6d8caad012589f663 0x549a916b2744fb94238b4e3c42fe82fe8ca75dca2f41503f27d51f45a06fe5d8
; Twice 0x3dd254723292898629f908f8f6b3f24602c1eab825944da7588a9d7ad1614108 (-0x1caa82bd8c3db7ac49c76b35d80769b33589dd7f997ed1c778de6e8c0f41ccea8) 0xeede90d223ddb21e22d95907cf3a18b41bdf7da06e62a8d9043d802b03c37f3 0xeec1bf9d0e287eab9765fc4e80e609f4bbbb8fd312a19262bdcd4339c431d73 0x90aad15b625cd94403cbecbec2e0c1253e031a096369b0fd01043ac1cdbd5b6d 0x74cdeb97b4c1145b866f39a93bcabb9a6c662f85f1149c88911262793ac6854b
; More 0xb555155bd75c7945c1a3216f2c7fd125c3d22ee2bb3b2d0436b822638143e786 0x1a9d6b8655780f48bed583ef9b264f2f89b680827ff34c4f3b3e3e3d54b031cc 0x80716c7b8fbf65a838415b3f0d8e7604a920692659468aad6ef54b678f48e41b 0x1b28a51501eb54f74c6bcce5597e4edb15bf5168e91676dd1e834f243cdcb22d 0x6a53442f6926031cd2121cf4382497efba02e9249b6b0a8c173a025bf679e03c 0x7faee54b502c8f7ac174427a96a739e831b6ea19725c6f690fbd4e78264df88
; Twice 0x88a60a4212abd689ce05d7240bb15ff73079cb1a2e051aa43808d5e7f77a4a18 (-0x7bf6375b508da5e0a5450f0a35127f4a8737e7faae427df6bf29fad51a615f53) 0x48f0d697cae0dbe736476a231b40aa69478cd039c33c8a372aada91d7bec2c9f (-0x73fc1fa011c3b76484c339094de8d5ee43b8b684597c2dfe4d0a5740e1c2a03) 0x77e7e08c29b90705fe576dfffee4e0aaf3ac98f68a930ff02af4811a934a4e67 0x38d52b14aabe0f160043b2dceefef6fd0c1a8857e2ab4947b2db85047e9e346d
; Twice 0xfbdd34dd6a106e37ea6da840d712ef860459354c5aeb8e91ec65d7d469690d7d (-0x38a7f45c599c8eed87b4c30ba2b7a51ba12d9074970d576061f176f9028f7c22) 0xf7cb84cf76fb8fe56a8474752b7e6afcab7da230e34f12c2388b6404ad7a3a9a 0x6939cbcd96c1f60fe48a278b6f52aa86c0fb5905d90212574b808057d66d2bf9 0xcf3badd3222b11d3dc643e4383f4be3b0bb70400f8a3d8c3552070422258cd5 0xb317c89784e836a34e46547598d99fa1ca55d24cff89144f98662267bb77e5d6
; Twice 0xb861d5ce81889407d89b066116ea68d70b8cfff4333935111041120b01497dcb 0x10003ced446208d9513181fd0d53d139edd39cbef587c0eec5c2692909e7d7e44 0x84ccc8bd1810912a084300336f0e0b9a5d743aa99bb381c17419615c751f14e5 (-0x2c1c3e1950cd82be242fbd76bc69b01070c6deaeecd6f35b2072b037a9310b8c) 0x4a321cb05aa07a3275cc678f0a6d9434f2277bdf87e32d51bc8e56dac269da34 0xf8d33de9746de620af0399b707e7784a061fe82566bf4d2db7051911bc4f5149
; Twice 0x88538cab615648753e955f0b46f6a1500c887b1883408d8a52cb601940548a85 0xc87fd507a73c45cb93359f1e6d26aeeecfa93475873bd12cd24c78bb93f8a5d3 0x4898e0bae47190dbb7e5830b0860b7783645e3baa7db03ac879ee5c8493e2d44 0xe6591148e8c24494fd83652e04ec52e1b70ce7ba311488c1de50d5130907b72 0x2f292ee4449daacc652b9e55fc1249be455b8ce92da5a3fafa01673a76a621f5 0x710f97d81d9be03a8799aa7054b0423a96add240322a79b639f843cd86edd8e4
; Twice 0xd6bc39a8a27fd1505760dcfbf79af79d18d4f8ab9a027a4437b5688c914158c9 0xa39be22b43720b1c8c006f966f20fa4b5d4453e6779daeecde102109ec53e760 0xb41f3acb60781feb068db1f0531c2440a9083ddf3a12878b8b93085d951f04f5 (-0xaceed926353d0a1cb6a934885745103bf86bc962e5053a1a3ccca48bc2332fd0) 0xfd535e6bf5185966ff969ec964265eef3c86080df123fc1fcbd1bd028eaf8edc 0x1da7176b8b5a3517ceac10757700ddb8e40143830b7fed0e78071de11c620ded
; Less 0x5c2db54dc0aa27050f7d346eddcb7de2f2f7b902179816a1c4f9646e6f67846d 0x34a78283ed619203e7c1e4cf531ddda15a04782e50128a735e99b53980ee4e14 0x2130e2794167f4648da8ce31380251e6e8ef2e40153bd93cc75491f508b51798 0x18526ae2f8321f502fe8c41d4c97ce677c5a874b416eb818aeef2d7ef920599d 0xb9c73ea7384d913061088c4dbc202da877b534515965a76957d1800afba35c8f 0x608c57afe4f7007e53b35c266c9f95c06679a25740603cb06e98d1a762da6a79
; Twice 0x35ec6ceea33737ec063df013dad0f5c9c3e5f92132e61da8f04bbeb8cb581111 (-0x16bc849a6f4ad3c735971ac8d3ba589f7d0659621c6382845386b278effa2ee72) 0xb5bbf73e147c2952597a7fba2d5d49cf0f817e5a0c7163c2cc952af63a794a1 (-0x34793678f31a460557f587561999ee55f8c7b5588a92f2ecc9b8bbd0f466f28) 0xc959198da0ca33d335fdc8bde42d2e9b1be1a88ddf9f208f068ee0661f341ea4 0x3f58c4db4313a2cfdf7a1ec6706d720b03dca0ee100578a60c16703626ddfa
; Twice 0xeab85295dcba439a58d5d7d1108253fd0c1d6514d58033c67742ea290200d348 (-0x1daa2f1eb0855506b6faf79c6437203955efc07751f1c048b0d1b17c5e4e66d73) 0xd7357bb1a0cba42a244f08b4f03b529ab6961c2ce2db2029b50ec266fe6dd2ec (-0x1a711d3b3c076e60c5b86d0da6681efffc834aeffcc51fe60f27ba3f56cd0ab9) 0xe62fe8e7c8b2a9e6309a64cfeead433cd84201395c432d80af9851f88e6559e4 0x4bd0eabf6227fdcee94113bdd08896efecfff0543064caa0fd1f2cc5195dad4d
; Twice 0xd25b1ec913fcd3bd2c41757eee7426184f5a3d117af9d90465f8886847015d08 (-0x1f055a4847f34fa1d148214b4edc0b6cbcc406bfca554e4b869e5ab60bdf5cda3) 0xacd99ef1784c5eb156bff19c1c5e2441d9b02bb596f5f6d9a610df2ddcb9031f 0xa64b350d94f9c557224f29b5d50e2df9c1b6cc0dcf393ca795040cc8e101921f 0x1bcf64c127ed0f79da5a98a9d4f2d89a28c1d713da81b0100e0613590bcd1f97 0x8dd39d911ce5e3b0dd8e4df4e51885a1a51564961a1e68090977197cbee0b03a
; Less 0x9442f3d86a9a6a3186f788f4cc4b8b0921ec79c32109220d68e7052a2a325e81 (-0x2dea9b51d99b0b72d36f4a2ebbd79bb9b6ccfb2ae70db62c7d2d753b651b3952) 0x55dd7b7534fb8f321b47589d33dcbea6f0fbda376ef0e398889f5d6cc57dfa11 (-0x1ca2cc467053f51abd3c7b51ce0096b9e1c159011cf8a1a9613e66e8add5713) 0x1ee683a6fc6e21e9e88c34418a5e063f5d4ca8298c499d48b9f2ae0d425f14e5 0x3ffa95e4f6ae828d0f66fb43eb4a0aa9b62a7d2dbb970ea13e277faee966b865
; Twice 0xc1e8c95ef8d44d6a98b6ff404e483567cf31b9f3d878f9d6cd9552db83683e0f 0x55bbad9653b1ff0df3712d9ba357c187208145a749ce7cbfe7c11b817b9536b2 0x92e0d34f609a36cee88860337d9424d70adff6141381a45b8aeadf532c1ae74a 0x2e14eb6ff7ade69072422c341858646617330765a095395eeac17ce1bd44c42 0x1b191e12188e57709d898f304bd919fc3afa61d212cca0033a0b26d87c980261 0x3399fae8b0e07663752ee90847663c18c336cb20028e57c8a088a2621133a199
; Twice 0x2f631dd666a279f798c1422f0c917b3ed60ba20c352aa0072248fe00e63b4a7e 0xa7f92d4c056012ac0f5f65d12a3b7deb3b3d9a04f77a3e53f5e6a1c30db73a4 0x8c58b54d9c2dc98a1004fe94f8b39cd1f171d6ea63634c58cf26116306141ec (-0x79e83ab3b439d58cd810ef882541ddce88cd935712b22841b7a47daec88d67b) 0x444264630a3d4863076d4334a3d20f1001222019ebff91a4ee9cb2fb0af2532e 0x70844bebbd85fed73f8c44a3b1d186e7226c64647f96d17d6a28c63209358106
; Less 0xc9993a377bec83ef0fb05390ec09b1e9bac7de8fdb568477a11a0d5242cefa63 (-0x1e94d1694ec7757335060e7da587ec94d49b2a51829b4262a67da1ad393287cd) 0x9ec1f92262eab13285f2812d7a61a6e08da39f687a6dad41c732225dbae9bdda (-0x38f6e8c916154c0fb5ee611ddb36e8c395461566a85c4b643ee5034efa8ea34c) 0x8c9881833911871acbe9ca52fd6c7872d4e7b4cab919263929860bfbcf982a5f 0x8f1beecae91fd9f3b2b717f72c2e0d9213121ce06611fe5bc772a1893085c9bb
; Twice 0x83aa4cd70bfb556c4c0e60cb010a6890e220591fd89050ff49d98e3ef0d0cd8b (-0x54707c1f3b90a4cccf8fb0e8ac71677a6acc94a68749c4d0ab41f32578c4a152) 0x43b7bbee7ea742eae00c9a4ce919f6a82da467cd8b307456dc9c167f55d2cd44 0x17d32cd2f5997315e07f84f40200483c451f96565863fdc596c8bfc141ead20f 0x5e45ba4871ebf72c3959f6e7a660f2f5e90c684880e3bca570e7ed8efd8a61ff 0xb974059101c2b03e7ceca895eb7e18e1fa1e0adcffa028c526c125cff655b474
; Twice 0x69b5076a336421bc53459ca8b519535bcff5810f79fece207f4e4d47989ce390 0x31019dfdc78b8180690d4eb3b5dc7b619b7997fbf4d595e4efafd044ab7cf980 0x2ba60018c631ca3ade3dee323022d895d585cccfc194b04d805fa0fe6da8e367 (-0x29505ccfdd86c747bf0b25ae47ac5cf1a34f7ec8c7b713297304db88fb7a8837) 0xc25367fa766e9870403894cd9fee79fd26b65e4c4f62aa3a8d354e21945cd069 0xb0e6114bcd3c8afa137cdf4067fd4bd7d3b644af199b6571a15255456751a9b5
; More 0xc04b41b60c2442ada6e1e49ffa2492663d5a2f643a5c46ca3d58cd5bc94c577f 0x4186555f0f488cd833157374d28314568b36184bc9863099541b80fba2f8c713 0x9070f8b134306d93ddd07d39afb7e9f9f49bbc3db23a85491effe1d48bb34e6d 0x4069a65cb8181208cc8351776eb216e3939db7b37fc2a3e99ba0a041ac8bbddc 0x6c92d1687ed476925f5a6946f57b7f9bc2948d5aa24d17554929ece09e0d4c6f 0xdf620b726df5800371365ff3ab5572663504376d97e2df72a5914803f4be832d
; Twice 0x27eb987d4d7a099becaa76d788256a8777c32213eacf860c499e3dea0fe2c9b6 (-0x4479970e5cd50c493771ef3752ade1fef2fbbddb1bcd57dd21abd018700ae59c) 0x639a14784b6179850e616c1284fce0a708e055e878f1c35143d9bb60c6c204e 0x7da63db1f3bfef4f8d304638da3ede6ec15572a8f592587d30fc8cb38f17ee3 0x3a36a1eb0a360036fce3e6e1cfe045cea1ddd49510aab3286a479b38e898d4d4 0x4c75312a145e93c1d6f30e4aaea4d073ac05ced2cf364a59dfd081fc62beb6e8
; Twice 0x243f17a1fabeb88b015d456e5f883c5b6e6ec60d7a88bbc215ee3709bbd6e068 (-0x120fc175dc31af1b4e96f63f66432eae002ee3f5a47790de01f1f705b0db2dd3) 0x521ce32378f5d83bde09e5d2956105ead3f1ce5b4adf53c382c5b810c1e73b7 (-0x1398e46b111715bfa663e85377c499eb5d7ee58860ba60b578fe248c2980b985) 0xc49fbcc2f6d1ea3c7621fc3499cfa6ff126da2a4ba1c4ffac8593c931d82f44f 0xd8b068d4f1e12501960c9b8f96b0f146ff6c623d7dde192b871157cef46259b
; Twice 0xa0486df12ac70d2f99888956e772822f1782883d96498ecd7d6b577f125bd62 (-0x1c3ff9f050e488b3b1f73648577fb718635436216e24c6e29b2bab2f0abe1978c) 0x645a9debe0b2bffd7a307201f2c4f9a77c214732bc28034190475d1e1e47ea 0x72b7be7eef200f16e0314a0c9e128e8f41845d4e1e5588f31f2470847eca850 0xd664a1f7bbfdcef5e43c6befc4f2e87ca0ec350a1c477225ec08775b18638d0 0xfc8034d4e650fb43d4ee53494c51d4d9c6b79b48f4b00b34cbccba9aee2e0c53 ].
Definition key_9 : list trail_step :=
[ Less 0x83f6415c854e0b1659880ebfe09cf96c3748f8381c9ccb9eb6cb2930126ba019 (-0x304bf905d2692f7b59f40a813696c17f6011fe848b49bd65121d61adf1656d62) 0x4405f3c6a2f4223e44a6ffe3c6c01874566b245d2df67b0dda99cd903c75ba71 (-0x2d2c6407b0cc9742c59d447bc300f11dd4a421f6d61573a4dceb25c5c2057912) 0x6508ab169071068c50d9ea6241eea77849763693148ec2675dd567f76f5c017c 0xc36cab137c54e683a10c0a5d41cbaa5c895b7055080f4f662ebc8f97309c61cf
; Twice 0x70ac678d853bc35a4b5117c6b4745d4cfdedaf840d486aa43ab32de653204013 0x3466c7efd0fc55c886de88e02f8f7c2377a3dd72b5cd6a69fa99b1afb5889773 0x31974eb75639d166c83dad76ee55e8d5517e4a4e36ac7b66eb3d921e585d1b47 0x5d86891bef96f79595072ee29fdcc31ac0a9809aaaed4b9a7c59acec3997b27 0x57c0bff0f35b997c4becf695a7366601434a1245d29e6f85359c7fefe06e99b8 0xc369038e287e8b5afadf310bc76acf4daea986d633fd67e3e21abec0d0ccce4
; Twice 0x6bb778c605b0f7c933e8663ad656090c1c66163e333512134b3a9e41785adc56 (-0x4ff69cab4159de174ce11feb7b3cfc3d7d3e7446a1e972e660efead531c92c73) 0x2d52e2739a2b331a96111c47ff09e38a8d9aa18436ee77a7345687b8c955b6f5 (-0xe064270af6df1e89bf2febac8dfe8f48b28a0061867e9c1e61dfd5f171a967d) 0x791560c4019897fae4a0544219662e3ba83a69e029cb0cf582c8e25552947069 0xbd7ca941dd35fd469af59b7e0450a287a03d27bc0e6dfe28cfe57ba68c686129
; Twice 0x28d79b52f04e61876bd5927f1fb9f080cda9ff37ce900ac86373a0a64c9f5ebf (-0x6f59838ebbc16bdf20a1ced9640a8360fcaa6cc68cb38293dde60eb8e7bcf5fe) 0x68416203529c2200fb310b6d8108e1adffb27418c045fd450e412f98cf74510 (-0xad42889706583e82cb9022af8cfc0d537e9d29b2e0695b61f72b7eb329db5ed) 0xbcf555ab38f6861b1e1e2bb72167f72e5e399a97b935a29ed0f8f17b242136bf 0xf6c70e1ef7417686ca63c9242fa88e1ad609f54043f16c233aa94f3080b45ac0
; Less 0x3451bbb4497332f06a7f0ac83e9d27ad216ce2e43edaea6e7bb8ce08b2ad2ffb 0x10bb21dea65945bf4b139a7334b5649dfee6b85d6bb99546fcce9f369aa14182 0xab14e599a3f78372272ef32fba1914a4d9e852e5d9f8d520b674455d93ddece 0x1ce69c05feb106129639b90de16be98de05aa7ccad4ff07749120bdf4589df64 0x2f8baebd704ea8b5238a825d7ce18ff062c07516188c13b0d15d5927cac00592 0x5b8b27d7948718bb8a7f229e81146587809d231fe1bd4e04195b1e17c490fec3
; Twice 0xfdccfe830777e41efefdd9611189d93b975e39ad570be3d1c19efa6b1aedfd57 0x9b05e56bb64ed7072c3dc58157378cf6df1a0b684f15628a2e43c404c6347f3f 0xfb9ed336963df910fda00a6efbf3c06dd0882ea12857b0cb27a70310dc2ef9fc (-0x304e30575be6cb9c45109107f1b41c7cdeb1c97cc2e2a9ad50919bdd321f9527) 0x604506fa2be43d56a39a61841e04eb1536d76fa7765eeea1c2e53830007a0269 0xa2b5645a03d7642dd3ffcb7406290a6bfb4ba3d6bb4e6c73b014186e0f2f0405
; Twice 0x2c77badc146463967f962fa8c3ebd8783123414779c0d96c92a1f5678b754a14 (-0x3414fadfcb76b2a089981617a03459f9e502fe6a009c48b0ea2ffac3c3f01798) 0x7b9603aefbb62a028a9f3668ad1d325ed9d09b9893eeb19e7e4f2dd166bd8c4 0x540c7ac0b05405254b26ee82efe00bcf3bfc5572351934829783020519c912e 0x4207250b65e3b322e06a0fd75adc451bd97b5cdfd79c038c6366fac3992f6582 0x216ce09ac991bfe29bbbc3ec3e8e1753d7c4ec6c9232db7abe182642082f9535
; Twice 0x731abbb5d76546df2e28d6ddeec55e6dfba1419bb66deeaf03756fff0779ea13 (-0x150840f99db720447f983a3f3bd6fdc4f8aca309b6c05f7123dd3d06affb87d5) 0x33c107703dd8ef8732e18390cd8c4c91af49512615d57c7d79c3c7d443848029 (-0xe7c1588c675ff2ca31cd7df9d3cc5089784759463ed6caba1db689251a180c7) 0x623e2c718c24be5279e5b354dc08ab0071da2df630fda6d6b86883033722728e 0xc86f11943c34fdf0afee4660a0823524830a3b3e91ff05e3f4c3ade2448bfa20
; Less 0x775cbda909caf0eb491856ddd703ccee82f4a19cde94a2e911af339b5adc3bec (-0x42060b52456d6c9aa4de0b4e3272322800627153288c131092a4a6acf51148b) 0x37a759ec3cc417d7823b4e9206629c2ea69584a9806053c2dd63a0778abfcde1 (-0x17a937f520837f1e7500f8e765414f7fa1659ca9759fe63e0b546f1cdf36ba36) 0x94fd47b9e5a767f1be157d11be8ae789e94c3e1015f1fa6d5bd2138f76ab3a4d 0x340f06b9b07c0e9d8d69c151576f67fc1c02954035da1d9e8d3ca1a7f5f82296
; Twice 0x296936d0a3e7ede889b46a90e46c467ae53f4af3d52df0aecd5f002ab34f27b2 (-0xf349e5cc23bb0d0f444c8b74db3087a4670a5866216d83b95a198e5affbedb20) 0x6b2deccde164c7316720cd544a0c116fcdd8c85cf613553bcfbe3c403bdab5d (-0xedb0cfdeb464b436c41911c04760ef54f417277b5e719c15aaa9c7f6a2b993f) 0xf0d37c9b8d6ab3b274883a4373a59cb65ef5fe9c78f6d7e2e3048d09886aee87 0x3e27391686900c2b974a56a4ac3e80e8928cf2e03c12fae252709b92e8361dd7
; Twice 0x6795ba05799d6dae9add61d578a37f8ee9f078b583eafdfdd40c8cf37a76396 (-0x2a482e4d2cb70ef40cc100902b2ae8cf07815520bf147ac4769d28819c8df6064) 0x29e9d342a352079d6494d322ef32311e86c83fc2405731d41d6cb579e5ea6c 0x12d0b08a9e072d12627d8a3f945e056d6870c09ce717bc053b008014e7579fd 0xc25380ed623213a3ffdab1f597f1418a9d85553ec7f87f136d7b1973f1816942 0x71c6ed86ec4ba4c3874dc0b2f2fb8c419db2248ab0aee1c4eaae4833e4a02194
; More 0x4f202aadc025d5c99bb281c77cadf0da0eb7cc43e92b8980ada338b01b7df746 0x1af66100479b4d7f6a195fce06db3e22dab0345544fec61f290957bade774897 0x1874de620799bac37d25d4f3f0935cfc7ccc1383df510f45d1122777fb9ddedc 0x17fea9d6df8f67c6b5fca095b89bd52f65f7bf250b160126b1405aa8dd1d525d 0x74b1c60372174ba6e1d38647366defee29a01931f98a565bda7045225eb7da28 0xeabbf226935cccee0ae77881344cd8a96e68a7fe0fb5445d6620d5c6325e67e5
; Twice 0x20ba977ce63461488ba0580c0c3b9532fc738bdca2bf6db1af0cc7cb54ff3c52 (-0x638f993fb6bb05fde8a818e523f2b928856492578475aa03fe69d166ca1b73f7) 0x42f2ddfb8df5ed0d18728787dc0dd5b211a535968ef6d2aaf72dafb24f324bb (-0x224a25ac3d52874e46a681b8c3fc8c4e3342eab2bae8d767c529d5580252ba3) 0x85751a255815523d51f750657dcc62b86f4179b677b8a9e1770bf4d17115faaf 0x275407dfcd35a5ee92f98b3dd1a83794afa14a2dc4873da79d65406a93d5d3a
; Twice 0xff5f4d36d70076df2b4dfe51eca809da3a1d13161f8443cab5e30e0b75989cae (-0xcbd13d377d3b694e22d909a6c373f720e2b2845f2f5f599d5e73c993d5589ff8) 0xfebeff4ea50f878c287e3aa5bb872e048ac194a2525250dfa889255fc14b699a 0x37f8887d08c6007c8be582ad8245683ffd07519bd90914161c0d63037ddd530e 0x4d5959208145563abcf74c74f8be8bd0c70f39b8ae8cef48a54a94e259a3fa80 0x69b8c4d9599f451b50652380c46d967a5ace4037d3288870e85e8f92d320b9c6
; Twice 0xe308fea40259cd3f9af8dd216a7678c90a589651fe250a98d8fd1abd95af1995 0x75687e92650b7e32129940229a60dc532b507a59e653c04391a012213b45d381 0xc958f3e88d0e39409ae304c8e197c1b65872c6592eae77b4fab0921d168b8f34 (-0x8601f844add73ee01eddf4adfe789ef8851a6db6cdd638fe8e0c57a3a5e5a002) 0xe47408136e4cb93acfb8d4b6a076e824f368f3901ab104259de0bde5d1880aed 0x33f8992582600e090d37e29749f82dcde80f70712dcea2734142fe1fce1e71c7
; Twice 0xcaf6488013985eb18770720bd292921798118c6e96cb357ae64f8ff66c54ce40 (-0x21134580a7facb58f9e8569ca2523259507e38471cd84fc4a526577a0de170948) 0xa0e9975a2a8400b8ffaaafea4cb9c2bca7545fb2588a0e5cbbb10bef67246a79 0x1eb11219618780eef3322a1eb094737ebfb3b96259daa25deba56ce520076941 0xbdbdc1220f738ce8b5bd8d9956c7e9b4f4bccc6e9097943eeaaf1d41c43f649f 0x5eaa9d660320930761d9f9553464065497aab5ae09a220e91044fd6c937d4efa
; More 0x50f5ca066e3ea959b09d643dd29eb1c90171e40849befcb05d38b9a69d4cb9d9 0x1a2334c5c2f723945932a2477fe5827034504b59017cea4c8a9ab58090ba2264 0x199a8a406e3ede2cc65e23a10eea349848c6128083c6194bfa4f6f9decf0be45 0x3535274e52cf9e35ae245e534220edf3390b4039f6e270b1c7644e5ddff3d6bd 0x157ef94b577339b47f46d1379672c7fbc9f5fdf98a92e02e58b2f37559dbf101 0x9009dc9c85bff608dfbe42b944af2e25e7c9d4bf3e5826a3019c31fb9238b6b1
; Twice 0xd48af78f64336cdda367e041b9b75ccfaf3050f61d28a9b3d9975bb664af27a2 0xe9c27af843b0c79e4c9a398ee6b65719443c69cea3bd09ad9816d776605b7ffc 0xb07675760469ace21e4af727736497d491425268cf987bc3c228d82dcdf57333 (-0x6b05e74a15e3ab1bd4e9f47d1d830559aec14ed2d4effc91e441af3890bb638a) 0x9666bc8d44273a178e404ef2cbf370b85708794a690ef14c4cb1c668dfdc53b5 0x9dd67be86f81788b9550171d1dcb14216c1a424e2ae1628d58649e7d38b803dd
; Twice 0xe1849d5fbf91ab0e3a22fa2902ee38cb4e7d02d309f4fb80dc02407dbef4ab6d 0xd00e27c8829fdce0771ef41b88f2ca26ee4c730c3bf6697143cf8d2664011b6 0xc6aa6155c0e49304cc5eb97d9ce1f35ed8aa3e103087e129771b0fec235a05a0 0x3d22c11449f0155dd53dcc0cf774a3f44147a00270074e7ea40153b775498646 0x51008f58ca37696a9e1e2b66a7a6e7a7669db70dbf6fc945428183d96a342a9f 0x648b4870df74f95043ced8506d2ec8932141be78a9b11b3a803b626a2594b2c7
; More 0xe7cbe4fa5072515e87208a76d92cd38b8c262e10e0fdc181ce486c39ca48f818 (-0x179fc4e12cc21b1c13dce1f2afc5171cd4ed85407b446b98c72c5aafa20d1806) 0xd1e199a180da51d32c3eb2e948837adb2b4d5cd80ea95b59f41ff9e57e40c043 0x23dcd44e1a1294f3f86ea5c007f2383d27d467b7579e5d54937f9dedebe54342 0x2965181a7d5fbc3e187b3bad91bceec103716954742c9eaf302733c89962554e 0x8657f0fa29e581a0d461fc1d586d017e1d32debd8b6d1dda444affc1896b0813
; Twice 0xa120c95f598799403f9688d2ce86fb6847131bef0d9e7b24e58b4baf8779817b 0x950869841ded004a20ea584d83357b7385a21b5559f78c54e07f62b2617bc307 0x656a417d4a441040857f3e69d600c4ef3f7d2cbc183abb40a0552939e066e9fb (-0x3b55b8a0f49578393918f496d7dcf79b31da2e5e14f3ceec9dcb728658056b6f) 0x87aa7f22d2949e40dc28c40c7aeff5d7d8cd2da4adaaebce9b473a0e0f657078 0xabcee088ae052c7eda82335119e7b9b2e2a3109af2502cc1036a3f5fdd875550
; Twice 0xc41b340f07f1c1139efaf5bf0663763ca8b65d2bc5366528ee9bb5481769ec31 0x2f8980699481cd680c5a3b1d3d5f11c6ef5dbec94d496c959908ff035191801d 0x9639aa9ba025a35bf4837fbb6cf18e8cf9ca1aaf0a6b8df8365324b55fe06721 (-0xcf9201ca88990b5c35d4d9e6c41c57acbdb8f8d48286e3ba201e1573af14dda) 0x9899f14f250d721993a746d959c39a7a9bb89db5b46e828314d10a6da931e792 0x7fd00840511ceaeb1570876f0602a576bf4bf9d1a5d7aaf6e29e8653c9ee98dc
; Twice 0xdc928f41f32cdd1eb40a5d09095c0e1f3da20629aeb5347bf212b305c30b81b6 (-0x34a59adcec62b44053f073cf68b0beace091441f0488c977253951362e20a307) 0xbe0c3a21cf657403909f2ffb74298f01022f2f1f3257988773a7c389439fe67b 0x19c1fe9c11f789edeebc4d3bd573de2b9f25298ec12393054de2640fb1ae25ab 0x7ab4d89cdcb55423862c1c4f4e7c2c1b881d4eb845596622ea0fcbe99c9904bb 0xf26eacf14d608d209fceb8303e31582dc7a648e9fd8732c3cd229c846afc28a9
; Less 0xbe7eb3213c4f55d688d9f38ce344ff8908e60797c66342875506a13258c7295d 0xb9e45284e8c28eb625953ee5019f69b91e773a666f9e0f629ffb9e04148862d 0x8dc0509ab554f0c4a69a49bd8b6e17b11ad52e97f94885571d955e19856f6a50 0x1f49517b5271b6ef60fbad070241ce8c4a646907efba3d5e01900ef923a8901e 0x50a9617b0ec7bf1983d08481c0d4cea41b34f7e2162448083fdd029f55828ec8 0x7b12745b3011550cb4b7f684b6bc45fb4bd3f0591a20244a18d4f4a5c9e2bbc
; Twice 0x44565dc7a0606205c3a6e0731d3851741314982762b8c51e2ab34968ed6c936f (-0x48239976711e59b3c7cf281718df2982c4e2df4b9f5bfdd8495896868dbc604b) 0x123dfef543eb99fadf06ea4fdae93348f17fe19a75e1c9fc9835f4e863688fde 0x1410ee4db4a07641f2d8e33c9859d94aacba40be46b4313915d8463c965b37bc 0x57dd1ec2771faacf7275a5d4891c1a6f5ea8e662135469062353ee1f8f41c6f 0xe385dccb9c5ca7b438a5a7a48ee213575b9491054788f74e8eb6534fc9b5bb97 ].
Definition key_10 : list trail_step :=
[ Twice 0xdff9ec34db80299cfc274d8a787d9a192a413d8f9002f7f1612c031e1c17dfa0 0x18dc4fcd2dd0345c7b847d16bcf2d908dfdec696c72602926c46636b65723d9a0 0xc3f55d82332324f016dba5051b1b944c7bb070df7f96d87368d56ce7ffc91958 (-0xbae07e15e2fc4099ead087cdee1c1225419f55125fe445301015ac8ff184ff44) 0xdb1676b1aff94d3a61033f4d157d752a5667f64395d38e71eb5653c8fff9047a 0xf14e70cae92c85f7c3d392146deb2cc4f4cead7b86b1278ec79c33828e95a945
; Less 0x111f6f90ed64aa0e55c90870d590d2c1537e66b3714a89bcf9236c65e0716d99 0x77da99576da818575913a36ee2784ce86c0f789ef84b540a380f9abac1b85f6 0x12530ad76650d8dc4f89fa804c028bad2e8300c8b7130803f8fc1947b786d50 0x8432afe02aa09d571bbcef30fbdb2ca01997233b70deebb823bf33ba5bf4453 0x5f8ef2f7ec0156247330e3e9da0f541a482190e2446b4d478c2e794d52e44bb1 0xf7d3681277e9febffdda305dd9f36db361d3259fecbe19c4051e3777cbf2a02f
; Twice 0x693819a3664ad3117d79904ae0874be946912e8d1d3255df4fe74b2153a124b7 0x60b5d10d5e5a460259953c61d2c14ccd6d65fbe6db77d384a10c03df21ef55ee 0x2b3f11536f368579fdedfa8b46c44b07959caa71f2d604d11af8236611dc8ec2 (-0x11d43718976ce4c55d0c70bdff67c203cf4c3413ab9d6268a9edb88994cb943d) 0x8aefc39aa47254d3650610bad0f0d329733ff3b52a69d3e44d3dc5374985f231 0x586049f7844ba7c69591e0127c8476fbeef68f181f0e923aab1f69eb5fc9c614
; Twice 0x5e4014f29592f6df686fe8f87334773ec59e612706bc62ba5e5bb84a7385631d (-0xa1232967f3d72ff6101ebac103ad393830a0e9f6add7c17a5cf6aecd11925068) 0x22b31f6cc38ca3723911f981eacc441c8edfa1d075bdaf075f0402c68bb091d9 (-0x352e09db4dc1af3efccd042debf5d4f8018e9460c8d7701a6874e3e4493fcd8) 0x93f6e48b3f216adc51f8544d69f623c002278ac743a772b742de91a829261ec0 0x190e03d274c45281f892f0f77e56cef5dc34047a4bf0e5f1a3d0ad00b1f6e3e1
; Twice 0xffd683c6c68e11ba26623eed2278a974ecdee090141541d41bf3c09f506cfc7c (-0xce7c80e5bbff7dbb09b3f19ddb34ee177f4cbc387710f366c2c6b8b16f9309fb) 0xffad0e47936514aa334fed7fca89b30a1ff2bc5bee6ffa2f363a34fff3d8e8a4 0x1fe2d0fd578c68c7be5cf3e09abffe08833ed29a5de3648880b7f4a303fee421 0x740ee7eb11a2d9c09002939b02c3bf747899446b9a8b4212a744ffeb23310734 0xcaf9091163b3a040947c2f66d8e031f366900c6d1b88fc19721abc426fd3810
; Twice 0x8b1e46b0057af7787933da7abc993886458d52cb25897bb76747182b57024a7d (-0x900ee1fd524aee6c738d1957fc600473c4eee77b2e92a4d4b1b9e90c499e57f3) 0x4b99e458165371ed671c75a853ec61760b584fc6c0da3af50cdc554fea3e1be7 0x6c60485644267116e5f7f147fd719e0e957bcf0a843fd72cd8548e462fa87cf 0x679808cb7eb1e7cebe316a2df6c13cf79d0628064abe96626bf75a1dd97c8e88 0x827013121a2b87771d26d9dd64d6b0c7fe4b0cd0dada1ac9a53636fac955f3bb
; More 0x23afdfe4ea48aaa61082b9e3be8b579b30916c86ed6ec339eff75be6cc7be067 (-0x7cdfea561c2decbf09796dd288fcea69c8b74b4f33d149ea087680f1ca2c98) 0x4f9900c7bd25aebef8d51970d42b5c76fec0aae746fd81a42de232bc95571ff (-0x50f407f8c7113b616bc1356ddc70d7df6841db73a90975cf95389921310c0a2) 0x8be37f10e89e6adf177c365c09fd6778e24e33d6bb7caf745e7dac71a6ee8a52 0x87c9f52a2d4911a8ec4bf6da07bed2303a608283cbb4a0ef50983c12cc5e3d5d
; Twice 0x1d971d262b5502521d871d0c90b96ae3f6334af6f2e544b91b1a9c759ce34aee (-0xc5ee71be9b7124941e5010c6a252a800442d2fa61c9fa2af29ddb7e32c045623) 0x36b95ce0f95a21f8ad2745e1a0369ffd4897dd27b8c70b532cfeecf506ac772 (-0x878cd18514a12ffbbaf22bc3e0077b0218368ac0b04dc99263fc332fdefd932) 0xd52eda00da71e81df98328892b2e574987f78d83814b2affad66f0980a902812 0xd8d86feee1044babd82ccf9ddb687bb3c677fccb69fe8fb6a1589f0cfc97c0f1
; Twice 0x1a91aa3f537ae8043539842a320200a99565140d4fd16a5b82a399d3f149d5ee (-0x1e79241b5510614cf63f5180511f834455cffa223f992fcf594d48286751ce653) 0x2c1e9772cab9c5c475a631cab489366254df2b00a6fee53d96c5d5924a42ed2 0x5192b3721f6c746a45a25b8f355d2a0e28abe9b853e75c1b2b37a9f8e2ca182 0xa40f2caabb47ff917757072b9bb341316ecc90e26b800eb6888bb892e005c7f2 0x8785fbb3f0ba485547aadd35fa8fb7fca1bd20cbbe56f8efc92afd18c954de51
; Twice 0x70f779e36830797e9f816335743def25c223fac9d2cc78490edf47a26d9afd4d (-0xc3cf148d3958e01af90dbaea59150256fe0d07d48c043f3118ade0988d137471) 0x31d979e39bdfb43c6b27d210e020f9d204a327c6a9178b9280f2bc5c35a68f98 0x4347ce0cbc15b2ba84053dceb24ad403a8e7191a80bbbdb135b6eb9c81a32828 0xb975f435bf95da93a377d1bbaa7eced329ae3e14daf7ba40797f033c2e048dd 0xc97b79f6a1853b4cef1a35fe39956da4a3518d3b8ccc5c99dcc9f0e1eecf4428
; More 0xfb6796ed7fbb42d223a3f9c4f434b69e5d4077a57b8b945f87e0bd119ddef4d4 (-0x5dc9956e76c4ac40373ed35f27ebd921f037315ad4c0b577a097ecef74b8ec99) 0xf6e44be17b75779d8e50b5989c542d99d6b94992e04efafb11a62582e0b089a5 (-0x32dd7a7d457537f27ae00707ba7dd663090120a301fc20663f1cfb7ea5529db4) 0x3f62ddcff9afd3793302f09f9520a33cc1cc3d85f07391c3aee5c2aad70c4dc2 0xba46a0ef04889c6a74ebb4dd5ac489e49405755805ce3fe2be8168671329cc80
; Twice 0x7ae361a0e65098d7b082a3054f450c9fef2b2c54ddc5eae1a66148b5083d4056 0x83c0caa8986e31af53ab81f321a63f00f1794b3c49e63164e92650087e156f09 0x3afd8303df161b4a0e9f90b770918c8823e3e58158a9e6ce3525e3ac588ae759 (-0x3d5c87d30cd9c6345ead40a259d7017180bd4fd7dc893191f82f756a547df289) 0xbf36c92b345dcad08125e8a9d0bcc5df21dbcb7161ed14f43b979a9fc39968b9 0x29e504e614c0412e1385b24cc79abb037b1fef1dd5aa173221e20ba9b55871fd
; Twice 0xb6ec1f852bcb5058bcc60a30442b8ed73d5bb0f62ffa60938ac89f446a4160ec (-0x17099783012be50f965da87bcbda72c985d1fe7cde4e5588bbb05c0cd8d1f6968) 0x82b4969bfe63f19791e9e6fd6f0d59b72040e2ed0d22fbc53e503dd7aebac12c 0x1753231bb1179896a74c8febcbdc75ee062f0a5f2abbb8ea86f8b1d9a49f43e8 0x9e922c900940461a06be5fe4db48c03bfe3bfae84e89b1d07d1be2edf411c94a 0x83be05f236df67d99ad7a1871efb43bf9271d90e599eab5768decfdd8d466c3f
; More 0x1732db4a1701d597822428cf4b14ddb11dd1522578753fec55e899ac6cfd5fe 0x4aa38226778d7ab7417db4978e88f95ce52f424a901164aaa12d7abd52afb2 0x21a2d81b7055768d00e8801fb0182bb38b19cb250c17ecd32a88d7cda57bc 0x9f46474cd420422145367fa852f53575463ec74ddd3a07ae3034929f588285 0x30b85b23b9939d489b6d63f92d26b01cc7586654628c1a6dad7b05b25bd473e0 0x6f3307902dc9e8951e1051759c45516d07d34e4403f17868707620ed33b40772
; Twice 0xb3e67d721c67a596900ee5a1888381271337c0d35842bb1f962fb1d784787386 0x8078a46f12e865e594042d2f4f579f41131d23ecab8148ab36fbffddb450d4a5 0x7e6c22f3b8a8c15bd967a7431732f8766a81b5260b7f493039b8154a463e72da (-0x625c2d0d30346fb7484634038d2f92227821762d733409368fd983227ba27d45) 0xbcafff918363811cb7f4f825216a62d26caadd145d5c5902a893d0c84057353e 0x7d6e9ad13db96fdd326e6d225130d6f102acdd470ff6fb310ba04be2db4b0a15
; Twice 0xa1c84247173fa911a75da91762adcb0cfe6bd8edbb7e667160421fed6030203d (-0x102af8c989d52d0bab652248961d3415c48f96ca746420ca6e2a629e81a83dcf9) 0x663d800571b8a1e0262dd52f46ad5ac9d4447fa881058d0f925db05959e1d74f 0x5bf5025fa68743b2a53ef761b25574e57e0371b2d2e28ef6ad780a1e0e2dcf53 0x2b2d52defda1a8ae701992633e682733f7c18ed7670af74985b8a6f4b422bb5c 0x41303798a4fa6a9da396c6e54ec1cad1912169732b59bcd6d52452efc5001018
; Twice 0x78e6b983cc7b77e54295b7ecf963bc713b7ea9570b3671738e0e309f14001d9c 0x27b9efa6853d2193c5ddde87a96a22d50b6b07ee403c5990f3ff93812cf58ded 0x39191ddda8100d852a52029c8381dc294c358628a6beae46cb45468f94ae8a85 (-0x59aad07cf2eb53d19dad0a59de46bb505f34a5328ab6abfc0daa902ae76aea6d) 0xe90a8aa73dfe9e5f57e9da7de48ebaf03a1445e2a5896d11f1b3450e8fd5cadd 0xb97afeb745b02e2650b3dc28644e29ba56bb9ba5a2063edd793908eb15b5f5df
; Twice 0x44e5a97d62b6d8a21357de3043d130e2c5c49f0d4562560db848c1456b45c2c1 (-0x218966f859f4181d22d18307c549e038a1d7daba34efe55d636d0bf2529ae2de6) 0x128ad01359855807e9dddd7772785ea3885f558c42cc8d4bd4ee6cadc3fd41a3 0x89ce96f778b7590f46a15c1a7581d025642455bb190b418adc85daf8ce7c5a0 0xc909c88320cef9f5ef1c6b89af65be26a1a3b9c3f49784871e4d446a8a84c16a 0x78dad4da78a7751e9ee2b070b587b59b4c099d2d8a28457e72afa93d7f721574
; Twice 0x2138f5c6889e0a78bf571e6e655e00739a78395c2e4346a27e8e49b6dc835f3c (-0x1ba42e50ed809350a23fe1960b41fe27eb9d33e2cf7b424eb20da8288cfcb26b7) 0x44fbc09a659db57759de8f9897b6b7069935352f8b2045b19fbea65a895eb27 0x12e7fd077db470c65fb803539a0a9683528ac6509b2b105fe225efc941b16bca 0x375aaa9814b1e9eb4397ff5058a76d567cb76e6e446c131ac8ff11fa4e61fe63 0x3a8eb6f17a1f36454d226ed5e966c73be15a402da40416edffd40a889159a4fa
; Less 0x4169836402213124ea241c58912a6df81eddb839f163d9f0abf04f0d3b2cd91 (-0xd385a2140d64e78e96600db8939b207a67ff458bf26603403efbfd9e4f112e) 0x10b6c035e544dba485fb38fd04e9dc76be1866646e40f59f740820cb33885b (-0x13f018f82ab084dc853924e576df02dc59f31222ce482ad4e8dcdabebc773e3) 0x85624b40ad59b251b2dd22ca527cf5df6f70fd8cc313b46128eff0802cee5383 0x8e2030f3d83411e9facc6f4a8eb2dc59fff6b00a41eebbefd0b8350584f81003
; Twice 0x643d9fbf5b9bd7ad9ee64e2e9a3200490ca8dfd65d4e950ba4e54072721410e9 (-0x613044d6cccb53f39e68b71a988932ea7cd561be619ff43b0756e39ef98ee65e) 0x274033a32bb2df3cda91fd18db3d741c339de786c5b017b785315627fbd939ec 0x4674f35f1ff56331722ea4a77632dae835bb4977cf93f831b78a7149fea2786 0x7a234fe5c4e5748a8fd6b914b5ac3019f1444911001096bfd154e54dcb8286f7 0xab2cbd03e4bd290ca0c9daaeda5048d8134a4cf64101834505427cdad5c802ef
; Twice 0x4c8deb50712999c7ac4db7d288353050de9013ad975cec9ceef91ef69ae5634b (-0x4870acdfe050719a5a65a0227ac7abed5b76dc048bc98d2ca4af1ab585020b1a) 0x16e49264e8feb69012b68a93ed02f1d0d7ae5534658c124efb63b9ffb13c02a3 (-0x83b49ce2cdf7406a1391d8c1060b2ed73cd9322f1764562827130daed7144c6) 0x95aa24ea781d5089da219a3fb6b6f3730ed197f2bb70c0edc679208920e80cae 0x479ebb2f1df317ba75f0d0ae622d056e71002d9521b58070d01b9fc7429fc6ae
; Twice 0x876e2d46ac04072237cbf8784ad497c672682e1443c60cd0f5cd067f69ffcf2d (-0xbab77100c96c23f0a04392d86ad3a7ca440ff018ef2d1796437bc67ce61aea63) 0x47a5632bc1cf6223a2b66a4ab45872e5e4b2dd65ab9285fafbb865b384472eb1 (-0x1560265bc70cc93cf121b0771f3a6c72dd09b4fbf4155d52a721423da33dd7e1) 0xbe11fc52407fe54b08c896e13cac446d7a217b9cc08783dfb441a6d88fc6e33e 0x8b4a834eed1fb91a7cade27e641997d16654cb7acd3b85d15f6c9ff5a4083a21
; Less 0xfeba32722343516c04d69a87482aea835755ee53f88ad9c2a858c7a3904e4ade 0x52909027978c5367d3b81c4b6af17f4440a11ac5369954e4bd184ccb3926aa66 0xfd760388d33b9f9638f4ae99cac44ea3c74c220ef4decd45714c581894048c45 0x5395fcbd09fdd779fc8338268cd380a5a9773fb72802f0cb4d6725db096b7d69 0x6a1116ff23030ea80ef5c3d09bbb9f8f3f2db972d8e3952e6e7a1ed9a0d1fef5 0x92441874059a76789c9518ae69bfbacee4370add16d9a38dd8e2ce8d05fc5496
; Twice 0xe3603ff14cae06f6049791d429d1d4c615f85bfccf12a4c4c4c0ef3f7ba21203 0x7ffc46f3cdf8c4a1d541901074bcfbfec2a4c7876e649e5bd932084ecc382fe4 0xc9f3d596bce29fa295a5043e428b90a2b3ae5125a3225e5efd46c99e8fd0ddab (-0x67fa50e5f3b82fc7395e692a099c431870b9e8cb79651fe711da727de384dc58) 0xdf22589d69faf82985c7a8ba605b05c10940c3c63f27d7e06fee274efd3d4bca 0xf2f684f88588ad57403481e315fa26f115849e35b157e0528bbf97d9800bee93 ].
Definition key_11 : list trail_step :=
[ Twice 0x837720805f1d8c75a873f2323b079a2c99b2647a3ec5ce86baf4d8ccc47e4748 (-0x14dec2603bf47ee78a3d4f15974c1b8655e2cf11f262e60ebd05cd5ff2ba3ca87) 0x438322b2e0542612409b1a77d6a17c95dfdae4d8509d0f4551927b46f0d927c2 0x1c228c422ee94091794ecd35eb6f4bcde7db22f1d66aa57d1a0326bcb9d21901 0xa858f58efd3fcf5eb217b368d25a55ad24c532dae1801e8fcb52e2d97517946e 0x5b3f9d7f1d0b8e505082007b97480f7dddd50490c5e10c31847508f6a984404e
; Twice 0x6200800e8e8a4aca679168b4a053e06ac3c01dabc98c7ae28a039fba24d6c61b (-0x1064193c1f4a9d12793e7eb063e8bdb85d99d745200bf5a1ce04923cc1e4c1aab) 0x2584620b8ab4d2ac8dc4102d4d62263cd796622f7882dd55be6f51a80046e785 (-0xe4301ed3d3f6c1fb0b6bdd48e4895d38447df4468c95135327914294233aeb7) 0xcd9a1847254583402e2ca23f3a26d35f2690c10d5acf4f9c3fe611187c898582 0x85c2e193db089aafa65203471d245278e9b17061f96a1137d94a6ec9d4162bdf
; Twice 0xe951945ff2835a6bc42e7864ce6a337905992c4bf6519939b5a44a44b49e03ac (-0xfb8e77eafb2adf4619c9268d4ea13b507a6e61e94aee08fa23c55ef2f1c92b9f) 0xd4a59a16b6cf402b093eb3cec0cbe482a3ec70c12e28f7b39eabda411701bb90 0xba980b5e3b37862dcdd8c6449b9e858b786ebb594961c839a4c875d2f46847c1 0xde6eb79fabd7c8637a1fafd364504c50a561dd0f1e3994d8bfb222864c2c1c 0x16ad83e27361dabdbe687d325eb5d07d7bcb1f810f98e5fa0cf0dfe2e8a5e6a
; More 0xa8da44a7a11114e8d7894b8f7a8613e18961c738c7de86ed51953eb13122294e (-0x46103a7a7622eeab660dd463c166f1632e9c61b8470c86f935b230255b91905f) 0x6f5f343572ad6c12d77cf89932fd87fca4b6d1325356e04570bdb0c3f3ce49d3 (-0x3ef112f71ca0c1d3edc15f16bd0fd31953ef18837f5c3c906d57c148dca13e55) 0x604bb54bd1121eb1a218aed7b23afccfe930adcae4c8b3d49ad5c396704b6ee5 0x8ef345474bdeeaa148771fe148e1c9cefefb46a1d0f59baeb17e84456fa9d903
; Twice 0xfb26c4db4d08891f20c66fc55c89b59c8786104c27e361ec4d308532d13df8ae 0xabd1bad6b13dca1872962d2cfa6019c4d4a8f5563c88aa902a5df7aa6ddffa74 0xf6650be607ef3122c6cd678a74b0eb4ac9b4314c720b66faac77dd63c918d9d4 (-0x4211e2c6ba4bb53de9cd8cbe19bdf7720ef435877bf46a6746056c85e580feca) 0xa3a41f3ad8f6c43aa945ae96008ea711e5cfaa743bfff2782fac853b78ff924e 0xd6cfb10da4deaeb7d25130f2c31b2455ccbed73629aa554c7039f54315125ed5
; Twice 0xda36383ea7ab1e3bbd35706e9ac4a751608274a5577e70c0cf04ab17ee2d0832 0x34657c973fe593a7a1d3d5ab2480823e5ab3ca79f7fbbe8332181430fd06d415 0xba006347365a07a57db9f5f074ef8bdef0e028b4931e11958e0f464cf45b6dbf 0x1434708cf44fff7ee7d5b434f72973394d81b469e242f117315cdf2e644f9e2b 0x8beff5baf418f5a9622cb7281daf86e3ccb6777a515376bb1ee843fadc3372e7 0x7cd3edeea04982a31e61842d448ac0e4d9a7a422b18339c6e98fa1c497319974
; More 0x1e36cc3ec82795238c880f9ccf0144280bb243695b8de4b96a603a4a2a5d1cea 0x3e05bfd4cd6207ddccdfc11f0dda162f182f36e4678942c5e5ac9f8d1574175 0x390e39987eab9a569a3c7727679f88d5b74b2434d3cb6f006e7e82c271f5728 (-0x519eebf6d7104d1adda231e52231cbed38554e47c0768714c64716f89f56a4d) 0xb728f7c311309be938f5b2aceafb91de0274a64c49d1393e20cfd98e3f9b278f 0xa0937d946d38714c7f6c0f3cf1652010d1b9393437b187eda93eac5379437aaf
; Twice 0x75f5788ab31117334168f676da1696dd601abb49a6a65fcda829651a4243c66b (-0xf528080663cfbf686200db56131dd36d65fdf82253bff0da60fe4f0c45f49caa) 0x365a4b8ef044fc7f8d3dcd4bb069c3267c1f1db129906adbe4137198452f49a2 0x2fb5b3dd668e1e7b48eb8b7584350eb36a35483eb6376862dc808d827f4bdfa4 0x4f9e3459eb24b51f050f2dddd74b83c034139c551bd112daa2357e7867c4ab3d 0x67f8e39804db84890666f1f6a71edc886803c3716ec5fad13c8c9bc3ce4bc73b
; Twice 0x8ff2ec98f4c16f37cbe81d1c6f260ee2f15f1853a4581dc0e2cc05477633dd0b 0x2aa44ec4f2fe2a302483f863605a4bb9bce145c229e51c9fd1b6f69ce3d6a886 0x50f14ad75e3a8175dd584a5ca580caa541aa6ec3616c4af67284cb7265dc3680 (-0x395744a0db2c49ed6df37a1ed66f43400df61a4a2c84684c1dc4a591e96fb9e4) 0xb597f0dd18605bbc2e149fab70ef3e09fb9f137cddee0741b19cb2e38b90de7f 0x460ad9bc501afe66db634b709039e9817812d7365693278d08ec3d8bd418510b
; More 0xc53bab9ccfe43813bb5455da163286d321ae7ef5aa0ab97dd8614591ef135686 0x3965f542cd1512e0ff4a0084a80750765a0386e99b0da9072c98d406fbcf1d20 0x97f4e4087d3cd3510691a6bc93df82330bae0aeeb670f490feb9dbb221a9c38d 0x53a4052f5f91cacf3dfd21e87f651bbf992373dbf761a57f4df7f80f62fc89a4 0x49081106dda1d49091d611f031ab14442314bdb5dfefb14529d94c58e6a2709c 0x9c35cf374416669693e8a8b60b9ff9407dae203f6e04a6dadfb83d5a1174ff6b
; Twice 0x341db1341df556e3447fba2590c831e4c49107451e1630cc2f95c518086630fd 0x1194abc765bd92f102b6ebbbea84435a6fc505476becca856be282c7a9da3af 0xa9c136ed73fa45a41480b5636aba283060398bdac18256173c5699129be86ca (-0x9db05b797cf210005c0f4594fbe1eaa860534f512d9542b1fa5114901c090a1) 0x797174ce63fc14c6dad3d783d0ce37e62606b16731bf022fe769ee2a3f757f9b 0xf6ad625bbe8f63b5374947689df887999f2d60d5fb7881fb3c6ce5589fcacdf1
; Twice 0xeedde9616db404375c7b690f81b383a8ea2473543c9bb81e1540d3c2349962fe 0x11f80b3e89e07ad6b0f81b053ccc9fa41ea039340befd921cda35973c19ac494c 0xdee15e4ecdd5fdba279a86516125050f5a379a9c3d4bac70988d3776cbb56d72 0x1d982c1072feefa692c1435cc3f8a3a1b0f1585df71c8cf00b0020fd53fc9482 0x59b9de94dc9c31927d95aad2f13347d668ae0d7a088728909130c438f6ade240 0x15bbbb3bb2918ca4981e307b384b40806d2afd6d06e02d0ccd0d8220dbdfbcdb
; Less 0x2e1f9d12997e9123e2d973f233b63559c3836100a74770f50bfadc5b7d0dd12e (-0x32106c3419af9282c09f2e910493b25c71c70e374e6691b903ce1ac30a86bbc) 0x84f605a2259dac9561c861f0890f4c76d9209227f2afb2c8224f5ae05346207 (-0x19cdc1023af94ed9f73b75257741b2c1a3875c4dd6f51d23cf5b73f9bcb15ef0) 0xe8f1e61761e2063b86309d692fbc979231b5b600c4d40f9f629b3de90b85e175 0x35a3803fcd0c29080efc746056054578397c6a13665cd43a2422a0d17a93c3af
; Twice 0xca91e4bbd566ed8113a6241c25f0fff671c71459a12ecd52502f15242f446a4b (-0x22702d76475231dce2d8f6afd403373bdfc25f4674f63a7ff07a402b81f36f622) 0xa04a901df637db76e27914b7cef5ccda8e9c9243041d2a3b1bf533ffb416cca6 0x1aeff15c22a648883734b2364c1184e3b2d1afac825c41604abede1b7baf1d8d 0xc6e712afe139424e0b15e738548850ff7779f8cb400c5374cbb11c95cb053bb5 0x8447f24375f9e73e6dafb8348561521386b8fa8049fba9567fe548fd726d691e
; Twice 0x22155cd61fabce636a858c8228a12e8d325c07aa934ceba737e39668f315e8e4 (-0x1ac65945964580d7a377a4a1bfc8da5b5680fd55728024860db773e410158d388) 0x489ae7141bf1d4ff54ff429dafb94f48a9dfadfdfffdb7234716f99b813a4ec 0x91b513dce0616c871c82faf0141047abbdc47fc72886d95f410eefe09e5104f 0x828099fc728c19f1d992d25d675bc19e060e29d20e6150d1aef239af034f3892 0x84981faa7c171da86f7398db9c6f349995c7a9bb1cf54147cd1fcfa7e3492a5d
; Twice 0x38ae5c1af24b594401c491add047b4bc81ebe0e173e2e734e0bada371cfa66ae (-0x8cdd6aede265ae2eab5e4dbfbe86bd35aea758b94ac129866658a71e330718a3) 0xc8cbf0d2c5275847dc7ab7109cf436024f29596dfd61edf46af9c9c5f98cd0c 0x1bbd3b94de92878fcaa2fb2b206d29ea8907d19e5d64a3cd11c10fed8780ad50 0x537e745b09515da8670467e17e45c56d0e23812522170b18b635b651e017a2c 0xec54efa76b053aa89ffe13c172b20dbf3d3828042462e74f937efa8590879047
; Twice 0xecfebecdd470c0ed899c76a26978cbae2be788f3479672ac6bc5ce010a2c1dbc 0x1b54140fa5178d4431b8fd1e469c8ce7f3f947d739027b7f961b834bd59bde865 0xdb66ad4b89be4d94c6adb3658b8735f1e1a4bd2f97aafd10a13c65e815fe3b48 (-0xc04cc8e6afbd6479efb507bed1b0aad4973125418ef0f61b9e753dea74e691ec) 0xd4f066368ced44cf0845289fbac8117e52035a5c9b5bb56e8a67f482c60f6900 0xba17e0059f353b427414b7cffad957f6d16a8d37f46cc1cc44490531a7d8761d
; More 0x75ff76139f2497a17c049be53d976fa7c2a0ded97f909b309b52b249c4d28f19 0x30c99b50bee7be26e85e5304de0c93f1825a4d4fcfa3d0bfe54aa8394d99adce 0x366380da97681690ce3bb746937fba61918e7101f7cc0d07b7c92099723aab32 (-0x7628e6bd2c191a8abdba200194d49fb99777582681ae466e6f072849ef7ebb7) 0xe4f604b380d732df6f90b0027264b1b57c1ea7ccc8a6ce7ad12b6b603093700d 0x6d1bc84050c5d2fcdc862aa6538b52d17bb254e0c5c23f876764bbc1d5b0aae7
; Twice 0x74c203332c1b4118e503868cf873c7450ead14149204ea8835065211eb47ba2c (-0x202cee018467837a097e8149b2bd17271ea0907a1b174119d6596318ad3484970) 0x354065ef6ed22f7fb0d3fb689fe95dad9cd9d2ef8ba82bb1c15c5bb78a50199f 0x228a011e14bdefd4fec8e30b2ad85f1aaab246959304befc78aa2cb76d581a4a 0x993b49db2b28a96c6ff8791c84c4005872b91e7b76db03ea1c1d32b4bcf53115 0x59d7b056cca1321f88efc997d3ca3a7ba7a8737cd65a03c1cf10b3978f627203
; Twice 0x8dac750f3ae8fd7b5354a886b02b4776e5c09787f19818b05f0a7f4050ad28c7 (-0xafb71fcb939cfc84f581d4d30378c11ff7e8d6f31aa32d09d28312de2beb0d82) 0x4e676d20974a2a2facf4cdfd5af44b6be2c682d32951198ce120fda18790aff0 0x1eaf45fb0606649bd593b101b9333a409a8468cbeea30fb7bd662a1fa92599ec 0x61c90c5bf084206a7c03fb37262855a300d900a4a7d02557c8e91c54911b1877 0x9dd99c36c1d942228d70cb26c069df16bd812c08079c1df9acec35b846eafabb
; Twice 0x8e26e2931873f76ca2e8450d264d2fa88fb38fe2d937338465de6ca6e9b268fa 0x3f3f718abcba39a49a02b2b9a40fc0ffa6e5540908f1d6dd61076ccc6b9bf0b4 0x4eef29438a431ddf0cade77c62c308375238a662a18569daa80ea7760ccbda38 0x30040b914234bdcaf3b893a333c2710c7210bca378ec8117e9b720e987c9bbab 0xb506bacfd6bf03430dbd935700c9900cabc2124ab225740dd1dc2722549bd6e 0x3c841169801b418f3ba8c947a1a27c7cb60c74766b009fe86c6c055e158f4fba
; More 0xcc935a2ee7925d0608b70de81f131ac445b28041c54d04815d636840f7ab3674 (-0x4c8a06bd5e95b203968d6b4b73ef4a5f2edf3cba62bd1693e6ec2d882d933c1b) 0xa37b2c8c162f664ed9011e01a4e5bdef1fe3f430fc613938f146d98e18f72683 (-0x2633d74c37af530a4f01605e9d19d3e27db430c98887ccc9125e9bbb192942ee) 0x3b1ea1b1c0821e714ba96af1b69912b411a7ce4d6202fcf366b52d6bbda1cb0f 0xe02c32bd71f1136d779795a77405cf6fa78c23c5c385679b5382b773c4f64a64
; Twice 0x27052cbf0d0ee508dc0257743798b6a0efdccc1ec448dd70f35a4e14942ba902 0x1b6120f6ea2ff8fed1d5d92fbe78f2108dedc68f4eb49287bbf0b9a0b0232f10 0x5f293bd0335db2c3e43e925e8505b2b561dedc0cffd91709fbbd84f6df5e1f8 (-0x85d70cc6622638e04d944397341a6fed7ac698d91f3c341e52a84babdacc005) 0x71fffc4eae19b47140720da48dff21e37b7dd8eb44ac8ac88b4ba0a478f1efde 0x688436e4614bea4082f3b1a5bc7a587112d166c8e2f3e0408a03abce43ab04f9
; Twice 0xa2593e079e6b452cc5d616b5eded3512e1b1e841d559c6ab09dbd367b74dbf55 (-0x13bbc214d3f532c85be56ee18df458caeab5c60281762bde105dee6c3a920dd1) 0x66f5119e3bc8acb699c02d4f189f535ec4d20ea7e8278c7c6f709805c2ef53a1 0x184f7ed8b5621d95b10ed6b6332a4ba9dfe3cbc791d2c91e955f559f2dfde65c 0x4baa7188580e9cf676d92ad39cabba6dd4ed2488aca8c721db7daa4aff2d661e 0x876be29280a3af812d4466fe77d366e2f79ab23d5636cd04b75d0235aa1ade23
; Less 0xa9ff3b1c35f7e6193b87f7d27464a2c765ba4273559f6d5383ede6f52b2c5b30 (-0x14de89db1f50dd83cc8461419c4a390a81a4b6242ed08240e0e10d3c2385d168) 0x70e2fa827ffdd027e3a38002eeb82d64cdaf90fac0d59f2f381d60e57d537ad9 (-0x5b9fa590a2c708c60e662480b3de3b1a940c79bf6378ba1faef65adec74f4049) 0xd5a4831fb2ca2cd6411d4bd56b5b132a292f18112cca6f5fbce735863e887b25 0x3b486419bfefe52e81c8f80f277486afc4fab588807feba06c06de6782d47344 ].
Definition key_12 : list trail_step :=
[ Twice 0x1aa74f279b7c28d52e9c96e7444b094a64b6d019e456038bbb2a0428db46378f (-0x20a89525239fb81deb8ec2aacafcea1fbe4dff677c0aad987343e3d11d86a43f0) 0x2c6696c6c81f5cc5ccdc4b66038f3d6227d84df94f0997aacdf3f6bc96d036f 0x117aa3fbd2c80a8b6b5c8b8d643c45738f787859d8ea065eb0b1b8b0498a30e5 0x2dc2d35fd4b1e3860de182f9089cbc99029dd3db18cf3f99cb7bdf60649ecf06 0x85c21e46d44c9a1985a8ef363f90d08c413dbe248a747771b42ff83a49b18bf2
; Twice 0x310df179d53ff83c05712a00cef865f885b019c4af468b55263536a03f1b3986 0x1ab8a9e6e2e55a6870660e27b2f852b33e0b50ed44eafdd062c8bf97d13bd711 0x9665733172f1a36f773d0a2a8f163585a10f817ae43903f39abbe86cc46b269 (-0xa8909bb84189878d0c14136e0ed7db02bba094739f8dad73083f52990af72d6) 0x64bdd406e9b8b9b992dce5bfa68295c0f400bce9db36fd4faa0ad87b263a0681 0xa448fc4c2ece4de32eca702538592fec87e65b09fe9a8fcf6e597c99200c93d6
; Less 0x3c6f23b77b70e6cc151b1afa537c4b81c46d6ab22908c95f4914e618d81c43f1 (-0x17fd96b43eb0920e8cb1d5412c7ae0e6bc1db7ac244332211de2677a77f8b70) 0xe4448fe0e39f05864e01e9f87ebb86f4aad69876d3eb46e4b340eddcb370a9b (-0xde12dc04b58cf5c0fb94ce468851608934ebdc783c3dc854baed967c80bce81) 0x9f8926c03b420deeca9065514bc8669b61b779e88ac9ec41c2017c126b244a65 0x16115312810fc843b89d56bea0c25c868f56152d7323e91d6280a9461aa90805
; Twice 0x685967314c51fb3d76b480d42d7240d3d3e02b6d6a58a40e6f2d1b10e2a86b60 (-0x118457983b793211e617ab7df30a2bcfa4cc8f111a977fb19594010e455f68e38) 0x2a88c311226b251bdf5ffeb2d81f35bebd06e6d7d6231e38ccb5ca90ab6967ee 0x1251946294aced18cf82e4dde5bc0b92d35fad6ac37b4c1a58eb9a24e58aa71a 0x729834488fbc8dca09570d7eda78e727c8e04539d1e85174ecd44ace702a3724 0xfe96ead02ba969b6ff43ab2923bb6f21ceddbf590b6855a1c4385c6f735d0275
; Twice 0xf82b76ed86a6147913cb8d12ce02775dff977844bd7df004efe9e6a5f470feeb 0x153b71f06d7607f433770772c478eb7dcf859c0df1111302e40250d035f0ec85f 0xf0943dce508115c68827af49a76f085f38b83f9142df0fc7b0b8a05d1c46c88d (-0x107811c39816c71cb01a47a36b661329ac65b9c593e99c809da0508b68515bb9) 0x83954c6585d27032ee531abe19e0cbd4728b2a0b985d94b0b5f4817e3f6985fe 0x7ac3f0933a8b56688d8a6a197ed21906110f300fefb8c80ec9cffea4cd97f3b4
; Less 0x60b6ed86331204a0189f910bcd347af219eb245e2ed849362fa17bcff0e5fec0 0x9408dd9156ce04e8e5bd560be0115ec24cfd8678c9859eb0d7775b47adb87a9 0x2489b4db620996dac13805f81fe1b35ea0b39ca4d3f72e6e4ad127d61f9b2f7e (-0x26b906f60d764031c36b28fd3454a1fe72fffeefc031683e456469eb26b4fdd0) 0xea14ba701904016a456d27776ae917dc47a98ab50fe24e560729f3dbc89a76ea 0xd64aa764cfd65afbe60cf326984025e8a8f866f6ea0100c4b83335b1d4d8357c
; Twice 0x3c60bce5e097c16b061794f9f064a054b074cc912cbea9ca320bb39c294d1d22 (-0x21d08c0d695a716ec81ad47ae21c36d2718c76fe17266755db35839b0afd6a347) 0xe3d7d1a074f81dfacd0cb271bb160980aa51975716e84013b13d74a16e84807 0x22bed173e941e4c3d55775e2bd432e527175c57447cc5bf83b34a5ba0328b1ed 0x56c306c4f26057c9186e0213dc25ab72fc66f0ae2bdc3203290ec791f37812b7 0x82daaedf0e63f02609917481c49425fcb73ab4e4d0c5e1f16d2f0473b0929237
; Twice 0x803b988aa3411529cc9777177b33577d940b94b8de037b6cd96b38165cf088cc 0x2ae0c43e55385d825a304b2159db18fb31ba0f90546aed59bd6b021a10b744c8 0x403ba66a8e48e8858f516c86cd4995bd57851f1a6ede21687ba0f4ab80dce579 (-0x3739fa42e15f5d9a0f1784e681b3105a7de8f6b257beeef9a179092d3de99c5f) 0xc503a61cacb8e7d22eb1a1f57c06f4d6840dfa9582e0751bb2f9eceb0186229b 0x4cb83056abff42bde819acedec7ae3b6f692ccbb891e241fe8996773901e07ba
; Twice 0xd0d99f3896b9a7c3008bbe4b32e1ee9eacc475f5fd1292c1b7ef75e947b5b99b (-0x149ae1ae41f2545b30032f24aabb2618d9c5a4e995195cfe5fadbea31a5b791b4) 0xaa625bbbf046ead377ba4874938dfabdb64ff4771f8d723a7b008addf06ec357 0x2b64d27399e2c26db6c940d3725fbe3199af606bafe49dbec2d27cd7943951d 0xc1b09a2f650a116f5da9dbd12d02766242db8d27ddb7f484f7008921e321e1fa 0x10fa5a23ea0aeb7369275ba4497a6cb45495870ebde52f44967346d1b6207de
; Twice 0x778d288e5c5d8cc772b762d9500d7e0aceb651e963da246955574b595994311f (-0x1b6a58f61d6f43634b4489829cc76731147b041f817fc6885eb8f01016ba8ab5b) 0x37d4898a44f20d806292405a8c8c68243879a293894bdeb50af8eac6f0cb807e 0x285d9c8bbf4c1b361d0580888e7fe7924a2c77fc693e9e46e08697bfc43fc79b 0x6b40d7eeb51f965d9f5a72a76b0324686f9744e03c6dbe1d53348a018dcc9e4b 0xda46db73eac0a1491d4821a343f19a07861654ae29232f52f5f63f3c485170ee
; More 0xe55287268e7031c3a88d838e262874e986ff0ca7796cdcbc1396b5d24fdbe318 0x24bf93d7bcd12f3345bc41f5556c2cc52f3b96edb75359346bc3ea490d0701 0xcd6cc066a44e6956b0d29b309278f535c3b948e8ee2d02607c17fc1b6e0bc47a 0x21e4af761ec7b80d9a7398b55c31d3273b4252d95adf9a50c5fd5cedcc7107c8 0x456ac7415d194b4771670dfcdf15b9fdcf5cc76fd4ce26f9f12c2f3b2c29f5d9 0x901673067d12bafac28396cadb605d0d2e7cb244d0f14b08a7708832e42778a
; Twice 0x167bcfac76490fb3cdd37b89f0e5d28d51f5b3b71748bca71f975f1396790d6d (-0x36e34026e1a86a8a30e555b00684ebe99c4348a6f7caf61aca5a0193126099b4) 0x1f98392de8017f42ae806a20594e98dba57e939508f39025053f76e336d2adf (-0xdfca14c7927a0c7c45d1dcaafef4c242bfcd7c5592b3b3c8033e47b47c9c349) 0xe4ac0a2c876af775e166b014a241e8928dc206e9f2c6e68030f2921f48d77f96 0x64f5d889a7e484b90b60677cdc654d67b2d30148985a5e0eabbec9aaabbc86b4
; Twice 0x8712894b827e7ea5f20ebf0cf5e2e289ef9c2b668f852d82fcf99a1faf401f3e (-0x1fa3ec7fa9f6e843b0f1a63dc8bf77023c04359f8f58b4dfa6b260fc881525387) 0x47448e25832639732cb3cc5143ae48de00eea7c9a136215ee170f8676afa1380 0x45797aaa614915c4cdc30acc9cfd7f734daed94092f269d35eaa3293567eba90 0x60ff94c0f7be96e03ca17e6cd65233c7b5fa01fb8da3265a653eb7f3401b2758 0x2d8c19cb58593a6e8cb7f750c7cb8d62926cee3c1c098bd2ad127f8c088f14e0
; Twice 0xa36bc2629ee82bbf41106eb9df49f2cddb1384ea0c11ddcb13cdd6b8b37bd119 (-0x341b4b0d7cbadd64ec7fccd89727822b7ce776230277ee6a5c4e1b2aa3740903) 0x685266e610b88385b5d432f705ab04634249b608edabfb361fa3f835e50198fc (-0x31908f58f7bf9bcdbd292bd66d1b08a5be753e437e94517592c99767f2a21208) 0xaea44bcb3b2c6f9ef24dc6ba2e7c784b331737075fa79cd36e994a8af39b1ebd 0x3517f206e1c4c4deb1419ce19f2804ab0250290ba256253bcb8ec7a087cf3b3b
; More 0x738ecfe64401fd660cb0ebbff5b831949cd9e35b0b4d25a5901b4203021ea567 0x1e7dc9833d9b09e80bc6daedbe708946a2d3e371d341754de4b2b88dd225b295 0x34299e74618d0b6c776fdf932d1fe9ba444159a154aac8a4ec03573cd0dcd56a 0x47072210099f4251244d115f57496ae9643b7b61d027b3033421d82dea5b016e 0x114a775163eb5fcde457225a0b720a94825a9d3718696ea226884e16cfaae388 0x4a2473ff35721065befbccb817d3dfc659a75aeade081f7241aef0ae0892c186
; Twice 0xafa16992811a94d2d7980526d320634e4995db3ac7ff758bdc38cfe6ca3bf629 0x623a6911f201fdb30bd02b31a970e9afd08d5d1bcc3dd7414951ce2d49dbe3d1 0x787e141cbad050c307c9c2ff88b4793831fd357f65c8d39b08d0895e8eee58cc (-0xb6977b9b35c50957a5dec141f886e8306797d7d115c123ed58256013e624ab) 0x12549cdf9eeb83c6df6e67369898708e93c5da6c0e29554be1473b610731644d 0x32391f64668086f9bd76bdc6d4e067e90bb2b57a978d7fea1465ae1a9fd82c42
; Twice 0x86b6461535155afc36affef26adca6a9d3fac9cd93f989408e1723ff17df15a5 0x30eb4b812ea98bd41c7f4144b040ee170697bdfa66593588d05d6180cd6adc64 0x46e3532633ccc38cc30c26488c76e088699ae40bae9d2334047e32fa61401310 (-0x4bff426a34fe815e41c61eb04dc203663af4717e5c2f132816107350627dae89) 0xa2c06ba549378bafbe580da12680186ecaf638585b5b69ecc227d138b027c6cf 0x175a2391f8925e49cf28b5a92e3bc67c9a91e58269e6147f9ee262c16389fd6b
; Twice 0x4ac3f9a9dadee970d255446e0cdf58f9508447ce42391adda062709696e16129 (-0x128c46d2ec01f25fef174d21b72ab2724413a6fada4d10003706665fce5efb026) 0x15d5e25c949e0d61b1cffc486ac1adf5ec0e37cf81b8d8097b8bec371c5193e2 0xd1e600e238e85fbff349a82829ee971339574bb61a0be2fcf4736f322535dd5 0x75d5377241e0d8e05e0f70c6678de42af8e0e2ec1d8b7395f8aeea19b6f41ed5 0xd75ceb7f909efd67fab38ea5ba283687afa50b060995f95db807abe3596f0174
; Twice 0xebc46e3aa42fd14474d4e803ccb9726a2068e97d144c80bf8c07d77683f06f6 (-0x89ead14a15c3d357ee8f1037d41910f6c75a3609c642fc6f76f58e171b446348) 0xd92239197bd3df0ca8d262678c6d658d08ee2cb6bc49caa2b8bb21821c0c60 0x1a23cb3a391d0345cbe4a974441e9c1ffad4e40126b1a8c80cedc3f4a689d10 0x59732845bd08426825f96fb50b6e799860b763fb1534ab496432e0ce6178431a 0x29cd2a896d4dff72791cd463bf3ab8d3e65006727e41121a6f91b06d082a234e
; Twice 0x2450fe63adc6befd98393f9ce81c3043ff82fcafb1f2ebec0b2ca11ce800b8d6 (-0x51e7aa247eb5f01e6b901f3a306c3d5ce54b7d33700e3e4339b25b818f4f4a7f) 0x526e12c091d56c0f5f2dde4e53357fc5db718813f268ca1fd9114faf93e2a20 (-0x1788708933ece3d7c6f5f59fdb814a7d2a759da3e2ee8bb20c249948c88a6b52) 0xff5665fcf8dbb2b00ee29bb87c2c9c646b4cc8d1cd4813d59da23d329bc1f6d0 0x19c5a58267d7bc4b9ae048bc5b3d8839d0eb0ae11a6b372e329a87d78c84673c
; More 0x60f5c88e2cc44fa01abf0e1990cca2fc5c0f91cc8320e0980207c42b903bc0b5 0x3825cb8ae6fab02997f6d0b33f38f888f859c206cc9df5c8db64990cc819a845 0x24b94264438ca2c5095c6df63072d9c4821644e9f09758fa977a365b5fb725ae 0x19e609e518d350fcec405e463dc204e8d4c9d51cb0c77633f762e604f72485a6 0xbaf55cc3f28d2227a480129ae1a6e9441dd788fb37cb3700a787eb6eefda6c41 0x6e5e0dc518bf3c02a4610dd26aa2307fb8ce3f5c0716130779648cc5fc355585
; Twice 0xb574860ce1db4cac1acfe1b2997010f5f298c44c556767d37ffac3c5035e20b3 (-0xfd26e99c82f252141ca8527589bceb8da5a98bc7b3af91085a0b44bc34321e7e) 0x809dfa9879dc40d85b371ca1e88070bbfaedfe733274442b01e526313c0233cc (-0x130d5d41360d252b64025b533606517357e12a31e0bb946aa93bb142e0f799b2) 0xd5d66e03d1afea72ac7709500273afde436975c7a8397a44bf2bac3195ee9873 0x84723159e8d2c948924601eb108906652b746b07158cdc78ac5854b3acd5e9d3
; Twice 0x9e3ab03489a6b16466548dbd84b2f327103c9c9d65d45e03224dee5d600222ee (-0x17421e510251b977720340d183fc8be55d2e91200f30ecb4b8663126f0b50855c) 0x61cc7ef58ccce982e4751bb9553a95227e520f2696f3382b7d9be74b219994f1 0x2dadc8cc96d8567c89d80a6e2b1c6b4161c015d3ab456fca3c0dcbd3a355bd0 0xd137f6fa3ccc83c628d76263eb4bd3ead8881d67ce01f05918f2120b0638794f 0x131ead626bbe6a321bdb70935821d056f0a2591ed095bee17d912a27171b2d75
; Twice 0x6efefe07ce158f82bb44893e154a2d86977efbf631b15e1f7089ce095009cb2d (-0x1f060d4b1312bd4592ccc807dacc67937c8909f62afb478b73d1a3a228bbc3602) 0x3020204bf8cb17989ce172c7d4f3633d501c141596f6ed8297b6f162c66c9943 0x5027174ff5a234c145cd2d3d5be18602eab1660ce93cf3221047a4e7dfe260e5 0x185afa36d67eb666a05c71e71df55d3d15d401500e94871fb8afa1d2c4660c8e 0x679adb557ed7ef57966225c0238ab15215ad949c04d1e193fb1f040159ca5c5d
; Twice 0x271f26f213dce0d5713d2f75e5d9a6e000efb844fbbfbe4791316e0adbe2b0b6 0x18b6d81dac08016711a62df85b9d2c53810f4504f7015d48a3af6ea63861a80d 0x5fa81a83c956076d4afe93127952dc1f230445c8739ea063e83f9e0d91541d4 (-0x148bde0616f238d0a506e41769123f3ed0fc43c4baf54036b91a8e403ba8248) 0x20c228d7715627bdf72b141e233c481a4a3953ff103d571d59408f872f9bea1c 0xd36f89f1e88b180404113d7f4bbfd041f145b5e562d8251d7260e57f5081fe67 ].
Definition key_13 : list trail_step :=
[ Twice 0x31f73f8c8ba1c52ee01028117570ddaae4c20966b9e26d140ef15b24ee8c87f4 0x45f5c49cc42ffd55d5be3328a56d886dcb0cfa42911461c8957625927d3802d5 0x9c0951f88306ea894d037f496d2961cb0fa788921b64d82e76857c57e6fa271 (-0x8342f5afc8fee805b870cb2b8cad3ff1e8868d18d5741864a119c7bda30146) 0x2362adb5b4c66d85cec9ffe16cefedbb71a2f3966bda6fcabcc68745ca4b0ec9 0x5329627141007670454e11a6e92f2dc939f73c2a56672743f815484641f8d06f
; Less 0xe4ebeebd66d9c6d09b8de5ca43922af4b2984fde805943f6325529aeed64b962 (-0x401f6a6e750daa8283d4115badaddda37f78f040d41e121a52e9b8d0e085e422) 0xccb51ab25a4890061a33821a546ce387e69970dc3c03203f28ac9eca86fabe37 (-0x2897c68d5bc987c774e8d1b08fe8e2e649cb119bbf2fbe8aa662f68810caa20c) 0x50c7a9cc85b8b280d4812141d2a0d0330add1a0088ad8e0aaec9ea57b2e5b65c 0x7b27f344898c6e762c741f118c2ca00bb437a6891e947f04ca8a68c852832c3f
; Twice 0xc28641e31c7a259757d6fb650843a3b5ec910c280ab5588034792a875c3dc0ea 0x6eb188600831d9adc21e103e9a89602f97675ae0f64355820f962c011f4b7001 0x93cfc245d5afd10f8852505fe8d4a661171ed04c47b2586a41ec7337444b6eb4 (-0x5ab187aec118b0ef9a80db6b05ec520bad137ed44ed5c725dcea91cab62038d3) 0xc822a10547ae49373f5ca15e785dbd2edb55b283341c00eaff374ee18f63d7e0 0x6ba6c55ef3874abfbbf2cab54a980a7052a29b64b61266faa9a78755667af846
; Twice 0x896eed2598b9d07ffd3a7ed88754a6bebf19107e2f689add83ffac9c896210d8 (-0x161cc96d3fb805652329c5372aae2b9de6de7ece4c520b748fcc5c8868845aa23) 0x49c7e9e32f3cad089d5b6b82b252eb8422f06f5b13d293c1e54b4b689a4a1fc1 0x5cd7698732285e3937ec066f69e9fc5147061acc480e76464a08afe3af01c7d6 0x1b328e05407f84676f1673d48e6c4f856b9c26a163864dca050d907d91fe2641 0xbbf6098e1efb1493e7f023179ea00cbb5894296bb8d8ff41bc128aa2874c9db8
; Less 0xb8a4983d21746cd8872c5890a7a6135624fdc08a7ae5fb06bbd88b2dbdbfb7f9 (-0x39a02735bdbe68fb1a79043d2c4b94bd91c69f481e30bea8bf9c6af9aa663ea6) 0x852d04abce1fe4a137cc08ce8dab00fe68c6b333f2f3c1a624ca97bc2ad11159 (-0x4b2c506664425432ac496b8d0025811fc8ecef959d72204c268d6f507d197937) 0x836c051f6519c0ae4970882aa518b74ebdc0553faccc246dd91f86bc73fe18b3 0x9de129252bb3339a90ba7dae5e68f74422a5285231daf9cf524a775726499a2f
; Twice 0xa78588b0353e97f3e3e9e482c5d1e282a9bd54a349a9dafa738c3b9601c67a04 0x43947c47aa94a2f3696336631a59cbd3c8640482ebbb65d90fee28f4ecc8a00 0x6d9f7dfda32a2d230ee7b40a4eceeba3502652c8c1d4361b76f57d1928688744 (-0x151bb34715f67175ed0c4bd2f3d59e7c99eda0f7a7891d057589e96cde31e47d) 0xa3adbe77ae1ccdfbbf428118129a0549918fd21c4881cc7c61ee6b2540c425ee 0x267d2ef9ff90ffa03ffc70948491d29e6def8fca171ca25d0bde9b34ef7c2e68
; Twice 0x82af06de0e87257f6053f50d21d8829b84cc67ca7eb84427f065368ad2a36c8d (-0x112a85e7a772dcb82f2e5ec278bffa900f655d6813c34b0abae0a829f0036e2c7) 0x42b63aa42d3e82ca157d50b1c80b717fef9e7c66f36223fba931e397c62ae3d3 0x40c6083a09953b22a670a0349f1659c909811a1f78cad08e8ed8703361aaacc5 0x24cabb3e2f5bcea103d6ce64d202a02d4ec2af2198a00299a3e417bc0237dda0 0xe663ee31a71096a68aa3c0bd2414b29c368e8268666f9830f0d18107199d3953
; More 0xcb0a90723ade177c049aec7b78c84d856c8ed13d6688e56f5099c2792dfbdc71 (-0x37c207af1f157a76dc8d4b7090764701cf52ae23425f65f0196d9fc87d67a00c) 0xa109c18564d3494f9e8969e3d84475c73175e6d4ef81c30fb8ffda993453edc9 (-0x89a5b6f55d945840a23642154a82c0902ad983ab02dd4ddd0fc1f6a203545f2) 0x2fa38615510ac2b5b880ad4052a952a68ab8d2c7ab2424b57a00b3b316ebb774 0x5c783497df6ca84bc3412637f7122975090aecc97e81033b47dbaadf3cbc2a27
; Twice 0x8356d9b6d3a52808cd44011fa2e3e2a138a769e66b707cfc484e4a77f8dd833d 0x444968cf5a9203e6a5e522190674b71d5d2a4bbac79880bc4cf75104eb272517 0x436200485ffaaf97a043b532acd25fc0959332c98dafa961ac2605d7c3a8d800 (-0x467e243553d17af8ec4f7c59a00f3efefb6e8b2139d12371f861c8a8daad6175) 0xb90a2bf09286831e14df7e98b94064e64374757b88c6acf6610dd319a06ae5a1 0x51532c30daef38fc5e441fb2f4f9fd1448a4c443c07d86f22ab383b9bce6cab
; Twice 0x8371564d683bd205ae8695cc0733f855178360f3d709147a1e75ca7706cd92cc (-0x18c06e9a5492a45f8d4a83e5623613c8c3a51e085a1c60c10a0a794092ce5eec8) 0x437d3080c99887b1cf45f89c957f4cba3f6a76349ec17750fe668a2174338365 0xe67b8466a9c1e3cfb7ace455aa0d2f837027486086eb2059b92372f5c79ba8f 0x9cfbe87ab80808d46ed103b6f0b38b79dec6e250b8f05c37f9b9958c32430ab3 0xce1c0e799c70b92704e61f371cd772a048053bcd29dda71a10056a2827df7f8c
; Twice 0x4b1d09992304e38cae6c9d01dda23aa125843c6193df81b18899215decbd58d0 (-0xa7d8bf5b5bd7d46d1579f4e3cb6913df160ec73d129abd14281ed901552a1808) 0x160a06eafd9cf36c1c484dd8482c5e4f7b299ac581dec51404dc3f52500b0ba7 (-0x18c567b91c0e1d5b8e00ed992cfa74afda32c00764f77c849a4d82603076eed7) 0xf1688d2c54aeaf8b583179916e6b6aa1ccf759818ddbfe73e76ee325ad749f41 0xedfe0bf65e5b830736c9d8cbb326cdcd783a8221adb09a37b9c85646ef7a0e3d
; Less 0x139955143b872596705f5cbe9ebe4a1604b5aa7945dd163413c1516c17a4751 0xa4870c89ee55f20c8abdeb5124a75f7e3312750b71ea797d1692fdbef72117 0x1801e77d0cbc6b82bb77ace66ce13f45923e4f52988f6dfc4f3c44be77cfe 0xa7d0dc9e6023cb4652acbbce9973c3b5519ca1c77e1fb9cd5c8d344dfda16b 0x686896ddb46ec3bc8579acf40094d683975fcd3271e948d4769dfd34f4ec22c8 0x68edc94466c7f23c821ed580baeaef86de6467fad273cb5cb896318e26e28477
; Twice 0xe05adf1e4dea51433af8f556faf19ee2cb7217739a7b6d36718cf868580e1bc1 0x382b2e635d7158ef5b380c6d64adeff73bf29b7202a2b90d00e4670579ec5f4f 0xc49f26b770bdcd020accc289fa5276bc9b9417f3ef3a86c8f1f93db0334774de 0x35a08f1e9c7253370889b209cf59986cdf6b10db075f90250a94a61308f16166 0x2b37a1a3142b7846677104f2d321a38a10afa4f7d55b1d9dc15b73f2058d76cf 0xeba4241b59f14c3b275f5e09e665891664324f6f520e7f416bceb6ad542fc6a8
; Twice 0xe0cd2126740a3cf3fcda3d349e9c47e4f62b8785318cf81122c85c6d2ca86790 0x187f5abef6c1bf7d6070f41c20b03ee6ae3150d5e5a7d01ec827e77b8e361c520 0xc5679e622c5a51234b8ddaa87e5599b92bcdd187b7d7a60441e5cf5f795865ac (-0x45550e901b29b6ea4719a587ab01448bcbe03ecf76b04ae46c8ed420977c8f4d) 0x7a2bf6fc5fe6dadd047e3594a9b2a4fbd8968fc635775534e9d0ea7d0522a90e 0x521f9bcded72fa03bf46cfe15c7570b89179960cc8ad19a363eb72ce7bd80d9b
; Twice 0xbfb99ccf919a4a01ec7ecbce26c814fac14e954c6b7c9a4d18c4515571691d7b (-0x33e78c1860f7d23b4787446321329bd6c416da82cd5695b1f3235fbe49c5baa9) 0x8f967e924ee8cbc069857cb8937d6c44f73a3c1aa71492b8fdec39a4f935174c 0x58e938f82521af87a0a821c7d3a3f5f43c5e0b9bf72b460a3b2707de10cfe5e3 0x3742558d1aac4a590d37ce4aef90355be739068f7f22d126555c588b73ade49 0xb9d163c37f9ad3ef349066e61e668d42d2009ac118b3814f5c1ff040651b95ef
; More 0x23fc650fe6426ef78b5c44d0a7e6cd1a3e345f00cfea6e04aa4615f7e57b5e28 (-0xe918ea1093f5d9c4f0fbcb76c72dee6716960f44761d71f18352bb99024c9fe) 0x50efc797d380648d61267e33ad2135f14a5ed31140f6acf037ca736ab908c53 (-0xe5440e398264de874164ea744047d756d6a3f55303c6595e1e3e55cb1e793) 0x3da14e9d15bbbc81ed72ec795caf21c705fec1332534f93269ddb7f48ce51b4 0xd1575d118c8bfafe1a30d14773e341326d56411d3c5b527219fb388b2f5e2fc6
; Twice 0x135ce895096d81622392e986dec1cc4171f2679909cbcc31f8fe01c3d6118590 0x1f7e682e6643570bef93a6bea5927e35c6eb052e1fbd2abe1c20e4abff64b8ed 0x176ec3e1f4a6c0221f83eade66daa06838138fa42c02d7eb7819978daf1c527 (-0x4d2be9cba6f6656b1c839b4b02bcba691f1699e3becf75ad19d0a91820b2357) 0x439ed13599d6e4f6ce33118b0421d0630e57c6919f6e0a8068c3c85a0c2412bf 0x432d079a174b0c2f453fd6cf1d45078f30fe3dd1df73564340371be7dd545fb3
; Twice 0x17028f9c345e02a431ed1c46863d82a23fe184e3ae356176c433d2276fceaaa6 (-0x29821caaf90a0c821c3b2bcd230ef31b58e7e20035c798d69709468ec95398a4) 0x21175d4a27b0d97102ff607ee634681836cd61f8830c76ac9d02c204a6f8f47 (-0xb4456f8d12cac7c18ca950ddfbfaee5e551ecb75ea2ec4efa2f8aea27927840) 0xc0f8d0a51ded9b30693cac04c84491218c4fcb0515578a9a7831d0d33b104d6d 0xafa75251fdb73bdc93a29244a53a04a554378e5a39d95aec7ef9856604ef8f39
; Twice 0x19d9e1c632168b7989153d17c5effd71b1744c38ecbbad3591cac6d89b4403a (-0x1b22ae58e5bef2b8a4c1cedc9f262311b0af029c3b212d90ff34d88306531249c) 0x29c47894183967c95900e52abae42fbb97ebb54891cce1df0adc58f6aaab8 0x12a13cd46b1513ceaeb55fc6aa2196bebccdb357768d9b783af70b2f040ada3 0x87bb14958fee12c78ccc70fc1e7de5a4e289d38a0250334521c192b8ef71d02 0x88b2a67c411a9e043176a5259cb1bcd48b737eb55fa930cfa27f707e835cd6a8
; Twice 0x2045ee638e9a338d1d5c7e0edfcc8dfb7203cf9b1d33a67aa92d13c1f331a5d4 0x219f73fa2a720071b02dd937ecb0ce33bff08e926a049435e81116ed44a845c9 0x4118eb347603e94a745531058857a7ce728f90084d36935f47a49f2f0d229a6 (-0x5b1ecf3ceef7fe5cb09430c123a5c33086276ed90bd48954bede79d2ee70310) 0x35a86005fd023ed1b77e7a149746952aca0c4941942fca4d7b4ae3b53176e732 0x40788de45d362b2752c92bb8a73fbaba13e2ed530518d1612be7d29c1b67c688
; Twice 0x76bfd86674038b93fd79b72cb2f257211182a37accf57bc3b4dcd3ad51930317 0x1a12502f70ca5338ea466576423a35c6a639ac1e4b6dd7f41b57d3fbd92cf4d9 0x37156b4349d6da006a320b6fbb674ea16bbb94f6bc005e59feac8a505ca68d1c (-0x845d457921bdf54efdc8e6195de1147e4a781a84674684c7da60c081c4a6cea) 0x477dfe26ed0d54e7164a1116f73ca42741c17029ec37b39e6167365d142c4ac9 0x9a827ce950d360890f8e3571d105e27c18a0f725ba43c2b4485e67e8532214fd
; More 0x62b7a944b165206765cad1f911cba22597d4b765f25e57770ba6f8579f9e6d8a (-0xdba6d94a2531886cd3cd12685c82cdb9e8758332c50be40c253435e8f9c5f76) 0x2611215c2e03f165c3245ad9e644f424ecb2d4665e2abd3f7c09cfe87c80deb1 (-0x9d59e1aae2cc9b6bd5c424e430ad3174cb04d226cf319891bf3134c663f17a8) 0x60fed4ba255a9d31c961eb74c6356d68c049b8923b61fa6ce669622e60f29fb6 0x7903fe1008b8bc99a41ae9e95628bc64f2f1b20c2d7e9f5177a3c294d4462299 ].
Definition key_steps : list trail_step :=
  key_0 ++ key_1 ++ key_2 ++ key_3 ++ key_4 ++ key_5 ++ key_6 ++ key_7 ++ key_8 ++ key_9 ++ key_10 ++ key_11 ++ key_12 ++ key_13.
Definition key_x : Z := 0x60fed4ba255a9d31c961eb74c6356d68c049b8923b61fa6ce669622e60f29fb6.
Definition key_y : Z := 0x7903fe1008b8bc99a41ae9e95628bc64f2f1b20c2d7e9f5177a3c294d4462299.
Definition key_n : Z := 0xc9afa9d845ba75166b5c215767b1d6934e50c3db36e89b127b8a622b120f6721.
Lemma key_trail : trail key_steps trail_bx trail_by 1 = Some (key_x, key_y, key_n).
Proof. vm_compute. reflexivity. Qed.
Lemma key_reduced : reduced key_steps = true.
Proof. vm_compute. reflexivity. Qed.

Definition text_0 : list trail_step :=
[ Twice 0xa249bcb3191802d3cb56fc75a8731f848e7b2caf080f3477a4e4d904a671af9d (-0x211d1d206a8228ca3f068bcb77b6c66e965b291a72799fab76713dc1b6ea6cd9) 0x66e168103bdfa57cdd53063189a61e37915827bb44d670bd3c287263db86185b (-0xb51838d2fa990fc8a24a572b59edda8bd8fcf1612aa22bdac765f9f95e4f3a0) 0x7cf27b188d034f7e8a52380304b51ac3c08969e277f21b35a60b48fc47669978 0x7775510db8ed040293d9ac69f7430dbba7dade63ce982299e04b79d227873d1
; Twice 0xc2489a9eef61dfa06d3741ff3b405300988bd0db42a937859069b9cefb576e35 (-0xab9e4db4a865c5d9faa5ffc347a001265457740d67c4105697320488b09397cd) 0x93721ef0cd0cb79b4714ba2c81dc32cce646a0350aa32bf6c06d0cf8f458a449 (-0x4cf01d696fc77cd660b950563834767fc99586c7873df1c1e82cf2a1c41e1447) 0xe2534a3532d08fbba02dde659ee62bd0031fe2db785596ef509302446b030852 0xe0f1575a4c633cc719dfee5fda862d764efc96c3f30ee0055c42c23f184ed8c6
; More 0xca83eef4a3259faa07da557754da61a363987a301994848ac4a01dafc4c7feaa 0x5e525f9e772676734a260860ea7c938d95af3caa33309559d0874e000fa8aff9 0xa03479191f169ab397dc2b8142a6cc458df3248672554d35d1a5faf9cdca35f1 0x72b02ce1337a3194df1e9d125883c997e917c85bed09299c66e36a2930f00558 0x51590b7a515140d2d784c85608668fdfef8c82fd1f5be52421554a0dc3d033ed 0xe0c17da8904a727d8ae1bf36bf8a79260d012f00d4d80888d1d0bb44fda16da4
; Twice 0x97348e88f9533aa20c890c6555e3f59001b8e45279c9aa2da811786525635c13 0xbbf4226aa45c88e8c5b3bb6b5b059f5e1b131bf49a1642d708c4ed068b5cb5e0 0x594f0af02670c1ccfa0d905d125cc50d05f29347bcd204f9b82c4483b69630b0 (-0x4a319eadc155dc8eb167f7c6ea51d2720f5477feccc4917298d3b48ed56072d3) 0xcef66d6b2a3a993e591214d1ea223fb545ca6c471c48306e4c36069404c5723f 0x878662a229aaae906e123cdd9d3b4c10590ded29fe751eeeca34bbaa44af0773
; Twice 0x33ad926ba20e90b859f8865d29d46e20259ab47bfe894aa5d41239939f8ec842 (-0x1bf3d3df96719b21583fea7e39dbd39a6272b56d4996ee4c5902abe8303a104cc) 0xa6e9e0626386578a4a217995dd9bfeb4c00fb605a64706d8abedd43b2d48e14 0xf3546edeb735e70a54ea35ec6db3a6a7850f4ab4856bd26b89ba812424747a1 0x83a01a9378395bab9bcd6a0ad03cc56d56e6b19250465a94a234dc4c6b28da9a 0x76e49b6de2f73234ae6a5eb9d612b75c9f2202bb6923f54ff8240aaa86f640b8
; More 0x62afba335bf3e173650f093bd5a40afeccaff182588c06f1a379b94aaa275df6 0x97502cf19ca3f0208ca7de66ae9547cf095847125808d8f261be5a4cf6a66eb 0x260b032f92181f2628ff9708f5265da2dbac83b89366379bc8181ed02f8a934f 0x1f58198f3db0cd67e1bf07e0b9b8d411f68415b42da62f3272bef0c5da91b3a7 0x3250fcf686637c7b2e4ac86eb473bca53a582139f42b1523fd76364e67399e83 0x42e7c342667d359397b3090d1d7eb88c897cd3c33b566a8215de24a071d48c09
; Twice 0x3737340e08d8a5a6c6c8d4ec4ced0a20821efa384ce5ac0dd3a8d1dfa2011724 (-0xcec49c368c41591eb90f7a783789c8e1f614e4ee3f5d4c1e05dd1a898f1b70) 0xbe8c4457c535ce742ca6f1c8291ac9da48b6beaf71a986a7fae46af99bbb502 (-0xb78bc45203fbdaa78c2aacf28113526ab132d037796831d9f9f65f23257e74d) 0x6780c5fc70275e2c7061a0e7877bb174deadeb9887027f3fa83654158ba7f50c 0x3cba8c34bc35d20e81f730ac1c7bd6d661a942f90c6a9ca55c512f9e4a001266
; Twice 0xfe0dd2b23c99a048da20b1f7d9c586b034c53a3c9b16ab1bdaf81a3d6fde25ba (-0x501e325ab651e09fdf506426bb0f140c332bff07a485cfb6efd2549f1ac4e8b) 0xfc1f6ed9bfe35807faf5bc283d83cb4db3dfb27fb55cb0e8e0a9831e1b21bdfb (-0x75185165b1a0d7b83e60b569f80e546bdb73cc087ef8341ce391de5ec6592a34) 0xdd7eb43c9fde43c104f00dcc119a57b6db9569ed3ad1c3c711070313c3f91f07 0xbc9150264f639baebe2971aa3f65906d2b0cfe78cd572ab8619088c50cf2fc08
; Twice 0x7cb905a8562de561be7bc4829d185aef025b139d07e3a8988f65c322a06e80c0 (-0x1872eadb4abe0cd8267a6f04777f479ecfae3893cc0a86feeb9937c4ce33ff570) 0x3cc3c3347dacc9cf7cebfbee823500a14d177a592752716695857674e133e0d6 0x19a8e3e13472f8697af2423b693f21d7240794e4312a8f38f33deea0f1764400 0xa8d3b5ffea2cfed63d4bbb83b6acfc5e8955c44f4faf9df7e50073f03f0232c8 0x74a18b02a771c5694956dc3f14b37f65f6dc3eb7e5936bf6b7225619f6e5f738
; Less 0xc0344e5914e34c9b16aa63667641fa4b2cb0024dbeac00788a1ba39281031eb7 0x2e5988190297a8d599754cd9c8ac07007d1723f8d7e59959a47387691b8a396f 0x904e80361bce572f56eeb4ba12b03235854476d68b757e6efae217cd627c01cf 0x5e718cf6f7cdbfaea147c7db19bbe195b74a66452328804d10dc6a5cbd787cbb 0x2b093ee1533ded6d1a704c9852304402f733afc4c731f04d498aa25174da7342 0x524bd3b4859dff8fca1e1e2e65f4cf7f0bb55520d228960bcafd7adbb600224d
; Twice 0x8a91be6739958343d985c6278ae9fd238b86543bf9dd5acec5a498f5f88c3969 0x436322301a7954f427c7bfbff7fa2ff3c590b3a3e23c43642a98769ce14aa9df 0x4b017440d3a3443db41eb66bddfa84bf1e214cd3eca12a2f8a6ac54b73ddc14e (-0xf031a39a130ba0ac5dfccc28cb177a535cc3f830f01e84c894a02b3ff625437) 0x46c5304f0e9310c0dee40831057c537d7151500940a4ca1251c00facd1e0c7db 0xdc098b36b074424a02a775e0b591c434fe17089ee570d5e9601280693e82c5bb
; Twice 0xdc4c4468a57e554fa1d4c7965f15c490e1b739664885ca8ee9bb1258da818f62 0x14002379f01aea61afdd819c5464a3e1275edc52519dfb22ab30b32661c5652dc 0xbd932c4d4a6e54a2113cacb2ffdbd4805d76cb88f293ad0fbb3d9ffd4b58d25a (-0x483ce8878fb12eaa614b320a218d8836f3f34b6d8f8cbb87b11cd08604afe085) 0x9ab71baf700e21fa39c59bda27a52e7fa7cdcdfaf7ff7f7c20a6c5c860a9e428 0x4eb5feeee74649b97d26547e8c014cbb668ad60e775ad242a4ed39d8e8348146
; Twice 0x2a9d8ee200e3d6443d637a782e2305926c57a25d75f02d2a8224d6ec3ca2b6ad (-0xfe4dd61a0894e5a417d7f927cd5cb813b9f39e19bdcc2bead5f0ba59d2e86ddf) 0x71813dac0576e20411219d59723571cb4af86df95c2f9a4ecd7410988207e8d (-0xf07c3987b0229860ad13794de0849c02b19e07a2e5a21f52e499d57089de9c3) 0xf5016eb2ef31c071dfbb0f3c282e27dad02288897a36dc1ba3f86d7d941b2726 0x24ae7fd1c74825c68412ffc4416b1abef1ae5849d6c157fb4684d141d946bb51
; Less 0x95d3abf748878b34153e5577a8f785d024508a29a033d0815f6e03ae4a8f0f51 0x50b7006c8e590152646ad7111f27c612bad30baa536849e79490cf434c6fcbb6 0x57b015331f43b66efe3bee6db9f2bbe81ca616dcb62504dd592a73696c068419 0x3fb85c9372f0b10baf3aaf914acb5321803a54bfa498fb2615c0e4fddb421ea7 0x88217e64f52b6c08fa275cd5756ae0234d8215a28a85d17ad2b8898ef0bb31fe 0x203e05b5ec8801a73bf3c3b72db3ea3aa558a56c0a93575d6a9d4677d40d4cfe
; Twice 0x734ed14cfd254a61224cb0f52e519dc0d9efba52497c65b1d64705d31db4e1f7 (-0xbc1f3c626f9d1f3e24bae5c34c35b3b66badea409eb061ed37b621a16bab661b) 0x33efe84f9568785a2563dbe2d6f624d3f8600abcf7f89e32f74ec43a8bf5e699 0x13fcf25d90823b9feca2d407947e183e7563762fb3d08cc4f38d2dbbcbafbc6e 0x5bc123bc19be6902f48663ce7f020ecd72730c05a7892a2ca9524f472b4b9eee 0xc5dc36d113a6b5c4c9f7c884891fd9c1b3659dbad1f679a381e53356bdca63e0
; Twice 0x1b8b85c8e8613769a8c89da17aabe4355b08669471949b5ae66a3d14f501409 (-0x5fff616432a3cf64d8237187a8d9ce320817bd3e11c8740afc286868417a15f7) 0x2f6ba42f211f4a653dd8d5158433f1c998977adac0dca03ee75939e0c7fc3 0x8551bc74f2cc114cb58ad97472ae53794b7eabc3de7743fcd54511b3ed4f63 0xe50495a795a693c49b09da1ee9d623bbaf16ad994757559774c89215ca6aa38 0xe85241f95a2bddc0162971a651fe9528f39d1e1683bd7915383422dabfedbde9
; Twice 0x84e5272da14048fb448d7de266c33c4d8e5e7e9010bc676c54ee166bd66c7fc0 0xeece1ab4851499f7fa24bf3751b62fe5e0d37a3ba2140fff1af6926ec5c9393d 0x44fd1d8670e8d50f888e69a79d6e8d3e5c89c01d89686b197a98a36939ab0b70 (-0x37df1d65685c4a8f089ddd069de9eb3e835b5d94ede24f511e35651ef1e4910c) 0x79f0d1bc830e00ebe71c8f8b5bc20f564a17e3fab4066641ad40ef378a1dc700 0x3219612270a46ed0f42fd088966e5cb245d4df84bfecbc7fb915eeeec930e30b
; More 0xf9cee2694026b09d73edb7ddc50fb9dd4af24380a4be8bd1721c260389c2ac3 0xe7d108aadbb4fa2dbf63e5da9ab511997f748b3c3f72e3e2dd2e86a5cdd058 0xf3c41ba2dc309e0270fdc4a15b416e19ac870109d6af3a78025f4a359d017b (-0x41fa57c1e827a0b82eec5295bd7316badd6cfebdd20b727c081638565ea209b) 0xbd8dd0530492f1d37ecbb0acaa2b03f304f38e4210d04b2f18da870647b3086e 0x1a736f03c2d767056e2954df1935af4d99be4bad90599c841d520d72fc701990
; Twice 0x2972c381bcb436b3ccbfb27282f816e2fea8eb14c4f200d8848d3b9eabb51698 (-0x19c7f6bba0b798f7534616fb6717f2833c429c3c992d78113c03ec33c24d1ed37) 0x6b5f6124a02a752d712ad79994e41b1c35fdc83cf235f3b5476eccc8c6490e6 0x15022eea3b05543421de3b7a393653f8ba516704e44b56ffe2ec69adeea572df 0x3bcc2a53403d74fa295fe6aba5763d5b623b42f9423753a2a54f3ea801ecfa4a 0xaf98181e153f3eff9ba8b9a8bc008d15fd547b5aa3562a38b1b14e57078d6af
; Twice 0x1a437aff556d5105ffd5058be772ca75a9479e038e4f7d7d8017b675162dae4c (-0x27a6c38dd9f14f2f4ab1a34fe73f16e3a78d28726e6fad02d9c5811d95ad83bf) 0x2b1c6c57ccb0e8a98b75ead367949c769b6b2de49d31fa1a42a6e39d4c9ded0 (-0x10f2851dd8f7e7e80df1d6b052c166c7ed8e449b82f853c1f815ab144490382d) 0xe0fd2996d18d03e3af8eee8104f8378ebf22d0194e61422be6b5347d9e5350cc 0x57bbb18bd7d42ba64123b6551de3793622ea2e259367c49d3181d577eceee68c
; Twice 0x2ce6dfbe56f9bb35601616f7644317438a62cc5e1e36a68fed51397aa272697d (-0x2326d45c52021efb5d5734b4f0cae201f4629fa2cd63c0dbc19d21f43f5c3950b) 0x7e02d204357774344cd27c0008cc8d78e2e14684dde6b2a8ed7b1c2f4ab55d9 0x25c5eb081d6b58cf2b9b5b77b86ab15a3786a17c9b858c0d51b010344348a8cd 0x9a1d3c452a0f3e8515e47403f09d81b982de706d7c2574723a27e900ad07b4a 0x15d7c212f18e7a48148b77b9f289ba2d55929821a47af758be19ae915eb254bb
; Twice 0x7b768df333c5d4f0f06d726029669198a96be6707d5777e1d3995e94bef791d9 0x13fb3a0ed0047799bc6ffea57d3b6f8998d5461c6b171748fbbc1e296fb71923 0x3b8b234f1a34c661f46c89db1e292316f752be93f4fc65b2391794cb05c93200 (-0x463c247fbf2250b378c644a25b4235cb3f92c69d45c5090c489b9489466032a6) 0x9b438b58fdec8939a3811f3ac804bf1ee54991e68d45c5992905027bcffdc55d 0xeaa217dd280f513a7523156210c5aa3815dd24053434c48ac980b6b3fe3feb84
; Less 0x5bb21466d028105465492cd907f44a1e60183eee927ec7e2bda8d933f443a72b 0x11410d25098c4d873a7dd6837b802a33a39535320f4afc1cf133b3ee5d22f50c 0x20d81661996e4384f9b060aa6f0bb7f9189cdb7e28ecd0df50b269e400b9baba 0x357ad8a9020a70d8638b66f2b8fe8062a32f4fd82bcb42fbc41ab29e2fe6a2fc 0x5f4d19dcaf46c0e71e288de72db7eb7447c5c27008d75d806e8b7cf3dce5400 0xf930fccbf0fb0b984dd8a5eb060f134b4011e299bf8542ef9523ff4201e96d17
; Twice 0xc08579b18796932b27fd7de7016ae8207a9136014bb4b567ec2e605443d5b0d2 0x17662e612b95ea8454e8a3ecc6f791f6b1544800e623584314de9b76c37736641 0x90c87c22887a88a0bbac4c00c440e079b9a4a9d73823c7221cfabb07b0597594 (-0x3e169ba704e775cdf0c28079e06d6870806d4d43f510861cffc6fac2eefff494) 0x58843c24fb69aafb34d4af2171903a36f6274571cbefc5d9a5746226d85239d8 0x59dfc08a7a0db0d826b9334ffb38d69b42e7b342cb94b4a718ca901ddc279325
; Twice 0x109e6604157aacb8df7668b499b29a328bfc069331dc13070928d9860cca9174 (-0x50265912adcc957c53d1e38fa93ae26025d82a931ff4d59213521eff349b90cb) 0x1142ec2997548f557c9d06b51031f2448e532a03804e2b8c254e5455326260b (-0x7cdecfaa33adf262dee4181eaf9e5c37eff38caeeee75bafe45c4f4b579cdf6) 0xd0bcde085588eb9da299157ef6ead5184d6a35ccebcf48c5e2f6ac5460364eeb 0x2b1c1b2fe9239fd80c32609d570b9b8869495e04a1aa6687265e366c26174f49 ].
Definition text_1 : list trail_step :=
[ Twice 0x3b769ad35968d1658d8337c152b3fe4b4d94e724219070b6e2d5e2a7a4832be1 (-0x1ea9375d8fd368d60e623e7a9de3e5ba1ed3d45110a28ea127ccc22cc8be9c12a) 0xdcfe250917f9584fa7a0c0b7ae35c9577a11123e6b990f2cdf88cb7a223dc81 0x1f98c8a933dac0c92901c9d1515e832f49696c9926cac7f0c8cce39cc716f99 0xc83c63c35556964e26bdf899cb839fcefb576066113e0b52f6ca0b0b19829a6c 0xeb695b408421c2e56aa4ae4aeaa9f992c4349831a3e34a2d8287d284b29a18ef
; More 0xbaab483df978ee07c0e81426f7f908e88bfa25a9a47a37fdde4ab00e396d2f4b 0x43eae3a7f40d2de4cfdad4537801c650dfffdf3db8551f1010df4413fb9a4148 0x881d57942dcf4459c5012478b76149835c951e22adcb073a7eff7b38e5a2dfc0 0x6dce30792e6ea11a8c32ea841c0945b7b8c1f9d39171151138f95587a1f54745 0x31a5c4fa90372a89becacba1bea6417d7655d817f3259d6a74ca50bca82222b7 0x5ba66e849669d50af1e09db5a0557f984362d3405f35b50ca01b3b6f21a97b5d
; Twice 0xf30b30b7b4d86480ca61829ed43e6940226c7150fa2564a6ddc54eb0badea0f1 0x912356c16faaee15cc9fa3d6f2c7373559b39974e80d5db3f698c649f358d756 0xe6be3efae1200004507943a8f5b5ce9f40d68f4070fe5664abcee0eac5ca1fb8 (-0x3e114e21b7711338cc31b66bc1769047c2e2f043ac046babbd4e384716023a53) 0x73061bf1e1bec7989175210a432ad9ff207d4fc961a64480b3bcaa4b30affd2b 0x2ef7e4e02906e182c6074e7d8db085ba1205cc9c91a67f33564c2446d9a9231c
; Twice 0x6facb2b811406a1e96f6ec3ee509f065170d9c71c006f7bcce7f1cdca5501343 (-0x7211209825ef708074fadfda3f1250347a30dd78ee152a0da8f2492261c67900) 0x30b7377c73c8be67c46b37ccfe958da5acfcd9818c7e7a0c5268f20a539a190d 0x22888728373b055ce9858b575d1ad777a6b88cfce001fdd32dd76ab789b14cb4 0x23dc4f2130dd97080c29ca8581b187502ca5a35143576c3bec01b27c5b8d2240 0xb275099b6fec51bf2f94d3da27e6b8f10b6639c7007dfeaf6c5b6355eed6e619
; Less 0xfd4624e8adf46e854920c7ceaa8644efc47e05673ae593ac29641d46950cb0df (-0x467954d463c88f490172d9aaf3431bc9db27b9e88a50bb61172436645c05fd08) 0xfa93b82d16fa40b48027664bf17c969956ad944b77aacefb4c71c34dc43ed6a7 (-0x4436ef3b2699a09777c8ff7d8be08a243901d11f874b7a51e6aaa8d427ef44c3) 0x68cf32aba7d0f4b247faba47c82ed10dec10ada9dbc78892c1d1de0435345412 0xcba40c945819e27caac01f8f9436256618f87b498afbcf13a645b59ace7d0f36
; Twice 0xab416fa9cc9b0afc4269fcb4fbadcdde6d0ca6a65527412f3e70fbd27a69d910 0x8fba41282bd6ef244925d9f3ae17959647d58c641eb6771dab09171d5f0c0109 0x72907be72ed6335d8cdbc2f26b062cef20b5a2017fa8b52514c4fb1d3d92e202 0x59121d8da103ec1bd5a17fa64778fd33a408f3753c41b75b5b5826e6fd2a56a 0x607cd9e17572135875b62a230045e405e74b811a813e42b9def7cbfbda565ade 0x6ae4cc11785addbc1245557a8255e38de27094cce5cfee3a434178d575c63d74
; Twice 0xbf09bbb546702f7d9c3771a347638623537d339758cc294989f7dee828e1b907 0x326fe87395f0dda32acf8f41e61e1613de66b7a536480e8a2a2badd494a98531 0x8e8f8677ca0c367c94d29c769b5987f7876657d2c5ab3f6be07a34cbf3f5530d (-0x2a3bcfaf6edb2507033f45236cbd889bc020357219fa7c80dfcff5006e4f1c1b) 0x991530c6768a5ce2e0461eb55454273966ec23da762e7304489b6e5d3351bb82 0xdca83c804de90efa474b9fe6c51e17a26471aad93c564b4b27cc7f8974107df5
; Less 0x4dbba64d578f254abef5976767d5226891242d1ac1a4a22c1570ce0163c7b6a7 0xdf6eb7a26dfe02bfe7661dcde7ae019fa4aaa682d0caa928607943d38b9a5f6 0x179a6b96ff4cd811c8311e5b0b3e5186ae4111ed8d7938e17bd70439c186e62b 0x29ed1aabc755cab1fa48f1ab664de7678585b150ed83e7574b78246994b4634b 0xf0198f7537c45746a21432f786bad22461199e0ee8606f2cf22a0f759904904 0x2cb7b01c80f141db3ac710b4ace08b3265609f8c507fb7241e4f6456f2d2988
; Twice 0x560a2652c3b1c8a9eb40d9b4b65e5300aa9e0d7bf83a9e02c6a3a05e41699793 (-0xc2a06d966935a2da4f9f27ca6ae83d957afd26fe7f0cede6e0c17b12724a03) 0x1cead226bc9a3bb73214aec2ccf33bcb80514012778efad630f6a66280a4ffbc (-0x14e6fbe33efa7d25e5a69a2bdffdb476fe282f176646573a6756957d28524f88) 0x4d32c4983bbd8c0d9dbf172075c7ac1755f03a3adf8b56a3139d3eee23d92c1d 0x781d2340f458ceef4d9eae10ca40b3735b0f842c63381b0579fbb179c4716095
; Twice 0x77c162f7c43874dd6228d56cdcf3486adba2a5f818e3e17af3dfc8cff62f1f10 0x2a89d295a1dbb4cc15f644a9eb6680f70f316e4bac364dbd7abecfa56605c938 0x38055c18f04a57e63426758b4a217c1bf3b697e7b59205032ff87263c223bb06 (-0x30b62eab9761bfa9cbdbb6ab7a7c04835cdf3db72f79439dee9e968695888db) 0x53b4dacfe03a33d5933523d7acb19419c6dc349fcb9107a73419c8c6a61643cc 0xde124b6c02fd2eb084d2af0615f799fd25dd972bef52f85266621355c5656aa0
; Twice 0xa57891b826df22f54d063c71d31b8ba3fe2d23073ca5af489751f8acc4609b77 0xccf8723b4503ace81d8ad38d56d9e5576e6e15f5c6e133b0f89d0f298fa65eed 0x6af4a4a0bca6d961f937974329d81ccb71f22693424176d7ae45a4f8515f80c9 0x1ef0ab5886e64f1b7f49e7b2045b8c3c0a92ca5d6f84c76c63d0798c1a6803d0 0x23d6cb490557f998660736ba788fe8789ac797ba83f6fa15af0b9dd634dc4a82 0xff1e2937556c8b90a70e763a78f31a036038ca95da76ed5ebbf6db34a54896
; Twice 0x697dfd8ef00538768046e4fbdb6a2498cde966cb7cdc23dd05b96182a347a22 (-0xf002b4dc9c5766d19c895adecadcf439e480c1c59543dd92ce8bff75aa801cf) 0x2b78980105171ba4ab0097b1beb4a9e812fb1689c3f093a20292da86f68b81 (-0x4885ee66792a10410f0ab7782c4848c8d7a252451c94896a71f5e6761e73fbf) 0xd3d5205f071bc0ecf46e9a1c62f6f0b0fdaddf9fb02b541fc80358631d526301 0x6a5e36ba7ff55b07c6b582838e42d2acf3247c4cbf740cc1b5026f54724bb0cd
; Twice 0x4c7da97898b6369ffa1e65ae72cbb0ce4b93f9af7062ff735b1e1c25e9f0cecd (-0x1ce4ab10f9c87a10cfe265960f2e70f13d586b0a38a9f7998688f270c2159c252) 0x16dada4ea17c9f1ef96963a5875514fd780be233b079e3ae9daf7654fd78ddda 0xea0839ae7c80d472b93f6e891edd3b6ab90464e9b6ba9469957df72abdb835d 0xa2e0f8046a13f45519c6cd0780398f081973da5d7fb9c5dd66559fc65442a801 0x663924f96261b6ad295febd513e4b65aab6d535ddffd9f225eb6466833a29190
; Twice 0x1d0287aadac153d65c61ee98e6e1241258de99188a176fa5c032e92ee3b2cb17 (-0x11fb9872cfebc5675a42ee8c7878b182b378593391233a9134fefa71dc20097e0) 0x34992c31f6a6f862685c143fb86df6ee60859a1dd01572af09dcd1d55aada28 0x10ec1a630dd81f69c584946bff16b012106a6d3dd9d292e201747d3c29a7024a 0xd8bfbb03c8a88b8a396ed242cfb2ab5bdaeb1f0f88b0ea20d65f8de843f0637 0x79dba8a0a8a08a590dad511d86778a01dde3e12ad35a02760c9dcee3241727e0
; Less 0xd7881bd20a4ed959555b95a51b0a9e067778502dbd89d29b3aa9c4422ceb8bf8 (-0x4ec22d669a8086966bcc2a7317ec1ba37398a25189e3371fc4e14a8ff4be7523) 0xb575e71914f74674e76b95dba6c2f413ee323a21f29c5f3bd0257d401fe90720 (-0x92d36fb87eff3b5f8d449e8bc247bd215f893882ec6241cc7360338853696e19) 0xbbf0da8fd8a5aea050b342c6eb5aaef2c68ab0df54a3eb97db3807d348e87e93 0xa33d714a538d14cdb192e938e237c01b5f2a6470cedd59f1815379b4b384dce7
; Twice 0x7dd57663fc0ca01a2ecc0bacb937d3fcd7675e8cdb37dfb60d4e14d959ba43ac (-0xfd7309ddc739ba042992364409e71a6dbca3ed85db7ce2368e0d171158c6a730) 0x3dda279c1b203c6068100aeda687a419619b8dac054a7681b78a85ae1f2b0a84 0x4dafa2a1749bccacf925a3ee12bb428c1e6ef7730e8ad4e53fa11f4c41aaf90f 0x1de4df899daec21358bcc1589541fc2fc82208a797eac6d10db71a338d2d88ee 0x7b87a102d012777b6cf3c18da4a05316fa43d5a65efb5166b3619d2574ef5604
; Twice 0x1903aa923b815c9d564c50fa11b6fb49f86386b337fdf375f543527c1855130b 0xdab11714835c734d0055c49e15f2dbc0f274d2e39cab783a8aacbc758bf3b71 0x271b75e0324eb0ca3a19d6c2640f377c46a15ce0f5c4bbc9945428dfe1e8b0b (-0x1345bc7a45a44da6c1d3472f2e72e5b5b15c8c28ac1370d55aa3f36e4701daae) 0xe321683f2df39587fbe558971fa9eaff9c492e61cb4a56e198869ca69a7c1ba8 0x864feddcbcd4db948ce8da0f84ade57c28c032bfaf7cf2a37531db8db508b350
; Twice 0x5658ec240d4e931338db01c4b1966445b7ccdc692f74e9a3cd2dc9275dd9fb3b (-0x201f1c7293b0228955f6507737fa698b18620d5ecac980c6bae5c0fc5d60aec23) 0x1d1fdd8b88ac4bfe10ec8b7d97a28162985ee66bd6ae28467e2c4e14040e1a79 (-0x2f216654ab04771d36f76a2511e210691bb213222b30c24953e3c1d2751c387) 0xebdd1a5077c2da3a518f3e8854481cf4c57132b248adc012253260e58da8a2c2 0x7420401317b5cf6fafa5acd08b3c302ba674565f755e1c20556ea89d78e1e82b
; Less 0x92bf75a44ca65d56ab9c98bc7a382a26271061c496f67df2d79678810b7aa2f9 0x49d0d1a3768970ca06632a343bb5c9d8a2c13ac9f95237b64e21bfbbcf5c5754 0x541ef1607cc6ab98a9266f8cb999ccd7eca734fa8df89e123df65b6549ca3c83 0x45f417a1f22403e543188bdc983c3554ca87697a5bb8aa54b68e5460df4abaf 0xe43c92f20df9ef51b59038847335fe0c38003e42c229a067e8d434ed069ced5c 0xba31b182cae6b86acb5840c8c7c55bcccd1adc288c65ac3c65565b9f2cdcbfba
; Twice 0xa8510daf9a8399be213e9345fd3811a0111acd7cc19471f048b8841bba529b58 (-0x16d9cbbe80dec871f9f5665730a11305f581b02a6c78c2f8ef689bc03e67ca0b3) 0x6eaa7ba093524ad6f567140cb4253367f8748d03f0c79e091be466d2a5436c30 0x1ead27c5d9b0c97ea0bb3d8f2324adbb7db3501cd71a2a62d76daa4bf3d2274 0xe1520fb3b235c495c0c91527311e3170d0228d14c7123b801df7a5ec5aad3fb8 0x7356fdcdab310b40ff736e1fcf215e87fb04464391d0d10bff5a2695916e5f1a
; Twice 0x33c7ab5347af022c8f29982faf13cc39730e17bdffbcdab6410d34e2eb0d7067 (-0x2244b78fa284a2f92089dccae491dded9dd47c8abc7f381258068f96d53070a2f) 0xa7929ff072ab3cd7b782a1b24d3748ab939db0487c45f5a0894eb8ccd481b14 0x29863061c201d7cdd917dcb22ceac0af4789dcd76b27d89deef70e19bc7d7e5 0xd47d5599c3c78d7e1ac22065738fc50767ea820a02c8d1e0d6519aa1cdbde515 0x19c834d297ede9db2eae544d75aef3c6e1e4656afdfd3336617b7334b1954060
; More 0xa91ad89ed1469977e84767a5a2f316f0296eeafd4726267bb342332844b53dc0 0x459f1167da0f9b731fd69da8c1e16dbe405c5b84d1df603aa1bc6327a4f8cc2b 0x6fb474d2d7929178061bb4083736cdc18d0b6dd0f890505c2c5233b31458d55d 0x3790a1015817f3ae19eb0656206b1b0b5eb34ff34035691e127f2cc623262b46 0x805f546b8deb3d9a5b72c3efab8e15d53a4756382c6c94de7a0df4e9ce673db2 0x96f3d1f5baa1551fcac36a3b4e4075dcc2e08ca1e3d8d2129690489b3d700c26
; Twice 0x4d54bba3e20a00899073b371890348561581888798d7988c5503f6c336d4a288 (-0x65ebce2945579ca93804a967830330af13fd984bd30e11bc81126277b90e1117) 0x175c14ec5a6b44f39b56e7753923c2b68d37b317c2326246c139670258b00e74 0xb709577b2f83b19d1db59506cb21de80d80caadcd338c41e82345d5e798bbc4 0x5a8069d0a207bb8062442fd9c5f42817b898d65bbc34bc712858dd8db451fb50 0xde404ef955a8b24bc87ce1f5633b4b731d63b0c51737e5f6b57780eb9e9df7ae
; Twice 0xcbe06b197ae9c1169caf84ae3ef793ff9ff4565c8ced09a6a6f8bb4ba6896ffb 0x10204074e994daba5bc5817674642f4117620a1808f0b44ec131ff589b73957c9 0xa25dae96a4b1cf2a6a78ef083be724b907d8bc8bc42b97d52289e4844b2786b1 (-0x25893cb56be9300c86ac0830645726c4b2e90f382cda72c1695f49ab6b57888f) 0x89a25c4dc10c4b76a00842ec1b76430a92db12e2563181a1169eff7d7225302a 0x8a85ebaf7ab484e9bd35942b269b1335eb12c6be8421b24cc79fb7e09f612805
; Twice 0xb120a0f2f25bc768a315115cd419b2a79719ac665034ec8d0a56b1ff0a2f5cf3 (-0x1e4d09babd99ab26cd38576071716877c7a30180580e4e67b389bbce65703cd5) 0x7a8e22b90f9e38eaf4f57110776c425c8e34fce42ab650aa794c0bad4065f48d (-0x27234f35f370569f5846156439ea3ed08a4d56e111e1e8e30c61f89387c04c9b) 0xc233233ef2cde6f9c8aa734d062606b2ae466a88ac80ee56849cfad29b1522e2 0xf9456566395ca26a8422f7156006e02e3d3a17ca6ba9390e9db6422f021906b8 ].
Definition text_2 : list trail_step :=
[ Twice 0x8bfbbed6be8dea4ecc4a9e257651e496364935415a20f77a3dafa2b09dd536f5 (-0xa959051102c68dad485cbbfba6efecb8813e670d61f2b3dd03791972336e0da7) 0x4c8b58cd46d69685cd90893c8aacda76d5592ac6eb5d199b19f5882238287ebc 0x472e5852605e7b9428ecaf1f2175e6aff161f5da2573109604fb4f436af66332 0x400652814b4abc8c878b4a38e03fd19304bb9e4572f3cbbf35ba6e5a037c7f71 0x671f2a5f3d8db2e172e3447257a6cf8f3f2cd33c2e313d98fca28a63fa709d9f
; Twice 0x72cd29de8bb290a347e061748b6b821a46e5eba39bf8c8f744c7872006464575 0x2c738f2847161840a3cb450cd0afc5f52e6f2c177a380aa870bee1d7c9e0264a 0x337b5db67d2b2cb9237750ffd4553ffbd3406422cbd0e57370917c7049cb1083 (-0x2f64d70421cfce15d5c41e5dd0f3e3a93a737b3ed3a62dbe8a889adfd16f7ce4) 0xa9b5cc3f018c02c587c63d54fae9c0aee499fd3b6d2c0680d7fcc187cda6591a 0xcc093152a544b5c786b4e477cc2d237898759a51dc47c39a3174e8a60d1ede40
; Twice 0xb819fc85237775367358457875a1a42f213885888048bbd9deee946c29766863 (-0x2c0df718556c97181067bd5c668f8a1485f6cdd180ec28868c335016ab42a197) 0x84655da332786686e651537322c9c955957cfb9cfd83dd509235754c6020d019 0x59cdc43b1e041fe2907cecb2ab7186b0bd3c5060966c0e4144627358e1cc2780 0x2cd5ac04801c0db2d5db81c2fd8cbf79997bfef0092d1cfe99a1a1f8e0a8b42e 0xd247e226577a4390d417374e6c2091224f6418c0448841973e94af23568bf084
; Twice 0x74325d904bce04395dcaa55be33e281906f353478b70b250150baad5e5b47009 0xa755725147f6a447c4ab64ec0dd6fa988c7bca28e8f0dc995fa705e387a7bf81 0x34bdaeb3a800276a23f38cad8340cf2bb93d4a527404d2c3a16a8b511eadb8cc (-0x521645d7ddd75861f1015f474c553eba59f79fa37f180c79f0557a57800e96f9) 0xe1af79b5bc7632c916dd57e87090021a149ba1dde42f42153a17f9f7350c30c1 0x34d7e52cd38a583fcbb0de2346ebedb4ded532f1acdac5ee554be0f69509c758
; More 0x9ff4cc7c63aee2d1626ba207f9845adbed749562cbb32dc21f25c9ae1a870591 0x4a199878af57ba7a383cec45aafb24887904aaf2ffb7a3f7a577e70148153808 0x63f200195839be88dd67397c3e8c9c2cbfde2b111d2c3e2cc55e0253edf46df9 0x74a570042677638c060cd002e0c78ec48a3a4ab625043a19d097fdc618757bd2 0x27001b1fdcb9a7184a00e791a3143e93f10ff4028c146cab6997c68b335c76c3 0x141a0c70ad7f96da0b38731b5bb57bf17f12dcd9b34b3e24ed39ee37c7880358
; Twice 0xaa7bcabd99352b95405f7c0321cbc6c1a79ce988814187c75de1bf92d1b86c95 0x8f2f0995d6de1ec26cfca171b5d5ab02f0ef95544e6215ed22956c84a1ae528 0x7188a520b3c43e4dda20c2bdb11df498aeee9bd3c92ae2312d38054cc45df966 (-0x1e3cb5e0c57a00ac3adf62fcbd20cdac3fd003bb46a5d845d795d37f9efec4b1) 0x5467a46bb3d866710e344e943b17baf9bd002b8389bb0cb88e234e51ebe31a99 0x5b57b0190f6c63ca1d52513543e0e41c994314a8fb4f082ad71bbb32ee2d9469
; Twice 0xb21218199ccdbf7c29f181c87485fd1be9c239ab70abfd9ec67dc249447306c5 0x2b9650d54db94b086d6c70a803afab8c28115f260936c665ae1fec2368daf8b6 0x7bdd2acb7fca25f92fd8ce77bafe541607512af26f9ffc8003082d4e30e1a4ea (-0x315c558c1f6cd21e35ab86c74de802cc3cf54badc67df7b5b0eaf5cf59970f17) 0x9b5e086f957b5e2bcc3eb7435b573c37bc9f75d3459787beb14d504c16474351 0xd3c45c263c88c411f0b2d6a7034fd49f1c1985e9742bf2c1e6b33a35958bb6e8
; Twice 0xc2130d3843b86e69c54fc6a15c2abf964e28053c8170c2333556598cf9b81196 0x26341e6adb398218f8a97cb80959081e94f9ee5630b88ccf19954d72f25f5700 0x9320e174d0cd396b5e3da5d54b1aa500d634b09cab6c051a0056839a19bf391b 0x69c973f5e7382befc037a02f5322443aa9af177377818159f5d6cc0cad6e3b21 0xfd362e06b0c2be9f0970ac5d75521b60352dfced2eca1989ba901a10205f65d 0x78730ec4fa02ab59f2989fa02e65e6d0d9cd741ef51f5e09bdbc02a5efa1cf31
; Less 0xdbca4ac91b4acdd82687a3472f69eeeef450e1e3a5baef8d178679e11c4f5ae8 (-0x4e5ba9ae388bc0a7f13b31eec0dd42000fc52751e1625cbf6052a7638632c132) 0xbcb3bbceec9dabcdf853e062ad2a9ad1fdc5dd13eab89e5e5e79a32decf0127b (-0xb147c2a3ee30c349730c612c211834e1a9be6493a4f474e7316bf1b35c77db51) 0xde4ffd2cb3d64589ad631df74581146fa77fe897b2ee94d3739df8930dc94bc8 0xf21ddbb9c8d38d7e2e3bf40b6d6ac5d149053c43bf04880e90fc837f4ed44e86
; Twice 0xa96febd48ffd3450631f7b992b2b8a9560ce510ea7b4ca2a48d0b24efbd3a925 (-0x102ad5c3394d29a6ad1e82291a7ca0fec1c1c4865a0eb1c838332c77e1a7339ff) 0x7024f64d71d613cc2cadb9fe5e0c57b158838e64680f5a2aeadcd0c90fa92740 (-0xbcbed200b25e331c04e81d9a271a35119b7548becab74e5f4c43573f97ac459) 0xf022bf8e52ee8ff8d8e23f3bd11d1a9d8bcbfe1876ce4a5073ac22ddc4d66f09 0xde783c0f82990cddbe0d7111ac714537f99f66465c7ffe812be52635ccf1ebbc
; Twice 0xe1e0746c7f03b94d5db139fe2b9055d463ced013668ac12abf6d286cb58549e9 (-0x11b2e0d5219bf0585850fca2a05725ead500bdd399df7bb6916ff789f0089e948) 0xc74c51737161a4c7ba41f982d93e809d699457ab2172704a8d85518b2316e7a0 0xc358b378d8272859af7b62438319a6ad970e25d1ad9805c383e6a89ed6f25dcf 0x12bcd2388a47316349fb19f91116d8340d883545c2090ccb94dbf850f4dabf9f 0x9a8d52d4fc1e7283c3fcf280a63b959c5ade319c5bffd44b0187f5612f2a538d
; Less 0xef91e063bc35240be8e207e5285ed1ba465bcb572ed11490fbbd151bbb9d3a98 (-0x52af4dbc2e437c6ca7439bfdeba86a70818e354726ed3c73f3bcb277151da1d6) 0xe031b41b0f46d1d35bf5c93e3c58a38eaecfb7659eea7bb074a40a95e4ef71d9 (-0x48f92716a7decad16470bff2dee2ee1432bc8654633e3c75b86088d1848aee1a) 0x60b729fddf1916a9bf7366f10be87eae1374b56e2bc6cd1b67dd393a135529e4 0xbd58939d05d84e82d84e728238f386ed0ae13b11847eae643ed72b80e4370361
; Twice 0xd6f95ac3afd74d8c826d5bcd3aa6c75c0c158bf02f8b1057bc01cbd603648802 0xd0634bbbd8f5f225d930ee06a9593c65615a3245ddf2ebad8f5c19dd228d5ba9 0xb485d6a18f5c0a555d89c2c88c7138dcfe9d131402511ef28dcdc05ee141b97f (-0x4b13c5122abe0e15f70242c46c1c239db2cf96176cb0d9b7645dfe704f59872f) 0xba1edcd7ba98f2e5f6578ddedc9fd5237b63a6dd873900eed9e95fed506985bb 0xd99defacd422073b508531282f30d85c5a25267cd4a8b89858b8f4741c8085c2
; Twice 0xc775f7bf28abefeb335a3e3cf1c49b85f67d56627d3a4f059c52fa68b0000247 (-0x42d67bb6ae6b4e4936443b17da4b4597ba58209ce396986dc8ae266f059bb5d4) 0x9b689d88312188ea0c8a352428db9d30b4a1b7a466759822c4b1cc8c6e6f4869 0x64d2a690d1f4fb812fc543d1b2da5efa41c4255ae6a69ab8a65d77b3a5512fc1 0x38b7ebe9451c6927d275d6d04640c5ab22d9f6e28e18e4628bcf95836da16ca4 0x1c5a7051a38b240857c17e10844212e6138c0b9c3def6d1f8d72b2face81cd60
; Less 0x4e3eb3e2feac0ed9a0d5fb782619b9879e28348b5ef60bb9f873295f82312c28 (-0xf658eb66be4fce7c192a741262463aae4fe38aa9b41807cd125520f6901dadb) 0x17ea44fa0b75b2c904e02af906c3e4458f33f132baed707a032a395db2b91b7c (-0x30d2553ef62700c31e976e3bc0caf6ab4d4669c1e55f8d660aabca146fa2996c) 0xd873af4a300b9228ce8936eec005b51d5ebd3ce2df6493575182fa8efb6cb282 0x9488620ff4e0938b6872ed3c875710cbf0f0fcc2d403ae2dd9eae3fe8e988684
; Twice 0xd996f34a50e2fb587be386d3901975e07e22697e27b8d115e317830401df4da (-0x215425e38549a85f0e54ea448ad8a200d19e8c55c2ee9dea37ae18370039d9ac7) 0xb8f14176b85f04b253189d21e2e0c97fc790fb34079ef21f1203a6ee9636d8 0x23aaf1bc057e2d6caab2a6cdcf58f101c145130a2599dfd6db3d92ab0ea743e 0xae7ce2e8a5eee3fa944eeadb1acb61eb6bd86d7fd468f1b380573e375b511b78 0xd46e62e9985ad917ae0c5040fe38411fbb6ad9b36e670d9a2961e72761e8143e
; Twice 0xe51cd1db6f8d5078c6c849a752877a0e3440769fc1075a7291f3ff45d5a3b6df 0x17734d417c6ccfabddd2fa084af0985c2d424f1f0ec93011fb6e0fe59c982cb9 0xcd0c92b1f6a7d3cfa171cdb4beb3fea602f96d0bb00a2e67f2cb0b5889e30bcb 0x3de68692d14eadfb4cca397c3d8843531aaa4ffbc0dc230952245d790dc99665 0x6952b28c5b7ad44af64466c6ca242dd818cd901860f1323bbe513c214bdcab1c 0x93496aee399cbe6c7d9ddbaba045fad0a79cfe5d98d615bb0a039bf200c4ca4b
; Twice 0x4d435f444d464a82cec1edb9e20a9fa5643f694574f5ee67010186989d907f54 (-0x29172329d0ea920a7c8436b4b09a0bf024f7d3d17504dc61bc7297147cbfea0b) 0x1751990a2f02183b188168c675d5e416f95a40e99b63c204bbffde2ef5059448 0x161202b6964132b10603e0431ff7976946e2e7e23daa2ebe588314174ab1d2c4 0x20323ada1aed82c0fe2d6bbbd01352d42ad0b887ac807f33a7e31768e320b1a0 0x1c50718fbab0f0e2a7a520ee5f71a33f003100fd1bec272f18803bfa4a1f6929
; Twice 0x27c01485d53ab74d8bdd756add187cb10958dc6d7d729284a831fe9897250f8b (-0x35ac9e668c1e31209f01787eb046a9f10d699f815922aafc684fac3068d1489) 0x62c165f97890194938d88183744300342e38fd7b7e9eaa5d1a57c6e9fa66dc2 (-0x1c1545d1b5091c8140da19351d97f133d54101b23f909da214d4b8e9acf2e345) 0xd50e9712f9e33c50f369eafbdfc9fe2bd768e541d2a5270e452c546052849ffb 0xd72db49773ed2f2a524ccf1abd4b594b0fb52c5777faf2d0bd9e962a928cf329
; Twice 0x24d3e98d2326d12055dad9b5aba96ef8ad36c01bd44623dc4f889c0c58f1718 (-0x2101547255d3ad67be0225c2ce8c1b7b2c9673a3e6bb74025f2f1472f0f77b568) 0x54c491a8ae95db4bf530590b973f1bd97462db67b666b9dd858436f6e12cc 0x1d720a48983b9ebdf1c431220ff12161579c3c80545564f6943c62366031e9c 0x85f9bdedf633ef8736cdf88e4b500446916d485d7f23ef4a7cf8d08894a2516 0xcfdac70d9dba7dc0c9266e4c36add2c889aeb98e887fe519439ce444d0e743eb
; Less 0x91e10f259c1285fea05ce9669c14f2066cef0be268c0df061dd05e82699c1058 (-0x3841206060d3ef7f086c12dd88e2ccf19de0f75ad06089adb73143c9507b4620) 0x5320b9048eef7b2edf430ced83198017f4f2f6a132393dc98c2a426582e68ea8 (-0x8c0dc626da47656a55402a7284416625084776dbdf2f1d570cfe53d66d9891a9) 0xfe269616b31235f994ebff9acee1c0905e8839d04ae2e0a078cc1a033d4ec53c 0x81a39ebe0b7f234d9226fc4654b30a6273a6f99a73dc7383c921c6a968bebd5c
; Twice 0x97e812cf65e0e905495c9b15a52a219bbd3ebf831ee6fecd42a8013aa5362709 (-0x25b17b6133732468da0fa3ab6a408bbd8a88c65b2bece65f84967d729d45b264b) 0x5a2398931d9d6576e4a2d604d9e86ce09ece8ead1baca7a8884264c22f2fecf3 0xab10b46d9b9abf290c38f918ccd71b9d5bae18b36d17c9fb30fed3369b1f9b9 0xec21fddd2aec1ef359e87b342ea9f952f18c846bae6d8cbf29f0cc95cc5220cc 0x72476346b5f3e7851f93020f0cf2e6683f1fd8f1ce3d585256b9e8405682144d
; Twice 0x75c7fbfcaec895e173d0b59905282c194963d1cb3698c6f9887a4387798c374c (-0x22444450736762570d39427704788dfabacd71ce25550a4f11531f3c9cb823c0b) 0x3630688ee8d4f58db327d75745641841aaf52e92827640fc093f6c3e2bb06418 0x64eb652a38f561e9a5352d31db8f2b237c09fe66553a46fcc99e0090de42843 0xde6c6115bcb37484900281cac9c68588aed419b4983d4f0bfa57c64cf21de110 0xd3bef38fe07ce7fc66311450b35178fcdb720bbef8dffe56547553216f6663c6
; More 0xf2b9b387a173a72307db08c16a257075a5e0f74ff4f30f651d2b51744289c6df 0x6d59984c0b792daaa9867f50e8dd1a9b0dede8a03fac279870d1586c43d5298b 0xe6239e224b5092ea9a305c50e0d4fb679de3bc357309e8b33ef91797fce47a0f 0x9327f7aa4e9a2111a28335d80c6b67a03ad48fd5febcf2c1fc31ffb3881db398 0x433823a828bba7a8ce5617cbf87ba3a642cc6c8cc44ccc3b32eac4cea3598caa 0x5b84a9b6dca53c893a3fb5075668c86c5326774d1eb992f968bf3900599b8ac
; Twice 0xb36aff67a381e53cf00ce5e6ec0393f0be398e388f9f72ed3f6ac4c65375b08e (-0x2ceecc902e05256eaf3078ec985e151ea7893a5e79891bdd2ade83a923323c27) 0x7dbecde3ed097dba3f180d1cee1a7af925b8994c5f0f316391f895805b3acb83 (-0x53c30490323813277afe4a53adad63256576a10afea5675efac29f240ffa7c0b) 0xbabbcefff2903651c4555ac43c48eb1251bb952c4c924ba6b1571e22041740f3 0x3a87c2dd28fa0885ca8da9e4d683638c070bc1beb3656e5e47ba81ecc4e29acb ].
Definition text_3 : list trail_step :=
[ Twice 0x6d2b4e68322f6c1e58f65e87a8bdb0021560f923f63d3b833d529b642cbca207 (-0x166b4ee5734d8f6ad2c24d478e3c2e11a72799a2b07ca87e832b5c4b1b6082f22) 0x2e8de818584ecf1609f57c241e40e3c238b86bbcd2022f3a26e1bb84daf8b6a1 0x3092556353fc5e338e6d6e5ae0e610db4944073acf4168945ade269083c85041 0x48d57d3af8644e329c1d48ae1473143d0ce1fdd247c1a8854e13f1699b9f10ec 0x54620f16dd7b5a0483ea333ce49d4790427f577fd8e46bc476ecf00b21b773a7
; Twice 0xa57d63050d4e828c70a3fa29eccd0e9beb3a37ddaacb4733a66b958abe614c17 0x2eeeb70d29b4cbee545c1baae2033e2a07504568800bb63ae4560000e6a31cab 0x6afadf0ec75dfa67217745e5ffc74e249bb12bdbea1fed94bd84147a3773bdb5 (-0x37fd7aa590b0db49ac24370f565812800c4a52b256477064a7d0b7626a2ef25) 0x4e3f49e4aca7d948667d4b3d317cf0245878199dae4bd086a1a3925fe44145ee 0xa2185847d8e59d9e88bc33d6430c91f1b54e6734332818ca4d8acaec77944206
; More 0x5207107168788b5df9eb3b2947923cc6b65d95d2c15a6d05826fc02a068ea03b (-0x93e275a9e4e7ea27a98b2ffce4e4a21af36890d1a64d0f8cd6e3cc2ace85537) 0x1a4886baa877d5e6d7e69e2335a2610c701d59a83c56712200e5bea30b694896 (-0x1574b3bd223727ebe3828da2716b1489033f5789d8f783f716e278cb1273e18d) 0x913577ce05b00e03c57a7509b6809c23ac80adcd98f9886f611b0552384d0dab 0xbd298b6404105342e432e7b3d7b87c3f253cad30900720f72e215fae8194b3de
; Twice 0x63a5fc9a8e9bfa27f772cd92da199a26fecc081dc33b8d58dcd7b906a3cae835 (-0x63d567fbc80d432a0f007bfe84340a1048cc96021394bcf6b46d59179f226944) 0x26c9ccff4992eb9d7b49f367b7e782b351b2c00aab53b805264a359488e7953f 0x110e0470c0dd5b29bc88f829b34b19bebc6d5f2c4095c948c16fd51131e4886e 0x6565066421d2758ad786f1feec103fea15f85944177f246adf05abf2dc9194e2 0x3e0d4878e9dd2d3caa3e13e67bec14a35c65b8bf6b3811c1e4dc36cddd2ffe2d
; Twice 0x25d7c569feaa19b943e4a1955b37958cff422514a242febd8b5e8cb81bdbfc83 (-0x66222bc50d1ddad61df21d5d9f5131c773baf28042ecab098f2ab4adeeb67385) 0x59814edd97b4fe94729944164858979471f2498cf025940066561067349e645 (-0xcb999fd2a46090c3a4944c734cdea80d67deecdfeba9f54b0baeb3402a64226) 0xbb7a1a7b83de857f349a524862545cf40db79624de461a7ca60071be5d5ae78a 0x62e3bcf5575a79d22b6596b70fee8e25033d1050e6cd7405d61da3639e0f13b5
; Twice 0xfed5c5cf153c97e0ee269af2a0e3f26a80e348ddc1fdab1fa43e410921bfe29b (-0xd701c408293bcff08eb0367312fd8848fbe7e1273498f74f8a5ab3f46fcc6e05) 0xfdace70aaf42d97361f7a5ab013df2aafc03bf5b9bb23564a9149e779b60f45d 0x22293b97bc80cda56d81d4f9c861b0691278699cfd326e300cc337800f11395d 0x9928e48e2e5714cb4afbc984624e42bf051fdd0a44e7cab48d2b6820c28b2f22 0x5f37459d4f7ff00001439de316ba4c02be17d9c3eecfa34f47fab49c8b2a9ca0
; Twice 0x75d94409eaf0d1e15f0a896cabbad492d721b1607f20505875ba64479b333195 (-0xbb3b933cb1dd9f61acbb28962b1a75bc80610ee3599e52d6db4f2211388310b7) 0x36405095b1e601e398a41158b21497f2c4fc5d3d6ce236613436b31a56dc979a 0x1ac52b510225d5b57ade15636a31e3cad6f5dceb8d0ce93dbf75ca700f68aa4b 0x5f01e9548a2292dbbccb946fc408b658661876e723b42e65cb9cd3c60abe9a0f 0x30bf709695430449493995043f38f8f5bf9a24b471c6044ec7ff0c17daa274ba
; Twice 0x51b424b74bf8bc18806167b11506de17954936db5ba9cc5fc44c6b2fca0f4685 (-0x4aa9812037b43048ba6ff16cd10914fd6667366974825ad7748a82729580daa4) 0x1a137dffbf2dcb6b51dbf909b853f349aebe3de6d0ca7882081c14ccfc0fc54f (-0xf9dc22af1540e505a0d15e681d0d2e04559711c5ba0118abe357d633ce3539f) 0x8feffb85c5a80a6879d623d47f06a147a90ac516815ec34e8de59c4a2195924a 0x21ceca3d3f5a0902f845f20355112c23e362182f21ea920dc0a7f95a29761f00
; Twice 0xdf193a394bb891eb12877d0aabe34ce9cc76983d64c13eacf00b2fc3eae9a513 (-0xb7dd05cad6f738e12970867920874a9312616079ccd9622a2cf1e2dcc44921d7) 0xc26cf5ed00c75152b9412f5a32f61defdd72ef25a035f49b1d838fad84f9f891 (-0x2aca53eb239a7214190b3a28334186152985e62d03e9675bdbb9959b7c308871) 0xc109ccb7f18fd768870a4e4f311a505ed37573d0ae3f3f4f5378c30fe4d65366 0xd498d34ce0b8108373638534da46ead7b5a46a0f4b2687b1a941f6bcc597f77b
; Twice 0xe4e5bb8a199536d823bf8271a7065dbc385e6b48fea06060201c08c5ec7422f8 (-0x38818be0c55a7beafb5a2d7e98cda54272a0fbbc3466836b3df121b8968a4467) 0xccaa0437d8b09ebbbff1106d25783090ea97dc570b436a5386375dc8a858367a 0x31f4b63a985f8b53c0952d65481c2e9c437e87fe5b2ad0ec58c5e34a25f64571 0x892ad6fce7a494379eb4210a00b6967fb843cb575ccedfa78cd97e81d4325fee 0x588611a625afac892e7d81278d4d89a501bbd58aecd0deb7d785fe7837e81a36
; Twice 0x88473da9a751722d38ec128f64968e02b4df2f7d89002daf986938fc107d6209 (-0x7e3cec0ec147846f43736609d1801172d862a204fc9770664ba3798a945fac03) 0x488bc557cd4768000d99b309031338fb4dc43856b57bb91a6689fe3d8c433009 (-0x26cc1f79c50b775bec5f4d486a88ee9be8e8bc081212c3a4533b87a89483c0fa) 0xd20c6c5d2a48486a54d0177511aaa56a6b6054ac5ccad6c5bb05dc9be633547e 0x71953b9195242b383f50354b62963846209aa9e33abf06b7e84e188fc99c6bc0
; Twice 0x3e80d1c3389a0217433d739622fbc0b50b6d177f442c646b8deb77887f57ad1b (-0x1cd928ef260d55e8f700285af789834e712f8be7ae8d8a8ea5c6747f822db7077) 0xf42a66d0dc630bd18e5748bd1f9946a584a26c94b04cebe42f590ebc68ea19a 0x30a8e31a0063947505731e65713f0f7ff889f45f5f12b913b3ab3ec4caf20fb 0xc5979f9da4bdd189c12c0484144f2f3311899a9265ef7c9769eafa2be18f7977 0xf3e9f9a45f8638e947918714f587b21d56b46c66386c02a81e70aa5fa3bf89f8
; More 0xc8bfebb18d4476938ec94d08b16f1b441cecbb8615771a91ca600692e7a24227 0x46f7b15a3842df9bcfd8f333a4a4534e5d1cb757882556aac9bcdb25b1e259bc 0x9d6c70279617aa16d0482fcc88cb565d8af40879c2723afdfda214d05a7deec9 0x7bbfcf75ac3187eefa8057fed2a80675a01433478a6d649b3728e83753389ffe 0x27c8e61a5cd2040187940d75b05718704b002c0133fd68336a196414ccc9d4ad 0x14ae6a1e82fec30d8a091ff166e00a116edfcad5caef0268930642af5be544cc
; Twice 0xb226c095c0f1802d838ee17d4b2ab7197ebd583e28bcc3826a179fd7f86ff9a9 0xa3c532aa9f239b813d2b766b98a7b5ab09051e97dc6fbb10893fe41e3994960 0x7bf9e9ae79a000a3c0ea755ac6c829854c09b9af81ed4ca9c818384db2ee1a57 (-0x39707263d30af05cf25b232996e48f22afe4bf6498ce62faf556cff3570aad82) 0x7a52e5d51fc6e833a46cd9d3e9103c9180d7360d7894dd941991dcb3fd62a28e 0xf8122ff0175bf6d147702eca5a788eeaa8e18c66170689e98e43b5575b614b29
; Twice 0xf7629f9b2c2665fa6697b3738bb8fb8a4d1c0d10ea2f641f79e93af0e5735390 0x13018e20cfca668f05b96b778fe50ede3f9dac1f21ca825a1081a275bd2c8f029 0xef0f75fcf4917b117bfb0efc12567d0442d6f62e7546920bfc69ab60d690d89d 0xedc273a7fa826b0c01d478220f04554cdbf912fab94ec508b99aff866b5bd81 0x6af2458bccd7c0d45d3b97707a71f52ab580a0602f2e4f574d27676caa724481 0x22c103efc499c2fa41e242325117c0d9560c6571b340d610eef576ef81de90a8
; Twice 0x7adaca0c273c49849889635da5f0aca555706a576f5c8720c1a43d1fbf7c51df (-0x64ad3547407db846aa434e53fa5d6d4781a598c9fbf94a3261d5171cb05ff9b0) 0x3af543908c84bacec075c5b0c10868561e4ed42765c6921c831803a2f6749d31 0xce60c57aef96652160a732dcb73ef35333a693b5906960b54f6af24eed70a03 0x501195b729fd572caf3f9124256cc89a3b24898f7d1e8d1a3adc0d55cdc6f470 0x5e7e8aa41da85200977e5a658f69b6b31e74a3b194893443859360b851c4992a
; Twice 0x61d3b07079d07c8e76c1a3245aeb2341c391448e04c7c49b77bf8080906c3c8f (-0x2e8d06d2effc9fa5f459013456d005477e709972a101a8b1b5ff700c8edb9ef) 0x25621ac1b4b5bfbc53d1c54a940f2bea180c732fe30ed0eb1e17d0f1ce909f07 (-0x199e73436a18c764c02c477dcd3d1b17253a7a1c3de176834934cddc6e74d42a) 0x931c2d035f1377b0261b9133f3fd941f4281e365ad8cf6acf207372a39fe0e08 0xb263143da92f5716a8c9abf03d628d35adef67cc15d6123e371038c196dfa6c4
; More 0xe6fd8fa5ad2ec419c91e947b09af1670e563bbb0545a645076687c14a937e534 0x241b8c934944dcfdb25d68551c764f0d769cc1b6aca0c33c8763325c829207a7 0xd06c9943c1af72c3d4232841f7a76b8ad2427c63f7dabf768dcb349c714ffda1 0xab4a449c0bbe0d15d2883418d2074bb544c45ad032eac49d0fffb8265b90f35 0x873ecd74f87111ddb3f52888a4e054f7f1f01538ebdf7ff7d803cd1f50473f93 0xa625a20cc7e0e1c5987b2f7f5a192c89c785efd0b58c8ee388efc1be66cd0135
; Twice 0x927e5168915fb06bcffe6ec00838e9ddc202e31b97d67f77a23d944587a1cfb4 (-0x183300bf0a8b8f57284901001d186a27bddfd269922f56484e798434e8ec5d50) 0x53d4532fd677e95123f3a5bfe7eb4421b996e432680909bbcb538ee81619af10 0x1522996743d3574633856ef40367378c50cd7f4483468acaf7b77aab4e135ee 0x84efdb7cfa5767859aa4366748851158a0568be4cc69a0d664521b083677c67a 0x5c6bd9383b84b0a6d39abb3b9c5208398308da93d71cbf5cf184581d8e99914d
; Twice 0x66a2170020699c77e1c3573227201d0ad11a057659a6e6e169cecf221e5c5531 (-0x84fdb70aa7133dc1ce2cb707ec3cb26fa5c446753f4d715a4e3e4cb446b7eb11) 0x292590f56133c521c5e7b62383706b26b0f74c1d11de71556570f84bdba7023f 0x26ce4b7aec0b34877514033fdbd7c30cf8458db7927d631ccda8a6f63d481fc2 0x24248addc3295f2893115b3971191d519bd9edbe4d61c7eb4f8e6684424908ac 0x206eb64b903e7cf5e87ccf96ef1cc166eafb614ed74bd79c9a05ae944aae48e3
; Less 0x950039ee1f49be65ca17615e6768fb36b72fb0042c68084c66cf8570553923c7 (-0x294ba86d9d6f05aeddf86b3cfdc23e7ba7faa678b503a0d8c320ec1fa813e242) 0x56b9436f9441027ec28141040a0fb3e62f43b19615b75cda07350d0a33f81101 0x1cee4b2ab341c5ac3f4dcbd7443880855effd59131702a64d2ff67753003294 0x21093d8f4194784f5a482fc38acdf313fde41cdbd565543840627fe332b44a70 0x5a0cafd5a6a3a5ae0d83f73d0f76a4ae50b94f8234b455182547d5bfc24ffe55
; Twice 0x96d76af367f58a3107c76f72cf08cc6d4a67cf50a6f68bb38d9f15d671690595 0x5d5443fedef636ff480f84f46fcf2acaf881ef211b1472881e48b0f48ca7720b 0x58e1269a683bfc7f7fa011b802771228fcb08ad14c6534bab3469b0f423e9ea1 (-0x61b3f079cbb6017800d67dedc7aed89786f59b5533703c55ab15f402b604258e) 0xc6da26f0f5efccd5690a3f9e77122cc948f858a1980f9b804c554467fb2f327a 0x1ecec05175da53b0628767c8e94d21cdebba7de2760b6b82fa8df7d8db809c4b
; Twice 0x139cfb8bd61c4aef6b492fa4a5863b7618d4dafd30c714517509357d0afda0e1 (-0x1caaa115978f1a3b6a58a50c5b5aa94eb80a92a44a539287683eb49aaf76ed56d) 0x180ad9a4ce15572d9d672e5d4c47cd972d3157568704bbae958685568b1d51c 0x74ab51403cabeec2d66ddfcec76ab00eb709a5b5f04bbe4224a5c5c1e802409 0x67ad181c5014ff5c6c23837fad666f0e8e5ec08665c5a9a00b44f118682775e9 0x39f460e9d890750137e1f0d15271e455050ad407769d92847740d2857f3e32f
; Twice 0xde0bb8d0927e43d9568575eb11c24e57c856fbc3bf2ba4ee77d4f8d34c3b0878 (-0x77ada8e56075b9a674113c70e2da5b0ec4071802efc8baa7c7cf1962f89b81e0) 0xc0985513e604661dceb3ea3cf2ae73e4263a1da8e86edc7be3e8230c1ff19b3a 0x27c3d9e689fa089db89dc940982a8a53f14b4bcc8d0fbd82a57b1fb9165e5e9b 0x39d49661aede15199baed7706fc5a714c855fdb8e6803e1a8489d14f773a67a8 0x7200bf8d6573848e155b2ea008bd2454b6bfa899202d88199797deb9aaf631e4
; More 0xed23e954c67ec711f234be785216fa64ed731c7aaf333bd16afa832b8e0c2f3 (-0x2da2273d3f877fa729e7dc573f7dc738751969a72f2cae776c1069fff107427) 0xdbab8311750bf3b7e637fd209685f61168228c22ea0d7044698a1bbfb86e77 (-0x82f89e38986689a14e6464ee931230b3dbe1bf160334fe08277f1de3be3365b) 0xc737bae357b75ac6c533d354ccda4a7d3ecb0c4088ff4a02d4a774057d9a76e2 0x8db9de70011a9349ae1c9fe62b3cfe6788df1af9cd97c262833f23783dae2fb3 ].
Definition text_4 : list trail_step :=
[ Twice 0x52113869ce0ed30b456e3b9666f0f8c634e1effa8c30d008ea12a256e775c5b6 (-0x17638ee698c2c6dfac439e671eacbdbd24eb52db024e74fd06763d316935bf1fb) 0x1a4f094c6ccc5c58bcd113fda964065621f03abf95da13ddb0a1a2fb20b55900 0xe37fa672bc7d9b936fc2d7ee8774f6dbd3deb7f107c97fd26d4c1aafecc57df 0x9add35d664ec9fe78a2bae056444f463a37dd0cfab0d8fa9ef8baa34ea8e08a0 0x1a2349b011e2883db17e95e76fd178b1c52f0a84cfb10c1b13ed3fbcef75518
; Twice 0xb0ef08074fd28f81cf1d04304fa0a1831719e451e5a5ae3283c22589928ccc3e (-0x116ca96775363ea4b0fe9b5cc1a498cb5da9f326a078b9154f6069860ac4c4ba3) 0x7a498a3a85f28fe71c313b69d90772887223e2f198a192672a5bb28f6575e98c (-0x2ece6562e33aef8f22424761e3c632d86481d122e4b00c9c3fb5fc1b9e29e7ae) 0xde962c802676d6a68d75099a30ed797280eac884d115c8032eddcae84f1cb750 0x9c879e6ce357500376baf8bfcb3ad5a3767576e45866439134a9067c9cdc349a
; More 0x628ef4940ca5a5cd1e1257fc91fddac901e45d965ac58fff75085c4cd3c6982a 0x2c76dd17b469807524495937cfa23f33f84492d4d04ef61e16447f12044c4c21 0x25f1c315bd892b84f661795e525c5a509a98c05830e472270bd8275133e8de3e 0x5ba21d7e11389d8bdbd9a841dedb37b88b3e6be1a0f84791873a7241219ac44 0xcfb5fa28451a5ce56bf6f15b9bc918d20b465e39cdd198f3f972a4f8039d4b3c 0xcbdb706f430e1884c5bb7fc4ade8eb5974190c0da9b9ad076545377993c912f2
; Twice 0xca570e2161abacbce47d2c570cc726999576596ab34e02aa8ac278f1f295f2ed (-0xb75670a3fee6d54ea2413437917640c0eacc6fdaa14b46e0672e300f0eb5f9e7) 0x9fed7fe7e9887a39e4fe8f1775f87a370c2451215249bae059cbeec445ad915e 0x1b2f2855b064409504153a8497f1984916640640cbdab0f960f3eb8874cd234 0xcd8faee4996fbfe80db064fba6fd4691578c25ec1565ecff520c0e2b00d9ea4f 0x8b3cb740be7c6788ddabf6a2996146327a578c0f57b791061c38141ba7f584ab
; Twice 0xc3f75e296bcc9664e3a7a561daaf4a9daad5daf5b5e319ecd26063e86fb1e400 (-0x11a02b77a1d6be43820a8a69295cd34452d30c7fde51694a8f4d8e98fe19f0ae0) 0x9602c87a86ccec3fcda9c3f1e572118b89391f59631d60e7fe2e08b99327cfc2 0xaf8c49a498582402bb1d3e0346c66b38f443832008b80dc69b15e69b21a6046 0xbf3a74ff283b57e20f72f511d32dde08b00cf034ab671fd29396ebb8a483fb24 0x376a2f0de8f55fdd5a6dd67266bf5f6b1a6e3bad78e380cae6c09ea094e2279b
; More 0x1814b042dd966338d0e8f5b6ca46e7c398a652f1da8104e7e0cd2a37ac437180 0x7ea0bebb562d0cdb434e50c4dfba382e59076f38c94eab666d89dbe5e65e0a6 0x243e2b88f9eb6f87f2d6eed29c1ae4d22e5769ba257826451e94ddbb7b47d47 0x77fd463b18c90a596d18d0dec1bc5e91c886c84c90f7f38c4995434c4f87916 0x6f80ff92bd3f4bdec110d2724358db9c404c540e3ade3f362ad4a025d5e9ff8d 0xd117ae1eb8a85671062c121bd0ad5daf7613ed936c852da3aadca6f4c1a6c3fb
; Twice 0xa5905d7131af9efef0432e1dca400c12c6715bf80406011b40458bdbe90ce3da 0x7cc0fdd69fee520944848ca21e5124370adbaf5d0410a165974805969a2fb17c 0x6b1369dd9693228b2c38e8ad23f61af3dddc382a26acde1d5d7dbade01c98a71 (-0x12ac58053d66a08dcbcb2b9b466fdc54bd99ba734433120dba9f7c0f86209ba1) 0x8c60831253a097d5b0eb8a43b40e8c270461dcbe1722c2896afd84f75131e0fb 0x529973efe382dc1ec657a53f395b31bd06d6b2aa3a4fade913a7ba250f61eb8
; Twice 0x2d8cdf017f2980de7207148e5f9a5a41d54d9a21358511990daad518df0d484 (-0xe6cfb6623a527fe6b33c521b201079d8abe827f8e405e91524da9de93645cb78) 0x81ad3eb3ab61c2ae5ff3e34abbeea3e2f47c141ecf7568991f41504052ac5 (-0x140ba937fdc170d5c12cdbcf1ab998f05f383f5ff89d451ee0a2841121050f6) 0xfd0948f05b0fc2ee19b902fe0f51b3fbbe98ab3549d87d1cc4bafa56f18c4cdf 0xd4cf49b7fed6e9ecedfe52c1e10817e47e53e32c33cca1ada9324cad53411ec2
; Twice 0x89ae342b1499c1b34d30838618e9332e6f5f4304aef117fbda34e764cc127da3 (-0x2096a921aebb780c50aadb07f79b3aaa9f73ac1c75ba8fd93f01a93670547204c) 0x4a0bea615b4a0454ad9940e065ef0c027367c359234cd0304fccf242dd86dbb8 0x47f8a785722a54ed289beb706aad25a1a2c1cbb241a340720c2f576739a9c172 0x7736e56ee76ad8c502a80dc41e86422490822f42ad00f30edc6ac87eab02d7c3 0x7bacc0d640b8f79b461dfb3d6a49c26182e891ed258ae5a587dbe3cc7a14df84
; Less 0xa4e343403e6434d41920a3ad2355ee4528ad500167fefd6de40382d529b3203b 0x7ceab38ef9ae72064e686951e50529f8a0ae8dd10949ae3333d71cced44b01a 0x6a33f7eb0fbdb217cad63bc888300f252d3366e332c54336e9b3d726eaf9cf23 (-0x292b69fba5e8f0737610f6ef8af66490493ce4f48cf5f0e20e2aa02122e8b031) 0xb72216d2f506db297b175ec4e9590cb58f36eddf5d4e683949a4413963ef0263 0x63c3e9e67ba914045a0667ea228d2a5bf0f1edeab0663b65f2717ad6d1609d6b
; Twice 0xba8b4b55c24eee37d5a0cbe3589147a34d12d2cede4a8ed51e758585c837fd62 (-0xf7a002296e30adb664de845569f8e5b121283dc33f03de1ba2661fbe0478ed14) 0x87eeb5440b95c5b8323156faa7e93662c6bda3887c7b61a5c25d21668c10ad94 0xc355a4177adcc01e859714d10160066dc91a01647330d8b9c1a9259790c9304 0xa66113595328ce4cbfbb6fe31ae5c72f13c0e3be2da558cb96b542efbf198252 0x3040d21b2ef69fd87eb076cfe3cf627ead451f793cf7019c9947cb5b8c9ec91b
; Twice 0xc1f942dfdd900c0bd09a969a1498fe8a190c37ff5db8f7f9fc5fb2d9d7e8381e (-0xfb46699bfdcbdef75f280fd152bc0c4eb40800828850a4d39a85b8011110cb8b) 0x92f9c98948022febfb7a642f15437ac6cc472f25e158c8ffb64774cae0b03071 0x33452df4568a9860a1d89cd0175b364f4856cefb35eb672c0f3ff5c9594eee18 0x62b6e692f7a51eaf9480e184518cac13c1bdd3de36e83c37eaf1aaaf892a4f51 0xb7693a9ecec6bf25d7d2926cabf16d85c5fdf104bf9dbb703a46c03581c8571b
; Twice 0x2e8bbbeac14b9eb39184c1f130b8cd1aab3f8ce8e1e3a786abbb8ff64405bdd0 (-0x2f7f9704e27c478aa80ec22a4f3d4b9d4280876e7a3f3a6e64096cb001c42300) 0x87683ce00cc669f41ad312da55a9cd9c237edc722cecc4c02824ccb6528277a (-0x115906d2e0e00355b765626e928ac2a46f7c7b35c4469f88a489301ff480078c) 0xc22058d7220f10d3326f395c61bd51e6dba87fb44922827891a93023c9b051d8 0xea5bdf131d684303c307abd9e631480d97ac505729ed9d62d0571b8f4454e8a9
; Twice 0x3d9b47061c0c39d26d5aee0002afc8c9491951c84d28bcd11b5337fb5cca4564 (-0x148d30a9d12f8145902012588adeb581736f4ee874b92d5384533485050f5ab4b) 0xed35e080d4b8c18671e0b59a01a358c51a58c665ad2ccf29d85402b7a0fb7af 0x29d7dda09f415076c350d331b44060a9b1a7e75e82994e6dec8864bf6a740fb2 0x14403cbd5e01f32aaad719476c63f1c74126781596ccc3c39121ebad5b4e230f 0x3e53dbd3aa501137f04f42bd0c1dbb199a05e96fe6df84ed0c16638fe1af9a8d
; Twice 0xb30e09704f3523a4f8d78e20502a6bcfc6c512eddd6737c579ef625ab920fd43 0x5261ce5ae7c166c8f21016475d81440c66bf7ca913c4a0c9a17959547d2db8d2 0x7d3ca1f894a2b277d4f159b47967f9e1a1a39046fd72646815c549c7adae47d6 (-0x34b0695be55b38a9a3f46652e48c816bcd7db1542edfeeca369b5a63953d3d5c) 0x5f9504e2251d809d635f0957828d149dd2e12624f18be0e51f9583d4185f8141 0xcb7346381337512a1c4c1a9218f265260ab98bc36c2c261b835db63cfb301701
; More 0x4b30d50b9f2c5504d3815452012743f54cad08500c002b2c01ff4354e542cd3a (-0x361842eb803118ba3772eb959aab0cc4f2dea38d7f827afa390e25ff55b5cb2) 0x1615a6257b01a7fcf0ea8967d96396ab963fef45a4c555accfc31af4daa50284 (-0x27f6356436fee3ed97d0fd75b9c72c90722f9dc41d984f5f27ee7faed8d86eaf) 0xe7a38b810d4196cdb17c7fc3ac78fb3e1e8e17da13d715ee41abfc83241aafd1 0xc1c1dd7791c62cb9ebe034ccd03a4c92021689cf74844d84224dd7ddce259db0
; Twice 0x281778a391b99f118a42f64d7558c6c9bce3fa56bd3b659fc0cfb88e772d26b3 (-0x238198e133ed2a713139b3a88334d86a7c5f62a7d1cdea600645856119db08a40) 0x64757da0a0f4a0afe9885ef6c1ecf5c6a9f1b3877a70fdfa0b9efaced043801 0x9704f29c1823b115c5746429d6815d803f6bbc56d959f464377fe198ce11eb6 0xab5e87ea6964b6ef4d213be556ab85c5745fd21ecd4fc407880f372baf967988 0xd093a73966dec5802ff221911a30adb576aaeb0ac0f08c24d3fda2a551114c11
; Twice 0xc3bb2621fc85d751a14974fd26bc7e80c6a66d8a3b4658aed373998997146da9 (-0x19345ed6e4bed01dd1864f5048ce95887b59bcb9de6d653a8e21510ff50f5fb5) 0x95a6a4e917af91f23e85fb6342cfe5e4c11c9718978d17348ec82f2090eeb7d9 0x28651136d02f55c69b3cb1c05aed0c845a88d64479f4561194fb032f62be906f 0x768945889cbc7a67336e4d7a049880182e3f7b216341fa8a129a3ca9e1231e5a 0x552950a9df97954026369efcfc173b8a525cc013261ba4bf89ae7a8bbb3f0bbc
; Twice 0x46eca79986c763f1e200197425e8e043eaee696b86cf301d7e760fe7eb8526c0 (-0x75787555187aaa2d2f6d3504dde3355dbe583458af75996566e9c88662c5c317) 0x13a6466d7a257aa079c05637797a820950090c83245119719e15065d4dfddbe6 (-0x1e387845bd14b34ecffcc4ebbb2a696d38eee0b58fa69ad0f8dfc323b80b452d) 0xe39ddea81636d3c95c8fbef5b05ed3df7c7165b849a11c76af64b5ef55152f32 0xdb408039d7035e30f305403ef5171ca43222084eeee05f63331831e2a070fd17
; Less 0x7b82ca9dfbc67c95854a89fde23a226dc5a8c676c6b6c4c64e3776b47b2c0dd0 0x3a25fb91e56ca69f6a53495e2223f91e7fa12f84a06cd087b7a31a01c2c4244c 0x3b96f186745915a87462bc6163c4bb9e8ea3732777ba22d1a6a864bbb9996285 0x6b71a367d61a259d0e2baa751cd776ca3e5d8a9bc09a1d57bef81e4527c01b04 0x4eb2ad6939730052543e7c15df19d0ccf2cc54e94e0569cbff4fee12c2a39bd 0xc2749b20c7891e198467695ba472dd02e41db704362b6eea7b83d08d1bc97dfd
; Twice 0xb91830119581768662e51aeac760b2ed14089a3f9c2c4dc9588908aef21c2b4e 0x118e8b2fedb0b31794dbc896a36bd5ace6dd9180dd3a93d7085bea79962a95c6c 0x85d3f7c2fc3bb69ca97d831633651519cad0c086e62ab219d4e0f8934dea9867 (-0x22df30c3971b222d571071004ecbb62d5cfad9cca6c4ba144d8672c35b3e1e96) 0x352629b2db261aacd922412360ea021399a0b40c6380d7f8146bfdd1edf970b1 0x77436984a544d1e77a093505b0afd9e38f513fe2c91f11eb8733905202eaa915
; Twice 0x56b2d52d4f262f7a6483f084e917f864ce968d984f17b72ccd5397d2ba7588b3 0x2fad72670c51ad9f58fb8f9e30b3a7912f1fd2c9849b48b624e82fb3f2c74bc2 0x1d5ca427b310cae24e578718f084281575c9874b9afea8efe454d9276ad644e4 (-0x3aea5fad72e17ba366203901e1c0690010bb3fd58b3e436304994fc67bb002c) 0x4005939f1b0c18818fdcf94320948e1c1509dbd34b4d4b1a25754dc9e78010ab 0x1c5a2314f4b85db910dda4d1df06d539227fe90a31211b518c09a7e7d5f9aaf1
; More 0xbc897068a80524d3f5ebe6fb27b2355728a47af5c13ba9fe59c2281c6013d84d (-0x1fb8857296fffa8182a7151ab4d52cfe6e9517144438a79d2a93db8ab2c8db55) 0x8ada26e3c301484966e4f6faa122df9cd6acd14bcfc5550265953fd48e63f564 (-0x2fb0680f6b49d36e6e2e724c492d3a27f5a8ef700db354afe7aa532a615303e5) 0x80c6737f33629a6606cb6f49eb28c5299ab0c18c8b1a04b80630fd60607b294c 0xdc2d59fc7c5036b8cd5c83f6e42452cb1016b3b9b66f0c2a07d6411c547210bd
; Twice 0x3ca804014adf53965205e3a03bd9ac8ffea67e622465c2b5cd6425f3ed44e8e (-0xbbcfc3b96afac3017144ef14aa521f4639a49480dcb971872be31a8354b171ff) 0xe5f3025eb3a2ecaaedaa1f517bef22ee8e2f89b55f5337def937d53884dfc 0x19bb09223e95f114a7a7b8204230e1cff2e59f99c96ec2ab615e01e244835ad 0x142ddce3fef0f81a614bc94bea00d033cc6ab233642d42b60074a43f8ddcd228 0xaf590c669dcd6f1ac11f6578b013df841312da0fa86a8ca3c56371f9c40772e8
; Twice 0x924730d3f7647dffd813ec785aa9f97ee1cc833053ae6b45f100121e7609f14 0x7c09955cf12eba0ce4503585828953e4b5afdcbba6dbc27c86711b113eace7d 0x5395477e38a74d3b096d51df4d523a7b338f5ea8cba4050af6f9181565b920 (-0x68b31cafbc9c00dcfb371f4ceb815ddef5520b9354e9f9fb99bcab7cc29f87a) 0xcb69c10e41858985e7120566999d397a5ca517150930ad29fdd45f4ec385ee60 0x4636fea5c043d22a046c91a87dd88a9d092a70f803e2a30741cf20b11911983e ].
Definition text_5 : list trail_step :=
[ Less 0x1645093af4e3148c6af8fb7d5b84ffffdceb726b4ae748f87aa49337f4daabe3 0x861041ae5255329b384369974f39c7ebc49b16454fb110fdcbf302ac23f2815 0x1eff0341e242cf12ae189ed4322e69bef82887019f6514b5902be943748b0f9 0x111f2782a27de5b7971308d0e095682ed2de8150dd9e2922d8def89d0dcd5d00 0x6976740fc464043a5b0e041f96ccddc842d68e8049c9bbf3ef345fb852f0b4c 0xb790022f5b497a4180d8340c9368cacf6958f7670f848e0566c11318b47d7b7e
; Twice 0x6e22e87bf038b912b351a7a7b6c5bddf2310caecd46dc8caee6d683d8095ab4c 0x9d6f7a6298e766487d34fcc1ececd8e3a6cfe7400300053cdee5f4d7cd0f34dd 0x2f62048d45df7211d8ed5fda1b371688075458464f42ba660c4ef2b10c370714 (-0x2f5fef4cbda755173abcea40f38615742d05d26f52d8c739aac3dcd55b1110f5) 0x74b5784060c3924cf746dd43a2f9619c2179dd391682680ce037cbbedaef8f0c 0x343b1f85843954f67b267f5538b2885c0b3ea47318fb5be2861350203489168d
; Twice 0x28042f89a69e02c4bf70e7afbc7d42bf476f6cbaa463099994946cf1334f3a9b (-0x8f4ab1c0ca982f16367751064b4390bbb9e6f0f0332c674ac41d5f094c3bf911) 0x6414eec8f73b9ebe1c030ec69c6671d7df13d58f69cdc180853cb015ec0f8d9 (-0x12717f4505585253ac12fd5804aee03057f30bda2cbe36c5234d2286700e82e9) 0xeab2b46da6180054f2069c54040cba24bcd4cf97a4e0552fc203fd38a3f6749a 0x643341730826312031889c68cc2314e7ad17c26045193d2cdeb89586f3673d90
; Twice 0x1d2baf14158ada06a9c66bf861f3055430820f7e8504981c9f62be07d16ec12c (-0x26eabbcb027af6e7b9575f4065ff8f2392252526359daa8bc0ad6372222d48397) 0x352ed1ed8b01630cba8666d2df1acc44c741cb58d99db9cc6a45dc153f6832b 0x1348806230ee11c430de34738d3cdb2d1782f719383c5ab809855d073ea298c6 0x41783a6199e19c99ba36ade773cc23c5e58792661c0b3abb566e4b0c779cf987 0xa50ee471f6dcc916f0edab50d9714f88fed51ea40082d357ad1b47f9c58fd57a
; Twice 0xa0d0a48ceac28b580444ce536f3954245824290665610ec020f2750d8d912e09 0x9d24d79e0bc056a8c4b0d3924a0dcc522fe6d6253a59ae975bbb29a1e836d4fc 0x650577bc593afc67472bdeb3b936cec49b020495711924e900b90edc3f152e40 (-0x4363c2192a2156394605f8deeab530c1fc926b4461aacc561d60ed52c00cf2b3) 0xacbf26690738e4f30e925fc47063a34031a72502572c0f0dfffc9eb868547783 0x25fb9591b2081734a75298f70bbfa08c6abce72fdf380a4be663fa48e39081f7
; Twice 0xcd3019218e950a2f40ea7569b069af6bc8949d4917ba48bffe1135624dc940f9 (-0x120d10baf033cb6ae22fc2c99663cd99f8de3a27d4647a22c8022a9ee5aad2b66) 0xa4761149d1ddcdbbdaeb1d57240708dcf4bd77c67676c001c53336bcc124216a 0x5edd47db97277ab7ee57850422dd0bb917719ef6ab38765964e1c6a33df6dba1 0x3663ef4bba20d2a0549ab611f72f8cf73b59d2016b5931117ceb813cd1faa495 0x3684aaef8581534b062bf8fed9e39c2cf5c786188195cffce0a0753a3f5e0328
; More 0x599ac1df08fbf23ac8bdfe98d57e9dce0aae4664597ac6fcef2ff4a5f57d917 (-0x127265ec0ffecdfbac0b542678b7f35528c2a48a3213d28a7b30399c766c3b6) 0x1f5cf85b06c503c3c033073613a99f2fe5348384b5c47deb233f29fdf158bc (-0x12f59d77d8422bf7c6c532be88000199ff3d16461b2c925d255f15c8794ad13) 0x6c8eb4f3cb731b090c5393b2b7836ef36d07a3617d1b6cc131da2937ab17f1a2 0x78ef5c0458a78ed8293403b28419624a48790214ef86a92753e0fe86deb05e9a
; Twice 0x263dd4c6f337c297637781c169c61572bef38d3c7472eaaa9f792cd3a5fcf205 (-0x65f8ae45af33c166de37a11b0eb0f792d5ee95bbc22b71758399715bb7639a7b) 0x5b66a1a2d94fde3512a1bbec8b8ccf60110956ec01140365949a6aee6f497ca (-0x2a646b4a4ac485b17985b44af80bbcb2d6bea3433ce22c5a87c94b562afb3f0) 0x7e4b495b0031eaa38f337bb2c7179a2303dcef6b08cd8720f2180a65616a289f 0xdbab20bfbd6ddd48e981a38750cac32776ba7a30d60696651c418b9f44fdb085
; Twice 0x3d728333c93f4683f1673d86ea45898de4eaecc4faa47a0355178c105c28551c (-0x517683deb0f1adabae2944e13813767848f488617a3eb45e5ba174a1d7ecb6d8) 0xebfc5bfda05342609692fac18bdb7fa4083311761f836876bbde17823fb0af1 (-0x13129bd30f4b3c3341162054066d94ca33a5baa4801e43284a24caf5f8782c4c) 0xcdc11155137dea70c95fcb8ed8698041fbf6997dfb1314892de413b4363254c3 0x7720106dadc89e312851391b947d1d1a08e9cf64dd80759cd785d6c1305d5b3f
; Twice 0x64ef23741e5a595877346e222b55b2749f6a29209d447d24bf8030ce78399b0b (-0x1922cba668dd36a535f7abb6335fe79e655f99fc4b6956679a3dbb00e71dc7bd2) 0x27cbb316173bea8e19a8370063080cd36271dc497ebedc69b9fed3f549c6a250 0x2855509be28416103b993b18b4ef019dd42c79bc4c5f401e8e9a6d1ca1aaa7e5 0x6774e4fa309e262c2ed8e62a4eeb5aff7a08bb0265394f0022866091962e4b43 0xda20cfc6f1506363ac98f83aecc38e16ea8fd9618f903414d2506a14e0ba3526
; Less 0x983f0a2122d84dbff217110674b627367a3c514504a7dad448ae3c95a38adc78 (-0x229a1f0d1f26e9a3e775bdac87ad9cd175217550e5ebd932d5a59431b5535fd) 0x5a8aeb8db0a1895a70a05f2f4adf29d49fbb3057ce75dc51abb4b452dad79cec 0x25a5423a247b697159cf3b99b851795befd838a74f6a10cac65ac04f6e8e7edc 0x2827f98996af4a5d38b4a05fc98f4a9a813384b19319c958a7241e3eab4f0753 0x9cfbe2c5f2eb581b54143134e52c89d87d7229def5c99f5d7c563e3cf43e6236
; Twice 0x59d2c44787c7d17613e0b4f999deb7ecafefffa0e33901a9801448e0e40d40a7 0x5b4414fc89acfca00cb1160292cec7d05473e8d949a777f0ca2f2bbb3253cc44 0x1f843a0077c5895ea96382ad9dc9c5cb82bfdcfb74b1660b729a90e4af588149 (-0x4b4a9058abfc5ca2e20788d56a36ead5c02c426ea14f1e3910c72afab8a14fa4) 0xfebd3fa269f3d9b78c4f83e4277369ae1e3328cfd2cca6689521048072045f94 0x389c24f2a7d53555ea894641551d64b14166907f4f1e0ef66e73d582fd767bbf
; Twice 0x4cab118bc9ce1ac18dc51b9af9e221eb270a8f1f283154148aa1a1e077fb1334 (-0x2d68be43ec6a56aa13cfaa8d99505fc6b88ae49d9d897888add99dcdff81d16eb) 0x16f604bb88bbdb1840fa530ac248b15fb9d5efc326ebd4cf6b255412e658e9d1 0x2ee3bada7cc67277f9babaa600eed95d232a1113276fa00c926c83210841ca70 0x622c0ca8bff1035683d5b44c00d81e5da165196aa31d5e5c760fb02b03b8ed39 0x52a4ddfd03e3547f53c6421ddcf9a770dd1d534777d0f75e10f2a6e977d44a2d
; Less 0x73970a73d829f0afd0408f9ecaae89e3b542af941286ae239e706d6af29359be (-0x4072d0eeed54e7d0f1d233c471a74d33cd7099bf20a74bc51ce3d0712b7b3d8) 0x34310c819d7cfd8880d0657aca00887caa1a138cd82c7b78e6fef6b953900dc2 (-0x430674389d6124fec68a3ee9263e72365f5828023486972d8a0974474a7db4b3) 0xf69d4bcb4a9f55cf637516688ff1ff013ec7e6de441b1e63ccdb151bdee806f7 0x1fb22766fbc66baa69da9ece26f4551c9a5ec4e540114a1847e04ccbccabd81c
; Twice 0xc45c633c6ef6448eaea34a561363603bf7511cc83841917b68c693ef49d16953 (-0x298185e0016b2dccf546153f94adeede4d0542d8507b8327587f722b978cb9338) 0x969d994c9a6e3f5e72574309ae289bcdf68009372cc44d6c9d143c91af95ff58 0x4d1dbec1eeab39948f088a0516324b5c3c3d4b164f2dd5a6ba196ebde1d8a055 0x92138cbba9b98cb3c55fed24849899065d373c0a30dc505ac90326b26ca12253 0xc6e4a5ac17abd87d47841ea4b3ff6ab391f0798ea41dd0e7d402d230a3d42d65
; Twice 0x4b530758d0329452feb53c743ca782b82d25ffa220fd927db9379f57f65eb9b6 (-0x8503ed4c7c3c521ba4862f173e51fefb93de1fc6a549f8231b75643c627810e4) 0x1629c13be3f45f232d0eb6dac22dd09b56b5bffc75b3b59679c507880277f60b (-0x1adf49ef6e48f3802abce76a1a9d5abea6931263329ce87a5e48b0113b71009b) 0xed67bffb92140744f5605537bbf6763f93cef72b471b2ffccc1f37cdd9963ec9 0xd9bb563672ec996dcc4db7d30b5d8de57d487bb24228839b054a010db193501c
; Less 0x7f941ff717b5f6a8a12ed430afd5a5843882e0550072657e78b3d46c648111f2 0x40f10d91a2bdd48c3f242d37d1420f2d78ab48e9dccda69c459f7710a2c0d6db 0x3f944d6c62cc08c97b2f942423f8f057054902147984a266b792d2e83025f259 0xf76ca0accaa36431cd4d807004a0b1fba0edb71a348e35c4640a93c49dbb91 0xeb77444ddc3addc73e89eeef9dd3b07ba14b4030254e1eada9536d1ca51cf9be 0x855046bb186fc12bf4d00ff1aaf207621914c979b3acea608707763dd1ce6adb
; Twice 0x9cc23661b0aecff6da69283bb3379390e52f79848e3ecbcf3fd98c791a47fdb9 (-0x1e67870659f3f0c3dd1c109c17e1d62bab077eda1b24859c7108f8ef1796bd37d) 0x5ffd459de6ef77d6b16bf52b30e027c553d58be10a8d62179134b46cbb6aec86 0x23acd566bbb63354055ed7c9ac7daf008922df008795528ab0ffdba0116a69f 0xe7d31961c58cf1d459ab056f5ffc5eda5c2f47a49baf86e00872beddbd4628bb 0x1937fe2a36b12c5f3359f754ca60abb12794aaceafd44ddb20fa2a4a4bea3def
; Twice 0x3bcf4a54b5c37fd83df02f1182024a461fe43374e219e4e88eaa06fe9e69f765 (-0x26a034b4cc1a70b2b6aa4ac8578e1225ce0fc6b69cef8820cd8908b467c2926ce) 0xdf9341c6454584f91def61ca97930f785a8b6e75be1b9a62148c74f49ec9e2f 0x29642c6e263309e1433d09d4177fe17e1d13ad7a6867495148e34e05e8a2d66e 0x36a8ee75702c19018bff65b0658c1ea91b714cd36d11dad2626deb3d5b4e5a92 0x59f710f280f58b343b12d19298809dc5fce1e30260a1b21dc12d031738377dac
; Less 0x978f01dde44d372a4a830fea924e9e9e8e60b0f6f4c7e7a096a043805a7cf32a (-0x1f0ab28211245defb9946625a072d7f4eea026c83a7fab238289f992972853b7) 0x59ba041732f5a58af1bab1cd7be4098e457dad609772f57125e99992c132c487 (-0x2f54ea85569177f84d4ff4b0416d1d1d7aa8b3da1dc2342a5524617418624894) 0x869bcd0327ae8c586e4cb8a77a9da53218a448348f0fa05aff91b3058cf46a43 0x15d95be604bc5d61e442b1a9ad16acbb5182ba3e76212ee136fd34081586a3b6
; Twice 0x7e6febd600d0765e297e92963cfd8f122afa3fec3ad75cefbe1add4d7184326c (-0xbec15b1ea4feced31dc9e495fc96d42638665a41352a46058af4938035c290f8) 0x3e725d154416dec471fc851a80b368c6e25019032eac8b26ed156d6061861bdc 0x2034d48462bd5b32512e7fa041d0149e96bb0bac9e7ec484f32c2e384cb9199e 0x456652964e32e209a1b88bcfcc4e5a2738e8e2455293273736cccd14a8eba4e6 0x97135c6fa6e0085601908acc926431fde416819b9e44947b037d21f6f265e324
; Twice 0x8ab1b2004ae7efd5291e6ddef0b89b9502440223e301c0419135c8396a523241 0x6b41a64510cd04569d8cae9482a7fb413a7805c257758bdb4fe1fe53e1eb13a1 0x4b240f403c121ab605750bf653225fb8406c03a165ecf87109d9c5fe52ff5522 (-0x4a1cbfded42c0c3d3ac6de36ff43af87a3ae71de41b6c2bd54bd8ef0f2e36d53) 0xce3200d40f775eed0982bb76430f7302ac6a0a3f433894fc007248c910a97fd7 0x3be20d4920c4a712b943cdc9bd89a4b71718fcd2cf18677a8ea2cae5c38d0658
; Twice 0x33885555c4239cba157a536851bc57924e0343bc1067335ad025c1c9ba7064e2 (-0x1da21afe92fded9c86338b657da01f83807a9239e1ea5951bdfaa7dc821d4dfb0) 0xa5f9a9afe1841df19fe693ef5a53489644cada445abca1201533e3526df8f7e 0xd763e13aeeb62b54c91c71846f9d40432b590fabff6a58673c083eae437d763 0x8b51fcee494cdf5e5ef8b0f1558857d4da69973e7247ed822e255f77db0de754 0xe4e7d47cbd098bd4813b628b95de1a8f5ad3d9866234dd8b8cb66e6422eaa0b1
; Twice 0x66a4191d968e75b8746765cdffa6afc3a2cee83ad8f56bf5e8acab67b65021bc (-0x2be83580b90b05e65471fdfd9e40f9aa8eebf8524c60234b16f28fb8c9f78b4b) 0x29272d33ed80645cdd40b4850fe46bb429deae2e8d604817485533a516bcf21f 0x115cda0e1e6f008f4de9b776a6b79a02c8b7ae2c3df3a9e33953ea8b5d087c6b 0x6003f35bfb3df11994431974fdeba65c0fbef71d2cce1750440ccb09ca932587 0xb7e9e789dcaa3bb8621814ca3aa4927cf594bb1f9b73e0f9027d01ba754f9b46
; Less 0x1c6972996075a20452ffbf0b8cb543045e6c0a6ef3a208e909498a8f98a1e45c (-0x13abc744a70e13847c2b53e1dc7063c14e1a0392b9ef746621baba19a9c4561) 0x3273c80c55f0e3dd12bcbfa02a39c616ad6e2e734ce433d743d8cff86091592 (-0x5ed0d9163d345e73c35001f6c49ab8e2f561d6fea0ca334876b4d8978b40270) 0x9569108d218daa3cfd638da2ffac2d69e700bffee51bf7415a187d062a492e85 0x7e91d2710388a8bd5fbf3204e0e1ffeed79e03f710d9328a40dcbc1714d0ef02 ].
Definition text_6 : list trail_step :=
[ Twice 0x387503721e8a39aa90222512629f7952d78f285c28b607e3f79bd4c28499c35a (-0xcdc6e86557a0167d20c7fee383ff43889102b50d55b2f2d23f66d7ef127ee620) 0xc7366fe202baa27dcc8fe0708817cbb1c91b70358f9aea846402e1956ae33f1 0x4c0f5551886964ca8638304b1571f1c5ad358fab806ce12dedfb3e842df31b6 0x7fdade0552d7e7a4d17efbe02e2c53399f7f2b14b4592657b6534644e8c2128b 0x313a1f5eb96beb496cf695c4fb27af77081f5c454f36ccb67b437c4cc2478698
; Twice 0x1ff34bf4a032bb564a66b49ece35b84a05987ece2fba61afdf27a2452f30efed (-0xb34705128f330a0c7efa2b642a7578e71983b59b08a66cc34760ed536ab37f08) 0x3fcd39e8bba7cec924ce856f768e341edacce716ab339e55f752e2fba382048 (-0xe0e9c13ab2b37efc1f5c617999f2f9cca6e01c5c643d3f2385f3fda8ef27f5f) 0xf07c74efcd4fb9d4809f9125db393c075660abd2a745d2905bc0ecdbc8705c9b 0x34ea555e371c3f5d533c50698aae14f6a0bf96ebe5ffef180ab028c110467939
; Twice 0x32c576d365e0f15b47dac827629b77805a3f9ad7a764b2f55be6501423125d88 (-0x290bf9c2c512a05ad5ac76ce70639fe6be6d6e081ddc7e878564fc14b1598e508) 0xa11babab65ff5b242b58eae689fb5678271fbe596420c514ae68fd02a4c12b0 0x7723405fe92c8ea692014c306485b26b5e60a41086faeff4fa743435dacb6d3 0xcaf0f8bc2342d5b089da338c61bdf5b97a617bd3c35938804de65a3d12b771ba 0xbb68ac54b84955034e372ef32f04267302d4d28bf61910707585f884bc8c222
; Less 0xe95d3a4d6becd15bca52377e87a4c82b80821a1a3b7c2d236feb40c23ba877e2 0x575f8c04cb25cbacb1ca3f40ccca5c4126a6d1e492d7944a2bfba9e2b567ba4f 0xd4bad6152cb7818ef3caaf34ca1b2a9085508c5c12aefb91133f24b5f7fc52d5 0x4b2bda109cc35f6999924b524a98f8e382731a16b2603f7829fc650df9d3e9ec 0x787a81cd59a50d8996c4d713cab135a977b8ccfe5f481bb09ad159dac9700209 0x431c8b5c84e3ba0448cf3d0b51cb14229020e7076b3683ec90497e1bab2f090c
; Twice 0xcaddc5bf937d6516b7daeb6c780f8ceaa82fb56f7ced56d29450d6bd880f6340 (-0x3fbbea0cb89c8d05c3d42672b8a54b0ccbe4322da67600ceeb59807c0a3f6110) 0xa0c2bc31fb09ae962550ec470f4734cef3db426bbef3552e0f6e5cd2d81bfe13 0x5095fdc3c3a47501477779023040ef46cfc1abc57467cb91825345d1dbfa97c4 0x12c936d4b515321faafdcd1d059b56e88f1048af64b932f8cac38ffe0d368a01 0xf54f463dae42c6096885e97b6df18c498059635fc1cece5385be78b9c10ca8b8
; Twice 0x9a90f67de7047f1ddc4b11dbfda55bde56b4c592d2856b712d2a7cb5f80815e4 0x124167480d69c5d7e22949a8aa1b3eb1f0805c179a09b80f4b15fb870d8b88440 0x5d52baa6123e3e8cb2b84ddce86198d0451320f73e376cf9fa94b0a8342b0ec8 (-0x13a26cd0164ca54e71be0612b8dcfc0d7ebcd1f648c96b069cb7f97361888bbc) 0x334e37f88f099a8a82305854b9cf43b0d20c8a121ec5f64a3cd10fbf39dd2dd6 0x6a1096e44482430bdb65f969b92895cdfdd5d2b7e952a434719f1798f6e868d8
; More 0x11f9abbabfeb2d3595ca72a63ae5f473a6fac3f3fb69ad9a9b16b754f5551336 (-0x3eacbbcc3ffbb1e88f9984fb0cc378bb11e07737bf9cc7c4c1b1ffdb57b489d) 0x1431c4e533cb46d021feca7e74dfce7a7ea63443a6cd253c64de35fa504b09e (-0x213aac874a2d9375e8a58f0d046f1baadd52a59e0cdc9db7e58ce94fd1e176b) 0x50e21b5232ee76b85d94ddfdc467d6a447ec64dda1538434d28b5cd5b1dbcf96 0x3fead52844bdecc5ce57e805ce176c353c52e256273e523e020950d46182213d
; Twice 0x33b42048141ffb408daef915a84b1257ef75d2b8c2b0931a30d401c12ba509d5 (-0x32d8c70e930a07473efd32c9e36491e5247f9839591a5e96ace49cf6029bd5d9) 0xa71439a2be468027f1094b191bd93394e70b15ebc015487c54d0f7563ae02e0 0x93a22241427a30f667e7dfe380e2e9148a8cb88733216cbba44c47bee0acf7e 0x23327b3acc26669e4ecd09bb0e3c84ae2d22045f915c2a84695baea73ae90eed 0x877087e878c13c5664b322705b1744bb9593994282886d4d7ac5bba9d35ebde
; Twice 0x388e0666f61bffb6b0be9c03cbaa5960c126409ae844678cd2eb361176f7e690 (-0xac70ec235e77b675a5ee38ffba2dbe07d28424b9e63e90b02ca56f6de05eb88) 0xc7e7198328cb57a1cf3e3f97a9139aed9787dd968086eb70c3116e396302c49 (-0xb55ae9e797a0e08efbb92970857067c174556457653500d45a04a0680bcd0e) 0x26676690e5089bfb0a647618acf8075096c2214f5326a7f55f54915099e51f6f 0x23c4fe1b68f43814ce080823b8425dc2ddb8ef2c12b918b753949b973cb231f4
; More 0xe42d4859311287fb69a1ce97b41b17c4cbff210d2a687a79f3963faa305e448 (-0x3d39460feeb5f9dcec8c1a63b3806b68e4d711535830ee88610f88556758109) 0xcb60b0e22e973e4a9a89f9e962d5366e3e1b92c0dd4ada42abee762644eb17 (-0x5d4b216586320b253ea69fcd418fb29eb5b81d939d375c64d4d428c579a4233) 0x8f12c24a93ff41839ef63ba865875042a5d470d558c8eede64a831561a275d52 0x762a6d1e07db2e02c96a58217177a63f4c87ea634e3c7077212452b49b84f801
; Twice 0x85d9c67368acb6e284df0f4aa6962d8ade5f973483bf878956fc4b1470402734 (-0x7450c2cbbd8e9722e54061e60a2627138687361fb05cac8f76fdbe17e713039f) 0x45fc01763a3da63dbf362afdbdacd6f2b48885799288662709ea0fa029f1470a (-0x13c382fff973456b2eabd916abe21854b4509aebba94cd4614285774309d0f54) 0xb4df79793f5c82c4c341b8fd153a07ed11fd2f18083e6a1db130777515a36ef6 0xf7d30866fc0b9997154cfc446e22ef878996e1477e019d13f244cbb00efa675b
; Twice 0x72bfc36b5589540da6a1296d47bae425d77740fa39344ca5ad6a975bf4911112 (-0xa135d6f9242c6fc6e416b4bc01d15a297323c42a8eefd602a8261beb5df1a1a3) 0x336f59b0faf3fcc82fb85b374c694b36f3773c972a18a4ea93bfa269bfde39f0 0xc23d314a021dce643d12317d5de82c79fdd74f13d56c24618f10941c35cdd45 0x99ca0ef83dfaa1f975051a949e55f078193be2db6c3eb6a29330ed0a3c1ec148 0xb3f73cf59cc0f7862a135b13317f0d01f46578b538b20c408d541a1106cd3a26
; More 0xce5722092e302a03cd78f311d9ae2cd35a0fb880a4b1a66e61db437c722e8526 0x25a351e28bef9895c0d96b80db1f1ea8ace713f482f9a9293372a11663db9fc5 0xa650586f9369b162ad3ef75ac38723c1fb76b081e6cbeffc612da6bf62b8b204 0x78ece4b446aac44f454ca58830befd2ffd2efa88b4fc5679c0ed9c72444c5e88 0x3c2d077f7bc32f3813dcb0375d7e60ec69b2b056712b7229e0fd84944e9afca 0xea858d213ac3ea88df0e0f404c50e1e1c315e3d7b62cd516c51f57cfc21a3316
; Twice 0xadb246e517dd71d882056b61b46cb54f99bb720b40b10a5a065a4d668dae8eba 0x13e14b4f2e35e74d44535d01681152260dc86f7a1b91b8c292a2595138696be31 0x75da6ff8c25301da0bf25302e99301663cd5bb4698e15647144a7e9d6f359bfb (-0x419975925f437106abe6e2f7d01a832e19c253423e3d2ba36692e89f8401ff5d) 0x64719e8788ebb735604a22be240c89cf909db2a3bbf9728722522e821dcd1b8b 0x92be7c52c60818d6c8783440c62412db1008c2fd76cc3415cc4ee92274b47553
; Twice 0x454e2a8da76747f0fb595f56b444f3ed72247d56fe12fddf31d8560457b521c2 (-0x26c696f4896a567cfc5e068e7a82fee54b525b16f393b2ce10193a97e0615f64) 0x12c33ace6465b3d5c8d20c57ce3b413f85d54c2c68010a963f8a7e8b07921cd1 (-0x991b2db8275234cbea7fe7ae860e471a062508887f96af61976e8bd187c7745) 0x87ca507589b7e13c19652422afddba17a588a98d676ead19c4aa24b168bf7cbf 0x913212efd575d3c4c032eb07b8e2b717cc961c639acffcb90a9c2c6902d5b600
; Less 0xf348965a835022cce8a69201331ba2c38109dff9023293205a4ce79762208d5b 0x1b459124719adb66e869cfe6c1d945276689aea55594132db7dcd9e5b1284662 0xe732e205a7b5130bd5ecfd50d90a24e460f79b5c195ef2448ee8304799712c13 0x2388b8eb8100bdd78ea198fff42d29e875ae9ff6a9f41ed521130fcf606852a 0x85740d1dad620499393a3c15c78919d9c4ae8ea7d66e9d9d66c2be07a8e64b17 0x23d07ca3e504e312aa02ad8f7d282ff7292e2252fd4c4f88dfb603d64abefde2
; Twice 0x6f9129c87753fb34788633842e32647794865d3449ce66b6a738103c28ac312e (-0xb17df4c2ad52b77aac22ca84c5f9dbc41dc37372dd9476771748d89a27744d08) 0x309f348c640308b9d6a73c8f5f33eb6200abc14a4509acc9f650ed2e752829b1 (-0x9f61a2dd9985271c59e310f5aab9fb0d715f3584f771ffe17994ffc89ecc8fa) 0x9c4f79e4629e972d41b9add4c96795719de2c18d9ea50daf4e3e81dfa29e37c7 0x311527ae506ddb1a4b358756ea161c27a6b118d406b8bb34cf7026c391ba0184
; Twice 0xe6742e50bc134cdb4e85132f6f0455165a5e7399279525adbf1e38452a81adcd (-0xc5f44f756f6ba0c31d802e1653c4c27daf944e1cccf10a4af225ce115b997f58) 0xcf74f7f3e2f33497d12fb7560db9ff876bb84d80c3638e29921df6ec70346ad4 (-0x3007ba985c094c75d273356f6254eaac0c734d924393be91a11e31b1d18a857c) 0xd1aa34b1a0d36ebdbc93f530e84c08be04b371d1ae3f68e244ad22670d90b16f 0x7a02da70cb5b3f5d8bc453561af2f71eed9939e16688e630e2ef61673eb18578
; Twice 0xe477d4cefb706aabbfd2e26a3ebcfbdd8be117e27a2538325a56a109792d913a (-0x1295ec303524a751583137415f8a8ac00cd05aa60e3936ce230706f73c4426000) 0xcbe5ab29051b2379231f365427d170acb213cd1935ac831b6e2639f10ef7217e 0x3e9a2ae761b4359abf58159dca5c472e9df0db9fc5f1b66fd72cee402b945f9a 0x8b84c79047e24a3b1244c36298d8e5a6e69f2739a2262b7e4eff3a9c289c7fc4 0x4e395e5fbfe373f0a8358f403f65f1b0a6f15c77756858313013f0e8aa66f5e0
; Twice 0x1da33ece17435d0feeb48878ac7406af72dce33b1c992ea8db134c703f1d6c57 (-0xd1ff9dee79987a3ed7cee83b68b06dec439585dfc6aeb51f5e1e0ed70243f413) 0x36e6453be8dc05fed18e693a0ff18a7d65b3748e945f119c59050b2b074ac2a (-0x455d76de413ce27af0edb99d93c4c72fa8a53b1d864eec6354568e6eb434398) 0xb0f734e34ff9384e62b67e65b7bd5e39702307e211fd9cb8d81dce4eeacb3233 0xf44aedd0c61b0ed3cc90f4a2bae586a46a027897022e66ac5d4588c1319d4ecf
; More 0x7c8a9c8eb7ca8ee8e0884d48976f33017a98c170f321c0deba43cee240b06fe 0x21fe091301a2689c5f9268e3d53ec183156862f0f8a6d14e5e1c318dd769114 0x3c9692b7a83f331a5f1452ca597eb49a9d144ebfdcbc4fafcabc1ecb0dab39 0x1ba9fb7217e8a14f63938b3a8343756950d193b7a8ed221b00d5a0261bb5e07 0x7819e7ba5d3da47d95183fe891eb4a4abb8e8dc4679d1d256156df4311ae9a74 0x723ba5c0abfed41c61d05d9f5ddba1369dc47bed0b5e7aeedd4f773ca74018ba
; Twice 0x915dafe4610d63ae0e999af2eb0f47d556e998fe66b17ceb14a2f6d5cd53904b (-0x274db5857bb5d5b02cedf2d94363009135b90d90055cab76fe91096ad75c6f4f) 0x528b438a4d44fa9ce6a700718d2a350895afbb95b622935b737e06bce38e1465 0x1c5bd4bf7e69ed876ef1fce9773d63a389b53dd0c8c39a3a59b622a58eac3323 0x4628d10a330da934ab35cd8655d3e5926bf49ec3da7e703cf2c97963c0275576 0xab251cb3687dad900c991ebbb37337b663c6a5488ff7794d97665e22a53630d3
; Twice 0x4fea21832e00dd08676e41c40d0853638ccb724e73b51020f590fd0f52711a8d 0x312ae9e3a5206174bd4e00f9398592f51f4510466c924ad1d7abeeef2d9012bb 0x18f256d0578a0de3d7ed89eec6a56f39c0895d141e6b538729e1c8cf5f41923a 0x15d1519b90087843d4457a348b3e8f98e3841d1873146e4f7744725dd62172e5 0x44b0d6ec177841425a8e685111c6d2e0ba85a861993c3b57374b88a62dd8f7 0xea6c95c6bef96a76a5f402e982b97cdd2381d02332ec5ac57c29c5fd7808ba05
; Twice 0xdd3c688035409753fdc3c5f157dae7be77a33a189b3c9abe7af89c6f8c915662 0x1952de598b2df9f196f17405f47af2c24c6088678c67ef7c6542569af02d3731c 0xbf315aaf41e441b63cd53fb014e24c336e259f82b489af8a3d027dbf2ae673c1 (-0x2f281e2ce66e8bd437b7afb67b353adca5f6e4e2dd07fcd309c9361b811a5f58) 0x36d5c469e07f8e2a30db208c123dc1ec1dcceec968a45c64a8f388a806b4bf57 0xce63439443c170632a3000df8db3ed8fb81059c1776912ef30053d71c57475e3
; Twice 0x6ce5ffe9d7dcc139c9c7f212ee80b57e45faea67cb8295c10a6c06ffefe840b1 0x8c59f7280d60673e2216870d2765040b85f80cd87ac0c64dfdacf0d654a44aca 0x2e52de9154a5043008c33faf238abc0fbbd460bee7822ea02a486881789edec4 (-0x1d041771812dcc73a4e08dfe1e9c62926a2f68cc2c8aaadacc1153962a77e66a) 0x7b0bd4c0ab3a5d1aad3975d74efe417ae8565e9e7e5e9adbf645ff4f3a5e5a77 0x8380098148aa1cb97212143a6e5987c3461ff5ca6e7914642e652a0b7c076293 ].
Definition text_7 : list trail_step :=
[ Less 0xa7ada81c02d0e77fbfef3798d1ec97daba1ae44f9c85617629f35813c9150850 0xa7300340f08070bfb2ec93453d8f56ce263b4141bdb33cd5271754edad33638 0x6dd407219dc12a458c92e4f16a7c4d3f5e9aee704f70e0457d981b3667e01e58 0x42c7b4873ce2070668b1be1b680722d66bfed7346bd125c2772ebc8c769b5527 0x151742aa4a49a28b96d5ed8adfb0271fd6ff317ac03d71e5e7592749524e1a4b 0x228afaefe02dfcf359b28ca0b4db562c6ac464d6cb29eff67a45f295d1456054
; Twice 0x89a92b8b0829f8380aea85cec6cdb7e6552b417d462b47a67079ed18a185ce3 (-0x2e412a9b313d633179bcf35ba9072958591b80b3456bbebe766f9c960cf3f10) 0x4a0680659dbc33bb009c271cf59a2c0f3c6ab7397528effa74d088904580c9 (-0x363e9555cdf207df93c624e443b135d3d510fc02b07cba96cb7efe20e16834) 0x1b6544184ffe5e567bf6c7b1a1110de13c9bb0325fba7f8cc31aa71233ed3d7c 0x95995b7eb67b969c71651bf46500cac5f5be53c2fccbde3d2bfe2552167f6705
; Twice 0xd5a9ac111f06b9992df7c709671a7b8f553aca7f8ed4e5a816b5132d7d23ce7a 0xf0ebf292e4f2dc6c5de42589e8f01e0442c69e7ab13b57e81e0939b9627cbf69 0xb253c8c9d236f3593ead4a273dae8516a122664da5e03a0ad0ac321cd8ac377c (-0x2838114c14391e6350b5136b20e3ce0c95f2f36c72b238e2d24ac41bc847702c) 0x4b957f118974ede8fb13990453520fa48c0d5ccc782563d8c7639381b0b64ea8 0xc7673e2dcc0ad254cbe6d122e081b98126854f9b4ab5c769bdce2d6b089191d7
; Less 0x4b0ca7ccd2b75de6cfb8d3c3a103012cbf589b62cefdba0d33f16ae57f6727d (-0x93cbd0b2a5a14da41d094112d2638a474cf128720dc888b410bedd25c884fe) 0x16006af242a87bf3f633faae704ece3f3f1b2283ce387bd48fc4d323069191 0x1043929fc1b909b5ad48c5b303439e86a5af3f1a570ef7d9f6c49e89600fa89 0x141b322d1e0ad20774fc3817c8a5f25b491eebe1c7e695228cfb8508cb27115c 0xcb4e9dcfbd4ef0ff89a3af4d7451de64a881f7221840d525cb637ae128b42ece
; Twice 0x2451724154539d9128bd1985a2a0a4a2c74f111dfb97bf0ea89ee8b4f5e90e26 0x34f2b16c43ed33b4b6b88c6b8dbf3bda0426320ea23aa1bde10fb52b50079e05 0x527020be534230ccff05e8e91a42fd0be5a190059a32dbce822e0fd1a9697ac (-0xbcddede606056b5f3da412b6cd3e3b571a2b043cf804f72b3e26a0c883decf9) 0x674fcf3b282c31561a48df9faa3e45f0eb0973a83cee2f804aac859b023ca298 0xd7aecee42379b70c35b48260c6160286d5b08d9d688600d6eccfc18b584d0d51
; Twice 0xeac69dbf2fd6b7f12a70ae9676e2c26ac1e58eb0631d2941b07e049ccd40e8be 0x10e8649873fbafbb59d08c157c6d19777db1dce4a6616f100b195536fde8b9a81 0xd74fb27abfb64a591bff10e5a19b4d71220fe8459d0f424ed36f99b77d1cd243 0x3f84dd91f3faad15f95c1526f7381f9c0dd3b36b1f8a6ad9f11e64a7f2eceb30 0x220ceec6cb3771528a5dbbdc4218cd0eb3abc668fc6a82296c112b46f73c7a17 0x91932ad5ffebc928f360ec92cdb09264e69f2a336ff5ab753b826a8a56b2d59d
; Twice 0x97604c0d5a6d714f756da215815bcd2cd6759ab6ac268f6d01a483eecd1e22b6 0x9e92d12b96383abb846478f01d42be0df0dc06f2dca687474c6febb33b345af4 0x5982bdf13acb9a14e3be15d32b6f5b4851596f14263cefe9e2f12445dff2c65a (-0x3feb6937d5da627cceaefe5bbb52f08cf1d0024521c94cfb3640610cac5f0532) 0x8e25f0023c81a908d88331831e6d51bd350ca78a8d701e23cfe6e34394d6ab90 0x2d4539e4a0a74b38dd133db1f6c6fdca26d83c9e3b980eac0defeb4c58ee72b
; More 0xaf550125961051fd6778cd5bba373fee024bc621f7882285b5081a3eb9b72fd3 0x18024a64c63fe84a391a9bf2047b4b8d062fefcd3ed8e53ea4a5ee70d44ca928 0x781553cb9e369b6ae531f5c93833767fbae75df439b9bee82419c64b78ddddb2 (-0x1bd1f6887a8f115c5da8d8b6db78610954b2531735d909c30be5b3afc3ec299e) 0xb6c49f0ee9456ccd90ad9f657b3e228dd53d486872d39c8c6bedf62a6a079775 0xd62e44685467c9d70121a107d7460e1af0ea8a24c7b32ce517e5344ea6307678
; Twice 0xd9d5c6d761701b7715af0c3abeb24bdd43e012b79838808a5f1f8f19d9fcb44e (-0x1af455d8dfb34bce8ee52b5afeb4a0540e3bcfdb5fc3c8e22e547d32865d3eb8) 0xb95c1d9e596630a970d7688a8502313fdb5739fff2dd60c2e341ab42517fb3ba 0x65d1f025ee0d80b6a0e8fcafec4a4cdbd8399ccb1bfcff4183d874be336de66b 0x3f1be73a12e3ad4089d7a032d250ff6efb25bb997020c8ec38b27d4931fe4c94 0xc7250f767eb2e30b2a94ab1ec633dedda90830b344c37eb2f93e790c97347481
; Twice 0xe7a0b70818c8561b6d05ef640702652dac74bdb77a84353dd0c3c34207393dbe 0x139b2b0747641356f87d268e940369ccbadcc35bc11cb72da10d023ffbcf43731 0xd1936f36bb4888b704c4db73240d46f1da8973b9fdd04572a1c55b5bd49d26b8 (-0x450a65b204d6d4579c9fc61b2c76434d85c537661dd19e7950ec853f8e58ac0) 0x43e0c930176ab1b01fd43eaafefe32c6ae2ec0c75d9879b7ed9bd8ee6220a694 0x10e3505f10ac44e1eeff41341f16fc2a827a5ff73e628317842881717cf534bf
; Less 0x35548f4a6a0750db38e484360017d581dad749bb9850a2f4b3a4a20670411d46 (-0x82b58d25fe5decb57948e3ae466b773fcaca8068bb74e9e4ee371044ec596c0) 0xb1c1f43340cf3a0a2d68089ceb8578ce54d92c5cd8bb21a35ef50eee9765643 0xb20232ddcf262b32f135eeaf6072c425a7ccb23aa7bd8dd6e295c8197729ff8 0xe78f39e2380c41b781bfcba3ffac8a89253d0c112bb72ca96b5402fcfa1dc3d 0x76374b7433a634966ed9be221ba35c1b33b3f64b5742a7b01496ac85f62b9a03
; Twice 0xa108ac69446ebc77001137d7feb731575a1a2b9faa7f7298d871a40db0644c40 0x924534393088476110858941fd751c86d898bbb4427613ca9952056ecd01ea18 0x654be9280811185f1aac5e4328b3debd365d496f6f78a8f65783d804360034b2 (-0x313c64ba75410013aba95b11b5337d1ffa1a15826551310fe05490cf63f3b6b) 0x135d4c724e6473b75bf459888195afd10ed2dc281365d354600526483f728c38 0x4aa566bfb969fd0fc95f097bc13b1e0b7ff45af26d8aa0215e8f60dedd1ea7d2
; Twice 0x9288cf2cc14a8f6f750bccdd9d8f982cfdae61a3e32874e52233329e05a4df8e 0x510f7fb4f573d5ae644872b9e6eb7d3e531c71f315c6c7a09ed7cdc84c95dbc5 0x53e0556c279028a8f326b509db6bba84c7332a532b09c542246d17708408faa4 (-0x58207cb3041a6a8f91184a109acfe3050ce7f5c92c820ad39ab36b0fdd821517) 0xad5324fcb3d7b1830747125af1c46f9b815851b166a6e9778dee1112c24c94f8 0x650e8dcf9892f894da02cab3a9618400e2fad5bfb0cb21d8b633936767cf2897
; Twice 0x3cf41c142a533e0d91212662958b0c2ff137f61db83c70b4cfcb6055c5b54927 (-0x12fece49a16c9a691b54b08bfc74f9257da5b47a04c380814a5cf93b193fb6b45) 0xe8355ef0bdf748c7cd4651880044e8adb452c22172cbd6a4fdfb4f964c5970a 0x1ad60abfb46d4b87d7f19e33c75832ec0650f013974de48fca762e40c7468b9d 0x3c9d85eeccee00daac7c6a407fc9a90bcb98cba6ed1b142723cde9b06c39b10b 0x82e9c7dcc6f8401ef379ca24e17dd72e0b3babb994bb651df8d497d166e7b121
; Twice 0xef7c848cd55c8434335a5588e6f249600f4f322e36570648a7ea0bc65692f899 0xc9e136194c30a6bff650abed7e051a0192e2246ccfc621d286b57e82ae3cf9f6 0xe009bc10837cb60aa540e8ae17de291fb2d77db11d020c87a3f58f05d8dc00a0 (-0x8b5ce464509299b3109949e676f1bd41cf3d84faea3abd84fc15f4817a6630d9) 0xd1967d00c3139eb58cac02ab553fb43bacd0f67aa931906a1c0a81b84c5569fb 0x900bd96950b52b18c59f471c5f45167ff653fcc516264c06800c7c4d3a181696
; Less 0xb5406a3af9daa48674ccd9fad581598b4ed0c807223164e09dc7ac95d8cf356e 0x48915923ec51a620589fe71afd67c94ab6fbee109e4cccec3c8add0015749225 0x8054266d2f3524e44e7205918dd901a304d6adcdde6a512ea12eb489a7c7a969 0x442ef93d3d03c8c4581ed7ef3c0b70ab437183ea1249fbdb7a9ad2c76b8751f5 0x71491035c25e0e25d3e441a86ea6b23b0f4102fb9103ea5e16254d7895e4381c 0x86c62fa8cfa970f0559b56ab7a475fd0bebf3a645df5e2ffbd0cdd0680b6d431
; Twice 0x224f6fb0e5c25978961fab38e218d9403f6d8f7d081b58eecf066c66e987f6c (-0x9422baf46de5074fbdff37e5e4965a0bac084071dff6e627c5917b665476de2b) 0x499325121898183a0443fd4a088e726f6d3abd7588cf8380a75d47277a2fa 0x1169615127f78a89b0a2a7b113daa500184936c5a4ca499ea272a797e0ccf3 0x692a716923b4daf5463d03c112ef253a71df4da7aec00edadf766e4ba65b8852 0x95ce2ebb6c1c961d67ad700bc8e0adfeb469c6f713a1a0f044d06e581ff957fa
; Twice 0x9191c21276a2a97db2fb857ea26c8ae9d843497d3cc1b4ca1cc3557b56fdf18b 0x28c29f6e8c1e5f7e7cd820c263486410457cef85d201c868c4ca809b941b714d 0x52c670d6a935163e2a51081b648f3398e6f543ef29b471aaa51d36d6b7a05b23 0x7d33f8dab5550fef9f1ea02b9dc8160645c9cdee2be7d1e4d12776b5b82617c 0x5b6781d0ed9b04f9a294019faa4ce686de8b5212ddb032369fee5e021f8e4bf8 0x564f290698a012d9b4bd100e1d6ba5e25f153e2e7de0d25249f253f83bb8860
; More 0xf3fb433059f99738116f9a38d643f4008a6b8365abaa12809e357ef02869eb44 (-0xef3c20cf5fbef603a80f92f765d4f62b73fb093a630921bc1b6325b9b8b3d9d) 0xe886f82b85c994e818ae39005a3619387e11cbc3af3764c3140d1728851e64f5 0x2f9025a815f9d1c2e901b1be61cbd2c98ac91306c3cad7bfd5f993e648d26ae 0x584902ba78585977001781f7fc41552272a9c99181319642ea36d4b8a2f54077 0x5ac066f54edd2763f63b138345bc5180839a338cb141ee1e85fcac6656f11792
; Twice 0x95c1950b71451203601ef32007c87db97c54c1b1b009427fccb463a206b3e370 0xed66388abdf82502762bd293d7dad91774d18c20c2c213d3b11400bbf179a30 0x579ae9e1bb7c6d5bcfe1ffdfef5e7bdcbe9df4ec839b25523cdf5455e7178354 (-0x30dc9fc639112b2b047af0149886fa1fae24e9b3e24e567135a730a57524481f) 0xabcfd1c7c3cedbf4a6f056e7754fe6b3c20874d36428391a5bb311b5b9dcd366 0x2452df62c5c61ecf3cf03feacf6365a73f74e37a8d4291c210032f4f80336abf
; Twice 0x43929cf063d71ba8105545e718f6ef8e33423611c9e4c6d13b51ff5eddee6449 (-0x146c0e4e4f43fa0a7f058ee853f18af4c6a401826da84f9a98f78fce734383305) 0x11d6121d4880675c3ee25c43aa0aacc4705619341746013be3cb2c8cef46e5fa 0xcb0d2a1b06ef6f62da686aeaadf5b735ef94c80f6c4dda2cda2b54f27a109f2 0x7bbb9daf0b9d45b3eb38a70ddbdb5cbd6ebeaf8f0870ae96efd793e224925bff 0xf42a7c83e10633a5eab7a450a5199a407e5ffaddfe6863bc61d192c73d0fe792
; More 0xd865678d368a907bde2573459c7dc68b316290d08ed1608f9708cb6ba2e3b590 0xe10cb4147d85f1b34b5e697882452f55b20e078f12a4ee6308b257255580d8d 0xb6eb46e9e24513d8d47bde2a900a6611e08c60d46ed54392f8feab32aa8bb7ea 0xf51dd9f20d287948c827e54fcc6793fc1071f9c385163451093538934ee5d97 0x699bfcb8b724467f6b56b0fea6a3ef688cbb77c582b0e83d017700c06b858a55 0x401c233322877c33f216a8d9477ac15b3be4392e306e17443109fea99d0f97a5
; Twice 0xb8b0cf7774a906eb761ba682a08c44869e77b71b44f4e1c3d14da1b76c9a5ff9 (-0x2632fbdf7eee4befe221bb6db052566181636e409fdd113cedd88abc86303452) 0x853ea45a29546d1ca51ec3eb4147a8c6054eb53ceac4406fb66317d930f50df4 0x3c9ca9c244bf433d14fbd69529cfe17025918305c4c1cae5a4617e248cbc31ee 0x159851625c620d53066b056f3c495852a328a1761dbff6e4a0be1c680d78b97b 0x28e75fc5ce7a3296651a627e58b94b24e3ed080cc274acc6ded4c5fcc6c8a453
; Twice 0x1ba79e6811eaf7b0f3e2594dcbe9388d837e4434196cf5d694c1f1b1737e3057 0x35f56c0e770c0aa89cead4c5e6d622045117f233a7044fba79278da096632de 0x2fcc92a04905a6517cc3ac2cd6c8e13867f4db979cdcefe1f73068a602a56ff (-0x17274e357c5fb751728222e9897560de0cd077b9c17cf67bf6b6b838faa2171) 0x22fda20a9bd8870c3ab77077dc2d434d4e303530247edb46d8c211aa0dfda19a 0xd988ce28227e8695d86b62bec6fb76e697d241c0eb3d7e61d7ea72d9649a87b3
; More 0x8b8f2818a3e34d6191c9244c126051a6cd01393227d12376a1078be51720e5e2 (-0x274e89ef0fcb347e3ea1f37245ebd74cd724bbc60bf2f5faed1de1026e303fca) 0x4c14c598dfdc692726d12de63306fed8fe59986af5049c3aed1f42b7df62b065 (-0x34870e79d493cbc1c04e94f3a54416dd713d7287183991c47ef5f85ce529f2d9) 0x83583328551e1bf2b550110c5b79c723ea5b891244df7ebe12ad97a4dbba67b9 0x6d8c6b0defd03067d8065d7c463016543eab26529ccda4321d3b3735ab7ae316 ].
Definition text_8 : list trail_step :=
[ Twice 0xa2706cdd9c2a7eecae394b5224cb6aeb8d94b66db4d95a54f3dc43a8595adf63 (-0x3f2438b442341468921346b62402029c85101be874c1a124457100c37594cbf4) 0x67127b2850eca495612dc8466e18f8cacdca4b9ee7168ed5929d8ee837c7567a (-0xf0c357ef60040ea8da202fae6b1cd6d1979e27d039cff5d64a92efa4b9fa2ea) 0x9b0f2efa837704b4f357caa5d30b6122a840d2c4c8bf6c1248cdb3232adc2751 0xba39b6e6da3a555ffc0ff0076662cdde70d4bc890ba0978951e8dfcfd582fa38
; Twice 0x996a409fcc5c300cf686472be87db4eb60ef76af92e5dc9dbd69aa7f1085a4bf (-0x3a8e98ed2996f7e9cb54f0c610ff81d20476b539bf526c956cdc1d7ee073c8b0) 0x5bf02d58f2dbe50d7601991e8906ea416d312d5de7e29ed99e69a4054159e609 (-0x110b4f0ae0620b8b96e45dc647cf0af51fa86fbf1e9ba73ac795fc3b102dbc4d) 0xb78021c072741d3155fbb43efdbfc8f0f585a78cd35c04e11bf4599d641cdde8 0xe9745dc77312b68737e6f174a3e8b255b06c64142c966090b9a6fd25a19b52d2
; More 0xb9ed2fa3d6515027ff22cfa04db040019f9cc64475c399f715b322a392f0a958 0x377e2c75b3d39e611d2c1beda86b7b40ed81297eebc5795e144b66e6dd897aad 0x8708aa9c91029490bd2f6ef2aacd5ec1513bcf9f34222aa84e113f1c20f05f96 0x5aa29dcbaf0e72fc637c7744a9ac11a095e166f2b8e1de5f701a1e74c4fdb050 0x3ab4b99b7ec3bc2112c2df0b0c60f149173d75792147bdd7de5615af39400d58 0xe9997e9841aabf83d031e7d144551c23383fcde44f314c8f2668bf1f4bf91efe
; Twice 0xbd078f9d42f6ba2353890ac19514cc28b84a1bf65fda114f3bf3ff2feee108fa 0x13097465b6dc2981465e99fa22f838ecf1a201e971ca729a270d7682adf19c2a5 0x8b942a47eb9f34088f69e18d1aeb8f4980b6b80c654fe7b1a1ad2330081d8a62 (-0x1bef86bec206e1061fac4d66082f06066faf294b2497b9de77ca213c56236167) 0x6089ef5e53873117094fad7282a6bc9b127c589ad618ea861107821f356203d6 0x7e5150a8ad38dda59cb91896bde7e2414716129cb62c597bc7f3ca424c46d88f
; Twice 0x9ad6d8d9ce0d7a83a082cdc85dbaadef2a6ed716e94da172fd7054c7a9e9a990 0x2b96a173ab0c09bcea3d52965c0ca5e989d76702f4a7392cb352065447c5b5c9 0x5da73135ad642c2a385c391e020edf4df470b6b042171f54623d1407318704c9 (-0x38182fe878c8204ddd4f9ebbf223c30dcdd67d17d7d0ab8ca2a6b690b34fad1b) 0xbd48075fcd91f4f1eb9a1a55249cf56db5a77111e287975e2f8084ceff326e1d 0x253601e4e7b34e65857ccdcda4206b32c364813928672ac2262c2064b65d366
; Twice 0xa448103ecc782ca0bc212cef7980f3812a473f73f0d99351cecb17e921e39594 (-0x1a0de2b1ffe1155ffa44188c233c89d05f167457829cf5d5dfd6ae5e1fea25c18) 0x696c691a03c14ed758e2aee2bf7f880fbba8aac8e470159d34c3b93d9b7a3dd2 0x6cf42aa0ea08613c2dc42d107060404da1a5cdd4cd0283ceb2dd33f9cf84932e 0x137fa44304bfef783ed0ea24eeb5bd581cdb4c2124974297d81e05ea60f2ff28 0xbb14bdb367e75a48a634165ce6ae3c14a64586fadd0a0dc243605dc3e49e7e6c
; Twice 0xf45cc6b050f046a27b394816fb12e8ff22ae409b92b5d8c09e43d1e9e04ca951 0x160b28cda7c2d547f4fb16523fcfff0acc6297f5ef56aa32bba37f3b0327b8a65 0xe940fc606c7a665b1422b04262379298a53b7ec147fdc71b708107725f43d008 (-0xab8dc78a34183685e0ae20ad8f53cf4c1085ceb6e52f8406f5e9863b69c51fda) 0xc738f9b61cb910c649d790ca7a4c59b57e368e7add79aa739933b2525571dd59 0xc4276bece0e8bc85741c0ff5f9d684eff505b58dfd88259dbb8d1b06be3dbb39
; More 0xd5994b0595c4e0b562c24beeec69317dea96ed55f28b5192c962724057c7c7c 0x4cdec0e63a4b9f84378eabf206c6a3f40ec56cf1820bd1f91e7fcfe1eeafed0 0xb23872a2c01b5bc50a041bac56eeab1c13af1d0432b955d10acf35597bd492 0x7a50f57db9517dca2f00f2617e6025f462a90f8562ffb82234dbcd25cd221eb 0x34a01ff5a8d132f2f7d85b2c3a2583805cfc2a8347fabae33d94c7e2d81990b3 0xd74557c3317e8558f46b77603dd5e7d239bed087f893b4a50317b21f78e1ef1a
; Twice 0xed6cc5615171e2e4f3685b4fab0b1387caaa9b2754747675c342fd44b25b440f 0x16ed8ff8bfed7152da2bf356e5a6519f42b21775c173dd31ed48ca37e9843c26c 0xdc3293ae2f4b1638c860b00731de335ebce0cb5188ce2ea27c311ce67db349a2 (-0x5057fc31bb592b500d2d179f92f3b4735deb9a6f6ad3a0573261fbfa60fd32b7) 0x8b4142fabfd0f3e0848d69b60c8505e8de4d8f2fe24e9e47940866471e42211d 0xd35d84a8e0211e26eb39c67dca03a77c921b091543d38d104a6d246639b63ff9
; Twice 0x62306e91e3bc43aaf0c42c3ad8112991d4a3722ac7340a8d57073e47b0e8bab5 (-0x411c3ae613a8657c9a519dce803c6d6a2ede702a3554f8531e302e091a46d242) 0x25a91dd17e7c5b132946b1b13e759ff57d93f656b7fee35766f50e46bd93f5f1 (-0x1347f6dd31e54f78b18c56e4e527d52c2fabccbda71f670d43885a49cbe98c66) 0xbd865d9c25d25d87d8c9a80c033efe302f212b8f732e1f8fd092526a514b37b0 0xafc0876215eb0c7660ee0eade2030a97bfb2dbb48183cb7b4df69cd1c5546fb2
; Twice 0x45595406fd9addfc8e39794d29835dcf778e569fc33f15e8f8f61e5cfc9e15b (-0x19efb7f3a245afcce4ce68ec2a3f795964b8601fa4927e8cdb47cb668d02b018f) 0x12c946775fefae6e4b97e4f24372f4e930c4ea588acbaeac98ffcd4e399352 0x2d4311f051233906825cd6af581141fe7c979e89ddb99413261cdf0f17f544b 0x1670f700c10be24e962f874ba297f4aae392d8e659510474ddba976b7cea3a4b 0x83d33755101b292b1ca44a02072aa97c5c26a00aac5fff9b6374bfc288a7bc80
; Less 0x3903bacb61fc00994beb1740049cbde453f96ee708df3b68fd60be7d2b269bf8 (-0x12da627908a20ef79163f8bd00df46a98ae52233cd3c7c4ec118db5deddd7fe3) 0xcb2a93c8765595f7e21cdf562403d4d386fab3c8074319808f9bf86b4143cb9 (-0x23dac463190fc287914d3bbab3d593a05c0609f2c78ce53a9cc8fe67aa949f7f) 0xb76e5e1189355bc85ba7701548a9a56d91e01d58e173b97fdb1c5d3d5b378018 0xb8f5e683c1923568502ed7f2cf68b0d26d353402b9a258a80d5d57a2dd36e669
; Twice 0x154e8d0ac8639958a5cd180817729be3e2b06c2f65f67d7d7a484166297a56b (-0x1886050a0231b9c074a21fdf946eaaa88e6dd83012b0d287bc6431ee9d58def09) 0x1c5fb3e06ed5049fdef6be349c3c4888c921084b0a0ebd78375b790368021 (-0x3c1056d386a0717bb0d67dc1a8372b4efccef1821d395968adfb7e4d637e69) 0xe488f621b58298b8e6dd6b74d794451b207dd066e777436d4701f61b54e49aaa 0x372da5f5464881c7ef2381cddd927f391f353c0838d53da0f6d89c5857cd6628
; Twice 0x61af5f40fc97f10a87a64969c6cda0b872c746b005e895f2ebb0d2b105f364ba (-0x239f08ddd03c7f94e79291c7ea48b434c46a623ec88f8f6a6dfd751b74974c777) 0x25465e52c2fc26b02f011404295bff3a52e129a59d9ee0263affa99e7aecc605 0x4edf2d69e4e3f002b60f35ca1e98da0ee93dccd7b6cb34f2823f48a5aafced0d 0x15d69ade4d2a92ee27c417b1b11465223589ca3898f73eb834b197f375e167d5 0xd129e9d8cd5541255220a8a647e0a66d6cdaf5665d9f28e0b01f47af048ca9a7
; More 0x452327a7ba2d2f50ea95385cf364bec8038d08fe7e4425c352c61f45c4329b73 (-0x170648f7f5aa78ac69d36d5fac606a95966a2fb9b1c6c0cb63ea20a15930089b) 0x12abf8345b09c4af09b67570f93986a74cf65ecaeb8694ad02fa264de78fcf82 (-0x3895f0f0eb5ed4553e1935f3e4f8f7dcbe3d2c32f43858563aa19e8f5ca2f00d) 0xe75ccb9caf2b592bdfdcd2c7668f170ae97e5007893213eb96d6831bc8661ac0 0xb66fce11c2bfab9ec7d77e83979c35acc75cf897380f5537e009a77056f9bdbb
; Twice 0x8de4bab88995befbc16d1ffb07a8de0edf3221cc7a8059bf31b8927d9d83b227 (-0x1a90ca100c8af76764cc58dfbebf07ed2d35bd28eeb56f56ca62fa30b5bef2afd) 0x4ea5c20cb71a761d96b170a6511403e1ce2ee6132b1353367401d4ee760c2c98 0x46bf6651e48e9c9fdcaa7142f48552b42dfcf4173177c3541c36b98df9c3c21e 0x67b8beb2a19ee7a15bdcfa9da7fe1751d4e13b3106c47c61b72011108b243909 0x743a1d96d70792c12dc60cfb81bfaba004cf51a73a46827b2b0396ea8269a544
; Twice 0x21e3cf078b1cf25d27c9a5042f0c98604d5f72f7b90e3bf3faad12fea8d84996 (-0x5f4cb5a573adfd91c99623a7dce16d2f2b1a1b3a33797275de06ccc19f176cc0) 0x47c8618c527e51c4d4245109a94c8521bd93de38e8e29e43cb6f9c43838e232 (-0x7e7c73cf9b902409f155507c9adafcae5904f3032fae5f821b94e764ba8a6fe) 0xa3701e7491c22370c0e26ecee80bc1734ac67e2aa5537903221a8c9c44375404 0x38ca92fcd7582ea376893769203823dc48c7dca42c124de25571c21cd24251ac
; Less 0x55a095d2b3d56e253b67a42c8e53e9fb344b3d00003aba7dceaf441939294aeb 0x12d8a990b813c05e7942bf6315aaa052b9e1d36cfaf81d472a94908fa0ca57a7 0x1ca40839a71f80e9ed2cc377b9d3ea1f136fa5e2d4cb249b9aaf88ec55897aaa 0x32a044d2428bcb48fd7fa5d399960dfe074fc9d27b31c522ce8f3326bd28255b 0xc14c9a6c8de80a66003c5ab12800d130febc58b8bd121564bdea6f5f3ec17c9 0x2db66d2a61bcfec4898616a1485df64e16a8b1c31783ddd6bbac7e2427d22bd8
; Twice 0xae3a4864b65f3755dff8e8901e2236d9989a10585303510dcff79d4c5d0dcdcf 0x3c82ef229a6feed155ca3d4315f58549b0aeeac121db158fce572725f45e5c20 0x769347ae4098284024d3c8aa63eeb47aa7b5b6e47764115e540f77d8fbded55c (-0x16a15b7777b95f73317c30b250e536b52d68fc9b7b6da544d55baf7268f937f4) 0x2d5535bdde5d6aea3e2c96407f3296b35a06830f04be5819f4394b1c0681d32b 0x1ec049acfe81bd1faef74a88b99991cad8da09f8ceea70f92b9e88f9631a9df6
; Twice 0xd719252849aa0d6da2ab8ed8997b7b93e77c91f5f1635b789d9de94426f52792 0x1b97d277e354fa2efdf1eec1d8ef3124e1b7c17b599e995fa397aa3f03389b10 0xb4bb3ee2a7b9f048fbdcf0bed63bd8fead90372718b0f000e877275f8e1afc67 0xb0855bb5721d2f70d1488cb340834affbfc4789214d018ed937d092542c7cb1 0x2033d10cf70ad6a6e3bb09584ecd4f97a9e5414fe804c0f7974b0d3b9ca92555 0x4a9ea575cffef65e527d943c4a76f7e4b19d322024325648ae652ab972ee9cc7
; More 0xaca60bcb4c602b5a500a4d4f3fcccbf0febac8ddc03d232833cc6c12212b6343 (-0x3281c3e6861473b5bfb6bff42b075710cc244c4c60b35f85154d2abca05f6a2b) 0x746f8b8cef42ec888a88c834595cd2dbc98a6778dd0d2c8c40410ea12b766af1 (-0x84dff239f1f0818ee9928d8090bd6181a8fce0b169e8cfc52a0311b4d73d7d31) 0xe539ff65bcbd5e725eb30a8e83e1207790d803fe737a02dbe3437c7d7b33668f 0xeef67b58dfe1340cc4f5874a1f151de2e356b7ae7503ec008356ea8f91ad65da
; Twice 0xbe75f1f97e45ea191e359c5b0e73c66ae0c059319ba3cfe3599acaa766596395 (-0x10430600db6790c685f16b83e2435649c147873ac7fe1dbdd90ad1c61ea026024) 0x8db34985f7e82fd1330faca9c5dd240b86190079d3cdc4730f264f1b8f90975d 0x7ac58d80e4654e909c4de4b2442a3f7d386bac07fe3131cd4e21e2f4449ea2c8 0x40353f9852140dc2117171e90a1a76536c85c97a132734be7495c117b9805ef8 0xde389467f99f1ffc20995c8bd43a53642bfed6502d32733fc68c2a4b79930cd1
; Twice 0x5a4e998683ebbec86e13917b05c56ccb89751fd1b82ba64c6010671e50872e (-0x2fb338617cb7b43027d4e75afe98fadec70e0528b8321a26133a51db254bd85f) 0x1fdb5c149ea7923fd7277821f2b7d381c4970d9d342e3d5dc6ae5eb76350 (-0x6f7212b8052e7245ec1c7a30d376319ee79c402ed44f689ae245316fa648e) 0x53f40470ce70f2a00173baa7dc426c048ea7bfa63bab28557ffbc48677d831a4 0x809801803c4f70538efd33824baaa728358ef8e8faeb16e4a7b763c4edd1ffb9
; Twice 0xd051830f27d541e0b00b3a1ee770954960751b15c7fa029e92f056912ceb1fa3 0x7eb07bdfc84640a1c9f7bfca1c58ab35fdef4b9d66b4e94a8489dbda08201f97 0xa9848eed7ceed297944841705c47842937517701641d15a91b08416cf1a66569 (-0x438226c0bdb8851e5e03ee26bf2198f838d0176843610db1436320dbdfa0b6fc) 0xa6e9d8bf13f8b8cae194106f2889ee1d88568fba4492a3a53c2dbdd92320e3ea 0xbbe78c6830f20858e24d041af32c2a803ac8e70b17f8bcbca1de80f8a76b4cb9
; Less 0xb2edc6bcf69cffedcea68a2c17853e26e6e4dca241aaaaa8c63256e68abb9f00 0x29cf989b094c39dd32231f9fc3d36a169ea4674450735922bd904936b21b72ae 0x7d0f8538d82b50c6ecd9e126503617c469b25088dce6ff81e21226aa82b4552e 0x1a92aa14488fd09295c7b17f6d4e16c22da5ec93068bc2bc2ef0dfc79718b7ee 0x80e5069fa380b26815fd93fc6040d1a741f2d93689fdf84d7067b47933bbaeae 0x6e63277e97fd808309edde4c8985a2252bb8bc564a8d9f33ff8d5e070691af35 ].
Definition text_9 : list trail_step :=
[ Twice 0x4b575bdd5f3fd57baca7611ca5b67a8ab62b02db8ad768f9dcab0c2c2f830142 (-0x81b80acb8d089ff0a4f3ec9a55b11a338d78d364dc4fd3e2b3f18e49548bc68b) 0x162c4da35d699341d1e3a6ece61de8487166cb3fa39c7a42a5799dc1658dc1ea 0x8cea09d7168e69cb3a4f0919c2a63a3353a013e57c32c6e9e77011ab64f8793 0x62f8167b214583a9f54bc618784db21c349194ffe79f6b4d88ce30ff83a3f992 0xdcd993fd50ac3fdf1bb4f47ce78853055561fb14ebeb6eaef6dee954fee3a596
; Twice 0x53bc57149035223966ca04674d74d94878f9206aef006d12916fde93a71febca 0x1db166e1976c180a405aa7219cba163ed34b0ed73fe764540ac02c658e155111 0x1b63ab0774b8e8edcd1763d4eedc0afb6ae99df3dc5612225a35aec16ecf7ad4 (-0x2d2f828dfff56bd11880cce7e869df390b700c654719211f8658b622d0111cc5) 0xed1cb8e713c482dd0fd48ee3a106059fbf3f4ac5f13fe9bd4e7b185ae7a00314 0x9447e1dbc676779ad107a1ab54682d6394d227f569d91baf72583643fab36711
; Twice 0xae34e217c839d17ed525b9fdaaa18b9a3afb8b6dc6f3ba9c3e231012f1923c1d (-0x1c90b9a9b466d833ca54cfbe1f65ad7754aba2582f3e04c18c21e4918a33ce52d) 0x768bee456c11de4627adc9af2abe57f08f475545d49d63b9bb0bd742fcc5a6f2 0x8cdacbe72c651a254243128abd09df994ae628b765d91f9c144611c3ce8fdf3b 0x1e1f9bf2c1ca964b4f5e3bac54081ddc2b80b6ca69f23a4abe0c635866b73c13 0x62234aa4ab1dba736aaddb40bfef854c6be2ffbf36463628979ea92a6c713f47
; Twice 0x7370d032ef8088a9e02febcd7fe94dffa2958ed2c371a3966f93a51690497918 0x4ddfee35dac4b81866a02031e2d7d5a787e746feb500c8f785de19d0e63dc0e8 0x340e8cc4cd206758197bc0bbd66b86deef0b632be7b55053d7b149324c0328f8 (-0x39adf0668057b782a8ebbdf535d24c48208522ddfe269a80630808e94f11d2e7) 0x9e0865797a39434622fc5231cf24dbf8f074f7d5c4ced73e1134fff2c78c6312 0xfcf0ecb6252f868eec69b939cc8115344076f2454934b527df27700ce25bbeea
; Twice 0xb7b26c9563edc9d6b83be1015a1de7520072e6a529e37b0334d0428a0cd4b0a8 0x4655ef6f0262db352ed4783464ede45171c0c9cd8034b65606ef64d6179874a9 0x83d09399467be45488c506107bc093f137df54bf57949aae114b4ef860b18556 0x4d861b304dfa59ee044584d27b6807a91ffe2c746f790e18b04c07aabe6b29b4 0x31fedf8a86b001f2f8a0b65af9fb9e87a423d619dd7b3a94c0eb0577a1c02d72 0x3e661a0b10127b8706cb47886e2264dbb1d8dfc3bb0afc12a98eaa4af7709bca
; More 0x863e3ab6ba08cfe24c47106ba89b6cc983c110496a9263f09644b3f498a489e8 (-0x1df0f005dab9f5bf546389e00bf62ce1a61a2639a9d310f4b65d3a44b927498b) 0x466534980f1fd9366c1ceaf22bed5c14ba221ff48e1d0b404161f91a5ac013b4 (-0x4c933d2e21ea802f3c4ece3fcf6022b80cbbff2ed998069ae6e452d873110c40) 0xc40605aa863745016341d1bee92bd55650b9ead721d480391c9ada215bf145ec 0xf9c6e3ea68ae1fee96480df3f4e1e73463e67e8a36ec0fad74cc642374bedf66
; Twice 0x3919d0a8019877507d7238ac384d81a85847df777081cb0dc7798d323571b40e (-0x152deb8f386dcb16b116ee621fbe807de8420a1c829f504dc6724630f1ec0aa7b) 0xcbc8185485427483b2ef4897fbe57ace1ac1c701094ff200f34bc7be3ff71be 0x1be59d2f7f0952635fc7132c65c65fdc6d2e4ddcb55b872a4843dc7e19a10bb8 0x46f40c72fc8c7522383107f92c632cae827423421a90203bfb2510bf6b1c96aa 0x172d694fe6290113dac3f96068400f3e632fa0798ac8866df6dc441961e029ee
; Twice 0x1feee524c253a18fdc86ba7e62cb48f6c4e462d27c4cacacb7c49be00299dc33 (-0x3536dcf4fe46174887780affd2f0f1a6e8789bd3982b22a777d3e501e04aca2b) 0x3fbba6dc88017ffdd7eb66eb6f1929fd06d99be294acc0b3dd749266d0db0f1 (-0xbc4bbf50d3df8846b21aef80f5daaf1cfa3fde8dbc5dea99fc7fc6c785ba903) 0xa54c5a327763cb87fcd6846deeb96a15f76bb0fcaabbf3b03d9306d1553235c6 0x1e796c72ba4fbba6ec88682bf2a2e9efb16b85e96bff7581b9c216139efd6a7b
; Less 0xc2e11b5eb35732e2bf81b2e5ef037de3f038f9b4325ab0556e48b2c35ff8e542 0x2c4efda52e776558be91d5a6782cfe351166c57805cd771fe76bce1a0ca31a10 0x9459f36d3b8e78b05a71fc2acc59b9abf674b499a4f14b9b73b8d6191f531c65 0x20c6c5da7ecec8b71740c94fd3b3590e7110db04c7c06d9b2a2f099eba47133f 0x7a3df3ce459d602344704816c51be2dffe01cf0eae6949b5669c4cb1eab7490d 0xc7dd9918e4fb8e1f10a80db5cd45aa1b5e51827786e26d42dbcc1bd7ef42d76
; Twice 0xa2ef8a85c11ee1d9ad14452c393524f68e0259a40b59d6d8e0470db85a41ae47 (-0x9f36aa3f85ad881de83e081c617eb902015fbd6b8f1e8a66b9079b088ade5f7c) 0x67b40b75a0d2330df3e1ea0912ead50053cc38e968d4c4de5c8c3d7808a3f119 0x1d52a61bfc36deca197231537f2624e39722bddb412e9291d676545037c894e5 0x4c2bb782ed683d2663ecd8061ac31ed684d98309ac863c9b04a59f8815e7f6b0 0xcdfb0265018d54e296d1da06232669d0d1e1affd4bc7d50fde42df4243ec753a
; Twice 0x7b8b5dfe3aa30e6bbd40e6c8e2d3147397367b7f60633aecff849e6d60995d72 0x82d184dcf4b7024abfee117704abab67b72f5ecd06548c9d8122e2a612eb9f55 0x3b9f3831bc8e4831934421f0630f4b515458927ad045599993887d4665101290 0x149d0993b648d35f61ed1f726f05bd6fc4a68b8acaf71293d4bf29ce14beee5f 0x21750314e25947daaf3c6bc3e0bda3a7ca069b687fc92addba32eb408da02bf4 0x5200bcd8e9529f324b34d50f3734f046e97037ff316d97da7d8b47e33fcd0cdd
; Less 0x15e5a6065186233d3d759e8ba8a460166bf52db392f009c30788b3ffc4bc844d (-0x64c695cac308fe1cd98957c61b5955ded8cef3f2db3e579f70b9234270aca74) 0x1df7b3f7e3988e475f2893e9c3ace5dad82cb7844291012b2f4551acfdf1567 (-0xfa2c693c1f7f0bd74d4b20781c399a4a2e754d5097c052349e68a4d71b4b4d4) 0xd841b8ca812ea05791aeb68a1c4a34e6ef3a91882e66ad13f3b4a562e71da606 0x3efb17f74dae01e28b5a85175875c237c08848b0cbe9b1c5d2ea83cc43973ee5
; Twice 0xf4a3ce9f4739f619d52fcd8758d3be849ca58413330acfb8046664232c88103b (-0x1abadab0683cf7fd9f44fb434c0de875ed4c830b888d846a82c68189803cc4525) 0xe9c8aab14f28955bde8b0025e38f684e578d559652167cd77d7b7c22f6bff6bc 0xabe9fd39d2092beec35b8a3cf6f1e4acb664b46076c1f779677bb74738d37f10 0x245c144598dd185d01a57f61c9ea70d103075e4dd6531e0ddeb7c764b03c1849 0xe271b5a66876a858e5267e34162119382637eff74cabf806e2b661867c7bbaba
; Twice 0x6a5057683f93344f6429ab555c8cb82479a56f3a9654b9307628eec65978953b 0xac9637ab458fd84632167db630a5e0200228045a2379f134903e872582ccb8b4 0x2c26a1993fcc4a95492903e3b4d437813ccb309968acfb4b73201d1f22af6dce (-0xc78595f1014206d8b6da5bac8a6fe4741a61b72f13749236d63da1fae59760e) 0x426324f64eee1a3e86f61c85fcf21df22629cf4afad2829b77662a290684f8d5 0xa6951f653b899d7333abfd08f7ecbf795fc1ffc723c0b10b57311e5f9a0d92f4
; Less 0x130019c47fc7034507d6802709df9c565c208f0738c3776e0747e11d1ce0352d (-0x3056cefa56a6c593c3179e23416fdfc222a70f86a8e6516d34c8a6a8313af2a) 0x16903d32ef8861833e0e67b48ff20baeb17f67c12bce345131c2ea04bcc360e (-0x4e7113253d069d6e92953f6fa2b2c1ecfa6e0636810262fd530bf9b101a21b) 0x4684056c66e9c6f833020a067f205d9e79493f481a592d0c4791c1625e7a248c 0xd75b28d0c3335de284f1c57bdf1bba0947a5baff42159654e2c4cf5338ab38c6
; Twice 0x9e3e35482113ce3fc144f3731153f8dbbc555cac683c6cfb81c47e0283b82049 0xcff7cb08bf4fcdaacd3def2bf2de944ebfe398d3ca856d1770cb77f39f7f24c1 0x61d0d8e344ac43164f1eaab2f69e2b4a69e154b50dca76bc0fbf9b2db612cb65 (-0x408459d19256643501566ce50c2cdd6d04b5661197fbededcdc19e5a9db4fe6e) 0xaee398c7d801e2e72dd9304b3cff32965ff21343ac3cbff414d26b061c20d71e 0xf3a06a70b45000aba5203775085ac064637ab90a31c35512a1edc972fd49d2a
; Twice 0x8e929e24788cfe1b66ecb662b2b14ca6e9ec7ba6a397c73cf92fa223af89765a (-0x15578b9b85d3cc70fc144109ec50add8d1e739463ccb6b8df41b7664a208b02ff) 0x4f66fb69886df021a08cbbaf5d5550380fded08d438425f5be548b225a764d38 0x387867c9effba74141e7a4d6dcabe15ce51a2b773c8160598a6383a2bb38d4cd 0x497e09f113c98ac5d125e66a5b3a3511440ba44e7eeb18158f793351113fb6a0 0x66e5bd3decf2e99c2d30ac1d8cf0fd569ca1f1141254d0a86c1b949fa8f1b7ef
; Twice 0x96f4e472e8549f0835d7ae520d2bc28c3d9bdd203d1778637cdd36ec101fd6db 0x3a0eb82f4d4c91f7faeba5d78e6461c08685217cd46cc4f67b1e384656216513 0x5903e5fb482ed3122f680ff31f707d764223631ddf8081a8690d403e859b541c 0x8a1a8e7e2b9a95c458995d6859a8c77032bd9e06aec660c446a38b2eedacf5f 0x3adac8ad5c6b8edd2e584af0bda3081052258350bc0cee77929560358078c635 0x39c9762a39fe0a03088e5675a5bd0c759dbdafe4cd18053fb98b73703a0734f9
; Twice 0xa644350787a05607838ac633033ee504fc6bfe39ce1466a124f661045e496250 0x2278767ba5f51cdd32fe5c273bff80d31d0cf334c2a354d0856ba40766605548 0x6bfc86f266dca21283b445ebcad8bb82e0f406a7aacca8fe51898457527d61ef (-0x740c61ef7c3aca8ed672ab61014ec3a6b35de70cc1e7ef20fd64f3f93adc563a) 0xed88b433d9c3c7546b7c747454499d023dc8b67035865ce54fa46fa848ed2e85 0xb3865d8845eced87433c61b574f56207421303df9777e16628e2fb3c37fd3bcd
; More 0x38789a00ca2a992f639b83915813d2c4dd837b6f4eccb813e2425ed226e56175 0x1cc624e0b0b9ada6d07051c8c380db49566a81ef3c9fd22253de43aea5f8069d 0xc74fc31224a1a614dcace379cfe99180a11b6a7db146f5196b4cdc7e6c9ea16 0xe9139403a1c9ddc1bc8693abd05a663d073198ed0e78689f2e7eb06cd12bace 0xab7f0b1467dd0a27288ee2eef9b0c381498dbac8ac6795967091db4401afd874 0x89079448e0246be352bd03508a69fd364ad37a0a481e97d490506d33e4ef45c6
; Twice 0x3b9a71a3109b244a60e57ded1c73c8e03a0a720aabcb9f3fc937be481ed3efc9 (-0x118da126d9bf6bbeb3d85706371e61ecd2c6acf4878433fd0711e14cc0793673f) 0xde08d8e22296777231cd8e00e13c0df3bb8a47b097977c16fe0d6cb208f1e27 (-0x27cef797a1271e85f300c295cdf741f3a20093c7cfba82ade70ec1f0cb9991d) 0xb62eb8da2cac18a11a4b80233d6c7f928765a9a680712f312bf6b8fb5f1e5910 0xcf348fbe0c7cfcaceb854a39adad3ed7f87135aa1102976ba0ed78743fee82a1
; Twice 0xebb4405e20bee79d6ed4ea1abcb0536906c5e079d982d429686d7232cc15aa58 (-0x7651c13d3f0a2c7031685573af1585a125cf0630ac3640907ecafd223ad3fb3) 0xd9046d183db029c3a7bb952d8a6d03e44a7f3dc87635f2e02859511227c3667c 0x596c382123e51545ddd5a35b12c4bdfcb79483ce0a43d24695641a7944d694d7 0x550f4f9892fd5bb2d44f181e966facc632555dd69fca9160063b52cd0d4fb29c 0x3ec69e7d3670da1950500964e97237575399cb59af75e244a99a118475fe5216
; Twice 0x3c968d96d60156df481d549251946e84fd21a8e9ddd3a5b13c2c16045b5e00bf (-0x371292d4413c793931df3e407bf43493e33d60cf98b10628fcb265154af68fa7) 0xe56eae8fdb9d5d05d032d42fa512f59494363fd2c3c7d3b94ddb8fe022db507 0x9d57616506d5ca4361e9b1931caa3193ae546bee8faa7fa51fb1abb4368d1b6 0x2b8266e1d70b290e8ff6435d33296e4b342caaed10acd10a75bbe4683dd2de50 0xccd91453e1fe4cdae1c0310a93c8441a2fa683875ab6b3bf1b7bceea9374e454
; Twice 0xc0be0a0f94b582a9709862c9e25f985c48e79d50dd52886b87a0617bdd5060ac 0x11e468ddd73ed3082dffa31a8ae0b1df87a378cf4a4d297ed0646e01d481aba1d 0x911d9c2adfb3d6275cdadccafe6fbaa1f54d5f1414e28cd8ff69eb3a8209fe3f (-0x243a3f345177586c353cf2e9b12ee78d055849103ca47a77586c4d76134bad29) 0x5ba0703e02b73bfb7eda5777f8825f128917a0dce4fefe9fa6c53fd78e65b52f 0xba99b7e59e8f2a2a0becfb160fa989bcd868fe7ec39a9ff2dd509177d5370af
; Less 0xd2abef9fcffeafff9c51cb0258e58ac7c9cb481441a449456c6a7ddb1ad72c14 (-0xcba515ecaf55ed05958a0bcf2da51868963ce73988164800b5f02c801217d50) 0xad5e889cde6809bc40f64ada6f3819e9a4dd618aa8c4ddb0cfc9f34cd8592697 (-0x734addfe7620ced73adfce9d4220f5d647a8dd828b75db06645ec4cca0cccb18) 0xe7b9c3106731450e2e48eef04d26a27f35ffbbb0bc935156a4f4d63692899062 0xbae9f7cb5f743a68413a250d6c181072ff4374e765f1c262203193f81f90e03d ].
Definition text_10 : list trail_step :=
[ Twice 0x244ed631c890fd8aa44bb5f2eea81966d5f1c3de2a6bfeff82f3b9b2343546be (-0x2403d616f867284609d403bc66c427a109c96bcb1634533cd1f1765a0cff90603) 0x52644853f1c892f852f6601ca33d5b28993071adc694b358e8930e5b45fb0ce 0x6c1d2733a790322d083bcafb37b1554e2a238da314f35f9bfa73f488a02cf75 0xb815239257f0f80faf8c49955b94d366fa3b2573a4a2e38b2e4e30841d85050e 0x2c89d39fe0eb95818d2181884eb64ab0f8172977485cac965cbf2c686a4e4f90
; Twice 0x51869d453c9cfecbfabf1b0e3d9bf0373fb4d4f0c87c23be75c5697c9db1b424 (-0x170bd1fb7402da80e7587113136b213ad901c3688631c4ee85ab9f82265183a37) 0x19f6764eef6b42f8f32dbf140f984c4e87e01834cf8b69c3ef1f0f9075d084a6 0x119a1b8f37a25e93c67a84af600f9d63892626c4d735ee32b71974605126de82 0x80cf78795453eda8a12122175c4212c510f3cc866195784aa4fa2bb6fb511f9a 0x8325e03b3b397951a6752dd0c5a9cb6324e06eddd437d9914ddd62a6fcae6342
; Twice 0x49874ef6659748b1ea52b271e61f530831b9f9611084ae821926371791651f20 (-0x771a251ccb09cb1f8892b50679f630387e2f7f711ac9a2d9026db0e97fa6d297) 0x151e728cfb48f2a0a0cfa68cc3fddf428023997a332ce7c269c3ccec69259fd7 (-0x4d3d0cfb536d11853c0ee265d68af4642770758661ad27ea719f16f39b40eba) 0x919e230ead5efb1d484141721014e429592b450eab45206b836e8272458c24a3 0x48970fcd45115b20e19f84accfa84b6871d0f1d23a392f44df550c914713d5e4
; More 0xacb8db10f7629238e5e25e3bd692a70c246e54040dcd9070e9255bd9ef813314 0x19fe1000882d2fbec91c27ab00c0b4f06bc48175e5cb0eefcddd5fc8843b43eb 0x7488ebdae4cf066b9887bb24ae48269e77203920eabd9b2f3fceb42856ace42a (-0x49c941ac3b65c3655663dbb7527dacf837935d24cce6d30a763d1723ae3d5406) 0xfefad7d3d3c1d1ab9e1456b6d86ba5dc34ba91ec36058cc3b6f246ec14e0f681 0xb18393da7d032506ae941474eaa12b2f2917d11656f1475c6176c59eef6136be
; Twice 0x825209d0d9be8d8a296d954e77693967dbd44881c544c783179caa37c69dcae9 (-0x24528c62889b5992d17f912d92d742f1cb73662eadc81cdeaefd1867ed110f6dc) 0x42576c42a9a8cbc75ab58693b0bcfe661715d0101738e40bc9888f79560cadd7 0x5987c4e59e020221866808c3c3e417b3acc294b76eeb57bd23bf9d19be8f109b 0x4f1b83e769e605133d7128250022c22eff1c5da592c23db008ff1ce21ae948e6 0x954db829726ab862e95d19d5d5f47316b0a5712eb6cde02b582d11451aa629f0
; Twice 0x2f3045f92d468d5da7dadb3a0116b20aa3cf5140870891157ffeb7fcb5bd6c1d (-0x124b22b6fddfb43522111075d2f55d586d46557e8cc5c0a01d3a80d60b1d7477) 0x8b2c2cbd7e3ea1a5967d3b10fe16cd27d68412ea7ac006eddf3b1f511d34d63 (-0x4ecdd65bd22ddda869e7cef23bd96ca6dd64e9100894e2cf989133de46a09d3) 0x69d3c2cd96619ec9a8be2d43384008e6c310f2329989f6433a052e52ae7b36e0 0xd14f9bdefe206bc7b8dfb6f0632d77875f18d54e23eac0d35ffb4b6445705eeb
; Twice 0x4a10cadb960e25c233b6bc4f26cf169b1e0293efdf22a089f9a92fcf938d1d7b (-0xa20b31cf73fcdab0bd004cc82a32bdf62e97cb89814cd70e6a25ab7cb50a7d5) 0x156db661045feb2254ddf95f340f3ccb2de581d13c5392ade209bb35be2b5fdf (-0x157c690e7adc876ef2968f8454b2b3d8511f801ca9050fe5dd806ff9f9b4b3f3) 0xb4175af694497e7d631c1855474d258dc162c97d6fd627f56479931f20180b38 0x7063a2393903821aa387435dd33a3cb8dd6a56af27e4af8ad4713110e9faeeda
; More 0xed45830458a2f1d1921e42a49ff12154f4b34559917042607f0b01484fec2726 0x43a864149edb122c1785dab5f581de67afd31f97bee8f9587f844032bdee26d9 0xdbe9c776cb6cb5d3fa4c32207b06b99ff5d9dd422da89a1c1aca9ad4a1ca34bc 0x594138e6308e14b82f855e81d5f416b45270c8f8aad64ec8addaa2e8cd328b36 0x53ca9560cc27789f4f04d4a151498a6d67e0b41f6df90535b90bb9d151260092 0xc87eb9be2b37312968620855a46e761d07cd5d29ed8c17c253a9ab0685cc7b00
; Twice 0x6fae03166a4bb16cf21de6778a4b42284de12656636d7f26bb1cb52ecefd0a25 0x5ca77ea7505d33ba8af92564c1b09b7c70d2f50b0c366da4a7635ab7e9516bc9 0x30b85cf5d368082b840c8b6c9eeaa44215272f17e3e32dfb67e73017de925a92 (-0x1f0be3c7c0b3992f372be50db245d2f8667eb371c3d78cb414adfa5864c37778) 0x9af54908ac63d2d08b897157ef274ec2bde461a5518109f9168bea31d5cf42c7 0xa0dbd4c3e4935da46458b9dd9297d344a892d02d9e3747272114ea6c380269df
; Twice 0x357b7439f5c58c1da3fac751df93ac554968a004910c8d1fa12b46666c916451 (-0xd62de943223ffac6894956b6f912038c50db814b01f1503aa8aef6b2cb23930e) 0xb2c59a8ef66e55c3382eda6abd7cae31a6d883e5cfe0c411bd94c49569f690a 0x1e540deb12459ef64c8222a9e86b31ea62ab94897dfc335beb5749d9d11e69c9 0x9c99640c592081e485291db97e2b05fd7dbf5fae59f034cb8bab3a8ce12451d 0x9ff7779019f14c09176f3243bab00e79b44f464aeed278792ddad29a4448aab4
; More 0x4e592c3ded3638d9595d7a96a4c401dad5c97142c652933b7a71909a41169d74 (-0x1dc7bb341f2d311a38da1c311be6e07b08a5531e82cad041b665fafc322c976d) 0x17fa76059f3bc8e30c05ab9ba668b09d4eccd2d63a9ccdf0a01accec57dfa2f1 (-0x1874f13b2de87a26e652513d362d57e4d7950274d5892d196e32ea2ab4007b12) 0x59b2f65f0cf348acdeb21c8c9b161153cd5a40536e874cb0540b4d8209fc17ce 0x801dba3d2163b64e81df21ba3feab32bfcd2a3827a59624248e37ffc6f56d506
; Twice 0x319d5c95f9b394449dff5d56cb4cbee95f4b9cb2943ae4a9f6c409584cd04b88 (-0x2ca0e2cfbd57666144470d8712af6e9c63c9939cda9b58afe78ddfbed37fdd17) 0x99d9e2c24a4c687ecd773251e0392bf7668ad9562c189c65482f2fde13d017d (-0x1125181033a5f92ac184644eb5a78c8793c4cb425ad71babf8aa87cec7992a7c) 0xb229a444fb5d7d722c92a4b524b1bd351c0891c5740e2dee403c2bcd608dca21 0xad05b798aa5bfdc85079d83548c4051656f3decc87724da2cd8bfef894faf366
; Twice 0x82b4aded6529536788a6ba84547476aec794880174cf61b53a27297b0ecaf0f6 (-0xc34bc406c74b0faeb8d7312c0440c871ce1d19469d4cb06b0948dccf07ccbf48) 0x42bc002a697af1dae85870750fb05f23dcf3d601fd6def5b6e71a58b44af1dac (-0x3abaa61735410f8b62b4e336baeee92032d683cb145ddb3af4d2c3b7ebd873d) 0xb95a1174c75c2555499fa1db1589a4d2beae5b49d5a3d84409fa79909299b5ce 0x7ff3e60d8d86e4a556115ee268af3ce999d33ee14277ff5926cb06e43b5edd1f
; Twice 0x4bdbd6088ba310de641c5852d3fd4715db97f172cb88ced97ef8f231abde9e25 (-0x146c53cb699855eb1803bcd2685826209826a24903dcbb0a14f89d2d1d21759ad) 0x167a8c30fddd4acfb919fc5403a09dd32a4d0d74ebb340b2c85c3c22b8184b39 0xbc0875fc0c4accdfd898cddf2e70d185c05e0f2627231c7719cb7f29ae72c30 0x91b1346a18a0d1450535e3ce2f8ae6e24caac341a6354c77a9b0f007aac290f6 0x4bf3f057c5ad61cefca551ff62c5b289789927f605606f0d122d1074e5adf249
; Less 0x808666fc3c3da751424665158b69c630e21eb42b8d55c8f08434952b0faf733e 0x1360f50c5ecfefdb68ff3268b0943a9c5c08d817c10a6a4a9d8954b7bbf828fe 0x4086ad8c76415df069f5953d25f5d0ecfaad44bd858612463816b2c51fc97242 (-0x22bc83ebd53041c0cec942edbb896a6888fe55a606adaf0d2e3f467a6d4e937c) 0xd6e195f07f4db44f2025a86bd7e59c785e8e65e26a30fc0cdd01740ba312e1ba 0x3126e9f35adfb87cd093ec0deb49782586f58f6b00705c08c032ceffc34bdec3
; Twice 0x8469d50e979c537bf69fd19433d457126fa6609753a9555fe2bb3e3100228bd2 (-0x1ea410367a757d8d04fb9668345bd79af6288b7ee37fb75106d59ec03d49bc883) 0x447d4f77c8202ceae7773094e3d6c6103f95a577a690f70527374fa723638c26 0x5cb1d811d646d3461e83b8a85fe63851f9ed72126570ca87fd0d3559b192f214 0x23abc0ea7dc11351319fcabbdbd278fc2ae828c712df2f9042f3aa9d4d6380f6 0x1ad36e5d3a769020fd7be630870ce4f4ee36ea7d6bf1f853705cea314bb6e019
; Twice 0x81a7681ddeedd748c48321b8675a27211ca6a4dc17d12c04eec89c5c00bac27a 0xc42ecf3d005e19bca7a278a2c89e59e5873af4b468404ff56703a83f7694955 0x41aa24675da6fa4ad5e8a576e6b76e06cd095dd3c6606ec5149209c1288327f3 0x95e072f0db61750aaeb298effd40988b5a69f68e64b2c1a5108bcc14c4b56ea 0x112ce0e03ded616a7d2591f63ed3cf65e03158f61122bad3688bb475bac1482b 0xc1cd0cdc238cd1a051c935b14787e7d09ee628b1a7775d1b3d01c55c146b5d8f
; Less 0x4c24baa839ac22bee949aebad4c50c07eb2f638158e7c18621a2d2ee8bbc67f7 (-0x1abea62b536bca56ca5aba6b628de6ebd688befb1a2bd960d9959a3d3719263f) 0x16a5d419004d237deb45cca5f999e1466a7b846fc05e9c2fdf0152663a485a7b (-0x9d62eea2b6d0d7b21188b29a4e263c7b57e2d11827faa7f3d9128126173d74f) 0x323f3279e3bb07c2e75ec7ed272fca6f7377bc4672cd9b19fd99137dbdef000b 0x6c981e78a82152707799e18dcd778ed9ca2cbce8109e82f77f974de56b894202
; Twice 0x43df860697291f743201c56527d06793e1804ab3b3a3e824fae28a9a2489f0e3 0x1bff04b8b4c680b721aa25d8d45c708497fb15090d4759cf3a65c16eb04b31dc 0x11fec3524ac489d8537e7a713e9afe992988e325c42555f73b6da8726473529f 0x8c7d8a9dd47630727d416077fe0a6b1a0b72254c449334e020a9eb96514bf3b 0x1120e650b7c787feaabf623bcdb05a6acf813cb46f93c9d89fe924a67635bbd2 0xc022d7f9558ba61bf29815cc78ceb079882e383c811e9e3b853520fdc9496bc4
; Twice 0xddf9c00d949bae09a8709fe6da4cbdaf8fe99a1842dbe2128f88e185aed99e8f 0x149c2e4833dad92e3fe27351a8de41a5ef538e85a9079d79d2428fbb210ed13d1 0xc079293f5d8d6a35cbd2e9ad7e527fc206e3a0ea1c3a633631e8f420293e48ed (-0x8f2942ede268525b2e26835ebef79e084568052b249c00a517816f2f2825e0f9) 0xb63bc255d5f3489ba15981df60ae3a44334df823d258c126da4955f1d175a52a 0x52d8ee8f52e33ac3b312d6795bbf0596fe6244d0848bfa84b53107eb08410b1b
; Less 0x136a2d81d5b3419d44cd4ad1a913818551cc3ccce5dd6b5a4451509378b5a1cb 0x5b2d51453ee003f2ae99a2a7298a88b6febe370dc689acad9d98b146bb59db4 0x178eecafecd69f4c1e521aae240d0f9a8effcca55f29efc8fcb25ba9c82ab53 0x35304c68c97bc920bc6d2b4a1a06704a086269c1e1d73d5f748845e3a660d73 0x8a665ba30b0a8f09a6bf56e0d3eec3ed424b77a3fff1803a59f80e3171c33a8c 0x7c96400b94b8119148d292a774e8d37e72587d139eb50758714d4207bb62eba2
; Twice 0xa6215d5ea1ab3be2067fefbbbc011eb9f2ead5126acdfc725cd1cc67c9c31e01 (-0x3ec4367e3c928f13958a1731d5e4e373569e03163317a17ab6eff6907ec89997) 0x6bcf497059ecedb0082c42b408bd46a0ce847d4a1e2cfa1ee906498f47642c2c 0x4ccf0fa062be4df177c47fdd6d6eec90730e7015444d64a97b3722e68bba0c01 0x140a63f6533f37148f05968192b3ff87f7f7d3d2d26dec58dc8fe3ceaee7f315 0xb8c22f25dbda09e4f8b3f22a936a717cae0cffc39e4b4839cfd5cb1c243759d6
; Twice 0x3e683ae080a5d8dd8a38d9cd64cb689b544496a32c3c3c519901f6fa78e85348 0x555fa179aba6a2f2687be1a335c93204198f8c5921a2a63f3aaef75bb0e152c8 0xf36a6f4b17a01ecae5d5d4ae649a0790a32badaf70a500fb7534c5d928d1eb5 (-0x6829d02254bc160e307f7c88ca7d26850056b221a5446b294677043bc2bcaa0) 0x2ebefec86fbec2b0f596edd6a623288238d7f820c6bde5b993af2e4ac254fccb 0x4dd9c641d475070108761d17a268c92b8e53573eb2e26294bcbc805431dc1e5a
; Twice 0x446615ad4c951ed05447db83a8e5369e46299acd87bae64ed7015f29539f600b 0xffe31de81001538c5b0a64ac58719f47516d8f359c5bb844c04b192310ebf2c 0x124664396ae4874da2ea2d835e0e8eced2cdaf1f3741fd151e074dda5f38f7e9 (-0x638e9770d293878d353c698939752d9b5d84b6de712bcbb7cbe4d22f305ce27) 0x4608e0df7879b11122c31c4560dbd6dc84defcc0759c89a35e649a4a6e413ecc 0x98849571d6832a592af77f8285aa5e15d4838ee9b98c2a85c15a5bc78d97dd74
; Twice 0xbfa1d2c346b991359d301eff7c4a6aa4b0a5932bfa6a0e8a5a19152017f30244 0xaadc170b996defea09819b09b7c8fa5789cfc5ab431a71d289b94445eea2e20d 0x8f72decaba1fafde1523855881d0df233e87e9e4a43519cca53ea1dc853f1589 0x151ca60cdf791e693e17b8e93893c8b19cf49c806917664cabfd598e731523ee 0x29d4d8aff601ae9b767345c6e9c1c3fd69da19e58263bad8071ab75d2dd9ba01 0xf01aa9d413aa0c032c24a3397291ff997592d1d971e3712846aecede19b72266 ].
Definition text_11 : list trail_step :=
[ Twice 0x485e8705d249dd0a54effbf24235c1c3c42d45747524419158a0d63eba8b3d44 0x733eb54399bb39fdd0767150ded89fe23c842b7b5b164a7463e18b5f221379d0 0x14754edaca3c6d5aa3e54866540212179f68a4aa31605fb797f17f329b3bb543 (-0x13bf5960b8caa9893135d725e7173d099d365135d257f5323e9007e5843ae521) 0x6fafb5bc4fe8038360d0eaf13ad6bf46c16c2c873886b07a8c8a0e2aa609bb51 0x3eb12c9228e3c04b906f2bf38a43653733b9a17049b9d32987e2d0a02e8d8f39
; More 0x802d5983b8c2e8622335968d627cce651aa657ce08a3fce97e7e989ee5b6c8e6 0x24cc232ef4e5c635830c73c2ac4367e0526dbe2a82596cafec7e1ed050aad42 0x402d618c908c18b2487b81e76df3a5bbe983491c2ef414eb22be990680ce6856 (-0x4809655dbf2ab7f613bd92cdab0fe2e9288e4f9cabdd035ed1b764556d905e91) 0xff8f8729ef454171ebed3a424866e8706764528d012bd495364cf36bc2dc1913 0xd0a3c1dac7dc8dd10c19476881e1a2a58da4bb3bca19aeb250213adcf3b645ea
; Twice 0x63149c5d2223a46bc58ce09296ca782880e634f63e448ed3762c15c71cd56d98 (-0x25bdd7ed6f0de34cb001539b82305859d2f379993767d6e7ca4487ef8720a23a8) 0x2658f298fccf7cd324eea9a2d940da51b3f9ba50bcbf679bbb2c5e3010cade20 0x20429015fadf8fddc8eaa7679225cc0e0527e874e82bedd250aa291facfd57fe 0xac3567c9d7a87c5e671700549c0acdf8cf5abf8fed6ff6fff5dd2b9158ed763a 0x70312c8b1dc07aad839b844536d7ddd2ec194a3649814372f678381874db27ec
; Twice 0x293d265674f075811227be6a4da1e4c024b563623a6082f49785c5fd95ccd947 (-0x1376212852520e851f2fe38e94b1f7623efae932a1139b6b23b617824b965ad7f) 0x6a4a4e3030b2d087d95fa89c5b271270f2fc0c860751a4080a4d3c1d70585a6 0x1382e02134fd4fc959ad22e687583aef19a15fc5d7a3f84d4810fdb7d15a3d03 0x331689490f6f9d0c221fbb07b7ef225e64953977bb550a82cfa551ccccbc0ae3 0xbd9a2ad84f8d50c192cb8a10f84955d62673d71210da473fda8a48ce4e849938
; Twice 0xfb08b1fb6b2be8828c0652e6d623d8027d415b67be0391fe5ff3ccd8059e340f 0x155433b3ece19273c3f50b052ee630ba03c56b41d5c34123137077188eeb2db48 0xf62a0d4f95c67b1b32d5c645d685ef8d4a4694b33294b5b8323c7b40439f9413 (-0x7a11b6950f938ee08f655b8efe501f78cbc62c7e8497c1d8db7a9893b685f41e) 0xaf9270f8e9ed3222a6daf61c6d7d5c0880a01ffd6f5c00ae277b28c38d41972e 0xd1227cb18d79581dfe1bafd693ddf6a0b9ab86fe93705c7d5a10d59b8558fe45
; More 0xbc4c0c0691e05902f9baac3c0b8cf8eb7d0cd459c6a80cf19d89de7dc2d6acde 0x325e646757f0278d2f67e22300e3a117680f3ad310453587f653dc5a4d4b3080 0x8a7fc8415538860a35438e95cc9c3535193a81b5e05a6c2fea61a6a1c673b199 0x7ca98a7073b0fbad882c55e99c1a9b8f356375d512c52f55029900dc440e0748 0x61643348bd58c6b4e4346f628dcec2fdd5dfa57abcdb75e4da12f6a507c6859 0x62a74ddfb31d8acc30c269be98963259fb3e8333f81d00aa739e29cb7d38c1b9
; Twice 0x45cbd0df5cc3afe0c6767c7d5b349aebad6f50b1d6cd28ba0b6b1343347b4c01 0x355c1f0a1284981b5dca52ec76821ae9cb9bcac6217af3fc3631da1ea503f15e 0x130780dd67b1d5a62a77dbe709603479a57fc80144bb95e1b24a3e60a20bb3bd (-0x2dbca1ff9d2c057c177f56be0684d182feedb0aa3a4498017ee3edb117c46140) 0xadd776dbfd6135c4b6b0f784d86b9f67711567ffffc86ba18672205488997b0c 0x62f3f1a41d9e0d63c19eac49c0a3212ca61de9cba074f661f6863533957a654
; Twice 0x4e61c43a30ed711cb3b92316b45738f11a837a868c0aae463ebf7330800ba336 (-0x15e5d403ef76a2a874f1008854110bbd668a44b166e38af65b97cc19aeb8b89c3) 0x17ffb8e9d852a5ecbfbd0b8ba6a76caefbd05945332eebed0dee39f72eef6e27 (-0x10f440cb95187cdbb96ee068a12b23df61262e66c0291df0e1831cff5ef71335) 0xe536fdee681ef787d444b05cc484f6fabc3962a0704a0ed86ca9554b8c6e4773 0x635747e53e303b66fd4d5316df9ccd0ef36ef9a77b91812bbd9ce379d23b93bd
; More 0xb5163d904925deab5e389f21f2f08cb38fb9213c064825405834da5c5aaf6013 0x5662a62536527a0f341889f01ad7ae08edad9fc32685265b6ce77a1daabd8561 0x801874fd2b22a88baf594098b610e593a32a8228b3c0e5a86d7f7eb0cf8ad598 0x462c6b63c06bf74c3b48a7b5aa2477b117503ea13f24972e219fd731774d888a 0x8202f11e688cde14dbef28b48ffa3ca416f637eafbcfffbf21ba2179448c0cf8 0x9c06f2ddf9da9e5eaff37c030cb70e8176c0536ad40c774fa54d15b108df6bee
; Twice 0xe430fd4829668799b7040f84a2cbbe353817a9ad422c2954de9d55f522077e5d 0x50132131dd7fe5f7f029e21c0f2f17921b529bdc0a2fb95f92c2340a5021ddd1 0xcb674c894acd2ab11f6dd606743e26752525ea1ead62cba4549d57ad9914d5b2 0xb695df726f34a4c60e266c1c75311323b96362105d9145fa892453a860c07d9 0x75358fab98f9a819443266239d8bdeb9d5fff79087acf2db7c02b285eb72698b 0x9e328cd071558d2eb80de980ef9f4fe025b8e87954542cc362a6b3846be7a084
; Twice 0xbe6e32663b38cad65c1d56a36770c3b8dad6380ccbb81f95d99dc375d45ed3a2 0x4a5d3929d7aca37c596769d20105df0e34e2eef72b963b04ba1277eb333d3558 0x8da7c23fa7570c1908d2988f6da182251ee82f48497311c3903b8eef4d539f2a 0x356c60937ce492756bce89e94a2a77035d32b2577d4ba490f388608e8812e7b9 0x2d64188535c4964811883f6de03452c25e0feb4fa268b97d162d999be05b3e98 0x95fab5f06dcbbc00d559f0f2619bf0479ddc5eeb100ff6cfa5b8546b3a74bdfb
; Twice 0xae9ff7b1088d8bb06cbf389b2e213a8170ec359a351432427328028fdc233518 0xb47737b4c63484769421f281a6564f8a8c658fe3fc1da8bd26fad73206ea61ad 0x771dd8aabc4dfb4f95bdebedafecf0e20fbe36749457cd55530ce7199da1c968 (-0x58e63de72abe1e1fbe7bf4d00de2ff3bd4fa50e6475384d890cde7bc1d0d7e28) 0xafb7ab7efd81b033f11645bbdb2fb19935a3dd82daee17b787a7eccaac7e3e78 0xfd06c74a3bda07d3c0e5167acf4bc59d60d4d377298c74353689c64ca9c66dd
; More 0x68681b85c14c48b462e19a6b37fbd478e1b4fadfb15b838e3f9c1f125df7ec58 0x1bfcd8b21f39d2caca030699fedbbc3d7b028f8420a13ac98de84eac8cb82738 0x2a94c0b3374546693225df2021509ab087a35adc36ca62d6d5856fbf0c2ec712 (-0x51cc03cd7403027702a32dc0f40e557ed9c95348b2a1cfa16cf5d63dec383ef) 0xbc40a99df8dcceec0324aea541c87e9eafe3f836cbd559ad1914e7e0631a2444 0x70388247c6a5460b847ed024bc8a4d286613d4ea965a5d920776032b055d0714
; Twice 0xe35aa27ec1059fdd930c7eac71a9be990e6304dccc0614eb336b9d207e4eff7e (-0xd7f96f231c2386f898dbdd56f26d6b1c12328fe93994287af213ba88ab033983) 0xc9e9dc443c7e38c87e8f31576fb86f74d01ef2428c11fda878cb097cc68d1013 (-0x2bf58b27b1c5bfa06a52eba1f41205d198cdff16506c8fa6dc6bddddf598ac77) 0xedc01ed205990f09cf3047a5eae5c1c506487072a731fa84c567811cb81d098f 0xf44d979b77605d3e99716bf5418dee41aa92dd270a1b4ff974459e7a845dbc8b
; Twice 0x763cf44cfce67a6b49cf1e8404e0952fa7b0d27840bc51759c749ce4afc905ec (-0x1b4bbfd55cf5f3dea398cd30fcacd8c6518057f657bfd34da403a5aada232f4a8) 0x369c3fba9cfa1ddd2cbf2c44a3eefc73462ce04a3f7e898a241b69dc067e3abe 0x54f49f9dd34376eb62943e44b9d994e9c2bad96250754f0f541e4b9ff3c77c0e 0x35cfae98157f93bbf0c6829f9724f164cf0fa8b8ccdd26242d2b07f58aff3930 0xba86016be2ea63242153c44b08c3bf9a928a774904dd36b1f623679a278eb217
; More 0x290b84689e93243cd901da84c3adcb0e1491095f18e99cc5ffdfe6425651b6c4 (-0x88af352109aaf62e364c53e6db612022ceb4e6d76c1054a46aace1ec1aee9c6) 0x694b0ee2ed98177ba283538d32052c111ab019f750cfb6ca92d815c2d74c320 (-0xb6e2411693020b4dcedbadcabda406c2537a7bf39696bd084c63ef380d7a58b) 0x7d1a31abef54f98e0e99669090443aa55b9404987a333c11dc7eae11a4600d6a 0x2a667f598fed55e61f6d5e4ddb64a943bb0d3ba8e2eebc2ca35fd001703beff6
; Twice 0xc397b384785504889bf907dc5fa240f36f0b64505ff15ead9daf4a7a8d6b8a6b (-0x769d5f2caae5c9eba4d87b60755b6c9f213be247cec182a524baf53263d7fffb) 0x95707561a8ea7367bed2e742446655b937f18e98c80ada79644402df2f778619 (-0x47a431f7c1e878ac68a8d34fa097ec6bb011514c3c98349e355a7691964c5857) 0xdadea1b71d3c8b1538a9e0f7063ccbe8d24f524432c8602f6c36145ec500f3fe 0xd1b21b85adcba490c8cb835a864bf5bc1dcb3ebf18b8c0c688c276d1b60f8fd7
; Twice 0xc6d567ecc5e889e883d47dfe0e95601fe74de515468f7340a7745d9732b20e11 (-0xeba2a7e5583403ee1f907111319bcfa9b35cd8b51b8786e78a87dd1067240e85) 0x9a6ecea8f6c43b3021e49547fa3d16d840cc949781cc1b62dc4c87c5d7074ff1 0x8ae14c8deadf1d9392f778e84b8b907fcd909d035154af1bb62adefa4f5a49da 0x280f73b55b90f760fa2fdda74398ad54ba3305aaa8451d5d27975a6c816f4516 0x3f20aa01fdfc537a3ce6c6f5624a537bfd3eb8d60932de49665be33dfad8076b
; Twice 0xb7b6c38cb98e9963a15a605474cde9056848e9b5b8de6b6e7b05fe19f15b852c 0x47cc56abb57d52624e703c8e652d00fd5c2bd343d411b3ba0469e5420920dee1 0x83d6ce0e56983427153efe3b24f92573b7f9390a34b4ec9f90c098d401efcaea (-0x37bf97df746b77cc263f226da9cf6e0ce585bc530eefb24de886df876c08ed21) 0x75be806a0b20a56b1fc6f2786ebead93c4d8c58bdf9cc8d360faa807c9a0004e 0x5beae96e3e7c479de31af03ecda1f20af41d2ee75a7f562880f5d7fe9a92c5d4
; More 0x7b43892b1e02ec54bbe532e03bed3fb0c41aeefeff92595cffa25ff7e2b09738 0x520e527ee1606cc1735ff97b8e9e42a1e24e2ca9cef6c6550e909ff85566b9f 0x3b59f7a0c041a9a3df430fde10f2d5113c32e60a9c7cfc5ae83707098f17eeea (-0x57c29325dd3403c27084bfbb9fc9e8891025b59da0306dcbbd9c27009c6fbad) 0x8122ba67280ab148648f84b955f1054107457dd8c2373f2dcf36c89b13324846 0x4e5e092aa10473de93f33dd4a1f299de5cd2acec8bc91a49ead4349190b3383f
; Twice 0x674a27aa60545ef1f420cb72a8021683c940749318c16e93a5cc7482ef0f740d (-0x842efbaff7c1634377ce2af721cbe63838aee2b7913d3ee6d178e1d13b5074fd) 0x29acc16637d5b1516db7ab5539ff4edfc741847e9c2baad476ec7d09f137e317 (-0xb04fc3969c61fc5278141196d5cd6ab16f1d4dc8a4cc21aea7e6c3ed9eacbfb) 0x9c727232c3d6d7829f804c2d71e39760877894fe04af773e3b526ca6def51b34 0x44554784ae254ad28e5fbfd07cb2ce217d4e1d11a57abbd44ad9ea0f66f76db0
; Twice 0xa58a0cc089ae5e1e5af16c9a28029dec68f63e4ab230d92a6053c91bf4af54f3 (-0xc6736a172f4c0ad03cc3dcdeed98c4daf9338aa176623cb9863edf6d8311b473) 0x6b0b3ee25cbd11e9b41332dec2a25325b07f40a58b01ac6c1c8bf308d9da0c39 0x444f3ef267bb6b2159885ab14aa6ec4027ef3e83cfefacd218def611abe044cc 0x32cf1a556a6073c83f6f1c4dcc05e576f2a8c30ccdefa65bd5b94d01945a347a 0xbe02368331873298a42df9ff5858f6978cec6d8cf819d055b5a655cdeacce1aa
; Twice 0xce43abb21e02cf6a2171a71789eb6fc5ce603dbd50eb77c5375a7ef41316186c 0x113ef5a4539951dd3e58053d706cb08ac92b4f5cf9be77b081acf61b3753716f9 0xa630fa36a0e0a582da94f69caecf303aa4071a13f1416d50a7db0ed6f75e4ba0 (-0x9c59da6d8a64bbb2f86ee85b7450d81b8e5d7d226c3c111e6032173d993c8177) 0xf4dc3935313047b814e05a34a6fa5aec9de9f994f9263456b3ed9c3c0b8e503c 0xe6b88a784302dc79ba77b4637824809a3cc353086f2eca896b419dab86b4b707
; More 0xc59331f95db20af076c97cb76f7baf930eaf75ef329717f59900e8ec9617133e 0x6a535a228732af67121df8c61350caf9fd22923a56073bfec0fba5c3c00fc4de 0x987bdf8cd0d2e7a06e25ba714c6f4c8e7255c297c0d61da6f5d5ec01322ee66e 0x5c6b72d5837c1a04c574062cb09d720a8dcfb6670a7fa29c92a944cb04b40348 0x7d1c6cc4e99d1b821c3701c886956da62b6e7fcf91ddee0a4eb1fd706c9e16a0 0xec25076d8123f9dad5fb8368f7e6ab50ed17d50f412c35f821b7be626577d409
; Twice 0x8af749a26b000385ca953fe6c8ca9fa2c643c889efb300b671c0db7d67c8ee18 0x48f1d32e9fb4d983092cd0d48fc6072a05054fd450e1d7ecb4015c626db72e4d 0x4b6f8a4293641026ed4a2099d473a63eab3f1f8aed9b3097f6a59443f98eda89 (-0x102db6405f1f14b1467d0aae1b3c0bfea14464540a88c66aec2b20905fd11bc4) 0x9aea31ac513a6b37c4d34a4b9faa0e782e63d3fecf0cbb39f8ea7a1f53434f89 0x99a33445e0138836998945fcc40220ebbec23af687cfe033335a0e7acb491c5b ].
Definition text_12 : list trail_step :=
[ Twice 0xe7b542874c1fdffbf33a51dcb287e4d8507f809b42ad834719bf554c031643e4 (-0x31db50df09ddf99a395fc452c52c7cff20ee7955ea582da84f6510aaf729e28) 0xd1b89e6821b5d4748af57c5aaaa5f051cbb1ff4be275a7e6b3c08286f8c159ae 0x16e8ba3d7453f0020e0cd45606d62dee1f632ae98e3e1abc4c92b46f1733a541 0x819a9dd67cdc0104100ee5b0419195efe992e3cd52cbb705367acd2f676bddac 0x4f43ca7f51ea996e67615ce60e74c2e31b8d7156863978b940fa6fd11a96c8ba
; More 0x7d39ff29f2118db46dbde6d0391aee670ebd0c469d5403976c6b8e87b223db30 0xb02f71d8d0900cb6aa0c1220f041c0adbe15fb19653de2a5826da23831490a5 0x3d41b052d2a937a449bde0d2501b001acc2fb1466d25f00b2b7a47cf15960ac1 0xa944b4c2f31f06e6439ac63991f51ae4f44f6a60460186b866c0327529e42a 0x80409501b96fe37205a9e4dc2c021b6096bcc58b9476b47bdf6e8fce405c937f 0x86d6d0f577e1c4e8640cf9b34983f1733c9d03be97b3397f44aefb68300c82e0
; Twice 0x1971a4af10395e3e464fb454422b1b2c4e9cc513240cffd65e96d4a4d1b8ef48 (-0xa5f443f64869b3b70ad57f79f37c0d7cd8b4aa41ad0aaa4dc8171a26bc9e9300) 0x287649d002fb02b0a93cb00d4ee80fda0b6699b0fa227b091a74bd1d1e20fef (-0x2f7330e7c4eff8b66c4c6212405c88c0cecd2251305ea08380b27d6614cabe2) 0x9e1725e9aabd254f3fc68ea994340380f001ca4b8f213501c83b7cc1b8506d31 0xcb669125bfd86e42152c0a8f7326d8989ffa619677c98acef1b4c1443fe4692e
; Twice 0x519b88fae5b8127a3cc1a794570a604246c5c4c8a791c5adb191db20df3a0efb (-0xa333aef41d936914f8a99b8c7933cc8a77a38f0d3bd183f509fcdeb97aa6fe14) 0x1a03cb2e087ffdbeb63d1dd3287b38dd7558ff7ed4b448c46cfdf40148e79954 (-0x138072acd31d96e5bac29d5fac76b8d5f8066f04aee229aa9f7e1173ed7e058a) 0xdb444776512d6cbe978c7792290d7c43646bf72ea3cad6a0d1a85e81ece3290b 0xa75d22cc548929cb163ef74c4ecb7c6437bdd3ed05c992726fd69ed2cb15768a
; Twice 0x46cce912e35711a8bdb191cf4feac7e6ac927d41f4b543f14dd38557c6ed5da (-0x22da07fae23bc55db0d5d4d0f041f12ddde9a3493422ce32f0df082e2de23f3a0) 0x1394b37ab23607204b93ee59862f3b0c7323ba81902e605e6db859e27bb64e 0x37a0ebd82eeedbda80302fcb464def09169798e372b22a034b64733c1fd5e0 0xceb202ef99475182cd86647df8a2bc16bff5008efa0a7e2e6125ed41b2b1e1dc 0x34338c5364f37be0c19d09c91f653efd2707af6e9b0bdd68ea0e70ff596d185c
; Twice 0xa1fdf1b6198fb9b6f40e29fd5be6121196bde8a5a35c60a51433867ce2f79fd8 (-0x1b298828f2e95251962e0a8dc058da9dbb8b10169c49247ebf0a94e6bc16e0413) 0x668165ef18cf1144db79cac1db05d7bf79902c43b3150c190bc0bcf216dc3257 (-0x1d7664b98571efbe97d0501cee508f16da6a618348a38ae4f3d8f164633b79af) 0xfd41724113c74bfbab0d2734cce8a285d0511b5f5d3636579df8016de81674df 0x2a8d8be7e7cef84d911cb6db576c39c279267b1e6c3d2aced1420ddf4147866d
; Twice 0xf5e01bde855eca99fa9a41670be29a26330edf017d05a8ae9c2fc7287c832330 (-0x29de1d6ef9c67d653bc202beec66a8e3f63bb38d6afe2cf0e0621e3f7c215a820) 0xec26b9899fe040c38f7ad5e435d3f54bfb64f87e5f48db79b97d93441e1959f1 0xec1e2d44c64e8a1e3d2e247739d375959d1658d2ed5355058ac0b18a5f9e6abe 0x76a3cc3006b72eac98579eaca69ab495d0c5dc458bcc70eef6c7cabd5e29933 0x69b7aafd2e0bbf09ea308566fac3c70c7673609234b982ac35f865c581c9891
; Less 0x99e08a6f6587390f879c0c33fcc7b089333aedfbc6190f0b196d8116715a58ab (-0x3bea2bf35559b21ee1af6631c7e605ae8e92a79fb237df733bda7f9bc26e6859) 0x5c7e2a6c11a7c3331d7ba491dd89a4febcbbcec897765bc15c89705f0f5ec132 (-0x4976153840979088ce3fdee3fec86c6d38e6f1d598098afefd2764b840127550) 0x81a1436c7c17603e2aad5ca98ae10419ace9dfb4cab3d6391b2e2ffacdd567a2 0xff4b722ef7fd982ea0a865c3191f82c57c902151f4147e57251724eabfa4e5fa
; Twice 0x70f849b323cef4510ab07097d892307b16a9d1c88524dba5ad4dca43dadedee0 0x1c657679229ee20b86531c520983472561f96e535be3fa81a806391b2f8f3a09 0x31da314bd17c4fd305c356700f72a2e9bc6947fa35b10bd84ed6a490dc6394cf 0x2c24b2c4bb4fcb45462205bf71da99a3c5c743923b2a715bd84684562dd3943f 0x1d98daaf76cc5ed8880143f5f63cb323864222f98659f6d6eebcc3780f42098b 0xa15c9702f4c83977cc66e49d7a875552033b46618a8c778d62ed3b0628aaf465
; Twice 0xc767d2616d33c94a5e271716fc3ce61ca36a1f29e4a493374f9bd0d88d50e2d3 0xf11cde0f435e7f48775f911e04de5a1e64e9d0df0bc00347d2b014f0bfa401ea 0x9b52932f0a62f208ed5a98ead5332d936210f6d48bb79b29788bba1d88cd511c (-0x57e0fabab14f0a4b5156d6582e72cedfacf8532c476037747014a4e52658f8b4) 0x8e6ad4ef1dd76b8f136a1be2d9764bc7c10e3e19ca6f1ee8b7ac0aa8652277ef 0x81cd24d667bb3fa581832c22a1aac7cea5c11adafede46f7f2ebf01e344cce7b
; Less 0xde5070a69efbea4392035a005e1b019ddeeedd5ee396c7bb8a4fdb0a901decb 0x1ead1613192ec20491435aa8b640e00bb9e82031e61e87ef7679a10193d24dd 0xc10f9ca856821bf62f566df3a67b12ecc759f7e3c027e1a3a42426aac17766 0x5975943b643512eefae0ccc9309798d5d078db7134e9c4a9520ab71f3fcb77 0x87fa99b595c25b66dac0f18a3764c9a719b9ed3b8a451709bff1ed83f280f1da 0x220da93034d246458947d64d3f76b62b780abc07b53eeeae2714d57d466385a3
; Twice 0xbc6ffae40777190700f5fa0653946ad66d2d587e67f4afe281cc9d4f23f024ab (-0xa68cef340d1873705ef589a68773a419cc3e0a5fb0c945cae94e70fa76b5d6d9) 0x8ab4a97afd4c39365951a96443c0550c2482b4f9e691ccb175818fb1e6626695 0x3002062f96424cc7987442ccf2eeb1b5be5342530c498fb9ada72e649d0cb634 0x46c218aa74d4fe35bcc108a7c4180ab3c253a87bf1259cc47c619f7f89410d1a 0xdd7be5816a769cda28983feca0b52dbb1dd1cd39c224275b6476d4135481fcd1
; Twice 0x8f189d9fd8462d672b0e5ffcbca71110bbfc46f176a9ffc5e866af7273f400ff 0xbceed86d11ebc71f36aeee5b65372e3b540b965da3b8f62522dcad7864414b8b 0x4ffc8276d2a0e96cb9a9f9b653e78c9278f967b17f24428ad6ff942b2bbdc3b9 (-0xb12f878d8d65b5dfcab1fe3ec79f105c79658d85ae6624846245cebb3447bc2) 0x5a91e0cce76a6b75e3e82e492d26eeeb451e00894aa8e969eca2fbbf1954a786 0xc00f9d06cf05e7b2c96be0c734e12babf04fc98b33cca62c13a9328ac1c2b5d9
; Twice 0x43e283ca0a4e4e5764742134bbef5affd9ed813b8f3a24dc67417d9ea1319b6a 0x5bb5df07838e04f41717e8c6660334857d47f46382571725a7dcf54d02af0b5 0x12005968c7f7eead2f05047cacdc3a062fea9f482041553a5980994a8b14ae14 (-0x2603b81303e5bae80de82bac810dcf3b75e159d480f1499a937c7d54c1f9c827) 0xe9ed19222c4e82a918f05f0d1962ebc70ddd26ea11d8828c888f6bbc8958e6ec 0x4abec4dc9368701654ca0e26f13dbb8b02a652aaa271507175b672ba3f987fc4
; More 0xee18f6740728fdbb54e4f7689931853b3f71d77fb63fc73dd74cc588efb5056e 0x75f6a64788d760f35ef3eff409489f24f833a6a6ccd2f6e0302a5c6859c5e2db 0xdd726cafbdc72e800a4ba622aca15dd28515baddf8c7a01868dd7978a9c1b75d 0x38c537c41d6671c14f0b612f6a93f96cc7629d78c90e839cbf3fd2f0bb3f890a 0xace321aa4b1b29c8092b109fe0668fa0c347f7ca5c39f11d1421657a5979891f 0x94f9b48af0429ef486644e146bd060b444ff4be4ffccace8042152fe1f67585c
; Twice 0xefc97aea51778669443ae07fdbcd5859e59ac714ca0a61de0279cf874409e634 (-0x47313dfd4915159f9b13f52f761682966c708fac04061efb1e2cc52426f8a020) 0xe099d214a3af18dc565342c0ab0e1412c5af33e2a80465d44c81a500d10f2607 0x947e4bd7042802a34c7a9b6fe483225ffa07b501cffa3c6769277df0407bcd84 0xe5a890f9b4071b3e965130dfafbd612ba906fd47069ae3f6834ff91bcc58e59 0xd7023548069817be9b95def5086ac5bc9ebb8b68f814ee7951ac845611e74960
; Twice 0xc199af65b9b8561dcd74a1dfa313b098aff64421bacd2169dfec820c590810e1 0x142c96694595e3441c3acdb34511154e2f6003063ec9398baed5e3f099ca79610 0x926916bb143543407922419ea43b0ab98d26596a271487ffd3ff1428b701c2f2 (-0x273484fe276d13d030e72fe0864dd972d0cab7702b74414f8fd775a9742e6b0e) 0x4231f17eac4e083d2be62ccb4548b3f15309aa69eb83c55ec949ca1abea38c01 0x5094c2a80dfff3d7386fe72ea3d79d9fef61f0c2ab52689f88880378a0b3daea
; Less 0x201266b609fd414d649503c4b0717b092ead57a648e8f5819644301578521b53 (-0x51faca1005b95b22e9e66d5ee4240ebcd59a4b0474dbfd3acc8790e8c9069d2) 0x4049b002152e458a9dbfe9193e40e7c6ea3db03e3b231b04e663b9a5c28a097 (-0x878a2b27cf1cdb229159867cc94c5d27c7868353b9597a25fe8449c9876ad2c) 0x85d0250c632bf33edecd9330f015a2196b37b8c9292fd2e618d7e7cb1902eee9 0x9496593a9ae92047e15a8612c5412633e307e5271841f96fa0823842fc29eeb2
; Twice 0xe7425914a5ee80ac2b72e3368ca5bb7f712e3032105f321c1ca208f0e6573542 0x3a9e8ac538f249bf11be48fa508e773d7032421a37c12ac71af6b88cde5d6868 0xd0e8cdf6220226308e9236b223429e678e9ed8ccb7181b3e2008c5a9fb7696a4 0x7535961f101a50b2dd4df9462d6a74b5b97b87eeba3cea71d27e114fd796541f 0x410778d319f79629a99149e7f49f083243420f0a32c6efdebf9c33b9f611dd6 0xd35601e0f7a49568ce841f76926a87086cd9260df2d59a268d1f4bddd6e23b53
; Twice 0xc3ad5c741b63a4c7bbd91387502fa7721487006386260722af076d7b727b4285 0x142e1b35f51a1ed129c2d0a7670456b1979f81e08af329ff81693c4577f881c6b 0x9591903f8d9c0a4c69d620c2a6339cc09f474b12423d03f2edbe3c7e53be2219 (-0x205dc6a2035da96bba450c3a649d0e65e8958ab93a0c38a80287087ee8df0099) 0x2e688eeea2eb88c8f7b99adf9cd798a698dc5d240fd839febb59e66c8612bf86 0xdc0e0572c3f25cbb9ab90948f7fb76c166807e898714cf7061a36d88ab663a4
; Less 0x9b2df994198efc316efaf34ab593700e3458e92a92efff49cf265651f2f39d50 (-0x24c9038c11ca06c8340a9bfc0d3a4a2736234acf879e64f7effc010f3b988567) 0x5e10b47b666645894493780ec4b7b39b147c92041b316bf407b5c365b6dffa7a (-0x1e5fbd10ac08d859f962aa763bb76a2a1ef1679b34fe398fa67f1788ddc8d445) 0x608434ad7630a8e34abbbf42821d6de4f29cff87ff785825bde76d929ebfb15e 0x41fe81d89371261adcd06c0bc05b0ed22942a6521feebb74f8c61a75111bbc97
; Twice 0xd7c049fa2237d396ee3d29bb885e32de9b88aa3c3b41e339c4371cb5555fea1b 0x2125ea748472d38a94f1439d39f09f98b0a88c70b2cab3a3b8e31c5f8c587af 0xb5d48cb1e7e241c0c8e603ef5ba5c20b79e25949553de236aa36bd21ee1fd5d3 0x500cdaa9605b77278c5cec76fa45570bceea53815b1aff05451ceefc8094913f 0x1885cc4ab2ac39d64366a5ce24e6bf75a627ba6cbc30cbfef51a99034bfd1f0 0x47dd488027b30b028990ad122357c1d1cf8d2dc279b799eac5f0195ef81f142
; Twice 0x8ad7a17bcb8ac6bd28ab1fc1d001fc7779ed6233f246a66fefdcc4c3a00acc6a 0x4d82e138d9c75c3a0fc409f0706b6ed3065104c509e27696c0c9ce687984855 0x4b4d2fba668ba2f9a3fb8a42b8581e39bb1037874f0447b0fcca94c8784c87aa (-0x856da99ce8c5f655ebdb6bf2467f71ab7ba3628ba617fc60e87b97dc04691c99) 0xf78ce37d1e0d530b4107aa10c7460e84edff8e26c03848e81dda7b1d2a4dffae 0xb6d1e2e6adf66284373373a2183547d6514b7d776ddcf1523eed8aa489569979
; Less 0x7125e577d968f42141232897bac94f4673880590aaceb7c0e8fb9e1e930bc0a6 0x3e14779046533d94694e3ea1b8cd50974f0983a898f68d12d07c0e776fb64dde 0x32027a3022459d1d7a5a8f482067c972a85a112b57dbef89b2df7ada82f9a19c 0x643ff19f767d503bf3162aa6b0e841fbe7d48c75692a09b54e3088c3895a0bc1 0x14bba1a3395dea33b10d96fb86402f079582c76c2812276292ec552843504afc 0xc03face26f2df6c7bf9b07f56cfbb53e6787a597fe27787a2617ecb009b21db4
; Twice 0xef5ab9da580f559a7d9a25a3408b0c7b3bc9ffd9561650e633c6bc73e8237ac0 0x162759864936686a4547fd05ee7139e7378a851a869f6fa5aa05a57fde3afda2d 0xdfca872dc4aa614bce279d3362ccf2e1b75ea971d840047c3adf0fffd277fd48 (-0x74f6ae79d048267c09ce7ef3d6a97e1f69ecf78ce0230e4dcdf7a126b9ce7fab) 0x91d4a3a2080f96e14757aef386cfdcb7c3514e1d2a17f1eff4b101961732f750 0xe2d898867fc113dd5e2476c98d9207153e1b0736360c5a6138e04aea9ce21ba1 ].
Definition text_13 : list trail_step :=
[ Twice 0xb52187ec988a3294440bb5c6a5c727ef57c9462d16ae8f2a4b00b0a40169814d 0x47c9fe729b66e8a3bde7aaaf09c4b3f748a007e4e3f1b4b2735b2dc992938a23 0x80286e996306914af05a448dc2ea3d1c7560813d977d564ac5aaa95bba18bbe7 0x523621afd1e08d2a8156e26d760c734372f5fa71e87e8db8568b9024955c02a5 0x1da34291ae15b53b79ce9f7ecb84d0288e175eb82bc1a274db422f55782b7e70 0xd6fb09630b39ba372ca7996d3fac8e2e4fd0540edb2d4459bcf6c3d605822264
; Less 0x9e510175a1f76e174bb83763b45eeda80e6ffbd31c7b8162aabc4cb12c7b57ca (-0x2fe672d097059b91c82ce71d037b90abc5e8b1b4024c752eab33f0d4441bdbab) 0x61e8176f82482338ee15523d1fe5c354f0fae89385001a5bf13b9381fdbfdc31 (-0x5392d93aa12b166e8a817274128de932ddc1e297cc55849aa6f89f6aae324095) 0xa4c70bb2c72afb16468de1ac09221d82bc14a3b61e9ee1b7207221d59732868f 0x5be5958eb9c3e5bc4f2f21fd5bb505e26c825cbbc92a684e18e3c9e63217ab91
; Twice 0xe08aa8672a5c4782e59ceb84581e92a953fe1e7e647a35210cad4699c0c8f6dc (-0x9cf9931af38be93f5f496cc51e55b363c43d33b54339f606ea2b4b908f378198) 0xc4f2f1cf4d15ab9cee34a4904ccd1714993a0f46cb5f9bc3b78675693bfb2bf0 (-0x9cc8c690d01ccd4883dc81409be169e730ea0831aeaa94a1990338c124fa670) 0xaff30af2d34f3ee3002ef304c523d456b7057e3f8b326d95a45fa4c2b361abe2 0x43a8bc8b606ecf27a632e08aa525e8929452ad94df435eee39c54445cc5ed8ab
; Twice 0x391d071b857e14b9cbbb2d6df933a960ea7e96d0bab1e325569fc68a34de09d (-0x168e787639309dc38a571120b51adba518a9183adf968f9562e84e4ad7e5be735) 0xcbdf074ea9ed882a00932a7a588023c44fd8e53923a824f192f3baf7862b2 (-0x4340c45e71ee52f6a12ee03035d40e6053570532108ed3f039ec9deaa068bd) 0xc2ca398a2d09e3c49e16b5b70bdb17d2ada8360b5b21c1fbf2cbc0ff1a3a2b37 0x7adf9015311788f48ab8048c4fd43398a1a52ddf63b88aedd92f755a5b3f4777
; Twice 0xb0c3e0bda1d313fb6e613be2823392be296ddfb362d997dad9a72d53672b61b0 (-0x112f5ee6dff57ca7af5f8293e4bde4ca5b55ca63d28ee0afe0586349ed67de030) 0x7a0deae55ec11598c871b4c36f063ebfde8071ba0261f364422bff0746247c33 0x8651e517af5c3ded412bf15f8c7c25f2326fb0157061b92a3e889bbf39f77e82 0x42e07ed2016e8263d95e00aba525e7fb6751ab1b5d02d38041a51ea816fec5 0x8b2bdce61b42e2317037a7fb0153cee3fc81f5f5ede09663461121b2ffe3f76b
; Less 0x3242058fec46718a3ea86c4f3f46bc0efe9812e4933755f1fde49cd77aebb154 (-0x14f92461381f431b5575f9044aae78b1834acd6c0cff1c4438e2b987ca89f50c) 0x9dddb33207e240433969595a28cee475b0d792af5021fae56a14ff34370fd12 (-0x2d1c00a86dca438d9f951e343b49f24ed25431ddf850d14ac7a7ee65381a5f36) 0xe6093f5493bf322305883f415e4a913fb1dae8f8f237b4e4ba662aa9ddce7f47 0x89b0e7af8a2b1dc7bb38c6953e37be9dc9c3ee625df027d5d25df6375c9b9cb7
; Twice 0x8a3d07c31892fab2b7a33a31ec22cedab61eef2e0a5559d1dc27a2bb645fc639 (-0x1d76979f5197959ff7cfd5e7ce4209d9d1e1912ec56cff3fcaa19930038e64c6e) 0x4aa5daeb545a4745acd7809502804867c82d15f916c045a4b2e7d298ef885ece 0x76d7191d230ff349346134fbc6305012c488562abf25483b05bf4b69c2ad7858 0x9f5864e68126ba6475b4a7d49179f97564eda64d56f0d029da02f3c73b598f1 0x78c71c56eaeefe01a24263836d74f2089bda3a425b69cfb10805b6a759ada8c7
; Twice 0xd008c94b89da98dc4822cc846831a8e27139ea4613169b85984d7b3906d25308 0xc3224bac2403cb84a070aa29ab07594c16b1bbba62589ec955b4ef8a01b3a230 0xa90e47689c11d23aca5bc5f3811357d5b1303f16d230c2c8645fb40a5bfed76d (-0xd35fc7d8f50932eb03e77a247690c0c0a39256d0ce7876a49c2800acfba3d1f) 0x1a3748570b1c036a48c295ea0104931c0019510477805574c19087d228a1d5cb 0x9468882fed7dd5c1550b85def2fea8c41d3ce9b55e5754bbed883d3690a7854a
; Less 0x4d2028a8ca072ec3a36539f50c1e7976b4b71f5008dde912a47b6d97660e098b (-0x185db24d93e97073eb395d82380d194a4e412c2e2c0699476b02faca29197388) 0x173c5c7fd16c5ed922dd9a5ba410d0d64d663e392f3ede49718286015e98d332 (-0x211e323778ccbe6a72d6b8b8ad50e4f9fee3237935133680e563c69878e97d7a) 0x88249f145772f004bcc254891cc11c77a9ceb333145206e8804195432ced4c4a 0x932c326e39327df06e369436e706c9c788b415c41c2daf95b098716ce5592f47
; Twice 0x86b38c813d14656a6e2fab1e0aec4ab9e08d49ca93f61cb11362c4e0f9acb5b2 (-0x3e5414a19cd84fc24e515f7184a53e1418e876768d0950158041570b5b081493) 0x46e075055caad5c34007b6468b53eb97f0017b0b1296cc167f8df69922764832 0x20d476928180a94e95d2073329103c6a7f62db66b9d5c4bf3d0c0f33756c26ec 0x49bfef75bc7f0e5d02a21e5d73d16d9fce6982fe4954fda35f4ac18bb4c0df62 0xfbd48cff0b7de622075180588088124a6c09782d6e725356c1fc6a165bd6b8f5
; Twice 0xc6247bc8ac4117009f7767cf37d3f9f30f60e702af2d7351620d6bf10aa3961f 0x146177e037c9231f19524c5dbedd23a13c7c31abc586b5d3f0ac3c1626705bd33 0x995c74ae101c09650b4f348c26d4a39f534dbc6b8d57106a69c5c5aa97e50fc2 0x37e084190529f822deceea8d8240a6fd7525e2cf86bf4628363503eb9a568c94 0x18e828b866982f167783aac02c431117ba07b5a881ba4286e4603341de5a8bf 0x47273ac67db4bb9c9e4589e33f0bff6bcf824552f255a83d97826fe1cd7f35c
; Less 0x7ad7a22e864f14f23c833ecc1212e996c809c6a821eb8e3013d5aa687affd5a2 (-0x32a4550535fc8356b3b4715ba57595473d50fb9c2f036e90e5ac08fb4e697da1) 0x3af23c3663da1f72dadb9d89d438361ed6d80b491ad10018e7d66d09e39a7c98 (-0x1e4c2f3484655b0d9b1b159003aee0220a42c427ee924f681aa08c47a28031a5) 0x40b22f1f45ecf6c5c56666e2b75d1f569a79927dd6b3927f0334c379a01f0bc7 0x52504185de77fb98391760e8096611aae462e58bb268759c80d02fc8a3f987ef
; Twice 0x41951f93ca658c518d216f5dd329387bd362d0b5fe3bf7159e1de94302f992ba (-0x6e013bee54136f62e0563af7926ed3a4198c6bef4c944f8193e056b405e053c) 0x10cd10e6e3835cb43beeded586384a2988d522c7f53434d42e8910a0c0e2586b (-0xc056bfbf4639bff25cd57d587ca74542e6cd404752de22d543b6d3e97f0e075) 0x6f9ed655c5921aacfd9986298850bbbdd23a82c17d03d8f7da05c4a32a90f001 0xcfe37d034f1e28cd47c16bb2824cc9523e09480a20dc3134e4d9c817c8c2b178
; Twice 0x8be00c8dae27c96b01e161c92f6f0b2f45cdc641309c6112a8d7d502616e59c9 0x512b8afd2a125decbe8b611ad3ef389ec58dc4f80911a65341f5d7a18e258190 0x4c6d11b8201aa2cf8c2b9fbcacb952be7834abe9b83c918faddaf157bef5d349 (-0x49c4c4c0016d6db968550ce1122f89c60ff6384ada2d4b85318505c1f9a12a3e) 0xf6a1cc4669a703da267aae7857146503a432370e79d9453de5a418d1040d5318 0x2281152a2d8d90a88428d39bfaddf4d8ecfcf28e836f64e2b235ab5df19d583b
; Twice 0xe8178478b66146644ad7287c43f05c0e6c8203a98e9b9cf852ffb53c034ee8b9 (-0x28a41c34c55f665eebaeea1ca779cae28705e0b519790719c3eafdfe0a90ebe89) 0xd26aa244af386c541831165afbac4576b9e5700a5e2989a51f4f07ec4542a5e5 0xbef1f4cc1e497cbbbe43ccaefdb9bfa581815725b8c3f2fecc3b596b0b806f95 0x24046ff2f66b76be6e4808dcab9d464c715699d90afc6ca29ab278c93773d566 0xff24514e1aca84facb23ab6362f4a150525dd4a42a90b5d2c795d81070f43cfc
; Twice 0xf6ded369b0957ff38b9aa5d3f844d8073e158e02253755d141f65d99a4652fcb 0x1dce235f97413b705be9de9ac15664d62e608bc9b000c2affd6325d35edff6e41 0xee1100436755fa2d3954a5fb5265b7c417e569c9e55536705f0330a319a9bda2 (-0x133fb038018a2d80f1c1c498d1fb9a2ae11861cc5565e842c1a887c1b65952c7) 0x37fa5ba164df8a6a07664998a6753bee1a6c3396b08787058900aaf181dc3dcf 0x4081a6aafcf7ba93ae861571bb9ea5ecc41def429f29740f25bfaabc374f5dfa
; Twice 0xb8337ee9169a4f6d4aca63bdbe657a02c19d0a6c044550544ab3a5c56e7903e7 0x381bba902f3ec1c55ed9cb12f200a55dcac8e63e439d8f2651a711035e5972f4 0x848a10cb64d12aedae68e3629879328e43123224e20a8bdc9f5064761dfa7843 (-0x8449cdc7717c234b2e7353509e35beb2966235e19145a6ec27bed62d1f96e963) 0xefd48b2aacb6a8fd1140dd9cd45e81d69d2c877b56aaf991c34d0ea84eaf3716 0x34a7e72c423213443152c82df94fe0f6851bf894fd91c64b19555346093ff492 ].
Definition text_steps : list trail_step :=
  text_0 ++ text_1 ++ text_2 ++ text_3 ++ text_4 ++ text_5 ++ text_6 ++ text_7 ++ text_8 ++ text_9 ++ text_10 ++ text_11 ++ text_12 ++ text_13.
Definition text_x : Z := 0xefd48b2aacb6a8fd1140dd9cd45e81d69d2c877b56aaf991c34d0ea84eaf3716.
Definition text_y : Z := 0x34a7e72c423213443152c82df94fe0f6851bf894fd91c64b19555346093ff492.
Definition text_n : Z := 0xa6e3c57dd01abe90086538398355dd4c3b17aa873382b0f24d6129493d8aad60.
Lemma text_trail : trail text_steps trail_bx trail_by 1 = Some (text_x, text_y, text_n).
Proof. vm_compute. reflexivity. Qed.
Lemma text_reduced : reduced text_steps = true.
Proof. vm_compute. reflexivity. Qed.

Definition token_0 : list trail_step :=
[ Twice 0xa249bcb3191802d3cb56fc75a8731f848e7b2caf080f3477a4e4d904a671af9d (-0x211d1d206a8228ca3f068bcb77b6c66e965b291a72799fab76713dc1b6ea6cd9) 0x66e168103bdfa57cdd53063189a61e37915827bb44d670bd3c287263db86185b (-0xb51838d2fa990fc8a24a572b59edda8bd8fcf1612aa22bdac765f9f95e4f3a0) 0x7cf27b188d034f7e8a52380304b51ac3c08969e277f21b35a60b48fc47669978 0x7775510db8ed040293d9ac69f7430dbba7dade63ce982299e04b79d227873d1
; Twice 0xc2489a9eef61dfa06d3741ff3b405300988bd0db42a937859069b9cefb576e35 (-0xab9e4db4a865c5d9faa5ffc347a001265457740d67c4105697320488b09397cd) 0x93721ef0cd0cb79b4714ba2c81dc32cce646a0350aa32bf6c06d0cf8f458a449 (-0x4cf01d696fc77cd660b950563834767fc99586c7873df1c1e82cf2a1c41e1447) 0xe2534a3532d08fbba02dde659ee62bd0031fe2db785596ef509302446b030852 0xe0f1575a4c633cc719dfee5fda862d764efc96c3f30ee0055c42c23f184ed8c6
; Less 0xc43b59aa5e07eece8d1178caa23df1d4a345f07fec8a4edd40df51f680a162b2 0x5b652c8adf483b2360eca8c7fcb8c62f2aa5e3d100613354e8a7173cf83bb603 0x966aef0fea5653263841c722629ba96305790db4693adf7db719871ec0930490 0x64d227e694e4e5016647f2282e64eaea8e27ac3c13e89e249fd056d96b2c890c 0x5ecbe4d1a6330a44c8f7ef951d4bf165e6c6b721efada985fb41661bc6e7fd6c 0x8734640c4998ff7e374b06ce1a64a2ecd82ab036384fb83d9a79b127a27d5032
; Twice 0xcffdb37b9cade05fdb719f4ad73b00878ccbbf536584dc9d3ea8a8ba9b0101fa 0x726399a3f23fd10ae6853c461d25a509fc4615517d9d58f497b21ba5a78eeb05 0xa8fc43aed0873d01c0a4800e6fb6c90e38c9bdd55b65ea5e1f2a3f7309faa45d (-0x420ecdfec3e99cab3c7931cea6ad7fc5bafacc584f1bec77f7745f1d94b52f5a) 0xb01a172a76a4602c92d3242cb897dde3024c740debb215b4c6b0aae93c2291a9 0xe85c10743237dad56fec0e2dfba703791c00f7701c7e16bdfd7c48538fc77fe2
; Twice 0xab40f035841123b3c17483cd304400824d7bb41358162d7ebd135cc10cca8974 (-0x348ac7784834a2e303c152ec0339547c8eff275f406c100b2d04617821052420) 0x728fd160ed2522748f1334895abad8bbafa0054f6b93fa07d657ddb8e98caa86 0x2820b70d38cddb3f21535615bf710810514d877896ac16fbabbb76803157a8f1 0x741dd5bda817d95e4626537320e5d55179983028b2f82c99d500c5ee8624e3c4 0x770b46a9c385fdc567383554887b1548eeb912c35ba5ca71995ff22cd4481d3
; Twice 0x1f6df16d7d668c1461a62603a25c5ecf812d0db7b105567aab06f20166315ff2 (-0x9c2d77d695e2ef6779374d1e8e57abd1080931b7146cffc64d6de8e2a75682bf) 0x3dbcfb00326c3df52cb4ff65f5ec2732ff89f147743f90e06f85f7be1daeb8f (-0xcaa52e85c930fe57d3f1056dbfc3fe09aaf62f0ba7c977131a231f70daac13a) 0xdb474918ec62ad7eb652b8b0af585aba9b2f394723ab103776e27d7d8c2aa4cb 0x85811d39bb743f28439794607b06d52b8a249c47830a37d221db656c94a7ab55
; Less 0xd6d94b641ae2beb0707c4f1bdcc27e29c44fda34fdf2419c5b4647e74e29db10 0x5e26e6dff100c557227b8bf4707d7fb8b2b119427b6f08e4dea1b59f664882fa 0xb450027cf72c7c9865be346decc581bc63bb13c30a372e5c47084ebe03f97ef7 0xabcd7cc81f4a65138cb41c24bec654271efeec5c5ba3206c54fb0205df973e5a 0xe91c7239c2640d7d28a3e39d4583fa63c0bc0a5df64a4fe672e573045ca7896 0x5df65c3b550dba221a22733bb8e0bd6d7e68833575e7a5ae138046543140ad55
; Twice 0xcf5b89f7dd400a0d40d51320369c2f576baf72e15c3c0a7cad2d4b710c28ad9c 0x95bacd347b02f4dfebbf59d74b9e5641d65d92cd54dff63f7f9a0b7c90e6c611 0xa7f529dae055406e0831f953ebacda6af1c8bfd55e9575e56e028e7f2071e014 (-0x8429186ff922730b35873ba4c7ef1b128b68bf3bf60d04bd508b036a45743443) 0xb1bb852cfea701fc42caaa1a5b5eb6a5174e94f87c4d3b0612b46293eb5925f8 0x1d337dc66c7874cb46047d206fd1e6cd2075978e09ef174f783ea1f98bde3cb0
; Twice 0xd75bb232b52fa21fdf4072cdc2d1b5ffbe3ab485f3d687e4e3632b4bed89cb07 (-0x1410d1e0786e331d61475a8cf18015b20879821e8e6393a3f0b69ae20ba9190e3) 0xb52b262a0d988659a86063ddab31102135cee6a7420876e5a441f53ac52b8ff4 (-0xc3147f79db029a413a3f575352a318a0cd1c1f88fca639ccf2b2351c2c95f4e) 0xc039d74df1416c3a080e9a658ea59cc22e0decd0a003b644459cec42d2fb5e35 0x66d095e988b614135104ae5d69f052f0b21929681dbaea056171e87f27ab7b57
; Less 0xc0e858029e9546412c9f3fda79a706a8afb89030f5de1e0404f00a8908637c98 0x4026c81df7953676f8bd9d2eb12841604fb094c2c7f96b2dd371f254cb0062e4 0x915d56e4223e7be226cf66def3a55ff36b663476e4ce01b6a6855882c9d7bf55 0x8b197cb801175cce04141fea8b4eb2905f4d7813b121b75835585c3be3f0e018 0x7a1e7e2c7de6ba130c619436dd3f71ef240907ebc70710189c4cc1d387738ca 0x9cfc4945aa3fd5ffb2828204cb47806d03123fe158e45dd241a8d7714d3c7049
; Twice 0x432ad5799df484ad9573f31cdc3dd6b88e3088ffc0e32131f8d34867135653f8 0x51b1d3b82125c99def7a3e4e101587026450bc1dc7e5a7a0174e5ec78c3a1ab9 0x119f72e87838df36632d42af1ed772faa23e8be67cebb229e0022b384b30082d (-0x14a2fc07212c5fca2e81ff3e12caa2a38c05f1afa7fb7c27f23d353444ddcfd7) 0x56495a63128c1b0c66cef4ff51f594a3fdf448f2ba682c76d7719221306c56d9 0x2112b55bf01808523481ebbc53d6823caab2c7991b684c1bb55a088189a7c458
; Twice 0x4b9782e5d97bb6246d8c2af43c894dd080631259d9058bd9f7010e154f2466e6 (-0x43b7fd15c55ab768483eeb1624fd39cb8cc53a0f5aec73417678782c44ff6250) 0x1652205e71d56c4907c07b710038899f51097f2c54b20ba542d1c074bfa2a5d5 (-0x1191803e9a2d970cb2a08f7af13f00ba08427e333abfda27f13a4a0f1ec8936a) 0x91c8a135b301d69ab7560211ecb5745cd193067bbffb1bea456c229d6cd60ec7 0xf03a2514c8b482062e9faca8bcdf272b56c8c109b6e4eb45f5f62498a1d3946a
; Twice 0x53c7d7930dc115e3da863a2f80b54d147df3a180d660a8625d8a8481d336d0b6 (-0x5bd1e88aef1a27490c92394cb21195094bb873ea7077bedd3b331c1b6a102aa8) 0x1b6b31ca527e1dbf1e44bcf3a29932bfd45d8a6ac2c0ca5aee15c63cfb22114c 0x24d848295ddd761524fbcc261b1c1c26a6484896a967db3e92ceaf7e3933ec12 0x21335c5bbc41bc414e4a07413f67e9975192e40b2f34ec42b632f036dc663522 0xb55f9826c7eba3054337afea524fb8ffa9d5b113639cafc0cbac1d4b0f8922f6
; Twice 0x38835ed48c33429dc1140cdaab04a752e1b220af85a43385487c04d573ddb508 0x4329206d95d2702114cbe0cfd97e3bc840f45d97177fb8f8dffa1d36319f3e29 0xc79bce73a786df086855b60c8ae71fb7354fc6eafd82393ea839f404971c1e8 (-0xf7f7a19c978589afbd323699e1d1f29cf24130e5931bc56accc995d23001796) 0x6767b4a087f6b3da370835c2c78c5631f76dd64c0e39e7934ee62ec9d079a7e4 0x24a895b3b89830d2c99feedf108ba7975097700421fd1302763c796d353e0564
; Twice 0xc6729dd0af08eaa3e6c25ae86d3f34a2aa791c34ed1c3d27baa49e7b10a903cd (-0x44783d2a7541de8c401378d69c73724cc02759c82508cbda946b36ce6c9330fb) 0x99d57f7057bccf2416ccfde935303f6719d132edc0eb19cf7caed4998952b60a 0xd59c66952df27a6521986fda2d44f34de452a4ca7c57f45067969e697bf3c2f 0x562ebbd62f0cae18e4ed1a8070a5f2e29c72592bee9d3aeb45baba138d17d86b 0x851d0060e3d4cdc99d09b3444752657c029d599edbf9a8e76c7f7ee40423c5b0
; Less 0x2bdaf1d40960b890674c55358047afb513eca0de06851add7d466b6d95a91d4c (-0x39508f4698b71725b7f33aff91db639fc5c0a7c136fa4a872483d8321ed8497) 0x783487e043aa880796475d174dcf5c2454e687381d86d61a14749f777fba7e5 0xd5d225e408fe52f621f1aeee610a18aee7acced7387b7cf7a45645c6badf6c9 0x82c41652492d7189ef3e22c08285a009581beac1761cd29cc7a1d283bfd5b74 0x5f55d22d97fd7528f474ad3db8ec893ee0b7ad9524da74a64d548ae7bd9e456d
; Twice 0x60d3a8e3fff91ce7b7fc223b275d9a1694a10bb73e9924536fd7105a91349934 0x47559faecbea8d89d9ec18046cdb9d6fffb82885d4231fd9112aab0e2e4a8765 0x249f6daafbde430530e0d71114adbb24a2f7cb2559a209bf2eef32aa06f7508f (-0x21cda7df1cb7397c48075290e2e42db74a28caa1a3cd95535bad0bc09021cb62) 0x618b9f8b01e27b2dcaf9bfa1c052c6500043d116714f5c8901d1d1450fcbcc37 0xf57925695834d6215631d1888dca126b6760ff959960ed1b8e50d08af0507c95
; Twice 0xbb2a171c6127f5be4b431de20304ebd1af90d8f6e96506db6096043ff6b4cda3 0xf76e639162f923d3af9ac8d8e4ced8c2e18207f916875ae8fbfd87b360d7d3b2 0x88d684af962ce36a4580600634dc6553d83481cb3057b3b7878e2d13529eb643 (-0xb493c1f6e3fa325939a6960172f57c08f21090cd9ddaf5f98cd148e5045d18b) 0x70fb76fe6283ca42783fb238f258d8332bc957b5cd613953c018d3aa496d939e 0x3e8913d1bf98d20f7e44b998ed45ca539d970260bf08d355b3eadb96524e404b
; Less 0x1f46733399535f4670a115902eacb9e714437dc1e85959f67f33ca8361b2d285 0xb82fe1f98c2c510f6741aa6daef70a3538c2c962dad078fed122fbf8746918 0x3d22349b703941c37a40e6dee18e662ca82d3880f4a9cccb539e68daa763c36 0x8dc1a4d4f352a2c9aeafb0523dc6b5f3c0dd105c77efff1a06741af2386a095 0x287622ae34a9b932ea8b8547b20a6b92121018634a01352f2e04322dc0825f1b 0x181a1618e32295a2cb30f6cb87df5915a70696a0160d9487510903960a941e59
; Twice 0xf4b5504249fd45e90b881a44be1057e4441d8c166f8eef3a41f8c34ea6eaad1 (-0x104e262d61f954c71b27ab535a8d4dfced739a6ef3acbc7ccee7465516609aca) 0xe9ea2169dddb0e3a9522cd2a13b00a2f9d3cb6bf9808ed19c199c370457b88 (-0x7933061c5c2890e80232882654442ce130ef4a32d37c538c18546740e90cabc) 0xa740dc695d3ef24bc0196c447eb1271a139d35f58e33005702cfb26d40d6fbf3 0xedd1c3abe0eafd8c189cb8e126bb9a28b013ac8716caadeb346f5f4d1ccf9a93
; Twice 0xf42b1977b7eaac7fcb5208e010b21e527ec8335d1c17698c6b961042239f4718 0x7dd6e0c806f1bed0260566d0cc769a57599e3ab56ff254758e78bbf2536ab468 0xe8e22fceb039eb5fabd9184ea54349cee49cfe35615268b40fc3d9a45ee835ca 0x70b5bb60012e775a4b8c767d0b353400f87c7277d146abc6491c739b7ad58a48 0x3114f76f140bb0c78eb6b4c4ee63903cc263a53a421513e5b63d0db3d0c89024 0x6f8215388cbcec5c6281eca93faf075710d780aaf5ffcad7125940d521d7741d
; Twice 0x4bef97dc733e80349d8786c68538859cbc0df7d8e54be56a7592b221de4d5a6d 0x25ebd84e0e6e67663f752e82dc844145a6313317c23c7b3d550be759a7aa4a7b 0x1686433829c1ded44c52ca585c7358c8925a8352c84a48d264202247418262e6 0x2a234bf526d80c70525491385462c74b09b50b36a1200f47cc10a04e0467e06 0x28340a3d689ec5050537d8a83d04aaee77e3efa75d9b67cc60b52b2e31741507 0xb275653cc5f285a9e6e0672907f7ad9f80019ead8fd276be5c4a6e017668a742
; Twice 0x66aae5c55618c84387819de259c2ae2bf1fcd9c07e1c0c3ddb8104585d551034 0x7c32e79a78561c35b8a927c34d6cbbe66276c2e1afd0b40c4c040fd104f63fc0 0x292ca12f62195dd4f7f9afeba058b251dbd07ab40c32cd07ce2ef68c2edb7bc7 (-0x2078b224022cf8e6516ee20c92aa198f6ddf0623363013c0da6f9eb4db4c33da) 0x792b9e788e770260d9e5ae5b8651a2271fec157e113b11154e304df95781dc49 0x7c28461ca6480a52fb1aa74ee05f7b3a254c53d330db42c455b404fef4208b7c
; Twice 0x2f7fbdc131b12f5846c7c8957dd150363f525deea6f2994af345c25cbacd85ac (-0x7dfc17f34bdd8a120b0967a30357164ed63b943f1475a2826a8a375f59e3a030) 0x8d0276acb6559c5bcdfd29add553aa019084a4160dbcd20311696684e7e01fd (-0xe693f356f614059bf57af0951224a6bd657e9e5c18ffd14b5274c63d1e7b616) 0xc6d7242b3e02857c758dde23a9f5f0c1258e0de8145e15aa760e0952eabe74fb 0x9725fc0c5186d4e8120a8e94e1513f8ba111d90d49a9380ceaa892803762acd6
; Twice 0xb6b0db51c1dd18eda16e4597eb56724afe77500099fe288c165a48aff1b2a2d7 (-0xf799a8ab5789a899e819459a9bfe24de1ebc47a0393e3e5bc4e9dda30dfbdd2c) 0x825ff2070e55dd473d9c24f10fc127fea17f15ba69adeaf1260e9818ee4d9413 (-0x190f315ebe393a631f43ecd94d335af0eb442c187923a84007302a10b8ccad6d) 0xe9f49629a743d6c6c98ed842a047cea44d330b44fdbf213c7f23eaa4c1617aae 0xaeb2c2b11b5ff63963e45c0f490f2b4f55e80d4e34177af7e8414acc29d59668 ].
Definition token_1 : list trail_step :=
[ More 0xecd8e74e49711a6d08a666607bea5dff15f3b4aa069e18f6286b283b8da7eee0 0x755f01c882ea1880921b20a4e53f98a373c21dc13cfabd5fb91b051057a6df73 0xdb20a24057a37a501022d0b677dbef1b61bdc834269f6a002f7e4a6a89f9df76 0x299b0e2ebabf1e0c9f4857a710efe39d6cd16f96edbce3e53fbbf1b88a54fab5 0xbcfc3b0b7695f5630cea7c454f6dde14dbc68266575dbac97f69ad0c3724e632 0x36404513918db266f894b02b9de83553449dedb9b68df326355780cad07098cd
; Twice 0xed5bbead32d6d816b38a8adb041176d62d6a673a9bb72920399cb628871878a2 (-0x13df06b507ea8042cd658e28ea948ddc38da43a55523c07ffc3381bad1f07ee2b) 0xdc12ffeea95c7d6a1f1608fadcd026ec0de410e45a844732253b552b415b0a85 (-0x20ced73a44858a89552a98be059e03fad28e8439605a42cd38a5c4a2bb48e17c) 0xe05eb2cd67cf5f7ebe99215bc1733752ff537c7f7b52102b9a4ed744864984a5 0xf09fadb2a279024a7a3185a4e920c02655747475d8272a93eabd5ee1b50c58f1
; Twice 0x2df607ede3bbe5eaed33f8668c9bf5d83ddffbef15ffaf4d7af395479b035956 (-0x1f78aeef52c08a0228171b13eff22939493d76082835f31e8ef19c44f314b9ce4) 0x8406b3ce7c106b311761247fa687db886e1f39916c6526d48552f9dcfe6977d 0xd6db7dc0e657912a3533dcf80c1f156a4e16edec423972638b9fb6c4b5be479 0x9592d6f18214e1baef2f226242b2f7f6b559f81406596bcce4b239021e847717 0xbdb7c6748d1a31c714ba7ed180f5c9e00bfcfd1163be9f36d58ecbd316e2773c
; Twice 0xdce6678c98adf69281c85b3addd62e4949a93ba0d568c4736c83cfd5d636c71c 0x413c957e6e160af3ac02ea2e6f67377a8700fc1cf933203993a7c3f58d21cf10 0xbe9cd1589f8c99ce14fff8f8e6ae7cdf7e223c966b8ea729f9d34a17788c61a6 0x63514fee19526aff62bc52389b086332c68f3cf1184f9a7ab28a340b4b4f5eca 0x2279905a57d0d34e041ffeaa873dc3e3b0fa8efbde0889d2577d1546a62ffe88 0x7cb28e748c0a6848da2edaf3aaa56f6617b9e499e1cd71e4ea4f9d6ff8b4032
; Less 0xa4cc63673eed90f3a3f159529f7b188f5bd0312ddc411fe807c23b14e4e482c8 (-0x2ebf5c54a92f7d4a77227c9916a3a976ec4dd0ce2849009d64f84fc51ed526e9) 0x6a16828b45dc33317adf3744bcec2403301b4f4cc1008004c625345e124be091 (-0x59662978659f3a2558124b3d02b0ad5a7535f5589d575b6ef635f53638501a41) 0xad593afc03f43880e88b1fb0ae9d7de2a1d34147d24849c485cb59ff0a92dbb3 0x5a04f2d6d2a2b303d202ef39f176723cf99a24bf199ba156f9301886e04c05f5
; Twice 0x7535872e805764d83bd7da4b2b05be6b31826758f70029afdfcc070194d5f64c (-0x10db6ff624290ca165e6f409cae697b5c4660ee3d9cb9c29997ec886c88212800) 0x35a9f8c1f79d12edb64afe95ef78e2e1c89c5ce5d3010c38f03b875136b0d38f 0x379eb633edf30fff85588238684e17c469c063e69e089515a5fb81320448eaca 0x33de054762fab062b1fc3e33f891bfcd2ec990f3c7de9ad70970ff86c8f942b9 0x68e8470b0165dc94417a69bac5335181c4bda5c476ae1f0a5889a39f06988b0d
; Twice 0xdabfb7dbc9695c946f18ecd1e456238900236958e02ab77dcd223a9fa7ad24d1 0x93c21652c08bca46be2ae9617df0812677adfb12fa52e4e5f450069f361109d6 0xbaeb14b6ebf50841fed5699bcde25e3667e20484c8dd936ca0c0455f602c67ad (-0x249a56a283ec086de9993533afb4c92d0e68f9bdd4d95824867f8f9632ffdb5e) 0x5eb40c8a88d499c2c4f6800912dc948193f499f8a9cdb2593af8111343ff54dc 0x1e4ac6700321ccbdbb6ab95233c5ffd5c77b9eae9cf7a64afa826d21653edf02
; Twice 0x4346d7b1c7745213510d22c2d4323dfd44fe0b69dce155851127bfd1e15653cd (-0x592e3fb7a61bff43748a652fca28320ea1b0cc249c0cf29f9da5b56e4d691e07) 0x11ae2881cb0a378f84753fbd5f6af34417853df9e125165477d1d7e1ca69d44c (-0x29114827e21bee096e0b532aea0cbf581e7fd3052d122af997aa1aa5078bed56) 0xfaf8f813c34af9b4e26d9b8755c3cb0bc012090b8cd7e0634ab14ce00595bcbd 0x6dbcfbbcc365381075a5efecac914474d30aad79df68397cb39a4afa2380117b
; Twice 0xdee6a8c6f9be12c1cc3144b232d2959ab143c9618016e7e2a1da3450ff3697fc (-0x223081f1858790fd903d1c6e85edd358f2185c68f82cfeac1745c98f37f2d1990) 0xc214dc8d9009090f5e9b3593ad8da4ed80a744c9d034ae367dd0e82932f7e223 0x2fda39f6e0915c174cdbe3c5d8b2f055ceeef899238a0d323a1f99be243c3e67 0xc403af0459ab9273c2b2c89ce7ea134be8a16647fe2863d467e97a55a857a8b9 0x6f82f9a48505cbb072b75a189e429a288289bfe7a64438282b57be3f9c7e3cdc
; Twice 0x6599c5a16e21dcbc3435eb3f3ad9c7892f35d1502470f94105491aa958f0a330 (-0x169bd9c6fac6813591053c0c564d3aa8ff4b4a6dc74112edfb316fb320682f970) 0x2852b24f5cc0e841624995462725e30d1c29c90b7619c992d09b3979c5b260a3 (-0x13c0cdc3306a3ca5bf685f3eac31e5fc2c64b6f3a511aa2da37fd185c84bbd1) 0xc720068369c8e175a17142d0766ae53e1239633ae04435fe5febcc91d7093831 0x8aa09d4db2c90146196383562275a12e16c4af6cc4b2e99b1a29d1a476d8b8d3
; Twice 0xfe6cf0cb9b32140a3359f1d240ec715c7188eb389c5d67353ca4139eb87ab2e6 (-0xbd1bb5f1f977a1e93ce1ce741d2c89e01fc5dd9657794fa567cefad27e371b04) 0xfcdc5c31131d1322a1d71d3916c2521d039c32d2927e54de6ee95425bfcf74b3 (-0x247b8ad9b0327093d600f007f42118d502424f397dc4a00f2f8abec06702bb5e) 0xebd55d02428a5d12669aa8d340b30e381e193dfec72be2f928b54ee3b1f9aaf5 0xccae073298c89b4a31dbfcd45f4db3dda8822fe8c3546a6dd5c8e5c9ace927b7
; Twice 0xc08c6b1301d67855a3e1a7a6bba057746d1241d11ee8fe6055925fe8fb202981 (-0x157deab67ddb72ad96062ad12cb87af59ca4130583587dd4b50fd65555325b906) 0x90d2eda25d2789a86e432aa29193c5fdb35350482d852b2676caf3c5149c8cab 0x9260c637c49703c73b37cf5005577de2bc82cadd6865aeb94a507a4281b79832 0x2937feab167f9ddc39db5c79f1bc5455a4170ab97fe90c9d25f5633b0da3c9c2 0xcca3a4bb3807950518cbfed6ab1308b4396592dd4542f8d68cac18868c86162e
; Less 0x660f74ae090123f4c00e9c9f97638b06e32446a28af71598ae321d6a4ad54dc2 (-0x1a4328524a681e22aa6744804c824b37d1b3048917683127a9577a4f6eda4335) 0x28b051e9b970772c16ee0f12b919902187f290be5d6d2dab47c8b3cb68cef261 (-0x2691d23a4bc6e562c35c741760c0c98930a2acac92b0f8688eb390f92468d646) 0x89f6b0c302a5cdb3d277fa7e30cbdb8c31be7f67bea389e9a71c72a12704ad0d 0xeba497eeef8557f87fdf9f64cff50367307ac2dd1b677be317983a2023e045b6
; Twice 0x15bcc84998a26c17bec4fb235a8f29041f08586f2fdf3090b6b6d9807f94d93e (-0xb70959566f8d07d69e37081f2b4a4ed07d5cc8ec59d4116b57e1e5614b189830) 0x1d88412ddae6c03b48a717d429e62d3acb147f323a70619d2a4ffd8b5750aa6 (-0x30056ca30c65702c1f560d64d4dae5ec811aecd65ca604c6d7c0e621c5337c8) 0xad4f5bad6d29d608116a9ce8ab5559a0e2728f9cee37bd59bd4d7aadd375db90 0x925867ca95dec85a03913c4b8f9a7f6f47f746e0d40ef6ca3e32e23e2b3a33c8
; Twice 0x8f56edd67318d6767c52b87032fba92b772ba3e70782b659b0b9bb9fa3c71e01 (-0xbc1ae8401f36e418d0be5f6d072889730561379d46ff97bc508faf05c1b83493) 0x50423b3a8de41443527f0e0a6a526bbf0bf902b477a355be2cca01c658698aa1 0x40b93c61d32cb25a04a48b9f6e71ad77feaf863d5300762ddf96f2d0970c896b 0x39b73817295b7dfdf7eaadd98dfc7018cd90592158c33f992f94f2bda0900f82 0x259e72eb04840fd3e9071a61140fad6003c1fe16589ac354fa1096ba1583c5b1
; Twice 0x803059bc0b55f28dd9f695d964b4520299fad6ac53009e868e05c0cf6dc3d0eb (-0x15ca59d1e37dadc2c492b5654c2728d4b100c6f9734bde92a9816b7ad4118ed) 0x403062de117edfa909da30b54db1134f203224706282a2429101150c1fedc05c 0xa4307d1f98106753f5458feebb00dcd04e33b058d8dff393286633b8d3e2ea2 0x2538e62ff1dffcf6e2b6d00acac35b37ce8691bde8f43f377a21e14aed4e5911 0xad33e770bc187aa09a31a80f10b6919ad9916a07eec380e8e121cd8c7e5bb2ac
; More 0x415c9340ea110803ae7cc0837e4a7ef6597bc2dfe9621662c54218390c28b666 (-0x11d6de2a03a584cedfb107814212cfa0de7d109168398689264eca6b59f1064b) 0x10b0244132e8a3d63134a305722155739cb5c5bf64d80faf55e44b6c55ee1601 (-0x36e5914ef13e3bdcda221e26258fdd506c38213b8eed18bcacca7efe47f8f2d1) 0xfc3c1b44c6809eaf6a744136f261805d75348d813b0177a3fca161daa1dc2afe 0xfd61dae15a6e0e3593c0208d78eb5a21ec2f1127665de5a2fb997e118ce33815
; Twice 0x98b6a3c0fc1ab91621887fe8e9592f3317585322ff354c69ba2102e0bdf6def3 (-0x1bb456c2edabad998e5dfb98c670e2bf80f6644a7c752a3edfb9963da1fa3e7d5) 0x5b1964c2c59ee91105dbb95c8479839a764dcd023b54c326ec64153699513b89 0x647e7a3e6a9354350acb6b18bc553655db64b71ce3bd918217087409f6caa37e 0x53c5b90bd0015fd400fec251f52db8b9296682f9ead6fd18623fba0560c74036 0x3907a52d9bfcb95bef07c0b99161ee31e72265276650486dbd902e44988bb741
; Twice 0xbb6420ddc8f7b964c8f0fe875328e4dcef7d4150e344f6e03cf4fafe56caa64c 0x1405bd2785b0cf49d1d2102a506aa67f0dfd2f1a34d48a231556ce388fc0791 0x892b6f2e3e428bf251377888909c0e2c24a54d3da4adb83e37020c1ffa68abc2 0xb369b31edc3000f623c918c1e4e2f97cc08447a72e7266e0791f56d5705d7ab 0x44741c812f5aeb8707b5e61a17d37f813f676d96ed37018237bdcf0b24d0d1e6 0xf875e152d118a9a78764e667f90348b59f7df68337cdef2aab057936424ac02a
; Twice 0x2a63b4de90974a02a52507eeff1b03c0c35879168893aca3a4768abe6f7def9b 0x1b5e8cc5ebcab6321c3c5b2fa6e20340d3ee6990d37ec25b3a99fbef6734f10d 0x704de2e7264144e5fbdb8dc5997ac0b33ce09435b18454e3e20d4df6fa14594 (-0x1e17e6d7ed1e891e4a56f416e77de6f2af37a218101cc9401c18c6c0fd628014) 0xfa31c7b970e810a3af23e4ccdc6e638c284a2356c29daaa0bf5a70996da069a1 0x11aa4bc4811c4e5f84bde77fb0485457f2ba3ec8d842d827a01d1df7b0ab4c89
; More 0xa146e7ac10f472fb557f7ff0b46af8fc5e9b41426700d28585da48a45e3a5d95 0x5a26f62c0a88f1c98c7e0e4241b6d014e54d321788c1b511bd979ea8114ac22d 0x659a430a56aefb98e52d670712b7ae178f8dca19e2804164feaf7a878088caa0 (-0x2e242063a770db02a0000ae116f7b708b8ff1b31c2ba870963582b13d604e8b) 0xfec5a3ded85aec2028cba5501c155c1d258fefc0189b13233092719830093722 0x951c74da4231dc71f463f8fd9ca8a8e713b1cc5600db3162bcd3c897eb12ebd7
; Twice 0x70bc558634f1bef2866f730ed77dd4ca0a69eacc0223040f5af1ec4dadce322 (-0x2f0711893ac9119ccadb4ec76306e215e437864b3276c27270d6da68080030d93) 0x31a5556359a9050bd2aeb50ccc1fe389fbeb5c310706f9d5d12097fc1b365b 0x3d6e226b7945ed07c667786bc3549276d8797f7820cdd27c5b2a860f9f61ba8 0x7346c26959a5dc9f85d59b9900c87d99f77f57c07837f11cb3bcf2e4affe189b 0xfb61a0bfc1231384b355805baa34521525c2c510de652eb1113e91131e72f2bf
; Twice 0xd5800991fb30bff6578b68dcc7a10afe13d48945adc61000cd991d2d64997d4b 0x10791f73fca8a95fc1152489bc2b7dd6ae785f8f9369f251f6aa248b0c71d879e 0xb20e4ff73064370e538cd7ebf96c45ed8ebeef84f0fef334e142cfd82080a989 (-0x6c26f9a4707de04891b114d15e3be9e3f4017db92f62b062a6cb2523e63ca01f) 0xf4f52bae38338978f541997e854dc2a6ed42b88ff4efd3f4a7503a56597ccc4c 0x4c05786225d777cf552ea937612b5efe864a7e9ef599dcfea1606db1ecab5b47
; Less 0x730c7adaabdaeee5dc704c9be6fb5d99b0a149c070863fda7b3cc15c970e1657 0x3df527d8daa3f442a858525f2001915441e36a324b22e69ae8aaa4cfdc21bc62 0x33b436fc69902cbaef65b1131129bd8da374c2732a85986068678b82c22a2563 0x64cb8cdd0563d528fcdcc933b861db33a679c24067001b97975958c9790f3f90 0x14ac903e8f420e1776f0e66bc989bfd14b64520eec568449082ef38fa58ba812 0x8d70e11648cb576cccde38790008a2e059a2b58c5f8fcb8bcbeede7b9da02fff
; Twice 0xbd4804102b0aa7614ae5dfe40949022a800a4c76c00f684fc61c530f543a5a1c 0xcc25ffc3f1b3ed6e6d2ddf9fca0dd7c3068c2a9aa5a8abf14206ad033d551801 0x8bf36a42b4a9ddc3b5d48c926313f9bbf2906460953b80d7662a3ca16516befd (-0x112d142f50834049910dddf44596a7fa549dc1165dfd11ca56faeba2f1463fd1) 0x2be78b22840819dedf909c8fa43b7732e897a499ada8773d2ce765396e6721e9 0x8d2e7dc42d14235211b5cb5b9e5cc17a3c6ccf1fea4e854effb3b865298ca6ac ].
Definition token_2 : list trail_step :=
[ Twice 0xdf24add81ca25a2e9f09f584bc471ecf877915ca28ab65e37858af3b6dc766ec 0xdf88a57144788867b64f8b0db94dd72f7c2da4d91c952b2e487449d556675510 0xc280ec209f39a00a35f7e4c4304b1d7e5a8f8a401f7166c6cb7e5f991b1b1d23 (-0x1509cad77e4d162686bfb9e7269bd328c89de7e4f9a3887f908081f6ac156be5) 0x440a5dda0b76ab6f0eef9fd1408bb450e2c02bebb1f7ee4adba316e46295c2e1 0xebed199b9ffd4c14b3e5594937dd7e5761c684c620e1d0b2f01592cfc276b8cf
; More 0x14be4ed814370e23b53d5dbfdd9db06e8635b0bc61a9def375110419f09455f0 (-0x32a15152e19dad3c83ce861a0aa81057195460f442c7eb486ac3fe84eedc676) 0x1ae49cae5dd486d209fe11f4350b4f965bfd4c325f7556d7c8dc404fc4af051 (-0xb56965dd14eac3a28a6b029283d88daacf1d423ccb3c1ff3606a0271a72c187) 0xcff802e3e2bbddc33545b01270240a5d3e9cd5dfdd05f587f7e833d03b75abda 0xbb3fece15acd536ca33a6655c73aa81a9bb9267d818e56f9fc870be58dd6f3a
; Twice 0x438bf6dc12cf8c1bddc34952d4ce31569fb16314e7d2164075da9d2fd961a94f (-0x1f4ac0b6fbb70219e30c8074c507098ef28b2b7a60f7221e8f01cebd2c59658e3) 0x11d28fbd44b351cd2698029322bb83934a63037a31cc049ff54326d437955492 0x2a4413d3c100e0138d678423df8bfc560faed1666b15ddb5f5208f2df430a7db 0x2fc84232b68b38614b5256b83510c8e34a6ad4ee1bff8db9ea1c867f6c81633f 0x89d2727e876fe465516267cb4b378c7a2dd263887bcda2c4b206d28ea25ef376
; Twice 0xdbe49e5952d29a71fb0fe41fc5a4555c8fe471f9b6c11afcfefdfa048f745bed 0xd202ca5ed3cb414d098b8c667d1732a7b775650464b44c8ef970fbaa6012b004 0xbce0f31801a32fe00b364ebfb1f994b7aee95c51eb756727226df613e066a2a5 0x1214e141838522769920dc9b4a867c000fca23c65af377cfb095706ed4178a93 0x1abb4e3d6f1d5e518f7931ad2fcd62f396fafb39886cc4f75c37e0133d2e3590 0x852a11168eeb19df96ce29e792aec27f0197565b863d28de39b6a9cc07431720
; More 0xa8bdb8a93d30c1ceaf68df8d313e1e4fc12574aaf6273c366c1d88be3259069b (-0x34f844b423b9f5a07f7050111b210ff1e583bb1e96c3dfae777eb3496494b433) 0x6f398ef8bea19f2db069fb287289c5e8857019f2df3d10670ef9564cd7c9b37d (-0x62625231db5661414ac5de42e643af51f60d01088a92afa144ad764b218d094c) 0xaffde72b306e6e25b0441479f24339599f9d6208c763b1be624fa091e5f45d30 0x171d5c5b6f68e0cfb7898256f22b0f5a1b6211389fd9a46c147991e2fba821b4
; Twice 0x397e909ebe6c1cbbba27680cf6e9b3a8436026082bc587744c8b63e108d86fd3 (-0x160956b7b656a1b8840977e7a6905bbbd913440c1f5cf2b835c4afd95d3ddebbb) 0xce99af96bac2ada7bdeac764a8dd1866e0eb6396756af7fd23e88b9a4be4822 0x256b09e96309a7bb3c96a554827dc455eb9f42694127dc16f423f37180a43625 0x96232d33e858adca206eb259e78263c72ec885a59fb1d51b8014875edbe35ab 0x610663a9cb50efee82fb87ea72c07c3bced39139af65f5e777e46b0e14f95210
; Twice 0x27a98f139e7f81a458d3880fd14f412a7695c49212f0663afeb454e14d9e434b 0x1d08518806ef133f1c49d6d5fd1364548529cdea2f3d5cbf220a388742724b48 0x62519e6384e2452cc1b42554c39c58cb9e9b63ff0089c2a90b361c0b7e55350 (-0x254bd90d3e30300ccede509b6b769d5858d55ec71e6f65d6cc873cc4bf3b8bca) 0xfa1ca535a210ba2ddb6355289fb850a865290d63cd0878d3fa0ce8fd1cad3ff3 0xcb4b3bbb5afca9c835dbfccf7224afd532f7f651e5c7d88c40846861dba2470e
; Twice 0x8e98c6146a7f3a388e40dd8853d6347196d530da6f92e7b605415182d1a27ad6 (-0x1fa99c7725288d2c44f4dea88586d3532a06fd7787f8f8f9d67322bf0b589a170) 0x4f6dd6eac71508f3f6de4527b6a874811f18ff9161068706747609f9634d4110 0x4b19fd05ef1523fbc2e4779f293791894ecc9c8597ad77bb82f32a6bb7bb2a60 0x7348c40b96d7af256efaec9090f2edf7dd76b63a5e554a77a373190847bb6c0e 0x516a4e11aaa5cb7a5118a96fe393108b8f449fdf50dde5ce5be3847f292526c0
; Less 0xec19b0491fab7b8f392314b73f751141065a5ae3f695f4c9f23bff7e892e4854 0x78df19a70db279caaa777c59bf010f9b3338a2b4e0f0bbcc8de33dd7e4b1d55 0xd9bf5f9b93d05b57caff33d1ef46a1d53535835ccdac31db4bc5829868b95ba8 (-0x28f44bb2d8a07f9b93a754a135b9f75034c0978029b9c5cc1b2f6b082d1f3024) 0x9fb0ba3f1945cc8d2c8c37e446f163b45567d321866d779461924cc243048894 0xe3a0a5c6f1455ea22e8bf373285aaf956e32653a5701ba56ccf6fd6acfa49d24
; Twice 0xc94755ee6b5573ca28874e99bcbd404b83b3c9f1884a988c6096482cd1426a12 0x3b1a1c2e4307dd899c86825fca3196e61e509358c718424545168ad6bca0d79d 0x9e4118d1c9e5035d5832f524de3d5484a3c1b5c4779535b14e4df0ac6876ba47 0x63e202929327cf4fe73fed8e03ca7b7832cda0a67e0d651148c76ecd5ae8a2df 0x20a708e7e5249bb3c9ea2bc03a6326a432081214e18bf1284dcd6fc423a89263 0x55307948d124f324271cf033251b76e639aad70c83d8bb2fb609765c4d4d9f2d
; Twice 0x749b75b692c6f2e5554c87dcd8b3b401763d06e93ebd69d7a0d5954045100c31 0x411cd75125dc04e30ce6cd5d17807d6d278d180e7bcc745928dd294790ac0f9e 0x351d41156b57ae7e0e4b98ecc047db54d9f6b9eeb50c418c90d39a34fe77a04c (-0xf1c50e316e57b7cd32d3466cf972d69e479cee9e1beaf5528e33288b817924b) 0x41d38c9d7b2a352553157391a09ae28f2d2649a1e38de802c79b84c0a7db1ce7 0x53fe98535e9098d94e8962693621f1443b4dce3224cda9dc9126251512301b44
; Twice 0xfdbf507fa4cb5e3286d11b0c3bf98ef488922d9e744cc5aed49780fcb455a7be 0x73bb6f2436dbfb23002a201b893db0a78fb380b55fba059cbc0598140b54d860 0xfb83b4167f059a5ff81c9e69bbcb21def841e49d17b2b65157fc4a5f4fbb5e93 0x1fc4c0c3688c35fdccedb0690a57d022b9ce40059eb48f9c0e66fcd056d856b8 0x21c698bc8babfe2bb8e5ed1186e67143ae220c8b07c9a13b8a520f7a021a95c9 0x458bef8bef7b54fff31246bd58ee0c85e994cc0e799e4bb77a0d61c0d6a715b8
; Twice 0xc4f90c04b7584bc17e1671518ab36723f17361c6544b00c94f269cfdc3274d33 0x5da72f3aa0a6090e15882f22370749b5f205c891ccfee2732dc62864c1b37020 0x978e4cb0320a9bb9c721d0d7bb22a329c79e60c83424f9b4ab6cca70fc308b62 (-0x8a8ce6fef0b5cb534c16f44ced993b80c6c19e1587e4bf347d4f4c1725bcd0f5) 0xd5d88548836cf41eb5662a0a0a1fed2e62255218e639640732764fef46cd17f9 0x25883188128d8ec4332f0d58541db6836f30e80669990031adf5db553d93b9c3
; Twice 0xa18c500a5cd28aad50eb2f35dfe87d493aea8a529449401a7b2881d92823d007 (-0x1e8879c09faed4343dba2e5088294a737006cb4f48c4ef9d4ae633ab46e28f81a) 0x65f1c995130e9cb9533c4eb3583f7e5c29585df99c1c8f4f92ef176f50df046b 0x81cce9c6fd8ae2a7e43c699e4ba4885451c5f6ca436747df7a1e092ed194edec 0x827bedbc0373c7455f94a4d6401443c84dcba2b1d3d106e14db67737e3a34aa 0xf07401650b213608c98d13a61846bab9dc67872340a16a9c1af1f8c3d4829b52
; More 0x61b97d2f5f8e784c2b37273247dcf16b491ed33569285a5dea1ce95cc8f03db9 (-0x25c4a71b3d4c427653f41cb3a4139550877903f624065d16050b22c31fd6eb17) 0x254e17443767766d04653b517dc0ef450c9fd9ec1c947b8227137e0506e6e55f (-0x210f40c7716e93063c51fe0f161a15e02bedf8e223be961819ddb5bef9950ed7) 0x5ec2256475e54f96a01f25152c5491678970c7c4478c50a72cce3e2889d59dd0 0xf9e5aae432fc5cbf2d8516cd381be52de41ba51de5afd630a08596382eb4b61
; Twice 0x9c98eda63bdb6204161f1053033c22d1b3301e9101a4962137006741f6ee725 (-0x6807b99ed8194fafd526fb786e400f655f91ec477e945d6dfa2094ece72e7d0d) 0x5fcabcfe0ac267bcecc554f85fc23a6695c06e23f104224b9d22e077dc43d5 (-0x2eb2e93077daf943c0859812741c4aa8566a454346d7fedf262b67a2b5f58c1) 0xab199f73a6695a9c86258e5c026a6e5772b634a65b8812a76393e81dceb0d38e 0x8ba6c791ee9ad02d7b2c6466816aec373729452d448be6560e361ec276e42568
; Twice 0xfdd3a3a3dd13ff105153bb70dc9fd2ad0803df6d056f54662117aa8600c080f4 (-0x42232ad2c4e46e9ea0cb39692e14b8ce9569d4015218b23f1071a256961525f7) 0xfbac006a075e09f07e88b854bf94d60dc952ab5f7b3963f4d9bd8c7dc2067280 0x169ae6ed95af3c4fa6673d63113b14d2f1d1b3a93c085573a32fb0f3d5fc74d1 0x944d2c424a2552b785fd3bd059f48c4c7375d2c1afa424109b395c73d399b3f4 0xfd6b1bebe3c0d88a88c84ed8054ed55ba64b91f4824024240a84cdb3f46f6e31
; Twice 0x38f61b5eb428485364a60be82fc23de840cf87bd46fda4cea2a40906ebfbe729 (-0x90f5db108484f8bcc130ffd1e12df3489508c31e38c8e943ac31d172fe2e5805) 0xcac9892186d92aad3ae6ef216dd51abf3433d5fe310ae70feb96f2ddee0342d (-0x12496be1124dc72dc5b64c7efbbd5205f9a19b21ddfb08457ce44d2c3046d436) 0xe67cc4bdf258f5c084859ebcf37e189b95259091b4419c637866e07698cdd0d6 0x75d126df828b3e01bb66db7ef56c2d73147698913ba19e69076b70d4784b2f67
; More 0xdfd1e1174e6d4f90b804647998e239f5c94f800845a0a25868abecc3ac0bd79d 0x6be219687ce4cbe2950b93ee52443e91eba9be62cbfb8b43a58af37f344a6032 0xc3af5238ac49cb4d490611ee5723d9eef0a1e4860f37c96dc8ae3d951a67562a 0xa6a7d24f89ff9d1f4bd63b386905e1aceae8b8aa8ad7a9d74aa571c89a1db1f8 0x27dede3b9360776a71a581c8c78aa703274dfb3bbc7cbb205a97ff4dde17d907 0xeddd8d2b67a476556ef949454c746f117a8bb627c200b651ecb92abb306f5584
; Twice 0x666787f6d41ca4fa7e8e20f4f650c8296bf11ade1eded5081e4694d339b5fcce 0xababf43c309888f73fed4fb4b9de03c6cbe1c3eb69640b55d9eea6cbb98b1a20 0x28f6aa378ad26e6e4d139430fe4a69c5ceda5107b52f70a197648519f2c1b14c (-0x32a69cf2d873ae6382eae084916a34b4c4673db455d3e43aaa7e4bae1f83d541) 0xa67e008b7c189e1c19622f884ae6d09bc7d91f02a71bb30a062bfe0567843502 0xf5dc319b00044f5173ea2953398add941cba862f8caf95323978b0a684d8bd41
; Twice 0xe8d88f6e0f8acab1e728c47284a8c3723ee080a417c17d8419f99f32038c96cd 0x7a681cd03bc4ffc4b0b5db6f6ea78a88ce4b6cb855b12821cce5f7c5ad1e35ef 0xd3c93b2aaa0b2970c01c67435ba4fae10dccf5a0bd45a54c1896a96b20992369 (-0x3abb15ff9eb622d933172908631bd8f9df31efb25b6213ddec89175b8bef8c84) 0xe7102b0506016b15d9cbd7714cebe20c4ac21f7871637bbf7752d432689d998e 0x590197442a173938ba5862c074120ae3707d9029e1116e6a6031d9e68c682a1f
; More 0xa9f0fa19eb7906ae8788ab1a3ccfe91872c0c552146c154a1fc3a5e6915fa7e2 0x524ba4bde1e2e4a394bf56c1ee5f3bf42231a719bf94f5fd92755855ca1f493a 0x70d00d0c8ea5fd534b4e1cb95702ff8e2cf04a2138bd71ff3a3b280ce011b7cb 0x9e89fbd93f27b37c096b52f8b04c7bad223b9e780515ffd973ae3bdbfc5fc61 0xd822fddf06dc81b728ab6019748195027b48a5ef4cf08eb8256b9898aaafff2b 0xd12328962104991d97f0b1a6e52149a66d0bc7dcc5d22adfee1186073c93b2a8
; Twice 0xfd3c91ec1fc2ea0ba6eb781906bded49627123114acee9eb75df46286e60473e (-0x85aebe737517d5ea67de23a7093d9b1d6198131cedc5a600b1961f0dbd41a5b8) 0xfa80c6c26b24427f8e78a727c8a40e2068504e454bab12c9a8554559e1ee60cd 0x63e8864b2bd7b1f4b3e5ba1e7897aa1ed59e7ecac968ee588800368a2b36c365 0x73235e30921338bc7669f6018d87d03b3d9897fa5a920cc77c2520f756e1d57b 0xfc458947d3dc9bfac64fdbf74678fb2855db0b4db5df38db8a9c0e8caa20f95d
; Twice 0xd0cbdcdd35cf91700ffccdd9a06f4524c1df2cef1bc503a05dd2175aff3f81dd 0x10028662158e27f6568fefeb8c78a4ab3690077366c23407c11c3474bceaf76b6 0xaa4be940271d8068f42f1213f1acf338018c574a68a774274e8990c53f9023c2 0x572deb7a0250567191e4f5793ce276afbf6c4337c5e426e1b3fc5e897def7781 0x83febda329bcd37f8116e781ff49d2ba67958792cf33f99d74fe8b20472f195 0x6e3bcfbb27179221721442fd050168fab26f63f753b80e4b3f1a59870dfa21b2
; Twice 0x9a793596cc6e20bcd9228cee417f4fff4e5d61532f89a9ec64a93731e65981a 0x784596f34bb36bf1cff67f75108b091ff385819772ca834a56881ddf0c36a00 0x5d360ddd7eef96d517589ff35bd159efa1b3f3c9d16dca7a456d0245753cf0 (-0x2c1c05f699b862fb0b341dfd3fcbd0616deb8b18075a257c871970fa4c74b9e) 0x51598ab09ea5bb93f9cb6017814f2c56a0aabb11b132195ff23e16f1b3723c6a 0x1a1129d443bc66b651427e42021d8a70d2240c931f9654a286f2aadd76d9810e ].
Definition token_3 : list trail_step :=
[ Less 0x3a85cc82d9e82589a1e8569f39e3a1f8dbc94041519327b61723d9f49b3f3bb9 (-0x5e29090d7b43a40a698bc684bb86f44d686adaa09700e8d591f3bb3eed01331) 0xd60e6997b7550fed188c9099b38ecb23a0a751183eae2da0fb1fb1284a0585d (-0x3e6965f1d7fee42e1958bdae1c256b266f3a0474ac4c9146280ec9c259acda) 0x526a8dd07b61809e05b6e1e5932121c24ed8ebc695b747d43d57c7737192250e 0x8e1a17a6a4fe0a1bbe6470a4d001179577d9e52177a83943692f5bf7ac3e794
; Twice 0x64b6a1f1fc5f3806e926d996682d3d9a59e01c5129b5dfb1dd34f98673a574f1 (-0x489c5b645ecdd55d4742be500040e6a52311f3f4837a67ad13ce9f243b80fe5f) 0x279f30cfdf4eb025b035248ec963567caf9d55d3e7f78e5aef157c938cb30547 (-0x160251dec0869492f61a3ff902740786e6b97b558fe088068bee99b570907610) 0x8a5c3d929d662028de46fae66534ff61f389841ced5c0ca9333f3df923a4060c 0x83353732b9e9ff508bd59f3fa13abb2fdef93e35db5c2f65d6eea7723a2dbb3e
; Twice 0x28492b0cc060027d7b2f8d7d17fa1fe57cccc3c5ab4b4c44719c28ba25c95d95 (-0xb70b192194f0ca945f59c98b6a6081533a928984228c32b87db4b8ffd015507f) 0x656f25d96f7f3290d16a904dbdbc19604865ebbfccd52f53693dd07d2dfcfd2 (-0x10f31806cac3e4aae82ac718d12aa04b9a9f6cedac37d0bcc9f9b743e2855061) 0xf6116bf7169f16d34d9c80d7fb10ddaa85a3178da6a1edfc431bc10ab3c75c73 0x29ddba058453d73466a32a7f0d494bce2399d00cd6266b5d3891d0a26e793f6e
; More 0x3c6cf08ec6432829306f90d4f3b3a570778f5686445dae186fefce40dc452976 0x20cda3fd9993fcf1052d926a65fac770a78ce1aeaae541ac186e075954099c9b 0xe433f1ed5b605fa7041ad224e9245aa01597e388626b89de189e4ce3635653c 0x2304db33b87ac24a2c690ebb6b6cdaa0d833a1af21a51bc930662c3decebaf57 0x61b4be5a732b0d6be884f58ee7c97b815f01a8d2d4f57b2696f67f6fda284897 0x9bef5b99ce9581633075845a4e6eaf1f02fb55f9b844cd7b6267c1c7b23fd351
; Twice 0x421b5461b172b781318001adcd6a3699c084f082b146d195c139918d80119372 (-0x1f56b111bebbd629dc01da5422e0c74684783e7a28cf2bc91a47c0d74ef95ef4) 0x11121a6d58fcf0f9d70cf5f693cc805aaa9738e399fb96626875b5e3c7737630 0xa1a1a4f996525489770f76cd38bee317ff8a4a8c4ef0a4817d76ae372fb832e 0x3a95ff9e9d52a00b395fc7e67176e0b5fbfe9c937c7d883903c1db3efd3303c6 0x3984c7bed3a1aeddf6e188276f78af1bf206a349b27dd4ea557c6c8e0e5957ef
; Twice 0x2cf92729f3be2a0b176fb8431a017fff97a455db0b465fea81a42ec413a09089 (-0x14035496e29e4055a81637d824b0981ff73a7562d4d319a82932564bac764665) 0x7e697f3a949ed7926d0bdf60ac9e8a31df8175550f53e22bb615e3368913198 (-0x7635c06b22eaaf6755b029d28d110557d48dd4ecde23b469ad3f9ff4434becb) 0x64a421a1c1b1c11c5ab9c0e09a7e558649105ea9c5401ac3b8b56fa6c105935d 0xa379f954f70fa609f891d71885656fe5e1806ae2ad9936a3eab8b9e67d9e2177
; Less 0x7f01cb26ce6eb4ed3867606a90747e01b4aad2992739288ecc427df04299a449 (-0x333700aa952b7c0f7fa81b86a646843a40977de36ced453114478a55c589153) 0x3f02c793f758cd3a026b510cfb5625a280173b2f16f1ecda92a9faa729abfeef (-0x9ec00ac97f90dc10daf346f214d050b94c7d0f8848b811a2b54d9ac1991b7e1) 0x78a3daafe8549859f21e3cb426b61a1469dad126880d6705eece3985fcbd45cd 0xa58cd6acd8edfcd014902c2ac89c8e2940ea615eb747e2be7885d3b92e2e84b8
; Twice 0x4a4aca17e4386ddd2144bfd1400228bd0f139b7529d736da4bc15aada3b6fe9b (-0x4a77eac679c168e10edb540776fb9a93a39c1597e6f55082485c86a00e236458) 0x158f52af5ad999367b5687899aaef0d487f8297b73e2aa2140f7724715593544 0x1d8b44d02404c017a57576ac3520c758efa25337cb365959869c8aa5d57d4568 0x12d5ec4445d38712dbf1a3e4beac91266d93e67d5111800f741ca3c17f7a9b83 0x11d9784b4421f0ff5aa8f4ee7c839a215b76e0e1dc4b082c455cf100d23d477e
; Twice 0x2546dddaa411f747057701ae6d937e50683c51ee08933ec546d0a8546aa5353c 0x10a66adaa65c466159a0d1c93e686c95625fb77b7529d272bcd2f4d473c0008 0x56d8fbf4cafb50fe65e535c7d9e87f19393852eeb9e02db2c3c722214ae26e8 (-0xc99e71ab76f4c18048263aea5725a23f584c74310f6c988cc46c1925fa41939) 0x695feed4fa29f61f0d5125e605b06ea0e89c0d9f769e8e76943a14b27022d5f2 0xbd9ed821944dc6da3846612a01a23cb366fee3639f3e01a98e672a15f30cf245
; Twice 0x88f2512a401d0eb9dc9fa7fe242a2438a4c446e0191f4ef51c039856b37b2575 0x48c03c982f638989b57c74a44a702670822ff4c84dc331926c7c4d80a1126537 0x49425b9abafe35bb407397bada5525ac01b6006b8fed41896af2d18877c15a80 0xde1f961924fe5e10ef9d9e81a4e71506581096cb0385974ff16f6b21115009 0x67c0b55111077963b7766e1f2e5124e312b6cd4307815a220c4a345e3964b615 0x83395c4224044e5ac3a7c03e7b053c20e5f0e6551d8651540ab6219a83b2dec5
; Less 0xfd6c46228e8fe8a9599e1798457cb20803c40546a74277b7dfd6cd057c958a70 (-0x34e80f64788ea00345140c002f822336ade7455141e7771f21231f6cbf5ccd6) 0xfadf306c8906d65779081ef1b4cacf683685664e60ec6271b85fcf9245cd42f2 0x21f7c100c8564b7087877306dc621b3d289e601a27472c4aa67498d0ac87cb22 0x457086ff8ef1c3095ebae60a5c74bd8356796aa7ca2a7ba6e4e45fc5250cbb47 0x60e8147a73fcfaf2eb01804573a542fe866042b8b4f541e2939c4fdd3e6bb27d
; Twice 0x5e8a566bac5ed15ed780947c691ce92cf8eb93b50fe8628e18f47e97cc119798 0xf119bf904f3ab708291814091c419603f0da8715ccbe7de69877387bfecfea0 0x22e9e2387ec1df4cfc590b4858a079fa354b63882961bfd0ddb618bb579a961f 0x76e634c2a09b45313941e0fefe06524649dbead7a6ae6a6a4348167ccad3fb7 0x31512b7d5b231bf480ee24bacedac373e66a3e920a5b69fc3e53d950c975c9d1 0xaf07b7b80b0ae8f4c70217b5c7354d4a7c1d2716b8e726bf61c586b10923854a
; Twice 0x8d209f4cd09a6370ed21c013211650fa7d2c498c42cafcaf1896a5fbc671e83e 0xa47a96fc51e3545e858b3805b11736b85e6c58e161266c890b0c003dec4ce608 0x4dccf3a321ebadf262bdc0a45c8369e224a56a66e3def5c3bce555014acabd34 (-0x38ed0ef4eaaea4dcdeb9cb22a800d63d6187865d2172c96eaec7ac7b7ef9c337) 0x98942a43b72b589dd66e1881746129126c22ac10fdd625049b775de2794b9896 0xc6949490c7889d361f99054031d55bebbac14aa1c57061ac2a11fabd7bc31bc9
; Twice 0xd0a1e5ca0607619819f380617a8aa56fc03f1e74d3435d99694b8864b5e70aae 0x32dbc4f9a677fa2366903c1d1c26374dcc8cece5e51fb16e3b10a88bd25fee6d 0xaa077bcbca321de1c40b723c104936045c22239afaabab67ad5d096c6a591840 0x5de34c95646b82a2798895cd983251f7913803b9b443ebe0c25e66febccbee94 0x255fed8fc48c50ee16aa2042bed129c9ac4d7c2a86e5d6618d7c0b35ca37f558 0x849c48a56403fe2363f56ddf540d9673f3a97b7e06022209af82edd227b432ef
; Less 0x944a959a3d982229d7c3059c68932ca7cf0ab3d59d4f3b18d9ad247cd94810c3 (-0x28629fef82e8b0e46f1b2c6f3bd9a4a51913628515961be83b397f69588c44e2) 0x55e652b581b6beca8f1a518246f751c286b2f532486ebd026b444aec1ab4c764 (-0x1a28e05fdcaa6f9b6629bb88f727939bc26187e7062ca59f086786557baf0703) 0x5288f4b1afcc29c6884d9642c93a853a4b35aa300d81eb60a1a75c0c7cad03ff 0x90280f0c3475e20c386cb2f0828105149aab2ecc692edcce1fc48deb6e902cd9
; Twice 0xd8c52385e6d4910898eea0e79875f6aa06f551c2c9dbae972c79ddf553eb9ea5 0xa44d8cf9f56b3f3886e571d22712e6876b45854862c453a66082a108c2863c46 0xb78d43c25e171ecf28819bb3634988e8564e889ae4dd925613e5d6bb490212af 0x1b72e340f16a9ca49297a480ab70c025745feb1c579996fb76898a9df726509c 0x321e60da86cf60436dbc071969cf1b004ef105ad84f8ff7e0cfa4a2ff2e6210a 0x28a5064faa38db81cb99f2ae78faa8c689d014117195602ad0874780dbc0a1ac
; Twice 0x46d94769270dcec5caa4ecdc45347164e0114885ea69cebf0e8def5c176169c8 (-0x6f0666b73145f6ec10b8a4f72150bcd398e7d09ccb45955de28813bef40f797) 0x139b8b77b926cccf13a988dfff4cf7ee4a00755ce7082b43e252857ce014fd8c (-0x32915f41de828a81a1ed5d321b153224f1a06b264e40a587daa10c813b35930f) 0xe8d64c534148aae48dd06478c5aafb9bc9724f7b8a8d6260e2580ef03f8e67b8 0xbe9be26666b26352328954161d14482dea98112f7047015341d713ac96a73555
; Less 0x63b69b98842b48bcdb8c6d00999efc4d7c163d64bc1f3d173091bdf0f9cf2488 0x30fa5b2bb4c6290f4adbef74d251a5befbfe28eacbd21229c1fac2f4f830053a 0x26d6be99b87e3150b1b5f7257628ae2bcf6358d1d734c7e9e01112e1bb25dcf4 0x31056813152e5dfb635d590800ce4f96479c7457221b45175a31dfd064575c86 0x6afb732222b9604360488dda9284d05ee395b98067e3f0639f41b6584c253ae6 0x807acaee46b05d1e992eafad9a7686aaacdb515f15894ffceaf1689b67ab7ec1
; Twice 0xd73959edc46e56ed164986558945ce45e1866444ab8bcc381da84d322979b7f7 0x51e83ad53bf442b1f6799f9db2367d2753b65b5ee44c79140a4c5d530b828d7b 0xb4f161e7405b60757fe45c13fd21746e85e18d78c52dbe556300c6fbbf0ab7f9 0x332cfc23c832366dbd60a889dcc4af6d2eb6e9df8f284be85e1c89625c64ec2e 0x2e1c5ffa9242d8b0b2788265d887d72af49d03d79e953bd5019c0393b071527e 0x85cf42b5d94d88ad2c3a108028ffe74aa5e79817731a8489cefd3c584b9901c5
; Twice 0x2ca65b2108cf64ad56c0c49150ac31fa1b5e4d7ccd14e018f47b33e6b329189d 0x15c28613704964a822dab81714fcdbdc995d7a0d92825bd6a6e0aef01057c667 0x7c99b6db218d3868846cc55ed25ff4b561c5013f5fd3016ca163ed1fb99857a 0x10b6b32a70c232952be4a3ce64f21c0c2ab818c7618651df788f1a8addd5a2e 0x281f20d82741b7c7c4c9125bc810be10dd9767de35de518e80c57ecb0d5eb0c7 0xf00518e60c136880b04ad9c6e3d52b4fd33a32e37c1175162e97d81eff29ada4
; Less 0xfce0cc9572fb09a7bf81cbcfc2c58649ff72a83298e2bf42ce29ef38415fc903 (-0x42279d76ce81f6f5381a4e7588cb9eecf7be61e4fd758271ac0dff1da49c43fa) 0xf9cb582ddd3150ff2d3dc67822dee9366bcd7769a8413c08c1f8af522863cb35 (-0x9e2cfb30406327fb0d6b29ca9e5688683d673d870fae4c6c70c29f1a88a8455e) 0xc84002d247fba6097f511b31f73be54fe44b363f69df050207754a7b967c0de1 0x68ca9cc022b7fe9b3eb434fa576b34d5491185fd3810757b1ed38fd3a8168bb0
; Twice 0xdf4409e5c91c8e1d5ea36953a5bed282bdd8ee0b41fb718a58d3f21eceb3442a (-0x11f238c6aab5c856bd9baff9d75aefd5d1fb1bb74304ce77593c564905d917680) 0xc2b79b54598c287bae61b10355b84175772a2473ab8fe635dbe0f3aabfecbea3 0x41594247ae4c90ef1f06ac0732bee6e419d807e8c0af1688be609c3bdc60ee55 0x7d51fbc126460ecff0d814dcc9f87bb67c1feab22382aa590ffabfc78fd6f9c5 0x173c4db685fc204ade3a4d1371b32e0901b9058d4999e440a727ee98bc4b1f3d
; Twice 0x782248f98bb9c95c8b0465d9e60da1f09fc866333c369b6ca52e2fa38695bfa9 (-0xa23cbc355d4e992b21de383e914f2269f7ae6ffd3654627537327ef10fa7cfc2) 0x38602901a274c4fb45eeb45905faacce7eb71d9410498f46bf1c11f662378b91 0x7c2af400091127bbd6fad0d54ea19c8bc484ddd18f5317d6f240974f14b6aad 0x6cc872a5805c604f0404a01b969f3eb3f60487a9b41f71ecffb5cddad8c13598 0x2555b8b8679100a06e37190b2a911ba235f28bf42dac2a257f918cbc0bed6025
; Twice 0x4be679b35872246a9e7454d8fd4093a5935ba6e1366ff3d20159299dd825d629 (-0x7489c54a12f0d15e81c94e3012e27e5590085d998eb9bc7248014b03da3fc91d) 0x1680dace1471b07e9af81b4170c85b116d32c6aa7f90ad0a4a4c8bde31fe8c9b 0x1fdb239758368af3ed4e590701d1b65fe3895a0c1bd088d532a5bf5e20c0b6a1 0x1566b98cfa566d6b937fb02fa8496fbd3edf2a6bfb980fe78e49f6f4b7eb3fc 0xa7d7313c12920ac42bd2500e18ea898db73feda337fccb2a8fe58a95a85e8078
; Twice 0x5f2ba28e34e6db78377b6514264ae71a6e25f8de5e8aaca08503e13fb55cabae 0x7cc58ff172994569788c724caa20ea48e19ca1f20389419631caa714d1782d0d 0x23616a15b1a2d0796a9fd7ca49b3d8fc65b3bf2dde2dcecf97b2ea972b56ff6c (-0x435a4ae43f1b7d9354c6dce287dc3bb57f16b980b2c07d78fb0c09c6222c9748) 0xb682a551d58461bd17b99ba240c926f836ab85abb8fccd8921de33ac788b81b8 0xac1f742cb1cefaa0688d04efabbec3e0bed2e76702af8f8ef263b1a42dc47e78 ].
Definition token_4 : list trail_step :=
[ Less 0x79362a4bb3afab0b0b0e9a05035eac46ca80425fe76419a7d6570c8c63a6b37f 0x23b572e66f239778d38e9a8775ec0a7f58068f6aac844a1b611941623a66388f 0x39643f71a82d0a9673123cbc84214b95bf6918fb57c64aa76b3d8f9f88f0153f 0x428b5c26096c8297d3d19aa703b57c5d93def69de77bc6ee017647c1a1c79a28 0x29f7ce471714e4246ddaf133c3545598e110d831af472cea6f02b8f6b85aa9f2 0xe03c9a66cbbb861572d588ef954743b9a7d2fb350fc49579590c570f6f8198ea
; Twice 0xb2b5bfa2fdeef53c264111fa47ead8eb7289e542cc848643db0b698849d4365b 0x1246ebc4afab1a6ac8b8460d8fc3f3f0ad585923ad2d568e735576800c2b6cbed 0x7cc13f87b1d13f269190e59da53a142950ef8d875d9cdcb6e6aa8d276d35c7e8 (-0x2b70f0dcedbd119fb71082a2ed0f166b9b9241f2da6ea1bda560e99ddc3ec40b) 0x68326dacc60bc8589aef88cd4b67aa0b75bfb5534e6abcdf01d238d3f4c2f85d 0x574bcd6e1f10a05e4ad2ac1b7f3f32ecda09d40b19033fb44c3b505ac7053102
; Twice 0x72b226ce9759d1fda93d7c7340a9ce058162d526ef2c7bc7c646b5e2a6b86bd0 (-0x3102064b402a958aa593d430e625e0616af84e6e5f0e986aabc39eb8d88e59e8) 0x3363268a2f5b9a1e83d2e7a396815511cb0d438e31f1397ec2cf296970be5016 (-0x3ae632837b3d8c55f1378041763113b9187b2ea63e08a762e2c4e728f1a69b07) 0xeba8cc9e58b25c3894c78587e82e3c9d83b55abc01fff92d0790e3ae6f9fe85c 0x10b205c9a18fc35a44d6309769d3d78077e330dde1eadd487582e91442399fc7
; Twice 0xcf17a17c4003352023de927fecf235a371dd131ef5632689aed6ad4b79f71504 (-0x26fcb0a80f0dcba57954defe777e79ae5291243825825051a8b9436ff3e79010b) 0xa7873956013d6ea4fb6e17133df63602f4f2834ad6189e6ac3f1c04b42b06209 0x3562c0c4ef959eede9f3c9bb17472384036320448200defb69556f54f88f328f 0xa9aa747486171ea5eec7b6186f883a38933a9ea4692d3d19eac9319dbae23961 0x66b4deea6ec73c8f909d3ffdfc5939ce6d4bcefa260d0a0d7ebc9a988fd3e5b4
; Twice 0x34a3f32bfec58dfd5fffdf04dac8666da459ee2c75ac52e8617139dc549e7824 (-0x1271a75c1898256e8420837067e8cb1119a31cce3aaf5dd19cb80fc9fd4c05660) 0xad303c97b564245cfa4c680efed40e5ab7b50100dac002265caa0caca20f477 0x1e4410ceac311e0a1437bf498f4e2574f70da43683c861116cc7f67b7cef5db6 0x167a332183bce85701352849844ebbe99294eeee9198fd7005d7245f792e46c5 0x80dcfb3869b7047371719ecd2a3ba17ee6f17b6fc656ead2eacb3a2b706ab5f2
; Twice 0x507b7ee0837656062c67ebc5505ba3113a51d154a10e154952f0ac50a9cf208c 0x4b1abfbce959fa03863081d4f4398755375399921d0a03f55d1a0cc3d1857a18 0x194d6adf96177aa8d1c0a042db7be90f8ebe29a5f024c4403c1549ead2580b7f (-0xccc8e3f9e2dee6792ce371d2f63f79fdef2b57514815d64ddaef1295a97c51e) 0x3f3054ee40dd5cd4009066ee1aacc39b75b5e0457fbde407ccba993a5e86ca85 0xe2b4d81dcc4cc599a9a3743fb794ca96938bfd30634f646cddf182be6fdd77f0
; Less 0xded7fe8613f6e67f024b201d34ee39d179090800f956307471b818d5628fdc0f (-0x2637c97ad4c1647362008fb8a3256866ec50fba17c38e14cf5b9f020aca8111c) 0xc1fb53aecedf6a0057a0260e41f46a5ecc7a1fe4a0bac15e02cf2b78eb4f1eda (-0x32572de1abf3f61e6421d2b4479512f7c74bebff2df7aa771c4a248f36f0e6e0) 0x7904f500758f165d8e030e4317f6e2bead0536a856341ab6f79ccf41c61b5aa0 0xc9092ed060da6a9455742a9cdd9ba6008844559338ce9e747dc4a7a1c690fb9b
; Twice 0x8fad56e79c24cdd71de8f95e895329e7dcb91e36c5d4f63a4daf7b6822a1a607 0x3607721b3245668c4e1b86122f44985ce395a4315170a38d4864ab94b24de583 0x50a31c75a39db29dbf182c19fb1f1daf566257fa5a70f2a34a271537d70f9fab 0x3a6173b34a0a763a89443e674a3f295913fac382e06e0a162b796046d0b39f3a 0x10ff8da4a4e04f81a0091447a66d55cdd88b357964a73ee60c106c906753fe9c 0x2c7ca6e0ab9281b45e1c952d3e0542035269681cdecb71f02b9cd22d4dc4bfbb
; Twice 0xdfb0911e3d425f04b62560848b1f8bc786dbde07f19a1d0349bad0892bdc051b 0x4a5bb620aecb1c6e5e1b76bd149ea5fe85d378e0b94654f5306b528168c00dbb 0xc375169b4e06385f003b013dbb6e08f9c1479f5f7dadc02275a0cd8e521ded7c (-0x61978c002e25dc53efd6bb61242bb0357576c989e72fb9480336d5f09530a26) 0x17fa9157179594c2ce53dd812fa8b14909a173267b61e65eb008f2235bf8011d 0x81f2b48cb93dd73eaccf6da64089a5276e5213c742b6dabdec73dac5d5b36d84
; Less 0x186dae8b456d1b552dcaaf2f9aa9d52cbca86707093320183b6a4de6a3818bd6 (-0x7ee5a2e3e7f95f3b00e23bbac15263afb27fa8efdba7cd12276546af225d261) 0x254bfb838f3f1e63e35a99b952d8d471e4cf144385bd7af10b7b5aa0c8549f4 (-0x12fcbfab832db09dec0bfe501dc64beefeda63d10c45df8406694062b734ae7f) 0xdef5346616cce8b254af4c4b1c270385a03541fb47a421b20099c46996029d25 0xd27fae970f0be91f25a1502018fe87ad1a42aacab63f7cd59bc864bd73791d4d
; Twice 0x6dc803197bcb944ad86249042aafe54a319e1cd54703bb6455b9218e468c3932 (-0x19200edf66d9224226db05df3f92f277ebf5464e2bbdb7e33fa00b9be9f74860c) 0x2f13eee8ba5a54b82b962ba41588ecf113a13490e27ef82de28dee29cfb942b4 (-0xbf8f2c646f2a951a8dd6477663e3648d9884db76eee8f34e29e9700211f991d) 0xfae062ab7b35fa92154cd876d989a55313e3827f5e5f81c23d5db8e4972b562e 0xf28bcbb9c02a3fd884bc3da4215bc6439caeff345fae157c135c501e795424d4
; Twice 0x3289f5a01bf53e7f25c889752f824681e95bd2f96827f0cc049c145af924dbc0 (-0x281cd098a2a90d190d69d50ee9d8e199ecb75c28f0788bfed6823cad9bb752537) 0x9fa2e4b65efc0d84a097c425c740c187dde21ea519986128d3cb6791cafeb73 0x2faec2e901b814c8578a3f0ed6143509e30b38d227e770dabf4bc4846af6daf4 0x958332151b3d27acd9a7b272a14f7be3347ccad6067df99c73a8079f8fb4f17 0x1fd890932529e89966bd20a10673cdc532abf29817ebfb2715ec396c09f4b460
; Twice 0x7d7baec17b09a942c2f5224583cace1493d08078d88d8a55fdcdb1e8fcccc4ad 0x1e324cd2aafa24f185775a6528278eea3277ce355a9d5292060290ab9cacd270 0x3d82046a94e1447a11b43bc8fc7a50656a7a7d33eca8d0603e4f039cfdf45b6b (-0x821e5cdbed2c4548cb306c4c41a7f255ae58db6ed02a8a7942f535900eb5c19) 0x19ef828c2b7531ef97e534bdfefdc57f81037c4454e5ce5df3ab7d37aecf1a26 0xc0b5f2ce6b7e95d5f6455c752c7b17f3533bd869a74989de0086a29059943a64
; Twice 0x319c3c4380812152ca68e82cf496b6ab7ed81182637e4117689468dc07a8cf1e 0x42cee8b0efb482b79bef083f8dc90796d556470ed69f7e156d54c1f00bf3d179 0x99d2e6b6142f096b1c03d9400d709a48c2b5f22fc6e4086d417ed977dc035f0 (-0xd43a3a8471435c40630be5c86c077b1e80d5a9d04345d689b09d380c449a6f2) 0x5e61c0dcc74f50eca521894b0de85cce03202028b1429dfd1a17f95c43138928 0xca4edf78232ecff5c5f3836959ee69ced697b1cd06e559e87e380818450a7e6e
; Less 0x6f1741f5e3eca0ed7beadcc6870f7c46b254f8cfd5a029d754da0dc2e40415ee (-0x584190a939d603e9efadb4ae86a9170b823819395a5e1ad2cdd0a7bb5ecc559) 0x30352d50570a1f4f3a89014170baacd79caa1f7a790ee83bad3f95783420e615 (-0x33b15833571db1a8f516a8e80488b9b13453c0e43126d20505df9f9f4d0bf876) 0xd580f09d620a5114dc45b2c3f6c7cdadf1856160b3908d41f36112aeb9c5839b 0x5cf345d1a6aa6b533741db4c8591a03f34905a8dc9f6a0b4a55909e5251b4332
; Twice 0xfd4f8d5d31537a70fd5f62278baeaf3208cedc0d8fef912411dd87342f216188 (-0x15e3cd73a69fbc011aae0d07b756fc4ba231749d3b524d145db427bb042254998) 0xfaa65623bbb991ee7ca6a1f689ac1f855e1ee5da6016bedfe68320d0fcc2222e 0x1ddb894ce51051d00c110d467d51f76ccc6820bbfe585a28b503bc50bfbe01fb 0xb75441b77a71c57b592fa8c912438298d90543bdbc89058ad7ab50ddc36f7338 0x2b29de08d1127c437b9bc71634b848ffe0e82e4a102f75e62469edfb5e53f661
; Twice 0x942d52d7031292878f8b33e81066bf3a6f5dd7b9cd5993c5fac6db2e8b88b147 (-0x157e503ae4a756449572fe5d7c09322fb32dad7d5b5574df2a7c4c7483f12b711) 0x55c46fcf2bb7705126aed3e6f2e2296c302099842e3a3b4ecc666c9a76ece028 0x17181da70165d1b0611fe9338b77e7200eaad3caa446a8165e132caca596466f 0x8f6e1ce5cf63ffcc44fd4a0895fbb0e6e95865e61aae0e625360b3e2e0413b69 0x4bf8aefcf0501568dce61e04145c2b82bc6b27a1b63d09bbcbad246648a1e977
; Less 0xd325594327a919d39db6fb4f688d0e8966128457281750dace50a76faf340f4e 0x1df86ceab5b2049fb3a96c00df06228792915b5f4ac5e5b97bed1435841c0e22 0xae2696984e10913d49aed1cde57ec175364fdb13836219c9e9431ad8c90feddd 0x277c7aaffe4f2f843acc9d8fba2af355b61ea3f81370f35656e246925d9d19d4 0x5f8e455ec2cdca751052d3596a0f7b218e217f8e1a4fd9190d066ed6ecd02ba2 0xcbaeaa311eb4c1228e4ceb2894e488a869aac4d8a4e7da10d61a441d1ec6a7ff
; Twice 0x793331354096c3c8e006d2a346622c3eb31186306eccb68e68937216d199ecf9 0x55dbdf2019324b30dc8aed8a2b1bca7c82ffd0d5a81b09484a3698b98b10817b 0x39616ec1351d1db4673716674c4c1e6a330ea2a9cbfd7e23854ca8243f6b9e86 (-0x2e17b86494100b56062692a0ede0d60cdc1ab00a728d044334e7a544ee5904bc) 0xc0e9c7604f029d5d64c62dcb776cd163894108556744d833aa54fabe14c95173 0xe1de7825485d8bfca63790b8dbe2cb7a663a6e780715a29534924c3127c4defc
; Twice 0x7bc7fad4808bfc823569d93396e340f08284e2c605f3a7a6a0d159a344ee3b10 (-0xd9b1d7b7bb8bfefc47e63737bfd7bdd3b611874936d2c117abf122a94a741a88) 0x3bd9c7405b83e0fe6301ac0ee019b67476d4390cdae6eeaa98783d3aa7fd8c68 0x39c9bd46a86383e417a553cd6b3489f54ddbdc1002159465a7877fef2249c7a1 0x4965df073dea1539329f978e1242d995c9c0023894e3fbe232ee0b30ddcb4a82 0xf688c63590575a9c1d35e331ee9413b3b2e626113ac6d6c9796786b36e0ce2b5
; Less 0xba56373b44213d28fe31a729226077a0262fd91f2cec8d9f483fb93f56f15f9 (-0x1886a38bf078d16942ab68a12ca47d5dcd9a8dd0d6cd5af96bfbb6b58d45be2) 0x87a1654bce5dfd7eb1630364138b7f94cd90251137cee64a52c62dfb9e2521 (-0x476d3354b5e014ff0dede702e8461640fae210b3e36d24fede92d1ebaf48553) 0xab871cf3a7d23abf24c1e1dce761a3e6f0dd899f945159e3e590d3efef0ae43a 0xc24ada17110ba7a3de47eebc6ab1d016ef151dc9c4a56a3d4b23589319bdfc00
; Twice 0xbc17b51ea3d8189f063f0c64b4361c3d983c8cf20f938fd072170f743b4cff68 (-0x3b476b45fad25883a3e1835affc1f376041525a237d78b2aaf0cfb0e4266a897) 0x8a32d437967e008f6c5e6fbea7a2a0f342c4811223bb5d974ca218b198a5f023 (-0x37de6830a6f2c6a6156ed691bdd91c63b134d037dbece627922c51c59995c27a) 0xf791246d9fa480e74da00da3bfa18f7e1014c1a32b9ff1d6d7a2abf44f2081ef 0xe6fa9140a2f1d740a65900862cd97040cc9537e51eb757db4e86a5633310e4fe
; Twice 0x82ffb7805267d336e220d3f95e36737f68b7206ee0c0c93fdba1aa0d3b01b920 (-0x1e1d845ee8cee66e903493d75e8e1a59ac07381f3c0a61012badd58574e142420) 0x4308b5cdabe7094ae03083c49fef790deb8860f4d263bd049165aca54210fb30 0x4994dc00e16759f51dc206cf3a1d0f5487df07a1340c56b871cb58bc041bac23 0x67c5de9d8a863a42323886fd8776031446f4f8c1e33ff50bd2056d545bef3b52 0xa85f2d56911cabd26042d417f5da8e7b4af6a2b611a0b6ff5efc448648d80fc5
; Twice 0xef6d9bad7e4eaf46e9c12b7389b2f745cf52ada5f018736d127d55e1b4dee124 0xbcbf6e43028b5d67b1d2b52fd9e7a30e732a8931190dcf549fcc17a1ac67f961 0xdfedd79cc22dde6aca04160fb25ae65da0a77b1d56ce4bcda2dcc396b8e5b67b 0x1d73c1b8430603dff405651a2410cd304b3f0baa04a5def0ffd09ca190aa2212 0x4848411193fd948206279dc1d320a9ebd92e4b9943ca14ca5d0dc0dbe1778ce7 0x9dabbaf2341dc07a7513ea54d5a24d34fca9d216c46deed0192daa272dbca459
; Twice 0x8ca3054824b866b147227cdf2d81da0d431243a458b2e10c1bf854ba6b6edf8 (-0x326660c132a0c2d05464340a31b3cc6dfff309faa7fc53f14cd9d7e5f168cd20) 0x4d42b596ef670e7f2eb3b99c5d974e6d3b46bee9ae5285e65db2eaa6a76906 (-0x4b267bcbcb727d2dc9a52f091fafeb91668b4932128c5de32a63be0691d90ef) 0xd113e80600cdb416a03a0e7c6b1a5a701178b1774f77514d63570fd7bd8d6f78 0x8ebd2c6b5ff48093d276fd6be9a2a8f2742015f8e82f75e812f60d46d81c1140 ].
Definition token_5 : list trail_step :=
[ Less 0xb46bde988a4c4f75d582608c5bc130be396cd9319cccbcd8796ddcb47b2f621a 0x47e038905405f03d4ca59863b8e67884a2e517b334d9e56bd7704a53d1555041 0x7f27de7ad6b3b4c35770bfb09230c64b7990c1c19b52b5c268fb47f10ee5df7c 0xe0e147050ab2ba887e9564e823bd98f63f237841b032e1a076ee00a69f908a2 0xbd22969f7af2dbc913cd6be00c73d6a1ed7ef79aebd650c115ac346d9fe39812 0xe3f4da06239a9026ca45a4ec00b093dd7ddea88d0a20dc424182e34a274be3be
; Twice 0x3bd75c05ceec0506e35e0caf7451724044691b6e6aba0ac9013b92423248ac10 (-0x138a1df955cb51bcf79501abe305896d880f531553f792372426801fd039fa3f7) 0xdfcf9966e3381335eaba0cff44d7c6c13f2c85672c5b605ee9c69fbe500d716 (-0x456c2fbdd3242b236af9c2a733fdf66d322f4d87bef51b668432e9116b646c8) 0xcfb26929f914df020b3a806a131ca14b74a2dcc3c85fd6f40e3f713821df27f2 0xeef869236a0112b30f68d641fe0822868624c7039198b2cb364d898d669a577a
; Twice 0x82acea283b0ee8dfcf4d5870515d876f0307d2dd8e92f67468da34da079a11fb (-0x1058ee97b695c366b3cd62c6c146562c3d223a8796a578255a6c5b7109786daf3) 0x42b4129c9aec25725782fdb649dee1f78a21035bd3aa89e58c459ceffe49f909 (-0x1316fa1818a3d00ac1d17b645ac32a50cd6c81a3fad975655758182faae1dba5) 0xf51840b834f9cd14f60d44fbca3ce9d61d32b0fa6bd0f93f89311bb117caf53e 0x32abddcf3b7f93d4a438d652f150f72fd992f42ea3c8a200fc608c2693f7775d
; More 0x7af785f5b7bc0f0a8e36ef727486f3c42da292c601e66fd112491fabb8c4bf7c 0x4249a36bdb9fa9e151a64905cea42412e55315f23c391651e4eff695c37c4408 0x3b10db023471e2ffa8bffbd913e47be13cdb234c717f0c08d78ac59c774d810f 0x4132fcb373939440bb3a5fd9fdb57edbb117c67b03619d5eb3ed5f850f03b6e 0xec9c7b9bb9c124b7f3e6f7d739437050e335a08e6bb724b30103b2c58c040d4b 0xe499f9c594d292fcae2fc89eb9971d28706b9fe0c04e595c15313084166b6ac5
; Twice 0x55011ad280af5cd8f7eeba8d0dc8a9ec0e3991843ca29748fff0ccb7a9608dec (-0x1f84271b39696e4e86fc5061031cebcf3ab612ce77c067adff8bca5507e4fc150) 0x1c39bbd11e22a012cf7f974d1d6b66e0c6a11da2facf917d0e4a96c1a6370ef7 0x68708196993081e31c20760cb457c6f8c6961e8c3e46607a22c96084201b966 0xd8f3fbf74044759f92a364a71d1059e0a21b8d1eef4eae52c90ed86ae5dcc5f1 0xd915af765bb2692a015d48ff46a275886d489e2869b72b9255f694c425d8a799
; Twice 0x7c73015aa8a3468c8b197cea3f604b533d9e69085af51dd11dcb87a06234a1bc (-0x15485d76bbe3de1981394b88e96fe119e0f544eafdb8b9deddd5b58f9675e3418) 0x3c7f9cfa4753216fdc4a97021eb317e4c86f72829dfad5ffda22b9e259bd4be6 0x450e059874f87445f15cd46cb451ef0a3f278de9c5fbd15078a1aa452044d1fe 0x4ae72b45882427c6f124af0c2dc43949db0fe33f7e405e7dca37d2b29891c214 0x217b29c3c7fa7ae12280cbc027dcdf17ca8e255d364c0c98315d914d4dd4fdb1
; Less 0x55f5df2275ba228ce5f27f1c8a593ca3b2abea5c3bd251ad9fb073690c2f2446 (-0xacf11f5d3b9bef66161faac125f9c03243b5a15f38990b85c2abc64cc9144ce) 0x1cdd3251d97d314732c97a7a2b415e137b444b3a64ddf68b8f3cdfac9b07643d (-0x1bc88c0f05f793b582358dd32d40640821b9b9deba69ae713a37f4ee6cbcdbc7) 0x9da5259ef844039fd024440d17ec7ffff0f667482dd092f6fe7aed3510b4a2b7 0x24eeddee0f5501717f04a84e8fbdf1b18055969d8fad04c74079d468a260cdf6
; Twice 0x7fd8ece5bc938bf7128f01c6025b8e389a3d8e60b6e4a0851998c41e1b7ffdc3 (-0xfe585869195b207ceebbcfdda1aa9c35f36fe2bced5caa8ef0f308caaa59a454) 0x3fd8f2dccfd9f292da4b31a74b91e8bc99f0ecb1fc0cb0658005bee90460a1f4 0x127ca0c765db48e78a96b1ed5740141933d78a3e06144f8330601385956c6bfd 0x78a09726a34a423e3874b4d5038d8cb2913fb65ad352bc49622635b7c7fc5f0f 0x8912923315670d06a55c077b980a0af6117b29f09193a08228bbe4a5ba9c2eff
; Twice 0xccda273d3cc976a2e1a7352efda9430de5b23dd7fc3fcb69a9a31a9ae994ea43 0x30da5f534e93bf07b2b18f41d6d59401de03937572deb1858eb8454017f9a326 0xa3ec6871171cbbcd80d2596e3a6e579b96b31a27f7c7cf514c8034d35a53862c (-0x1c1a36f1ef07e8e96793c6fd7acddf4adf4f303a22c13f99db577a751e88e638) 0x9bbf11a377d3f2c803d8f946e29901356553f8e0ba3aa9d36b65a70d74315597 0x3e02dd543763abb9374b76b613403ffd592515d901083e3359f7c7405d061531
; More 0xe5e6414607abfb5d983a14eaa8d05a6cdb2aeffb1d71b5c0f220f9c9f8cfd196 0x2bb15ea421793cf3fca292313bdd078428b80db1be121bd4927f3a4a940dcfa6 0xce75bfe172a9dbab4aa76758e239735b9398b42a24c653505bae4a124073d777 0x6692e8b881eccb506dda4cf537112865e9d5c9c99996101b9446c8357c318ba7 0x2986f9f03d16112de377248f5409fc9dcf3dd8b495c6946ce707a2122fd4032e 0x1321c10c9a4a0aa18ed6fd97d755a94be3fde279657948fcfe6b93bbb90878fc
; Twice 0x69a514dc1e648bbb66d772c859495b051e682249a03afbe64bfc796c38639880 (-0x46b2caf54258ce67fdb8a402768c7a71c5466fe9f1dcabbb2ed2be6725de737) 0x2b98d590a1f99fd046914289c31d6055f08e92cb32cde718584dab8c3e12cf61 (-0x53fa02381c75c1da0c81e4adc3ec2da1a703505d01c2c440469750a1491e9f93) 0xf5053c658b28308b4e25f90f24a146469b2763ef70f29ebb8cdbccdf2c430905 0x55f570ef06310abf08cacc1529dc31a0d0f15127e5468c9bbdc3015890b953f1
; Twice 0x3de0e7b4f7d6a15e8781b9825a5bf3bad8d24afd9f08aa469d94621cbd380da8 (-0x295fb1031e50d45476abfc6a6e5c844ed7dbc2d2b2c8b8b52cbe0389706669808) 0xef4f4029b7b0bb6cb8271f237aa61e2a8425090ec4c979296e9f7540e9ca9c1 0x2cbb5d8bcf7e354a488d6a63357b28ed6700ea8e5db4c1222021f3f31caff1f5 0x3bf55d4f55d506404c61bace10303f3f28f19ad7589d7fa43205cac5c05115f7 0x92ed206902c0145935c961ab1945f43e19257864f2262bb29ec6ccab2d25d534
; Less 0xda8d7c107dd9e6ab154d70f7247a6360ffaaf3afd6f92f3e19fe1fcd40998b9d (-0x283d642564cbdfa7fa7b28a7d3213c0cbe821b04358b954cda81b6dde164a654) 0xba95457eb736ff5c85f02c52c8e4f17b89a21a830e1e89f0a7c7630b53f55285 (-0x85092d12f699d16efc2720d16977b878e9d7c5367850ae83cb34586bc0f5b74a) 0xd7c9fa057ac0dd342bbdf7cefc274f7187e562047c80a4e2ecb3205868d95841 0xec3dbd1d1a0d41ee68edd3a28fca1c2e5b10fa476d90e587b8e7e9319c1b9e20
; Twice 0xab1fd9ef1036ba3ba2726b6289185fbde0515b2c66b7bb693e44927e60e281e6 (-0xe5d9601da31c6dc10fb15319bc9b836b779225d22b127e7c0af6cc90e1a02000) 0x7263911c5379c3e4b57c1daddfa937a37c3b5c389773bbfee1e25e776e21127b 0x56535f6faff93568488750fa07aceb4de0cf5c7c401653cc0474b9062c09e7a4 0x56a597148f077ee983f2719613fb39e27f5ecaa75ec0990b5278fe04b86ffc9d 0xa6f2e2d2a8d1e6290a81258674117a2cc7c3da3b3fbc0d20d0cbb5028c8c42dc
; Twice 0xf4f12f97a16163e772f0c95f550080ce5dc0500a70cb0400e6cd53fca0e5fd5f 0xe77e8deac0f5fc164527998d28f0d9f629b222122bdb5e7b0d7d65c00269f190 0xea5ca5f49a552cd486286c0cc84d9b4a005b8dc830509822764e4ac81b3e6371 0x340b5129a890405f5c5fbd117a94ffa5f7e3f41174c61b0238ae21406a4d30c 0x533f4a59379572a7a50738d0375e4357c558a78826a91b4c9bb9071cb1195378 0x1520866052176b87356780e9a6ef20dd6ee9446a88c4841ebfea56154683e5eb
; Twice 0xf147627e0c0dd03044ddf2a211a85df84c025a62821e59fe9772e2b3748eba1b (-0x29634845272632483ccc00f5c7d526d5c6866420e65f8f239b8cb9be88aae2d5) 0xe3677b59fde8ec47e880b760b2a5cac518d0dc2fb342b4e0c4b16cb06fcf626e 0x37ea7aa1ec751509de7efdf1b0c399286a24f6c5a37f0e1c16527d2d556241b9 0x17eb7110d7bd8ec6052b0a477ce58973ce8147f95cfa181d5c8cf47482dbfa57 0xcca2715b0faccc4ab2608f7c14682eff088cc635b48269d2392036eae666bc49
; Twice 0x282e020fee1a71b9fdac603b0f2b81b88ff00b3b2d42ee88fd82a1ef8d0fb1ec 0x3987dc8c03be75460031db5398e356be63e40c5c3c6ce0d59260f8e88ca20418 0x64e68e9be747eaae49887b9bbc90b67bf48b4652cf363a491048d21e0a5b76e (-0x18f5ef84eabe5d761f63b5e76cdac368fd681ee8cb9844633dc90cd5d83f2b5) 0x21dbfbbce9788a32828719159107ec52d4b3e7fc92ba875d726dfdd5283df450 0x948648c0a2a10079aa147f08ecf92040de3a1e12ef7c5607fe3220f3bd56b676
; More 0x4c9e285a366907cf361e87edb8fb76298eadea67cc0b55302740ecd30bd31aba (-0x15eb021178d5a646b14f30913047afd95ea78e9e7806c903de4bb04419c9a0a3) 0x16ee49ab7cf420bf31c97e770f19224d125aa32b5c78ddb6599ed4df1c6116ad (-0x1e3fa42e0ec371b349a3ffe6ac1ac66f65c5d57d130606297013a1797cf68976) 0x86ed809325c0297eeec9134d9a64944b22fef50788eeb3f3b3606ec128f0aeeb 0xc3a0538dedcd139217f5958be96c07521c0ea54161428b07f07946f2a6226d76
; Twice 0x4a6dd7198bcb6e737189c289fd2ef81279144fbc435cc906a8f537dff2cf6133 (-0x6397ed40ed96c50e685d44519ecbddb89f7c4ff2d85d66539765eef0c51225dc) 0x15a3af7bbaf241eebed8ed15bd7c46273b507cc0d88e0b19093d517a36bacf9f (-0x203fe92d007ed64facc1333ff85cab6e48cdba5a1cd78fe515f8916a454815c4) 0xf5d9d84012248745dc924099b387cb5191f21fec4b3c3656a5767094a63b21f2 0x247213f979918bdfaa79efb6da4299f9d684e73dc26fe41131c443ff4881eb61
; Twice 0x532af7ae4ddd8c1312a8c232d021edf0daaf259837b152497fce402532ab0361 (-0x2aca1defb7835e86e494396a370b807aaa2673b338a23550f01b87238cf69cb39) 0x1b04e3d15655ea4704d2d1affd11d78fd81ae8965cacf49fc877309407e98239 (-0x5d95470e643d8cd638662deb951b6ac8adcf40c27d6bbcc3e76c5d298a4ed4) 0xf6f9e7741447009e9e487087db12fa590cb5731fc83e70955ccd09042314a916 0xc18d9d54fa934b10786bb444b69dc497868543b35d5d27fdedaed50865e62527
; Twice 0xb2c9af608f82c5e619d6638b2afe226825a0bb68fb72978ca9cf12b91fb77c9f (-0x1bc75cdfa585d24bf9b0e9f46caf02e8c31e42b074faaff4ee36ee7c77a47c4c9) 0x7cdd16c7a23575f6a1b3740ffc3f89b4e07917fa17d91adf2d6574387b0a54b9 0x929a5927057ec679e5ead8fdee7f798aa8e47f81c9476cc7d38150e7752cd9d4 0x250f85337f7e6e4bb623f7b9a28e80dc02316219294c35369393cfb01edd6d4e 0x31db6f6c704fdb40f755bdd58b215821a7eb7e153fe0b27d0c89c0596281b5e5
; Twice 0x313e2f92e2be5d514d5f9a33ffc435abd3af08b0e3cfbd616908efbbb2292db (-0xee594bdc72af9d0def3195f559ccdd76727db561de1e1065aec355cce33de85) 0x978dd515842d4c8f2050045c1d5f8829648eb46fe0359dfba61a35f6163c9 (-0xb06e204b3cacc8fdd3892da3eff600cfe9820966de30f44ac450d587ed1524) 0x5e62e42641f0b813358823e02f455a08d579930dd80d44566c7536ec6a111086 0x3f6ae7ffb01dfcfed9dfe5700fa872e7e1689397bddace8fd2636e5bb7dea40f
; Less 0x2f4146bf26b387863f4bd28c5ab444b15ba8593d2931e935048e6091434b2b9a (-0x258751bea77f5577d882360bd421355549e56d3ee6a37f2786521736d283c5c) 0x8b9089f398db372421a15b60faf75c42428724294656018f673146d02563e00 0xfe9e6f619862fa53ebad59a04775996438c043f32e4b66a8bc529f3a15161e4 0x82cdc6d71b6c53fc8966ea761b091b26f9400ae158d8f8c71bff793ef558388 0xad586b482b9a2f4d7e7c525d33aab1a079b6b6bd0132e91bb916da26075e38a1
; Twice 0x2cbcedf8eb4845ea909020c18c2b70f0ea916e310331a7c7b8b8d20ec083f95e 0x3bcdc01b5dcc14998098d24e83279fcd97301fc486be78f7545d6fcb7b8ca081 0x7d17d3bfb82bd17cba0a9b574eac5d66e0acbdf7e4758911287e9e8ed135932 (-0x1256c4e8bfc6a5da0e7fcab620e6fa10e5eb3ec04e43d1242d9c7b6efcda6c8) 0xebbe3432bbb29cd244aeee774e733beabf67f2a4ffd367bea7bb31f378450a6 0x7fa59b8e518574d7dcd00f1fbe7b47294551e001216b008452eb2a5b8bc8a193
; Twice 0x7c5e47eae5c6fba45f63cf29dbaafeb5658803cc368dc5fa93ed1385a62c5682 0x797b2fc53d26b83a9b8458272e9f8013e0eed490171ebebaf876e796d6eda59d 0x3c6b7864afb91d49ba033127c57cd82cac56b1c495dbfac80627295485f9b26b (-0x23771bf764fbc4bd8a5e8ffbb22ef2e64b27c154c0018b48f88873a41100873f) 0x57bc5988c7018346c9306c000581f1c73124a04c889c4d9a54aa7a0888dcab23 0x67844eb8a0beda91575d6d3008cbe287b0967229d466a7fb38c86e63ca76e5b4 ].
Definition token_6 : list trail_step :=
[ Less 0x974df205dc701b896c6f7af9e69f655dc0d66b68d6762f11b7ad1c93cb729c5e (-0xb70d8d6c212aabfaf2faac576c8f1acf6a022859ca10c56b18d08b67639181d) 0x596d0b3ebfcefc11633a73c2ba40467f290454cc50af02009dc116d5a99ea197 (-0x551268e99111dc543253d582003a507e8d747d5ab5e9499f0fac085d084a5654) 0xe7ac6315c1cf10115dc78c748fa5d99649e3651cf342478b69047ec7ff63e662 0xa9bb9d4ce9c87ac6c82028fb5a085e20573a7c5f68b7fdcb86a43156e86e9ed6
; Twice 0xb37e6ef51b7eee00d66944d28d760f193b847ceb1298e82e296071462dded3cf (-0x186f5a6ea8d9ff13cc12c04ef97918c0a9dc05349f8f5bc260ab4697f4280e98b) 0x7dda0d9cabac2db25aecb0f4104c5bfaad09ee5ad86e2dbe2ee728a489f6955b 0x3da7f6dfd2ea13302e112da21334d4c5d168fb1ff0f116c4220cb24a1258cc2c 0x8fbcc8dea677166457daf236b2cb7d118f7fb42e9127bbbe5b2ed6b35b71a9f8 0xde088bc8b426db2e758a96865d7cba49341a36abc0fdf793aa137c6f6880650c
; Twice 0xec355e593721d99f85671810e5cb9eb0f679b689b61fe099fc9ed5659eb0d3ba 0xa79efa0c754da0d8e3da575e2dfafd129e10768e3155b028f2d49d7427b7834d 0xd9f271158b4f51eb289a38c392c722baef7b3cbc4a608828ca9d47aaf78a9248 0x3c6d4b5f8aae4c4bed68237a4e93e8cc3ee12c6d7427bba0a301c9aa1451729d 0x4e3f57c49c080ffa7cfac5dec60f33bfcdea32e434bdea847810ee85a783617c 0x73d3e36e3dbfb5655accd97611ac14cbdd13cc895f9f276d8359333729efeba9
; Less 0xa172167815f3c6013b1a8357bb480fc2dcfcf8f8f9c101bbfd4451e971d44358 (-0x1230ffc5b6ba06f9a2c23576967e7b17ad36dabe53c5ffcb71dcdd3c43059372) 0x65d0b31b7659bb5f726cc302fa632364e60afc934a594e98657ee7580e70f961 0x23f4170c5f2f685d5425d6f88a4253c0d76b668b7c56f6cd01f9c1aac5bb4b1f 0x153caaafa5c35adfda8fe98324c0e1985c19746ea038d7cb692a192fd9cc038f 0x950de316b3cec1672e5dd43661260e6ddd38299c90dea00cff3c1ecdb5acafee
; Twice 0xaf0f14aa8d58778a98021ca4711b614e9cc960907f4deae29c457d1861ac2f82 0xc69185076394375e68629adf0d4d641ebed83dcba9b07ba3dc84ffbf9e11ebe8 0x77b59f25129c3aa7f32e4cfe584f7802cf149207316a089fb2545a9cdad416c0 (-0x316098d47761e42d1a08411f3e34c4e6d8a499dcf5742653fe571e05fdf3b121) 0x5d71d4f0ccd74743b39fc187350712980fe2524f1f5934fd8805f46d8abd0da6 0x7a6fffaa78d34878bd10c7512b4ca95cfa3dd2fd76b77a1d474fb66eb2aa4643
; Twice 0x8f8c28e0ea969c409f7b8f323b67e368ede132f62ec1dba6b0daa9af9f3db595 0x22fb7b3c751a4cad63030b806e845030d53c47dfca3acdc122eb3588e8044eeb 0x507de2685319c89d8ad3b08348aad5507a5abe8443d131a3b3950273bb8a3235 0x1d95fc43e40f6de0f29f16ab2bcdb2543ee5b754f514d1c2fd4a834c5a991ec8 0x28ae861dec023cf0ee998634608836f4c2994ca75f069a655877cbbdc5de1fa2 0x68fd6f67ba420a65ff945c35e297aca5a9e4e76790cc112df292790c0eec34d9
; More 0xc4f0c9d4ac3840f60fe7aaabac9ac925c9981a7a41b9df7eabee96dda688ced6 (-0x331715222edb704c79b0f2d7bdf07b24e4e6bb4193f94d348a7e1b15880e8d24) 0x978197894d1a4b99525ae3f22aa7b71c8eac87f2db31108f2a807856c6284f2e (-0x9605770d37b3d2c07387b7e12291d0ed25fa7cbbec53b5f20289997ae2893a12) 0xebb130f5e8f1f0c095ab4ca146119abcb5877b932c149af49e3d0e291a2e87da 0xca57443da5e8dcafa44b149bf3bc46217146e8294d3a171ce850534431b66245
; Twice 0x7b466b23519aea267918abd58e5be3565cdb440c3afe8d58c3d0e737dd3980eb (-0x1c81d32f11650bc111828a8f156939f98bca3d78cc8f17ac801c851ce648879c5) 0x3b5cbe52efeec722a4158d17853617a516838df7f1a8d06aaefa37467b96d6f9 0x66470e848ef1160e7e08d5283694588bf17978ac89f5ee7db2b9c815abc278e9 0x174bf8de92ff5c94a5c605595c595c636b042537fe020f5786e9ef6eaecb9efe 0x363f4521ae1dc399fa0215d8a67b1abaa1ac82ac2101f97a268b6f34741d898
; Twice 0x83ad8a312a68bb117d985ea6d479ac763dc438309eeb2d6e347f3c63586113bf (-0x2df52fdfbe43f569b7d88cd01460820dec53c6d8ffa2f1bcf5628da48e036c7) 0x43bb1112a62e9d3d4b6e3d4deeae057f6e3097e67ce3351953875f30990bd39b (-0x1a460399096b76ce5fffb94ccf606148da80c17ffc477e6cd504dc7532565753) 0x4a6045ae41033734576dc60e7499dba041724a4cee9f0ce0700f307083b87e20 0x43233b3f858beaae38226e73e13ff598a0f4e6847facbf03194c6cd1d93bcfb7
; Twice 0x751c3020b34d3211de522b7a041f346fc619efed98bf0130136d64ef913423be (-0x366685bda16f4eb4e34afeecaa289c3462fae0d6438a34a4f91a4119b81d1a7) 0x3592c718a9aad72a00e010eaebf4e8e1743514df54538646213c40c920bcc633 (-0x130c9af9d35d81ed174ce7ddd1aebd9d8821ac92e2681b4b60a63803f038b714) 0x74046b4cf9492185f7fee4d1f680a60e282866d0f3c9bd1b128d27c7df794af7 0x720b2c848e70af6720356d294cf458997a5b959ca9c5145d579c6e05ec60ca3
; Twice 0xae19144f2d95a81c9c411793a569d5ebac79456c1cb4237dbbe17ac69e824a46 (-0x940a2b67bd0ce4af87ad0d739ba56ee5df5d944c420180c3699f12238cd3f634) 0x76661a111170e96ee1c9fecaea893824268eb6e69517fc2b0e1bf292d848b818 (-0x4a4603e86d6f978a13f97dded69516d64cc7037977a056ac39190e75c6065c9e) 0xe13b521d334321cb946c386f61a98d0a03bc64fa131711077e88554905faad4e 0x2b3e6f8810c0e501a3b2e4697e0b38fedae49e5b9745304991d776884b378cf5
; Twice 0x7725f7fca15e4a9b24ef81a1463362984eed666e31894953f503a7e3aab40338 (-0x22a3b1cc0706378170fd93058cbda058482286b7e173bc7d14b93130dd923dde7) 0x3774522eb4ba197e55c71e57f0bdf0a754d2fe7c1470754e7a7c8f1efdc4a46d 0xbe8d7560f9a229032c708cc6fc259d1ecce8beb96c39a3fe57a0ded05826df6 0xc7a4a234f94cce92146c7d4de89f125a442d46844cefbb1fca003cb7d899a611 0xe31c922c01ebf167ecec78beae60b7ab196e504117e8daf2176137cd637e2d59
; Twice 0x45fc6d745b6ecc2e5e629c908cee81f35bac35f58d1804565c69c1ec8cde400e (-0x156e6d0ecd154be2273d72607b11c2a3ae7fe1bde1f475328bd44107622b14e5c) 0x13220be8784c12dab6457cfefb0593a4a6444a41c6aab458288b0119998889f8 0x134428e5907a0299342f64d01047ede268d6071732d3933af2073799291a65b7 0x812b6c98dd0786a94ef962b8368d352ca91eb4b0def08ad653e5947c60a43e9a 0x51843955ca2d5f530f7089c8c2e062a65c085c5b05ba805306165227c17a0e0
; Twice 0x8b00dd8dd7fa72253adc2f71d7889cd16e32475e6eea5caa2b6d0d8590eb441f (-0xbdfdfe3a29e99ffe4ead7380cf873449b5d1ef98b400476aed6438d8a8931857) 0x4b79f09913c21e0b3f5fee58789cf7b5fff605cd2e582a08f051a12f41dcd184 0x21cbbd09446ce53dba39b6ecb5ec2b28dbb70aef017f910062d2c6abca575965 0x42edacbee906739f824de4cd218c99052f29e6db91b31d2a8055eb45839ed011 0x7edf31d6a66e4b81fbdb6c246bd9a852af1c276c69b733a0593dc63a0b077f1c
; Less 0xcf0197a07a93dedd56725952e55e362262f2e55edfe62d25b29540aa5fbf8fe1 (-0x207a540954d90f0806a045cc74e14a1729fa18d52cae3e92b67cc7ce22d7bd0a) 0xa7639338b6ae5ffda3435c994d137ad9d5162a9d0f1c4f3bc394207597323579 0x1fa2bb02f2f06d6adbe7046fef15148934e8a7e487e092878eb1fb052d4fe7d9 0x1bce278843344999db3c48072aaad21e829908be1f8e29cfc4b24edf3b95c693 0xd3c4bb9eee5a8a637b2e9128374125e09490c45f4171cf92645eb3dd5589227b
; Twice 0x5cb1241960cc248ed4bc3d1b7c3ba4ea7fd19df6be0983ebf87e503768a7116e 0x904b119063fc6b01a2fef16d5a5b5f2c560e31e9c847381e0d9b0e6ce4893184 0x218fcc854f5186d3daec4076b343c2501e49a4cb9f7b27200e1274a03fa5a54a (-0x2d85c9f41f6663190df4e2ec63bc27c0eb0120b376868a0ee9355281a2ca6a1) 0x23a9c5391cf0666bbfb686118d338d41d1f6a79f6b1ccb155a6c3f56e72de368 0x63317343144c708ee27319e7f82e385e2217e48819d4504f92e333756410ae5e
; Twice 0xacf151a870e0ccdee4c676b4777d7e06560db946c7d074751d834ddfb77c83d9 0x771ddfbaa03955df4df5ecb7dce168513071c0846c96a0c3d308f8da3fe8ff61 0x74d52935a5b3ca050a6b77f972dd4be9f8ae3c2245f09392ec5045c2470131ca (-0x21d2d09eb201b47103439ac22186ecf075bf3424db58d7d02b241d92625b655e) 0x55bb1031090ecfc6eb3e09dac1385f58e33e26db17dc80f2674f4632b4c538eb 0x32d617a8025484e4274c62cdb026ffd3e6098298a30829bb8201bce773166739
; Twice 0x1fb363378e9a4bd8a2a334113a9ceee6c5fc1bf10bd0d37fb1b514bda337d9ee (-0x498a2bcc87213fe655d150455bc6c439368647a61a74cae334bcdd5d8e2398d4) 0x3ecefbb5e9bbe39cf6b73593508c1ea2d7be961ed3844a166bd0f19666d88b4 (-0x12d609f0e56e2ec7d89042703e754889034a4d60ccdc845b9b85c7312f5d3116) 0xedd78ca2d7d7b4b497022887b2dd814bbda9b68ae8720731013fa7d46eac7022 0x5acccc70de9372acfdc2b223e978c1df81573613e5f5948dae376887a8f8738f
; Twice 0x4ce09536cea725d9b57fe1795a20eede5f002b28dfcde1b5b4530057a0750784 (-0x2606186096f0607d541bd8b1c13091ca58098253a59c1dea8ea3a9b65f2d5afef) 0x17161d9e18abd8e3e9bc1c1ca919301ecce70e390dc76d17f8d8ca71d53fa2ef 0x3ba4c23a96316339cf4ea50f7a0d971f826c5db8f6fa121863df759f9c042ab9 0x273ad8ef02e20263b1b8f006f9c8925c824ce5554d74c3d0ea0f1565d6c73ebb 0x6125449e36f79ed9240d9b586fe9c2b3e0920e60fdf86ee5197808e67da60146
; More 0x1357126728c37dc91e73ae715fbfb2f9cbd683a88eda4300704219c7ea779024 (-0x5207b74d12959309b16f10cbac21a433d9f2b49c4a67bf9e484edd425aa95e3) 0x1760a58d4f36f317e3270148bd96aeec5644089f635c31609482b7862b7d1af (-0xbc8226f542ccc03bdeeca67e797a94cdbf6bfec68e4c25f629012552ed98928) 0xc32e9abef7ea3c555da78d7a23f0b0f8134e9728b86ecf53b3efc81dd5f8556e 0xb5f2bae827f1432c0061744ca1d20679dcfb410b179961702486a4a2a89f9466
; Twice 0x5c0d1693f291e955fb0ebfb3221efc90c0ec0d129aa14b1ad45bc08a0d1fb9ce (-0x13b97079c152b73c9cc97a303f38886490a8043aff000d5fec462d93e491b8e5f) 0x211968e5c476ae9eb0104f36b6f037e197a0a3df390e2fbc4f555365790d0479 0x1ad8a68980b287d69f83d2c0d2bd80691f4c79be863a4605e47748a1a07bb8b 0xbe84065613fb36e03fb10bd6b373368a78264302af4e4159ed7f520f3fdbbb61 0x18c988d0fbd291f93e2cd956c125641a44baa7a040c8d4741c87c66a3852829b
; Twice 0x8a302cd9d76a6b1fff91ee31f56cfc7a16918145a1e88c85253a19fea31be6d5 (-0x18e961cb86610b345173f4f38610e6ba259286636eabb9b19f22f7aad4d5749ae) 0x4a97f96c0063183dddd4d29f1ea8c71825b516747bdb3af1dd04bc1e876512b8 0xf9ef537c5ac5371a9d60fb934990255f23006bc35868d0de8e96e63da51d515 0xa193c5392b498dcd55f9744d02cba1cf79e2af22cdf13c11b2ea4ba9c6bf092f 0x65c52e23c08a19f155bde0f1f4f7fc8a70ddaa86ed73d6dc4823e04fd03e8214
; Twice 0x41cadab7bfe3a904333a1c4b20bfcdbdcedc7af065469ab0d489108deffb0e67 (-0xfda22f9a1a83e9323127555b28746d207829ca9606ca5c3c23c8e6089a5bd838) 0x10e8a3cf4532899db41a8bcae2d79982637972f9e844bf6a87a6761608228258 (-0x177fa5c29b1f8661dfc7d33c3596c6d0f81927f725751d72a8ab6578c757e19e) 0xfd02d11d5c9c29cd8d5dbe2885e48b4e0edeead747b2b828c16157520b6ddd6b 0x8c8e718c4efe6306036bc9c0a58afd296fcb7b8b13d90e7b2ee2a1281ba2f02a
; Twice 0x2ff7579d825c30d7ffb87f63c5f731294f28f6efdfba7be87b8f4879f44daa07 (-0x2b97fcb5039ac9ddfcf93e14bb26a8022caeac9ccd2240d1a05dc5e41f7452a24) 0x8fcc1260ec8987f672987b360c4ab5272e11dfd352b8f0cb5a09b2ac5d5a444 0x23ef1ddb853846b14d2eddaa3a754cf66bac6268a821a51d956bb5814aa9a6cb 0x3d3a4501e2053ac78dd56ca9cb9c809017186dd4959f69166ae2bad1c01d359f 0x5cfa552ac9b0e190b1000e4f36d6ecb6b2893d28b5eb94313990c47bb604c535
; Twice 0x55773fef320bcdb792778ff09c38bd0239866a6f23f6c9d53ff6e579898fe4b2 0x12266547e80d0a2f4884fe7bc76e042c3ea57a839f7bdcf29809fd626aa5048c 0x1c886801741c5fb6ca949c344c4b259ee5ea9c73b8f7b0f6409a7aa7bea5dfa6 (-0x341acf586f6d40073ec320cecffe67990a0194c433d878c807d82169de85d414) 0xd94caad955bc3a79342e46032d5ccdbf91f77de7435ecfe75004fcf00d95002c 0x3be3b8263b058e40bdefd3c6380fec2eaed8ce9c388d924aa732e5154401fcad ].
Definition token_7 : list trail_step :=
[ More 0xfdb36d53f09a0bda427fd6014ca299d2b4b98564ed0b49984408bbf6319b580a 0x6d3778607a9d8fe919c87be2c51b835e06d4aac8371221e602126129456ab2dc 0xfb6c23daf70fad1d0a69f419659ae56052215fee7ae201bcaa085c2f0458374a 0xb2d88ad2640aa7ac17ec1f2f1e3bcf13c930fdeb2791b2c97c0158d90570ce63 0x24d536426e53543e638212fa093ee34094c17e34b2e177cb88cacb28ac8d54ec 0x18cd0ba34a3ee95cc31b40116225e4c650a2b08134935b061cf175d41e598236
; Twice 0x8465f44e76c1590e6a4b0920bdff3914147e46069f892c44ca6cf5afc0cc9b18 0x9c13a9fa01630b01e1c34bb8e494cc1e9f4de22226bc9722c0e2558bde55e8d 0x44794c8bde000f5fe33092fb7cca1443901eb51f5ea97c1c50ad4b3524a9b8bf (-0x2ed93da7d79921c2908291a4696fc359b20ece83101a44cdff230391d04c4a4b) 0x7f6add5e37d09d8e6647eceaffcd0b7f81fbfa7b1ef0a25ac5233bdf57c52127 0x5f5d5f70e981f515c4e81ad26da536ae8a6b10497cbdb919b4eafed73c7354f7
; Twice 0xbcb3c335ed57b0678a959f094229c7755980fbb67f0ee0783f404f290278d49b (-0x31aa8a8d1c626b2309983dfdc82f82c68fb4b63369750d6537d5468016febf4a) 0x8b1884f251f66b9a444db8225b3ae722328bd70eef304606e3f50d9efa706f7c (-0x55c63852be5677a316dccfc8fb4866a3f88e6f6eba254dc4496611f08301edec) 0xf3c82763c591185dda72fcc3f26de8c2493c8b0d5dcc9dc84f2075e0b8c74307 0x3827fa9c1c0e878f38acee9679efd5123ba0401c70b7ff5bc420a1e91f32ba7d
; Twice 0x820936d9fd310ff674622ea355eb63c2c04ecd8c5f309a89732dd5f223d54ccd (-0x27f64206ac4673db6d981a6596e2c39bcde09c1402ba24ef8a1bfe08494aee5a2) 0x420d5c0a8e47ae23a415443d3a0e17cb718bb857d87425ff261d350a22d853ca 0x10971479ef9e8fe348589c196b49fb2b72a2c418bd94fe095951f73bcbcffbe1 0xd31efcfd98acb9df00c8cca7e6887bb36920e65b808cd27e6c04a395a37629e5 0x7cf973f0980114cee3f1c95dc3643074ea23dd63b5c3d49f42d6e4d4614e799e
; Twice 0xb8c9ed13fab0043bad1a424b3648a202bc06a4fb2c7e2bdd39d1633f47c12029 (-0x155e88c84f684d430a5e747ebc2a0df55777a5335b7e4bb496da07c8501e10014) 0x8562e41362ad92485f49a165e59c08a486523c57098470c771be47af3e71c525 0x4fff51c2ae86f8e02d05e359458714722ca6a682e304290e486e6f7b77839410 0x644ba513ce6c4ecb3fa8601216dad9570054cedceec7436122b13c3a3761b7ec 0x9913e1e101c45e8c144cb9ea0c1026e0078003b7e6be1e277629041aef737b53
; Twice 0x2961b43ffb5f03f5204f298dc352879fda7e7c50b4af3464d1e765112a134f46 (-0x446456f9633a3427b0dfd169f2a63109cb37a483af7209027f84e158dca4e6b7) 0x6b071069c9b67c7672eeb298750a585d766e9f5c8d0fb6d303ed4242103d3b2 (-0xced2a1950646863ad71e47076f3b6d1c658d03e45a4f8c69a71c47bd105e3ee) 0xb4432e72934bfda63490ef64bea002a0f21314d907d4d5fe213876738730aafe 0xa5e63e672873b6c988e19d1329f7accc04502a3d89e83e7fe8387dad91979bd3
; More 0xaa999c4c9914a9f16044cfed3f73c4338e5609c3edaa4740580e9fb52e135feb 0x30c2b303965b531955136bc848d9a420a7c5514db0206d760dc5f5fac56f5a66 0x71b05fc25ffc3da613991dbddf56f33ae17844e77afc6551766e03eff1196936 (-0xf0f074340861ad37d11b686f33507dd94bd8dd3cab3c40fa221429a8e78c77b) 0xcadbfb76c6b8129b90f5b303770e022e11906975fb5d96b8af1ed87466223d5b 0x76234f1abebc74848040d9849cebc2af20a380d6fce76f6a2e1c333fff6be53
; Twice 0x194019a5001e3fbe5869f97111c1c48af6fd4ba722dca34a4ff8fa4567762f7a (-0x1e0cad0b472ed7357b1970bd3b9bf848d4dafc0d342bdd991f262f71632f26614) 0x27d950f119531012af9dfdc9334ff3b893bb1856024c3765f3c2064ff3b855a 0x88bf3a4d6682a618f5f9e08d87775f69dba9ae2d71e8be63b1fd17584c4e79 0xc57194332a1638d62099424aaa8efbd8ec6caca66ce16bba0d9ea0042c3d10c8 0x79b0e4a2d68f003b5df0e64f49b9e872c3263ccd3e44cfa261023030b37dcb34
; Twice 0x9889c13dc3ebb2769c945a8f4e4c6991fd856cae00cd03472d8deda25490c1e9 (-0x137d2fae46ea721a3ab9cd78ec05eb51462956b8f7f439d8bf3be6037e0a377eb) 0x5ae3df9a1985a61bf2e0585517ad1cc1a28f10934b4c559f4046bfc5b431d01c 0xd1676b04fcbae99e7f22ac9052dd7a53133a6122cf456a2a6d99637a767c62d 0xaf7a995c6359e4970aefc059def8e31b6a6459fe00ac868dd3e1a5bcfcb8d49d 0xf033cbdc845c150fe8a97e265dcb47b115e062d97a16d3939f39dbf9d8d1291c
; Twice 0x5cdbe07d06b0451efa7ee4b05956a49b9e6f8e0c2fe4f17212deff6cb1d2341 (-0x15df66ba33c5ad7079f2d7cfa3d2d18764f58b2c289d7cbd0cb90f4b0c4ff4f60) 0x21aec633d941f23c3fe568bdadb29f98916732f21da3a770a3b1abcf76c328 0x12d59f0d19f86cfda63984b80adf7e5cd2eea91c0b0c0943ba8e96c63b27174 0x7b8e02c113bb6593c824bc04258817f5b4a518dfc2ceb2ba54b4be57ed99f06f 0x21f9fd7600253802f55b19b8d7a7f09ee1a06bc0ff69addeccb50ad0ee218206
; Twice 0xc3a4003842e5261917d6f85cbdf0a50d4cce95f7e4306c2e9c2acb62217e1d3d (-0x7ef6efc8d1fc1761f563ff51bab54e7096215406410757741530e10c37da627c) 0x9583416693821b665e328387d7c7fcabf2b715647094528978e8fc01da5a1310 0x194fabc65429ac72015a0300583aafa6f81851b419d821dfaf53a122615adbd2 0x5a6f388d54f681a62b1622cd77320c310f598437f26e5ec06ad261b0848912bb 0x19d1959d2b16997d95ddb9e2022cd0ab34ac06256fa940418c91ee5b7f391b0
; Less 0xfdfab56944310bcd67d5b37fb50179d6968654a92b50414cefb75655bf851402 (-0x1086f00d474eac7cb250d854f096d898ee95765a75ada21f1be8f0e46ca9a0a5) 0xfbf98019dee9a6ee4c7193ff7030c66234ba472c8d76aede944dab03b265da17 0x371a6f78ecc110e911cc7266c34b8ca713fce415914007c5a77d477bab0adf90 0x22e48ddb1c0c34e70dba263f64aa6dad8bfe32918cda06b1b2ce8a6a1ce854ca 0x61de4e4f54298e1e3f061e7e6db6d63b2dee4e04c32d9cd3d8e72279ce649dc2
; Twice 0x70ae0fdaa996d7f81968353b82bae57ce4f98376efdb4c97bdbd676432e91195 0x47e315a5d1ca79d0db06c3180516c25798beb9f069c753aa4486427f5d682655 0x3198c4391436a4e480ab0074b5f1449f3ac9e9a4486041ccaa95519ea78f1d50 (-0x49194b260705c169c933cfbe11c3155364a7582a1323f240e2ae265e32d7395c) 0xc8f7b216dbc17d59dcd1f316429f7ae261e6115fb1de82789955be41a42d9475 0x26f50b9f91375a72b6d0be77eca1b7ea7f6e7727841ab00de1c8ea785198bf5b
; Twice 0x7a2d32ea9ac860805dc0ac5b38d2742bed10a6a3386cb5b1bfd591fe0f14402e (-0x1b41c910efa15eb55ae805a8c85ef641db4c81857e6228facdf9d67aff51dcc4c) 0x3a4f1c82c670fe646c36bc21354dda8307c62ea5ee73789fc04af55e2e60a9c0 (-0x423b6936f212e0323214bb46e1201b2f3d02055f1daa6b800b6a634332909f7) 0xd1a424877b2b1240c324be27440a1607e8d9de8daccf57f8dbf25142614c891a 0xf9d93b210983673a9be33c791eefac61a1b02a5a75275276a3e90e72faa10108
; Less 0x139b376570921180bcc2c134d0a3471072e95a9db8587e8335990a74a30f1e37 0x7da9747d77426e0b1d9d94d44d99f59cb84b204a0a630651971f9d614c134a1 0x18068553109266045b97de81f827020e487917b9743931e6a8c40df9ebfe5f4 0xd3c1b6607795816669b583a41b8d43fcfff04a02e69a715d75f7437a0939880 0x24d59144a844868100e4526dc459838cea8c1e7620ec9444d9a2a58dfcdd8a15 0x2a1e5e2ff2af07656031d1b7a54b30cf0c9b9032d76125eb3f76bc705bf8f78b
; Twice 0x54b8d3d6602f1554a74054eb8ee51596a6f94e482c2f902a895e95ae89e15085 0xbfa761867d292e87eab809438280f339f1050cdf18b1f565561c4540c77daba 0x1c09d075fe9e1036aa0b71d953a8113baf6c578c7121fa14e355902cef53bbce 0x642788c6aec50f0246d5383157c791e92ef6777989964ef8b294fec14153188 0x11eb76f353ce2a3065e1e6d25d9b7889a028a19543e7ea54ac037a59f2b60cbd 0x6d06fe48d0a63189202bf609579e9d70e828d9d44f45725d902bc14a9823d8b5
; Twice 0x4d8ce229669969bec7b07052a3c3dfeb8ff19a348a158d8f1dcab15c8c2a8707 0x3e4ada2206a5e88a7c6f8f72e96e5488630f81674186443e5d96a77520320ab2 0x177e0d95244baed65e8f81b0e0da01cd4bb70e8987c9775b2ce5a07675bfbef1 (-0x105521e970dd934df6fbd1f672852cdca1148c6aea11616d69cba2387db38a7f) 0x47d5ba0137ec38a734eee437252cbb923225d04a7c1023805bf1f18acdd807a8 0x71e60bde311373bee675d42503c43cb67604630ab017545b54ad6658525ad35f
; Twice 0xee790984111d28e46eddaf1df21bb3181449eedb594cca860afe92aa81964aae 0x97bab32d75bc0c1b463239fa08cdf0fded99c41fcf7c4a255dd379c20c319999 0xde2546ec6d2a39daa93110380070a56ba171b0fdc44d703ce7486c61842af764 (-0x547f5495659643659ccbde2b61a3a9c170d915794fde1173e639dcea9ea5c12d) 0xa28ae8df9ab6527e4aaa58ca8554cb3f8ffd577fa72dc0d5c30effe2de2bf658 0x73da88b52aa463a9d5185f4342c34e5e11ed5d135f6be09118e2cad527d44fd4
; Twice 0xf249a9097b324bd83696262efc948716a3e3efeb359450cf8e4cfa7c041abdd1 (-0x5a5078396f27cfb649deaaa06a0e066385c2ea1e5ef9cb3c5f586d5171c1a56b) 0xe54f58c8a94037de196a0cf19cd96be96d7637d348fac040d7bf19a8c0eca234 0x6fc6ab18fbe99a07f1f73175226e7bc408cbafc21c73156ac04568e8e952536a 0x2c70cb9b479638bba6932820317f581c4ff588009b6f6520166e0914a7c6fa25 0xf05b7462f75c67e9235256ae8c104c8d50ca37d861a034efd7256b7d214f9039
; Less 0x3f446ed0d07a48868a24197fd2b4d0e93cfbc396b0757530d0b8d9308b724029 (-0xf7bda0c2d00ffeb8a9339ae1f30578e8d6f9a2ddfa2e4abf4064c94c5e9c3b9) 0xfa2c0d5e525cefb1bca9f7b0217506cb27d1d1e92bb7dc8f845f656aaeead94 (-0x1e0d68b130ad477e7417ffb0ab6062a2463e596a68bc287b92aad976e8245c91) 0xa60ad03fbc868ffc1affdebdbde140caecbe56ce58fde0830fb98a05e527776a 0x8ee920145c5075554fac4448f76dd1f94b9020add1f1eb70fb3c1224c30cc329
; Twice 0x6f10ea4c7cb1761a7d5c62a207c948c48124fda4bb37512a37a38110a66a8d6e (-0xc715070a4cd61777fc81954522b11a4eaadbbcf032583bb737aa25a6bde7b993) 0x302fac4ca45111b4e22a20d29894a36e0a31b08984e57842b3b0cc7002f3e0b5 (-0x1b5045ae33230c6654f256f8f9bc2b4913d5ee816937b1b1c92aee2d1a399cfd) 0xe4ff8a84cc80092d4bd8031c78bac19832737c38186b38968e5a9de84ddf4d25 0x5734102841bc9c67197ad789fa25a2c9297d17fcee742f959d8699522195ca80
; Twice 0xdbc5aeb00dd3ba50cdc6504a08e77bd7cea0b5aa88e6c4a184259c17567a115c (-0x1d0cec8aebebd2a0936589996e70315c29c507e750bb3b1c6497c4091cb6eb5f8) 0xbcabd188467d26095f648bf4b99b0f8f677c4cf8c3295bf47a34ce0506d9720c 0x4e5a8ed6b38e0e230ac9fce049047792e1b65c00bf711bd1870cb1341c66fcbe 0x89ba7ad710f36457eb48432fd25e4c5d8dc0feb9c2daf534ae650e9ac7f830d2 0x17e5351cc25570c7c546a08dda69e7c54d34bd78476cdb36cb3c50bed44ee312
; Twice 0x371f6a60406bc112fcd5bfa519039c2488440277d5f7a58d8a1d2d2aef7ee098 (-0xd40103c2966f59a24a95c255d9a114bbfdba40fa12c631b9ef707229f836e097) 0xbde839057104428d3596a38eff113b4f3415d0dd5848ddd194227ed918781e1 (-0x195d719704421f3eb49cd37b4dec5654b999e6acddd11998f824ecdd0c830261) 0xff8738f6d8a0e279dd869f04060a453f60b2e5a6924d272c8f8d52d5ac417a7d 0x32dbcd25a4fb3e7ea4d1e8dc5beebc2f13d5fe99eddb5d7de48dcac58c0abd05
; More 0xbd2d49f81c79b1fde520df9fbc97f4a02e4d9fa039a50a62f13c98a883afc4c4 0x6db0818717e2c7d400a7d0a980b9a10114ab58ffe9c0e38d00d2fc292e68c234 0x8bcbe73bfc710b897eb0bd6ff3fd9a378573507f5564e086772bf14cc68e28e7 0x5cbef202dba858a2c016d098d52a0fa3b6bb4ee5389dc017530e7da989b92aac 0x82058a4d4c268fa48c877c2b669d1592ccbb68b741bdb1f40af5c28074e8a1e4 0xf8fe122f871ce3bbbc529c5a081982b98dec2fb13e266bf02264bb7cbf2066cb
; Twice 0x96c704ce75d12f8a84ed756d718bbd10642cdc798773baa02477cd27674fb47c 0x5f2fffea4cd51fde9c7fa0738314957fbc4a8321127097a64a1fc825d7a6ac85 0x58cdd45ac3f13d7904a20f5fb23dc33779ec757e27a5afe178f817e6aea5663f 0x24ee36cedabdcb4dabad0f1f20cb42ea3bae78ff3c7d02f40f5f474be6767455 0x43518acc1463cefc2ba1e0c747aad010556a7a23fd90af5c595d64ba709abe87 0xb54fbafdea9d748c4901377f01960b4ef150cf3e75d618077bb7f96e95a09296 ].
Definition token_8 : list trail_step :=
[ Twice 0xc9b42125702faf38597eb8ffb91cf72dad74bb98faf461acb802930f06ff4154 0xe89b00d6550d97b86cf54e72a0b82154ad4452b8e5e29f8c77c3625eee05a320 0x9eec5acc0a07ab66390118df8e867729d9c30e31b2e9f2432c8ae007d2f200df (-0x5d2882e4238588b58626144e13d00865c58b574cf892943ab1d6a45b5267211) 0x4ab54f0857fb8a3e4428388613b51654ba24f9e2612f513b36412bfe17c04761 0x2a9881b2ff6cb687ae6427492e493b8337d7d840880552de5c0a7a49e802b9d1
; Twice 0x3b84c93c5d093140238202884704d5fa8369b58bf2b6bcf00bb68b1e864144b7 (-0x2d997a4760582c401f29b04801f593cdbbbb75b4fe4e4f336cfa40a09489d88e) 0xdd679a2052880247f4a0dafce1ac735101767dac8425743f763ab93a38be4ba 0xcf0a4f48ef6e669966ed0942f5c6c1a3d83d4091bf7c8ee2007990f7b597846 0x130d105252766e5f2115180167240e1d4ec81f5807effe1197688d0eff6b10c9 0x9e4da3cfec05365abad230486c9de52a41936c6c7cc4e5dbd330f42d0759251d
; More 0x98652f23a02bcbb9a0b921f5abe27d2e95ce7357e94fd5a272bed989f178f7bf (-0x34692f6c27982f04f09bafb7a7bb1d88aed8e7cb1384de172b992641bba9b9e5) 0x5ab84ff8e3b6ce38fd51cc94aa0c6627bb00cbc1fcaecc5e86f34ac52bffcce2 (-0x3efddfa9ab2be119e713e46f6bc8a4be34e6d1a681b296972b762fb708c57c5f) 0x7cddfd5f7c0e28c9254db2803ca1888d051201eac2c0505141ad787d24ce1a04 0x1687e1b89e568a5db33b2cfdd7ce7d2207d6f4483535e33d5755392b9e6d8e7f
; Twice 0xefd41c5876a1f6eddb56d5bacca16559177ce813667394f44173342b266959df (-0x8c805c5a84d682f6a689747820506d1b66c767ecbdaa126d5ec29187c4e21f15) 0xe0adbcad03d81c8271014c57caa5325d5341c9534d61b767e204345b64e8b7b6 0x40e3da2ddbc00f787c0814795f4cf450af6367f13b4ffa324c8c825fbd0a9ef5 0x379a03916fcd5b64bec3a4c856a867fef6ce162715dfd10814ad7e5427c753ef 0x823a03b9f2511137932da7b4691e80aa6f6f240a807a871a0757c5953efde9c1
; Twice 0xd8576fae314214735cf050a0cfbdd3c98f57cabdaa9f4963520b8b96ae6f1664 0xb7e03cc6362d0b3883227623c282e1edede4cfc2dd03c6630e56bd4f555ac098 0xb6d3aa53c3112cfdec866a5dc89df9d44560c8fe269a221a45232a19ce131e15 (-0x603bc91256b2fd02a1e0bc98bdf9520648bc917d84bf8803a884357406fd0a69) 0xa979e2c052fc70c3dd75fc99632d9e1d02b3e1f5b291fb639bba3545db31cd47 0x425bd461a2b72c78b2ab26d1d10e131c9241b34004fd112785a6bded10d81576
; Twice 0x6023ccf4641c5aae6d62e1c8742adcdfd6dbfe71d2278a1ad8b39cb1deabb8e5 (-0x11ebf0798f53be945d0b963dae6d18e6fcea79592d4741ea71f226ddef9b9a80c) 0x241adeb91e19eb58c57423d2135c4ae3bc7fcdc03c941ec306a67bc2823dfe3c 0x3c0b86fc699d013c5566447a08693a0d12ed4f2145dc55ec0638709c19d79908 0x996c59c1f3e29bad6b603dc2ac54fedaf86740fe7d7099dc3eb1dbe7f526087 0xd08de8e0722b3628d305ab6c2fe7ddb2263c80dff06c88a534d05818f245cb52
; Twice 0x7f70bdaa6ecaf45cd905a3ce104f237aa5066f0a9d4a9ca5e09665114db45892 0xce90a62f0e02d7645a32282e66a94ed4214295b87fd90cecf92417a633f04c08 0x3f710dd5db0476ee8e75953761922f891d267314f86220f44af2ef801e68addd (-0x5c426b89b83086025b60938d52480a24fc765d5249c1c1e4ff04bb37d3d615dd) 0xc2eb08dd50d048b2dc5c889072e4e0ceaad16da147b17cbfc5a1a7bb9fb8a013 0xcbf4d3284939c09cd35255c2da86c854d894940ff1e87f48b00339e1cf4bc0f9
; Twice 0x1318a16f60997a56f5b28c13da7f43e00e2e7cdfed29d8866bb494141d0a5cec (-0x19ecd9d30c1e33da9afbc5560939ae20b72d243bfdf00a6dd6ee7ea9fd79b7ee0) 0x16caa553472d73b0139af6356a3be566027319ad3c98c1bbf24635d48494509 0xf2a27be455b089efaeb5efe119fa428f605f3e738dc90eb5427dc2be3bf401 0xb63652919b0692185179877d06b6bdc5ed917b0f45dcdd14b01bd23ee5027e73 0x56190af8ffe45ab88b4834005e5ec35bc782d6786f1bc330d389f362f32cb288
; Less 0xbc1841353453e1d298ffc3d4c81e769f7fba172df9aa23ee3fd6da41a85d0769 0x3731847331e300dbec078773f828c0334b05168a0b17b797be98db7ee821ebd8 0x8a33a212f9a4b51b65c00cbca931bae47c5d3ce28643a1fa11b57318dd52178a 0xb88a329a60baf9a935a04d0d7e0235e464b8676ccc2e815d9b7b8321d5d85d2 0xa683bc35254282209dac7b656efe867d30e3738699a73743dd1b3a6e5237bf92 0x737bb00ff189046710a94692192ada9e9fd652a0da6ee3c177c92f6aea4e4493
; Twice 0xb6a97f276a2478e110cae28cd3d523022815fa2f095d120ba80869fb7065b255 (-0xa020894076bf79af0873b80571e95cbf65056f2fe0ff1f77a616f1d8f30e67d5) 0x82557105ae73926e7c3523f12dc59211103dbd7c50f73f83c3a38a80928c6a3c 0x743f95107ea378825380c68649eaab30b6e429461ba2edfac9650727c7817c2 0x9c54fdc11418feca131e688a03f58de790043ea16e58d1ddc3cba6c281693b51 0x6ddae513b8fe2ec5a7322f2edb0599a8d997be3dbcf550c297ccb0551c55eec4
; Twice 0x6220c512eb4e5e458fa8bf19dfa41456c437df08cc0c400abc1da4f51985ceea (-0xca2f5d31c2835c4d125b971dd3eda748c75d5be249ed37b011dd2ede70729f70) 0x259d1b147e360e65b85f59c4048e07e06cc267455d19d87cffe0d40818acf248 0x88a8363f9ac268105e9c4e074642491aa0c27b8b429e8d4d0bdbbc917c88f05 0x860cbbe9abab2d3dece1ace097471b8f4a20364a8390a29f5712cac1703be98a 0x4fc882aa4dcd896d476da98701b747179f07e731e462f421a27c193b12108227
; Twice 0xef833d2bb99de531125bd9a49656572cc5b36854d57930532d6eb082244d90be (-0x3d49cec00d10a658928453dc9463aa4ca27feab61fbcc2f05ff20ccff66996bb) 0xe0164f802e08f6f69f4ce9b848e8ac4d5223b5ae8167b062152f711959cffe37 (-0x5e11d808765019b6049fc0d8d0c4e848488ec5b0e2276320d3d570ba49096883) 0xea984d24f4753533b305ede6232411f47dbf67ac04c331f6214404c44d7a7827 0x767eae836985e01e0f053f5fec33db3e9c74bba321898d37b24417de4706ecd0
; Twice 0xb6dd5431de6af0fb02a33ff122d5477b65c3fad3558d3a72335e07c5883d1bf7 (-0x1dba7521e2be476959ff8535d035422beda38bf0632049dbf0dd3af2fc5bf1790) 0x829f7311e4aa4a076f80242ebe70e65aeb64b11277038cbc2bcb7e308a91629c 0x966c8781a4376dbc4736faefddaf399a5eceedec0308cb633549f681bf1a53d1 0x18028c7cc22b3d1dad6bdde48f7c8170f69cb376b240c8af2abcfd1ab6607a9f 0xc2997afe4d3ee39477b753945e492609c7bb266c00b7b022b5aac7bda94c5d39
; Less 0x6abf1f6be40801ca1b6e08528991abcb9f28760dbcb4d869e666a147fc9e3a5f (-0x22a4d5d475eb44f6d254903ec4b7b34031f3ad7b4a1b439fcbb40c031d51a629) 0x2c82d4b56c3308d5a43af63cae9db2d3fe42e8fbc1feadbbf641bfb882d1fa9a (-0x16c0630b9c2f77fca7e05a5a8f86de049de74c19c05fe94aeb7a8d66c0626a4f) 0x4e929d0f647b9ea50527871f037087585b5c3d98009c22502d0f4cc1166beca6 0x7c4af0be4928cda7428345c9705e01c71407e22cabb740aa5e5bd81b15ea51df
; Twice 0x9f1a97203425d6e0277c0aa27c888a841adb7a0924e45e75399084caf4bfced (-0x3eb11476a4f419a8bee69d73aa5c29a84859878f1a86c1ee582cdf861f212bfd) 0x62e20a7d6f6aa4a8daae40147fb62f35ad4541a64c9d07ec7fe19d503031e6 0x1a699693d684023b374006dfffa3b8d544b139df91934c171d8639c0bc0b673 0x2413236ea28fb484544c07d453201560224dfcf810943ee0e0a13f2d5619cc03 0xf511b33109522f8367094aaa417a8ecd387c3f66b9be4a82294fd35dd6c00f7b
; Twice 0x73246e053e0a0ff775d083dc0695423d00d1e577ef877cb073b2b0fc8531ea4d 0xcd337c6e51b0f7cf4ed2d8bd0cc1987b1a5aa88ddab57739b4b38d5e76942c1a 0x33c9c0080a48bea0c917a0c06b763509776fb4081ef19febacf0c5fc94312966 (-0x2e005fd9d0e91c27c0923c5b0cdcf71cb35eef58f9bafa798be4a49b9660413c) 0x8a59f8fd44e2ae5cd4242af41c738430e26bd865d9cc26300e7e566971e86c89 0xea789e5d9d0c56a3e78fa50c62222706d6bfae1e01ed85b27e2cc9acff58eafb
; Less 0x57dcebe6c37e981d262a5e80652efc95783937ef89cf7f7cdf5156473c4e0b52 0xaba74ec06af9a28f6f4a7eff37adad55170d34a55ab88078cf50697f33c5c1a 0x1e27e6fd45096ee4b0f4dfbdfa399013b216295bf484ce49d50c725140afd128 0x26c7510d2d8acf8b73e1060a57794d1ad3e06d3129a247dc08bfe1414c9e3825 0x195d77b2e3bb626685eb9d17775706bab80580bcab77d95bc8eaef374ca6c84d 0xe3b812689b603ed301fc1cb9c7a92c66196e1e5671a5fc8ff898be6028a27c62
; Twice 0xb3f7b59fb8abf87db66d514458f2355d11b841e66be10a18467ca5683fc70dbf 0x138a1ef8e17bc1cf5eaa3cebdcf1364a4bf355d100984e77974177ef18a49a73c 0x7e8457add5d66fd0bf3d17951fc54480c49c56e5d018baa2db334be3827e8ac3 (-0x29c1b3a10cb31f328ab5083bc07206a868314db230824f5ce56ae449178bf672) 0x54c355a9cc5d95e3459a50fe019b44c98f8e8cee7a0ab8bf87bc622f4adfeeaa 0xaff7b2caec602e510257f51277d075d95159437eb008d5d9a8cc8c176f034c9
; Twice 0xf04079a700ed74685d484a860b63d6eff07b5c5ca4f08eb46823620b3a60818e (-0x3f8dbea4280a9776811c6130f7dde664bd5043cc78167203dbe61cfeda678653) 0xe178f4571085f126bffc914910c6eda6558fde3fbeb1a54ba345bb83ae84e209 (-0x21362865171b9ee5b981c2c3bf73008c765f05fd871de0b9190934b9291da979) 0x7826cbc1a0bff9f211ef0a3cbe4cc801ad994474e058e453556cb06edcd56f79 0x8d7309170d48382872cfc6c991c062ea526730438fe31063a91f7091803c5fec
; Twice 0xa87c7b7c56d070b262c01bf56808a3b5f5a62cbfc91538869036fd6b39f78941 0x11035d211fce8b58b79775e78a9b38d393062d6a6300c6b929e93cf008f127b8 0x6ee39e9b7cda0442e00b81980448a1f38700c44c2854dd1548598b632e0bf8ae (-0x459b65c80143f9d811eb6f1094fa4e0c813eb314b89b775b81742c12d5afe1d2) 0xe1e9cc3aaf30156c23f5d825726986ec4ce7c05c7ecd40ce6c438b548b65bc3d 0xc6bbe12c2f9ce66a02fa24968d0ca218d20169c83271b601b2ba8c61693f5c7e
; More 0xab8398d4a3195274f0c0670d6d9bb822f9daf4df92b051d2ef29d97c479d7e50 0x4f9b5690b727a97a2eb3ec1a473c860cd9a2d9b6bda69e39f9a66e8a0226d459 0x72e911d249a904310fd41209875d0c11a6b0bb004fdc7574e1b7ddeec5b0d501 0x32b80876c011186b9dff909062602079824bf5a835d7b51e9e8e6a8393b775e3 0x9635f8c4e00da05cadd84c6a2153d94262c9f44729c0cc4fcb31d3c8ee252f2e 0xa1682f831e5d538a61a7b2237da6a39a6829e9b3033093fcbe2d5322bf449015
; Twice 0xd70f5160a94c6d1b091b52885976cb0531e6c9f07649b4b2cf77db698cd22280 0x6c66feaa95cf5ad10474b34e33affa8ab70a516375344eb1928d825c6b01bc9 0xb4aabb9bb43b4174f85a6a96bdaae0bdc6c1ee1ce6be0da1368fb27ea8bc504f 0x40aeb1946a007a80673b337622e5cffa80cb532f013ca4c81bf5817c568bfa21 0x49370f31879ebeb8f77e9f841b0135d5820006a6fee2f09d0c09da256b1831f3 0x31b7de06b49e81d6c6da19664c51388ef666d921622892ddbd1ba8d9d5cddd8c
; Twice 0x9bbf3bb1969ca110b543ced982ea5648584c29b99c642b52826afa0adf777fa4 (-0x252691c31177b5f0abd77d92ae06f6721ad11457faa9c7dc4da0cb075cffd68) 0x5ec121238c0ce0838f2ab0463f719f2b887a24d5b2c0a1349d0dd30037235da0 0x1f860dadc15b361fb0f56cb963bf97dd570deb8cd8745b3af9c7bdd80190eeb5 0x156661eeed4909b523213edc72b4297870209e8baab9468e667dcfad030f1aca 0xc808704664d8e40112216be01227bcd4c32795a7190ed0cde1fbebdcf223e6d
; Less 0x9a9592d3c8b16f25a3d33d61bac93da8b828343fa46ef86e5d3fb8fdf95228db (-0x33bececedd120ad698274d4b2e1f0517f3df1556c9da87fe59de0ad49ecc041a) 0x5d584c0b698ba46e8bb811b0dd2ce5780f9b8eefbd3f823d23b8f0bed74ed87a (-0x6aa69efc104d2b46ee1494faee8dc72f002eda45cbe08f4235c74d61b4a4cbd3) 0xc60503c5269103ac09f2b2a52fff9278197b9ebd2466eebddc54668234782673 0x9581169b4417be19361a6b607afed01dbbfb57c6f7f368524fd29dc4b067942d
; Twice 0x8d5a9fe9c8b0dfb54f5e6f82d7ca411fae44419e76f987005b16b690c7b8a52c (-0x12669395927010026e6f8b6323f54012079103e2ee13a0e28d10be878c289ea80) 0x4e0cf43ca96523d205714d3356fa4453ac5660061eb38b6170b4b0e88aa84e74 0x4252c04ce4c1ebb42c90f43fe1aa62dc922707c4f6a6ee0f53357602152f2d03 0x4de78c1b42e3496c1ff46924395244737c9ba65144c3dceb3a00db5c6389c11e 0x6c2661f4ea35fd259edf6e9aa7dd4da09d14d379a457a31819770c54dd28cc72 ].
Definition token_9 : list trail_step :=
[ Twice 0x117da76be6af2368161a3d0cd30382d2a1511dd970dab9e7eec5bc5c27cb3856 (-0x38580f306d9b995d49eac1dc0e6cc4307d24730efa310bb12e09138d02487e0f) 0x131ede942b26c18ce8e213408e8ffdf95b5c790a99587439007efad0a03136d (-0xa2e58ff46e686872b5b818279871fcdbf490e945c5499698675d803fc43c7c2) 0xe2eaaa8caae27f5c07ae3dd9961603e8e7c15f7ea51c5bc4d3609340dbb94e15 0x4bc317abe58f6b4ca1641caa01b576bdc63bd2e24ad417091087c1a9f6e708d2
; Less 0x8e9d9a1acb52b62095267cc7abd6983f3b1ee3480f31b8dddcd68ca39ccc1ae1 0x42c0b895c7d5eebab24ac69de2f8d36156c74ede7a30941f72d1d55593acda28 0x4f7337fc6aa49ce916078230afdc3d76881ddb7d084abe47c05f5b13f9a37c6a 0x454659ad1c9d9994e0f8fa751e2cd8c9e9b7324ccaf39fb8cab4120137bbf01f 0x6690e4aa7abe15e2f19aabb669567cf1d3091156a0bb56dbe9e3449056bbe580 0xcf9a5e38bb8857d438bc611ed98b0f855cd2d01668e4e25fac19df8702e8f442
; Twice 0x22b55ed5bf91671f13051528908e47b7a71f1573c1c9b0735ffa57b4752fef0b (-0x42fc2d8d9bb928ee7e6f7bb941e9c1a698b88b8c590f4c768544be55f81979af) 0x4b4adb008f9dbd7364e23199a34a191d2bede0adadb2a5329e7e4ed7b2851df (-0xa4e5868d3bd467abdddcf6c2b175d26612001b9f81ca07c088484ac38807a97) 0xb29496a3e9f0999159789b4dd05df8a58007f63f19e4fc61f723d6be80f01158 0x1311ae4679eb08383883ff9616e298deb0b76082a3020a4b20d966ec7ac206df
; Twice 0x27fa205e351929567b1cf4900c01aafc3993fc0792e355f4d408c9529132b4ec (-0x16fc440bc86fa91b80114417ec24170464a71455a181d5bb2c8fb31c8e9fbd86b) 0x63e2a3ff68339ee5a83bea07ff2f067d1adb14264650cdeb4c3f7399d52c2eb (-0x24c0b73542834db5abddb28306a157bc217dd8c83f1dbc062ac51d30a597e9) 0xb37ff0fabebccd1fb93303e695a019d9c4640499a3e87f6fec2d43eb1f7f59cb 0x8babeb636f105d58cd155deffe60a57cb1c1ddf98cf2a43f1a22f7c201abb34
; Less 0x7e97c16e7f5be4214ae98a9e89237202432f51de3cd7660766960e0ba5a459c6 0x23ce2b6610a6e8574493553ccf4ade116f971bc21fd7ef92df854df44ffbad2b 0x3e99bc5ec67a3b10ad334f8d03be36e29988c5a6d6c5a53f1ce7ee1389de0ff7 0x9dabc17857e186f1213079624c46610b9b269603458f1798ba9ad37c2903433 0x9f9262ee8d3aea9774eb59e97f88ce0e1e896ee86476fdcad9401522f2f138ba 0x3b3fb5a23ee32f47135615c63c88ad379a514d8d247ace848591c423a5c5f525
; Twice 0x6cf82383ba486613d4c9b1be7d7ae46d3938557d1072711d1283e4054c7a9cad (-0xf7f4e2abb8be5d6e032c61758fc7ab7438df2bbe8a505a995fedf80a6744b699) 0x2e624e7c27b5999a74d8ed28ba2cb87fd165daabe3477ba4f8fd4de6cea4dced 0x1d626e5fb5a5601606c369819fd3c5d653a90b7c4b8cab939c1d162bea97d658 0x5a8a0be5f8f622bcfd27e252eb474acbd7f29a64bdccad1c6e4272235589b862 0x23498b5df2f17b954a0697e514c9c3efce1af9b355c60186a22ddbd5ffe93cab
; Twice 0x9fc10628b55e0d9cf3e293fd267961757ac75309b51276a2bfac1ef3785fbfe (-0x5d4f67509bc1481174b39e0dbe2c3ac0de5a22081bf6b8623a67ca33de66a4cb) 0x63b157313e8392e3eef3297310874e35878eb9ca2e5c3e6a0fc7ba5b9e4a9f 0x176edc54a7b0a2885c4a557b7b2150f745b01a8c653d3fac6437b5e53907994 0x34fd16e9d9115ee9644c9ed11b372a5bf6d3cc4addd719f5cbcf3c1ea282e9df 0x135f6a493c6d3603b9821711bc42536fa49878ef102244754d3cdbee0ff193e3
; Twice 0xe475448785f0dfca53aaedb073c79274df0a97d7b5145fd26ab17490de8367c (-0x1ebe2741773866c898bca0afadc7b0f0fe088384f9bbdced8e222c12ad6ff728) 0xcbe117c9e8aedb7c91ca6455e11be0e4701209430fbeee43696c66fa99b85b (-0x2ceda0c88408378bbe315037d81354e1881b778def6751a493c993b5eaecb56) 0x67554deb1a41f01756b52b59d213743d878c44a4a20bcdd8ee6db70d19ec70ad 0xd59ae4609fc3d751a741ff0018c1c524b9407893a5c727708ada2bebd722e0ff
; Twice 0x2a94bb837256ca5e11230f9aa66a7b11dd94e3759e94a48961520825fbe2599 (-0x78b052f15105b65b200c3f542af2efa035680b6e911b79ae5395b9fb498f2816) 0x71523f081ef1f3a58c73fe9c160b6a5966069be59bc80df724be3873056dd (-0x10a75ad44afa14f5ad899a406929848fdd21d6e704865b407aaad35467f8699) 0xcb74e7a72efce0860cea8467d3b6859047dbcecd372d1e756403fa50b5f90af4 0x74bac126549119e8cfb630164adbdd8bee579fc4d229eaa1585b773ff2d720f9
; Twice 0x84ade7088997b91ae43353f4152b3b4b6eb925591ec9640e0c35b960c4790fa9 (-0x16c18a809b64f8a0707ba5a6d2254b2969da3866006bdb1ed7ccbfab443e8cd15) 0x44c3cc6324b2a2ef7d1a0a0d16a85b347d2f46e95d670edabbd0e3e26e84578e 0x177e6b4c854a94b9b159b16bd1a66a6efbf8d42c597d36c30065798ed78df7cd 0x9e204c16ce4f370bb53fbd2d48031bd80f32e9c48ea2448f31fa893b99497f37 0xe8e90e565cab29e1e88a7d4e4ded8d03111933aa286ccff242c7d7c2de1f2999
; Twice 0x13b79c9a602cfdee8df0bf6d375682295eb18231eb26f90499fc6f9904f1474f (-0x10122f3b687fa9dd9a8e281c8fb230c259818deb1af4ff21319ab86cada9fb0fe) 0x184c4f0304d754352a7614a6600090d1d043321f84187fbc96775f91a2fb298 (-0x4021a1eb1012cea53415f937a958a2ca674b8b76886f9953881d6502a569b5e) 0xd22ac2b9f9a32db6824e054de0dcb5c3c2918481628317565b508f91b6379e8b 0x3b01adc115212c632d2006f61e2d157c56acc2eba0319004034d6177314a441d
; Twice 0xe1eed319d999a5ab2c8603eea75c254930d4e509d67ba633c26ce861d329a347 (-0x19d777ffd385c12cb54d6316d89bf6cab4ee6bb04083d4adf8a902e02177b17ae) 0xc765ade16a09fc17113f0835b918e631c81452a816e6a54eb6f86dfeb2253eca 0x80625db842e19313a5ad31159979c9c6a698d17c47a4e1e724c1efb8e8d83f3 0xc9133f50258541089ac89caf73af79cb18e5c63437f853a28beb649604977f65 0x490346b41364174fa22f1c4f43b830ff13c4b133ec8b9db90e109522e3971560
; More 0xa3232a892a16a45f6c64f05cefb2e75018e0ac02f3754c673dda094a1a40be07 0x3be3ffa02d1b66046789e1d926e1712075a33de4e49be9b9531eeb302dfef7c2 0x67f5ccffbc216fcf4b627e22be525498b74d4c2cf261157bae6352e6224adf91 0x4457bb1e31a307e4fae5c129aaca39c587e0d4e23e3f65c293f477a78ed143a 0xc25f52303363b8d437317977d2d467fdbf318c4a3cde7bf8e53e460f41a901c7 0xccab811b5fab0619fa01186c0a88ead0a1cb4f28663c3dc2d1f65ec15e96b22c
; Twice 0xf3f93ddd19f48ac28b6eddf83eac007261e265ac7859808cb942e6c0015100 (-0x1b937b80f8af84b38b4469217ddee34d7b26423e940df3191cb9319f58cd45df0) 0xe8831e1c0ed8f892c67788922c0254c85bcf009e16cd52905662cb15417e 0x8447680c500715a2599823b3079c740b2c44edf89e5df2c9333bc4212b8445 0x3792a81d864c0bc2eb106308b04569d7e2d6314f8782dc58da374fc603643df0 0xda419c29a9ece086f11f18141e0d276bd2e8b6383fc47491d6cb3c068862d919
; Twice 0xba67d5be6a390519a353cd796dafe9beeb40b6e4bf7846089567d4004c631dea 0x119a75b6c8b2121c0e503295bbe397537fb3e94a50adb66a0e68583a9bc3a3749 0x87bb0cb6ebc5cc667b357477bfa0c07af97e87b9298202ff1a8f819b56c9a523 (-0x3fa593c813b4e3633b6c47fc8c053ce032ef745a8a44a24f8fb74743681c0449) 0x8efb6dd1f45203411802c0f416f2afd515017505ed2378061cc37232667c0327 0x8e67208d5f2ea92e4512ad443461d7dc7651d9df6c85fbab5cb7d1ac322aa358
; Twice 0x5d070294b15e2bb13d28418de5fb50a7aaf3ae4771682e87a3251b557a00828f (-0x8814f4275bb44067c5b4b86a8ecc716c9f01d344840ffb9c0f41bbfcd4120c80) 0x21ce18114ed4e0195f9c04cf4b63ee2f81872100b1fcfe46a3d641e8bb22032d (-0x5b5782b6a4978fe5dcbd7e85679b7219749e49f7155a5eaac6ee3e4e1256408) 0x9eb136e0ae78cfebdbfb85bbc111ff953bb468f4c85833ba9baab6ea7cbf88c0 0x278c0a6be3fadcd196b6efa13ad84f05f85ccbef894d426baa88bfd44920a629
; Twice 0xe3f073a947d892258543728752ccd7df34aa80da1f813bbf8e3f94639cb6ccef (-0xe0b10a74b3173f7d2fac80acce30e297dedbb210a6dc61f92a72e33ac76de891) 0xcaf44ef812069eb45b2a4edb52541ef9fb4474167323cf4dc40d27759c5e5439 0x110f4260476e6b1b6d16ec45f44121866d19460f178b2dd8b57e7f81e9f9aaf3 0x8b8851840ad1bb35e391c87ae5d2cc0d6dd57a2549729fc2809fdec5f2c109da 0x2408c9b5b8c39279b0261248278aa1403559a711f310208e29c5e2f5a214c584
; Less 0x9fad4e5ef74bfc594dcf73711507ce0226cd697085d4f93e30e2aca684bd4987 0x143bd52fc1b5fe205df83167076d1630302277a7415bd26297e95ac6e5101e9d 0x6398bcad5f215ec3d35af260ab1b3a959e2337b94796c735ce8166e5998c480a (-0xb0a3297a3b568fcf4cff5e7bdab6d353a4ddca3eccb9c909906c93f7b6a03c1) 0x9d3b61e2168a40ae1a1e5c947e562d67069aec651ec2b7ad90b8d1b6aca6c0cb 0x3b355e92e52bd589af85976a1281e1605c9bc771f750b32f949054a4054604a4
; Twice 0xb04a0c3c859c6c76ec326a307b2eae44ba2328ff4c5905de3ec07547dd45e09a (-0xd02a08f3e24c979aa3631b5f90a0ae2018a32e253690310241ecd25067653268) 0x7965e63ec4aff4a61609d3bac0a86646f5971538cdc6e1a88f28c7f417421a89 0x22c9645252636df47da4506ccdb261f21a53a6eb6c61269ac7edc3db80678dbb 0x6ab756a0ec77c1a8526b966d23c869f94bbc0d6a9c01876f480836cf7a067597 0x256cb5b0a25f8b1eb2e39e1aeff625ff5cf1df5d9604ab9a17fd90245a60465f
; Twice 0xfedd9ef9f699a50e5c42ecc00233df26d5e4e67654350b79516f91b46897b919 (-0x3af08067718a86d0cc2b52ceabbbcf587e79bdc294be62f74eb008c2114eef5e) 0xfdbc8754e162b09aa9b2b7dff586be9e752f7d3847724d760bb487294dbd9876 (-0x797b318454749108724518e4004c2a8e5c691f76ebf796e1133f2b274fa630cf) 0xe4bcf0bc5a84c9469278ba11d1fdc1c35035419fdcaef28cf11857028b03d1b9 0x6acca04259f56742e01e2e5716367b6ec617693759a6783fc5d33ba96d98f780
; More 0x79eea5bd906efc43f8031aed7eceafb3fc1ea9c28029e25ef400627c4d664a2c 0x39f071d193fb4e053bf81464d2518105f73384dc923f8384c88b4e160a20ed87 0x3a1377260462d888bfb09c97be1359e1b2b922ff97fb9b7fad3aaf3beda1c566 0x4e7787ba07cc8e0412f46292560fa51134385503ea83502e69f12f95453f7236 0x3ffea00ebadc46041692e428ff31c6b2fd18bdc6dafc02a30ac95b113292a8a7 0xe55ac971465037cbf2dde2add24403b6532ab76c4d20767858d114208824bdce
; Twice 0x9ef30af9588357fea0d6d923b177c2d96e764df3247848bbf738e7f78601ce02 0xecd19e9149c9b4af4c33c16632187c68483cc117c53428760cd6001db7205798 0x62b0e84a01c980088c02c56eb96094536c35f3056139913788431d4b176b9f48 (-0x5e89a6a965cf78b00d0dcb4055a8d60dd4c88e1184c0ffd7d433e86f437db551) 0xd841369f443ac65a1d3ca610ab3699e9ade642e21ab8625a8ef96eb20c1185fe 0x7fb14a27cf4888adbdfbd134b2add72d2bd4bbd8b6e1391c262d1bdf03ecd033
; Twice 0xc6176bc1e9a88f279acf3ade15c4c021ad8254f232241744c128a4638021d800 (-0x15e6cba4d733b895a75213f9186b95fe41b4b60aae2a489dde3b7c061a6e257f7) 0x99483cd518eca2c48951feee817bb6017585184032e0f8a6ee951aa334c7250f 0x6e8e87f25c8f59f111f208bb3bba282e3eb5e9ddfdc621f0eaa3274e3e0805b2 0x4960f13feef3e6cddf3413a57f0eb0e051969385b415a90d07b129b882e41913 0x54e670787d69381a0b38814c94669565c612a2e87a5227cabd79a75f184c7d7f
; More 0x6d2956c644208526663dbc9adb3c09ac4aa5f561987cc32fa83281a0e7c74c6b (-0xe604f63c811dd38537f3c64eec32c0c1c0cf0db57396f1a74298a3fb0c816b5) 0x2e8c3a91ed7b8db26631b478586492b54ea3ae1fb473f6ffa86282f4d1eeeea4 (-0xb83d4075140216977b49ab48a498598e0c1e8ed699497d2f69b12074cad365d) 0x64620a60bb4bbd929d6c8908ad2c1857f8fba7a4b867d87b5bd8c2c7759bc7b4 0xe0d0644f74f211a79f167b70c6740972c9de80c49229afb5e10d2c4f9a4182d9
; Twice 0x13bdad20f387f59f94aece3a3a88a97f5b16efac8827c2340ac49f9f823bc6de (-0x536a264b71bf7885caaca4470c3f10a2ab87359dd5172964e5028fc7acc898af) 0x185b43bfd6906d5e5394aae6b26be67b5834037b5e02137d20b2fa89a07cf98 (-0x9e5dab89173c194517587aee2526f21028c2cd2713827b41fa1800332372dd3) 0xe4bd06e89496d53736cdf5a7c1661be6488d9ed5845950ac3fd339cc6ba068b4 0x3c0715f56c609fd3bb1772965877e0bd85162715b6123fbb01e3b452bfdb154 ].
Definition token_10 : list trail_step :=
[ Twice 0x326421253c927f6b9fd779b4948ef875f5a3c9d860b1d1031ba7b7d86cc8f5c8 (-0x263a9a40c537e096cadb474c7a7d1b833079b340760051a9d0c5f994fb9979f93) 0x9eb441c7ef66f5e6117cb054c0249912cb35b37fc69f5f061fc26e5972f206d 0x26114d1fbcddd1a9dcc636c9eff9544723b977fc00679dbfddab8aaec9caa8eb 0x23585f2642de50ce4506b1278a3975140423743587a51bcfce0291ee7466bb45 0xc218c3961aa0bfc7ddb614e88d9c2288a6c7f4bc759402f93efb0b4f488fb14f
; More 0xd6b7d07e8e957c8b646bef76f0fe9274802a14b0b8f2d7450912b52401e7f4b0 (-0x3c2d8e415e3eb82cd8758813d6265462a802c909ee5b0bae9e01f5f472ba64f6) 0xb417d490093780c40540fcba4ca29df4d1316af46b34591b56aefe0e2542a8e4 (-0xac77ed6a8e2ed5d87d4680a5f81cf782bda96e6a5320bffa6e78d98b5286dd3e) 0xf0f901fa5fd0a04b3b999f21aaf8c398e32f3f5877cc141fe60c866eb7c32409 0x1df6696ec3614c5a756a12ed3da397396ed005efcba18d761dd04e67b4aa9ab3
; Twice 0xcc29c5326ec0d5e0f941ae7e8dfe282ff033cadf41503e641225a21e471b9413 (-0x278b102a2058d3b8e303cb7f431268da0f8470e43c34e82daaca83607a59a55a2) 0xa2d29919c56410206e4c10b98e4ff4fdf92f0e6b4785dfa7f7b7cf2f9e4ef8f2 0x11b8914e1818429791d54a45e879660afeb395998620a7501e8fc40cfdc3471d 0xdac09c229c473e59c95f4577fc8444efb80ca0bdf87d5e9f4abbd1e14a70aa49 0xfabe78ac621fa1b2203b7a67131514e679f2d8a1477400028dd0cb4f2bdab5aa
; Twice 0x46d8da998024878097f7d79cdb79250795d30330887ee9a4f76175141757c78c (-0x1a5fcd8df351ff6ce798d44ffb01d98686e57198c23d78badfc0cc79513c1e380) 0x139b4f3da36151452e77856be921264f3e5144afb52279e888a2f7505ac790c7 0x7b3707b9e778243667ec1aa7b99a36e2d1ddc44fa72bccb83dfcce4a217786e 0xbeecfaa4b3b0342562c12133c256d4ca0f6e969c577cb28937815d622a9930c5 0x10c25442d9213ac1cb398dae104bebdedb7a074932aaf2124c0889508764d2f4
; Twice 0xf35f21b5823d6350c822d23ccd8d059aa0080311861c3d376bd4555f9bf8fed0 (-0x18b507da8eb4d5156d8c14e95b029e768f3b00a9fcb3208eba054a9ec5ce595b8) 0xe75dbd5985c53db8f0f9d0c1644a23b5bf5021be220e82735bedadbeaae3cf34 0x806f4537aac77c48645cd6c60ee124d4649721941b31fc5472dbd4355f7a3dd5 0x37d3a0062b9a25a06309f1fb531f6646e72415100e36d5715075a818e652d6aa 0xa3291205c818bb0dfeea110bb363525863b5cd6736fda59b12e86be4c1cd6ad1
; More 0xcfde5512845d84cca8de0b455b2b163b6526b8c0eaf8041daa0f73e09e8cbd8e (-0x29a0aa8b3598437605a521e4b5c64c31de5f66982a27607c6b5c065ec6ebce3c) 0xa8c94eac433b6adde2453b8f5734a061c3a85c73d5e2f189792c45262e19c636 0x232ea7d8648797e264dac494d7bb0419a003e14e9fdc206563312eb60cb5383d 0xc7f7f430b8558b47edd014e3465fe30464bc090e2095e6a4d84b7a296d927ba 0xf15fb99ba5865c63e978d0ae8adb14ec6f5650d51d2e92bc2d54efa201ce068c
; Twice 0xe2a10d53d2f16d43bc9f606a5312193d12072ecdcb93e8b304cb48658d1244f1 0x1a9881cf853ab74c98516c88c9166ff03a9576bbb1d1206850eb9d3db0967e5d1 0xc8a0c0da8d33f84fc846942ec43fbd6239e6ab0300a74570db06c0f2690a0d94 (-0xd1813768d84c24d57579569734c96f90af22586740e732de783d64146fcb8e6) 0x1b49ffa52de4f180abbcef2a382e8317c76d67fc15cb56660322691679cca901 0xcf3108d59bc406d8842f3d9daedcd5e7380bcc8baecdedc01aaf57652fa3b0b7
; Twice 0xb8217e5eb94bd79262e3e75e2284362b5c692abc111866487552635283b3f6b7 0x121529ff4276c1c691d88570ee85f78ab22bf04fd77c453715e669d6d13ee9c5e 0x84702a0a819a56ed4114651e46b621002fe3d0603455bc82c09271cac560a9ac (-0x1e7fd03fee7b10813e19c7f80f2aa8c8b42124de32e625213e02760d9f7e4b9f) 0x45b1531eed4b956a772bbcdf6103d87fb34560b14aab75e9e166e3dc0d758e7b 0xe3729fc1f4c67603cb85b94035909db56f2758b7b24cdae223bf37d27450bd74
; Less 0xbef0b47897feb7a231c33e2068b84778e4cf4fd374bd20b09ea247548bdd78c6 (-0x1be53c960107c5ad77c2ee12f6d006fdef81924977fe1ce99dabd02f11f9fbb5) 0x8e6a2e36715f12f00036bb219dbdba16108f3cac0a8cd88701a69847b8282687 0x30e95765a0d5bc231042b5bec132e1a5cfeee27f469ac3e9ec87208ad0341f68 0x41d8adfba8ac8c05b828d9140cc76bc72ccaaf0bc90261e5cf5d1d694f00e9a 0xfb3322d9ab30d711ec95d315fb33d9c712365bc93042e33b1c7f4df4b752c1fa
; Twice 0xf26902d3a7d70bae18e280750844531129c7a6663b6ce43768b580ac4d73de4f 0x1db87f424e6689983f946828abd99e5762dcf886abf30f1fbb1313e68fca24d9d 0xe58ab46c6084f285ad8d22064379763ba1a438f4468c45e57dbeb8e42b2adf42 (-0xab88e3f9a7fbd15ed043daf6344d63b0e517d2a4dd6e33dfc79b8e0ab0a70b12) 0xb9443dc19fd0e36a95d32e9dae4cd66aed6e8e3ba91aa37f58f9b78c0351de6f 0xe35e211e933829579fa4aa9eaaacfda239135ce85fe88c23a78ec6bb47ed5a39
; Twice 0x5b7d8af13ea2b25edac8d5b610a0978da2c126acc48b0db1d9e1a4bc5411b849 (-0xefb72e12fd3b8a55db28a18658ada43f6fbadbe557ab8be1ff00684042194822) 0x20b27e589e3a4ee883a990e4abe68e5ea628eac1c55b827bf3baae721f6c5586 0xcf36e57b7013e1c171f50517fd5ef25008e5f71e14ceac3edaa22db8b028c7f 0x95074edae512d42a3f20a9af11b772745be6716aab3822433dd914bbff239d79 0x2d8f5d3fb13ad1d8cc599bdd440fbcf78a4af7f11d400c18da6a0d7dbb4c886c
; Twice 0x9473c0594b3fde3ad303d3456f4cd73a3b40fe0998b344de2a2fe30383467ebb (-0xcf6d8eeb33b0e74a82eeb005dc2c6f73f68ce945dcb54c5a65e627bba14eb438) 0x56160abdf5d78f188276c3a4b4c546d724e32970f865eb28cfe1d0b88b2b4dd6 0x4004079b6a1129e2820aca908470302c962daf3b2276455709e87196b410763c 0x26a2c8cb409b9ca74cea2d0160b7cc1cd543984658bb5b4994917abf7be4af7d 0x2c14fdcab10d25f3c61bfc75a351ad51f21ed4909571d2c5c6d27d16d7c5cce4
; Twice 0xa73a5001692e6ee70d3224d61706663ecff5a36e89d2c16068e2861d43ff75be 0x281946d1f433ff21ec250012c121d4dce6d386dd57230bce8b16983ae9bfdea8 0x6d3d21aa9e1c4124e7acebb551eecb09a4a6c236cb4be91f2b49069352108ef0 (-0xdf4dcb3281ef2df26a17ea8639c9fb6e420824c32609f96482a13fbf89bdf2e) 0x3c00495013cb23bc5ae39d17359f7306c714ad07a9dc424a2ed15cad94f268fa 0x862641e93c29fa1ba991d9c05368925e646d5421d2d0c080589ef162d7258828
; Twice 0x5d60e7195fd53a11deda0054bbe8a47d3543b7965779ff3d1835478db498b48f 0x37acf3afe45a4332250910fd80d7f59e1a872470b73fafe88b79275c0835dfb9 0x220f8c96b5572629c6eaabaec723346b76ae6352a1e029bf873a0783719be5ca (-0x3a817a4380954c0233b041e6ed4cfe625207e6bdc96e3a7793cecea4cb731c67) 0xdc657c4a69e2957b0b2ef7467eb1e542c9ca1ff2be59e503e0929eae48e07bb7 0xe362e18d838d0e1fc3cbaa4faff24fe94bc761fd156e48cb7cd3eb6f7205ffde
; More 0xcc55b5f470d188c7ce3cbf0231816555472c2338ecf2373635e5647609e718cf 0x5a6fd30fc3d678750114c0c6f72bb4366b7651db0de5da0be555d19d8125e43a 0xa318b6b08c8d24c2bb637c8702df74c573ee7eaa26ea0c54e7c3ca1050711e9b 0x67a5bd2b19aef57e5f149644adfe9081068f259116d7af2e18e62d9291a2ae1b 0x5a8acd87d30973ed5b795ddc16185311ac71e90706dc32e5d7b4994c84f157af 0x82cf8f6b8962b6785d5af98ca0c8c4a9fba31abaf35dd0b280aab74cc49390b5
; Twice 0x42148c142b803640dede6579b3cf3e5823a57d672844f1eacfe6dddf0fbfdc7a (-0x1c89a5c7d2a373481de41aea4e9553eedfcab1f42320741bbfccd7f618dfc7a4) 0x110e99e0a749930d920c3895af7794b07248637a92da9e9dbcf742581eaf2c72 (-0x251c5436b6571958aa074b6341fd8031acde342c99fd2e309ab090426aebdf53) 0xea4fce20df286c64dbb8a1933cec055d91bb086bf66272b538aadbec1cba6738 0x3f02dade11de3badfdc63c4538af2816acca6b60a87aadd6786cfdaf131e6cae
; Twice 0xc636478ed6ce5d32a8b41fa531a2203b56bb6f06897047eae4f6429b0249db53 (-0x221ced62344d4d4cfdbfe062a238be8512ac635c4fc3790bf26807551f1edd817) 0x99780233d20264465fbf56f55317e91fa5a5fe96749333be9886ce8d66aa1074 0x98293d35b1b0d86fb28817d2affebcd73e219c20b59e984ad605677efbcccc23 0x25c9e55d5e6fd75a2068b6d148bd77e79a707eba9c6b8bb75d40b5f34a725eed 0xa9f29faf984b9bb83b93771247d3b54b8b3200d88d4c1d0dbce97763a88438c6
; Less 0xbbeaee4e4dff16348eddef7904322409b01be5eeab67f39572c5805867c24cdb (-0x32df858f4ed73bc8254cc1a921b592689e2bdb4c28eca6a792fe81189a3d07b2) 0x89f10fbf74e0017e383b0e87edce1e6fe6cb4fb32fb93940bd7dc951b0e46446 (-0x84410039ebbc1392491ced80dfcf1bb4d4fb9644adf404054308b59c77cf602c) 0xd9f53cd48a6e46ddfb965f424446b9db26306ffcfa82f69d8d279df95ad8061c 0xafbdfd45a8c289ee32cbf9243dea9fd09ea5ab23d625492327be3d7d10766dd9
; Twice 0xaf6df5e365c9eaa122d691858e44a6cd53e291910121065e749a2b6631ca01db (-0x13bd84a81e431af145b1233ddba9aeca2fef1469610bdb33390816ecf85bfaa19) 0x78378568ad334cf4777c46103726ada936dce43ca8a6d57f91cd643fda9fe443 (-0x4e89a395c901281da58f974dc7629b68c9a887215abcf907b75c62cb60820f9) 0xe11ef774d7e11563fb88a2f6c7067ae2a29177bcc7f4ff56be4228ede88f4964 0x2cf4512953bb5fd1a02777b9b6e942126df7d619d6acc3ba73d25b6767a79a96
; Twice 0x864d81005e4cc8ecb40ff231f59d914c1c750f1a2a173b36f077de726f8b067e (-0x222bb5af2a77995158a887e180a292a915660749370dc4e26552b172cded8a67b) 0x46753a838467b6156e1286c3b96932a611dda0844509be08b0b72308cfe1c991 (-0xb48786597b6c5845205d6da27e1c98c5e23e42cb2089fb207396e21cfd4cdcf) 0xf6a0cc7c8572794594a6f7654efb90a1892a37167c3b9c8c2504fc864fc15ccd 0x4903fdacf0a315b15313f255ead3cee2208d308b56fd1d5f90ab0dabc06693ed
; More 0xe2f43c2b393e4aac63d379b7d8b100e08c633b3109094d546106714e70abe259 0x7bb40c8873d8674833f70be4959dac6589f346af4810675990fa634f30a816d9 0xc934233fdacf87f74535c3ddbb4988a1bee102f44f1074b2fa490af73417e5c5 0x14007327ba395cc67b545c3718bad600cc5dc730082aa9dd873de31f90fdd77a 0xe0110676671b7b739ff590be6af498e87c2c83f21b579a0486f62edd16c50953 0x65afcf146d54479d82b16c40ebe1bd1655e6e9f22375985450d577d4847ffcf7
; Twice 0xb449337c4793cd45a9642cb1da5a0c7e6e075e3356f2375917949ee1ab704496 (-0x1bd2002f553061cd76acf95ccfb432b77b773925e1e854074d658a5ddbc40d6bc) 0x7ef70555aada712482ced3f679da731f752046481a597cb9a62b74b901104f98 0x8de1e3ec6ba232dec9715f8155ff8fec035d5611c7613315b3fdaece2889e47b 0x16992847b87aba70e0380afaae001a022aa3744e6d2229ac3c7ffb874d2644d6 0xf5e5197ece415e3ea3ddcf3958955582078c3be2c24b790132562f5e68f23cc2
; Twice 0xd7355ded359816b6e7052956d5a4884e605271b93abf65da10ee8d0ea9c1a989 0x197714a78cabe9344fbb22b538693ffcc0febf848ca8473350eed1633d21dfd05 0xb4eaaee52b9e8ac1ddcd75b3e173cba87211deee0a4e5ba54c2fa931f76fdbb7 (-0xc0b47d5f55d5e4ea9806f78c5ffec8ee4696284eb530f5dd734ae9cc8a71b023) 0xfbd456bb4a6635e9a9c4dfae028cc5320632a3419647e0bf846c6b774ffb7d5c 0xe1ac0c9b4897887bc6fa9e1154ff95d1ebb705a792b647a06cc1c320b32a5d65
; Twice 0xe18342f4eae356c72edb0bce749c48fb606a281b24e603ee05c997594011ef16 (-0x159965c500ee654c1c236cfb60776c3fbfddd31c472a0e858e829c2d345b3b82f) 0xc6a7ff00e3b735a2dee6b9f2616a82bc5d2ed4672a8b570fc124809ffd77a224 0xaaedb9fef7c14300c9d1f24e08f5cc716e46924758be99c1d6958b8522c0c9dd 0x39caf7c953ff05e889aa54c226ce8a1e7af065f7d6985eabc964d3c9fdb6bd50 0xb234673d8df3c7226a365833486365a16bc618782a5dd28726c31fd771962180
; Less 0x9b8dcae82c82ace59163900f0f3e10dafc65de0390edbbe60d29a789bae132f3 (-0x1df4d67ec9aedad61cdcb1953c5488cf676365e7f52163420de1057dee91df19) 0x5e85023ea8ff805daadc0de98a9c8b8be684bc15f6a78ebbb05e0edf6824bc21 (-0xd527f15a265fc1b1c5d7af1f25e64ca06ea063c0ff8cff685c3e16002e35b25) 0x4fb7bb2cdaf1452940e62e120e3b9862c759a4c389e6424d501b9809471f0ee4 0x7df6b4fbfea1af38afffe0c65e3dd90dd80b21fb0b66ca145ff3d636427e2bdf ].
Definition token_11 : list trail_step :=
[ Twice 0x4b7513fd1d4569f6357ebad1cd3a3882c8397ca3ea27cd68ae9334ac9ed44ed (-0x45d49fd52f7caab59a7b323cd7e184154f42090a724798cc395acb0a519081b9) 0x163dcf41ac50c965e0beeadc855fae4244894309800654b2cbcc680adf5586 (-0x22079ef52d3316bca6c7dc70fa4ca8b4f7ddd303ee311a50d513ef508cfdbf4) 0xc32b2c6fa0c429d21bc8adeae3fc1f6ed469384a7b3a987af3e7557e5801fb27 0xb8573376164437ff91454c0808c8eb3914ed39e60710e5094381fb0476d47226
; Twice 0x46db38272928da3815727343d97f61ad9e3f63052866873f4e9519b5e8ed6f17 (-0x1585500ba3825ba4c9c2dd930e98baccebe878e37a0815fe733836c9d996af704) 0x139c9e6e9d7089aa020c56f9335951ff537cd90a771f591afca21463361641ea 0x3046efff32f866653037753dcc45af77f40430260bba85d020626322c8c8cb39 0x14bf037117c71eb4ff73da0fd1e10a769f77cd12114bf44dfcfa337d16dd3fad 0x197f48743e2de7c1ec7187a45825b0abd7169affd3c41f016b6911a4397d1709
; Less 0x6749aa25bf4f01dcd862ac8d9a69f0715f71974d702fed261d995d1f4bd89b9c (-0x22d693ccf25fa38ec168130c076a536aee82794cf809ffe3d5eeb58940a4be06) 0x29ac5c1d043b32516ae87bb80c96cde784c1f639ae5e0fea3c296013ec671ba4 (-0x5b5dc27e4fa8448877d718919e1e592e5cebab042ab7e8057f3deafba2146a36) 0xf732d41cf6d4537e5dc9f8437d7b536d28b2483f2f536f6579039d8d5ac76071 0x92d0a4d87519496250381b40617ea72c3aba6f0a2b1e262b7a607776ee8bdb51
; Twice 0x98d1c1e569d614f862e678eceba14400609c7cac8b45704024ec19069cf231aa (-0x21cd103647b342976aa843fd228299fe10d984ecc54c4a993a7e6da1620cf73f4) 0x5b39c21ef45a81bf1c854546379abdb79a8215acecf232ee4226bbbe3792da34 0x5cc972cc5d95570dca0c2c30f58164a1b1c2ef2f0d42ef4972511c5d94a1a92e 0x5bc384a08036e35bf2032da75fdd1b4c5b8f41525744b079bad51a44a10e9e36 0x9642267ace4ebbe1ec075980f241eec4df4673a7385c8f4455913623e7ba140b
; Twice 0xc9c146901de84b50c1f8b7a4b32377714709e066846ec7e5321ccaab8a8128a8 0x8a2902287cbd1199b7db302fb1c1bf397d2d952aea3db423231ca83079785bb9 0x9f0112ba66b812bcda17622f1bba1f46de56a66f5a7d132c0b46eecd9f09fae2 (-0x7bf42b4ccddb21a6dfc4a1f910a866fa73c39c47e3be99f531a098f41f1502ad) 0xf90b61f1178f60c0f9a36e3131b705c180b952576caf88714201abb37cb1acb6 0x185f038d12e7d45ed9d769d2ab2fa4be8775091468c155d5cc372b5b0d6b6548
; Twice 0x381c53dba2872fcadcd32df68a1867d24f0cb93a45a5a9ce77ae5118fb39e366 (-0x2cc2678ce8f45f41287a90bc772f58183dc193eb8b137731703bf56dba8af3137) 0xc4c67d296eb4220e3143cc327fca97e5e0087c1c7509b404b9c7893808af480 0x21a0a581a3b8229531c3db12035ba50713a94010de4dd00fa915cfe3810b4de9 0x5f9f2dc2f6d4c159ad4535fca6ebede69fa977fd5c0a540a6d8ce14d9891a7b8 0xbc2b601544eaf84b0ba331c6322553505cb514544219333e0573a83fe35d1fd5
; More 0x9412bbeef28474c9037e24c6e561c19a8d302fea467caf6d93bad993b876ca14 (-0x6a295d31a7145e3513b5d2d6f1a0e955e36fe1ef6524cad67a89c2dc64cecc8) 0x55a5aaab959fe1a96eee117275f34ef10adc276051080775517e28e3ca6007fe 0x14c31c5dbd56773961a841c9d0e490135b56ac58ddc9747365f2f5fc6d0f0cfc 0x3bba046b00f8c5d774958c6e65e49112f87cf448814e29794c4d02e403292f40 0x55f5dc082cb2ec378c09b02df695922aaa8fdc0bc17068878f54d7866c3a0687
; Twice 0x69f66d4134c15352b6bdcb78265aa524bb0706d5bd9de1a189b754d2c263efe9 0x1d5b5cc59f57a657041dcc089436f3b11332db8929d8a16ae08f322bff6fbc3f 0x2bdc12d5d114a44418175290a51bc5b4fc681fcbc75573d52ca12adcde89bff0 (-0x421c64a87a8095e4dedf0d79c94604348aa6b86b0cf3e1921a774e586be06beb) 0xdb7272c78db59755c462016562cdee23de8182b7356a54b20a2745f96b424381 0x7694c0d90a3cb2133c210f46b595fe2bf87686c3914cd267b9129b17e8066f65
; Twice 0x2be3cee757a31fdb362a5533e8a6edb957b1ad7db583a275bb561c23abfd7005 (-0x20bae0660f643a1fae9321f6903a0603cc97aa0e0af51db98ab08cb87aa6864f2) 0x786523a5475ac523d8c322ae8c1127ec9f559951dcdd27c193707189f4d1412 0x14a47ff2501b4d5f97cf6653856ed2603fc31571484f5b9ba5b1a265636b7ce2 0x630b1f5a92389e99f97e3262d8f7d5643895951969d98430819ec31111aeed29 0x370e9152adf44c05471cac18cbfa769fe1d06abe82c0932b8a2b9c58ce043d35
; More 0x82df030088a36f17aaaa22d7d8400647779978e3a26851788ef050a37dda3971 (-0x41d75d91945a094c11ff623861a5e11ba19d5411eeab41e3d4c31bc942c9aa3) 0x42e7415308a44e1677d5c8ef255bf1b30ed7519652971a18a6b67c4bcb40d89a 0x2d3c49b37b009e370b4fcdcd925f9f0203b996e8466a8962b20d1e96db5a83a1 0xa8ea8b876c694655f81a1a3c145ec76e62c30c02b22662e26011bf91c50acbc 0x99401634642bec9e805a045bdda68f088abc46ac73ec9b9e3b37a6926e1afb89
; Twice 0xf19e6a22737a140d08215e7b8b7fe4f15c7a2e3504fbc8b956609d172ab6f023 0x11ff9f5f36f919b793c64a8a11525480abf1c846180481cddcfed86c75059d6b7 0xe40ba5dceffe96914e76d4363a06698904ab5604ef7b77d51305ac43dd0188fe (-0x36d9e8baf4a6eb97569bc9132c61fb6fc896668bfbe67b360ca927cef70a9247) 0x44ac5852c0d25268ef72f568121f73a681b9347bebeecd177bce12217365d44f 0x160863481b1a1a4dbf223d2bf125d9a86e23aa524eb1673e3210a1b99d5a3917
; Twice 0x1850d64284988cd2b838f4e5a0a174a493f951130313c861cd3e606c53ee8c4 (-0x3701110cb2a00a6cdccebe7cea85739a71588ad3da148d9ad599ad36f58a4a18) 0x24f41b31812026a4ac727025cd2a575431e22e0c2b08e9e247ed66bb7b751 (-0xa9022f33463526c9ccb961b42dbfe15d999083cfacf10f26e79610380025e9) 0xb3e1e47a4a7383b7b52c842babac3d2fe9562e8317e3b6c91acd5576bf7fe4c3 0xd36c63699f3a682e64ae5c9f40f23e9a5d978d9142283c9b3159d63f07afe830
; Twice 0x1d046a7015a2320e3f3348a3cc6e40624f2017bacbf544dac801130340b057d4 (-0x14b432ccca9f83bc6a028fb373f9f9df0a71c68b76085267df7c75baa4d7769e8) 0x34a0030e7f26f96f09fa33ce953be9a3feca12fe2316597eabcb24bc09afcbf 0x6e23c42bd34335fd3b2efd887e163830c699e4537c3b06743faff5b2e6bb368 0x7726dadf9161faec10260dac208c845286ae45eb1db3b356664e33b9233cfac9 0x2459cc3b9c61a450a886ba7c5cc2875a594a61d554ba2bbb5fecfea9a7898440
; Less 0x23dd7bde0756a2f9f6b7f9d73861d142ce762a87a0bf39710315ac31265d9e2d 0x1b07d08c0c7e78af479330b283f9ba42cff53ba564d869c80518cf969347b3e 0x5064f7dd44fc741876876922e760c785b253b62ceca949c09de8fcbb6ee2c57 0x6bc1a2241b78485e267e85cff831d454d4496083ce11aa42d5037ef8a702f92 0x47147bafbfc7174a59fe330f0ed6bcbed3ca92d8342fed6d32741538658602e1 0x4767912842b6edce4d624212e918933b2557c1e9b8f5fe19071972aaa8596f1a
; Twice 0x5f1e24562022987744d7b583f5da99c65565823a8ebe702371a9d6b1b3d5d468 (-0x6256c7615a63d54a6d380ab8e9eb554552cb8e30f9e6bc029f08f0c7d3477e0) 0x235762849888edcc0c666cd786f07e35d1a53c6b24b19ee842b6f09d951e646c 0xfa771783d44f4c97eb43b3eef84871f1ecd2b7f7623e8348ce0d40bde7e6272 0x1cf2d886ea17e139b10a08fd1ecec8909dab4ca1b874a257ca4117a15f5ec8ea 0x2a982e2f7b8a694453a4d54a1e983c905e3d502451d070a6031791c621980bb0
; Twice 0xefe2ce725a8e5f724ddde813003bb8b80ec43e6785ec26d9050ec04546c5a356 0x46018e6ea640cbe44c3b6b596552b485c56a1fd9f36f2b312d85547112a96769 0xe0c9466b8e433cd489212af3171f91f3a5d1eae4f426ea48a3f9c04f06dc206b 0x16ec8bc6a7a0e2d006bb872ab3b409dfd09e08f1c2a32b032cfbbeef1ffc8c3 0x1b6b6c6564a344556a0fdcc7b02cbb1e04ea3b57fa19884bf7fb4b501ab12f7b 0xb6328f33d5b5dabaf24e5830a6f23a7412640f0ce739a277fc8378a6d7d5f55d
; Less 0x1b2977d6309e92a23e60f2e199268c6d361d588177247f4f89088f028880839c (-0x874169e04b2d1950acd4b63288489d02856b26fa9a9d7f9ef4f4fddd186433a) 0x2e1c5fecbd7a020b8c21edfe7064cff148155e7026c63513d6993ee87edb71c (-0x1811bdbded7f0c128776e0c5db59038613b0a59cf7e32cf42b1fb38b0f794aaa) 0xfe457262ca4c530dd478893961adf4ea8c2298039e53931780603222344ccc1b 0x3e765d5683b3ad1b15c05918289b653c073ffa4d3f8db5ad6d6696688cb76e79
; Twice 0x6cebea452a976a96d65fc923b4718252f7aa9853217845ee9a542602757cee5c (-0x2c082a718f2b9fa390af6c9f6a9da9f5a8b1373844b729bf3592ffbf9742f4270) 0x2e57e7127ba65f8c0eae1bca0ed6131e4a8c349a3ef59a40195851dcec8af245 0x58cc8d998b6cb33585784cecf8599123cea0346da6abf9aca6281568dda6ee40 0x2d90c5edce9b7b885f87984185bb879fdc9195d4e9f362cb579a65e063008b1f 0x963e8134bc3c432d000f1479e221cc0e72ca25de3a02d368a7333bd712d12257
; Twice 0xeb97864571684171652cecd5c138d6e7eefbd237ec47ca33700409e9184320b2 0xfc33f6308e7a320d219348df01636a61c1dfc03cf6bc2413b8cb5b7e13dc8844 0xd8cf8a34035d80e60706fdc8c2e7df302809111f67b01f4c8b0c2518e9ab185b (-0x7b10063df58441a393d5303a63bac891cdbe6d804949793b0b6694e84f11de74) 0xb349d4090fd5d068b7ae933c1b0922169f0d7100c5c2ff4886320917a502fde1 0x100c9b47192ff1b5bb995d0689922db118160c82ca514c00389e049c314af451
; Less 0x2e81e75d0895f6a2aebf96a8389e21584c622b10512e4091c0a5f64a57a7e31d 0xd1d9ed273263ab0b0fd8c07aff7c4996e990f8f9b2267299d4b08dce3810dc7 0x872f11074648423530b0b211387ea6754a979bedfc3c026f0c6fcd89a8f3763 0x1e7785dc858998b34c8cd21553275e04caf087313ee0e3fb484abeed9a0d7906 0xb9562ad2a00cd1c678966ab42df2b646fd4bc9a0e831d3b2ce44db6ec45e835 0xc27b909ae4725abc4189b8b2b4f7c96956bf6223e824fa1846da098497997d31
; Twice 0xd7620158600a0e715e131206cfca9d625e3709877313424c4b97108a4c6ffeba 0x145adec96b6557d51768c2bc9e3498fdd2aa7c344738cbed0730669f99da129b4 0xb535c3c82e31feff32daa5ff3e60c44aff5e881169feffc46e2bd47ce5618f8a (-0xa6157c624be980f8db5ff69ae83edb4fb0585adf24c23266ebf00405b30c6692) 0xd0fcdf60328ba94a1345ffc970a264d956063156e76d4b620f37c9d45f975e44 0x70da6cf81d584471144f17208f7e44d6c97341b6a5753f79af43c93074867357
; Twice 0x1f7d3fa0a48c11982289aaa4aa6e3b92fa3e4c51ee9e603cc1c1b0d4d7adc133 (-0x1e4105a84ce3839e71df47004041e325a5d7bd621160910e0691b6648c0471c7d) 0x3df92b01e6aa5872afcc6f4ac95556d821dd71cfc5aa29a2e7a66f88eb6ddfa (-0x1ce8772eda3ac382de805076543c2695ca27cb15e30eb550ab4ee253217207e) 0xdfad1f48756e3f5c955353d45b4110cdd08a9324ef13668f1c14403a2a44119b 0xc7a0c19bb6e05fc99d893e6c190dcf26891160dffa97ecaba2f09f3782fb1ad6
; More 0x3c68652af741cf725f8ddaa4160eb89825330d97d3291f8552cc5e8e9b585b92 0x1b8288da0da1b480f72da5e1f45bcd005080840a8a0a77565cb317efa1b9f107 0xe4119fe8d0bc704a69b2eeba6dbdd357745bdc99a82d4fc9a132f3d6d0f7af8 0x20125ac9a2c1682827fa0b6bd8c928e710a0b96b66a2dfbfd72ba125dc3e7b07 0x57c2c1fe7d84802a41e12b581de86a18ae26cf2e7ffdf5819996a1174b53c60b 0x718c6fd81c06fcf4660d583c6a78f02405f0d3aba37989685432134b12aaa851
; Twice 0xf312f95533214f36595f96cb991577cac49f736b8567871b3504701747e0843d 0x7d5f95328d10f0ed6d52abc65933f033ad016cb72e468fbb05a9c8b3045d4ece 0xe6cd06c0a8b04da1dd9fee716723d3ab90ad2616b383142a42bfeaddb2953b53 0x3f308b45cf16f4e76f161816301798c992068cf94b56c8f63b6883afeeedcff1 0x1535ff900ccd64ca9c09309323852725459bceabc902facce5b619e6a0fca5c6 0x7c1fc39356e027195662c3c43775d8deb9c73b0b7940c08889450b34bf096c11
; Twice 0x55a458763d6b177234ce7b2cbd8094767083cc084f10e6a344cd0f6adeeb8add 0x4dc6c066e0ed9f2e29b8b685dab7b271d62cf9969162119ff637372cf97d960f 0x1ca68c40177fdbde29d26d87454d5443892ed6587e3ae6f000b354c9488c3853 (-0x2844daed8b09cbe6970d65900bcc0e74133967295e8346b447f90757f7b8d27f) 0x8d951be13ae9c8284ed7a4f0d6bdb65991e662bd43d0bc82faab638f8fa3ef90 0x41afe968f69b405afd07caae047850f347197a0365e13b1f62eabcc52c9e2a0e ].
Definition token_12 : list trail_step :=
[ More 0xf9ccdec197e23b1e075cdc942b725c40c7650ad70f479023cf5d6fea302a12ca 0x21a776c29be820b225d04e8ca5c780f1aec6936365272397b4424c8b7bdfc6d5 0xf3c02d495394aaa9bdc4c02e36cac5182719a3c81a0ad093fbc3bd25edbb8f32 (-0x3cc4dd20dad3854c8eee6ab0ecfaab93ae92258b4520c3774ca60c4ba4123e19) 0xcbdc13064808799ac534dfca63c59e6c3ef37e7d7bf738a0f180738e7127e470 0x1920f1ff46da42c08c46182187de20df08c824d055294721b7ebf9a5c9389f19
; Twice 0xeb2694acb4cd3275284b49e41bac74c798768ef2fe136f29cbe9f4111e706d94 (-0x1b8da3ad534c3105bb22a82a02b4ef7dd51a9eb4b4c1ad0d62d7116cb20ec2beb) 0xd7ffdac6658e67e45615349477e70ea63805952b74466f613e2c1a0a9e5cb5b7 0xaa13ff537751dfdab94eee3bbe3142565a8a1d86592b493ebf0bbd3f16636f75 0x12b3aaabd2da731ec61d1a712547fe762e46c12e0579c922ea026ba47c744a67 0x32888a052d387e95b33ae3213d2566e53ddf4f523e1f650caa51dd44af85b290
; Twice 0x3805de5aad5c4e879f00f2739f0f701e05a97953630bfb186b774f7a1f2b58de 0x1204c7377eab8d6e2806f416fdd946c03922ff3da121c63c40b77b68ade26e90 0xc42916a28c71e2af5e17f6a22d8d72d7f8225114b9d6c547965cef530d1f741 (-0x2842ce49be848e9e5b519120380343fd765209ef550e33898b9412e681bad06a) 0xcaad36a3faaf71aa9d6d21d763465b78b54bafed8265a7c351ba3620f556c2f7 0x4f70a676f232cb7ea3720f1427e591027a8b7ad4a729477adb800f1270b97026
; Twice 0x81d85e0e13b739d1b689fe35d0faeb71d0416c153cb4dfe4cd96d1a6b377c9b4 (-0x190cb9e0e57e38e9e3ff815906fc7c59bec2627b2db557bb56ab7627814e78280) 0x41dbc5a94c0a0a60ae0e6a7cbf33c047a61398f651ec144a0d456ce96475e706 0x4845a878d24438e348b2d3d99b147a96c35094fc43c4db842fb5f80c674526f6 0x3c2fbd16efba307ada51a473eedf35bcd9d292d707816c64e5433a36560c87a8 0x8704f9c8fcb02a5255e439d79c760b63f167839c8b9a639312f328370e07715c
; Twice 0xc05aa82e4bc6e9e898896f35d40b78ce8341f0d6c29e9e8a940c9172dd98fe99 0xa073daf7eafb8ba1f91f3b9a07b41b321abc0365750a7b9f152151c09fcfcac5 0x90881c60b13c8eede1f9596846e76a28efa380ca85b80780a7a81f326b067128 0xf63364ccfb928da7b121396b01a738b49e6414c8b33fe313b8f8bcc03f78353 0x27b5201a69ce0cd4c54a12dfba0adb3d222cfea5286986f50ff7400d3bd15949 0x6dbeb2bb898bb3fc1ecb360467a18706eb8ae40098d5ad1c5558cda5e6b90abe
; Twice 0xb76c8a4486e6f142bd39ecf2570191291cdc4872b25317b3566cfa0c58f27386 0x8ac9a330707f2d91377753155d5485bd788fe285858d256e3399554af26b9188 0x836c5bb370ca4f44d619219309cb018603619edf48ed26e547310856a619eeba (-0xe98c8edea3293a655214b1d7c77818f31e7231df902d7f75d6b68844ec9ead1) 0x3c147507172684d5fd0ee5abf125ec316e5c17b46737cae0a796a9d6ebf0e64c 0xfabbe41d525b71fa2484f72af4cd1dda5e001bcec01c47346d9defb518cae1df
; Less 0x86ca195821f165112f11896799faf808e0dbc3108ff0934b284038d355f2838a (-0x18c0dff25a04051fc2f50794f51c8fc7247801d9762e3d09031a872c674b2e48) 0x46f832148c18cdce41b835eeab998be28e709261a5a9cd948338bb9d87beffb1 (-0x531cf09968d28b404657d55ece19245974409ad4ebbe527169a3b8c77c651283) 0xd9eedd66b7baeb45688fbc20565b5c6ae5a0e2cd3f94445cb02cff135bb3dd33 0x6a8cca82f98edd5a97983f9885d3b36c46b748fb6f728d6d60650d114e00be18
; Twice 0x71edaa54b30655dec7403ff7543f42817bf113ef75c40e5434230225c5e35827 (-0x1cdbe556b62642f56fbb7aa1ae1c6a41b535e1b2f565a59f54303461e522122d8) 0x32b3ad03cae75857a5fd67d468693e2d3bd4505956a40ddf14c4c4d1d9306848 0x51743fd21e258324e8850cafd2d51f75992d527436ae484821ec6824532b8c6d 0x22e753128074be947fad4500170e85742ef1201322c6b76201248d829b4d83d3 0xc4e96e58d1d15d79c11725616c98cc1f9422a7ba10f04c29bde172aba39b6bf5
; Twice 0x5830e2a249d1ec0cb8c3458962e49d60a8ee0b0c00abbce32ec68ea99338e17e 0x7964e6c4e9608fccff95dc6f2f6638d14f2821cd97b3a53ea80ed2315e7bf08c 0x1e61a52576a0975ec3c91656fa61d72c42c8917507dfc6d4f328f8db9fb9a03f (-0x6f0bd0f745f50b03fbb4bafaa9287b6d319420e32c766ca0d2333a34afc4f0e) 0x370cd3a2560edc8167c4150d5310c9bfd0eb5d1991700a31d7b3bdcc8add529d 0x975beea87d902e8d42943ca30830738aeebe219820a3fdee95750f3289b0f391
; Twice 0x7a49f86b44e95c830c8c4461d801648961c3a14eeab9ff60d4c7cd5824093695 0x6d178ceb4222f455e7d12cac967ca34b508b9048c9e4bcb768aa66562e422a0e 0x3a6a9626165651e0577ca0a1eb395f703d66e0fc29cbd967910637f1023ec73a (-0x2b9c8acc80493657ab9ef8ff59ba8a381e555744ccac8a4ad89d6c5f0e231eb6) 0x9258b55950e752afad6d255a0d0f209b73a41b648f591b8d12177c76b6a154b9 0xa39483f48b915b1dce1151388ff67659ba164ff1d59f35e314af665793a8cb6d
; Less 0x1acbc4a67e148ef5e57a1c127ab5044a3a393a652c480838ff73500566981af8 0x41bd5b3f332679606f3cde980bef4488db7bc17942563906ef78edc1d7afd7a 0x2ce06234b85851f30f86901752cbd2d8b52ccafa0cc63c4c01626930a2a1915 (-0xa3ce600e6491e732b386d79bce1fb4956c8fbc2d02579cf22a299d787d348bf) 0xf427ec0cc098279db19da869f621b027add7075b7383f3b540170e6424475206 0x16a0961c9bc8d6d1074ab98eb88cdc34dbcaacd7253c3b3285a044afbc44b73c
; Twice 0xd1ab46ba31307a801a38c58594136ba18a570a6b1d8590a279199bf6fe40f923 (-0x29583e474d6cebe1a4ea26463c6858e75e217e92b1e09462137d752b0f86949ff) 0xabb91c144052552e6d709c06848fcb9cfc643f2e2c0cf7dc9600d848d55cc83d (-0x7f927df1d73359a4e17c8f761c5f832793734e708c767956741b678168c7fb8) 0xfde41da043640e1638ff9fe985098d6fcc51ca134581db2223bceba384c33efa 0xd4c2a2e146801bc309985b9376d9d3f4d37972ac0079291936499dc81dc40fb0
; Twice 0x14d48925fe4dd553e687f1a32c546b172f47dc7c95fe233bad1cbc2534a14a33 (-0x2d0c659b509a648b3e47b82480bc84c449c8e0b67aff22326dfaf5a27ff81dbb7) 0x1b1e5e161d4eff29c901af597897091cfc199a3099d9d9005654fdab769cb85 0x16672e4a6afb3dcef3cd0d671c058240c86c7f38ff00277c08a072f7531675d 0xecaed68a5921f6e60415bc398e7ff57f5a9eb2dc71fc39140d7fbf14cf8ad3ba 0x61f47cea6d28942af02282d8046b605e64177c2db31c463c44cb78bc33eb356d
; Twice 0x1dcdf7e5a7b09e92ea4155bd6c761ee95e1c97afdeabbdd8a2127b5ca372b685 (-0x279a97556094d95bf44ccf4a79b4ce19fcf68936670d6cc1f2d40a8fd868415d9) 0x3784fe10151dc48800aa21700df2f58938fc0a352f0ec0f68f7a5c953a87252 0x1800fed181689128a10ed5deb2a39b9cce7de8b0fdb988d993f443d8852660ea 0x1e81b30a935b9a6b23c64124ab7d228b9718035ef7112e0f6ade6d0c23282bf7 0x402a15267faab66d284cac6913e77cc4b4d08c2fc49c214916af23ffe196f5cc
; Twice 0x363ab840d67c3d079706365b28b32afb892a723434fc695591597cf670ba7562 0x10473955a94e5616370ef9775c953f9d0b84121905527cbd80f807d58b8610c0 0xb7cd33367f7b1fcc12f4bc0bf5528431f0eb6f39ebf4c7c32ee49821fa72edf (-0x26a9bc4047b1354aad9a892b3716015eb9a77a9e06b66aae990dd068a3e23a38) 0xd505d3fe93e3b5be70e017520ca38ff27919cae4b5b68c817909a64661919075 0x6096cd49e8e56046b140ac4981f3b51289f72a05390b52dbbf2e772747b4c1c0
; Twice 0xb97f6b3f9823fcf9c4634a0ab790b37841d20f9e650f8ea19ea5d0608566846c (-0x187cdfd75c6035e946c805d301accacdd509b9de3f8767f4822b835c5ed27f998) 0x8669686e065498bdcf2d9a68250bf6bf980d7a5bf4ea08039e42f5b27a1b9359 0x5f9d8ce480c78b6c0112361cffaefc012dd0dcfc59f841edd4f4506a459f33b9 0x51111362e73981ff4a4de951ef15a082699d3b0d36b2cd9f98fe28cbb987ffff 0x697c5246ec9b1fa891ba51600222f94443a117a0fb6964b6f881ffc3ad743bc1
; Twice 0x5ff655e02d485e22d12300784a5ef40919ed075f0e643676dc510a8ef6d1dceb 0x211d88b92b9568a32d84deed3a07b2380ef47f2b1a0fe86cf9cb7dcef9493aa 0x23f8c0c5ad3a2019a08daa4eb0ff2de281b4370ea8cb5ba703b3d96940126d05 0x1749a7ca3e6940cd860eb61622331a59d48d7014c0c1c008456e90495945f68e 0x12f112da83cd64ce80ef3e4853c491e7f4d15c3100c8ecacaa78f923e75d2cc0 0xae76b3781a2fd46f940f24ed831e8ee2c012fd053f49411d0be717671ac9a2
; Less 0xcfd2ab75d86a73a7b021e0cf883d62fdf6f5eaec3824026967af726e4c3f65e1 (-0x478fdf5832ec21daafceccdd65b885a2aab4dfaace7cb93a74fa5a6571ffc553) 0xa8b65ea6fce039b300e12833ac7394846b19d466513eb908d257206d81bc4865 0xb3651303633b1ad86fae10e5092aafb4ee6fc99c8f04055ea03002c035abce5 0x5215d9c31ef14aeace3ae73b4996849cb6b498c2ab95d639ec89390a70fa8d0 0x969faf23a4b5ab1a20cc77ecd5651f7187c5c45e477a50e04886df3d6d7e9933
; Twice 0x57228bfb91edd7410d32e478ca16f77c35ce3e16b0c0891cdd75b1a37eb272aa 0x663a3a2a7b5728c2b5f93f9cd9b1945b458b2a5e6279b726adb0f8b65b941741 0x1da87fce963612f9a021b4aeeda88815bdbecd5e8a5a32faa02cdbbc6f9a2229 (-0x1327fe3752a4b96c5b45da3c94b9774d1fd064a3afbc6cbe1477caa3c7b4597e) 0x3d69285e7ec9a2da5c7d6b3444bd6dad4803d2d9cd1fe8170e80f25a213ea96d 0xfb4b3d1983443df2914de55ce3e541a0cf9a3bdefe77a9ae2a07a3f80626bb0d
; Twice 0xb112f707a402ac627636f59c7b1acd6ae4dcf9480c410fa5a9ff68bf5dae5b09 0x12f716cbfb9a52e0b87ff709d18a08a0af4ba44b8e22d3a77b0af39362166e44e 0x7a7b3b00b6b9bc782b6dfb3a32fabaf615cb4c0e3f20d4a414d6a03d0aada638 (-0x49513eb7204ba053c3c127a77f6d8470ba69e260e160a88e7fa7659b8d80f459) 0xa7684774add9f1323f30a80166e8ed2e7e154d0d6aa84cc5cc2e07db32cbb9af 0x846e60c31573a31337bd009c9a92b791b391019cef3dcb8778e4359ea2bf4848
; Less 0x1036f752f77ab4b27123f6be6ef7f59894b8a17ab772fd50b4b3a73ba65ddbf 0x3d1fa9617726c819a68af209fb74fdf12ece45776ad13e578c1ddbe84aa996 0x106eab7a5e7dd8470d748f5a2456ec835cdaea4a18d44619ef1c8f209d453 0xd2a6150907e082a3832655c0ded45e3e478ea18f6d230998ab6ec0da0d3b2 0x9a6a875d1ce4b395611b835512e04692ec1da43731bbcc392071a5042b6eac8f 0x878b032e61d1fec61f11102facba7c0bcda294fb6f7712b8b9dd89b6ab42f64a
; Twice 0xdf9996c55343a7557a333ea8f164c7e8ea6b892b0fc271e0767661d1274a45d2 (-0x2aa63234e947a6adbe76aa415beb2d5f1a2338bd8da513e2dd27c1bda5ca8dc8) 0xc34cf0d21b062ae2d01737a0813769cfa262fc5ea97160281785fac9127ab12c 0x69b51141f8a8c2997b2c91cba6b22a73000d7b9fad95123dde07ff78c104cbf7 0x2164435d286e25d1d7cd7b1a9d0a9ad27ad8a7b02a4836b342718c7728103852 0xc15f84cb0919fd7563a77892139dfd21a3d18feb04dd1ed41768fb273333a0b7
; Twice 0x1b45b12a42f3222eb52868f2866dc5ccb75b99376bef9822661ef12fc50fc696 0x1c226d3e4ed412c62212266fef7c6b76dae500c97f1b32c2f2a760d9cb5e8455 0x2e7c657e86a9e2c6b75181f8f2917c97a9a421d772efed4a9d1a3edd55deaeb 0x13ef7535c3c14bd37cb6b77567cd7631ce626cd7504823479666c8da0a4c27f 0x15b22e31a06f6344e0fa3082f51065c427a0425ee22b2d29df792aaf40ddda2b 0x8267d7d431d39ba2ecf2c0488075c5ecba3464de59f4232b7a3ba7e9610f76a2
; More 0x9083813ba09dcc8cddaaa1c439441426a25d2e1a050b9d98fd3752e8b2149236 (-0x30350a3bcc08b166c1ae4164d0deef2d4093fdab82a40eb91b9feb05ae59cec1) 0x519434f0ea894250e027c14705d9ffc2143a84c21f2340e88fa7a6ff224e986b (-0x1de68bdeba7642cb8af3e2cd4458178bc8510029f339815abc4b7a1887711fe7) 0x4aa9e4306b5dba5fb374667ae0ac5b58360ba77f1a47cfabb99579e44cc99f0e 0x808b0f07f9b9ad5239bc340e25bf23721aeb9019cf9bd7809964e6f7e5be6b95
; Twice 0xce9751ffcd708eee155cc523ae5907c3b7847dcbd2833060dc152e7287bd6a92 0x8e23c894ce1b440ef6503e2c51c288b94772fc96916508debb107c28a61f1455 0xa6b7e16a2b6141d57174bf5b34aa067bdd25f3f935f14b6f190dedbc3a4cafe4 (-0x6017f26800710e4cb05d54ca2776b3cc29e71fab4ee932fa66853022ad33e1fe) 0xc1bd3b00593d0a52774370bee4a4796f48376db7f15989db50cfae8824aaad0c 0xe117f37c7e9448d95c83353a9645beca5daee20bc0edb8a62b81d6cd8628b91 ].
Definition token_13 : list trail_step :=
[ Twice 0xd59e989d486f12cc36be32c2f23ddb4ca962e9921b7e0330fe16d1a8c09817c3 (-0x1a0621073cc5fb04ca835cf8da77003f413f67241b84cd4ef4c0b3bc19ca90339) 0xb2414c3729eab13f51e3b288668c876fa4bc8154e98984f79b140a567e5d636b 0x5d7da73e262f2b8eabcc361d687854b1bcd9e7f3d960239bfc358d1ee3393f5c 0x51b352a304b066a0135d5621bd18fce98e5fdb7fe945cf61b248c136eecca7dc 0xe6ec2208b5be4b395555fc0c519af90e36d0eaca733d0f8cf844979c19ebf75b
; Less 0xeb0601e7f9735de7a6709e3e7027e2e6bac94b8d3a6c14c45740e68c0b8d228 (-0x174fd969c981192ac213f4f1f0df01cf8dc8e651aa245f36efc038f02d3f5a0) 0xd7c407a4d2a1299ab54c99c95254bbbed33b4a1e0e46aa039a644ba250be11 (-0x46d8eb714f405b3500c57c90f1c29e40b2aa181cf46881624560745f41cb10f) 0x9edf040815d0500c2b5bda8f3f9c601c54905d0124fc4420bf2d4af9a0f0f9df 0xdf03ed96730ff078a8cd4777855bec97fbc70278fc0d0b10098961bb1edc111e
; Twice 0x2afc196fa8474302c6c1502d63bc8b2785c3973f007585ae18198be64296ec05 (-0xdce39bc473294bc49baa3c55681b0bfd286d08d35a9f74f6e63479e5d9454a6c) 0x737b09ac0c95e74d7c0abc2d44c57872c4efd00773c18644336938a05078dcc 0x184acd3c51c8b546b861977f469b0dd681fb6387d9faf7e83db2bc13a686127 0x95d43908743c99ca731ed10a9e057f1f414fde970c24c2156aa5af3ec69ad227 0xc529b252e0969225f01be3ccfc1a7d4a05d4b061657e79cfa23ed1fc81a8b6a1
; Twice 0xf03b03f114e5765c21eb5022416190531981eb84461ddabd732c28cfc58c0dc1 0x6af6e6af4718ebe591a050ff50b66e06b635624e1db2b0abdaf180ed59484d0e 0xe16eb4ffb9cc1e35e0f1ec5c0f4f11b1f29216d1d31008f7d75c9d3e9f9765b1 (-0x50435baf7dba5fb6ab4ad2790cbec6ebf59fb9f986b76f79843b71009a7ba475) 0xeb5c5f6bda9602a89d19ff0f85b4f0d0902da5c05622daa3f7a4a6a92836ece4 0x911bbd710cec293973316f05ecb47510881dcdfd6622c19b9e8f26154f73e36d
; Less 0xd8b2e86391be786f8c637c6e7cca964a20392e745920e8a2f0cfd8b95ccded71 0x6c937b78e0e0bc7c97da7580a974d4b6ec5ba8b9f8c203624e4931b80cc252f4 0xb76e6530bacb1c2f01f87a3205291fd6fb05b9d144983e4bf8c08a407f78222b 0x656559af762a8bd0a0bdc924af90c387cd40c0e0b8ce93f27c116a6dff8a6ad5 0x739352340d7e698211b5cce65a435e62ffe5434b23070817ad2d2ff2d9dcde92 0x3fb7814091bd9956be23944490f39cb8d7c4d0eaaa8df784f8c115df94c2c39a
; Twice 0x869e4a4f754e74a12bd494224a4a0bb2f7ff27f5ebe52805892ea49a9415de01 (-0x59862b1663c543fb90f586d11832d35a0c379c069acd2f2cae4a6966aab3fd6b) 0x46ca17ab453f0f16a6e3945cadfe772ae80a43fbc34c76fe1824f05c14eb85b1 0x3c981d4eef219b7883689c67fc30b72228706e3bc48afb2938896d46eaa95fc7 0x585adda31110374e3e3010668bc304a404395123266d641c903c39b5e1848e 0xb98320239b6185517672817b4d52bc488e45b1af5fb845dee53d26524456e31
; Twice 0xa80393a7d7de882df660270daa8e10ee7d6681fb224a9a2123d611a0d8e8b141 0xf37b9185aaf95f50530273fab2a463649b31cc40e92a7680d38ef76604a8567 0x6e44b1d984b203c185a14a82656610655b55da14f5c4f1e4f847c60c8d0d9fa5 (-0x5e074526086e2e2712c3d9c42ea0cec1489aaf226a16f834fd646ad3e57b6fbc) 0x8f9d55d7d19c81eef2257c6b67f8b38ed5006122c3bd053da004ff7891d5890a 0xc5ce3a2ae903223c7fc85b37aaa249f15f26b288f51b50479d9f7750b5d04297
; Less 0xa1de1df725f4a5844f9272311fac1cb4cee130ba9d3ecd9718e33d96a3ccbb8e 0x1717a801d50425706240eddc72b20cfe010c4eb262efc0825c177f84c872c434 0x66592269403e9c1c08adb04f882bd1e9a1ad775b73aad07214658321fc9b1169 0x4a61dceab749016070d2db40c44ed2ec8017ed20b52613211a4ef524f80966a7 0x19f9e2b7384156dc373af825d671b0aa4582162b2d5f480aabaf1b5dd9e5888d 0x131d7bd405c11832dc4ec28e84cfbd188fc8f432b4435459a7f0fed09450b866
; Twice 0x309eb51c83b52c1eab7c079485af435a04b1802d4502b4a39cbc7386dfd4031e (-0xa584b7801e7d57e7c689d488e62e78a7e0af9633b221f4d2dbe6dbe6e542f0) 0x93be64ec9f3bfe7faa9fa1bf280a117efad3439e0cd0f8609db214a95db3383 (-0x515bfb0948a58ed01087e8f359ea26a796812165d55f8ca83e5c009c1da03e0) 0x34c0052dbaec4c640b0e8fef0f442a473f1bb5f42dea3efd67002efa4fc9d9ed 0xb0cf9b5b3283a25bc602484d240e0a4c092ce108f7b598c0dc99e338289f9a7a
; Twice 0xea9194774eafd98d7a7f13773e8c3f40b719a8698ef2a8e4bccd6d4401eed553 0x12368e9dfa87c7b279e931125900afe3ba05ced05bd09f9636beb80d883a3c11c 0xd6ee763478093db44a8753920d855f02e94bf19237844918085291542884155d (-0x35ca62dfcfcd48a1a29337633d1be392e0952687b2b6441b5f93bb455dd5b0a1) 0x6f7489191efc262209ebe670852a945e23f93b973a69947f31cdf1f387079a6c 0x8d19fa7159653944faa8dd5383a1ab7ec4d71adb9181cd9f31ea01d9ba49a0b8
; Less 0xbe6ed517a8b92a48a2302cbf3336473cb6ccfbd6b5befa72a68adf615e57a9b5 0x33eb366a324d39dccb2aca9dd968c77afbd936978e47d24eaa4da4c8374125f 0x8da8b44b7dd0ef22f829230886a08c0b7c60c8178e372a81ff7dc60414a74b50 0x4768ef0ce80ecc1fa5f0f3c33bf0714164f049818f72d1c15a2a6cceb78c7f63 0xf756157f0acf32c30f01bad3c2700ff82cef0681c553994e70f0a9a6a8d6847 0x9ceab163e7edd25f53b983b7735256e7fdd3091c1fa0cc63a19e97b86b55bfd4
; Twice 0xc0d2e32936b116ae575291a646b74b9ae99b895235ecb7d0aa2a0769cfe65813 0xe995abed4164f49c14f0528069a8e90c8a5376db8708b62a2da3704812831198 0x913d0277dc767ca6a2de3ae577f44067854471beef923b97379d58e2ab181f87 (-0xa8f588f3a84ce7cc0596683133f121577920956a983fcaf06161911b6e88cd54) 0xefc6609f7a8b374a68272c64988a2ddd529310aa17372af65856def4f06e6062 0x978056b7483638f987c6175d8042832971cce4f70d2d52dd359a459f23e3c0d7
; Twice 0x9d5d08b146c000a95893d2ae3d714ba7e7f4bab16421f4fd0b75a2e474ce5d7e (-0x1e77a7e866509361a02603de7fa2d029ec7d10286bc578851bbb167a3d6cd191b) 0x60bb3e79229bb5f7dca93362d80d7649521253f33919b650cfbe47d2a56c3d7b 0x7c85e668ea620411bd4dc89e8e7b6875821897ce492b5f26b1dbc82b737721e6 0x25332abb3f08e7675d4ff77d18cb246f689a73e4c5c6cbcfdb72356d8d7c46bb 0x93cc486893c2a9b9fe4df31a93d64b24fef1d81674bac8680457fb4d466fac41
; Less 0x18f40924b8fe6e24338a17249503d05fc7ee0e6e6f262b8808296ccff264b562 (-0x6d0101baf9431f968651df7b8b5d4e014139ec0b32f1f93e860901835cbc0f4) 0x26eaa5853729e4780ac588324ad7e0ab5b3ae30a46e02a1fc5ee5260fb62009 (-0x89f3b825d4fe3d201ed1efb4d854b56922e4bb5160ed84183bc459e4c433e96) 0x7da78f24472e5b1fb0cfaa36a185ec64efbd960aedc5b458431a097a26b4d03c 0xe05c993afcce0f30d6226b746740d1ee20b3e21cedb3f91c9699c28c240c3cc7
; Twice 0xf00cce96b96009e3e6e9f785d9c4f5bad3687b2ce22565692aa9b78369e9a838 0xebbce3ba9eae8f5d9260b533d0e8f27f76dbd815e38ed7fd459d31ba33e6e31d 0xe11803ff8184629f317305afd062fdf302dff2574cd3357545d25c3b5554ac01 (-0x708fdb674afe413ff789db716760e7aaa562efd3a0cd8af504d3ec26cecea84) 0x852837470d7b7e1220d83cb694bb2456bfa744281fafa148d90203d89c6497c9 0x2ed0bfaf01e821cada9537833a47881271ec9b5d3933b4bb5201ecfe149a9dd
; Twice 0xf7cb6646267339c3b031dacc1674dc50b3f8507ef8570482d2ffa6b8d0dd81ef (-0xca1e5bde812d8f4870647ddf088c7bfd83b7c1141b46ff989c85b2fd9739b136) 0xefda20f7aa296f08d37ae1c71d18ae84170ad94b44b37e8d2b0d34b29d0866d0 0x332afd9a64b2e7a6ff1b16f0819278570e435d89fa98c6df293ef55cade4be25 0x504b7715fa0fdc77688d7db95ec656185c13dacc3a3d61789c809b5f5cd7f45f 0xb4464e92ac0ceef3ff2e9037e6ff4dc8d55d11ebd56c73657484ca2431c20e3e
; Less 0x485186e63696c3f3feaa4f7d0a6e23a9e1e736523cb4174a94c702e826d6a6a6 (-0x7920255f95745d05c275eeeb9cc4665fc3d49e144281ef37e18bc1fc5c73e23) 0x146df5d837e71fa55acf9ac6d280ac2074327e650108e1e5b9601d0868133b0b 0x5042fb4aa5e140a5f1e708e6fc1b3858bbf392646cb74b08bf6e50df2091962 0x3e8993871659a770a73a9b66cf07965439220c9fba377e4cf3df5ab784a637ba 0xe38acfd4a33067da4c14d1cc44f134c7164aaef24e76978f4f24390c60c85c22 ].
Definition token_steps : list trail_step :=
  token_0 ++ token_1 ++ token_2 ++ token_3 ++ token_4 ++ token_5 ++ token_6 ++ token_7 ++ token_8 ++ token_9 ++ token_10 ++ token_11 ++ token_12 ++ token_13.
Definition token_x : Z := 0x3e8993871659a770a73a9b66cf07965439220c9fba377e4cf3df5ab784a637ba.
Definition token_y : Z := 0xe38acfd4a33067da4c14d1cc44f134c7164aaef24e76978f4f24390c60c85c22.
Definition token_n : Z := 0xb5ec0dfc8d3849cb6aef5d5e661d67f1083af23dd8ac07aa3066c9ad3dbecaab.
Lemma token_trail : trail token_steps trail_bx trail_by 1 = Some (token_x, token_y, token_n).
Proof. vm_compute. reflexivity. Qed.
Lemma token_reduced : reduced token_steps = true.
Proof. vm_compute. reflexivity. Qed.
