(** Slopes and points for checking three multiples of the generator. *)
From Verif Require Import Base.Bytes.
Open Scope Z_scope.

(** The nonce of RFC 6979 for the secret 1 and the SHA-256 of "Satoshi Nakamoto". *)
Definition satoshi_k : Z := 0x8f8a276c19f4149656b280621e358cce24f5f52542772691ee69063b74f15d15.
Definition satoshi_point : Z * Z := (0x934b1ea10a4b3c1757e2b0c017d0b6143ce3c9a7e6a4a49860d7a6ab210ee3d8, 0xd2831840679da4a3dcd420fb04daa9ff5df5d05ee36a365dd6a9e3ea87f0bc0).
Definition satoshi_digits : list Z := [5; 1; 13; 5; 1; -1; 5; 7; 11; -13; -9; 1; -7; -9; -1; 15; 1; -7; -9; 3; 7; -9; -13; 5; -11; 3; 5; 15; 5; -1; -11; -13; -1; -3; -3; 9; 5; -13; 15; -15; -13; -9; -15; -7; 3; -5; 7; -11; 7; -7; 5; -15; 5; 15; 9; -15; -3; 7; -9; -13; -5; 9; -1; 9].
Definition satoshi_hints : list (Z * Z * Z) := [
  (0x2c71bafe34f691071109c7dfa7afb5d994fc38ddf5d021b549073f8223b7ba0a, 0x352bbf4a4cdd12564f93fa332ce333301d9ad40271f8107181340aef25be59d5, 0x321eb4075348f534d59c18259dda3e1f4a1b3b2e71b1039c67bd3d8bcf81998c);
  (0xad9e1e6c8be1114e05794769f85e4332c50fd01dc7178dd671a00eb903a8c724, 0x39e06912e18b537bce440f58545e9c6ea2914d85698d4043437dd66d7506b48d, 0xeff20e0a16e93096abc80153c128aa1200f06c6d4695bef18db7a16706f352e0);
  (0xf5d8508cbb4a629f0cf85ae660b468cd00028c2c01dd0ef107eac41b19634ae4, 0xc50abfc18faac4cd259a18a2cb4dfc2e0d71e255e55d0eed27b5807e3eb260fd, 0x7063056d3d7b040604435ed7f8c43542eb0ee22c05997bb459208d389f43ede0);
  (0xf578f84f19500fdc8b8882493dc7ee0b706a0197929bf20f5769c90b6c926240, 0xb7dc3592b68a7c2e7bebb583aa6c043747b48e91d4dc5bcaae1caf27169a4405, 0x6f3aa4d855dfa76860a1b3f75ead7d4e56445e77e5bfaacd3e5d137b9d05fe88);
  (0xa8f06eaab4e4a9206336aa0676c75a2e2b60346da6ac21c873032b3802ea9c46, 0x965d8aec4388bf0e7c4b351b0e156f141a4a84af2805b9d22201a39285d6b72d, 0xa11011c7107a6be35e9bdb606ceda1e1990e6f76e1840f8b9b1c97483c8da1a4);
  (0x9fe1ddf7a272e060c490d37fdca0f8517bc13f48da3d4bdd12ece9389b426a2a, 0xad864cfd914d7daf69dc0c4c96ed3ffc2bcac6fc3587fba114d4b4d624136ae6, 0x40057aee4e38128bbd5359a6334221353a47deaed1ddfe11b99ba19c87285e12);
  (0x4623e729e52047cf6e76b74e62aff2800fffcebbc53229a7fc31522dd53e828c, 0x1cec6051f882c61e227197bb92cf5631c48656fe4611557cdfbe8e97684c1ea, 0x5d6a9ecd4fe06f6492fbf1e237424e450e4803d8e916ec7371399d410bfd23da);
  (0x457d1f976da27f161a4b02ac4c75d50a25fec0183cb544e1907b690060d8fcf4, 0x32b4e55b91c96d293cccf5035c6cb89d6b1507b466d5d74b749529f42430ec71, 0x1ef9ce801990c50c9bf72b7d3e361bff25a68a314e8b2412b97327aea2c6954a);
  (0xdfcb3fa0e8e3767eb2b77f177ec68c8b080cc433ca9aef19af00e963855c0888, 0x7f41cbf6f32ee994da3cb321fced476d3dba2448a5374ec77a0b91074217ccd6, 0xa2c31e014afd6d145c23bab8782f257bf1ad7bbfd30cffb25c1cceda995aeb5b);
  (0xe30231e2a0309726306d85e40f21e528e9351c27659c705148e5533ce0744cc7, 0xc0716124c6592dbadb833c4bcfb09915bfb32de96a47d8a03be4565d5b1ba63e, 0x5b19ac4f2481848e081e8f23365d7da45baaae5b9c597bc948d20f3fce87ac95);
  (0x6a6efa80ec9b8e411393beed10c42a440df1e79d79ea499c375faeb16e23d593, 0xfb8fe076312e3f9349b803c1ee7ec9bf3744e76c7893af65a0dcce80d3f28f6e, 0xf7f3f3905fe89a580638b804fb9856fcf1aee523221915c539a7f1d048f2e588);
  (0xa91c30006b62f3ee1feb24e2f78867f5d421272ff31ace4cc9a7052e5687060b, 0xd8cc301c466074f54d0b7244fd94997f80bfa7a9a535224bdb2317b44906cc84, 0x2f0e9fe845462717bad15c59acfd6a511c684e4f52f68b6e7f908f80902eb055);
  (0xb0894c6bab1386df1f16acf0b2543a365777dccb328aa4ae66128cbe6a0f4210, 0x6f442b6975c5daa43e96beb46fe99f10cb8d40b1dafb364181c2a4ad10ef447f, 0x4e70e7e7b62fa2f155f061ccdc1904f31d808535b15704e21e95f34aab3da125);
  (0xe0c76b54b51cd74cf20b8755c463c69138675c205b7638243596b34542f0aeb8, 0xbe598761bbdf34167da31e8e59ae5a2a6a9474a1f5b5e6bb7befc9075e17995, 0x18e0e1870e716ef061d2f45ef405169520e8f64dae35bee689bc8bdfe971492f);
  (0x403bc1ed75c1092423f826690c7a63df9b78a41199d821c6a223ddc077484bab, 0x89567d333ed03b4540cae08fbdccdda75904d336394bf832bfa35e444dd5e7e2, 0x8bb76e480e544477b75708a946546ea3bc1452030ed17874ee60d5c137391aa6);
  (0xaa41c4ae6cf58300567f84c85ce7373ff493dc8d08a68fb49f0107d0052d00f7, 0xfab7d99fa7bf0533fa8e9db923de2bec20ce76a5ee8eaae94087f5c4f6e9fb08, 0x9d2a11ce9475f4209c3bc2d40762da971dca53e2764cf1db4e75733b355c75e3);
  (0x17e94f4a73a027b2290c886eb741fcaccc9d3a7aadfb189978296d7a9044edf2, 0x23457c2770f82d4a495142a6694a429523e82ff2f242a491cf5883a4567ddc93, 0xd7e6ceac2e5b87a1ee3d891461a5d5efa2c0c8e3de5e1a71b22f5bc214773de7);
  (0x83153a39c925004cd40e74a0cbb18e6d0b3c7fbed5cd2ae4969a5d7194fbcc83, 0x75de80f8223a1d4e94a8fc037d75d6df05e05aed64f4b95efd5b0adf36f76e28, 0xece6d70d78d6d945ac8b7727fa008461cb5f373489b1a63f76c3d1709e1d24c4);
  (0x9f6a518ec0615265dc14d19126ca97ae4ffdaa2363322e70f13272c671cf73cb, 0x79663c2b7e010b8bffe1e567fed425de45cda421d873f1b7e9585e52fb2d498d, 0xadcf0c88fb79ba3776d9fb4e46e5ae116bad5cc3192999bae1b6c55dc9ff502b);
  (0x9290e53ca76e7e154161f9574b6503d5004f2aa84cf473fbdf75f0134bca89b7, 0x5dc36aa0f0863ac666adf2b9b681203947b72dbcf0f7766a81cb2c132bd30ade, 0xddd3b46afd6ef8810b22280af054464cef7763f753a5d89274c340fcf1211cdf);
  (0xbfd170a6d6294c005ae882f09efb0dcfdf95e7c16b3001012448f49d964c641d, 0x727495be4216cfcae109d496d7f4edf682208f3c79bb2bda4df7de49b45a897b, 0x27d3029cbaf7bb8c7bf18735115b78a3f219a8dfc495ef256adcd15c5bb9f9a3);
  (0xc1487e0de5d42f6037d75c93bd1d42b8b4802fafff83bf3d2c599e0adce3a0d1, 0xbb5ad66df5275382f354e796b9a4fd30148fe2e9a046b673713826ad2ae9be0f, 0x217c75253c4f7d5b107ea40171610e6701d64089b761afdf61780f8c587bdec0);
  (0x2d400294bb5a82db9ecb51ec26df6f5ac3ed6b4538f2f988e3b82af7a621deb1, 0x4ab4b75cad6be1cca6985743d0fbaa8d00e4c330459de46e7a5492f885fc8272, 0x10a377766456e48477cbddd492c59215817fdc960fb01679dd1f4217ab4f9537);
  (0xedf288eb641d058336a237bdf38f2625c63b988492edac2f018f47d96b970f41, 0x621c15258159b9c121d512b302d14a0169dfabd2f5a99b89d9bb2e51c8f8b40f, 0xd576864dd77af696df15f0eff0499e17f35549910b7f471638498cf4a31413e5);
  (0x457333b283862108212e88dcbfe5fdac00f190628fea8138bf5aba46501c6c10, 0xe4254737ed98863be2ddf99f8f4f0c59d152dd1b99ffcdbf241b7cb7988356b2, 0xe393d2ab2634985b0834a4e28c17b043ed32bbbd579e4080a1078426a2c5b3dd);
  (0xf2caf98ab6f81a0b2144a436ff4b240e06245c5b305212e63a6565ef339352a7, 0x176d830e90437b540023d6837447d71329c9a5dd6ecc2ee6fe4dcfff04772d71, 0x9c0f7906885c5d218f8780bffb938bd8644d5b78cace1b9f17104e26a01f60ea);
  (0x5c0243823d3c1554022acb00cc0c353493fcab4e803a4742db6b289718f892d0, 0x4b8adf530464f2fbe45b5e5f81f00bfec3ab7b8fde35cfe554a3ec8d3149f2f0, 0xbcb5d57df090b5292294cf3fc62a06c6e22329b59a20eae25f5d643320550d4e);
  (0xa54c5ead41eb45550690f530f7cb2acf4b8176d7c9b278e07a7413f7656bfaf, 0x112a690b797a28885184023ef365040e3b25298deeb8b7b9d9b126cd45dd3887, 0x684ba03254f0dcca697b6a9dea442d53c313055b3bdf792a5b8ebe2ed6baf02a);
  (0xd2eeeb6be8416aec26171c120da9313098491ef559a1deb7d01aa9cc58facf30, 0x10c956dd5504b28eec58c04ddd932b5cf722d7947893a73df3c8846755e493d, 0x5d273785a429b5fb942ed4c958519598e416011800dca9578ef43bacc5985127);
  (0x15ba3a89a300e7dada80e00562c4b225e77ffc7679e65dc2099939775455057b, 0xeaad7592b21b5836aa9a91f5239eb546940c0fb0b8b71a49c985f29633ebb3ef, 0x6f7db6fe222805b14148556dd8bc620afebd9c98583afcede6f0424ede1fde41);
  (0x5388cde344df7ecce530f7adfb0e6fcef046fd06deba479326688fd3bf345389, 0x568bd6763552b19f3862b509e17b8786066c972158b4ea1c0312138ba639dc0a, 0x86ec203bcc2f33cfcee85a175f52caa7632ad5b7bbd300655769e8d37364e26a);
  (0x15467eb76c04b8cc8e63d15736916b3df1d327b69b190eb1779771c51eec9677, 0xd25de3f63f9c683d6ede9e6e7d1724c365821c4bf97fa52da41cb9b01ed730b7, 0xed28d7af6abc8e886c3bae229844132feeb5780f510e46672262c96808c90ec9);
  (0x54380f530159e1240f40b8df4a216019f01b38f6e9c592460416f605448bc67c, 0x701ed10d5a8aac8943c468945293458caa3be423c476c0fa939a9876498fd2cd, 0x6acc311051edf50b1449bd7b16d52364e824dbe09a84826075ff85517c8f377);
  (0x81a46807724b61046fa6fd11f3b08720a3f1a80f20d233ab9027e03f3ff1b1e1, 0x8bf0cfe068c99f0310597914a0f3d98bbb742746ba73819bddbb92c1ca1e7f4a, 0xa50a7404b6ccf02448d093c1501312c1177d2e6d0b6faa8e905faa7404f305fc);
  (0xeca9d6189b3f7646eb3eb93318e5a62c5d160e28c1689012be26c6459415f193, 0xc9be5c5a64d1a205f6fcbe6af2176536e8f8a79e2e430c66fa4d9b39499ab850, 0x142f2edbb9c84f4b2989224f04ad7474b9563731b969b22c767bc33e56915eac);
  (0x57d8bfb155ec2ce8e975e2001c7e064d6a74b4bb7ed4313f0b39db156e8655d1, 0x5903491edea352d3fc6a28cbbd430fde12d23c2a177ace96565a9aa56e033c4c, 0xd71ecb155594d6366106da5929f32aa800430f112ef89779a83e4b46e860ccf5);
  (0x5b08725d0e1af8d5aef925541b242781d93540f45889cf598443dd94a762fb47, 0xd15e5368c18a2c7d39042a6908aaa8b8e5dbf39ef8c3731bedb4ed7998e32ece, 0x4f03cebe172957fab444733592b2a3dc0e4166abd41e16854fc31c96eb7464e9);
  (0x2d5e61bb243cef61dc13d50a9da3f37cbef5e9b7e477ec237d0d45b655a08e25, 0xcaaaf510a80e5cb258a4196d756592f536d6bd2f55e2764f66eca764361bac0a, 0x86ca6cc85976b37500617e3e40b8c022132ebebbdac76e576822cc0a98084f7);
  (0x2a0109c7c4424dc9cfd12cfe5a518da12886e123fbe70368cc69dbefc65c6c70, 0xb61e0ff7168a8273855a0144cf45d328856236d92c51b0ebc4a1e23e09946ce4, 0x449ec0f9837ff9f691d4da30978b8de73de954e59b9d59e0f1fc90b6e94a0b6a);
  (0x8c1f4859efc00b9e5de8b1da5af35ecfc9b877e43271deca1013ef8f0992d58f, 0xcbd7cfa91f5b58c0e7e8f51ece10eb6d64360277c25cccd2353181f13f869b2, 0x72fcd4032718e0048558cd6f64a12943979cadf58fb8cc3fff714fef3115809);
  (0x9dfe0ecbd0f6d03f68058b5f0ec569b1c8715ba72dee1f5ddbfb3f6402afe0b3, 0x7b0a574337521d624e2fab26e5e709e8e47f657325e6a44e2faa9f0af7049f86, 0x63172b55b8a45317712bad0490b811fae9d24eb10ce0b5741724846e98068281);
  (0xdde2073a4c22434ec3799b46c1d4a932e2adb72f558a4636234df92dfcaa703a, 0x6c110a2dc5a54bd4290e1fde8dca9fefd91bd3b912ab9aa57d1a459ad57e6be2, 0x12b9813e8707331685e530d04d5617b729ef8da7444432ed9550dd4d75566a79);
  (0xf30a21d8d32370e80fe50b0624507dff6f00e169efad90504654f0f16931d3d9, 0x513c32569196395cacb0f00b8fd943ef914a95d652785a7bbad8b8b50b2bee01, 0x531c5593f2eb8abfca39673b8584c0abad38d4469ac449c62f0f307415a1498d);
  (0x6aa41913a3bf5e84c9fd6f0850d14b7ccadfb1e8dfc9c15743c5dd1c0b771c28, 0xcb9e9cd91a620a0c47dab0a528600f3b627d9b5b34cc821f49700e26808e7a14, 0x4f933536af647eb4688d758bb3c2be13a712213451c9fc22d960303a8d78cd07);
  (0x202dc994f93a105237a3a10b3f1986988bc1b3f20ba4f72dddd13819162f5682, 0xf503daecb43be2353623dd3c47251f8af2ba6400a0926353c1ac72d117a5ba1f, 0x9aa584d655f190658a3ac81b3b7617098a31ac8e595cc68a479205fd7f4e5722);
  (0x27256e367ae1e6ed781f7c412602f5e196ff8a371518682603475ebcf478068a, 0x11a8baaab916118a3411893d172c8f2f02ca736d0dae82749671d7c0b657fabb, 0x2a8e31864327f3533d0defff790b82e9bf96542605ee673cdc506bc080e5b23a);
  (0x8693b3afabc3f242991add0cb348c0986ec5e4c7926d2a201a2268d0973a7040, 0xbec48f1e3df39c75b047fa3cb1976c0cbab0ab43c0738e8fad213ae010ea4d79, 0x1f7a93045832ed6298848aa8b8ab10b78a820af1c779d27f3ae40f7da910bc65);
  (0xd32629c2cd387812c00969bdfdd7c702ff3188f6ac5160a1b214bd062e11bc20, 0xfd83a8aca85aa170a621b973eb1405b5e2d9321f4a6c32d8315a90d18869f70f, 0x8485946202e11a4d7f73911610ca3cbe8734f0028c186bdc98f617a7d5574700);
  (0x6e93a350900df13acc0d4f7303ee111a9bcef23c0e1e74d7a66d35a425dd46d6, 0xfb83d1fcce7310895e2d51a3ad862e34900d7ed968287e8c27aab3e2cae5f081, 0xb88f5a0fddc31949f627a1084d0d641772cf6d60ae7691f33e49213273a99365);
  (0xa8c9c14ddba70c49d3045f1ee88bf98c11a4bfe6fb79236b722763a94d9cab32, 0xd1bd3162f131cd5cad9f8410405f72cd4bc094f2c1cfc664af6116e3dcf86d59, 0x3adc1927d06c91f1984c8f2ab8318d76363b52c27fd407d43855e8ca1b6844d1);
  (0x686adeea79dea05f64e932a6bd94dcb37c7053800267903d1b27e25195bdd197, 0x70ce2d4077130c7f635c3aa4424b35f72f25624ea62dc2420d2d303fd1ba1af6, 0xb941f084f61a5dbffeb4986ff032fc6b39f5e8a6214f14b3c7f2d367cc492d0c);
  (0x652d1da494351aba97570f1937b351c24f495e5a09ade1c7c0a787470ec821fa, 0xbc032edff205ec0d3fd52d119974103420d76e30be976f33eae1564099f593d4, 0xa2fbadc137bea966185445519cabf9077da2ab9fbf0be79c6033cab8da85de1b);
  (0xa79338330f2d1149b0f1d02b15a4d92af8ba18c8681182dda718c4e6e6379709, 0x9029836babc09af819078ed39e16957fac9a2d9c96faff2136816cdb861dd2f2, 0xda635965ae0b38f281e51eb9c9af0ffb75d0cb4e85775ac7589a67592967a079);
  (0xffd694bd4640064657772e205d06e434a84ceb79d254ce0a187dee713a4c769, 0xe522078484160f0ca1227e4d4730259e549dacdeb026328fce279bc56b4d17a1, 0xd42e03795683d304469d6a3c0772011d118c4b9f87f7677f95acc4ba26f7cabe);
  (0x6b6b62f08572b57ea312fb3bea9509d732219f34b9edf0cd9b1e600b77d81b9f, 0x67e8e73c3647433aff26af781589cbf28837d14a59e20a46b292de63375f6f64, 0x6e08dae7230485d24925b63328c22cfe97fc86fee71b044f24a773ce5f314fe1);
  (0xb9118d03eab069d73f7dfd25704b31f6179a1d54281c2b8cc391ea92d7c95a9, 0xc9efd1ce78862750bf345e7eaf3be72ccf7c5d49c73d19e4854e4b2283441eb9, 0x7bc805ec4a3150ab5a1d50da08e0921c56587890aef4ad8d168f95972e31aff0);
  (0xbd169f25bc00c5a46b808bcea57a74ecf74cbe2eb6bdf7764ecafefd0eb07e79, 0x42d768aa79487f8c4a262cf36b38d9dcd98c5d7aea53ef74523a55f91867cb24, 0xca8107c2b17c968675ea30e766ba10d812c41548e3abfb2a97bda0c49f358e48);
  (0xe36042560a0cf0cbde5fb247a2f8671412f4372758b0d1eae83e265be4249ad4, 0xb24d51b2b017648d4062929193d95b378620c979aa40c11006c6eed48d29fb95, 0xf69bb0888572b7fe538f77041713e586b1ff289bb8597a66ef79b535dc9bec53);
  (0xa9a2855be0e40baa012b78bc00dacaffa4a2f014d7c440724f3c89089b400e93, 0xd08287341140c6c9f82f1c87b85ea1c36967170bab920d04e8524a3ed888588f, 0xd7601da417dc9ec17c294b37fc599738e1ec99b739890e1c6bb4e5cd4078d2);
  (0xfebf38de05ad44c62bef4d5a0880cc6d40ee0f77eff51fc07f71e6c6962d41e1, 0x5dbb17a2ec7ce071ec3d933abd8fdb14721eb78a8ed94d9931aa7fa505534931, 0x63286e3a334af170e1994e04db83bcc6236d7afb554230f9423e20bb8579c7f0);
  (0x33ea0e9e02dadfa2d63029f28f6c3eef36f2c1e7a6e8c4788ea7d0017997bd78, 0xe5e1d32898f8415f3d71b6a84eda679183743e7ad91d91824f7f1f8fe211f17b, 0x4ac4512202a247a44aea9a5623a88a1373a8d4c0047e1de106652b16d7c6a112);
  (0x419a3bd4592342c1213e27fea2d270fc65f9dcaefc8c5f8ddc1788d482a1d012, 0x7517f911b480bb481cdd8d39942861a83f018510d0762b7ce9c26096a8506c7, 0x8c32b502d46b773b0e45aba99bdf45643227a3e65a86112f833890af5ef9c84);
  (0x4cb92c1d0add33406f705e0db5d0ed6d78c8ebe33cc5e0bf872f8cd3233ffc5f, 0x934b1ea10a4b3c1757e2b0c017d0b6143ce3c9a7e6a4a49860d7a6ab210ee3d8, 0xd2831840679da4a3dcd420fb04daa9ff5df5d05ee36a365dd6a9e3ea87f0bc0)].

(** The nonce made for the secret 1 and the hash that is the order plus 5, as it is. *)
Definition wide_k : Z := 0xae5e66d517f7f3cddb96372f9f73c9c2912656358e3f73a0b4f74a91ce94406.
Definition wide_point : Z * Z := (0xd695e4d0a4e55d1fdb93e4e22980360198f1e5dbe9200920fc43d248ef1ee0f9, 0x7c6f31d67478d5006f2a65ff55f2f97d2301fa4706be6c90a9a39891b1b55c73).
Definition wide_digits : list Z := [-11; -3; -13; 1; 3; -5; -3; -11; 13; -15; 7; 1; 13; 7; -5; -11; 15; -1; 7; 5; 11; 9; -7; -5; 13; -9; -7; 9; -13; -9; -1; 7; 13; -7; 13; 3; 7; 15; 9; -1; 3; 7; -13; 7; 9; 11; 13; -3; 13; 3; 15; 7; 15; 7; 1; 5; -3; -9; -9; 15; -11; -1; -5; -15].
Definition wide_hints : list (Z * Z * Z) := [
  (0x643d602e08f034bd92f72179c820d2bf9bd6dbba03fd8210a66dc38ed22f4534, 0x7635ca72d7e8432c338ec53cd12220bc01c48685e24f7dc8c602a7746998e435, 0xf6e49b69f6b7629ec2e2a1a6f0871928b1303f9e2a8fb745261890ced3a45fce);
  (0x5ff206d2a2969c6745c179d64c0b2ea246eb2b031426ecdb56c1ca93a0a68da3, 0x43e5508cdbccc93b5b3f8ce17a071c1b3b17bf4d8153f61fcfc7b6b4f6cbaf91, 0x4a127087bc7458e1af613c772f65acf837ac448c24dbf9c7ea5f8cbb64201f33);
  (0xf322fe84bb8e6d4174c2fa1506f9a9630c86d7e0f6fc0143104c815c21022b8, 0x33a8e87e246b7b9c9c77a6b07cc67d41f3915dbc02180118c0800b33f9f95524, 0xbaa8244c584fd05f2655e36be2e5c459207d30efdcdb229470b343339d16ff8f);
  (0xd2e747b8fcb24a969e078243a1b6ab080e9f562aede101dbef4d305d8abe7e79, 0xe8a6ed52e87bb4c3214ac6865604ca8bbe381daa08720dcf02e090253602a306, 0x9bb9514fc8cf81f577c7ebafe12bc29576489955a518360a5e41fdb27307ddd6);
  (0x1ec0af91123b13e1ca48854a615d4935b1cd02c7b2ad8b0e8238e191d731aadb, 0xa25ad13a13ff2295bb1c9f81ce77587ae7f76f7a38cf738d122c6db8f34ed2ef, 0xe971ab4ecb639819c1dfc8a119df7f4ae9d56de46b03e9d513bcffd75dd09f60);
  (0x56aeff6ae00839d620145d851ff9694ad3d677227676b541cd3989ebe5da0d4b, 0xa409cb7fb86615634f3f60484f351d56ce21daab4f8f86a0c89a7d480a5338dc, 0x13261faeed80cb0b8bdd9054be1da40baa728df69898c099f0a3d7b4b0e892fe);
  (0xbfc8ea91277283371fffd50c509512a96774447481cf8fca6fe1a2eeca168287, 0xd926d0ddfe576f25da8d517fe16e19775ef504f1a3897c57fc6e348bf9b16e24, 0xb1f25e2dfff949d451dc9be96a75afd190173933a1daf1e7a9888971c2bac0cf);
  (0xda5b67ef4bd8588415c8932181859b5c312bc71a1fbe6ac6a7d35d42d1309cb8, 0x797049016c2e2c1e0b5ff7f7adb6d227f82c95f64a932ef2a5011e3b62664163, 0x67c544f12dccf84cba2a328d292080e6dd7bf2724f3e4b19236907474dd50ad3);
  (0xb42d246e80159bf45669dac087c0c4d4b7d6d1c75db64b9e94949dcaeb31ff6f, 0xda952c47667dd2dc91ebc93ed2ea1e63d2d45ef4e9f70dd8fd4435a481778031, 0x1a864737dafb97280225a89b014e683fcf90fc232e2f13f7e4b04a403cabda2b);
  (0x513b139c1f5f623db929510841194f0826aec278387a51aa420d6ccc4f7c4ef, 0x7b6572a68acef6b40a6cfdf82aad2c02f3d11cf187506e9483e41d9f83b87869, 0x771b552594c28904a81d025ea7d846cd9d64f688902164952c79465be378f2bf);
  (0x67703ac5ade9a1ca10f8b7d3405a4a39ac4ce21631a8a184d1e84004c258e61, 0x355e36401f3b36955f9d69beb64703f38b6ee130ebdf473ae8e457d836cf51a4, 0xd7754b2c88d774aeffb66ad47a03c2efa1ffce02352cc105fa5c38902d40069);
  (0xb23d428b42c100a5c370568f91a4e5e9817af344ba92090981bda85c394f1b9c, 0xf8c4c26ee1bbda900c5b28c71e4d91feb37014de2273b5d51414cebb44dbbf62, 0xe49af520daecd9dd0c30f9d5d59e84379542b7465839e01be0a84ad55974be7a);
  (0xdf3d1cd096ae6fd88229b5f2d75adf256133a4f844fc468de22fe448cfb493cf, 0xdd4ba3d322dd33aec7457312eb72c9f362f38cf8c54b6349904f4f2e2b82b016, 0xa6222dc001a834e91f681f7137e8788b7efff2bef0cdbd0cbb9567f33ae1c15a);
  (0x6e757dd0ccf6ea91dfb96473c2df433bbf621e964fc1a4cd86db5f53d98d2af7, 0x5f832fa3bd7eac897773ce2492a9dd3e272b740b0e23895f7c1f3caf877697e0, 0x313eb601e30db5b00380e7f51aa16b822e7cc9d13b7288e6edf0fe8257939f22);
  (0xd3435578e508ba0a8502fffbc3e253a2d680b3ca141e489f908fdf7a4d8a7efd, 0x667293122bbf1549c89e596755e77a9bc6a368e04db393f56ed7a2229c652ab, 0xda7fb915a4ed5ce125e045b1a2b65936673714cdb745764039f3f91663d2f64e);
  (0x55dcb35bc6259f13d93a82081331c316d9adfaf3e270ef3da98356c226c408c, 0xe400611c38c65e58ae3cc9fc004683c528edd93bcefdaedb8120944dac7df7a8, 0xb8379fdad4b3a4180fc45d3ac1a805c1a96e1cb64790e4f1ace1fa76151da9c6);
  (0x9133b8c086117600ca0baa1df5521babfd926a896edaecdd876695d26c952fee, 0xadd556ff51c4793200b473b3e16ad10fe01c7ae4e80b07dabf9d9de7572597fc, 0x3b86b6b47d789384a922f719892d150b3bb2c07b03f48ad854af0b5a8133a6df);
  (0xb8945a0dcfb167d2ce6ad93ddc804162504729ec57752e0cb5ecec808a1a0eb7, 0x31f07c1dd256b26fd322661c191b1754f8414ce870fde77e7dd43bf97b4f5ce7, 0x8661fe464426dff78c9887fe61516739b0f5866237836faa2201d992d975fc82);
  (0x658b6d22ce5fe37f7e71058d6e230eee7cbe3e17b17281c24feee2023e02d1fc, 0xd83e2e7e5646e023e5ee5f0e39f83103f88c4f34de3083a706342d144d480b10, 0x9d74f1d9bc6bbc03f6bddd84dbd74e08daa2ab4a66643d07c744cb0ea66384d8);
  (0xb3d68b0fd93b4806d1890ccf9835fffb1693c45840fc7bd9aa34a11bd816745b, 0x4aac107c6b09e62168ef2f10002312d86c69915cb87b1192b8f6816deea20f07, 0xec22ba86428e1028e02253edcae5de26c343bc7f133571deb2d032870331d396);
  (0x921f97056e356d49b03a522a60b059f47b6c0f967ab5932768bd911281dc247f, 0x92786fab7f0210815f4fcb07af03abc4511c4e1d2745e332a2275a40ddddea92, 0x8d7ab5faf5ae12557c286dc6a27209e368d63f77aeb20fd6855495c41667001);
  (0x67bcbda2dc306abb82ae7354315bd8458999b6db46e4e49248a89b4557c09ab, 0x72b5efc881a793e22c5335b55ef633d701ffa0ff63ac5fc578ca4096abd60fc0, 0xc8a5156f07f72046429d4094a2993067556e52888ba235a1a41ca870d119674f);
  (0x59a29382c1c1d00f0cd8ed6ee6c01c8a0a98aec656a8dabb15f7945638f84a20, 0xf4960335f38df2224733c804889ec173bc858ca9d36eba433520dbd365950528, 0x87d9ce3c34d8d419a84c4c1cca1a52f55e8d21a0832135efbf925bd71c7bacf3);
  (0x710a65b80791fb62c59a4960a29b3e055feef3842492ba0cf3e976762401eefa, 0x3fa3f068bf06c0b63da69568168d8f7e7c171a728422e8213bcad4bf7682bac6, 0x2b3e8594470255e05403f754e76e73ca9dbba6c7e66aefb9f1c3ffb9f9592605);
  (0x7a6e55f3117e2c3de7df2e58db9a756d364e47bba1d6058f55f9209a7143e571, 0xedb69d1a8fb5fd1d83ba54782770ab972db6b279720cef91e36d95ef1badb1ab, 0x2f8caa6a6c6467ba231ec59ce5df815813436ece7c984905b988793943137c43);
  (0x1990fbcc56dea116bf91b96eaf52608af14dcb0ffcab8c2088b8ff90544ac3fd, 0xfb4ca1fc55747f37915f3d30abbea5591a3ec255a7a8cd1a0f1fffa05e89d2a, 0x99c2da3c8618846b3b050e4d667de8f073b7b92a3b5787916df3aa69c7cfe13c);
  (0x56aaaf7c902e0c0b8b10b25773452748f145c5fb8e6be2e712df1e1706b9c176, 0x91c19b8978c34102798a2e905dab5d63fe55f33165c1c3bbc5cb41a7647aa409, 0xb0df29f5363876e8706020f9f6c2ae6ad80d46af3c268781b654c8766bf194e9);
  (0x243cc32c13b5ef279e7f8b91beb0a42459c4f008c127df9b0bee0347754fe6eb, 0x696f03896aa76c8430040c139ac398b5810b05dbb653d775560d6cf371a69d8b, 0xd51c1cf37bcf59336fe1fbc2a7d19f256cbad85f77ed7e4d82b53cc2d87b1d90);
  (0x2543459c1846bd52e7494443d4cc5b99633994733b4cdcb60ffe2f8bb1849a7, 0x89b6b3d73b6c81520a6c7d7fe96a79acbca30d6bca7084a24edd6870d9b28111, 0xbd92d6206cce8d676a41ef86513f22a28e38444db93109e08b6aa692fae8ff13);
  (0x8330f1bf74380f746d0c0d0feb1936b1dbb4978a948c3637a9616652fec836cc, 0x2841edd54c39a20fee0cf9e9c583b71964a98ecc0cd16cf5e8b1d84186dcb531, 0x118e46ce902d9bd25a0c988b887892b7d9f9b5df53517abf7485b085ee5571d9);
  (0xe1b1d146b4ee71681e0ca524aec5e178760c11870307581de73c34200f52f87e, 0xc8da62bd8f45542d2d0cb42fac93b995555fc85e4a3db955ca5816fcb0e63368, 0x3b7966c2aaddc3b7f1ed0d6b802426eeb97f0b94bb83105be5246aff52bb6e20);
  (0xb33bf98bafad8caf71ac504a0af51604d9f7f6ef2f7b8900da5b79f309258f13, 0x2cc20ab9a4f2de180151877fef250f476c695ae7c75c027f6459aa003ae4f612, 0x52a1f86175f0f048295a048c8724a78229478199e8c00fef71b54daf1f98d216);
  (0xc5f75181b96e9725d4788a17b0239eaac29c3d554a16c7c1b55cfa3b12cee718, 0x79b0390a17811a28e07492de6a22e0841ba42f3e53f63ae96cf9c9d17fdd761f, 0x8120ad5114679caf9f8492d7d623fec91a4e9d2ea6c14e2e1f3fd7b18158eaf9);
  (0xbcadb8e44e2c4ef31f3f8fff9b8a996c9d734f189314d1709ccb7a277037b6cd, 0xb43316991f0d0624c63d0a33549448e3679ba8b9d9c8cad0fcabf7d47960dead, 0x17236be10c44070bfc3b6d0246a1f6d85deed4f449ae66b47c6506f3f7eed6b6);
  (0xc32f30d6b31bc221eb7e0d7c633b3efb394fb9f172377655082637bf13807764, 0xd36cebd32ab566cfa1494e761ecde57e5e81146f5b5d704a334bde242ecf949b, 0x6c9b74c8f4c62a0391599202f303309550fc20e79255f2e7a4ed0341c8ecea66);
  (0x45bd504e7ae52202bd163f2a273e9fbe140a8fb8539a08df4aeaa8a27abcc72a, 0xf7dc93bd5b44deb076847a9d38b059237dd656113e4a243605b3f4c1e0e200b5, 0x903d4121ff4d68cff275c6da995fbe9d495aa28959aa59dcb9a1b726053e47c0);
  (0xb782433f36f453c26da2f09d6a7a94d3b23db12e00f736d03715fea587de4b20, 0xdb5ff5cb2b0a5c2cc4758cbcecf75f697deb4baa0b11d75a74c51d14a4714bb5, 0x659cc050eab96252ad56853286ab82e46ae87363d3c0254876ff11f456177bc6);
  (0xc44dae12c27bd1d2bd8e9318b873719f9828ba4b476edc2d461184f98dc01e7e, 0x8947cefe448c240458b96a94325d1c550924d994b75ac777a070119c296ade40, 0xec6d5d054de32c47dfab9f71c4a352f078b58bf717893eada018b14da4ccbaca);
  (0x5bfb2c6ebac767a146317229cb389a7001707213d129683ca049ea2f84af7498, 0x3f3a6962fd61571ba5192c49353e694b543e88303d57663c742c41e6533dba5e, 0xa0a94647a6a1c98fcb46708928e830c549a4becca9a498025979534233d4a6b6);
  (0xe5520f99777b2fdcfb38fa2193ffb5b0b884c9f48b78362d1aea58b6466a382, 0x99232ac04bb58aedeec9a71217391065334c792a29129734276afbd4705f2e6a, 0x571273cab86916e300e52b0c4fa917f2a576612fee439cc3344b2db73447d9b4);
  (0x619d1fab2c901cd0b7a93572f13f3fff291fa5769f6c0468ed8b0deec01528d1, 0xfffe4205ccc39b5af741c75220b5fc3b6f67ab92ecacbd02c593ee1f1426823d, 0x8dcc7ced9ee1dd1b786aff6350453850eedd481d0b4a6a0c1df1fb3a0f332197);
  (0x65416483b1e63004bda8a9c13bd71bcaa741b78f554189ceada1331c9f56140e, 0x7f1abc5fed39787b9b5616ba2cdaf4a6131fde1a1206c0f968d2a9aeac980de9, 0x6c99a910a4fd73c55569a2d4e3b70a2e8b9278905cc07e8c6d5fad2395b6bb3a);
  (0xc96e4de2561c759f4e057b7671b373319df26128564df9ff587d02eba09e26f2, 0xdfac9b42bb896915537496c0f3a625ded06d7b8624e57c61f623630e73d00f05, 0x42aa7c911af992abdff9bdf13e752c529afa292b9c5f6c978b311ab5de331f69);
  (0x28935601e8931ec5f38ced2e2d43fc42c9618306d903a196ff35da54916fa2f9, 0xfe08de9f3340012b4990c96f19e96d46380504b34c7378bf00e68d45ae717fb5, 0xf60912ba03554188143a74e2bd6b544673d38f3bae9deb198e7a1addd1e9b349);
  (0xd8a8b445e7fa8cfa7b90b7f814dbbab1b95f492a2ef6a435b81bb30ac50a4684, 0x335074c2d3d51b944cd92aa4c31a8c28ca6217039aea22c848ea9642fa9a77fa, 0xccf4d60eebd0cbba0645fc5f84b284d88d1b05debc0d0de137e51aff5ca363);
  (0x5974e0383c0131f80edafca69e5b57c97530c0506517f838805fbf9ed2a6fd00, 0x5637e3654050aee3d4536836fe7e3445d717d81211d8eb2050417b9f378a2f1b, 0x55cec2ae8e49074aea6292f38ef09d452a5cd341d752b75bc117efc6133a5654);
  (0x51d667a3a10ca4da897d2019ed3c385dd8b4ecf550908fb4432a8d96a2234dc9, 0xff27e07336d09778ab4c748f8c02fe4cf661af15aa08dc65e04e79ef5a692ef5, 0xc9eda359a81ba36efb2626a1eb880775f678ace4776bb460dda3acc5e60d09a2);
  (0x3662a2f40db582585b2e706e3828e0bf71592a39ea7fb9a5b488828d96a058e9, 0x41ceb1dd558c9c04e09b9ce6f2adf2fe016e7734754b7e13eebbb1fe3b098b82, 0xa70a815dc7ab9f41cda835a2fc040134b5de048fbe0803cd8f11f5da7921dff6);
  (0xc27d4dd79c856d7e32e81e2fe77e90da313ab8909583cf8253c65c23c92036, 0x378f3612a1d6c94a3662a5f9b15cde27be673d0622ad0d24057467b09f16d8, 0xbba3ad7e56141a26020ff1f9d64c42edb9bbe15c7a207201452ac80be301e84c);
  (0x13fc45a396498871d8b69aca75fde18900e6d9caf7c1cc8b403f97a888088fcd, 0xebff1a54f8817ced6c4cb376aecc244afd00a0cc3bf09ce7d1ca4e55178f87cf, 0xcbb67190f76343062e9b601c6978a2c71775f387cd01cecc8b0965d306144707);
  (0xa35b6138581c00d331248193cd2481df7bf26bbace794e52e6e27af269e381a1, 0xbbb0f62dcd8c06a5cd44b7a4c324670e2560246b1663b0d3441551556cda6d13, 0x162ac9766f3384476683853c3a60ce6d76072f5b1dd0e1c8971db6a093f9b107);
  (0x7eff82753fb3784eb5057605d18099200515f7376dff909c6ee22e4e7afd839, 0x84e72bd69e5eafd7a500b66eb882afee4ce23c00ee4907072b09e83c0997ef8a, 0x5dd2e2e02a0272c79cc9d1982ee9c5bd1fadc5a975f358f2dfadbb32348af0b2);
  (0xd7c5c219c914e23cba1bb1d4c589d864974b31e58789bde87d0799dfac738061, 0x6d75365bda1b40e1a3918b07814a4fdcd43468e1c0c92bdcfc745cc477700f4a, 0xa30932e8740e330e27714085c9fe8be9c21f09570b159fdcce541ea39db6fe51);
  (0xc4ff909f3903c640ffbecc072b8783fa06197e2fad870ecd381a75be7a3e8b6c, 0x43359798a55660025ab0111af3f3abd364ce5813f2600b542d7cd470479febdc, 0x8de40cfa1172c9f878a01f79ff472c20cf7d45f53be6369bebbf860a826752f5);
  (0xbb5c30680a303d50b091644eca6db1b311915499034fa218a6c4f61e4294c3da, 0x927980e05cecb1fb0862ab5dacf73ddade7ba54c79f99a1b4f7845aec7479580, 0xf309f5c1b0865370776c68ed3807d24315a101e7320c46c683cce79e7cef46db);
  (0xdc02b1f2e1890f764004c6f50491240ee8ce3c7752f4caa019ca81055d4e8bf1, 0x83bed2cefb34f2f5722b135a19e38b24a59d4b79cbc49169e9fa3110f7e4028a, 0xe4d49cfc3f9f177f1f67f181524fc7615c892704eb9cc77ceefb3275fd2686db);
  (0x16c28499530e3246fe3b3de4bb65cecb74c1a1f626122e21c92ccb62f51b4442, 0x9e584dc51ad76c7d6c2b3f47b27eaf4131efe94e2c946c39a06c7c06b0f8e63, 0xab9ab1027528d6d20682c21bd2ed97227a35cb3e7ce83168c608a073a233dc75);
  (0x2e13a20d5ecc41be1f6fa043f873f5783cce4f3a862261e590768f41690183fe, 0x6a866a1060205d3e277cc1af6955a2ee51711817c3ca42931d62bdd513c1616, 0x990cee8ad4ef4639b8ebfd400a8554bd2a2d7c9595cb610a199784cedb0ad084);
  (0xb07773da0e5df9d6f2d8e9a54b6a494bc4f42663d684ca551f36cb4637b9a54b, 0xec1e2a8e188721f0fcce0debe40a029c330f075bb6d9372844904d396f8f8575, 0xe7968f26e33760c9b1c635e44c16b9dc8d92a5f88c19f6b75715e12db7afa666);
  (0x9806f4f5423dafd995f2729fb53e801ee229a6136703af4597255be84cddbb0f, 0xf87ee8575183037e03680843e8e0e69c4c5c7aa5b95799c5e147617931ff51a3, 0xb717c853193b2eb4823c3301d47fa28089e4b885961eb6afa82bd1b0ebea8b56);
  (0xb9883f9e0e771d74d71cbf5098737d616d458d3c9e8718537d42af3b0562770a, 0x98b7c80c091adfeb42826c65a980a674d658ffe21b091505941f0fa76c44ad69, 0x12e3afea592970c41cf054cbc671259a4e68a78df0b7491b5ee11f06c4c515d4);
  (0x1c194bf677095176a073a46023d77d45bec5675ebd74a2bb63f2037ac0c299f6, 0x2cf61930dae400a315ecc00f1c48670d72d84d715929bb0f91484f86adb19765, 0xa9e83fc8911eb0f8a81a0ffdb072ba80e7a695c9b0b08e68e0179a268e44a515);
  (0xda442e21c0e844176c928915120d0a0185c355194943cc54b2c39d8bc9255f84, 0xd695e4d0a4e55d1fdb93e4e22980360198f1e5dbe9200920fc43d248ef1ee0f9, 0x7c6f31d67478d5006f2a65ff55f2f97d2301fa4706be6c90a9a39891b1b55c73)].

(** The nonce that schnorr_sign takes for the secret 1 and the SHA-256 of "Satoshi Nakamoto". *)
Definition schnorr_k : Z := 0x88da8122beabda6e5f9d347d2454fb60debaf5874a52dfc030cd38308da4b14f.
Definition schnorr_point : Z * Z := (0xa393b6108e3e41e6f69c3b7c03c04447c8cccb2cfa642b0a99447cb313f5e62f, 0xd5f3dc770e3d24770edadbc5e20dd0168cea5e238e20db8625f6b68b7ba3f9bb).
Definition schnorr_digits : list Z := [-1; 5; 1; -5; -11; 11; -3; -7; 1; -13; 9; 3; -3; -3; 1; -13; -15; 13; 15; -3; 3; -11; -5; 5; -9; 9; 5; -1; 11; -5; 15; -3; -15; 7; 11; -1; 5; -11; -11; 3; 13; -9; 5; 3; 13; 9; 15; -11; -1; -9; 11; 13; -5; -5; 15; -5; -13; 3; -15; -7; 11; -3; -7; 9].
Definition schnorr_hints : list (Z * Z * Z) := [
  (0xe078e3b31526f9f3dbad34ea6fabd9f8313dcbe26e69407df419826c5edf349, 0xf13ada95103c4537305e691e74e9a4a8dd647e711a95e73cb62dc6018cfd87b8, 0xe13817b44ee14de663bf4bc808341f326949e21a6a75c2570778419bdaf5733d);
  (0x653714d3c5c52da65e0c74b479b79184bb6cddb8bf855ea4d82338754863edc2, 0x803b203bb31f9cf94034eeb931b54480a6f3f99ebd23d0acbc2128a60d044e23, 0x308abc8df271f75959b20c5c7fa62bafbfc9ccbf49b946a954e5381c1728d1c7);
  (0x93b8568fae1e1eaf992ac9536a499f423df147136de743dced05299c62854fc6, 0xa664d81fbc963e61ba9d674bfd32ecabd2f56bc2669e3ac1f193cf4b53f24d3d, 0x915fac538d965bc6d565ff887af114b51a43c5842a066b259b0b72064235cf15);
  (0xeda42b6fcbdf24fba457a44b4ae47e7490300f504fd3d10bccf7c82f83088628, 0x5f80dc3dbcded8963af5fdb7fda6afb076a798f938a45f8cade6e6d96d590823, 0x69d974e34a8d2f9c83cc656bf4813ff03f7c6f417ebf94c3574bbd0f37be99b9);
  (0xfadfd27ad183ff1bc46973eb5a152895b4b67a5c851e2aae8f75167b4e22142c, 0x70a8a57f3a582cafbc9f39b243549a77df1f9b46351858a2e3fe541216afedad, 0x738ac92732b108a7dffca475d392efdb3caf3b778ae21d7c7d0d5a910902a3ec);
  (0xbc9349c43ddab4d1f2f672be00b6a2349f76d5683ccea1f73c1bc2e97869431d, 0xc9c17509df6cf346de8b3a6230517c9dd839e6be91309fd6a56b37826808001a, 0xdc80efda0a57ff76c8c499c6a5c4cb4db339f83237a2157d024173f2cf09986f);
  (0x2a85aa65265b882e4ec89928027918a2e4b42eed6e14824be0d50ecff6d57f05, 0xade7d4f19e0aee94399471665a244b351c8b17b34768f59b2e3fe3efc1668b04, 0x4d1116a0792e365f02336110aa8c557c0b2acf753f6ac26e7bde3826304e6867);
  (0x4debe8ab79cb826d45458c1c29e784efc329e016aebd74f0da19e6cf5807a76, 0x8e76dad8b2ede7ccca9f740b688a5b691ad35572ef882b4fbbee09068e3d4e50, 0xec4286eee81a150cae4df7bb5d44bd0010afab550ed758fbf52ac00cc7df63d6);
  (0x9d02ad8367839d48fe34b69a81489f7e35b4c9264115deaae3df2394b0c45694, 0x909fd65de3e8c7a965f26994ebe9af200834753f26b48881ebe10e47763330ab, 0xb8b0fe045b4b470cacaa626207851d4d897bb702f90d573c04bb4805a9505088);
  (0x75632a22ee15c6a7daff68a6c8571d51c1ac101c2e94de7b2ed4f6a64adcea9e, 0xeef3c5abecddf16ab82219869c60c0ff5d7ecb2cc4ed7a08748c288597b001f6, 0xb68853d8ec12d6fa1bf5e7bb0f2f35e4793df8d0b149bb8c06b391b5da10bf8d);
  (0x82baf274ed0b3613b7c62898d2d7ae992d0369a3acdae12eec81432568cd7e5, 0x6e481b60ca92f6e8fcfc2b7a6a619d9363caeb1d698fa387e927c1172070708d, 0x55698efc1c18448edc9c10793c9fdb32f26bcee4afcf00fb4976410372f681f7);
  (0xc1f4d02d7f0910a00c0bad478f8853fda94e0e7540b017911ab67956748045c3, 0x8fb7859a1a51eb9584f3ef52fb89da6077dc19e0716555cee914fe0eea2ad2f1, 0xc9284a4a324c7127bcc01aa617e53e145d19b4cbf870ab325d17e5b6228f705d);
  (0xfaf1f0ab259a29e32b032235442f1cde912bbf6e8564ff6190db130562a29386, 0xdc73b3f925ef2c433ec5b4b4dc4c1f2a768a447a7891858ce3e72612c4a1c873, 0x918f1ab48c60a08395c63a262f4755963a9fa7880e61676b0f2042886c5bfcad);
  (0xb133794f7e8d08407b692b7b2afdde0282831bf21444c37d9abb64c76790a587, 0x2e1fa58ab06dbcc3f65fd7d66429b7e31c20de91862205967ae0b84ed298e866, 0xe802e12cc25de63d2bb5c0beb56c21681df4b27dd7cd87fb719dc7a370f05885);
  (0x558647ed64ab454c7eda471c852180a0a8f474ca6d5f3fad34afedfa05e9a576, 0x749ecbb7456b066efa24c91a63d7024c4ddc449130dd80a08cadb159369458ec, 0x229f3f456d95e19f09e99e8b4717bc74504f585caea9e8c667aabed006c8802d);
  (0x820a44b35b78d1fb675715a086e9f7ad2ff6928d9d49baca78f3b353569da1a6, 0xd24f2ca2e230100b1c0fa24a15a5c9f7742cca2a7cf08e964839af3724c2809a, 0x7dc879480901ad98635e1df32dd9cfd09ba5b149d22f99a85948a01c94bfd754);
  (0xde970ab58c316f5b3d70db2102a9b135ab43e91e18b9994be455988a482bd1b2, 0x9cc38ea2340a545d4c4e40af518f8c37d985430e744bfad8519aec7d56d05a18, 0x9212d2d66c07be2e249e1dabc12514535e6d4a26d43d22c82d3c928a6f747a28);
  (0x6d4c045bd51e3e13ed5f56551b9e30821f16fac06220b030021f5eacd7486826, 0xa226d0c4380f1554d2086000269b43d0e421ed4ed97191f79617959a87280a46, 0xe42ecbce4f76556790f656c50b6185ec4aeb1f444733faa9d7c62c8983ad7c85);
  (0x5b30c9170a83c19323ab2146a90705bec87bd4bca1635d7baf52cc0ba8dcc297, 0xc825de1b6485afeab1976ec736379b1b46c47e48c48a89dc7df9c0ba5216a6b9, 0xc75b5224372ba38812637b50d45cc3b0352d7517795e0bdb955dbed6319b0b51);
  (0x4e0565e7c0934353e076d6d95a21f0508afe64c183e5bed67a8fff63a621c43b, 0x96647e2302c8360eb67f25985ac360692f1d01380cf96be22bb4ff09fb4aa7f7, 0x720e374e46c1684928665b641e93ddf43c5b3db5620f3383a92bcd476b94449);
  (0x70281492c738e1b66f1ce0ce6b945a781c0d086ca35f1a7951f9dcc81499faf5, 0x618951c27ccfc7ebdf64e1314f4557b7ae523a21b40df3a7b9d9a95d6d400c21, 0x7d758868806b5f90c64b2049b1cbb58f01d71a589bba795f9dcecd08e244a9c1);
  (0x3aad7c90067208077c6d0a2fc2bbb4b0e82df4f1bd366ed585f6be537069ee0c, 0x1a351065d90494dc80816a101d48eb5005d7744f7fc496f6cb69dc846808d95b, 0xb41590db6e06a36464a80240c9bc78a1d4bdf4fad72f14ccd3de3ab953f047a6);
  (0x914702950a25e203a656c4174e34fd80f65ae8c140306714026828d50774025e, 0x8d230bf7fa455f560d3d1ac43945c33a295ba27588e538e5b14b6d387798b850, 0x3194772203dbfcb716790916317c17b8af2d59e56da7036fa9505ffa4ece230d);
  (0xad6f46b0ac85ea442c87a11648c3309d3bae88ca99bfe1c343572144471d994c, 0x7a65052ea065d9e64f7dff27e5e601273c4390439de48ae387f99536659f6495, 0xd6b13efc8be30a5f8125e44e5f2697e28c2fdf506206748c3a983ac7cdf10c15);
  (0x7b579ea696b29228c99a5057dd0d0f36a03b7f551915e24dbf6fda5f0f861616, 0xf3237a290b433a4584ca81561fe6ad07c52f639d807376c6c5f1120a3da07459, 0xff1384077404da56918004bcfbd4594e8a415d9878a0d7bea004cad118e7032e);
  (0xe450d81a00873f28727d6030d40a96886acdd1081336a66de0b80954b8f7279, 0x2e28ee79051b87b6a5f7ffd3d06324f4f3a646aea5f84df2ef7e95ab1a2b755, 0xca0e2b0b7de7d079ebfa8ead74ff5c441d9946810a0ad5231dbb6e1250ccfc6e);
  (0x616ff29e4e423db1767f5b1142617c35c3fe4a456b0b2b828bbedb8727ca538d, 0x7870c034b209fe294da68ffb5f1f5812eb5c820fb8be81cf8c1b991840c9a4f5, 0x697dc4fce660675e9ceadb780396d12dab8fad1645ebebb1849f37c4bf93b1fa);
  (0xffc01db6d391ec2d097db31d1df3103aa20375c6a704844d9356459c5c4dbd52, 0x2236ad02761ab1a1aa72139b14ffba2bae7ecd449bb659f6cd34f5f81a5f7e1f, 0xc703794e2e5e0c955c745a5865112e2745983fffdcbb12fc823e5cda344ccb30);
  (0x8ac67634b0cd2b403a6de716d7c7968a056a953c7238ab9cf30721d9722b5c5e, 0x4e1967e3752ba44844a5f4ad4b9b73aeca30e5ee0be393e3ae174bc64cffc964, 0x1c521decf50ddcfa31a5ce663f857db6b535a548737c3895de7a3e8493d02fcf);
  (0x597f2aa152416b6d66114ccb6dea623aa37960af5c61602b9906071c369c7d40, 0x9b5892035043ceba062d96b607f3c60f19b88a5ccca6754733fed8a039550f68, 0xca16f5aece3d40fca3f06dedbde52c219c4028f0d8f965b95a8c91f23efbb59b);
  (0x83e7ce797a439760b065f04d3ad648f9426f8ddd852cca8115eefcfd7de54ac6, 0x4b2f53c6cf75e07995fde9cf1a311bf630a30edcf68a4eb020a557440f05a5c3, 0xee455635dbb90d72f09b985c7193b41c3a6c4524809633c7576f4a5765406a04);
  (0x73f33d9874b7aa699c1b4ca9570dfa38c5377b4a7c8fce3824ec941992eff2d0, 0x704a603ae70930a3cdb327e9f6e4d926db5f0b16c07ca3a4e05db8178d62e3f4, 0x6b12b64642aa45e1047fe2c9630ccde286eb6c3f8953a441ce2145434ca4a817);
  (0xcf2f5fb19cf6a865c4f4f279d34c5879bcc6449050151906ac7d5132c7beec33, 0x3717c0a1355ef96a854124ac1b7b0c6919fb3ac514d990b0d1f46f282ca3a41a, 0xa009edfcc5eadd46342706fddb83fb3fd99df08bfd449f16a22ff73d2ed64c77);
  (0x1ef47eb91805eec753ea43b78b86b3608bf22aada79818a19f1d832a1e98a2d1, 0x42d6ae1bbbd2d26dc0204c6c47ffe0820c7a907ff8f661c1819e63438134be0a, 0x8d61b51d36153fbaba7a656aeeff67110f78ba87748c36d2b48cff2f4411984c);
  (0xf2dee0d5b9f82911b8946416c1589640f1f5baab361a48c397552fbb51610651, 0x591fff616bdbbd33358f34c20624543e0ceec2b950618c4180c369773e803492, 0x730ac16812c2ecb0e698a8e58f814b7a8e21e13c6f9ebe9e68ec4ffad5f35b9);
  (0x4b57118f9efe04191c953cb87ed527222f14f2619d66154d0baf8728e390a152, 0xfb58a567e3fa28ff4acdd3259528cc12328c4e5acf91998f50af64e63f969220, 0x3ac7aae3948b830178f8638ca7c74f2f0a88f44e516d392f813631eeb3617426);
  (0x3f60de5f30feb3446be742f99264408764277b6c25e3ef7a6df3dd5caed3f1a6, 0x18ab9b2c8123ec4135fb5a63bd1cebfb8f787389f51cb3348234e1f521adf583, 0xa06e1f83b4e853716cc9f4b6794f4c050049aa895f345db12c9d4aed0b937588);
  (0xc24fa31609848fe3d5f1d2da019d7c7709c5f76ec026e1fc125b7aef0adec804, 0x916a530b5726835c1a0db687b6296064d28c4972916ed19901b2b9bbe4e0f64b, 0xa39fc2a446cf6ba4241795f73759f1bf2463b2558ce584a1a47eaa016064949c);
  (0x17b345d1c6af92af3f671ebe59d1f6b919e12dc5cc174018ccb48b9f9a818ccd, 0xa1a976b6ed208cc88f7d4f5688ea27706433515ed18c044be87f480c7ff64b17, 0xcde40273604f3ddf5e0fe3d66dd4915c42ea616d4d9a4b310f152ad9d07b84dd);
  (0x6360f4a4ab36d8e007519de6a8cb8c56de5dd0f6202e95043f48c2ecd10cb9d4, 0x41c459585cc1df7bfd74899dbcd2c324c96ca5d1322ea40e3f6d149f30b7553, 0x690d257edb673ed72d306bd4e5a1ffcdcb99f6409b91d83308fdd22d567d42fa);
  (0xa038641bee6b7c91e6296641a8d65d2491b0aa17906c874ecafdba0da27b8b32, 0xfe9945a8b70f20392b2b1ebef9163ad5ea852a59cc1ad5942b673d4bbaabf683, 0x36edd9927da76f94bbc922ea338eb0034c4ba717e2e09dcfb5445df60801b937);
  (0xb0a01f2c6c25e0bf419203fb25018e1e87306d80d5d8051ab2d8e1012903d044, 0x2ef8c7937a152aaae80f3d9bfef046902146f0a654c95b5199dd35b0ad334e43, 0xddd478f3b8490be9b2a41943163508738ad07539feee81bbb05ea2afdc62e251);
  (0xaf2924c8df91469330b07452976214de45b0f4d8b9a0c1fddd962104756428e, 0xa4b67e2d1108cdb7fba158e1c24a4a0be38380694642d179f02bd088a42fce43, 0xe0d6d2f0d79d5e8fc0c19c447dac94d103bcdf9827144702d0d521e56fb4d49a);
  (0x140a6fcb226be1c7e57280315c69b0f7651943860e43b33b44a1b2a47897b49a, 0x6acda6a7774cfdc2ad62795ab355cda1636633bf37549a957f90458dc6f9d60f, 0xaa9b6a6ee51940e53add6c0d0d59ea46027c57489fc7c51913c8f971232b8d3a);
  (0x24ceb986438d874cbdc872205239a5277528b0a4ce36f43dd74264dc8c27110f, 0xcefb0ac7f7c59fe49c4d414ba8e56454f5f415dfd63187ab923e1410b81ddc03, 0xd100f9aa77a8be802215af9e1bd5f10dbfaaf1557d9e9a15de9f4eaeb4231a31);
  (0x81a56854219d2ccd8a8d2232152587dbe887bca2c5a5c51ad21ef4e8f9c60a9f, 0x582073bb334a38a05273976dffd9904c9befa0c26e7dbef7363ebf75d927a2d9, 0x4101a2865da28c4b23844d10ae72620efd4636bdc4343074c64b439953e7f868);
  (0x5f9015314173af0a4e86c10fc8cc52cb71f2c827da7a3b42e8444a6ef8872c46, 0xc2ed89f92416850a3ee25a065d6a2cc4674db804f44e59d5889d11b3cb1c915e, 0x9ec36772fedc3e542cf26ca69ceb86bd05da2e71ebe8112470f4b304543eedc7);
  (0x4b253cb399a46f1caeac25995a4a0effe72ab815da3fd9818c7fd3366d78892, 0x923146cb61e0dc12152df7c3081c25e178cca5fef7f06b9ca7dce563d1f86461, 0x2882fb8cc9df069c190527da1dd8b9c533e0dbbc1aab79a7dbe600ccb913c3fa);
  (0xbfa5a68f242e645534be08cc46439d8a5e4da6381c7d15e37bec377ef45b9d1d, 0x6a2112d26d45b8575a3c63220fd5c3935e839a01dc385fd7fbf21199dcbaf3cd, 0xf1b81ed1dd689bbe66c35103055823bfde4deae1e238c98ee032aa53b9ce41bd);
  (0x9e1cd339ff6e942af48dfcd90a5f594463d24025827cdfaca8ec0aab850e15f8, 0xe06b4cc733d9f393fac142d8e78529c3ed39ce6a359ee4789e6fd1cb023b7796, 0x4adf0ba85ae58e261a14d1041b07f0ef6204d8b8745e17d49cf4c701dd0dc74f);
  (0x4366235a1ed853b8054c05d7ca1e1fd6f673a52c6358f452050d4c182a343e1f, 0xc504b80f53a605ef5d8c464540c084533e2d6908f6bf3eee94c2c22d01bf3f8c, 0xa57b5b765c4bbfccd7a468fd4e6ad804d1ecbd2c3b73dfcd4978a6defb70cd87);
  (0xbaf7d7549b0ad13e1bd258ba7793800a142c3ac735654e1205102c64ff30cf8d, 0x95d1c6d251bbec3e2b8096089ef8b6a3a8578ecdfd07e63df6647cf41db4b13f, 0xa01059ec83e50359eccb7307a0511ec960a9a25f4ddc13756a22d16a75dc9330);
  (0xe27832329b948ef16af8e54d4f6624a964e8cb915c1a21fc102915107c982c6b, 0x617dbb5d58cff8b0baa3a24d146b814061eca6efe8bbd10742312f8d67434397, 0xa933779cec826162ed07e4634c66d81c16cd0bc2b5828d50d3aff77e3bd06fca);
  (0x482c82b2d48188cc6b5bc01cbdeab81ddcb0a6aacd7c347a157ead274b27b232, 0x379112cb2a3210976184714d2b842b77ee74a456da0e142631b52f4c367241b3, 0x3cef135a407ae46656c76a7a69d8c79e547db4c7f7511f5797e353fe63e395a5);
  (0x561f69a531ae77da0eb4147942f759034c790889fc1a2639e443db0d6da43590, 0xc6355550a7cfc649f5533f57d4d1a1d72e3f0cbfbf5867a94cc9e296cb353643, 0xd031bdc48403e3924379fa23cc399567f24b8fdf275ff670f350fdb094a8af99);
  (0xf692271206d634b7246cdaf8101515d98263cdac0322f3445bc2124246c8b2fa, 0x9c4f49dc0af45ed67d95b2eb9bedc366d64fe7c904e4bd8c3c03aa1a27301da8, 0x7ab2a81642d9a85f0049f2664b75538d58f7bec011fc51588e61c9249cd2c883);
  (0x1fd68ab3eccd9ffbe536edbb42afbbaf3c1f6b8afea7b37d4651054d35b3b501, 0x564a653b4e910658be09b56f4269698f46fed948661c67067ba24a87e7d8a28e, 0xbae208a0eb5f0e26b612e48d0ae88ce72a076e4fe6b1f1dbc0ff87684265613b);
  (0xbc8def4e0e16d3dee76d5e2dfc9bf9fa53ec032e537f5e4669faee29ffbab462, 0x125c067b63de94f7cf5ff88fa776ebba717a3b3af89ad19c9b9bd3cc95624d01, 0x5dff1a9f2cad67daea4ad8342efcb0e91018097fc382a2df453732e462d90e84);
  (0x6ce168a3c0e8537cd47040f3399827a6dbc48157ed307176b3ffcb52f57f7cb1, 0x2c0a7900e520b737b9c7e55c931a0893c93eafecdb3acc080a2683afc20a6d97, 0x8c640ab48f99bb2113fc75680c3b3350661c9b5bdc5651d3f8edbf61f032fab0);
  (0x9b8aaa5a8d91d523c933a76f1b44aa128061f206cdd4ad108e40b4ba57aa7c37, 0x36ed9867e05d12a72ca35c2b025ee19b6acbab6814dc50b4f119e6264952cb63, 0x53e42e34197084b73761bb3f2f163bd5a9fdfc584707476cb9f89dc2deb8b941);
  (0x8a0c3f80ced4662e43acd959a7719dc27a28593a82d6c227233ed6781c69c245, 0x48d8c39900354efe03e8006155b03903855bdc9c84ec3fe4d59aa06d13d1c51b, 0xd8c08a36f4890736e2a233227ad074e98d85252457f9dbfb64335ac7876b844b);
  (0x8c9a9a33c189e1b6f9a7b9f76bc6f04dba1f8da9c60d51afb8f1857b43de10ef, 0x87634aa52292042cbaecfce812b35e0c8a17faabbf008f8f0d62081639647435, 0xf458835824ec7dbd754a37659f1f86114ce94657407ffdde88b8d1bce81110f3);
  (0x61471b8d4ce990c0091e01b0d6340fc28578b07e9debb86816b91337aaa3b669, 0xa393b6108e3e41e6f69c3b7c03c04447c8cccb2cfa642b0a99447cb313f5e62f, 0xd5f3dc770e3d24770edadbc5e20dd0168cea5e238e20db8625f6b68b7ba3f9bb)].

