(** Generated certificate: the chain of doublings and additions computing (n-1)*G on bn254, and the
    resolvent of the curve cubic.  Data only; checked in CurveFacts.v. *)
From Coq Require Import ZArith List.
From Verif Require Import ECCert.
Import ListNotations.
Open Scope Z_scope.

Definition bn254_d : Z := 0x2523648240000001ba344d80000000086121000000000013a700000000000011.
Definition bn254_t : Z := 0x2523648240000001ba344d80000000086121000000000013a700000000000011.

Definition bn254_chain : list step := [
  Dbl 0x1291b24120000000dd1a26c0000000043090800000000009d38000000000000b 0x948d920900000006e8d1360000000021848400000000004e9c0000000000009 0x17361ed1680000011460b070000000053cb4a0000000000c4860000000000003;
  Dbl 0xc2956189fc64f537ec736393d4bb7e5e61dbc64f52edf930e1f8c9ea5dbf197 0x1e7b06aaf3813e852679a5bec79456c3e4cac2ab58020816392d34f79ee6dcc5 0x10e9618ff958fb3e35ad8bc6fa84d9f01db1ed1b4e7994ecae07878efba221cd;
  Dbl 0x2cfacac446cfb0774eea4f467c9bbd468660338a6302d607df163a9dc8c522e 0x90e1d1faa02058dd797dfc64017a1f2afc6fc34834038aa18869f68aafef6bb 0xfe97a1d9a72302df4c28bfb00de0012f0c5fe0e37ca671e4005c32ff196913a;
  AddG 0x104348c686ebb6dad25d60de6cfad41c2e0f99f10b11a48f4bbad76079412098 0x1403e9228ba58ebe76b81150cecf007f3f6068010a451c56fab571d2b1a231e7 0x87d1b37362ec3c4c25c538fdaa7f4aca6e5dc461e53f89afdbe2ade269021c7;
  Dbl 0x2007afc95f0f9d857dbe02f0ba85cf9f16726b728c03cb6e7a6041025c82a81e 0x1d92b7f208411b0f5ac5fec6464982412fb760d492d6bf7b7d24caaecad28a4b 0x2fa7662c93155c2f0ada878cf15c566ec092a3697ce9691b40b4d78a213aa1;
  Dbl 0x1a41b453647cdb5873274be7e2bc7e0da5b27b79fed920fb2ab08d796c5252c5 0x539de53d9342ba5fed999504921469091ce21dbaaffe2e5e419c5200e030508 0xe61282ba6e5c60920d295e45f800e5b593480ae0eed33034c66dad087692703;
  AddG 0x615cbf9e57ed53213cedd1bd4fd0d8de61dd830297b0844aabcadb97cc39df4 0x46d3a37c3d44d4a4c5a0f7d0559b6e53d91dbf7ff404322d17a10e27769b767 0x16f17caac4f0191dfcf45ebcbece9ec386fad6964a2303083a3dccc78f656567;
  Dbl 0x150f4fc1c293bf817d63c2094abab9d5f95a3c49aa30343231922c7cbfb3f80b 0x12e7103c7ab8b468baa6c959466e674c483764f59485f768ca5fccd0998dbfec 0x1bea624d39d6d3be0a861d80df5ffb85cee55c04218c75cf4d08954173e25cef;
  Dbl 0x1b907051e5684ba06c76bf8a984655d546da4d589134cb05faab15ce7559f9cc 0xf64b8fbdb03840a2b66749f908baa415b3734aa77db6f492f691bd67a150d01 0x19fa38460e8f435ee722640757f676ab9ac916213a3ce1022742f2750df8a18a;
  Dbl 0x4d5df287e4e874878265efc6bded4c5d2b9d7772370b8a6235aac93196759d8 0x174ec861b1b6c978be5c60f0397e784d634e37952ab47eef4c7923c11189167d 0x21550ebfabf8b87d4916804e3d9dceab44e7256a1c42885d9c2403f2811a002f;
  AddG 0xc6bcc6c4ffd1437591eea26ce28583e8cbb5b5e5913632f800f081e47638bee 0x20fbf0f4d7549a71a51016a16358ffb3b99354c95b27374b95df0b72db94338b 0x1588d117e0085318610e0ce5de2e828b2dd3d5e6c86c7ab8a52245a5d7d4c81c;
  Dbl 0x80f4de88e60b2e658ffb463aa1847e8c5713ef9331e86ba5f31b36fda80216 0x7d5225db93220af1c2c4673c4c9a0fed072aae2a252fd577384c778c4ae0e9e 0x19b2015f1cbae47ef5bdac257076632f46605b15a9cd2ac21e3a591ed7af080a;
  Dbl 0x11bffea570f1cc626b35d82f8c50c026cf7d28a2e8e5f0ca10076fbc4fdc794b 0x1aa3b7bfc75bf4962f26a42ac803b880e02d2bd678cce8da458a332194f71b16 0x1b0e602e64a504fe4a815f1cf8c14a74a303f41e01894366adea0295014e6c82;
  Dbl 0xa60af24c5b2405c1cc9bc337d9248b858be499244ee4832bd2582e870b34837 0x9b8b5dd270593e3e29c034b939f0c37c3895d2a498b33d75430bd7756174c0 0xee1c43b6acc650bec0ffe17d6cc2213c785cdf5cb5410a3ea1b17ef272803de;
  AddG 0x215509bc6bc935bbc41fb7b1c5bb0963cbec2a9035e44b39452a2dfc2da622d5 0x125d0865da3c92b3bc516c3a2eab5f8de0049515ea94db3f1cedbe089351483b 0xfc8d2d3c6ab2d71809a290d2554858a02b252735558198e2629baf0fffac8da;
  Dbl 0x1ccd439180a130eead31e5b4673b1a4ac4c48f2211c9fa0233f2356fd3952c3b 0x1247cf04f72db67b818c40703126e2fbbe72b3086cc6a477ae1c7750c7cd61b7 0x8780b4dee567b996d640f65847dd4a32a711448099946f609522ee8eb60be7c;
  Dbl 0x236338e69d213e587334d8ac7b499e3a8516e71ba8e3f2c5e55e1b0396403420 0x2297ca175934a01384cee8c91875c538e56fb36d78c76a35abe383eeee96d77b 0x7b76db7216bbb708a4589465bba15f19855e80b51ddfd5bd596cdaa356dc4be;
  Dbl 0x75bd14e1bb8091d9605a80df09980937f7dde427cbce3987f6bfc91e04d1a84 0x1f6afe6c0099b4a5b0050cc63fc6256e5c6781787aa731b000a23cad1a093c93 0x240d20842340cedd01694dda19378883a764b2c8c130f43fcc6503ceafe2ee45;
  SubG 0x112e169394baaa4ef51ffb8eb1bd7eda4c2f5db7747dde7dfddc6bf9b89eb7de 0x230dcb7e1e84d54f8cf3c75d886086a1792f566d17f80185d3b968fe717a6c11 0x201e00cc100d2b608104f2445d0b8e38114ea67a48804cbb788b27b72baa63cd;
  Dbl 0x1142a43f84384f358e13cab4790e416bb49ffbbaf5c4adf87534fb87be2b7e50 0x1359c73f13db5f39775783030dc5c5c83cfdc31d84ad7fda7c8620ef4c17677c 0x1d455ad87cc7bc775aa34397996d1a542dc5a3c0c3223a456afbfbdeb53d59a9;
  Dbl 0x1a671e8cd6e24dacdeecd968e0486224c5821443e6c078def8453c948e164031 0xff745f7dd7a6eca7dad285eb964d130078b61bb430ba4384fd78caa0494354 0xef616b6991443ef33a836a7c9b34e89c713f4c480a0dddbb115360f4243ed6c;
  SubG 0x1ca502c832da8f668c25e08abe0fbe9d2c4f06cf4cc561a35cd8c27c30466654 0x691cfd49b76aa4bdf7e7b5d96b29abc085e68373181983299c48e7aa4cb6f49 0x242a5a3963903c27883e6e71d8a306d04506cc8a0e9d348e777f46c925dfb2c7;
  Dbl 0x225bdd5ec8d428b7ceb7686e5558bab6b807722204d6febdc49b7921c4b383e6 0x964c8d844aafe893bdf65e666cf8553fa6537ff71a120972658e45218f48e8e 0x7a1b5f4c36c8ee005333854e666f05b4ea19f31d8c651d5f306dfc33bba875e;
  Dbl 0x13315283aff7d1b37b82337f9db981f7ad77b15c2974ef49ecb396274f8b9b23 0xb0b82b7385e5287daedab1a68486a3c9ddb643a55103b38ff28af43b70e93ed 0xb5da73e055eab98b8a6767351910657a1aac0d2eea4ece1bcd8a5b93bd1d778;
  Dbl 0x107ed1bbd15ae791ecc8684dabedbb378b0153824aedd051296ce6aa1581c152 0xabfffc529ae6c18ab84833a5f1a1f23ad418a23983ddb6cbe3dc6ddfbdb0822 0x5bb7b42f4671edf70db940d1354476db2fb862e99f76bb7fa8160cb8f3a932a;
  AddG 0x101d87d8cdb977e13e6c4a9e98e36b81b94aef2f0963339b19c02c45bdc99b3e 0xcc2168ac795036a0a7d5a688a51e69d9090f14bddfdc8c53a59758114231e43 0x1003daadd889f3493f64e69cc56bf45c70d6576b7df574fb946521ed83e04b65;
  Dbl 0x8e0f70e814324175230972f344a83ee7f1e2a5ba53d60fa4abea65d304f8371 0x1662064000514d41b6611db6cf9d4b91a9474f21a6c56ca3def72efd5ce2d35b 0x669bf9b1c84f2e5b1b115d22df44b61f7de4c152d8ba3d8fc584efaa2a93e74;
  Dbl 0x152a6610404ea31a41602e581a5477e3825466b8782168d99f010f9e8a36b2f2 0xb12b34fc75cc8858423a9e57e6bba6f204cb64acf86b6c6579f68aa81c9ea25 0x6b810590dab4db3092c1179e13f8c3af70e7f56841c6f4b9ba11de4fd0fda95;
  Dbl 0xc28f9887f8009f78162ccaffea0ac137c26fdce750735afa4559b0855b9c00a 0x124c1719e833f0b95bc3df255bb811eeabb7e047d967df2a992f70bb051f8d0f 0xf8e143c808723d6d96af5bdce0779f0f895b72c5c72805caec90cadd1281961;
  AddG 0x1355940a00f3e626383862b2b267ea25c541c8149a89ed63fefe0e63d9ce2b4b 0x1578e2563c3bbd40599e863271c34cbeccf2ab2d7979a4e0f7210ea043846a82 0xb90f433ebfd7c89599fa4e1f2a13b773598403977f5b3f4b6d7288243c9fb7a;
  Dbl 0x1acaf33298d8d8487c8efdffb069f912de789c8ece5057deb88146d8bd3eafed 0x23320779d56648bf246b52411dfbc5d4dcd2ac63921800d57018557fbada8ffe 0x14c9e97d3276b3496a9c0f2d77e7c1d381738ca3df360b4ed26d6166da261607;
  Dbl 0x1ffaab4381f416e9f45c878c3b8353778309a8f9993499bf21949d00b1455818 0xfcf3928054f9d7761931d3c96ee83a307e68854817931bdd8d8cd5b65e366a6 0x2c3634b224d9b345f02eeb7f48383042dcac85399e3e0c537670faa30640b77;
  Dbl 0x232e121e4486c7c040d7c4934d1bb703b7b2c2c6993a1f9d44336fcd1fc97050 0x10e64584ac7ea6493b7c998c86808da835666665540f869c3a7d3ebccd7368ba 0x141be6f9484b3a269cf721c09ab4b047f892c06de7b993d05d273bb650206179;
  Dbl 0xcfa70db13d25b8f6cbbf58280a5593c355316da81add619d854838cdbc68971 0x1a14903b041f173afbecfd3cbfa45fed815c08a6f4815cf79c81ef757fa25c41 0xcac145b8bedf4c22fe45ef561a469c38c8bf8584f3185b69d4e3d576af0566e;
  Dbl 0xe2848ffa36155cbdcb5c4fe286a9aedad90e913bea5db24ff6caea15883c685 0x18ca6989f3b12887bd4dc9eaf5aac532f0d6b0e17526d01dcc6a189d7f0affa3 0x11b1e5e273187bb298a08d54c1213ae414fe0f2c865bbba607d513a3195a50b1;
  Dbl 0x133f20b509a1ecd21858e568d3fe01340dc608f977e1fe44f9071c56cb5d2943 0x1ade8d898dd1bc5952f758aaf8a5167390266df3ea13e8535567551d51931e48 0x19c785e048aba69fc7ff010e6b46a5e302783ebcb9cf70d2fc1517dc67792025;
  AddG 0x866f54eb3218d660ec92482dce10d84cb99bcd3362cfd608dbcb518d29a3b31 0x25042cc358659cfacd2105054f56f67942ee34699f81c74744b9b9f39097523b 0x1efa8b59d5ab8b187f1cc1b48d6df63e129ed9b28346566d2cb25912ff62ff88;
  Dbl 0x1b722ae3d2fa8fed516cd3752091152a8b96ec2896d6ac87bc4fc72c312c2a2a 0x1365af77ebd3769408dbe13260a73805a8f9d8772ae9851083db44871e95a421 0x15812af2dfe4f8fcba34c83a45e17a94464e3b994d9671a979956b2da172b564;
  Dbl 0x1e5b4644c4b9551ac1358353a05db404fdf5336303e2370c546dd14da5b4e1a1 0x1662e204928769069da975ec7bd01f11bb93db5910befd1c215ca259812cbdf1 0x1c15f9ef81817ac64efc16c9b13025f219543107aa7cba18cf7a61a2c4dc8445;
  Dbl 0x19c9037c98de6fce074d30bcda7bee0ce5ed0bb35455b228f5850258c698da1a 0x1fa1f598e1e9399bbdb16e8783641ac5e742307c9edde0635e83fbad5df0305c 0x2103484adf1bf9082dce5d3fcfa548c56068e578a6a6be0dbfef113900969b83;
  AddG 0xafff2157441f87536d6eefd565258a04d754309be7793bd2922224c862c85a1 0x1158658a6b6c554255f0d065a76c3b43543681f1e5b2f99286c09a0fee1abe91 0x1cf97555aec778c6fd6a4fa8f83b2be0356f754a88533391b2252739fd4deddf;
  Dbl 0x75da0ebf1b1500ac81794a88dcd0a8b184f15fbc61aa1370f6e544e161f8c66 0x1eb5563291fa5242b09613da09e5211754d75a70780f5dd1713f74bf1f8bfde9 0x103bfee579e31c9791f93db6b544d41acc20a751cea935d892d35b30f8834069;
  Dbl 0xada3cc8bedb63e7498ada9f04ea1321445bbae31dabdd888ef61b9e7987fe8d 0x39c7df90074c3122dbf0a3a729d352538d15ba0f4b4552595f3449b336bb41e 0x21b5501e2937094cb57cb6024a01e94d734c7c87544679dbfb3b8d1d214ac7a4;
  Dbl 0x167cc503220baf64349fe8c4f5ffe7871157f818810ec3e624223203f5567660 0x1959f8f09e5334e3e3fbf1d53e63f6df9ef8d452f65cb62214763c3e858ae1f 0x1a1c9b4c874e7eff3e0fd88819729b8e81593e43367a85847aab361903699b5e;
  Dbl 0x160bc3e3f91996b78eec45f4e98b76256d2c2fc3d7cc043c9a520b792dc8ccb8 0x589b1f77ca0ef188834b5522f991c358bfbdbdfb4726723a02bf7952fd904c0 0x18b2e4300f189eee4f2a7876c5f255c87f61f354a8dd0b877b6c228fd74cb097;
  Dbl 0x7aa8118665cf901999850838c74dd6321e58c3da3bbd426cd76cadba1cfcda5 0x249e861d5bd2c586ca3ef584527d8f24dcd8a560f7551e58512bffdccf08e479 0x108dd797a40612c39a9182c29d1f452b050e403583f527127e9656b7223e8446;
  Dbl 0x2223138b9b49a14a558bc1c4a207c0718bc6772cce6a24a1b188618ca97219ca 0x1c6a351322432895ac3b8a7dc75cbb25a47dfa577eb896bbd2a132bd34248af 0x1bcbdc8442b0ae6497e71806d09cb2016d844e484926664b06524c67e2be7c86;
  Dbl 0x1e90d82a0acca51a16b7ce61614846decb1b99a5486e71dfc9a0776be049e8f0 0xd3dbad511110021609e242336a6a52803f98acc61d87d7cc630b34234d3fae9 0x130470bd3bdac0d1898b00e12a2d0b99ca5b0306d2db5bdecfebf4527ce8eda4;
  Dbl 0x77e8b297a4dc60ec13c91b9d220c10672d208cecd2d9661585b49c5e3f7d38a 0x13832c5614e0acf87b852e7bc4e75ebe8a00df2a0d832a49c042bc129afdd4a6 0x479cf5adf44374dd086d5aa1f34e7f74e4bf02d80239327a329c4205226804b;
  Dbl 0x228e0e30716b8c109eb1f35351d1ae673775f04779e58f2387eebf5bd2290b92 0x215c0c31713e7c3b305595cacacc7f57d41d485dd8b34b9dd4845104b2724862 0x84357632ee36e17f440a563cbf002d9d7ad688e60bc2db0c21a175e3a183fe7;
  Dbl 0x146a9ae577f1df0f100e2b0e8f9434f5f588d18266575844f8f18490bfdb3f5a 0x1783674e14297295da93983d04b9e7de1daba426cc8bb5139072da910628b769 0x1f1ddbc84e72aae9bee22fd87ce09def916040c6e463cd11ac82891f3061d2b3;
  Dbl 0xa14e8dfb451c12dec135d0b1d223535165dc149de51ccc0543704a72a171b83 0x23300955f67e85623421d8a55ac3bd597a4f9508fd9dc0bb1ca3ab998d5a1138 0x1ec1d62e026aac34906a8fef70c51dadfa9372661abd8c9d9e3dec18151e82f4;
  Dbl 0x1e979d6b95f0df2656ce66a4aacfaed73953bbb4dc749982ab934779d7b7ca89 0x2283febbf67b6300608dcd69ef7c2d444f2bb522e2e70da805261932e3e3b591 0x14783af335f3a576e8042d1947b5d480b9f2c0462df901ca833f9af025dc4d37;
  Dbl 0x1c6a4001739dd174011817f1e36cbb0150d314992ad2ccb8cc9f315add45fa9 0xd322bbf79c2558dc7d9ef70d94090d0ed45c0fbb790711be0e6b8c41d5f4307 0x401308294c253e6d9ad00883ab00047187eb2c665ca7c1d698de2f46eb1bb31;
  Dbl 0x1bdee9274c59aba0e9c3ef88ba797b5996055f018936630f0481b7223ae129d4 0x234827023cfa1a7952f6e7fd7ef21a42b5710f948038c44a363e01a9bcf6ed23 0xeb80f186bed06c7d8fdc5597a3500e6dd02c2d5a4d4b63e9d3020637c36215a;
  Dbl 0x1ef7abfcc0f6a48f6c8c8b8d5375124a39b5ff7cfa712b33db92870df0c2728a 0x1fd726e55a46911ef3e9c1667366675d366815caae97d446443aa64c815740e4 0x62daf2db0786f001e4963aad61c87e548e4361e83879c40de5e7b1cb51481e7;
  Dbl 0x17a71f6b5cc11b9aa9e01897b9da9a3882bb647f75209ed46b5018d0011eeca3 0x21a28dd946ae255aada95152cc51ed8a03c29a71e19e96971b8591e69f39fc31 0xfcdc6a8c5c2eaea654ca8b229313fdc9d8f9ba2cc3ff6b1b8427fdb2146652f;
  Dbl 0x23280d4a43da90f13106fac8de4b1eef9eb9272d23720636f0a9cac02afa9a2d 0xfdad9828796795e2180aa0861ce4d23dc34391517be24bfc0e5de4ad0115cca 0x1f29369fe8682dc484c9d63cd0b28caf99dfaf6c6abb27e6ca94e9129fff9c9a;
  Dbl 0xddf0aa15cb1fc32815e5dbe5bb54f7a5f95be5aaccbacfcbb845ce96246bc72 0x1a68b10c3639ba984aaa33fa664b98e77d6071e74c75021ba674779d75a7cc4 0x174e797eb61a6dc694525ca83b95ba48ad03b2ef1fe45f3dc865c8325c014fdd;
  Dbl 0x146bb09f312522a6800027f29eccf0a420ebf75dd9b16645842f58864000bc7b 0x1c88bc85e14aa836409df8a1174aff589383ea6ff82dfc1d9f26740a2a67bdc3 0x10f7f99553913b02382c8ab664b310d7e06dbb9d63afe84c2d790d5543a237fe;
  Dbl 0x1327dd17b14d316e5b3966645ccd384af4473dc299019c849d32c9b4ff6afb8e 0x142617004e94d5c6cdc5cd1bb98b7b03dad287d816e1633da587868f54693dd1 0x2b5d779dab8635be1d80f73f865e9297f8e22632067ff78fef0c4688d3ec1c8;
  Dbl 0x15e77e6774e719d7a6f7ad68535ac5316b2c0491440c29a798df685fe30484ef 0x16852ba0535cdb72a107fd4988409c43e3f758904a92de8c912ef43b86814573 0x1269d92dc959f69f0207430fc0a97a6105e8f297559f2641ea01fedeb62a680d;
  Dbl 0xa50ecddc822ea22945234afd3f7d6f8281eb9a422cd85db956944b470528759 0x1ca5428bb67e55fd7426539fdaef8006c2c544da34fb3ebcb3a001393d81f901 0x1490d3553dac83fd5b4b247fc88cd3bdce4480aa83ee611c1916d2e4a671cb79;
  Dbl 0x16a69445d6d4909edd49a3803febd408198cb63e314e5f07a230ef3800bd607c 0x21884359e6b0e19feb542fd12c95ce7a8a7469289d8bec5528d77190e6fcf2d9 0x24fc3d3545e2275e98559e455698dc8af5b8701a788567a6ffbaca11dc7718be;
  Dbl 0x7d0db5b2b15df92c179dd9298dd897638a105d103aee323f536b513cb932622 0x230314709a1955ec0db3bb132efc109a3b5148a453d678c74cf17da30982035e 0x1ec9d005767b88d6e0486e174d0e7be7d105a0b3d71e85a8530a3ce4ee23fdda;
  Dbl 0x11ab3b7b4c9ee3264c2dc136abcee986fe1c5f0833a9a469ab6013ecfcc5b783 0x172bd98645a185d9f5092bd80df330facae4298f3a054fdcd47a5d20ebf6ea8d 0xaac859a5f5a9c4ea48e72298f93adc3c8e7a303d9d7f8882138cdee4a67e111;
  Dbl 0x1cf4f9b4a9803abf4535a82aa0a0ac8174fce157a058966cec559f0aa1ec42b7 0x6bf1ac57d184197981aef0203e72fff5d262abb4632565186e325a1ec065d7c 0x79cf7444289d2fc43e703ff138bf30705cb80b466cf8275896518f873e560d8;
  Dbl 0x1d6a06f4ce1b2e14640d7e6b53d199426309728346861b55f7c9ae04c757111a 0x1e68a515f9b2af0fb0ecd80fcaa53a317247334cf1bc758c23754fd144bca1ff 0x10c90b27e588b47107121d4a83ae449f4126e162014ac114f3b57e5366348537;
  Dbl 0xde73a6685cdf03ea4b171629e607cdb3cc8690f1d5c056628eb3257f36b88a4 0xcb234216f81011c32b94348ac0a7fd84c0725f6eb70c8be19b29f323a138000 0x207a41cdf9c46e7e5fbf8e1f03aa7e31a517268775c2195813eebcad567a1830;
  Dbl 0x888773eba55a50791d2e3aa19be928dd8d93ebc180ccd90194027e61352c31d 0xe72ce51148421ea3dd7cfdfc20712f54058efcd86969930a7464e4734200acc 0x1fff90f49e330779b4b71981cfb698da60c2ff6d01b4396915defd435847d5dd;
  AddG 0x157be71727486b591755b6cf489946410bda00cfe7b958c37f9008b69e978fa 0x251a902fe68803756fd2ca7ce336f23c02a20d965c19f5ef23370f1e0a102983 0x5ced5e5700c2a1d3d06ac33e6e23c84a987b33b2227383a148f701fbf6c87cf;
  Dbl 0x1fd58e42a2e42a316b8e3aae0c8320a84e42ee966018891c92fe1eaed4131d41 0x17a0fef64b8b62eacf073d3f616c892d960155270d0f363d76a5dacbed53514a 0x12c73648e9f764b2f8d093a4475c59c003e98949668b6ef288331776a4933177;
  Dbl 0x82159fb68f2e50501e5044ca30a2a1927d6dc28e2da58054d823889e3b1a3a4 0x5ae1b849cdeaf79b6e80b27ed6a60a0759ccebb70ab0e2cdcab0f7c6dd7e0b1 0x1f406214c91f42ca8748336ceee2393d73e4d10b0ef33aceb28819dbe96708a4;
  Dbl 0xacd0e28e4648f401d9c49246b1be56548bced7dc0bbfb9b949ce7f7cdccfd1 0xc4fd51fa03b184dcb8311badc40ba25ab1fb945b03b26cc947c2052991eb290 0xb63cdea5139984d4a45a5403f9b76d7c375d1bd472198f4661dfca9a8ff109f;
  SubG 0x3020046729fd77a106bb2f3b72e561de4507a3be9e0f6053197e91bc09a84bb 0x21df328ca487697b1c133ba2622fb59a4ee9f12182365fdf4b63732987af56e4 0x2455e6e7d7aa86909bcab2773c2e4eac14da8166f9a8ef639a7dd30f69239e71;
  Dbl 0x1d5c80ff33a0b2a66ebb021c6cd8c9cfaa1f526319ce328e5fe675ee60bc4638 0x230b5f1f6a5db279fd176ee453ecc58d5682748c80e7f478919163cd46d75456 0xc1cd36751b4fe54d6b5bb611088085e62491c132e436b718d938ed40246ba77;
  Dbl 0x46b4ac8658db1a0ad49b3a0455ae3e2039e714c7cd6ec3689efd14422340cd3 0x1c25ede62d119645e93ebc90425729723b13fbf6f7fe8b5365070c889d31b9f5 0x11662191b47e09e9d0af012a05c38723166fb7a56579d0d623cafb0eef194468;
  Dbl 0x3214f7440a7886057838c626c170b29616c645a438906cdb8c13ac31f7f1f18 0x1d478568c75efbd6dcc8a47f64d050ab9faadb114155a738056ed93fc98ec4ea 0x22489bbf9cca14cbdf3d4b17b3464a0b73f1b25409aa4ccce1c40a6bec1adc7;
  SubG 0x16beee88651239f76bcbd9bab6fdbcd80fe93053f01721d4dac8b5ebad084b56 0x1713a64eebd513f3e9fa7d6cb0792cea30d812e62e23868bac5b08f252d8f70 0x9b0d5f0d484b382b96e0c84fc819a3599253dbb919a84846841e80affff851d;
  Dbl 0x19d925492f5b86b065ec4f9e04902b1205b9f1fb08c50ddfcb99f2740575eb0f 0x235610522074c3d551f401ef8fd90b4f3bcc1c761948e7c84ab0c18e2fd0b8b5 0x1c1822ae743ed04563ae46fc7be98ccdf91e6b5d194f78be638b7e306574c966;
  Dbl 0x12bfa5e21cb4a5619c16d4c43c831c477fd7284026809ac795ba1c0e8ab82c71 0x2d25e4eae2cd8fb0061066c5704ce0604628bf6a53b42a99b8ac398f67ef344 0x9df7352378429cbcb33f40320ae395b669d6acf79deec88a0848cfbb70cd9ab;
  AddG 0xf16a4c906655e99fbd35574ecc05efefbbe001405dd2403936b8ee5d863f15d 0x35799984c98afe52027e7f0b233abdb4d13221bb171ad5b0c1cedef2dfc8360 0x410f084bd89ddd51ed60a1df88894e5734f889ce42fe2b69c2716406813cf8;
  Dbl 0x2018fdde089ad17a86724fb21d23f80d4a75e7bcb2ff22499eeb6ab632cf5edc 0x1349b8dea2dce9cde5223dfa71559b44549678431fb0e3faf55be44f9f89a85e 0x21c8f431534baa07f61a0d8835e4623d812d9ab6f9fff8d644db4462f222098e;
  Dbl 0x2022162bd5319ee97ed8c8d75c5da28548f99453abc03f0e5bf1f8b492c532f 0x21054c81ba490dd21b94e38b1c8e7d95e55003dce4f75173483a959339612a57 0x19b9fb4ec422847be6126155c2aa445dc2f60e09510eac8ad788cfae84bc317f;
  Dbl 0x174924ca07045a08b9d1ec349b0770220f5a0d3c732c67391e7398710a0b5ce0 0xc20c0da097c796028a3f7ef354d8df549a5a2f80453b3ba468b244374496e6e 0x2519f07bdcb4a8f1e8033e70d43740b232cc5e367d06d7cb2f52c598b0eab8ea;
  AddG 0x20e9a8dcb8997e48e83f9075fa36597c6c78f6bf8aae3778e5bd64d0d9a5fe46 0x3345b36d7555d4643ac6f4496b84c33c498c24e7a370a61e17dd80cddeba694 0x11ed02ec4c3dc0647051149d6978767b67a8934215921c894b1626f47fba85d7;
  Dbl 0x21f8f062c7b308c33e29fb3dd187e8832c690101ced7525c8c83c6ca1b918739 0x538be8e11219ade6457e51843323e056393d591c3498797ff297f4280949af3 0x149ef89f3b56d41cd64deb006142844d79cc5fae244e9a5f47e41c59c1531cea;
  Dbl 0x1e7c770071940226f93f02de14d03e39f31405c693fc897ccef36e058ed4a123 0x116f8f7cb60619db5d7c2ab931da1ae9f79332a1071d9b423cac219c45522dcf 0x1febb7cad70f8193461bd5b526b56df3e03008e8a88ce375b74b13138035ae8a;
  SubG 0x17f38bad606e8f47744dc68d00dba97a820e3665704b942bd7def52155fb7df5 0x1bf2c5ef32c87583a640466a6bff865ae624022444a5ee6456f1859288a7b392 0x113ab6c8f9eeed08d64f68b25933726ff2a410562033dbc9904c78124ce4dcd6;
  Dbl 0x6bc0c1a4c48e1eda26894ef64dd849381bde0d57e4d2e5197a828d87ddc847b 0x24890ffc1cbd8b9372074ae9bedc91edf2e6abc11a5f340c61945dd7e577d9ec 0x2769e35a06402c42f53b5b8807ba17eaaf16da65f3520023a1ccd5e4432e400;
  Dbl 0x63b64d3ac906d057e7892f8c1c455a0a13645f4bbf2aadc810df33ba0118869 0x19382b6b76be4e2dba8ce941e94cc04f4527ec3eeba934c63b8e7a0ffb7a7477 0x31746a455f863ec9045a9947a57693162a8688f6ae65287437f5328f629e929;
  AddG 0x110d417a694b2e2883277b3564a7e28882cb87a09a72ddcc2246035e81294c65 0x23b084d441154ddcc5216d0ae91afa3c7c5431e6e2b90e9b9b316d676bb0cdc8 0x216f65b29bcb0a1c22fc39dcee1ee3d1bd762c73d90ce0aec498bf602dc6389f;
  Dbl 0x2e4c1dc574159fe51cf252c3689af2581000f9e485d49739cab80fba423fa69 0x5fb1fbadcfa57efe8bf0f13e367f4100eeb2df2a32e7b92cb29003de1a742de 0x1abc7ec078a28af9c019a9d3e9cc15ea98cb4b820a7165b7a25fc9683dfce507;
  Dbl 0x11949afa91d289e16375e1859b83866957a6d2e45d28aabf53aea74ccbc4388a 0xf59f6f0299350f5a1bfd938e7fdec1ccd97999f4800dbff5ca3ab575e703eda 0x8240ec764470113512d9b45bc650ddb027dfab82c280d55664334f9dc884429;
  Dbl 0x12dd44f7495a91d0e6d44eb14f0be89fa47bc9ec3f8823dba55877325a03acff 0x8a3fd714bf8428ee6e6ea43858b77b659c1bb6eb62f2eb9d6cf1434ca8cd8c7 0x2732ce491f5e9b83deeda33a8684bb234e0d6e383d3f805ae2e8abbfd5f3704;
  Dbl 0x23c6ed1b6e96286eb425a98517cda59dbd9b74f6e9c72249e6dc287a56afed29 0x772faf2d50d76f4d73fe41745f2d73698a38fc1662ef3aaabc231b74c4d8931 0x23e5f1d65bc95308aa39e48aab326e7382abf3248bb7275920507ac28ebed65c;
  AddG 0x196e85ca5011b88accebb3ef7641069c48b087b5c28b36929bc0f6c2c48d9133 0xdbbcd524671e82c2b1389dcd72f3d21fa2b15d55d6246a8839e2ce319d238f2 0x1e58c86091c6a788d9c4dda710543ad242e2cfada0ef6782ed8f0115b0e04851;
  Dbl 0x1d84a1c89935731a6a31ee6185e97112cdb79c43263cd09c99288547cda7583d 0x138135c7cb102e82fad6a7c5de21d28f75ee3f17085d2a6e58d9a4e73c8e30f6 0x1096795cb86335ceb68285f9dbd9ba1ec5ad1805913a76cc953293f68a23617d;
  Dbl 0x1d8ad1d706d139fcceb959cc65c1264050ff4c036b9061820ed81b36d5e1b4b9 0x14d4e9d768c78685092c9b4fef6cbe920b5341ee9e975544b83fe19568987ba5 0x20227f8ad877bc9fe38cd600618be27e4ef4f91675b6cd19ae3b9fb25c7fd9f9;
  AddG 0x118ee8b16a4c66d14220da60e28a3cf7dac62a0be3d2306531044b8f781227d3 0x11d98462e16149f396fc0985f6a0c2970b9862d6607a1994e7da127037230f51 0x12a8dcfd239f8b7295d2a406c54be97ccc21e17cc4f77e8250078caca2aa9d5e;
  Dbl 0x12f0d70ea002dee24644c16a15f9487a0c491d7c5a0f7b974d525d2332ad29e2 0xd2b207a7cba6539e5392d6eed6356b00ba1c404543daef62463d6653fbae3d7 0x12a5d5455dd903dddd68ccc35e63101b32e2b33f94d6ca6cc3cf08701ad35247;
  Dbl 0x6dac0385b088a502254f42170a46ec27d23aa564affb3e83e50b29bd59096b5 0x1e48b2233332982a0c83edad3a1b3f99db8cc582379763b7b8bc3ac4a8f680e4 0xb7b727a000e3d478c9f7c9cb8d2b8f53f6516db06df5a69db5388a076cd50c6;
  Dbl 0xd7563f01800ff8e41a0afc17d0e429d0abb6ecbc9481273894aaabb02971aaa 0xc03762eeaf09efbb3d9fa5d13b90263838eef068760ee24683040480b729f0e 0x1d69ae329e2d887282b2c77e9685b235118ebad550e28a017974e4bc05423517;
  SubG 0x2e178f33b5937d91a4ff61d2cf782c7bb6028e14043153c73d4f3adabb11859 0x1661c6919b11d0fa7e6cf169f2508356bc6084d2aeb39774bbb7f544bc1c5799 0x1194013e548d3ce34d8f4ab8d51140e6220a5f4bf7bc536b1b777e225319470c;
  Dbl 0x20066a9271668d79ec257759a857e73aeb602d122763bb2c5ef0491cce17821b 0x1976627a97f8163e5e4286ed946b6debb6b9a651b1083dc86fa9fba6d40cbc1 0x182c71a4a7d25a300cda05cdc0b6cd5a1aa36cdebf110cc436706cf2cb0d650;
  Dbl 0x4ff7a2a13a3e2df7bdbcc10be52e50122d687c07f351bbc0fa213753d53257a 0x1b829b525f2d8344a78d09d00c32d41e237807afc5c32b1a91f45c4029283b78 0x82ddf5fd213f5c60d8e0fe6a9f593252cc687298b380ec3a43038f28877c9c2;
  SubG 0x19eca12a8a9ecb4a8f8ea19b1fbe7dec8150a9032821416196464fe40ca6c09 0x1fad83f4cd19410b49ba4c2351864381a3f8295213f03bf6d2d8ce0f7720a2e3 0x96825b6c12d836171b631bf15fc2b23c9a565a0d7503a1c7de66c728e5cdc33;
  Dbl 0x5753b13f8dfc97ef8f4a1eabc74194a6d9c2e9295616224ff6bd1c259ee933b 0x7043f185b9ffe99d233908188a4ac9eab7f39ccc819962c942997dd53304c7b 0x222097248c9284aefe97c341a753398e05badafbeb1fe74277e7cfeb80eebce6;
  Dbl 0x1cc8f8614e7e5bb351e8294e42f410736c88019ffc1fa289f2a824152a923c97 0x6eec7a87b5a2ddea5ccc0129327af70ac110733d482db8c8d1998a8b6ff4345 0x21a756a61182c0b6a38a34806af093e2fc9d75e4e66af29f9db19c3b325502b0;
  Dbl 0x5a35666c33df44eed9338accc3142fc9ba368125fb417dc404a3be089a2445d 0x14c6049651c077d5719b4498437fedce204c3da883f46bb2609cb77de78c97bc 0x2a004b9193deccc63e560a9c20efc3b826b18503e5ac214c7c6bda1e96e5a73;
  Dbl 0x27964e34c04bf66eb310d7af6c01c0739d21885c4de33af31a986cd9781fc53 0x18ed168912949e71f366e0cb1c8a0d42c65b0a923b972960f454f358b19546eb 0x977b5e23aaceee0e17ed6d56d37fa81313190dc629d26d55b5521b5a7c309f4;
  Dbl 0x1b89fc921aee5d758a5c2e57b3129e3ac7e98319add1f255ada6015840770985 0x1b68137597e6969ae3d04150da187113d9f7466ee3cb1db96a1937fc0474498 0x1562a585f55c275fb46d5e0f12b509876180fcdb81d963038a4c5e33e06826be;
  Dbl 0x134dedc3c6ea13bf8b9684463dea04ea59f2f1f70c3dcce44118268ff2800b8b 0x10c2caa537044ffc376fca21b3ec13fd590f9270b4ba797f3ae22ee6c6b82404 0xcb032acd3ee1dc03d7bbfb03f65ae5747ac2358b7de1844578133b4be43901b;
  Dbl 0x1a5f51e48ee2ed7bb4272cd2f5f43745c389b11db78734e10f9e73cf9489ea4a 0xe404c655328fe359b7bef5b1e6f205b470937fa79813578fee81b4581037bb6 0x1f854cc4b9f1026d709ebe78efad34816ad0e285e93df54614abd0a1a088931c;
  Dbl 0x3ef62bd8801390d42917af3a6db00212a7248ed32820bcf3492c06174667222 0x474557558cd4a98dd19a1a04e2c8d7276bc43d143bbebfb9f93b2b438d33ed2 0x1e45dc6368dcb9b6232405f352d2a89c895141c016543b2f8490abed43428c02;
  Dbl 0x13c8c277fd3eee5531ca5ff958835a5ea5a68927c419f167dec27f034ab7377d 0x1a9a964afe9d6670fa1b6812ce36a64da239676f98953460d1286d13862e7406 0xc5aeedf30b666e7fb50e99a3956465ddb8e1e69f263dc8449dd04052b5ac2c6;
  Dbl 0x2061c58e79abb2b9b698b2f0f36a2ee62fa4cdac3cf60043bf4a701504106555 0x1d1b1154677a2d502e5f924a0f0cf47480cb7cb37c6b06457430d927304e217d 0x18e68b4be2260219280eee5bdad474b97d1852c59c47bb04a990a10c0a03eb6b;
  Dbl 0x1e45d27225357250406030d0fac256f6b90a9580e7ee57230f1aeca8c117cb45 0x184a17efd0762f40fbe5ce08185104efae621269beeae517acba2d739dd81e57 0xac343339a6b8e23f2a4e8454f1512f4b064144fba837e913d8c1de86fb9d39;
  Dbl 0x24a41ed7541ab37b074c08af094203a1ddd93b0e7f8cc4e7be4449504d509b24 0xfdc73cc8d82235e28d349068e8e187760cf1b6c563a5262acd8e2cfecc5bfcb 0x20745ea2ae7fcfd3445f9567c12bce0088f8aa27cac944a15f482fcfba70784f;
  Dbl 0x22ab4d4669d88f123d2918b7acf468fd6f365f07e9e03960dc934ab3557b3e1c 0x19452a827d4002c8e056e962e41f41f3281f17977df601ddc6eeb831fc2a1fc2 0x175c36a084aac2f3b74b31f6e501eabb6c8552fded998533bd0a103df2a00196;
  Dbl 0xde6cd3725b018d9bd62ca886697d8864358aa99d6d3777b74f7bf873c9ea78 0x12e67a1026da4132faa93681eaadba5256e9986d005f46b55d42c983e79bdaf1 0x1049fde04cfa5be308acd6df6e0c52b1b53d040fbfdc806e5c15b21527177d5f;
  Dbl 0x74c1fa51ae51ab1db2fe6e81a8f31e8e88b370860fb41b2504eb45e961f06b5 0x15be2f279edf77a2033680a5077e6b8c5e5580d0e9f138b7db0dfc1183edf950 0x78d22349e8ae8dec0362c8875ac072a9bd29edfc6a6b4bbb1c22de4cef2a8f7;
  Dbl 0x1291ff701b88ed760cd5acb2279c76d632424b9fce8ea117dd6518bbc795c2ce 0x16af1bc11365683faa94a0591c5a0ed65e9a7e4933a02b3452551501342d41e7 0xe95c7326e897535690199422fb805a60a8793c2a26bf156e5ae285ef1873998;
  Dbl 0x207af0edea40bcde3472af3101993c4b0eec608767b13655d7cb2545c5d8cadc 0x1d5be9edaa5d329736d68a1592ea883bbecba775daf625bdb15675a5b14e214c 0x20df678d7cf96f123ac919d3a212bd5127f77fd85003e83b4e25b30c884f87ec;
  Dbl 0x13eacbc6bf35cedb13d849f68900b27f755bde55a6aea28e0c647e51ceb9c428 0x1030dc7ce63fcf788be76b9028ac96ab2d78eae8e54650db3e8a35ebb1dc601b 0xbb86b8d4678cefaa899dff862a366291f01e4562a5672eaabe2a9ac111eefd0;
  Dbl 0x1bc0cacced2e91bb888a31312e1f5d9cb5cf0f22946f3f980f62db4a39a37676 0x4b69d5f59d7b56d2c29340bb604f2c5b74c779824b20edb138e60b8fe1f7c05 0x8e649bd1ea2fced9d73ebfbd49d737b2a7aac4d63a9db10de406e51f0506156;
  Dbl 0x2c3941931af61b56e56ab3e76fdc901eda2a9033e7ba6655f4fefda94d44762 0x15962501d0105e03edc73944e65964fda9228d244324d77f55dfdf49b1306b9 0x1b6955e6ee4a1e0353fc8e698cd8d3fa8e5406d706344a9491e72e2c2692a5aa;
  Dbl 0x6b2708e729c2d3bcf25b71c468022738171c7ae9dda62c435cb8e22906b2e55 0xcdad8cda5304e4722833eb7cb9dc10464f81f11eb120c07da849af573b808c5 0x22dda8fec9d446710478be1986b8d67f676a3fff144d4d2759ff0306f9b77d73;
  Dbl 0x7a8baad4eb6fdfbd003682ff467497d70587ec2f87c2d176671f88966a00825 0xfab76a90e2523a432c2f9ca3b2ce7a99ddaf0a1e4e69917adc87b9c24fe97f 0x172856382483af746abfb8c45cee7babfbc11c29190defc7355f1fc7178f536d;
  Dbl 0x584b991532ba51d0ded61515b08bd9ac6823b28dc47b4988557cf553e423bfe 0x235901de8c61502e19387c005b73122afe889d60d2a8cecf9992c6ff59dd1745 0x6ef13eaf57d71cb99ee05223b9b53fd25ecd62193d98ae2aebd1efd500d6f7c;
  Dbl 0x3b023bbed9308a5e6f2dc6fda44ec2fdef3b2d097911e76e419dad47dc6052d 0x1c6c3ce4c831c1d71bad00b212392f439653c195e92ec49cff171a0d0fae811e 0x1ab66796a0ba4416c0c1386159451d4934aef33184b7baed97225d20bd609141;
  Dbl 0xf851747c5d2dfda4b81661ca15f2f1aa2462c2800aa599a16915e46754d0c8b 0x9575bfeea712f72274866390c10ec8d5f3d2f38f1aca3023478b9c996f675f 0x1dc4a1b463ff2c3832bf34058113515c036a886092e47622c588eb0e434cc65a;
  Dbl 0x15a0d5fb850b82053491ca4ea6b21200eea673e41a693b04b38e71175ba8f576 0x11bfc6dbfab80661c1d163dbbb09504c7491c6ee64ba4512debffc020aca6d74 0x16c447aea0fbc840d96355ee897b7909927f0645ccd894d4bca4b71dfe302b39;
  Dbl 0xec8458d0f343eb00435053462a9a25054090955e7f947b3fb8612dfa2b000a6 0x16fe521bf44cd3d13ee0ffb8285b470489dc2c54247b62c35ee7c2dad2085563 0x10c342f48107fd8d7a20dceba45668d95d4ca2907938072cf08ca0030f1a7eae;
  Dbl 0x7c68a97a37ecd40b5f1741f7c008e75b1fe0134afdfc05368f8df7f77b5200b 0x225ade3e5643ad48b1c4c27ba3c0840b0b67be9644cc54823b11d84a35c71154 0xb5b4613c11a156c849e65794c4b4017f346240771e72e7f1312f5710636c174;
  Dbl 0x36f76e3c8c3b7f6fb928d13dc0009f08a53fa6678a31f7b14bb4929c31da7e3 0x128ec23359aa8df2db627ee5682034dc70177d9f49d38f9102167d46c2f49963 0xe1faed062c5bc6ed23bb5942b3d3fda205b82a44d1c47f24743db6b638dc56;
  Dbl 0x167ef7f12ae0fa3ff915d22cb5f5e4a0b9cb067eea4e573419e182b4f2ba82fc 0x1b5dcbcaae47241b020f548ffe2dfe00fb1d2ef04da9751b57e9977696fe33c8 0xbbc117d349acf6fcdc983cada5c47043425a02a448509fcca18783c73608820;
  Dbl 0x5be0a0d7f1fc54871d662c18238d979df49d56887b3c3076996b20240de1a80 0x1819b82868ca3e1dee2f52d08956c4bc7a93f3521f495f435ab4f132a1086ffb 0x11ead72cb7626437280fa595d647a2af3602d101ea231014d30ac85074b75a18;
  Dbl 0x1853e7db3cd5c5a3993d2efe1afe7566775d7a9ad8c2e1146336dbd1272eeea6 0xc05b19b140b6d5e00c7e772322ef434da875be973ad3327facdd23fa7bacee0 0x19240dd3647d46f443e835538493a9a9286d56bc265b6b94afa7cfe90f2fce7b;
  Dbl 0x67718a81fce479f2ee8553b5722a76532cec52b8ec54d72a4b01573e89d0796 0x132eff055ee0ec2c603f4a75f1c3364d025fbda6ed00f77974571866bbff0fdb 0x2f38484c17e62ff8336b0b188791223319d4d4706400d6348e6f6dfea720b95;
  Dbl 0x120feaa43320256fce7d35bd866d5ec9376723bcb642656b6d106259ea883342 0x1eaf4d918748465e75401485682b5d240a99506b2e7434b7b92c111dd5ff1c02 0x1fa349fdea1d0a75dad550d8974927fd302eb41ccab6ba516b3688a9b4701227;
  Dbl 0x16d80b6b1b9f2a7d4dd25e8c22a7c043f162c3a3ee8a9749b918bfe8ce6fd7d3 0x1debc9e5e0e9411bdff5351d3d21604262c52a870f029e023ea192792d425ab0 0x41845e4e137a02bc0af68d12918ff7a2aba05c8d0771e4a360f669e282b2057;
  Dbl 0x8b4bdc5318682aafe45dfe85e60deb2943be3e8079bbf2da6fc31bafb42e084 0xb9532ded5d9c83b0e6f1452f4cea71143c61a0c808c45d68b22dd5fad21a152 0x209fd031e469ec9e13cf04321ddcaf6c099447213dca2b4bce97c25ae32bfce;
  AddG 0x22443939b57b1c5e3477c908dd1aea9c309579f6a7cae075383e660f1b440b3b 0x828967f2bf89de5fe691255ebc9d3edbb86eeb8b3db4a75af10f9021f5be376 0x62786691251d2ab65f7c2bfd8a845b30b88f2d232f36e0ce4c9eb71baef44eb;
  Dbl 0x1cccbf32b4dbb884ef3f833ccb00dd62f39e4c1db195b6af35ae523a152e8167 0x5d2d6fa34ab5766cb0b2274a42c502a7f70e3a302a303afcd073a014408db4e 0x68d83b54ab6c7a6e52e58834a1a96f0372ab0010e6317782f5d055e0c8e0b7b;
  Dbl 0x1202f91f7d21756bb8fdb85855d6ec180edc82da8485269443845cb48ed7856a 0x14782ddda2704d803692dba96f088b2e26639b760e223881f63eb51ecb986770 0xd43bf270d8edbfb87eee10ba2f1152cc1336cd027a3a7ed721caa984b047a27;
  Dbl 0x6223e68fd161967f9a25b0e763d3d18d85ab61137f9493b420052594dbc182d 0xbec92b68fd0220de47d81fba1d19fb71ac1013661e101e0f42505f4cb793376 0x175303a17fea55d0e1566ccb66f806c530cce735612272790b2ad625970220c7;
  Dbl 0x17ff79bbc0d2004271f8e042a7551271787418ad2bf754858bcf629756aa7f89 0x244d73e2fd2a665cba30378c7414c99d7b2ec41a1346c189070c2609743b2617 0x1d33ef3ef16da36113e44eaec35f7c232e38db06290e1ecdecd6c8feb8b83cd0;
  Dbl 0x14a7660f563e70aee5970673b376d4033750f1a00ff316bfbdc3c557a2d8a638 0x14265cc252672608881e93f19b7efd4bd7479e1dfa1f81b888e6c26947fab3de 0x4666c97939c6f14767052b75a20200c16f51d5cf70b0263b3018c6c40f90fa1;
  Dbl 0x1500dffd7eb1ffb44ef397ff33e4bfa9319980424673ab78fa387b35e1490a78 0x2b95f19ff8638ab346a3b8fc5f1ca7655aa889ca704e0289bb113335adfd1f6 0x8c2638447d6587d53744a36e59565f4bfbe60c58fa3f33b37e92d68ce2c95f;
  Dbl 0x567ee35d2665ac0bad67814b41d8b40bc1a52eb4ce1558ebca345e2857f05b2 0x1da0dee03f6386dfe1d63af5668ac6d81228b2ac653756c7c8057aef6bc65237 0x6a6a14f5d49e6f2e788d6361a46f5cf0c20188a2931d2b9c6a0c5698768f0b1;
  Dbl 0x13c624aba4b05da393572fd934ca2953c2be3df3aa8b8e0e9564d5120d46a29b 0x222d5ba3f0c71c7d87805d5919423e6f1d92a83c819500590bd85d0002cdd693 0x22ffb71786748a3b09eade32dab6bc4439ee447a76d4023315f12538b19f475e;
  Dbl 0x228269548989caf90a53375745e56fd7e26c906f9b2c30180adae345a691cf4b 0xd4fdfc4c83903b64852cc51e94f2b59bdac6491537bbcff40491e8668773ea6 0x19326a1e8beb11791c4dcfd1a84f0727c45c407899a2576c92fe887925766068;
  Dbl 0x21b02091f19f38c08795b2f7869ba01aca76055fd656b1dc5223ce5d093eeb1f 0xef7daa1cd6ef6b54766ad30d92672d93cf903335e14c66b130a336480823d6e 0x146afe3d81c8b458565212e5f0e0ed65c7a0a32172fbbb1aa83f7cd3a812d06e;
  Dbl 0x1d775d6a316027d8a26662b16b3fd4116cb41d9283a7fc2d32edb3410d82fd24 0x191ca08b36b27836df8e5c286387ec47d88ca74c7ae29d1234f8415a67ac6649 0x141db1ca6a05b4d8ca87818fb0e92d4040c380d1d5e609a8b91bdf643e593a16;
  Dbl 0x5f088a542512fbeb3593669e0457d12f96f4fb0d9d3533948f1ffc0a58057e 0x8273eb1a5efeb7bd814deb4694707b9ab6537d0d2c3e9f40ca6b0eff0ad05a9 0x21ed8b40c0225388b0c81270507dd4cb7bf7e719a073b91d292d27057c912190;
  SubG 0x3b53b549c4132ff92db285ea1a6e379891d24c05bb2f37fa721930c7bed62f5 0x16df660c46dc8476359063026c28b50fe8c577985827ebe832bd8ad4dd3a9c6f 0x6169b9bce9b4d1facec1823b54d479d716fa1a7aa2a641b0c2520c372769fcd;
  Dbl 0x9a22b9ab95b1ad2ed2e9ecddc99c5fbf0da4ce9deb7d2adbda835cc963daede 0xdc30e0079e0185e75a3e2af949ec82e38825ab5f5ab3d77c786471f35a95832 0x225db18c0c1326093e80d8215b424577129521a2f0379ccfc83baa41b35a010e;
  Dbl 0x230099c7e01cadc3b10c6d24d4621cba5a81adb535051b6a15053344bbc9f6d4 0x72c479298b31cbed2f3d5202a2b647890f78b475496a1e981833c00c5c8664 0x12768b5cb1aa4ba322cb100e43895a501a1b746491e3bf7da016c603d691208c;
  AddG 0x1563b6655d76a7ef85dd68702d95113646672180b02cf1226306aae0032914e9 0xa847d4c60030b77093097151ffb5f36cbd9c84fef39d6452a781d5faed32038 0x6b22c3173e17f57e7e4548595595df84cd4bea51b341d9f42dc1e13d284d695;
  Dbl 0x57207d9c065f29cc450c0e80543427a6dd81446dcc8f62eab78cb5d4524fbb1 0xe45ddd79190b066f42973bff8309609a2819395d7ceb2305081b8d1e7c195df 0x183b25a5389b5b00da4a229ebe9c5ecd772c9811f9d899078296d70cad3fd544;
  Dbl 0x1ec483ae0cb49992bd08ea776d1bb437e4a4bc0def894248e46fcc03aeef592e 0x24f9db51ca5cb523286c3b60cd40f1ddc69cee9525ecbe6431e5095970ac3277 0x22b0eb0a343332e0ac729085a9768a89fd26afbfe20e134baf54b0d94d9289e;
  Dbl 0xebd18981ddacadb4fbb4c6edebbed573a9fb2d08c5ff7bc6cb1a33c5f8276b7 0xb76770708aa173df66599020fe6c16df59a9b91ba2aed4fa94b1fb6c536660b 0x879300600b3a267b2af2bbf244b41eb9022e3ee6e2628284927457deca4a6db;
  Dbl 0x15bbc78ecfcb2b7c216229c01a7eec33350da179da9bfb660a61fa8692a2028b 0x63fdb3adc5d2556b74d5fa6b17e0e7bdea10730f2dddbda576396a1858c9181 0x698b6bb7fd2ffb2e03db8a7cb9c5a0b72d5c66256e950405e798d7d4cabfc22;
  Dbl 0x199e24cb34925e42aa847abdd74926ce106611da0e99d23c890c8c97a2d25685 0x1e6eb289c17eba6c392f3068d91a38e6b96bf8d2d21a34dcbf771d4c3e42b48d 0x1277f1ccd9538c7c4e851d9e083493c24fa0e81bd2159e47fb8ec5ba2cbea8a3;
  Dbl 0xfc0434e977813f2b77a4260896ebc6fb6343396221baa137962d7ef2300f567 0x1a7bad1674e8af2505a61c4529f62911214396c781114a5133b167993acc2ab8 0x24c88c515004cb4ffbe522cb67e0f0efe52636e8043971da0e89cafbb31ae14a;
  SubG 0x2a701363f29d124813be07449f4a7885b09eab2118bce19e2c0ae39b42124b2 0x66bb1a7ca3088c45fe08232a6e3f84f0688ec1474162c546ae91de11f9be3c1 0x1f908cc6b29ba08d8868789ecddea4aa8e0b2cb0517023e546d04f14508dc6aa;
  Dbl 0x78b0c29e441328714342997edf7002a8327d14d9f1db476754cfeca18095689 0x143aa261886aef8fe3ac8cc3442369d0345729380f6c279e2cf44e5b9175387e 0x2af66b1cdaf7899610826bcaaaa70c83fc8f5a5cb1a0abe2619df1ba81d62af;
  Dbl 0x2387d96e2a56745db3a644e02767583fc5e3fc46379f820bb729f4164b4f408f 0x148ec8ea75d2c0e850f8b2057530d8b7001a4e37a824f9ac48c100bae1fc5f90 0x12d492089303d807f73f7da1ddf7980e8b5921d20052e10779d8e14e7a10fd;
  Dbl 0xf781c5b64c94155ca1645707374ff87720f5121c6fc82b81d845577ad827705 0x6fd9bac875d7f45070a6c761541b1b08f11a5a68dddbbd5f62ddc64b82a6f98 0x1ec34e6832c026b8b90f3bf063baa8edb9f914c07f0652fa85d87ef31d3dcc64;
  Dbl 0x911c15f6f0a4f67fe226fb0e9af3c7c01b913cd482bc6f12c3919779b7b3dd6 0x241ea25bc0fdb0c494daae97f6293ccce9ab2ab212d934fb05e41cd8f0ff301e 0x1bc678d19f63e4d181e7fd9ea12befd0be10bdb966ed067b7eb635532f84d151;
  Dbl 0x1fbea170169c445c740cce53bb72e5d22ea30bd774245a523339232fc91bde3f 0x1ac8e08d77fecd7d23d6dc236eb7da62603b28b7f0071b028dac25add0f43832 0xbe314e22807fd770aa94d035570d2f9effb016cd25a06f344a8723b0a7bbe5;
  Dbl 0x25dd84ca8848e8488fe9eb82d377d66c36ed9547663b4b5f956c5557e3d41ce 0x7d536a3b5b76b74b0f11b49082d6a903e112f452b9dfa464c88b40171c218b1 0xb7cf8f17b4a1aec9a630eea408d8d27709abbe8a64e0d71489cb1c7e20ebddf;
  Dbl 0x2159940a88306a5e4374a4c9df0f91da7b04f981ef399d458e12c6aa39162d64 0x1398866ae7bb696dca3f038caf88cea957955dd3a84541778078763e43998c5e 0xe095c489744937443e35a888873f8221ccba22195b3fd5d85060b0ce5b454d7;
  Dbl 0xcda967dd7af17ce56aace5f98613c383e78deb31bfbbe2c8c75475953e1de10 0x4a370f582e1def39ef3129ca949f1d6f06017396511b30ad9f19c89d9386f8b 0x1539a139f97bae40a54af6717743a63df68a189223b86220fed4ebcf48280d98;
  Dbl 0x1f02be38e78d49463bb082276a8d4d58a5bc4bc59550771cc461333232d23b69 0x199d63dbb0daab161ba3eb9464ed0b8f8764ac520c7ac96631cad8be07325fc1 0x1f0b2cafce165dfe0b6d315d55b5c6d88282e05740c2ecff2120a929e140c50;
  Dbl 0x24372eb1e3cc0a413142ebfed0311d9978034e6da037e5c2a563eb8fb11be6b8 0x9e6fdc32abf55cbf2527f2054b65c5114ee6500db6f2d5a8b6059cbaffd070c 0x181458d24f92446b55522725ee63fab865a776e6d5a004968ca2b6409d14e549;
  Dbl 0x11102061cce3c1c10ff551cefb232ff225738203de75a3c1e3fc6bde06a83f29 0x1f8dbf6a1eb412f0022fc4142069183a9657c7cd94411caf3f4abaea0d4ea74f 0x252ee06a06faa8dc71e8b11b51b55e8c8d656e06d49b0fa9f73ef07e50eb43f;
  Dbl 0x1553bc72d520e6a81728ab6348549e19c111b13bff4bb4411271aa4a87da5538 0x1b231205d7ac72a85309a48347ab69292c2a96770038dcdc37f9ae742fbaf0a5 0xaccbba45f60284fddb3f0c730b54993b1aafc06262ed7c47a868944a8f2c4f3;
  Dbl 0x1675e9b105652964e7847934613c3fd5104034e2d598cd0529374dee86519d20 0x54e43a1dbe2a0c4883ec938603b8ba7bd2478dc72d0ec64e5c590e8e9d8b5a8 0x16edab82c0315add2fb105b00c2ebd1ff0b53a23b5fb1bf2e37cd49926091462;
  Dbl 0x171deaa8f8a5b2a6634a4229be36bfe7c4ac513ec3231c9040b02017fc58afc9 0x70a2fae1ef3f6e9a814dbcea1977d818d419996f52480b785a3fdf61d62db56 0x1b4befc15ef0fe292bda0df3da3de6a43f1af28dcae726304ce0b08c1e9a3868;
  Dbl 0xd93ab03a370481a7aa678b87e875123e4bcfcca14f51a6584f4c8abc46d26f9 0x1da898fd5f1c62ab367fd0b8b6430c3952c1cf91c75e8aca7b69015c16b7d2b3 0x351e9d1648f5629e45e77db76cb212816b303ab4ab5131e7d126e4cf4699362;
  Dbl 0x12a89a710426cf9a2badeea3a9f55b32ad4f37daf69f42639f035084619566b 0xa2cbde5d708fa2b0afdebd9aedd7e0f0843f1a82635a70c90028aae9879f847 0x1255e7d1946daf3c05f41e62eae746282dd66ca0c902569813d134c5fcd9d03e;
  Dbl 0x1bbdacad80a8858b0d78d49ec84dafd99f0f3fd9bbeb31fe44ae99de1b70967f 0xd5dbc6f588d22b1ae20e8cd8d5bfd1b643274222232795991e861de4b71ba5a 0x17d30243925a575e320de288d4efbc1182fd5e09ed998647cfd474a74b23448f;
  Dbl 0x95e75fe79476f9ae3eb8357e811258d31ee99d5527163d125580324b621476f 0x1d958427a3d9d9078129138794e4a4ef09a16024476f5c9802b7f961eec326d8 0x130b2c4b65826a314fbd9f0051f7ece2daf61d72e436a46ecd5f703fc3ad487b;
  Dbl 0x6ed93de0bd24ef936e4abf3cdd067cb012af08cdaad06619c6cb1ccb58cecab 0x83755726f8320dec3278f9e3a575af3bdbbb78ebc940082edc0549f183ca445 0x10c166c2df28a2ebb8a9fe66a79dfa68b7a926df804a3fedd7923c765f5beefa;
  Dbl 0x19573ff60d63de3dba2fb41a5e0f095712f63bdd26dcb1e83758a7f0e7896e0c 0x1a58f0965f7ba53bb0ece850b62f4a38f106641f618a704dae875dfa88ece8 0x13c703755ccb3bab6e18f2da2f148cde98d1bde44dbb556d3ba97c96a49eb824;
  Dbl 0xf84b4b8ca1cc88f4f77184c3e70df9a89942a2376dd52a6694e0a9c8fdc208c 0x12b2c81dd218918ab2d4423f4e50de726a6bed9a1e7bee83c5f663e0ffb6be63 0x385550eab1b37caa7dc2bd2463801d3480a56cee1761e70591ab0b62b2bdd51;
  Dbl 0x22f6cbca05a6ef06cdf89ef3ebead1dfa5ab0db3b4d2bfa8c1ab90a92da9a700 0x75889c82dbb934c8802e3620fddf31318f6a218c2c38d7e30d1d5141a5f89fd 0x208d76f58dddcf5604be553fc35066161f7c1df796b2f7240dfd6ee14830e17b;
  Dbl 0x3e38d64726159c940837e9c8e6f76c8beb4abe9da9e561bbedf24ad46bb25f8 0xdb7fda8cd1754260b072d08c163d1d14d90de7ef1f99a031d17ef1aeb772051 0x9491a7c4219d63883d423527e49cc4e278b4ef2004059def7b7ad5865e71bde;
  Dbl 0x3341eef756d5ed9e62cfb0fff5357d112783f0a94d21e2afce6e029f3527e9e 0x1ad3072a7ebf61b81b1e40171c6b56c7387d364ac85957c7dccd86cdbdc69b47 0x10c8a2558cca8b8b4f19d25b493ccabb73296c1af46a4c55cfd60ce454020dd1;
  Dbl 0xb4f9aa5677ac6308751a783cb5392635eef5640bcdaf1780aaba17724a73c9e 0x13f304d82c3df07496d9b45f83c9de1ff9a67917887af280420f96f5fbc030d3 0x1e2e3e524a965945eb813060ceb6e1d773d7b31e3ae27435b4659fc8736ada5a;
  Dbl 0x338e4dc8df7a79764296789ed1c5c6a9aab06589d1022a67546ae65ec435b6e 0x108e0f744843668734a733c4bcc3a57a6e45dfdb366b08fde5a37241b87a43df 0x1ec28ba9f0c9b22347cb3961c19626fdaabf74b7f24d8a05c53827f424b2b9b8;
  Dbl 0x131bc92131feebc770baa4c715d1d229f3f0a73d93095f2f72c85a8d27c974cc 0x16e28c612fe7b51301627361d8e2eef442b8118a80d71f120d0ead38bac3517c 0x116018221d6164b46d75b3bbd82a4c0fac78e0e074dca195818397cea29a3184;
  Dbl 0x76eac79d72b93caccc3825949597bdd1336dfbbb54137a4dc6f34d9b976a53 0x2132d97c6f18650875be8791b6d009c61b7276b0b3f2c79e50da5af966a1f214 0x906d33d507d1f776f86912a0c4d002ce701c75fc51b2207fefc168f8118d454;
  Dbl 0x8d214d96aead3ab09bd012c8953c7e85fd4c77a37bf48a856dc7e0a7ed40a5c 0x17c5f7457f3e138ccc7928519ea8fbb44c22afdf42626e7bf66d9eaea3396624 0x23fb7b6b5afaf35e73212c067884a600a8fe5dc125ace0630a1a29f5842dce76;
  Dbl 0x1d376e7cae5c2d865801434dd5134d83b23d189d86ca83048272311978143880 0x23e14365e14dedd8222f599f126afb16c537090e33f79a689b56db24a7318657 0x93417508a19080e8c85c0846a421f9f9f9e82463967b23912cc10411bab3758;
  Dbl 0x33bcd12401ce57d45952936a144e14a01399b31a0142525c14dfd3c7a855da9 0x11ee132e181a0fca64f9674820f0a0ebdbf64ec378633ff007d09bc8b454797b 0x100cdf23f9e1e11c24809e555da9c18fe264a091f8e10b10086452ad7a1acbc2;
  Dbl 0x17aa32b1c45201150e4ac1cd57a6c61b6f6fce48c49ceef16a90258b8622229a 0x114c05f7f70b15e81712837e5240ee2d214cf97cf64f5f30270e0404f24a4d73 0x22922178d89f47a09c151413b8cec6a26550dbd687bdd57415d98c9f216c7a06;
  Dbl 0x17966637dc79c3eae67c488dfaad446d43c32cc703166992f4eedae808a43362 0xe45a906b7df8cc83ffbf7726abe73117d8adbefe140de1c5794b20c03c32e43 0xd1b72c0bc700e39f2b92cce42cc7af28a69e2fbe5eeb335c873a27090f7a243;
  Dbl 0x1e3c1a451b4cf516da6d2f93186f4ed45a5b188b97f8fc0b3371407eb369be3c 0x14da49d3a1da446d935d862692842f581a96985ce107377fd6ac62287a84010a 0x144c8137bf4a886b08f4dbc9852529d7a99f30ad72ab715892fdeae35875a0df;
  Dbl 0xafadb75ec53d8331bd581662464b654de66c135cde56ebcb51ab552fbe0a8e7 0x38d8565ee3ac4dcb0f01135b8e3f66271d3196c31e85c42679c57674e2d0fff 0xf5336494a9b5bdcdb53dc880865c4f84a7d08807d7970baf187b9f18a1cd9b1;
  Dbl 0x171c7435a4fbb6df14ee72e64efeb58171ee9a2c057c84b8a13b1f3b1633d51f 0x23117e995a42ddc8a11bf493787cd76b1211fa03345a1be159bbbe9335ff05e5 0x8ba252fc60d0c1fac3e730595e83896ab948d6883aaf25ee0a5335c085e5a12;
  Dbl 0x18b6ef1ca98e43f6c525c22bc629a351cc6a5c3892a18a552bbb1e9b945e49a1 0x4753119561e765ece7c316380d292e93a4faad1dbdaae7a54ff7211f23cac54 0x208a3b6ee9bca3c928b50a772d3aaec76aeaa10dd822284288c99ddf8198472b;
  Dbl 0x122230bfdadfe7931d881b8213fdb5a32b545fd9032e44bb6474f7171fda3812 0x141cd68cb7dfcd4e661938c9a0c281d89d235fe3c9fc1736ee0d1f6ce5d19c23 0x83ca9a2b90377d863ec93121c5e7e6c5ea15a1550e7dc32f4a414a1646ce110;
  Dbl 0xab3b820d39155f5f86faba3a0a4600d7a4b595d64b366685cbfa5875c611c96 0x2355b9237e069f2f3b6393b5dfa3f3d219674add893f8748cdba4a051b5d5e2b 0x21da002da999e4a2df310a4a3ada6de02309ef92891681393a3c5e239e9ab425;
  Dbl 0x1405a3ce9230abed835d2e4f095c6b93e83168a847d750189ea44c41913f8d30 0xe2dfcbfd96af66aad59d0a47ed26e348954fb08a3c006a5a84f19384d6945ce 0x22051aa08e8495281fdd9ba7df7049d1af0fb950d5cebe656b5b80075633497;
  Dbl 0x9dcfb917e5e7d81dc9324043d64e69ce58ae651ad8d00a0f130f5d04b189056 0x1e900cd273476ffa95cf42a6d7edbb6a8731d6083a061904e5589d37eb1bd278 0xdb6cb6f6639d79528986ffdd962e85c45b9c0940703f67342205e97a3a35d11;
  Dbl 0x144e2eebe3cf2d23f55da5cda21046c404c77d1139fd5e4c4be9385648b645b 0xe3de365f8508c1b5e4649b9a4d4aae80ce2f457d44e9ed2bd958517885a604c 0x19ae8545eaadd75f0cb64df522df32b1b284c5906e628a30a0b0e413789eefe3;
  Dbl 0x19fbd2333b23cffdaf1421ef580d181ae352bcf91945f3b4f44dc405cd1fe310 0xde77c10f3bcf3b3dbdc317d793d23385be72fe11648ac2155053d812d22bd88 0x12fbd8407f26e6b8838bf1d7d37bb528b3b02e965395c2bbfe4a7b01039fce6a;
  AddG 0x2012bff13a8bb6777a880b325ca447d2478ff41ed4a4f1dccfa9ee535e1ab6d0 0x1ea970912a806c72a3a306e709e93c31aa43d768c5c5ac7063623d6c41856480 0x119906deaceb8ac03c47d299b6265c72d745cfd124dfe7bf5bd3237825f0861;
  Dbl 0x188dfaffb3d857cceb63aadeb2524f0c23f72618bc7f53d8d798fe3c2e1f5941 0xb54d38e0fe1a0c0a69b3c5cf9ee55139bd5586145481ce0d9bdc835040bafcf 0x14d50a40f087ebbb05554ddc0219f06bfba779d742020a1e82ca13feac3f8c93;
  Dbl 0x1d53c364ff3a11df846a81ccb2ea8ef3d74a085205d38181a68d10c652ca2064 0x482e50a479ed02f0f86fd90b3088898a476896743174ef1e99dccacf5811d52 0x1bb2206fbef53a2561fc91cd6cdd66ff4679f2d70974508ae879a5c983e2d76d;
  Dbl 0xca3abd00088fff61ae6aeaf11a1e90957b5a9eba0a27f4c0ae56bfe8044561f 0xd7d6fea05bbee109f6317c96f72f9a33c16610775fe94a84cf4f9c3c08eab75 0x1cfa465cf1e3e6690ec58315c30ea2a64ca42a3ce91706d18237f1e5b8967cc7;
  Dbl 0x1af44d80f56ad69b2bb949a53204ac8114ac533fb935349cb3111f530083cef9 0x9618ece7bda571a8e8d6b82a0988bb401e63983d9e3804bcd7290d7b1dcf99 0x1a6ef5cca8682698e9d1f46d15ba2d34315bba83e72ccb32fc845202696a4ad8;
  Dbl 0x1f7073d17fc551e77fdeaf79b22a6b11e5cb2e2e7a622a30b9de39bad673dc7a 0x1ef857d2e01574a8fc905db6e01a34736d48808a4a40537405eeb769e00f00 0x100cd2f9201422c0e63d89e371ed50e86100375973d4629824dd8f69bca59fa8;
  AddG 0xcc3633c536a2405dc5c6ca9376cc952219c09faa740688714510bb1b1582c8f 0x226261db3a83185ecb7dcbbd6876e8df24b4777ae16cc51b3e930405b59f4d03 0x11e601014483e016736318c1403fa6d0165c7bc722b4a1a33479892b41af5853;
  Dbl 0xf001053adb4378ebc318b54cb90b5d7eb01d15ad0e298bfa16693e596611f18 0x10d28f0f6c64bf926d41c5b7bea106b71b05d3f4b68886f13453646bc1d88cac 0x21196b67e32460a0bf99e850f105c4286888811ec134257a5e6049484d91fff2;
  Dbl 0xfb338fa2bc9a084a9af144af16f2e4d89a446c0387940584aad8e08047ff0f3 0x1c482fe1ed38cd2547aa919f17f7daef2239f42c154c45a7fa0153d109953ffb 0x647dae657f619644e41a00e3a227dc453c0d49d832a156a5ee0486d51b97e12;
  AddG 0x28d804e5ceb7175877edf9ff65557cf1f69924f69c1dbf1ff7b2fa9d7d76ca3 0x119fd1e3e212bcafa60276cd34790c064eeec82c44e3043a19526ecaa961aa64 0x22d5987d622e70918dd66639904b67b3bf27793af4f74200d0bf2809c94e5e79;
  Dbl 0x1f9bff840bf775af173d998aaff741693d5c782934866460c73546c777a33b9 0x1d4b38977643781c1cea6bd644ec049fcd131551f00e06a3a327054ec9aad939 0x20262b371ebfe8d02f7fc0715ecca77a82d20b5826a8810e4497d0eec672999e;
  Dbl 0x1ee2898e5111e87a66c7c1b2985ea14e961e69f387ce8b7209bfc2ef2832c0f4 0x2ab6bf69a8074f25feb8d53decc9a4a864ffa9c40e4f2bce1853d067938cd4 0x158bd24419fbfc4a98d03049d297dd05f4da405952c348b5d9b49fad27b29431;
  Dbl 0x1662f0e5e1bc758a21f1904b4bd6643fa7db83799e488695140b76b157c028b8 0xd12bda0fa5b2a69024b592007376689bb9ee8727fccc4af467ea8651e4bd01f 0x1aaf3cc184e257fdf6a464913f637308aa87a155092b600145e55755ab43f6b6;
  Dbl 0x6eb827228fee08c233ba72545c9fbc6aa779e3e082ac744203818ade2e16e37 0xa285b86c2a14ceee32f3ba364bc2c15c8e65f9f4059a33c94df3b0c073ef4a1 0x16b64ce3a8ff4194bac1fecf4c1d8c60844e27987c98456cd414270b5a993525;
  Dbl 0xfc663649ba6d28602eedc82d3187988c2311df30b3b04524aa306052782df00 0x58900ab8a098587357c37089d83235b94c3db3b88c7e6f3d758d25850cff1f2 0x1e1cfd371bfc38a3a3fa7ae6b9a3b4ff046e2592dd9f6bdbe41b3d434669a422;
  AddG 0x137becef101282d1db180e78b863d8cf4c7f3446b10be9d4051a89d20796ccd6 0x4d431688e53fc664bc05e87490c2245aebde461c269014af0c90b29405aa306 0x1a95aa06d6611f0b15ed71a03d277b7ffaed1fb8ef3aed3bb856a45bcceeecb6;
  Dbl 0x96588664f3c888a22701a8909646e24bc3bb64e453e2dee7ea62f5ef4887619 0x1033e4a7464abae483b9678f5cd40f01556de27f903c89b71967ae13856e776 0xc0eef0929361837cc63bd854b2ffbb18bf64cbe732dc48fc521165d25b85c3f;
  Dbl 0x6ca548652c2baf6585a0710f7c39ece8a9ac07147ce704e77edef866b4f8605 0x15733073f7292ffe7582a077ee0d466a6774355b1bd16c46866601f2f0f23370 0x23e1d045b516a7e2cc105d17232034ed45d78e586c9fad7b56f8e24ae3681fe2;
  Dbl 0x110f73d9385af049af9ede0a6d0064cb4ab5c7c4acb7809e64f1906f526dbf1f 0x197de3dc6c7726d371c0dfd9b2bfab61b696118ac65394e99a698c34c5b0a9bc 0xd003ee3a713631783241b6173e96d46ce48c106f49073d18d8133b20ede03bf;
  Dbl 0xf2952687199ac1b1a8d2e37f523df5a6451dae5c7c122346ccfc6225a215751 0x20a4ebb236606dfdd88abf58c6a6d088e258c2c9ece49971481299e2847d0026 0x90572b556733da07712850033c19a27d83cea04ba79315a92a62e57e0900340;
  Dbl 0x15b8f639e8d064c52a7b19d151dc373e1dcae568c38bbcb45295ba5980e44f3a 0xe24d2c7fa68d916b5fb2b0126b0e6673867923c48d29040491eb1fd32cbf54 0x1c79519cbc86899520d612ce37fc453483b744e17deedc982e0d09bf14d7189c;
  Dbl 0x17f07db2eea0c7f21186a890386bade99bea908a37651c44cd73b09f6e23202b 0x6a28a17b49a8e10da4cbf9c2859183cb369841aba734507e73492d0a2bdf4c 0x19c5edf7677f43465d33c05bedf68fd5e307222a1e817e23d4181186d00e5432;
  Dbl 0x172d91683b40177e600d858b65ed38c581109162b1001826cc5a44bc88339f8a 0x86c1a8c58f8d3d68def043063feff5e446ea624a5732e8db5a70b7118da8737 0x1bfe55fc3f52e7eea77ac2f60e68300aa477dfc4f34133ff4c5a63623c89bb7d;
  Dbl 0x1f5b28416a620d8f9698dacf14bdde4b4e6262c189b1213f92ac84b40ffd7909 0x1e23153f191ce131d03009c618ed86d8bc35d5cb714e263c1da4e61b205dcec0 0x95100173970cfe3fdcb71c4adad927d38726e6c00771cc06b359f760369e708;
  Dbl 0x128cabdad16ab228641c8f2bf33e24cd4878158d8385dd0f8cecd289dab9f269 0x1513b19989aaad3b160077df9565f680da056da54b65907eb775d4dabffbf1f9 0x248337377c520cb66af24f64cd70979a6f6a4594d1eac404bddcfa8cff854647;
  Dbl 0x1d5a88b6847386eb149933d665b0343bb29b94d1b90b3211328030d43e2e25c0 0xfdfa78f11ac6da97e073550d792cd319e8e89e5d636e2218d9bf1ed5f214f0c 0x14fdae4b406f20cdc89bfb2907df69c297025ad6f7ce2e4bc53801f27f51ee3a;
  Dbl 0x205538a3da48805ff9fabe8b63baa0411c1186c735721a7c6d8014c97a5a0138 0x15f1147e98aac3e3054445bec439b50f5420316f9296229bf58ddf22602d4230 0x1dfb4b1747fa0d48e6a3843d4145521809f8cc02436353e01271ccee9e9d99e3;
  Dbl 0x204a4c3b674abca6f6ff75766366c77a4c7f6c5fc7482540be7f75e463509dc8 0x113d2ca0e35c968834124fe57c20406d452b58ca86d3f4472c442e4dc9eebd43 0x2307b3b524fb09940247e821c08e51950b9a556e1bfdf6916a437b3811448893;
  Dbl 0x1ac02db65b21e49f7d951892c0a4be950a73952cbb3aa08b97d4e7ca1f7b5a90 0x215963396092ffcbe9836edaf5a7e65f2924782c1d39302b43aa0eeb29fbf2ed 0x21af90902c7979d76718b814277fa94df5f0af1d248664170b081a00cea4dddd;
  Dbl 0x496cef302917320097285128bb31bc8a87e3ad317c5a641cfb7ae6d153249ee 0x172492ff32c64b98308ba2ce027ecf76337d95a10d8ffbe7806d94a7b4bccb6d 0x1bca69c331f2dab7bccb5f05199a051eef40c673db6bc73fcb3a6ece037fcc15;
  Dbl 0x184b36d7d2ef652df5d898dc4ffa666db7db06adc188d1cd4107417abd2c67b6 0x144bd1d76ad60f058ee7111e7f2d34c60ea3bc06d53322aa45c928911df80347 0x1ef066aca10c624a7de895625c11114e40170ed48ce261454482fe858fe8fc97;
  Dbl 0x2321fedfc66aa6322ca235c842742b72c31f8ae5b76e87bda863a9868f197af4 0x1feff62bfb85588756600f5e10ce59affaa61dc9771fec31d0556e6bb646b90b 0xf0548eff8fe2b2de921083ffa0224f95cc710936388422776009687cc339fcc;
  Dbl 0x4af64379652782309004cc3097cfdee93f07b9e2ec03e885a54170336ca0ba1 0xc1e34b9031ca3871d51d50407145f43401971c850f42d3ac376797bfcc84e42 0x1a2cbc10043959540a59b8cf53fb0b05155f1bfc3c81767655135ad185f18024;
  Dbl 0x7dc21c2cd3d9098bc13b20226c7afe2c8de9f414c3e1d7ce72907429c93424a 0x196218c594606c37e141314936f596c8302ae4796784206bc05a2dc0429259fc 0x1388a41937a8645e7c67e9c74ae2201124a50171475f3ad6d83b3df0ea4d7f46;
  Dbl 0x13d48a122d160e003097b35c8863298238f4b914543471b48cd5bcbcf8beb1a3 0x114b16ae00c253530dac3f3600de7cd2c055b3a9083ba80e87344b89a716d749 0x1d8d7976fb7e3e115e4e76f66c41ee781a9a6ed09e25d90ccc902a9a20c03ec9;
  Dbl 0x19a6a284d551694cc22f27d2d9af751fdb1a4ac05376c45c26e275729a4e0874 0x15b60221daf1129b65db646bc4ed65031c3da72ac7d48716852a0a18ac4f23ee 0x9809b2a87639d1a66ec0e933f85116db79f838f14a831443b32dbc34f12676f;
  Dbl 0xeefc4d2e68e608e172d3fbc7a3271be6c7ad5347704d1959fdd5b44ef6d217a 0x15ca63cadb3a50f8f3f3e7830ec662a6ee9fbc3af5ef64ed82023864e3d76e08 0x9a2f30eea39dbe5f113a599ec129b5c1f6656ade4fad3790c6d062669028d28;
  Dbl 0xfd4a7ef43028b7937fad205aa13b54c6b188d77d333712b14309c78f312ad4b 0x2355df27a48f99cdb545e27755f0076a71c266c9b73c7ab986dae5a0b62076f9 0x20265638dd5ec40d4e5c973060df025ed517f6c82fb8181c0ae2675849f01fca;
  Dbl 0x24bf8f9cb797d3c4ce9c7f2b3dbb7283dd04382ac26cd9955148728755189348 0x1a710f200159b631df43595f752dd29a0fe16ea5fd40977dc351652c695f1bb9 0x17fadf16261b341cad30276d5f6d24a06aeb3093d524a04ac27eb72f8a2d8c7b;
  Dbl 0x7ab99c0384d73a7d379152dcbff59163cec5ed70e75d587d8b395c25abf4cf1 0x1a6fbc8b00c77af66970f1fc9a730b284dd34d04ec69010c56a845b38cebac5f 0x20ff9edc2189bb3a60743347b33069bd63a92dade7968b7e62d2c02cc490c37a;
  Dbl 0x8125b864513dc196dea72a2dc7cb9fe31b96e39031fe24171b16b9e036db37a 0x1aa6e497af44c532b5077d8f1f6b63f2f43ae1debea0b8a6609aa3ad9c1bd675 0x21b9de2f0545cfd7b25b92cf52167a385e93e4cbce30c87957693fab74e71e8d;
  Dbl 0x6498f062ba642bda1db6336554d1abf8d252de960aba9ab6cdaedc4d40da873 0x971300ad4d69d6d53b295487e7b053e84463cc9f7d75301ad940d5fb4436476 0x836c68ac9d03e9fda09247c8fe60296f55de4bb1bb07500245e744da51f615e;
  Dbl 0x1e93020cb8b4c48cd8a76538f7f51e007dc160691c68a353f5e29eaa8c00a0b9 0x1b67456d971118ddfe42562b489cf6709e7b4962f057689e4f3272c4e82e0819 0x15703a31776f0de8db6ba87883ac638a25fb1c9a3c2f59665554e74a89ce8083;
  Dbl 0x16b05659c260fb9c9954c81885272c6434167ce0430594486d304a1067998218 0x2503c42d266cabe91b71f5f373e53d95358a1be578e50d44d01b763212dc23a9 0x1a49363baf0a4769ca057fe29ffff1c7cf61213a86ef9a7ce1e6a3b1d4b4e953;
  Dbl 0x21d001462443aff36cbf67d6521e92d7aef2c016ed365d9de45db6cd8b6e3bdc 0x6e30c9f02dcc8cc3c236bd603c230cd7325078c0a4f638b7c77469fb5ee441d 0xe245c8ae7bf8f452a3e5f004fa910e2cedce82b428adcd09c618acd195777e9;
  Dbl 0x15d133d457fa831dd3844d3997875b087cc86ef0ea62b850ce8c541c6cd5d12b 0xd3443ea1213a91436eac6adfbd5730a2fb1bfb125e0298c9f8085beff794a97 0xec20737aac066ab69c334fd7fd7c914e51055933e548fa2c7dccb9ad62a64cd;
  Dbl 0x102c01f0fd84f186ec8c915cc1283c6e54483a16997db21cb3e692cc4dfa556d 0xc86b4f57ec1f2a008b031ed33806725fb57c076244deae86bc4f537ecece126 0x194dfb27dea30ee9bbfb57b85aa9cd4349ff1762b0d854006c7e6e1b06459d0c;
  Dbl 0x18cc4322bf45577acd2702aa6db73c4c3b28d228bbbae49b9dc736fdda06eca9 0x10ab4e38403b296b2bcc736186ce08d49e602070f6a2674096819c3213efd1e3 0x2343753cc996668e44ac7cef860818f8f7ff15f941c21efbfe4db8d60ed3de2;
  Dbl 0x106a1f0407883feae011602086c4b62bad9d88a311f98c27ed228b7bbd6035d 0x44897c0bf4eff960d2b9a5333aabee815872e2d7773959c4a3ce82115259d6d 0x14ef0dcea90c18ec60945283b3d2a747631ec39862fba857a4b40c9330b6c7e4;
  Dbl 0x1c2d39c65c49bc7e7e93fb211abc3596f04b7d7ad87c10a25b2b00f95bdcf29f 0x1c8df2a667d192355c5a12725a109fb6e32774d5b846329ba1fe6cf75c27fb39 0x113dfe51c7d09eb1779e73301f45046c3f976a58d2b054420d251cd4e83f5156;
  Dbl 0x1392967d7e4ea850306fdce0ffbfae4b8f860efd6f77bdf20ee18b165355ada8 0x19cd7a05518bf1d0baa71f0497af9a3d190d60615779aab1abc04f0a6a8af6ba 0x16cbe863bd9d76cc74fca5b3ff8d7ecf993d8dfc08b34c802918f9672df0be0;
  Dbl 0x8897fbcb807170d3886d897470a8c91dc63c916f8f9c70478374e8c82407104 0x176db09c9980ff7e48b4f399e47ad5380b21b725ead57e6982a643ea8a72646a 0xb4fec7e9d7bb9b3a4ec6840cd537850e104dcfd12bfc3f4f8402403dafa2c73;
  Dbl 0x1fb3a38d212cc5b471d2400eefe63c1c8aa93eeabe0a83328a00fb25a25b6e6f 0x16a68650c54b7e56aa999d4236d36edeb3081e621f573a01c76ccdfd21292f13 0x90c8f268a852ad934f31e47977559551b5ec354f4aed583798b70d81d6a84a9;
  Dbl 0x16b8bf9416bc09291eba00075c4b90be2f08883ae7b306f542c668d6e7eaa2cf 0x2f1fe834ca3b9a261e7c6668b2bc10093f76443f5404ba1d361ffccd9c8a0ab 0x245216348ab094e3e916128cdd2b0a49a6ceb393b155e84579e89adab0ecac79;
  Dbl 0x6f8b30ac3f865cc9d370d4af70878686fb7acb5b1dbd3a3a2c4da567aade64b 0xccd9ee3b373642bfc547989cb9b05d80ce56e81b4eefba880272909483d922 0x525fda576834edaa4453f91c12e75990e84b4886ea64ad9e80843c9340aef75;
  Dbl 0x19cdf332da9eea75b866d7648fa325be397044cfeaa00d96417277fbdb237f2 0x248e4e5cb3e6a89b3dd9ae99c64d540c3b28b2cae322b3fac942889f1ef08d97 0x3c94385aa583e393a8386143b4d36f724ff9f772fb36f1900a7158e27be7bd7;
  Dbl 0x50d4f172691fc05c3d0a64b8e6294837d39808f2234fd2e4f9fd40b5facaeae 0x18e582399e69d259e4046b2621aae9bd09c12cc5ad236ac5e9136159483fd78b 0x20f9a6e262adf494d7997d3555faf608f8faebe2c6e2c90a18044ce9113578ba;
  Dbl 0x57883a5fd8f3c7088641c6fcafbe33527d42539918b0c02d69bdd88d5f0acbf 0xb884da4c4ecd37f82155c17f6c60a1091ae45ae6135d784547337581f6278bc 0x643b8f13e3441744c244707a356fed4ad981eb77335c9ae41554e18edc9225d;
  Dbl 0x123afa3f919cee77eabe764372c50a969d3ef4d4191f613096c2e081e86295c6 0x23852316fe3ee539a5834020d1ded939a55c0c1ad7a3fb326629e843666278d4 0x3019c36a82040e1cb81adaabf08dee586bf715bb2b03ee969f2d3e56560f873;
  Dbl 0x20de968a4799018da177c50e36a1d3dd934f243b957ff4106f10342699fceabf 0x94a1021dd60d20f8702169ab94b476e5768b3df0858debec58ed66027235c04 0xaa048423bfcd569c25a08f5e1db5785183140460e2974c267f830ea3807a93b;
  Dbl 0x15495d094c199f5617dd77e3231e8b2bf1fe3ab9b9a5d3d9eabcc052c243703c 0x186a6c3cbd7af3ed6f14cc62abd5bc828c309e67ac7a95a6b2341d4dbaf32590 0x6765313d002f10bbb91dc143eb286320c79c6ff8556e2a23558f29f9f78136;
  Dbl 0x1b97d38983bb02943099b70a66525d2e9e0d95dd85925daf81c095a2aca28c90 0x17c42651f266af2a735485917d0a9d5c6df9d272027e79383d942a9cb443046c 0x225371d15f880ae945133d63fc16280b7aa684ab245a861b190047cbf276d1fd;
  Dbl 0x1a69189ee5cb6c2809cc909a9eb480ce97b76127a7d5e3a5a749deb736b28343 0xf1c4084bbf13b1711e64e476a3ba20485f5e32bc541da939c24be7af37e495d 0x17b397806aa1df3a0fcd7e72f95edfea8e77de7e7765851ef1b602d51f18c51b;
  Dbl 0x176bf65494167f0164cd14f3fdd9add14e110ac90fd334f2e924179ad2cf373b 0x150e382774bc467a3fa6c788724436c7d19ab803f0659a34159f083d12f0657f 0x1711eca0722150bc8673430f6145904e0244fe99957c27ecb11de4c379ec0b80;
  Dbl 0xb8e8cdf3a6ea5e242e0503bebcefbe4114aec3453021737bc397e81ffb30b91 0x1e96babc86d8fe248f6f7cd600bbc86a2c646ea0cec30b9b010b2dd409947e8d 0xb158448acfd8f253ffd245ff90145e1b5074d577b55b8e8c118dde033825feb;
  Dbl 0xdbb69ad2fc383efeec513c8606d8461465a570c72eb84b2c35b634eaeb56da7 0x60a60300e3381a7e59c1c0898871e86ce6a270242f68acb8925e9f3fded7c8d 0x778b8d366d202ec182f89979f2dd47294026f8e22446b0357fc1817389d39cd;
  Dbl 0x1e7f5295d107712be44748c33fad2c57b3ea4ee98932c87a306b36e3bedf4ea2 0x1d8a985a3ab22844ebd3e29e33578b9257c9ff886f63ab1ef2edb21ef8b7c726 0x128476bb38a5844902ab0737f3cca189afb00152ada5e68a45bcfe42f8cc0112;
  Dbl 0x1f471a2cd19f1ff3792bcf15f8dc3d886644121c3c2e261a5bd8bf8ebe234f7d 0x16bc4e5853384c3a17766bd1fe8cec57b00db218b16f3afb287e639ae8c6d737 0x14aa5a27eb556a86f845469e231fcf97de7c0a19ab1f28ad5b7aeedfcbd7fc64;
  AddG 0x6496e0c132f08b84f2bbb0b74e99de488c349138df27267d8aeac5cf823cd3e 0x22e93a1318da831690d4bbedeac034c0aee393a0bc3307d4fb5c31346435d886 0x957aa2cfa9df395e5d2b1f968882f36c7e832526a87396f0a79e2befc6b8657;
  Dbl 0x9c1a6638022faba731ca6287d2d3378dd3d6298eff9e8db17390d1a28b961c9 0x149d012655d3d923a46eb9832fe16199ce1efdadf08f799655d07888acc233ac 0x550f7eba4277d7631507f96d827ec5ded21213d1bb93702d90f69e2c2efd2bd;
  Dbl 0x15d0d0d31fc4d6ff2307a23388c6f6c3dd222b83e05d65f37936288576c5a3c6 0x15e22634e82d56c19de46b2263f5fb13cabc168a663fe9eb3396e2ae14257ae0 0x15557e06f00cab361c3e833fd2d6608e18abc383018db343405dfc826423ab86;
  SubG 0x7a0429519cc102dca1b472405b4ee47039beef69960b1966891593ecc30646b 0x2338fa837a7bee8bf468d6b2318e527baae9d814bfb4a96abed914c0d31c35ee 0x6847dff4b3d8b563b06962677e8d1ace4b19439faf3f6d04fe07b31c8bf9b07;
  Dbl 0xa3e4ada32772a7e476a602fafa186d89d71a39dbb240c2ef1ac90e47b7813aa 0x14a79ef2ef558cee138df6ddca6bb77dffac94986e6c330ad9f6eb3bb23752a0 0x11a1bdcc65bc8231a4c1b42d437ac081a4b96353f7cbbad2a7708c8a45bf124c;
  Dbl 0xd67bbc805c16a05c1491d6d08f0934d18fb70d7cff48a9ed325393e6586a9f0 0x2523648240000001ba344d80000000086121000000000013a700000000000012 0x2523648240000001ba344d80000000086121000000000013a700000000000012].
