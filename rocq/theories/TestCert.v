(** Certificates for the known answers of testsuit/test_ecc.cpp, written by tools/testcert.py: chains of doublings and
    additions of the first point, the slopes of the line through the two points and through the first and the mirrored
    second, square roots of the ordinates. *)
From Coq Require Import ZArith List.
From Verif Require Import ECCert.
Import ListNotations.
Open Scope Z_scope.

Definition chain10 : list step := [
  Dbl 0x4285d8f17588c287bee3fac44532f23542e84c933f7ed4f1634804d51747b509 0x6e0e123db5dd13e534055df28ba16056dbeb6ad7025f7e3ce709506f83401749 0x242ce8496184b80cae6951d356e0ad73b7a854d0de951f16ba1cf0ddf491329b;
  Dbl 0x5dc6db01cc26b3fa7ec15c732c434878c2bf4e4d7d8fe4967244f0633cd05b8d 0x9400a00eb2f3e3e4827ab66a9a8623485c0f199dbc9e9ccf6a1d6dbd5e973b5d 0x56bba0377413477f296643570e357e1ef4518fb812ab1810df8c093178827bd7;
  AddG 0xf062477c664a1ac3aa1a2ff46ac62fa2356dafb3adcc233c1c8613db88d4c56f 0xfa6533caf1dba7518844dd71f873658eb4205dcdecbe1752f5676483474be58f 0xd149002cfd6289da5868391255469993ddd0284e20340704f6b1a5b12db55bd6;
  Dbl 0x814b1945f0262830f9ae0cc5a855d9be8813b739002e611931fc47a19f82ed57 0x2f358136310ac41fc95a22d1ea1aebce4d48004bbf182508cf49fcd04edd9bca 0x2b89fcbb6a0809d148b441dde3582feb2abc5e7cc411e8ea726a3c5b0ad4554c].

Definition chain99 : list step := [
  Dbl 0x4285d8f17588c287bee3fac44532f23542e84c933f7ed4f1634804d51747b509 0x6e0e123db5dd13e534055df28ba16056dbeb6ad7025f7e3ce709506f83401749 0x242ce8496184b80cae6951d356e0ad73b7a854d0de951f16ba1cf0ddf491329b;
  AddG 0x437d2dc8786b6227b47d459d4882575a2fae318a8765d05680bcf480c1476903 0x4c7e4c7bd41f2b31420759d41d9c48f24c75d4e42f1463195ced6f755f389157 0xd59dd2717b1184e991b68ec02c8a031ff5225d01389e93bc0692be2d2901fdc;
  Dbl 0x4fac045939d2501c86416460942482d9b7d2515b12b19a9d39d1521a1a81f071 0x774b43eb4004faf4d2ac3ca1bed10e36e088957f1a6f22dc00218e64b4836872 0xf7dfc6b549f1a0b6e9cfeaf662ac47d50a72a0193bc6a7f36ee26197890116f5;
  Dbl 0x6998a0d38d9e047cd187f59f32b5ee3a7de4e650c08bedaa89d9f53017b7f5f5 0x99fee4e144c43804dbcd2e44d967b3a30842af2471d2a757eb1dc589618040a5 0xa05b435f4e1f5da733374478ef38605798514e969a951502774b57dc4e38d5e3;
  Dbl 0x92c715f07625ec38bf5ad5ae13a98f40c1dbd7a2c69c8e157e45f4b3e70c108f 0xbac165ae4f97402a38938c3faae5e13a132311aacb393bc2fb809cf3e270bd12 0x86a75ee57bfa6b58fd9e72d1c6dec77bb08a85f333f7b9514120629484bd2bfe;
  Dbl 0x1fc6c3ec7e02e273ca842b12cb54e09c484161694f89766176ff1d41bfed7023 0x3daa69460848d41478603758b2651830f27b2eada342411b61ede0f3887e1b1e 0x8ef64ce142f67daaa3df19b61f0ae29b5b13809b78d1bb39d567a2060e0d2a93;
  AddG 0xc523ce19302db0031bf0f54220ba91e7f096628bd0efa007c0bc0ef971bfeac 0x3b76de012a5c28cbc906e8e8732566c5c99e56547b17961fba642073f9a7b9d5 0x89901e972c606b2b668775f11835fee168a467ad7c9bc74bab2b0b0c1605f389;
  Dbl 0xe3e2fccef0c683b7c6b17449ecb4f42fa521de2e4e7a3874f4a18a0130ef751b 0x69e466a91f0d585600c0fcb6fa4dec39860104960c044a0f49ab210205a45546 0x74dd6ca21cdf5986549bf1ba1c0140bb972555eba589e6fae117d7396d6fd431;
  AddG 0x742a6d1de1de3ae54e08d083ff33cbd0dcbeb2a1f3af44b5b490a0ed4d2d6ce7 0x10409fbfd338d916b30729ea4d2b2de5b7a5d3d33bc230d89039e59a3e21bb97 0x2d96e567ea9efe01b300dcd38eadeedc1b7a67c111ab709972571cba138b3f26].

Definition chain90912389 : list step := [
  Dbl 0x4285d8f17588c287bee3fac44532f23542e84c933f7ed4f1634804d51747b509 0x6e0e123db5dd13e534055df28ba16056dbeb6ad7025f7e3ce709506f83401749 0x242ce8496184b80cae6951d356e0ad73b7a854d0de951f16ba1cf0ddf491329b;
  Dbl 0x5dc6db01cc26b3fa7ec15c732c434878c2bf4e4d7d8fe4967244f0633cd05b8d 0x9400a00eb2f3e3e4827ab66a9a8623485c0f199dbc9e9ccf6a1d6dbd5e973b5d 0x56bba0377413477f296643570e357e1ef4518fb812ab1810df8c093178827bd7;
  AddG 0xf062477c664a1ac3aa1a2ff46ac62fa2356dafb3adcc233c1c8613db88d4c56f 0xfa6533caf1dba7518844dd71f873658eb4205dcdecbe1752f5676483474be58f 0xd149002cfd6289da5868391255469993ddd0284e20340704f6b1a5b12db55bd6;
  Dbl 0x814b1945f0262830f9ae0cc5a855d9be8813b739002e611931fc47a19f82ed57 0x2f358136310ac41fc95a22d1ea1aebce4d48004bbf182508cf49fcd04edd9bca 0x2b89fcbb6a0809d148b441dde3582feb2abc5e7cc411e8ea726a3c5b0ad4554c;
  Dbl 0x5c1000ef19543d057cf22aab7bd2583fb1ad3e941d876a571bd25ba686030a66 0xa73beed5adc184ae0c84aac35a24e9b0e89ec425280bb8773491d3b5ee11ba98 0xd6f25ae4f1f04c55be85c021e2d636859106e829d6b45353e2a802f340460c99;
  AddG 0x68b3e58009a606ada877bd366e0e25f34fceff0aaf26611ebb9519ef65b3d8a7 0xb3a7c22bb0073fa6b8a553d4ffd5f1d8a0b40d33adc71049fa51a3e9487fe541 0xc2fc90fbcc8b9e9bd0c2e0f761068db8d663a98814e957eb23bae5a7812ffc28;
  Dbl 0x18898cb9d925a2a9a78b32aeaf1404d20d8ea4e66eaa988007134b71907d1047 0x2b8eff2f1007c29ba4905167b3d8c9e0ee7cc94bbc0b5b5b059c0c88afdd5351 0x7271b5d6fed136d9831c496361af66bf6d9f4bc94ab304fd7a7ffdb54bc7d4b5;
  AddG 0x24743a5f7b260a6e2d059bab51e5e1a5674c4fecf264aac6a455eb6750b67432 0x1fb63f35a0b206311d95fd8f558b73928cd8bd37626eaf60aef7e113ba96472e 0xea816091ffad30d4e169d812254446fa2ce001b0c25070c8cbc5528ccd4f8ca5;
  Dbl 0xbf60b5fbc3bc9a48b5c0a245e55ab26af6709a0daaa3e66dcb68c15c2fefe847 0x2359551601d9d6cf45536691fd69bebd53a64e1c7e0396b19cd0c146b815c45f 0xe5ddb71904a1818ae23bd2e515894658f0414e8617b55e870b85483e16789755;
  Dbl 0x9b627a125e2748b70725f667e2a1e9cf235394e0aef062e772d6bb99fcf47c03 0x81e3aa042e6089d7d878f53596c39f65f0bbb75e2872ec9063d014b1ff6c2025 0xd9a2a70557aea9b182c5c7fad32a8e7e0958bdcd1c272cf2b80d0aacad9dea71;
  AddG 0x9d5ad33527291856cc4eb17de5eb0bc7995886356f11742cc58bbfe9da0d9392 0xf3a0af9d6820502d4fcfb4dc2f9d23e704695d514219c7a162aae513e09ba4e0 0x954390c5f5ed2de98d6ab66ebaed81ee5d3510638fe2dd58b88f62cbd7fc95a6;
  Dbl 0xc1ffaa84438c9622bdef679a796cf46286c9819f2f38c5d11d034f1fe8449e04 0x8618ca81f2f5a55804be26b1d454c27224f91bba7f5768a5fee3155b42dbfbd5 0xe1f65dbbe151fc3dfb5509048c53dc2d5042c57d111c9423c64795709728d808;
  Dbl 0xfc5106d226cebad6aeeb60c4ce9faf38427353f45faa2d6bb100f9754aabe47 0x89ad0a75ba30be7b35399b3334b2d6d0c151555ecff31cb1670e89910a8e675a 0x69eb4298dd6aae0bdb590aae9522e4d11f80442328c285a8573a6ffb326a01d1;
  AddG 0x39d99103d24b4e162f8647b29864a8cd1d2bd31fce3665f1e073d6fff5491b03 0xb16d3b850cab9226bb18a913bed300c702c59898ddb3562272bd418283403a4e 0x5675edd5cb1aee2f9db3b442a3642927c6b6c8fdac06ee0fb721f265ce18f6a;
  Dbl 0xa205d83fcb37a953809b82d2f1bc2a7793ac8b0ecbe2540713a689b5be115557 0x10c2653807f02be86fd3b51d6bbad86c231481a251b3c2268f9a74a6b8229c56 0x456261b957c89fc9335264bae545d2e9e7ffc267919306bb2fe1a0ad9a949aac;
  AddG 0x93637ba76af9970b9190ead8dd387f17193f6c1e02c6b568bf7ffdf9bde5f42b 0x106ebef9b1aca4dd2cf25a90a228657cc8287991a64060ee6d44e8b406ccd0e0 0x69b47466d6dd367343d8228c1d61232adda273b0083efafef4a2117cf603b835;
  Dbl 0x5773fba5f0c5c5a3fe9008e74826ae96151470eec14857c2107bb7bf0d485b2a 0x163f88aba7d1ee24fadb00029ae3be7f7a0e8241eb4b8c481b6e44df3d160b5f 0xedc5cb1959c9139be7444480d23567cf526f548ff2427338773d47843808bac7;
  Dbl 0xc39593598840e843201482e28b0c22df15faf3b549dbd27798dfa418c8cd9706 0x179dd71a86b0caa260e971ecf261f259aaa601bcce136bb42e4340b8f75fbe8b 0x75dd247aca49d08173b8c7b2217185de500986f1e045166375e361fd18aa59d8;
  Dbl 0xc8b601c832a2d499ebdb910afa90bf50295d5b0947f5e210e925f5caab9cca04 0x54f1a786ce71d2aa7e2f03b238f3152932a3335c1ad4fecdbfe72b3df10753e9 0x2588ec29f1021547312131af7a98b607f778eef0c83826b36ba190757abbf895;
  AddG 0x85ff467a3ae5db11621b6122bbc8e3b636832e276f9be0adbb96a1442a00cb76 0x95392308e5047726de0da865ccd8adb155d5c5fd65d6254286b333868cf86e0b 0x320e05d2ea3b1d9e5f884ee62971ed6dc8c1e13f745c117f739e0a6d138476fe;
  Dbl 0x77d0a2336a9a6c1637787843f7d8b4669ee89e4573fd533d1bbc0d69537b1301 0x6352331bd4cf93c861df0e827df95a817bd03a80b3b349719156713029523e71 0xf74b1af50e1617dfb5dfe85c49dbe307fe5b2145723fe4a768c7b9c5173ad014;
  AddG 0xee3817ad6a11743bc1211716e55b74f9d5175dc43cdcfe2b364a77a4677ab0a8 0xb733c4a4c6462f45a371abe42e637ddd2051e338b3eb9ab68b3402e50bd98cb2 0x7688648dbf78061a2f086982df0511e4f50b3f82fffcb0e7b5bd1161f2bc4b8a;
  Dbl 0xe6fd074d974e2ee557743e879f10627c2e310c99737ef6b4d5a1bc60547f24cc 0x1df73b7a1766e6ab989612c938b832b0cb840c88c406ca3a0c8c1d6a1706bb25 0x72b461562081960ba372151d3de049b5cc740c09b0e5f3f89c8e3129c6d89ab5;
  Dbl 0x4c3da90ffa8a36861e903c91a36883043a8e57abab80cec86242621f0b915212 0xd06a61df428b8206de1043830c08cb4ba24a3bda3fef44522e1c072f01eeb9c6 0x6c0d68f9e14fbec9dbd76bdb85ee0999c571d5541fcd7822348144c746fa5f61;
  AddG 0x1276a502011ff473a049c7f549549541360a13eaa584b53e8c5542316114d646 0x91c234d2c960a96168cba182f276fd4be88c745263209cc5bc55005b8823b610 0x414d79aa705ab66c858bc12d697bc14e76fea07223296559302413208e338590;
  Dbl 0x1fa6d75083e19dddd13e81bbed48de278c658cf5d5e45c1886745d150ef3d2ca 0x487416483316af7a46316678f9dbdd758a0a94e7e15aed3667546be46573a02b 0x28525d8dbe7043f93b86b06a7149ebec4db3f5576ab5415d6972e0fd3bd4192;
  AddG 0x31da46fbadb2c36645ee74ccd037f2f6567ef0841275fcaef211c456d393d3b2 0x66b5afaf95cd475e7d4de68b14ef3e5ebd95788649085b805616a16d29695e00 0x1a88c064b72aab8e51221d14dbacd2bc7efc1c941ea8449af5e7d41022272e3d;
  Dbl 0xbd6aac106976b23ff3982600c85b443432afed334b078c8f9c86aae64ffc5eae 0x53e9d60166140acb0bf0afb1b9992199fdd8fd2b722f4c7cf9f9a679e41a6fcb 0xd1d56008905636bc249acec4acd923daa56bc47deafad32bed719c6b97175f8;
  Dbl 0xa857e963af632f27615f26457887d24b89afcf3b7adb334e48f6e3bfd266f297 0xd84a9cb2e73a03c06d18d751bdc3749ec156aaae7b93435cde7ac62bc5ece68c 0x4918782879c194423bc462992a2b7d4d5a5296e1d190b2526a69af34cde14281;
  AddG 0xcdbd5c5f5366d8475ad902c41ee7f9ca543f6ffccbf38d20eb7eec3bd05be874 0xa6f9709c84e33b1103e98c866b8db8068df1776f5c13d7cd16d96219d2f392e6 0xc518e2a2c270d3121e5770d97086118e1a4a794a7e4fa936dfe33baaa93993f9;
  Dbl 0xaa8d3c9b1e96b18cf2cb408c12787e9f26ec0d7e2fd428e378e03c936718d6ce 0x9e9fe74c1481c75da3e3671d3a0ab004c44c8dea7bba20065ea441f9f610500a 0x16ed1acfbdaeaf0e6506472053c1c1ebefdfffd03c882de74f250158e5a17902;
  Dbl 0x549d37785bb234a257f5c49fa551558ab1f8d43575b3844fd12e35a0bbc4c76a 0x290bb36ddd9bb682a005bf70a4fee39526b912a2f039ef00759bb86fb99f6de8 0x8bd2e4d6971808a16956929942e9b946aea8d34ea32d77782cbb12d967993e43;
  Dbl 0x61b168bd680e5b1ab9ab602c92e0744184db144411910576f00c6a4bbd61dbbb 0x45db36811da344bb9c813ea2a5179ab16d8b3271b05a0e8b8fc1bc51c2a04431 0x6ffa115cc3e5a5d42b1f1705258f95a8c5969099a8311f67b33bb6bf0f39b5a6;
  Dbl 0xedb6400ff184c2228f400afcaf1bd910c9d3b6fc3eb7dfe0c674ccac1c656d46 0x5a31054da400a8e0c04e42c4f3d2117f0bb0ad2dc6018a1d0bf732e220dd6ecb 0x2cdf441e87a0a38c06e89ecae47e923024438b63cbef1b2b6e7f4bcd1f948f40;
  Dbl 0x1e1e129f450b7666be42e9655d05c9df4aba22304cd290c452bf28b44b23a23f 0x3c823e8b69259cd5b450b37205ee600b29e9325a2c51e24f21fea13a861bb915 0xe439f90997692ef7df64e0da17093a118ea299b2847d053987373e25ace27d5c;
  AddG 0xc0699b759bbb9d1f178fd94404c47b6a9379ad22e0283e8dd69ad87c65b6599f 0x24c6dca93a9b7ac52092a0396ab4648228838564478e07969510d361b5f1cfaf 0x8a97ccd02ba6faaa214e6c0d588244b4aaae96fb94fc128443427e396e14e55d;
  Dbl 0x721c378bb55ffdd040699f1aa1899ecea5bde92e2f3c40533877065ec29dd2b0 0x54b5b1a388016100a401608d0ac3b7b3f37c792de71b2cac1e77c6ebc3b9628b 0x8e6fb0aee906269a4b5edd9dce7ed277280db0ea7ac80c2e034855242c6cfcb2;
  Dbl 0x49229ff1309fc2fca80e636c89eca4ebea6efab74690a917df5f6b5c1809900f 0x16f7da00feac880145371e3ed3caed14d44561bef654bba145e4327d376d4be8 0xa6069a2f90318e691481b38bf6e7ba8b6ae78cf695819ae5672dc9b7ae7c55b0;
  AddG 0xd357fcf69968394803b281c1a217eb543a9b7987128647e51ba70eb23937e985 0x57cd39c4ee198f4fa91f676b937fc1356c0446100863b3c5cdb833db6c45c423 0x6aee06bbd999f403ce0bd4fd8cecb75b15dfdf19e54766785143054059695a37].

Definition slope_add : Z := 0x69635ca209c5ec6db97e9e688654949f495f3b7455f8db2069258a8ab3b48286.
Definition slope_sub : Z := 0x24cb97276853f23e8557f0722d124076d4a74843e741ef58e08ebdf9a3fb98d2.
Definition root_P : Z := 0xd695cb38102c1ec140d06a131c79a406a5ca492a0083211c231437c4e7f884da.
Definition root_Q : Z := 0x89063f9dc19c28fd1bbd4579fbe35bde5c498c02cd16cc781d12316f65d2e613.
