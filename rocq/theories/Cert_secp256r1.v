(** Generated certificate: the chain of doublings and additions computing (n-1)*G on secp256r1, and the
    resolvent of the curve cubic.  Data only; checked in CurveFacts.v. *)
From Coq Require Import ZArith List.
From Verif Require Import ECCert.
Import ListNotations.
Open Scope Z_scope.

Definition secp256r1_d : Z := 0x283f4129ab6817d9211765b3cf8342c150a255c72f93ad42a112e5cc920087eb.
Definition secp256r1_t : Z := 0xe6bc85a78096c1f9b695d42f2c755e0275c2a78c319ffe2632a254c7351713cf.

Definition secp256r1_chain : list step := [
  Dbl 0xa249bcb3191802d3cb56fc75a8731f848e7b2caf080f3477a4e4d904a671af9d 0x7cf27b188d034f7e8a52380304b51ac3c08969e277f21b35a60b48fc47669978 0x7775510db8ed040293d9ac69f7430dbba7dade63ce982299e04b79d227873d1;
  Dbl 0xc2489a9eef61dfa06d3741ff3b405300988bd0db42a937859069b9cefb576e35 0xe2534a3532d08fbba02dde659ee62bd0031fe2db785596ef509302446b030852 0xe0f1575a4c633cc719dfee5fda862d764efc96c3f30ee0055c42c23f184ed8c6;
  Dbl 0x3d3f7094389059fb29d62c12aea203c23c53ca0f84ba9265d34346d498d0ce10 0x62d9779dbee9b0534042742d3ab54cadc1d238980fce97dbb4dd9dc1db6fb393 0xad5accbd91e9d8244ff15d771167cee0a2ed51f6bbe76a78da540a6a0f09957e;
  Dbl 0x6fa44fab12ab52ac931dd31283af3f747d8609c5f053383c43a73240f7256e8a 0x76a94d138a6b41858b821c629836315fcd28392eff6ca038a5eb4787e1277c6e 0xa985fe61341f260e6cb0a1b5e11e87208599a0040fc78baa0e9ddd724b8c5110;
  Dbl 0xe9a817f547273aa32a7361a18e9620f2b838a409be826cf083fed49b3c858688 0x2377c7d690a242ca6c45074e8ea5beefaa557fd5b68371d9d1475bd52a7ed0e1 0x47a13fb98413a4393f8d90e9bf901b7e6658a6cdecf46716e7c067b1ddb8d2b2;
  Dbl 0xcbf7b81fbdea68d4221b26a8e5a24b1cb5e9aaad01ecd82899cd638e1942f764 0xa0643fb8fcc14def67a6a5eb1bf8e9125b35edc7338d816aa4110a6b90ee785 0x553438324a9e7955c520dacda2920e700da10d00e7012ed7bac0d100861f9cc2;
  Dbl 0xfc4b4bd92566c2ad98242459501cf92d7207904e764ab66789942b0325b9a3e8 0xae3f7dba0bde8b6ad7ce2f8eede4b762c556dea678f859626a9e6235a674c4f6 0x1c0549fc0a69995a24b8c213249db9a97940500d085f8a5c1ee0553e711f4b53;
  Dbl 0x93fe002b120dc226d15b0f98b056d3392bfd56b35499e60a5f7ad1ff70675535 0x34a2d4a3b009165987ffd1528603ed61190d0b710d6a564c2db2e35f12d0441b 0xbeaaed6a53a1e3c22bca71046e777fc0e7d766b9deddd81db424e7845e93b146;
  Dbl 0x59faa582c6b4f84cf05a7f0a2f866f67a3845d45e19ba871c83298597acc6389 0x4c490528be759e4e8897bbd818d459aa416b9ae0b3c5dfc3469cea39f3f98de 0x30e50b46405cc74fade84c66242a8107471d9d7b4a4605eeebd949434e8d6e96;
  Dbl 0xd2b8741587a7b2e52655fc308e92e0b0e32ee6e6b41d84eb93aab4a3a4141961 0x16949b7287d4f481897299b9eb6fe80ccdc5849ae1d527e280e76bb98e61ca07 0xe7a4146d770ededebdf997b75b6012094d2d6ac6fedf983aa09c2be7a0420427;
  Dbl 0x1c063129ba7b4a48b2e70f43844011c46be00e0e9073b990aa60efa9cee08d40 0xb01a67f716475f72886a8f4749b86176281b195ff46f925ae1404a861abe45c0 0x7c521bbf5a3956e2acd56b13164ef99472fc676341b62c7fc72f0dbe0090106c;
  Dbl 0xa2e3cb03c0248e9badcbbcc1c7028566de6e61b104009831a5104754ca52749d 0xe716aed2cf069e4d997789672e6d6bd2508676f2f4fd0a64f077e8daa245573f 0x353663e694fc72ab5912b06687b9a851d13d0df2fa07c9b3505fc26b469218d1;
  Dbl 0x960ff72703b0a682d458e8c237f82e7c160c43f0388887300239f5caf2144511 0x5a57c3e3548207ef2f4541cf25b5e81b6b2e5d2fcec451f4b5113c2b357174b3 0x77c7b303e69224601b1165729f3443328886700134bb92888cf5959383437e3;
  Dbl 0x928ac84a888eeece1f740cddb2fe2c3ad23b782d364f2f64e69fb00ff124a44a 0x5ce96505eef7208cd10920adecfb86ad1a87a974797e4fc58937f00facb006ff 0xd16b6ebd381f5ad5ec56d1f22fde7bc3669d20bebd955c2b818dcda107152613;
  Dbl 0x2f62106edd7774f71f1f577bb87c80a69291fa99d469a7d590bb7efe497f0e98 0x71a5bd27c625ca1b4b2a3a4635b1043363a5b8311d31a91915261b05d0b79fbc 0xc5bf524d066741ffb39452ca1a02f2efc76b6051ebaa32d0c2e37ccc8f277f6b;
  Dbl 0xdff9619f1fed418640882fc607fbef4ab0b4bb2ee9eb5ea61d7f347eaadfeb72 0xa018366f4e91e90d8e5c643340e586b4714ab749c9052a0503e8465c6eade3c4 0xe2bbec1714110b167c6ce578349d8369d5f7284e44614f37f45c42026b26e8d0;
  Dbl 0x2bb34155d1c3e85258cd7587c389773ca8761dc07d32d1bc095f476c05a7c13e 0xcd7ce65d707da2a69ea25487ea254c45eb7d5adffe1ce3eefebccee647a9112d 0x85e04a4b4c966f9789b9016aa5ee6708a190aa498bee60a5ffbabe0d3a92b3af;
  Dbl 0xedfc2e37fb69a62e021b6261a99df3018dc9eee2e4229d1cbff1ba56b4f8e3d6 0xf5f0aea099634718e67d4c73705ae59e8af0bc36c998bef6c88ad96c3212f1a 0xf8a8b2b7c8593c955886aadd4ba16b784f5ed40dde29af7c755d7b1e7712b09a;
  Dbl 0xb79e006a59b12e979226f397f11da4e07f4c0c6e00d804571e0be779c48ea25c 0x471ad0a8d57f5939f15f0d870ae25c9091428bf4e1e6e9172435158cfc4471bb 0x2234ca62778e8e392a367ab48094d138b0d7e9ff7f23982c454318fa49693a0c;
  Dbl 0x45fc98da6728684cf421d291dbdaa5438a2bbde9eedf856c54e1d2577a0d15a 0xec73885141fe54ffef6a0b570cd98d530e431c1aad5fcfe8f7dcecb7d96dff1 0xd6224f4e87ae875d91acc4ef580652511d5264ce87ed78aa9ec841ac7c7b552c;
  Dbl 0x3f71d35f5943c9d82c6297d4739ca141ce18dd97535b82f9b6cbf6a3a3bc338f 0x477778364e6e1cde059a0e2532c8f0c69ba12b3112fb6dcfb183b5399660b7c9 0x2dd89d00b8389e317373efb6a7c89e8a5e0604c1f142ebcf5c205fa39918c3df;
  Dbl 0xb063b021ea8c4d521a86be70cefe8cfca350e9ba8c166c8838fe6446dfaba3e7 0x353d458d3491b5a8c73d989017e14dd22ec38faf35f45d260fd8013b26d69d8e 0x9c7d37bf4f5bde243130fde40c040a8a825dfc12fb71a9a8842b9d0020f32b82;
  Dbl 0xc96ce208d5d84115b06c8101fbdfc996fc19127fb826057aa9a56a342393343f 0xddad6bf0172e2240d57180ff0b1ba76e28e6bf035dc617ccaf0d4e79e330c098 0xb1371e6935a21897530a4736125addafa333bad2db9d1403e5a994d63b67b58;
  Dbl 0x58cc0685f3b5bd459e0a56513cc139f2ef4c79222658880c7b9e910437232a37 0xf8f5dccf4c6a93d7a4a54daafaa3449aa87a8069875405d43725c5dce392d805 0xe58176cf66d63054389d3e336461327351f3da64a52143ba026619516cda02fa;
  Dbl 0xc714a5ff1e67f35e138db56e27766a8f370df7a9aac6afe2a684adb2f9318a34 0xa118b0f24bc45d9c9b317fe248af581ffd42d88478182a90aca7f0b2ac51d8a6 0x698b53fd0f7e1798df7b25ae09464d6a81922408e376967d8621b55d5c87b030;
  Dbl 0x244464508464873517783cc6e016573c75cc1d40a0821ca2006ccaba14e5ae68 0xfcc8ca2e4e502d2ede9ec29566d715ea7bd24be788828675fa42e8729cf5250e 0x30b57bcceef8bd04f6b9880a8b34da5c9046bc05c03b2120602e0fbf730fd4a2;
  Dbl 0x19942949a63311386dd5eb50ae3bd81d89fda56a29528618285086a145bbc75c 0x24bbe05bfa35ddc0ee9a4b43cf2e4e3af349f675d2af3c3d2318aa0489a95e03 0xd49405ee090a22cf17182d4dd2760faad40aa52e375aa14987df45ed8d793c4d;
  Dbl 0x89fcec8c449f2a8727481510ba958d286a3ed95b2b77e593d4a8e3bc100d5f1f 0x6d28b6bffd4daf313f85eaad8e4d71b91ca631161f99218f984a23176f922dbd 0xaf39d905141dd2fa40fbe1a61ccb4a1c4c24e9f0b84da29944abff02a0ef3cff;
  Dbl 0xf6c406113ca7142ab7578bbd87c1fcac561785320d44621ae23c0bec57db9931 0xd131e661dd93d815e613947f2d302f2f50ea585cafb752509789404fc4fb240a 0x34342c8461a95da2e79b4c37f48f4fd47423d4ebcdeacdf422f60e1402501a57;
  Dbl 0x1c544e23cefcf6bdc7e2661841017cf1352b6cdad766837a00109b5b701a002a 0xafff5af92c807615712e02810be246a2d0434584477fe2e867e5fdd7b8087dde 0x659f6ea22cd060c2099a747ee10a2a22aacf175292ddabe7178346acd44eb3a2;
  Dbl 0xe7af93b02913d49f7ff08817eb8b2a9186ce83f590aacc4a439598e38234c827 0x8437a7cab8f3e67c05b8000a73853a82e89dfdb368bc666999fb69a100371f53 0x968fd75882812a40735483f43819bb8e10e124fedbfbe259248872d7879cbbab;
  Dbl 0xe353b7ead6b8630cc720fc9e590a4b3bfde6404ec154ad7d5f0e3fc795fe64a8 0x7fe36b40af22af8921656b32262c71da1ab919365c65dfb63a5a9e22185a5943 0xe697d45825b636249f09f40407dca6f174b3d5867b8af212d50d152c699ca101;
  SubG 0x69f17b1d38890b71161e936f785871f30e6e559941dffb77232c79d5399a6f6 0x618466bcb739585c20c44b7fc962d8671d94867054859361a18293ffe4a720e1 0x34587f80988db9bd798cb5da178ec512db9aec2fe35f85e0678b4e91f7c873b4;
  Dbl 0xe7289190fbb5a7d7d62b51d40f3571670d41439c83a980a6ebf0c77129c5ea30 0x6f24db5a219067f6c7ed039151a8d5ac91ed91d9be5272b747b4e738b39a52da 0x1777f41a8de3f291211ffde201744ddff0d3cb972b5cbd10c70e7a8e2aa70e31;
  Dbl 0xc0c0f69007425dc498074987e7b1b2cc32e5edf753f84c8d1e31e83a7f4c1fef 0x6184d2a091f07c3846f28108a5d4111a113ef877df1b2e648b350e9fdcb3153f 0xa9404e45027fa0c188aa763b8ebbb9de825ae68b25b5b6049ead0923d93f3e41;
  Dbl 0xe2266a64fc9e96910bfcc391499f69e6e3862cdee724bf5f53e52619a78d636b 0x8354e03a605b57989d8254e9094e3040e6aca47e5fcfeef4513c003de9f0bf44 0xf38de2e2640576d5a32995c9a49afecba4dff1093dd6b00b3ae64e2f51403216;
  Dbl 0xf7be988964ec4116f418581f98955a9ca415e34883c7a464aefb4b965b9e49f7 0x803c9eaba8fa71eb4a4fa96536e4f714bdceff15c4f0f6b24ffbc30cf2458eda 0xa3f72acb06bb7da031f43d0b98ca5a3b17f600bf3077db32f3f05f21c910018b;
  Dbl 0x4eb34c79827117c2632524e9f4d02fecf1eede4cdbedd17bc9b364e5ee04dd99 0xf5bfdd6e28096dbada5a90d36c5f333ddfcbae3ff9f95a88fc428b92495acace 0x7403dc2554fcff16d40a046e05a3507ac66684a300481a48a36736b59fe7a734;
  Dbl 0x53b963e0e2a551f86b7527b4da6ce25b70cc5b23592b9b7b4a6768e1eb9eab20 0xf9bfbf82de9d176ca7c6bdf398a56fcbbabd61f41a4b6688bceb6a4ba82b72c8 0xc1adae302045783f941ef0dbe93edb63c1f6b7ff42250dbfdcf2d2f99cbcae9d;
  Dbl 0xb8f8d77f98b07b91a739fe888ef94517d1e11ec5ae46114d5d9fcc91b1494e2f 0x45aacac4387db567315c42300d6461b1922b1d7b04d1ebca6998b46442e508d2 0xf77a05dfe6f590829ad72adef8124d06b6b456871a9e6d77bbbd140a55062a47;
  Dbl 0x856480bf6645295b7cc166fcbf9ccb4213ca02b689e6a51515b002a54653b436 0xe586d59f96d1c3239f908e358bb827e5776d721ac17837813d0ca0436cdfba43 0x2c221df09914a1101705f1adfb69fa1741efa2214a16d935b2444b2c2a59aae9;
  Dbl 0xe5bd602b7c75efe5dd4bfee34f6d5f15c12502dc3d6a454e8416bf7262efd14d 0x25d493915d5523796695553f3b555771ba3c2d7991b127cf20c2d84ba10c6714 0xdf23c7cbddac695731da10cc2089659d67726230ea177580789562cdcfc3c66c;
  Dbl 0x901938d044075d035fec1e3dcc28585a76a2c4f101473d40d33faf2d07a666ef 0xcb57c89a7f748b1058850cad0f56abdc64ba3cc261cd57f30646b2d75172ea99 0x6fa11fa312fb916fd9dc88dc5bf95567f413b9026287fd49d78e0c515dbae569;
  Dbl 0x225568746c8026c61a929d9ee21cc8b663b8b70852d3eab403172b36db27773a 0xdc46ba3ba5930172cb8d86b64358c623f82bf466c96d0bed7d46dd2dbdbed6c8 0x36eb8f0fe74ffacb3756823dc92193fb371324ae5a9fb7b638c04dfbff73428c;
  Dbl 0x730e7f0e730508b34af19c004afc304711f461a3ad85aa214506bbb2d38216bc 0x9ff074615589ac64025a090247b7ecdb5af12a8cbc0d68280d93583a3ca4905c 0x390559a84227ab1dbec695c194b2a8b36706be18032012d7588cde558080d31c;
  Dbl 0x61bcdb4b66643b59a748a3260de0d150ba66d53835998a7618465429d353b8bc 0xdd75090da916a7714ecbf81dceedcb4f8169f117a9914a1ab3aaa90bbd0cf019 0x380a0e0fdcc7d2c1a44902d9b9f5eb12a3f5dc48693e7ab288291c0ea7f1f4cb;
  Dbl 0xc9651e62d6774d6d434978a729e20c44dbdf244c051785d459e9d397faf72d77 0x5da7422f1663c6d57e2d1582920e4644d7fb1f5597d27d56d00eb7fb982f582b 0xc6dc13fd9f8bac18f672b8fd5a1ed7fbb54eddbf6c2d22f158fe9c312858a10b;
  Dbl 0xd5c0e76343a81b2fccebfe410ee5f059d6813035f76b381d8a4c32004e356535 0xcc5cf8384395586507e793938f79a3025602ef45fbf8a89e0ff6c5db6a782a1c 0xfb96d696ea57e0306d356bf964dd83943e50619e19dc791971d0e9a6a7840a5d;
  Dbl 0x33ca08f7f6caf3b2bc2dd0597e53765ce9a3a459a2d6ec8c14fd62b9829c8036 0xf248d9b1b84ac2366fee7d47fce9f31c4533a9698bee5ee13fae5147b6139223 0x73a4fbb68dcaeace798186ee0008cf52f074446c745a91109967d36b922c3028;
  Dbl 0xe3d88474bf049aa8c92e117118d8ae2192be22c3afc88bbb6d45984b246b29a7 0x3f069f0caf6d1b8a003183e31d6a7639fc9662fb33f78337c98fc3583bcdc78b 0xf0d634c2804a56d4192802decaf900685a573f23359cd35a7037e22ba20ab87e;
  Dbl 0x48e767de0f22738d95a0cde900e2811f059cc9b0b4d8f7c6662c971f6dd8540e 0x2b22713cb4d4d6f0729f0f208f747d99f65813faf13d28ced0db001f0bad4171 0x60442684cdb5ae6002e09997cc26f8bc3267c71a48db3d6c479ac9fae4e701e2;
  Dbl 0x40ce2d624ccbdda2181d7203eceba6f86c74ffecf1099f60709afd4e366ad7fc 0x6a2ca24329a14d2586d4d84afbbc2e427cd19f30e5da079043a0ff685627a21b 0x715b966cbb3fbc9e8945f98206c054a762d417938414a26af21974727d2c9926;
  Dbl 0x7ca5a95dbd0f238188c92bc10fe3120ca5cdc8c94f5543f619e7b4a285fac63 0xace880fd319db60e08e8312362822b4aab68bc33f988ea72759ded54b65286c3 0xa393c7a518957d2cd62437d88a15ced5e93c5ec758dd9206fc340760108fa157;
  Dbl 0x1695cb9add979f9b44bba53cddc3af6ec9a9ada1fcecce7cc21c53ebfe9bf13f 0x17d021e5a0822845da7ff25f0cc23e3ecfb6e2b9adad4bf6fc0f32bc7663df1 0x8889b06b8f2bc13f3816c9f400ca112eec03be1b188b1fab43488aeaa760c363;
  Dbl 0xb52ef301be713cd3721fb2eb26e9651c62dbd5611dbf05a2a082290ba0205c5b 0xd53d5a852cb411a97e99b8cb5bb9578b51d8c2e6b1711a9d23700327fd38e388 0x1b20a99853937f9873930c491b525c60d2c0203c21cbac126967833a34ebb804;
  Dbl 0x477a8d7b28feffaee439432c1cb34e620d2b28f77d7a02dd8f8b7b25da055f0a 0x24688c9b2b59562d73bafa55e3694d2d98741c02069a5bff70e14afb6a34f44c 0xd669974b3228c4a8a923dd131423654b3149fde6979481cbababd6e5e46fb164;
  Dbl 0x3df23d02be64203da86b3586f55929b44d3b721a7d42d1f74c2790f568dedb19 0x11007f19319af1a6d1ce80397deeb0e8563689ee692ba5a0315c20927bcf0185 0xe817e244a8c06ac138d4c0b10e6810088a0267b0dcf51e6766dcf514fb4b3291;
  Dbl 0xc4edab784cc66e9dc3ddc0a1bb35098abbebb6da1bd0379f4f35495b1810da1b 0x6fa565a378dde0df22f612f3779f8db8ff70ccae2e9ba8a15647f0ae541844ef 0x7ae276bec1d2bec9d4eb64f0b20da6fa810c27b136c0c00d0f0465141c8a47f0;
  Dbl 0x88fd5e6ed410c082c3ce11a91fb70b3f67e4a7765d05e18d7f947b38ca97f419 0x6db2fc5f840c467555dfc8257eacfed24cb8dab28afe143ac02ebf90e61dbba0 0xf7a91123a9a8b15e300d42a897c5793991e38ff29bd9757303cb4a2799aed283;
  Dbl 0xf20a57ee70df07d6ce91f0bd0a46160e3a6c07e71c958c66141e21069158d350 0xc3376dd235c533ecccf4dde080377e969556216f981cb9db824041c9c94d7468 0xa88754c4e3cd3d42fa0c78f4614d41b8bd7424db314f6710b6ec89cb7de14d0f;
  Dbl 0xf1fbc80729ab01a5ccb119d4f3c345cb8f969116d59a28f5bc535098ecc8e08c 0x682c1373b018b924f6ec5ee81fd0d65ded7abe66e21640e973f132b2253ee808 0x67eecad0de63ed1d78e66b6ea15d5fc4253683955d973189a31bc585d170e061;
  Dbl 0xb6f56f88616f73e59cd055fedf26a4e7e9b7d3805a7210f8280ce5f968813bdb 0x8f4960d0fad5121e7ffffe005df1761de7f8e1c2cdf965478173dbe628e75af2 0x7c853b801b2e85abe2a219299d17921498c82bfbec9ecd3ea2d6d5a066064c18;
  Dbl 0x95293b8c9d1b7cbee1c6a40dddbfa08124cd4c445226188841a5ce723091ed70 0xb780013f82cafd3fb064c465c74e23abd489f4c630168820d51976a7b9c1a67f 0x8483796ed584235343c4095575ce7fd0fa870b4f17da440ff188eb514617cbda;
  Dbl 0x5fc30199770d63f9306b8eb5b70c590e7a78844d7f32b7599bffe25242913afc 0x59d10e27a2e1d2e0f244547873a77c6a9698147cfe238b843f329338c29aebda 0xfe9421b3711ca96e839fde225fd3fb52195f60e1434087b704602925f18c5f09;
  Dbl 0xe6f5915845524817c9b060c18d8b717cac8fca080e26cbcd288bf75a7faab605 0xb9cdba7bfd6dadb74e360dbd5aa41547daa0afb084de8807cd635be8e4398ffc 0x6422e5623a2035b7f4c596afa4bde2261698be60c7b910bdeee0554b1882c80;
  AddG 0x6ff87c4d20eb575c61afe131e9ca41e649c11844767ade32265ee0d691fca701 0xc9acd172e6249ee77a77056186e766dd675e5d3607e3ba301b99df4bda696b19 0x763c9ef039ab253bfa9d77682d7bbe4e6ca408983722752f8ce4c56eb262ccde;
  Dbl 0xc8c05126f210e5ac3b2e06f9445780c7483f1f68c8066e1cdade66342d681731 0x1915d8e9660623fe1cdedf38b1360077fab817610ab76ae9a025ade377061998 0xb6e3175848d66c5a063afa8da224d0960f9daf9f8aa6a35d38ab1b51d6f3f595;
  Dbl 0xaba2e0cd638f25c821212dae55f48218b83662612099000031da86dc1c3ff004 0x7bcd74a3bb57636577d3590d23b023719e7edacbc2f8e83196fcef6e37ebbefa 0x1bd081d96aa90dc17847e9043e0fafa387336cae38d8e07c1c94a3d963f2207a;
  Dbl 0xc4b5e18b28c6a61547dd3f01eb1f9a17a8dfb6f78d17c1e6577fbd9aceb589 0x7cde4becffae02a32225db43549066093cfa69f1f580baf3ce354b23573d6c3 0x1be24938d9b4e2ec3b1ccfc660a3b8a05114da7f2d2aa9a3cd81c6aae42068f6;
  Dbl 0x6f2855c180af082979aea4e86420b127b1161f2f3834138e8ff6965eccd7cea6 0x2e56e273f1d0aa8418a5a1cf1c5327cfff93746808ba8db096034890290cd018 0x58155fb36b9d7a244463ce089ca4750103f1e29c80eaead1010bbed9e07d673a;
  Dbl 0x6d6d505a36e2e7ab1552a9f257f30a5217baf8581bf1afd0db3e120234a41394 0x413917279bf02cd180107c0470f21332b65194e2ed1ceb423dc5369c37f8518d 0x734ef158ab7e88749775b10f9102c3140b3fe9ea82f46190b9edda4ea36a9c9d;
  Dbl 0xd8d6e38d9d432ffb72ab57725ba7b3709d7a72f3b00ef74f6808cd7e7c2057db 0x8c45ac867f57bffc96f11f7bb74157395323716d8c5a19f1c0adf7ed09ea872f 0x6d517522ed63ef7bd90d42566aed01080cb5bcfc27178ffcbc442171b8241203;
  Dbl 0x7839685e3b1710944770f3dde006bdcfeb593e07e9d906f999c4bc6a5d471d1c 0xe9a3d1733644f5db4f08256ddca30664b64940e651685f0bfcf0cbef50ad9613 0xced803f5194f9bda6f58813c38b04cfe4e769e7b3356042de8fb4a59f5d51a0b;
  Dbl 0x5a63731c3530d5689d028d4389fceab8dcb7913198edcb70d54afd32a3998a5c 0x4022f341b67fc1b9d7f98a20cf959b871cb207d7116a1b887ff73611aa5c295f 0x360d525e6745239bce61c512abf015846cf7cb35f8ea8a3d43e4eca4cfb29394;
  Dbl 0x5f0746e3249f77a6c0f353fb7921586053340458cd476f05c3c73846dd2df25b 0xe6734df1d46860206e63420f5db933861e3f2f362bc04003703e308b36fcbe87 0x97be86af7b9ce2ec72a22913cfbc8924dfbb6beafe97e63c1646b6fc9037044f;
  Dbl 0x3426eb5453959b33d60a25ea4bb6ac7119c73426243e5747a3b1a00edcc69e9b 0x4cb5a1d8782c589a299eb58f79e1e39a0e7cdf35b6e1134bdc2dc810d9dc1170 0xcb955a9b14885346427ba794528d64637a4a21effa4fd89183c1b1b1daa35358;
  Dbl 0x5f26b7ffd19fb2190ab8d9a5b0e28d140608d2c726f36eb3675fc16178456157 0xd29d1198b2447a0285dc711a7c423a6842c63eac82cc92379994b047ea9ab4ae 0xab336a895b1be8405b151daad2e8a62b53ef3522364ad75d4ec08f63fb97bb89;
  Dbl 0x8a35f537f0f4cd77efa66b95d0c488491921725f2f3af70e2debdbc0b57f5bca 0xb6cfb73fb94334b0b9d46d14f2ee7cd4516a31831cec2a5e14332787fb99d11a 0xeec0696463e4779df552c80f496013fdc4de0404dd6e6ae98959b0e83e0b5637;
  Dbl 0x9c98b2d4ffe66ed507d394aac70806a5ae617c41aff6a55a8af84fbc43a5dc8 0xa4f2ab4043e71c090baea0fd8cbd634620f69fcc2e325377c0fd07ee1376e0d0 0xc459da7caca8fc9a63125f24b15ac6af7cfe24d6af7baf2ef7dea44814d34bd1;
  Dbl 0xf0bbc9d46a45e65178a790836b90227d984a59e17c96875e1b0cfe764f78b95f 0x86ed77aaf4c711e12130f313c02293b23896cfb1229835dc1f5c1bf060c9eadb 0xe8a1b38f07fba9e5ccf434c1ffba845db79bf016e5c7e7ecfd4b6bf898f55456;
  Dbl 0x3f0e4d74ad29a313ed4d3f32206cf2702b6c37b35c1f8fa0c820f147f780be74 0x35a854ae4f8979866752129bedc489d6cd00138a95b1057f9df9c53f69b3b18d 0x8c3db8e21087c199011168240882e20706b42213da160b54d2265cbb8e5cdcf1;
  Dbl 0x3fc402de064323959f37290378c396b57f37ade8898957cbf9dcc1aaad4c2201 0x69e253e15b03c01da1682f2c1a2ef7e1f01af29e49efed92fa52b902829ac454 0xf2d735021c01704e752fba73ff4b1b6b0312b0d2fc3e4e459158fa8cdfa208be;
  Dbl 0x8f4bcfe22068ddd31ab5815386dd44acd48226df8d5b8203528c0b0dd5d5b42a 0xd4deee51db4fa34b66a8ce07871db004778adcc0de20b3fc36c2b2fb1f2e8c0 0x896ce439949d2828d630d085ee3d387b335ba0be875819745896280f94b75d7;
  Dbl 0x4412e3fae69f1c831c33f495810c93f5c79425437ddbf83f3ddbf01eb8dcd15d 0xf5b8999d5fa92e6a1fc801854b7b694a36249fb52d7b1add4c418bb20ac5e3a3 0x7b114253b18ad898a8209accb574e1b97f4ad4266e17a71f3703458bf8ab99bb;
  Dbl 0xaa436c0918fb7e5399db07bffaa2ba11c9317b1773731b942bfc99a99c781b51 0x7ef68b34297979791ec575cada75b99739867ff1b0a171e43fd9b4a94f857526 0x2bd3efc587d135e6c8c1f00da3ef2b49032d4c3b032140872c06851b8e1f89e1;
  Dbl 0x710d2cfebc880bfb929ed48b1e6216ee1905e373c2bebdc88fc132126bb1171f 0x9dc32da08eff7c9e2150538711320d8473e2648a58cc5364a5f36f2e44945578 0x3175375109e67496870913763befaa9f915d54bd6c04a80d64a0e4fc307e55ff;
  Dbl 0xdfb76d4678e8d1a6204a65cc56557ea03fc4b7a1a19b9c36a16d76e2f3c0331f 0xb9f4a286fc9ba95072026ab4a87f1916335d7d2015a336f40d362fb5dd4e8641 0x47d6b44a327fab122568f6cfedd95d98153bf644f5208879da4e7e00a959718c;
  Dbl 0xe057424a2439be06fe809e18450c785aa452e42a6512e71a1f789dc8cb99379d 0x620527524d8e1a6ac7d9736997ec4bbd26c5b5a5e14daee8d036bba92b5760f5 0x6c5f8c92ec98d881b9536f7b2df5e9c7044c7a336bea052f58fbde84e278529c;
  Dbl 0xca8ddcce6399df139cd1fa6e25a9b37309badab54d8e860ab02c05475fb31711 0x536b42ac934fc5a950d650241dd2b63dfafea0ad40bec26117f117d12dc107a4 0x98f833ae7c1cc16207f360843a272227e12b4083fee0f22a2e496a646be95bd;
  Dbl 0x744e3d567b6492c41d88350b331250e63d1f1033409481cfad084ab38325d7b8 0x10b7b642731eb658eb249927f087fa8051c32494bd67ef67d0193cf8df85f2e0 0x571f19ae8d194eac24958a517a4bc6d6f4f3372854ceff51d99a17518425a50c;
  Dbl 0x2ad14b226204ea3e2e6675b10251d894d8b94a2e6e37854e1426f330b19013f7 0x2e1f63c9b5e3a9e66dcd669473576d943fc6d8b49cd6b10570bc5c90a0775d51 0x681b3a9f9b99d9c7ad19f4b055bb3ca290ada8ab818cda0ecc911fc76d7225c4;
  Dbl 0x4d18fc51db456dcb1777a095c491f770a5bf1e2b284abeda384ac93c62dc19eb 0x9f4cbe3552fdf27a7c386a404e011b68bb34afde7716075c2c35feb22b896c0c 0xa2925017cb4ec86d78a0e003af3bd6e608304305fa8c05b094077fe8a4b1e94e;
  Dbl 0xddb54f93c91ef6f425a3f002d39d5614f545b482c582deccbd61da7aceec7272 0x455824a22976e78f8d4bbc25000de8ea0f6c104c8a274d95be1bb5cb62b4acd 0xa707c60d84a70a8aef56d49c80980d8041b61f1ab448d1481ac83b7c42d77bea;
  Dbl 0xdf3721981c40f7e752ade7577d5ad3c059039724aca4842100933ba835809903 0x67e44c660f584f18f9631c0ef6e22d8c11340a85f33780e53da4f6dbed41cecb 0xb16e82ce320e23ae264d7bc59a50c3cce96a558751958b6289008e22cabaa8b5;
  Dbl 0x2e66da5cd594372587952a453715d89703f6cdc0771764a32656ba172f1a108f 0xa3155044ad61a44b3541b51aa0f794705a98fca37ae5fb1b7bd552322b57b923 0xea68766e1a017e7798f7852710e0d1d00446183152fea692119ba5d12ce05a06;
  Dbl 0x6b1509fd5faa51d7276ca18752cb78f5318b3830db96f8be5ff60fdb9157589c 0xa1ba0439db761a557f935569072d2656bb8bad05f7138721a593b6574a51257e 0xda89fe5d5c6e6fae98f305f4764823359852bf84f7cdd950d66717ca199b3912;
  Dbl 0xc1b0b9ed9de010ed00d97013814a531d0fc77c1840a7b19aa0841c8cda594699 0xe4bf8fbdd7bd69c9ff5e5f6f5db3efc164b108b99262c9398b2491d1a82f5fb7 0xc978b40cf4d2617832c3db3c892460d34af8ce716d769317c0d0b13e56bbf25e;
  Dbl 0xc2ee99012a740e84052e865f33d3110e9cd383b18abf5d18b30a287bea6c065a 0x78cae8dbe02ecea8ec61eae6b92e56e8891508bfeb7c1b88f5437aea778153d 0xd86b2d77627b9ef2e379762b9c8443ffd71b12ce0ab090e3cf2617c1aeda7240;
  Dbl 0xf5d559eb2562f066aad3a948347f6ca232be32862e90a055ee1bb74490142c3a 0x376c56998e94e17dbdb6f894582010b1aeb4a17d07ff59f159bc3440477984a1 0x50b5308bcbf724d856f3ea30a932f28063a2cb30c6d59442404afbfef6ee6497;
  Dbl 0x3a170b35d81701aa904b0883d669d3b4ad494dd2720a8b9070d24057aa2195da 0x44cd9ed5e3526540a6aa59503c3115ad7959f8aa58f94598bccd36dd89606a3a 0xd4d5045073cec417e8abb78844833a90b25cd48d15a9bd002251e39f778f63a5;
  Dbl 0x34716a27aef726c461f71c4c9498f25d0ace1de68c852de77677816fa2b4ffda 0x54134a3938903af5c8fa03add6f625854c61a9179552f73beae8797f66243e1a 0xc1548c91d9f7a71fc0f440f5aacd4a96343648347550b6e0a427f07c372e11b;
  Dbl 0x7f0f1191a73bb7f2bc8537e1f6d9b0dab3138ec933019f8a3e8f58c501c38862 0xc7f6ad66b4446776d8a62bdeb47919f86f2f9ccf49e8b62cc8e71e7b29a874df 0x8b936e6b1542ee1ecdba183e88344c701f780b1742cb70241ef70d7abe354933;
  Dbl 0xef884e9262cb17dab5de3cfdb30b3ec98157910d49d6f8c884b4ee55a475849c 0x418c3823dcb749f786b4c8be43e02705b58510a366c1f3990f33be5b2fe87fd2 0x1b3407bc6a348a335bce775ebc0aa05412f456d76895be2fe9d6899b0e9e3c04;
  Dbl 0xdc00183f5144f7bb77b62e0cdbb32980488c523cd540e08c5a4ca9f94ecddd85 0xbd1a31baef1857d045151596821fed19d6ceed9e02576d0a35d0fc46054f50f2 0xb73eca6da0869543490227e9dc6435be543d1e8576a238a2dc1d3c8093c8e6fc;
  Dbl 0xff5ed67a7b88772b5a12abde3559cdfc65bd1644b9f8d39b2234d47c3f98e647 0xbd71b43fff25a6afdeb734873f64ea529b7ba3ae9dfb7e11a16044a6fe2d5833 0x8935c3f9cd2a44df8c7b0c1060a527c302c9f92e2b34bfa2c350bbff111785d5;
  Dbl 0x831d55af0cd9d778ae74a57a101f39a91a991c641d718696641542ffe094adb4 0x95a5a7d8585749ca8f4d56e3851b1a9717871ff6ed9f0a558c204143dcc5d5e 0x6c9b943555405c10a0e240c5338f5783d10000a266bb5246c616feec7b0f2fe7;
  Dbl 0x4d80feec84f2f1f45e8d2e6532c8b02fe1401173e12aefba1171a42300565009 0xd3876b19d7eb9b1d49a34396ff0cac3ddf7062a16ea041883416f72e1b446217 0x8eddf77b949ee40af6a70a218504a0fbd482a5bdb0c25f4b069ac0b84311bc9b;
  Dbl 0xdaa5e843944273a1b96ff0fa22ef08dae093f9ee72d3a8a5d4d659fbd1ad45d4 0x71d3b9ec82e1107fbd73f248a68492e638befd5dc91a488337e4bbcc7929842f 0x27e04014bf912825f0e7fa3846ada22107e16e124de1f4ec1c3debadb3223499;
  Dbl 0x5b21e7fa6587358f4a0719b7f24a0be632a0c4926147f67a6b964359bd9b1426 0x599c611e111d79c7149b95a176a83bb07fa893eae430b9c1228f8df876a13475 0xac4af1c12d85fd2eb0c64f5b7ca22e12d68ff9d4508b5353d3d080087701b2b3;
  Dbl 0x8173b5515b18f456c36d07a589d0809b78057d35363b00fbe45be2c058ddfc01 0xda46f26fae3b620f791a401af2f5fd6b636c30ff562ef49e3e4845567b68cf24 0x843a73bbae67ac33c7ce62ba5482923f5e8b017a9308fe5f66b9df9253058f03;
  Dbl 0x4120ee45f0dfbffc5406f318ffb6992a6d5fd742d30354e96dc60da44d0ebf5d 0x15091cd40ea0b7243248f6e41a030db342ac204395a60c6b324a909e9f99e18b 0xe68c96f9f7be69b0cec0e21835167d0141d8d89147c58f9fc8058efba4ebe4fa;
  Dbl 0x1139097d931db542104c09c5dd572dd846ed6e13fff8713f446eb978518dd588 0xe66c9188abfe4733b1ef72037ed1f24e313deba45435092fb946f9df854c0dd1 0x8ce92400fcaf4169e3e86381c74a56ae48752e2702662917597ff2144452c8c;
  Dbl 0x47056b6840ac33347b2f11cf8d35ffdb0e1a2b43c465e485071ba0206c46f3a2 0xbfa8340fb32309b8f444854e4fb89ccee57951a47674d152325776b2ffa57918 0x73a69184be80b5c39262752a7b570cf4550ae232d4f6181a1aa48af83e3d4964;
  Dbl 0x9fb98acc9585b373c8a90ec8524baded69ceb436cb0791bf8969ac3fe4628deb 0xc62de27c19739c5e20fec8bef9d31977dec793f8fe4dc8fe35c5acc548285167 0x56417ec828902592517d1e95d1cce3a97769683231249f5786c69925c9abe59e;
  Dbl 0x89b1463a1befd83c14ced75e01358695401389e53ae8ae55863db8cb7dd6a47b 0x4b5d05f4294cd1213c6418024b7a66e6d7ba3437dbaf742caccf74ad7f92d175 0x956d4acf8444c3464ffae6f27341fab14881003c708c45f8275ad77e390216d3;
  Dbl 0xe19f1a7e5853ff6c51e5a935fb01665a29a3f474ce6354382056553577c560be 0xb1fc884bb5e582e2aebefb6536b08e91b5bf957908ace069a0d99ee81e1338a5 0x4c6cbf91533a843952a967e845eb05c193f6e9f2bf3ad11b3aa7f9181b0bd0bf;
  Dbl 0x987f13515ecdda315424c5dab8f71290f34f338d008df6e4ed5289afab30b7fb 0x3c9ac9e94855c2a76e1c311badf746e6e8461039cb255b1573666f7645d3e14 0xe2846e6dbe9114c9f5b3e9bbe676db2b863c7fb166363858a6a112991e36c27c;
  Dbl 0xe28a5738d81eed433a6faca9c96b9c56216b4e8a6cf2eadb366710a4e02f2ec5 0x67252a576aa8a6e761254f427224f66b158941fd14eec59f3830b6b5f81f373 0xb260322569de9de45327588f81aaced77fd4a58e9a85441584f24fe5694fed0c;
  Dbl 0x57329a53b80b26a25567325516b703bbf98edc4fd1c413a46f922d9a7e33d1f0 0x3a7d5dbf231a20e1c049135883aaa8bc956ee17e0af726e0445bd279316ade49 0x7f202d883ee5a450a2c5eeb1b7c68b079ecfc00965948fafb184446743daebe2;
  Dbl 0x31f4642ea5dcd28766551a9afbfb9808b6c2b7092ba9d93b89f08f4559ce5bc8 0x137ab076bb006ca0449f1c6e4ea180084ac32b37f18567b3215fd3a6dff31586 0xb48f265b71cf8b4a4640051d9395c265705ffc5ffab04fb67abec27b0d7bbb6f;
  Dbl 0x60835709c1e53090a3e88139238956acbed1d747b6b5191f37088858a778063c 0x6f68c2ebac627b719c61a944e5a49f21073956412c771043f16c9be7df1638f5 0xb3f46e6bf26304b2f519c9beecd98090540e68eff9260af239674196d451509d;
  Dbl 0x24b605a8127cd0ba15669a0685e90c4492929bd4bd7e85379fd0cfb7537ce808 0xb283f058a69d2a8462e6383e94f4eb5262c800e9e78b2965471ec9224d9b7404 0x1c44f51b9ca0797ed56e6e648c3bf8caed2f7b273ccb5624d3f51aff94dc2484;
  Dbl 0xe13682b309f8cb0691ef7388591660292c8a5a5affdb52650c5a712a43b864d0 0x207a8b76cdc5d042ef703632ebc23be14f5104be5b6d46912632e1f5142d07ae 0x9a93b46850ef6250a2b641b122e90139f2724409fa0065c7e2f0e6ec8078ab0d;
  Dbl 0x71ae07f07c9178adc4e8b1b9bbc13f80834b46598a8f2f105c544263ed6c5f62 0x8fa197b480024f2d2d91f56dc827badb983b6255cc5737f7b5b7bc80bc2fa47b 0x4fa0f6bf3b9947ecb982771e8a4be0dd2743c38a2b42fe045e839df15891a7e8;
  Dbl 0x715b7e81ce4236f5ef4837b4b86e13d1a9b57437818b6aab8ae55ed9f3297408 0x3f5c9404b0ef6999dcf966ee2a3848d4670f23241cc23a85a495c9318fdc2299 0xd3ddef8f79c72752315ece4c73fdf71f6ca398ddc0b80b32388029721c02e1ac;
  Dbl 0x547ae472aa91fc803de755e3e1f408d44ce30b5ec0e6d9a4247cf83701db7d68 0x988260123dbaaa01e733dbb56bc51b6acefd1b7e5f127fbfe03699fd7a4aa081 0x9e9136612251d01c0cff9c41fc5a915e173b91980e01469ef88e7ae07ba22d32;
  Dbl 0x3df3e6b77a4431723a77d513db2a5789242848efec7686876fef2ca6385ef625 0x3b7d89f42bfeb6b5b62e9130ecc46f51c4216ecffcda5dfc0bcd89c4a2dffbc8 0x99ea53a17143a7b8fe0e7103a458d54bce4a88d13085d1d9e5da2042c5d08a40;
  Dbl 0xf495f958ef16be4ac876c8b1254a767b14fd376816faadf6241fd68cdcda5c45 0x3e218472f194dd9c4ea8870b7fbab87f91219d417ef0042de0fea5a53725e96a 0xeff097b8c06e21f328cd3144ea3c88763b928caf3ccdfb7b120767f8487042b;
  Dbl 0xb7fb27bdde87ff61b2afd9bbd0930767cbc1cd4f403a9dac55450d80f5b7aa7b 0x97c1ebf697402d6844b68a96bb8afa89dfd067ce77fb066251d1cf3625070956 0xb0fb146dc2e2184e96b5d3afc27f42dfcedc090cd55778a4694a6dbc584b72a0;
  Dbl 0xc45ad7c85fa6a58b7d12729bdfae488ba64087dab9669071ed1a32bb519126ac 0x48ee928b7379c6c94778829a9aa24bb5f63fb69d4be0386e13daf7589c0fb0c7 0x138bdfb66dc66e72bd5b884761001a4b37c934ee31b4b60ab1eebdc3bc04e4ca;
  Dbl 0xf3053226903bb6dacfc2acd5102bdc7183bf033d615613a3ac1eda74b6a260c3 0xf70eafc80009fd0aeca2602bd2a5c848f03af8a4cbf3310fba8285498d14a951 0x1c315fbaa40f5802de9c0727595ebec56206ed88ce3e7de21b28fd207c09b787;
  Dbl 0x31f3958d0f3dbd7bed040cf4cce518631539eaada6d39faf18c4f5491428096 0x9f07b285e584f547e635e00cc1b87feade394837e760e44d0e0d1aa82659f2a2 0x1db532ead4e6d6467a7a485c17eebab03b3b9f965c1bc071b3acae30075617a;
  SubG 0xb97bcbf7aedf4947885841a27a61cb41cb81d48d2951362ae4211da362d49c0c 0x2552a412d5eefc8dd01821b84da8475fcdd15eb36154a7dcdb232e49d701bb77 0x2e96213756b6132b2e5615114f7355338af66fb856dccf450bfb52e8edb9e4d9;
  Dbl 0x680225869b890aaa7fade33f923a1dae04d82efc3010f0bbdf1abccd22dad2f6 0x59b4c82d6b2e7f0ae124a8f0a33f4a1f52dadc1c8018267e7e741dcd3aad77d1 0xd39660160381845e6eb45440701bd62d72951ac3ee88c2440d070f2c2225c231;
  Dbl 0xc013308a652d79ae6cb3bc05ab034834341e5c8606b5f7de83046bb0719fbf74 0x2e52d2b4b95d466e949a342bd5da9629a604d5c709d4a3d23e2ff1feac396026 0xb8c3963b1e880cdcf974053381b6e73ee1a93416d471ef2dfd0dcfde5f4d7b50;
  Dbl 0x2f4d9cf0ce71c87cb54553acabd9fb072ed4f211cfe1e6451735b1e58f3bdd64 0xe291177aeb4b25bd7c9bba9368494265f87107a3c8940b20cf67fd0a943c4c55 0x50a8da368285ed306028cd0f79a95baa5250c72805bcb106d46638c3c2b8a754;
  Dbl 0xc93a881b0672ffb3fc7284049dc7ad842a3b5b17ac88e348306823ac9d78fd33 0x71dbf8cad52fa42e22f9a75efcae08f248e46f3ce2138bcb4ce548c9c673665e 0x4b994163c60aa8de2e4c9bfcb8aad2376b2a43f0a1443777a2d5bf0f5adafcc6;
  SubG 0xce5b3a57f73d725eea0b164122f890acab27c67234b204b3d15474d2e06ed38 0x93becc886afa689b744c94012578f800ae1d6295f677f50152c2e260f030bf32 0xc774fe5cff4e0a9249880360266b0e24cd2fe71db9f3468abb5c348134beff03;
  Dbl 0x674be996a79b1ffa91230f8457289247595753941f964900da839dfeaa64d097 0x2ad8057e55c876bcc9fab533b74a82cfc775bc8cd4336d0567836c9dd4783636 0x6b967ec9bef09bd25808c29eb1a2ba1a1b38abf1db5708be6f61568291440336;
  Dbl 0xee5e7e6600de627f082365e48c6f6688ca2c9ead6d077753c293089bd937b41e 0xea071d57a6e452bde848b0d819a52190d80b53fba3a09a2e38e5788b85099bb2 0x18303c1eaee5b4645d0746417b41f1fb3d66c55709a0727e55b7fcb87dd40ac2;
  AddG 0x373d4c333ce2ceeed8bfb1c5c322c1643ee0622651b5110f03a3d647da8f469e 0x26eda69bf7a2315eaf6417046f36e17e26da96b8e18d3db140080fdd6cc2e330 0x8447f71788857dba1dff9051a19698796509a5a96e826351818b53851621214d;
  Dbl 0x9c51917ebf299f889a4a60b8fbe795bd7e95b1e228af3fd9f4b02543f26861be 0xb87cc30d3af8b08160d01f6ec0629f8482ec10b28f4808d03bf5556479ad7a49 0xd21b83fe89502d73b3a19b97c567baa05613bb32967af3dbe571a614b8a27e95;
  Dbl 0xb9ae35e128e79b0fb8380b9f2479bc17ef6b7a7f20b6d197d2c8bcc0e99b7806 0x6ef542e2545632ccc7b7261a38724390d3120e907124464c1a899801197915ff 0x2ab5cb77d2aaa084de60ea2864b9f4fe5282374e68b9ea8cc89050d1a6025c50;
  Dbl 0xa27c68f4b474e31e759b15cc347692181895b9fa84e85a91b39cc301a685deae 0xbcc3562eddb2c314a833b87f9289661357110ee84114da6b1c00d771d91dc490 0x4bafeea723cc2e038d56e55bfaad067289f55165ebe175cd1e0f0dc138d5391e;
  SubG 0xe780342a011707273edb3254ef9b1bc892845f587efc57ac5d77f0c62873947 0xf4cb17fb0f71f3ba8968eb52b42ab5dab57d98871e1ff8f126eb04c40384d64f 0x8fd1eab70c0e9481787f2b7de03748fdb590f56744727679dacfb803391fa053;
  Dbl 0xaf4aebf985cfa16ba0a6d619d9a6e023514f5bb08c62d76b0420577c88407f52 0x34c6411818e018562416ce796c0fa0880996e88a226a373ac70233a6ca5b4929 0x3194ec77203b8f7bdf664e910439b090cd4d698684609c75515fa72159c036da;
  Dbl 0xad5555a05bce9b2281eabcab4e0aaaf83beca658b0c6b730bf3e204f948e8da0 0xf59cab9c200cd1032b9b790626393051bf4023eb730f6ad1dd44a5aa650fed5 0x642690bc9f44eb280f0f50e38538f831b4fdc996d43e304618af9f66f6a9fca1;
  AddG 0xb243199fe49f5c091f241dd5f73074d6f9defcbf4f4c92720719ed4f8bc9c6a 0x34d0da9dc93452e3c2280be72bb84a2c8392cfe8028071bf11d39fbdbe994933 0x1c5c71f6c037428131b6a71b0cd07a93a1e97f47b7b7b8e43b08cd92ad5427e1;
  Dbl 0x4f9b3dcba0acf0c1d8abffbcefb58ed9f156172e5cfbca860d1269d97086babe 0xdfc20ba325b7ba258b6b6c8c72a7799bb76ef74de9a24a3a1f0c149e57957397 0xd4f2392df6dd7fab1818a217c85872b3b8f3c70e4fcf1d7bca558ce20da5c22d;
  Dbl 0x6dea7184272f86133d335e471117e0d969d6372b15bf0842745292bd7c605513 0xbea5b94e34e3923e35227b9545c29ce6576fcb7fed3253e04486404c9a930bdd 0xd7a9bf35994b19951e85dcc98307cbd882b07b8c8e9a6ca72531bb097da81c16;
  Dbl 0xa2ef83f07ba7f08de49ff3f13e7b737dbba4d9dcda145e03a91454516046ddba 0x93379018a25174d1672e97254e019a5ca106265db7a937fbdf6b545d50af6889 0x259a1906cddbf875f7e9a438bdf757956e4aa9d2e772dbfe7867a3017e0e67bf;
  SubG 0x96bb79865975b582b7f5c69ce6e4c6e61981dea2dd72bf2a9dd4fe6f19602d95 0xac5257c66e490f9ae64402fcc0b3d6756913f25db6c749e1254b43487b9ed0bd 0x4a64f80bd45b8a405a1308f83b630fde7e70845b971abd5d2974c1900bbde229;
  Dbl 0x5c5bca7884fb48cd2047ebd2f3775e188741ddd03981d460b046946c7c38a40 0x1e168699b3b6879b3bbe1bb8a062fa79eb3da524530c15e8ad0ecdbe4c53a5bc 0x3c27257dc05e74b766db2581ec6a67e375f1f513ad1bfbc52c967069d65fdac8;
  Dbl 0xfde6f471b8bf1468f3ef182ed4ba9cba68f628abe10add4d3a3c85f3a054ce8c 0x1994f7a227bb791aa0ca569d5cb655eb1cab00b41a553099e3e3f3b561745592 0xcee27dfb1fee6b9d4cfe25d65c5b26076efd10fa6ff8141da1635b9cffd16091;
  Dbl 0xac8641eb2e98c496715985c39d898462a9ab59308e4c41b6cc0cd288ef139f2e 0xb0b47cbc32aa43c5abbf7ee8d35893dbd86df4f2a87540c9a6708a6371cc545d 0x69651b5fa7e2e146e93bc01270476fd07438b24f8f560501d0b8aac17013796d;
  Dbl 0xa8a36021ce348096cf87a37cef42efbece54c0aba78dffcc039366bc31b92e9a 0x506162dd478f303a937a2efbd3556929f11a316c1ae9c1744f8d94d256b57010 0x758aa0ceacb6bc50b43ee567febf424e0b137b53e1c528406c3daa261f1df3e6;
  Dbl 0xf9aff106e25d2c8ecc87ba590eac4b975ad6e6162db71c2402d1c26d8220923a 0x19e4e183b4b13113becb1377328317328ecd55ca60ab7d6fafae11ca9769773a 0x41d37e6f038ccaa7ebb518c10e7cd8ea9e9a33bc498f94ca0b98b66d064bcfb1;
  Dbl 0x4cd7a986012b570b6caa53613e566d02b2400633c1e50e38aae7b261f36c37e0 0xbbf15f38dad88b3e85fda2f6a7b78f280f9e0eca91799b2f411a37dd236cddca 0x2376c34a84a2c7fade25b70a2ae3b490557272649cccf10c70123b203a98fc06;
  SubG 0xc096c06fbc4b3b55209f7c34c9071fc6325c997b22b7de7eb9f5381efd6e4063 0xd12c67de3be2214cad4154ace556c64c9f563d14cd845876b18dd9bb748e9050 0xc68f99e8cf87cc5e1495b66df86fcc1c480c27fb0b4c0d908dd97693c8faa518;
  Dbl 0xf0220ef4c024c40dd8d00b572d94878d2cd3ad5f95d68d4a4af8f6faf75a724b 0x4f3ae756a3ce1402be203d0875d24be42cc3e947c6ba404701161cf712bb9bac 0xcd42e6a05afd8c6a4819994e954bb5ae8d87b0d581151c126eb944b485c6908e;
  Dbl 0xe4922d5846656857c33bd1c038c9a3ffe346ad01fbd9af8f05832fface530157 0xd6c413e94ecedad413f0e4dd9c9fb21bf9585fb539f9d38c3b26b1aecf7f66fb 0x4b17f58f5d800246fefc7563fe35bb031d05284c0e91ecd6872d0f5913f70a12;
  SubG 0x7202c7affc7a50bd711145abf2fa229cfb4fdbda1d739a1de9c41cffd56e1d91 0x7eeeefac08056b7251d50624f34aa4f1780de5c0478313f96c4c6da177bdf92 0x230b1a0ef4f7f0ab4a67c3b7b2fc98828459fb043c77e539c85653e858bcb763;
  Dbl 0xd57c3228383fee3bd35d0e7e333622b0b4d3bdcb8adb02d46115c5f1700bab27 0x80c3d2e96df94512854b5c107918e9b73ce83332bc51097d1f0c9cad9b1b0ed0 0xb4e423b3f1be15d25a75a9c8ca1e9a12c12ea421ef9e1c3e8af74814aeebf099;
  Dbl 0x7fb02d5ad6b5769931f71f77184dbf760e8efe1d2218b3c9bed2e38f2a20d744 0xd594b0fffa94c6d982438293f3fa5acf5103a2e658952aedc6509da652c26130 0x824813b55f60f8131c062a5fdbb8951db15edf3cb72be69de27d9ac90853e7a3;
  SubG 0x9c79847a323c07fef93227cc226f7dbe65faf0fa1d91ff0cb47026b0d968576b 0x19c5dba61865ff38d58082814ed8e168d17ca7d1f5e140ff6a8ad7a86e8efbae 0xe95ffeb91fee34bdbe29e911dec817bbd2d8dfa8a8bce032906eaa5c745413cb;
  Dbl 0xd7cd460258dbe17f6fafb7235f8b793160e6dc23d1b81ffc9b5ce47c76825e8 0xf8683050e700e5d0769e507916143bb59d8b978ec947363acbf4feeda1ecaae 0x36e3795620e6ab908849c49fec381fb3c77a186e84b2ce0f18258bbb0ddda7bc;
  Dbl 0xd60ceab94be498101daac78a48bb92f6819a557da91ee10bfb44c7cc1bc5b148 0xef0f0345993aeb303d89c6f64559897521b1764eeb7f557be518599a39fe007b 0x14de26149e9f45c00c3a1e6e38207901e453cb06535dfc4b57b08ea1c85fd768;
  SubG 0xaa00181ea0a7d6c2b8d6504496d275de8e9e35a851015839b5a886780f457f06 0xd0bf2639f0a30109ef71113e568654c68e1f8e3555a66e3c2bda91fa5ab526d6 0xa687375b89f41a9828034b27d7fdbd5f2e672249daecb1111e8c701a96f920a2;
  Dbl 0xeaebe2565498e786f845ee6d0ec7dd6e79bcf4df8b62e0004c5c1b46c5808850 0xd2c05edc199f11e0092605344bab5c3b8dff5b03759b00adf84e9991186e9d37 0xd13f53b5986c32cc1f011ac52adc2b03821befa46e5b1e9bf45805cbcbd02ee2;
  Dbl 0x9961ea94f4a8698e7727df90818947886e5e631e5fbc7bc11129c4c7c12eeb59 0xd2e8be3cdbb603846bbb92e84ec2d5a2eb63aecb77a2a7157e2ff8b5b39795fa 0x6db858262adc80a070a6f134712bcc9d6f3f0c5add1c457c0a36ef3a9dcd3be6;
  Dbl 0xb32d34e92e8d64a5cea57e780479690f4c41f4cf32cff51dbb23909133be787a 0x42ca2186d8d6b1a80cb526b840fd94c452f275366659fc9473b3925b17c250f 0x3945c9fe7724bf49404699aa7609ee987de87622efef1803d94f8cbb9472c90;
  SubG 0xb7b274a006f00d968e9ee496ec5d28c49e5b47f8aad291049d52bf94a4326beb 0x5a17f735833552e096319c4a832185a6fdacf6be175568112f17e0418838d2b0 0x6987538b108c45bcb87b72b1ad083bbd3d0734f7b6f78b7eddfecb1da48a951c;
  Dbl 0xaaf7c995942e22201475109594191f23bf3d4b4f63b69f5f9684b423b179126d 0xbd29c5913577e2d2fc5b11c6a233d2f343934906003974591ad4a046e1aa465b 0x38d40c9d23954424b4678188e5e52d9763c2352721e6632a606e072a5e5723f8;
  Dbl 0x7fb01affaf5d0f5eb8e5fd457da10d40bcec18a352476a981882fddf286fb3b0 0xc5a5fd7cdc81f8d46f6b3225db84bd8d18dd62f3ecbebe71c182586f224c3a1e 0xe808b252b68f9bd339761a93209caf1ee16b84bc87c4d862cbbb04912c4b33;
  SubG 0x7e1e4a7f2ef33843cbed77e41310287065eba83ecfe771d992f8c91891289f3b 0xd64d712604a2170e57bc199eac942620982282c1b7df628410989fe0d31adb02 0x374f1e8c2930d5658fabf832fd6e8c3deb7608f58d6846e044744f8dd8e3f8c4;
  Dbl 0x4a370ec9fecf54b22643110841d65d9b9a30cfe56c3ab2a83ebd00265554fcda 0xc9014bd86cdf69f84321064fd0fd6dc3cce4edf043bd74d1cf8bc20849f75d8 0xe0a133cf99ac66a130f8bfdd4766a8ac076abb94c7e6f85689a302c1ef719d99;
  Dbl 0x26021cd70550e8cdba42f3e607e8d47fc17e9f01548cf8991eb7ea0920d2a1e2 0xa6ec912d57a582a72bc3788edc9dc3d83ebadd34a7f8c85964ea892c84a495bf 0xc7a1ff84c5900e4803fff10d9391399c01e960106244d4b07efc96087f94c3a2;
  AddG 0x2def9b7a035fca5c5ca4d2629525aa72cd247734826468a96100c57d13b620f3 0xf7282ba39e5db687ecf291b176123a7b5ea6d101464e02b148f236dddbe06bb0 0x55201b1614b46074c1bc85f53ce53e9436db7045d0e86840d309e2be62c17606;
  Dbl 0x1687868d0c3c942a86f6a2f6bc2b0b0014da5b25d28de6968dd58ec932777ea8 0x712882c6f5c608ceff86c68358099492bebb14c41242cf2c12a46fbd41a7fd26 0xebc802f7c048b4c1c55b0bd20a483b3826015fa160bbc02de00a2c5d7b88419a;
  Dbl 0x2e1d6d99905ca613107ae06ad50b69ee23145b1a91e4afb8a2ca74b9207129a5 0xe391a696c7ac0adf4f72004a60b8a6c7a688173cb829f61f9c85b8e0b62f4d25 0x4690b02ac2d58cc655aca1095179d06f7619b6f7b8e05d568687ada93c6409b7;
  AddG 0x27017d11d4c6232f17f307bcb17cfcdddb5277532c1db5d7a26b069642824801 0xe94529718256d9a267c4642da2ded490ca3ca86d127b40f790d99d67d60fe53a 0x555d584688861fac338557361eb7e5b4bb1d0b64e3ed84717b3552a414df556;
  Dbl 0xe7ed2ac716b9238ca020ad0ecaeda589291da236d6727446b8783a9cf49e8c9c 0x68689f6941794d24bf40a08207a1400127520c3f82a744500859d559240c8279 0x5c61a4e7f368c766916038317ddede1cd5492998eebb6ed99bf6fc2abf4d8d14;
  Dbl 0x179440185a766506da237bf7ded17e28e244c6fe2950c5666c0ca76bf14bfa09 0xa197e1b7f3bde5c1268fbf9520f78f1b7c2448cc946b202bce6d70fab4112730 0x4d238b3c35663181e56aa50acede4569b45988c6ccf482f3533762a2859ef834;
  Dbl 0x68527f6feb1c85b31c9f32a00511b66694abc9192097ff368b5274950771c2e3 0x9f57cb76c78ff02d4e85ef211466af63b25f82f38e1909fbaf265c031764e132 0x193b52b39629ea9d12c98c5b197212db00039b3158cf6ef6b49d1ea74acc3621;
  SubG 0x96599d4ae2b7b0b6d0017cc5930b01086e530f9534b085c63a8d2f63520a33d9 0xd1605c7f98518c3bdc14099138ae10f58e00559a537595bd0102d52b4cb75d94 0x61582c41e6e345a428575a5be939935a2a1735d0a001d63a1921c8f996f11e70;
  Dbl 0x328311006166da0e2d955527c15989dcadf4e3fd67e2fa1041c595d4d5bb5318 0x324626b2a465f61d1d5335efa22ae562eb230a8431f0cc9c009c00d4fe34985d 0xed335e389b3b10c230d9fbc9a5617c692d22b0adb969e71db302c73987fb7a1;
  Dbl 0x7e087002e55cae077c9697c99e58a03e348c2cf038320cdadba6fdbdc2abda18 0x5480132ea18cb477bc329bbd68f50afcda3bbb8677a2d7ee7efbfc0fec3350d 0x1f877a33c066a4cbe14e90b9a08facde10c9b147067f69ff82510001df2cdf19;
  Dbl 0x874749fef062abebe4fcd8d6de89523c51b44716b020f206d464b45cebd0227d 0x9da6d204a90c97e83677bd3abdd8e190f42f42a9b651c441e08db4811b49a35e 0x2f16762c05aa3f6faa7daca4130d6c11ab881fcdbdea00a99534145f197ca6b3;
  AddG 0xce6a70e77f583ad3529c9611f8a2e617769ddb2b2e549bd7eeeb66e814bda627 0x8583d71298135a5a2304ecadce1126accfe72df5287493f9334f849f634cc11a 0x203688957b69a8b37649d475ea755a60820d2fb944dd1644e907e565fb89d47f;
  Dbl 0xe3a00db65a6f050408d9317baa0f1567e829afba97621d77148591927af2e326 0x89e3bbef2076432cb07a6bff01b1d36456a68a4e918b7a14a5bfde025774d43e 0x4504b36ca5a67314fa189e6478565feedf4f762ddf1e9d340f88aecc3809905;
  Dbl 0x8051f6daf0a28faabd7202a70ca45f29a9c8ce0564bda201469512ed15bfa3fa 0x8e7d16c37fbf4cafb8f96a161ab86ea97e3c87c5da1cf365556d264423fb3b90 0x37a5ef26bfc4e0b332597ffeebcb022059529c17e5d775dde90c0df00fdf9f5e;
  SubG 0x3e82d8bf2a6c08009c38da5feb60152b3525ee4bd09702fcbc81d8b3dcaf9e73 0x39f94ab77ab6eacc93ef07f47d696e52f3addb986c2559856cfac29fd85d03bb 0x8425db27078149ad8393797d3c197b16c57adf0d58d7f1755e7d605ed5fd3fe1;
  Dbl 0x741f8aa350503ea01341866f871b5a14e908c03520268bec4be17eb8b459909c 0x123e5f429eba4a2e6d6d00cf52c2aa806f7423f0391387f739f9d34eb81c8c16 0xc7f22f9b18641d88faedf452f53d1182776c0a8d7d928ff178f10c84c03775f4;
  Dbl 0xa9b85f87e96dc150a3f67e20c15e9cdbae0d48f1c0640a0e47cc786e207d180 0xe9fe8f10319aabfea971713d077470a811396a48500df611586e5b056c957386 0x364d4ab0d4c7cb9fe47998444ee2dcc90a6437a819b48d9d8ed8ead1242fe101;
  Dbl 0xf9b85f84f2bdf0fb5ec317013d34c36dd67afcc916d987094044b47e712b59ae 0x30551c4b8ebfbd8a4084d611ff56c75f40320ed013b84b773c8c2aebb4499d35 0xbfadc2f8f206bff2a89d72058ae6161975e6ecf3b57089b6c602d62583bd7524;
  Dbl 0xae90d49c8db0b27291c1df9999828cb52d475e6236eaf9e9544f90369bf6ca03 0x245ae56c7c42ab79b2934359f3dc232307eca2e6db7704728385c2aba0ae5ef5 0x96a360080f0ce790ce7524bb644e9e0ceae8914434be537e98aa9400c12ee659;
  SubG 0x1ed6a0ce44d804465bd4398d36d3b62be6037f00bad3f94352abece442ca274c 0xb5c20ed77f322d6bf7b6b2675cdfbfbb8375b251d39e84dfef37836e0c2d3c32 0x56c0e75683597fc4b891115c4faee04e9d0837c8b7c2001f62505886c70d8dc6;
  Dbl 0x3050f99b1337c62004e120e368b9c0f76b837cba50537ff5e210843b7f72c84 0x9ea323138c3021f1d1a58f22375cc3c5651bcb03de5568af3d9919999fa5ec7f 0x4c00bea15a3fbbb38dc9392f03868fe2c124140d165e59f90d5d9b7f9e24d270;
  Dbl 0x359cb63dd575fe116d4334b14409ac9b98abc4fbae71c5208e980e73c5464763 0x6c91ca6734a570c2491e92ce87836823dae578f99579baf6347b651c79b06c73 0x413ad6b4ece5409ab15f0c9304dcd9153c5ba397655de0707c7111f2723cac56;
  AddG 0xa7ef8597f774242922e244582e1d4f0d9e1a17537942d7472744430563766750 0xd62011ec10085cb1da3ae5a5cd310aa4cd322175b34a9ee211b484b048a5aca5 0xf0f4e2d92057aedb853b5be838886e01b1dce6f6e01d9c383eb93103d58f9c70;
  Dbl 0x6a2510347f3909d4ae791700d1c75d9e6d7d86873f7c2ba63c705e1f38df9186 0x4d10b393a3497393d12932e94faa7420782d722cd5b0187d6578877da49251ba 0x16805b1898e1e26028f22815f38575398472676dc2f29796f33263f0150ca96;
  Dbl 0x66a8a2869b273c4fb21f8ec51837f2a7b32d7533e6343e4f04e7c2e4c9b3384d 0xe1fdfe1ce7eb03b67bf8226d575e059259755aa229dd77fcc7f1f62aa97ceb2f 0x68289205abcac921aeab4772094f8e82f2599400dd14d481e7dafa12a979b554;
  Dbl 0xbaf1770b0ee37a8638600be1bd6dacbceb39716b474509e4450dad36d5eb4211 0xaabfee844917c6830e72c77e330d586f789cb51067af66554840508e46aad3a9 0xa75c006e4f38127a713b31b80c0e1694f5d1b9f3059117a507ea8e66eb4b8e27;
  Dbl 0x39d68fad14979e32e1c1742f8994bfa462196ad6f889cbfa5fc513709630ae06 0x1e45316ba9da3bd090fad7b1a08d5558be21c2787871aca7b3240d7e25b9b333 0x74f0d80a432ed5aaa3012e16b594fc12d00ef37c98bb24abcfe48e75ae7f0aa;
  SubG 0x3bf3d12f552c47336d86acc6ccbd8c9cfce3c888ba2e4f45c4b33169ac639ebe 0x98264d08b10d9868c1f1d37dab999279066354fcfb38c82d70a180d1e4fd7087 0xb29bc827ee80893ed7fa5997cfc356b5e27051484829271f6b4b73d0e44f306d;
  Dbl 0xa062b7b604d46e0eec641b05bea0471db15e82688f5826c1c34637bbd3edec1a 0x913b962857a991a62cdbfcb451513315b8685997fc0956ba592c5756e37e63c6 0x297994edfd26d9486e66bb24dd0292fae1f11302c737cd4500c5e964d521e1d4;
  Dbl 0x9fabde1ceaeb992e80017b12d617ae37f2035299330091887021ceb827ccbb36 0x17447f8b000cb8adb9ef3e03a01e8aea0ff0d1241bb9a660d8d59d9009b65720 0x5c9bd4932f6b38101f23c5b85f078c535207e702bda5a81b65fa0952596ef3;
  AddG 0x230d7a4a3dcda864775eb4ffe8f319d14834441848fc304ad231797811c1302b 0xb6c88e89b8129b7277b414a5648a11f4f2e9d97a40526e22ee25b80bac33406c 0x7ccf333f633ccb065d76f4da59c7e0076d7776605ca9dcd853f4a31991655779;
  Dbl 0x5470a5c84b32e321637d2e208201a340a01ffeca339bd0aa80979c4f1170ec87 0xc317254ba84a4bd587ba11b418a59cdfaf2c1f8f11b46f0639fd66ad9245261b 0x62a7bfa2474c85a8c9974efe929cd60c4ec8fdd3265498bac720c79090aeda42;
  Dbl 0x7e0a3376d947900a7a41aa6d2f81b1952d4c5c95a3d6fbf1603466442e7f0620 0x37bb41f89568cef5c6cdd2e994cb1bcf272b106132f9e19f52686b3ce0dae342 0x85cb39907677067b8d01b78d67511eb1647628882ae01b02da07cc24fc59eb29;
  Dbl 0xe05d1f4553924fe6c8c2d7e3065b67bde5d0c944415fef1de4ee9e5bb461835 0x7e6a7cd84f249d763a06b003098ff456b57fa8d78050bf86b6275d452773a44c 0x1067c4bc316d219724468f96388fae55921cfd6ad7e94820bf6fce44199772de;
  Dbl 0xd6be9e6daef03da7f6225309237433fd6749d3ba48e55744d1086a32681a48b5 0xc0c011ea3966c45eea06ad310e7eea14513bd10b558e47cf8d3fbb6c3561ad78 0x3cb15e9eeb873f399b8642be3fea6fe85a73e2f6a5432017e0c56612730eb10c;
  Dbl 0x232359521f0e0a6d5ebdb8edfec99aa6083f85ee92d280a53cf82f10076328a7 0x34cf5cabda4bb9c7e79f11e446f0d4689280c9689422c35a7b9f450df9567e24 0xed47cc07b8c5765bc480e99029fd99f289d6dce633e3bfc75c5cc6f810bbe0a2;
  AddG 0x5a5329acaed2ae0b821c3ff92a8374a4f3815e42d8d135e1aa12f39b7c454904 0x36310f9c67f346edc7e3d61c7409ce3fe7d4729acdc4f3515cf80742108db9e2 0x340167c4f66e9748c10b0b072428fae612d344f48372119f6db659da386ef1a3;
  Dbl 0x38ddab01e96df9b5601daeee9c80b49ed240c47e2ecc960852018922aba272f1 0xb8308948d15e3efa5e7a6fa988fc0ab6a2e5c93418e17df6919d1b4447646dbc 0x1a931586688004ea4d30399d6b4304ecdfeb17c1e93e95d3f67431b7089dbf2b;
  Dbl 0x95b7fab8a622fff06ad5e5702363a19dae3220b75d3ae3ba3a0b13ee14053131 0xeaef3f9397aa11eae181bcd301a4f0cd2cd3a385d7f55475ec244615723ffd73 0xa7adfad21fd25aa843cc606fde459f266a68121774d939ffba876525f3cb6ff0;
  AddG 0xfc4d96ecea839fef3458afc42dd2aebbe8df8127d87932bb6a0166b464f0a6e0 0xea166da8c0567e5b69f7cf5e12d1f0c90159d5985b391469bea3888fa19b6134 0x93e935539115bc8d3db169240229c1e9649863eb5062620be71c17efe5957d5b;
  Dbl 0xd61aaa1d2fa2f18ed3ae5954ba603aac5f3335e1a9f5dfd0ce48bf670b6cc41 0xc6b1d42f869a79ccd98a3e79d2736426b7958b92121a56c5c72e71fb5dfa8fe1 0x3e122a56c4b0c1f657ef6cd49e049e15360ffa6ad826aadc55dc5783fd1a91eb;
  Dbl 0x81cf2f0da04a9a8d5e2b8aaf129425555dd3450f63c48f5298a3172117c9bbe5 0x98f16444a1a5d460cded0339a12adf2a582e12ef2da7fe96e2bf199ec62d12fd 0x213770c38bf6d547de4ff0bb8cfe17808abf81cc0cb6f66135d14ec722a57134;
  Dbl 0xf89eff93cd1946c771ec51aee6652fbc4be5bd27ecb8a5f9582e29d31d54ca7f 0x1912ad3e0ca29b396518337851ee3f1dad30d7061762adf1c981c6f022f82b42 0x3101ec2b99dc5ccc7e4bd0b34cb3fd76d00cbc9b86223d3649cd460afe6f2817;
  Dbl 0x3a4b5e9eedb02dd5b649eb3d51b50b6baf8c4a66aa3a21b5af35118aa4ffa512 0x36fdbea2bd0ca75824ba359cb44c8cc6ec3a15d7156a364808cdc38d88f891f 0x621fba567833c522165d50f469579c62de6b4b530b7b7728393078b6424f9e0a;
  SubG 0xdfd04accf49a9f6d30c54f3acc46d1d8fad2365f367ab18c6e37175b86258a73 0xe445fe0772a9bb62ec4d4a0e611389ddb7f562d17ba8c64a6d2a49ebca3a150f 0xc76b8713907723a30ec55a26d1e0d7f2fc2c3ea91cabbd934a62df73b66fd4a0;
  Dbl 0xd8833940fe6bd86636ea00d04162f80381a184a21c5014203d4cf7987edfe17b 0x726406f3191b90e2067edfa7fbe371dadc5616a1e2251a0e35d60d00ce93c745 0x400558df93c1544d142709569d8f610f949549102daf452041500ff38ea2a934;
  Dbl 0x34e0318ef4cceb053031caf723efabaa1bc24c69e63a9d8f8719e91cde261341 0x308bd24b70ebae7b5497e8509dfd775ed6e5ec9a7f25e58e952bbff61805095d 0x5169297ab4db0865457f832c4438bb3f31b7f6f3e297480c00bed89333d5186;
  AddG 0xee0303e26b8a5a74df66d02b058e0d9f4a9e0d6f22924ca506b2323d5fb93c30 0x77d8478757f96f1d286ada60ce8335d1bcccbcb568a1cdf8c268c9694250f31e 0x54ae88f509734c732ae52c98bccf9928e557923297fa172a98fa2ba2e16a983b;
  Dbl 0xd95f37764b743c597565d7a009db30e5502af684e94da9d625d479a4da676426 0x895e8edec3c40a259de1d9370827cda0112cc9663a09608e1217d4871b990163 0x7698e1f61db2f23092b6eba70285a5873fde29b340c3a5613b60a859f6124d93;
  Dbl 0x36a248d4b2142e8d6cb762d846055b230335bf0185fd6c14ebf656324aa5edd8 0xeef3b287b5a46d4909f716ae66a1ece8453681b87bc64609459684a44649ae7b 0xf716d67f8160b339c4ed2b087d381d83c5358f9f296b2ee6159471fde648b50d;
  Dbl 0x2002ed545f4921c8fbf9a5f6f5fa2c8edef4a2331a1403d7aae2f2cc3cf48b85 0xddd6a248aa8a81bef23d1d6273183e3c4c927a47ba9a1f8e7e4c1da09924caab 0xedf896615f1d2f76d4b5ab7fa3dc3d4e552c21fea2d3332a7e2eae128ede8750;
  Dbl 0xa1d08d14aa5fa9ca5041d4b64b39c48ef9c3911ddf9b783db72b07de10bb2e11 0x1bfa26ff75d1c2690ba7724bba713b88b4fb172047bf891839f01845143cf96f 0x7239f8c703406731ec3df46344d34e4d3508a734c834d0ce50628e972a62fd73;
  SubG 0xda7b5fffac2d087471887fd57d6ed53f305eb2590043feb932b21ce6bcbe4f1 0x771a61032e58d4d5e4b1dd26db25c4989ede8070ab5a36c1f6d9ac50ff02c3fb 0x971025834500814eef65b1fab4c931534f8bdf2f86b95928509899695c71f1f;
  Dbl 0xd09ce7f0934d504499e52d3e5d9f7ab890e49f60d9724291073339595ee46115 0x62a4306dc25adc41a82a6c54e5950e9b74ab072cf5ec13547a2180c01bc9265b 0x221acacf348d4b689b4d8f3912e69e64858a8e53f598a4036085ef06e1114fe1;
  Dbl 0x26bfc29828a0c811598d9ad4dc75cc28a845b4e413816c4e030fd2f578a6340d 0x5bc0e7df71ea20932fc69f457bee496631aae9d33d68b3dbf6e2af71f8186351 0x2277a35852ca89247d084586b1f279bd7c895bc7c7a253fd015944184f0ec8f2;
  Dbl 0x83bdabd78ebb9258673ad87e51c29145a54066eeb2dd307f2a7046814c863870 0x30ec7957e48e1f66f5724d087636d0eba40085f599ae5a221b5434ca166f527f 0x4f864bbcc19544cc897482b5d267ef10688dacb1621fdd4e1c38cb53c22d9289;
  SubG 0xf8c950629a6ae0064ab65809d196bb7c77b83bec6fefa964ab0cad46938d7d0f 0x51a4486aaa58693d09405b5da85795c94e3683415f79f8d5cb6aaaca0d12a53d 0x19dd46dfd341597ddab4efec57de93c3b43a28aeca657b5e98bbe3e4e787079b;
  Dbl 0x1e24e23be43ebbe98edbe61394c3a6ed01a7f4444ac3d5e4cce9f95f1f1b30db 0xce6b18d2c17e439af6fcf8a067f812269b1a0b2de9f09e754890769cbe0a0a7a 0x3b40d3a7d1a736b358f84b46b5ea317a19dce734401b04c9ec6d51b5cc34144;
  Dbl 0xaf7b1bedf0c2915b1da8d0b4b2c1a7744f9b9aea67bf3dcd991f35c737a3050b 0xe8ae31ddff32121fa277545d8a32d6564b9a4a7b9b806450de387cda1c0191ca 0xb0a491693cea43bd90c8c8b874d134fd7e9c748ff1dcaa1c927f961323cf4362;
  AddG 0x13fc0ac0cceecbfcef5b641a46ebb694322a1e2ce1795f62409055263ab9751e 0xbe4c429ac2177a6edd5a474d59eb6e47e6aeb2810efecbcd420d1aad4451b94e 0x4bc2efcc8c0c593d265a217f56520c6f6d6d9455d27f07c254791c268e05e69d;
  Dbl 0x5a5373071c8410c59f30302988b7937d96d93d0326acdfadefdcd8af26e1ccfc 0x4e23024a1c68b25ee17ea2d3e7769c633a476d8fa41304bb62204c561d17997e 0xfd04c72d743e92628b4304bc91509b2b248b0725a6bc678fb616939b212841a0;
  Dbl 0x3fe3b0951f395eb073e1f22902d9293b6a9263fe3218d9f309bb55820cc0f697 0x7a2f33cb81a6a4959517cf355cfb4c652e1b1e92371cede8490513bc8cd2fe54 0x8a493462e56bd3eab999d722224f9692055ccbc90c102760e570afbc6ad1ad7b;
  Dbl 0x12cf251aa4cfee094ccf2904f7f6ba0dd636e60fa7d239baa9ad8e7a31f1de29 0xd9bb8b17c94899b639a007e6d4773665fb1e3cd5a85eda3ecb252475dc36e93d 0xafb32b4433cbf4dec3a1a55af4cd9f395605e9417d3aafce86e4a404a7407dfd;
  SubG 0x508a4103aa4fb9b44ed1b547e7191e548c4de6f104a4ea3dfb5f1e0d0cb781ae 0x431dddbe570449d1058ecfea6167426f8962f097056454199c2b610ac035ef13 0x30f4414edd73140f985b14d04985d969dce47aaf6350f7842899fd547f0b1b2a;
  Dbl 0xf99a98c677df5fa909f310e9c1e4d2e4d7661c86650dd382f74d78255dbb4d17 0x1e76d8e54486984edfd37b8e38573d6d672861491a6a5e836a8fdb7dd8b84e77 0x8e58390b3841a2f022fc8d72bfc6b16c7a7716d89ee4a5016ef9fabfbcf03263;
  Dbl 0x1f7bfca8004798e8724c6e51d327af0c8b9dcfced075624ea910059c69819217 0xe3bfc7dbbe3725bed6c62e067258481af657c81974217ea2c81a46d55ae99036 0x35ee06c5a15d51eb79304aff9eb59bfc8b3e77328e7b29f7ffc220e0f979023f;
  AddG 0xea61ebd2d3942e8ebbf5cd314577b42b656c17a07624ec80f29d95b705bc8078 0x8c0995352429d0625404bcbaebc01f37621faa596930e38fe50082cbaaab47ec 0x2253eafaa2e823353697947c2b4be806c527a8e0169bfa406cc6329225a50f69;
  Dbl 0xa3de9069471faa342b1f94816143e859488a3c6c1ef406ca679068b552e10a7d 0x4185cbfefcca94f5de4b294b3b6b36843ac38bd49a5a6763d42bec0257804680 0x6c5836b733f2562bbad32a1c824c53b90eeaa7f9c08f5666917c4da78ac793e2;
  Dbl 0x6ac99a648f4e996286abbb092d030359e86bc32762e924230fffb328ce2a3d2f 0x2bd9ef9f9b23d490f80449830dbfb8ebf2e10cf24b21480c98577f3a00459111 0x715718568ade37cbc71caa17d96d5e0059775d48ccdea5730d4cd4f1fc8479a4;
  SubG 0xc83cad68877db0d60ee2b039e3e4f06ac590d19df1513ea7499b8dcad22b4137 0x69d62b0d935cd9594f745bbd392e7b08f923734b33cdf82e0dcd31d61be7f8a9 0xae8e820d0714cd60bfda76d6427564a4166dd181a5a658aeb57cc3e129137c1a;
  Dbl 0x322a3dbff95330d8cc3e4d62a6a23ad2df649aa57716ba592858da4a01f6a9fa 0xfc5d713aa666bbed96e5a0a04146aa66e5abb7b7f8762e6f6c95c367fc2f622 0xd80438a484ffe5e17c70a9f77954a9460ccbc8333c422917ade32cc5306445f2;
  Dbl 0xdb71ed36608df6cecd3b847f64e0c9d9e954eaf9bb12d5196e7cfefce9505bab 0x45ea7747211ee003ec18b546d3334dc2dad5710866c24958a35272447ec3fcce 0x10884cb0ea879f2cb10e796faa24eea3951d1546ad225b382a0f469ab7171dcc;
  SubG 0xe094f9e6a5d2f3f42ca288838583bca6da59f333d1745928a3c7db55c049f0cc 0x94cff09c97a94d70035aa280a75bf5c6dcbbbc0de5be05b9fbb6ba575a448b37 0x74eae82bf151113f02b629bb44f067c84a3e5cc6c52432b6a0c71f0e782fd378;
  Dbl 0x2dc0c0c579ac7183eaf439248fdbd6eb07ee6afc5cf1e930cb52448f2d0bd9a8 0x8ab1282b90a0c1221ed0275eb08370a6a9c0c3f0dc07acf18f352e6b9a5f0017 0xeb9df743cf75c706efe24564ab704896511c54cbaad048e1a8af61984d1d9b80;
  Dbl 0x7f0dc23e5824f6e6a2e10a108d993c07168fa07ac98771adf36f5313fcb1459e 0x969af3861fce51528199fb87230c62584556be3999b74b7dd45cc523de54e464 0x5feb19ad42f14aca1bf8497f93e5cd2761a213364f5ce4c1e37a9705f4d02d2d;
  SubG 0x64877c7b1fc2bc5b49b492d268d93e1da5dcfedecf0f1fa4cec9ba4437c5ab78 0xbeb48221be1c41c5322bebf2c6928f2a950d160aa591eb3f325e65b92e5dc213 0x5f93f59d4eba656a9b1211971e3cb0305fafaddf25571b636628dc4af4028f7d;
  Dbl 0xd179f413ae3bfd5ab16b4fa72c59c7cff3de907e09f0fe2e6784aa84fdd8df5b 0xf17bf6f5500b620c23e94fba5feecafc8442c2dfabe40c92515648b46bf4e66c 0x497d40eee3b88406b2f350ed2c97c119d8ebd34b9ca56fe9faa2be137623a1f8;
  Dbl 0xf3651f1948b6da881c2419f75d7cf4b68afc8df485801ac4b19c7755233c6f0c 0xc36ee91ed515d43ab989458074f83c4f91e3167749b3b858f28e6386ebb672b6 0xeb42b1f6eafb4bce7b4aef5df403dd994af5b51f8338c8b7ef51de2e4aee45ed;
  Dbl 0xbe23251d063af957b0c233d8caaad3245a71d35cee8041a4da77eb003fc49840 0xb7683bb7439a44eec834adcc611fc91901a661c6acd117df993aeb88c3787051 0xd17ee89fae871fec983a3d29587df306d5ba8ecfcd14fb14419916f2ca4a5496;
  Dbl 0xd6773521eb6e218ad74d5d85cc0a9a6f3f123dbe6a34ec9433b8a7639848538d 0x489896a1a073a10592fd7ccfa50b56234877908cef8eaef03490f1f1951a76cd 0x52224b5cf59820e1e009d42b38c0ad2d16fc29c8bec8f9ec135c00bdc44bd1f8;
  AddG 0x74fbcc00f83f05c522b19a41d601f5976a98acdeb88ec6db4fb9793db14a41fc 0x58fd2d845d77cc5ca01977e6ead62efab5c82ed8ba6df4a03cb4ee9fb3da879d 0x23c92fd521a6ecfcfef5171d257a573defbcf9a089961c98c320043507d5a5f4;
  Dbl 0xf0d694dc7be1553458e68efffc38c561ebb91b25c1907f1c5bcfe499ce2cf812 0x769619184dac00641671c043d3f93fa9570ee72bc9c5e449a7c2db3ece520727 0x1e3ee9ec280fdab2d74c0a36ce2a3e5d1f9ed81f4e2cf1c840cd1248dec02e82;
  Dbl 0x3c04b10e2030d40c3cce02cad7a27f18d87cf02a6e1cfe5919e9bc8fe7d30f3b 0x3feaf7fc752bcffc9b183c90547bf82e046fe63c847c4abecce446d20f483d27 0x477917908a11a25c7ad4e81605af8753b494563065ad22936a3aad017300ed9a;
  SubG 0x98b369cf6954a89376e40788db863a6783c9fd10121c4cb038ca75fe0dcf9a1b 0xca599af10276fdfe6e9c3e06aa13ce67678f989de87be772d3e46e5fb0893f31 0xa999bee543f3bcf04c92f684411d71c0dd233669e153f150d49c347e2a393d3f;
  Dbl 0xafe96cd8f3779a7ae32b41413a9c0718e3d373a5ad02482a4e50c9908d8d88f2 0x92f50ffaeb3204849916e676af0a3100f2b233da33def38813f4b6baeac95f37 0x25bd3bd7b114730af6fb59b847b784712db0eb38e1703ba0d05b205d74360f94;
  Dbl 0xa7cde4c843eede7aac73d8f7e8803d2ad47aad6fe34630e67f888a76c379a59 0x8b56be2085b349f24027a6d0b5381314650f034c9afef12a9c9281031a68693b 0xc9e49141523157d7a88b4b552bbe0af78e215d2610937d21a32819248c1492fa;
  Dbl 0xec7ac66029540de800244440f67577a50ad5dc9dcb0f81e1bd5ee9d37e69ab90 0x1e1cf60927d20828cc4ab5104796b869ac80239fcae8524da1f3332ea674417f 0x5c5dd30ca3247953f68213ce38359915fd74806048c1bce7035411ceaf18944b;
  Dbl 0x28f2a049df395feaf34a1ac4b9d14ed79fe51c1cd49d6a4aec93e92289096e63 0x924a104a149443312c886a28d94ae2c765cfe19dd685c765a733bb321bf3723b 0xa926d37aa84db4c04653d3554f2aa42f81cb336ffec523b1f7577e044684163f;
  Dbl 0x76fcc3b8dec52cbe1c6584dd2b12ceb245a036a856487d1c9a43c0c93d0b5328 0x8fd4abd9788e348e50dbfe921a53ebda65a7261ed82205fa1b3d2c373809a71f 0x977f0bbea1d5f2589bc264f46bdb53c530b20f46c688df9fad1245f5d3c75e63;
  Dbl 0xa0383d13acbd2cc4c34932bee13b5e59cf96d1d3468bc0c96bd504bd709a3a28 0x531eeee2cd9e88fd45ecb2ce30dd3fb598ea3d5250018455b8a799172a7f4d24 0x4f875786fcd11ba1d5112b6920985a8a98f52c315802f69a52291ab971e16587;
  SubG 0x5f2548556bc3a96feb64124921e0c0534ea9075b91fd7520e5c5bfb3165a819a 0x5e05ef125fc5f7bf984f64c26ed21f5629355a5038ecf67cc1b0a68265931e04 0x98a5a96d6a7ac9e943cb907aeba641317c1214144c690a5d2eb682d50fe9b3da;
  Dbl 0xe04398830685690df5e208459a98defd8832b5196e2be0b8df82c16c77f7f5 0x8e28605c6c1bcebff5c6b01155d9c0cc20d5c9e43471bb573bb66197cbe30dad 0x1c1fe69fcae7f266731eeb4d3c55b4414c8f701b0a8f8f1a82e62906208fe9bb;
  Dbl 0xfcd96ffebeb7a47ee4590684b7c9a2e0b8fa03beabd83654d7d76cdbbcd60335 0xf49a46909cc3c3ae5f0e0e4175f697b4a1329f91ef877055bd355de11d80cd19 0x8dbbca34791cf88ce183167846fd2483d0e1a00d08a2297ec22a39c9f20f6e1a;
  Dbl 0xa740a7573695f572d3c174ed4560cbd69eee3a8e77be3734bca252c05a6933a0 0x5b7ae21390e06e5b56426232ef256ed7a045afced3129cbc97b48e5218d6851c 0x6af7384ce28c73a8fb684e06a357b16f357d446649625cb70ce4ac07fe23c695;
  AddG 0x7878b68ad2a204d83440137779a31f0de81af36b23833099eb30db2cf80e1b27 0xf7bd64f2f9351c793e316d2cdd3bde105c427e1267e01639607003c5048cd2dd 0x26bb2675b14f6fe4ba4656aff632e0b959cf776703adac488082292dddb41f35;
  Dbl 0x6b17744891c14fed2d65c73839d7005e1a4c8ec075408cf501561f9450e72b86 0x9b90f0cc71226a5a22b59b95a0bf69e817e4d23c4f53a203f1bb1a00fe1de2b 0x22bcd7cd3937dc721b4ecc4692c32eb61a89f63ec0ab8e33ebd2d5a02321666e;
  Dbl 0x4c99796ae98e55b9258b388a7b380f8a3fee10ea8da2f32ec08dd753aa34776f 0x4db157b7abf4be9b523159407321fa80761a350b59e22bf63e228ce1c2964734 0x43787f0bef7316fd663f738b4fe8406a76548de962fa38c5f3c5cd30d26ede19;
  SubG 0xc19659ff5a6e8747ab72c561f93b058b92ac88c37a5f9079206663b510adad0 0x515a5c2b5c8be7dd4cbd739261d6551620e1d6b8b12b1e32bc2a7f2b16a8d329 0xb73a18f19aae7e9a27c8b0783d5702c6dadd9bbc232c0138374a81b86d86a19f;
  Dbl 0x9c82adc5593be14823416d07f9f833db891a9f58ca31315a0dca08778edd591c 0x6fa0471754ef6e621119de5772c488c48a4b0d83f2cf1d66526fd06568bf77d4 0x8145b5a6507bae52b1f9061e581e48ad0b0cf420d1b4b0b6636acdc60fe84454;
  Dbl 0xff5fa2b8eaa15963bcf8f4d08ad28483801b21e4ab054838b84b2c1b7eec2911 0xf68849425560ec635f6a997addf82e863b6ef2571c9b9270b636ebfb60179f22 0x89bd903d03f97e4d9a173a09490b3e7640efd324e922d1bb29fbb671f0cb7a30;
  Dbl 0x32057cfec2c8b40d8810f0fd0f1bc108f4d4bf6fbc21b9a5e7e521a26d065898 0x5686115eae4ef47d7aab8ccc1d212187fd9f23d1fd328b227531f0d869eda59c 0x810ebd4885a8653d3c2339e30a8e6692ab6d97760d344905c41231c32b9b2a0c;
  AddG 0xfaa423937f8c1bf47c309e43f7fbf1010c092e445135e079e111eea484eae5f 0x2a238587668c7a151d45067e00160aeba24c628744d79138e577f5785bfd6814 0x2319896b2a51308b1e06bf2a1b919eb074082cbc3e63979a6d9f5e718b8674e9;
  Dbl 0x8ef7af95992811d27114c308bc6fdb9f604cedeceaa0afac88469b7533a97871 0xc968cec584ba24aaeae351078934501b4d2bd42caf442997702a12c12c5b507b 0xaf53793c8e4bc58a062d920ad0efe54012c8b7b26a8999239860ef57e9256f80;
  Dbl 0x6693eb8873b08036c280692a62d8326e3d8102cb893da346d647b54a158a61ef 0x39aeda019815d28b7378c79cd2242650429742a8a4c394a0b068ed9073c6f6b9 0xa6cacd49da17e3bada3010244fc781c1b60e3a94aab43a20abe7d72b4590c6f8;
  SubG 0xe091a1846abc8fe2c94233d1a2df3f348d91e0197790b8a5037a3edda2b3b1c2 0xb17e6bfed71f7f05e67541467d5e204f4b7661f3bd38ef80bbd444e18580c3a4 0xbd586b987422eb9d9a8d2cbb5b0c59d45181fdc306289cf22ae9bbb57a11b0c9;
  Dbl 0x4439830783f364ff8326337036fd5b26868085c15009f456a82a1b0880ff7d67 0x39ab958349697ab9f282dc26f0393ac0d35dc8fcfb59cf2e51bd8abd7446cc97 0x8695cea513ae14ba940a4a4c21ed6ba5abd6f553af0bb38b0977265386e375ad;
  Dbl 0x2f41d190d91e77680712007969891e3ca1deeeaa9415496a1d4e302a4df1e551 0x2ff9fd617c484d71768ef596387a74946231ded854ce0c17fa9f136403a53afb 0xa0df35776489c430d028bcbf4df46e55894056910c81d6f03eb8c7e9fd19b663;
  Dbl 0xe60a0cb18c966612d38cc039609f7ff3a2de07efeaf428b0a465c13b23621739 0x547afdf3299ed7a0ac6898a1328e9cb4a8fadd5eb0e8316d1f958d1cd1ad2f22 0x679d3ace3732e0d3b712c53df0cfd443a95160889165ef5d6d21e7c2909ca7eb;
  AddG 0xc75a30555e78aad072191476bba91d8369aa498d01b13b2b7b4707e205f20a94 0xdd3dbbff2257ce0f721d76118265f1053b137a283c3fb0f2a7f335d9b7062d39 0x6f372c9ed944df7a248688aad0595c703adbabfe55c47f083246814afb0d29ce;
  Dbl 0xda1583e3ad79ae5ecff6ebda1b774dc7dc00d278dd25680f869cc30585dcf0f 0x69345c5e906c50c42d4b4284ea692ee6eaf8f1dab29db045e89388fb2f796363 0xb60cfccf9cc9f9342496265a4eede7034b7953051470380eb8e6cb8276320d65;
  Dbl 0xd3718f57d9db98eb139f5f4e3a41e28d035f899d9e91a8107efe15b79a27c629 0xf0785e30dea1e01e4ee993d524a3e40a127a29f5fa8bb63b95711909d04855d4 0xe0f18a0a6724ecece48170cc9c2df913b802d92edeb9a337dc3f533f724f9c1a;
  Dbl 0xcebb240edc61826baaa5297c41e7a8137af81c8113dc9c20ee1933583e3f7494 0x38b99d61b61e038e7d6f97585d360043d597ecf18a0cf66f490fbbdd58dd247c 0x85e9669543f333cfa4fb024424981e49a268d5f3bc5d4f77ee1ce4ddd5bbda58;
  AddG 0x8b391b2d59c8e63ab3fa0a40b860337b5aaff347b3228e323104d498da3b6418 0x100cc5db446f83f8b506e69c7ccf1023d624d9b01cce5d610bd6ae6d0b11e615 0x39652210041b0ed6ff8c4e944c72adef086e8e3a90cc3d91d9b98e6c63f9200a;
  Dbl 0x3d46e9ef5aed4aa9fea6810de4d5e822316732bcbdfbff222b7ea641d0f4c236 0x897b2e8a15224a834ed3055d1fb73dc1456b55e4c81f6a272a221932e30a3c69 0xc672d5fa0f1c427c70590789afcfc04bea0e0ad7264f681fa4d59bd0f2ee7793;
  Dbl 0x2d45701fda7e3d7f4ecb15fd4fefebe30788a1a6861a4f6ca1431cd8c329e135 0x6fedd00ca92b1fee729065e07e3045956e800dbe44934b24dda8d83d29752b79 0xa3d3d10efa2d60ae0dc4345115bdad6fe27826ff3d7592fa19175f5d99edfb18;
  AddG 0x6d1ab84b6bfc3dd20fe5eb07933ff7ac3f81ac780b4e9c3ec8f773b97dda779f 0x3c61874c7d64ada92d7ed92171fa20ebb2ae43fc8080832736f29b39ee5f123b 0xd4348dd68412287c42f022264af0340802f40a1d6b87d0a037402af5de7ec88e;
  Dbl 0xf5c92d577891d8d5e9308b7380703c776943d20df29457a43a089efed2324e08 0x8dc24eafb4b183b2b8ba2e6585ae7a60cb2f8dca576bf1480770e09e0f3e252b 0xd21dcc8666feb61fd313cb677f59bf1a6ab00f9d3cee160ea98ac69f975af70e;
  Dbl 0xe88b7de3f5fa482be7b122800f456e1688c08618ee100504d19da17644a084fc 0x778f226b43cd0f385a5b1f3ae42f91b7864a0e1e91276004c498cffa620a78e3 0x4347159ec7efc5de320e6d8b1ab841eea08e6371dbb8225589d1fb26bd7f53a6;
  AddG 0xfe3b635c4752201380648dd222ea1a37a8b56b31539ffdeffff0bab1e20a6457 0x3b79f0190d30ec507df4c9433006dc3f98108e8c840eecac60f2ee72576300c2 0x7800cb8410e7425b27cb4ae12d2f1ce2dd35fb7758ad99e0729f0c20d9250146;
  Dbl 0x13e1aace41718a701cfc777d12d8d44229a07d9deb4b28c637ee82e18b6b8866 0xf005c5f391b8839d71d237050b742310632c4471bc90684abaddde575f701f04 0x646f5eebabd61aa6f1f83cb7af67cc889746019ba17f47c4c9793666ec5ac01;
  Dbl 0x56436ab347a1162845d4c6b9cbe939adea2c4f90c169d40a97e58c7fbaec7a9b 0xad7046b18a9ad4d5338ffdb2a83922a5d7e2583283f65fd27f1c88acb211236 0xf11ca539cfd85528e7b9c0f7b0574b11224ad4b45954da3481ef046e33b5fc6;
  AddG 0x9b77ec69617f51069699bec6f62797e61fda164d9ad2f53842780fb17e45fa62 0xb59926323f5188ed4aa844765881b0aa43de7963f0ce306a3b3b2d0bcc94e208 0x6713a14ad58a39aebd2f04422c3243f82dc3ca46a7b6ba0103e8e1b7303bb397;
  Dbl 0x510d851c47baf8984835e68c845e2bb545d52977fc75a523d9580f6237793779 0x55998956742784829dca12de6a988ea385db1548366a5131359ae2fd09295726 0x6f76653e8f904d66c1c95c432ece5aa6f2187c07620a71bd27e88e8fc6457cd6;
  Dbl 0xb9fded35e510eaf5658921bfe5042746076d1426453aa249dcb6bd3495e18ec8 0x7469a88fab79ae982fa880b0b940b96c6108eaec0473e2f530a861fa608f682 0xb6bf06c0f458180962cb09c94552fecea039e0575b739e4213c698318a66f8f1;
  Dbl 0x755d14d98ff4cbf80f733a8570b5b20dd2d2e8c0fecc7ebe2d31bba5e4b33192 0x2afa386b3f2bdcdb83f4d83f8fa3874d7b74dcb454bd644fdd6bf3d1f2da8db6 0x72184be1caa8563462b536f10852d665ae8a64fdf1eb8d4c946ad589796f729c;
  Dbl 0x83362c631c75685e3615425a3bf2d24ad3517a0496f1d94b79cc3fdabf3fe22a 0x6b17d1f2e12c4247f8bce6e563a440f277037d812deb33a0f4a13945d898c296 0xb01cbd1c01e58065711814b583f061e9d431cca994cea1313449bf97c840ae0a].
