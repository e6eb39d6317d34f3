(** * Certificates that the moduli of aiootp/_constants/datasets.py for sizes 25 to 28
    are prime (numbers in hexadecimal, found outside Coq and checked here). *)
From Coq Require Import ZArith Znumtheory List.
From Verif Require Import PrimeProofs.
Import ListNotations.
Local Open Scope Z_scope.
Lemma prime_59' : prime 59. Proof. now apply (trial_prime 59 5). Qed.
Lemma prime_263' : prime 263. Proof. now apply (trial_prime 263 10). Qed.
Lemma prime_628035059' : prime 0x256f0df3.
Proof.
  refine (check_ok 0x256f0df3 0x256f0df2 0 2 [0x107;0x3b;0x3b]%positive [
   {| s_r := 0x107; s_c := 0x246ffe; s_list := [0x2181d6;0x13f707c;0x301c54b2;0x10050257;0x443cec4b;0x15614916;0x1353687;0x10f1478a;0x8f48e36;0x2e3a9d;0x42bdff2;0xd34c3b0;0x1f448438;0x157a7b10;0x12b4ee9b;0x698eba6;0x6d;0x0;0x0;0x0;0x0];
   s_u := 0x62be555; s_v := 0x523e910 |};
   {| s_r := 0x3b; s_c := 0xa26cb6; s_list := [0x9f8c142;0x647531a;0x129feacb;0x33549ae;0x479bb389;0x3ba4ab3b;0x8c470ed;0x5d1c0f8;0x1aad2fb;0xd5d86be;0x73dfa9;0x45ae670c;0xb3e6838;0x2f98e266;0x405affe1;0x5d9d59b;0x206c362f;0x267bebd7;0x6d6;0x0;0x0;0x0;0x0];
   s_u := 0x256044b0; s_v := 0x126d03d5 |}]
   [0x256f0df1;0x3376b92;0x118aabaa;0x5d20330;0x28a8622;0x1602d8c0;0x7f32ec7;0x222ee61c;0x14295828;0x4f16402;0x48afb38d;0x42a14e3b;0x8cf42a9;0x144b785c;0x1328f54;0x500157b;0x2e37c963;0x3a561593;0x30fdb767;0x17994997;0x230a50a7;0x18504869;0x4ac959ae;0x1a63ae99;0xda;0x0;0x0;0x0;0x0] _ _).
  - vm_compute. reflexivity.
  - apply Forall_cons; [exact prime_263'|]. apply Forall_cons; [exact prime_59'|]. apply Forall_cons; [exact prime_59'|]. apply Forall_nil.
Qed.
Lemma prime_1945954069610321' : prime 0x6e9d5bd117f51.
Proof.
  refine (check_ok 0x6e9d5bd117f51 0x6e9d5bd117f50 0 2 [0x256f0df3]%positive [
   {| s_r := 0x256f0df3; s_c := 0x2f4770; s_list := [0x4971287f2341;0xb29b31bfe7e6;0x5f80e9290866f;0x4a418a50160d0;0xb0a3b77430ce8;0xb7adb63ff59fa;0x8ab7542e1625a;0x4feab53bfa4d;0xcefefeb7770a8;0x7e99d2903df95;0xa692c47bde9bb;0x176baf482f1a0;0x1acbba175e8b;0x1a5704226bc;0x6e65e18ec5ee0;0x941e2622b71;0x0;0x0;0x0;0x0;0x0];
   s_u := 0xd863be3dbfc0; s_v := 0xaa46511bc08f |}]
   [0x0;0x6e9d5bd117f4f;0x5e1e8dfdc5af4;0x53f31ebd0ed42;0xc5d63a4a11eea;0x2776825a2056;0x1a621335bb5e5;0x2580fc686a7f0;0x50dc8c5f8c489;0x86c5101dcf678;0x2d69d3f288bd9;0x9a09799f9fe3;0x9e9cdf541a2be;0x143980a09bc53;0x92ccb1b07dd7d;0x5cf55d4e71aed;0x6ff78b41bddeb;0x20b3bb87d1060;0x3532a3620d63;0x2c725f8c1330a;0xa0369484189;0x3326a778ce584;0x594353b8a5b3a;0x543d92644c81a;0xf75771aa5172;0x3b3eb17daee1c;0x7db2c9252255;0xd8e5a96e9f2e;0x61a92a8695cfc;0xbecf49fb5bbdf;0x1a9bfc78688d1;0x3ea8105468f5e;0x76c67ba22f133;0x4f9be2fe69491;0x6101cf6ab5e3c;0x285cc5c98ce2;0x3ee31d8e7c456;0x11967f3a33ab5;0x63ac25cc32c1f;0x48de6b9142d7b;0x9334ac50945c6;0x69e8363fe8751;0x329def8080381;0x3eff636ca9459;0x1d4e57596d75b;0x12;0x0;0x0;0x0;0x0] _ _).
  - vm_compute. reflexivity.
  - apply Forall_cons; [exact prime_628035059'|]. apply Forall_nil.
Qed.
Lemma prime_34405442023873964495019274807' : prime 0x6f2b83bd61629fe0d7297237.
Proof.
  refine (check_ok 0x6f2b83bd61629fe0d7297237 0x6f2b83bd61629fe0d7297236 0 2 [0x6e9d5bd117f51]%positive [
   {| s_r := 0x6e9d5bd117f51; s_c := 0x10148ff49d56; s_list := [0x20d6572467fae87241a3216b;0x24fdf09c79ffcc90589815eb;0x4ff717eec66a0084b5389442;0x234c76333dc564baba042db;0x9ad67771524856cd3576acc;0x37224dcdce40bcf3ceed5fe;0x75ffe17e925081fc1284d9dd;0xb15a07f339d20a4a1e725a9;0x34c17177d36655943f3a64fb;0x4a1bb540caa280cb7eda5d1e;0x5b0d73e22d0f16eaeaffd80;0xa91d6b9dae425411584729fc;0xaa0341a80f09f7ce62340fee;0x298e9c1ef90b4dec85653695;0x1ca15b4239ea4582dc784acf;0xb32e6b874e0bd96d2cf1039c;0x99cb2f0186c85edaf39ef54;0xf3b57e855d11e0a2c5cc1f9;0xa275b4616168b3e7b18e8f58;0x23593f702f764e3f37574b9a;0x173852097bf2e4b20fde346;0xe3aa3e565cad461e2b23368;0xae75e05151d35254820adc56;0x620c12b6c35817694c2b4142;0xc60107294af7812d6bce1b;0xf5eb5ea366de9e2f363e90;0x7be60dd93f7f0eed659740cd;0x40bd65d18eb22f22475ec83a;0x132f8ef17077b9ec39438271;0x4be48840a3a28e1ccb04d7;0x3316ccb14b0c89f7467ebb64;0x62414472dd6c58bc918f71bf;0x2a512fc0c4b2388626d736;0x4614527e96a08adee23c876a;0x48cc8c996a3211a9782322ea;0x86747bd416c1468cd95f27;0x254ff96c49ea850dd26d6e17;0x24d82fcd7;0x0;0x0;0x0;0x0;0x0;0x0];
   s_u := 0x515530e30fa77cc65bb32057; s_v := 0x200560dd1a109a47fd7695e4 |}]
   [0x0;0x2d0eb94305e4c8625364b831;0x4ff3fbb16456c2f4d95a1b0;0x136d365e52a4376eae38bb1f;0x352dc86afb32b1664b7bd2e;0x6cb313afd24feabed162b5e1;0x6442538a6001efed1390e2f2;0x5a3f5d5646f9ee89221e9e1;0x59f6dc936212544b4a4c7128;0xd8221c89b9f98b2d01eefb7;0x868ef42ba033d80f6bfb7a1;0x52ff86c403df162da625df87;0xa195dd0af8d7aaddd76f44c;0x36fc3bf9ca2b98d85aaa45fa;0x1c0f8eefe548ebd361f4d34;0x4a01e6905eaa997c62f03e35;0x9f620ba500d94fa7b65e71c4;0x19fb2a9dcfa77fe261f63bb9;0x141f21b5b13fe415296df84;0xfe0abc3fac05a735f0e0439;0x4522ba5f30c3c0d8f66d26eb;0x1ee24815ff9550aeb6fa677d;0x68d82bf687ae9344bf382167;0x44e3710fdd81350b0dc5f0;0x3fcde632b1a31610f4c936c;0x1742123787a984e643fcea43;0x852e3a266625973c0bfca19f;0x2d8b9af7045b08ce962b81;0xb2297d88d307640884f736ba;0x12e99848220bab8e249960ae;0x8747f9ba96306824c15c60b7;0x3141487ab0e45372524884e;0x548d8d43d5f64a4a1bb20391;0x120892c8e0981f054edc;0x65b15ff83e388338d469b3;0xd4f2830e264742e9b68577f;0x152cabf86ffe68cac8bbfa30;0x667f42c2c7ba3e3e7d014c2;0x177c2c3a6c6f82caa09f8788;0x9c4af4bf69166562e126fc8b;0x876e8ffb5fb8ddd0b7f229f1;0x5a44b44c1b8ddc87d4daaf8;0x76940c95197bbc4f35e1eb08;0x6cabce7847faab042d5a505d;0x8bde0828449e4d5c291f144d;0x5f273846e8177c74966ab028;0xfe083a85ed706770f2a45b;0x68783b3ce1b4ceff0d3467c;0x30d5161c31522bd99fe88913;0x5288c589e0762339bd4b089;0x2a835b62ae177864ec1fd11e;0x3f62229b1a70572327ec1e92;0x3d462cf4d02ebea9a3a5;0x1449b8564cfe61a5f73c295a;0x20631836fa39f482e42c4233;0x398b1d696354220173da760d;0x1852888c7798969ed34b71c0;0x2b8b92b3fe02f1f377d7b45e;0x6a8af9d9c1276790736269e;0x3dfbc47ce52cead29b;0x5d190dad4f2e9aad2b85396;0x10a10be14efc2ee202645f3c;0x423d4cf4930a4c828fbd4d74;0x2cd45d37bc86ad78f01fa6f;0x4a2c65411e247e775623176d;0x58baac7e4c7e16845a8b726c;0x6ba1db845243ea00d1ba41ac;0x9a8e713c6ab6049b06ff032;0xb82a7750cfbfa861412953;0xce82d2026e070508ea3d6e15;0x2fd9fedc853f4bdba7bb582;0x5523c18633ca4dac235b4459;0x4a2abde61c1fd32ea4286655;0xa7915b83854263f7e21691ac;0x1957a0b38f4bf08e3816bde7;0x6868a91a7cb3a82713801647;0x470972e9efba791307dc3c86;0x3b8dee76b041f4ab555f7cfe;0x5f8837733875d18415916e68;0x736f42537ff3f1d4451a1527;0x29503e55a985c697031f008a;0xb50b8829dc8901863557db41;0x57f58aa02fa78770c1c27c;0x3cac12b3c7990d82524916f9;0x85e41de017c4dbe9552e1b1;0x61f854a076fd4c3ad736a;0x21099d2a4ed93bca6679ac86;0x1b1c64b863a5c40c6ee5c1c8;0x126c1;0x0;0x0;0x0;0x0;0x0] _ _).
  - vm_compute. reflexivity.
  - apply Forall_cons; [exact prime_1945954069610321'|]. apply Forall_nil.
Qed.
Lemma prime_4134846022429173053011416446305261' : prime 0xcbdd1811a539cf975c106d0683ed.
Proof.
  refine (check_ok 0xcbdd1811a539cf975c106d0683ed 0xcbdd1811a539cf975c106d0683ec 0 2 [0x6f2b83bd61629fe0d7297237]%positive [
   {| s_r := 0x6f2b83bd61629fe0d7297237; s_c := 0x1d574; s_list := [0xa6e1e997519864b7442d597c3e4c;0x252fef05f868628c6b98e3efc17c;0x2ec98adbe0878ccb600b2b8f686b;0x27ff625b35eb3e190119d7a37d17;0xc0d695d4d6c8d104f61318f1e2e3;0x18e0143dc38327040b72ed31da07c;0x119fc9d44446860eb2b98d758fac;0xa50677f33678e3f731e5a8ae0836;0x29db11;0x6e18fe7a390478f29f968b88940;0x28;0x0;0x0;0x0;0x0;0x0];
   s_u := 0xa6cf7987f7f8cf01ca3f7d431827; s_v := 0x8622d8b373dd5bc3f77332a9f80f |}]
   [0xcbdd1811a539cf975c106d0683eb;0x16de0b5c3e98459342cee44226e4;0x2d16844db61ecbb1f02399a37dd8;0x108255dc2437a70efd21f28b091c2;0x633ff4d2496a81e681c0856f185e;0xddff3475391b769facdadcac90e4;0x4455d10d3536cf878b6e42f0a06;0x7165087fe6e3e0336c27ab19d64c;0x185301f21ce3f1b7a4a3689b5d7a4;0x203e7430d69c374583f5074cb6a0;0x35a4f07f1a08ab7dae3316d9db02;0x1ca677790cb3a35d1f773f6d2d7c;0x22e9e84f8c4b935a4b77bdb8ec2a;0x89c111346aac5434bf9f9fe28c73;0x5e632b3dd22e549458ead5e07b5f;0x25ea312374e76c31bac282ee7c04;0x7f387089688e7ccae1b3864b22a1;0x7fb9a0082e13e156c9c1e65de61;0x5545b39fedee6c3a0763803ecb;0xc75915a787409d73a031c20ec189;0x4817b188b1b718ece207334992da;0xa6dec064b10c94b70133ce2cdc35;0x1c89cce9f9ed31ea0714d6090af;0x17a14273e4d657ced878f94fd3a8;0x9a3ab22c805ada9de084220e33e9;0xba8a5aec9ef9c7380274e2180967;0x1463fcae0be061a7a66822b969cdf;0x142fff1958c1fcfc76342cb3c161c;0x32c83baacfad83d4daa1ca7bb024;0x11c45aff14fc34cf70e551368dfb2;0xdab989c4ff691046b98387529354;0x82657ff9a7e211b1dd93f49b023;0x83fd5eeef90622ac493113ae492;0xc471ae634c59e7ef86d021681306;0x59a9e0ddf4e59e69dfa21ee056d1;0xbfeeccd3920b071b3311fd5f85;0x1039c7e2932772c74cd1c6dc144c9;0x508191a2a34772c4e11559148ea2;0xbda9b6f8b92c1aada12e8cef306;0x15429abb91a5c4061e4dff2e718a;0x382626101ca6b8b1ec5cc94ed51b;0x6283f669b4352624a60adfa0aeb4;0x55f284b1d0c937a2a624be224b1;0x1f9572edb8b015903bf23049d2c5;0x90e3e0cf9c38d88ad9545a8b6fd1;0x3dd3fb39505edec8d41afd90f2d;0x153ffd2fb78774f98909327e5f0f0;0x5a779b7637cdbcd56e85c0a1f2ad;0x11b3cb5e448ee8faade41224b8390;0x17b72746255ac0d1a8eece512cd95;0xec5a87bb4a1df80518baeda5689;0x80cd4e3402bd5c673b60c6b26dfd;0xa204f87166ebcc7fc71919632e25;0x25244b6ece2e4674fe738c7c4994;0x8ce5aee8deb07f6a64d59b42aaf7;0x47fa5db76489823048ad741d9a82;0x72de7a29e811578a312b712fc6c8;0x91f788ab106733992ab22f76830;0x136d666064bb6c2f94e18feb6b545;0x682103877ad98acbfc4926cf69bd;0xbe8a67c09bf90ba0084f3b3f3f74;0x9d92d35ed1c7b09a90b9583ca6bc;0x10fd1827f5b3a6f188b312246;0x36241b5e9796aef37a034dcd4db;0x6fd35a3164cabdb9ff0b3b629f16;0x19fa2800c4a72fdc387cc5aabdad;0x756123bfa13d8aed8980f383e953;0xc702a2ba18d6708f09998b0903a;0x935f25ab9f78678ce0bccf73a8e;0x1de5306b460376c42e9358f9c776;0x3e176e157702ffd616b2ae5540e6;0x2afc85a7a270460caf9ab7ef9d3e;0xb52456d6110c16471742bdfaade;0x8eb1d17fa5b4827503dce3b137;0x9e35cfac7fa0a4a14db1a68629e5;0xcc4a5dc2de3424743f4a3f9c486;0x3a4260ee9a82f730a701ddc9fdbc;0x28b903ee6cc4b0fca49bb0f3db0f;0x7f2987c75ed25c5ba2cbccfab7af;0x1138671770f1d379a1d1c2ef1dd41;0x1ae4c7737e9d72902e0ffdf5fe0a;0x6d098259344a2567222237170d15;0x353838942a6c2bed57ece32b24e;0x7728e9505a84fe9d73d800a53d65;0x1c3a57cee0c5ff29accf96b7a271;0xa4aefde713a256b9249ebf2d846c;0x33b13d3f20e749534941303b2592;0x2b46ff46b0a00960ad5525d7aaee;0xc58a73b9fcd613df61491959954;0x762d7ca9b072707690739892c934;0x94d514d446cb0d29d1b3ef483f17;0x4a380cf04ef5f38af029ba9272a1;0xec013f6d104d463b789966a34538;0xa1b04fbf973f6d6b7039378d0a88;0x8e10d92de60049bbb2517b77c70f;0x11029709264899f6cb545df26b;0x6c8e9a8f50ec4e698ab8b36a1b8;0xad391ad717445ef52632b9990114;0x13e54d70b5d86c45f50a54e450993;0xc49824cf55c12b21aba1322bded4;0xc74e306f110eb872af00631d17a9;0x6468d11ce08a3b9334df2347fd3;0xae63aba2;0x0;0xa0bc216433df47dab1f86a0;0x0;0x0;0x0;0x0;0x0;0x0] _ _).
  - vm_compute. reflexivity.
  - apply Forall_cons; [exact prime_34405442023873964495019274807'|]. apply Forall_nil.
Qed.
Lemma prime_366595223375501358096485667948108026979912559352599' : prime 0xfad5aa5a7ad7538fe421baa29e39bb54c771dbdb17.
Proof.
  refine (check_ok 0xfad5aa5a7ad7538fe421baa29e39bb54c771dbdb17 0xfad5aa5a7ad7538fe421baa29e39bb54c771dbdb16 0 2 [0xcbdd1811a539cf975c106d0683ed]%positive [
   {| s_r := 0xcbdd1811a539cf975c106d0683ed; s_c := 0x13afbc032c0f0ae; s_list := [0xf20d3f83968a25441c9a242d7daafaa5d07445d5ee;0x8e66ff21c6ee5d854e0f384d44124214a04192b84b;0x58aa6174a6a681d87b0e3b2c87f92b2e9f8303231;0x6ff406a17e8db49f4d39b7b41aefd5b4db822fdf18;0x2fa09b5750bf74d6cd42eb0612979f15213f24cb4b;0x3962ef414a132cff994d763b82fb9ce58ded145857;0xbb717573d6f5fc12a6907f32d8e330782fd97ee107;0x7c4b8d9c3aa110ddd2ee266bf7b0f558632088e102;0x8bf2018f77f459842ab8b6c1b1319b11181a12871f;0x3a06df8f1ec90975d93c1d7a3e4fa179d605bdf01b;0x2067585f7257e9b4c9e1f935f4524cd81ef606e536;0x8068bc0a284015188e57d96b96adb726c8c84b9d40;0xdb297c2f45832024569c07471cfe6bbab5d386bd61;0x38d14727c13851f1daca7b70481e1fc7bc8cc716cc;0x69626217d193fee766553a0e02b0ea8aab436ccc42;0xa346ee2ba188fbcb3dbcd3c2490b02527c88123d0a;0x824f70e3c1c27de9714519dd8f58a956f6b8a35964;0x84bafe3b40546c369552976bc0654d258a79444305;0x9d0a3dedf06f0d2d89cc8ef9fe8e205230c214330c;0x1a45d02762d9e3c05c75bdd6f4c5fe0ff6eb06d546;0xc3d609b163f4368ef881bc2798b538b3ba22dd17d;0x29dc824c38610d80aa7d84738726da6d8f5bb9703c;0x120355f32b601aa3492d6e972ad39fabbe2764851ef;0x110d2593918cfcdf0514cf3de94cdad0f833c342294;0x1f5fd3a0ff127020ba92d77bd859cacb91b903741e;0x13138581c61ff44f7c44462cc48d0cc7e18f814d471;0x194c57b7baad71eb404bdc6312b5670a02fa807ada;0xc6a73be4771e461025b0e16e62b3326ea213898c7;0xa27ae21e7430c03266567e848afe69bc5ebab0f980;0x69a17b61e2f291eb834a5b518ee7ba493d495481b;0x5356c0290bc76fa1724461a30e641d663b71ec1164;0x4a93abec99982b0e1e60c649dee9db735f4637232c;0x33ec2deed7d3cb716c2cd12a718ce1ad2554bf8a09;0x1b938b0e2bf80faa22e370956fa5d4cf070b42f86c;0x12d66377c7f8bde86ccc01abb9becec4bba2be149b;0xb57f2cf3b5828f44e6f96f547f6e70126bc444a4;0x5c20e673d2dc303aeebf78df65aa3b91037d2bd13f;0x42620ae71cedef1fe89b9036c4d5e96cdeb856c5b1;0x6355d4b53c3c7d5f4208f6c9d55ccc792d08d0a174;0x68342ba756c79b9b1c0f34c873fda7c671220406a;0x368701a52d0499d937dad8b4a30125de090d9bf0c;0x231c33847f73d92b8b24cc1ae0b98d24c2fc40c69;0x1e79e86cf1eaf676972e1bf3e83ec51baf36c9839f;0xb0b5f76a60495be7f9108304294d9aa8ea4af89767;0x12c395c25b00d28e4724e28278f00e08aac6017f6b;0x2c709dc3f2b6;0x1f5ab54b4f5aea71fc84375453c7314e85ae3b7b62e;0x1f5ab54b4f5a0071fc843756085e5e087c9e3b7b62d;0x415164297ffffffffffffffffffffffffffff;0x0;0x0;0x0;0x0;0x0;0x0;0x0];
   s_u := 0x204b6d5d4ccbdc9d8fa8c20acd12f75af70e93eb5a; s_v := 0x1c9f26b474d26951aed1f85e09d7909fcacc41743d |}]
   [0x0;0x13e1a31bd64db4b58d16d5a375b8231f322d3d62a7;0x2c217ed871a8ab9685fa552cec360f3d013aa34c1f;0x918ccd51c1185abe682c2b27ff31f74d3d11b112fa;0x9d6a2af8ab7050e110d2db00800b36d792c860d32c;0x1f3ced992eeb0454890dd9c6f667fa825084430222;0x9d98d2ddd4e7bcac56b01de0d6fd01b9222a18c062;0x7f88bdd9ac624b40d95cc1ef9b00dba991db9f9d40;0x11b3ef801e0886e661a66ef269ab8ce59b7d91d179c;0xb5167113e3ff185e2d0ada3ab04b23f8e42439af60;0x9144f66635372643069a11dd089f70c4825b8be054;0xe9a9a7ce49cf236ef923c419381bb1ddaee0a68aff;0xdd92c344d74b743c885f8f32a6d98b6024c4447c84;0x8f831f5a3ca35e538d89bc8086709b79a5974a7ca5;0x22b9fab7f7722eedf505ea9199ee109247c58f163;0x11bd44bb04f2d81f77248aa74f610323b158901aed3;0xd30f7d61b404007ef6388242d5d6037dcac5eae84a;0x56a28e3cad5b97af66f8270627ba890089b73ab007;0xf9d6e35f2af22123e0b0dc95299ea0f25186d5f988;0xaf06893fb74431637b7f09934c71b68ec7a7c25d78;0x5e6ff66a15d690642eada2a09c354989ee76fa17a1;0x3b0673c0863570942de358c79068788ec9d1250298;0x190d158e2e1f106d28397fd66edd07bec63b63e099d;0x1d32e3dad49439830295c8bd1bad855f93bbed47433;0x12f2d011d3ae1f49ad8f4939081dcc92a6cfbdab332;0x105c73a082e003327570f7cdc425f04395ab0d3b83;0x4821fc35338d4c164d320cb7414ce9999e94800c6b;0x137014b28d2be3f3e912bdd1b2d6067bcfadb948d;0x7a64c2dd78fd474a2108a49fba4906f9ecc6394e4;0x1304c971d4d62c228f65996ef9f9c47eb50353c908;0x8c85fc6e9ad9b62233702228ffc7f81e177d976afb;0x21e93ddfcdae20b5629ab5d8e932ed9868e14917a;0x16ae008e6bcbc7dc1ab4efc858e72565de9359684f;0x175ebe7ab52f4c7568ce4a66f2ec81df3d1f967ac4e;0x2de98cbc3e7ddf9cb75f0677262b5b3c804a426f3f;0x2827676a2d188bbf3f363a821c69b7cf8764421750;0x49117d5920480ce316afb1d05506798dd6545b64f;0x939c3fda3f3f7514488689374fc851071c14ee4407;0x107605b23372b30aa1e2da81840145f616f94380b1;0xb25a16b9604de02746e7686fe03f9d2bc5ff59a;0x1ce92d06c4ec6ada6e4a50294ff2c24c45e197d48a;0x2ffffd10168bc1669eceec18d48d068cc834d4e3cc;0x1730d5f0a758e05e76373cdaaeced710120c80f4de7;0x2cfb4806be771bcb79808b03fd543f2bc2122ba9f;0x1c77a7595a32050a0e65db98e021224dfc48e50e6d7;0xf5ba99049dcd2a95777bc6de807ace133b6f191d60;0x11e8963c007d83410ef176d5508c03b1f62179d8ecf;0x2887111f1295ee74eff4c3b8e50a75d44a3e5700a2;0xbd3ab9008c41d23589a10a2ef5b64e0987a6990169;0x6c44280f12cd51ee728f2e42611ed5c5b1c883a2de;0x266fce56a7066927b5c46cdc5663aa2369da083ea6;0x78bdc3a9b4da5e25c72fe781c26a3d75c76ddb5dd4;0x7add23dfb6f3bbabe6c45f6f2fcca28793e7eb5970;0x4aeba88b419ef3a412ce08351043797c0539fea476;0x1e38286eaf86812e1646bf1e6b56e4ece60078b774;0x360c500d6498218d99dfdc2da2988a7b484b74819;0x15fc65478e03c2d9832d2beb7befbd1adce7259bc;0x78646df8598d747c00c910c4db3fc53c1ae67e8791;0xe11a84c27172778c6f2e98883191227172cbbb374d;0xf0fc964fc91c4ecd0d0e3767cdb92be5d3cb386362;0x115f1617a1a538504602e904a4a53e7da239c4690c5;0x3706792c3f13301d0f616453542b572f8ab2ff3736;0x142727448feb6afd7c6a63843caf6c19a9da2bbf06;0x8d864df15266cf6e278d24e6afbe134657b71d9d01;0xe1e1b33e3d77821d84c1b71bdb99ec83f72dee5f31;0x1e64ba0bd6f6d79b16b7922a75c55fabaaebf5dfa51;0x16ae9650443e2fb2ab910577df7568ae5341fe45761;0x483932b5baf489a3e61228526716c85606586114ca;0x1a4c575df0d7630deabd729050a793f0d107e30925b;0xcf0ff068466ccccf1a011fd42b585d0bb0c7c50726;0xabb80351637830298673ddc6bec82cf547dc4921b2;0xa636f5567708787531ad2a95b02590a5077daeea;0x3c751bd0bf6cc564ec60e56c059913506e3581783c;0x27a5519e8b44f93cd0079b194e0fb31117f748965;0x4622d117c0e89466d0b075b1bc90cc40cbbea6063f;0x9d5b1f58c6785ea2db4ae6f6683818c279b650b0d0;0x474ae7430be5bf56d4208624ff131d54566c5aa2;0xd46f6fc64b7586238621f56bacecd0d925ec0547a;0x597d77175cf5a5e797b996fd6a4a05f1c1b181f85;0x40b7df2175d796b0e319a3b76f5f1bf01699422626;0xe800f6e2bc33c12678b3f0f1a59f82a374ab0497;0x139cbed249fcd4e0ca01db2c562c8028d646e0675bc;0xc6453b633abe23721bdc8ef1fae4b82fe4ee2c1325;0x3e5918f67aadb8de2c270e727d3f569b7bd0193965;0xd3f32ad623d24aecb0e3054916f31da816163f3114;0xd083be70759047bd051eb790a9f6cde2278237687;0xc9b4f9d3f2d149b3eae2942deec2e2567cf2451e6e;0x4c7202d5b515a3e017fe8a71c19c27ade1369412bb;0xa3e9dbd7cbc4670491210142280bc2acd785ab10af;0x8faa4ae86d26750d3371bbd6be51e684f6e0d911d2;0xbf517f9b02ab36d0b90c763fc42397574b69bbec2e;0x275c61fa9e8bb1a5a6068bd711e67de3f5fc9e0ce9;0x18fa77184e5517acd6edb202a38fd0b50b1e0d4504;0x1f392629bd0ca9b660aad10be6888af16ff633906ae;0x1fcb974fa9f1760e4d94064592afd152c668d8ac59;0x748c340da8f9981cf65d3cd3217879be876d406689;0x8d034976a761ff92ec879560f70440e74078e2e1d0;0x40e09e2df5cced4b28f5d6141e720bf0f74d99c358;0x16d0b5116db10d7b86c77d7c2b7c96835a82ef498;0xa76bb9a2e7c188c59b6217e008073bc54669418444;0xed0a85f9f494d87566f12212ef09e3d4756e5ff9a;0x12f8339fe46128cf0906891fa612e0d562e6c6ab680;0x19553cd0145ffe3bf1b42eb04e33e79e720544c4a3b;0x2894b0deba84beddb450b51f9ff6af7c875878e58c;0x1363ff329b147b029a87abc37e0312b6f2ac4f23e7c;0x1b1653a0e370a658d2de47e91fe3d0b3a4c81d88a7;0x16badb761f8c6dda963b816986129032d4eb4b13d;0x3985dd9e52eaf1453662079a92e31a13e5070756c5;0x1e294b4f5f5e9e8681699130b03ea2c613a6c28;0x587597002a520457d96e862659a88b7a7d1a45a26c;0x538f066a2b2c619520f5b6b0428227e7ea14d1c797;0x561be9ead2b78b8e20c080ffc386ae33b8e935e37a;0xe7c6f3ca3fde2bbbc91159e49bf6cc8dd547439797;0x2124152a0a8e4210445e21d622f206313da4bcca28;0x624632cdd640361d8c5656a82ed75d8859fa43efa;0x5baf3244a2ff192bc6731f51774e935a60f954feea;0x1ecea38614f71c38d93cedbc368109341636fe95153;0x60609b00f7644a024802c510107b88df2b23d4f3e;0x8dfe0bee89c3e8a27898580d98b1644dcd2cfc400;0x4d4513586fa013bc6cb7adc90b84e1f3566f534471;0xcd7d32db1256e458ff19046ba676727b0ecd7cfb72;0x1bb63270d4cefb1575892be58206fb89236914d2f93;0x188444e5c6cdb692ad21b6b2b31ea17b1a5ea2bbea2;0xce357a5c07fec0ee8ab7e0d30aece39fd08e2e19f;0xd90563e1af90d8f8ca34ae69d4d6d92fb76746121e;0x5a29ca4d6f56002a73267cc002a4be51d500f4f0c5;0x2139d6bec5019a0fb8e3700a07401a1f4815a62d39;0xdc2c8dc611703818184da6727e574153bc131ac4e;0xd9cba340ea584dd463067abc0719fc7de1e5f3ab51;0xdc7d6953eef7274b9595a6356042ca71de8b7020ff;0x78167e2a312486ec80b514da83c2c7372462de47a;0xa4d89084f17f0debdd96ea59b21bfcedc8046c0606;0x8a4374c76357c0d151c1ac5c9b58cd15f5050bca0;0x1b98751bebe641203cc5838dd780265396a5fd65c69;0x9616284696e276bd91b2d396eb34b0f0480b2e3d41;0x8c723d6507f6ebf3c4540a9d39487442a1b806f73b;0xd7c5b44c506c6e4e5d17c483f69e3c2a2f334ad94;0x1ad7f2787fba3b53905cee61b1aa916f809648c565;0x9d3a8114894af1e00ae90017c212721906f735da2b;0xb3a7515164a4cb69bad69802c689c0269103d7b0d3;0x1e150a47ae20f18eab74778220aa8d01db117551b37;0x26eceeec077568f10a1261f901473b7e594c2a3647;0x284c3defb6cf180745219eb5a5463d6536f3226ca;0x1264acf2ef31876434b7b643a0d43242acb69dbb6;0x383409eff599c7cf8dbfad6eda40a3446a0d55488;0x503ff5f97be126ddc0d6ed4bc090bbccbebdba565b;0x981911638eddeb7aadc9cc289cf00a307fa7099da0;0x17dffbdff3c95f58d6e27ba271ea8a02cbb6f644d0c;0x255cb2f4ad982e004fd3eb4fd1cc2362c5caedbf82;0xfe46eef7c02fd12ae133d03ec35f36f7a084fca10;0x2a188bcc31ef76858227ecd465e6173ff7defa3928;0xead344bf497228dca10d5c5dc0c15ce352445b9e6;0x1b74e7d4e92296c4e6bc8ff99245c3dc6a527134eeb;0x1f89987310ccf9bee15b2645801a5597e082c3ca3;0x13f012316eb5d65bcc3257e711285e21df4815267bf;0x2aff510aa251d8af23d3a2514c8145dbb9d74bcc1c;0x5;0xfad5aa5a7ad7538fe421baa29e39bb4a91d7d11117;0x5b31a66ff0c40e2ff;0x1f5ab54b4f5aea71fc84375453c64d6a98ee3b7b62e;0x415164297ffffffffffff;0x0;0x0;0x0;0x0;0x0;0x0] _ _).
  - vm_compute. reflexivity.
  - apply Forall_cons; [exact prime_4134846022429173053011416446305261'|]. apply Forall_nil.
Qed.
Lemma prime_1606938044258990275541962092341162602522202993782792835301611' : prime 0x1000000000000000000000000000000000000000000000000eb.
Proof.
  refine (check_ok 0x1000000000000000000000000000000000000000000000000eb 0xeb 200 2 [0xfad5aa5a7ad7538fe421baa29e39bb54c771dbdb17]%positive [
   {| s_r := 0xfad5aa5a7ad7538fe421baa29e39bb54c771dbdb17; s_c := 0x1054590a6; s_list := [0xc61d7428704cccdd1da3570b6323c3c03714183c412df0cc88;0x7650f83cbc8f8a4667a9b52313e7d2d0a7c7294af5b3ccf1b3;0x1e9879041f4f889fecfa100d30ea375ad39460e1060acbb28b9;0x1c226125785673f6d617ee648f809a56a2a448bc65df3f1976;0x36cf348a4f7163aecf52defdf0fecf44e9850f41ffdd2f104c;0x10cf687783d4939a3d7e540278b5061f4201f3c65338f96ce86;0xc68188ba7159d24ea48221d0251951156728bcbcf8249f0643;0x1c4d414d2c1fc24954b38b1a1d521a3ce7d6d7624d10a77f444;0x2a6ebcf9a9e1262abbfd8a239b877b88045df2193466747a64;0x41e7c9edafd5ebc04d035fe4428e5b41c3341a9d3a4ff05acc;0x4a0e5ee3c616eebcdabc9b35f7cdad9a0d256aced9f63b6b05;0x8c2ab1738b0d9dd5d81599915c36c8c22f54c20b5aab1c46a5;0x28e0fda2b76afb794771ef58c737ff058062bb45bbecf0824f;0xae566e7f474bac6d8bdbced4d6cb6388b4ce8a1508ade07825;0xa301c272d145b8fa19d1b7f3f6efed8fd010b4fbb63005055;0x13dc62f620c6f41802de8e093039a2547b56a7724fc41a79620;0x1a27df27d42e534152c6a5db1a56b1307cb8f91aa070f35309b;0x77b1ba710f0c5e51dc813af14034ab9f73829e0b604b5f1ae6;0x5c5cc7afbc0889295fbc3535f3e3934e9b5877fe8b0fb34d41;0x7b709e0fffff1451cc4d9089b5ba4ae70c464ecebed50c9;0x2e37727b7942511c00c035b42f1785f73ab;0xffffffffffffffffffffffffffffd6484a77214000000000eb;0x16b908761fffffffffff;0xffffffffffffffffffffffffffffffffc540000000000000eb;0x1fffffffffffffff;0x0;0x0;0x0;0x0;0x0;0x0;0x0];
   s_u := 0x794b5f86fa5d80282fa72c2a3560c94fd1054c7eac664ad25f; s_v := 0x414dabb758091e541b1e8a51f4f83f23cc652c359708886605 |}]
   [0x1000000000000000000000000000000000000000000000000e9;0x1929665be3d3b5bccb7887618a3db0ed3cfcd4791029f535b22;0x2ed78df1a99ed7e4590988c4878ffcaa544928f4f18273418f;0x10e0704f4816ed6dc0c88f67122f3a268e1eea473145f677e7f;0xb7a8c4c5ee81ee7a224c73b2c63d810ed4fec28da2976fc233;0xd8f6a9d95e42c9755378bd9d41bffb77030b0ab5f1c3158041;0x16efa3668e53206a6b0ae01bdbe13992a4ca1d21ac2c91c6035;0x13a2880dde8df09dc4eba9f406cf91140d7cb37d70c41c0004c;0x346a0b0eed5ed7b2d5b9b06ccdba791064a05e4a33288d1300;0x538f332b6d90ef40f92fcde3ecc7e24b27b40e1a9af11fc05;0x836b1d5312241943cb77b6d48abab5174899a1d0f865311c88;0x8481b6711b27d08484c1b4352a116cca3784cd4822adaec46c;0x17d4a5bdf70879ea675689ef9c7acbefbd04acb97eaf90467a;0x1638ded23fd7e8c2d7e298185d63bbee7af70d4d90bfd5db0;0xfe50153f953c856625301d86c752b37eccee1c27cde9a9f82a;0xb0d828c8ea33591fcffee757bc671523779bb2ddff629cc0a7;0x9d31aaed758beb978ef146926a7bd3a6b04225c60cd950021c;0x919df0f9d669f119770f7b91f0f964caac5b3d96a080a619d5;0x1fec96ba4d7a658ee5e7de09f538bdf4447333174051715cf;0x9ca04a2e28c91d6c5779475e6d5be4219b4944fe9697ddfa9e;0x685323f37c4a98b0c6c881370f8da6af4c07a05ea0fd7fecea;0x9045a32bd94849ddde85cbfcaef7187d9efaee8f6c16abc688;0xd1171a81709e7c87f96ca317b1827063e705728df692dfd79;0x5553a9a287b2d80ffc1f6ff65204e9f2c8f5ad4b4265de485e;0x19b7428f6700246947bfb73db66ff70a39c0b77904ad9572dd;0xed28439ee36216a0ed523b7f2f5a45fd40c5f2ebc1a02ed4d;0x9749b058b67f5776393526da644358042d1b41291da098ce8;0x9f133bd7c72bd19ab55a0bcb35607dc10d096ebee09f21ef2;0xd8afeaa151b9f6715fc50fe74e09317440869f9ed3b0a7600f;0x9369ec85b31e0a3c9a986dcc09da40c2d0624c3d1e56ca5db1;0x3c5b26ec67c230fda5da7a32520219c32fc17f7a2b3c4428f3;0x8b05b55688b3eee68b2f06a8911d77cef58bcf537983ce5afa;0xb08e08798c97c1db7e28d8240cfa6ae800f044a6aa7df250ab;0x98e5c27e5628a46aff9688c0f09ea6fbc41f3cbd9eab9e541;0x2f7bc21dda3789ee47030aba35c5b0430ebe6ad3dc92afaf86;0x1fade4b419f58f9bb2b3d33bef0f7de48656b2f9059932df90;0x5760a79a4599fd056f86bd8e56d3e5140be65e054d567e7093;0x213e76a13a8f4a973a4d05058f12274d99b4e939a317bc9bd0;0x7fea60268ee2bb0e4bd74070e92893945ac5aa15b1f5e733d;0xabd70787fc5cc851e023d5d4a1da323f2d3ece751167de9714;0x34e548ca7d0ea68dcea1f3f38d6501fa24485dea09371b2c46;0xc9913aaa16452a58191437f02ac5b8876771b660e201d28338;0x53303e20649dec780bece536d167bc0d604556c4b44807a14;0x1ccf3a3f75cf05402b6bce6241f45219153f36ed410547b3c4;0x1c06c020a5daa0bc74874d9055d9252dfbf4c03de810e0da5c;0x99f227a92d163de76f0cdd52b48870e74901c7e8eb0c5a2030;0xb04f9752a29cc7c05c2109810c868755aaea61f98e8ede545c;0x1cefe6513e1b5afea8f9aefe5849f829bab3f8357ee1ebe7d9;0xfbbfdd5726f6df012f003189b2b9e1d1c108aa2f54d5b3f8a1;0x103f35dcdddb093f569e97451d1f92aab3a40109820272e73e;0x14093f6327f7f99b98dc57bc9471857e3b1d2917d08b17cfce;0x1bc436ac32589c10dadb3d9a1aa29e5de8eb8e0b7eacae546d;0x6dfe27f4256eba17725355acb1416824a9509020a6c4f66b2f;0xf396202a1596cc2ac4acc8c75a24f8371c923b6ecd955608c6;0x7296a0511d9bae76bc8cabd43cb984b6ece873d56680afc67;0xd4583f90f8a14d8d0ffc376093ba033201f177542d68f2e2;0x2af809e7b1c508e4f33ac4e35730e717c686cf12bfa86bfdb7;0x142064b513683c3bef980a992ad28efe1678535a7afcb3d49;0x41ff8caf018967a00282dd62ef3aaafa8a0e2b1a2640afe01f;0xb0f4ce26b569576773fcfbe2e67b0e3f8ca99a3b37d4dbc1c4;0xaf216a3122ce354afa25df81642f21c89c494d423cf8cd577;0x131b6f96db5c02f4c2d0bac0bf9c42c384e4ca0c097a43a70d;0x14152e3a2817cff457b537eb6fb42a812611d7d94e69d7f8;0x86fe52852eb1f4f542bf5d3f910e51feae58b0ec42939205;0x540eaf60e2e8373ce89c1a44f5f1194a870a9fa0f726ab256;0xbf856e5136f39c415cc09767eea0298921307395eb5d8f6131;0x17ee771f8c0c73fe7b7affae2e5b270425808eb7a8f9af043a;0x8af85dc8b33d43743240d88c48b1d076a232a744078df58a1c;0xac976d30cdbd26531b76403590489245299a7d62e3fb565f43;0x263d2c095d59b97914a22dad4a78948e049298ee2189cd7ee;0xc070a682d70eb01bd44ccbaff35cc33d213c1344c4a4e3ecd3;0x2b850456f8a1dabcfbc001e9029d735462d7c7ffc370387874;0x45a0a0ceff236e4f075e3c27226a4c20525d5ca07c7bf4f10;0x3a66514cfd70b75481480f24b30edb131b1a04b123df3b88a2;0xcfa514f7eda473b6d21d46e1e4ac308115947d58fd606a63a;0x4d22ef61b9e2303b378d9d8fafa7ad0b9f280e949380b7eee8;0x31e522dbc3b2751eb108146d321521af5da37b79796da812;0x23340a6c1c16a1b1a3cdecf90fddba458e4b9b3aa5a786c73d;0x135e053f311e571fc94a2c946f325e8785fd4cb61b3cad0702;0x61df4652ad4beb8b4b3f38d8a5540a471ed47ec695201ebd5e;0x9a3deaacd52d9aa03090127dd7d89494dd6641a58d4a1ba0d6;0x761b9dc8e98b65ad35cc32bc6826a13ed0673c2ccfb21dc1;0x4a7886068f4003f7436e9cc23a99985d4e847d50953bad4ae9;0xa2ef7869048e3803eb03988abdb24e78eafcadd874fbb24d26;0xb6c47f752454b8d56ca5caa53a32a99098c4d1878c27b8498e;0x11563d8e51b027117243b3f9d4aa9e99fa74d583d744ea2cc0;0x185c9ddc05778b1548a6d984335b33358ff88e1b6ed343df60;0xb56f2454a108c744e409c8d12d832e63baeec628246891bc0;0x73616579525ebe1b0d0b419a64d72bc03c5f0fe910f56e91a;0x1d9579cf17948bed440561be8d2427c712e5486c6093a2175d;0x6feb7882a5759e293dd0645d8601d3a2235cca8c3361b51d8b;0x4a4ce889270265763606e1fdab7866631b3fcaebf8cfc7aea7;0x30687f96507259d1fb74e5d9e04aa10a8cecb2931bf2edb938;0xefa3c18ba1c2ab6539e56cada6b2aeb0553658f7cb7857503f;0x1a0620d94fab40b89fbc4828723546b8c50970181d4b661736;0x8e667e4512ed8b3c3b0c6f72832cc6f131dd745469509cc1fe;0x9bde095520420da829a22a7e30416e8fc22ac06ead0bf5f19c;0x607ba7a9b94a0d790268f3cb4966f935c0aea355ab115b7e39;0x17d059fe651600eea4ec19dfc02b1e103f87fabf2ffbc77fc9;0x69bb1f7bfa4424d944b3fbd97389aa773f0090fe090b68c6f7;0x98d52ab804a3f98cc4c28351a32fcc483822be690240296680;0xb2e23e4e92f63c7da515711c95960b529e2edddcddee647b0e;0x753095e617d11e557f947aec06966a75e11b03f855d12629e5;0x52ce3139e1c929e670edbd89b8323174fb09cb3568071d8029;0x1f5f22338753a130fc712ef7b47d363c5220727ce6191f26b;0x72d8186753e142491ce70b95a53ec1783443dd9a0d50c26392;0x8404cf476c75db795b8c8412f9fdb6e0e4bb425fed651e7b79;0xbde28ab2421939189f788ccf7b19b3e452136130e4c00487d6;0x41960c7fd2b92af3b7afad7e577f1d0ea411844db094f00c69;0x75c31ece875e437c0491809bd7999ffceb19b7e9f30bfd679c;0x1ce876ca2583ce958f3622a6e4552683de750794bc6894cc5;0x58066904c5112f844291516d7a5f2a8afeaba7af3cb3d4e0e8;0x1c1de20b57b43f6d7f70fe940f31d1fea28322dccdbdfb978;0x1f7424b0df442ac5f89de1b9915e137b2434a5d6b7cbc1ac3;0x3d73eb13c00f39cbd10add5e62046d8098afade231da65dd11;0x62b8d1440ff1d340f67900edad01040e314cf86c86b20966fa;0xb5669fe01fc52c119619ff84fa1bf76c502f31a3b5e05ee135;0x95851f95073340f4f18d9047b7d6dc75ed331fc4340996c4c;0x712ebc8c3b74744251d22808c04e0eba0a418db5106747f1ff;0x2c7849f6dd88e9a195c1264b8a7efb5f0f159f52959ddbbd38;0xaeb83ad333a5eba3a6b1d5243625f6bba93aee6bad6e193a9;0x6c11d39a49e210ec51cc4433250353338a2a9eb45e999d5b90;0x39b210451153aa925ea0a3e0e6e24d61da740b81e76a06fa8;0xd6b6138b7f0a002d138613dcac274348ec5cc556021e2ee9;0x964ac35b29a7af523e96309abdc01c8b5c8bccfa401964b49f;0x920fe577e13233861df0c7685c2d8b2ab1ecec1b51a08f8f69;0x127987888f25eb843fd12490cbdcdf70ae34d247ed82b3d876;0x99a36ca14d3892da1dbc020f992501362675c6a3059e26d655;0x7fc88d05d769a580c40d27ad1a65cf36ac7661c90aa3280036;0xfafb4c4928697fe0ed27467ffea1aa61fc0472b22cd2b850aa;0x4f66205226f6652ecbb7e3115579d8a0e1d6043cf2789443;0x393aaa6956822904acb97d1c27e1af8cf5ee2eeb2368b4556;0xf4e28030185116241796d449353989d7927399a19188de98b2;0xa72e8999abc4cd002024ac9c4a5285e1166d3cb8fc99dac68a;0xab3a4dbfe90207bc159a3ea01f34705c6c13985af65250374b;0x103e4daa0ee24b6280b88da2134aa7618ea884e63d51bb8912;0xf04e66ede547bf322cd91ed1ab2aed6aec397e265d2137d1f8;0xb547159e0becad3a4b4526178227945814e2e4091bf72cb89e;0x210ee3d4ef546d225a0f4a7d6fa455fa3547b64a88968aca05;0xa9c24393d0356e1137cfc9fda558e473511daa925b374035;0x247cec5961e7e44b78e5d1b9f53f936f73af72b396eb166;0xbf59ba0a98a4be0fe58ef674645791126dd6a102e494844d23;0x49e2d0af6a469dcb993225268a592863504524bcf79b1d0439;0x9f0cdfd591d1509662737e2dc70de2ce8bc1968f657ed27212;0x793a99a5bec9794a2e404bac05abdc77694e6b22a1a50eb2d5;0x265b9117260f712e2dddbf9e9d0546b775056ebc499378a4e6;0x73d1a3f7280e9d1b2552b5917a03762da2aa76f4dda1fd7e9;0x72b11f872b117515e4e903bb63d959b93bba32764f5bfee449;0x7e055f9a5b3fc50eb920e0e58d7610d255add963c9c8026f2c;0x2bc85e64db29bc8874a26e3362423978e285549c17c8e497d0;0x26f5f17119ab5146fd9b9a3fadcceccccca9096e35a9a549b1;0xa5af5b2d64354ec8e4b64a0d715a4dcde4f8ed2f53df5216f4;0xc870b6bb38bdffc0811907903df906f4d72bf9de61f7aff843;0x3e539d930790ebfcd1f6783d23903a9de42417be240498cf24;0xd489fa6b193d1a96d76e51d1b668339e44d5d02582efab4bad;0x2369e4f8b0bf983247e35badebc8a2c1d689e7a2ebc3517ce5;0x18fd6bcd0e73a7a92a7d20265038cfa33912c93faef027cd81;0x158bfaf7cc6cee6b9196aacc6e68cf9f3067943258c3a8f80;0x3957067f5740091cf97f7657053993a8a7e06dd83387d;0x7cc5a04cbca588e9aa24284cc92b97971dd1a56dc38e8658d6;0x11ccfc16264050b39b8a8647f9e5f193cc559497a5f3fdfa39;0x4df4d3e1d5daf7daf08f1b063f6b31d1494de56ac5874973d3;0xcdbb03187dc1b34ea00a1742babe8515cf7b4765279e8db0e9;0x326a0807d80b474c42e3a82aa85e51e6598859d841117cc25;0x5ed704dc1410079acb5bca999b4c8d02c4cf88217f5c558985;0x5aa5693ab9abb76361f1bec1586a59a5ec7c8b1117b7fb9487;0x2cfd4a508066bffc94a79dc9edb9e7b181aac8349d83d4f4a5;0x18544892f397f4a9b9851d3803935316278adc2e1f2242726d;0xac1e7a5fecd8908ee00266da81469aeccefb4528c33edd0cb7;0x984d41d607382625e42afd513e7762ee05fbe30cd00cd2ebb7;0x1dd9e73510989b554eebc05b7442a9dacf1aa439256712a4e1;0xf0e1efc96d974493af57598ae962f0b1785799d40e76bf6b6;0x16ea25095e85f1f99cff34948f3d8dea9454cbf74056b11a4;0xf7fe5ee094fa33b85e54d42d1e923ed0ae2948cc6b2667dc0b;0xf6dccf165787ac480300125e412d47faa481dbedcbe849721e;0x269a33addbaccc0ccf048812c5e82c6c13be03d3f7fec23242;0x21b9a6fa033523cf1d195d1832bd088bb80cf64fbc8d1044c3;0x25842f2ba9e11b37bfee13d1b01f61c61cee779d993aeceb56;0xda4343272ea89a7c88bf0c9dc2263fd69f0788737f6c72650d;0xa025061ff318377d0bd8a179ff36f25f5629d917808b3114ee;0x198a1b85548991cc7dcea036c13f93ae38b295851ac5d6f84c;0x8ac9c62e0be9614d38a97dfabd14430e279247019ec3bb418;0x3eac9fc57f5f9b8fe9ef47786ba0b2f27eaf9ca1c6b594509b;0xa11334cdec738a5cd7ef314a82d3e163b4192bc1072d01d0bd;0x138ec2c75f358369507171010f4a3061f0410a46f4c3db25c0;0x259b85ae6bff26525897d47c3c4dfda6966685da6e14bee9ab;0x3e5d18b28ffbc6d1d1e0b730ac197981be39d6336e012b8491;0x3102a0c4fbae6b00bafc898284c43b956958dd36f2d129477;0x2e37727b794251;0xfffffffffffffffffffffffffffffffffeb24253b90a0000eb;0xb5c843b0ffffff;0xfffffffffffffffffffffffffffffffffe2a000000000000eb;0xffffffffffffff;0x0;0x0;0x0;0x0;0x0;0x0;0x0] _ _).
  - vm_compute. reflexivity.
  - apply Forall_cons; [exact prime_366595223375501358096485667948108026979912559352599'|]. apply Forall_nil.
Qed.
Lemma modulus_25 : prime (2 ^ 200 + 235). Proof. exact prime_1606938044258990275541962092341162602522202993782792835301611'. Qed.
Lemma prime_21031' : prime 21031. Proof. now apply (trial_prime 21031 74). Qed.
Lemma prime_341795813' : prime 0x145f63e5.
Proof.
  refine (check_ok 0x145f63e5 0x145f63e4 0 2 [0x5227]%positive [
   {| s_r := 0x5227; s_c := 0x3f7c; s_list := [0xf0680c8;0x60f1d2;0xf7f0263;0x26c4c9a7;0x45297a7;0x26ddd59;0x9a63ef;0x485a29;0x3430e10;0x6;0x0;0x0;0x0];
   s_u := 0x6d8a2b9; s_v := 0x264fc6b |}]
   [0x145f63e3;0x4d6fe39;0x26b7f1d;0x43e3af0;0x70f89dc;0x3692a19;0x125af6cb;0x274609;0x6c578d8;0x5df92b;0x11f20;0x6b9ede0;0xbfa5d3;0x384b86d;0x12b540ac;0x48d39c;0x17411253;0xf5aa1a9;0x4939d0;0x6f131b;0x50d2c6a;0x2e5f5a;0x1e9e629c;0xc90;0x0;0x0;0x0;0x0] _ _).
  - vm_compute. reflexivity.
  - apply Forall_cons; [exact prime_21031'|]. apply Forall_nil.
Qed.
Lemma prime_2' : prime 2. Proof. exact prime_2. Qed.
Lemma prime_3' : prime 3. Proof. now apply (trial_prime 3 2). Qed.
Lemma prime_7' : prime 7. Proof. now apply (trial_prime 7 3). Qed.
Lemma prime_11' : prime 11. Proof. now apply (trial_prime 11 3). Qed.
Lemma prime_37' : prime 37. Proof. now apply (trial_prime 37 5). Qed.
Lemma prime_127' : prime 127. Proof. now apply (trial_prime 127 7). Qed.
Lemma prime_1360268502979' : prime 0x13cb65227c3.
Proof.
  refine (check_ok 0x13cb65227c3 0x13cb65227c2 0 2 [0x7f;0x25;0xb;0x7;0x3;0x2]%positive [
   {| s_r := 0x7f; s_c := 0x27e69773e; s_list := [0x5aa6c2356;0x10bb275d067;0xa17c296bcd;0xcc0268334c;0x845a8303e4;0x7ebcc2bc4f;0x2b59b8468b;0x2ba931a500;0x2337bafbcd7;0x206c7b8a3bb;0x2092e8bd86;0xafedb14b9;0x2d3c10d400;0x323b2d05d0;0x13e6ab99149;0x6d5f8c1f5;0x1ebff5f8a3e;0x1b825f204;0xc716f9ec4f;0x1673d824014;0x1072faeb7e3;0x425cdbfa7;0xb87d2a37d;0x8496be8ec6;0x110b68d3a57;0x1dbae99642;0x12ea818bed3;0x6776888735;0x0;0x0;0x0;0x0;0x0];
   s_u := 0xd45b43d61d; s_v := 0x36a47bafef |};
   {| s_r := 0x25; s_c := 0x88f4e541a; s_list := [0x18efce85c;0xa02b67b1;0x686ec6a16c;0x1e1a958a;0x3ae1ba628a;0xb54541c77d;0x147047e998;0x5dd96cb139;0xce6afd5569;0x5b9f7f36e5;0x636a1b170;0x453b3b5f5d;0xbe4933d87;0xb605279e01;0xf6d84ee67f;0x4a9442db36;0x8b9860465a;0x1be10591ffb;0x8386a1bf00;0xbae58c8c6d;0x73f108f9;0xc497b004e;0x10bb2ac51f2;0x75970155e;0xd50067eb42;0x23fc67a02ef;0x2f80c8b26a;0x1b08685356d;0x1013b160e0e;0xceed110;0x0;0x0;0x0;0x0;0x0];
   s_u := 0xcad8e3f0d9; s_v := 0xe4828ba51 |};
   {| s_r := 0xb; s_c := 0x1ccac1a686; s_list := [0x72a6bd3cf5;0xd1cd61a748;0x590fe0c90;0x2d3b36ded6;0x2c946f1e02;0x78d5f9af52;0x2f51c66f8b;0xc3d04f006;0x313953746b;0x17e419a1b8a;0x50cd8b1983;0x8ff5bf63c5;0x36b50af0e;0x13b7b4ee18;0xd1c057aac6;0x265d0bcadc8;0x975583b5d1;0x13865eed208;0x794a3712ed;0xb74f823d6a;0xb39f0330f;0x748920a8c8;0x8a045ef1c;0x2449f09df41;0xcdbfd47924;0x17284b216b6;0x134fcc681;0x103f10f1030;0x200cbc6968;0x77b359e04;0xb3f4adec2;0x19dda;0x0;0x0;0x0;0x0];
   s_u := 0x12b8e15ba7b; s_v := 0xf9095f4575 |};
   {| s_r := 0x7; s_c := 0x2d3e9e05ae; s_list := [0x69a291f306;0x149767a12b4;0x1f570cb57a;0x23f15016aa0;0xe50c8ce888;0x129e802c657;0x102f7f07f;0x10f19c91a8;0xb3294484be;0xefcd210a4;0x3ca9a45757;0x3c67ccee40;0x301081b35c;0x2a7f1573e;0x761db37802;0x138875a36a5;0xc2f0cce;0x54753ba8f9;0x1711c74ed3;0x67f83e7cc3;0x1165d27be24;0x1299762d7fd;0xea4ccdb66;0x68debe4ac4;0xfe89d9204;0x615afccf9d;0x2a9be15d73;0x192b1d20b43;0x3038be1228;0x21cde9a3c33;0x8830b28216;0xed62ccc09a;0x19;0x0;0x0;0x0;0x0];
   s_u := 0xc91584055f; s_v := 0x48b214a476 |};
   {| s_r := 0x3; s_c := 0x69921b6296; s_list := [0x78aa52fa41;0xc498bd19c3;0xc1a6278ece;0xfe584d7ece;0x2067ddaf0c2;0x21846b95dc;0x2f6f8ee566;0x2b56e8e0;0x6e92d167;0x243e567c76;0xdd1848e5d6;0xd97bcfa1f8;0x131bc4ce1e;0x3d189aad00;0x1f4d1dd391;0x7546caa715;0x1913b052dc7;0x10f32e3923d;0xb673f6c995;0x1fe97d3044f;0xe26c7790a;0x5e05a97f96;0x4a33b1da7b;0xca9b023a7;0x641ba456;0xcedaec7c60;0x1efadcd9da;0x85da0b72a3;0x144aa9619ab;0x2b8595c22;0x440f14e60;0x15051ac583b;0x1a674cd8187;0xcee;0x0;0x0;0x0;0x0];
   s_u := 0xfb8c8ada43; s_v := 0x9b448f9512 |};
   {| s_r := 0x2; s_c := 0x9e5b2913e1; s_list := [0x7fc4dee970;0x26707a;0x69fa90e063;0x37a3caea00;0x9b56350ffe;0xd6d9537dd8;0x8c7e602b63;0x18ef708115a;0x81d3775c78;0x10837a02128;0x46d1d0edec;0x37ac11c68d;0xada02fdac;0x16ce76ab42;0x59604f35f8;0x12b3eef0039;0x43b723ecf8;0x11ed074048e;0x30e1ce1;0x72b3f9adb8;0x7963e590e5;0x66b81cae90;0x4746992d95;0x307f501060;0x212f9ab8f;0x163c20d5bad;0x13d47f3b67;0x4a51fdf97c;0x1945c9766;0x1216181656;0xf059d9a20b;0x753399001d;0x97540c5f69;0x6776888735;0x0;0x0;0x0;0x0;0x0];
   s_u := 0x9e5b2913e1; s_v := 0x9e5b2913e0 |}]
   [0x13cb65227c1;0x7fc4dee970;0x26707a;0x69fa90e063;0x37a3caea00;0x9b56350ffe;0xd6d9537dd8;0x8c7e602b63;0x18ef708115a;0x81d3775c78;0x10837a02128;0x46d1d0edec;0x37ac11c68d;0xada02fdac;0x16ce76ab42;0x59604f35f8;0x12b3eef0039;0x43b723ecf8;0x11ed074048e;0x30e1ce1;0x72b3f9adb8;0x7963e590e5;0x66b81cae90;0x4746992d95;0x307f501060;0x212f9ab8f;0x163c20d5bad;0x13d47f3b67;0x4a51fdf97c;0x1945c9766;0x1216181656;0xf059d9a20b;0x753399001d;0x97540c5f69;0x6776888735;0x0;0x0;0x0;0x0;0x0] _ _).
  - vm_compute. reflexivity.
  - apply Forall_cons; [exact prime_127'|]. apply Forall_cons; [exact prime_37'|]. apply Forall_cons; [exact prime_11'|]. apply Forall_cons; [exact prime_7'|]. apply Forall_cons; [exact prime_3'|]. apply Forall_cons; [exact prime_2'|]. apply Forall_nil.
Qed.
Lemma prime_16323222035749' : prime 0xed88bd9dd25.
Proof.
  refine (check_ok 0xed88bd9dd25 0xed88bd9dd24 0 2 [0x13cb65227c3]%positive [
   {| s_r := 0x13cb65227c3; s_c := 0xc; s_list := [0x0;0x0;0x0];
   s_u := 0xeb8fdb7cc0e; s_v := 0xfdd |}]
   [0xed88bd9dd23;0x5ebc6ff1da1;0x2f5e37f8ed1;0xd15fb7406be;0x3fd2e98a86d;0x14c9d4e03bd1;0x6baea7b3c89;0xa38adfd187;0xf73ff13f9;0xc154cc96668;0xcd7474f;0x17174cf69a29;0x23f024ff3bc;0x6fa5d29d220;0x62cb5b2fb8b;0x3a97407d06;0x668961a0fbc;0x387997be03c;0xee173404c9;0xdc3e22f6d5;0xe11e0bb2b4e;0x1dd62f9b834;0x1710b272f6f;0x4fca144ceaa;0xb48fbcdb22f;0x23d6cac5;0x23cd0987ec;0xa247a208382;0x1707232b66f;0xca4a412c73;0x29744055288;0x114bac121bf4;0x17a94c4a710;0xe8295905e4;0x3a07fe51ca3;0x17a354315031;0x52c2202aae0;0x21e5255d927;0x89f3;0x0;0x0;0x0;0x0] _ _).
  - vm_compute. reflexivity.
  - apply Forall_cons; [exact prime_1360268502979'|]. apply Forall_nil.
Qed.
Lemma prime_5654389972641571876527161031568353846042391' : prime 0x40e8c2388e2a47f4da99559d91605a671f17.
Proof.
  refine (check_ok 0x40e8c2388e2a47f4da99559d91605a671f17 0x40e8c2388e2a47f4da99559d91605a671f16 0 2 [0xed88bd9dd25;0x145f63e5]%positive [
   {| s_r := 0xed88bd9dd25; s_c := 0x45f48acb3ccb74bc3988725de; s_list := [0x3f99307ceb29817d5861c9130b0c3d9821f5;0x6f5b897e56befc82eca69eb0e3fe4dcf7c6c;0x43fad13c84736bdcb5388480e4969e17b754;0x4ecb3c4eaa5304d13c28c1837d00b0971941;0x7e2fb35f11fb22fbb2ac24516c9b3c506ab3;0x52874f27b2e1ed7072740982f8f5287e7d6;0x2ee417c888b34ad90664a45ce2bae79d170;0x3ac3fc82a106281a85da9159f166f80e2dcf;0x15c8f4e86bd950b79274446b8d4cc48b1a71;0x4c7fb1392d2ecaa006b5dd9a5705872c94f;0x235e0f64358db5a33d1373972b77a8b4f6;0xf17f3dcb2662dc2912b879744e73bd6d9dd;0xa391819a4b5d198de18281607f4d566348;0x21137ed920d32b69ac4f45c620c7e9da6123;0xe710fc541cb5821cd071b3685999d066d46;0x1a5680b090cf2ff3fd565d786bc06e9e9fef;0x4e878b5e10f202c8ab8ebb8e8adba39f5e7f;0x456751a2b8e5d78bbd8d1eb57cf954357d5;0x470141e87447db18a6c93f5b2153f0c4ca;0x7938f4e8f0b03ac1d238d084e6846e0b2a2;0xb2e6060237ca79bb78183f3e594f3420874;0x25a4074fb5d15db02121d311e8e094437e64;0x6f62e4117df5d9a5fd45ae76ac3f32e92b;0xb015d00bcb1fcf7936cf89907f04351ceae;0x2c381d12dca4c444ebb1e31ea3b95e700ff4;0x2119caffaa0d681d627b803600fd290c094;0x52f671a011b00067f40b4baebea44dfc7cc;0x2f4191d8e1ff7c6022d754e4bfe8f45ca6;0x21e078f2c8e8c4cfd76e90419a82aed80;0x234ee7640f3de29131a65a38d324cd21f22a;0x3eee1ace3a93c931f6b4f89c0abfe695824;0x63244567c015e0e20f9f844271d1f3804929;0x11a58a3af53d582631112c2ec7b40f2e3896;0xf1c6e819fbe67347a084d955e5a5280546;0x997b90edd12d2b34738e24d25a1c48ad46e;0xd6a5526ef825eae7685f45f0c9d370da385;0x1c9a1ec21dfe160bc97be9e2377232b954c7;0x1077cdd57b3e7247b0968fa926aaead51d3;0x502830f5817081eb15572ed80a614707908e;0x3ddc32c4be20a1df62b692de4f22690ddd7c;0x748de76a1ab81ddf932f48b67ee6bf99eece;0x49fdb1f978d2967d9c8b1422cddcabc3e46a;0x6870b1e8d48138bdbf3b995c0255f03f541;0x153db10999877bee2365b657b2ee197e0475;0x1ef11105ad48c87d3a6e824da9694ef80;0x2be1e887bd18998ef34ad1c8e2b82a019f95;0x27c9ccdeaec49dca12e87ac0770a7520d1b1;0xe48188eaf31c26fb23e078165ae14678da9;0x385050b4930906344cd57dab1401c8e2a4eb;0x80db51f94036b4d8c801ca546ec9bff4ae35;0x2a9e5b5431f0b822cf7643700e9668380b3c;0x1025edfe10adb77ea7a9e0b9914bf3d9c719;0x79a7fa15f65ce2bd7c609943863bab6268a;0x551a46aa9972cb71c06109cf899bbe5f69d2;0x1d870d0d3a5c41fbc553bed996af91149515;0x750749784df4b5d63dbd114a7faf8e9c2764;0x38b4395b9ac35144e150d557859dde424e77;0xda86e7cbaf3a8ae21b9a68953879cc85c7;0x1ec0b51af8aa7d36a4b6d894b64fb8004b2;0x13aa6835b2767f97f169a7fd8f38d6c949b5;0x3ab552f960e9d55c230d87cfbf9671e23fb2;0x73b53bcd5c8d404ba151fb63ff0e423b486;0x77f01f7da6cb218e15cbd94c5dbe3df5e3a1;0x6a2818d29ab12fdafe5c79ee27f98a251e5;0x106515b8404f6fe86b2599ef7685e4e1f4bf;0x604869e25a459ab5fd46ad29bf9c37426ade;0xf8c00aaedc30561b51884bc02d8b43e42;0x26490ebf20421625d9ea4dfd42adc8ec26b;0x736bc8d98bae7e63732527be32c663fc804a;0x5686f8582968362ac5cf0b092c8cc82e5b81;0x35bef4992f6f847742ed1501116679edf878;0x312f714cfca71b9d88382fccc284d4346c4f;0x2e21757943cd3e33a2230d03a21f01f6a4;0xf0a2a5d2d2e0879dc21700156fd1f82ed26;0xb026daf89838c45cb739e384b5f82f8b4c;0x45fba57759d374fdfa6125a0986ac93a013c;0x9c2c2a8441407541cd7e2b4a13c1872f42e;0x84843d8b4d34082f3c75c749ed103efb181;0x13b6ef2669e12c51d9b026efbb06c5697cba;0x32914e0b762d1ccd61e2eef7f311b2b56204;0x3885669e45b822ce323e528ea9fd63637bb;0xfd481a97e9fc256a9a140a0a13fe3e23ff4;0xf1cde04b5f7c9d6ded5d4bb4b5957b1be6e;0x812a2310a9f5a9f6ef08a97b947202139d;0x11274e4e6d29613d438b2d241a394f4bc11e;0x11d5039cccb0dccefa3cd7fd531c2106770;0x50d95988fe7a6ea5d96010369ede167e98c2;0x40e8bb90d6168246cf29cd072cac7c493eeb;0x13175597d8f5b00cfed9f1be8289334cd0cd;0x81d184711c548fe6c932ab3b22c0b4d273a7;0x1f8d40372bac051fcffffffffffffffffff;0x0;0x0;0x0;0x0;0x0;0x0;0x0];
   s_u := 0x3d167e9944496e5890d4e03189d777211235; s_v := 0x281b30bb769fa143d5371496f1a6d23366bd |};
   {| s_r := 0x145f63e5; s_c := 0x32fa44c802716d62133bccad99d5e; s_list := [0x1124fd685e7eabc6ba339d6ad8151bd3c7a6;0x72e850432f43aad5f7a254540de83818361b;0x1936e31337855380d8a33cdeab541139138;0xf3ec3b69cda89e760f128f91e866687d0;0x1d60abedc8869fee1d3f11236b7a62570b6b;0x21f2cb20482ecaf357c382bd41cb75386e7;0x7931a2ac83ac49ed6b044001e0dbbcb3c68b;0x14760a48d27e68dd20ba6a3aa9a2e9df6523;0x646953b44ddd7a8732a63a8ec704a09d6543;0x800590710a994354bf7c9071e20d4f1682e;0x2d365af97e4e49cb70cf49b3ec85e42ef6a;0x5201efe3a7f695542a8635912ad3944147;0x3e98086f0d7e180648924d6d1eb24890d2eb;0x3fccea69a5007b682c28856e395d128de114;0x1a2a9eaed554b74d9ceaa5ad482fab51014;0x1e807d45db8376ac8f0382296270fe76c9e;0x3c57bc60158cdfcc4a6b0506578b8778683c;0x1e6b3b98f840162c0210f5d85d93935f2312;0x94b91f685dffa23b44ffd48c1503176a7d2;0x1518376cddaba6f6679712b15be06a8f0bf9;0x4c2aac2fb8002b28ed85f9a44e1ac0d3c1;0x9edd54a04ba2a2c9a5d940e9dccfd291e01;0x1789930b3f8714ffff22a30f87492e38eb94;0x5e6424acfdb55e8258349082a6087600ca7b;0x284fd41a5270df3c9eebf2fcf02a2d5843;0x4c4d3d8d44d8caa37364c6a189891969f59;0xca660bbf15b13af7f94071d0dcad786b640;0x2e37a399f245dac45c2f5f477eafb0f09536;0xd1df1a41ccbb03746b30c2ebd227be687c0;0x195843c02684f67a8d2715bb79ba71ffb14;0x200769563f70a59309b5e524616bbaacf165;0x6be1041834363c481b951444ac56bb9addd0;0xe9a4848f9cd809c2ec5d0e7c16bf3b5825;0x114b81c78aeff2d8e25715ee97e0bb5a7079;0x847543bb805c7924d35763c78c982cf04dd;0x18782104d0307c9923bc076a4fcda06c12b;0x341421d367e079dd6aadc3a89900c13a4dd0;0x700b739b573209fea16d181fbab944d92a96;0x68c92a7bc30be785fc0c4018558927a84e7;0x17e84f5f03fc8db8e066ea4c52a747bac6f;0x43e5c67525aab355633670be5232fe7caf8f;0xba050c6b3bff3b6bdcb15d1c752bbcf3f42;0x297021d607b614494d82bd6f547be0a7afd2;0x1f6162402877b19bd457efe99a653e5dfb;0x10e15f2d28b3a76efbe398611338ba7383d9;0x11ca371b4d862eda4d53113fbda1bd273590;0x119253d7a6f25a4d5fda4e104c23bcda80ae;0x1094f43119158b0181dd78d98a98391fe143;0x3ead363c4aee092b9a838d68570b57578955;0x2daf81dd4e5d87a7da2db41298db0bfd2317;0x3e117e8b09a4403c26357b6c19ab356baa0;0x57ea09d3d74d3d802481e83ff64c241a9b3;0x14787dac34d09cb37d5aa1ca58443058024f;0x609a5a4cdddbf732ffdad107c70bd0b6f7c4;0x34c9cac407ba3bd53602d96d9a8aa18e8b9d;0xe5276b3fb1abb3a49822e8967855fd176;0x3d4d261d65256e67000a1fdef278470a376d;0x2d9cd6634edb0436d3bf5c009fc05f35344;0x1a6385fea7341e5f27f11e0b5b01f3ab02b3;0x19dea9de2563863c41cb31679819ba9c2e08;0xc4afb6b4e5191266ae0e2eea66072f9137a;0x8d3c9d84dc688ab11613da2319163bac54e;0x6de5a25169015b98be7e0ac2798fec2ce88a;0x82295f2bf1ec5f047edd4720a0f85141ab6;0x14725870ed2546ac54c20b5b0dc9b86b7765;0x2a4c7502d126cbd9b87c771ff2856114c8f4;0x5ceaeac1f7d47c3d973a20e3a3c5fbe48c2a;0xe260a115f1ad2beed353f1d8f0eb5a9ce99;0x17a51161acfa099abcd0d0f75857a37fd4ba;0x10b23e95cefee330462ea9a3f42b0dceab71;0x1f3692d0b79da2f751ba66cfad2fa8e4e3aa;0x8c682c939ffca51b78bd2ede14c87425bff;0x19173dfcc14eef93d5fcfeb667c22b75c1f;0x366fb8fbedbb88986c6c6a43be8fda32d;0x153abedbebf6769fc0db0fe760664153ef9b;0x11093df4cf4e9192c65fb9a08ee41a7a0826;0x1bac4f1bf86e94b22402615e97d9eb18c63;0xe7457af9d505d06047fc8f5983e8f7b91d9;0x40849fdf8df785daa0bc3e93cfcc2bba25e7;0x5887da1afe67a0e1865790d573e67345;0x11689b47b7a472ec2b886e8a65e8375b9345;0x21ad9dd78ad7fc1bace5302b58df2fb3d3a3;0x5e8530d4c359b33521492cfbbe63315c9f;0x14f18cf63f3468ebc297fe5fcc35279321ee;0x158b6e9c2af5729793d7bb2b629f5a58fd72;0xc8f8daf5b65377f85b29375f47fa825963;0x3cce5607a8fd29aa6119d70bf80b21d1ccc1;0xee8739cadbb13c63c0c4e6e238fba8202;0xe512c310dbaeab06816a088ebe24ca5aa50;0x1f5f44d66b27b7736681112928948f76e1;0x3031810ff331ca1c5ebeea009f6215492ac5;0x52e4ba10eba0dd1959f8ec96e61f5bb25222;0x6c054bed01e229bd429b4cc19a2df1a6d9d;0xc9aef30b5ceccaacdd42009823e4a2036ad;0xa5ed33f61c4a2c5fb2014dc921dae1d938a;0x3a8b082dc0e1cab6fc687532d087941a86f1;0x945e1639b55d0fe18fce00bb834b44e5b1;0x304d02fbbf919d502a4bba229f0441021454;0x17b4a3125aaea8c12e79d1b3e02fbbdf2bbe;0x19831575d1d3ddade165bb34479d281913fc;0x4e2cf04bf4109135dd423ddc603324172a3;0x64a9a69ce99bf7518d5b608ba41aeccd26aa;0x7cc147d63869769a22d8caf7c5a43c7c697;0x359a5717e542e1912f9f9d2851a442b591;0x1306382ca36ad466fbb1c0dfd683c57f0af7;0x55b3506eabb3d301489e730a09f1375c26e6;0x1f8d40372bac051f;0x0;0x0;0x0;0x0;0x0;0x0];
   s_u := 0x29a1cb376e8e91d8d81883627d128e77b665; s_v := 0x27914039ba2f646622091b1025d744959b13 |}]
   [0x0;0xe6e3e9ed266370c4b75c06336704eca8a11;0x69b1955e11b3d8f303608f794c626b9a00a2;0x806780bee43dab157fc6fb73209945e67b;0x313723211f4aa4263cf8ffc86144e3735c2d;0x8ac061a852560b720aad58ae15448047583;0x261acdd37e59d2734021df0860c8e13f818a;0x2257aef829d1989bcf073c55c582513c44d8;0x174cd522d8038edf03630441a360f5f9201d;0x2a37254e2f18e7c2501dd15b5c231860b935;0xd2f9f255d0502c51fde345e6e8c82dff118;0x3c1a6c0426afd86f1721ae771744e5371a13;0x281b0bf0ca85d6f6e7c5023afba0512e9364;0xf26a8abf61960200a45cfcb3f285143108c;0xb0bc8af93a5f729d1da6f3fff97c12f1220;0x3e1f83f85174fad63df9e2a91e5a32eb155;0x1a64cba7b6fbfa57d716b4332f8a6596f39;0x1c9d48356519a5b9493cd44de9c54ceaa84c;0x3e6f37f007be6407cec521ee9587d013b91;0x210b54abc9ddfea662ae45fc7ee188bb44f0;0x234de38ea01ded9d8d228a4eb2bd04763846;0x7328246b5dfc03d1ffd16a4cedd48f68d742;0x8339d33b0ee849627a7399ad7fd8ab5fec;0xa46bf3eb3415e9cdcf771d85041cb0a391;0xeda35d3407b40e766eb317f9949376c2309;0x7eae311e4eb0a4fc3c60f5fc00d654e52e65;0xb42d2c3e84208fcb99f7ceec2c999b69d75;0x3a200a1b2617d960cc9e2096e88537df4ebc;0x419026b512da3412fd63e043a9f6d0a8ca2b;0x13f6de0923c5c7a202c899bb26227f92b7b;0x29dfcd7026687826ec4823bffb3246dfa6ed;0x2bf81d2d4153de6e614699e00cb530573b2c;0x324d9418fb9a2ffe743d19148c28945270e0;0x3f94c9100f21e56b9e56d716d9f557290227;0x3d072c6a7b765858ec8d7101563789fce20d;0xb0db1c6cfbfbc60f20d8dbd4ed8f7ffcf9e;0xa493ced0ff732bcc3ba0cb81a8b546c846;0x73346edcd05f5a7dedc13039b5debd8dfcda;0x548d74594b08c9a35de269e93b7d86af92;0x3113abecd9dfeff4ae2e16e14fc9ba56e75;0x242bf3ec5b3bf8b1199c314ce04ef5d03ce3;0xe191a17762a9f28bd81feb576d4698e3ecc;0x27b3eec62489c3891cbc7f4e25d19cf583b2;0x3088711cccda463fc2abfc6df2717b26314a;0x2c4b1c5c7f84b673120fcca90fefc46d73;0xe1c6dc9637a0304647226e40e6e25ce946f;0x49dcf5e34d0189fee8bc6bcbf1e85dac007;0x20f711f20da279e8c93c4724f154c22deab8;0x2e019b46df82418634bea4cb6fc0ed58c78e;0x1fe269e34287bb735c50fd92aba35c7ff2d1;0x6222eeb46358f3e4fbd08dec1717d4e3b76a;0x2b67cb6c60aad6f65ba5bc8cf11a35f6dc21;0x3981287a4f3e27a624b8afb711c4db5186c6;0x2fab8f37216a77c1150ef5afb514e812b6c1;0x19c38aed83d2c98563b030a3059fdaee4ae;0x7d9d055e2b5744cd57f7126b5fe97a782d57;0x4520c13ea69e372c8ef37fcfa82c6679a8a2;0x1c83ede54fbe3b256e39694511fc80cdbad7;0x3487c9d659f1d56942cc725b62b6ae12e285;0x2d9e54dd4c6ec81b0b2c206e63fba530c8c7;0xce1290087f65fc5d24739e52d259c4375f1;0x354e99bd40777014b51a33aeb7844c73eb56;0x6543a81e1ebccb54d91b038bd4039d61938;0x2482dde716690e0ce44c292c77991a8100f0;0x2625437ec6b29df8c426a65428bfb6038928;0x1fc1b865b34e8f0f561105a7fa454b997a61;0x381b9032b9d4f268e066a43b674a65ce9e61;0x7800dacd3e844a18001f0141a01555ac690e;0x65a2717b4a6e3bb3ecfcfb152dc783a20ed8;0x4a804708cd71112f02fda301d91a3f0e8ca;0x287aa716619dc6e51a49ef5840b1f1672c5;0x2544768058cec543bd4cfd77b04b064e54e6;0x32a2418a6a834c49fa212cc447daf58e71ae;0x3d7d9aa42912d04910d1003093e01995a68b;0x39d7e07769c4c56a43590d64caabde22082;0x2cbfcdd802e5d668035f6af3c5c2af85219f;0xa8ca43d288d661ef5d757ef26b9ea2cffc9;0xdcb3fbec42cdcc9d66c7a2599053a88520;0x72415ecb297003470aed23645620727b6bd1;0x33ec9c6477200fcb8e4ea4dee8fc8d444fbe;0xc3ea6ae23600ce38fcb7566d23bbe15cbfd;0x2060139f57b2133ed2829c27ab82057e26be;0x1be7c930d5bd4bf1a4e1f7aba211c9cd3b2;0x2e440e794536cc3df9ed04f94fb0a284bfd4;0x62a02ce74383f72765db655f7f9cf8081d90;0xd98e6adad1af44231e0f75bf46a7e2cd74b;0x1a33bf2cd11cc3c4526a894ec479c54d13b4;0xf1645cefe2131f68904de427e04aedfbcc;0x29279eb108fc99abc9514e45e4e1fd6a7e28;0xff1c80e55454886a56a76af241e45c6ade2;0x784492088ea617909cfa3b5bdf00fc652653;0x1c5fa25b23216e9a4f5c41a6d79fbab4428f;0x38bb39d48a96599a8eafcf39054382f96fd1;0x2dbd030a90628eadc41529ad526a7990e15d;0xb7ffebda505d6d8deeebe4e65cec60e4264;0x81ee7cd121e2da32195662bd2c677e3a6b0;0x4bf19780c8c7d9aa44298ebaf82a143c382;0x8686b67e184b58baf9269189a2820c1aa74;0x11c390cb49172f6d494ebf379bf47fe1d30b;0x3a4237cb3382e4a8adfab1dae7a9503dd3;0x2d911a90eee131064ad9bfa55ced072838c9;0x50521ea78dd6021ae8c35966543e9aad007f;0xee1378f453c87cf05c9529df05f65ea980a;0x158c0d3990eec4a22aef8503a70c93360ceb;0x99a74686f0644740a6cb3c72c645c8c915;0x115bd4fab1b81be73183a1fe9928ce5a8fa8;0x154edb9f65a4ad6fd52f9aee10ca6b3ec28;0x4b375f63ec49c654fc95b0598525ea28b3be;0x4171070e295f1bf8909c330fd41801151d2;0x15e13b23df7ad74cf574fe7800a0b2465a9c;0x4f03f1700b17be144fa65e979d8883e742;0x6710caa96814fcbeae2b0164fd2c14b1fa9;0x2b3516084887875a23b3527f4b9a1abdae42;0x2a4e866291e440042bd0ca2d92c260cec1a7;0x16a528668c94d1544e2e67abc46c306610b5;0x1b0c68ccd82f2900f69f5678c064fff3e7b4;0xc5a752db69ec25e88d4f785dfce4b15bba6;0x13d9e2fd4849cd1a84ea088d74f0033923fb;0x19d22ce50b59111cab89eea3a26b40ca60d0;0x12b4df3e4b15f4f50106a82cd2b7cf013d2b;0x6eebdbf1ff39ff6ae8fca851f59b33dbe8f;0x18cbe6512d1dab45e2d70b8f94e7de211eb;0x121f57f93ec0d7653445a5f4f55a18222a;0x1c15b8c59d3c62c19f18ec1d8c55a527cc;0x6747ca252cc30994d1fb710a9e081276c24;0x13627a58522dee6aadb6e9628447a7c9b335;0x21d3c8d66883eba9f5bfb361b069227f97b9;0xd1bbfd8ad0d81fc3feebbd3e8edfb6ba0cc;0x33111afa0b35bf38219b6d4c2d93be459ac0;0x161fa58b9b704601cf7599219364696c709;0x78e38e;0x81d184711c548fe9b532ab3b1c18fc8eccce;0x47dd8e36624765f541c0b7d67;0x81d184711c548fe9b5327c7b22c0b4ce3e2e;0x1f8d40372bac051fcfffffffffffff;0x0;0x0;0x0;0x0;0x0;0x0;0x0] _ _).
  - vm_compute. reflexivity.
  - apply Forall_cons; [exact prime_16323222035749'|]. apply Forall_cons; [exact prime_341795813'|]. apply Forall_nil.
Qed.
Lemma prime_411376139330301510538742295639337626245683966408394965837152631' : prime 0x10000000000000000000000000000000000000000000000000177.
Proof.
  refine (check_ok 0x10000000000000000000000000000000000000000000000000177 0x177 208 2 [0x40e8c2388e2a47f4da99559d91605a671f17]%positive [
   {| s_r := 0x40e8c2388e2a47f4da99559d91605a671f17; s_c := 0x3f1a806e57580a3fa; s_list := [0xf39e044788be4d2f1772cb48feadf740ca161bafa8ac71a31ca3;0x10ef6186854062fc5c43e779d4d7e9e17274690cad836238ef2fd;0x2282accdc70de21c64500ad45a7d81870c24973dde49c313b90b;0xabeb9e30c7afac846744a007f67bbae57391e50d9321f9d39ade;0x1b9845b8659912252b25f45948ff4c41416696786eacda8247191;0x1a6081907ee8d5bd26ccea4e5216e084812b07fcfb950cb9fe053;0x169701ecdadedf090808b67a178f0710b601d1cb0afbcc1bd8edf;0x11a565e6ce33a2bcf6f598e467c870ed288a3ea4c4d08849b5c65;0x1dbbe2ceb97e315d817cb64626405d2b1246ba327a15faad317b1;0xfa63a11de4a9ec83fcb27e61575073bcc3c1007bc0b0b6edf9e1;0x40549d61e484f3354c78f7e2506e0d4948e41cf9729b860f7dae;0x9a8a9fdfee3d8e7bd2794ca039b59d0483c801ed56c2107c9b14;0x15d1f7854cb3571e345c55f13dc1af284b5d500bcb4b6c1f2092;0x4d82d756b5900f9978752fdbeb14c023c48e7c967a788977e83;0x7a0eb8015f48a221b3338334496906f19dc4f02d7b8bdc36af9;0xf44550d841df2de4334da4bfa7387cfc94c9ee2ba89e85afe9f1;0x29119eb1b2683d7dd5120fad6a995528f611346a7166bb6e4745;0x3770a0cb880475e79a9ab597549e2c97ee89ce1bf95758945e8e;0x9ca7506cc2429769aa26d260dc316db1c1292082dc43bc7d901a;0x4eca00d8ef56ebfc1e7c45499c2c11fd7a0a5d0073ca9689c752;0x3b81f44c2f24af2ccf48d925ed1f3ded1b236003f2e2bf5616e;0x358ccb8dd94fc84775670d94b4525d83c99aaf2320c277ee8ab1;0xe323f68d99b666f95bfce9bcd8e673d684d2ac141346b54b00f7;0x1c1c9e0f5b8ce8611625247b2c7b42f5ae49913b2708c51c61e;0x14d978c431e97e9c52dcd98798f9af72c685ced9dca63db3654bf;0x9d8255b2e94662924b06619db3256acc4382c2e2ef81c308;0xbe5a7c9d618de8e9afb5ecfec06e16ff186cc29ffe9a9e421438;0x354f69a4ce1e7c59855f500fa7374e9e6d299cabe562ac74092f;0xb409f8ed2143c5c2faddf63d53c5c8c541f022a22cd31da4cf1d;0x17300c2d008c3bad2fad479aac48f945b41bc1d20130001a665ee;0x414d79a466bdbf7cc1afd60e57c24264d1ee3eecbcb89268abbb;0x1b9bd93338133a42d2e28cbd61fdb6e66f7cecc5778d72b58e13;0x19b2d5f331bf14b88ae58a93ece9e0395cd682b4a408c3682dd10;0xbd021bb0bf90722cbb6549191ac61fc5469a60d2c9ecbe9e131;0x6b0badaeeeeba13f2b5cb22db8bb1b1f86b1fda674f17fc2c639;0x2367a8903f6b37da6d73bc8f77cb8b0f5170a9fcffdf3bd14a62;0x6541092a7cda7d0102b5746163f3251f0e186e9e4bab4e4e2741;0x44cd6c322a77b58dc7e793ea862d19fb08ea3c5e30288abdd6c1;0x1938eaf0731634af517510017ee09f251aa6a84470d4e86f69b11;0x34d05f20824e0c460748a8506bad173141853f6a2dda528b22ba;0x1ffe809a44eb0d8f5d1f7977bdae5921590e876706146dc1fd2;0x41285c74e880af444925998b70b62dc6d4d8c4750888e77cb7b;0x120e30de5c8d787f39ecee8d0f8099c6662861a9ec531ea71810e;0x9383d4e163fdf0eff03d5c98905f3da0399fb85293c192a9744c;0x95bc988386ac45095b4a9e15aaa33696538c5d5c4d276850e5a3;0xfb6a57cc815ee97671bf29378b42c0e789f82c68703462d67f5f;0x8554753a5fe7b64af8917c55de0a4a4231e8324167398d7ed798;0x8d9b994ccf2aa2d6f5c0c012e3b3b39615312535a9c3fb53718;0x2df12f3fa5477a603b6ae977d1e89d8542abac9cc232f155beca;0xd88a226421e6f2dfdc442e4d852ff464d39ef4f1b25bf063b74f;0x292f52445d8e905a9ce7c8dae90189095c2666af680e431ce547;0x10e77a535ca72f7d89b8865fff72ca26fffe4c737d86c070d0353;0x4e96113314bca51f1073646f705dc6ead46a0684ed6460bdb0f4;0x7409ffd3b7380b806919815e0afcff2e1dda3095fff18cc527a7;0xa29145c016a442d0f2576e1c4d64f44000000000000002440190;0x1649503090b15a07fffffffffffffffffffffffffffffffff4de;0x9;0xffffffffffffffffffffffffffffffffffffffd1200000000177;0xfffffffffff;0x0;0x0;0x0;0x0;0x0;0x0];
   s_u := 0x391fbe867d883eae39cce0eb9a261af3b09552ea9a7eb391fd0a; s_v := 0x2e319264a774061a9fad1e8e7e8fd7b233cd1cbedf386749983b |}]
   [0x0;0x15e6b07a7aac439a29c8c91514765749b99cba4f08cb78891077;0x1fd8e2eae0f366f06723340925447b6640fb8c5f369e44dd0a333;0x2de2a559e2ebb1b1e9abfc628850986e5232ca3b5fb896b420;0xce35857f026f432912496f72c112cc337c9ca81c12ed69141525;0x170237855726c0a0addcade8af3bac03aea1ccb79ca9636161;0x18448bfd0c46af7eefa0fed5ef3742e74d87def1db9ce66cf5d9a;0x9a95f1354d67db80acfb732b4af23e29e7373f6f5ffb13b27927;0x290dd68ae268f99e523386d555f8b68e6e0447ac1422d1abb65;0x1202f846df24a7ebd3aef19d533c7a3f36ba98dacbc834280b21;0x86f2b7f84680771df6e20fc5f5bb788dc36c775f8cc695565798;0x10a8b4fd8fe49aecddd94088088f7c047f1e32de2dd6364167;0x5a369ac31d5c290d0fffc13a767d54079ad59dff1f29614798d6;0xe1545af3c83e63224301354197c499917e847fb69cb2c129fd36;0x8652f623f55360934dd21b69ae800654e731ec1e513638612af6;0x12dd25446c6a267a9e00088b28cea0051cd3bfdd11eb5665e;0xaf60847e09912f47e0b125495bed5975c9b8730f30f3154ed82f;0x18058507a1dd9a43f62b28da1dd00df75a0a00b393150aad00af;0x22c3dbef7549a6cd41b9ede48bba874b51187e7397a2104e59d3;0xf0c363cbda6e8dc60477949699a0c946d37936dde3a4a029d771;0xe0f902a4bb17ea1cefa05be7afb278f1aaaead9697dc41c160c;0x31ad63e21b1e3ee9c3bbf7571dfb9ecb9eeaf9533b649a50891;0x1a230f432181e1b1f369406adbedded6fae69b071bccb4132d06;0x1a00c65884183abcba3a4bdd69a1d01a17a1330f24f9c3c22fb5;0xbe932525a0980064cbe39ee2ec7ea7d174cc1d8e329450ba31b;0x4cad697d2ba7ebd6b8765ccfd0261f109a91bf92ba46f599a527;0x3b2ad54c79b9fafdde9ff4e47aa58289bd3522f98494c0ab05b;0x5e7ac5683f2408b572f933201f8de76e1f46e24b49a9b5a85eb7;0xa460e3f8083a5c92e7b4b354381f736d3e0f048bca1a32f9057d;0x1fc29010f7e091da5fe9a9e64753453165dd174c9a3254fb68c;0x11f21df32a8100c7c91b66444e0ebfad0c3d04c96898746061c3;0x7bdb493aab07414f9a581bd75cb21c2fdc61835ce54c57f7735d;0x78dc8e6e2b6c5cee1cab9889e345a3fa279813ea1d3d29b74680;0x82895788269c80456efb5fd9ada7b592e9d4b18eaccb004441f0;0xe9bb9e3dc2259a287201c5e6bde11e861ed79f3c58e527b2eb56;0x721b91e0cb5e0bf77974a04ac7dbfd8512deef8a34076e89f62c;0xf110293c5634f0f7028017c69c7b64f06ab111ca2e2a8e362d72;0xedec96c8e1182d57b12093b256fb070f35c7bb6630ede5fab9a5;0xa4c137c128b313e1feeeb28497a205a75ba0de4c07458bd25c0;0x4a09fbc5046d667e6615f14645daf4fa8b78f50c9dee0dba5c;0x450c34c61c5ef793c2b2d08cbec2cad651eb5cc6819c07a68a1a;0x4708da01646302f8d8dc3be1c7789eda18717b52259183db9755;0x34616733ccbe402496f3b9712fae24756b3ac0ae807fd514316e;0x17a6833ed8c2e2b853cea461f8a81b26050a492cf427aea2982;0x6de7fa599c1678215997531fd33173105fa78a6c478856219f8e;0x44b4ed06354af8e3759415c4bb81e317ce4dd9b9438c91985f02;0x5209e818f4f78f2cb57129c364e838876b09de67aa088913b0f8;0x16636e80886e8c2b2ed930d8b0162d20da803915aacda7bf41ba;0xf8d47947010cc88b0de36174ded7128aa585127cd28f7f279f5;0x4b609133d37dcc8a99c530c87429ddad77f6a73e8016ddf0dc4e;0x2641fc1cdfe53117d73ded514fbb7d71db044cf1002bcd3cdad;0x787f88f44ada308934e3fc620c80b8785c1a286ed4c80fc1714;0xab3768230c200ee2047381bbb9a37331ef0e2fb59b73e91ce2df;0x522f2350c6d3a6130b0706caa9f4ea38601fd771de6bd7339a97;0x3dc085d5f9c3e601094bf28daf1ce47413ab880fa8321d6119c;0xc82dddbbe6e675427d9d5c7ab0e9f17f47df46a4b827c4688f8e;0xcb3454ea547796387bde3081d5808e2cb1539df922a2b99c1331;0xe59fea78e91566a66795baabc9856d5b9813b2bbb8045f096698;0xbab8bc96068983b9a24854c998a74f7da99e120e63883dd82dcd;0x9bf84acb77b2da5c7be40094a367b3fa70e42900f2ff5bc4790f;0x1294544a2a2ff3290ab1c38658de489f2534864ffe22d4cc395;0x48e7a2e45facd58ac696eed6ca8922cd56f473c142d49e1029b6;0x519c22cfaa0fc08ab26b3636f01460f680bd3acd4538944d1047;0xfa1acd32f55ff617b79acdb3cc33b2a9805dea0f86b5b1dcd99c;0x431b2c0d805311ade951d58d2e67bf5ce1c6958d6ba61a999cf6;0xd6ed244e78b5f52c1a75a4b41fd1b29c5540ee54096e5f1f598;0x4c73a64a3f8a3a9272365d4f6f4e11c86b06381a44b4e6f861d;0x93c7da8ac182911f64662e8b0eb2bd8aa9afefe3e8c0efe1b80c;0x9fa3821c356856b8a16cf54067b7eaf070bd7e4c82dc5249e531;0x29e1be2d81522f0fced2334c13633d4f1ab462e660fa49b9a34;0x1c4519ed12471078435a54e3a0360bbbe4ef22d2dd4164ef47d;0x25c9607b119a903fd815e0bb933934a8d7337ed44a8ab483ad22;0x1a87e5e631a872b99e5ff33544ebd74589095140dd499a28b97d;0xe0485d3ae5c041e2da2f698b32ccb858ed46d1faaed56a915e56;0xaad6ac7345f4d449f2f7d3a7f363bd3ae67f25005781fe168e6;0x1889a2fb9470859ff85d360d906799324845bedaf0e1260f8e4f;0xbfab2a3bff5f67a7f66be3daf8be9646a12c33f1f845e2248da2;0xcf964ee04a6e8b4ad0e7bd97ddbaf708046ddc89423d14ba864;0x59ddc4774375b0b11ca35a6f72a3afe5ad2798df4b9aecbd21c4;0x26fdd16112304c90fc2b43e630fcd137fde0fa0713b827fa9829;0x39a51fd800b1ee2e0ca171467f0f2d2594d89600d97e63e1b3b;0x4e4a4c755944969d6dd1b40ba8a8b450dd909411276df9977;0x7e0968a18b5de3691eb527f08c1b6285a27d0b731e3e09ab68d7;0x6d8199fc61f65ac69205751775ff0f1895d32d839c221d6222c3;0x6b6be7f8293ec419ee0da9d4856dcfa509d160fa9284bb26ceb6;0x8e195c3d8a2adba533dd804a0e716fd6e5f57f83381db7614063;0x363c6201541918d10c859ac3ecfd6fc96e72ba18fec4c39f450;0x1c1af512856c4854aaa13d8ecac8cd9195dc14e0a095067fd79;0x21cf327afd17a1aa57b93a3ccd57d68b8d2bc522b1a5a715309a;0x1456a31663ef17bda79cdb5cb9b7704dcd77bd58db754b752;0x252e6e71ca005b3660df86a54c3036191982d64ecd0fd2e5f7d4;0x5974334a2308cf7a5a983e4ce91ec6cd01536fb1ec10bf154387;0x8ceb07ef9c3b2445df923e8f2ab5b937f7d47f781fefeb90b9a8;0xfadb3f0a693fcdd730bdf38b6fde7e7e11fd6ceb752832d547f;0x72eaab232aa287bd177dd292f68dd42e0512900b63909b91e41e;0x10c58f6df67c23dfb55cbf1454162e4d19dac89a583a286be64;0x473a2ac80cd6422806b2ee96997a2b207ee26047cda3deb66eca;0x80e64cdab148f3fcd06ad8871d525f792ff61f6366cc76825;0x71a2ba3bc09b663301b5f6d2b2723c9cd7e3a91cf9bd59196912;0xee0b645c62ef3f386a353a96320ee741e37e31a124295dee4970;0x5f65da5049241afd377f3a4b114343e44603dfbf09b459c98;0x23c1a1dfac49860da1e02c01e30613ebbd710bc252daf01841e6;0x6708aa1ef5745ba1325a78f1f27755ad9ed35efe0d59f28f6495;0x8857f07a35ba1cf294e43bb35a1c30c64f6bb1f568eb97b8017;0xe1f3584e64f0135bddcd2aa07d73793711c208122d48beab6104;0x6ae1e702011705ad5825471e1dcb80bd13c30d218596604c3641;0x7ecdf70f6ed4da0179a5d1f0fa0b0a3f081cea0fd2a95bbb50a7;0xeffc3f060dd1b26f2362d5b3a22300c82ec53d52075a6a3716a6;0x82db804c423aadcc54ec08ddd1aedbb81df9223f655f8d555b8c;0xcceb2f0245a872fee7e6decba4be30284ec043c657980e7c122b;0x2ce7efe54efe6565cdb8a0f6a6acc1ec89bf5f36debe6e968962;0x4076b3afd91eeb9ead72330bef3166796aacaa89e1562363af87;0x357e6445f1b3bcfd6bcbd1b1b5ef8a9e8f5740563dcf7d7d202c;0x9cfaf6b6b924d9a828ae6af356ea9eb0666fe5e4f408b700c2;0xd767b8afedda25bbd6c14ae171e5e52f116a9af387baf669dc0;0x21fef61a07ea01dc7494bbe99c52d0d2923a606f773d2289ffe;0x4d5594a18b2b2b70ad7ee0781753e8d48223725ad5929ff86ea0;0x125a92a1807760117a5f6b22ddfc4b47580efc465c82e3111f5e;0x6bd26de983ee24979065c88143b54ef603dc28b794409d12cc6e;0x5597b4b3880eb5c6dc746e4da67e704bd7b26dd45d322f45a09f;0x3757306a15c77156bcf0713a667f87d159e485385d5d50b5364b;0x8efd31df8086ce0ff0e5c94ee6ae9ffafb5255d103b3b9294efd;0x88e99fe5cd2bdb01eb8dd5dbf8014294fe608059837a9acb7f4a;0xd036ddcf9e1968f6170b5446be8b0eb61700ce1916c5f5fb9105;0xfdb8500501f814aea2f6c60295bd3b856fd8ee152b915cbf43e1;0x363012fe84a5b0fb5809c6004b4bc83e4e9f3d5add1124b1a7fd;0x70c356db3e0a6999af41fbb5d68b96b7486b4e0a899115e68c45;0x30cd2e121d0a7ffe478955020ed76b8f4095c87f431f0a0d491;0x673782463944206cc038ccf6d3f8455b98f80cf0483f36cb78;0xbc9a80ac93990b94e125690a9cba0ceec2a79c0ac85b975c8719;0x8fc84da3e5d2aef1364479d0731a3f56b5b70f36f5f4ae5270b3;0x5256195e1e6b41cebcb1d70490416a7c628ffa019c4fcf75b3e2;0xa23b607b2b49512f0c2b43b4a3b695af81b65fd34aad9f1439ac;0xc2c2c720a8a1673a2b1cadf4bd1d7560cedf0f012b8a4b09ada2;0x6ba10361940aa508fc56ffa9d371c41037da79ae80f82308b7ad;0x3f38413ff8709aecb556c19a458be8f7ceb0e6ca297bcbdc6b2d;0x77aae68bb37037b279dc55d1a0e9ab637be04cccec9d6b6d5646;0xb10e2c937a20d83f0bbdb26b68bd400054bad3144fbda35cddf8;0x713c262f6002550b1b129069686fd07d5bedb4d868648186871;0x42f17791bc207722dcbc2996348707908c89e58873b68d8dd212;0xaecc28eddf4678389ce3513c0871dc29bab78ce92f0ce9b915d6;0x183068da0848681a00331917970f4e8cee2b04cbb5f87a53df99;0x5235bbf82911825a039e676e01f6d24993c6a8fe343756299f52;0x87c6030adc258762676f123e32ca40f68e9137b728f42508affa;0x2b35f914fd142ae1ea70c5b37020e82d925d3fa18b8270697f;0xf934a9d247b7a3a7005044d8ede843a3344f5e6e484dc136b;0x8c8efa24cd31548e9288836f7eb2f9b256c7ffceb6fd4e12b1;0x2a70efecaa1eda67a05376d749d7cb61d47c7deb537e5842d078;0x1be1616085cca4717ff37f97e7799740b9fb797625636a99e6;0x3739a91309dbf711967b145067a577c734a44c207441ba472760;0x1fef0221d70e30a65b976824bcee3d50a51e79ba574497c55e6e;0x4ae7b6afab008bbc83f94cd0d3fb53ec7426494698153847d913;0xcfcaa1f594326a18739e15848b767024e2fa367267eca4a07e8;0x7e5d73fbcf375329eb4e7b1724396c00747aab4fe29a5c8c1c4f;0x17e37f8ca6eee09d206549b68038e017f74daedb1a413f35d36b;0x167e409f7ea97472b17f97cbbf460de680343f0da0e1b34835f1;0xb3fc8adb02241aff46120793b19eaf89b48f739607e56e991711;0xeb0d66fedaac5c7d42b1f455f312766c755291a51566dfddee19;0x6de6267614d84c57359eba717b8458458eba631dc631e5f8d110;0xe767dbcb39c25256b4478898dbb0a4e80a803d5a5a1631667444;0xbcb3a6032502243d0fcc6a38614eadf866b5808cec032e12c3f0;0x29cc92ae2ec300698f26dde13f2f3b124e949c70eb20fb9a845a;0x80f3a6f951697f18a901ab2e369031ca83f6797331106ed1b8d;0xaf2dff80d3e8b56956fce85847f03dc2d17b5d83091e8541078;0x8aa6ad089fb3fa1816be71569970247c3b1029ac18c2b348bc5e;0x1c5e49f0f53fdfad1dd4681fdd00b6085de679cfb528385f5614;0x21f4cdadfe1997ce950dec7333c42194d442309a90d6a4ae8574;0xba9f8f85aaf13bb508a5ef5819f2a6d86edc933d7820bb26ede2;0xb0f05704973568b36265c59e961b83e451f43c4661ce4da56f60;0x7d7cf26cafc42e6107cb5df551cf91470c9d2b3e636f46c6b485;0x5982720b9f35ca9e6ea5e2a52706a1ea68ba01ac2d539a1317c3;0x6226a899e8524cb1b3c2c545bceda686e61f4fba1ee8c4225ca8;0x6f7c00dc83a1af9ce9e7687094d4c0177ed4c3fc67275e690fef;0x648067149132cdb12bae6410f04fa5564ceda5d8eaa3d0b4b31e;0x583773684a09d2eb4834859d52b2319a42a811ef515577a7ac58;0xf67c208bfd5719b66c354711d3a812090da424231154a5080d9f;0x5377e7c5da38daf35a6b9896b1d31aab9dff061664d888bfb9b1;0x23b5cf4eb34d343037761c518cee8f2531b34c3bd6cb4e04729d;0xd2817babdd5282042ab3433c55b5d18e5e9a35be4faab237b872;0x5ab849c2bb0e1469d02e2c3166404796c5e84c73b45537187336;0xc4e3ca1da8c80f89b6da5068d8486bdfd45a3df1568b56164330;0x110f5101bea7d2fc20504113508dfbf9510c58c373e324842a;0xdc3219a93f1f67c4c0eb4bfdd0c57cfcac3b6bf56623eb4a3f55;0x6e027d6d500209d7630db928d72aa8bcc0ac4c701d06615a0db1;0x16aa4fc2004cb40f7ba263321b5fdffe7161becf28fb3453ef16;0x19fbebb91a549e07764da9c0f8b5784638c8e74e55b2fdafc53f;0x168bad5c76815f5c3c78c0188a28b7f1d2ea42e768e4b8cfcc5e;0x69fab36f14fdcb31727a22fdd4316f32785d40fc2ad73a4550e2;0xd00ac99f64d8c93c215e052333c4371925086f4bd2f3b6f65dbf;0x6b72467258abf35987650f310e5d4794a4dd92b99beca239f281;0x1f29bfcbc70eec3b811710940e8b3ccb1f3b899e44927fefbf6e;0xafd9a5d62eae674b18f079c6aed07c56f3d32d0080d528aa6c58;0x9a5621bf784871a8639bcd4a05ee44463e9ab110d92a7421b046;0x1a15817789f6c59110ff54b23f89a30d84556ea84fadd3c90a79;0x33124374a6c74e9bc854a0d733ab77d2e36dd73f9ec501e447b8;0x7e9ad9530dd81e2de8188c3818329d18845a1538a491d7869046;0x4188f7e0713593d100000000000000000000002e0830d0b53993;0x43ae2b40fffffffffffffffffffffffffffffffffffff9106e7c;0x49ab4;0xfffffffffffffffffffffffffffffffffffffd12000000000177;0xffffffffffff;0x0;0x0;0x0;0x0;0x0;0x0;0x0] _ _).
  - vm_compute. reflexivity.
  - apply Forall_cons; [exact prime_5654389972641571876527161031568353846042391'|]. apply Forall_nil.
Qed.
Lemma modulus_26 : prime (2 ^ 208 + 375). Proof. exact prime_411376139330301510538742295639337626245683966408394965837152631'. Qed.
Lemma prime_5' : prime 5. Proof. now apply (trial_prime 5 3). Qed.
Lemma prime_61' : prime 61. Proof. now apply (trial_prime 61 5). Qed.
Lemma prime_271' : prime 271. Proof. now apply (trial_prime 271 10). Qed.
Lemma prime_8431' : prime 8431. Proof. now apply (trial_prime 8431 47). Qed.
Lemma prime_435874659331113990301' : prime 0x17a0f9dd4c7973b89d.
Proof.
  refine (check_ok 0x17a0f9dd4c7973b89d 0x17a0f9dd4c7973b89c 0 2 [0x20ef;0x10f;0x3d;0x5;0x5;0x3;0x2]%positive [
   {| s_r := 0x20ef; s_c := 0xb7ac0239c45924; s_list := [0xc1e021214980923d6;0x13a844ec9ee460fcb1;0x116d9c4c4bb9cd98e0;0x36009cac8f298ec4f;0xcf167a9139ed4602;0x18f844fc546230e1c;0x38662360723389341;0x13a76300183a04e9;0x14a4b012bda4d3c4b9;0x1749fcf2b0b32601c9;0x59eee802080105a57;0x2f00199296b419fba;0xaab2d14f99852abd2;0xd92df00c348ffccfe;0x182abbb488ca1a172;0x2bb6800d201713844;0x124f3f377983927e71;0xbf9db3575fc925b;0x10d987e8037bbecf2;0x510dbdb4a71dfb611;0x34c16cba95e74be61;0x62e7015028720a6a9;0x2dcb67b331e3ed8e4c;0xd70cf3f8aa5468105;0x965718890832f35b8;0xcd07f7623873ebcfb;0x407aabe39164731a;0xfe86bf1316315bba1;0x1b42ff8cfd990a5c90;0x85c4188d8b5ad1d9b;0x126eff938518c0a86a;0x16967c31e734c37bfb;0x9242340f565baeaa7;0x181bf3230ca4564fe1;0xb1e49d36b051d4a;0x10011c46973420959;0x1b8f618be1ac8c979;0x88d6a7eab7d331eae;0x15d96ec24de2f64e5;0x4866bbe39418ba8a1;0x3315312708dbdff;0x95bd04ce37950d5f;0x24eb06f4121c1fb137;0x27ec73972a108b774;0xd4d08acbb0428d8f4;0x28b9bf484646712999;0xd323204947bd515a3;0x1fff433ee6d4318205;0x2deb471a91cb60f04c;0x56ac80;0x0;0x0;0x0;0x0;0x0];
   s_u := 0x9feac0ddff5e89ff6; s_v := 0x4484b5c4c47d83707 |};
   {| s_r := 0x10f; s_c := 0x1652296fc03645a4; s_list := [0x13ae0e243c2c9dcdce;0x16a8889cdb7c1f1347;0x75ee7eaf0bae0501;0xa9abdcb0d60aa2e99;0xfef95edbac902ccab;0x83d056b54d87bfb72;0x264618df7ae2ae104;0x662412eea82f05b22;0x2639e7b12e8f360e5;0x1048a1cc611eb4d5f3;0x6627bbefbbff5745;0x85539982e264ec501;0x6c3faffed9c09d307;0x521bf19e31d51d8f;0x49c4ca6e9cc2534f8;0x1443c223218c71e870;0x5cf8c5055095df66f;0x2685012e979397b38f;0x3e76833470ee7c4d8;0x1517a41076fe66eda4;0xc0899c1fd38b9c34f;0x21ed11e2c3cd4b7f49;0xb1e68fdc8a487b2ec;0x12fc8f9294eeb9a9;0x554a51f686fac27de;0x3ffc4d7caf35d1e09;0xab246227703121bcf;0xcb2d3b107d47a055;0x330293790868ad9a7;0x1132f897def2a58efe;0x29d2ce376f39d69073;0x1f30dceffc44a58c0;0x76fe96520782e124;0x22438d13641357a00d;0x10b8ce7f47c876229c;0x1d013cbb653ac2676d;0x118e0a7fc18b30a2c1;0x1d76a5934f3a1ef389;0x7a7ed85acc2df9b4b;0x4f156c22a330e75b2;0x8360c3dd797ce2c3a;0x74a215e5816bccf;0x103a22b02512427772;0x772abe63f77dc706;0xae1762efc5efc5dcd;0x151fd080cefe2428bb;0xe091df04492f5a01;0xb72ea96ff204c7415;0x3020bad13b376d752;0x3de80da76637b7499;0xc80da669c42b43ffa;0x2e24d99a248336eae;0x79696ba35088a465d;0x16f5a38d48e5b0782;0x15ab20;0x0;0x0;0x0;0x0;0x0];
   s_u := 0xabfd551c592df166e; s_v := 0x3a7c2410c5d083919 |};
   {| s_r := 0x3d; s_c := 0x6329dddb7bb228cc; s_list := [0x6d85fe563601093c3;0x6cc68b9b9cd8cb616;0x22a5102c540012e578;0x243064d72d7acb9c86;0xa250270493452e624;0x50464eb601dec6f6b;0x4cf081877fd7a1a20;0x722d9b95cd131cd9;0x1169ba69ce40d58d31;0xfc6862f09210bbdc5;0x8d6983456deb3b998;0x1fec2a80421993c4b9;0x156731183fde6c913;0xe234c2f9312ac173;0x2413fa93ae2979cea;0x205749d419a1f0a8;0x1b404f2f39226c2a1;0x1aaf00bc4a86882f64;0x15146de23dc0a0151a;0xfcfb164994b53213;0x5fed53dabcc87bd74;0x8821b965ec7345b8a;0x1a14d2f6e37f04887;0x1e5949065ab8dc231;0xfdbb6f02cf0ce67c;0x132ad4ee4685012494;0x37e6cd3faff678f37;0xbb67a759dcb31ff8c;0x2594707217ed379807;0xea5ea15a412ac289d;0xabf847221d4d11535;0x109012d9b0390fb399;0x17969881cbde094c;0x688ab2db64bba3947;0x4b679c5da1c741cf9;0x51cc817204dfa72db;0x1c5062a62b648b3d12;0x3676569d649b8561;0x228ce072456b5791ab;0xf3cfc1881dcc8f7e2;0xfe331e5c6b03f9f;0x157c36ab0ac9c8375a;0x11caa1ffaa6421253;0x21d38869065eb341a4;0xeffbedc047b32a1a6;0x1eb88c0e77e3a1fed;0x1fd387629ca3df9654;0xe785843514a76bea;0x2b9bde3d19bdc5828f;0x122208099ec7256002;0x10b6a2c5950f2f95df;0x8e30e5ce5e103cc19;0xb0b4628b3ed83bee9;0x116014e048fe65afd3;0x22b5c249a88f6fec;0x2de101972a0e60b23;0x56ac80fc;0x0;0x0;0x0;0x0;0x0];
   s_u := 0x155934a42239b03859; s_v := 0x10d0dd9cff14dec647 |};
   {| s_r := 0x5; s_c := 0x4b9cb92a8e51724ec; s_list := [0x16047e7fb638ca970f;0x176606387f39d1a879;0x1f09642e8b282f2c58;0x1632f21860ada1eb8;0x1b92611d589f3aa56;0x2e1d6c7669e33ebec0;0x5f18422cbd9a854c1;0x1f062fed4d15f8694a;0x7ff6c17e6ddff2e94;0xf6e448057f33fe7cc;0xb76934bc0efa02cb;0x8d16ebd311a4aa41d;0x4c3752d7bb6c5ab4c;0x418fdd0acb7d644b3;0x6a28c97c7e7acf87b;0x163b389092ecc8bfc9;0x142786d1491b58b357;0x121fca63a3633588d3;0x2d0b0248e4f6063050;0x3749d1a6a48cfb;0x153ac68884581adc2f;0x40f08df6c9d4c4e18;0x47c2d5e87b7cbcace;0x85500207b35aea1c5;0x12244917b6e60d65d;0x11b3f438ab5c180846;0x6edec777567856d6c;0x92c8f60b0c29648f8;0x2acd722f8819f526;0x1ef4afc6bafbb498;0x1400a627e842110b7;0x225072fecba79feea;0x2859cd1ace68b35dd;0x17676a7da58ae3d2c1;0xacb22e3479c54a939;0x2137713d3394a63e65;0x13f44265c0a4ec908e;0x155cc29e54d7d928f2;0xdf3a2adbc17d05b1;0x29a68b91fecfeac9df;0x36c14529a5b678652;0x1d0ce60fb6b58e09f2;0xdcd2eec7fc08f8df;0x7327df3c6f48c7ee6;0x150fdb94c46323b7c6;0x15ff706574a333b2a6;0x68915957e1d8c229;0x1298e5cce480f95180;0x10e3175a86568748b7;0x27498015de8957f;0xd55a8d01078de74d3;0x2e5b8477fa00e5c29b;0x9979179393d5cade7;0x55380b37beefde618;0x15f9a99b9f94abb1e5;0x80f03f23436212fea;0x8877a03dbf7633cd8;0x1f6eae4e450df456f;0x33a2d3faf4a959;0x1575407da96a834383;0x56;0x0;0x0;0x0;0x0;0x0];
   s_u := 0x7b3ff31a9e6db5485; s_v := 0x5c1705a872e0f3bb8 |};
   {| s_r := 0x3; s_c := 0x7e05349c4287be834; s_list := [0x1752c0e005c28b92d;0xd38ce39a9ced7fa5;0x13033ffc5290e3e0bf;0x2e2c14db267dee;0x20b91ca6d0cffdcb42;0x84e5efe038547fc28;0x453b541f644250a3;0x2992b6cc2bfac1d16;0x4f6edc15482be46ac;0x55a0cf336c13b5433;0xfb9c4dd3a07a5e54d;0x1f7af3db04c84b308b;0x269e82ab87b63f3bf;0x1b0fef28fbe7fe774a;0xa768a73bf9bbf7;0x21bb6eea74f5ca713;0x12d7cf3c79bc14aa7d;0xab9e42baccb03aa;0x127fe38aff23d2760;0x1664293658065bd090;0xcfb4ff02a051aa204;0x32bc48b636f56c42;0x12d55ade9dc17b17c;0x19df3a4cb57dd4765;0x1b29f340ab18bf8ee;0x16602cf5e5eda02e2;0x8b4c620b25c2d6937;0x1927ac7e2e62d7006b;0x3b9ceb33ba2057bd;0x23b6d2119166d31445;0x55a3496f96c1f2e94;0x2e3ec65b4a6589c5;0x90c6ee231b0ff44d4;0xf41891fdf02c2e499;0xbf126bf13308db892;0xd8babfcc51b1256f;0xd8271451de8f83f46;0xf5004db1a500484c;0x200c1be0da7bb58221;0x1e4a22cf8a6c26270d;0x6a5d27a3eae948eb;0x159eecbeb56295c4f;0x10f0c7897610c74741;0x1de4cd75bfa2a90a1e;0x4de09fbe07d5bb;0x84ff1702185d7aae5;0x22c031446495ae434d;0xa2ba0720325e0558;0x128bba130346e5d070;0xb88dea0d6b6864a6a;0xb3e8a88019b07089;0xd68bf24d98c97bc4;0xb7de8c93f46700523;0x28c2f0373b03e1c7e;0x7e35ab30a22a0e64b;0x146f37fd0db94b691;0x45682b383f6742248;0x1585529d1ead1c7142;0x525b992afe5bbe84c;0x918dbe30c7c;0x2b56407e2c96fe2;0x0;0x0;0x0;0x0;0x0];
   s_u := 0x5eb838e41b8b7e0fc; s_v := 0x1786bb6d7a6611ed3 |};
   {| s_r := 0x2; s_c := 0xbd07ceea63cb9dc4e; s_list := [0xbb5a78468d9045d84;0x1090f4c3f7ee99c44;0x24e7b927ef8691fc2;0x76fc6a976955fb92d;0x888c36bdf5ecbc25;0x3d35c98604641339;0xcce0c8f01fd3588e8;0x3ab0e59591fc7e5e2;0x14175e1243d758882d;0xb74ed46ca9dd098eb;0xc4e92ffd55535df3;0x1206ddb241c3c7c91;0x3a870be4f97535ade;0x136b59c93b8afe8cee;0x229a2c6b9bbb4025d8;0xe5fe587403953e5ab;0x9e02df0ab8686792b;0xa2e8ab3b8044b3e8;0x8903e4c954e791350;0x15f5b121387ca112e6;0x15c6947b09d391a8f4;0x2f3f135311c072856c;0x19b574fef1102e851;0x199ff8cb2afa00cc0;0x16cfad9ce59a4962b4;0x14c34f9b214f2d5fc1;0x16e04376461780b5e6;0xd6d6ffdfb2616a6fc;0x1ceac6bbc6dda99e6d;0x3872dbb28da977743;0x7d56549fef430760;0xf72100e0172097bbe;0xae7dc6c8e141d8201;0x14224b565cebcad6e;0x22ca54b3868adc2809;0x979cb57141f697ba6;0xfd4b3d40de703fe80;0x2eae2b9d6b4834db1f;0xbd90cfc8d02973b50;0x7ecaff099a6e96db;0x8d5b99e8820e4449;0x24184277de08b6cbe;0x39b623555218e56f8;0x1b033f21b0a362ebb3;0x150a1df06b6ed62344;0xb1ae0dd0797798534;0x3bdb83b49ff764b02;0xf3341ce2d346d791;0xfe5e57dcf1423b448;0x13aa19017a4f2409f7;0x1c8bc204bbb68b0786;0xe7f148460f18b5cc8;0x107afd34bbee54dad8;0xf24615115c6095f81;0xc3f408023307a51a2;0x11ca3d768a971aa690;0xf90a792f33f9f494d;0x13bccbd9e0f4d24530;0x5bf5970cb352ed7ab;0xa5cfd1d98e93a004a;0x2516677b6825d9ef4e;0x2b56407;0x0;0x0;0x0;0x0;0x0];
   s_u := 0xbd07ceea63cb9dc4e; s_v := 0xbd07ceea63cb9dc4d |}]
   [0x17a0f9dd4c7973b89b;0xbb5a78468d9045d84;0x1090f4c3f7ee99c44;0x24e7b927ef8691fc2;0x76fc6a976955fb92d;0x888c36bdf5ecbc25;0x3d35c98604641339;0xcce0c8f01fd3588e8;0x3ab0e59591fc7e5e2;0x14175e1243d758882d;0xb74ed46ca9dd098eb;0xc4e92ffd55535df3;0x1206ddb241c3c7c91;0x3a870be4f97535ade;0x136b59c93b8afe8cee;0x229a2c6b9bbb4025d8;0xe5fe587403953e5ab;0x9e02df0ab8686792b;0xa2e8ab3b8044b3e8;0x8903e4c954e791350;0x15f5b121387ca112e6;0x15c6947b09d391a8f4;0x2f3f135311c072856c;0x19b574fef1102e851;0x199ff8cb2afa00cc0;0x16cfad9ce59a4962b4;0x14c34f9b214f2d5fc1;0x16e04376461780b5e6;0xd6d6ffdfb2616a6fc;0x1ceac6bbc6dda99e6d;0x3872dbb28da977743;0x7d56549fef430760;0xf72100e0172097bbe;0xae7dc6c8e141d8201;0x14224b565cebcad6e;0x22ca54b3868adc2809;0x979cb57141f697ba6;0xfd4b3d40de703fe80;0x2eae2b9d6b4834db1f;0xbd90cfc8d02973b50;0x7ecaff099a6e96db;0x8d5b99e8820e4449;0x24184277de08b6cbe;0x39b623555218e56f8;0x1b033f21b0a362ebb3;0x150a1df06b6ed62344;0xb1ae0dd0797798534;0x3bdb83b49ff764b02;0xf3341ce2d346d791;0xfe5e57dcf1423b448;0x13aa19017a4f2409f7;0x1c8bc204bbb68b0786;0xe7f148460f18b5cc8;0x107afd34bbee54dad8;0xf24615115c6095f81;0xc3f408023307a51a2;0x11ca3d768a971aa690;0xf90a792f33f9f494d;0x13bccbd9e0f4d24530;0x5bf5970cb352ed7ab;0xa5cfd1d98e93a004a;0x2516677b6825d9ef4e;0x2b56407;0x0;0x0;0x0;0x0;0x0] _ _).
  - vm_compute. reflexivity.
  - apply Forall_cons; [exact prime_8431'|]. apply Forall_cons; [exact prime_271'|]. apply Forall_cons; [exact prime_61'|]. apply Forall_cons; [exact prime_5'|]. apply Forall_cons; [exact prime_5'|]. apply Forall_cons; [exact prime_3'|]. apply Forall_cons; [exact prime_2'|]. apply Forall_nil.
Qed.
Lemma prime_720038251782755530560406167081765462373' : prime 0x21db252b18586e419b492ab7b69166165.
Proof.
  refine (check_ok 0x21db252b18586e419b492ab7b69166165 0x21db252b18586e419b492ab7b69166164 0 2 [0x17a0f9dd4c7973b89d]%positive [
   {| s_r := 0x17a0f9dd4c7973b89d; s_c := 0x16ecdd90ca76efb4; s_list := [0x146fc3417c372a9dc9b80d05a048ae8e1;0x4406884bc0aa0463ed4d9be3839212a;0x4255e095cf1e4a8764be8735f437fd2fe;0xb7f0d0a7af3c790ff9ea2e5477ac2538;0x1172d6b254d3a9aa43cbeeca1221d5025;0x41b865074b3ed7cfc3bde5e6eb41ce250;0x214535e25eb60141cb2eac3db6df7e158;0x406b585482a8e0ae368e7e6fa14538273;0x32e3a20d73a41ff75d098f3747795fba;0x26954e55fd66b5f0466a537dc499e0a6;0x116d6154d95efa3eb3e1066c1f20552e;0x112e23f5c8bb56c97faa7a8bb30308b2;0x422ec75001c3b371658e744a7c6d5e2;0x410aba624aaea28a4640d721fb8c0902;0x36a13ba2e203157d04851f433c3dcb99e;0x36bdad9222918d3d3afd3b6c61fb827bc;0x48f79625f9bb42bae8ea64c667c86d01;0x2f25b8f5b3e440f6916994729d8a8d554;0x44abe1bf5b9c076eda1c2553e0d8db0a;0x6bda0b1ef5b3890f8cb03d239c02a4e9;0x3288cc0e37779fa113a8419656dae623e;0x2acd251a3015074ae1ec6795ce94fc004;0xf1089f70d9925a44f78c59ef41a8a708;0x1c2063b82513d25490004a246c084a651;0x16af0626b2d03cd19f0efdd9b71da5e79;0x2447799c9e849daea7fd82cb68d3bd97;0x6189c8b675938b9398a3e8c89143dbc2;0x277fd35661053f17d729aa1accae7b194;0x82883eb0672b2821a1c885f406328b;0x7869f3594757e2248825f9d24b336596;0x3c4ab2abd1f75649684b3d791c0d7bdb2;0x2aa2d0395f84d6c5d0e06b70fb680f5ec;0x4bc0ab6d7b6bf223997f52f3fd18b34;0x1ab7eb172e4906c990de1791b06a6;0x1bdb1cd77636670f51484e036b18d4fa;0x263fbddcbb8597c1b8d9f73cb1058a0;0x319ceb9f658a61f36e9c18a79c4422c18;0x6850dba8344a3dff9f5f30535b744e83;0x1505670807f3fae2962d53c5b4965e99;0x3eb0846604189ae89fae3af122cfacff7;0x2a70d62774fad78d38fbe900fe7a86f6;0x6a4937dbb307a3ce46a27d1edaf671af;0x51a20b0bdcfcfe6e9fbd25dc3f0c9e9b;0x3432d6b51f8a2500c446d13314ffca7e;0x1784c91c94292911ea5b2a4dfe563e583;0x8d8024fd9abe9a7fb34f2f9f90016a42;0x296e0e8be6fa4103b6c0ba95e56843981;0x911fa39640e91e5d60f43abe35db81f3;0x11ec9c93154affee62e9991a4ef359506;0x76f3054f6b8380825904b763efb7cf35;0x43b62ae4fa574819273d180a10d27a527;0x374e0ce5efb720c96a3e4839af1e42679;0x26cf25a140a118a066a9aad60c73035;0x3c7dce4eb23c90;0x0;0x0;0x0;0x0;0x0;0x0];
   s_u := 0xce00955d5f73968a874a84a903578e17; s_v := 0x17dfe0b8e55a9421068d2d4960defcbd |}]
   [0x21db252b18586e419b492ab7b69166163;0x9e9b2ff1bd778031858a9cf22d50386c;0x28344358da2961397021a6df74edda3aa;0xd94eb9b114a1cc6abf083d1ca5bbc7d;0x20d1dfe060795ed6c4e7c9c701a7ff5c7;0x43218454d309ecd28abd5bdf47e65d97b;0x266e5ac099419a9925011b4050b01b4f1;0x117fc68b2fa281fc6cb2f066027c052;0x4206a368f2f2d8a59d581598b3159e26;0x1f8b07d2928fff4ce551bd3ed381ee9d9;0x35f466d3a52b44084d0137a06d9011ae;0x78735a0ebed18b2a362477364691b6f2;0x12ec590a188c9a68acca12b2c8b871f04;0x260d8e8773a935282dc24d9ad8719714;0x3cc9fd12c3e6899b6dd97d5b08a2bd2;0x2062b222a679517f345574c768131e49;0x733178ccd8675712c89a751c9e218e61;0xb449d1ef8316d8d40ff94b87c80ddc0;0x362c26f45ff620e80b54bbeb8b27ddf61;0x125a6d617a59703c2ff337e4a8a6565;0x32f740b32631a0eaf568b9244d963e89b;0x80d3f58ab47781f9cbfc8b817ca2c4ea;0x3eb3014082aad7d2fb3bf81e2af33d;0x1fbf2b47cff4581b30dd4c870db52d68;0x2573c345b519256f4175727b56807cf4;0x1e8187719801977929832e9221495b6;0x2688435686325d061fc533aad3cf7960;0x37310668261205a8f0af82b5033bcfb;0x1d0954c25397eaf2c1cba2c974e13b56;0x6c58020b571d3a78ae1ff314ed4b331a;0x81c733914b6f91033254d5f9a1e7e03b;0x132ccff0a450c5e2447f3243b3e71f309;0xff25ffdbb09d80cd1932acf36c4f12f7;0x1068894ae8833ff6a5e4d0798e68d3b0c;0x11743b55909848f8fe16afe10afa20c1b;0x340f46b4e11a0371636e00f8e3d4f876;0x31d83564e9f911325613be7e9529bb96;0x152bac2308a7633d69db35484cdd26482;0x336b107e9c803159c7674620a3b90214;0x1837780302d42e1e69ae62ae11025bbe4;0x23cfdf5fca5c812d5c857a05d8fbf794c;0x3bc858f9a80947d46fd36501d82678919;0x3aeaae235fbbb4649a6a650eeb34d527;0xefadfb2f455512bf7a3431de9ede24e7;0x3ea5db2fe587ab24c03ba6c414f49f2c;0x2b211ea59e72d0f257400a2d108609303;0x1333268d885d7767982e14356d279af7d;0x4e65e339b3e015331b7bc242248e36e;0x22a3e7cb6058683ec3e98b28dcef0bd;0x2c70c5f77b0d1d1d9e8bf230391b7e1c8;0xf5be2ed24efdc78b1ca2079ef93d39da;0x8f87422b0a4bc52ce93724cd02112059;0x2365eb87f2bfb93e09a41c4e981cfd265;0x6759c0f572e01de9fe7f9915b262098;0xb4e5e5f2a27102285f089b4b2d234068;0xa9af575c3726dcbd1c8202eb6a1059a9;0xcaaa7a3b4e08e035775e334f75edc78c;0x1a6486ef4f5a3106a9e0daaaaa86d9e;0x12b74e5d965ee94dbc5ca03c8e3f4e456;0xdf8e1f7507629c9d6088b2bbb18da6e5;0x3fe7cb5600c5ceb136b57c8bc0b2a4e09;0x3f56b438c146eda52afee603b40793978;0x1ae13c26d20c3d9bf2f9288e96f9dc6ab;0x119473de4681b397a31005143c61e1db2;0x37d84f39fbfc9ff08c03bef822b835b0d;0x19adf8048988943f5e9e98f27c3494324;0x1c837e4a57a6152161fa8779e36db0b7e;0xb13ca38abbd5c8d15865042fa8cf4e25;0x1081023dfda27e1abf3b76699af29a1d7;0x268ec3017843855648e07278970f1;0x27aeb897f75b472d78d43d9998afffe;0x1e043820a20b8e49c39a17c5c415fd414;0x17c18b14ac8ba4ab01559b3e55adc5e;0x11ee737bc0a9e8fd80e0aea094171ef8f;0x42647a2e207abdf7c92661394aab7951;0xff08e1dac2653698475a1c713a23df6;0x3b9a7e5d84bba68eccb6a6ce03d1a02;0x3e33252edebd292024092d91ff5cab4a5;0x118e32e502a7fa9494a163dc3769676ad;0x2ee1250d6847521438d68cf30a7e44cf0;0x351f2a6cd38f363a710f0ceec9108683;0xb59013133e61b66b5f06e6265ef64623;0x3cdf36242180926c9df9727ddf2bce;0x47a7b8cee071e8c2bc43bcd4e4abb26;0x1b136916dd212750d916c1d6797b3f1cf;0x151a47b1a42687f0af7c1f53b2b7116a;0x202df609ca9823123b9548c624d8a59ab;0xab022e0f3f384fb425df3182ee71cfb1;0x39a0c68aae00346d59e72a960b08394a8;0x2001b98f39340e5c76e8c295950642859;0x3db21c0369968018951b0868cf91c8ff7;0x1765df54add487c808f9becf81b80117;0x20d6cceb1369e6cdb9712e0d4d66aedab;0x59e9b350f59b23fcd794428e3e10b9f4;0xe2eca08a7dffdb9a1899a266a68b554;0x8d86b90bee36eedb9eaec52c98c78b7;0x153f06b7f21ec3b849544d7fdf8ca5911;0x918076f99f7924eb5a89d21ec62f877;0x109eb416cf78880325273d3f205deba39;0x12f3af953202e6173fca14d07c888597b;0x35f8c339e2cc46d51a97a301c1dd72811;0x141bbbbdfb594bbfe200c070eebd4110b;0xbffda7d85b6993b0a688a89ec636429f;0x142d54c038a7e448c8b9f149761757293;0x15c311603e3816e46347335d1d806411;0x544036dd62bddaa2d89257477769bbc;0xeb29fd5615e647ddfb6cceb1e61630b5;0x2d05b7b568045f92567eb6acb5c04c1a;0x1deed380df9108efdd6871f9baf01d2ec;0x581c4ad9b702008c9d5921750f15f2f2;0x1016936518e4a1aa6b5ff9cfcc14c12c5;0xcf2895118125107f040150f47a0c9135;0x954e45e1064d877adf11a95ff8062c8;0xf7999e736f52b3265c46810da3646f33;0x19ed9f910ccf01ed590cd6c449985dbb1;0x1cb3fb6df98830db709913f2d57d14f00;0x1f1acf8244d5cc222cef5812fe13feaf6;0x21e4722c99f9df6;0x21db252b18586e419b4920ede8f112165;0x177327390f19fd34913ec48b6b1e1fff;0x43b64a5630b0dc831d52556f6d22cc2ca;0x82d2398400f03a2e4f8b7775cab99c4f;0x3c;0x0;0x0;0x0;0x0;0x0;0x0] _ _).
  - vm_compute. reflexivity.
  - apply Forall_cons; [exact prime_435874659331113990301'|]. apply Forall_nil.
Qed.
Lemma prime_5850682870475399260995445982426135128827505300030506180795054331' : prime 0xe38e38e38e38e38e38e38e38e38e38e38e38e38e38e38e38e38fb.
Proof.
  refine (check_ok 0xe38e38e38e38e38e38e38e38e38e38e38e38e38e38e38e38e38fb 0xe38e38e38e38e38e38e38e38e38e38e38e38e38e38e38e38e38fa 0 2 [0x21db252b18586e419b492ab7b69166165]%positive [
   {| s_r := 0x21db252b18586e419b492ab7b69166165; s_c := 0x6b8a525303f9e3acad272; s_list := [0x9e9cc538d298b61fdbe71cd956077a412f08d958be46b8796ae57;0x3f4ade2c300f83f82da50ae347626905f2c601c45bd02197c9e27;0xd43c88d6555cb7a0b218e8f5ce4a125afc9ed313c805984437a65;0x750b3bdc5036a605571c99a11c76d2ff0fcc7af611eddc06622;0x15d10d42bfe790f054a5d9f60da5859d4da212359e880cb03ef769;0x36e5af06a4375fccb4774c00b015a9e6a1a87fce020edcc08e6f0;0x352d57fdbd1f4db1f92b3296625aea8a01ddf26ea964c1150f0df;0xddd4af4035182805a645c08ead4c35c85f64fe6ebc123117751bd;0x41f00c1c73e06309a61d64ab0e739c396cda8d6a805a632be9b4e;0x1db81a7e05d0b67460fc2b537225377cecc0ac8e2bdb63d592d6;0xc900dbe2e5220a3b807e70940557638bb69ec19f7a07f0ed0767;0x26863ae5ec0eb54ce3d888533073687029aa6ee24e20efa7426a9;0xd47a9b21b4c13a9f8ca7d870c8bb94e1d6d6537b5f5111eca0476;0xcfe9e2f50af6f1ac35e5c4f402ce3d94f4b273e0ea19916220e8;0x40295085063b86f12d16b570b37a3f0c795e068a533192d9305ee;0x1c1646059d365dfddd6d7a4bc3d704b3ff6845bcebe72d50cb32e3;0x15b7660b72a79a5f0bfe3eef230451b1faf95e8072d032622fe9f;0x36a94d4ff114f20d40a81f02a0752a0ea189205df9983bead548e;0xbed0b111a689eb21a63c0a31424c6ec0f23ef5a164ce657f1b95;0x1c132e5df3150263ac99573436f50af0b1a0fd2e0eed56078ffddf;0x86ab323e4ffd8625e1ad9b4730839bb2c81f1b1a7236dee1a5ece;0x36ef396859544c8174fcc6d02af8228e0bac784617feafc956af;0xcfa3cae0aa4847ad3ee9e2935b8c861246b25f0623cde732ee465;0x13e6969ebf33d0a3016ee7d247a4d7e344575ae16e15884cea60;0x49be70d34bfd6f92f59a1000adce9820377eb455b2b9b23c64964;0x102b447c25c5d1c8661214b51676a6f0accb2c11eb79d90d4ade7e;0x2741d6869618b0cc2bae22e38b15a36b5461ef73920123fac;0xd7c75a0e524f00754d2e5be9e42b1d6041be47cbfc6c33ef072;0x11872dd085a189cff9d0cdbeedea6f37ab4fb5d02ac476c87ecbfd;0x241d196918dd2d017d320894c55d5852aad0f99aae00816eb942;0x1164e38d4d2cab958da88dd3a1308392aa52282a93cbc2cc2938;0x1518ef4017a7400d74b7f48301f522ab4ed3d4fbbf59a33925bfa;0x7639c1f413a86c2f9d07c8280e7c829ccf8613c176019151da1f8;0x699298fdef79f12b560853409dfed28fbbe70086e497a55849de;0xe1e8e87243eeaab558e05f8c4df7715032e01253f36fe88838ed2;0x8f8d7ac1ed1206839cd5fd7ecdd47dd5f6e0474617c2bd1ac8764;0x6562ac5bcd322916fd39a92a1b5d75c50b1e60bdc38327be7a82c;0x1308a673fda7619a343007cb44491d13ea84d362a09241ed33724;0x28240fa64272f519280e4e1060e6187eb32c93ecac6f3f6f46a64;0x11bd56e8aad754edb444daad99a637ab19e28900117c348350fd05;0x144e1c744e59f4bc52c77656bfb21d5904cc43bb1d6be28ac4a60;0x8145d8a67e27f0cea56f7af68ab8ca3ed71023cdf3822b2cd53c9;0x710c058976e39a0befc6cf2025de341813d9f1ba610929b2ffde1;0xa79adec7b785a73dd43b6758115f5e982564bc3fb11ec357b83b5;0x41659e16ffbd81f9d73e433ed858ce333bf2a951f7736cadf49bc;0x469eb175145a64d23b629f46b3151d5d86084788a5e6c130544f5;0x25e7aa2cf69291bdb941c00b78a30fb855b8284e7edbabc70699d;0x64219f64f96e1651958cff0b506d89d8334db7dbd81873076198;0xd487f1c5e9f63051d3ef01ee702747b0ab67c56239d54aff20e4f;0x6ec1dc2c3f637a56a85e9332da4ce03d273581cc9019f84cc3f4;0x7449afec4197621068120cae5ce5e89d612f2034fb88697a7fc8a;0x9a2b9a1e4835b5995192678c103a03feb776313eeb08b7f41d7b7;0x7a1eb8dc3941e9c033ac939dbe686ee684e3762ed0c574e45a50a;0x317e5adf4d96cf7dca5b7cac07495362cfdab702cd9a95ca10b7f;0x5310279fe73eddc206dccac3eb1cdd512e1a22ca24b983ca93e8d;0xd2c94e61f290386b379f32d222ed2527cd82e5efa9eb1abe317a;0x14524c8c31088c3b73e7cd3864f382925b9944b2bc6ec536856338;0x69ecd798d3996e0abfa06af22badb0fdf1555138049271f007e0;0x317924f4dba37087a289cacf7b134b21c3162cca7d9b11426395d;0xb558734b4eed0695fbf23ae40a2245ee38723e4e1ded5439f4c7;0x7cc682efddb15f9c6a034bf2ba34eb11097bcf1b5d0decfb23cc1;0x9e207c2e089957330ec63a4177de5a49ecb7c40f36c07141e1202;0x5dcbd8b7e2493838aa97176fa2a6b6c869cfdc8aa4fcb7ab83864;0x3b69c0de275793a4cadf336a59364f8cc9bf5352ed0726c89b7;0x10fefd6c706aafc5433d27d9ec3cb424ee98c74713bffc305f7b8b;0x70cb9747ce1b40ca76f5879d2f2aee0776f7a1661d86d8aa3009b;0x18dfca58b330d1d1ee873f2132234ff42236b4e4aa3fd52eb591ad;0x48ad61d393ba32fabb6314d861531101f9b339b11de0917bedd4;0x537b72dcaec214bc0cd87bbf5f9d09d975ee70b4d9cebe52a9a51;0x496b8248589a2bd4ffb84abf425a429f17bb0404648b3565d11fd;0x25ecf24bd3;0x0;0x0;0x0;0xe38e38e38e38e38e38e38e38e38e38e38e38e38e38e38e38e3755;0x8;0x0;0x0;0x0;0x0;0x0;0x0];
   s_u := 0x2a8e967e414e0cd66c4dc4c6076dbea09fb92f4455eb6673fc73f; s_v := 0x1b348e483362e03dc3866e02db0720fd9e6f331c599e9077693fc |}]
   [0xe38e38e38e38e38e38e38e38e38e38e38e38e38e38e38e38e38f9;0x13414db3442dba908eecead577b9508925e78d28e97df180b6a618;0xf981b7465d0a9952e99b212b814b7f046397a83ed535f3683abf;0x19a6499d0b612fac27067d13e11d5a50c70e6d79bf1e8d17f2752;0x10b01d274f5e82c7524c8ceee83a52962cd0f0b0a6139e6e870;0x7882998e6a2649e9ad426a86739c26884efa2af72aea6d25062ea;0x145587bd55c1b9728633d5deb92a7b98cac0279280d822fcd3a5ba;0xed9ad330fed109942d5a0c62ec2a0cc4b37fdce21d31ae8dd372f;0x24f9a60e70fd5a35fca0ae4ea81779121a0cea6dec43ad5f28869;0x5e3bfa9b2d8622b4439372bb14ac9421b73845386bd0ab0493899;0x4aea3e2c01d2055db936884bec1d111a4c76ad7b34b03dffede74;0x1b45e734b68193c59ea06370032165e6840134ad7b2e7971db52b7;0xd14865a6d5b17fff71a7a8093af2f40a446217a67689e2fd933b2;0xa3845a778d76d52c1a7e9b55e791fe70d5a332ee0132b844593ec;0x91036223eec58fcc07286a93f5f2f7c07bd5a7d68cd9da14b54a2;0x9d73ae099801aa4df97ba06437402a346f5bf3b840812ed36a7f;0x59d21e53a62ac72373ea5e335743687de97e2fd94b4515f6fe8b6;0x3be665f7a7bf38e1e1e020b1a289ff36820f9580cfdd83827b3b;0xe6412639a0580a2eb475b6d70043afbdfd1ee6bd56622e185d8e;0xbc3213cd242255535b69bc6c16aca033f193c2057efbbc84273c7;0xc09c6c07a55cf61d862c8f6ae0a8122fe986143640c6187a67ca2;0x95705b2200bb44fc7c4c292d804347467600cb795ab20e0bc70c;0x64c06bb3c5704c8c7f9bbae5ed2218994a16dfeacc68d4928f4a;0x623caf71b8d8fb85b2f1d9b271d249e0136158b6f1ce295511e75;0x66948ad6e3d9b576a49a0f6d1a4af52099601838f21847226601;0x38674a5385ef1dda9936fb83876ac064626608bf12cd2d75eaaa2;0xf0b97204e2469a98a5d2248313d66e30b5652187d2f95799f03e;0x5537c607ccb9974488377026c425f697dabf85d701d4f0e5cf4f7;0x29f567a3f271583dcea080aef8f318488d4ea658d911423ce5432;0x665dc7f960ca0268899c05a9a0b18fba9feacd29b58ab046e41db;0x1b7e74fb93fd084572b2b49631003c9a80cafa75b9c9759d621d3c;0x1a8720701bb74c0af95f4a7ccb09dd658c91678df5cd13840c6e5f;0xabdc1f909ad2bfe9b1fee34b3850e6c91aeaad2d4079ab775ca9a;0xe854d395edb4f69c3a318a933251d3594536227ac8bb62e1a21e;0x105b0b352dda9b5f82a6ccdc9ea279e12e57863edd7f21fe2e427;0x2f2d68a31e4629d88e90f60384d3eb031cbc842473be537adbf08;0x16dbada386bfbedce9209d5998cb9dc5d65280fcdc83a99ce94f1;0x15c23ddd78e2d22e5fffda4775e935938cb568319f3258cb05173;0x553ecb02f1a3f1ca87b654e33bda10d2436b2e46bb1494d56d2b;0x7e135468c0d41745ca4f6b2b166aaee81702ab5d07dc49fa5a49;0x38bfc5a76489a2b15c2b27ce685d57368477b12b2128415775dd;0xd54a99314e1f5453e5d9da24750f6496f80bd76263e293bbca2c;0x1544cec695bb7523ecd03d3238a2a4c52d2b01e0c3e24e9c74a2b4;0x14a1fc97560aaf772859e1db9a6969fff6bc8da883b9fc302cb9;0x9aceed7ab5ef676ee42abb8dca97f49139a0a391ae0b60ba19acc;0x94058b7ed423eb2adbf47706ac9b231547f91008b91010c04e56d;0x738f6bb64ffb773c37cd5cda462b9db19bd14329872acbb91bd8;0x189a5dfe6d82417656c5f175aceb54cb33452f9ad8e234af7da5;0x2c506b6e9da47434a6f77f1a22451f3176ff329f5cd91e79d6466;0xf6ce16e86882517201c20f3cf5f297b2a3fc40a7889320fb6eb02;0xb3d005b5e7ea84fd64fe6634ab98a16907f96ef63a691de8e8eda;0x624938af30de068e4bd4983b8b2640799e9592cedf1c65d16e0da;0x2e00a9800359ff2a1d6eae407eed34a57ad4b5f774f68ae7e0ef;0x156bc53f06c57f2ff9a49fc1c5a4fb0da16091492d09faec6c6009;0x3f5222ddd7abb4214b342f7875f59478fdd0bd19ca49fcd47c57f;0xab0630efff54055fa9b481c014fe6ed45584fc2858bf56a24bc9c;0x15ea690ce92006c52166aabe3927951c5cf67fe79a2eccd8ef40e;0x2f1ffa1c8292513f54f1c6c0203f14d6e2c3b8371284db7be8799;0xbe5734161b4216e185b9400d0259f3fa06e0a5ecf5e5cef0270de;0x3524d2ad14042e5c856d97419ad18868aeb4aed097edbb81b3a4d;0x14d378ef96c9441b2b003c5e9b652b52bd8dff2a0f02ca018c18e6;0x2f07873b8a24cb5bf909f788f001eac9dcbb1c9b8fbc0eb684cb;0xc3c6cd73d5d1af2e62b55f144b729953a8ccb12436af5fee97187;0x3faaf038876b5604e598bb6c0bd280105890b9b5a09cc0e8ffae5;0x7cbcf731728d600f5e452c11c1eb1136da45458903cb29bd1ea08;0x4d01f3331c069f4053e6d3d50a6c07ef1451c5787a55b868d94de;0x3f06685c8759068b50dea3e78d22e027d7c41764c99330534e998;0xb903e792a417dddeac7dc791f4e5d8007346f00a4eae0eeed5;0x3e5bd18ffa52fd00e71228b8263ac123c113ba101da50aa97961a;0x10726d9a9960c0323a4a9f7d12446628d709bdecac204439945fd;0x8fda180ee1da4bac0221074d7fd19a1ac2b2e2a16d7f4d4e4976e;0x13cabf724d8ae2c87c9e12923f841559f4e3c5304f31bff7d957a7;0x29515b388cb0eeb41b81b7d48429d750d6641a3194edf2e9abf2e;0x652f2cccd8bb92ecc2c3a9f0ea708e2bd0d49c21fff5a7c7d3c8a;0x4dad65088d67a98349cea2834a90f02c2460354c95d6789abd37a;0x5abe8ad8d7f41b8102634bf2ba4c3e63150901bb13364363297f;0x34c250aba2ba2166bf844c0d376e5d8c922b1d4e3b5c72dc48644;0x372d8c32504a25bb7cbdbf528603a85376c580c962eec58caa6;0x1b04a947f542ab4bb723e00f524fd9ae9229f85aed577bf7cf6513;0x11f16472ae5af001595bcc34de2a0acf8c26bd38cfde026195f70c;0x10931da9c9c5a756e363e7fc4503bd8f0891954d55ba5100e1ed;0x3deddba2824cc4f87d11115089bf213ca15c9409a5e634cc73edb;0xee9cf1f0ad67e938ffe61a39abd457a3e42d217b9fbef6e48bff;0x1aa11d760958ef7a84fe80d16d5cff42ca271cd606554263feb7b;0x3d2629adb465a79e177aa561201796940a08f9d53ef705219b923;0xa18451129fa3198d1e1261666303111768decb2aaa4e083540161;0x1ee2ebf1c9f8bfc9868795ccce870450450e58e417d345dbc8e54;0x68d541d8647bb9153cf6a5a2386bf2cb00de322d4e7839a29ed72;0xbb09405f6ab18d1701b21d093624f75644d48ec9637664adc3b6f;0x65ae41374357b018f298d173d8ed856534d6895768dac0e7dcd52;0x10e7b8116639c770479cc7eb196b6d1a5eb7a417e47f46729d04;0x98b1be575b0381a9fb24c048a0bb585e574c95f087fc40bebe2b;0x66f637eebd31b7a0272b76941443b05b8c0a6dbb7974e2c1e1a6;0x17b01d59d62ae7ae560aee29859952ed6a669e3a620c318dfd49f;0x1913b4b31daac80e441fbd18cf90481a781828d7d863f0326261;0x11fe2825ed6339d0192ffa1439c81fc116e4d98d80f192ba227ac5;0x7255649746802c98d95a39ed244e8d926ccd6f633f7854ed707d;0x736a6f5a701837d4d36c381966f89bf40ebc51e2440fa9890c5d9;0x4f51e95f9723ab9de2bf91f68eaa3e01c337d7e3fbd66fc52051;0x79046304aebc9c79b8a412927624b23c257a14e44beb287f1e84;0x3ce7906cd6174fae37453c5b1ece536c34053c98b86587291497d;0x18f499680e50e63556b1be5abebaebe13d2b5839c05295961f6012;0x10d5acf4a13e341c1ecfc3c4cdb2e2c28adf27fad973b40a284fa1;0x8f191a041ef9ab9a2940cd4158995d009bc9a577b519223526e94;0x556c0de43d40f6c37643591ae4ef14f8297987a5157fae11adaa4;0xbbafa77d41e39215f0c4cd73ffb06f636bfe8cf18277c694290;0x69a8d53468ce430c8d64cacd4555deb90f8e2896a4c9d93f6749b;0x127c0939dee1fc6b536c4077c38e75295c64ce1178412263174a;0x4685d75d92ddbf0dc4bbd78bdf97cc6218f401d127df19323a38e;0x5e68e115c2a2c14f88493e4f20214d2e48359078c7befcd61d080;0x6f17f04fb1cdbe9810a96ee604f7dee6150a84db8d1df85816227;0x9912c2a48b458ed1a68d3ffd136098ace0ffefc77e74834bd61c;0x834c7c25f137147e92dcbef023d4db3e411182e0cb8ef095f7a2b;0xdaa8bdab0d1d6786a62fc25ecaf9aaec6edd3c947d3bae99fe829;0x699fdc2fe50fad856d0b0bed022a0d8e58b3a766bf92999070c6;0x1426ffc2ba0645f3efc32253b019690a627cb07c4b3eca505ba3ce;0x5ee23c3567d8a2413051f71cf3ebee02e2c02114353761bab0f77;0x2bc08deaafeedcee2466f0962ac799ff75c2f21a1dbd6b430992e;0xd18b51b94654920f1a7285f3f7cede7c0f091a81f23e2f87a94d0;0x14134a461068765817fac1e25e9fd87664961b06c1674dd996895f;0x358ddac7a39a49f4675d7ff1de27f2a848fc27a8e406c9ce6d0b8;0x2ad480977433c1f6d3b358a19433a3722d04610c578f52d7e13c;0x55e6c5ff2963ce8ec62671a609925985e5d55352aa927b3739f2f;0x91d2737ce9ee20f4770ca2456a6c5689c71d26ca9d9646e1645b5;0x3c022ca345536958d49917d6d77e703c9902f9d0f325ef195f8;0xbbd513801c5f3a8ad61a4bdf40703f6765d0533d42895c88d00d;0x2f3e48e642c5c3c666bdab1ac032244420f26370b57dad8e7c2ca;0x89075792fa1863c9e7a4484b4817fc4e1334909990e39723dcfe;0x4965063a2dfedc44d4dcf993fe62c285ebe12594bdfd5a667047;0x4ca9c09da0eba60ddb1a9b78e15b8af8e193ded5a663f61c6ac38;0x285dc82d104eab5cee2398c766566c8c0584d06ac308b619c4b1;0x2d6252c73165be29fa4fa7728c9d91db86d56a1226cf49b24df3;0x10a79db04ad5741112d41adfc2ee6aaa2c1a9becfb8bfd71d369b3;0x1b354cd79e8897123116fd6ea914609640017d8d04fec4185c8fec;0xa5cd5dc4d3b376ab427fdea32accaf594dc2185eeaa5ea0457aea;0x26d546d3c8171cceeb64695b9310bf82bae29cebb1432d898ea48;0xbb9680c723febed79e3551ac1dbbcb62c6148e68b123efca9adc3;0x4fbde50f73eabe8274c1c683ae792ebcf4ced629cd9806e60940e;0x2cc561dddaaa046049af0078b546190b5a70a49ce629741202dbd;0x9a3bb921367fcf1ea61eed5e3fe0406a04d2b3ae7c56fd6f155a3;0x84b638cabc9e7f1b4a1580d06bb043671cec2d0367ead6d87c83f;0xc62aa2ac995521bfb9e340c5f7741e55d496fcfffbd07f0144e12;0x1f540824ea26ba7a3c33df8c6ad772caed9bd2aa7079e396961fb;0x3d6642cda9b2560ab8a48650c3cca247919472e7c4b0691d62233;0x1230c4ea7e5bef2bf1192194a37511815b4b47078610bea93172b;0x1079d1871f844ca4ada493f529c2738dd665cc13127d5f0faa42e;0xc38c8fedc138a6dbd716f3245cbd873aa2f30db8e6dc08292aa;0x20528a281b9a316709bb24e6f7d33e14b1c5dc2ffed774c2c82d8;0x89750b42d6c1e486a6b867acce45e7021716c2c570efa32526db;0x12db158dc84b80da5b2ba1e9fb5f4c6c2fec4f4f650958e131ac7c;0xa325c2d76283f0d7193d2d0cbe4d1408dd415ad61e99d69fae2fa;0x761abf516171c65f907a141c891114a611872b96af6a071a;0x83ebf1962fee153c48b57e535c4a84bc83bf938af0f5a4e563750;0x2186afdd5f69a5316b5efe2cdac2c0d147d94adeddf1ead6fc35;0xe1f48b704d9abd5dbe43690bb3c21e295c11cc5e1e1ad96c0c60e;0x197101aacee466456f0e9dde5752aba2a36e0156dd72fc1d29d1fa;0x22b2756037489f9f55b1758b8c60083da5630b655d25a1d1a72e;0x16676cffa16a4d445e211ad885a0601cae4dd28d1a5202f13ef225;0x3225a4610ba6ec2347cd82d06ce32137b3f8b6e75c95caac68c6;0x23df9c3978b6cdfd2f2abb53a2cf1ce9db5e32d753d652359fb0;0x7e171f3923cc6d41c118d2c3d46bc864fb323206496ee626371e1;0x3f1ef78e1a106bf332403d0c7cf0874e3f6ccfbcbbd114427eb6;0x1bb8a60db16fc0fd96982b0da9f28a2641266c4dc63178925d1612;0x71318a79294a854fb6444ea7e4e0de3a10765198d8442e3477a7f;0x53c9af058a3fd355956c608299c80fcf35784e58f12b170a342ff;0x230e775c04cf620e5d134113e47b409c367568bf6767412c3f1;0x8827bb54650c337904d937d944484bcc6361944e5248d0066f125;0xc556dc8eba59360bd0d2a89e6e17b31e7f762e519387d1db20b19;0x10370335a638dd054dd98f6bb32f6ea57a49699fe29d29266453b;0x1706f82522c94178f1ce32b7ca7c522582696be7c843ad5e84afd7;0x3d60d6d7803e78c378feb4e7d5e77e325e7631583ccca858a92e6;0x32f965fc4c8186db06b98031f1a83d093322e1d6b9f2a671c5671;0x5a4ee894ddc42e9f7a8b5c89419bd66d59b597607b70c72b47603;0x197b1ba57ac7ba4abe97183ccbca4e2dc4358aca6e9a0de7d11b83;0x2c9ed76b6f14f7ea9442e85b55903c01df2eb46fe850fb21e5f53;0x16b51115cb898e081804a24930bda12d0aeb4a1783937510345b;0xe999e5369c2d5f18233f7a1398a43807318f78bda01d4aeefa4;0x2dc1fc69a997b257fe55659d7405bb3efdb09b4ea995034389368;0x3382111bc5b62b6fd1edcd50d4bb9e2f0fc750948460bf1629a;0x4476c4e1eb6ca9b28d7af359357104121f3348f90b5d6b6cfd0fe;0x6625e79e9548f8c26e3f587711ddb78d29558bd80c28f3087e3ba;0x1912c283b0dd132b8774fb8ed5296f6de0e67b8bf56287f6b658a1;0xc65d5da58faa1eed9d12d74f54bc3392c05c07f9ee0e0453ffb7a;0x2405ab4091929504e982046dab3b6ba309b82444d580db652fed2;0x652332e0a105940f1ab44eed3d3608acd2aebf3db640d28cc03c;0x7ee45406a98686587c2b5ef8833bf495e62e7ff7035df6192a525;0xd7c931a3da6bc0abc190fc0f9396a73bf9e83514c68dee90972ce;0x154156f273eae697d0bb3a1611dbc9407a9aa29f4073cba02c6ebf;0x7fb6eb6ec46d5dc7abad66219d095ebebbe826e2eaf40a57e479;0xcd12e7871ebf6a102ab3b0f58f99713241f199850c5de2d61878e;0x29549a133234936c231bc35fb793587f2ab23556adf888ca896b6;0x52c7d195f67e24055ec5fbe9691c3bc1839729b14e4a1122c1e1;0x20c910f96fb1c891886b40886d99166a6c9e0dd88e5bb7cc1f37c;0x249c91301efafbd24bf87172a083a9ed49e91ce9484501276ae58;0x7d556a829ae4c55d1dac80020c125185d4f25fc375d7d9ff41697;0x13eaa9f01f5600a3c85b7d375f38b9796fcbdd136b4df60016801;0x323b2e9bf967c8f995be34d63ed4f7ab11dcc442dca5878c3ed;0x2ef8c6d4a7119f1aafd874dfe87b8b59cc1c306458cb7ab06b456;0x41a24361c0cba0ae76276ff3db40f696c607bcc5f493e0de5ff65;0x40c33eb1c71c71c71c71c71aa3a29fb1bf8c5f80dee2b9ea5cbd7;0xd105ab9c35ff19ceecf5fa2e6571;0x0;0x0;0x1c71c71c71c71c71c71c71c71c71c71c71c71c71c71c71c6e7b1f6;0x8fff;0x0;0x0;0x0;0x0;0x0;0x0] _ _).
  - vm_compute. reflexivity.
  - apply Forall_cons; [exact prime_720038251782755530560406167081765462373'|]. apply Forall_nil.
Qed.
Lemma prime_105312291668557186697918027683670432318895095400549111254310977959' : prime 0x10000000000000000000000000000000000000000000000000001a7.
Proof.
  refine (check_ok 0x10000000000000000000000000000000000000000000000000001a7 0x1a7 216 2 [0xe38e38e38e38e38e38e38e38e38e38e38e38e38e38e38e38e38fb]%positive [
   {| s_r := 0xe38e38e38e38e38e38e38e38e38e38e38e38e38e38e38e38e38fb; s_c := 0x12; s_list := [0x0;0x0;0x0;0x0];
   s_u := 0x73521cd4873521cd4873521cd4873521cd4873521cd4873521ce07; s_v := 0x1cd48 |}]
   [0x0;0x958ae5858fdb034c65bc1692113104d85deaca963f4ba14e77;0x1211ba2caf42edbcb1209b0df81436eb8408636dd100838f1da0207;0xb3f19e6b2532a067c7ba719cfd3f39e35c90a88f7f22f246be438e;0x3e809c78f49e69bdc6af0e831c06cf2f83b70f2b45d41991fc6;0x87152b9871f72b869840ec14ca9885492423458cdb76f785debe;0x49f8b1e6e7e8b88c65214b9e7d7960a2de6ca4d2bb6ca274331136;0x142a28f6ea2cbc596c856b64686aa36cf326d60495d04aa48242e66;0x1c16da20dfd4817d75309b685f1c0a0dd69f62cf1dadf57b8797f3;0x15e3d1d5507d64542ca194d16ca2c02e9b5f0774361ac118f9d6cf;0x2183560e1f33e6d9576d1cec1217b84224e32abb92d02ba0700ee;0x34e1d9ae2ab8c64fe678d52bac963ef2e4e537d42d9047cbff06f;0xc34d2a49e1367ad966af72b13acf370ed1290ff9836e653c53d3bf;0x13d7f9f815fa4a8a6c042c5d618632212cd8175e9610962d9cc9dd;0xfe9b9c594dacc6ef43de8c683d3cd963dcc935411596bdcbee89f3;0x1c9a49f60069c413b9973e6bb63d0085f4048aa55f5dc5b31d3d;0xdf13ee4866f80d6c7549bb62f159d1a8bb91c193d169f8848b32a6;0x1cf4df469f91ae532fcb4d06d682af6b11e2a5be8d653ae8a1e;0xa0547cf561c189f6a774da00dc809cb6b24517f24c6e84ab0cc162;0x342c27bb174caeeab6b968f0a8c6b7036335d52c4cd999aeb5a46d;0x8d83fb2c75d05755ff8fb431708b325cec6cc50fcfbde49e4d99fc;0xc1818c83557c9cbe8f0a7382a093a6de6622a92cec3d3fada1f3b;0x39859995423e93ce1ba3b7ee4af6743b32300c26fd197ceca9f239;0x45f3a5942cdcf60acda7fb3ab5f7740c745af00d4bb5e62dd03e5e;0x825735ab1601a85afacbb934f555f3785db6ab99cf078a3323cee;0x568ac4b2b493ce8ac6c0dfd4615b3990e8c3850c4231e9131282ee;0x16d94d9a42b06b42c6127431e88b09834f6951420337190d36cbac;0x4a7aca36eea2bd3a225fba39e3e4d4d4b1fa31dbee6d24d6cdb0ac;0x59a2e502569e4a7d39ef61989366629d57bb8a97734a56fcd64a8b;0x3e50dea7e6bb9b7e6b2c735e626c482ca38d89694a9a6d2e8c4eb;0x30f042bbf1c1dd5e665e543502941f0738daf6ab8923712dd95c8;0x44a8a079ed47ba9df9262fbfe76c1de78cf2479b1bf147ba6e9504;0x3480c2c5cdcbf35ac5b134ab3f639516c2181c4d66b4c5fe958718;0x3806fa1e431fb9d0d2b20006ba69e432657b4690cc81c77e208b43;0x530ead0b12e81556a95a51021bd1c4cf92c83fb123ce8f920285ab;0x4e67aca0cec926d9b53b4a8e833869dce38f84e77776a2218d4f69;0x2247abbae287b53d5312ea1152a5a2919e3895e5bb8f9237798449;0x234478ab65ed278bf72a9500466738f8e68bd833a15418cdedc147;0x73ec4ced3fcf99a8590fb4beae44da819ed532673b2cc9f0b870d3;0xb194d7f93c561a7f8ec07eb805022aa8b2c4f92df0b0e42d597d88;0x8881e71d0077fa0e8d368101c867ffb7d96161d19dca77b8eec662;0x3537dbecad28e39fcf8edcadd57775941b02a743dd6d74253de0;0x10c561f086dfbaf2adb5f93e313909ba507d134d7d625acb9ced60;0x27b50d75875f7a81cfb7c29a74ae17dfd94ef5df6584260c4e5a5d;0x798f0b01a1b3adde7a451e9f8b46d0d58499520704b75aac9ef0c5;0x486b8f52f0ed80bc2e06c75c559d48b1a50b2b7bb25f895db3150;0x748c170ad1477ca230798829370441221454b9b9a9c051503b35cc;0xc2baea254c1384850415dae63f2e9849cb9b5950d6f5b643c6493;0x40908f62e010de005c8d5d7fc55855d27563dbb3eb7beca3905477;0x76eae51719f2f20a2a39a688b24c64b6fe38fe3f12009e373ecf57;0xe3bf5cedeb29e1aa3099ed39cab3c623a638b919f74d647816def;0x616374e240d7972758efe48fa588030448cbc84857f3e45a7cc0a3;0x13d8d0077f07e47c1ebe5df153c22e031f7d6c5357fcb54b80629;0x1c9f1764a12e5bfc4a251d32bc7abb3e7a79a14a8eaa8f80563a01;0x3c6368400caed05bd82df53ce97a0924dd1ec95a4b9891c0ff68ce;0xaf92eeb6ab5fddf4790175d67a315b509f9eeb2b34fc71b48b40fa;0xb23d642b60786f11e65643f4d947005eecc9b6a0beb172c5fec31a;0xb8c314d6e60b1fd787492dc81520bea21555376db175a4cb1578fb;0x61e528cd24524be3f533f9e3f2b76d5e310ad4874a0ad712d57709;0x8ab11343ead75b32a62b2a5d0210a31cd47add5219a9607658d336;0xbab14b0ff19d83c47460a6abaee169cc49431c69fcc9bbe61b347;0x55432db455e39458ec825b89885c96b4aea6389545c3009fd854;0x39dc6a9875c94613d239eabdd5c159821232b28f0bfab6300cf778;0x674a68806fd9fd04cf6ea3e0d689e6203db5b2469f37955cb0;0x83e5487bcf908cb28d7695720d86af23eb5b8cb1cc905022488a21;0x42e5e4f67fb2e92dc60ba9aeb9c421cf8faf434e78269f598cbc79;0x3d389d613f5232e278e2dfab9740f6e0e65f328b2138533a689b5c;0x2964ef2a0c8c2a337cb9182e97c472fcca14f7184a1abc0734c730;0x57d095a85443128d1db99e366c257e4122c4a2a443e72c4fc59f54;0x75d54f6dadef6e57a828c562cc33744f81f2b23d899ea406dba5f9;0xce8d7136f1bc82fb9e4da5653fcf15dc90258b6f1eadfa6f300051;0x25ecd33d31e316e887fac721f2866cef4286891b5820518f797c27;0xabb8587b3869f6497e8f6622f6a970811d115125c91875856952a6;0x47367030da729bc4e1631cf9240115bf388862d12a19d3f6cf9292;0xe0ffe4ed19b43a3f4fe51f7e4ccf0bb87ef25131426480bca0ca7e;0x913b7304aac51d3cbb7635b2d052a2c0ecc1cd6c68b6bf8a5fce37;0x2ff69453ee226c4750e3e69a332e8edcd0e5a9d73f02f4a4408285;0x2803e5b536d6807f947876f435dc3de6e42995bbc5a45924ff8628;0x3e6defa9f3966f58fd0f8208429a7177e5b06d958a6cd8e7fcb19;0x417c46995107c0091849f2487bee6884dc0d774c530d38a16de1ad;0x3a20f94d42bdf482eb1dcfa7661675bf741f1fc466b5500b69faa;0x148c86a855aa1e9018c7a46d030e392da933e1ffb06212da513c5a;0x12c8537e30dd89468d504481be8c34bcd757098d0697c3b4267523;0x2bd409ac138dac53cde42e46b5c30fe741abbd8acace99676733e4;0x38b8742cb86b71dcb103e3142256ca948121ca876a44334f8ce4e3;0x12a2a08f7fed5535b854bcc6274cbf5ba4cb32495c12378aa9d1;0xa27093fb5e32bf803f25706d825229a759ddd3eca3d8ddb58b5bdd;0xa5e29e586d99b95c8c1d4cd52450a307c5131f65543ce2328a2cd8;0xb29be3eca6f347b6f3f590396f4147186ab513eddf34e77034c74;0x311a36ffd0f22a69252e0ffde1ce17c199693080d69c994e3a70ab;0x67d16f98e040f2e2662130e30457f29ecb9fd9165c643fd53c825c;0x5077dee8f5bddd39d838fa0c439400368a0230fe315dc7a87b568f;0xad5658e236f5cf8c53f4da846868b21ff99c10973656b4775a025;0x41cf468271f9766d62d2b544b3ed66bb8700aba1c95a4ff7bd1f5c;0xaab326551ac63110898eef0b89b9d37d115a99ccc02e74cd46a0;0x800a3e7f20be6d88304bf605cb19e43b593b65ee546f4482c6336;0x63a8a098027da04cef9d0a83bb44a3f8f74f113ab7ee1b18278b43;0xbd744d7819781a20e1d22fec6fabe1c1743e076995069927f9b90c;0xae33b90e4c5183f557eec7e8237dfe26e63fbdf94ea3f826828b3d;0xeb1e3c193258e4381bd03c57bc7f2950115fb6a33fe266be69e7f8;0x4d4fc83fd82ffd0da7c13ab5eeef147cd90e2062cb87ee8d90c8b5;0xa86b19a11cddea34aeb762a27cdfefc5893b0c74d9e2e6c3eb45;0x9ada9e2f675fabc76df581d43cb15331ac22dce25b883db898a905;0x5ee0d3c0d7b02860d2e502fdb5ab7d6aa7c2b3b104a99b3cf82005;0xa8698f532055c11051709f517bc14938b8122a18b368093c2dcbf6;0x1553f84d7edf78b5e9124f69975314665663064baf1dcfe800c1f;0x4368a8a41d61cc2aab8f90e9dbdccca0d5e9767edee1ee6b3a6563;0x8e67a0371b6eb70ed3b9f89a4539d9507583cb6c4f49d5f98d4e6;0xe58343435c2b61ffdd549e52c81901de5d8a594f645573bb821c1;0xe810dcb134b49277bb154dce3f16a52dbe0b16025fb6c91880b86c;0x247b2b6df012e02398f08566fb69ec006f2b81f4c0627518f29cfe;0xbdc6276c72f462ef9e09df3ca2f15c41b51fb422842e35c1a509c;0xa0d9f847eea7b0cba2014c9a7f22d69420cc0ad231318bfbef5e41;0x1edb907ee7d70bfc59985bd0c8bc53d14870f8b9c724a171443b90;0x17bdb7cca4b9854d577063bd22707798d97b5cf8f5ede86b9abf94;0x3bc073450fde04c77abffbb140e0b99d352247f4c9f6d55767bfa;0xaf0e31ff037d60842e213e69281e8981a259ea81333fd93e3012e8;0xa7dc56f98bdb9e8840c277ac8b029dd76ddea34846d99206cf02;0x1a0f5d05f82d269ec6cc0db9613ad456e0cdb3c33903a1dc53102c;0x6f2d1076dcf6eb8aff6a79743e1b292e8b56f3bcbcb89840eae4a3;0x2488defdbf83d51f3de10443b9ced3d63d38b06161369541cf16be;0x3c2e2bb634e48685535c587417e34ec85e41be63f5d27545363b59;0xc4606570889ad0dd02543a64ccc407425baa68c770264f1232a405;0x33f1278b9233e1d80f2f0f416609b16927065f37dc14289a39b7b;0x18cd8103ea2313be16688873a5e368a9d7792c2a2ff71fe0785cff;0xf2029eecc45fbbc32d28f373f3f8777650fb5148d0b90e8186f14;0x193e01c3826948fbf4e7d7a241fc98151c636fcaebf97a5c0dbcca;0x6a78146c852b381c9569987779c6aaf247064e9c619bf50ff8716;0xe24ad0046ff45755de0d10c9f01ae0426ce2b935d9f4e5924e4dfc;0x4bad2f03b8038510798304e0cd5edd23ae71e19334a1c0d0c2efba;0x46b9129af53b940a7f9f6f504ea38355456f3f8f75a65154ee40d4;0x102246600bb48501a91f25c87f8793676464bd32d7f9b0802b0a4;0xf797593e2c878cc6e6db3e683867adcb9836a1d007360483e7ac4f;0xd02cf36430643778d16780e1126c35b3e80f4a5ac89ccaae8ffd79;0xb48f069180fd01e8139e1095dd8baded07c15bec937ddab1913691;0x7dde52592f7c3fc8f3e57b5db94f949e715dc6055531dcacd7aa46;0x3ef32721b4ced320a0acaa9eab48a1cb4e54c754e7b08899ed298d;0x966798630611ab5808a62e1680f32df1b04d02794d1bbb9ed63057;0x1dfeed0c7788490671023070e07292f478b2171e5190c383f8f06;0x2260a21e7f8c62682e3ec8190f7994a6847d92504443e6c033d092;0x3cb833a8db48ed2c5d6e4ec1e011fb8993675b0ecf71734ef59c46;0xc67b5e020020a19045bfa4902f6dec7141a15ab6c15c618f3a51;0xf107b0cfad1cacbede26200f707d2b2a106f845977181469fc6cd;0x3236e8ac524303abea327b20d54fd7ec8fb244f6368e46ae4554a9;0x4a128984d753ef898db7e87bd74133c64a695dabb16a1e008ee2e;0x8cd84b94f15e5f665c966fd010eab75effceca956b2b07b6663129;0xc38c9c0e2a9ff28108aec4e092b2ebefbd40598179a31e17269c33;0xd1dcce73b512fe0ec894f473907c122ccb38bba0f400d29a477bbb;0x136fbc36a164525bd04820221a7eccb5ec9273b5740bf511d35ed4;0x775e1b794c03e695d3dbeece68987241c66d2c71128de55145b082;0x35e23e79584b8e2040f6dcd58a8083777d6273c14c2ba24b56bab;0xa840af0a74209953098c304e178840f31814a67ac7da180b6a3bff;0x4b583259854a271164037b551ffee913642e330a4bfdead96d8dd6;0x6b27bafbb7bbb7e1d9dbca8bad53536af4e1e2e9eec9655f38f53d;0x75741f5e877fc1b088b74a5b2e7e59d482d38b1a7dadb3982e3ec;0x9b4210d9456c936e81c58ae7d0f66fef7bfc25d626958d8192e18f;0xeed2cd5464f81cd59b6ce243ceed66cf273b6051ad9700982749ec;0x35df2005f67ba151b7e0183a19bf4053ad7ba6dd5c6457c5ef401;0x1ac5d9a3664e688e23bd6fe0ab363b7387c614dda2ac5411e6592f;0x490b781e420517ac35572d37ad3f6240194ff58f7d6964cc4ac0b;0xc8d7210893fff265743bd7c35fc8471952a8b308984b6b29b7ed94;0x5f52db3b0aad947c614e97cd6e328783de3c3c8f0472d842c69b1a;0x269cb6e95989890f59a52e7c9431f66bf451ec684b1009123612a6;0xaa7e022f1181d32df0ee777943cad5ab8bf4939e19764814c301d5;0xee4f3e626804ff13919b92b197b4a5bc33bc1fef9e0e7c3f63f131;0x119a24b048a2ba239535b53ef180a63d7bf4dc3b0975b39797783d;0x7584ffcbff3bd9fb0b2797bca31a0967fb659647a96d00717eb7e;0xca62adee8eab5a59adf073654e3c84be035a706172e2f8a179d027;0x1ac9509dc8059bfe05ac48356488a5b112eeab6bcfcf3b0520b208;0x1c6f1ae945deb6538541a9a1ed94807e832d14b20c021a9f78ebd9;0x87a666832bde53b9c1f8bc42141e8a21b195b0a2a45c250a173498;0xa446f48e6b4daa39f77ce4c092f91983060cf1f1572ebe1ef13fa3;0x15438e3816074d4158519515ef99d27473df22dd4b5c889fbd5e6b;0x5dcfcb741a901b8572e9ea32676468f446649d03f5f26be22c4c1f;0xc589eceae4e1713a2360e9fa956614ccd9575cbeb2335c18be2df0;0x2c0d09751b90db75d38dc42164545f8a8d9174b3dc7c11f6f788ae;0xbfdfaf3265353960a68140248d4c6352228eb0ce0e33de7e3fd52b;0x57c13f1993e735bb4c1ebef8cfae64087138f325b3beba5ad93831;0xf8d9c6204ff9e1d1ff06fc9a08c832051e9d04b6af0dfab9930587;0x11c65f460204c13984b848c7575cea040063e15a50af622347a1e3;0xf9810e9131950f76365282fc82d86ccd80fd77abca935ee8fa931a;0x9a3f3b930e6e241bda4923f7385eaeaa065fa69108de1b481c398;0xbc86a82a308439a988cb3ca2a8fceb750f6280763e604736d52d1;0x8a8b7e8f6cc5822638b6c7254e2e57412a0e7042dd186dcb209b63;0x734e0ca08f96bfc127f81566c67f51626727a064e8d6945502194;0x2137de473a7bc67b168a55c987a7ca4a021b8f17af9a69c5439bbf;0x182b585ea95b280c54b2dde1e0f94c54ee3df777da06bb3b461a;0x53ac19b8632d9203a113cb23a47b9e322b1819d1cccae5fe169a2c;0x169f330d96a08fb487138851fd558b96c3e3c007cb0c8f686f39c1;0x33b376efaca8c09985313478dd7e23ca31d6574da6bd74cfba6fef;0x6aa930a53c4b569741d0e4d4390ea908c5ab3f5c16b1f5bf7e7302;0xc7a733d96bbc2ae260a02947464b2ea8a39fe9a2838592e895b24b;0xd5018f8f18de9e285ba96b2b79a750d84043853f06c3902c3fe7f7;0xdaac5e7b1f6811e259bac22af7de8c0b30067547923897ab493677;0xc3fef9eaed427f2cf04d67239ac6bfb3f76abfad42c430f4303ff0;0x111020a49465925b254c1c734ac2bfdf3a78ed8a30ea9ad8b07e63;0x17a348cfdabbc83a4df42bb3ddc6ca5ac1d76314b047c1997cfa49;0x2b4afd13a7f079a0e07b7fe7c3172c27b3392c0b92b7a2ca8074bf;0xf1f05b69904bb9bfe491382ccd49a6d91d6dad76885034484fb2b6;0x194b335e942c7e6baf7574d2a4b91cc94ed056ab5923d20825116c;0xb3cf684f8ce7e4c6fae8e3ce6091ab5fe300ac8ffefcb992148a33;0xe88a53d5148812a8b164d6c9b6fbd33358e503ec5ffaa68e7d4f64;0x857880a50c7638a8bf18bee16a793916fbb27bad719fb3b6d411e;0x31e0ffffffffffcff7a7260702b7fc6e9673903c763034ecd0e99c;0xffffffff485fcdf90d4be05b405e21b234f0dc6b75b557e3ebc19d;0x3790b3c0c79ad971c0ffffffffffffffffffffffffff;0x0;0xfffffffffffffffffffffffffffffffffffffffffcb200000001a7;0xffffffffff;0x0;0x0;0x0;0x0;0x0;0x0;0x0] _ _).
  - vm_compute. reflexivity.
  - apply Forall_cons; [exact prime_5850682870475399260995445982426135128827505300030506180795054331'|]. apply Forall_nil.
Qed.
Lemma modulus_27 : prime (2 ^ 216 + 423). Proof. exact prime_105312291668557186697918027683670432318895095400549111254310977959'. Qed.
Lemma prime_239' : prime 239. Proof. now apply (trial_prime 239 9). Qed.
Lemma prime_487' : prime 487. Proof. now apply (trial_prime 487 13). Qed.
Lemma prime_14479' : prime 14479. Proof. now apply (trial_prime 14479 62). Qed.
Lemma prime_25074326789' : prime 0x5d68bdd05.
Proof.
  refine (check_ok 0x5d68bdd05 0x5d68bdd04 0 2 [0x388f;0x1e7]%positive [
   {| s_r := 0x388f; s_c := 0x1a6cbc; s_list := [0x4d1ce4b2a;0x155c15d;0xb8e6614d7;0x4c22714bf;0x9dde5be2a;0x144e0f0f2;0xf62f54;0x730caf056;0x7ede4fc0;0x2922e087e;0x9276c05;0x4d3be4dbf;0x8a830382;0x4618cf6e8;0xb7be562ab;0x2bd99;0x0;0x0;0x0;0x0];
   s_u := 0x1d00389db; s_v := 0x9b73aee6 |};
   {| s_r := 0x1e7; s_c := 0x311a25c; s_list := [0xea39e0c5;0x53494c2c9;0xb9f9428bc;0xae9c2867;0x41c2495f5;0x1144d735;0x167c379e4;0x379c655f3;0xfa7fd1;0x6c8bfe06;0x160751ff0;0x1b7ca4224;0x4b376eb39;0x5a0bbb852;0x6757149;0x18f79102a;0xed567e11;0xd104ff44;0x188b3be2c;0x5ca38bf1;0x57b3;0x0;0x0;0x0;0x0];
   s_u := 0xa43c0aae; s_v := 0x745eeb2d |}]
   [0x5d68bdd03;0x137a48aa1;0x6f3f9a6bf;0x42cc06d4e;0x1c1eb0f52;0x1c699e992;0x1c6e2979;0x1dd7122da;0x132aae295;0x2e5825ce7;0x5a98b038d;0x9eab88b88;0x406349e88;0x1fbff75ad;0xa6372cef9;0x648e44736;0x8d4cf763e;0xaec2aaaa7;0x8330983c;0x1982914;0x11d467910;0xfd603a2c;0x68581811;0x7b0eb5fbf;0x118c81;0x647a7b1d1;0x8a7083fb;0x1db8905c;0x1ed00e701;0xaf6;0x0;0x0;0x0;0x0] _ _).
  - vm_compute. reflexivity.
  - apply Forall_cons; [exact prime_14479'|]. apply Forall_cons; [exact prime_487'|]. apply Forall_nil.
Qed.
Lemma prime_1955797489543' : prime 0x1c75e9d5787.
Proof.
  refine (check_ok 0x1c75e9d5787 0x1c75e9d5786 0 2 [0x5d68bdd05]%positive [
   {| s_r := 0x5d68bdd05; s_c := 0x4e; s_list := [0x23fac4d089;0x0;0x0;0x0;0x0;0x0];
   s_u := 0xcab0cdd2bc; s_v := 0x3dcbcecc9 |}]
   [0x0;0x87cd049b81;0x13c2b88296e;0x1df846e4c0;0xba2dc81b8;0x56b05f4038;0x40cf0652cb;0x9a8244adab;0xda18d1951;0x75d28e78eb;0xe695d0e76a;0x15eec060b9d;0xab7cb24cf0;0x1e82408920;0x2f5ede4ef85;0x31dd55c728;0x251e227d02f;0x1b901b55e69;0x198094012e;0x590919a431;0xded191b7c6;0xec6423ef77;0x14d7dbbc22;0x2846fab45e;0x127b4d2fe46;0xebe751d39d;0x7eeb1033;0x1753e533221;0x75329f323;0x18b10c65fef;0x12223359f31;0x1a8d509f414;0x260530b6597;0xc14393907;0x5277315b8;0x8feb;0x0;0x0;0x0;0x0] _ _).
  - vm_compute. reflexivity.
  - apply Forall_cons; [exact prime_25074326789'|]. apply Forall_nil.
Qed.
Lemma prime_9019956665310262322805997' : prime 0x7760cd4a30917e37c3ced.
Proof.
  refine (check_ok 0x7760cd4a30917e37c3ced 0x7760cd4a30917e37c3cec 0 2 [0x1c75e9d5787;0xef]%positive [
   {| s_r := 0x1c75e9d5787; s_c := 0x431cb183eb4; s_list := [0x181a1b181c88e1d0ec9e9;0xdee4bd84bcfd71e45b09;0x7b19bd211ca1687179a3d;0x47c0682c2ae6ceb4455f5;0xd568a29c4945aecf029d3;0xe73bd687cd0b54326a58c;0x24e93ac39694d81dc439d;0x117008eb05c5c43d7b4ee;0x7f95493c893b0389312;0x1142b39f66f325cf822de;0xdd6bbd344374e4917ab0;0x83b1fbe9343f66a563d56;0xe0676977572edbb31fca8;0x90954a3da6e1b5d5bc61d;0x7715f2b54533a24f9cee0;0x3d654eb9bc46fece21145;0x144669a544152281a275b;0x140995074bcee99ec901c;0x1435b34f2246a994f0ca2;0x2dc1f802fd7058aec160d;0x3d0fc99a606ba6096de6e;0x36bc80d633e0755ad7078;0xcce0d6f395c7b1781e95;0x5d247cdbd3183a5f2636a;0x478f163b64afa410fa069;0x99e67310a1546682d77;0xf49f7f255f9654e17952;0x204f3bc26c48027ec6c2;0x3b0cfd1970000d3715b5b;0x3f1064066a73efc57405;0xc1e89ad2631e52c754a2;0x53381c62b29e48eadaca8;0x2e4616a5fe40b458faeeb;0x33519cdb69467b896770c;0x6650246f1728e3028c462;0x893e9be33dfdc;0x0;0x0;0x0;0x0;0x0;0x0];
   s_u := 0x5ddadbc2ea5c7b20cab75; s_v := 0x3b5cc1f3d82da2b6a0c85 |};
   {| s_r := 0xef; s_c := 0x7fde95328bdb09df9d4; s_list := [0x11b729c99637880244020;0x710ff106dd10bab9fd63b;0x9163e877c2cb92e4c06a4;0x30a1f5e34ad0da0e6af6e;0x27fe3c0072b1d63938843;0x2b89d3ff0bfb0496e968e;0x6cca67793ebafca276e42;0x627dc82c82c6f12091900;0x35a527add1de4f1a5ff24;0x31f85d4ec59a1dcbe44a7;0xdadde241a68cfe6ed13d;0x70379351928f2ffabcb7;0x1694b68b52a24c190716d;0x111d0baee68ef5999ba2b;0x1c6004276709c5164dc3f;0xdc6dc4048cdfb7696d965;0x56ff04e5c135db7f72078;0xe6878164d3d0296801e1;0xac2d58481496d8f128bd2;0x6b9283071e2a531b03a4d;0x896bf817d03a1edd110d5;0x5939e295edd37c9442904;0x4e60b6e751b5137cf3e0;0x6a0c9ed6b4391a9bec6dd;0x27cdeca4ed48b30976e01;0x1ed859f29a97c0d3117e8;0x180c1498e7016a3260f62;0x563151fd7b9a3c404f42;0x47413a99dba1b0d0ded;0x54deaf9d5d1353108d788;0x671f70be01c9ae0fb1113;0xb2159920c4ab53f13011f;0x289ae253f568e0ad6b357;0x5d4df395daaa8b03f10ea;0x1391bf04674c508617b1d;0x14ea53d14ae993b2ebe1d;0x657228912df5bffcf9dcf;0x1865670334f4eddb5b285;0x4f28ce6a21f1cf61ae92;0x5c749d823fc4607ae89da;0x3c781bdd70acc17acd76e;0x456cd2ed8d2ce2ee8b292;0x6a643db890d23f12032ae;0x1b399af3474be22b9799;0x633c780f9155899d94f7f;0x5df450022c4b697c0e1cd;0x1b301a990d7f7cacae50;0x1eea03e67aea72c9ebe;0x652350492c8b0b9fcb503;0x7557b2d5c2d9dcfcfda21;0x5ecbde87fbcbc89080d08;0x682d7fde6936be057d15a;0x791204903d66260d499df;0x202c8813eee33f7816e36;0xc8c58fd29e53d09b59001;0x3c6df14d35c679fdbb20e;0x5521c8e5d871955feba;0x6a118c040d621747f47be;0x34fa86332ece6b16d1016;0xcd2d14c37027734d3e3b;0x2442103a9b7909519b43;0x4115282251e9fdc87c71e;0x2c0918b7b4eb2a4a960fa;0xbe387e68a125bee5daec8;0x12d9a01205c21b3d932ec;0x4ba07f98a5048385e1d6;0x62aefcbc31be209530962;0x7dd62f325a234e7e54ed4;0x1127d37c67bf;0x0;0x0;0x0;0x0;0x0];
   s_u := 0x6a0658910a4f00951a67e; s_v := 0x5f278f1d917cd3f1540eb |}]
   [0x7760cd4a30917e37c3ceb;0x4e7fc8893994f14b24024;0xc3be34dbc6a0093a4cbe2;0x17f71d0146b1a7e2e70eb;0xbfeff806bd8f7d42e726;0x497e2765abbd2b2fc594f;0xef8a26b46254b553ddee;0x784f8f9221c2894d3953;0x668f8d080f2a0c4ed5c6b;0x1b132e34bb8f51de12a;0x7245ef5ea48f6744e7602;0x127996ae4b30cede45b0c;0x89ce3cedd2d6561cbed9;0x56ad521a409d47858d44f;0x192c0c48ca9a0ac82e665;0x113adefd427bc7fd0f2f6;0x130c0d76f03214d8596c;0xba6a494e1da6f2ad4558;0x120ba8f1af1e908b09903;0x3d8aa0a32f01aa24ce8c9;0x2fbf6e9037c8ae72e8966;0x58588e7a5d2859b63f18f;0x8058275e64cd254622650;0x520ed3a9ce4c8684725e6;0x19e789eff36140b210659;0xe41bd929dbea71871afa1;0x4454b27b4bc655dae7972;0x1d50ac8ba1a66d153090;0x7b32bf246e37c55ba17;0x10586007499ffbbe17a6;0xfacbea2145f95737dd1d;0x82fb36af286f329b1cf73;0xb8250fb560362f2ad16b1;0x183efd624e79a02b58dae;0xcb0ee7d633b46ba74858;0x1e67a998edc29b7318372;0xd58b344fe6c107236b65a;0x19e9393d0e70f7c4333;0x56c80838f15d3b592e08;0x7112060d2466ad97469da;0xc05913abd14bd84f2b0b9;0xa90af55d9c1bcfa652c4;0x3b41a01d99c9520154954;0x104724ce012ef65d46915;0x385bb75e11a4bcc5b3579;0x1020ef7277341cc20a809;0xc8651079a19f84cc4f11;0x1773e14939562011d8b4;0x70ab13a7c2fe20e92756a;0x5d65d51106b1362a9f3c9;0x74df7b6e08f497228a4ba;0x3d6013a7c28655bd5ee4c;0x59038648489859f6c0f0;0xb740d8f631e8ace6621d;0x363f8e754d5311203f35d;0x417c84f9678ca2439ea27;0x3ed8cb1d53f7203866c25;0xb06ab40c3b1988923d4e;0x10a31532f559e7a070e17;0xf79c492abecab610e6db;0x503b24ecd380b54470d90;0xaba4bce2c20f7e220150;0x731b6f68ddd5a767727b;0xe650693aeb510d51e812c;0x1e2d460d1a5559f9b4436;0x438ae598577c4d0e45e1c;0x14e48e97f1762898c38d1;0x790accc3297f55374039;0x3324050e5862fbc82dffe;0x61a1147e224017d0d3a1;0x566a5262392168fc7ceee;0x2471b8df5117610e25a6c;0x2cfbf5bf9bb81e6366fed;0x138d89a0ec480ac0146;0x760613af5bb01af7a80ff;0x42f56b26a08f261ae1e22;0x1127d37c67;0x0;0x0;0x0;0x0;0x0] _ _).
  - vm_compute. reflexivity.
  - apply Forall_cons; [exact prime_1955797489543'|]. apply Forall_cons; [exact prime_239'|]. apply Forall_nil.
Qed.
Lemma prime_7822192614862953191204117332507333' : prime 0x181a9f37eab8c2063a93d1d363ac5.
Proof.
  refine (check_ok 0x181a9f37eab8c2063a93d1d363ac5 0x181a9f37eab8c2063a93d1d363ac4 0 2 [0x7760cd4a30917e37c3ced]%positive [
   {| s_r := 0x7760cd4a30917e37c3ced; s_c := 0x33b09154; s_list := [0x33371f58205a80b633187ae2f4f4;0x3c979cb84f5cef486c17a793f86a;0xb713e53fe3f323fcf1cd7f520eb;0xce4b3e8b6bfd384a279e3f809798;0x6a16967fe8f0bffabd92a080063;0x133f25ef84da6aa25337fd0b21e28;0x89a52abea097b55c2c387044cecf;0xe694fa5f18cd58a789035c61d8da;0x2a89ba28a053ae4764f9a9f352558;0xff58ab5c35992fb5042a667d71d;0xb44f312a9b27bf8ceabac3e866b4;0xeef6f7e2ee1297d9a9a541e5179;0x18a2c34a755992ea42483889afa53;0x43a8a430be32e038bd24024a2ee;0xd97a594e9ec1cae96a122079032f;0x81ddc9b378a2f0f9941edeef0e39;0x5d5defa8a807060a832f123f8ce3;0x9705fe9132163b06805e9f193fcf;0x89969bdf35e9a0f3c1e76bbc890a;0x832ef28d43f2e035a9d92377235f;0x25cfe6e3c42fc1d1bb6bd85790c19;0x1e869df5a34010a013d45d62a73cb;0x2a7b8afea35ded41a54f681b;0x0;0x0;0x0;0x0;0x0;0x0];
   s_u := 0xae043004298e75b3e0416a88c78; s_v := 0x96f2a7331aa7ffd3efdaa295813 |}]
   [0x181a9f37eab8c2063a93d1d363ac3;0x13f81c0c2867e449151cbc28e7451;0xe505484e8a618e03827c4f7edabb;0x4f459ac56f9bc2c0899fd5bcd739;0x151afcb9289e556cc642cc4591bab;0xd11d0dc3d4d786efa60c78a3e7a3;0xcd2e4d29fd045a428142dcff5290;0xa174ac0c8a74e39bef715e14552c;0x17428962beeb6c0a185ad57c813e7;0xfec06df9876afdb25a55a7f7569f;0x365f7fda60ea2704199179eb4c8;0x1f6194ba6bd8aa0832370737c401d;0x1bca13f19bd9d906db57576c8bc85;0x2e1578a25af452e14cdcee95fb8d3;0x12c86f384f188785444309802e97;0x488cc5d1a7a7b7f942cb518a68e9;0xfba2d7712cbbb29b4430b42c775d;0x13ae8c906dd9ec300f7fb472790;0x16ed3bd0aa9a3ae6816895525ef5;0x11e96fc74581c5ee9cdde51c17c64;0x20107a95db19259fcc8fd6381cbc4;0x9602c6d43411f6c8e2b1642237c2;0x1796a2bd14ac8e3481746587ad8a1;0x34eb4369ee17df118061d81d3c15;0xabbaea964cabe53eb4caadd25df8;0x9f292fb4d819ec8d51450d1d7d5f;0x13d7298c5bdacaa736d4d7f3b74e0;0x1146fc0b47bff6284d5f1ecc722fe;0x6b26f4c94b4d0cab5f8e02b19e14;0xb6b757f90169446e7f0e6b4cecb;0x1201e682360361a4d9177b661edc0;0x13aeb6272fc33aca1c51347388f3d;0xbf5826817f9c3ac464625d2d3028;0x825b235e3ccadf7a052d3a11c62;0x2426c8f854679907e33e137bdce32;0x4a082482af34a42458b98a28b8ef;0x12d12ee3577fc4cd33a45440c5d6b;0x24bd124e7b33fde5e0dbc4ba8c71b;0x443510434e33ec19f30b4feb9097;0x150b869a5c3d2f5791b5915dba043;0xf1f7092138548ba2e93a59e4ea79;0xee1d957cf6a53324d672edc174ca;0xc111775e77fa6ec3288f31dbfc80;0xc3bfe3ac347fec7e7a5130e9db71;0x1032d0bf84617cd89d69e6a705ad6;0x15507ef9db11093762206df5c9162;0x2e9d63ada401aa22e6b20571bee5;0x459275ea1813d61cdc88acb5185d;0x18203f04b9e16a7a9d8692af752e6;0x5b9624322eab2c0337e5a4c785b;0x6ca609de96438fdd2c75039bd8fb;0x1596b52eb26690ede4f66d4e7b9;0x14f8ccd40e68e93ba5cf55867d6;0x28f3c8c551946b1d9b5a9dda9d134;0x19bb938a887a19aa884230c51bc70;0x7882e9b3ce757359ed476d52ec1b;0x4376d1ef0bf0f1a0d3ba53c7dff2;0x441c8e04419f6a4a01f7f21c5516;0x2c47eae47bd96c9103cdca785585;0x5522c5ef26857e59c9208af16b2;0x445daf6e1f23a0877b91742e306;0x15cd5c33fa7bd27b8b7f258114;0x2c698338ef3ecfc089eb3abc0ea4;0x1024dd3723bfb36d9ed3eb225cce;0x4c79c45606027440ab769a115969;0xf47b0e03ed668040326df5b91ce9;0x1de682ada975f13e9c1f00123a79b;0x1df59eb3c3289f26249bbd18a19cf;0x297414da6185c8bc9b85832bbb45;0x16b66aad9aa809c652a77fd12a946;0xdc614d8714d89b1f293aba45fbc;0x103c1818ed9b56cf02755ca30765a;0xfed01edfdff811be4d8d0228fcd5;0x131eb9d493d3069f35234a482a053;0x3f3f961d055ffcfc948c0bf7dc50;0x598277b0632b793d62ddb4cf1be7;0xecf281589b9116ce475ddc1215b7;0x62ffe4a22a1e0cfd5d3d90a077;0xfccd97150aeb4f854b6435401b2;0x949b16ed5ba247e58ee74a07cbb2;0x2baf57381b22d6607f0236e9ac39;0x2a11cfec5fc5dba2132c5849bbf6e;0x12d507da70a11e659f0836d4e7839;0xfc34eded215ed83435c0b3f976a1;0x2a313bd691dcb9cdb8394ab892c8;0x2159b7abfde1573e9afa0b7d5b9a9;0xa3e6a3298a9fc9487e368edd4573;0x7b58a14012dc4be4e8038c43fb3b;0x9c9873b2702fe3111db4b539a5de;0x2483ee217738b95a4117e042315cf;0x17c5dcea8125627a5be05c478ace4;0xd0b90cc591a5a3f6e3fa261bb2a;0x1d8daf90f98be7f0b81da418cfca9;0x2575ea4de41a415b4091a457a82e;0x147e04f7d57351bc4b87bbbca2179;0x1a10856a34dd71dbcbafe4a0f1cd0;0x2dd85f6059326400455e71bd2244f;0x15d58554d5669f07d62419151e631;0xea4e29269549ab9d23bc5031a2ec;0x537ad388ce5374c8d271979e5d9c;0xd39e98ffb45f3b56a21d9b57fd;0x3a4cdfa1a8d00aec45827549cbe2;0x176bb1435560c8b25fee2358d3ad4;0x415d2ea979ff46b634a35555771e;0x12ef015deeac602275c7b32618ba2;0xa9ee2bfa8d77b506953d;0x0;0x0;0x0;0x0;0x0;0x0] _ _).
  - vm_compute. reflexivity.
  - apply Forall_cons; [exact prime_9019956665310262322805997'|]. apply Forall_nil.
Qed.
Lemma prime_6047339516873734574805023403658385355727632408631511385014773' : prime 0x3c3659282a5672e696ecf320950531dfdbe83c16987f26281f5.
Proof.
  refine (check_ok 0x3c3659282a5672e696ecf320950531dfdbe83c16987f26281f5 0x3c3659282a5672e696ecf320950531dfdbe83c16987f26281f4 0 2 [0x181a9f37eab8c2063a93d1d363ac5]%positive [
   {| s_r := 0x181a9f37eab8c2063a93d1d363ac5; s_c := 0x27f7e5ba769d55817422964; s_list := [0x21fcdc9b499038a54c8124bc4aebfd9898e3aeeda9f87458e77;0x7bebacdff9a22cbcb3ab31c245af5405bd0bd0eaf806a90902;0x41f6d879b4d8fe42ed3d839fbbbd8ab660e692ea947e3ee4bad;0x4f4e201416b92e0d96195bbdb90adf3e984bf0675db12b9b;0x2b7077da6b2cd906186982ddd924b95198fe1bdb92232606f1e;0x25f6fb971eae55cd9edd9e733f6d14102532a8ff1b7befda09;0x2dfbd05848b5efbd30e3dec599c1ed93f6aba6f61f3e5f2bb89;0x7792d5ae04157a410980e2a155b18beddf238a3c6eff4292fa;0x77b6230d5d92a1ebbf7685e7676c5c33a5ade20af884f925f49;0x2a127f9d11fca9598a5e1ff340c6804c84cf66d57d5774e6f83;0x614ba0575001972350b6f2fbcae71d57da3084599a4647eb;0x6ddd25cf69cc808d3887b7d74baf0e596b6ef072de45dba5022;0x329e4f2b0686837793a0947854beb1fa19f050e9fd7d4ff52ba;0x1e0019c4d5548f5179111ba617216e1b10dda1ed8e9fbaa1aba;0x16d2dc6b527141304935659ba0b266c04ca665f8df5c8fc6cf8;0x6365f29bf7b48a1d3a5fa023c86a31fecb5f125f9402e3c251;0xb5aa043bec44c97c9601394bdcdf09b6db04c7b2870c634a53;0x97e7fe0afd3b54d1477d47ad08c0be4876ffc6188b36d04889;0x2598fc5028e9cac58457ea415bc114ad90c9aeebb954e92456;0x3a7b478a410c5b70d238a71fc4360f1685b20e530cdf2497875;0x2551f149ee5b8b3bed32ec788dccdba2f909d742828a833ac51;0x3452cd8768a41dddebe0b48d8d46a977d68bf9ecf8dcc208963;0x71320ca6a3192854bb6654050c93c7327212da720a98e4f33c2;0x115a1e32ee392ce96bea6c56981b5fc55e9726dfef6b865f7fd;0x446bf11b0539ab679602fd5efb4ea4fae5ed2853e0aea0ca7cb;0x1845251282e2a5e1de8a7f8e5bbbecd349dcebe6a9f2b21030d;0xf160f001df9330e1fc587de808e66e11f34bcfdd4c82d832e;0x1ff1d02c39902c2e367adc951c79eb3ac18128d5a1ba960d173;0xbd5617da1e80c3649976d05b4e35715a94a815d2a68d3400e0;0x2ca5e68dd7c78e4bfe07462c27a4e1f03640650022abcf9c9df;0x298bbb1786a1b679d3421344697d511b3f8e95417fa2e1cf3db;0x18c666b2ce26baf189839f2f8c61bf2bf4e7c718ab55fcf568;0x2e3f0f2bda5c71d0659b07448fd0fbf60bcf63248112a58ee9;0x2709c01a1ff4a3611148354ac834f28e9cb2ac924f31cf01c3f;0x24daa702d8f9c88fa49c6bcf28cb3a5ec2e510465d4c5086ea2;0x24a514190266e3402aafbdd6deb1d0c6090e843b3a0685e73e;0xf770ea9c6033da733ff945051964c3b0fc4541618cc5a0442b;0x323a573e4984589a22d2763d99cb6a9994a63ad9f3f6588e14a;0x1f1b7c84fc7807fde62b2a42e580d556aea53457f074206d3ec;0x3bc397b5fd44a49feec7655174ad5c680cb8c57e9692b27a756;0x61ed3e8b88254c311c8addab462140ab01c0d7915cd48021485;0x3bbdafd7aa64b7fc1334879672ec6804e4467274563f7a9160;0xeea7fa6b27b78ad766f66ffa0e9776d7b2fc6d2ab5fdf20c6a;0x10bddda0f6540a4a78921d26e8e58390f5a8d8ed360a907ba94;0x6567ceb7802045b29e9e4bdddee27288c56a957f92d51626507;0x56696f516d01d478a893af498b3284277dd06a40b93eb9ad65;0x26fb803ca7c1f0456923aafb691b3a6929cae309bfaf936b32;0x57c013ddd54419f4a93fbea0df827d4ff524446667be140aa0b;0x1796594523c42f1a683caa75d4bf8cc0df19576683a5e395cf;0x308cd3226a2553ce256c7e4df8aac57cc4fa78a7b24302ef36a;0xb18d0cde0fc0825a5237ef9f2498df3826c0ad06386893521;0x3c649ac96478bb1fa13d2f9561487f01a40daf747fe7c3bf038;0x21874ad7ee9dda054e304c88ccce693129014872411b847c594;0x26cc28c65e8426b92f5b5853fbf7878e784fdf98beae9cec427;0x3ac527b2713b07e80101f7421d9117b47967a08240d50108093;0xfce0405ab1289b35d285d3248f5dd856c6daaea90bb1a7551b;0x1a4be0db380e4419cfa0a2e06e1d5f1374f4acd427360c67785;0x62b5f1021e52da3474d44c6366ffd69f1652177c71fa4c800d1;0x2f928a7e15278b17f3f1fb9567bd6b507b1bbf7e91239f68f7d;0xa8b38594ded4e0d7f7d4c9e534dd46b761fe71995ac9cda5b1;0x20c6a52d1083ae821a0c35150df8ccc295c4b7887eca5fd7b9f;0x3004bd5094fc1a67e884be64222e9c801f816d5cffddeecebe;0xe267a6c19171db09c76c851d38e05a2258d63c6678fc94e9;0x8958a0313301d23ee5a8f9d42b23aff367410129d7ecda8897;0x1870997d5fa32729a81e6438e69b57eaaeec9fe6978c68f5a9a;0x2d47c15de97e072aa1f9f15cd382ba948d36e939cc0d045b3f1;0x24a7c9476f49d6964d4db54c706ebde58d4582f5cd3ac543be3;0x49df004c43bd3ed5bcf47ee1bd82e2a4ce8c230d19676b59d9c;0x2816965d144a1737b01464b94c5bf7fb6daa6f7710691897090;0x211b3a855995a0dc619ee649e3a5b7890d0c8e0877c64a8b163;0x5853cbdf638739835fa65716de8f223af846d991a7d4a974be;0x1d183224abf5b03755f91a12158742e51c031b7b872e75cfa44;0x8d4e1014f36180df5c90a8870b4dba146096c2f67b9c2c8616;0x169f6b382cb85d5247c2aa145fb45246ba44c36b05cab62b;0x4b2bee967c339fbd44ea521f8b558ab15c654a3a13ef2022354;0x3b9ed87278a7f0af0d6434f5420dfb08a0c5ef07b695b862636;0x102a90507a65ca88a7d0811bcce8569ea8b43cb3d130ffd9a09;0x6ba46275669f8f2a285fc5c6e303a525e25b02ac52da65bfd4d;0x1f6f0b676879d24e9aafd17f0dbd990589f55d557e060f9579;0x169b21cd81af74896672d6201092250161c6d2971dc12dd9138;0x786cb25054ace5cd2dd9e640ce4a63bfb7d0782d30fe4c50501;0x220352ffffffffffffffffffffffff;0x0;0x0;0x0;0x0;0x0;0x0;0x0];
   s_u := 0x2b5ba2b7c01866138d0d507972f3da2d959b8871202544b4ea4; s_v := 0x18d00de4086db051829ae3703dacf9a621093657a071332c427 |}]
   [0x3c3659282a5672e696ecf320950531dfdbe83c16987f26281f3;0xeb31447ddbbdda0f9a616efca16745456967fac7f8225709e1;0x4445faa66fc089a30a1529ef05eca4fc390ab12aa6caac4249f;0x354fb3755e52c53d931607aaea5f0751df38e17f0d93631e5b2;0x430552bb96db5c3af427d34c27665e7f65048fb860c4f5a2032;0x221a6269af7fcb13b97a80be01b88cfddc2acaf46c499ebac7;0x35c9a620499cbc3e43f781bfb0650b3587f33c99e3328b4b91;0x4288551efe25d2afbf76cd10b470a65f57e08270a94561e1e19;0xc61f4cfff113b8b3b295c6d5226bee3f9a98821c505224de4;0x2979d88ab02076056ac7ce8204ff17ec1e82120ab4ffdca067;0x2eef9c03c5bda529cdd0a59cc25ce216d9888c32c31c66f116;0x35df5df59e5affa49c0ee48082ef4c44ceb69f4dcae309bc18a;0x15e3c836d81e3f10d5ea52a91152a94ca2ed394e8ffc085f59d;0xe7747f4c79e7f83b2ead1cfa11bd9bc3bb59d34dd472316687;0x170b8b1961a67ac2fcb258b55b6bfdd1532669e054e02007c0d;0xb91b16e0db892497857cc79fbfbef66e60410952aea141d29;0x18181fcafcf929344e9e5d8999aa5ff2fcd7bdea37236ea3ef3;0x3efbcfd40dca48d9d7f825f861b97fc8c6d35b9ca7762a3cc3d;0x15a30fffda816d1695967f195418e8bc8a773f44be6f456a433;0x3574fbdbfd0c8d7ae1118454d68d82715f772c8d08b40dfb3;0x160276a730bc77d63828dc496de07a16437254bcb54e5b3d2c9;0x404dfa9bd1f28a008a468c005f4502dbebc6d97e2e62fb240;0xb0607ed1db3901adadaba013e035048baea6d735d05420226f;0x17d071ac6b2acf84010aa37c7dedeebfd273207cf5d1386e18d;0x1f4be67747dd7851be738259620c6996af3c84592ffac58bddb;0x46996b0bec934d46a044532ab360d26bec68bf99b5427b12b9f;0x1527d7167795e72e33309aa821a076f09f68d36d3e9f56c82e;0x68129205148f3bdbad54a35ec5827f59ee5f56ec7130225781;0xd36b8dfcf0a1e02eb5752319e8d70d94a604f130c03849652a;0x41067ede12be3c9564ea8d28a6a99ebdedd4d7426ef4d324b6e;0x38a3d08282a04665974d9deedc73e244d00e3a917804e5b0314;0x3970689606065af2e70ce41926c1429ad124b7c028218363f2a;0x337513a33d34e2a897d67a443fce92811ad4da9b0e3383db85c;0x604ac3a2278c6b4144966f3e5c39bb1dd795d436b32de5f8260;0xa083ef6b05c42beaf73ed8fffc4d158e8161645568e605a8d;0x2ab0966f5bf38bfece301b78abf9f764baa35eb8836ad3bee8f;0xf2dfb1521f958823a8893dcf5b06618e9ca574eea1a566008;0x3bf7c68c3565c74be7a800e16ec79ce74dac3d0a30925f32;0x38d8e85cfeecba2c5d722f281f177d6029f72289a0f2d03dba;0x5165bc1869cdca0792f3e37989c6011459fe01ef23f8feed063;0xa57eeaf299f8fcd2037af0c60a32ca03461f207a345507683;0x1022e02df467dc1d5dece0cded7801aa1e80ea6008a9a12e5b9;0x7f8f018f16ded7d62b70c31f06a9b4ec2ca347b5d6a74d7852;0x4e74eeeb7892b67a1c487e170a90d8f16e06a03d9bc39b528ce;0xb27cee3071e5ee26bb3e33aabced07f34fcdc3af3ae2bfe75e;0x4fba02cc0a0f785a33f16f0b8d1864e1be50ec4eafb5d34ae27;0x2e15656a525535e160f528f0a4a1b2ca89dac3e40e77b4dff02;0x2ce4cf9f04bcdcad8f0d95a9ff29b66b3292541a8295e39794b;0x49a4999985a71d4e30d84b82ae9e3b5e0470289b65b1ad5113d;0x2bb75ce662bb3db6220174f45b1b4c39afe2b6517c0ef52c206;0x245f46644a5be49600b0ff20f066d3e567dc15106206633fc38;0x187471fe70e75990f1b919292ac0383dfaa0b532f8ce96f3ab1;0xe44917d621cbd622c457efb10954108be0ad0aa6e188019bb;0xd7919182cb7965e91b3d4134f23ecc7ed04169841b9389b5b7;0x2b3a4745fd77f45f4fa288667bf18922164038648bb2aa49c39;0x3bde16ac42d80d8f657f576446e02a74f41a8651ec87a7b76c3;0x1054fbc2307e1667b61e18aa8d62069bf18afdbe751ef5a7643;0xb6b8bb6a4ea0d7dbd301432927d5081f63b5b63b152d5f480;0x281835bcf3ede89abef5cf9a6460aab8b7fe41b2b5b8105fce;0x284a5c9d28be62500201aacc1480aff874ce933a19a15db8715;0x2724e17beec0bbdbf0bba13a1d299ad9fa02b3ed5c02a7ef;0x379365d4d8713e5478a12911b2b16b602bc59fb0eac814e3b58;0x37e410b2eab739906ba783b76a567f2adc30a1b07cd5fbd0058;0xd75456efb14636a6ddc86c1e6be0c32461187ce7af8718b277;0x1c8cd581348c0c3cd0b2075031c684b5c63896e7239838bb3dc;0x4eea4a94fb0cc1c78adba3c8480bf15050ed77d58b1dd122e2;0x400c1b189e68d3010ede9f46c761a596a6b0253c5d9aa0ce479;0x4c89d54bed14879654ba30f3e6b4ef718fdee46b04065e205f7;0x30a398172b1543f4dd28630f4f167bc4be8887bc45d756a50a1;0x571095501cf3f3f0b103063d20e598b73b118c6a594cbd4b5c;0x25c1a2fe441ab90cbfa1029fc88b02181cffee27da7188e258e;0x11c620aefe01b1b9b9e26bdc6dca72dc5515bb081ae7aa773c0;0x217768de219a72d987ba594b4185f21182fa9cf89da70e80e3e;0x2f97ed2afb201cfbcb97f5af1338ca754b200b65baa3cea143d;0x334889620f6c9eb9af281d79edd0e0b98b2c559bd6298e1d379;0x266721866f3d7ebcd575efaa11a20bdf64a50badc36a7fe4b4b;0x5d76c6c7e80f4db5926d8193c9fe7dc0591da1141a01098f418;0x1bee02cacfa772d7d3b073984ad986dc32c0027d349a9ac4a3;0x28a6ce85e7dfd013a67b4983dae8ecb0bbb34dc5e683c303b;0x4606dd619da5c89d6c7b7a1fd278bdc55364665d2681da5ae7;0x29abb88d8d9aad838b3f9364bceba51856367cf78687330605c;0x1b8d07067d5e8177f0e820a21559402c16a90f2b77d6d9ecc5;0x504b058036370d4279af894066410d83742620d88bdf62abf88;0x71f9e227d9ac08bd440c7aee1a7078a55a4760da79a2fce975;0x1266ae0c1aec65d8a215ac1886411fea5debbd5c41ab52f6997;0xc6e1cbccd93c5c3dc04b1f17c865fe2d4250335498a3e61817;0x29ea62c378876490c4f55530183a22864553e4723c6b49f7aa8;0x384854ea8bc31c3482bef3f24affe856331e71cbbc65758ec74;0x2d6fe833912fa6571b798c864d9706d4b3e8d09df4fd6c05745;0x2bfca7fb63a71d4e50792aefaf8dd68fce0c073f5636bdf009e;0x12ead5c5807c17e9d3217ee20b6e1c1a39872f77a6dc587c8d7;0x6bef570bb74929ee402d48584bbb9620d3aba8a6079656c535;0x298bf4ad9b7e781b0e3ae91c8aa9143e1cdadcba5b00ad32f;0x250d8dfd4342c24b2078a5f627aae857b46dcbfe378513d2a30;0x102e468919e29cfd815a0c17303915ecba0a5434bddd76f873;0x18e08f3d1e0eb2addc84d02ac758296f90b6bc3a5f2257752aa;0x19d54094b2a92a015d04888684d0b0782427ea12ca96a7e21c;0x1b75dddebb2b5cef5e18e9eee75497e16cbc27169198a411491;0x39c0ce94dd4e9716147fce78e4fe236c135b13718e86c0372f;0xf0a56b72e9ce158e3705107717cfa478680f72f2287d50016b;0x7f1ea8e4727857a9d9a158b47d8713670a9a868f59dd28db;0x3b472d7bc1ada67f335e4d9ea08e595fd864b89b13fc32e09b8;0x6e59faaab9a9372ef88a9eed5e3c8c823a145881bf2d6d828af;0x1587e1b4a258a1a88bca0cae8718e1e905a5271de0133cdf2cf;0x17ddfd2325271e1478d420563b6f2831e8f4f8d79c1f551b4d4;0x236246a892a1f080ea3938a7fc264ff7c61340a924ff1273c21;0x1a61284b7c8be1ccd32a4c9ebecb470177f3e6c66f8a7f905a0;0x333342659f40bec58f7b4a3ee5597ca41704d80aa8143310f7c;0x54f9bac57947ba7f39df1ed85894facc0044b42f0c61bf18ab;0x4966fc7f2abf4839db747d8c49ae3e392fb40785fbc1bdb5b8;0x1cfb4c67222851bc370e22122bfb5ebd5519e9dd921b47276e3;0xdc5a205211ebb3032fed0e684711a3e2e04fefef212678a1e8;0x757b75241fd212244fee56832680124bb20194f1f08e192383;0x696b6ccc3d7686da8d736a1ec51c53286650130a5d3e42774d;0x2544541fff6f939932ef6a35971f56dbe4b5ad733777eab671;0x205596a75cd7326886dfda48cdef74695ff85693a95cb475755;0x4c648e65ad4b369f6193bad8826db5130e241d7437e6e60b1e1;0x1c2c4a1189dc198830f5b5463a5f9742943fddfa6935336de;0xb3cbc05dd246b27f36a6681252c62d4feec7eeb12e8d8fa2;0x34f4e59a1038805d0860a49c0773421e989a876a7021c5f504;0x6521e8dea50ec20daf22bb9b9b9b3c7f18ce2b7b707a903ec9;0x6d5c34f166e01aeecc30b0dc2a4a5c6c32a6e62548a841c8d40;0x6f40e28df978c791a453fad608530b899a389e9d84c94e75fc3;0x76f4aeb8bff9b81b87f4824de7698d73c9e436fa2ec9c300a43;0xc68ffcab6e7bbfc69e623d4a8f3968ebac2379cf49e6bceec2;0x3a94579457ffc649f0419fdd105e79be1c3f425af48bccc803b;0x4bc5489fc3e029c67ea5f4e18593697784da5e5b203d5a4e31;0x3ee2f05e045a6c22f1dd42fceac4391c23d323cdb9b3b88618;0x264f1630708936431f69fa7d04ff3ebbe0ba2b7600436814d73;0x2288025d2a8e4c06807144ca7b1087fbf08da2caafc132b41ce;0x14b3df4965343817145234b3edd5b8ef0dd3aba88999844262;0x50beea2bae4cee88cc579d262c0e08956f3e5a401f8b8496abf;0x1fba040272dd785ad9151ebd64a2b315e2be690b93092940d96;0x1d6a1a89dd4efb3283f37df7b03f13a9eed23183e4acfd249;0x6607014afacb425345ca800590f69ec5ac5975451b400bbb6db;0x10a9927945894f9f54d50d2c02fb44622a72a29bdd41ccad32;0x264d433ea03f3289c2b77360559b44ac2ee4ecd5fdf9201aaee;0x3037b94bd0a9dd3c02bc858c22880a202802418f95654818cb7;0x4b768efe5124e1d06795c5c27b15a42fc6d498f76221b838a8;0xe2cf554f3c3a9d67de4e0be4415eb9994afe1ef797c54325ec;0x12df6d7fc1df069ff1aa8966086e70f743b4bfc856eb501f9bc;0x1c055941c2ca850efd9bae87849fa17d655fe1efbbc37b113ea;0x8a872607a1bbda2338b5ee8c4423ad289a00947130c0a884a6;0x211ef5e81f1a7d2758bb42441931d60323399bc8ac43b15961c;0x3295f21a1a450aafde50360438e19ae2f4c6e7bf5c99f7fe64f;0x68b220f455fc81b989bbc931cd07ec09f41139d071a3832f079;0x5ea6562e8222b09033936bf5a93d7febcb4f3c536710c3f1fc7;0x542d919b0ecab107471e5b2b6e66854b15e0f6b85d5fc1d38;0x2208aa4dcabda8285a7760d27cafb8f4b9184bdfd478e7dc60a;0x26d1362787cf767b70b9df279c0c8b21dff5327317cee2fa8;0x794fba875446b1beddc291a35e129fd7af240089f600577c32;0x173d88e601cdff6f5120912e2038a2e306f5fd31502526e9810;0xbc022169f6f1db0540f6044985ec4eb1853bbf9d4f6d4bddca;0x3efbed0b133013fbcb7a7122929fcbb386c18c37320e35c8dcf;0x437cac47dd1e9d2f2808dfaae9a5cf00c33c855f6cec9fb012;0x22eff568852c49481ed558a6fdbfe6ffb211422deefb45a5ee9;0x226c4a2be0ad4ec088e035aa8e85ade652f0f29bd78b5822fe4;0x152d7dc05da026912313f863ed5e5c0d6cf9eea6c552fa302c;0x8ec997791ce0fb826fb104e67ae4cb39257361ddee84fa58b0;0x402e63a205edfcbf26a7f0d2077e20225a1a42102c32718246;0xf85ab21edb568a3a6169d155fa1ca820b3e88da13456b5a7ed;0x112a36ecbe487137b4ddd3fe956df892d332f184ce81e2c5ebf;0x110d8e968763a614328c5b108ae8e00ef746a201e9f8b06cc94;0xa3e5626691a4756bae106184d6918664b6a5feb4e5042f542c;0x2832bd4066c7e7e604b9636074747388dc6d192ab2fafe6fde;0x4d8d18489ebb1789bbd8d3bca1ddf24815a956840824038c18f;0x330c84c5845a33c7c662775d95462b75167fdc1cb5b9c65141f;0x74adb4f4ecd951cc110cbba2d65163308e4ae4d3db52e458a68;0x515b92a910cb948ed85bbb52c3a1deba8bb121efb1263d18c7;0x48a302acc161a9087f658ca892db39ad76992fd9cf0fc4b441;0x9e09cdc870fe69a219967a6804d0ad89f9be7eb6d5fe96e4d9;0x3be8fcff0d058d93ce7269d5ac0ebe757df932bc1cd551f91c6;0x872a6b7da2977f0f19c64d93eb569c7e0d85dd9d87fb1e32eb;0x3bfbca5396e612d68ee531338b326be71773846aadc900e4496;0x282bdf874e5e1487f9409c939aee7e6acc3a0f4af129572e7ec;0x297586d8c1890ed785a2e90a11017126e311e6425a36df4a53;0x1b7d66641b2205f9554e8c02bf31aa1a9613d0cbb97e764411;0x40dd59f28c170f6ae998214f2b45e7fa390c8f64fafbbed9add;0x3618abcbef75fe0f936177dfb9bbd8d30601cd8417c6523468;0x1b3da589e82e438f1cce2ce9374a1035c481d6090ea8b48089;0x4baf0f5f98e816ebbec9d32c96c878750cdc1d8bdeac26e884a;0x5929bb6d8e20cefbae2610682d1dc24c6cf49d11aaf262205b;0x46f2dac856230983e4f235e77dc8820f6c24e073162f91cdaf;0x35c8d9de4e99ed6a6eea49db5f64771f85f073f06630f2a253;0x775cbbbd85e2636fd0c1bbf111f7bd4099f07fea5d108c6a47e;0x1c0542db2285fc64349be3e5ca74e144884a16951cf98e2ea9;0xb5b55d5c8a4364a97c6efa5ea3a979f449742c885d65d9922d;0x1788a08f88474a96a3355b38bf3cba8dd680ced18c97b82584;0x2716f5805f5db116a39ae189d42a2a5e3bc85eaa6536a5dcb6;0x38f5186459398682101e2ab64b397a1d3e367bcd4fda229e1ae;0x13cedde57e8ff554c29155f72f5765bffb76c6ef6ea6360b20b;0x12f;0x0;0x786cb25054ace5cd2dd9e6412a0a63bfb7d0782d30fd94d03ea;0x4406a5ffff;0x0;0x0;0x0;0x0;0x0;0x0] _ _).
  - vm_compute. reflexivity.
  - apply Forall_cons; [exact prime_7822192614862953191204117332507333'|]. apply Forall_nil.
Qed.
Lemma prime_26959946667150639794667015087019630673637144422540572481103610249951' : prime 0x1000000000000000000000000000000000000000000000000000002df.
Proof.
  refine (check_ok 0x1000000000000000000000000000000000000000000000000000002df 0x2df 224 2 [0x3c3659282a5672e696ecf320950531dfdbe83c16987f26281f5]%positive [
   {| s_r := 0x3c3659282a5672e696ecf320950531dfdbe83c16987f26281f5; s_c := 0x4406a6; s_list := [0x725e749aff0400aa362c375e604f8f57436a1b6db049c7f599e09287;0xb6dd1f79434216de82a991a99133b3cf260e1f5970d0694db36612;0x1aa182e8bfe570f41b545e51551d6f153cf5786630a6fb9154cf589d3;0x41f932e8dc45e75629a46441b3e9ce62e1f6ef59b1469ff880418570;0x431441a103e50b76f2141f8ecd972882080f59d1c17347ba9b8ed670;0x1c942841afc9e694ce8854ba7459172f15c2a478f11cea20a1086aa95;0x1182ec09eb05374b9ac74585f34360a6a022d16ad62a289c4aa10989;0x315fd5454daa686f5a6fc08d37c832fb8a0ae4bd0695ee18d6c26b33;0x77c020de9b48766efb62be0cee00cfef49ceaefc9fbe7c64cb0952cf;0xe2e4057313a418d9131fbe1a60915eeec5e7e5f5d40bc5467dde7e99;0xcbbc8fbfa673302faa99e3c93a10e08200000000000000017723d3d0;0xe70ae71e2e835900fffffffffffffffffffffffffffffffffffe8fea;0x43;0xfffffffffffffffffffffffffffffffffffffffffa420000000002df;0xffffffffffff;0x0;0x0;0x0;0x0;0x0;0x0;0x0];
   s_u := 0x1657dcb20a37859af81056c991ef5bc2db1ec8dcb77d34cd274fb5c4; s_v := 0xc23f581f73825c99a777ffde88359db62fa3561deccabf938cc6189 |}]
   [0x0;0x81e88fb050902d4666d683b42bd120b473ddd7d47f54698985d973f;0x8aacf484e83b09c78f82b3c47fc47ee5f879154aa43464002d9159a7;0x15f2a251a6252805bc92c2993a33347ca870892d36059354c91f1c9c;0x2f9cd4b70afe14738dc3684255de9a4179b859de46f60607f16e0cee;0x71961f5382e105d05a3383c681f8fc33119cde856a5a2ff9d9323bc3;0x665db9db20361f057cfbc550b33eca1bccdb65d6f5641def977ac0c8;0x17a4078488de10cf2235b9a0b5c0f5459d58047fe724512d8d6341d1b;0x307073c12d5484b94e69d9affdcaf3fd5ace3e95642b0f33e8e9eff3;0x1e1632fced2488e94744e43541f9e7d3751d2844a5b0a215aed72e61e;0x8d597d21ef0c4119c965392438d58833b2da5d09c68aaf3018566eb9;0x125ecf19b7d9113e904edeae596b262cef490e7c360d963cfd392026;0x41701bd485b269c26f4df95573ef2e4e4d1bf4be44f72534fe7e75b;0x540b1300674b2746f820439c3cab59d6859736cfbca77acc25907bc3;0x41281493325df8363427e99bc0e1036a03b62e08a4642cd5d207ea74;0x6939f6ef6d237f62e5c6b103a3647855114a9f1b5f72d0cd71b40e89;0x13b1b8004fb490ba3c16d6787e2d93258c78557118f2872abbaaa5;0x142d35bff5c564c5794475d8bcf2e0bcc72a7055e1183a525acea69;0x47f23d3de07295e4cfcb0c8fc1863ef6afcca1f2ae9ab8ae3717c0d5;0x970971e0474c069e6b8b700b58eb2faed018f05c8617695065bcce3;0x8d9445fbbed42c076df8b86f7def059272fa10a958651d5de1cda69e;0xc1d7f2a08d51bd5381962b6725a48cf2664c7032f320843e287bdd6;0x3d552336c99762d91c386003f1d03c5f8e37cb168c65e4c1b904b580;0x426ee038c0e2dc829c4ef452354424d82b8067908ac398d511f66b;0xdd5c07c22ef6e6e020a86926cc4655bc2cbf9e70e4dcaf4421e95802;0x5ff53449433043a6f6e42318629f153e7f5459d700c574ad5c5c3d25;0x4479f9f6b28c7035be4023fdcbf3bd4944e6a8bf7ebc9787cafdb3d6;0x2f441403f37f073fdc6ae8b025079255e1c0768d4a83a8123f1d411c;0xc783d8198b63a9e9bbe7a419e67152f50df20191f48938e95d24d70a;0x212a2e769e7e6e48f9f65a07a9081cce4daf9431dfc902b6f881e88c;0x2d415b3e5a8d91c2fd002e8a8f181e22962e0a1034407ee15ed37bd;0xda792d6f00738f7ea5ae02bca3814aaac9ec2540c158d2e0df9610c7;0x7b643f8857379b8ccf90f4e2dbfbb1445455cb879bfc50fcb70d7dbb;0x5343ed81f7a4fc41bc535334c319aef6e2eb7d498a435c5e85922d3;0xea14eafc8ed0eb00900435c3a2f14cc6aec875bac0a3c4175373af00;0x1cfa7d7ccbd0942da7a4ef21bb617d6409737542a8f2c750fd817;0xb33f14f85f3d5a8ff474c09fdbaf332785bc0ac7522f2f950dc462fa;0x16b657ce2ffda479b3f9c4b7577e8e019eacd964df3b12f1ffdf9e6c;0xa9cbd602702614a688cde86797491ec9941cd7539296626902bfa1c8;0xa8b936c869545d9f1e975f00181f9115059b61f8f891d96a7eb721ed;0x48d35e83907114fdf38ca3391ab0c36134779cb663b414aff77c050f;0x226a6bb8fdb79f935c956f34aff7b19521804b67379c52216491361d;0x2f2864315d1b1f827b7394670a43210881838be504dc3da226a195ec;0x2e9e0f65f5140a8a443c2d6f4f575ee8e34b767d8a68ee7270fa9d0;0x33e0ce490924ec12ae0e590b138c7914485aaf069e096df2f043e3bb;0x329a0b42f8c1748d7f953caceffafddd8f825d859496f881a73715;0x6dd290f9e6181ce0943a2526c2ad93cc5758bede82855e0864d32d4b;0xb6b19e5faec98f13ae3b66094d046c8c9df6eb86a81cc86529518cda;0x146627d217e2a711064a3673f2a63651221dcbf731f9b6ec620ad61d;0x56ddb6c8fe403f2314de0d1fc154aa226b4a7e927ca66f09cb1a479b;0x89b547cc115be8964746e2fc18109391473f5988c7ad0b4fdc7520da;0x5259fecb7ca10560d53011e9ea2c5964735eebdb29edf70eb3178b99;0xc9e15a8fc03918868037f8494a265853a598d689af81f196d33d7a56;0x9e130337bfd11febf087d881b44ceedccde2bded04cefc8b194eccdc;0x6685942959fd0f411b40407028e8b89961ef8145953b0d8b80c29b47;0x1f5f0837b6110ad6b4eb721ae870a3919d41b2dbfafa303a24616d;0x5897837c943a87103b86d959032ed6260cdb3ed117eab1576b3546a2;0x22a2c88f10fb69377fcd685f96b9663239f600a22679c0a9fd34e3ec;0x2943827933ec7e26f2f9aa8770f8d3c44ed6df40f19c915db18c37d2;0x44aecbb5fda00b592ea480ee5f7eba2556827ea0f203088c22ef4411;0xf90d950d8d03b9ed4900ab9b19ccd906b8f8e812a32242a67395781b;0x869bee27f29d714c035faab3cbe691251e59912081c0e9b17f315e;0x79cd4809bb7e2dad1bf26d1b7b9cf1ca7924f24681e93726316277bb;0x9c50226df70efebf8875e7b5db2e5ac841f9ee48198029b71c98a1fd;0x3496a225a8f7f8c7bcbbcd6b7a6d01e55b5559ed156f15bdd17f1ece;0x6f04a3cdaba1a9d455d0ecfd2b778d5a4e37ec81901f24b891fa2a15;0x3bbe5fe503794095c85b6075ced17b47fcf9b4b71a3bc2f73e388aa5;0x198b336d9381cf5d03d97083790d97ea21a9cdfe4f3958ebbf33148a;0x730faad009f914da3428399ae6078adbcd379a596009ddd34d954b4a;0xe2acccf642f2e9a7fb313e5be0eac4dc216527df257171d5158b73bf;0xef8857881971d92b5ea824872d24586137c9d28127e20f8cd64658b5;0x4f755fc32d205fd080826c2812383913e7165d58f80ff6fdafec2b;0x16202fe9dd85963aa1ade6aa37c072c3192177925f6282c377586619;0xd44654f96a8042e6bfd6271c122b76e2468653be38594fed5191bef;0x71e555880cd7eb255b7a236014c0d192f4782601e4068fb4b4df887;0x4354c1fd5b85e809222443b31ff5f24884130ad125cc7b8c210d1ac2;0x1677d19e4ac3c2f5872dff1a608f41959290c5aa31072b48a9314527;0x6f0b47c539560b1483ebeb88cba0225b1e1325c03d10ce5cf2f8da80;0x633eb8bf416d50dc95b98335ee7146f6280f80a2c9a80257d10d70;0x725333954858600ee0bba2d8720ad20328f69df246eed4b28e4dad;0x8ffd33cd890545446fd34a66028ea11cab65d6d9dc988c667b174f66;0xe52ba958bd97751f7e6fd1f1ec8f91109701a3656b555e19f2ab20c0;0x26cf6db8623af6cd67eb15e8684cea6ef0fda5d90a5e0fb5a858b82;0x113483c5c369eb0e6f47949bb0143114f768748e6cc0f8dc27a4ade6;0x10f0a5ccb35a8a04d2e79647629e6c8000ba5cfd35304e870650bbc5;0x72279d46d0986cb2866774e71ba4ae71358d3c2bbd332d4ffd4ad656;0x283e678b6ac394d19f1fdb866c34b8f45edf0bbbbab2dcb4d806fd9d;0xf05f66bb8101b19a48b97856005f4ca2eaffa439a524bef8ca9db9f2;0x266a42c0c0ded91ca22ee9c5b58dc05a13613126e84084159d857bfc;0x4e211f538b975afe177ea28aed9b19a360c8b422e146079b15396a72;0x70a96e341e92545fd2aa819f6b850da10ec993a953e2ea4c22831674;0x1af6f68470e31a53441698586a3eea420ca71ed905aef9783f40c1e3;0x41cf0a6fe07fe0dadf5ed30c7ac1bd12330f655a735c1371c69758a6;0x335c2829e5357a2bb0a3c67bbd9739f66b7bef966ee8f1929c3f1935;0x7c65ba053d48d2edd4f3792e178fcea2c0c54d9b1ae283b91cafeec;0xfec69c509934a58eb5b28d2fc62ab1b79f2e3fb1a39121f9b31dfb5c;0x3568958ee84484103f028c1067d8510b351557dc6b429747eae026ff;0x5f86d93d4d9f79bd4544cfd63867c6572252b5f1b73baa8e8dc4c18;0x1ec99ef68366c521a3ac80926be50cc477935f10b546e4cba76c99fb;0x115e213281ee5aa5562a9edf871785177e2bf4a68303254e940af4;0x4649701cd23535284e7b2af380c51048203754a0caf49effe86b8645;0xf25b3e9caf106a98a13d25ae031f6b0ac6162b3f9c77e64f358e101;0xcd76369de36014a6edc6f6e2d29ba8fac0ee1c009a629cbfbf1fe3b2;0x4b17541814816193a8631340e40ba397ada70bf1806c828c88460808;0x46a3df54ac158a47e76233a9b961d5d3d69bd382f9897200ad6eee5b;0x52d0a6bbe158f5ddec8485d5ab10e02df4232d4721d8cdbb49a79e72;0x95128be49767a4735dd79a5becc2ad08367554958402a763ead6269;0xdb0bc721747525774fa293d2b8586337f2db761f61296cb48ee2;0xc4bac21cadf7f508a9d931a073eec938bb1b118b2ca1cd3c96751e22;0xc2b92e28d0fe34b345ea02fe2e3e4aa980fa0e688b73ca570d2ec3e6;0x14b406a6c3b8e31004cf79f8e01f7ba06b8d8e29e8048821a4d97640;0x991ed76766e071f2b2929c0fdaa6d5fc42f8fefc74a67b737cce7;0x94fc9ac62999a2e2e078b8fa4a76b45e68a407bd991fff9267fc785c;0x3f8c799a4621db69f08308c0bd3bc155324c38f1a68aa2ed528ed;0x7feda8be461ce13e6fcf147a1921572d7d38fadcb4d0553b10b8065;0x2d6ebe0685d7d4b82e7d50f661fce7ae0f013e919d3a1b7b3550654a;0xcf63d2ac38ab7585884b724cbe6411c10afef4cdee2fa75d31f97b96;0x22066b62399793ef1a95a61e4053636014cc10e49a0b262cff796cc9;0xa8e6488bc16a1a9d8f405c7f0ae2f143dd6343872a48dfe340a2212e;0x511b8531537bbd2c8699074c241e07d1020453c8219154e5fb1e72e4;0xfba6a85e1781389489ef727fefb80f3167477b04c67b0e4e67c01d4e;0x1f92d819f963e978aac11f2131e341cf5f555a5234707f021fe9985c;0xe36a533cf99cb10d12dc9afddc72fd7614e08fe82a90e7b54e5bd929;0xf118e8663e2159fb9191199e8e1ffbbe1c3d1f33f7af94e6b9eda106;0x834cf41cb5d1025db4b6aa9b03de17cf4bc4ddffe8965632b41e40b1;0xcfe7395cede7860a627b0c25160c256f616db3f4a51d895f09205395;0x224ffd650641981eec85ca94486ed5a7ee73310c5d03a000d51b68b;0xbb63bd428c50632bf605eb897967fd63572c24bd7a18371e4056e0ea;0x43830b7eb782e2bda76cee44ca507848dc0c416ae852d62dbc1c4c1;0xb47cdf9570d45a7370aab8824eb413f369c5ae129658026fc6b33367;0x74933e4d6cf3245683a86904f893740698e6c1018f56d9b32b5951a5;0x1008a1069339dbec4fbb792a956b8a12b5aea688782e231945c0a87;0x2018bfab729dc1ac13171d935a55a05bb54fcd7e6e1e73de6724ebd;0x9d4b8a0c899e2b4d509154aeef5c66e63a684a056c18808ff2493c0;0x315d2d5004d7bc7f38aeaab4c580142ae74c845b3cda895ca9717bc8;0x4ab9b6c547366cbb3abf487b366102f85fde809b24239383536a6f0;0x1206dae5bd60afc3769d92ff14fa88c685078ee49f6530a6723190d3;0x55ebe0eb44a87b16351ce3e69a2f7e092e6e5f0c343c3abbbf343887;0x3718f59dd764f5721add1697513dd70100710c5edfd32c6d4c350;0x11a11281694315bd8956caf5882b78b59f0dcb7756ac4e0b6de9febe;0x223daa22e45470eb37d111dabec46ee0f669d20ba7e5c6385dc5c763;0x1f874fd7a8a72772a5ecaa08e53e1eab12004c23a0f5fc81e49e8020;0x58fc67a2095e8d5118085288d62394ec42380c6b5c0240c36ba41595;0x2b4658acb4b54e3b144eebc4530a280404f4e8e60752fae51b5a3cd5;0x4508b1a2ba83b848164757773fe12225402836bd597b1c8c0b883005;0x3aeadeb93e69a88b6f45dfdb93768ea314b002920602ca8d2c226d59;0x96abbfea311746863cad06e5522f7fbdc5add8f02386326e2ef66d9a;0x40a374f464b9412cd25cbe635e415a2dbcb2ca23dcfc3796a34f8dae;0x11c99c7b90d447c8bceff8e66913b27acc50ef0671a7f6d644002336;0x3de231a172e1c810747dad350037bc922a689eae8247c1b0dfb9b7e9;0x3783a9a142b4a11eddf915b5caec17b8e0f4a016377930fd5074020d;0xc85ed312beb8d1ccea27e192b5b27878704d4be52d57f282075d33b;0x1529d6470a17783de27e4bdcef9130476aa488b0899f3bb8ee3da84a;0x17099868aaa70b4415cf19bda3ee5533fa7b627494c3b151df49d560;0x3c53ff80acc8e0a76818483d4b25a9699f885bd339bfc88a44cc0e8;0x5186ee558cae8eaceaedd7c626ba29603d816768fbee70f862368205;0x4e473294009a2bf2a65bcef969e7a5af3bbbb72424d5b409d376a381;0xeee948467ab90e46af920bad7640d4b6d545ddfe2ed37b986cca6d4;0x9408f0224532ecded3fc1f2b954f4304bf74fed6de4477e0d03ce53;0xf40e75cdcea156840a02e4314bacbff1ddae746675a32aa66e61ceb1;0x2d3e17d0ee9988fa83334c1dc6df85fb638bbfcf5eed31a42118e662;0x4d88b687ea00ae45416b0ef1b332733fcc42aadda0453c02ad16c266;0xf3883d48691d68b2bec946a1c61851ccfef13463023155095452b86c;0x98e6d086a6fe4b8edaa4fe6ea91deadbf2366bbeba20914faad15061;0x56ba0e6fa662d312ae7a30c097bac2a7fc8205f7ad5297989a790ddb;0x6f35dfa160504161475723dc04f14bfc8e4fade195c102691a3b072f;0x84f267fe4a727e88c8ad6a55d94bb8fb587eac4132b26c2ab5339885;0x4acc61184402dac70db45afd2ce2477e290491b9d5f38f5257172b3;0x3630fb1018950756c08b1a3f73b8d989525d1d83aa222c220865a89c;0x819df9bf32d788a6cea0820a29db9b61a4abf4cfaa4ac858dbf70227;0xb6f61cd69b7fbdb6c92268497b3f29c48b743f973fa496cf49e51b6a;0x4157686b39864ddc385d221dc0948856409b3065df5d8dcfef1b9869;0x5e3b43bb467ee142d64419e40662f08bcf6a07c473fd7a6e7522c77d;0x23cf7c14a44d0580608e5c0cb80be9cd4c8a5e58be704e9cbaacb;0x9bd80cc9771f19789b2676fe0891f99cb6fb99a0aa7a39e5f4c45474;0xf8a4ff9a5ed633d20d318982ebdb15ab198516675c13a902e4ed3bff;0x81d75d7b5c0b8d547bfe36d5e7e300a2797168d255e7162bc1a5782e;0x4e0fd974666f887fb6b3ebd0ec03ced0b7569e539c0d1fd0b86e70;0x2c67c70716bff242afc827a17284994e621fbd3aaacfc649b7db69e;0x4a1f0da134eb4d7915317aeabc2f4347639b568cd9323d40c8ed5a8;0x21b4f077627ceb1d4856bab4c4423f9b2fd74854863775023cbf0617;0xf87d22f3733ad259bc8ad08329a42ee6bbfa1b39bfefc9ee77be3890;0x4dbdf9aeea67e760d8ec0a558afe25ee0c8a079c1d2e6c15f87883d;0x445f3af6d1e0566b9f122388f5f025507a8afe29201e9392865425db;0x653e9ab58a6d33806173fdb979b07c3b0fad7e243b4f5181d8115c4c;0xd1bead5839db2e5ca92af6daca173eba7ed33b5b58b6eca199ff03a;0x2b0c636641ce09f444a6d9cdd5a1693c8bfca7fac632dd6b32a0e3af;0xde8951061f452dac9174a553cfa94d4a56de20a1b072981ceeac83a1;0x2a53cad9826e198a4ff02afc81097a62d18b644121d27d7d5de1831;0xf49318ec2a83b4b8c22143c02d326cbb4eead0464b5c246f50c931;0x37eb66b7bb395d7a0279ed87cf5aaae64a1aef34ed7ddc3ab3daa8b6;0x27651658c14b1cd7d8a30b1ee0d84ec7c2ad6df5f1f502d3bff58213;0x54e977a4f1216a346c5ae57f5c98ddfebccde283293e2d25d11bc3c9;0xaef5dbe4c9ed02affd589f95b3e31de43db467c5650c5cf2a7b76a91;0x5f47e404b8996fd42e8d7a44b11c78f8c0c47f532c0fc16ef4d6b301;0x1f4b4733f959b34145ac17bf0296554a07b55442ce33ad86b6d2b845;0x1da7d4e558bb010b8e31951d23b0608ec15bb0117fc185999161f73f;0xf21cced3b4868f3c30fc37cb5076d69daa1feb9749025f2e2ff15c4e;0xc27e2976542da6911ddc5efcb66871552616e0c50ab81a3d8bea87f7;0x8cfe3e9464c7d32bc307f4537911eccbe8f963d9303f45c36f31dae;0x7fb1c143f830db47e02e3eaa9b320ea5770b641dfdc689ed3c7fc773;0x2151f187670898cf063e55b2b4085975dac884edd18573c86eadbd38;0x160a08b7ca7d13d1e46fc3046fa51b72e90b1c142ac1ce1329db59;0x574781a9f30628a943b678d9453f63d553b605c8072d3e61852681fe;0xe4ae8204dc910d0af1d59633cca0897003f6e87f6c4f4d219851be1f;0x1f99ea9c62c4545bd7faaa907d70a23e66cbce73615cedf439e0d053;0x302bd18a3a32117115904cf2d7beff4caed29f89ed7c5fff9d79d764;0x5a932e3e97b8271bdf3b64361161c05e2aa3d41c4fb9b1b777a21809;0x1a03407d231767ef197a22bdf54cd4e508e5a86c921353d26b147f;0x9bf1d44724c054bb720765ff9553f3d89462d4aba56934f783166ee;0x161a15fa6102321c4ea24ae43ada41d628a198453d2a8107ce76384f;0x3855b9495f8e2212c61e94deb8ac88b136803772b2d5ecd59c11cb32;0xffffffffffffffffffffffffff986f2742f9b53ce9c6ec4200000d58;0x1209340672a42e835900ffffffff;0x0;0xfffffffffffffffffffffffffffffffffffffffffffffa42000002df;0xffffffff;0x0;0x0;0x0;0x0;0x0;0x0;0x0] _ _).
  - vm_compute. reflexivity.
  - apply Forall_cons; [exact prime_6047339516873734574805023403658385355727632408631511385014773'|]. apply Forall_nil.
Qed.
Lemma modulus_28 : prime (2 ^ 224 + 735). Proof. exact prime_26959946667150639794667015087019630673637144422540572481103610249951'. Qed.
