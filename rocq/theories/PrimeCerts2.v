(** * Certificates that the moduli of aiootp/_constants/datasets.py for sizes 19 to 24
    are prime (numbers in hexadecimal, found outside Coq and checked here). *)
From Coq Require Import ZArith Znumtheory List.
From Verif Require Import PrimeProofs.
Import ListNotations.
Local Open Scope Z_scope.
Lemma prime_7' : prime 7. Proof. now apply (trial_prime 7 3). Qed.
Lemma prime_43' : prime 43. Proof. now apply (trial_prime 43 5). Qed.
Lemma prime_163' : prime 163. Proof. now apply (trial_prime 163 8). Qed.
Lemma prime_3779' : prime 3779. Proof. now apply (trial_prime 3779 32). Qed.
Lemma prime_4078967803638757' : prime 0xe7dccb2fc73e5.
Proof.
  refine (check_ok 0xe7dccb2fc73e5 0xe7dccb2fc73e4 0 2 [0xec3;0xa3;0x2b;0x7]%positive [
   {| s_r := 0xec3; s_c := 0xfb4fea864c; s_list := [0x44b10c49e57;0x30f89a65574;0x18d91e3ff066c4;0x316cc82c21b1a;0x3d0f6517878eb;0x38e706f2a0428;0x41faaae1e2ae2;0x349832f61751c;0x2ae20a15fed6c;0x39bcec069c0a5;0x135953c8b361;0x407aebb6ef497;0x3b2c063944701;0x7dc3cea12f4;0xbaec96a0be0ba;0x7a4537213c75;0x4d60ad76e46;0x18d5b632347f6;0x60d7d0d46420c;0x47f1dd09e8e3a;0x343e2e18ed3b1;0x11980b5b1522f6;0x41d1c75a7;0x6addc6f72c4a;0x22faedf335713;0x125dc6a53177b;0x12cf64f51b474;0xc6684ed8a6316;0x4ce33e5699630;0x1ba28ce5fbec4;0x504a342020f6a;0xf1eabcb91f57;0xc79ab93cd0efb;0xa7a061421d5c9;0x46a;0x0;0x0;0x0;0x0];
   s_u := 0xc264e9fad748d; s_v := 0x8d7b667a47af |};
   {| s_r := 0xa3; s_c := 0x16c26f0966cc; s_list := [0xe05e70804c67a;0x5701632a99df3;0x14e95994e32537;0x14722e93c5cdb0;0x499b370d19b2;0x7522384237b9;0x5f7668c9f1f;0xf551a6e303dd;0x232d3e2f78a6f;0x12f5a6ce654cf;0x6cff3de971b48;0x1193bafc7285;0x26a6d69b3ffc;0xa9b6fc28787fc;0x18575bad4c3baa;0x4646759ebaf2b;0x15337ba779a4a;0x3f260706a655;0xde4201568281d;0xf3f072406a519;0xb56031737c6e8;0xbd212acc79c7e;0xbb9d225b8e;0x47fcf3f82b7f;0x1a87f95ed9f6b;0x13dd616d8ac889;0xb9d03a4dbd46d;0x30fb3d981200;0xa506704b29eac;0x12990bc693789f;0x16c1ed42ef658d;0x5220770e377eb;0x18319626d08;0x276b6e1d7116c;0xa34fb70a5ba2e;0x45daee0b6ee7;0xe7d4eb40e56d6;0xae01d4449415c;0x8d533d47fb;0x0;0x0;0x0;0x0;0x0];
   s_u := 0x8abf3d491b74e; s_v := 0x6602adb69f8c9 |};
   {| s_r := 0x2b; s_c := 0x56463fb285ac; s_list := [0x206669c28655c;0x6c17215165099;0x1e62f489c4f65;0x44402fea1d9d3;0x2bbb72bcbbc51;0x3e0b92a10f91d;0xe28beea25d473;0xfa8ee9feb81f;0x1157c34a7e586;0x21c42eca22ecd;0xed2ccc531087e;0x67de42c0d2277;0x17be28e47e005;0xc1b0fcf806acc;0x1ece22ceec7;0x9c4cf9330ecc;0x1328c4a120b06;0x194b72ae6d4841;0x3a9dac22578c9;0x22e18f5a3b98b;0x1b322b01d06169;0x5b7b142973a6;0xe0f2d4cdae44b;0xbf23b8fb7aca0;0x10a71c24c6a98f;0x9463b89da9037;0xf6b646df54332;0xe5305fb137e10;0x22a60fe3bcd67;0x182c476bf4baa;0xa5052a1c4a803;0x4a09b698c0b74;0xdd5dbddffbc13;0x5e240adb542;0x167da849b34a86;0x1a698ab3a1f2d;0x2ccd733cad2c9;0xce4a82852a74;0x1cfb9926f8e7ec;0xafd414c452d64;0x46a99ea3f;0x0;0x0;0x0;0x0;0x0];
   s_u := 0x444c91be05737; s_v := 0x307a703ebcc94 |};
   {| s_r := 0x7; s_c := 0x211f8abdaebfc; s_list := [0x3c0b1b02fd6ee;0x9d4a5c4263122;0x542a5ef724aef;0x175a9bddf29de;0x1b4e19ca51915c;0x1973f0b5ee7a28;0x43f63e81f33e6;0x26501e9b3d75d;0x16efdc1676d7b4;0x194b90fdb4ff21;0x4d2d43f25c033;0xa3f7c79985565;0x383b5ee5eacc2;0x1b8adffcc7896;0x18a28caa9cc1a1;0x112d08903bcd;0x5fe77bc44f49b;0xb40274c30c40c;0xec7aebeba871;0x2cf50982beaa7;0x125b29c2294733;0x1dc2529099b6f;0x18f4ea5567a728;0xf5a215f0d46e9;0x9571a41127420;0x97892fa4c3140;0x6065d8d10f457;0x8cb8cb1c5860;0x2089eb0903d70;0x25e4bb2f97cf6;0xddc20afd674e8;0x9e847f94b2104;0x5aeb1aa2d0ef0;0x947fb036b90db;0x886bc2c3930f;0x1b14672d59882;0x718ee70f4b9;0xec89476da272e;0x76877d781d140;0x14dd3d56630fff;0x1940a6b3a8af6a;0xddb511b3d8498;0x5909ed54e7c88;0x46a9;0x0;0x0;0x0;0x0;0x0];
   s_u := 0x726a4ef626d71; s_v := 0xfab73e0cccc5 |}]
   [0xe7dccb2fc73e3;0xa1ad3d290a149;0x50d69e94850a5;0x2a4dfe3003b;0x83a20c95f2e;0x11c809b3d32942;0x3092ae5aa5c6;0x5600bc75329e5;0x23cf71e68cd02;0xb7b3368145f;0xad38a999448f;0x5ff658e6217ed;0xbd6cac5f3c25e;0x32894b0221a7;0x479ac034c2ab;0x2f58b128589;0x4ea5ba8d2e8f0;0x1ed47e5a80872;0xbc407bd45489d;0x8579f84284be;0x3738f79ada6ad;0x14607bbf276ec6;0x818292e4de717;0xd98ac353819bf;0x18fb5c24922f9;0x563abe9a8e6a8;0x500a8d17047e6;0x2447e39cce21a;0x6c4e8f95c60e;0x47b0535f27e3b;0x65c322da649e2;0x34a1d8c2bc6c4;0x17f2f8905b670;0x8e27a6f0d9cb6;0xf29359e1f8b8a;0x1abae16791ad20;0x4a05fb5e7c7dd;0x7d34ddd5b46f0;0x18b6d296863715;0xf254150a9122d;0x2b413d6ea71cc;0x187d56bc27719;0x1cfb977d996fd3;0x1dfe33af739a7;0x1b4a6366c6f4cc;0x32e50efeaeb6f;0x23;0x0;0x0;0x0;0x0] _ _).
  - vm_compute. reflexivity.
  - apply Forall_cons; [exact prime_3779'|]. apply Forall_cons; [exact prime_163'|]. apply Forall_cons; [exact prime_43'|]. apply Forall_cons; [exact prime_7'|]. apply Forall_nil.
Qed.
Lemma prime_8693' : prime 8693. Proof. now apply (trial_prime 8693 48). Qed.
Lemma prime_379' : prime 379. Proof. now apply (trial_prime 379 11). Qed.
Lemma prime_631' : prime 631. Proof. now apply (trial_prime 631 14). Qed.
Lemma prime_3616889477' : prime 0xd7955a85.
Proof.
  refine (check_ok 0xd7955a85 0xd7955a84 0 2 [0x277;0x17b]%positive [
   {| s_r := 0x277; s_c := 0x57769c; s_list := [0x7a21ef0;0x2b120197;0x61076d32;0x1230b1bf5;0x18b6cbb;0x7d44a0f;0xf1f16;0x109981226;0x1280c3c1;0x1368fd1b1;0x29169d1e;0xb333cec4;0x2b3b32c;0xa54dd453;0x8c55e430;0x7d11b47c;0x184d30540;0x97f;0x0;0x0;0x0;0x0];
   s_u := 0x40a84de6; s_v := 0x3c8bd543 |};
   {| s_r := 0x17b; s_c := 0x919e4c; s_list := [0x3d7cffd0;0x6c0b9fe;0x1447e0339;0xcf776f76;0x744360c8;0x7084e5f;0x28401c;0x473f0363;0x58a5b8c7;0x1687de0ae;0x6cb29d17;0x10fdd1e84;0x22c4345d;0x58ab30d7;0x6cad5a;0x8652f31;0x5511bb4;0xd769ecf7;0x12;0x0;0x0;0x0;0x0];
   s_u := 0x9882181c; s_v := 0x5b8e5ed3 |}]
   [0xd7955a83;0x541f9281;0xcbe43dc3;0x579ce6e;0x5efa77;0x91252211;0x4b83ad52;0x3ccdb0bb;0x19e451db;0x12429cc7a;0xd384c46;0xc34fbd3;0x10b963874;0x6cb466ad;0x2b24930c;0x80bde89f;0x42de2153;0x796fe;0x7a0654a;0x66820b7d;0x1a83a2e83;0x4e2029a2;0x683270e;0xbb0767a5;0x19bbef550;0x4c24696d;0x25ffcc;0x0;0x0;0x0;0x0] _ _).
  - vm_compute. reflexivity.
  - apply Forall_cons; [exact prime_631'|]. apply Forall_cons; [exact prime_379'|]. apply Forall_nil.
Qed.
Lemma prime_46586482736086309603' : prime 0x286846f39034adae3.
Proof.
  refine (check_ok 0x286846f39034adae3 0x286846f39034adae2 0 2 [0xd7955a85;0x21f5]%positive [
   {| s_r := 0xd7955a85; s_c := 0x2ffb931fa; s_list := [0x260a65b77d7d1632d;0x3db1643d2e4dbfa86;0x6674b472993de261;0x2d7a345a46d887c2f;0x277fd97460f85a525;0x32364c6970fc4602e;0x173879a7eaca1f3aa;0x327540dca57e1bae;0x218e9738ce5c2e17d;0x8f68cd46742fd120;0x3eefce3cd056a044;0x1fa8949d5423b889c;0x19a9d764b8dd0b401;0x3332ae60e17e56a2;0x1c95960e868d602b;0x22b16cf29fd6267de;0x70a559502b39e63;0x186e566b129e7f278;0x9503946512addc24;0x27e9b77b1cc86e772;0x337c57134f6e308ed;0x7e9ae4eb47d75203;0x1ad892f5f443f567;0x2374e99005a3efa07;0x25ecf31c3f08c8b0;0xa5e91fecd8eeb1e;0x104993682bd1ba19;0x32af121d;0x0;0x0;0x0;0x0;0x0];
   s_u := 0x116abc702287cc0b7; s_v := 0x7eb9dc5b6cd02041 |};
   {| s_r := 0x21f5; s_c := 0x130a0e0dc0c81a; s_list := [0x1787cef9f6232f928;0xaea08d5da1c571e6;0x932d7553dc404614;0x263c24630c3e1480b;0xe36cb48b6edaefe5;0xf218551d6a2fdae;0x150ac60faa162dfe7;0x1781def3ec2dd053;0xdc9e130ed1361e0c;0x81a5a936eedd3c2;0x3e97d2794f0f16;0x272d143ca8db991fe;0x8382afd372eafe78;0x6650fc5867a7090;0x108ba8cae385b8f08;0x3dace95c1eaf5ce32;0x905c5c952c89fb8d;0x13278f281d71907d;0x7157f62ade86e59d;0x198d809f67bef7f8e;0x38763962e68ecc98;0x1fb00063188375630;0x1ca14b5ed2d5ddce5;0x2c502072a67d716be;0xcab78d19e71249ff;0x172211eb5f19de6;0x61b66e5cc804697d;0x4c53c3eb232660077;0xbd3ccdb9dc49411a;0x143643ae132966fee;0x285a27650fa88a8ec;0x42bf9b7e42cf2e5b;0x24ff1e46a91aede1b;0x131ae6ac8b1bf3073;0x8718b9fac0d0ca39;0x16b49c84b2d147a8f;0x2de0cb402fa80e18;0x6f1f9e10c3b29c3;0x1fdfa087382e58364;0x7524ff04867f56bc;0x12586e8e5c8c9eb89;0x1c48dd276c46c4;0x78f6b07c1f7791d;0x1de5ff0918ca2b621;0x11a792a770d6a79;0x1f90c1650236a95b0;0x655;0x0;0x0;0x0;0x0;0x0];
   s_u := 0x1d8ea03ddaaebaf89; s_v := 0xf948501846348b2a |}]
   [0x286846f39034adae1;0x3ef839e87ff0be1a0;0x11afa8b534d145576;0x1abe112ffbf26ce0d;0x2279aad6eb7427110;0x51022e97ab46a0d4;0x107efc61cc5ff6b74;0x11ff55c5ef68a939f;0x1b22c4d29c6c133;0x12078b4d368055860;0xb460596ff7a8b89;0x22b4d0bd99ea94ae7;0x2ba1988de82e636a1;0x18b2fc0b31a5af5a1;0x297204df23a93e03e;0xcb16c9063b12f04;0x2bfdc2f4124de4de;0x132f7c2d8200a9c1c;0x67c221484f361ccc;0x12676f0ee0e9a6e0c;0x16d1bd054293a8a8e;0x15d0b91d047bb2d1f;0x302550bddf15102d6;0x2b137412fc7a43c9;0x186dbcfa85fb95142;0x34a44b5a66633a58a;0x7d4ada671c593c;0x1443c445a5fcc06ce;0x149970606f630143c;0x4934d1be54a87f;0xc56306afb8ee65ad;0x4c021a933556ba8a;0x33d8ee354ae271242;0x5c4fd19e13379551;0x1ae891e4af2ded44f;0x175800e382f62a41f;0xece21bf94b45f1c7;0x3d1b539faadb3f8cc;0x1043312918904aa20;0xed6508900bbd4ba5;0x2b61b9cd3b97e0df0;0xe8a3acb50edf;0x1d8bd5c76a2f5ee55;0x2d501b8e871eb82ff;0xfcc98508d2a197be;0x2ca98fa4ce90993;0x36ac828360b11a18d;0x18a9561fb5340841;0x39c6eca0476c0ddd;0xb667a050ab3bb5c6;0x172d396018e2de407;0x1e0aa9ddf14f1edc6;0x360fc63d44ca526b;0x24a86c656726a942c;0x12385c03494ad5ca0;0x976fa25f3a4c781b;0x2278cc0f88efb2ca9;0x1dd1ea429f02d7c5;0x19e4f60b51c8582d;0x655e;0x0;0x0;0x0;0x0;0x0] _ _).
  - vm_compute. reflexivity.
  - apply Forall_cons; [exact prime_3616889477'|]. apply Forall_cons; [exact prime_8693'|]. apply Forall_nil.
Qed.
Lemma prime_5869896824746875009979' : prime 0x13e352ebe0f9ed7bbbb.
Proof.
  refine (check_ok 0x13e352ebe0f9ed7bbbb 0x13e352ebe0f9ed7bbba 0 2 [0x286846f39034adae3]%positive [
   {| s_r := 0x286846f39034adae3; s_c := 0x7e; s_list := [0x337d0635f48d84;0x0;0x0;0x0;0x0;0x0];
   s_u := 0xb3b12a9d17758d5b3d; s_v := 0x77b56d8abeb10cc0b2 |}]
   [0x13e352ebe0f9ed7bbb9;0x5fcf8f8af7d50c2e4a;0xe70f92944d14b80925;0x19c44687d60ef10c7d;0x1bb75ed792b98b76aa;0x604390f6288e6b1336;0x1077b3e922267a5139f;0x1154e1f9873f9f7c666;0x15d243618a8d9095fb3;0x7a3dd4d0bf43b41db1;0x6e9403bfe191019ce6;0x19f35d22057dedc456f;0x1ec64da61426a78cb87;0x1156394118b7eca25ce;0xbc24f03ce58f0c95bf;0xa2640264d8ee656863;0x14d9455206e20478199;0x1f78f7aceb7723fdce;0x12e5f10c72e9f823;0x8310ad268e2a3ffb40;0x174d68e3fd9b8d149dd;0x20defec6be2bd0ee92;0x252e1c01310ea8fca86;0x10094c598c71be458ba;0x4835e4510918c6394;0x2b3c708b217e15b19;0x5098dfa083537e2bf3;0x25ef9b1715037552e8c;0x19772a3963f718d8631;0x10de90a5402fd485a86;0x367c8fe0e1a50c1362;0xbf6b9c0199416abd3b;0xa895bc6465418c12ff;0x18933f47c87b0cf5529;0x2fa81c9f8ea2c8b8d8;0x91a10443d228440297;0x13c3a896bde83755b8c;0x19a50e4ce72706c87d;0x735faba25cfefa0ea2;0x13b575b20099aca1950;0x49f1ecee2298949484;0xc066c4b760d27a27f0;0x1e2a512e5729c82589b;0xc3f6f2d2b88bcd3e52;0x1af9d6ad4a051089c2;0x3bcebc3718ec9022e2;0x48735681cc9ffe1ca9;0x26189d1de95cd3be932;0x77c188f3415c4b0f0;0x1918e4909def8eff42c;0x135fc9825d24651c65;0x13e644fe8f5d1b0;0x1b54d657ab40937b18;0xe278c26db9751ebf22;0xe4f75cba7cbb167c0c;0x70bec3d6c6216ae5d5;0x1c72e003f0554ad679b;0xa798b431b769b13384;0xbffa3eaa29713df91e;0x14779a7f261dba27ad;0x1bf732bb51a8881e7fe;0x9a17f6b2e35ef3ff;0xb592f52ce5d7;0x0;0x13e352ebe0f9ed6bfbb;0x25f2b3180b044299197;0x66;0x0;0x0;0x0;0x0;0x0] _ _).
  - vm_compute. reflexivity.
  - apply Forall_cons; [exact prime_46586482736086309603'|]. apply Forall_nil.
Qed.
Lemma prime_5708990770823839524233143877797980545530986749' : prime 0x1000000000000000000000000000000000000fd.
Proof.
  refine (check_ok 0x1000000000000000000000000000000000000fd 0xfd 152 2 [0x13e352ebe0f9ed7bbbb;0xe7dccb2fc73e5]%positive [
   {| s_r := 0x13e352ebe0f9ed7bbbb; s_c := 0xcdf418d7d23612aa2d34; s_list := [0x7233c910b01c1f459e43fd57cc8cfa181553ce;0x6ec95d2aa53a1274c6a513ecd642c4fe37b27f;0x57539d14b093dcc3a3409f24b7ee0584e0fc97;0x79ae72275463389f836a640e2a9ae2c3c6be32;0x388fa6b872db24de1f9a41b443d8f2fd8fa23a;0x1ccc5559d41360a6cea75d549b416f319429200;0xc91d89913a96bc9a6892076c2c23489b8c6fac;0x32a8110afbd8825df59d1571f46b7523e4f505;0xa7fc5c49c41b5a14c6b1c44bf0a28f050c2184;0x54210ea5dec72e0a9ec8243944895e2f257df7;0x378eb18da0e96a9124253ee7d828f783b7e80b;0x9a85072154114bf204f664b0ebf91e444e3052;0xbf60392b304a5fa7f4c273b55ac933653a0866;0x101905a220d7faf21ad3dda53be859c2e84e128;0x5da2d4b0b7e9822979365990f0aad47f14edc7;0x3f3a9b8b3b8ca28b0d13ad360a73466c5c150;0x385bbd51499c6f845e86468e59cf9b74df0974;0xab706e653704c026e91be6367ee7b23539b55;0x6cd912add1622e0af721e75b1c31ac4b780922;0x1ca6f1f52109479866a78916714161b1e9240c7;0xf3efc1180c5987c1a1420d1f9f45c680b5a3dc;0x74ea7a67efa1acb94b9b07ca444d8e10e6630;0xff642e5210dd8f29e07f25b5540b7dbf84961;0x230040cfa44d68cd5eb96ac5affbd2a92b13a2;0xe53703a3b8680b8594f9e91667737ac272093f;0x688efed0f52420c34293e7f2e77bdb681fb8f3;0x4e75615f3cb89161dedf6dd154cff87c750a25;0x1155c1aeea72abdbdca3fa089f1a3d5ab7e83;0xe1d1266d2f7bfb42208f500c25600914e0b45c;0x131867d66565ecd4764a1a69b5290cab69d5d;0xfb5e40640486d18d9c3d6017a15d85ac6483b4;0x5f57253d73b558903cf549f96187b692047416;0x181eaf56c72a3cf98b963ea0504f79829c0de2;0x11eb508c8750b04087548607e291bd1050e80d2;0x16042ddc7c3c5d7c0dc6e86c8b47a3633405ff7;0x2d58d898f6bbd0ee1bb490a4a6153ab2efde94;0x87864e818220be76cbb7d60b18500a48380f;0x3201e4685c9b6ada4c68b73d6f0be3ad02b8;0x5cbba1c33d6a23bb693ee3c5175f4dd43e4e17;0xbba3a305017b23c523170f43746ad24d033be8;0x7128d25841095ab9caabb4dea2476719aedf42;0x138186504c3b7404c1abbc24bbc2b8f1495fe34;0x57f71c92b7af22bf74aea79959e39af4d91edd;0x21643dff0e2fa15bc8d1eeb629cdf4914fe515;0x1714386c5118c6ab430a9341b6b3ecd5ee02981;0x83806fede9277c7e054d5b0ded086080fe638a;0x4519efd4d0a6fbbc3a8187d2e35b4a23759084;0x7d7185bd6107cee7d75879104bd433e797b2;0x1c6e26df3e46ebb4ef1c4e7cdd3d1d38e782c81;0x4bc9dcac2f8cd100ae2a7e0e81afb17caf268d;0x3cccebb2164e847d0b7446d7b219fd6137bb9;0x30094814fe11af3301f39b140cb24eb699fbcf;0x3377f5f7276454a32c99e818e6fc79a60627bb;0x79d92dec0555fe21944b8e25b4e014822e22e4;0x1265d49641a68cbb4484a9bcfa7d0e6fb653aca;0x1107908fd7b559f99ca52a98ccc2106cb11cb8;0xc3ef5b9aa20d7f5885c4b61fa9ed1750735a16;0x3aa0ba800971c684b0c6036d36bcdfe72ec108;0x1cae224611116f8e6d95d6e6662a65a0a3abf2;0x8ed1e46568623068edd3821ed00befb366cf01;0x99be2940e786fdd58dac02312fc07289a988db;0x5dc81426e6d5a0e42387ad930917b05a0a4335;0xa1c914b7fec3c620040ef24222f3dc47cda744;0x2121f478a4771184de02f9fbad90a851829223;0xe1c359c8a99c4b78427991ead10ef16ba1c96;0xc9e8ad188887e869ff1edab00927b9c6eb5e8f;0x256cf26445e4560b904fc442fd99e884667281;0xcbfe5a7fc2679685627d6305ba612f639ffa85;0xb971afa7fc87fffffffffbc559eb2f181305d;0x1fffffffffffe1d4e18d7e60071c44cc28f04a5;0x7a1aca287fffffffffffffff;0x1ffffffffffffffffffffff81800000000001fa;0x1fffffffffffff;0x0;0x0;0x0;0x0;0x0;0x0];
   s_u := 0x9205e966266015e486ebf1bc7178dc190b8d0b; s_v := 0x26fbc07faf243362ad35808545cdc8398c0526 |};
   {| s_r := 0xe7dccb2fc73e5; s_c := 0x11aa67a8ff7bb8babf0d3fa54c; s_list := [0x5f627afa53ac27597264b3ff8c57ce672eca5f;0x76437d91ac6d8f3abbb8140d8b62a6b302eae3;0x19f58655149c2b11e1dfa386e1dabaecf74cfce;0x6446ff5bdf7b78b2df59ac4897abb96d33acb5;0x1d764f4f8e2131fecd55a36ee7f518e2c47dd5;0x37929450d4a218f53ae17213c0589b470330;0x5785dd8bfe59ef09705900b464682810b346d;0x4bac48c0c5996932e3fac6314cbf5bf6ce3d56;0x5f9d5759777a731613581315066f7e1b5e4ad9;0x14f9461b85571da7ecd0673981b43623cfeb0c;0x1c2441ea60f2823aeaea3625d1c9fc386c43adc;0xafa0c6470773763693a226ac6e1de3c2100651;0xfb966640a487d2ad09d636663e2e28b16b43;0x1b51590ed2422dcf1a35ac1d971eda688192dfc;0xc73a47fb593569f65cb9166ef390ed396dc3e3;0x1fb4d56ce4331fecf252703f7b1d58a6984e1ed;0x1fd93f540af8bb14008a99b24aacbf3aace1d;0x113ac7be97c2cd8a43f809c3fb0c0cb551d527;0x5d2e63cecfb83c047800e89333e04ce2784963;0x2230b57b66c09a3312764e04593a622972936;0x8af81af31178d0d0530fe47000d51afbcfed80;0x151806df0cc38a8e68c16568bdd39a26bce2b4d;0x16d9823f054ecdbbb2466e8053e3bbd8d96538;0x7460d911ae32a4c54f29121baff8464bb78ec7;0x1a4025c9f42886fe7bdba4f84b384616026e662;0x403c0d9f7901f13b131c2e10234d7b80e922b;0x26bd441b72bd68f1ddca38f25a2bd183d14947;0x52f49c38fdd958b5b358bef615760bf65f076;0xb6c0a0e6ecc266db957f559169159b979df037;0x231834f09c0b9e389bb8983131c65f3f9325f;0x1a9f2c46de4f16c318e3944b239242f11a4983;0x1e0988896bb5872bbeed9d4b8b2d64b3d5cc42;0xe83486a4bb7d9acedfed914eef3e9a54ec521;0xfeba117a15d3192de8d4c23fa27e68dfc7237d;0xf9f9439127241e57d8c2a94cc63d726926be1b;0x144442e867bd305bb804f827a725300155c4027;0xd7221fb54b1cb9936cf28d308c8361ed452609;0x11a59d7b338622324471e0604e6d026d838c430;0x1d36f53a93efb50bb61540be5120e70969cb80;0x2db32dba95d29f2ce095d57513e57923545a8a;0x9947f7bbfbb4fdf376ac736ce49519820e81fa;0x193aae79c35825ed305beb48c172d7e0040803e;0x1619735955fe30b9c880a5a673e72be161c669;0x5f582c9038ae4b8ff94569245596206cbcd48;0x1444af20e4fc000712702bfe56315c331ae3741;0x1ac7d20cbadf7545882b9798691d6bac09399c;0x97680865f3b55cf4596bac478ec0e7e783e021;0x11166ada658a078635d535f42148cf295163441;0x11d6d19ae4455d1ef615a8570be21c865b83ea;0x204c725857ce08bcd5d67ca6f4fb059e416890;0x1c1f9c0db00d72d7b5daf0ef9792cb351f0892;0x1b1d790f1de8110c14dd66743e9d9002c1d41ff;0x6c8e23af01fcad2bc55c56a156557800e13db0;0x178d6e7a71d5e9e6d95607ed60147cdc2d96870;0xc69fad1693de49b68b79bcb6ec05797f17f9d3;0xd1a93cdc3e2d48e26027defb7a9a8399199e9;0xb3b2e7cd28a602b2045f6d627d74f930906d7;0x1038cfde3a70cb7a19ab7065182fffb1106cf;0x1121c31cd0065b31e6a1bee175a0dd74a76ffd;0x12ddd0e02d45d019382420c99868f2fac47a2;0xa278990c32a948ffcbec1dedf511c3eb8ead5d;0x3be2f3cb7a2d27d6e04783a745a5e5c64bbc77;0x28aa48ea72ff66a40d1488ae0c51798e362c78;0x1e7bad14997d30f19f3e11f6db224127dad07d;0x110ab4c092d9efc82b364a276fc4bd27d947203;0x8ac11ac5c4a124be3b55775700153ff50f4ccc;0x181e9965e5901d1a3d749bb3846969efe86c099;0x1c382fdccdd51d2287de2a1a152e718e01285fe;0xc896d3147c43cef4c213dc346fb93d5591c36;0x17689195c98d32a5fc87d04db0db082c0530a6;0x132754794a3c316bfd3037ac13ca40724e320d5;0x319625300855259656559f12f2b8e0eed3f90;0x187dd0731890f426497d50d1f7e9c6fb56e1be;0x85e87881e14159babb7453a0602e26f192f1ed;0x554f3134f3e1f5371ad58258fc0782e6a8859d;0x18ca677c79b4d968e0fea6c8e56ca334c7977ed;0x6a95da4b046f91e0c29570e7147b6c6c3570b0;0x10a7cbcc6e11935c62bc6c5cb30bd7a8657a152;0x4a4c39f59124bef2421a9ce0c68f7474175313;0xa136e39ac63993bf8dbddc93799b5a046e3275;0x10cb6f77fc6c905eda9cdf073b7bbbe62a9bde9;0x120f68f6acd641317dd223475b879d23dab56f;0x930f6577527850d11b5e053f9155765b5003f9;0x3833e5a683814fb1af26bbe7263161e843e1da;0xa0659b18cf85b1d571cfee23022b8bf662b74b;0xb08844d022f33d091b49b34c99b244e213bb43;0x14e021a6dbfc23e9d144a25a888129888377372;0x1a4379f5d26b762397efbf58ef9bf84a7096f4;0xa60fe02cc3ffd4ced8020c0000f67bdac830dd;0x1fffffff1446a6028d352ddb404bababbf918c5;0xffffc2394a7a13a2e5436400000000000000fc;0x1fff0301f4120000000000000000000000001f9;0x3ffffffffffffffffffffffffffffffff;0x0;0x0;0x0;0x0;0x0;0x0;0x0];
   s_u := 0xb197873b1e500851cbac63e4dce40eaa672c0f; s_v := 0x3d41f813231849b74254b84380d86b7397aeaa |}]
   [0x1000000000000000000000000000000000000fb;0xc1a925510c0b7fa8f3e85c8e19e26975ee579;0x60d492a88605bfd479f42e470cf134baf72bd;0x71023be30bc136ce8d2bdfc106bc6e919b52f;0xeb9475a9b182e9c9d1f1e6c6f5ad6fd5fa33ea;0x2144b6ae62faed1522d617493616d9724ac7f2;0x3b4022c431cec2367c446564ca20fd752cd0c6;0x13a15f1900791fa827f64b55f499cf7bd66088;0xe9e5e871ec41a018783a7edc21836fe4007f93;0xd9b38ff6b13f1a6818546aa99151b1191351da;0xffcab480ed9c2a1b78c6007daf547c826b46;0xdae41e482e1f13e2a26c5e9c577e5bc52b78f8;0x13802a12499f7eb11d2cc50343f5c23c564817;0xbdf642330feaaaa699afc7d72fff4d7fec872f;0x7a95f89c961cbc66e18fe53b2d05a31fc761a;0x5f7370c97c568c48213c7c928d6d02d2272b8d;0x7476c49e8d5b80975929b3b02c6d6fd7885889;0xfb2774678be5315bf2bb44b1f5b81353a77de2;0x6e01ac61c5cf2562e7926c595daf9157314610;0x4d318b73565694165736e8dd9af22c33d256e0;0xd237521e4bd2f59cc4385fe38392e8ad04c5a;0x2dea7ca3409a69cc02b5d944806bcada4eaab5;0x12c3005c6f241873695d8286d765078e07c5;0x150bdd41dfca0d641e66afa15bc375bffb7012;0x4ee89077cf765b276947502a29381911299c87;0x104d0a85d5f3e5e0f036a790cd12c86e2e91d0;0x3dabcfe4cda18e10723ad18aceb18924481d08;0x194f5206f7148c43530bc5d03632ba2c62cca8;0x349f45df2c0edc3cecda3bb79dde495b590da9;0x84580585d87b58f37ddbd3da3ad47a5b62226c;0x9c0c781ed8ddfe8f5fe2db7cace88a7c46666b;0xe4973872e723cfa2eb585e08981c4bc0e52bc4;0x87f95c5b5567c7f59e932636045c5aa6c33c1f;0x3d86b9d626daca72a447dc9f56785374bcd67;0xd4df67e6354582bcc9ffc93bd6753384579215;0x69c58cd837d6c800f116ba19e6e34b53477ad1;0x14131fe2f1f94a33ea18b7ee9620eccc797439;0x115879bb8c5732ac193e5ddea9faa234f303a3;0x18955a76996f09b2b40311d23c7c7fa16aafe0;0xee773b2d43ddbe1370ab6a1dea8581a9f65b;0x4b7d8991938ab11aeb704a6748bc52f28cbe10;0x283bcd60e1e1be2b2a01570187e9f3b92e991e;0x3c12eb4cdf6976be9b6172225ec04c8c45570c;0x7d94303593c32618ce0abec334a90c32929896;0x6c2af49bb06b7a76de67b8961fae7ef1b3140b;0x400f623cf467c44ad27cfbe2169bc95a7c7d2c;0xc4e8504d63cf2e4efacb0cb8e2034794ad36;0x6a254616481efd454797f73fa802935e118c15;0x4ff425dbcd3ee071b57d92bc5e8423b4a0a60;0x15847b1e58b18668fb20105a5a666f229eed9f;0xf95f51a48b640ac8e3c8b41ea9185e317853;0x13facf8240704ecc98d95dcef1f2750b4cfc4b;0x1fd59661c8ca78f55a8c34b760046424fc3180;0x702b75ce2470026c916d9d16ca7a963461b54;0x3c7677fe64f9abe04fa9f66e0047ee43af462b;0x96fff596477fd45fc1d133c45f9c8e3becd1dd;0xe81225d7a5e0a55a430da42357e4ba47e3ddad;0x3b567d3cb1377660659d803c6b8097111661e2;0x2ea96bbdf26cec63a56933b053f0d716f86251;0x5cc5b4133408ca5554782777f7fce53854a4f6;0x9b32aeb87a25143c80c0a323e136fbcbb91928;0x2838efaf6d07ee3268e3b9af5cca199c5640a;0xe67ce510ded549136496c704e1cbaa725232d1;0xcd7852fc860dd201c057640b8297c1f9c0a1a7;0x710d1b9988eb761d6ad32c07413842e4a99a70;0xa145998dcfbac0dcf80a71df1fc1dbab26b75b;0x1271ed41f5fd59f5a7188311d594df032526d0;0xd6da406395b1216d65b3e27f334d59b421f52f;0x4e542ce4273e56c765e70b68ddf30b97d95cb6;0x9600674c73ac3673ef5c330b65f92b18636678;0x2486e6478dbc765284dd0ac40825c66d1d97f2;0xfcb398c2e59d23792a58a0dac16cb3d64576;0x3db3970548b0d8903b115b51a174904f1734;0xeb9cc46ca2cdc2880a0da64f4968a0513c56b3;0x1c8f9314777821780f7f92803c5e4af4df9bd1;0x46b2266d4bc658b117691528c5f3e3996c0cb6;0xb25d0dfdbb2d2bf02bfa9613ca4497eb83d48;0xa468bf79c26731e6f336990eca5b1ea99b8b2;0xef096ff9fa78f5a5ad9d1e6cc0e713cc2de27;0x317e03d55bebb4813a01289d74475a47222d80;0x262ae5ff3d064bb5e9029a7d16ed3c27bdef12;0x1815e0b1335c0b1df065409c2760e2addd9560;0xe31a92a4ac3502c435b3b53a335a98ee4b2e71;0x542b0dac038ea58c1b0fb5959fdd15d5ec6be9;0xbce3b658dcc1375688e178d96ad68aad6f4182;0xd8d00e1f81c1e3782b39985d6c9b015751444f;0x79bcfb25f6e95b7aee9f58cb1113a3c8c09e5a;0xfd8aef54fd4c089008acc98c173536fd020ea8;0x40225fc2b8a2c3ba3c696d7232a5a4d1d027;0x9e5e156676c554661349bf29c90c54c1267de;0x12339da12b8032ae963b5686d0e0334ac5cdd4;0xb647f0680bfde0cae364be414007ac02e7ae4a;0x1b00609647d374be7a4c7858350724892022a1;0x24099f0f0b9b02c88a4bad522e2239a3655957;0xdbe28bf9bf73fb79f6453b0e60c130dcbfbed;0x12c0e3a7144dde63288891884bb0c6c1b0b533;0xf8dd21d274ddc9221d688a4dac3b1771bb8ad;0xa6e842c9e5b409394b5d78281bdabd822fff47;0x585b0e9815d8f30b78669dbab1e1d45cc7604;0x6f6414998a641a28ee5ca7fe7724f0aa53b91b;0xfadc7b9c9beada5043dcd75b715b1b740f23d6;0xe6e6dadc7116afeae7fe0b1345cae1743be5eb;0x1f8d44b8dfd83cb04cabf1e2f89bab45cd33f;0xfb0cb66656d6b6767b6412376937594ba135dd;0x5b1dedb82ceafbc781377c4c4972d7e7f87b6c;0xe5c5e392fcd58ff26eb0fffe0bce2705a21b9b;0x9be55380f5f9b82ed9874ba6080106a6d9451;0x14a07be5549eba623bcd4097e2e312589898e6;0x102b571c0af8194bd50669bcde2d1d85a80dd9;0x455a866212d50f64b0e28d2ec3227c0db332b0;0x57142fb3851ca02f2b3d8d0643f5ecbd34f14;0x11aa0d2be5582729c977533e3c7edfce50ef;0x14213c843be5af7c5cf344462a4d3cef01971;0xc810d66e19c0205a404c7fd690717726a955be;0x1bb7753ac22b84fe0588404ab4e7c7156dc434;0x4cbfe5fde7ea179f6011a1ecefa09b8763b1f;0x643bf1d0b82401571d889316272b4685db20bf;0x5207e6b5243ac69b5bcfa5f57eddfafd0b4ad6;0x27869905d2559c866b2b565115777103982de;0x37b1063bb5eb8ead3d91f89e2ee7788152991a;0x518fcf04b942e12370bfab6c13e776a664dabc;0x9b075b99446c4597991003721693304523e868;0x5bbe57e409f12ec788698db5f306b99f86e;0x6500623e8c2cd12dde69d3129057f299941a65;0x2066a198a7e452e3a1b280f18b0e0764c89d9f;0x203b7e88ace2620c6f687de037dcd04dde4a6a;0xc3800377c5d53b4a27034a077607fc2a3fd145;0x504963ef0b4a94efe692f8023daa3a00dde877;0xb26e40f3c018ac1bf4f42d1a58c53ebf0bc605;0x15a7a97ef3719b18cbc1d5f1f4d05aeceff91e;0x2fd0fe2bf745c687f59c22599818e0f66fa8cb;0x176cbf2c6a03226cc2447d9e4d74f4c3aa3db0;0x5f65b4d5dfa970ed2992edb9465cd3c1e5b7;0x79ca2757f9da4953f0e18529e137af6ceb90c0;0x75e9a390f38eb3360cfbd8529381441ff1981;0x10c3ab59ce4ec628a330e341455e12347b380c;0x17069140ec38ee8400ebf36d92d884ff5;0xbc854014fba45b05b32dc849b3290ba7fd88be;0x5d0087c6b16dc29ed429c3ebeeca71111ca48;0x6dcd0a444a35454658f044e893c415a72e0b1;0x380ac959891dad9817734e87639f69292cf046;0x4500d2abc877432a57f0ffffffffffffff0b80;0xfffffffffffffffffe11ca36000000000001eb;0xfffffffffe0600000000fa09000000000000fc;0xffffffffffffffffffffffffff;0x0;0x0;0x0;0x0;0x0;0x0;0x0] _ _).
  - vm_compute. reflexivity.
  - apply Forall_cons; [exact prime_5869896824746875009979'|]. apply Forall_cons; [exact prime_4078967803638757'|]. apply Forall_nil.
Qed.
Lemma modulus_19 : prime (2 ^ 152 + 253). Proof. exact prime_5708990770823839524233143877797980545530986749'. Qed.
Lemma prime_1217' : prime 1217. Proof. now apply (trial_prime 1217 19). Qed.
Lemma prime_36493' : prime 36493. Proof. now apply (trial_prime 36493 97). Qed.
Lemma prime_119959514223823' : prime 0x6d1a403b94cf.
Proof.
  refine (check_ok 0x6d1a403b94cf 0x6d1a403b94ce 0 2 [0x8e8d;0x4c1]%positive [
   {| s_r := 0x8e8d; s_c := 0xc3ee9386; s_list := [0x17bd13811393;0x1925b03976ab;0x3155b2b9a27f;0x20f689ed;0x913cdfb788;0x2d3dab0ba31;0x2173baab3b54;0x6bd01f40b928;0x10321440ccf5;0xef7ede37681;0x141cd355c296;0x674a0ac3c3ea;0xafbc7f1ba725;0x51d608f44ead;0x5a26c2e02f6c;0x4d847d766233;0x5b2dcbfdc530;0xa616787020f;0x9a01c808bcd7;0x3a4372aa;0x34239e82dfb6;0x5b11c390b48;0x5f113f3d8168;0x958416ae9932;0x4beedda3a5c5;0x1a2f80da9763;0x2;0x0;0x0;0x0;0x0];
   s_u := 0x4ba525e62b9b; s_v := 0x3f359d7b2438 |};
   {| s_r := 0x4c1; s_c := 0x16f338a24e; s_list := [0x371bb3d200b;0x98cd18adaa;0x40c3174c40f9;0x4b62338dacd;0x97c37f5d353;0x58c224ccda33;0x16fbb5a05466;0x326b7823c163;0x26e0fb3e1f1a;0x299ac894b4;0xc613c5b11f6;0x57f2df0deed2;0x1cd53ec38bd;0x2217101d273;0x98c6ae4519b;0x3c85e1fd09bb;0x138c926d3a28;0x27e9f79c3440;0x508136b1e01d;0x5954ae180c2f;0xcca68d61b17;0x12cd560ec7f8;0xfdf7d948651;0x4f131cc32c;0x5d98540e884e;0x7decbf225bdb;0x618e24ec4d96;0x484e38762078;0x4cc0683586;0x6538f1a84d50;0x12c575fbf7c3;0x0;0x0;0x0;0x0;0x0];
   s_u := 0x578b255130d9; s_v := 0x2f4f3306ae17 |}]
   [0x0;0x1c7a3353ebd1;0x2c8d13005bce;0x6812327d3569;0x164f46635945;0x147698223258;0x1280522ebd4f;0x678cce6a2da9;0x2e77c8c6eccb;0x1ee9853ed38a;0x11e5bc38b6b;0x63fc7bbacdd5;0x20de39a224d2;0x33c2c1a3f916;0x2744ce0b9ba6;0x5f627456612f;0x29fa2aef77;0xe5294b28484;0x311b0bde588b;0x3498a0ede216;0x2b0f9ac8576c;0x623257d6ee1d;0x118983d3ae35;0x3819b56aa541;0x28c5bff501;0xc6da459d9ad;0x64a2611658fe;0xca9b071bbc2;0x5fd6f7e53063;0xe775cc89b12;0x5ea20848ed2;0x6482a8bc251;0x2459e37cf10c;0x4ba34a2a71d2;0x3996d41e9a25;0x707d9295e52f;0x6037927a505d;0x137e18db3944;0x4ec83a392e1a;0x72a25a8b378;0x65ac8547c28;0x96;0x0;0x0;0x0;0x0] _ _).
  - vm_compute. reflexivity.
  - apply Forall_cons; [exact prime_36493'|]. apply Forall_cons; [exact prime_1217'|]. apply Forall_nil.
Qed.
Lemma prime_842759662099198845512679037' : prime 0x2b91d4cd3991ca07fe17e7d.
Proof.
  refine (check_ok 0x2b91d4cd3991ca07fe17e7d 0x2b91d4cd3991ca07fe17e7c 0 2 [0x6d1a403b94cf]%positive [
   {| s_r := 0x6d1a403b94cf; s_c := 0x663b88770c4; s_list := [0x924f76253493ea4c304ff6;0x4fa2151cbdfd03d931d7f9;0x4054add2c50d1c312ca7a28;0x4697110e02ffa02542d592;0x2453414a00909815464043;0x96e963ce78ca99abcfb8;0x333b76c281d4242203f29ce;0x2389f606cc817a3b31b0be2;0x27446b46ec9c1d78f88b7ab;0x1dc829eb794bc313c4f845;0x54a06a03fb2aa63813a8b;0x1a4dd8505a6606d5834f6bb;0x352ba1aa7d421412bbbb302;0xdae55011b233ccc9b32561;0x4b2dc07e72e1274845adb8e;0x57661ac1ba4df258c8089a;0x42b369e1bebc6f4d3ed94c;0x44663874c65322838792e;0x2171495157dbc7b4df58157;0x1b1bd7134365ad2fef6db12;0x19764897b298064b75b892f;0x110e94cfee166eba07711a3;0x17b0ceaca99e4e39d0d3ed5;0x9b2dceaf6562e4a88c6314;0x1a1d04dc2c24b6022f91d06;0x2182c75f3da9efe117cc3a3;0x1271b948ff592a4b1538d8;0x104d8895ff484b1031d29;0x95f2bf422f99f3cf33ecda;0xa7a10af64421e2e91aa6b4;0x1278597f172fd47a4da64c;0x526e5f54dd4433ac87d0a7;0x2239ed1f2d64477765a6e0;0x6d1b1f095076f127db0686;0x30ea22898579cd54d43e9c;0x1341a9589c05e311d3afa42;0x1780;0x0;0x0;0x0;0x0;0x0];
   s_u := 0x2081d2ef1ff2113ee74cbe1; s_v := 0x1a8f1bc2803d53bf76bc855 |}]
   [0x2b91d4cd3991ca07fe17e7b;0x24a92cc97cca5bbea6bafe9;0x1989896c0e43ad819a4a7ab;0x43a59837aa9bd51275dcc9e;0x450b02ce010c070103b8cc9;0x25bc9d803b44e66b874747;0x3f0fc74fd735948db401426;0x15fcf726eb847ba7fc1c15c;0x1220b459a4b43445345a0eb;0x2abb3d036c52d2c32fa4726;0x4b34f86f0df7762ac137f3c;0x1df94017e77fbf31c7c2ca2;0x52fbabc278e59c6028e8ee;0x27a99602aea1c96facdae;0x2da45c7b549e1b09d9bd;0x1928b1d619ede174789433c;0x9f09cd8b793452181c9031;0x1ad3ad7202057613dad106;0x1b711aa980ef7176831443f;0x63e3dc2153da79c77af3c;0x1cd495f37e8638efac8944c;0x3ad7265c02b2a20c1cab46a;0x150d419f4c43410ff1e7b5d;0x449d1223811e97401f3a624;0x3a277536783be87a2853d4;0x15429aa44d32cdb1899c0f9;0x3fb247bb09afabc6e914a3;0x618bdcb363fa5f752884;0x2a4119a4788ceabed2fd237;0x6d616f0c12c1b43556f411;0x2e0746d66e0f7163aae26b6;0x11b848fd861b990bc36edac;0x83c60d8b7711bf99139693;0x2018bf5fd6e97b81789693f;0x2027050235c93e2bf81e25f;0x53e40650f54f3571c7ffc6;0x1a41ce05fdcaf66a0d4654b;0xbec2baa84d1cf52e7fedb6;0x77f8da25df4d4de663f687;0x505504c4e16d3ecf0fba397;0x189206d271c1e5bdb03884c;0x171383debb80c7a3cd209df;0x91effe11432ddccda94fb4;0x12577d22016a88eb3641c82;0x1f02d6704a61bb1f2afc698;0x8e5e430d00ebb1e019a66;0xa6bccaf8366ebb46eb82b;0x27d4074b495bff8bf8083a2;0x29bf71a351507a8dfb3d434;0x3118aadd7659bf662e512;0x1ca7166e8ef70b726c8e20;0x121e49975e49a198781a135;0x591324fb4cc8ea08c142a;0x357449c90c64e6d3b49a13;0x89e590e6d7d81b447ea96e;0x153eefbb825eee6d6d486b3;0x526daf357d3f31341f0e16;0x87feb79b3ef75db9a3045d;0x3c7dc5b7e7719ba30b6385;0x155d8564cfe157daa35c641;0x18c177f094cb0c0f1b83f8;0x246a677557440bc2466e56a;0x39c3ea85cca176c224f683f;0xc312f6e8faf8ac2884d02f;0x15552526f817b412359907c;0xd2e71f4de9a200c46416f;0x1fb0b39115ad9f3115dd42b;0x7dae2809767ada1b26bde1;0x148734f22d5afc76908427d;0x96fb5a0557b5cd102097c6;0x3a1f5c59e5435ef3ef1a854;0x121baa64be4ebfa1ec3ed76;0x56da3564ffca5d78f8bf108;0x24f24e4608d811b7db21cf4;0x47ff9103c890f629f1812e1;0x101cee262fd7249b6266176;0x2966ba57c075b372a24e754;0x28798ab7b018b46fd12cc5a;0xfe02cd8074430ca35dc414;0x69019bcd88186eb8a8534d;0xecade967032cdf74d03bf5;0x423c5061fee91ad813;0x1780aa30e28e2622120000;0x0;0x0;0x0;0x0;0x0;0x0] _ _).
  - vm_compute. reflexivity.
  - apply Forall_cons; [exact prime_119959514223823'|]. apply Forall_nil.
Qed.
Lemma prime_23597270538777567674355013037' : prime 0x4c3f346724bf218dfca9d5ad.
Proof.
  refine (check_ok 0x4c3f346724bf218dfca9d5ad 0x4c3f346724bf218dfca9d5ac 0 2 [0x2b91d4cd3991ca07fe17e7d]%positive [
   {| s_r := 0x2b91d4cd3991ca07fe17e7d; s_c := 0x1c; s_list := [0x0;0x0;0x0;0x0];
   s_u := 0x437bc670f43d7287a3ef7a94; s_v := 0xe293a77 |}]
   [0x4c3f346724bf218dfca9d5ab;0x635e85a50eeedeb37c026f9;0x31af42d287776f59be0137d;0x8f10de48deddc138baa917f;0x46defe1e4d50a03be240cab5;0xfd50d67325fce78a35831;0x27537119a8dbc4873095956a;0x2a2ce62b2752d07a01328313;0x42f727b46615ba83beb47324;0x3dc2c23ce131415253e5bc34;0x41cdad8df8dc42fb19709a43;0x1b63ffa8f553539cc2990;0x2e822007e13b622059a4e08e;0xf6028b5eea932bf3e11f939;0x9a0fb65d13ab68e5b5d308a;0x130bb782a0c3fdf5b39bd0bd;0x129beb7720f0b5acd8bbc9;0x137391e639ee6b003d54853a;0x454871434de97c346f11b28;0x21a6cdb5ed3d628347361779;0x498a49461ea2bdbfc3607a18;0x4c5cabcffe68f276dbf3b95a;0xe793591d65909ce5e0ad8a1;0x44f578481e600b7ba1d3c3ac;0x4fc3e79e9215f2dec3f16e1;0xb527891b0750c8ddece193f;0x7a78fd7f0c42f29afdea259e;0x956e29b82c7ab1cd16d784e;0x84ba3e7a58a909ea150c43a4;0x887d5cb7db3db25ef6c18715;0x12fa5aea1186de81c3239040;0x294225c456b967977523851a;0x8551372f60e1493e49698db8;0x30b389e7ebf5df903b6bd192;0x6586cec38e87032518bc648;0x3ef04ecaba9642c0ad1dee48;0x594af79e152ab1f79f1172;0x29b11ccf720a513cf6a115d;0x2380c14d75f71bb100d3cf36;0x86f79e4230a3700072e595b9;0x915b45ba7b165f017ebe105d;0x3fd28d01ffe5ceab0457981;0x170f75b7e45d790a583d8089;0x31bb4e0a044ccd8e2b3088b6;0x292491e17e9025646a06c841;0x424020edb9c17b43719f3562;0x72a1e9ea3e8f6b27924e759;0x21aceacdd5f696c9d731116;0x973e94753d895f6323d85675;0x74b37100b60d0592cbbc0553;0x24b0189b7b9418d32241afa;0x5a874d4faa16ee75e83ef815;0x8c174fcc2b965b28040741c;0x149153b4d07c769b365671b4;0x2227e65218c4789af1eae819;0x7b2be40d2ea0c52157367379;0x291333548628ab618a9f12;0xe7e6374bbdd8780f0aec91;0xa28724eca443743945d26;0x46de317161f62385f8d00ad9;0x130c80bd791958e23ee87fd;0x3c14fcc912ba69e02ce26ec3;0x2d8bc541476f1244a45f615;0x19d653a68eb0471ccce00bf3;0x55bbb1e12e19396898f32b9e;0x81dd7e8e7c10c70f9ca8e561;0xc49b6f13e5d74313d5a2578;0x24dcca94a5f640c340af8e72;0xaa00b87f26b9c05af166e58;0x494de3b798d694fd98ac378;0x46eb42eabc82ae7329c1215;0x2d669b46c0fdb650800238d8;0x3126bfad39ccd3aaffe5eb88;0x128bb2132108cd9a9462ef;0x8e4e07ae62bb16ee8dd0a760;0x3a4f89b313131737c43ff0a;0x120578c64c67176bee3809d1;0xc578f42570b367819f2ee54;0x41821dab4225a84a06aa64b2;0xe19df4e86ed6bb4a7044efb;0x62cf334a8fe096590c18231a;0x7a3fd0168df684f7fabd720;0x987d8ddc2d1539cc0c4b5cf3;0x342b3d3e9c86b35090067f;0x3ede13ecff5ab223c8d6732;0x77afd3d740aa9126a2a5e943;0x3956b7e460be4bb7cab5a7d3;0x35b8606fbcb2a04;0x0;0x0;0x0;0x0;0x0;0x0] _ _).
  - vm_compute. reflexivity.
  - apply Forall_cons; [exact prime_842759662099198845512679037'|]. apply Forall_nil.
Qed.
Lemma prime_1461501637330902918203684832716283019655932542983' : prime 0x10000000000000000000000000000000000000007.
Proof.
  refine (check_ok 0x10000000000000000000000000000000000000007 0x7 160 2 [0x4c3f346724bf218dfca9d5ad]%positive [
   {| s_r := 0x4c3f346724bf218dfca9d5ad; s_c := 0x35b8606fbcb2a04de; s_list := [0x67ff28d2c5f7492993dd9bde07536a440d0a501a;0x1714122caf89315d6c7cc169571aa6bd93e374f0;0x15ce535add5bb00016218da46c6e02cbc9089af4;0x16cb9cd66560521240143b07a0c3da4659d3b2167;0x2102343b9a6c5dfb2103eb91d06e74a77a92222;0x698ff56536b8466b117d54e2d79e84164d9c6b1;0x84e6db8ed5647cdaabcc802ebb830ecaca5a44ec;0x166f5fc1494dca4c6a577c199f0967bef819a5f6e;0xbec3ba290d87072bc016017321151a86b7b1fc1;0xd1e977edbdc1f642b85d5692abf0415e7866dfcf;0xddb3a3addc42ec5717abfa21833100dd211830b3;0x7301122ae6cc73ae246bafef04752a2c8913a36;0xb0f65305fc2a64f73151bed7ebef570d105edfda;0x2fcf4e72cacc2e7be500c4dae1c32152a6c91bc2;0x14d2c9324f9ab4ce0f7da097ebe37a7dad927df0;0xba796672712e2cd193c0020f2684e6d87a580110;0x1d7009907788d80b52278f54de556ec36a1276;0xa3504ecc3126076da3e8cecb944601cc96aeebbc;0x3073eda0cda47666dd8e66aefbb9be12b9bc5b2f;0x1737f95173a0970346a922726bebe0594084b0f00;0xce4ba73115e0e855c8edfb21b03102a801e1c2a;0x27139c2d2fd29c472e43b5bb116935b15b73d25b;0xbeaf5bb6deb81113f4531ffa475b56144750bd7e;0xf89c7999b90c6352301bc4616ce3834e856cd09a;0x41dca84ab0f0624b1b6925be8b79b9902d7a547d;0xf66a533af1c945511fbd363e1aad573a7bb8d62a;0x673eb0ab590eebc6555e5feb4897b2d1a91f82;0x9e5d973e52654f36aeca7fb10974f6217b89c3a;0x380c38f8f8158f623268fb498e01db8ee5898124;0x8aa2a881e730ac3d31bbab24e8b6ee5c44331312;0x15954a5bf44a2e838a85ce9ec0600f3be5e68bd16;0x80f269edeb8cabf5693986c46cf7129255a110bf;0x1961c9d71b24d506fc8c7b8404858f8a183cd34d2;0x1bb7780fe24ea92065eecb8153fa0d44147176489;0x124ce7ad706c6f04f7eefc5f687009b1c9d74cf4;0x1e00d38af11c260e19944274874839b6a1416c01;0x1f4b730b2ab9c140fe68f3960061d89f93c5b686e;0x8b4f585bfdeb8905cbe0913c4900c3895e4476f9;0x18ac61c261b66a76c2a6e68da2fbf698e002090;0xd7c867cc3705a4c10adeb5be6d73c3b7ba9d46e;0x4e06e95274dbe0647a348df0d05316fa40e0086;0x8982c518232f2bc5027003696cf68dc9ff89c71f;0x2db489ac8f93855bf2247c5f8ee4fcc8387cce24;0x5de7abde064ec25c418572d77fe31a1c6e865304;0x3b9feb4c81ba00272299045da69496cf331a868c;0x2afe854c44e4354a864718accdff082613483f53;0xec67b20f50df34fe8ddc91e0659680e91ef4c8f9;0x1a4ec66d3f9950051f60303b2568b8e20e17fb4b;0xaedab93f903687b3aea06f869c8795c82c293c67;0x1bf61a1a5983fe7d0797ea6fcfa4d2c14b5671273;0x1e11c7f3ca552153f0a1f63580379d45ee953a68a;0xd253465b56018575d6646941fd65065776515c8;0xfffffffffcb6d346dd5cb1dcc4172ea297ee45;0xfffffc1fd2c33b9e5eef86dcb7f23e06460ecc66;0x46dea92e1f85b83fffffffffffffffffff;0x1fffffffffffffffffffff7cb200000000000000e;0x4b07ffffffffffffff;0x1fffffffffffffffffffffffff90000000000000e;0x3fffffffffffff;0x0;0x0;0x0;0x0;0x0;0x0];
   s_u := 0xc6720ab3fcbe794763de495873bfc2e0b538e11a; s_v := 0x70ec4dfff36458809551f0bf2d85f4280dae278f |}]
   [0x0;0x1ad947975f2e8737977cd1ede1249658f6bb4c057;0x172ab841d6e897f0f239d21d967839a27f7d643d;0x10b828e11d9f216f267e3f9f8b138f2e0abc86d;0x65bb9e0c298e050bf1cad63e1e7bb3519d74a084;0x79e0e878208f4274b04d7ca95b77996fb60968f6;0x2da2b448767c48e29a769e3fa59dabcc33c31f;0x15af90d75cb7714f7cb271ce25aeb2245ce13334;0x400e03016bd35d02d75d4d828d0c33e59e054d6;0x344b04d0c64c15e685db0c20204bc6403cde10;0xb217e8b803078c35f532ff587a6af6c2657d9483;0x8e32faf14d7def1141b224611e8df7e1cc56e5c;0xba1c4436b683017024d767a3e19a2bfa68262714;0x54a457e4fe542a192698dd4bceafbbd072c91122;0x1bb2b92836fc13603b8ad9581b2657970f141d8;0xe48c699e6cd4d882eff5dc81609427ba81dc6;0x55cd49a604315cea37b817e9c218eebea88ada57;0xb57049a8ff1d2b18bdb274cdd73b7fd80807f7ca;0xc5aacabba26e7a1d7fdb6a8445a30afa67188577;0x2f57527f19d34f0ed1c0a4919ecc1cf915341764;0x4fede06d79e995f9d122aa961b24ace18a9135e9;0xc39ad160fdd6cda10861e5f4821aef9802e67259;0x6672b74f0acf84d9a8fdb774b18169f28eb1f477;0x7d8d886007144602116bb1a6a0588f3ce1158e10;0x28ac370a96a2bf915f9b04fa2c968d07df5a31eb;0x22f79cd26f91eca6ab1b401d9e8439e6976e809d;0x9d09f8d9232aae3bc388e1c8b767e6c819f7547;0xf4e68a9267465efb376071617c77ccf056bfa322;0x7292ba20afd33012063615af814f16f32dea1c9f;0x2754703b2c191aca4db71ab42fced2537229bc28;0x9eb63037c3314858fa4781146f46bac33458f96b;0x60ffb4e38de64586ddcbfeb6707a2ddb1ff0d9f4;0x4e19f43f430049b7d6b7be5ab130cb9f38efe89a;0x192d2ae0dcbe605b0ad0e90eace680d1f41cfb21;0x2e93da179e8af92daaab7924c6af4fc3cf019ce;0x1643cdffc3bf40c436686b4a02b420ae90bafdec;0x3b36b08ce76e784f71ce55b278514722207f75be;0x66ad4cbe3d4a3aa9262e23cda97f1ffa8c434f1e;0xa23b1a43493ae21c6fe462dd70b93267ad0a6074;0x94c5efdcf46c31d52f620c402bfec42d6dd6ec0a;0xb6adec42c970cc7711618e5b42d4856939e1916b;0x210e25c4eb1157f6afc8514bb4865ec96a40abee;0x2eb3366aaf3393110f3bbcc5eacb3d7ec083a3a8;0xa52933569525558cc44d8daa10028f6d2edccdd2;0xa16733aac7112d3ea85493ec567c94ace2a3050a;0x4f30a09d403c38b46484aa3b66700019778c9943;0x36d273442e4d99494fb19b69aaf6f5951c5fb9b;0xe0ab912517aec69396bb14d9fd4284729ec17874;0x16621c3f3e58109e56a8d0d432f507779b6436fd;0x6e79645cb0c810c664621da62f61378c97aa2b9;0xbbce5ebb6c2e71e51bdc2f8e4205dc469cbc26b7;0x688ddcd62d600ee01e5eb96f42c8f50b2b3bea5;0x563f4af0ca0672adeedd934855ae76942d66eba6;0x1bf2693445374ed334e0472e298cf68b2827d61;0x4a0b3320d7626c93e942988a0ce0954697f0691e;0x59722922600d07c904279697893cd5c0027daa3f;0x2df55711cb4999c17231994117dd61727f920;0x3b1e3dbca42287d720ab6581704983071335cab;0xc06b4fef9cd477224e45d21e8f680faf5419fd86;0x62e531de49cab238d44f6abcf1bb57d9e35b9237;0x885b139216ee10a2641806927e5a719d68855fc3;0x7e1d6de83ecf7ba304e6bb82c202d048812d552f;0xb71e9db5e7e935d36218bb6f401ed67dfa46f363;0xb04c03341af6dbace835a5b37361c59392dfe1e5;0xbb78ddbdbad3134af52233057985156ec6864ee8;0x6934a36cb3ade4d4cbee000a0433508d4717216;0x3a18c9253950435bb6a078acf9fc8319f95623e2;0xa79356a2b8122ba50b7c9178fba44fd2fbe6776c;0x1cb20f75a3d92d9ba1103b30e16980aadbe75ab;0x43193f6218e51a66789b775a04b1696bcc747f9f;0xab077a053db135f563ede15a361c18e84d64ca5d;0xd87e250896aa3809546c767e9e77c51373344164;0x293f057a54367954b68849b9dda43786a09fc7e;0x1027b6f7aac2b09b9d36e638186941ed2b132452;0x2aa36ff3a7f860d2c3bf8f8a311a80044fbe688a;0x6eabff1172795d78c9d399004f7990849a20e;0x13c5cac50b8f113d10f0e101e2cd383346344;0x45ac056b558d586c1c6b9f8701adba5e53f47323;0x91e176ba662bd50e00c5a209b1c247226f95c281;0x13e130db13b8e942a26546f84c2efe45b4ba435c;0xc8e74663a68aa77f2029aff5a720e174e8ead7e5;0x4210655368f4806e26b39fdb85aefe1557066f1;0xb38ec90916ce4fb8f0bd08ab4c5d986ba78f55fe;0xdeebf1ec02f823249d42bd4d0ebf6e6a56d70a;0xeac3d7d7978878acdce0b7c5be73fb6013e50f0e;0x61162aca6c9ea2c6c9190f83e8785813ee9465;0x7c4ee5e60917c4ba150230bf0cb46790435445;0x921bfd1f8f4fdff068c6b51396f16de7ebc24d18;0x7571e49fa8c06336a81f922a90dc477c98cba262;0xbb2f3db8bba1335026ac10a0b0dc9ebe9def7f7f;0x1fd7012961e9459568a126766baefae770facc01;0x173a2921ea460345cf8a88f21aa1eddfc26668c1;0x5a9d6217b8ea5cb73a341f72143b4a4287f3883;0x6ee36f06105bdac14bcbad6e637f6ecbdf6f4316;0xa37c36f0a1e5b32f18ba7d3024fddcd92f6ecc7;0xa3f5ebb969edd28348ec33858aab984d3bf36e97;0xb074b60cef8328acd25b88a1c6683b8a941b53;0x34acef06effacc26df5d156803ea43b38f48b3fc;0xf4b026ff854d668833b12598733070336012a087;0xb658261f803dcab6e0d0c715040444ca71737fa3;0xbcee9006075718fbf19b3916b1cd3e3ae8306245;0x388289f8268f21e511e2bcc463a1e692043dd28;0x4461eac8b992ff422f6f8e4a7940173423c159ec;0x1e8c7d4765baa89720447bf97c1b1378482d7589;0x221c97e9eb645aa74ab3120b1cf7fcf291675307;0xb6dfe7342b8e749c7721fb7c6a8a815410621f;0xab685df9d702445b20d4f55b551986fb80cf82;0x254060f5c60879d28400c37f687ca3705b0ea3f8;0xb8c31157711479425c2ade732088e57abb1c51ce;0x2aba61216f5aebd5e364aab1698c0968ccbda474;0xb055bf58a72aee211d944daa4814e33253e32307;0x4095168969bb164457390a9ff4cf333123c087d;0x5ad8db352c69162524daca92c110a98752cf9c6a;0x37a9a6df3a7f0956edee49a9d1848081fc1fad08;0x142d00efa2aa79dfcfb0e1e07545d93c3222dcf1;0x3b9e4baa4ca03ef456bc7c3e3f702aca59264f7;0x34cc4d4fb4701aa09107fb60624e2bb3267a96d;0xa0193790669904a9c8c7cdb4e59ab996bae34f72;0x55456f273ab33d174ed73118756c957f2f3f5d96;0x1c12b9812ec885962832f6d474e88e0f7ebcbde9;0x173f3b40c331d8f34113d151eea65d36fe278e5;0xb29ad439fe2ccaf506f12b02ade86ec5341efc4;0x35589e2dbe17f4101b854d8fe9335aa39cc5bb95;0x99e218f734edb4a92afb0804a20dc5110787c0e;0xec092c80305710150ade52cde695c203380be37;0x2c8b8036e45f4f7850838e5f6f2580b621645d3d;0xd44662824a5fe3f569ae23ff08fd8c4ad8961b8e;0xbc984b740a1a2a2d32362c6362b9a519540384fa;0x17fe5222bbd384c763e9b375ffe5d2a997dbad21;0x39387b3027e53dbd268f2a2e8ff71ca428f5ebfe;0xa4823bc72999c635e36f12f5d758882b13b1255d;0x8fec61caa486a0b83be001f483f9cbaa9ab1268e;0x138151b0d01433d0453f566a766d8fc5f1295a84;0x8051df02f66114a6d9485104847006d1609f5d4f;0x2dfa76112d0a26f26c22d2a8406bac7cc7b689f;0x376e3d4d2dea44036a5b9349c599bb9efd9e45a9;0xe75171d6d7bc4742f58febfb38dad744728362dc;0x518cff969038fa17f5895f54adbcf1cb16f7c7;0x374cab6d32daa011bf08d80a355ab66d3d3f378e;0x6303170dc44681f6519c1d6bce218c1173cc255;0x78626de28e855fade6e34fcdd7eb14852be4ea6e;0x3ce5f982778946be565519d7d9d1297e4caedced;0x20c7c1b63907a382e7cc73fb349057167a983;0xc7d741d6c413a5c05141cc873716abc8cda61171;0x6fff52ed7cb2ed998c75075b053d72d09d2a147;0x383e8540cf11420da44e245fc2b96c4a323a1f9;0x40f93e31756a3754c67dca3916975016dfb72353;0x171ee1654904ac4a95c99147dd9dd0b100000132;0xcb1922056949440fffffffffffffffffffffff6;0x3;0xfffffffffffffffffffffffffffffd5200000007;0xfffffffffffffff2000000000000003100000006;0xffffffffffffffffffffffff;0x0;0x0;0x0;0x0;0x0;0x0;0x0] _ _).
  - vm_compute. reflexivity.
  - apply Forall_cons; [exact prime_23597270538777567674355013037'|]. apply Forall_nil.
Qed.
Lemma modulus_20 : prime (2 ^ 160 + 7). Proof. exact prime_1461501637330902918203684832716283019655932542983'. Qed.
Lemma prime_1361' : prime 1361. Proof. now apply (trial_prime 1361 20). Qed.
Lemma prime_5521' : prime 5521. Proof. now apply (trial_prime 5521 39). Qed.
Lemma prime_2473409' : prime 0x25bdc1.
Proof.
  refine (check_ok 0x25bdc1 0x5bdc1 21 2 [0x1591]%positive [
   {| s_r := 0x1591; s_c := 0x1c0; s_list := [0x57682;0x14c30;0x15b11d;0xa8b01;0x6c;0x0;0x0;0x0];
   s_u := 0x218e30; s_v := 0x109f2f |}]
   [0x0;0x25bdbf;0xcf204;0xfce32;0x87f98;0x9fbb5;0x55a7;0x4b99f;0x57b8b;0x1c18;0x1bfdf;0x379014;0xc53b0;0x2d8c8e;0x547e8;0x1c182b;0xd90e;0x0;0x0;0x0;0x0] _ _).
  - vm_compute. reflexivity.
  - apply Forall_cons; [exact prime_5521'|]. apply Forall_nil.
Qed.
Lemma prime_4946819' : prime 0x4b7b83.
Proof.
  refine (check_ok 0x4b7b83 0xb7b83 22 2 [0x25bdc1]%positive [
   {| s_r := 0x25bdc1; s_c := 0x2; s_list := [0x0];
   s_u := 0x19292c; s_v := 0x1 |}]
   [0x4b7b81;0x6cd0f0;0x48aa42;0x39ae04;0x6a360;0x52c00;0x37d40;0x4a0f;0x5431be;0x18103a;0x2aab69;0x7c2f14;0x131ec8;0x114833;0x223e10;0x388c74;0xd88e1;0x6c87;0x0;0x0;0x0;0x0] _ _).
  - vm_compute. reflexivity.
  - apply Forall_cons; [exact prime_2473409'|]. apply Forall_nil.
Qed.
Lemma prime_2841027407167' : prime 0x2957a6ded3f.
Proof.
  refine (check_ok 0x2957a6ded3f 0x2957a6ded3e 0 2 [0x4b7b83]%positive [
   {| s_r := 0x4b7b83; s_c := 0x8c36a; s_list := [0xab0bd982ec;0x2294c7484eb;0x2081253b70;0x21cdbf34930;0xaf092a2f45;0x4949fa816db;0x12c24ae1ab;0x225dd33fb07;0x29388428e4;0x9136bfec04;0x9569b5ca7d;0x23e13649ff9;0x221a59a733c;0x18c4cddf;0x0;0x0;0x0;0x0;0x0];
   s_u := 0x5f607c6713; s_v := 0x31fe82b495 |}]
   [0x0;0x2788c7ab921;0x643c99047c;0x37aab0cca44;0x16c800a7cff;0xd4670c7157;0x570511d321;0x400834123c;0x1c3d3561683;0x25279c29ff;0x95d0102955;0x4c92a3e6f0;0x1a49f7bc4fe;0x12e581942d;0x4141e25c5a;0x238528686f;0x99f9b41396;0x27d9f8adae2;0x2b1900a034d;0x462fd47d5d0;0x629688319;0x899d3954d5;0xfd52850d6c;0xf1f4b1b48d;0x622e20127a;0x46e1dd89d;0x9ac54016ff;0x3c0a5ecda59;0x160a414405c;0x17eed0a258;0x661ee2bdad;0x46e4e738c8;0x1c872de2d32;0xaa3fce88e9;0x160a33496d;0x18c4cddfe88;0x0;0x0;0x0;0x0;0x0] _ _).
  - vm_compute. reflexivity.
  - apply Forall_cons; [exact prime_4946819'|]. apply Forall_nil.
Qed.
Lemma prime_67480852765109166324650486707' : prime 0xda0ada66748df1145c8e2bb3.
Proof.
  refine (check_ok 0xda0ada66748df1145c8e2bb3 0xda0ada66748df1145c8e2bb2 0 2 [0x2957a6ded3f;0x551]%positive [
   {| s_r := 0x2957a6ded3f; s_c := 0x54629088defdce; s_list := [0x50a53104572e52550f8b90;0x5bbc8da9284ff9676b6fd0a;0x89acf8f39429d4c593c37a30;0xd5cd3e669aaade79f535eb8;0x45863206b762aec4689e9da3;0x4bfead2e13e5acf16ccb996f;0x124fff74a3749b951bfea9313;0xf453e4e660f397c043ecc4d5;0x59539fec49733b41c4f79146;0x643155b052093b8b25530350;0x11ec91273ba0f8b6017aa38de;0x4672997505acadeb7de81ce3;0x87d4c81b53b4bb0178bcaf8;0x7d4a2e91e84760856285826f;0xf42bb877bd58006e2a8f234e;0x1675c07fa2d1e45c39fefa905;0xa7844071f062565b9b67d39e;0x6948d209cd2ac537914734ae;0x1bec3dbc6553e9164a9baad7;0xd3f0e3a9603bb0693687b;0x94980b67c0625c38b002b64;0x447f189724037f71176e81b;0x87ae95cb6eb964475dd6bf00;0x2aafaca33d9ca41dfb458359;0x3cc07cf7cfc787b061813c;0x39f850973f5f7ffb26f7e9e2;0x43501394c692bf1ef6e14415;0x16c4588a7d05410441583d858;0xca670dd7229adba7329f39f;0xc15a01d3be40eb24de054f46;0xd7e79eda2fa811b4015b89a3;0x9f0389adf36b996c35ffaee;0x191582cecdf82a50454a817;0xd1ca58d109f8d8f5d2f72f26;0x44710b158048fe291a854369;0xd081039fd9cb2ca62910ee69;0x16d6d9c01cf8cea3db2f86442;0x2c069cb00a09229bcf10bb25;0xc6bc6c9f1357f72ae0a28fa5;0x5479e7a20c1968496bb9be30;0x30d86438042ae6ead359aaa3;0xb5c7b9aa033414597e72a860;0x7da3055787b103c577ff90c0;0x84ad3;0x0;0x0;0x1b415b4cce91be228b91c560e;0x12c90be26c7af2d7b51;0x0;0x0;0x0;0x0;0x0;0x0];
   s_u := 0x7e22c6812d3e72f071c7f826; s_v := 0x5ba24587fdf75711a38b25eb |};
   {| s_r := 0x551; s_c := 0x29035badb2fc09fbee0c12; s_list := [0x296e393a1da708931312a7c5;0x5ef8bc6680eb001ba745fc9e;0x3b5874fb6a9b3cfc8d14e8dc;0x2a7ae5b24d88d25addf72ed1;0x4f486173d37f27af701cbfe;0xa361ecad59481192182a23c;0x61dd912b7fd809fcf6fa40d;0x2fabd2001391de989b67269;0x65f5f826d0ad6d6c4734df57;0xbbb61884d2455f2369aa019f;0x3f7275b1643a42a41ce2f88;0x18288edcc3b82d30e9fa7257a;0x58b9731f8df81c4701953bc5;0x9c0e95d2c0762d715ab8db55;0xb647d4e8b705a425813c9609;0xb0da839b027195823d0bf335;0xb5350dffade60740768d3d14;0x2646e65bed217ee8bd2189df;0x15d5a24a40fd939f089148a7;0x6f87e6b41a3470611f6b59e0;0x61a138a9ee7e3ea583612c57;0x10a30021c39fd8d3a0aa07cff;0x165952fd6efb48adf34ea9c58;0x94c6daf1ef0d74bc28d7bda6;0x17f816ac3ac08c195a06e5548;0xd8ea392dd557dce42fd2d650;0x6956a34ea57aa144c1b0a1ab;0x5027cfc49a9b545d2bd11f68;0xa7d9101d55b1c371d05423c;0x154123da74902ef0814963e;0x1c1f357fb7ea49a13f9cfff;0xd18d8a565ba9e47175e5f913;0x68ee77a44b1a2e540368cddc;0x22789d074c190b109c0aed22;0x9f33390626367d7c1441efd5;0x10bc5106c40ef11224fb27;0x6f50412991640e47e4343fc9;0x14873b45db2ed53b8e92faf5;0x4b1c70d857bb8989a28c05ce;0x3eb2c70a4768b5af24f362de;0x674f98638c2d6ce764df366c;0x121cea8d8c369d3324eaa38b;0x18bc0ec76a8c8b5d8ef3177f1;0x1848d6eff7f17ce98a3564eee;0xb46c719c0cf45f3cde7c93e5;0x1a009bca3c67b80ae9428f291;0x37d8ae73f28e079a9f3b1f4a;0x192040c7c38ecb84a1749370;0x2122154f74fb0318e73221c0;0x281556206a443d7aa8d737af;0xc4788bfa23999a525b51e9c;0x49c52e763b05f290be85e25d;0x227c75f26194eecabc7d1ffe;0x964ab5c2040899447e604abc;0x472ee1ffcbc61608e32f1ce8;0x38484aedd4cfcc32b8f2837f;0xb76198c4ef9d338b88930f5;0xa529f94616314bee73ebe51f;0x8e89df6ce7782e8e50c637a2;0x578230aa28a8f45dfeb04d52;0x148cd2439e32b511a522b968;0x3b8c97d9e966e3e5b8043b78;0x112b892c0e379c4c91f2980c;0x28b3cd63a10481d1debd0cfb;0x19862f1089df819bfdc9c44;0x276cfefd7cd13fae1873b2b9;0xd5890ab186823110c927aab7;0x7c1109ec0fba72ca01384320;0x2c2dcda17063153497a81d90;0x14aba860576e80d5e65935fa;0x1696ba4e6a791cce44151907;0x10b753a65e01374e5800be1f;0xa6cd3347fdd211da780753f9;0x576d5d689cee51b88bf1a7b7;0x61454779b87835ee8c499597;0x343189b31709c75f8e4f0ca;0x2cc4da77a94e64cfbe40f0f3;0x3682b6999d237c4517238ad;0x12c90be26c7af2d7b5;0x0;0x0;0x0;0x0;0x0;0x0];
   s_u := 0x802a0c1ecbb2c5e954105f01; s_v := 0x7fb0e0314a188df12f971a05 |}]
   [0xda0ada66748df1145c8e2bb1;0x18fed1052285e68af8b47feb0;0x8b14c4708aef3529470a5581;0x94a7f7f881e0d49ab248669a;0x590e8419b49010f5d33eb370;0x4ab77029f371d7c9a85986f3;0x17418e1b83409da54a279f4b;0x7660477c4fb871f32f64b62;0x3567c7683eea80af257a485;0x25409b86f848c1039a218fb1;0x6e6394c8d04ef2813706b6e5;0x1675f9e342a325184a1511b98;0x25c04d5c5079508bf8b65cf6;0x58facb2bfe029c7433b5f28;0x16f0df9314a9d20f32e135b;0x5c74bfbce171f447ce9f3942;0xa4d8f189f497f082dcaaccda;0x96e298a170fe5428d7e612d8;0xb5a87ed9b406344ad3ba7d9a;0x579c4728e8ae78d3df57fb9d;0xb26ead9a932458951e5eb54d;0x1232b76e917e8812fef1543;0xc8d4cff3f29cb6b15f595247;0x1b1de044140757a85f31f7845;0x862f2cfc690939ddaab73edc;0xbf6f8b3cff975390e1a862af;0x12cf21eb4bfec68d616c9efa;0xd8b96ae606815738810970;0x26792ccb41e0910442d46a7f;0x3a2d3da7575607c8f9690822;0xd08043daf8f65df2f3e7acf7;0x64d893176a77a9c31fe8b9ec;0x10df8b3cffe5719ec5253ead;0xa415f746f9a4c4de4627af17;0x11865651b960fffccb2025;0x7d55b7a99ed5ccf4b546fc64;0x95fc910a73c5c67ffe4302e;0xdfd1bad56b2d11f69f0a77;0x377a69357a61c9ce0b3e788d;0x235f354eb853d0b6a093c89;0x1973920395bb825c7191009a3;0x41f19d1f2f62b278ecae83db;0x4d211ee12aa9e5cdfa6a90a5;0x5c2b87fdf5c53292db2d58f7;0x38ee1798feae37d009cf69c2;0x12051caec8e9a314e3c205a6d;0x43de51b85f44a2bbcdf9b432;0x19c0ecee9cd00fdf64c6889c3;0x69567f6e9cbc1d8dc4ee9aee;0x2d1308293c6ee2558d8eaaed;0xf92213a7f34fe164c79ed43;0x252a8aa6da128244c654a408;0x6a287bb9ccb444887d88598f;0x19426bd137f973505ae64c5c;0x330687b95b6dcfc35962de20;0x18ce4239954f2e6707ca67cc0;0x16f9a7564283feeb980f039f;0x43b2b5d128c0b64c1fa6d4d7;0x11e16c6c8457f8a46ec0d2b4b;0x62e3147ee44c774edef0d8c2;0x5275a51f5812be7bea61de94;0x527703de16386b5910645993;0x3ce0f32624c582bd7fda308d;0x9a0c8266c5c919bc4df062c8;0xb605ad19e8241fb7877922c;0x3f6a818a41865ab882b51d3d;0xf6087989f7aa4b2bb7446ebc;0x8b115972f4e62d62fe27795f;0x9811d8ea351d84b5b7d8f6b6;0x7021e49dd745b4b921108c6;0x26658fc6d15e9d79f0c46982;0x14bfef13f40640f290401d;0x3c2d12f04f2ee60fdffb3e1e;0x106409c5441c1f941c5a40c13;0x2fc82e01bd519f9560596;0xf3fd44c88fabd4edcc18f548;0xc92f077ab65ce6bd8a363933;0x6c8273df594c3270eceb8eed;0x4c356ffedc958355ce35ef1c;0x8591c241af0a2407970e900a;0x6e56428d18369beff39a722c;0x18b4629ad2ec0e907801bb8b0;0x47198e46c316f9b7f7924aa;0x631124a08c50c7b78f3dd11;0x5c4a4028303c2678d2e0c76;0xda0ada6443c30255c5231b27;0x1bc37935496f273aba8698bf;0xda0ada6671ddf1145c904a6b;0x1e131bb8057e9d26a68008b;0x2592;0x0;0x0;0x0;0x0;0x0] _ _).
  - vm_compute. reflexivity.
  - apply Forall_cons; [exact prime_2841027407167'|]. apply Forall_cons; [exact prime_1361'|]. apply Forall_nil.
Qed.
Lemma prime_374144419156711147060143317175368453031918731001943' : prime 0x1000000000000000000000000000000000000000057.
Proof.
  refine (check_ok 0x1000000000000000000000000000000000000000057 0x57 168 2 [0xda0ada66748df1145c8e2bb3]%positive [
   {| s_r := 0xda0ada66748df1145c8e2bb3; s_c := 0x12c90be26c7af2d7b52; s_list := [0x96c12ddfddca6873ddfe46ff1b552b3c9ea2a113d1;0x3bc243a8f00b2abdc9cb93f4966ebef29b269b4749;0x2aaaeb2ca53af6b1ddfeeee6020880ec7b9ed8bc27;0x66c0dd0a99dbfeb4aabd272593ebb5a8acb2277fa3;0xaee8c94ab6f5e80f8993f80dc1cab669cd033e76c7;0xbab326f9f71b1ad6cba200e87a6cfb473d23da91ce;0x149a3c65edb948ebc3a2841735c75ec3354274cfdf6;0x5976eb84d854c8ec792b0a2ca7e31bd4cf05487866;0x2567d34dd3f6b64ca703c5c6e256b92a59aab956a0;0x4b1a7804dc1cd390a1c5ad55eb40826fcb6d67614b;0x26af07694a5beae4c05eadaf4a316e8ba7c69ded35;0x1d21f577ca55f43ff2e824430ef8b2968768023a92;0x11add4d413e47de21af34b064cfd245da2b6171b6ed;0x13d2e7b5684473e4b60275b9f4fc6fa30f0472db92d;0x29ef3bf3efe4a3b4345b21dffda580f403a8d22375;0x3c297a76cca6a526396b865532716b62904a7c9ab3;0x71cf972a7221c35c5db8c46a394f7e46bc14d7d0f6;0x42283f7393ca973233c4a4d6a36fa838dd9d4340;0xefacd4d9a2eb7538c2858f9c619825b664d35013e3;0x147e1edd94eab54bdf1ecc5557de2dfe3f2bf9d;0x750590ab1150c50468688c884d88000bf58087a4b0;0xdfa8dd164d90718e1b817499e46aca09352070a7;0xdfdb30c26b8436e18c9adc085432e79fe5cbb065c2;0xa3c78ef312ae9795860c1cd92e02ae4271c1077ee;0x14159c07526a1d0dcb7acb45379bbd477a2f8cbf791;0xa2ea2c62fb78ed037f04452c63815a13fb7db8d6e8;0x154845beae7817de641c155e304fed8f53a25770d35;0x69583fdd53cdd9fb3f4cbd632debe8493806fe9302;0xf31f0a06c4804e4cf74f0f60cec22c2923dbf2d55;0x20d5049f44116cc6a12d896a70693229c0d0a902ab;0xce0e3d4c24dd3c3432e26f27e09b01608570280799;0x867a4deb91c40692fe4291455229c2b24d8c3d62da;0x60cdcfdfc0942df3fe8ed079a50142774495f2d76;0x19f3fc10cf5590ea47ac4f4970f7177a66e1bbef827;0x34e0af0e5c372b35bc675f8db78c4076fc4773b07f;0x15a7ff4f3dc42c225e55d8b717bf82d1fcf92b896f;0x510bc671c836837b3f6aa86a202f6d7a2fe96c5064;0xff660a997fa5c031beac34ba4cfbe4760b53b22c59;0xcebd3eddbd0fbae72cb088e2e4e86a394cdfe81f99;0x4de81c40575276aa2376c1313c2c173e073ac8459;0x7eb5ac7d0633dcd1a4fa9fa49837b62cfd2a27fc8e;0x1005dcfb21efa8f08bcdf61b81d4ec67cd8c2d0b816;0x1bedaf11503d565ebebc49e11691295e855aa646270;0x7c1c7b794d3d37d9c53a2723027c12d402ae4d2812;0xcddeb39a28b3a2e9479d1aecf052b7562ff181fac5;0xccd0420ea74b18973da04d05a955e9c2774bd40dc3;0x8fab6449561ec9a0020bba6faff525fe4ea04d5af9;0xed0fefaf70891fe32df5e16d86cc6dcd3d51605a71;0x179d868e23ff23718c1505d9ee14de729cc4cfc14a;0x16b5a21aaf6fe64de0eb707a4e3904b6a290d7bea87;0x8babb79c35d0225c5f26b555f450c7d47c56c5a85;0xc4593421833c175598d70aca3c14c1141d13c9d3db;0x18c1cc5adeb78b3671a4d60ce76fed8a4c4d0b78307;0x1d3fd39f27cdb00cf1b0664cd5096df35c394c68c1f;0x244e8cf338eb9e49d43f43ef5516b3c08b945f55;0x150b4f98547e38023374744e8dea9655e829e8e257e;0x41fa5c09fd6a8e8b9e57d890fcebbe80251869ea6f;0x50ae1f226ed022e874c6b0feafe328feff4464d5a6;0x5dc8893362c662784357b4556903daef29b8a7bd69;0x23a798bd04ffa5b75cb1e951461eab62b4acf4650;0x2a4b8a3e75f7f3b5d36fa35534665e;0xfffffffffffffffffffffffeed82d191b6c8000057;0xffffffffffffd7cee40000000193d88aeec4000056;0x1ffffffea4000003b220000000000000000000000ad;0xfffffffffffffffffffffffffffffffff;0x0;0x0;0x0;0x0;0x0;0x0;0x0];
   s_u := 0xd3ea90fa632600c7d046d9996777a311db2ab4f71f; s_v := 0x131efe9fa42b9148cc7c32a1b95d6a08a3daa2d8b2 |}]
   [0x0;0x79b1b1fa86e65a511c2d88ea3bb4be7ec4a77b4217;0x18024328d2049c3af9fbf0f799b7824148e8cbb97a3;0xb47b488903be48d608f487f06571eb3d40610a8825;0x1b172b72c41e7193862841f44662fb715adc6b2;0x123cc37a77441f07ff8ccd1edff7805eb88734fbf;0x19d92fddf527b23a5a2f3039c800e2146282daf25ae;0x18e228481eca84750bf9ce44b1edd838e4850cda3;0x4f6b5a00f42890cc822dcaafdcce226b2faf47ff1;0xa957b1d5f6697f4a8df78afe9bb349a7b26cd08bac;0x21ee7915e053cc4ec933b650b69c754c4a97ec0bdf;0xdae8dd14677148bdfd28d60605f19e2512b50b2df9;0x8f27ccdd95a906eac73e60a7b8302c7ed3992a9e51;0x28fa593a03bf3d67edbcc28bb9b993569b19bc8b51;0x3054301021880db5b0afb0a7f9c7dbb745a6762bed;0x8dcc31a67b1d55235614cb7d99d699005c14a29be3;0xf24ebb8424c1d335fa1ebe902f14c6dbf52ba40202;0xb499218453e24a5d9d8e007d60b2b08df095270;0x4773a1afd5f425c20dc741c45fbaf471eebc0c6e41;0xa65dc101d96d5fb3a3edf1aeb873016faed046ab3;0x6616c409bc3c6056f094bb4ba70e17ee523adda6b4;0x294548300883b057a690217575a5519c3a79f897ae;0xade41c1303fa8f862a02d9e37af90f431b7762c1f7;0xd0fb3ac01ff5cbd003ebe2f1f0ec78733e8e13925;0x49998f06636f8d04b7c005ca45f7800b3fdf772768;0x742f5e2622e3ce6682381fab925cf76fd4e36f6cd2;0x64e5c55ab5d65d843d1c1aadb7d5b5f1fe25d3b099;0xf3cba1cf0181de46e9723ee9c21f698e669a0621b;0x17d3ae64ebcff8abce23b52ce37ce7a082fe2e7be7;0x710da0900220d021f1d4ad221e224826e7b8bf1dad;0x5080fd20625f15307c84467473944930195a1f6dc7;0x4b858ac9291638296f42f1e57ea55dc798248c45;0x8b0d3529ff66417cff7379b61e5cc7968f98057b1b;0x50919d10f904511b067deaf27fecc0cd5802145a9d;0x21c8580b9e1006ba701af9da2b8b7c267a88cc8f35;0x3eb25627d7f3000dd55b027f7edd430c260befdb58;0x31a331a21cc14f318830b532d5e0b3d546d835b240;0xe60c338b6d9436a64b62e6a70eef3b12a45f285c53;0xc12b88a052a3c0625b850eb833b82369992cb6c317;0x9130c0a71d380e38dea6eee21c96c252231da881fb;0x62ed53c6c5dd77849cc2ece993885b3b94b3471098;0xaccde2c0d18eba8b51f0b8c490d4a96f72214937a0;0x7d1a6374e31e26e164d9d63f2033459813966ffcd2;0x85d9353c0b279fe6a3fa81a8601259d9d153772942;0x22c56ec758e8d013c9459a95fa18a201aa80074765;0x76cd402aa2de6f9931fddd373bb784b658cab368f;0x4f3de288849d7c740fae8f8bcb1dff7d5c8e838259;0x8b0d6b4c09da7f4c1d09c927cbdfcb9348979f131f;0x3983a63093c853aba0b05cbdd7a819f8d72c2c0c43;0xcac1d6c6409294a9023ee263e18a2652165beea13;0x11f1bd6df080bb8713c56efae4f0ca1e5ff6e91f07;0x29a9c9320912fbbabcad8560d1a4707bbb4b7cc7ae;0xa9f0e1943d4bae0d59e52d15555a861e4faf7a7c3b;0x9d3843d621738e633ac7d460f56f87c3927723d029;0x3d8e0a32cceabcf1c44ed102a67c3a3b36b1e0a5de;0x8115dddf39771b2aa06554bf00a00bbdf5db6af855;0x1c113175571e023c0e7537ac87a178ac5809f79acd;0x8f2e769a26c8c1e6c77096b49dfd49df01580f43d;0x9094e3dfa2702a87926f87d6227ae252dce18af3f5;0x2472add54b6f38f55a54a83678be55fac0170c00eb;0x5679b9f22e686c19a35757e7d6ecab9e9959a3d72;0x58cebf0da9927534f90de015573e7b62ed6d1a4e86;0x5b8a6000c27709145bc9db14acc41fffc2c03c394;0xdc48b4fac7c037be20d929f412032ce77caee6b925;0x6d5f254a3e26ec13521e1be3dd64395514ef7303c9;0x7d10cdececd72b5f3677f39befc17e0df4edabbb6d;0x127941c5cdae2947cb345ccc50d6dbf09d9fe4772f;0x8b322deb242fd1fa9e544a8cf637f7a21c8597d6ec;0x67d427fcd39e57fddbdb67071a8d465a0e62c4dd35;0xc6461c0b3d2fcc446acc9ffc2a7b4f19495166e2a1;0x401a52d38e81d2180052617cad40e74f98033f8cf9;0x1c34abf83ef24be4e2a304d8f9397b5c940e7e3768;0xaea02014c19d28931d68404f8d21ad92cc2d1717a3;0x32008958d41d017731c23623ce02d60273024c0bbd;0x7dfdcba19755ecdaf6cfcfe999ba37335d8bf30648;0x5d1642fa794d1eec33fb7e7924e4501d90f44c2adb;0x8e2333917cc621a6914f8d7b152e524cc5619eb7f;0x5fde7eacea3d8b725f68b18f2357021c4f04bb8bb;0xab62538a1cf33b1bbfb9aedb841d62cbf47deca318;0x326df1ae48491416aaeecc1284af5370a793e3a614;0x6bde7b6f6d7610974e68b8440a22f674825517ea56;0xa13c2f077800b4fabec815c78234f1940a29c16a6a;0xb6dae1480de475372c4fc444ce78748a3bd521bc1a;0x3da3db048f0e476bf62d4b046ce6298adedec179cd;0x31d370470f6bca45e0df6110e57938a005eade1af1;0xee96a9686efda434c11f040262a230d0aa74f428;0x16235d5b128589a97db1d6275190be246851213ec;0x33f47ea8bbe0067f260d06a54a2cd91eb52f75303a;0xe06e7f7bbf922be430253d30e40ba2ea6967ad966b;0x32f75e1182d480c7dd0fede8279d9e82e813512268;0x20a7df3cd1f421fe9c18e9d5f106a5357742198d01;0x36c449514678a3bd01c362e4652c9a4fdcacb84ab9;0x43d843a30563e4048756ee2313d96288aced25b76f;0x28e2b0f815e6480895f9f760f817ae4fb0e9965181;0x894c2b24fd6c6aaa69dec9137c00ccfc8577841a3;0x1dca58bc4040159ecc3ea597341af6beac7a6cf96;0x28d6a441f5a374c7ed122435bae0f5f8d620fa83d8;0x32cb969b6e192a6332267afc7c0872ac775b0fe9b7;0x1df0b59d72c81a7795d9c6e39bb5fa929cdfdb4908;0x21df651203407f28d431f8e15a8fced2a2d94aabc1;0x1391789cb81d22ac51308e6a50e416972ae4b0251;0x25620d4c39b8bbdc0bae86248ce16747675276f;0xd3f5133854d1b58569afa26131b9dc9fe8d7c5db0c;0x8949df991ed116fd680c62eef76af3dea718011c4;0x73ee65c0f81c709422a5b8f2e4244472ce736d3e0a;0x395dedc02e164bc3a3c3692cb864a60ce628143375;0x3ee12a0c6ac8b98875bf647db9a0b7354bc70cad00;0x5f38bb98a2792750c0ac8e6991884d8e3c522780c0;0x564839e7c7b28c8b33d710268dd8f30fc6c66c4728;0x27958f730ed902bcdb345e6718d89a6c4a05b25f29;0x3715184f67413aad2112b243e9fb1049b3802e32ec;0x5b71f904ec932c24936337116e98f39f011d277db1;0x1f54b7324dff8fc42a3517184c1dc44265e791e79f;0xd74551cd6c4d8b1fcd019d3c654d3353d785ff6d06;0x6d6962a1308834d3cda2d295e46cb26d9cb05be6ef;0xd100a8682b5179a17158e3b80454c67b222dfb4b18;0x254be255fc0f7ebe265b165b9ceeb90c50b16f2395;0xe2ece92a81d340bdbfb86cacc97f0ed2a6f3922ebf;0xdf9e54a78cffe7c4c8aa16dc53a918fb8bcdd25a27;0x3efee7f7734b0e9621438e6170240130ad5a1097e7;0x4f1456bb029c851faedc21be0a6c2566557d0ea7be;0x11099b9a032070e66f45c2824e1e5033f47b17194;0x16490b2f670091b7f62bc43b84a864f606f1571668;0x253d795489d2bc7cf612b268d83df6d12db8fa1c;0x3f2564e05e18f5a81195104a8cdc1095e2f523ada7;0xe26315d73ad299c719598b33cfd68d260ac56404f1;0x6a905b7f1f9627a94bc094629b91a0b2883c6069a;0x71b42f735bdb5f2b335d0172fad0dbb6822323577d;0x10107315d9ef8278c0604b8f5237c1eef6d85417a7;0xdfe10523a9771bd01a86a2e9f822e61b82be3342;0x356729c7dad90300e0012ce3cd9e92c779df4eab6e;0xfc404d3148dcd71bf762ae4fa79f2987252071e3b5;0x10cac8296b68c95b320eef58fafd0b77524c555;0x734967f9a8d5e9cec61f209fa8db2121aa05678016;0x94b50a9196bf8cd1a952d19f1ff9de40bdbef5f226;0x6321debdf651e664b917ecebea0179f0106f08dead;0x27bc1f6db407c27802c1432bfa8645a66c6dc6145b;0xdd23a0ad13bc037b288c29d7e8564f2fa6f2497e05;0x58a57bdfca8978f42b61fa0958b00e421d52bd32aa;0x54940d551adaf706828025fc580c06f083e6db51d;0x81555c1ac6e9bf2b7b656f53e7bedca1989a0ee7f;0x91689e76a54fd5173c121b5e3aea5135075cfd8d0b;0x70fa9b2c42f321f18e72f8cb49dcb2ae87b732d3a8;0xfbceeeb58898932f2ee9012b66c50bed74c207b1f5;0x697ba0a7eb0a23e8b7d377c9f93ad08e0321af877;0x1cce9005a04c1b40d31c215b7aa65b96c4661aaf8a;0x5d029a87c62b412cd4bbef5071bd7e2746f31d0fac;0xd858804e6238cad15bd9bd91e72df2c53f84db95ef;0x1498df3460b06d03e06e2de7051b65ce4dc80bf416;0x31bd93e5ea97de6b108632e60c7a1c83522f88e2aa;0xd1d2ef265f9c56028342b3cedfe8557f880b21a0e4;0xa4daa79f3f6951a884b7dc2e99647428b72c468255;0x49e1eb7f6e241c59ed13d26f7eeb511af8f6f4b675;0x8cbec184b033ffaf45242b612ef5fc8d3ed9a4b0b5;0xe8a0b880dd5edc149798147d944413854201af75b5;0x80c058488d2641dffbe1c9e462cd6702f375a1cd9;0x63169fb809d21;0x0;0xffffffffffffffffffffffffffffffffffebe77257;0xffffffffffffffffff5200000000000000001d9156;0xffffffffffffffffffffff;0x0;0x0;0x0;0x0;0x0;0x0;0x0] _ _).
  - vm_compute. reflexivity.
  - apply Forall_cons; [exact prime_67480852765109166324650486707'|]. apply Forall_nil.
Qed.
Lemma modulus_21 : prime (2 ^ 168 + 87). Proof. exact prime_374144419156711147060143317175368453031918731001943'. Qed.
Lemma prime_19' : prime 19. Proof. now apply (trial_prime 19 4). Qed.
Lemma prime_2' : prime 2. Proof. exact prime_2. Qed.
Lemma prime_3' : prime 3. Proof. now apply (trial_prime 3 2). Qed.
Lemma prime_44507' : prime 44507. Proof. now apply (trial_prime 44507 107). Qed.
Lemma prime_164811379309' : prime 0x265f86126d.
Proof.
  refine (check_ok 0x265f86126d 0x265f86126c 0 2 [0xaddb;0x3;0x2;0x2]%positive [
   {| s_r := 0xaddb; s_c := 0x388104; s_list := [0x25700be8ea;0x316161d1b;0x44b336fe;0x71eedcaac;0xdc7932387;0x321036b01;0x1f6caca574;0x1b5feb2870;0x12e68f47de;0xb1a66b4c5;0xa134962a;0x1bf786a3b2;0x65ff4cbad;0x2565873056;0x5b3a81060;0x12a9039075;0x6abdc;0x0;0x0;0x0;0x0];
   s_u := 0x4f6edf17a; s_v := 0x40a44f0c7 |};
   {| s_r := 0x3; s_c := 0xcca820624; s_list := [0x8da8a0a17;0x79f82ddaa;0x2bd9560b49;0x1925742866;0x3c4a10c9a;0x1eaab69fdd;0x9f50ae3d;0xd4746a38a;0x3b46b31c7;0xcfe5288b0;0x26ab2d0d53;0x7b29c386f;0x7d09a9a3;0x9ab3e520;0x19a2f700b5;0x204af88a7e;0x20823f4be9;0xe66d5443b;0xba3fc854c;0x1f571e1b6c;0x922ce80c;0x1e1bae1b3f;0x10e7d261dc;0x3983cfe9;0x7d32e9a;0xbe9e022bb;0x350ef41f4;0x6d5830ee9;0x6aa4e7c9;0x1e6c5ea58c;0x355e;0x0;0x0;0x0;0x0];
   s_u := 0x1370243ae6; s_v := 0x9563c4a11 |};
   {| s_r := 0x2; s_c := 0x132fc30936; s_list := [0x75ae20464;0x610713eb8;0x181209784;0x1c640c1e5;0x2e331226f6;0x3d539f382;0x88022b201;0x13d5559c14;0x11bed11346;0x1c1bc34239;0x652e0d688;0x34c95b3100;0x20c9ebe05b;0x5ea254161;0x52973152f;0x1bd91e2adf;0x16c26be8a1;0x286cc0a4f7;0xd4918273;0xba6ab6213;0x2008fb7e8a;0x6dd18361;0x2350465769;0xe17b515ee;0x4a36f7a67a;0x4a7d04f5fd;0x16fb584a04;0x247717423;0x1368607f11;0xc5fe6fbb2;0x111d4df623;0x1;0x0;0x0;0x0;0x0];
   s_u := 0x132fc30936; s_v := 0x132fc30935 |}]
   [0x265f86126b;0x75ae20464;0x610713eb8;0x181209784;0x1c640c1e5;0x2e331226f6;0x3d539f382;0x88022b201;0x13d5559c14;0x11bed11346;0x1c1bc34239;0x652e0d688;0x34c95b3100;0x20c9ebe05b;0x5ea254161;0x52973152f;0x1bd91e2adf;0x16c26be8a1;0x286cc0a4f7;0xd4918273;0xba6ab6213;0x2008fb7e8a;0x6dd18361;0x2350465769;0xe17b515ee;0x4a36f7a67a;0x4a7d04f5fd;0x16fb584a04;0x247717423;0x1368607f11;0xc5fe6fbb2;0x111d4df623;0x1;0x0;0x0;0x0;0x0] _ _).
  - vm_compute. reflexivity.
  - apply Forall_cons; [exact prime_44507'|]. apply Forall_cons; [exact prime_3'|]. apply Forall_cons; [exact prime_2'|]. apply Forall_cons; [exact prime_2'|]. apply Forall_nil.
Qed.
Lemma prime_691512946855482357391283' : prime 0x926efdf15c72196b1fb3.
Proof.
  refine (check_ok 0x926efdf15c72196b1fb3 0x926efdf15c72196b1fb2 0 2 [0x265f86126d;0x2b]%positive [
   {| s_r := 0x265f86126d; s_c := 0x3d0e836df3a; s_list := [0x3d3ec15b4251d3ad669c;0x33682bea3b534f0cda11;0x14e4abbe67fd2809a475;0x2ed6e38cd09503fe1f08;0xd03faacd5d913b282a30;0x1f51a7bae140bbcf7999;0x7c6c3796b4be3d237b28;0x1e1a8daf44d34256b9d5;0x1246bff04a92c25a5bf0;0x3c4f014d2dd0db36027;0x67f0f5c69c77d9b8a333;0x328dcd53ff7fede556;0x735687aab5e1334e4d;0x6784d77e8532af10c4b7;0x656d06e4a66ca3d11;0x121a7e8b0de9dee9c11;0x44cdb449171f91c7fc4a;0x43d39487507460b0;0xd52a847dfc6e91e131b7;0x153c548f885f24874599;0x1babf9733abde4fcd361;0x493af76fa5b1cca18247;0x36a5a7e1f17eb2917f4c;0x6113c8e705e7f49f977;0x3c2efc648e303b1126aa;0x70a0c5bbc576d0d72c36;0x12572b6a4282789a2924;0x19776f0161bb893f7168;0x7e24a87a78ae6ed3aeae;0x28ab87faff8d91f9c31;0x8f99956f9074d5359244;0x21a1f837e32e1dc95a75;0xb2c3c81a3cf349f1ed1;0x3c2501f183b4ea681862;0x16103a4d738b8e710b;0x6fe30d10ab7;0x0;0x0;0x0;0x0;0x0];
   s_u := 0x235dd0fa082b39c9023c; s_v := 0x193a1067cff0a26f88f5 |};
   {| s_r := 0x2b; s_c := 0x367ca5eea5600975416; s_list := [0x5b63fe9df47a85f53d1a;0xc3140785f513fa5b06;0xc33f25ccf13740347809;0x523958d5a480c694934;0x43c18a20179b98c58331;0x218a6491aa50cea8dde7;0x12f262a65c460a3166ca;0x8a0ecde837508406c960;0x7d3bab612b655cae0a8;0xa94af91dc3a9323f368;0x49d953cbbdb0dd3c343;0x6cdf7e062ffe26cff18d;0x2cee260ae2cffbe97c47;0x29502e263688798c2536;0x17d896a9d15e54dcb4f5;0x4d8e06684c4f92ce14fe;0xc318880596ba6c313154;0xe182bcd55aaede4067b6;0x500e85e3f060382fccab;0x3118c8ccc14f0405e1ba;0x6b13afc18391715086b9;0x3c3f3c708366f04c24e1;0x50700bc8f3a24e3eb561;0x15c82f43cbc13f0b673f;0x32a2ded0fe765b621d94;0x63272508d4dd9a4e3a88;0x110a7bdb5079dc4b9ae4;0xf352e1791b5806918d4;0x55a5965727212766468;0x2754f1e07dcbaa28d08;0x7c3395b4200d80ec7ea6;0x29c1d86e8d20f48473ec;0x41e6f66a07548f970c;0x6d069531daf474820ec6;0x85e6a57445fabd136f6;0x26066429fa4885d90195;0x701200426655a214ccc6;0x2aea7cddc1adb20709b8;0x72beb27d18cbf1647fbf;0x5c9a81727ad8d7cdb1de;0x13dca6c8e3541e4b5417;0xddc3b5e42e1af4ac3761;0x1bab40339e7c3764abf1;0x1970fecfce299acf9415;0x35ffdf73efbe9710c62d;0x9fab85c84f5b438adb14;0xe0594ab0aaee02327692;0x2941547a0269bf86e456;0x316a210e1a1efc6fff3;0x4d8766d1713d6034ddbd;0xad1b3bdd533c3aa801f8;0x300f3eb9e7d807d3525b;0x61e76fcef3d8c2913257;0x18dbbb1f88b819982c5b;0x33dd0395568a20b7fd;0x326864969a24c94e772f;0xb4a537fd9ae8548b481;0x1ee80adeef2ac1cd0587;0x16d617efa2c7d01799a2;0x1545ba05ea01ea52317;0x4ff07e59912838cb5d;0xe4033fe34c99249dfc0;0xc4e8f7e707d03fdb5d44;0x7c790cb9f21361936c4b;0x5aecd44d3fe774bb5b15;0x9c2b75c57cf6aa36c267;0x83580c274b7d3ac157f;0x1bf8c344;0x0;0x0;0x0;0x0;0x0];
   s_u := 0x17c66109f9dc8041d25c; s_v := 0x58636750f7a688a4cf9 |}]
   [0x926efdf15c72196b1fb1;0xa3b61b72152603af7eb0;0x175e0c5233cc8d48faf5;0x3d240eb346be5f4ce73;0xbbb3b965e4ba9d15adf;0xe73241d6a4fea5b95731;0x4080991bee8eaabb38aa;0xb7cfa73ae22d0dde57b7;0xe6a7f5567aadc28edb8d;0x1faae83054bb5f0f9ce6;0x5c8ce59b65635794b00;0x34464feb722f31b6b5bd;0x364e83c4c7cb1ff70428;0x279318c52fa5402630e9;0x6551dfdc5db05cbaff;0x222c1a74129152d02f80;0x4317c35899949c917086;0xc9071cfc1164bc722365;0x8fb57def59b5f9f0dea0;0x6f4cd046ad794a7717b;0x8f38a9a4fd4a45aadacb;0x9f83e7c55978b8841c83;0x2af3d1bd184968dad74;0x4de1d56af7c644c66f5;0xc2820fdb7cf1cc12f598;0x77ca3e10da6b20e7f99f;0x78a346204fb6b399724;0x861e6352b5084d8cac3b;0xa5d63e4789e10af7b58;0x574dbcdffdf7be22ab7;0x545040f93d06efde86d3;0x751ab522b690563a6b7;0x4b380035f9a8dd035869;0xcea0b6e16b583c0f42fd;0xa2e0fdd56285a7ac005;0x12a5b07afb4a46054163;0x8b949e00f9f40cfb080;0xac1d6315083b6a4a3ea0;0xd1fc396929df5f6e20dd;0x6062e79d752e6cb489ca;0x11d235a55e5d286ae7a7;0x1888ce0e76ad929532d;0x34617149251888aa53df;0x8519748573ab0444a7c;0x84615534e0b85ed13cfe;0x1124b9c34e56b6011a7a;0x1023bbf5ca1630fa8b;0x242c8637bc242ccf227f;0xe649d55c3a887d9659c7;0x39730ef58c35a5c9e974;0x1cb06bcfd74968459fcb;0x3a2edd64732913d4093c;0x15056a68e8ead44aeec0;0x1d60476ee86696ad0486;0x385bdbc70aa79ca7ade5;0xdd4d17790ead7fa48313;0x99d2a2bd0fe5149765bc;0x730e57487eca1b8a3b69;0x16f2afe968fe7173bba4;0xbb6f21813ca481b7a8bc;0x3256dd7845f74c4f3668;0x772f385a9440939cb39f;0x204f03174d91f73f768;0x2f2d7d5396788238614d;0x7b59ce39da5bd367659a;0x61ea7ab3b43edc3a68a;0x36fb51d8400c922fff5e;0x896a0278080c8e85fd65;0x23dd8144407aba4a8ca;0x1d4df492a02590e28b44;0x405f50d0438f327f86ac;0x896c06b91d90540008f6;0x6fe30d10ab70635eb;0x0;0x0;0x0;0x0;0x0;0x0] _ _).
  - vm_compute. reflexivity.
  - apply Forall_cons; [exact prime_164811379309'|]. apply Forall_cons; [exact prime_43'|]. apply Forall_nil.
Qed.
Lemma prime_1383025893710964714782567' : prime 0x124ddfbe2b8e432d63f67.
Proof.
  refine (check_ok 0x124ddfbe2b8e432d63f67 0x124ddfbe2b8e432d63f66 0 2 [0x926efdf15c72196b1fb3]%positive [
   {| s_r := 0x926efdf15c72196b1fb3; s_c := 0x2; s_list := [0x0];
   s_u := 0x619f53f63da166476a78; s_v := 0x1 |}]
   [0x0;0x1c0e5349afd8ba1f5b637;0x86ffa40a991e9d08a7;0xb036b41bae8ae917ea85;0x1e99690f6a1c80ac1149;0x154194319f034579ab73c;0x13b934df9f4afa6da1ea4;0x15de9fa18b88a3faf8ce;0x290622e0982f1a008c15;0xed7c1eee8c58f5d3b96f;0x1e779a345cda49806cbb0;0x7f813d30d599155d07d3;0x36bb27f2e95d2a0d3764;0x13d0b81aa53b7d2fdd28d;0x648047207ca7df48179a;0xabe804985f61f4a52598;0x29f598e60786b26600c0;0x18a6fd90e00e20ba62297;0x631c442d9e0e421fc4a;0x6b5ef7cc745a1d22c9a3;0xa363fedfe976252a42d;0x1203dcdfad9f6ebc70259;0x2be4ae53c72d064bc2;0x1df2bab570e4ec931a70;0xc69ad57b9139b509bd8b;0x1be920d28f2ecc7da1719;0x522132985432051b1;0xecb2e7a71e869099f00;0x179ea9fbafee055f8809;0x5fa2b543be1c35d19752;0x38eec7da1aa530cf1c90;0x59714bd8c1fc67ae2556;0x45d5604692f15ee2a66f;0x4ba22c8ad25de74a3493;0x1cfb5c7d009210e7d5650;0xedbaa2477ff7f9a69;0x3cf18a77039d0733b3d;0x2a2b83460dcc7dd1c4a;0x8a949c9c1afa155d6f8d;0x10f90e48f2b54f193ee22;0x344f0ce3f14dd895ae04;0x431010d7c4d218ccbc;0xc327ea4be254db36bc75;0x21651b8c231d6d5940d5d;0x68e5135359a534c90fe;0x12efeac13fa7b26acb5f0;0x121ca1d76581720eca2d8;0x241a777bd9a7578115c1;0x97308cdd9b99f4ce37;0x10d04c62b52e6757f651a;0x61789edb151817ce844;0x57e8f3256d0bd01a07d;0xa9f563e082af54234;0x1ad442dae46f041106f52;0xa8b9df5cf44d71308db3;0x2406e0cfa50ad55acd123;0x16e53535ebd131569626;0x5fdd5d75371714d55e60;0x6a6518294ebfacc14de6;0x73f3a4376c9b6d0b4142;0xcd125bdc5afcc0e28690;0x1e0587d2279f5492e7012;0xd8deff7364400ff2014;0x68654a948c6b342ca7e7;0x7c31d4eb034a0b0f32e5;0x4b19d53c1f74cb55b29;0x549616f2bf8d4b8b518;0x22d1ade38c9e40df35d09;0x15615ad3d;0x0;0x20af2cc8d12617373d7ac;0x28107e16ef3324d47f84;0x11bc1d1fdd951495e26dc;0x37f1868855b831af5;0x0;0x0;0x0;0x0;0x0;0x0] _ _).
  - vm_compute. reflexivity.
  - apply Forall_cons; [exact prime_691512946855482357391283'|]. apply Forall_nil.
Qed.
Lemma prime_13524565278751490207200888053783440267745156048641' : prime 0x940fe7b563fc3d989de4f6186f9ffdafc0612a701.
Proof.
  refine (check_ok 0x940fe7b563fc3d989de4f6186f9ffdafc0612a701 0x940fe7b563fc3d989de4f6186f9ffdafc0612a700 0 2 [0x124ddfbe2b8e432d63f67;0x13]%positive [
   {| s_r := 0x124ddfbe2b8e432d63f67; s_c := 0x816c6e411e38b1fcac100; s_list := [0xf3a21a9d80233668f4239cce2b3e7ec1b8ce9b1;0x1442c71c5e2578a9fe093656c254413b0ffd7979;0x6b67df72c5520fde288fc4ad6357c978a53afbcf9;0x3bf0123761de220b285820a94c016ff6fd456d802;0x3ddf1467b89fa69b5593d448b7fc8c35938c5d306;0x38c2cfaa2b6719b1d0211a183b348126a2cf14b8f;0x5099c04c37eaf6e92288d0e0f9c3d493fa001d56;0x91fbbffb5072b5bbac89f6d0c86d99edeccaf98ff;0x4a14cc56640d466dd37b59857cd72c0f8cf8d55a4;0x906da270d60995bc865271b262c16baf050548;0x424cc86d127b88d2101bdfd90e8450b6a353915be;0xcac3a86352b62ff97f9f685bfcb0d25a06f8747;0x6e91e4e391465c2b837bbd43c2594f25c9bda6fdb;0x1c5e6a320e21e6cee4c211ffa8be950f928b53d;0x590ae2d931a60d8afb1c1c7ccb1364a482edb8ac9;0xffb2ab64f3e248ac530637a24ac30d4c1456976a;0x15519a0971cbf89fb7d747e8d79d801ccec4b3c;0xe913178f83bf9a7ccb1fd3c47e56bcaeafb841c6;0x891b24f6fbd3d098eab0dc7928d43a5acebe7df5d;0x228d9ceda8f141c3dfa618dbc3258ca25f1923103;0x1f0d31a3ea671b7bfd6074bbd68c0b8b3426dc4b;0x1165adcac319346b02e5524f07c493587bbdcadd2;0x41dedad55437884df46d3c12ee6f260af8818eb54;0x2630beb1ec4936423a4f65c7c144d9defca001a93;0x100c3c8fd40c6ab1cab800039a256ae6f5d99e8144;0x2be6212fc1827ea7327686126974fb56f54a0a158;0xb3ad17048df316aae2e5b4094dc8b18cc7c81e6bf;0xb997f6e2e7dfabce65573f68e4e6e878bd9b194de;0xb19c17399ab364888ffc5f86827a60893f8c7dab4;0x12df203ef59c2a4a8c02c6633ac3d7bb82240c;0x1003679eab5ab28b3158d66feff3b7001a9df3b0e;0x69608e7d6013bfaad0cdbec0717744deadc09f15;0xd8c01962710cb3b3e6e46ac89a3f96366fdbe192b;0x1027e661e71bd31db3a32c04623c79c983b5be970b;0x6d90e4a2767bc84371ac05e84b3591aba3784cf0e;0x22fe81194a8a31e51a96ebbdb91e1c386edd208cc;0xae533ad2fce2649aee5049958b1e93bbc76db4a;0x47df4d438bcfb39c98027d3649850cd0c4e6baffe;0x2eff3e5fd1a4e8d303f663ba30eb6170f2e34e880;0x361bc0864d096a48afdfd241c66b49169a41335eb;0x132f678c3bad63858198c7bcbc7ac3e518a89ed85;0x2e75e93072b7be739c2e2320b8b68cfa2ad7a61b2;0x33231a493d6fa52f1e6a00a7c6839712932004594;0x38037535f972bd4fd04fe927009f0175976723be9;0x72948385c1d974f1120a74b1482cc586ef31c7d5c;0x76516e348ce3f2b4cd344cec50d8dd9493d9991e8;0x1db967dc76e4c1acb3aaabc94c62b418a277f057b;0xd67e885d24b482a4bfcfdcba7ef5f8b7743af2168;0x61c9bc7d069496a28c1880fa50409a64951c784fc;0x3adaad0643b37a9f7272cfebe1965a9cb8046b0b8;0x51df5a1e04fe33af9d755bf48885c9c0ced347682;0x65926a453a08505679fb1d44467f9f725fc6a6;0xa894f4caea0e8d6b3f39194305b7857e603736474;0x3148f067912c7d396f7dc0a36c46e96175d1f7480;0x4a923ce894b06fd585c9b09d8fedf74243325c648;0x124f1a5bcd6d034c91c397f883761574093fdf3a9;0x188adda4fa7f19a439d4951da7fec057584cb0753;0x12392d8daa591e536db88b36c50add12f13d2956;0x2c2fda4fece34484a376141b00b2e2dfbd955c7b4;0x7ba591d787efd04a2709ff4072abdf155b40a3730;0x78c3bc371096baee1d18b52e7af83cadc53af0e7b;0xbe239e91bd7a5bc7a386689379f6ab0e163a150e9;0x14adfb3d3ef2ae126a341ddb337a3bda842ba6a6c;0xafceaaf348c90b2931d7a550f67ec64fc5f34a6ff;0x20d483c02dda712d22c37d22b7c717e651e90c93;0x3dc98d75c8555cbcc9608f552b106d73385b79f97;0x228dc404debcb7186104fd5658323734c51e6da90;0x12c88206df5161a124681f56e3bf798b6ff429e8;0x15bcd24e1f000d6e73124270ae356fdafe63edcb5;0x340ba48dba1dd602612ebef063cc1889167e18b35;0x8ae5dbd01acd98d02349f11265e798aa89e24ac9;0x988a45bdcb59cd08065caef4df8539c5887aff8aa;0xaab34d92d545e90287c595b9956f8d7d1f91d33;0x35af2c5142baab0d5fefce42a8291069434eab42f;0x1281fcf6ac7f87b313a1fec30df3ffb5f80c2ee15b;0x6ea7ffffffffffffffffffff;0x0;0x0;0x0;0x0;0x0;0x0;0x0];
   s_u := 0x42e3c351021e4b4cd63e6bff67a0bb4a817f8041b; s_v := 0x5a5712f169cc4055b3d0bf06496f4131886d639 |};
   {| s_r := 0x13; s_c := 0x7caf13f710d469c3e3478bdeaed7924328bd9d00; s_list := [0x2e2a67a134b37735bf52633e988513c8a5904ed97;0x3c1da05b656c5ec0f58e25cbf9f2195e52d8b4cad;0x1d2405c211c5a5449dd6234392ba38681f14cd63d;0x6bda6a05e9e50125802834522c595a2965643a3f6;0x23a69bff6f74cde0565d72f10d324ec89ae4f33e1;0x16b7615b338dfd103a662370cfee5c1c7c4f588db;0x50b6af9ab0cf2ba8f243f59d803e781d76e5481bc;0x3c19da3620076882782bc5d2320ec14d971610859;0xb766d5bc1d6566c0698af8a7dfd336b7cf9bb1143;0x46dcae2267a230fea5bceeb2a3927774205d8b2c;0x60d278250fb76bb3bc00e7c8d9961218a672e63ef;0x8c6e6b92e5166c9212e52a69450e10da346327682;0xf7186bcfc6f46e11bfbd25569b0dccf7c91a47329;0x425610c753f37426c5e7a14bdae87c09190955cc2;0x243c1d4a7800198e8b001abc49a2584b97532e3be;0x1b652ce4a503a3186d7969a3f85a1339ae6853b4f;0x9a0ed6e706817b2d0e26ae6b1fb81bf828c1af0;0x38bf0ba49847e2864c93b25fbecf7e8774f4e7a92;0x95708ee38063a5f06312925c90f579b092b810f9;0x39848f8c4f4081d6aa6720faf6397e5b124795a3c;0x807d6e6e116edcc3c22b4120e2882591266f2b5cd;0xd231905c4ef4bc69b504ee9e9075a3a383dcfb6b9;0x45f4e6a4bc2537f81ab43eed6439d8d4d4e5170db;0x11626ee9c2d8d02077fa1f92de92265238ae249566;0x23bdaad2c61c968893436c031971201073e6a8853;0x431bc21d2b439714d9fb6a838ff1c75fbcc735e55;0x2a60d92d58493e7e7a025309703de6234cde5995;0x7e630a04b7f0c32001f59f7842f31ee6256bd3102;0x8d50652ed94b76fcfba4e23243c2742e6f46bcff9;0x106b527d43ae8e513e54a613329c484ac6f52d0919;0x8d5fa74a9a158c9fa9f3d1e2578bf4abe2488ff;0x4802979e94b6bf73b10293c36005e90f8b92a73b;0x110bc8fa68d35b1ea38358faecdf4844d26652b74;0xcff1131205c37427ea2221f9f6e952d71fd577e39;0x256f410840ef197df31815f03ced823fc6aea9908;0x7224ed48e1fb892a57af5f0b8160a20036b240cc1;0x5547ddf34f88ee73e41da86c241334b412ee7fb23;0x1c0baacbf9c771efcaa71eb09cf162991f00639ca;0x660d8854b5f1fc303a139e0a0770a36d90e490305;0x56e370deef74ab767354343dc0f0126f70372755b;0x7d22ce1182f7270dc7df8cb0914837862ca6b62;0xeb98909f49dd542d2bdba073af3eca086ed425bcb;0xec3e347ce9620bfe6d19b5e449d40bc8520677c8;0x23550083524d3a83e7356d6d2da6c4db9a01c9b85;0x51f16ccd623794eb05fff64cda31ac39de213236;0x245897f9722b7298ddd7a1500543ac8a9b90cc9;0x92d2e04e23afd32fa30f561caa814c43fc2578f65;0x45460f8e1ae8e1d75e5c6f58e302c4177db722097;0x10f18d18781963877b2f1a8f4ed792a4f02e4f47b6;0xeda708c4f1f115e4af5b432e6e5aba5f2fb7507ba;0xe5070568551e3d6c5902d8af7cf6155e2bc8dddb1;0x2e9330681cc57052f4112b854b53ebb5f163594b;0x2bc38f65b47a39674524d4e9fc2de8a6dd937e2ab;0x12e689dc04fddf01edef7dda8f0c12379151075f5;0x6993f053335dd2bcae925aefb4e4d32b098ae955;0xc4ac4c18a6d805012583e32d905e6f7e7ff46f201;0x40893ce1fc1fd4007c925aef23f64c37c8e2aa4de;0x66c8873bde4811bca8731059449b45cdd315cb377;0xefe58a6f62a9e8e3fe7e3d274004c46e609ada9ff;0x86f11e806edf47ea3a4b9f28b3ded6c87c7a7cb;0x610328337a0ed0b9ef281d3faca287afedfe9079d;0xb687f2b3c8c2599a2a48f94bce12cb95a01ff40fe;0x2836c0fe3ac4ca3aced9da960a94a506f311dadb6;0x9654deb5be4069ef24dff26e543a2111f6fa87d7;0x7f2df5d7225bc19ddc2c96167da95bedcb3b75a4d;0x8fda2201f631b302fec596d5f035ac759d75110b7;0xd5fb50fbedc284b0b5f8a939d233adf6931384ff6;0xd1ad45003538fac8824c27455504fe0ea7abc25f;0x1f0b67f3b168148a3a1959378cad7074f114bb080;0x4ae3f83f8a188413e30e90a7238b13ae37acc9d69;0x80a2260446d1b42dfba939083776e83629b07db46;0x6f6e3f61c7f340d59ed0f3c7e79d39a8ce1b576f8;0xe6e81337252e39e71fec883e31f9a7d5295b925e3;0xfe5ac202dc575fb005a0e8e3c96f4a8143079ff63;0x88967af0a23ad28427a44b05ba3bb016471eb4542;0xb0ca255de0c784ae5156a4d146d024c9de6ba7be1;0xac04991065581b64031d3832b5e87cd52d85e102;0x557397cfd7eae86c5d3ea2bac3d7059eff2f32732;0x334e7f878e602a9fbccd8abd5f15be3cc419780d0;0x66cced3c62652b498acc590c843bd705dbabee1e8;0xe18182610eb558f182f02f724e15ddc49ef364d0b;0x94509d76158afa8118ec68a659b2c22dd33ac630;0x630fb6042a60cf6cfacde9c7227ae9b456cf2a91;0x615f55c18ec0a6a347f65ada5f56447d68eae42;0x503c51bba962757056dab01bed420bf9f6c26806e;0x4dd71a072b6e2e212bcddafc185ad6be0b6b85870;0x3f724a44f88f716500a5f99598c150e07e7c17262;0x25a1c8bae864ca8540fa39186315be3b99ae2c4e7;0x1b738cf491439c7947c6029035cfe1372bd0239cf;0x2a06593e21b1488e0af2fcbf785d101073614a0cd;0x2833b941e96da77625cace4476d9ef60d963cc339;0x20b557ea24bb51cfd62975be6180c3f1cdc2bbf4;0x88f8cfdf5cd2c3c05610eff893f808012c2c5fcce;0x4992d8af3f1343199d0c97e0e5774ab50438cfcff;0x118419997282ea257e5ff0e0dce7cc95ad3134d4;0xf1d4d0b2f327cbde8b808050632bccfb67ac88c87;0x3efa7a12c8bc60aecea69857681b37e71f3754bee;0xf33894dd9062027d0a635591b319c8a9e306ed5d;0x163537c46e85657e10eda733454efc097c7d6f503;0x2e3c874d0839e0127969d7287c79548c6b9495fe3;0x6eb366ae65f59c48983cd322c4ddacb74c7739c2;0x16dae125b58d8b75224b9aed6052307a154186743;0x442449930e1dd9dec9accf981945a95682da832f5;0x1942bd9e2d71108a930e7dccdd7d88f867991eb1;0x4609bf250137718f6e1ed860ed11f489246c74f50;0x52e7b0aa08fa4bbc483ef78945d281c8647f5b3ff;0x2e09d0a7cb9db6b6aa489c1eb893aecf9c818ef82;0x34cf74dad8394effa0dd945240061195a707ee552;0x7ee870cad3591054923adeb4f35ec1e6030c3d5ae;0x5f9bad11e97f405dda98e3cabba7178dd4f1ca00;0x9a74ef89078621c01663c2014ea2ff3cc9044a4;0x60df891ebb29babec750ad97770f48c05bab1301c;0x2b3f55d9fe5d216e1d9621384583d27fbfc55e13d;0x84faafff745b7b379c370686b02ed5c6f923aeea4;0x23342ef788f587c1caf0f20007ed52c95b0f5ce;0x561c54975681d92077c6a439a192978003575c5aa;0x5f164942d73675cf675cc8adeff37f63aa432ea7;0x75a069fa014252fb11ff5c2f2d683c9a0b877f40c;0x109cb9e8524532a9d2a63b8a55c85a35122cb7b3;0xb4f448fbc30c96920b073d9e1b52eb84b18b99e9;0x7a192d93738e52c655f0f5b5385f65f67284eaed9;0x912c01ab36c0d9ffbafd3f053a86456ef73a962bc;0xa0f2e44a3064d7401fc12311b0b3efb4285bae;0x59f79b80382532ac534b1ed7b4b69a8928074f5fe;0x73f85e7cb515b6538bf9ef7ff47cd1b9c88d909d8;0x26bb411e9c7ca5a68669e6257134f2057a21c16f4;0x626932830a2a31899523d8708bdedb7889f322ccb;0x87f23ae10e06806ddaebd8805c9467d333440d725;0x104eb88ac8b51bac96730d73dfe3075d735871d6e;0xf202d003f75dfcff90317c13661eb821f86b846d6;0x833b6863a9b220d686d044e083ee23e9518e104a8;0x1ba3e86ca48e5031f03465d7670ece521c6e1ece9;0x2e0004da892cee0f22d34e56230f189ebf522dcd3;0x7689d7c6fea09d882fee9a2247b13ac64757ce98d;0x96b52b433337c1690c9ccc2d94413632ec358c701;0x5539998bec6802a3c410d9be7ca3c29f7f585dd19;0x2931799506c927c2a37f11b0d20a01148cbeaf97;0x20c2867a24b420ada7063393496e36e59e5d38;0x4535f392cd3a34f9626d21abc811088f3c1a6a682;0x583d86f29fea242c70d7889d917a639708700d991;0x1282cbc2cefaa98f71392f4b3e040af245e156fd5;0x76d5bc8e2b8fe10a1cdc95edbf059334d3933d0d5;0xae2c019e7bb159045b7d7b9641af45e3450ddd01;0x6289b4627cba9572adf004699c8e7dee394b40ea8;0x3026afcfc37883c3b2a5e76d536a8c62c941734e7;0x7e5c9b878ef1cebba629397421e17f66f4fbc8109;0xc28b2b21ed64ea5011d3b3e5fbf7d090fb03956f7;0x127111de462e311597af684cbe45f71d882dde4a80;0x656bc6ccdd063452482136b26f9ffdafc0612a700;0xb7c783c59387b313bc9ec30df3ffb5f80c254e01;0x940fe7b563fc3d989de48b986f9ffdafc0612a702;0x3753ffffffffffffffffff;0x0;0x0;0x0;0x0;0x0;0x0];
   s_u := 0x735b1ae270bd5fab147cc5e42480eb0a364f28b31; s_v := 0x6cbd71c5982306b47b9ea0097498a542d168600f7 |}]
   [0x0;0x940fe7b563fc3d989de4f6186f9ffdafc0612a6ff;0xd8726d80ab6bcc676fa7c8f4135e6b26ca01eb64;0x8301357636e3b49587146db7e44a97271a7b0c7ba;0x1b52f80ccdaab191fa7063c040195b2f79f24a992;0x25838389136b43e8b843b8baf66d186d28abce2b4;0x53d9692a5db2f43c736218340ae588693443df6ea;0x431579b0e01a9ef942137fee516e6bbdea6767069;0x4d81cc5b653866dde910968b4b9f5036234ecc5cb;0x7a49e8f358276d235343fe4f04bb4a479654cd7eb;0x59aa40feeb97451bcb2b1cc55e8ca57031a5e9554;0x1fed1e4b4c68aed8203d8797e6f69ace540654a81;0x20e47afd616e07fdfa9c786967e3bad3968d9d363;0x728e77e13aa745e55cdf8b6cf8d87b5a2fb3dcbb2;0x4ed749344b367e11936eee21ead0143ef9d039863;0x123fb24e4a2f12619296d2e29d4b68db66fd603373;0x92748baf54299db4711b957514932e061df46ccc4;0x119c2bb3ad97b30a018bf0de5c78a0d74249820f2;0x8d2070368f2b4dd2199645055d0e85e4a5ef2465b;0x300595fe0fabf999f78d3fb0d5f50c21029395c62;0x51170f04dfa8d9b25282b2b6f0e3098ead2f93b1;0x6e7c5b370a57fed993bb3efea5e75f099fb6d6fab;0x20cf8684e07ebc0adfad32b6e2c029c0baa660fe3;0xa6cde7a96bd6ff5b62a33fb5ae6e23c5e114506b;0x3a1db0960f12c472b4f317192578959e659974f13;0x13e05b4768538e64c08696ca9f6ae1a8d16d584fa;0x3d832cbceca2a3ae3ea2aa062ff03a893441cdf12;0x3f664cd996fcc95ca7b6b6a5ae20e3968171eb1ae;0x577d2430bfaf0354c61d657112cd1039061f35135;0x9a231e44c70ae9552e81abf4544ab8c033f66;0x1fafdcee8e272fb3116ef433c3fa98a172cef5f21;0xeb30c6fde435d23a4f69fda4b6f907e75574a19e;0xd667914adda4ad0132d1b83c407877725dd73ffa;0x112821d65a99313cba56493678b9e48668e5ce09;0x80ffb749fefd53a931ddf1b0872d4726cc1ddac5;0xa7fe7a194f74b6cddebdefea24e224f65d574063b;0x27d8b870f8c4c4cdb22cab0bd1d98fa84bb54cdca;0x4632a80850be3aa04651f7fc9adbbce95abe19712;0x1884d4f57d1f36c3ed3610a9a7ddf8ff68f0bd243;0xbdae2bcc68dd41adda4e0548f41b3f3810fd29d43;0x22f7f94cc852d4a3cc83a12db4ab4ccea5ef52045;0x6a5ef108d4dc612d9a19f8c024172a91f499ba2df;0x3b7f30a757b99dd3e12e797453da768e51307992b;0x8044a0f68695c6c8d2b1f68cac59c993288054e0;0xc6c177d437204894f186259f2ea51e9505aeac889;0xbabd47c60159444affd0d7be99db7442c7dcc61c;0xa02c3619724116f8c571969c7ccb171e40c2a5d2;0x109b33e33efc2d3764ed52382657b10d0c13e6a100;0x109f6e9494525da19e46716d9cf312d33b84702c3b;0x1154c14245f5d8d70eb3f4a8462dd27edf795d0313;0x53a1f043ae1b72f0125931dd89f6ce6a057fc353f;0x14be02d5ff7604ff917887722f03ee2f97eee741c;0x5808c4b68146222e7e138ab56fdd24c54ac0835cc;0x2d9ec8068164c7101959a8abfee5065216558d07;0x1411a898b323b69158f02385c593b18e2259d9e16;0x194f2631a8224966cc685fb1e86853edcb815e0e9;0x2375812e1c9eafac5dacd4b389004b84cd00831f7;0x6b8e420b04ae09ea19c9a9995d2b5b9d87dfc1788;0x31a6f6c46c5d4434b6bc5bb905aa09b0efdd16d4f;0xd39ef52e1d01d0dedd09b3e7d47a7911a1668313e;0x4b686ae6b222ad77f7b987f2d6d44a4fc15bf26fb;0x2cf9f09bda9b685c188bb6ce7887bbfbf1ae48eb4;0x964705222ed5029704a5d8c7c68e02a1960c61a91;0x106e2a1ed0d02b11a7d464beaccffaf004119e574b;0x51e485453d4d83d741e71c7e5031174b40d83f18c;0x9ccd7fda87588a2461d7d9634a3f4a29a1305a4;0x409bec976ac9e7ac492f5b6a6b67189f72c14f018;0x7e701b40a57b873da51d66eac22574aa9853751b9;0x4a1f1db4217623accfa966f9df114e4c058b5f5fe;0x23f3d53e9380a6be43cb1433da33d6058cc52f5f5;0x2084ec3a852d1bb000ee6b57eb77b0228bde84cae;0xa758795c5595f0055aa08e748c11c790408a58cbd;0xab0faa60d89b21668afbb9ff1c07f593e4c57421;0x29993167361772d1eb693dc28e5478b28653b63ed;0x6f96fbbde261c73196a801fafc96d4b585999077;0x1982ef172cdd8f10a839c0d19f5f5b214b332d703;0x3021c740c07edf5b34d5c45589331a5d609b58dd7;0x53df3d923dc3943977c2c951e931e1913419a6;0x3c85e5ff0059d611103ba429ebe6596f01eda717;0x2c217ab9ae2c658ebb785dac32566c4095ed389a6;0xb70037219f7eefbeb80af37b4c06dcf5e1d76f511;0xcf27aae9e07309b031a3f58bcf7f683e31581b477;0x435d2d08f08892ed681cc3c06281c6ac0725b76b;0x617bc5be7c1b840584f55dd842288864f3ce030e2;0x19302d344967c3ade742db9ade70b4474045aaf29;0x57869770e6b580f1ffe33063239a90fed75d5a289;0x2f70ac4d936288b4f3724a9147620907f8913bdce;0x2178288768cd594138e727564af42cbc3cd1cc281;0x28055b30e48c87f92ee26379957598eb4ad3f4b0d;0x4f4a8a36dff6d46faf861912219c29dbb2916792;0x23b11652359c7f5c14e9e35b373942b833b7d590;0xf95d885c01ccf5c29e9b1ede465c1a9205df8a975;0xfc4d07f6f9bca2a1697b57ab428434b4a79f79537;0x827232ab4f18cff8b5c2a496e3f18f56f557ac01b;0x3d71dd9b46315457d984d567968788aeb5ef7a429;0x3107e838764ae2e5e9ee9ddf350b13e0cecc152c6;0x16a048de7c723e9cade14b9bd9dbd8984fddd5092;0x83482269fbaedcc5d27b461c2226a0bb2ad79218f;0x7716fe43a5ea0525ba5628b133adac547b69d0079;0x747b6f463a0350614740934cc154f4460ad01a4c;0x5cb14e2e0e4b1ad360b2c9a20d5dc6076616f9b3;0x3f799106a1b70a5d107bbc790cce0d9394d726a14;0x5df1066e77240e7b8c6478122a19e298ba17bd2d;0x2e18f14caebe42f9c765d66d0e0fa2fc283e8fc0;0x2d3006a2fc257a6855d88308474533d352387b90b;0x26c369264c7ffbd5a64a195cf00785172197edd65;0x318b80656ca6e7ad78e3ea40f3cf9868811f9e3d8;0xbc9fe4cfbc139e5fbced9df9b9f03c502ff8356a0;0x297189e44c74db33da8887331d24263075a7aac;0x9b746713f70bfe3c35ba2e0ae829b2b3a48fcca;0x24e335e22a24e37fdbfbc12d589fdad65ed83f4b0;0x40b944dde2fd5b3702f66bffc6488f0ce35e3f058;0x1f8883d7b8ae473f93a5622ccc918e4ac59a9c08a;0xd1d549b5698e21ff8ad1dfec1cd1804cecdfa2015;0x8cb749dfd5e32d16c60c0c1eb737c3e804aa8c97a;0x3ae983e6c04706136630f68e9f5700482658eb435;0x15753cb1d9bc5f30a534e5837836de88b4989b1;0x1891d6e3d979acffc5dc499a3e193c0c8480b99e;0xe51addb3fc099f45b1a7b0b5528ad5dab41815cb;0xf1a767a04b3a40a793a09da0d1599317e6596235a;0xa3d4b84ad9fe0ab2fa3568556a0d8da7a5b5c3571;0x4844cea3efa2dd57ac3b69908bdf16902b39fddc7;0x780f8f6fb73227d514108ca82a69c649598f51dcb;0x16b56b5f3ac84ea96b1f37cd6dd45b335088d1e7c;0xee0d9b896fc149397cc26f17db04202ae8238413d;0x19c5e5d4bdbbcd6fb7a29d172c7e2399c0398a39;0x18669a43966342c46f5726d01092a783afefeb1c5;0x3fc34c59dbc10da2e0fd02ff925f6d43d82ee4d92;0x466fd9e6aa76faaec8ac5091c149cd29ccdca2922;0xfff6fc41014c703941c09d6890680faafdb702;0x14c93fc17f08950bb67c37f1f778547058bb9eb2a;0x744776a2afe50aebd008947ef608972bf0942e831;0x6e1bff32829537e3d6084894db71e73d77cee8643;0x3ede56ece74d07558dc90ae120791e5cafec1768;0x90a3f28bb323076a933ebfeae4ccc7678c549119;0x4e88950bfd577fd6c1fbfeb3c9e5de96ee9342868;0x30258c05fac9c451edb8833e3d52bb8a13ed41ea3;0xc9b55f09406db186bab2261962757c3db6ad29641;0x55c043f944d30c9d1527af506f813fec99926d377;0x844256842f949b78fe8435f2886e0212e10c5afb3;0x10d56df9ff19a669d972a09282ab811a88a4c85aa7;0xdef4b9566e29b4e80042c794434aa1abf8bf9da0b;0x309c210fa5ff07385e831d43e4d3dfb3d8c9861d2;0x3df33e49a43c8e7cc15214daa93f6148c1d79347;0x78247e916635392ff716fc413781acdd2eb81aa5;0xad4adce3beb6498aba7a6da1913ccac0f167ad1c9;0x2ccc8d247a988ec875bf8d3962d2e8bb0edd2e2c0;0x138a1ce820227e4394c2fa2fc3711e875f279cb37;0xde4a1f8df9ae40fbbf6b009ea576a13cb2a751ff9;0x7889704a9ca346f7b4cb882a177ae41917c145289;0x12022c82b93bb421ee8ed286085e26ee3f50b8244;0x2a278edab7074465644b7cee7883d7a4b146d9e7c;0x10cd5519bd59c987325bf5e0e9a919aa41ca0fb7f;0x940fe7b563fc3d989d5181ab6f9ffdafc0614f267;0x940fe7b52ebc3d98a2aea2ceef9ffdafc0612a700;0x1ba9ffffffffffffffffffffffffffffff;0x0;0x0;0x0;0x0;0x0;0x0;0x0] _ _).
  - vm_compute. reflexivity.
  - apply Forall_cons; [exact prime_1383025893710964714782567'|]. apply Forall_cons; [exact prime_19'|]. apply Forall_nil.
Qed.
Lemma prime_95780971304118053647396689196894323976171195136475563' : prime 0x1000000000000000000000000000000000000000001ab.
Proof.
  refine (check_ok 0x1000000000000000000000000000000000000000001ab 0x1ab 176 2 [0x940fe7b563fc3d989de4f6186f9ffdafc0612a701]%positive [
   {| s_r := 0x940fe7b563fc3d989de4f6186f9ffdafc0612a701; s_c := 0x1baa; s_list := [0x3fa6415991c393626367aab6c4df12271c694e4c43f;0xd90b5;0xfffffffffffffffffffffffffffffffcc5bc144932eb;0xf7afa3961f;0xffffffffffffffffffffffffffffff954000000001ab;0x1fffffffffff;0x0;0x0;0x0;0x0;0x0;0x0];
   s_u := 0xe69a3765d8ee46dc6e99a16eba7f7800c0dcf75233bc; s_v := 0x1d21235108f8baae93d3398df02da3aaa70bd7904279 |}]
   [0x1000000000000000000000000000000000000000001a9;0x10e3c94158e5362e5b662e1d2b51a54ae6df63c80af1a;0xb9768c3d564b786872776459c1e14800af8a3c1f0ea;0x716ed3eafa55fb39e5c9d96aa548c138bb619ed37274;0x6320c77351fead550f15245722f9147b3a775aaa51;0x1078ad4f42e08b25d139b854d5d8a8e2a9c658c444bd7;0xcc33e063bb179ce287082ffd3340a4758e27e499776d;0x1db708ae94707deedcc6fd03778ccf531aa17f6ef7605;0x8ada4e21189025e39381a62354110221491c6935166;0xd4a71753ee97d3efffbbabf8f14108665abb8f58a94c;0xc7a498bb2db9e7787be89710c1c5a5bb99b98619488c;0xefb035a7b2fe802fd3c52d19fcb670a0e13f61a5957;0x49c3120624562816047b3a15ad672b7c6fa29b8f031;0x4e64e031b877a7078356cc143eeb753ada869db1b25;0x11b7d93668e17baa9faf856a2cbecb596e39d39b9a;0xab87d41109d1333033abd70dcf2df7a1941bf558d20;0x1aea1f2919faa7c60726a62955ce116e9cf9d9507c75;0xff5e8afe431346d720e66c00f19e45eea03ea0499fe;0x81480cb892679199586ee478d6b69a93a91ba6c1f593;0x7e0dcc934d20caf4b10271140936138263b7dafa466;0x2589c6f2608d808ca6b9398c0a5cddb41f7c7601f42e;0xfc6c7654e6f135ec2c4eb7fe8a65be08245f03a4ad47;0x7ba1803e5217493549f1ee452c4f904ecc3d6547edcf;0xcbd45c11186d42b7717f62ab77a0f38e6316fe76a55a;0x1517d6336ccb3d5c8b5873ff8454c0308e1437df583c;0x7fdb8ebe318bfaaed72f3ed1b54da7d63fe7a30f028a;0xdf42550760e1a5a9e97f70219569af08a7de9ca42e5;0x99c8a38059b1ffceb82df805148f013d18712abc22f3;0x5b606e7b723abb03a0af0588cee7d55f6371a5b6658;0xd19d737c33c0423fc44336e3f13e27dd9ca48dc9d00;0x6a690cf64d7046496a94eca99751376dc69675b95b51;0xb167bee7ac0ba2b95b416e200af8577304ef023b509f;0x2c78664c4ae35d46cf057e08644eb1fe9a467cc878a;0x77f0bc8606b1b98227b29bb6c610e50964be7dcd8df0;0x49bdcc40660569e3058ff83abcc021cdc891cbe3ddff;0x874a8a1b8745f17f36590ccfbf98afa28c3ea8384bb2;0x3ac2474243796ba093fcada2208537e14bf869122c2f;0xd86f9e1763ed40996c1cbdcd6affe53e7a789d85a2f1;0xff794e59800a4b6b1e2dacd5c07a79e57b154ebe1143;0x2ec2694a1e959191a0ed17a90ddc9d15e4befc4f690e;0x10e3966adf65172535b3ca43f3838f70428fac67d8e;0x471dad2ac467633125ed1694d96492cef2103c58f1a;0x53a9587b4c57aa4309361755f4bf6b92169447069a57;0xfd0111193fb28c04ea4069609f2bafc82f6f38cc;0x24f104bb2753bcf160801ef5e1c746e15c67017bb26c;0x432bb20bec8fa05132f1975b3efaa2703da357ed0404;0x1049ee23ac7c09256ceca37ffcf5ee082688f064d65c;0x408ad890472e3788d9c5349c76dc3ef999fbe3fbbf42;0x59db3ae4fd57f749a5d882e01f54b5a35f765be2bc37;0x1d164c09c8a62ed331479197f1f040ebab9845d3a20;0x1c40255cecb2ec0934bc630d927fb6e1b10c0ee5dcef;0xad23273e9f03428b9ca967e9420b24fda800a3f617bb;0x47b9484c9852ba58e47448b8edc2da5f11e999161b44;0x73aeea545648a48efb8352f4214beb31dbc214a5c67;0xe0f648e350b5e51573b3f4d49c46d40416164d252e15;0xaf15bb5962cf7ba0eba3720464ce161987dfd3be9c17;0x95d92afb5116dd7feb7fbf95fa1109e4bdaf07c5446a;0x85048dc7d63392125214ee43cc542a93008aca0506e5;0xed3b45025539dcf530f5dba47c8a563e5752e5275551;0x5e34d630a67b20eacd7cb0af76100ebaccd2e0481c44;0x44b0841903787af168efa85486f9ae7b8e1bc0e4206;0x1152cdcf275c24eec97dfa4cd62c41f78bc72587ef1a;0x237bd5342a0b0845ac1a91245eef45712d9645b8b3f;0x195c3d26b4a500f3cb74eda9426b85d8a1764b258fa6;0xd5afe4823b1a12147b606b59411f84c8a1a0ba266c82;0x2be761e789918aa763cbf71243d1bb355c07eda61c97;0xa42930b335b7b4e91aa0284e2d006afa1938d373771b;0x9a66f3ab4eba96217f6f945bd47caacbdcac2816f704;0xc5ff5ecf6a0b7589230ab70474bf48ba1397df800592;0xd7632731d7df5c01396fd27e67bb82d3a4cd7ed95d59;0x16ea18b569cef6905418f48c87874c6562027696b4cb;0x7be37136b96cb6e57d6380c917097d50acd95b53908a;0x455a96d45ddce2df0d2e5b718218fdb5282094a6;0xa118dd2c9e5d3eac0cfcc3ccd95abe8ebc0ed39e5920;0x23b597301a582fe2de4eaa960f882dc5df42be8978e1;0x9d69ac450966450dab52a4c5a7bfe0140efb6f5e6;0xa6070debd8aba8fe4fbefeb51ed3359b337ae47f606;0x2e1e099cbd9fae4db9379d1c127b3697954034d7580b;0xe71afa855d8c9870c841287e78de7b50ef0b8d8c35b0;0x4f203f99ed74832c61156501e538645b99bd06da8053;0x10c7712d9304979bf910c2f5aeda0d37878f9c8adbf;0x8bc9be6f66bf495b1e8d2dc549264b788cd8b12a8002;0x2dd3e428e42c954a72f7e7741de77b9d9d3ff750fe19;0xf4de0b020c5bf575561bb47c460d4527d3a0a3e8a1b5;0xe66709352561795102e7653193593d306b57096c5957;0x3655144730b5282e2c5bc8ecd10ad121cc33d2a5d08;0x43e9e8b52c1d717805d2281553a79b8e72cc9330df26;0xb0ff144734b5c07fb08c961f8c61dcd629e6f8589b7;0xa21590775717472935519a4ab08a30099380f7802bf3;0xc111b7bd66cededbd3f1ffdaf65016c8e3aee943c6c8;0xbc60f639e19604d3fedefe7442d2c397c31e0dd55f79;0x24b4f6c56a096e71efea2f91b2b8defda66b7c64cbee;0xa52387e909082f16257b57b9454e6e3bb0c06e3f8910;0xa73f88003635f345dc70bcd9e8b13965535a83167b6;0x22729438d6d0753eb0fc9a6da8254345accaca0eaf;0x30ecb7b9816b0bccf58b4bc5dc3d6ababa602b45bb7c;0x489a42098359a28c7f0682c5caf3afdd303a6d0741ae;0x1c0ad7ba81acd279b4ac3d67652ff0eccbc0169648c2;0x2dc7ce945e4337a6cbab7a19c473fddbfca4ade42b3c;0xc570fdef5d571fa30544e80e2348ef633c82ecfafa2b;0x71cc9ac803c35619029f66671a603d2ce4dcf8ff593e;0x6786ebeefa233766826a4b5b8a99636bba83b1c4f6ce;0x1918ded008ee7c879e44867ed96c1132b7b948581;0x10edb2055455694938b7c5f07c9db4c126980a2660;0x7887789f47b9771350bbd94f11d2131f1e0f8d538233;0xc0fe4f893b867576c952c2b453bd2483c4700345b1f8;0xd4cff75764c7df614e2806494ca50c454475f6c48f92;0x354b275d509b1fb32d1d67b174d05ef532871b1fa89f;0x6aa49061837157522216910fde8176ffd92f0a631153;0x22f02ee1fdca4c35c5444781eef3e7001a4859df64a;0x3da20414bfbeadbe3870f434d3dcaf1fd1058d3a0fc2;0xd07d4ded26a6def8e31cfc68a56f75bf72afa1e7bd69;0xfee7646e484fb9b7606751f94d08decd52ec42da2a20;0x1f934e84171738ab7333e71d737c55ce1872b21da0;0x7918535c7e841dfb6300cf878d1f21333f37f534c39;0xfa1cd250c2587fa74b924f002e4261ea519f27b13e04;0x7820fa0a32c8a0801ea2d45a38e049bb4c2e45b4822;0x723bd04ce471191ea38714ac072ffff0715339febaa;0x7cf6295849a5a5be95a64b6eeac09d81eda21451db06;0x2fb9562c8f677f95006707cd1b780a63d67f44a93f4;0x1150951be9e5d2fbb15a3c41e9de9543001b7d3e999c;0x263b68ed9be5413b0b937537a2ac20444807080d773a;0x4366cf2a8f1730d7a3efc4ad6ce3fa8ca9880858f6d;0x1f737d9e6527c4f92f69764c44590518a78df79c4d5;0x5922a8e3f7592e2ea85b0babd6d349c85eaf545e152d;0x1585cccee63d6013b6cf983ae859fa376757db7a8e;0xc2a11040800d680766cf94b38187fd102fbedab6f387;0x66e4ef09951959ae4f772570e87f33094eb9d6008014;0x24ffb0ecf927751f7d9bef1153ce4a9a9084dd96fab1;0x1784bc709cc205691870e965a858dd6cc2bce894fe5e;0xe861123844759c965c5cab722f7c1a5685df8a5a4444;0x6da58d9aeebc7c1a3db40a8bca0b97da5e17e03fc1d7;0x4a4aa0cf7eaf7c20569bb89f64ab32614228adce32a4;0xcebc3b6b7c5dae1d19b7469d88ace6cf26b8101da7e3;0x1f68d8ad64a6e48a0c984c5fe443e7b26b9184723567;0x279e1b5bfdb6d6929c3d9dbbc66f77bca304769c8798;0x22fb3c59092256a19d2c96a55f276b309a6329e9c52d;0x33350901d0867b94b6725c257d834371fa07ba0a02;0x2b265d9d73b12cfd70a67fc93c783785afd11be982aa;0xed341e16672852fb72525dd16775c5c497deafb79a9;0x287d56aec3ddeb1b7f63361fa16da754ebe544dd402b;0x60d1e55a100660a497d6eed030ecec6c2732f162b056;0x1044676877c626258be00764569484b08dd978c28d04;0xb17e128cd19b0598483b24d890de5c2f9d3ceae2d3d9;0xd6a87143fe408a01b382378afcc8f76e6c5bb91c452;0x2e7a7783fbdba69788f7d87c72adfddac4f179c838;0x5214e9cccc1494beb18a00eec047092c3524acdfc7b9;0xfc6ec9c0509c469fa46d3f7e9c715f2011d87ebdc57;0x3718796507cb79557f1fecdd27886e38aa0336c15657;0x8c053203731ea70d63fe2900fb11022b88ca929e1a4;0x2ae3a56fdbd8e86cd540b23b3a785285da33d2498be0;0x186c909d5ae8007939a39bce645b696da7602ab45367;0x5b049a01aed2f0053f045a181723f6c2a6098ee1a4c6;0x58e4006950d61f8fcc51b6c3ada7a7eee88e7d9f2b56;0x10a8be7afdd60ceb19bcedf31432d698f058ca9fe1ba;0x7d8db4ad25f37c66332c24d1c805b268c84f83dcb4a3;0x27203667b9dfb9a3ccd11d10571b38a940932cb37f3;0x1f179fdd1f3c436b1f9c89575f7aa8a8e5b43c683e7;0xabe8676dd2f9a30b437bac0ebb2be2e9ca4b90dba741;0xc3dfd59067fb1aac4ae185f96491aeb0fb305368920d;0x72a481b07281b6d5013724eb39c88019bd02588aac62;0x8b07d9e4b7b7fc7acfc7845519a155da51622007346;0x393fed047cb37954f63311ad6a7bb8bd1cce9a707bc;0x4f0fadcca7a12c2bf942fb61e5ce94db8fbfcdecb9c6;0x7431d7fce0fb1ec4106354d0a96f82290270d3166ec8;0xe1983ea9a9f1ff990000000000000000000000286f81;0x9c991cb0fffffffffffffffffffffffffffffffff9c2;0xfffffffffffffffffffffcaa000000000000000001ad;0xffffffffffffffffffff;0x0;0x0;0x0;0x0;0x0;0x0;0x0] _ _).
  - vm_compute. reflexivity.
  - apply Forall_cons; [exact prime_13524565278751490207200888053783440267745156048641'|]. apply Forall_nil.
Qed.
Lemma modulus_22 : prime (2 ^ 176 + 427). Proof. exact prime_95780971304118053647396689196894323976171195136475563'. Qed.
Lemma prime_173' : prime 173. Proof. now apply (trial_prime 173 8). Qed.
Lemma prime_23819' : prime 23819. Proof. now apply (trial_prime 23819 79). Qed.
Lemma prime_319119953926183' : prime 0x1223ce77e9827.
Proof.
  refine (check_ok 0x1223ce77e9827 0x1223ce77e9826 0 7 [0x5d0b;0xad;0x3;0x2]%positive [
   {| s_r := 0x5d0b; s_c := 0x31e90c432; s_list := [0x98d5e4673fc6;0x5e9b5eecb579;0xee093f5ebe3b;0x39d9ed8af52a;0x3ee34dbb2a6ac;0x167e55c0478db;0x349ee56d5f3;0x27fb82ca698;0xd618d72abfc6;0x8411d767a0;0x2a3227d694af8;0x37611efd17c4;0xae412548801;0x4f36dac5fbca;0xa82dcdd7eaf;0x1f6c6bee62662;0xf88f0515bd4b;0x9bb005d9905a;0x7c6159f2454;0xaa966abef8e;0x13313ca9473b;0x266440e33bf7;0xf89049b01f6f;0x69eb65565fc55;0x1e0e77c2f2;0x61213e6f8c1d;0x578a88a5f8ef;0x2c562159a4938;0x11f48a959542d;0x92916;0x0;0x0;0x0];
   s_u := 0xc617b9249c57; s_v := 0xc08020708f1f |};
   {| s_r := 0xad; s_c := 0x1ad7c28af7e; s_list := [0x11b8d6091e76c;0x62c492c57dec4;0x1efcf0f7c34d;0x242985f10494;0x5a381e74ebca8;0x23604c8aae703;0x2657bb7865144;0x9fd52a18333c;0xdc766f75c93b;0x75ff971bdde78;0xc0969561c84;0x3758f3b569681;0xb5f02e4f7f4;0x2408a5b92c49;0xfdf8251df04b;0x7829033ec3ea;0xc388e3f5bba2;0x5790f90dc1b;0x404f71965dd2;0xe81a399e53f8;0x7f6cd1bf1c89;0x66cb9680e036e;0x277bb483ef91;0x8e1162f9196;0x2e8c8386b8;0xa5f42a492c2a;0x795d50a1d5a8;0x4cda5f52a6c6f;0x210f279ec8a3f;0x2f60a6a6899;0x539379dcc3920;0x43d96d9a5ad2;0x1f8363f1721d5;0x1a3cc1b8fa33;0x47d186e851b6e;0x1704bd247b6f7;0x1c0dd48;0x0;0x0;0x0];
   s_u := 0x2c22da800c31; s_v := 0x12caf49a25c6 |};
   {| s_r := 0x3; s_c := 0x60bef7d4dd62; s_list := [0xa74aa4cac88b;0x613b24bce07a9;0x3bd6f4785729;0xe5a087ff213f;0x350d9860d548;0x120f4b98033;0x109bed503b249;0xf02598013f9b;0x1dea58ac33766;0x7d8456db0b8c;0x6e1a5431a514b;0x2f5aa7f9f3ed0;0x519ac69e7fdca;0xe1770a409e8f;0x3d33a011d10af;0x6319ad13b5;0x13dab1f16c3b;0x7408f4e2c4f9;0x55b7acc484052;0x259a79001d;0x24b953dd3a416;0xbf6a321a510a;0x3a32705d95e77;0x212ae9efff389;0x261cfeabeb3a6;0x513990de48b1;0x2be7cebf96c63;0x3a3ce3284671;0xaeb1c714dcd4;0x1d4db5e927c2c;0x6164631ba92bf;0x49800b7a245cb;0x8461a30505b8;0x4fbf9eff935ed;0x1ea7da2a94966;0x1473b46dca97;0x78daca022d4dc;0xf9e0ef982120;0x10e798fd626d;0x18074853bda4f;0xefdd0a9fd64;0x290a6155e774;0x92916;0x0;0x0;0x0];
   s_u := 0x780ab0d3da10; s_v := 0x5b22f1682939 |};
   {| s_r := 0x2; s_c := 0x911e73bf4c13; s_list := [0x104233abef31f;0x11ee038057ac5;0x984f3ada6a70;0x790160b5f5;0xfd4b0d8fb1f;0x25d3a1cedd8;0x20aff87322e5;0x6bb6e91b225;0x6d7de1f074c;0x5e882ffacf54;0x4c6ee39beb05;0x1e1b90ea3afb0;0x6019e09f1a0;0xa2126b683ebf;0x499ec5b5549d3;0x7f1a47cb124e;0x3e9ebec98b356;0x38381a3d26ac;0x1db18dbba618f;0x1ced4cd3fa75a;0x5fdab1664c6fe;0x4cf8c2a220;0x7cacff819c2a;0x30818f35a7ea;0x51f733930a8a;0x5dcdc609d9792;0x7fbdacbbe09;0x1ff78f03990b;0xff1775c61a0a;0x58e4b1bf48ea4;0x6dc3dfd9fcde;0x30ac03eb1afe;0x7e11199e6393;0xb78fcdcea111;0x29d590b199ea9;0xabfaa0804a85;0x195925e040c4c;0x83b00e3340cf;0x85e1d8ffb98;0xd41897644b1d;0x3c399c91599cb;0x7cd1bd69a4fb;0x31198e86b9c;0x5;0x0;0x0;0x0];
   s_u := 0x911e73bf4c13; s_v := 0x911e73bf4c12 |}]
   [0x1223ce77e9825;0x104233abef31f;0x11ee038057ac5;0x984f3ada6a70;0x790160b5f5;0xfd4b0d8fb1f;0x25d3a1cedd8;0x20aff87322e5;0x6bb6e91b225;0x6d7de1f074c;0x5e882ffacf54;0x4c6ee39beb05;0x1e1b90ea3afb0;0x6019e09f1a0;0xa2126b683ebf;0x499ec5b5549d3;0x7f1a47cb124e;0x3e9ebec98b356;0x38381a3d26ac;0x1db18dbba618f;0x1ced4cd3fa75a;0x5fdab1664c6fe;0x4cf8c2a220;0x7cacff819c2a;0x30818f35a7ea;0x51f733930a8a;0x5dcdc609d9792;0x7fbdacbbe09;0x1ff78f03990b;0xff1775c61a0a;0x58e4b1bf48ea4;0x6dc3dfd9fcde;0x30ac03eb1afe;0x7e11199e6393;0xb78fcdcea111;0x29d590b199ea9;0xabfaa0804a85;0x195925e040c4c;0x83b00e3340cf;0x85e1d8ffb98;0xd41897644b1d;0x3c399c91599cb;0x7cd1bd69a4fb;0x31198e86b9c;0x5;0x0;0x0;0x0] _ _).
  - vm_compute. reflexivity.
  - apply Forall_cons; [exact prime_23819'|]. apply Forall_cons; [exact prime_173'|]. apply Forall_cons; [exact prime_3'|]. apply Forall_cons; [exact prime_2'|]. apply Forall_nil.
Qed.
Lemma prime_402091141946990581' : prime 0x59483c36314dff5.
Proof.
  refine (check_ok 0x59483c36314dff5 0x59483c36314dff4 0 2 [0x1223ce77e9827]%positive [
   {| s_r := 0x1223ce77e9827; s_c := 0x4ec; s_list := [0x4121eafb879ab50;0x234902eed98621b;0xfcb06b803ac7fc;0x2c71ac95e04ec5;0xb7821;0x0;0x0;0x0;0x0;0x0];
   s_u := 0x357edfa0afc97f0; s_v := 0x2e6a31b81472023 |}]
   [0x59483c36314dff3;0x18941f5424bad61;0xc4a0faa125d6b1;0xbe48b2d80d516d;0x14876ec5c57cb0;0x404c6b62627e4a4;0x1a2ca5bb79e5e1;0x6cff268ac4549d8;0x155f9d64ce2e45b;0x1de44eb61422586;0xf54b195db6691e;0x120047d4ba033cf;0x55403c724172b43;0x43cc6c7bea24422;0x82ca97bb562bfa;0x84c54af1dc2c4e;0x14770d84ffef4aa;0x375c0b25f746927;0x7d006bb3abfc9;0x1818f91f18555fc;0x9a0e6ec79f1ae31;0x25f78a23fe36f1d;0xb87422ae14af40;0x1cc5afb0e688d6c;0x6ea26150b9406e6;0xd49c1302615d0f;0x200515f0861312d;0x18ad616974e33f;0x6fa7294c340a31;0x7cf55f5e049821;0x60c24d8006997a1;0x2804a8698cc48c;0x9707ef7c035402;0x3af02b544a118d;0x2cbeb1ab35e171;0x1751b7ff8502666;0x1fba027c6c43;0x14ba051b1f8b723;0x5404d29612ae462;0x151d83595f0641;0x841fe6d8b859a;0x10ddd88198e1402;0x66bd80a3d405be;0x2353f3bc7259eba;0x7154f6d7f29dbb;0x50f9bfa3ad185c2;0x3338beffa74bc3f;0xa2469546c23992e;0x26f272a04137338;0x82ebb06ae76483;0x6cfcad80272fb61;0x10d8c642fda2a3a;0x5bc108ff;0x0;0x0;0x0;0x0;0x0] _ _).
  - vm_compute. reflexivity.
  - apply Forall_cons; [exact prime_319119953926183'|]. apply Forall_nil.
Qed.
Lemma prime_23' : prime 23. Proof. now apply (trial_prime 23 4). Qed.
Lemma prime_359' : prime 359. Proof. now apply (trial_prime 359 11). Qed.
Lemma prime_2807381' : prime 0x2ad655.
Proof.
  refine (check_ok 0x2ad655 0xad655 21 2 [0x167;0x17]%positive [
   {| s_r := 0x167; s_c := 0x1e8c; s_list := [0x10e07c;0x47a9f;0x41199;0x1b1293;0xeb;0x68130;0x2082f2;0x13019a;0x17e;0x0;0x0;0x0];
   s_u := 0x14cb71; s_v := 0x85d0e |};
   {| s_r := 0x17; s_c := 0x1dccc; s_list := [0xced77;0x1997d;0xb55b;0x39e441;0x2599ee;0x250224;0x209a88;0x47698c;0x83465;0x1b53d2;0x2c245b;0x4c066;0xbf;0x0;0x0;0x0];
   s_u := 0xbf754; s_v := 0x79ff3 |}]
   [0x2ad653;0x1fe3c;0x1fa7c2;0x12d252;0xa1cd;0x6498;0x4506d;0x1b6d1c;0xe41a2;0xc830;0x13f893;0x7540;0x5a29d;0x7a3b7;0x4f3c62;0x44d6f;0x17e789;0x0;0x0;0x0;0x0] _ _).
  - vm_compute. reflexivity.
  - apply Forall_cons; [exact prime_359'|]. apply Forall_cons; [exact prime_23'|]. apply Forall_nil.
Qed.
Lemma prime_143451554339' : prime 0x2166610223.
Proof.
  refine (check_ok 0x2166610223 0x2166610222 0 2 [0x2ad655]%positive [
   {| s_r := 0x2ad655; s_c := 0xc79a; s_list := [0xb8c134dde;0x860e1f29f;0x45ef565d4;0x183a3f59f;0x1273a05bb;0x1ec54931f3;0x129a88b70;0x2478ba4a2;0x384741407;0x6e28ea858;0xf54;0x0;0x0;0x0;0x0];
   s_u := 0x9f6822cab; s_v := 0x15b5e57a3 |}]
   [0x2166610221;0x5f70e6bd0;0x12844e5ccb;0x7fb9893d;0x18048a1d71;0x2fe0d2d9c8;0xebba2fecb;0x1462807ef7;0x2000f3f5d9;0x87b1c56b2;0x19ea69f64;0x7dcae15e;0x3ae3592b6;0x2ee40f38;0x8bb0192bf;0xbc00b3d7;0xc23d95a10;0x1a1acbd91c;0x10fc04a45;0x9b2c3d976;0x2147606109;0x165308a352;0x31ce848f01;0x4149ce6f;0x18ac077153;0x40f5f4eae1;0x2aa597c714;0x1eb8c7d38a;0x162a26c99b;0x282830fee5;0x2cd17abd9e;0x1ea8a45f;0x0;0x0;0x0;0x0;0x0] _ _).
  - vm_compute. reflexivity.
  - apply Forall_cons; [exact prime_2807381'|]. apply Forall_nil.
Qed.
Lemma prime_20083217607461' : prime 0x1243fd0d2b25.
Proof.
  refine (check_ok 0x1243fd0d2b25 0x1243fd0d2b24 0 2 [0x2166610223]%positive [
   {| s_r := 0x2166610223; s_c := 0x8c; s_list := [0xa4b854a6736;0x380fcd7;0x0;0x0;0x0;0x0;0x0];
   s_u := 0xe65539206cc; s_v := 0x689f88c51ab |}]
   [0x1243fd0d2b23;0x3242e4517c;0xb1fea2f578e;0x47366769d8;0x24fe40f855c;0xbd80a4e82b1;0x800f1dd580;0xadedea1df4;0xd6d48a369e;0x52c597a5179;0xcdd0c000514;0xaa1d515e255;0x172dda4e1e6;0x62fa91333f;0x5df13d17b7b;0x21c42338caf;0x2eb10bac3d;0x9516f21004a;0x3fb1aa4679b;0xcb116512e4b;0x3cd9372f91;0x10f470cd52b7;0x7857d36690a;0x7bc327fc081;0x2f170649a83;0x129625f394f;0xa865f05e8;0xee4cfadcb49;0x1a6b4896a8de;0x244aa427356b;0x22751aceb320;0x182d1549679;0xaa8bf7e2691;0xcc61821c3c6;0x23aef36d94d;0xf57b58c8822;0x1736fe57fd;0x2b52e5f1;0x1c07e6be;0x0;0x0;0x0;0x0;0x0] _ _).
  - vm_compute. reflexivity.
  - apply Forall_cons; [exact prime_143451554339'|]. apply Forall_nil.
Qed.
Lemma prime_40166435214923' : prime 0x2487fa1a564b.
Proof.
  refine (check_ok 0x2487fa1a564b 0x2487fa1a564a 0 2 [0x1243fd0d2b25]%positive [
   {| s_r := 0x1243fd0d2b25; s_c := 0x2; s_list := [0x0];
   s_u := 0xc2d535e1cc4; s_v := 0x1 |}]
   [0x2487fa1a5649;0x1795c4ff0018;0x4919330f2ba;0x2ff17e18d9b1;0xa2680ae48c0;0x121bd7315;0x1f2ac155792c;0x166f7bfca849;0x180ee7075b1a;0x66c6eb63095;0x228ad987e0c6;0xa126ed75496;0x8bd5f30a21;0x3d1aa17dec7;0x655c7f0e121;0x40aef4ef92;0xc207d274cd2;0x2ccec5360704;0x11570b53b9d6;0x419c7f11ca8;0x3daf30b74b1;0x141274f43388;0x49f6eaba11;0x18afd8a7064d;0x176a27805cf1;0x55cc30b5004;0x242333fb730a;0x1d07825ff022;0x2a5660ae603;0x93b91082c4d;0x5cb4f3526e1;0x1d08980e6be;0x49001ea335d;0x1dfa3f53b8;0x9f823f44fe1;0x1fe921cd19;0x102e4a46af67;0x2290b3b99657;0x1593e292;0xe03f35f;0x0;0x0;0x0;0x0;0x0] _ _).
  - vm_compute. reflexivity.
  - apply Forall_cons; [exact prime_20083217607461'|]. apply Forall_nil.
Qed.
Lemma prime_1029223380972661411787519' : prime 0xd9f24fb01f74a1d1b2ff.
Proof.
  refine (check_ok 0xd9f24fb01f74a1d1b2ff 0xd9f24fb01f74a1d1b2fe 0 2 [0x2487fa1a564b]%positive [
   {| s_r := 0x2487fa1a564b; s_c := 0x5f74eb23a; s_list := [0x2719bbfca2fba6390fde;0x1c98b0499f5e8da6c9e9;0x246cef98506281aa34;0xf0946e3de7697bd3bac7;0x188d3bc6a36a1cc3bc4f;0x11416aea80c3d0d359418;0x4652e423821092f9b3a2;0x4f2af81301f1786dc0e0;0x31bedf8abd9a5ac2b0c8;0xd87d3d35a5fff39f265;0xaed45b3de2cd52259115;0x8b52c70e64d2644151c4;0x9327cb61c6fb747b0d57;0x1d5c2919c73441dbd4d;0x57bf5f1f581c00a6ba5;0xfe4f560bc00088e101e5;0x28b9a561e10dc9fc4ac9;0x178bad7ba74d22e1446b6;0x5cf68873fd68096cc041;0x58833399263d98da2705;0xd5000daa5fdf48a42d52;0x3672f69b7a954d117b;0x505ef1368f969b4d446;0x75ffb31c8aa95c4e618;0xee9d488eb284ce80747f;0x1288f619252160f1bae7;0x103ffe14ef1989577b503;0x12d5358f2a91b2d32900;0x9659;0x0;0x0;0x0;0x0;0x0];
   s_u := 0x79730e64ec4411139ade; s_v := 0x22e967641b892c4fd2d |}]
   [0x0;0xd0552a1eaa6eb2257239;0x5f98d7f4f4d31fb270ee;0x1ed19d489e840d7277e2;0x1994d01c405f80a47082;0x7b75d1f85c55118ecdd;0x72acb75224d50eadc52d;0x9f9c84caf5aae94179a;0x26cf4cd71ba655a19040;0xd29cbff00257e5007622;0x2197a060cdcca87b26;0x1924554f8da66e70bc;0x118756773047fe56cb055;0x1789d794147f95ec53;0x270a2e0cf83f71323dfc;0x75c6fbb8bcd25c4a287;0x409d0a22a28052514817;0x30042d6fe7cd53fc6788;0xac413d2ee14914838fba;0x595f8fef96eadf9a5d84;0x4ae2248a5e7c2aba573;0xd132bd940bd81272a6e9;0x29ecbff65a94de7013ae;0x63dbedecc0d2d8bd6c5e;0xf58230af37e8aa9d1fa1;0xd7aaf016dfc6aca4622;0xb3330c63068a58fdf594;0xd5008ab8a664c6616c18;0x6606d14d7982461879ea;0x76cd59e28139cddb6b0;0xfe746e4d240125e9c15;0xa0921b696319c9046e8;0x2008a2d6ca5b3cda1add;0x159589f03dc35119f6;0x716c2552db0a9d5b103;0x458ea4cd175f0675f58;0x3ff891caf458e99bc59a;0x1057ff75a48ed03da3b56;0x68fb07d9c3a544d6fb1d;0xf402f152ebe1a60b7d7;0xd7a3135027c5af71e107;0x2d1e6170373b9cdb067;0xcbc9456a57ed51de9718;0x5bf76b03c3975a607507;0x3da1b47108efe47c71dc;0x328179d34fda878ccaae;0x4769d6e4d7598d6120ce;0x6d9bbd873ce86e6dd363;0x9f344d081bbb15ee4ed0;0x53946864866897b88979;0xc59d8600d63114a20b1;0xfaa454b5d325636de9c;0xa33a5ceb3c0f2e883b5;0x18277496e577572b24dc9;0x14918f079dd3c6f8e8f2;0xa74e903e0cd7850d5f96;0x68e2d440fbe1680eb43c;0x1d1bd4821bf52043cfbf;0x156eef0422f6129644fab;0xcc24a071dcc6600cd33c;0x64ac4826a81bd8ae4d6;0x4eaecc4585639088c4ed;0x12ef88a643393ff4a594;0x5fe5baa372a5c8cb6b1d;0x811d11756507827859db;0x9ef428be706978d760d1;0x9f33b3cc44fa8fed178;0x7fb627e87a78c4b40cef;0x169a9653780792469069a;0x36adaea9f27524dd1c;0x8e8de3bcc4f3efce40e5;0x7ab914d83324c433cc0;0x3a4d1ceeda63e5e40b3;0x12cb2968;0x0;0x0;0x0;0x0;0x0] _ _).
  - vm_compute. reflexivity.
  - apply Forall_cons; [exact prime_40166435214923'|]. apply Forall_nil.
Qed.
Lemma prime_12350680571671936941450229' : prime 0xa375bbc41797795d463f5.
Proof.
  refine (check_ok 0xa375bbc41797795d463f5 0xa375bbc41797795d463f4 0 2 [0xd9f24fb01f74a1d1b2ff]%positive [
   {| s_r := 0xd9f24fb01f74a1d1b2ff; s_c := 0xc; s_list := [0x0;0x0;0x0];
   s_u := 0x258fd5304fb077993746e; s_v := 0x3ad |}]
   [0xa375bbc41797795d463f3;0xd460b8ba842c053323d9;0xf0657d88eabc1acef9e77;0x1be90ae3eeee07c8482a4;0x145893ff2934edbf2b6a5;0xa5759e8d763e994ee5b3;0x2c20abb9c359f041ba963;0x6f7ebd7e6ef1a4b3c582e;0x144e8533368730ee63ea;0x2dd032a335891ffef563c;0x1419e18f8bf1290f62106;0x9d5f1c7b9d8df12a5af62;0xa1e964983b8cbd7ea783;0x736c46e9be0fbde35892e;0xe70984812e09346e027;0x2c41eaaeb906abfb8921f;0x9db456f215fa89970d35a;0x1b255cc53cf6acb00c3de;0xafde4c8dc1e3337462f;0x7585f6ef502e6fdc80f0;0x212dd2575e46f011448ec;0x1c4a59923b33c1dc1dd4;0x2ee342d889fd65d6c3aa3;0x1206e91e9596ca3fa6303e;0xdf4da1f807c77c13099e;0x3e7a2c4e251472f54c766;0x38fdb7140f92052c06ab6;0x60fb3b7ca4df572b834aa;0x9f31d364dc0f5fe058414;0x9d0c562baee3ac1310646;0x1ad6d60709eb9cb1b9ab;0xd458d76f5f5771181f99;0xbcd52361aea2db91bf4c5;0xf30f400c46b53039ae65;0xaf5e4923b8da2483e1466;0x40936f8bd4b2709205a9e;0x44d51e67fe86081b2be1e;0xd42e889ef7bbc301ad1d;0x872d7ef67a458c9dfb8;0x50a8e68e0c8cd1c23313;0x7cecfcbb1f82bc84ca2;0x3e48a55ac3abeee6b7783;0x3bb3ec10b3f0c084d04c9;0x3abef33199558705030b7;0xec79fde9ea267572e049;0xa6159c8a41a0dbf0b9402;0x6a0375fdda3b430310395;0x8395a3e6efa90d0c6540;0x1c09e3d02ead7ce677ccc;0x1a59efb9b3bc6acb7789;0x24ba0190a69f7b6f860d7;0x112fdfce375707a50db9d;0x27b9ed33ae4eb3982ecf4;0x8a7fb9811d261f293052;0x118f3f998c0b1f3f300aae;0x557800a1e8d8ffb292111;0x8db1a7e6144b20f0d3baa;0x153520d8b9fb07f6c4944;0xaa51f35db17c97b509dff;0x2370a3b593cf5a7f56fde;0x30e01c777b137e56357db;0x1290fea662c9bd7d9c15b;0x75e75661b6c1578939ff4;0x185714711065a981df112;0xbeb6997f25e1485b47b0;0x7af6a3755b458a6b3eb61;0x21fb4e358a163bb7a425;0xcb0851234bc37d359ee33;0x262ef6dac4ded3bc7eb98;0x7b29816719fb0ecafc05e;0xa65cfdad877a4c358268e;0x218e254cc840516cb106;0x146eb778471b78dbd498a2;0x6d84bc964965b9d4ebdc9;0xd981a44f09caa8a3db21;0x80dbabbe4587ea3a8027a;0xc8770f00f9aa39485d49;0x0;0x0;0x0;0x0;0x0;0x0] _ _).
  - vm_compute. reflexivity.
  - apply Forall_cons; [exact prime_1029223380972661411787519'|]. apply Forall_nil.
Qed.
Lemma prime_24519928653854221733733552434404946937899825954937634843' : prime 0x1000000000000000000000000000000000000000000001b.
Proof.
  refine (check_ok 0x1000000000000000000000000000000000000000000001b 0x1b 184 2 [0xa375bbc41797795d463f5;0x59483c36314dff5]%positive [
   {| s_r := 0xa375bbc41797795d463f5; s_c := 0x190ee1e01f3547290ba93c6972; s_list := [0x79518fe10a4851ef2500b06bb1119c5a624e34959a2384;0x1caa157780f5cb07ec0b9d7fe7b67de57e1e75e7aed7b6e;0x623c94469e7bc897abcd936500184cc73631bdf19b040;0x9ba6ccc597a0e86ab5934f91d268a82f0be4e54834851;0x15f6512c30cec081bf86b25e811e1664af7c5f32acd375;0x10abcf216de6282c18a8d817ec8c9ddfc3371a633facf6b;0x160659624f3885be93f4700825abbcfd38836dfa47e89e7;0x6a7c2238efa4122947c871ff3e57af33fdc6e55b656f7;0xd32e6d2ad9f18433cd04d491557524fa35e7cb99cf471;0x643f1d7a1070944edfd1d280df270ec299ba6cc3684bf6;0xc7990d4832344a73b7dc03903bb445fb131938def4e9c;0x6ebb26bc90b04c8e8882cdaf00db4392ca7d8678ff369;0x1bbbf3722364bd0393ccf71d8c7941e8d2c7337a584e9a;0xdd26241ecad9175735fbc037039d6e14dc178e859440f;0x1e3dc4d0ba002b94ffe88d0582586b1563bedf027100e36;0xbf136b1f3e370565f6ddd53698ae5d085815d1dc9a1bbe;0x479b9b7e223f77273a71511689a1546ea01c0b3acd28eb;0x1fb10389ef4159f6f8db0d5bc291bf68dbbc3b96ada049;0xefe1a0f9794e2bc452959831aa1e2ce0da054f390389c2;0x17723880d381f04622afb2dc23914425ceedddd951c32d9;0xf1c8d995f4edd181a89fde0bc7435c0d91b0f7b627d1b;0x1100cde1c9b5080cbb5f06c417fda30cc5c509409c4420a;0x3859a50840637754a7b00efe73c2775601287d8fb927c6;0x242f781fe9e759c0179c3ec62228c40093572b1128048;0xb75b66660137979e307d3edd97dab782be9493d1c94c3f;0xa0a9b4f32e9a988c526ac40b74fe4055750d5ba1eb156;0x4339a70a58f29879a8b5ac23f0943d510ca0af657538a6;0x214b26fa0effcea1c5f0e235a7700b9fd3bb4df69467;0xbbe239fb71c02a9478a84a8401fee128ce2f8d90b11ea2;0x1ff8491ca215ba3b7fa870fd422f1000afc4247f523cb15;0x5771c5ea59ea407a89dbee8321102b10484475f58e89ca;0x909ac8e96a2e8b3dc9ff2dca1edc8f3e5fe61f352c7a20;0x5232f4f6f78d6d86d0e891ba01cfd62a93ed5f1bb57c5;0xafff4738eceb8098078a43ae4d1c8ecacd7ca98b84f209;0xebd1a5ef37373b729944f42a67ad638683b17b4a236d7b;0x790b13927e1861be1b13e1d8ba64dd119e5a7c513bd3b3;0x99be2fca0801df8c071faf50dd352066709cad23aaef91;0x25ebee00b499b4e9be01aa20e5d3d6a0990ba3a6a589d3;0xdb4cb895f40fe073639e23353d0ab27ecc9267ef8ff25e;0x30a8916a6fb0f6d9bb5a7066400fa675bd7947dc630148;0x148e8b7b226584e29898edc8cfe9b9449c7f16d13032da4;0x5d04f648700fa6f5cb7330d7e85e0cd653516ee8b2ebfa;0x296e2d67b715f8b469f2c501cb082f50e896bb450a82a5;0x680846781db5f65f35b464bafc45368b7b8efb0ced83c1;0x75eda8a5ed85850b14c2af9d37c24bc50477d531220fb1;0x181750d128c743854fb03516314571b80c6011c72fa0a1d;0x657144d67d5eebb5e029c644caaea06181757750c83a35;0xb44ca6e4512dd46ad25e4a9c97626d83d35fb64077535f;0x183b4b10cffdd8dac32bb4c03f3eeadeb3407aa23320360;0xd5eca6b8215832aa4e171e269428909b40a23d70da135c;0x1165ee23a73304dd7c17cbf8fadaa4a24b46bdae0116d98;0xa32afb17588b37694a81589229107fe7c65898f9d5094c;0x2a87ff9c974b75f41f9abcdb4c36531b2ab3780462f0c;0x673b2d5755f86aedc3f6567244342c89a0ea666640e4a;0x1fa2ad607fd8d12dd64f3c2aff3153f5187cf03f264e232;0x3029529d1d87848b7f227b3b91aa9634ab381cea62bf7e;0x82b23bf4f6b781d709100b1b72fefa5216c0b30fae50c1;0xf848eebe9e57c10612d602d862953f256f2940ae944b23;0x80df3f70a8ea8aaa7070a00ceadbf95e7801d02cb6110e;0x130198124f04dffe03359c56d5e11bf3e7a96a9a250010;0x1231746910d79a5d7818f78261f811395c2afb8f53d1191;0x176edb8d0083b809d2bcb29256af8ce8aa7a9dcb3fe2506;0x38f6e2e75ba9c11b16c960f32c2be7eba3188699dacc30;0xf81cf8c479ec38f3deb77730f77ebe561eade005af2db2;0x1f17551d43ada936896730af2a0b245ba1c9b5ff43695aa;0x3b5909d4d15ee11b5264163960ee7cf020f5259cddc695;0x1d9a21aa350f047dd5fa928b2d64faab5a339f78101c54b;0x60a57bcb622a41e05246d2d569eec2d0c0e9e76d7134c;0x15b194036571fc06923f9150559ab173428f73537ce4cf2;0x6ec87545decc139e7bb1d8771d2d39fc95a4d5e21e0002;0x463502252507e61e1101926dd7f6983d91d3131f828716;0x28de3251d715595cd25c0f118274e2e180c02646138c29;0x904fbbacd5dd25790a03889e1555733f29d924a049c145;0x26eeed560f818741c536352ab6924d71074ec863d3c7ce;0x5e9bdff0be566fa28bce470f2f50c069e26e981b0b3fbb;0xa94913bfee5f411ec05cd8d05d03bacf18fd3bc89133c;0x26147e8fee6897092d3c2bda9de096130986844c9cc932;0x7825597a826290a6e0c724a25f46f8ab8e1402bbee64;0x29647b0a93affaba2b71ce15870482f4cfbdfffa12087c;0x10df296b34a2357dc7fdd0d89b81c09cb2c0f439eb6f9cc;0x1bef47de88e2a65b0a110adf2bdbac16102b8e6abba5416;0x359f7e8685bbd6dd1f75adb9765cd76be1302baf930676;0x1051e0af9d00ecfcb916ab60d0b2edac61dd2fdd8276fc;0x290527f48069854b3b070dbf239d7db982852cbebea6c;0xdca7a206354613e1eaa646d8e2c937a0dd00c47e5f7a3;0x4baaf280973c23927c7491c248598aefdffa16dcdb42fc;0xc32397f86e6dc098391a69ca610beb243f7c8be476235;0x1e334115fc49504474891ce91e888e851ffb709ffd649c;0xfffffe37f004f88cad158e914fc24d546cc922ce1a012d;0x87212e2b6d7fd5e1ae07fffffffffffffffffff;0x0;0x0;0xffffffffffffffffffffffffffffffffffffffffca001b;0xffff;0x0;0x0;0x0;0x0;0x0;0x0];
   s_u := 0x970d1823c4bbc12b24c3ba74150c41f0206cce541b5ec6; s_v := 0x7851cb4e9dfa77c95270850ff29bd1b4c7223ee4fa6e2b |};
   {| s_r := 0x59483c36314dff5; s_c := 0x2de0847fb799f7993b869c62da611172; s_list := [0xdb4abd865e783a3b851b325ddb8c72e6d51dc7d1c8e5c;0x1f82401bd5d50bea88c74bf7f50ad36b8885041f19d6f1c;0xd4ce4b4ddea6efd976fe9522c7cea5e74f13a91cc0f1;0xde35122949f890a288b3773ab47c6e4761b6c5b5cdab47;0x1008afc729c8ffe1e4d320ba93ee1b160a560e364eb65de;0xe948581bda7870413fbe2e986fa3ce09382b1c3dabe45;0x4e50fbf1bd0a08d15a3032391bcd0ebefb0a90fe3a2da3;0xab50c4a738e7436f4446f1907b42b68184ac5368066e4;0x141041e2f5d00f80f1f95cb0743bc3e82997e9812976858;0x3051570f0056d72e7b0045a992c3522ec5e024c8ac5a;0x121d2675ad7bf09e50ba77287bf8946290e51d581a6b8;0x47444b584ca60379179470ed6275fd3d1119d0b3a0b21;0xceb80bc5f5e60d8d6828cebcefb216eeae1e7e9f024661;0x5e507dac82ae270bb569f1f72b3f943a99088a81ae7b33;0x856938e35525e5852b4a332a027723751c22eaf4fc69ce;0x8d2a3b49ca94a0dd664d738379c452ad6dd81cc9952576;0x50771ae6582468fda15d6b70101307f81a53dcdd74b92b;0x669167d387acaf1789db73334ea7bbcbb7fbdeba8a502c;0xec0cda9cb04303c3c8061e3be1a103416550385208fe3d;0xd2f5eac37de35a6a1758e8d4c49d9adb45d4ac9caa9160;0x1a92a3687fa4ad5113ce3f801e9a376d59b5752d5bff47;0x1f891223b1a9c84f6480765c27832974f9c0b9f87c92494;0x1ee0571ec8d4d43e65fb4c357e80535e148fafbfab58e0;0x8549026d6aaa3641a3140c328194ce4968019807926656;0xb8372a2ba67feda417ad79e72273fda435e2f4e6e9a24a;0x1982eba3799529315c8f7682d2c18293fb4d7e984fa727e;0x6efa542361ba6701d1c011262dd4c3d4c72a5717bceed7;0x4a63c7b24e0ad076d4a62e5cfb942416c2976c602685;0xe0869a9aaf0ea4d57939e542e3b95f8bbe5a5a935fad8;0x4ab75210e727e888bd13f80dd2a52e272a019666695731;0xd5590189700d8c128fb67f1a6546b71f3045a0a3b865d;0xa2c2b26a5c4c3b09a0cd05cfc9c2e5d83b7c865a2078df;0xabc6c09f1ddc7493361515facbe4e991865f04ec7c0326;0x1b6e8ee4efa99f6c719b43b32164609340b1202372ae12a;0x39d3b5633922def308a3445a4f1a6c54bd8edf7e4818ac;0x9237be7b920a493631ee6bd2e9343e0d3467edcb7165f5;0x547cac3045856aca2f0e624f78cd82ce24d6bdd69750d1;0x20c2e3bd4a31f7d6e0c8f7e292f59e29581e72f16681a5;0x6b83742c4d5f0e4876e4df26cb4d6ec01110cb9502fa1e;0x575c2f1207f543d1d972b658e2a35dcfcdce715c3618;0xa2f3b38fc5c45eef74a2d7cc32615c89c87f7c3007c4de;0x60a05166ac853696a905094d78261be573e4712704b5c7;0x1d2db81210005504a30fb9960e60539cce57c8760625fd3;0x6610e416bff9a8893778b668b60fdd91370bdb85e37e5;0x13ceec45a949424fd706b8017ba2122d8ee7c2cf771080;0x377eefd4d187e131ce902f8d542b0a98bb05c75a44290;0x27a68c65115775f013b5088fffbfae1a1450fed75db29;0x51ad30b6e96266ad33d583b95d3e39b394f0944dec2e74;0x6c6ad75897484da84992e99e9bfe86cd02d72d2b53f018;0x87766b8cfe036b8117a38e5dd99ecb1f2305b6a67ec9;0x582bc6c6a4d6b0361ecdc4c0b874daec9bdba6f5069ea0;0xb1b68a76ad2f9ac50e6ee07a254b89f676121b1b8f6e;0x389c2731a9cb475083351e37e467a0276ba41009e2c5a3;0x672ae4b78f3d12e918918d7acf12a7f960a61592c8a4f8;0x1dda67780a19bfd8927e8f132367fbbfcaca6090b7f64b;0x50ab40c19e31216b78f5fe7e5ad28f698a1925f01bb63c;0x2d3809f2e456be3b499ba7cb8dec7b09ff6686a4becc1;0x5ceb0bf33580f7f1123603a9c162a82e83bd05e099e485;0x740865399bb92c99025f634a6722ad97adea53850867fd;0xf37e9c4a34f715f3803d329c4ec907dc416877b033f049;0x18d98512458cb70c1df95ff73e524c5ced1f5e99acf3afa;0x18d214fef808c6df8cb9fb24ae92f6154de6d476478c8cd;0x46821ce1c4b7d6bfb20a8386e992d1fcc23f3580162f09;0x80aaaaa11f4aa5b651da509c17c1c11d107a9c52df5ce;0x6bb382c2af9918ee67c4ab1cc82486017a21c12304c25f;0x856992e3ed8864ac07046ce80dd296a0ea40b66521b445;0x8543ad985e1729b81c69d32d895e7223d31a5cd209833e;0xf46b1976ddbfacf96ebba6b2b4c24612ec623a63541897;0x204637bcdfc2e7dc879520b926adfb63d794cefa0989e1;0xd69c31b8d8ef0235c14b1bd63b1f036c07d624549276;0x95d5a1248debbb488ea94bd47e7bad2caef276f7d382a0;0x157cbb2e01bdcf9ac2d71c01f3d45c4e56323201f85921f;0xdf881b39a82bc08f3f12c61dae3f6c261ca2413dac0119;0x641f124f3f83f5e46efbb7762a6b0f257a467fb642b0ce;0xda5aa3153de139dfea774351da8acf759a5e02f496c977;0x14390373e4a410db91aa2d8fd1240a14aa66868d7d0f6;0x42dd1309c9cbf1ed614fe3ea7dceac8c830bb67252;0x57168034f9e161bea47e150a12ef8e490862e21756651e;0x6873fc5857e19b0758fd411ef72f0ff41b92aafe323a83;0x322a6cde1f6aaeec08caa4a03275ba3ccba25da9388867;0xfe63ab786462821d7682e7ff08fd8ecb270cfc432fb811;0xcde81fc2db66317bdacf72da13e64b67ab30ca78bafcd1;0xfd0324b2c5d29401c995142f332cd8f61ab7a1ded9cad7;0x11b915da9e2c6e484d28be9c32ee6dd9be734cb68e1a311;0x139605a258ee182b41671d8360666f60b6c120b19212037;0x4eea4c74bff4c7556e1be8b0d2117fd88653ccaa24b22e;0x60d029fb165be78b7f4b3d1dc6f0fa9fcbfb31668ee7b3;0x16638de48bceb8cc828e4528bde883fc85ea8ee6110a916;0x5e2a0fc6eccc043767c65322d06b1f874371fc2c86b2ed;0x3b29719872eb8bd49821a7907f93119dc614068ceacb13;0x25b94db0b649fd7e57ffc5ee02474175877e89d6d7bb67;0x22613ca5e48b06ffc0456535c9b0a3280bcdf08992344;0x420436f981cab8a4c2592281fa8262d27ed997ddb959ef;0x37b513188d36989823b4a7476d70e39230505ea2171e47;0x5d36db560f7470c45f5b0595be1cfe5b2dd6320efb8780;0x14c6e3e24b049ed75dc63562b3e86d9cdebc316170e6fa0;0x6d4076cfbe275b1d6c69f7a584766aa30582d40017b3d1;0x152b88d360a8dfcad4d7e650e94594ea3aa66477930ac64;0x1247bba3d8144b6a700559b1223fc95658a0859f9abd4fa;0x15762b6ce9719950f9a8e3ea2bd135ebc6b5bf8234bcc5;0x825f36d56af580a7b5f954443e77d71f2980d9845d9eda;0xfb51dc5a76460a21f9e6f88cac0f535285bb8c710c8932;0x16b36ec34d5b3547cf265e75839c5e2c1da63830fc47c81;0x309984d08d0853d816ed8e7d57fd597c6a3932321ae8c5;0xadfc1ee224b6221af424a860efa2f58de7f62fd862ffbc;0x1318946a128663dffb66b580dfefd6c8562af8af2eb94d;0x4fdf49659257498d3a3172ff7112432a87b93acfe007c0;0xdd79ac0eb0403a91fba211e5eb44cd057c74d1cadf2794;0x4d137cfd7ade8e76abcbaa91709f95f887b5eea4650292;0x5b80f427dde59c62af052e3956d94f1abdb88ed7e438c;0x107aabbaeb1bc1a1dd7a5289059a8593a1d49472fb9830;0x666956f7596746413502d1e0a22dc1b26f9aa2a3861a77;0xf6eeec690002306deda84e422d7d817ebd656de8c48566;0x74e900000000000000000000000016d45b0cd63fd8e26c;0xa9000000000000000000000000000000000006adb6ead8;0x100000000000000000000000000000000000000001037f;0x4000000000000000000000000000000000000000000173;0x7ffffffffffffffffffffffffffffffffffffffffffff2;0x0;0x0;0x0;0x0;0x0;0x0;0x0];
   s_u := 0x7204e2e3dd9a1b1c23ea8013f13456229356f576c59c9c; s_v := 0x5c38c4c67b2a6cb1d3c15c2a4cc88bf6bd52706c0a9589 |}]
   [0x10000000000000000000000000000000000000000000019;0x41b0ff88f72c6b8abc8eb8c56cfba313157ddb6618038;0x46e6ba7dd1b15d8152fe8607ae45d7ae64e3409f305c46;0x1d3489ddd2245b0bcad4e75234d41de05aa08426a262c59;0x695663393b4e5fd219a67960b7f4401e3b24aa963dcd8f;0x65e06efa78c4627683b8cc65823b11d5a7c56ebba71217;0xd21b64f85ae8ccdf07f3906b90685dad59f002a0c4e3e2;0x5b797c90b109e3524e38326912545b87d1f3e43ae23a7;0x1ace3d3990c666bd3be3dbc6720d36ed5105da60c42a8b;0x565ff2a368f3433f251a9d6c1e49687738977727d9a414;0xc0addb4e3e95d81f4081a9c3e32b73d2516865e95fdc49;0xfa0a4440580b099dd12eba5fdd470381721cece1966459;0x9234a3e122e9fdc9020e679f74687960ea43e5c9d514f0;0xf727372aef1e762f9f5128e02ec12306e98769adbd47e3;0x67a0a6554e793f0a582a9f599ea4ffb82e7320777bc94f;0xdee695dcc4b770f070acb9b3a303e01e49a36a448193d1;0xadd6af585fd533a44e0e2e31c0a3a12b914866c32ed2c7;0x2ee93b412a471e001f7d37f803c25183dc509f5bc2a173;0x65cd92c68e40e88ab26175962513016c0b92c9e81ba0ce;0x9f5bdce4e6b79beb6d533aeeed31434ded54137f37025;0x57ea08487be3c7bca65c8c649759cf8e25771f482e843a;0x4a91449a881961391d0127a882bb967df461d04d2c89c6;0x1226a4a370807f6d61295cec5888d911b94806bb68d01;0x387a15e1a3cc7ce863134c2800799cb64500ae3e75bfbf;0x185ea67c8916f73b0fc6c68840ba4592c0c74e31e2a29;0xd4965839c7c32e4747b49b52358aed56cefce4e2cc3b81;0x1f6d25493d875805e4edd06b570a8ba677c424b12adcca;0x1d7428b55994f8655201f8d268cac461ada8fad0cd875a;0x16ef23a09432127b89c91d654b50cd84dffb2070c0619;0xfbd5cd960eb90ddd43570f7ca86331fb54e35192f9e1be;0x323fffa29d0cdc6d17b2d35113a07e9623ec246c5c1bf;0x4c77bf39e98403916ddcdf8a9d78a7e8762a129188c7f1;0x2ee01db50893a45461f2192d592c37a7451199abaf6cb;0x8a7048c0865632becbad43365a318d0c469e219b571b2;0x11bd5b3e4423beb9fd68033f625275d489bbe967d0e11;0xa63a2649c47e661804311ab602841e72e165a51f63cd48;0xa6daec3734e282bc758c65343ebbf3459cd0b7f5131031;0x3933c393c83d2f571f3df11cbe75ce0284ee18645bbbe5;0xf7258b3798195d4a59ed35b291b8354d6c95bb94ccd0a0;0x222f42ace9fbaa4076ab7e58175697ad935637b1c4cf2;0xc04004339588e7446db1405952487a665161c77974dee;0x284aa834c1938b63c2ea35b2f34c401af5a11d5cf6f58b;0x387daee9a3d24ba98cfe3945f6214eacb957be85acb02;0xfb1add69a5dee00a7e858070d477ad106eb0625bee78f0;0x68366df1c5bf5d29a5df48ecff91802b628ced9f582cb;0x4201160fbf3c7d8817822388ae6ab4ab9f855b1d1f25b;0xe92718eca8b2492f045ab2df620cee35550a217056319d;0x7f36a068ad31e5d39f84567620c42e221672a87cf39f5;0x814829cff2fb12f58a4bd198f382e73fd271e84924bc;0xc8cadc1e2bb7cd1f56a64f1a5008fa80c3d1cebba5b1da;0x437fec6fba3280cfd56a51f6820fb1a0d245d1918efb1e;0x773a7187197bd90d39b297c160881c41d1dff73b31fee7;0x1b62b10fb5ebd5f839ffd7e40388a0f97f335d582769dd;0xa36af514d4cba728c87f6d7a0b6a21724b423998dfbbd;0x940a1dddabd89710e6ee248840c394b1e8da45f48e37;0x3b1021f4573e0cdf3b1cc62cb8da656d56125776d33bf;0xcbeae34a40c75be41c06846ed64705c0ae6cc26711159d;0xb755b924e4beb4e6f80b484664029dd9243a4f03ab814;0x8dbc42093c166311bec61b831026d126760fe582e01d06;0xd970a8e6d832e02b00d06494641e6630e52571ed5d9a07;0xd6206665fc1ec8d261d4d71574a62e743f69d1d64dff67;0x2b6e024fc05feaa64c94b843a4fe11acc47856657452e3;0x1ee180ddfc6c029da321dee13b50259143970afeac94bd;0x3a7f0e269fb6a617a5763e9b47a7a6d1ad86b4440ae8b3;0x1eb8320d14d57ef9fcbc477e8428f4244b48ad5eecd523;0x3049b7b01546707f8f0dec22fdd7c8401a53f91007428;0xcc439e5841faa0d1d04a61645637ea919b38452596fd2f;0xfc46c724c57ca41d47e40c3e59aedde59eea3d56fbfa43;0x13696e5480b44593546ecdc25c5b46583a8ad6ee6aa989;0x690c6205e3d25aa0babe2e5fea5637ab12b8281290e321;0xb14eac7642f4e45797d8ce316eb46f4c9d106becd40b9;0xad5802f406fc1cae2e00109c86aed4a1b90137859da4f1;0x1aafdfdb25c8c174e90d74933c459f83aacea5b25ba518;0x17d66681d3a0964cdb1da5aa408c3995e8fa8fbaf629fa;0xb5b94c9199f2fa32ccc9e49c92943d6a1a44891ceda472;0x1e30baa479d82e0b1eb60686f17921392f56da2457de50;0x54cb0fd385db8eb892f4cf26660ce6dc344f0f86156dc;0x56595a9ce9681ec645538430825fa5438023d1db322dad;0x5c8770838f01687bcc7f46aeeb59d6664aae0d98d81c07;0x73e2a35fb747a55bf18df51d72c17123ad2c2084f7b76c;0x42d823fa7bab14607b708b9ea31bceef03486d0ae1c059;0xeca2dfcb7ac8491bae4b8d5ad5da176eae1471b9b2d324;0xa550f010f62fff9bb66ac8d5fa4fa92a6dadc4e6d8a7dc;0xeb29af93abacf87b8549067f6a561ea74b77aa55bf1b60;0x71ae9fb6bc553eb8ca80f71b6d5bc0406267db13f15550;0x7f6508b2bc537d9471e38659c45882c402a8e551f39a8a;0x36b3f27fe917766d2f3858d2cc659a046a7637572d7;0x8d1ec9229c5e37948e9265192984b766506744306ba24f;0x9a5599b1bba28e650d9c4f0ee715bbeb7b34c51e3a9191;0x3dea7c5bbdf6096b447ccefcd9f1eb23bc861941a075c0;0x46789e3de22486dc7a52e5b3dbcd80bf459e9366364f16;0xdd0b9fdb5af5b276e0d68803866c7df4214fb2039b9675;0x238483f9a07615ccb96402ac8359681e900c2959328856;0xe064655db9f5db288e26063a963285cba98f0cb90e092;0x1672b7af1783464d9f94093bd740da8d90deeb1d587463;0x1ff114c584bb2f751488a45623dcb1b1901c20fd84bf0;0xebe3594bc15cace1f1dcef77e11445b416c64e34285a61;0x2a0ee516b2b3bb99f3026404253cc133b703b794d75714;0x138df691020362bef97f20756b245e62dfeadc0411a7a;0x3a0ecb19b59d9a585431fade5a63d7ba65a67dcbf6887;0x57141cdd973f4c3b967d89880869fb9d646766dda296f;0xd24e91dcba4e61674fa893934530093b5d081891bd787;0x4f49abb3778545205953208302f1259f8e850d4f129e03;0x88dd03f32d432a2f7f7c13a628aa0b642996e7da430659;0xf2a37b0a26b2c43fcc86c8f8617323064cc86204dcf13f;0x55dff5f40c32a4fdae64d2d3af7b3504e156f2ee8005b0;0xe4e562e6482221fe25d661a0d5d93edf9a90406ca7e969;0xd8b73ec2cb1e26fd8b15d1223759d71a4f278d825854f1;0x36305b7cc3c791598c97d58f53a0275218f3ea910cd7dd;0x54b6dc19e2ab05659ac86ae799ecacb001e3b7b642a315;0x2b8ff657e00d5452d0e00da566c3ad4f8a7e40156282d0;0xeaff5c550f780a29f72e66b538d319c082bab19217856c;0x4f20d0611743a5905c781aeb564c2d66f82eb96b422e2;0x1a024178709980ce1eb87809b6835f9f122b63be5b712;0xaa9150b697b67c2cda10bf0d5c9aaee432849b481f8905;0x13d5ceda6c84111c4f4021821ee0941ba43b5bbf51e39;0xb8a7509ef34112941fa28da0138bf64ce53656fce230db;0xff772478e59cf779a5e31821a3711c33fa0a8ddb5d9bfc;0x1a936e38520a51bc6952d1adf129c262c91e77756a39eb;0xde8363f2acdba3c73f603bc15b5b2219c59a8e3636e70;0x30bf5b5ef47a21e65853734f41151a216a87c5013c1086;0x64c2769bcd1526c61dc77fcb3fd950d5d0ffc832882280;0x136e54c33890b42b1dc25b060402bfb5986d2490e38b6;0x693f7c456e15a5b52449e88b7f3775bdc0ab7108c51efc;0x92e3020ced461a666fa5e400acf1eae5d45d293cac4271;0x43af655d5dfa43ceca53482b04ac46931f8bd79b8027cb;0x1959033685e71b93cfbad213834af6293fdb3701341da9;0x859187a2f865a196d5ba6211b7e2c650a9cf7981324aeb;0x21c964df83b1c8184dd205aa50b627d715c37621dff8;0x5de2736c734131a3f5925d8a4558da1c746879f130977;0xdd1cdc1e5475a62eebd44aeace2b9e71085754b3d39a3d;0x3a756e4572dd6bd9a6d1b686dac91aa5bd0c1cbc95d080;0x2fbae819b01397798da432f6e53ddd1fe5b7903f272ac;0xc6c291441bbab4eb0e30b222863d079436eca0e94815d;0xea481a82cf8d72f50e8deb6424067fe3987f01e1d7e6f9;0x2c5a7cc1ceea52a8077b4b9bc1400be8426d47bda148c6;0x69e0681951cb7244fe11603d5f4d6abc51aae068976272;0xd5f6bba88c3d4f9e4cd181616d3f07ab60c79bed2c9335;0x324c7dd3e2f7150d8f1d5c324cc9fa27460392dac0f0ef;0xb29a22059b9d343b88c76f54d21f6e4737cc28edceafd;0xb13b7b39486c3b474a9b35e988c967c196b2d0fdaf887;0xd2b579d2ba28f479c0c34429f4f137eea7561e81516e17;0xc1c5c1454c1e076733ae20453b38099248e87e99d8347f;0x5896ceb692c3d4c8183d389cbd9e79c94251dfef3aab92;0xb7216068c41b56112f97b09dd6406bd6cea4ac066fe74;0x604e614717ee20ac520c4d35c2bfad70f2f10d6e892533;0x389b494f9239b4ac494080e0e638dfbb51c4910be499ce;0x42b0fab5fe955d2e0ed02c1987c27fd98b8b0ddd881f42;0x8e3a27e018bae2f9b3679d6a50c621332e850af5360a3f;0xd613a30c38dfe8bb321d46c31cffa58dcf2e38a6de4b90;0xfd7dfeacce08c48133283448eb5c7479a7c93ce0c98955;0x19e76eb31d182eb199d42d646059232fb52aeec396d2b0;0xba0e8dbd10dc4935280918e2737dde8a0c3264669d3ff;0x12799b8dcc45ab697aac741c97f6999cf32c3091ad6b;0x1a6087c8235995ab991c391675cb0c1e2a618574a035d7;0x25cc08109fefbdc7b6713a9340c98e96168e49c3b9ed5;0xb41710e8996c10f03e123ed665b73f2e8cfea0a41714f;0xf45aaa2ef27ba42f09f713eab1ccaff4f526f1468c22a3;0xd0ed370e6fdfa0cda47c8f194acafb437b9fbdff118561;0x287b788130468096d11b66a81647ba917e6741d5db5fa9;0x589276b2426c850e2e3f1fc68a8e44642833709c2165d5;0x89efb6492f93dba4de940babc1f4fbe3e77300347859a4;0x4d53f087df76712aa1bc9e93d24ee514e70773e85f6a75;0x1861be5fb0bea37e6a6900e2c9a4a63c48d5cd55f1c6a5;0x4a6e368a3c3ee151979f88d1a82dc02008010438969e74;0x323f852311c9f7180fe05e0a12b00d9ab01f3529e388a;0x2c04177283993259c48df9dfbe8f7bf8ecec0d4638897d;0x1614d1c8d9e60e7676f1fc5eefe21bc06be81b70616f96;0x4780fa2d364a97c6dcd1bdda1c697963323da76;0x736a6da9e3387b49baf14ca3bd89175f3cc20182a5a833;0xa23be3197d6081cec75c54c5377a68f0260c07154ceda;0x2524d10f3d516926bd9e74005668b92;0xffffffffffffffffffffffffffd88020b34a88fa00001b;0xfffffffffffffe4a1b2a00000000bb41c3ca78b900001a;0x81bf0ffffffffffffffffffffffffff;0xffffffffffffffffffffffffffca00000000000000001b;0xffffffffffffffffff;0x0;0x0;0x0;0x0;0x0;0x0;0x0] _ _).
  - vm_compute. reflexivity.
  - apply Forall_cons; [exact prime_12350680571671936941450229'|]. apply Forall_cons; [exact prime_402091141946990581'|]. apply Forall_nil.
Qed.
Lemma modulus_23 : prime (2 ^ 184 + 27). Proof. exact prime_24519928653854221733733552434404946937899825954937634843'. Qed.
Lemma prime_7187' : prime 7187. Proof. now apply (trial_prime 7187 44). Qed.
Lemma prime_388099' : prime 0x5ec03.
Proof.
  refine (check_ok 0x5ec03 0x1ec03 18 2 [0x1c13]%positive [
   {| s_r := 0x1c13; s_c := 0x36; s_list := [0x41dcf;0x159;0x0;0x0;0x0];
   s_u := 0x5799a; s_v := 0x11bdf |}]
   [0x5ec01;0x45110;0x50cba;0x3fe4;0x28983;0x20e96;0x225b8;0x35ea;0x57e1e;0x141a8;0x6d676;0x42cef;0x59364;0x47953;0x15;0x0;0x0;0x0] _ _).
  - vm_compute. reflexivity.
  - apply Forall_cons; [exact prime_7187'|]. apply Forall_nil.
Qed.
Lemma prime_152911007' : prime 0x91d3c9f.
Proof.
  refine (check_ok 0x91d3c9f 0x91d3c9e 0 2 [0x5ec03]%positive [
   {| s_r := 0x5ec03; s_c := 0x18a; s_list := [0x5a888c;0x69f98;0x690af82;0x382d10;0x0;0x0;0x0;0x0];
   s_u := 0x8ff57e7; s_v := 0x3034294 |}]
   [0x0;0xb46ffd9;0x19b4888;0x10b5eee5;0x9c4b07;0x3dcef4e;0x75dac20;0x20c3f06;0x54455a;0x2cc;0xda58b0;0x17870;0x192d4ee;0x73c9ad7;0x23a80de;0x6aea5e4;0x98f447;0x52aa320;0x52fd4b2;0x98d3f;0x2fd4e42;0x184fbf0;0x1c1;0x0;0x0;0x0;0x0] _ _).
  - vm_compute. reflexivity.
  - apply Forall_cons; [exact prime_388099'|]. apply Forall_nil.
Qed.
Lemma prime_840398894473' : prime 0xc3abad7589.
Proof.
  refine (check_ok 0xc3abad7589 0xc3abad7588 0 2 [0x91d3c9f]%positive [
   {| s_r := 0x91d3c9f; s_c := 0x1578; s_list := [0x133a3397a0;0x1116a24d2;0x5fcb41f09e;0x9bb4118a6f;0x27311ece38;0x2d88b3700;0x154c24fa3c;0x5;0x0;0x0;0x0;0x0];
   s_u := 0x2423722458; s_v := 0x10724a22c7 |}]
   [0x0;0x0;0xc3abad7587;0x166879ed580;0x14658e5df;0x756e8c904;0xa9791bb4de;0x81826bd55;0x331525d31b;0x595d30e8cd;0x9bba8cd24;0x8e64b64af4;0x1d76fb34f0;0xfcc377d32;0x12ae2686345;0x5d6731b35a;0x15ef1b2b24;0x7d2d8e0f12;0x153fcabf77d;0x3c49ccd4cd;0x8443e7e8c;0x185d395880;0x97d2a58ca;0x6ae8ac879;0x1709557ccd;0xddd3364a;0x8039db3ed1;0x9daf754a;0x7eb1102f56;0x1abe21edc5;0x8cf0cb02;0x13c7f07ccbd;0x219e167ab8;0x1529f633125;0x14e;0x0;0x0;0x0;0x0] _ _).
  - vm_compute. reflexivity.
  - apply Forall_cons; [exact prime_152911007'|]. apply Forall_nil.
Qed.
Lemma prime_22386444903104437241' : prime 0x136aca107e964dbf9.
Proof.
  refine (check_ok 0x136aca107e964dbf9 0x136aca107e964dbf8 0 2 [0xc3abad7589]%positive [
   {| s_r := 0xc3abad7589; s_c := 0x1967638; s_list := [0x4e34e222bb96bd8;0x55c2a0531dfab3bc;0x938ad545f24efc0;0x30a96c136bb9efa5;0x9e29b621c95886e1;0x8c82cbdc07a5aed1;0xd8d39e0bfcf6cae9;0xfa7ca9cd3ac08356;0x273a3c1c89132657;0x1431632200b0910d9;0x1e769659ec09ea4f4;0xedf89ad22aa9d44;0x63cd3827670ff3e5;0xa2e4cf493ebca06a;0x5f93b4d772c12d46;0x9bd00983f30f0e40;0xa7038feb8a4ab1d2;0xfc5e9198f8f115;0x1a5e529d33;0x0;0x0;0x0;0x0;0x0];
   s_u := 0x3b25cd113e2c11af; s_v := 0xaa106847efa7317 |}]
   [0x0;0x0;0x0;0x19a5de65448b3f3b9;0x5aaac78558752203;0x1e11fd8cd66fb2ef6;0x2e132b8bf840f5;0x1b74349919990034;0x156ff6a87a5aa7156;0x2cde4c90f20372f4;0x52799604803fd32c;0x1af7b8ffa22e9b5e;0x47c2e41539dcfcd;0x1324defd6a71f33e1;0xe2e2ee098cc1a555;0x5c3fac740dcbc649;0x2ba2bda041df08c6;0x31cb6b4c9b359f91;0xa34473a97558b87f;0x2cb16ddb835ba109;0x18224f3371bdadf8;0x1abc7ae1aed7cab99;0x1fa61c0c04928e05c;0x1cd68525c80ad9b;0x3bab0c939d1e3c8e;0x3fca34fb2806c776;0xc9dc318dada187de;0x8ca2250e9394a79d;0x54e4391472b593e2;0x77c7d068f79b573f;0x2238b0dbda6326b1e;0x15aa99388a9e4825;0x6f4f251b4d54676e;0xd25efe395d105a90;0x1ac3d8c5e1321b493;0x1093e5182bd54ad9b;0x130111a958a23f302;0xc9ba269cbcc630;0x22121773f9446b9;0x1337a6c5cff64d04f;0x194d62d6f688e68c9;0xa6601eec835c9d65;0xb331e0e64878ad96;0x6f235552419ce61;0xd3bfae50d615b8ff;0x2ba4eca1614ef2e;0x1354187f9b2174926;0xdb7f0f7e58d1eaa;0xc603e9c03425741;0x308932ada4b87085;0x5a55061f96bbc8a3;0x121e6c7d216aa44df;0x6908d6f2c91a6cf;0x879f534df8b76e5a;0xd61710a363f27694;0xcabed6b505228552;0x4fc0eb783455aa3f;0x40b57427bdaded69;0x1a5e;0x0;0x0;0x0;0x0;0x0] _ _).
  - vm_compute. reflexivity.
  - apply Forall_cons; [exact prime_840398894473'|]. apply Forall_nil.
Qed.
Lemma prime_5939438775083828224815107551061821' : prime 0x124d641bc31ee7ec63560de08e73d.
Proof.
  refine (check_ok 0x124d641bc31ee7ec63560de08e73d 0x124d641bc31ee7ec63560de08e73c 0 2 [0x136aca107e964dbf9]%positive [
   {| s_r := 0x136aca107e964dbf9; s_c := 0xf14d3ecd981c; s_list := [0x5860e6b7c8cc1df2c3c9d7ae6e8;0x20937193a6b72a960178757ad18;0x1cedbf55074f5a5d840f7b51a8160;0x1024082b984f7ca15349de392069;0x26b7307085438903bc7f23d2d6b;0x11a5e5742df4971814c952570377b;0xaf62384cc15760f98911c7e2dce4;0xa783c6caccc1fe10652d4f598e92;0x1c9fe6d6637d464986edcca60;0x64c8ac22699c1a22feb87573a547;0x530b05870d4885a2ee9c744b42cf;0x542bec59bb3485c04d0dbf75ab;0x1d30265674b6e830fbeb8ae890bba;0x1703b8912338d53a04733da9f9;0x11af4e8825f48371e3a0ba2efe0d4;0x16487de2536332d8f74281db0d3e0;0x48ce9ce08aa880c2537f3e703d0e;0x10d7beee359644d46d813024c77b4;0x8580584ee1d154e4ea8433322b66;0x39bd31b555f4bbe70aab7e7a7bd2;0x29b9471e9aaa0503e34904ff34ef;0x1bfb88b7526ebfda9f2c2a3b70d5;0x43bd72dcded877e4fcac10d547c0;0x1d6d01f61e54c35fb5ffd4a8c;0x98c1b27149ea0af018327d30be1;0xede5a1fd2b153bc99c26e6e0f63;0x1c7ff268af288f5eef08f16b4ee3;0x140b127c6352c30d9c4547444fe3;0x128ab27a2f6c593f9ce417e930f15;0x169ad78e455cdd9fd7aa51a4a0b;0x4c4e887884cd5c6c163526d7fb7d;0x1cc5aa8b27d28a9d85ce234a3922;0x195cd2251a3df5ddd4d159e6b7e2a;0x91da2253f6d4568e95adbb439b85;0xc873cb830c7c46fe0f7cb1971d1f;0x48a517bf8c1c49b98c89d223b91c;0x19e2073bd4113;0x124d641bc31ee7ec6330bb567e73d;0x1fa3880af4a2396a9c2977e9a7fff;0x124d641bc31ee7cb63560de08e73d;0x173eefe6f7c361f35ebb63efde0f9;0xdf;0x0;0x0;0x0;0x0;0x0];
   s_u := 0x15aafb7a015e07b6c8c5ee689c0a; s_v := 0xddb93e90a4fec18f8988fe03c29 |}]
   [0x124d641bc31ee7ec63560de08e73b;0x3c004617f20c57dc00ea65c58f48;0x134f90ea17dd9ab07dc1019d1e10e;0x2b6b86e2a94282f7645128f15914;0x906fb67f69d280334765ecb1d228;0x46b60db9aa11d9e87dabbb190c6f;0xb39e4f7eee69ba01dc5a5ee64247;0x70d5d6f6b9a462eb3e2cad70371;0x17a45145bc0ab976ebabcac147151;0x2236c97e3b836d6d98780a9bef99;0x1613cee1490a6c605c6063951d114;0x10e2dbfde5999d6627d40005aa2;0x5bf2e159fd43dbc5ce2a49002277;0x9c3d0a9259c84c4a5f775ba35b65;0x2e30b3a1993f819551c694ac8bb;0xd21b7fd7aba5961bf8658ebbec91;0xf1f7909cd92d6cb1b31ff2786109;0x52756d9d880f5e4388477632b8ef;0xd60b50d9a8356173878b05dc581;0x2022879d5b76d0e065fd3cb597810;0x859c9e68c79fb9401d80e6c6d206;0x1932cf2c501621373fbe3a84004b;0x50c45aa51d0cd4ccb21fd206e26f;0x9310f801a272ac2d102b9fb361c1;0xbf906ed4b3310e2cf8965e04ac96;0x5ff3c33cf45c62e0c734bd4f9bdd;0x111bc8c8c30733f73d548cb975;0x45cbc0101d40ec4021f1b7940625;0x960bf08a85ad5dddad624f56b9f2;0xc21badcde5d50449806cf2bdea7;0xd3f8e68fddc30b455e9c8ed8b6ae;0x50b4dedd344ef72d326857c9bf14;0xd1a4762b9c71e7f9d72a5c07475d;0xdb5217ec1e6e6b5ef245e633a247;0x11dcd1f103201a88e01e836eafa3;0x10dcdfb1104e79b6cbd019dbbf4a;0x10727ae497a5e223a35c63764dd5b;0x401a948a42236fbe8909b92e13;0x211d00e889f728b3279ffce1e5f29;0x62b57bbcc5f584101a37aeccd6ab;0x1b22d023d229fba90538e6c4c077a;0x5225c2a63914b3644f0f230582f;0x170a8293006117b55c4476c546288;0xff54f4ec9ddcffc105642a60421c;0x191148c72bc78573fb0196904d4e;0x61404880a962485dd6c7dc8112b;0x10210a12fdb6ad1bcfec2219b0c57;0x3995ac5d3e81a5a6174c0d69b2ba;0xba27339b6e00d286ac259feb21bc;0x14df2104588de499e054d41a3f699;0x1c794b3570a0bcbdf734e803a7db1;0x705a0968c4ebdae250d8a5280ef6;0xaa1967b527ee3283b7c0f9a05083;0x2dcf944ea9ff20a44659df3329c0;0x19250f2d329c9def5068271f41f86;0x3121b212153db54a114046d0c45b;0x3e229fc5fc0620fe8f3bc09d4929;0x77ab9fbb5f288d05f265aa43c9d0;0x3359094f8746def13204d6ad60a;0x55e31ec993ac5b74d014c8e31a36;0x8046739598350ec82346ee3c7de9;0x3c7c67f9b7ec2d8ef4fd6e49fe2b;0x15fc1cbb03e3c38f17f959f5a1b08;0x1036e877f5c7baae576fe6ac1b166;0xf9dfd3d32a64e9332fd29d23cadc;0x161e8f46ac0dbff796737386d0f59;0xd7cd94800c293c2dbab6c6a604cc;0x16d93dd26f34e73cac2831016b35a;0x46d985014860a855dbe80f3ddb5b;0x68ea2f5c21012f9f366c48d88d71;0x4768e2f22ab98fe625cc1a3f5d61;0x10070ae844521bfab1433aace976f;0x3bcb449af38601994391471cafce;0x39051995146acdfb6fe97aad9273;0x55138ef97f1b45dd9c3023e0c3d8;0x801fab3e0b9b7e73a8e8b807b3f;0x20ecca3b3e86fdb480aa650b39cf;0x131f9ac755ff06ac585b91384e6c8;0x38d47ce2fa4a3c99e3cd5cfc5cca;0xdd086f0a8257774a30668187e80d;0x4c42b93dec0265bb6b37cd6c0a10;0xa9175fd79ce0df7f6240285e0aae;0x2479bb3e9dfe3c6f23a07dfaa281e;0x8fcace0317e05691c79152fea2ea;0x37044a2e24da914ab00acff0e3f9;0x1dcf014aeed06ad9aead3f34deafd;0x52c3dc423b26ee8ed2361e89ffd8;0x1239127d73f602858a091094f54d2;0x83a7709e208b2fa8a6547ca3dd00;0x24d86509f8e14afb9d64fbc3bcc0;0x294fbadf724c0e32bf868490ea59;0x3f505ea736ba408daffeaacb262;0x9645d723cf6303020aefcd32eff3;0xc37b15d5bd1db31d1342b8e871b;0x971656daca75911c2b0396a3f72;0x51d0b32e3d5bcd92c278b6cdd998;0x76ca5f018a6cae05a3ec2a5f4983;0x55cc7648abc4dab58dcf90016e02;0x36bd2805782cc8e42e98a85b94e2;0x31143286b6235174c18c00cdbdb2;0xba9dced51ef579f55d2ebd578c;0x50f;0x249ac837863dcfd8c6ac0a34fce7a;0x2292383d2d22ed48c567bd20c4e79;0xa8d47f0a5fde03df2b5e62acffff;0x37f300700;0x0;0x0;0x0;0x0;0x0;0x0] _ _).
  - vm_compute. reflexivity.
  - apply Forall_cons; [exact prime_22386444903104437241'|]. apply Forall_nil.
Qed.
Lemma prime_6277101735386680763835789423207666416102355444464034513029' : prime 0x1000000000000000000000000000000000000000000000085.
Proof.
  refine (check_ok 0x1000000000000000000000000000000000000000000000085 0x85 192 2 [0x124d641bc31ee7ec63560de08e73d]%positive [
   {| s_r := 0x124d641bc31ee7ec63560de08e73d; s_c := 0xdfcc01c03098547aaad4; s_list := [0x1456d608a9d903b1f4e3106547e4647d89b6d9e2f8315471;0x63d9b556a40468ffc15a83ac786e4aa4cf84d4b6eae5e9c;0x32ce8b4024ecef65a7fa28d607abeb2557eaa7aa3f8324;0x36c2edf71546d9854ae904eb61d9e33b9499acb5abcd7d93;0x19febbb3ba1d1fe8d73c67703b5d9221d2761cb25f16e9610;0x213a87ba40bd8b1a2c19556e1d7d8dd1ef273a0ee8fb84b0;0x1af380610f7e39755cfbdb4a70823a882244be44b1ead578;0x172dec9adcaa6a39432bfb2d94be7622fefaeb0d2b03c580;0xf3d8341608d3bc4c4ba784f665a0bb3c396152adaec8b946;0x65cdfe0195575a8c469cefe1a6b17db083b9f12226dba902;0x1d32e75e5d31c1c7e29ef49dc92251e7e48b6818e7fd90d2;0x13295cee6d80b075f61e87ec4259af21ba0bf5dcb8b6594a8;0x144b9f13dfb534821e15babead62a2de159c5c475e56b1f;0x197073e5eab540a4bcec121cf654deabce76a9a9b77cee579;0xa60c0d10d424ff6a6fb58be8b79fff680c952f24b221ef0;0x97e9ee6a55a8ecf423cca4d68b76fb3d15199a379612af0;0x5f34c7883ef1cdd05dff26f61bd42efc316cd7096939560;0x7cb261d57349820e97a5c2ca5ee0390ddc56857f7ba75ab;0xb116ccfb947cf3962d0031013773d3fd28bceeb486a50b00;0x1b34973f3ab81b8c3d2ab35214cfbd63a784cf3e5c1e7939b;0xc23d3f661d763f10bc5eca072a8e11c9a556bd83f36dfa43;0x4d5cab18c8ad17971e822af9109cd55e3450e3e285cde14b;0x1206a3d8abbaf763846ecaebb2fe3a09da6abd0aa81944255;0x392deca0759ac85b934999ad064183255a8eb0e874499302;0x6a4f74ae3bff0f19aadc55b80139ae3d48fd63e5e1f9fe78;0x9605e22f110cad9b22a582bc75a90dd8fef3985e395b5a61;0x12657cb318831f169ac150ad6ad92749a9ad6aacfac4f4631;0x86b5f7cf25874a24a5fec4c3c0d5e6a11019049b783c07aa;0x2a30d51444cc95bcd20c761eaeee54745a24709466c1362;0x221fb331a98a43c9831de8e87642a147be03455559e805a0;0x25a069ffd75535d4467f5f2b98eb7d140a355fe89903293;0xb7224c172c47a09a8dc597524c98cee9e3fc23119f2a861;0x763be2d316f4a7c37338ec3847b3b39bce03ca6b1e5812f3;0x417d520581f06131fab74ebd822ebc5d1b5cfacb5a84b0d0;0x3c76dfe8e70d98fe516aa35be309918d35afa3e2b1d071ce;0x1b83b52b1e4f7fc440bcd71ce8d232fc213bfd59352c170f4;0x17f97e943a5c7e11e807158912a42e7a6c1961af351ba3ff;0xf484e6fb13b87ab2e4e03919c5b2445e80d85d439daef14f;0x192d9aad50d7597cff27b6c0878192ab0367433466637cc4;0x9d61e239eeb85779e36a52d6d02002576ffa6533816b736b;0x708827255bfab2258a49d8a641b9ed753ccde5957342266;0xded47749e4312006cdda1bc0ff280a46be6a598c22d7273b;0x171a84171fb5e657503a9c2fe581206cf5b72d9a8f6c0ef7;0x2479d135b54e823b5dba98c1ac8bae667934c30551a1a5df;0x8e902c630ba9a33a08428e20116428f4d968315b64149540;0x1397deaadc0096ec8fba1ec4098dde28baa57680b77bf1db;0x48c8198762d31fadaecefa060e1f0b94d1f111c9177ca;0x8c629cc309d6c72a9e4860a3cba70231be94b2e4de6c724d;0x337e05beba389b3c8dbc3255fd61a022728ef9863fcd3fb;0x8bfd58e6addd64d7b09f63781502de837dda6409ad53058b;0x20dc68e43a2c980c7692da3a507e4aca1f3120c9e2e2dab0;0x40abbe757948d66a0eba27aeb88c8c60db6004788e520b86;0x2cec0bd898163b496144b41a9ac2f965d478e5ed81eb1c3;0xa968bcd0f5e5d15c73dcaea2b6a0779a42e175af44b7b3af;0x16a2bb6dabd6f1844eb8b8bc29467ee6eaeb2aa7d6fd38f4b;0x47dcc3eb8efcf716984d44733c998f9847d5183f4373163e;0x11388375aeca94f45284bd0a02ebbdac6299f16be5ea7f6cd;0x1bd6dfc61a1d3b275ea8c644ce50f7d56fb2c6201b6e987f;0xc73354f61402d982e7e2d0ef8aa4d6f93b1ecc56e6d2d578;0x4f23c4871b8eb7f6c3cf81f12b740e031bc6eae4d83e7b4c;0x39c0c5d9036e4bb8070d688e5d3885e184c6cd99520c28be;0x4ec3ae0cfcf362e1d6d4fd5575e567c755fc907255266355;0xe8542dbf7105fd11f90fffb7546f3264dd21ec8255a5b844;0x13b700dc305aa4431b0bc6bb16636110eb687f4161491e6;0x741e02ee5840b0b65222548f6341e2c97a81393e18dbffa5;0x2347fe30981da2459b9bf46860f2641b1c7485564937fd89;0x2c6583c46dcfb5a485c87485d40834ddeccb40e20a9d7e8a;0x182a01aa510e851fb2a21fac689a2b3f97c32dc6a8e3806b9;0xffffffffffffffffa5a4f83175fd5f0d87f90876f1873ad2;0x56f57160c26a783fffffffffffffff;0x0;0x1fffffffffffffffffffffffffffffffffffffef60000010a;0x7fffffff;0x0;0x0;0x0;0x0;0x0;0x0];
   s_u := 0x15adef56813d3a33dde6d24aad64f5b85248a5dbeae1265d; s_v := 0xc065c55a38525b412f3b357c392463d0690eb77f5a6f4ed |}]
   [0x1000000000000000000000000000000000000000000000083;0x6729fa5d95a1ffc83b08e7569f8a4ea8f0742682f16c131;0x3394fd2ecad0ffe41d8473ab4fc52754783a134178b6099;0x2117c8107e18d35a354b5d9318b77afd2f6212762d7a6b1;0x493aca74ef8587f3850ec94cc5598379718b10f7fec50f94;0x4586ef78518787219292be3fcab1f4f43e3e26308d869ba0;0xc498d830f326ce9860de75559ff9f1bbedf942ad4927989;0x5b0eb1be3b4ea4f99515aa7a59ffa6e9ccb303285d3bd7df;0x174d34b9a4ab4376dcd9c566bd106958cced91a46b751f55;0x8cd217ed08ed0d55c3cb5b6fdab31b00184cfd3367deb3ae;0x5121a14d6c113a9ea237effe3a632adae105153b442c9;0x69993233119d297b84d5a6cd9882d9c5d8053adddedb32d;0xbd7cb9d2c748c174bfe89303b18f9c64c680360bebd4b615;0x159a2819d12c2dd4507c39956691b5d59da9baa1d044c78;0x3f6852e05e10fef4e5190d56579ce362cad40a00a709956;0x8f1193a65bcf2aff453fca36f42c1e08cd249618b6e0df;0x8976c893ac7197b5abc9e349d70c7892bbcc3756396356;0x73ec7d96d0bd48c28fcb5453a615e3442b5d57869c947a8;0xb701a38220cedfa455ff0186ef0fb422b5ed6ff977c37d72;0xdf9650f6df2cbaa69968d5fe42f528f34d1b8348ecd0fa54;0xd726f95342a18a47073e5046b3f4e6b2d031dba8051ceaeb;0x7e5a750926f77cb9d20705f5c5dcda890e0b7e6898e5c905;0x38bc0a44550d162e76a9be036a42ac7c27328f2425d7b825;0xbef46c246ab3c0e7a499dc7505f968d00b45e440db3fa6f5;0x3aee8340a136c4db2368ce7399469beb3be8e0634e6bba41;0x8c5e2df3b341626a2754bf1f50a5a903e4c9e4316d5c8647;0x483267eb55d9ddb4c3cb8aee1bad9003baef272c40cc08d2;0xa7feb607b75967a2cec54032ef3dd13cd7966494cf44f65;0x1a3997e58b69e375b641888d984de8eff7ceab6a3ee449d3;0xba1c0f2f507ca44a1a16d6c4eb501ac5a8a26075fa68778d;0xaff0902e749e01a2c5b4de581c302e04c6a95d6b29ba8e0;0xf3403b6da6e24d8854e14cf745830e13f830163febf5d29b;0x5f571b55a08e60524e682779c7eaefd91ba2e6f902ea6471;0xb24dcd43eca3c4b72e3323beede79425b31bf7a34dd2c935;0x7bb7db72b41e57132ee7a3241290227e3c61a046f390bb4;0x94c415717c13c8b2b2830a8ffb9bceb5f913ce487050231f;0x29ec0c339f435cfbe406b15ee9ae6dc01fa9a13742a78df9;0x26d8ff4262e59570a1d78cd343ce5b4b13c0e600d650ef7;0xdcf85ca5e57957c0d15641dc25e23bb9d547d18833c5b650;0x91e43fb2a43adfb1d504b085528d2f30f64ee57d3b9150b9;0x18e8ee2adb440d5aff0c5577a9f3411b4bf925597a935a14;0x1fc6490bdb4272da037a4311ee5d54496338a521152f2e;0xd8797f6ff5af0916416fb41328c1b982f4eaf082fa41774b;0x7a393684a3fbb6cb728210cc0aa5010e5fcea3575bae3c83;0xff23352baba9bfafedc012ff66809cd6f1796521bd4a59b4;0x12f42b5e4490c2b605e2806183d56e1fe185a526e9d641bf;0x42214ae7890bdb96402d6a3471d1908e17eaa9f5432b409d;0x79ab87a5599aa4e67272d051a20f32d17a224d77e3f255ee;0x5551ad4bbd11701dd6f86f2b69ae677ccf225fc222a28ce1;0x5f7422d2a06807de2a559d0a9c805771d4814598728ad739;0xa912f2cf098b8eb9b32f63f12db30d58f7307571deeacca1;0xa0f1cdd485abceb1ca22bed17327a0ffe5cf21a4bf67be04;0x60880bb276cf03021a6bfddac6719dcdff15539a683953c3;0x1ccef31d1381a10eeb4317a34510bacad56eea48767628a8;0xe9ec7ffaac862c5143408f0c7ee3d28825275f0e6f6fdeed;0x6c884da6a90625e66ad59ce766e0057a37def7ff390568e3;0x2f783a56bc4e426b63cd68e3b4d31e682996dba851420d5a;0xc2f66815b4429fdf8d3261950d873ab38384915572b76;0x17065d9b54eb870f70b85ea3d164926c6a2e7d8350075d36;0x26b10cc39329b3c84a85dd502acc24d5671c815fa7f504cb;0x451b34bdb974fa958108e51be6f3797436c93bc68b24e10e;0x230604a3ded8d0911957bb87600a3d1d9e9914202cab2fa5;0xb3d99c6134374d7db22f9b33d7e79e9098aeb07404335a35;0x548e610831bf5d29ce64b675fe7f748ea0e15596f189d93;0xa1344d8500b6a51eacbbe1dff7a4c1d840a21bba9843f1e;0x4794af2d1e20bf882d3dd56d7c5a04d3193eeca89af01bb;0x374c59c17b8a9a894d0883d5efcc380eb998ce88c3fbb2d9;0x32331a761ca9d7c5b3fd5b874920c28c58db25036609c10;0x3c8af24b9646fb8715d4323c4d90b5c2b1b3d415003ea0d;0xa99e7835b89771745a857b995da2dc2f244efa41ab3ff981;0x29ae5d63dd80212c128e4120ae3568e77a920862276da67e;0x17afb32289cda8b2a850f3d74c41457ec2a7bc965aecf220;0xe98cf0d01677743e6f3c18d716b6cff52172d2017911d5ee;0x3a3c528a7db0af0b21e9df81b82383e7268555280a961072;0x46621821f12313b1c3a6207154a88fd6c5127845af3f4742;0xa4cddadb7f95a26bae439969f10bd1a2c060ddacbf19c45b;0xae366ec9e3722a1361c10ee042f72b9d5c5425680e16fe6a;0x608607f82316e6df39a371ce51addc8568b00bf07ca3329e;0x2feb87d5e91d98f6011de71f045af8419b47027242093063;0x3f74fc5cc141a6f5f7a62eccbc9feb4059f8587a1a84993c;0xf8ee2f569ac118201267107ce725e55dff81789f6d4cf298;0x53fbbddc7100a00cc68b22d3fb5a8447df57f99f4622e8d0;0xcc8f8fd8f51dc3f45bf3c67a732628f9aafa773affa3b4ba;0x5af4eab1c36022465a4bd05c56250adbaccd7fe5ce716813;0xe436d049f77b92ed48469203cb0f0b780239055c30e906d3;0x153e403600e0ea41c19816ec62508536debdaf1809f60c5;0xa32c9156bc9bac256972878fe6657aa634ad02c9458a3adf;0x33afc07f77fbb048d092bb87b2b374f306f7dd52f7a0ef0;0xfa219f03c1392bc0f779b88ce3db9ff92022de976693a225;0x9f5f4624eb35872c5a96a4120a12fb74ac642f00d5100d23;0x64c08907ae23d58df29e166fd8f1d951471d2999ddf48f7b;0xcfd75e8adae5bf613e4bebdf44dc5b99a43839cddaa1d287;0x9b6c329ddb74591803c7c3b35d5361363080d407e2b84471;0x81daefaaac94b78227e64f4d360fa2b277cb22e9c1926bf;0xf3c132224e44057e0555b1d0d93380cbb87d817f336e7e99;0xd08dd4f44c58efc9a2dfbe660f2d026da062c1d445b2549;0x26d94b284c5a7ad8f2f005c6dba49d832f15b3070bd7a7af;0x4296e9f49497e8a05f8c6c06c1cd8577db32f187a3ef69c9;0x52ed9318eabbcd86c11d684521c8c5cd02c9fa97a0af2f44;0xd600f00b715ba81720b6c04fe7cb0cad1d4f0042298e8ecf;0xe4df03e0e3ff5c88090ee483e8435fc35b383cc5411f80bd;0xdd9063b6cce79c56b45fc4e80c01fa75f51c31bd76094efb;0x2141a639e7f94e426eb67d6ff2aa68f2f548f5535f0b1966;0x635b11191fd43017f327fb5d4fccc4880680fb667578604;0xab98801e02af2e3239d82a47e15e9cbc02ffa6e1d89ae27c;0x65dabebf35753522c5229bf938ef017cef84794a824af86;0x4eae39f3c951c27f9db03bed6bbc9ce9f0ecec7f740597a4;0x4bb4d551f38bf4bca22cfea020f52597e679ba846427bc;0x852688cd44f287661cf2f64d38c7163a98d46cbc20a2934;0x2109356bd9e0b7824794bfcdb2981d642419091654be73b5;0x45831f699522b2b448b2aad575b8a92e930cc7a62d4f6772;0xe9cd719d8c5c2f479c9a94dd48587126536b6702e27ff833;0x6e0551d4e34ef610e43b7b84ef3cee62c1bae001b7f1bd4d;0x7923b0cf75fe20650e97f868c0c99f4544f20ccc800e0df3;0x3ae2625fe14bd2679724da4f171444fc697952b3ab7d5e56;0x6d8f8eb3d330a654f58063ffcf2b73a3ae966b352c120fae;0x6cba7d4a5d6bf6797248b60a47e0cd4068be0877ef8a09d;0x2e9de9a4bbe9553ac75c951f4e895ec997995aa49fb8c742;0x3f5e5ca7b7fdca2e67c895549970545772cd86d555319c35;0x89bfb036680a18fff87fc85eeba347b821584f826e0ce7a6;0xb8fe1d861949022eff29983ff9d7078d3db0bdc8171656a2;0xbd2d290e075c1e18d1ddefd2f3ac933c7f7646a3da0e3c3a;0xc036f30bcda2af7c8247484ecaf2bab3a86f58664d01dc;0x2db5ca1ba294e8a98f57172570bd2c050f5ae208219b7e4;0x36bb19082042eb50664b413768e4571097ace61dccab1e72;0xbd4ed2f771eaf6398bdd3f6c2ae75a046b5fdde9ff216fe7;0x18b190c1616278042704b353c7205faebc95dc0b40148be7;0x32202517d3f1cbca2b82400877f501e07ad4b9879e6a22;0xa784cc1280cc4f289d7670bcd6c73ec0692dba46954bd46;0x45eaf194194526edc956d8d0d131f7887fa9aab9b1cc4f27;0x13a262b5a1396f1515dc634a85017b35e61e19360240793d;0x125eb5558e6db8d8c691af05749c77514eb76769d52dfb8;0x73b9bdb7c6ff51cc4830e5a2217dcdfb49b4a3f39b21c33;0x50a9aab7e4a19cd8afb134d544dba98269d72a92abb982;0x2a1d75ad812f0dd69894a60950b21c30c81cfb90d339f40;0x48fa968b3ab9551c65abc8f8e0f258786a405587f196bfb;0x98992317c7e7a311df260353c09fc2570bc4a1a1ffe75e2f;0x3ec437416009b79968981901556b4c5f7fc067367440358;0x3f7723ceaa8eea71981913fdf30ead99c87e04afb9855f6b;0xe192f6d418c4bef8110127fd908303f4c23647b4a970f6da;0x1a943e74ede12408f88c613d69e0eddb25398bcc072b3;0x37ef930c24a8f18dcf09f46cd3b4c067a693a59a4f9a0fa2;0xb737f5dff55c3c14613310048bfdcb5e378ee4225b86c18a;0x6d2f727c7ee229fb7aee843ce212b33d0668903f4f17c76d;0xf5f800437e0f885c8e77a81744110b4c04220592f657bcf3;0xaf2914b3164075329ed9a3f049e892fa48b0c8cc0f27f81c;0x83e718d5a4645dc21df19e7675189bece2292dbf703c94ed;0x2ad222f0291cf771be0e076ce4d3f32a4fbcd9dc60343e52;0x38c82f96e8576ec525e7b92e3bbe686ad84d3684f47bab7b;0xf349a0633f2f3a059cb7106e18a32c1b9204b6b3ac2ea1ec;0x304dfbc824b99508ec98c2585fbff1c7d2a11d890f8b71dd;0x1d4267fcff90f6ffacf7551398fde6736f160ed11708dcc7;0xb3411640bdcbad1b88240badd0628789e982173d9c446b3;0x4fd656d12690d21674a587d4a71eb7c1b679baca5b548661;0xf93aeb737ade672e5459b7788cece43611b33524e5c60792;0x3b540f9f7f21e3ad13ac10aec0c8f1ec33bfc15a96fc3d16;0xcac0994ce4179db70dd470a11547913f33e6ee6f1346ca61;0x8d52348635cddec20e3d64eb30c8f2c2756d1fc7bfed50f9;0x58b12ae365900bdb9f47649da7fb61f423b8aafa78d36229;0x87dfe3d8438f493144e25543d9599a1d248aa1044bec7db8;0x8eb1582af7dfa9af6e9e4bbcd20ef72ec919989ebfb4a2e2;0x89421429424b1806ad2eb84829be9493f4b76f397778c4e4;0x20bffd15299ae19cb5789bd8dc068c3a7fac35d1f8f992c6;0x4684a6cb42a983405dace47687dbd5465a36a27eb3a294ce;0x12c4fa2559a672b39c6c2afde27b8a2daa1aa483f01a4517;0xc70340e4d2f14421fd4be2b82b9512e2e16a780a124b5f8c;0x6cbe7ca523630cd763fee5819aef654dcc01b9bd9cc26557;0x164f13f64eea63ee3ce740dfb64a8abeedc04be4b4bfe11;0x27c5839d5d3f16ad6ddbb56f9a8f5f3dddc03cf8b7b488d0;0x5deb6a47e98a48bfc698af34f39d1a5d3c82054812edffa1;0xda7663c04e11412a2927dc542e6b94c44c35eea8961153b;0x38dcd86d7530dd7eb131f159810d582df7ca4efead9e4c9c;0xf8c3fc1571e5a819d866b8fa5c5653d6f736b1cc8c012ec1;0x1e411e6b81dbb207a47b7bd49e69139c6982798157f376f;0x4725d2d41fdfa3570eaf56144e3d2cba2c59d79f48a4cf27;0xe2218860e334cad45b17600ca9be4ed90bc0e023a3fa80db;0xe338bebe23b0ef3cb7e59526c4a825464ff926bd409a771d;0x6fd476482014490aff79403fd94c442766fd521a1ae96393;0xe922ef6a7ed5b1f6b43d799bc1fdf2992c99c0515720dcbc;0x4358a40d69411acb888f14fe8e710c4b338cea63d69fdb0;0xc88d6287eab1561c70ded44117d2b830ffffffffffffaa10;0xffffffffffffffffffffffec9f02b29600000000000000e2;0x12a67c70ffffffffffffffff;0xfffffffffffffffffffffffffffffef60000000000000085;0xffffffffffffffff;0x0;0x0;0x0;0x0;0x0;0x0;0x0] _ _).
  - vm_compute. reflexivity.
  - apply Forall_cons; [exact prime_5939438775083828224815107551061821'|]. apply Forall_nil.
Qed.
Lemma modulus_24 : prime (2 ^ 192 + 133). Proof. exact prime_6277101735386680763835789423207666416102355444464034513029'. Qed.
