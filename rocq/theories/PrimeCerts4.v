(** * Certificates that the moduli of aiootp/_constants/datasets.py for sizes 29 to 32
    are prime (numbers in hexadecimal, found outside Coq and checked here). *)
From Coq Require Import ZArith Znumtheory List.
From Verif Require Import PrimeProofs.
Import ListNotations.
Local Open Scope Z_scope.
Lemma prime_29' : prime 29. Proof. now apply (trial_prime 29 4). Qed.
Lemma prime_73' : prime 73. Proof. now apply (trial_prime 73 6). Qed.
Lemma prime_76213' : prime 0x129b5.
Proof.
  refine (check_ok 0x129b5 0x29b5 16 3 [0x49;0x1d]%positive [
   {| s_r := 0x49; s_c := 0x414; s_list := [0x36;0xae8e;0xfc1;0x33e6;0xb95e;0xc8c8;0x234;0x0;0x0;0x0];
   s_u := 0xc37a; s_v := 0xb51d |};
   {| s_r := 0x1d; s_c := 0xa44; s_list := [0x74e;0x9b1e;0xc34f;0x2c35;0xcc5f;0x6be;0xf1bf;0xb2b6;0x0;0x0;0x0];
   s_u := 0xca15; s_v := 0x38c5 |}]
   [0x0;0x0;0xa6ca;0x96d5;0x19654;0x7046;0x9e;0x8c76;0xee3f;0xa7e;0x9434;0x88a3;0x13db;0x0;0x0;0x0] _ _).
  - vm_compute. reflexivity.
  - apply Forall_cons; [exact prime_73'|]. apply Forall_cons; [exact prime_29'|]. apply Forall_nil.
Qed.
Lemma prime_5334911' : prime 0x51677f.
Proof.
  refine (check_ok 0x51677f 0x51677e 0 2 [0x129b5]%positive [
   {| s_r := 0x129b5; s_c := 0x46; s_list := [0x183ee6;0x1928;0x0;0x0;0x0;0x0];
   s_u := 0x2dc5aa; s_v := 0x1a9eef |}]
   [0x0;0x6875f;0x932c7;0x395f75;0x542789;0x147d99;0x12e6;0x1eb05;0x27cf76;0x4d3e71;0x93ce22;0x31b1db;0x4db9a;0x54b1c9;0x967c56;0xed60;0x230d65;0x32511;0x0;0x0;0x0;0x0] _ _).
  - vm_compute. reflexivity.
  - apply Forall_cons; [exact prime_76213'|]. apply Forall_nil.
Qed.
Lemma prime_13' : prime 13. Proof. now apply (trial_prime 13 3). Qed.
Lemma prime_17' : prime 17. Proof. now apply (trial_prime 17 4). Qed.
Lemma prime_19' : prime 19. Proof. now apply (trial_prime 19 4). Qed.
Lemma prime_377911' : prime 0x5c437.
Proof.
  refine (check_ok 0x5c437 0x1c437 18 2 [0x13;0x11;0xd]%positive [
   {| s_r := 0x13; s_c := 0x4db2; s_list := [0x42ec5;0x49b1;0x27f9;0xd83;0xaa47a;0x271b;0x106e;0x509cd;0x2bc74;0xdd78;0x1;0x0;0x0;0x0];
   s_u := 0xe8b8; s_v := 0x3ce1 |};
   {| s_r := 0x11; s_c := 0x56d6; s_list := [0xeb5e;0x33192;0x587c9;0x4c8f8;0x2a735;0x729c;0x6cfc2;0x1ed3f;0x1fbe9;0x37aed;0x5;0x0;0x0;0x0];
   s_u := 0x40f02; s_v := 0x1b98f |};
   {| s_r := 0xd; s_c := 0x718e; s_list := [0xc035;0x932bd;0x594e8;0x1383;0x138db;0x3cce;0x4eedf;0x292b0;0x5b5b;0x9181;0x2c6;0x0;0x0;0x0];
   s_u := 0x3ec80; s_v := 0x323f9 |}]
   [0x0;0xfc59;0x57f72;0x4aba4;0x6401;0x5d457;0x204e;0x16cfa;0x125c;0x10a0b;0x9d16e;0x2561;0x2c40a;0x3978;0x16;0x0;0x0;0x0] _ _).
  - vm_compute. reflexivity.
  - apply Forall_cons; [exact prime_19'|]. apply Forall_cons; [exact prime_17'|]. apply Forall_cons; [exact prime_13'|]. apply Forall_nil.
Qed.
Lemma prime_44119597607' : prime 0xa45bba227.
Proof.
  refine (check_ok 0xa45bba227 0xa45bba226 0 2 [0x5c437]%positive [
   {| s_r := 0x5c437; s_c := 0x1c80a; s_list := [0x226f7e707;0x10119d7e7;0x1171affd;0xa1289d14a;0xb3886c8a;0x7d2b71a2d;0xeb328949;0x7b7274964;0x49f49e56;0x364dfc819;0x2af84e182;0x31d7a2;0x0;0x0;0x0;0x0];
   s_u := 0x5df23ae24; s_v := 0x2ce9e636d |}]
   [0x0;0xf672737e7;0x1314350b73;0x3118b84c;0x4cf572005;0xad32513b7;0x1f5600cd2;0x64aa2268;0x46db7d448;0xca83c6fdb;0x9ac79e451;0xda4e156;0x9909b8d39;0x6112906ed;0x25cf98628;0x341a46;0xd4f5d2a1;0x97d2abd89;0x962dbdebb;0x2d8b5489f;0x94a51bd98;0x31d993d35;0x182bf7469;0x116bf49acb;0xcc0bd9a16;0x752072d31;0x834a195c6;0x66d2aad46;0x2c21c97;0x749d19a8d;0x31;0x0;0x0;0x0;0x0] _ _).
  - vm_compute. reflexivity.
  - apply Forall_cons; [exact prime_377911'|]. apply Forall_nil.
Qed.
Lemma prime_37762845983783441' : prime 0x86291bbc923a11.
Proof.
  refine (check_ok 0x86291bbc923a11 0x86291bbc923a10 0 2 [0xa45bba227]%positive [
   {| s_r := 0xa45bba227; s_c := 0xd0f70; s_list := [0x648f0af0682649;0x571dce85d4010;0x38b3da2ba8d52;0x256acc19640fda;0x8b9fb2c9c8353e;0x6c6b40844386f7;0x581ac8ee380df;0x44d196d5ff896e;0x1a3fe0fa2dfb35;0x6ee25083a58358;0xbf5b7f86a8ecfc;0x7027a400ba7210;0x2257fc160729d7;0x1e87d3f12d881;0x0;0x0;0x0;0x0;0x0];
   s_u := 0x7f04974a15cebe; s_v := 0x6bd137acc01ce3 |}]
   [0x0;0x0;0x0;0x0;0xa6a5c956918251;0x1c35848795d488;0x272b5bdade4ac2;0x80991753bbde18;0x6e2e3e921979ff;0xe51413581fa70;0xd1b49a4a76a1;0x43e5aa18646ac;0x208cdac666f212;0xfa58721dafa3a8;0x110eeb1814b4ca;0x570c85a64bf66;0x7ee0f3506eb8b;0x3170c2efafe66;0x24f8c359fed1e;0xc8f21ff415796;0x2e7dd06ad1fba;0x26cf6a29ad281;0x16170a03f178;0x4be9a8501547fe;0x4b05a7ff7d0a1d;0x878b6ac2b4a27;0x7a0dad868252b4;0x248e4421fc99;0xb65000f23bdb95;0xa1a73bc94e90f;0x885b82acadfb1;0x466edfab846789;0x9e07d56aaec6f6;0x2d3ae2235f6ccf;0x1f04c4880587cf;0x4db9725cc6f9d4;0x3a75952d46c5cd;0x25ccb138c49343;0x1b3c95b9467b6e;0x85a6a53ccc80a0;0xf7f09463eb929f;0xb601cdf17c756;0x28d876101bdc2c;0x2567ec21c83a9d;0x16378e16ed91e8;0xe3f447cc24e3eb;0x1eb956e97edc3;0x28077c88ab1172;0x70109725583ae6;0xf43;0x0;0x0;0x0;0x0;0x0] _ _).
  - vm_compute. reflexivity.
  - apply Forall_cons; [exact prime_44119597607'|]. apply Forall_nil.
Qed.
Lemma prime_83772718581684963760400270423594260263532957' : prime 0x3c1a9e4c3eb513a39696c29d9166a595ef99d.
Proof.
  refine (check_ok 0x3c1a9e4c3eb513a39696c29d9166a595ef99d 0x3c1a9e4c3eb513a39696c29d9166a595ef99c 0 2 [0x86291bbc923a11;0x51677f]%positive [
   {| s_r := 0x86291bbc923a11; s_c := 0x72b0258f9c6c8e086b8e3dc; s_list := [0x20c2f228933d757aeaf754a97fce136fe1c67;0x1dc8b9219c95dbcc5fbb3f3af2644a0eee1;0x14e331a9da8df32e578dfb41c9e5b752d5742;0x519eb9ec0a0711e99cdefd0fd0467e08ed7b;0xcab203824b1f4c314c22b867d723bd10e0e0;0x171b771683deb0a23617b6a4d780f29718d64;0x32cd40505c13752358cf143aca1a26f90c09e;0x67489c76675b893abf71ff57b30ac5b40b4b;0x4ef2684208b81fb87a4709d83132a2320ecc1;0x1c954459b2065381b415cc6323331fe8ff0f;0xcfb96f71271dad8a7e3d4aa7e53adcfe0c8a;0x15158cc6d39cf51b641899ed1f6b09121dd4;0xba791967af473169bd1f242b75d2f07f4360;0x1c05fbd873edb1fbc0809565d76cb927cc4e3;0x120f15a3422d2279c66174d5ecd4cd75787c7;0x6d94fba8ae9e6011e7200b70c9c257be05728;0x3667f99ae8b0b31a386078b91a0771505da64;0xe147138f7fda5b7fb1052bcce057a9c1e04b;0xcf3c7f05d9dcffa0bf652a065260a0289bd;0x167d0c12cb7677b5ecac479e1d8b6a739634;0x21e294f7dbcc150a0978b88ae459cb8b08d99;0x2b59c73877cfbfb082d9e6f21b9a4281a4d1a;0x13cbde53f3c8209678cf2c28fac646b90d94b;0x7e634276e74c14faa99a1392fe0fa6570bb;0xa9efe6824574d9e304dc50ad0e74d4993a04;0x7785992fc4b549e3348d7c56a322a08dbc741;0x49d36f09c79acafaa2863b47579b300a6c39;0x180d577f3538ed399cfe1a1a8146cc18c24fa;0x26a1d995c560665380c0dda91abb7e1441512;0x97a8b326060ddb91762954e734b2be36150;0x1f7056c06d5b669d470e5929e8895e08d80eb;0x4f7545c3b6d013dcf804bc074e86ad8d26980;0x8bef85e0dbf72fa7f6196c1840a478f6b089;0x1ec6fd3da9e1db8a59af6458af01aadea01f;0xd7d3d4a92affdc19008128fab3a5645d5d2b;0x1a634fe1ed1cc03580fee82992fb8efdab8a;0x120f1bc921b7bfb6c672ab90331a5aaf13dc1;0x74abec658be2bb8d3cd30cac82427eecd20b0;0x1403a50425df6c00dc3417fab8e98bdebe96e;0x31f78c2140abfb8934f70dee30715ba9c02ff;0x21254d33eb1bb0c7e7751fecd1ab161645f34;0x7c57daf75d7114bf0769436e21c593f0ba65;0x4dd39cc528359a882417466fd7315d2686a7;0x91653dc8a87224e9c39fbd3280d286be0cf5;0x65a08d60dad1d1a4ec911cfa4af979846e75;0x334394c5e94aba0c09dff903047cf5b10aa3b;0x3c576d9216340570eb0c1b6b130834ad0ccbe;0x1c01e56f0d963be46a939a6494195b30971;0x257730f909a188fd0b439404038d3e10b5af0;0x2e9822cc3dd215c3cdfcdd620e7d13389aa52;0x5360da8a99527a706982e818a893c3b8bd2c0;0x28a17616b1449bf6f1107a250a31f42e285c;0x9de7a384493d1fdddb60c964dd47feb746b4;0x16d483a7323a7825cffb4c084d95f61267b3;0x3cf2b2fff8b8b467fc2f53c322184aa0ed304;0x1a5ef1a823c3ca536a63d86e7e05bd05bc12;0xb2c2e610db083874eb79420d4ae46304e561;0xd2b985c73e4d894e97bb581c74c1985063e7;0x38e5b49cb269680694c9d42f9b096aae9654;0x8316368c5a645008417913a3252dc7f9ae07;0x3492d48d48caa53fb1d7a33aa0506bf5e5a81;0x86151550efbbb00fcd163536ab4a9f3ac507;0x168e296af8a69bc68ecbf3e4bb7f783a04d;0x2a8eb602c3a991ed371224161732b97105a34;0xaa45d92bc5dcf1a408546ea43817e902f1e;0x317bcbde357f8faab85480b40f93b2629b132;0x1d50dd9f169de0e7787730b595094b84e70d;0x170e9fbcc27caf153f7008b68717e56c128;0x4666267593f36ccb63215d0b2b2764e182522;0x11d65be01efab92f47d37fc0d99ae79db3861;0x2f904ee722efe38dcebed2352378e4d647d9;0x22e8c330b299e5f0d60476712f1c6b711;0xf0a68878ef88e03139d6c4da13505e005914;0x5c395e80da67aa4e51c70cbb737856f06506;0x229ae6f9989337e62859c09748184c86a5e9;0x36e55953c1ae76c913702a1fa4616e3052ecb;0x426469e2b3c3cc3326d19fedbd95c797d6dd;0x6cedee8d54c3b7f1bf00288d3cf729391933;0xc137ee2cc9829705b55b2ae7f8602d15a45d;0x71a25348268e592148b507f233d1c0d71f08;0x10e77c8571a2ed86025a66bc50e4de9d637fe;0x439df215c68bb61809699af143937a48af005;0xf06a7930fad44e8e5a5b0a76459a9657be3a;0x884c110ba389e3293b976;0x0;0x0;0x0;0x0;0x0;0x0];
   s_u := 0x25543610e6528ad947e77400b2ddf049086f0; s_v := 0x1a5bf88e29fa7079d96aabe35bad5e42b463b |};
   {| s_r := 0x51677f; s_c := 0xbd03cd6dafeca7f86c6e46f77d37464; s_list := [0x34f7aa1e9d708b5b4b67fad1766d667bb40ef;0x17d258b137cbbc2b24f09bce6de2d56bd8613;0xd4ecc8c7ca0bd93abdaa71abb2bd44ce346;0x37919ded0511f859871667f1a86eed912e3d7;0x650f3551f267669143877381a293ee9746f7;0x31c6f68a5beca8290d68968ba63819b7925ea;0x13c6b09790d6da7aaae838085d9dfbabf2df;0x1975ffe8d65d494735cab657d2bee61b0e29b;0x380449f4f71fa4ae8a61181445b23f1b6e832;0xc7a3eaea0c84b4ff32edde7075873272f803;0xe42941884a50dd980ac8fc579fe6af5ec382;0xef48507ab81f15fccc8b3778bfc70a14961e;0x6d4fa0906851302996f31954c3299b81a4544;0x7e43c8babcc930a53b7958cc9a5fc7670156;0x1a20605f7acce78fdf88fe0cde6e5229a41ad;0x34e04dd97156509c9baa404074ff06f68d0ef;0x14d773fd87951d1ffe98984d9ddebe39daf9;0x1dd67fdd4b8b97176bab88a11867c008086d;0xa4e2ee945db90aff1bfb1e1dc5f6973dd227;0xc73cdf693020329ab5eef71c67bf730d9c2;0x32a5cd629c3ea467630586e27c232f08f79a;0x2318b4a87d609a8d8054bcf4375c93e3e6ae;0x55fe1047a650d6f33566e9e9edaf9cda2b4d7;0x72da35ecb7fecac5c4a35e7baca1fa47c9cac;0x67a3afa9ec780a12104af2ab6794a4a85825c;0x15227c72acc18fdecd4fb94fdf7d07343b798;0x2584ba951fabee3750604971d95def71ae20;0x244b98e96cce78df98d67000f546a9c2356a8;0x78aa3e182b946c37cecbcd08a28f2ecb9259;0x1bfe67f8722662d42f0cb008a0f1def0926a7;0x2782cff95c8c320f2bfcb7eafb620e2e972a;0x4a63d8baed73072d8f622198346fe245013;0x634ee2ff8ac9f9d4d3cd28d32f5afeb7963a;0x7ef763616ee003ced4876295bbf4b8c440e3;0x5dfbc1ef515f70e5ff9d657c7bbde18228b1b;0x391070c2664a5ce99262c174fcd967f3931;0x8f0018b6af17f8007e0618ab9e98fdd6a2a2;0x3e1f2e311dad2227b7a286e374166ac536d2b;0x355e06a6c60243ee0a149d44c2a8721d8d9ba;0x4a547a611e043ad8bfbc4b54b710242fa743;0x283a0bdc7c8e2ee2fb3425c5b6f7566c7f7bb;0x135705bceede6df13847deffbc1d5d37424;0xc793c2c4ea22f0a4a94d3d7add906977a41c;0x1705afdd812db5de443a983cbe09d013ab0b2;0x3598ef082dd20ae928040257254a0cc737f6;0x3c89f7c30101f6da224b3daece9a13e1d5095;0x36357ae40fc9c78b18151b794acdea1d1043e;0x176ad7359b8bdc66f0c61881eb6aedefa35b2;0x3ac9c9add6a3692f37750717d3aefb8ffedad;0x12fdcfc5ef69cff459f22bfd9021b752fb7b;0x2ccd30edf7a6670ceda41ffeb5c11364cc790;0x32eef865261613df3069d2133f4764652916d;0x6816ab802e09ec5d0f47dc8ae71d10f3276a;0xe94337884f1d6ea3fbe38979627cc67730e2;0x34e4730e702421194aefc9b79de058129b3e;0x1c77320380dd5237549cf6af0119bfd8de3;0x291ac927f1ade35daec18e9326ddbbdc605da;0x3f4c2315ab6402c829710ed1c8b736fb342a;0xce07f7e780757e92bb98798fb3a238c7e7a0;0x382968054169ba2b792c73b3611eb210f9e08;0x1d2d106788d7ef8ec2cac7d6e6cd317a59365;0x226e38d962bcd0ee5980dbb83ee8ddf964d8;0x95f47e8f8b3a2b0311f5781702a8dbeda3a;0x5a97573740d01d9369bff5a3b9dfb41d2f647;0x750e0ea72f3f1b357d937da763d2df48d577a;0xbd06509d19882d9bec61226c297505163b;0x32bc9cc56eceaf053493c5c82c85a5c33e0d4;0x4b4013f1e56888379f7a73f63b4dd2f65a79d;0x64dc9582f241cd277ccda2e5774a6261e0156;0x120782e4a57fdb17ee46a40f55c8cd390d53;0x1a08aa1182f1373f689a0291536b072cbf28;0x376a601f827c3c266c0888149bd02595dd7fb;0x2a273753ef4e67ea65bf33ae46744ff9debde;0x12e579ec63cde204eadf889fddc0b0605d324;0x70cc3590ad7832d7d668ffdd9c984f3b0374;0x2ffa46136a381182493cb504346780b274dcf;0x35ec2bc7f28b2da54588a104dccbaeda185c6;0x60d841221a594e3dffb412a33f89957341c4;0x7ae8104aadba1eb9207d2df52fcef66e5ea;0x2b30eb020814882604fd7fc193c5478083088;0x23895ef27e9e3e0aba982f5b2e4726281c465;0x3eb46022152ccd782c5be16d7d584293a0a7;0x51c12e68179762ecf4e118e4d2da98c8a1ec1;0x511a753cea6cb6b66b2dba58c302bc689ef8c;0xa72e8b46787edb8955174eba9d8912a0304e;0x210c05e29bc56105020ca6490062419070528;0x2ff0a1ec7360d4030ee61fabfb247826f469;0x1303c9a7797fe748acc1ea12c9a9efe1cd6;0x927877ab4e1e75d2beb58d38f975679d42ae;0x109e5cf53156d079a5d71994285c8fd81e4df;0x3522de80d9393bbdff7949351ca442a91291a;0x105fac8907b5b3a01624acf394baea108dda;0x39902a25f16c860307e1471199ce6213f465c;0x4922014870ca0170b57db82d5df9020b68a9;0x4f24f5b2ec0cb3f7a1b7aeb17d1f0adfcfd;0x6216feba01ea68aa1ee088ce6ea42a16727c7;0x1dcbf8a8e2cd4fe227ed29f825ef4fec78bb3;0xb45110cf86026b602dce60963dfb778b081;0x216c18cb86cefb66b218a5a7179205040d1dd;0x1db0d96b332afe95794829145836d4f91e708;0x38fd2b0bb07cfd5ec9a50dcbff5a4331552a8;0x48373a239eaeedc49db2b74ac9df6c5fdee9;0x6bfd33bd04d2982aeb0de366f4eb7b9fc4c06;0x3271ed416a8ad75e6ca3e23b391b5a4e8641a;0x1688ccacc4804ce1d6200366f74f2bd7ed3af;0x1a40611e284479d6c5bc7be56369591d000;0x24e19b421ac6313bb8dcd89c9565dd3fdadb9;0x2da1123bda4fcccee23578a355f41ed298b47;0x43fd92a8ad006a6c8765bee3b0c5afaf1e246;0x2590c50b53a2acbd2e2fffb9e7f1c96526f38;0x99198c35072d306f4c07aea2166afdc6377;0x3c1a9e432741d1aeb2cfc5f2181186f9ab102;0x20e03c4f6c18a5678ffd372e13c3edbe8bb13;0x3c1a9e4c3eb5139e35b2429d9166a5b4bd3d7;0x334527e3c60318644bf68e2f3b38ad3dd7dcf;0x16f3be67bee6ad74063ffbf21ea4683cda1c4;0x884c110ba38;0x0;0x0;0x0;0x0;0x0;0x0];
   s_u := 0xd7576fbbc2d523f37bae43ed4430fb17e25e; s_v := 0x5a10c6ec9a800cd48d93c27d7a4c4e91e139 |}]
   [0x3c1a9e4c3eb513a39696c29d9166a595ef99b;0x108f803f76f025c4304df6e952b37cbd7b08;0x2674f203fff17b021128fa7c0594fa3d0feb6;0xe2690466e35ec7bc1dbabf19bf407eb4fa8;0x46a88117aaef92af8d3db51092f315240d7f4;0x4036b20f81669f94a0d5806a56ce4f29fda;0x2d61762cf70870aa777a767cd58159a4b539d;0x61d34f79b597a56ea3baae13dd092cab4e880;0x1eff96b4df0197634f603e17f137aa87bf75a;0x9191f50d1f007d17f8d6deaf58150a598cf3;0x52a86a25a03b579d0efcdb5401a610a08a6f;0xc00d7f4e6441f54b7ac0d10beb0e2a5ffea;0x2f2e76fddffedef2ddd0127335e7451402e00;0x45dfebfed80cbc9e82e6b802f67892c418b1;0x253afd49b87920e5087150b8850b5e8777f89;0x11a50896ff9ebec4bd25854f14b4d01496443;0x1a270d091969b033c863eb0581a57d446e38d;0x29e8b6b0b27b737d9c0e46298a277ce9bb7fd;0x133fd5f363a5b71332f18130f87c932f86b85;0x5bd2a4514b69293f31ccecfb31b7cd1beab6d;0x1d72f9788c661b3cf53ab1a87bab8864f1b2;0x1033d17b82c04e8c1e622cfe47685b406f648;0x4c9e0ec6d1afa7e1ae5c73e197f48fde5dc0b;0x99f5899be36070bc311cfbe4f34038845d9e;0x17167146307459400c6a9531dda08a4888bfc;0x3c19f7e8dcb5b3cd209122a4a73de8396ef7f;0x39c75ceb0f7cea4540a3f98fea0eec1fb12b6;0x494644a6af7a5c66d6919cbb9863ac1c33c1;0x530a5892d6ea98baf64d037f1c6f389d26ed6;0xe8b7e47bb12ec9a95a31a4ab83b313f9d858;0x35ec8c24e96031a635b4df61b3d85b65a405;0x931480d2266f20cb20f172c8de0196c038f6;0x8066401b35954c1099ce437d2a267e7c3d4;0x1af3624179f2eb426b6d87a0cca0ccc295447;0x2406240fa96174771c579fe730426ba2013e8;0x4ff527a94ef472fc50de508e4dd6ecd07ef3d;0x2e4bd14326dbf69f5ea55e0fc0677b9ced1ed;0x4695df3d8f17b94026f4d4ec56b4865d9bce;0xbaf75f076ed6f14c24619c875d83ac0ff67;0x159491a30f8a016d0dc909782cd4d237f35;0x1bab65f0a10f2bbf2810546e033dc61ceae29;0x72165f21cda5bb026607b4d7ccbb485a1c216;0x1241c62172f2f56cc26f76097cd7f52d49d22;0x1c7d1a6085d42f582533bcff68690a04b2974;0x6b6bc2fa454d00658017e9b08cb449a1f36b5;0x49b443e4902c27dbe76e02d13cfdd81c3903;0x17b471da9d56513c1108142fc1e0c015df89;0xe58ecdc6ff68b68333e16697544a4ae12d;0x3a40cccdaf4cb87a3f353e93a4166d5d7679a;0x28acfa472d3f228400f2ceef485af0d2e47c2;0x3aae16f945d9e756533b2e8be202ce8e0c9e0;0x6e453c13205957f43f956c7454cc201cef1ab;0x65acbf860dc26f3dd53163cc6912f646c07dc;0x9cea66daf4af9a0bc280be67bfe8394a62e6;0x48dffca7ebf661770db4fa63e85b8426b3610;0x19bbf4540648a5b9ce4e8fefbbef46bdf7e6;0x2c686d2e26b768c7e28e18398d4c6da72c168;0xe3da034e98f5cf7e8810e04953257f5b270a;0xc8242b6a2afad6864505ad12bfb10881043b;0x1bbd8dd3407cf2687bd5c943675e6dcbd060;0x19aac9c97345e819555ccfb747577b21c9d1a;0x206cde1d994fa88a0bc290b6482ac7e56f91d;0x27a9261763f11153d9d81ae28145697650d85;0x1e31874106e3de6c0ece9f4b5c6f8abbd5c54;0x39b04855fa52cd40d71d0159957801c9226d0;0x114c2d84d4d828426f9ee7865e94cc024bd0e;0x319fe8b0399c3121eba988091581040abc3be;0x32e0d5c7c5b9420263626a069f38705f1f1b5;0x243b834d47f8b8e43985bf4fa236f93974fc1;0x72f2d10e1dc9af49be733297784d5d8376e6;0x5851bb7f82212f9a38200c348f414a9960a4;0xf971a282557c82b980c0fdda636bf013f7;0x5bf63ef84e066ac6303cd12be87a03e652857;0x247668899fd75262d03758f58b5f4876ba9b0;0x9c44218464d9da377d91b44c9312f0c5a9;0x318a68ca348feafa85536e6862d382f93787;0x185aab08046c9de93a6bd00c96cea19676a1;0x250230c5e1872e8344ff3ba0dd67a48b0e1ad;0x3ba7acf5d0146952c04e38706e9b3c5a2f708;0x26fefe1956896542568b565e874f663d88b;0x298a03caa49bd3d9bb6504a06de637f39c793;0x9edaeca95b0a10d72d022f0c1836de3c1657;0xd0fa20b439282b31dcb079cc5aa86cf9e15;0x35db38aefc605e23f6b4bc0304c4356985805;0x14349f337dc5ff02be074419f6c301a80e29e;0x756c5f555dd56be4af2d3475ac323288a70c7;0x28d3efed2c16cddcedcdd5a0e2308f8ccbbbd;0x15503e4fc8fd3acabc81454f708b393555676;0x611d0fcd5f097f7ad7c270857d5d17dee49;0x58c41753e624169b3524407320d1a8a8763c;0x418a7e85b2d86534cf2c01b16f4b87813778;0xd93920e8f88acdc83a09f57a108256cd13a1;0x3df5d1c88dc58da373bd1404e28b8f0f76489;0x2c4d0944adfc9ea82c15bb28b2c1786850bc1;0x1a014af599c8c67c41e88a527b3b118182ff3;0x181c8e05fffad8bfb5d796bb032f4da4f75a2;0x170419befe7db3a52da6eba43b444f14be4cb;0x15b62a1607bc3899f7886405436ade3f3e357;0x1a8d3d784893b4d37d6f98659a09530a09faf;0x18099b95a35bc11816cda91ebf727e95f93a;0xba1ac9cf1ea0e3148a08c92713a66d6e4dcb;0xf1f8fcb43a156327ec17091baecbc9c86a07;0x9457e8e3b6c2cf5b68e9c91afb085449e6b6;0x261912cc0626343624f8e1419aef5597760a7;0x2cfc012f740f424ba1097061de4fbaa260403;0x6a7219a5494a1d2d824e9afc51a3d1883b88d;0x199418be96ef8623a0e67d6c71234e684f455;0x532b97b91bd55c4785f1cc86301267dbce69b;0x33e38fd2d2fcb6972eb9e76d00ceb6d0963ce;0x1f4ed8d51df55865a993f133bdfe2c8d52fe;0x27e5e64c1c55e4a276e1ab2bd86de663e7c29;0x64b13faf97874745d590d19e16b7cd35df90b;0x57fbef199dd63c06663877a668ad1d4d56f4f;0x9f35cfa8b98f24892eec98a73f74ca9a3475;0x179443479abac5201b3cf2f114072cb0970ef;0x2ef7360e23f592652593a5587b497a442c91c;0x8b70d4ce34059518f7e225c1c2cc86940822;0x2d6f45e220f9173d81e63955359aceafcd8c7;0xc3f345f7b77516d9bab58b693891a27d6ab;0x55d590badb5affb50db5aa159b81a90fe0020;0x276894c5d8fef1472c73a5b1d783a47aeec0b;0x24b00d205c4ec6772518cdf04d810c630f5c9;0x1aec567ca8bed0c628e2fc908e361e22aea9c;0x28c3f39859dd82ef2b5a283d5b375083fe14e;0xf9492836a5cd4e28cf12d646c9080a09270;0x1d66c7a1881c8d19d3f229c72a059f857a1bd;0x2a3c8b325d34e57b767fd3052ba8c701e3a6;0x7603c5842cc9eb7969db5631b51c24bff0eb;0x3de2d0a531c5245d1004c7ed90acbb9a191b8;0x96ca0e1994060783575009ba8dfbd142146;0x2c8e29ad15d1540a30dd3725ff6c4c7fd61cd;0xed106ff0ab1188de83cf2c83d3e9f8a45ec4;0x27b8411f6109d93efbb208dfaaa8d6b6099e6;0x671fb78845e609cb573be5bb780ce67d18;0xd0466ab4f6f79288a0896a8931e4f39;0x0;0x0;0x3c1a9e4c3eb513a39696c29d9166a595c319d;0x44260885d1c4f1949dcbb3ff;0x0;0x0;0x0;0x0;0x0;0x0] _ _).
  - vm_compute. reflexivity.
  - apply Forall_cons; [exact prime_37762845983783441'|]. apply Forall_cons; [exact prime_5334911'|]. apply Forall_nil.
Qed.
Lemma prime_6901746346790563787434755862277025452451108972170386555162524223799653' : prime 0x10000000000000000000000000000000000000000000000000000000165.
Proof.
  refine (check_ok 0x10000000000000000000000000000000000000000000000000000000165 0x165 232 2 [0x3c1a9e4c3eb513a39696c29d9166a595ef99d]%positive [
   {| s_r := 0x3c1a9e4c3eb513a39696c29d9166a595ef99d; s_c := 0x44260885d1c4f1949dcbb4; s_list := [0x7d079d09cbff703bada7e4c17da2658f792953f8f59726dff896c9d321;0x20183d42edc2d132183f1c7ae870a8465a5a81d6a80a4976a12bbb16cc;0xb5515f4ff5451dd062bb37acc1d716886eb5d3432e16656fafef672eff;0x493fbda2eef96228b9c9b436daca30b44ae419e3969ff9eeebd62af865;0x1bfdbad34ab45c55129a57137187bc8a086af1de6b0a8565c9352efaac8;0xee3fdb491bd992ad416ff9505d87e5208b9fdfa93c26cd45dda58495be;0xe4ef73fe534d99d5fb8de1e4f6733d5bfe7c0a653d36d2dec270b87c7e;0x13851abeb79ca1c82b993353ea53a2bc10564fd1ed7f8c9670964fe05e4;0x3da504b8223fdbf9f0af6c289ca68ac9b507120c0bde808cff15070f14;0x978523531c33e642301b42522927b3d070a2f7ce54fc4416adbc2bb52;0x350990a0458db9a285d5522b91d1ee27385683f3b3164b6280a2fa2774;0xb3e34d4e6312ab0891bbb44dc1c6ff527167c5107808b53f5ab9b84b55;0x2d1f522e549d6a44568faf6e6f5a0c336dfd5825b7e8555b25f9f7375;0x8f5bf0c88f8721c34d98f3d0e89abd60775b1fd39386e5696687cabf6c;0x17f0050b76f76425a202c0ba64f4872df22f1326d53374543303705dee5;0xfe9ae1050b00151b33218b7cb4c3016ad5e472b6e677fcd887a708763b;0x4162eeaf6dea7ee20e2dd5d1a76b958e54ec91f48b1ff514abc9556975;0x564d4fcb26136e7161a61e8f3e25169c8d2ddb877fe91c24ce86593;0x5def2ad036f7a3dca033c81ea0ecd804599832db2a8eadf53cb351f948;0x120eb943832667b76196163ff9ba241b437c0faa2b7d02062acf86479f8;0xbbf05271f918e1e08f8db9533ae226a4779f3c4c8939a53140414e17bf;0x98678ca6e24f9bc9bd29186fd3f3ea06d36180f50a4ee79e90966272c2;0xc6b45cfdb056c8d03d2f8fe69b26336dac149aa94dbdc6cc003929847;0x6cb92030b646685238c3989f64325483d9130d428c1b64a68d3cb509;0xdae1a02721b05aabb7fa5778bc8f68396a4585fcded29bd4555b02511f;0x15d9228c12d22f9d7ab7303e7a43472d7b0c71260796becde405db3d59;0x1f7673fb405147fef22f470a8c6de93745e0fe9963de2346fea030e8b86;0x7acdc116c497b9caac534b04584e4b299b5490ab16ccc0ed7d73d6868a;0xa54cd2c98a4e65be8be26fe129ec2ec082ae1df4b16ad4a3925fdc236d;0xce6a78958e12dece2244f948326438629b4aa18f1d084ffff8775bd804;0xf09b05b30c152d0066e59b80a9e3837df21181f4792c0419d818ef6d5a;0xca2e582362e38901d21934ef8b3a895e5fbf0bb8ed60c10d1de3fdbe3;0xebb89fd4c0b534187033d78852421387b19d323b0231b4b4825de4007d;0x946ef26eeb77950f4122d17ab5031af3192c403b8dfc683ab0b5d73fc2;0x14a3106f735bab2eb46c10271a8db2c6eaf2b1bb0006b77b678d75fb;0xca831897c3d9d457f3feb294bc2a1d5ec74b01f54f02cad2b492d09b9;0x17c2a263d95dbc3f37009d95255b2633fdce54ed7946008e35bb1b53e3b;0xa5913b4cc8d9db6412340dc2deb9a52fbf84165e08f7aae9b465a84da0;0x12bd15a0bf7225af32ba337600c6da4833120a72875eacd6a770a85992;0x29552022ccc0ff609f171cdf6097f7623e7bc8a88060da4ba033ae6ff5;0x7663f3268bb0691a0934853a8521baf9fa018569548f7cfe788c633f95;0x216d3e04c76506eda2688bf9c45b6d2b6c8c546e38c82b168fd3471d8e;0x23441cff3f18303a74345434f4cc5d22ca54342d953120c2c4766dad6c;0x5a2d3c2780aa8105a2f5c2ed598904f49a015ffce21ff0908ee54b9fb8;0x140db74d315f273c65cafb77fa293a9608e8154c51d9118156d652c0be;0x411b644a7e4d0ea31106284fe09739d349b6551dfb450222d10028be91;0xe986dcb48696854dae0a378b281f1314e7a8a40db1395404fa80c931d5;0x802db7f30f036375f343731c6608a8183ef20170a0abbb3971307f447;0x45671069ca3ceeaa491e3a39a462560a6c3cc137e142cb8be3f0f32002;0xd991e075d6dd9206e2a1ece5681af39075c44de24d8f43e4679838a443;0x864fb1b4d8b878eb382e679abade9a8e74005f3c1e2ed0b7c1501de9cd;0xb25c0d66af2eec7922169467f8bd66422dc76c57a3bbbc8fcec93297;0xde00564cf9e0ca8e3b3f90807d140181e795c92191cae8d1d113f62226;0xb2d1570a0422a8236a5344b306d3382a0f7a54edad173b1a4e0588768f;0x10783d1f08c769764e2bbf11eb80b2a32b04053c865061af94fbda4f16b;0x12bc109ad21a1a604ab1d1c869b5934847c0557284a622787f6d147b418;0x1a9af38e2da9e612c9499fa8c10340cea06133617301d4054da353e2069;0x1025692954ecb90d7b305f99666219a57e3dcf8c78874d53ab20a8015d;0x1e0702fde1e1d18623ac7b4b3b332a7c6710e88cec535e68a55f8dc7339;0xeba3330066955b7a4ec2c8575268526e989765876556b88ed2d3e76b65;0x35ffcf1bffef533ee2922678e31929d1a83d42c115f89ab1c733b76c85;0x3d732b678027888e8a9c7df5ec285e2ed171086f341f1c5585597fcbd2;0x5de89eb52f1c1cdcd3858f8b565ae7ba970a4335cfc8271eeda02133ca;0x1f775872dbbb8356d0f88536eb464b104803e061325868ef7ca1aacb;0x14b836f8b39299d6c0979156bb0018861fedf065342759ca04ac5b65c6;0x2471aa5dbe53510a931ad299a49349c20c274039ad442ecdf8b44b0cb0;0xef48860e8a4defa410591e79c7c29c0686aea2da9319f55708edb24067;0x919b0d3f33a77c6c7fed931add65a48347967a40afa8b47595c344a923;0x908a12de8c8892f1287a0899c49b1518380ea714090779cb68ac0c6701;0xcf9e3d1f81b8d0e3c948fd20ad574da7bc73a9a83f84e7bcc1234f4dd0;0xeff28b925406a7036fa428663acad8458d069249c03477fea7ce6ced89;0x76bdba8b45da478bf7491a2f18b4c89d7a46b40c6dcd85134ec5a7dfb3;0x8f67663efc1a01ab9026703f8e5675b4b6a20787ced67649d59690408c;0x1eeabad5539bef1d19e13eb87ffffeef55b006ba95640cfa6c17c6c5342;0x1fffffffffffffffb0375e8712c5a1aabaa6e1caaa6c09dda47aee40020;0xe4d8ef6d8103354e0fffffffffffffffffffffff;0x0;0x1fffffffffffffffffffffffffffffffffffffffffffffa6c00000002ca;0xffffffffff;0x0;0x0;0x0;0x0;0x0;0x0;0x0];
   s_u := 0xec34696d6c440f8ae8419249f152b9d496075a6056038c8927c19384c6; s_v := 0x1669c8189ee86d388e085bd52c69dde9f4a9b0fef0bac4c34969009b9d |}]
   [0x10000000000000000000000000000000000000000000000000000000163;0x7babc54a1d79d946fceab1488a26e4b0a1adbe36546b0977a335c81a20;0x16fc4756a65ce79ce6cb3ed9326ecf2f16ae43d598bd55bf6c4cda4f1c2;0x54e88e772d8f5bda871411f54363a6feb872956f3d8654adaa0b90ba93;0xd1865dda73feb503cdd2354a3cb2a08e1a769f4c177053dcc3833ce638;0x1f149272d952c217cdba6f932185a5f10e71bf09d4e35bfbc6194682053;0x3f81b579107788198699a72b1b4cfb7d685a8fa86d54a43ee01eb966;0xb48f340884409429598f521044457fc1f6a79d128d41904ea442afb8ec;0x19f23d813a1ea7d5048652a8c3a565f248b7b33136ec02247f34c7ca504;0x3cde161f6e2c6a0e98513cdc4717bd4821ec339991cc4ad618856f2900;0x5bc16db026e3eaf86bd0253f428db8e12d652b3c96709723519c316399;0x901abc7a31b764642162436f985069cfe9d667c17d4c0ee0768e79d035;0x9e839e9aeec297d39725b5ae0f4bbaa0707657b14beeddd4226a9beeff;0xcfc0bafcb2089d684bb982a8b7c85617bffcbb9e59334e53bf782ac77;0x9cbd2d4836b5aac3f7738e553a01414b0ea4f6c4534360c3d43fe94a;0x76ed68fa3d09b788f685cb090d64bd915e9e30b600d98cc267e7f36c9;0xa15d0c3d4fc42a5281e93ad1679fed3616772460518f11b02e16e32af2;0x97e30a9debeac3027b8249ea1efb5b5bbfde0fcd81900916bb7fa5464d;0x4c37331f246bc1e8caf997d450ee1058e0a3a5afbc5f9358257271ab5f;0x169bd8500c8dba51241c1104de4e209eb39f753eacd119649ed29d0769;0x18d28f587ba18ee0ad4a1a80dfcaa94f2103c914285fc5ef7bc4501a19;0x88a97122837042dd98524d8697ab8dabebdd1ebad72b5b3ad45016af72;0x72c0b082a34e2047930e22600f86ece4e8b59182ebf62b8df71dafed00;0x148d184ad6bce2a14d953b31a289c4df532914127897fc3595dc3897df;0x3d675fa5ea6d91f9c52fddd5b6abced7375749eb7eb212aee46daa63fd;0x7c9283b0dd98cce3e7aaf382683f6c67805afa64b9ba137b8dbdd0221;0x82c38d03a3fb04fcc7f65f7e13537ca163061edde32bd96bcd1dc583df;0xb04d370df2d511a30dc953c83317d9c92856bd9cd8881d05859d3660d7;0x66f27cefdc4dbaeee46bd24469a7113f047fcdb11721783c8a5a97d75;0x3da2e3f164fa767bc1ac2f1a329fe85101b071bd8ea48660feb041be28;0xbf2e8781f4dd7548dad52865566e16acb8f51218ab2366f0c2c8588e02;0x20067c390fcdd3ad0509ac8c3c9e096993ed1956c262ace2e4b0c1124;0x5baff6a5d829617ae3e884bdb2fe6f6391e75525dabf58790e885f4b63;0x83e4052ad7df243c0cc8eb464e99d91b492b97e0f7ec9f4ae72f2ff0ac;0x3ecbe913b6d8852d28bb4a8b2f4af841b117e26dc0bb355d96684ee34d;0x3c3fad22f8ce16cf21adbbf2bdc8ec7a525a22630b8e778489a7d29256;0x5f7db833ed3ec80513f32a1488655b4fc48a02fab3a0ba80b4f4897295;0x5a09432db611ad63a2120ce72368098a47f56d86e6a921f4b15be47f3;0xa551d872544091bbce391d24513f4d52aad58a83efe66772301eeae614;0x63b96c2255506a6dd038a6d09de06b0db2f8e44697487440b45819c36;0x28125ea45136f3d13324d6cf58514d523a45895e6d097b037912493185;0x530b6220cb626fe4bfc24f2b715cb875b135c283c34607cf7f752dd618;0x22384ca0d8e1210c3aff03abf0695318dc4cebb284e6d3c5596af3ef;0xd3f4eac0eeb212a766e95828878f535129e0f0721b8f9a85527a422726;0xd8458a0f1e2bfceed7c357be039e76f24ba06254f2ae2bbbe4c4ff58b8;0x1ab8b2d71a9484544c1efb4c087822c9b1f94404b7c6c64e53e833122f;0xa7a8c51ce8f78f817ef2eda2c017112e488843511abc7020b7cf181f56;0x305fd8f0a8d79ed7afaf416b87a8d50c1997cfeca07a6493ab31de06c1;0xf58ff82e6e3d4ff0f7093d95c5a89ee990a6f95fad7a55c084986b74a2;0x31673cb8576a91a782acc03fe6d8167893276619098e42ef1f4907900;0x7c43d0f7530d6bf86810016a544c99bca443b5be4d8f40150918663d1f;0xf8017b3221f3fddad27ef656fc7265efb401ec13e43e6d806d74fb6c2c;0x300a67892f8044c53d89d9a4ffaadd78f777647e88a06e542a3b57dd7;0xc2ec936e6737acb8d4ba286f36f3ccbc4a5233ba1c096733d936d1caf5;0x2c141cb69f773c7adfd6add161508e7b6703bc08ca40af77f203e81591;0x12997e8cb70abedb5d84e2a6b448f5da3a6551644616aab7bb14b88;0x32ee86751681daa64a3ea32918acd4320f657229d09e0c7f84c58b3421;0xdf15fdd848a1604f9bd228641d6cdf4d5c62c5c8e2db46d17c94cdda07;0x1d45120a721e7ed759fc9ecc2e04411c8d33946c1c3ce95be1bebf78c2;0x40db84e14cb5b311bb4ccda7145dcc525a75b11b471100a7b53dfc6766;0x1370f9aeda1a8e5dcc79edf9be49f6ad1e1f5d9cbfff54a6321800cc;0xd9c7fe77b559a110c12f6c74ab09bf8dc126914dc88bf5a9ec5413c455;0x19e38504f0280f86a4e5922c1efcbab9958dfa7bcadf170d5134c88b3e;0x8b72bb3ad4047e3ca8ce3d69a33673fe7e1e78d9e3c77e71a8bd3bce8a;0x151ed01e8f2542eaa87f7fee2595f4df95d46dd25c44f33f0d228adf81;0x461d159b5f0ac731262554506dd036f520023ccc19b3ef443337a70449;0x51f5fc95df3282f9c92d710b57a4e7ec027c523df52ea4c38d63bc8a1;0x4cf655c9762ad36aeb33fd9531db2321c2a7e01d2eb4c5d88d418b57f6;0x390361649b2f11d768f7d513e5eb42ea1d1d0e7d550cf1e178d284aa7;0xc267188199c617456e16fa31ac2e9203d0b4197bc7f14bc0d4468c5814;0x17201f7c315874fcfec3546591958459290157ada0d9497b06c06a3630;0xf6e05ac245cd796f0cc9678a866f62d33bc403e7b13937463604319cd;0x10386881bb1ff790190ef02a6311a7112097dfa1e80bcd8808ded8c4a2;0x903c754db27655315a4ee9ca657db78a4e9e0ba91570387edaa2aadb69;0x3b886a2725132e5c2b97c29c8933be1649a80d10c84ff11499ccf53d6c;0x419ab0e3d56154b998bdc2194d8a579a3034fef7c834150d8684832da4;0x843c2ed2ad8d8848bc5c895e393859db666f02f133686d12119ae3918;0xed942aac40b7e80a01a9620df898e5f44e631b505b00ee32a99e45e7be;0x8c7600d89b3823cb91d1234cdfa5ecb805010019a41712b045e7bd1b6;0xf6ab22486a59a0e82c502553927bca95793155aa18f810e4ddf9800787;0x44190847da3e82c4ee0e151132523e9549a40aa47fe12a43c12506081;0x1aced75ca21b0c4592204f5281f3d7ceacdcfe8de622e32ee670bdea;0x129d6ca63e8f27924d1fcdb8369189aa72f07291f84eb2320f39888a15;0x584b99a434085541a3e75313cc553a2faf0994880a6e71d40e3b133ed2;0x130e0c07d4dbff7e519884420d3b55e381e11ee44adcd7c9bad9524;0x2d873b26994d2f071e04cd1d540b944844ba2656efe78d32db58c433c4;0x11061194ca0e4bd809fa00611b800689cd3f8103aee9289441817f28f1;0xcaa6d7728da3bb4da5a6d4d7cd941db0a3fab6b021823b10c329fd3ec7;0xb8b5d34f399288cbe933db9f7771a48206d784605973d3a9136bb63a4f;0x4ec8a47453bcf020eb2a39c169921030a1e0d1c27555b3b9a6b5d95d38;0x10ba3634b41baa72a6fec477e7d8dd870d71e38706abfbd4f6da8601b1;0x38eab70fbf6930e80c991160afabe132885e966a4b5173df046bce342;0xafed89f48e20f25ba9b27eba0acc7cf8d94e01533cf002c6d1574abd16;0xc8b2a89a941fa5ddf15a02a9e46aa9566c7e260ec2fbbdbb468da1b2be;0x3372ef77af95d692d4f9cd1097bea3cfe3752043fac3950b3a3a901d4b;0x7e344724722895079be17e1f16325350608ba9c4d571faf909e2a04e9;0xc15545fdf974f62c421e6cc4be71d4bdea31a4412aa86c1a3b19f028fd;0x7a3ad1a43bc41abc0495cfe9666313fe855221393dee995473d53215b;0xd31ceda298f237d67958cb490b65c61a9a0b03080ecd230475f5ac41f8;0x2014c7ba416069034ff9dc3f772d73d6d61dd8076035844eb38a61066a;0x73d0cddf4a3cd50144bd629a6e67547b5760bbe9962c180e839ca9216;0x879161c8e9e033c6658e5a672d1422a0cefedde90287eb94de4c99569f;0x69e459577c89c170f88b481092c5a814120e8151b5ea41b2a4b749353;0x94c1ef2501d7cffdc517ddb1f9ec87113f88a307314c06a0119c060296;0x390e4aec2c9b1ccacd27075c3bf101081144a1a3f0990f432b01e9cb4c;0x3fa0212763d42517c9eb883d33217c8cf15d228588b9c70957b0271341;0x33a77e490266009e1843d8828c3ad9849987a9b074f6fba27594295fbb;0x50d17958b469dd17545b564a2c99ad56a0e57143114b8c7a607ac79c89;0x1890f0dc9c659c75d578e53fde91aa4a7ef1bcbdb1fb6e0492e9f44e80;0x3882853d18db32b0afc56d36e6755bc87abef02646811ca1444d343d31;0x157bcbf04c0a08f585479e8cf6db57932e62a1db82d8f5cdcf7b31fbd0;0x409479a0cd40e9c239c1297b4ad4a9e42a4d157c449d92c3e976557d70;0xbb3c0fd58ef975cf33d4afd664e22bd96687b2b0ffa12c59abcfa0e351;0x5d9446ec1b3089a062bdcb8c94a426adea0d1be586e698c25b83073be9;0xa77edf038178fabfefc4e56e935131de3b54e488fe8abc73b99bbf736a;0x1def93b5a838030e37993f9bf456b85efd0123272b278c8701a2221f6d;0x124c2483b63ead932ff8d43744fd13707108f03856edda315d191c397;0x1d584054f9d0bfd6b40c3419e035bffc9d8a5765817150ffb486a724;0x281bf67d03248eb142334a234b747a35e6c11eaf5b9f826b48fe2a979;0x5bf9f79e125e4f3648baa2742d4fbe9dff216663ffb3eaa8f0942032ac;0x385babf337d3bed7394014be647b006af918002fe46ac7809005a6d084;0x58462e6dacf29986a2e69b028db30c009652738f1a972046d824b7b778;0x556e599a9599ee060c4aa9d95c389899e232c61d5046a224d19a6b604e;0x7317b8a156750bb7dd326b5608c23aadeafb284e4331df997c4a546ba;0x157235250e3a3536afc8346165a6b454185be7b816c1a4cea29ddb064b;0xeafd62806efacc5dbff94ae730abac7b4f8ce78d0da41995a907d269e5;0x607d9d5f28990c09de6fe7093f3411e4b7e756fa55e6c4a6aa0c288d81;0x8e0a5e928c03e5d1550ac9b6c73f9224be1d358ab557e41909fab662d;0xc1d6f92aeebf78120ff8e93bd7b90a5349c4a3fa1e2b8cc287ad391e0;0x88d87ed8bfde32aa201737ed653a7e1ea5c9ab4c7d81b0bc026f72d65;0x7ec0e12c7e9ef31efeb5b440cca4d1bb60f3bec9aebde641760e48ff43;0x20a137aeb3c0a3b3cab879e1479f65c3c64af2dfc94cdff7cdbb9a2f0a;0x5b5cf2fd70feb187110199cf5bdfa04575a216cb116a0e5a135e108d9b;0x29054107547ed98c31543291bc93e055a2e1c943a712e2827deebf9cb5;0x7c8e8425057c8169870d5d053ac6e245c1ac3be03d349f7491f3c451a;0xc8499231369c70a0dda8701be2635381f25605691886fe2bc8f4b9d896;0x182f644ad82e6e0fefe542ae113c3c04d8f78371bf89e4e0b3e40b51b3;0xfe6b81940be5d5731e8675a0aa529d9bd9d836921598af2cf7b5a5c110;0x179a6e939c248971a5b79d2e45d3c5835cc012be471f9bae95e954ca46;0xc13c377df37db1eb85789f31c290799e07f6ecdf4c0b5a396b76653fbb;0x2b61d11b341afbaf3d333e956e2b7d26063e7868245ced5f43d7762383;0xbba99923969555ea146c50d74a5b288698789cfd9c00211d2a3ffac9c7;0x82804689ddbb63a4bee053a6c0540f0c40f4ac5e3e7414ad66479869d8;0xfc7fe2178443d9e0b0687c233c6fdba01c74ff1cdae0bb9d62041340d8;0x1e438f98189e89faa27dd3fd987f60004183a7b1bdab69a5098be19388;0x110b5d365cfc1712b72c06c3f7a9af91b750e7f9eaf056539790a9f21;0x3010aef1262f9778f0153b5d31621c59f86b48da518f0deaa46130742;0xbf197df3658ec2f4f5990eca5b3418158f7b68fbcb0c78d216901e5fb;0x668929f27938307bede33eda34483edbcd6f78b975a91ffecf6607e027;0x9e253768de4bcd271189735273502551c088bcd6b3b8b74d684a2d3fe1;0xaf76e44f62c67a85518eaced82232801bfaba4170c7604e6bf7124d0;0x1f283c3a5c4ae86ef6fadd8de61a17c0631987a28beac6682dc7cef402;0x600e59a0f55dc48e6a330f8b39cadc6bc3f14a40c4c0b148f7b330f1c;0xfc598cb240c27a0e856475be9eac63791e738e8ec85b4ca1a92f2db3d2;0x6e882483f2ddd4c0de5469266ec69ece04c59860aa04316b4607639fd9;0x65f0d0190883bae26b5f42e81c1986d697142c412ee8c5b31345e52520;0x3491ed88db0dc73cbfa7e5e879b20a121219a56935be9bc397fce336ed;0x60a872d3f81e5b9b74e4bf8b338b6cd8e9504fe8a69911d9990bec32ac;0x3e93d1458e410c7074ac9a070b380f58565d31757f018afec7d3d8af02;0xbbfdf1cb55047e747208221517e187b11eba182d848d9e165e33ae03;0x73f807a86b85b309b71c00ebc1dc9b2943c7d4549a7d7dc85baa9c7dc9;0x9a4c8e9e9c476dbdceafb0fcd9aea5df3803a0cff4aed3a518eb453b;0xbe7103bef20eb4b70249c328458fe8bf493015ae57a2174abc062cbdeb;0x3c1400e760bba535bbcde74c2102945e2026b458fc0cd563150d62da;0x17327567623c341acaad4abf68b7c56d4e52c911f8053a874271c90080;0x254171663608dcbbb987ec50be2ec7e6fa8cdc8d0d517f7d7a822c04f8;0x6ad2dcb1eb9130056805daf88f3f891f4a8bb6b8eb01c6199bb3c19179;0x6742e5606a42bfd85f1032d40f2f9037e23e833504c6326b338b5092b5;0x3e6dbb04e9b086a09f893ac8386550eb4e9c08f7137b32cafff20c4eca;0xcc718c5dd062342ecad909d9fa6920d33bf023fd23a0b8d738b0bc40a8;0x5bf37e69c3c75f6af764660b9e28e11f6ed3de16d0ab936d0875040585;0x9ca9d16cec0039889e6e8088aed408f403e24bfbcf88a8b2eced8bfc97;0xdd30fd7000a7a87a76740b368285858846fc54fe8933bd2cddf0eea1e;0xa89ed419adff413f0c81a5631704a781bd3d4277db31621b5f489fe52b;0x476a2a42be86a2190bb10fdf8cb149327dc70f7a2ff87476ac0ff98919;0x72e406f055e16c81b628ef280435707361430863ccc373d11405c6e096;0x8bf5e847b24829ef1b9fb5623af701cfc4ad30e5abc2bdd128605263f;0xf0a7eff71d2e05a965b1671f7f83c3a469faa9874a6ff3517a9c58c5aa;0x50bbf2e8fbc3aa3860a869cde6fb004d5a92306fb6e0b3d150dd9253da;0x1f3f5d2056b3f5a93d8496315d23fde9a5c206d41ea21cdd05ecf57c80;0xf690f81ce5776f7581b7f63010218120079431b2e4db3ab550e307013c;0x6db46ce7571abdfbfe79862f276023efab5ccdc1f4795a68570057ecb;0xe3a74ef299881cffefc1c08f2a9cada21b68a49e40fc5c923993226080;0x7446439c6501e43f013fc5a15c64b7d2e9ef3dad01ac333179acb1b738;0x9a7a7a2f74147c2540e0614f45cac514f30ea6cae40a5a596447bb38ec;0x385141a1d578daeb9b6a17cdd1f83b2e0a706d6ad8d470ac688d11d9;0x72582d5086284b44be6f79fd9aeeed933a5551458886f140ee63d4a66c;0x8ed6b1d3a0300a1a3507cdb7d930676a52ba5abd9ebd22e39dc0172c60;0xc49b0772a667112e0d544dd24940d268aafabb777303d2215fd233dd81;0xbe1d290422b0a6232f7fff9a7e1d4b3ea03f6a0237f31f5d5b3dc5df9;0xdc6a6ca82d15e8d86015117a323d8605fa583e86afb889f930882ab3fa;0x6c599a3f9b442db5db0bcc9ad479b46b7933ad590d5def2c85c43d91f7;0x5a85e2ee5b19b6ad85da18d0c87c1a1e92995ee0c5fda553a01b109986;0xd9492c82f683cd70960ee25d70bcd441502ec8914c211780beaaed9e87;0x2f1e443f993714d1a3afc6cc9084da9951e2486bb3e765e46a8826084a;0x82deaed19682d8319493e3cf75fd67d181f7823fc1cb6379bf9742b62;0x7441d1f79dd4811c4f08a54494ccb3c75aaa6e7d04fb8a1fb7067a01b8;0x2ce3a5dcca3e4a21a797e5d22b7bc52549ee54cd37252a7fb3b35e3d;0x6b39b3b9cc2a0ab1cf9932e78568945d7b9b99e5e764c3776bb1e5879e;0x1c8cf88647f2415033abc24e8867890e859a10e9628ca000d0cc5bb7b2;0x3af6c03631b4c825792ca42339ff4e3a7e609bdad9e4ba4df533792e6d;0x4c86c96230868044692fda9a624c0c2946d7fcd11516bcf14215d58229;0x7c552ed517b6308a08b88fdda3443fdff3fded3890fad80ca4d9b32db2;0x27cd886e6c14a31cf46c6fc9b1cde4f00fc79bb56da8f50b4ca42dfa0d;0x29dabec9a4d2c1b01c11e0385b14c53f239bf5f09b12dfda3f034e1ca2;0x643eebca06e14ed16d0439d25bf8b0ab4c1e9404f60561ba223ba2e91b;0x30c0c4a9c9a010e8fc3f089b2b3a850c7339be0108663adc86493be53;0x6d33844604cf94ecb88ef47b0582ae60e81c7347ccb6ef0ecc9788c1c;0x14df6fa3c21ad1923e5bd3ddb13ac26d7f4d6a81d18c9ab4712cfcbd6f;0x13d84e483959f1d54f51a34ba37c87fd2e3413a514516b901bf66d77e0;0xebf0b50eb96b239e71ced0d61a77a29d59a6ceda00c1674019695743fb;0x1e20ad72a1b840cca532457cb7ca4c74c076d191c7188b033c78983bd3;0x4e05113594d7033af56d0e23b6fdbd006640d13f9edf8e106f4b17e0f4;0x36647c81429a92d35c2e3fa7bebda1dfc9ff27f7d1808938a1f44c1a41;0x38b876ab2a611a0f0cbe2a48a711dfb9fc5b2db82be0bf0089644d888e;0x102b2e907caf7e032176394ecbf14a49a1e9248bad37aaca88dacde189;0xa5386089f7df5f8058f0f2339cfa006b9c8d626255901d5bf70abd9dd2;0x7e136efe3cd420c01c859389a9a76f96d597de6c3291d4369f8e81a81;0x1e4016e0d574da54e5c3fd5d5e8cd434235c40e4d8614c9b6174a5801d;0x253d103f85fdbf6b2d768520ec0432825876115a2f782525e5d2c30be8;0xb65b57a5b0970dca6dc0ffffffffffffffffffffffffffffde54d59d38;0xe4d8ef6;0x0;0xfffffffffffffffffffffffffffffffffffffffffffffffffd36000165;0xffffff;0x0;0x0;0x0;0x0;0x0;0x0;0x0] _ _).
  - vm_compute. reflexivity.
  - apply Forall_cons; [exact prime_83772718581684963760400270423594260263532957'|]. apply Forall_nil.
Qed.
Lemma modulus_29 : prime (2 ^ 232 + 357). Proof. exact prime_6901746346790563787434755862277025452451108972170386555162524223799653'. Qed.
Lemma prime_137' : prime 137. Proof. now apply (trial_prime 137 7). Qed.
Lemma prime_8807' : prime 8807. Proof. now apply (trial_prime 8807 48). Qed.
Lemma prime_77149321' : prime 0x4993489.
Proof.
  refine (check_ok 0x4993489 0x4993488 0 2 [0x2267]%positive [
   {| s_r := 0x2267; s_c := 0x2238; s_list := [0x2117c;0x183d9c;0x1083daf;0x15c4e2;0x3e6b0c2;0x224e612;0x4af376;0x225b701;0xde;0x0;0x0;0x0;0x0];
   s_u := 0x27a28bf; s_v := 0x1e1cf5b |}]
   [0x0;0x0;0x4993487;0x30a5aa;0x48ae74b;0x28d35b7;0x68be98;0x3f42bb;0x364f0da;0x41096cf;0x36d949;0x2f370f;0x7dec154;0x5d9ce8;0x3bb942;0x9d13f;0x7ffe573;0x470dbf8;0x3676ced;0xd0c5c;0x4f25e30;0x37a;0x0;0x0;0x0;0x0] _ _).
  - vm_compute. reflexivity.
  - apply Forall_cons; [exact prime_8807'|]. apply Forall_nil.
Qed.
Lemma prime_6999441151774987463' : prime 0x612302a495cc94c7.
Proof.
  refine (check_ok 0x612302a495cc94c7 0x612302a495cc94c6 0 2 [0x4993489;0x89]%positive [
   {| s_r := 0x4993489; s_c := 0x151faf4916; s_list := [0x22bf33d67b7d1269;0x12265b83522e0b54;0x4c939f36f7cdc08;0x104bd54736a1882f;0x1e5986cc0ec0e8e8;0x41c86e626c56edf;0x5d26ec68aaa9239;0x74454e73888a303;0x575e1a01ed88c38;0x195f00048cf6b088;0x1172fe4401500d50;0x5d192110b803064;0x55d587f66ea81269;0xa81f55bf2d4092d;0x1c555d4e413b41ef;0xfed287b76fcb1a4;0x50f5bad48dfcbac;0xc4b624030612887;0x2b2358cab6056ee9;0x941d9559ff23daeb;0x2b62e6d6e5045165;0x4b0bdf633a5ea748;0xd2bf63c60d19f59;0x1755dddb294c2c;0x520068bf614d3cdd;0x9fed2858fc5e601b;0x66c3adf4f507682f;0xb214e733a4c7252f;0x30f05980bbd99866;0x27c75ef0472e0e13;0x2a2ad7;0x0;0x0;0x0;0x0;0x0];
   s_u := 0x4db2e7a37c0ee75f; s_v := 0x361a18d66d7cc8f9 |};
   {| s_r := 0x89; s_c := 0xb582d27c6c0116; s_list := [0x1892fb1570f3d503;0x75317eb2e11a1e44;0x476e2385a20116;0xdaf90db9cea7e78;0x265c28129b9dbffe;0x32fe2310a35f87c;0x4b835edbeffce499;0x2abb0e27613fe766;0x924ccbab62a6e249;0x41b97ecdaeb0a202;0x43e1b9a23f97d6ee;0x810b22c4185803;0x1983dabfcb2d1c9;0x2f545715963c57dd;0xb2600386c0de8be;0x30c83a84116a4bf;0x26ff5d5f7eab425f;0x76d95de4fb10b1;0x37d536ced72f0bda;0xa0d31151d6e;0x5114d676f9980848;0x19a26b20d5e2e219;0x5f574a0e7eede8cd;0x329a86bf8f5f5ce;0x175fed04ac4069bd;0x27246659a4e02420;0xac70a9d10d23311b;0x47cbe880ba592cf0;0x29b081eecf32db49;0x2612d00e71103c9c;0xba23db2c94afc7c5;0x21c3de32d25872b7;0x2ca53b1ec5a72015;0x1dbaf97e3a476b9a;0x16471d74d9928028;0x34aa871351ac5070;0xe8f506a58d89e56;0x1e3f935b00489162;0xae26da15bee697bf;0x2f4208919cfb77d8;0x3031f891540419e4;0x7af6f1ad0a6e70c1;0x46ec5ead4615c9c;0x10eed9446daa07;0xa80c711ed4c;0x612302a48a7ef0c7;0x26031f008963669e;0x4441ad3ac23a2be1;0xb16db9712ef34f8f;0xa8ab5e8;0x0;0x0;0x0;0x0;0x0];
   s_u := 0x75decf7067a7a98; s_v := 0x2e88d469a97e919 |}]
   [0x0;0x3f6b47ebff598be9;0x3bfa815bf945e9f4;0xb9d04f6dd6c856;0x57038f02328251e;0x2ab6e3484d7a68;0x117a04f34154a516;0x1bcb8342bc6c6d50;0x15c344ed04d67b1f;0x5549d49b6fd03a7b;0x56edfe2f74c8fd62;0x579f69a425a999f;0x29b9a515db5f2ad8;0x23ee77da47881067;0x964660f204e10d4;0x308b909f87f7f1cf;0x1444772901a4805a;0x533acd0c85fe619;0x45413942400f7ce;0xa65073ea4859c278;0x6b1502f00bbf418;0x305e6668383f8;0x3d8ba625f6dd1b3a;0x6ce330e875eec74b;0xbd22d6fc3e9ce1bf;0x2a068454ad4b7766;0x5095ced489d07ac5;0xf87ad64b396d183;0x9afba52d0749f4a7;0x243c54116cae2a71;0x28a0cc19a2900902;0x35fd2d75a7a3cd7e;0x8fb31d08f159cd;0x99b4d07aabeed85;0xf27defccce0a2ec;0x231f93f3e9729006;0x115b28d639e0b09b;0x4b1d8d1b5d2692d8;0x5eebf1145c558739;0x8b6d9f5ab0492973;0x29dc3368ab0d68ee;0x2e05ea3dffdbd456;0x2fead1d112197ebd;0x54c8d2c5f0fbbe98;0x73cb96e60d13dc;0x158eb8cf755ac938;0x25aa8511cc01e213;0x2138a751878b4bb0;0x3e1373de1dc0befe;0x70c3496a3d12804;0x1481e570950c6420;0x6a0b126714cd1e4;0x30c7b9ca0efe0ffd;0x19ce0b27f227c305;0x350093ac505c427e;0xa4186a366ebe4f3;0x5455af47a;0x0;0x0;0x0;0x0;0x0] _ _).
  - vm_compute. reflexivity.
  - apply Forall_cons; [exact prime_77149321'|]. apply Forall_cons; [exact prime_137'|]. apply Forall_nil.
Qed.
Lemma prime_11' : prime 11. Proof. now apply (trial_prime 11 3). Qed.
Lemma prime_61' : prime 61. Proof. now apply (trial_prime 61 5). Qed.
Lemma prime_79' : prime 79. Proof. now apply (trial_prime 79 6). Qed.
Lemma prime_113' : prime 113. Proof. now apply (trial_prime 113 7). Qed.
Lemma prime_2591' : prime 2591. Proof. now apply (trial_prime 2591 27). Qed.
Lemma prime_3917' : prime 3917. Proof. now apply (trial_prime 3917 33). Qed.
Lemma prime_273108163771' : prime 0x3f9683dcbb.
Proof.
  refine (check_ok 0x3f9683dcbb 0x3f9683dcba 0 2 [0xf4d;0xa1f]%positive [
   {| s_r := 0xf4d; s_c := 0x427e6a2; s_list := [0x84386592b;0x3c16872399;0x47c3ba56a;0x5cd5cdee5;0x142f2871bd;0x72d7ba9a5f;0x6f37a58fd;0x7c5a8655ed;0x237911bd3;0xa2e8f45a;0x6433f2479a;0x34e697ddf3;0x997c48c2;0x1f24f811;0x189c12e95;0x1bc6644c5;0x618f7173dc;0x60607e22c;0x16ca6ab24a;0x3e0af41e4f;0x101a8ac7;0x0;0x0;0x0;0x0;0x0];
   s_u := 0x1bb277e63c; s_v := 0xf141f61f9 |};
   {| s_r := 0xa1f; s_c := 0x6486006; s_list := [0xa6746e01;0x66d26875ae;0xa6522293;0x8f178aa65;0x2af39c103d;0x146b9f0d3;0x3151092d51;0xcc283fb80;0x1b1cebe341;0x149f558c9;0x1e716bec1;0x21892fba6;0x106e3a992;0x4a0f104081;0xfe4feff96;0x262744b1d3;0x224a07940e;0x30510c8211;0x341ce5138;0x6fcdcb03d2;0x12b00e07fc;0x101a;0x0;0x0;0x0;0x0];
   s_u := 0x1296f51095; s_v := 0x64cf5c5c9 |}]
   [0x3f9683dcb9;0x19a54578b8;0x779412c1;0x41d21a77ae;0x7b7c99ba70;0x4db5772e3e;0x2228b74178;0x3a334b23d;0x2db134aba5;0x12b974ce99;0x691d75e662;0x59c89;0x18e1c643ca;0xcb843865d;0x6361b09171;0x3e5b506ea0;0x4f46f3a635;0x45788de84b;0x345f7a181;0x54e5a10ea;0x243b26414b;0x6bb767aa;0x1dbc368b56;0x22be0a0c47;0x67483d0ca;0x2025d8a7aa;0x2a46657f5;0x370dea2e88;0x3adcbe;0x87127a773;0x13709a4d9;0x7ec99b8f78;0x2035158;0x0;0x0;0x0;0x0] _ _).
  - vm_compute. reflexivity.
  - apply Forall_cons; [exact prime_3917'|]. apply Forall_cons; [exact prime_2591'|]. apply Forall_nil.
Qed.
Lemma prime_29955515952511465159960107169754929' : prime 0x5c4ebc452f0bfc28cec5d541a2f31.
Proof.
  refine (check_ok 0x5c4ebc452f0bfc28cec5d541a2f31 0x5c4ebc452f0bfc28cec5d541a2f30 0 2 [0x3f9683dcbb;0x71;0x4f;0x3d;0xb]%positive [
   {| s_r := 0x3f9683dcbb; s_c := 0x1739f737ff5c221cb290; s_list := [0x46180e984b9bd80728ed2953be091;0x2ae985a9bfff9969084da0fa182;0x505a970262f125622651f84796316;0xa0d3168560a67c1584aae0930ded;0x52f9e2513120b6b62c2b448d6dc24;0x51292467f3f489843c7d705c9e9ce;0xe83793884c6cc7be34c67735e56;0x877ef8c7c6c3d611dbaa8fc716892;0x9e4f0ee403b88c09aefb9360c981;0x4f582cfed4fb14f5d5db3dea9b45a;0xadde27c148dedb375e86149eee11;0x28e201b6c17ad94e1fa8de6392d9b;0x144ad37231cd7180e235fa0222ff2;0x3aac9f8166d37f03fe1e35f54155b;0x4f380cfaaf661a8a1c89d5dcb1f0c;0x7f7cbfb6c21ee1f10b39f1c5b287b;0x1b3ee3243c47469ed6a618eb4e;0x1882ce0af5bf153b8a5d8e187e8dd;0x1fb8ea49c129fdf68e74c8574c8c5;0x5c031aacf31130f5caf4026b69ebc;0xb19f2a11c68da7feb9abc6de44e03;0x35357b94cb59556de32aba8e6d3ea;0x1d53dbb108167ee1ce2dbb87975c7;0xe9b0bd1b4fe7ce70c599b3f22abb;0x11cedb080a77112f92423be0348aa;0x4c11395d781f7cc3393aded6e67d3;0x189f12b39052777b6cff394863022;0x54f9de518ab1e6712f1567a28f91;0x2046800a475b865e8d923f7b9cc5;0x672f4885d777fb731a44530e1fbd3;0xf5ba40523f1fb617766263dafa1;0xd96fdfca6ca2c8c1fd41097a3d50;0x3e4bb3693dff1eb55b43ff47725ea;0x1d40b71772c6f882d725ad6c29e07;0x3c30fec18a2bf205863f35581e5de;0x29ddaffa99487bdde65d1c1d48863;0x76632d0d95fa48f6aef4fbf8e243;0x2292912c747703fd488b58c8aa58;0x44a842bb55787f00cae062613ed92;0x66892a348dc7f6376c25e786d726;0x5da26771e4499b6189cd523420edc;0x2824b6a7c852a25df699611e9c2b;0x1877bda55d6de6ff567e06b0eb9f2;0x34741cf1740200b8d7c3cf9a61276;0x1540177f4f86c23dcd22c05ccd474;0xb75457536851add4c3f3fdf214dd;0x796b369f0a33f5c833472747b7cfe;0x2a7a63828342a1a6174b1804fd803;0x48889dcfe2d8f300d15245327542d;0x17cfb287e9c6eee92a9354fd56df;0xa102e8099ac13de0e7abfc4af071;0x207684bd07aef61c0a156c0dc383f;0x5ed3f13b285ae290bd792b9ff6a50;0xa2c0dfe451006a0e38090472df6bc;0x6390be9465bcb733188e043f1a42;0x53fa0018c6f13c2033b04f52d9d7f;0x233969c05b211f109ff26efec7103;0x1e11d4bd2d862f1cfcb1c057e4c6f;0x4b55db31767351e4a46bbe1391f87;0xe027d598624e2c500c8bf25a5f50;0xa84a58b51fe43a3a4d5834561a323;0x4d4502269c4c3129da6554a533855;0x89e2d2ae16ff1f40081895fedec73;0x237e882f18e3c8d740405fef2720d;0x816be5b6dcb2cc896a704610ba525;0xb0d71dc6ce2e41c;0x5c4ebc452f0bfc28cd5c20c1a2f31;0x10ce8675f7cfc491eb1b54dae5247;0x8da2336b7ee44ea938348e27babe;0x58bf2ddd9e7b64d356;0x0;0x0;0x0;0x0;0x0;0x0];
   s_u := 0x448a2e9d1abfa1b4a490ac91baaab; s_v := 0x35b8afb277b7575135a1780271be4 |};
   {| s_r := 0x71; s_c := 0xd11f1e1046560df43ca7448ba30; s_list := [0x1314418b4ad6f2db68f06cf97c2ac;0x5dadf0089b6aeb895eae04fd5e23;0x41d1eb8e1fa06ae109c118680d142;0x59ad4c0152e88e6abf2f0baeb5e37;0x5cab71d5de8709bb9a77790d21bce;0x827adc9b810e1d98c4a474f31c0d;0x3c178a803c2bdc18ebaef7743cfe9;0x5308a0c316672621e4eaf8fc9237;0x57424c391338997e15dbb7d454b8;0x6e78a4f997035993e0b8e24b3aca;0x3559d13aca2dddb3def6cbd456831;0x2db55b86814f6fbffd3e7e3fbc38d;0x5a4cc76f62cb58d96bd2a05126d38;0x3cdd55f8a3b7bd5134cacab086564;0x14b21bd39edd2aa33e94d37bac9f9;0x31ef2ebeb53b705c85979dd129b9c;0x18e134da04718d9b0dd5023e3a34b;0xf589708a0e5598ac3e67d922f8c0;0x2e11c70aa673eaf66279028cdb796;0x9405f187b2b3a56059da502ddcd5;0x3ef4d65f958193347433cf22a061f;0x32fd1e5a50265daed19e651f62a;0x1d2cf6c2483ccfe4ae02bd49d5d7;0x44f12ff6d2c2205bf6b08aef0d8ff;0xfabda0cfac02289bdda40c42020c;0x75c493fd91084f1db876bf496b5e;0xb16585c0e7e1802ff88039349ef77;0x13876aca87eafe310678eee59f8a;0x2c2a19f56fec8865f600bd9bf38e9;0x3e4ef6599296ba0df6be95a9a814d;0x3c4108c2594107e9370acd9835f24;0x2cd27bded43304a346b8a943eb1c5;0x137d58539aa8445b691ea28ff596d;0x74a0c815c569d54b371a85415dc7;0x59ee70e819a4d0eb6be737e98582;0x4cba6b1b330090f7724fe00da436;0x243de252f90f9e32973dbe14ea050;0x18f3bf8343d7ae32e4d8f68f44cdc;0xafc7ca24376a6e01ee4abcb4abdcc;0x2fd9410e176cbcf4e5db883340fde;0x1a16139911237289feb899f74b69d;0xae79174addb91ac5b534c64f526b8;0x2b4a1f3b0850f538926a14b9618a;0x1d74812be56817cc600eaaf33fa01;0x16f92a2bc4bb099a167a6b598ddbd;0x185997b91465f761f88cb2348a18d;0x744ecc6afabd26eac44d046193f7;0xa79bea063a4ba134d07c34444ef9;0x13f064bb7df8196cdf5b303652256;0xaa5df8c0546ee2daa17f78e9d9d82;0x13fbae698ba6d3652e37d0025e10c;0x55678bea1c43f8d98051497851767;0x6a957f473bb99729fca0e3c99ee8d;0x3d6b2f608935b82ed1e18243e52;0x109fe1a5ec78fe9dd4faf6de9c30;0x7637f6c3acaa3d1ee12a54e894a;0x542713776e4f648c0e2ee88ae842;0x3ec6fdab06a955c3485acf36b0a57;0x26ffea1128c53d6dcc823151a85d6;0x2007c677f9f1d5b089d71caa000a5;0x189d8621d3c3bcbc1bdc89658baf;0x3d89cc01b2d0aa4fd1bc9fbfac401;0x8942df0036567480ca0844b00d760;0x576dd48e28b087e18574a985b34ad;0x558a9e2ee326bcee7c2b9f9ab4a59;0x5a9e45a9245c0236ebba4912408e8;0x3607cf75fb156cd32897024262f;0x4a233d2518f1e4f3823ca77e6a1fb;0x3c20f488c341cb1734a1dff997c8;0x754bb4a2263adb863e78447a47d;0x74b128bdb2818ccf0f1aa5246e1e9;0x332953cf4702d07cc4332593d6189;0x359f80ed6165b827e807812200b9b;0x57f67c42099dff487911637900e7e;0x1196ad09c9efedb492cec2c815b1;0xfb5063641710fd0134087049738;0x55acc4aeb4d94419766577c2a0d29;0x4efb6e8ed461949ee295c8639a7cd;0x4e640af28c22e98682ce388d74f4;0x2f62ec702542c6983e48de6ff2314;0xb1553e9139c2d7c663aadce3be0b;0x2a794340f4349081f226e9775a2d8;0x4a2c283355cf1320ff682498eed28;0x2e373cc3ef7588f81628a36b94dd;0x2397407a865d3c23eebcd125e6bf1;0x1999a09bdd4e19da02347e0e55898;0x54f8bc91f0ffee316bb741dbfd87;0x5275cb2f63716316956fc5e882a26;0x37c9df8f508dbfb4dcec85bff0510;0xab3a4c70977710d5e15a34486146;0x9feaf551c5fd50f08ddafe347f2;0x1543b252dd15c2dad431fe2b594c1;0xade58958701eb688afec895f6bc1;0x3e5330acefdab7d33e35b3bd8d8ed;0x17b1c801582a95dc7eda35986532c;0x2e275e22ca1a28b217e93c662fee6;0x2e275e229785fe146746781149acf;0x35bc34fcb9d3272e052e959fd2930;0x41e55d645edcc14754eed98792cb;0x10ce5f449689036273e330cad3457;0x58bf2ddd9e7b64d356380e94;0x0;0x0;0x0;0x0;0x0;0x0];
   s_u := 0x20ccf2ba4179b9afc5ba881af5497; s_v := 0x1107b6b7ad9a22dd93e6136bce650 |};
   {| s_r := 0x4f; s_c := 0x12b1f8c37af2398d2028114461d0; s_list := [0x2502bdceaca54c30e11e309cceb48;0x5a2bbfe020eb59af3f9c146f4b8;0x4421402fc6613aea92685ecba3c10;0x15848b2efc63411b958b0666b746;0x35259df4e3f52d28815cfaca22d4a;0x33f8dbf315d47b704332734a4f32;0x6c23e60abbe585efcb5ae0d9ed6de;0xb0ec72bc7f82db0067ad1f8c6c75f;0x39148e241337e83271c716f7a4bda;0x5368a00115b7e271e85a8e650e5b6;0x93b726db1fcb285647717b90319f;0xa283a91b549536aa279ecf1ffca9;0x2c7985081e1ca0738860f902ad177;0x1ca0ff4f73ad06e5c2496cdf3b788;0x6237809bd459a8eb3cb00333fa93;0x176ca78417a62a0f629fb2fe10b34;0x5228c1ea7a1471fd3fb537cd1fe96;0xb356a5b55acef369c88661b4d5ef;0x1521e92d2d230846d5fc6f36239ef;0x9b52858c6152562716c26f172;0x6aaff1bb4199394e3e6c8f5e6e28;0x15e836562a2f731ee13995a514c8d;0x33c95f88c34fd87c701dc3f231b4f;0xdcd63de4819e8e0e8d50fb145958;0x893bf672e09a2d8e0ea39d8a023b1;0xe29e77bee4f06d1aefa14c4b274a;0x5705383486c20050b42da47b102a8;0x3a1a670d1c76d7e7f9669bdadf144;0x87037cb3ce3ce790aa11ddc01f518;0x1483b72c6f0ca89bca229863aa6a;0x41a70d1a9508e15aba5eba08ecf;0x260c906ab77acb882a412bc26bc4f;0x37d54fa73bd7de71a2a2842d770e9;0x2c766cce7eaa30eb2bd90a808c00a;0xaa71e693b0026d176345c37edf26;0x4a0d8a92c5baddeed65d4ee8dd6;0x17cfab4c8539bdec8cf52a4d381f8;0xc35345601a21aebc1d760b18c857;0x1c4fb9fd1e3483ff31e7fbdd4f5e;0xa5dc290587dbe7c0cfb769922d02;0x20309f30ef60f201f851fac156e3d;0x2282f02895e03c4b2724a72ac66a4;0x531cba6b8f0c14e2252cd36526c24;0x9e2d4ac9b5084bec6b9c5f30c503;0xc15cb190194e6c886d46ad6337a;0xbe775b2dcee6ebf3830dc432be6;0xc21e5d74e7cad0ec412dc5071d25;0x42fb86d1ec0ca28b6fcf93d0dbe6;0x50c5122e7166426e086c434e761da;0x36b71b3907de426be877bc04c7b79;0x3220e9e9256566d63f77ae0bf0d81;0x47b5b71523e42735c051079db198f;0x42f8ced0a81ddca3f091c6365819d;0x957cca7bcd066deda83a59f606d0;0x348e71b3e2e5a1761ad1f04880a;0x8cd54957015e23afce9e49ab612b3;0x82e2845d1c542fed86ff9dd0cabd7;0x40c29d25446f81165e45a3f1b2687;0x4e41015ddc4669b7adef09cf13204;0xc3a45fe881c28fb67d63a72fa54e;0x72c0e85f226d6c6dd08f7d6e27609;0x1495d21118463f27950df04045946;0x710695d18baddc093c30729a8ed7;0x3de44ef137d263d47eedb877b0273;0x19ae60d561c8cd5b4cc9462f6a22c;0x3ac0ea0e3d4cc9d2d5ec4a5c2f15;0x2f61c238bd242508f1b0373354388;0x2e495e6a9f63ad3698d75666196;0x91b485ad2a012b4c0fff276f33385;0xaea074b2a39c55b6c8d970bd258de;0x310943b1fb39adce1ae61532b95a3;0x882d86aabdd827b0e258913ed32ea;0xb5a327143ae84070b427ecbf355e;0x33149d3e0d7ce9856be4192b50119;0x3d3f9ec8a08193875126a1e7eeb10;0x1e21e2257d72d6fa9b599c413dfc2;0xa8f4f03abcb3d4e1b67897da4e87e;0xb1ac38a2ef4d53c5f1646709ce4ad;0x2e44340cb6914aae7156737ba9;0x1b28886ae72440ddd1eb57268c14;0x96f2c106f92be4ed9567c6b7d8a9d;0x20bb2fc35cb1300454fc64f10a035;0x2a315ef439b1f088808514b43c4d9;0x560a3f70baab6bde915a49075443d;0x1734326a9ff8d401ee1f30945aa7d;0x7b295b8c811d08c02baf16ea3010;0xd005cee500ff399f0fc84dd73ba3;0x4f4deb69fb4d3fc56cff261e5fda8;0x4c930cdf23c3ed0d6e75d88c2ef9;0x53a3aaa40ed92e3fba76aac0eeb32;0x4a63772368c56d4b6e8bf502e68d5;0xbea09c7dbe496a9c95fddfda8;0x13350ef1be9e6d4fe144d10c7532e;0x919e3181f7f862cdf1b495733266f;0x956dad8d74354f27b2aaecba60b41;0x8c4bffdfaceaf118fab26358b5;0x8c;0x5c4ebc452f0bfc28cec5cc4a5d0cd;0x28cd3f405ded9bd9fa26d4ea2092;0x5c4ebc452f0b8a28cec5d541c625a;0x973f0ef6e6a3369242c540397fc41;0x58bf2ddd9;0x0;0x0;0x0;0x0;0x0;0x0];
   s_u := 0x4279527c0be9bcffa287fb9164360; s_v := 0x306c8be3048fef82f3b66619959cf |};
   {| s_r := 0x3d; s_c := 0x183639c69b07571faff0be3b2ef0; s_list := [0x4369981a906b061365731d093180d;0x18f4dfb1218385133305a0839d32;0x915d0881741fa8a53999873faa3e;0x572f9498e4d376fb5b0a858228d76;0x43064d50f613500fea142609707f1;0x327d6ce6a5073051f689612f74687;0x7d4c1d2742207cd203b41b281;0x151112baa0828feb38cf5fd6019dc;0xe12fd992fd7730d4402f28f2fdf2;0x72ebc1bc864c683addf9d69474499;0x65e31a0abddf6cb7bbf9e023de28f;0x78de2c8da18ea99e21dce7f901502;0x4b8472c0b0a6aaa9f53d97c3b0270;0x389ea452ecf1e5892e517e105110;0x3edba404946e60279c4b3c6216120;0x4fc75702c0a9f5b23939f95780a47;0x19d41aacc484b98e09d8b90c9e7f1;0xa037545912db56f8e4367b981339;0x96a4e33befba5883e663d688cd;0x6ca80120b26b20fa8ca230b393db2;0xe656081a0fac1cae66d0a918f33e;0x3d0bc678075d45faddfb841c98e2;0xf3bf92a37d72079e6a7ecea1caf;0xf1c14b0f8dcbe1a703d98bab4cce;0x3be515ce07ef133aa66af4f37d609;0x791a01dd8d282dbe708fdee898aae;0x126b55c6f7aebd82e6da691e53fd3;0x19073e7f62ea7cb46cf4b0d83206;0x6a3da988e2903f55834f135ff00f1;0x3f6d991fc40f567ab497c3f38681a;0x4f5ef7e0944c1ce0434e2b98bc26;0x4dc6af49ce9f24e7f43d93829932e;0x1911784b5a266e7c5cc14bf627c99;0x381ca92c39ce775e1228ebff4479a;0x3ec23e134cd3c48f7903dae80acd9;0x263d8cb954759a18b9121b9b36ac;0x5bec051af24286f72c03aab84f055;0x189f0ed643a3dcad1619579657c2d;0x6d88fc8e817416a3db59361834527;0x2b8e96f25c9a69302c5486e00505c;0x306a39707508a7195449ecf8dc48c;0x5a8013f032525e668269a0453412b;0x1acdff566a4110976a39818dde9ec;0xabc7642b6c4431aa5bc4aba6bebe6;0xc49850ca50815c6d72987e8163b;0x2bdb2326d79736abb31a13412a74;0xb6dd194b21168226c00a5498d660;0x14a576ec1377d48d36f19f07adee;0x4949e504ea7bf4122482e47f3d9b;0x55b71a47e9d66feb8f61275e0b79;0x2d24477b2d0dfd56f5c13693c7b03;0x32109ddbc865f468dbb352f3117a3;0x1f5098362a7271d197dfb1ecd90f2;0x2ea04a9a95bdd7960290912b910e;0x407882745a31068a93a0a5ac2efc7;0x14a83d5d8d6e2f3e498475cde71e2;0x7d3e5bbee7c7ba6a997c5244589d;0x73eba18e7a9dd5c3b4b79074e088;0x6a15789080a2042404447a98b7959;0x5a0a732a3791b0a2da1ba72f76979;0x699550840d2c54fb74997716ce29a;0x2c1131f4915c0b965bd6163c24f14;0x1cb2413753dd18bfa9b7ec54931bf;0x253f674f5d04d46208c2c10d0d2b;0x597417b3f23d7918b7f44ff99ea3c;0x1d94b13f91fd150f293dc4aee3d81;0x72dc817994a36c583007bbd57b5d;0x31d7fb9b73125fc4868f28995025;0x477755b5f3e27e64977aa1e84e35b;0x4e7fb686950eb2c0e3c7e56331ab;0x20fe5a0cff1d54a4f75b258dd7308;0x3f842c32803b4a5f99493bfac2d29;0x7b42de76e0af20ec8b40c3c938e8b;0x3d6a1fc9cb9a38ec703647268a934;0x19c151966488b1ff5255a3c80ce5b;0x2781e145275354d24c9f76350232c;0x332454b543174e0dd9decc6ebb3;0x24c20bd4a0b3c9b892620c0eea7d4;0x2c5e0527954c9c2a28333bff6fc54;0xae045246e11a893fb2a0c369f3db6;0x324fee4c02ae6f560347ed1932f3a;0x277186c737a41ca6e6480c1994d91;0x20241de1285587a1f88309d697a1d;0x37eaf0130281461076214808f770;0x371468b1bbbf765b0c80efb486b48;0x5b67baf623db2d3542ea85889cc7a;0x1e7f5a1a260a4dc73598116951aa0;0x13fce0cce10bfa008d71f3df862cc;0x1bd9fc4776ef779e362db30dd5709;0xf1314b5542e59499ab1cb3dbb7c;0x1945d674d24d3ecfd14622528b152;0x4e8b45fe7923198eda84b9a4157b2;0x7478fd44ca4e2eb313f160ce4752;0x4cbfa252fc5eb760d76bf3c8d6909;0xac43e87e628445bd46266941d51;0x45b6a3a46eeb6161433cef723ad5f;0x283a6c3aa294ac3329bfd4965c6f9;0xcebc34a07066bfea651a997083bd;0xb89d788a5cae43d19d8c5badeeeb3;0x2dbd43521946fc6eb8bc0dfa10138;0x994bb25d2dfbeaa328ed209bdbd;0x58bf2ddd9e7b64d35638;0x0;0x0;0x0;0x0;0x0;0x0];
   s_u := 0x34fb077aa2a30c130aaa9f177138c; s_v := 0xdb5cedc261e376b9176eebe5e853 |};
   {| s_r := 0xb; s_c := 0x8643fa932d28b49872941eeb1b90; s_list := [0xd40be8543cd05fa567ae641c3497;0x26b996d81f7ec6740a38f99050;0x1c4344d8666de685628caee302b06;0x498174d2903d36bcf6eeec2addfce;0x65d87dec34ddd77d430278ab5714;0x4d4f62518daf707901577c12f27;0x195a16ec74440e473d1a7450dee97;0x1a1d0afe5749b781fd039dc3d2cab;0x367dea10a435dd28a00b6a1607ddc;0x949361dae7525297d4652dbc1ba80;0x257ee7e437258a8b21e1531a5fbc;0x1ee30118c7651e2a7d3ac3eb3214a;0x6988302f54823b9198423d9ca8d27;0x5e36e414c5a4452a555b0aaa9c1a;0x2e6344db375ff69365e20038116d;0x257508750a9989944e06ac8dec5f4;0x7e1cd51eebb3d9f5e4498717b0b4a;0x171d23d2e2e1d89aa44fe512c36f;0x3f638b2c9a12c5a727109ce2fd3c8;0x196afdaae459370ba1192c62b84;0x4b9aceb94a6e2683c63e7113d9674;0x1a341b47d32798bb2afb14a3ff80a;0x256bb0bc05d1a833224d94f87989d;0x453d5efcc23a09b7d937bbad1ab2;0x6a1e0de35c0d9ba663d6fc3577c2;0x7cff5b4905dfaf52c06ae62259b9;0x8e6aded9f45b9901e3e9a771bb014;0x23d67fbb4d8f724ac77e76856e9d5;0x939d4150f1b40ad89ffb49e9a3bfe;0x2be75cbc0009ff0a67afcb8476588;0x17499666f1040bc5a94c43d83dd5f;0x3e2907f90a7e4e19fdf0fbc25ba46;0x19864b8602e7aa52cffa3b7e95cf9;0x1b7da2a550a6419550d9b5679ade6;0xacaa80eefcca03cc3feb114815d3a;0x24f38b1397ce2290ee2c8e56f19fc;0x259d3920133cea1955f2e695b51d5;0xd5a90777180fc657f98104c8bb4;0xd7b57fa1dcfcce2f9058dc7ba8e;0x224681ee1479d5da1acfcdea2bfb;0x6f68ed77ac3f3cf3297b68c0d9fa;0x27461cbf5a20a59bbe3c921aebe56;0xadf5f7705bf1a89391ea681be7ed;0x1ad6d8310bebb91f54822d54d4c70;0x607446055c3a96467b087673233d3;0x175e4279361bb2b1ca09a70f206ef;0x5b2992fe3aa5f9686ee420973d16e;0xafc78f18a84c2e1f53ba29447a5d;0x29e40380dfc0a754b6c944fcdb9bb;0x271d644479a9bc97940d0c7e768b;0x10d825a9bb67474bbae0dd27092bd;0xa5370095c4ae8f0f6af1b459384ec;0x57b9b7547b255cfe2c8247ce6da55;0x1aa5bec228cd5c3a0e0056e02a4d9;0x51b27f5be22cf60f22d8a6725b16b;0xa1e07b73c0941985e03481aa72503;0x16691c85fcbd040d02bf4b3e11c4;0x31404e112eccc5fc86c9ccf3b7ffa;0x30ecd13cfb50d2fe5209b86fd5ee8;0xd8c47658c680ad51f523c0bce908;0x23c653d5fc8338bac030dda2208b;0x65c1cee4110e075c2c01a5c63a63d;0x4daeb335a61b3f998e493efa44751;0x9ca2a37a78bb389bb35167514e975;0xc39cbb4fb4b7a79aa45f5fccbc2;0x4e381f1fd9a29327365ce0a4907e;0x14005c7f5df71b41e6a16c01ab04;0x7a012bbfeda192bf3b7df2fd02234;0x32115d968eaf1e1467d89cf999282;0x6b3012e5b07ec796b41434922c224;0x90b6b9178409f6d1caf354551c2a;0x451e7459adf91bec67ac1ab4c4aa2;0x7fac80813fb8324025be32d45301d;0x24b11a5ac084f9c176c4f8b539c7e;0x222fa23cd8a192b0c05675390648c;0x25e096e95020afb81a110992435ec;0x22367a76031a88c4fb9abbb297c1d;0x54f4319faf48f4c68fce2d4433211;0x5d705de3f9c033c77b1f4b6eeb7;0x15316c52f7caf17a109eff6ae19d0;0x8c94cdbdc716a9b988ecaf61a9177;0x7dbf2a656ede6f45ba9cf34aadc7d;0x1010bd92737eff2766029dccd9fa6;0x9ac14ce4daf0225da4cb61c00141;0xa7e8ea3b62a9f8603bc6d05489f6b;0x377f9797782f9a6f84e327f6e1ec2;0x46392ccfe6474d7691d0533507716;0x42c2acb65408178f767bcb23c797;0x2d2884a86ab8636d38c1bd8d4a54;0x49cf74a17f8d0862e19fa3c0998;0x27a4209548b65781d4f260328bf0d;0x36398a1924d27babaeb6bc777cc8b;0x321141e562389074b2f2167c7b4e;0xec68839a61699b584f60ae1ba3f9;0x48cee1774bc4da85136055aa30ec;0x6f9ecb6e284276833c53b57342ec4;0x3a424ffa806e30340d6a9ff57139;0xb02ae020c30a212cc60f6b1cf2d33;0x597305eba276f2845d6d0efa7750e;0x1713af114bc2ff097f2c7d832b24;0x602e4ffee9103064a8d8908d6042;0x6fad35d;0xb89d788a5e17f8519d89e28345e62;0x319fe50793b50d964df97ce365288;0xb17e5;0x0;0x0;0x0;0x0;0x0;0x0];
   s_u := 0x7d9643db890e313904c20ba45010; s_v := 0x29b83bc33f1d158618682ea288af |}]
   [0x0;0x5c4ebc452f0bfc28cec5d541a2f2f;0x4f8b78a23f775c5b42749fc0e62d4;0xaf82cb44e34340426d38281b246e;0x1b22f690f10318be69ed17959a28a;0x8659e004c3e1a917b94c68f381833;0x330ae1f889def3c1e1ee41d94e88;0x7870b4bb2fc2f11983524d08ba0;0x1620041583dd31fd6f6abafaf8a97;0x4fee52765529852d75f6bd83ec9e3;0x4ba8b560f9c725588abf3d7f6d627;0x2a2097ecd00cbff1aab9fc09e51bb;0xd1a7882e6fedb953abdb681b7853;0xc02051d6a4d5629934aa9273594;0x4ebdebe57787f1b08914f4480885;0x23849680eae9886c9047eb19c4cfe;0x8024e135ed9d459f44648c36bce1;0x77a91a7fefb239e33340242c8b0fc;0x16293331cccec66e79be1d354a67;0x2b6330613183099f41f3300a2b0b1;0x367ee028c7a780588a14afc1ed8;0x29490e3d48545aca531c91eaf5f5;0x1e643aa9baa4c9cd62bb4278dab4e;0x14bd91784a2bb7de21c3b50504b7f;0x1989c1725351e816a7b95b60f15ba;0x35df20a339206da75bab629327ec6;0x359d9b4ebb4c887dd7c2703c56bc1;0x435fc020dc21afc2d0f57d4904b;0x34450290b3d37ffd7cdb54edd25fa;0x7a4cba4dd3815c937de65eab1404;0x1abb7cd29b6f70f4b1ba984f947cd;0x520de60baf6ca463163acbc93e9bb;0x1b9309fed77e8306c7daaf1edf460;0xa0d1b8dd6619c5605d46b1bf7766;0x24fcdbe8e8d1a8cdc898fcbaa375b;0x79918b74bcf822434ae173bdb7688;0xa095c66dd81c3dbb03f5d8f78264c;0x13d6622c4ab7848c86c782ac3e3ac;0x5887897a4c16085f77e382fa5a3f;0x3d58df8f3e4345acd9564ecee781d;0xc6f0c02a6a1962195b491cd84dab;0x3c0bb0a312c922ec7e5ef19c60138;0x370df45bc65baa69ac129366fd181;0x2aa1f9393c13e41e4d0ecd781510c;0x13f5e5690ecb92a36a17c01cbe11e;0x6c0c88a4a454cf6c7c7f59c6ebd25;0x8e61109d59440148ea64d45287841;0x84c21085f19cdfaccb60e66fe51e;0x169939ae0806ae97a4f9403204b1e;0x129154ff91d023cf852bfc8d73ac7;0x579d130931be04220d705b97e44e;0x2aef502d228b48f4676cfdc3847b;0x52ee1c1d6b78de24e5d7c583e6ba2;0xd7cc92d9c00bd333699c0a7848b1;0x3376c822e84acf15ed8d7c9281ab0;0x79cb7c3f4e923b62cb1b90898b3;0x4748815c40a7cf74d455e97146943;0x4d2ea39431f8548bc3a71192b1af3;0xaf09c6b4aeacc473fb91d2524ea4;0x275514a54f63f4f1a54711bc0cc17;0x64395b8aa1d4fcc3cb085f5a9396;0x54a56b60b122959f30d6ea4ce3d1;0x1803327adecaac495895f91ad71a0;0x1d2648904c5a313889c10465fbc;0xb56292fe8725fcdc3fc47cf74b2ef;0x197a47ea47ded6cb3b4699e95e24b;0x5b58697e3b7d33b5ffe17bd94502b;0x36528e75b01be8717c1ae22c7c49e;0x47fc59084c8842c74337a8d6fa24;0x5140e5ead149d2deb5d1d3209c90;0x6ea48f71d75e8f0b466103c483a8;0x4d5cac38ddea85336e3b9616ed94d;0x2056e680ddadcd79d4a9dda72cd;0x15e099c9b44aaf38e50a1e2b4e04a;0x1900357a2f967f59a725f80057881;0xfa0391237344ff86c160e57d7af8;0x20ff0fcdfe2d3394d2f1b7f2e1082;0x4bf618b7459a90a14ef5fbbaf581d;0x76f410e825fde9d852deffb2bb3e2;0x31582c32fe3dd008f9f6a5664b95f;0x6111eb7d8c9c426130c31deb760f;0x930a2741c89fc1b16cc4049524e90;0x11b80589dbd716ce5941447367ded;0x2393e64a7fc3962c72ce7063594a6;0x7d819f8d0dddf59c29ed19174932;0x5253207da4d599a7e4947db1c6784;0x138e615cce5cd4c99b5cf1486a48f;0x15300ced45f639642e2ad3cabb25;0x5889f9aa3f419c18b0d4c64c0c0;0x2f3569f2a97012395abdd91114d6e;0x9b20a7c964b50421ea24a9723509f;0xbaba52a23676bd117b57401acd3d;0x17b7ba2015255d77b2116c673da0;0x62fc716d3ee3ebc848f1d733cbfd;0xab71383324dc59b981be00667158a;0x592ab916862e3ac6c2e07467fd16e;0x33d77b471e89549fd633ae038fd6;0x5b1b4c1442e266bf7fc774f76472b;0x367041e1919cf71c7cd1b3b401493;0x7d6c3eff5bb7025b34ee2e3896341;0x37df054c1ab2f852afeac9caac6e;0x26bd83a262dbdc15b83d82e15fc9;0x181c3e123eaaef91a472dfcc011b3;0x161ae3b8d9c;0x5c4ebc452f0bfc28ceba879da2f31;0x1e909edc76d7ac3ee57e79ff6cf78;0x23688cdadfb913aa4e0d2389eeaf;0x2c5f96eecf3db269ab;0x0;0x0;0x0;0x0;0x0;0x0] _ _).
  - vm_compute. reflexivity.
  - apply Forall_cons; [exact prime_273108163771'|]. apply Forall_cons; [exact prime_113'|]. apply Forall_cons; [exact prime_79'|]. apply Forall_cons; [exact prime_61'|]. apply Forall_cons; [exact prime_11'|]. apply Forall_nil.
Qed.
Lemma prime_1766847064778384329583297500742918515827483896875618958121606201292619891' : prime 0x1000000000000000000000000000000000000000000000000000000000073.
Proof.
  refine (check_ok 0x1000000000000000000000000000000000000000000000000000000000073 0x73 240 2 [0x5c4ebc452f0bfc28cec5d541a2f31;0x612302a495cc94c7]%positive [
   {| s_r := 0x5c4ebc452f0bfc28cec5d541a2f31; s_c := 0x2c5f96eecf3db269ab1c074a369ddf12; s_list := [0x90dd022759903620e092e021019ffb32a5dc12390023fc7f4fc7450984ba;0xb577b1114de26de2213ae230a3a630d948eb391f66e85c8f3985dc66ea;0x5fdf87ed7af34b4174844776ffc8225c48e3693411f57268f7cc0eae4d56;0x27eb8507e3ee370b0a0a0c575a9a24d159ad4f62c12cfc6cb244e201cc3;0x1fac13b07273f3d9405adb90790cc14e4ceda9fbffc3c490c73405d9cfb1c;0x7fbe64b8dc86eff86214bc62855a9a13fe2c49eeef15194e1e988f2004;0x275a19574b14dcf3180a3a4c227ce30559e176d7c9e601aebf7572f28255;0xaac38ba810d4873994f60803842d9470170a2174aad38bccb9e81b683957;0xd268c26e6cf61d785fc190895f8e75b2a8f0673ab8621245e656bde63ef6;0x48bfac8e602262befb5acc4cef8ab6b2dd6eb82f597379d00a0321f21e68;0x2905448bca5539a337ad03d304f8c8e8d4de5cf6d8e39b1362a0ca5896c;0x475a688fba40884769259311a3682f8d5937342110b3419a71d1be26a6a0;0x6e57e0c15575e033a4e793d0e339ddcd4d4841873f14674b074f89c58a6;0x914a4e13fb83d38c0b355cf057022a53a56136b6093d77e24db3b8612fc;0x5f5e0cb151322cbb09691db442c3e45498f0fbbc6b2780407f9c1427f4f;0x83238c628b8812afab3bc4ea316339d09d2cc73434635190b659070723dd;0x10c3729de474034dbc8c80dd95479d02188c34a9f98e1d2daf8ff0086125;0x2724e089e0ca2b7921d93cf99b3ebbe6716483b9ef9211d0c3a80c0216a3;0xc1e7b83883ce037856968fbfa462203aaf964a502babaa5ad2bbe496aea7;0x1c91098d62a9c10b843638d3a9bcca90767fbf5d2b8fca17eda45a00e65ee;0xd4e160dd958a7679f2aad41713d4c06e2f07063cbf96eff960edf2581cda;0x66d1ac72330edd288a81ff899717fa16d29ece088c8a7b5dfca08aa04f61;0x3441388d698b731b0e585f1640be4ed467869050aaa48e287ee35bf380f4;0xe135833be822868c8edbe571108e975dcc1f9989606fac546a895964d7c;0xf8d1147025c4d6a888a8e9555620f074a7c95d2d76f28d053cf43e31a605;0x1ee033f77b690f91b8d3aaf969ed3aa1419f1761c8bad8319e226d39320e;0x19e15024e5a9774823aa99e57aa8711d3e6da4a84c064ddd995fbc896548a;0x9da225c0e51ed409c19eec83379e056aab244c79b099671582cfdeca0990;0x4baa404988db05c7064c282b29ebd23e78bb12020a0a7140b432b1699e6;0x13d6a1f8046406c03f3f6c38d2de50dc392ee543ff39378f77f9c9ca5f935;0x1cd76f42c1f821e1d067fe52f1da2ed6135aad6daab22a9c3e7766420dbd;0x1134a4cced67b1527839b1890f0d1a7faf61087e9f19c520ce0588c9a80e;0xd41f6ca10644558b6e87bae470aee05343b23dcdfcbf07552f6f7a2215fd;0x170b466a617673a80163e3b9e187e354814dc6b27e671808d33adfa783259;0x7f7c4b382a854d3301c9a156c9733273295d9b8dc4c9c983255dc057d70f;0xef6b6930320c41d97d50aeda719e2a0b22ede2da1869558ff775247be155;0xb8ff9247b491f54b945b21a4bb77686db9d4de61bfbd1e24ea936e9faa31;0x3d3fe52c7ddcede3de7110a3df5adbd930c284a7d2984fa251247fa43834;0x136ad27844e79bd6f89d238d8118a2ec6a32fa59605f76096e4c2a129da3f;0x421e5bfa5bce9a380accc6c5e3f8e5248a130dd5cdcccbc2496556c7b243;0xe078b8b26d48b015ca891b346af3e3ef28cb5a35b8ea542a3542df8262;0x1dc6f5cc54d0f26b62587d2b6e7c421967fb38dbe42822b26285e1f7b5e8;0xdc798b42b214cd1e78b4deed0b9c97971716d8a32dc0f4b6c567e71ee74c;0x7ec34cad8b392021b74c10ec15d082dfca32d18a6e5493c37288fb18d0fa;0xac5cbfa16c87309d4a2061b8db3dee710929afd550c68de894ca13a8406b;0x13068ef4e70c65ce8d9c2261f3de694e72c82a42611d01c27931cb4cce33;0x1981039b6b6246aed48a4a6e9b472b6af38d772f35f77512f8696fd4be6;0x135d74869a2bd3a2395beda1e71ee3e8c53a3781e9cd7e33dd1e64a3aaf;0x1383fbd1808507e6b0db8c0e404b738749a59c6b72c4f259dd968532dcd0;0x134a9777405cf631f9758488b89edb6eeeb0c549ef60e50d6b4a64f6414e;0xeb4daad997cd89a1f58ef87c548fc825632d4705436cffff06b4eeae88e7;0x677cf573f4c4efa5678d2204f479c05a668698210fdea5ad7ba1f4af6042;0x4976d9380d09fdea0abff88701c2a275640c7d3e2ac30ce7ccc78ecbb4a7;0x9e9a4bdc9cd32ff179e6acb36402d6760e3ab7bed22d9a37802217ce7cb5;0x1d9f21e104317f40aa3285923388ee98026ac6093103936888efa0f2047f;0x492bbada4245dae2bfc58415ad0fc92984e00f1bf85f7990886375c57b0e;0x9ac96fcb7a780884124907fe621828f52ffd8ca5c371c5e0216ea298f1b;0x469240b4ad08b5145d7d4837d0ced94401049a2a9f782e3ee893c786eef2;0x5109f724e76aea5d823dcd97142f36a0b230c38589f9a5c451dddc4e3153;0x9ab8e5d34441708a296c6c72502162c7628ce73ecc04952c74112206335b;0xef299e39e550e9528efa2171fcc44cf60a68fcd201c6d5a9f25fac0dd840;0x1d8916b4eb650c5c245b758f9b6681ca3816dd746ee56d048e727112abc90;0x567a6ac85b2e8c188e529a3c0add5b65798c46d3b7884f31755d548d54a6;0x17ef138b4d7670aa6478c21ec66b779a3d7104ee5503b89f357e022909c99;0x9d761e1b480ffb8bfc7e574313c6dc6a610c30285975c5e2e78f4873f122;0x49a92487ce345df8b2b520d225fdae4092741db351aa7df33942baf6f541;0x33cb7c3a0b744691311072c9d6366eda72471e071d3c41a5cdfa7d76e8;0x20536c99719450ab9260f42c1badf53f4fb49f4ade961d5841a6d07473ac;0x8349897a7a871153e8cade4e43b513a8818a75de73e072762642592d284a;0x161a422991886255348e84cc468fd89c879e706a6b4b8169c8e9f93ca671d;0x175254edd4a4480e8da0b88bec7fdcf9f3709ce0535a0c3eef1d6155d2c15;0x17d07ca2129afeff6807a3df06d583d2fbe4a1fc7ce89442a662bdfb7ca5;0x196bc9568af0e0d6f951f6134e1a76879af92b01287c0dcaafa164f43535;0xac107462f085dc6423721262674d451b895908a2f52dbcd371f2afb4260c;0x1365350a45a8877f19d25d1ce5c3b9f4e0333e1502a7b55e5093f0e0bf0e;0x1b8042b009dce75f27fc44622962eb9bb236257a2eb47d5a4307546a85be;0xbd803592207c3ff3674e96ae7edcc199c50f490e8fb0e0601f2a8880b245;0xbac621de20e37b9914d6c468fc394d4708b6bc44a90df5281b45cd64f7c9;0x20faed38a1b302a7ee1ac517f97e65de2e3ff21df48fb16037853f605de4;0x1c2eeed36e5f5f7ff0b5974d68dc11a5ee08c1127f2a9ac7e021c3546438;0x455a9bfeaaf558e5d40b2ab60d8b9061657f02034d4ce5ac70fcc07a5554;0x59f5c511c6b524f955d6889004496f7776c568144ffe03221069bc7425;0x7a484db00620020a7d42ddd9982f81815bb2875a2f75ef520b06dc8c7562;0x1ad39debb2dc6079b546456ee257745e810be184a3c0dfe9a6e405d11147d;0x1e866d730d8b218c6beb15108019212682fcfd39775b4f1c8d25c66460581;0xa19b3b88d73c0992eb455afe7ee0a77facf487bfcbef1e5c564ae11e85a;0x4b1fe72cf34fea531d9679a6760923d40f4209564b3c71112bf61f31a2a3;0xd46bc686e12f477c67d8f4fef0ccc7e26f9d1de0c7e52000412343f6a57c;0x184db634119c8f14fd4ee5da1647a3b06631e8c660517ee47adf34730afc1;0xe4c7d8d1e4ac5366e294fccc55d1dc8eb8be769fd760de1e17c81dbb90c6;0xbf68e59417ae73eecf16e694f7eed07469f54825a3428346235f5a9e8d0e;0x1d0dadd3ed689ced58e2976f17ece023f043b361b3c6d506df480df42180b;0x5721cef01ded38b1b807b6950a73a03e587f4c794b0f8def723cf1ca61bf;0xada1bf6cf2ceaf0126062195a056a9051c67ae1961ffc53298802df326e8;0xb5e5bfecb35138284f4e616f9ab6f92913a16ed96781dfd9782b5f3f4287;0x3d56089d79cfd79bd5a37b5e0cec7b10ab84fb4d11d0758b5c49834d0643;0xcbede1e88fc49b383c525c964554bca86af43dfa7d0be146d1c6603fe28;0x8b004ca5335e548d4a71950104df8955841418ae6f43e1a947ea4c27c3d5;0x638cdd77f722a4b2244b7bc1ddef6ea17ff24fbdedb66d048c6f646d0391;0x10056090f33f93e91d3d1690e8d29cbe9092106c9daccebca63997091fbe1;0x354576b2dd2f7efa0dd41d9fa0639ad4b1ba1304831d1d2413514d280808;0x12fabeed08ef9bb9980bdd0d880e0da3beb04ef000b06d1a2c6e8d24fea6a;0x672e04d9960fe8e53247ef3f28f230865d78fd4383e454d3016008cda818;0x140a718a80532135ec57a8726bc10d2cccfd6d8e302f20a81e5576a6d36;0xa5e4a5059ba1fe463c749e4992d91d56702f8dd7a153b032a6786a2e8012;0x177f6e6633cb7282d40fdf2c7d5272970d078d9b2b08348502f21a478f20;0xa7d9407f576815d1b4cb7b59a0a729c75f4e28b305e6744688a5bd4f20ea;0x3a1d0a2fe9f9f37cfb4f3486c31e45682315bdbb77f2af90c221bc42ccb1;0x5705dd0940a5c6e0a2f51dfdea1f97a1d888ca84795ca845d6c409d967be;0x4ce6b8ff18876c048405b5bf06f3542e49bc26061c130001b3a8ada4eed;0x7dfc2d7a4698945760ff424569c12df9316dc51407312d717f951ee5c38;0x47cc9ca1904aad777bcff66ff057dd2fbe9d45b6e5dd44c1a05dfa159e5c;0xa951a412fc51d48bf51360345f1f32eff40bade86d286e5c1d6e5de1b0;0x8f22ab809553fce7acfc800000000000000000000000000004ae127a7d5f;0x5478e42648000000000000000000000000000000000000000000006d603;0x6b2c87fffffffffffffffffffffffffffffffffffffffffffffffffffae1;0x1fffffffffffffffffffffffffffff8d000000000000000000000000000ec;0x3ffffffffffffffffffffffffffff;0x0;0x0;0x0;0x0;0x0;0x0;0x0];
   s_u := 0xe48cd8fdb762d7ba95f4e38f206f80d3002951b0b6464b2335d15b709490; s_v := 0x54fd3c1d65fd6265a44c675c173b5d0b9ff78556f9093099b122a40ea875 |};
   {| s_r := 0x612302a495cc94c7; s_c := 0x2a2ad7a3d2997778eb39bdb095c807cbdef46817f85fe; s_list := [0xa1138a44f4b7037eeb5e2b0620f650e69a1fa80034b421b27af461fec08b;0x11713821f1a0cbf9b3282a2d886450512e2d03c248bc74c4e752bccd48195;0x35f91f7183be329ff41c97af8382044cc0862714bf7138da7321d7e38c3e;0x10cee9182be2f606da3e15c547f32861d67f16d963cc56c118e7269e49837;0xaae4b1672bf3071a892b4bdecdea3de4b6229ef671101168f4e9af320a3;0x5c1b1c374043417e373811bab89b03ebc1aae962d7a064a960c55ad3c2a1;0x79e0ff7deeaf33027071f11d0528f5a580c75a5cc160b46c1e1379bd2fcc;0x7c6244e4ab6621fb21dd18c176fcc51e068760194d842e8b4f049c53c33a;0x1e2695889e0c75356deac411140abde578b7d47b157e9c60e256cf464bba9;0x36768770728e282c050c06205b968746aff1a3e53284f4504aab7400ea4f;0x3a89f16e6636ad80a9756f17e639a2d8f5e5e5f1967261ac1139ff56c55;0x9d06c9fa25d647e32a85521df3390d12ac39e9e83f0d9143f80a645e0ef0;0x4c6326228ac2d126ac46a93968eef83eff4c7e291a484617fff6415a041;0x19690b7e61807363370acb9ef6346149550bd276635af8d8a5e9dcd5bcba;0x860b728566558560b4964050bb77c3a51fceb20be07c6c65a353d9c7357;0x14c07a6bd07a6654171ef8c4fc4da6c0d81dc9a55ef548656a5ca8e213c1d;0xb5a1439bda436edea2755da81915500b5a8c4bdb1614c48e350bec49af5f;0x22bec01249b3589eb4f6ead9920ba41c595073f7b4fce500a1aa0a8e95;0x6c421e82defa42f40f1832a6d910408522026ada5e0ce33698c819dc8970;0x3d5037ab3d23c198cfc70ead760c408ede1e85dab0b6b45c5549a661cb;0x290ef50b970b8f1502ffb73c3f8d821625521d0e95c088dbdc9f09beda0;0x1f1035c35b02dcd10249d8d45bb06075b9c5764e68b0c2bbe5935a11f18;0x1d964abf24adceaa9a2b33c1ba63bf2779cd4c40072791b0ca4b7adfd3a81;0x1885fc7a27e528689831ba97912ed75755627df03e35bc047b1eaad23ed;0x1925639156742b0039f28af8b3099847c94f4f11f05e6ab1c15d38946368;0x8373a1f61e69fee60224c5b35b6f422287a4901b2e47c4c0b663a21a34;0x17701f9261ee098ca5c76b4d2b39b03e9df0f5f95dd3a03ecad9af9d06ae;0x1ba50f43e0d751fab5a7084f5e4f492e3f1ecdaef7da56714cac412485e;0xb15bd0dc4ea769a2d9d7ae897a37835a92a4e7e26c182841810b3305d369;0x107e0cd8f20e3c3bfee661548149ba2c2d3e9515f3a165dbe50077a60c98;0xa872e97322dd1212fca712009da96bbf37e57a6a02b95473d4710cd44a86;0xa859095effc5a3f6607558daaaa83b200a88c94f0db873e26bffa38fb90a;0xf1e91a5dce5c3a1d6e19314a38d6fd0ff3562dc265f1aa44c9bb62e6c686;0x123cd80c2ef950723384bf6b76e280c5b37e214301e1539eedb9f76fd48a2;0xa4fbc012fcd33bc7007f6237a8474b515d017c4d8019c2b706a0f0aaf4b5;0xf3d654c49f81ad2a0ea56b4376b89996cb2a5dcd158a9dd10ba621326838;0x37f9cb3bca9e9266d3ffaae2af0fc84caca5dc1a6d3ce2a56370001d508;0x2e399c24402523a4cbe8f71e9e1e36e3f16fefba37ea08c206bf9fd1d3;0x14bcdda5388f2c9a36d40fc3cce7c2b5affffaf1752e09fa8df0dd098a6;0x5ef96f6085365d47a87b0246163e0458ce15f35520c284101716b26994;0x6b9436c2ab4a9985f827fc0e4954d1b491b7d32b6ea291fa159722f03ec;0x5cabac7816e98ada972ba8237947b4f8901226d79ec9d7a2f0a67149abe;0x83ee7b398aafa4751efd5f77599e3d53a9b9170d4e460fae1d8145bf867e;0x75f9c72a8a2bc5321c756f5e9c8f53ab1793e0b7a715d2680630f3a1f006;0x8745619eb933ee295be190e72ce7b931ec020fe634eca62490f95c49c817;0x2a0dab885633d29d603e122ae70e095e6d6f3decec2315d24f7336e5e145;0xecc78a831b651468740a490001a48a6ef50a7f3f5c8bb2793567ee4a86d0;0x12f237f42abebdcad62d223dbd6070f4fd36ab4662fdb9a9b740b6fbedb77;0xcd2cb42dbc8099d93fa6875d379148f2022ee057d2417698acc41db1e231;0x529f26bf7883bd6856ce95cd2f03ebc707de07fdb3e734bb290ede5a0da8;0x5d566dc42b92c1ccc91bcacb855d032cab55311f08c54b000dc6a0caf80a;0x1788ba64f5e3438bfd8d0d708427d836f24420cbda31a06101da29401de29;0x2a4db7b449a37408082e0545c5033d21a61740fa3496ee6fd1ec612470d6;0x1687235aeb91c31f0140ae3814667f0a75c119f9cd975221276e0b6b0e5d2;0x49bef8552514d47ad87fa085760d909d3fb919ec49767d48ecac33b86528;0xa1ba6b743af1fa03c4dbf932d7acf3de32c22b06e8c15a9d78f7762a479;0x1ec611200cbf0ce493b09ae8d5394afb006b5cc7d73d25275ff4116dc0fb;0x145f54072a0dcf01f9d9e8da4ccb4898aa9bf9080b7e8ddd5aec79edec9c;0xf227a79df9474a2cc5ec4b91436fae3781eb1b19b37e2a2455d8d217f;0x11b566695faf1cda9dacef5a2fcdca7dc28e7412cb8ccfd41d31de96c6ead;0xd05df361b2be93514e54a0eee82706c25433e873963ce55fce8a7f3caae;0xc42ce6c5120de821d316cd7cfc63cf136ff53dcce97b7c5cc82f7ecf421;0x18b3fe6fd20f12cd2bb96e0ce0b476b2897220fa710f1154e9f13d98d8cb5;0x708f34eb7ffa922fde40f44a169b00d70e34c0998c1bdb8ea4f2a6f4d91c;0xcb6a8d79280f2e4d4ee318b1beddbd696c07e95a4af75ecbed4b0d41b6e;0x2697438fed074d29be694fea8f115952c1c9f2436ea779ddd9a56227ed55;0x78f643e3401ac2afaa9106b44e0c45cd9925a6e586fe07ef052be2055e0a;0xf6ad2bca0b8b608f2d0643906bc54b684656a609a6eee4583b02f1ef8f46;0xbe9c58642aebfb1fc013898f4240ff0f6bb40dbcdede245daad2f95fc7;0x4ac0662c61f9eb68cdf5358a30c5a37dc4402db6135eba505e168ecb8a27;0x16cd6af939026569ec6faaaa96e92b0d60bb29165cbabe04d5d7b8fe2c33;0x12118b86a67aea2ad2fd872553dd2a7a5992d01ec594ead4603d14ac057df;0x34120798a8abe40f56f8c8e6834a1b43353178bcd60fa9508b26cb777026;0x4d128698c4775fcbc31e2280ca38bfa52d6a2b9c4b6cbb3186792b3a7215;0xba582827c3dbfee87c19bf119a76558db086e2321319b451e87fc5a2efb;0xb82106ae0a0140bf371b228c3af0b0010a7394589b81f0e5155aeac719fb;0x1da436e544c0743284adfd37dbf905d7b4e68adcf2d10fbb62001c855b10;0x1ab30ad1382c23ddd0814ce9f03551caf37e55e5bd7f8635650b9e02b24a;0x782511c119162dce8b51e5a2753f40be9adc32ee991708f6790fcc784944;0xb6f529dfd27896364818cd1ee5713d67585b94259e91c2e4f7a1171b8b7;0xb18afc3a827ba6667bf7034569b2fed0e1b5636b0e6a7e88ad2b1a56290;0xda80a17864c4117d67db8afb153558ad5ec2867e64dfd5f8db24477ed117;0x8411b77babc39c55bf29fa9490e90242e13f3ea6ca33a47eda974afb644;0x87c2d17fc195bbce068526da21a6621a244cfe68c82baeaa670be180d1da;0x26748c5336523548bc55522c2bc1559ef2ebfcbd01525fe949e6cfe9c8;0x8060e0d0ad975a0eb73cb8acd10fa209cb6252f38639e3ffd06e7000c;0x401b3290eb39b65050d794b2f072013b89e5821fe5a7131a3f1e0603aad8;0x60c1ca8e7e63e59633b1608408d915c44f827cb3b5f4071c807fbfa92f59;0x7ab20bb0eb2500a729909b1f52baffaea3fc18ac3151016ea2bb66b5c94;0x11e56cae0525ff6b43c2e718058a2987c6ee85f63c11a3f72d18babbdecf0;0xdfafce27f9a574643146cc20c931254fbbb5c7479777095bf576f5b5d853;0xf1dd6c6809307438f66f3bb301c24518630833a6f54787efd46cde52e69c;0x118518a7d4e948889b0ed3c4666560edf3a29c0258055aaec79f937bc591;0x36bcfbf3d0242a0196ca7c09d01ff12770b34896dbf6593359d8f482baf;0x1b87d09542a4ba76966abc840cd42769e1669c0d78301d694595382a26c6b;0x12ded0f29cb559e99619a61060eadafb4ee14440957c27aa011652463f87b;0xc7166d46d0de69657a7fb7683ff60e8400d67429849b40cbb30260103849;0xa941785ba4dbfdbc176437c7c35ed521d78024ce5dc5f0035a2ef87ea0;0xf9521558651f036f2bf3215f10fbf3b0fddce02c8ca3bf3645f57423bb4;0x2b2516e5865405441c857faea1ca9ea3e603c55da983c5cfe2c7b9a13a6;0xd744bd0b8f9939e036e9da085d82ba0f20a874cdceaeff2a334cd26150d8;0x8a2c542bbde1a2392c0fb92ac8395aa7efb07b241a9c3e526bf3ec917302;0x94b8a5895af470cd6440ab3bc5441070a567253476ce3346faf4dff5a159;0x9ea99bb50d4160be28099eb28a40b094934136c9eb13b86135d7cd0e7d1;0x17c718db616d9afc45e54cd6098215978491eb24a95973d89f30f12f6f786;0x1dd20d1a3a191678c0f4c18aaece647cc5bdd3636e0f9d07aaf14d098f7af;0xf1550196e7a64c5ba1b4275b82c9ae90ca5251e3ea86c962c2f7386d46a;0xf45e83bca50dc97cb0939f17b012424a9f2c5b97fc1aa994d5bdb2888ab3;0x617d0f3da25acde7be87beb449121e7e03cca2cb5b9982ea9079e1d1d0e1;0x295dd5bb51750d71381bea9f9208be4869d3cb6f5f9159ddb2a3ff9526a6;0xe086413bd64bf77411c721601f361c4a1923eb14edf8e2d49394d969f125;0x1031c24ddb0d35e8144d9f5efb65eaff2a0d7d5666352f4ec57188b7e95;0x362a2e031f6fd4f391cdd97a46011f8478d6a765edf9f0a6bb86b4a868df;0x1fa4de39c06b359561bf57d3a2b7e763aa69c2d032dd555e447869eeb5f21;0x38485c5291ab2abfe1c47c2e038db85d86b400d9f460f459d8f74528c462;0x17484cedf2347962e4b71336b31ed42ecdcf3278db8ec74d8d5c9a936b4ff;0xae8100e7b5811744b086dd69050fb605a37d9f04a1a65c49cbed2594afe;0xceb2087bf318560ec41044ea08848adbc513b81b8613d642973c02424f58;0xa533b2e4e027bf8893b385dd3d49ce13e45b996304fb921413f62ede207c;0x1b3660b87d9b43766c4f557d1f3ed485ce7ef04069eae08b34bb025c87f53;0x70f7e4523f627619edf14010d9da17bd50f84865e23d7861232cd0510506;0x27188e06fe7f349efc0fb09f0b911fb808090ef3076fb7540f1bf5fc328a;0x1d88c049db037f959a1b8f0e3d0462a3c8028ca257a5b32f0f53d41673711;0x63937b04e87cc9ff1c94c9052061b2b88f137c688ec6313a13e6b4d9c77f;0x4076620f4f381cffb022b463ada9762238c295db0207829fcaf40b25c;0x73a1256c1f9cc6414332e370df237c7207c0e1d52725d8464279fc7a6329;0x2bdf5049d8e5d1c2bffa33381b4ed920ea4845e51b1b513191ef92ca1b01;0xeaee2a173e6ec9153dc60cdbc6dd25b9b15cb873341ed50cb5e0d1c655a8;0x884a4cc98be6e1b1ead2d2ef4f8afe000562a1d6c3186640da195bef3d4;0x45ad51953902605d1cf7a4b98f97eeec2197676383e15bf6bdc4a7f80ed2;0xdc011fc6e959a6422864d6a6f3bca6260ce4ca57b822c9bbae8269ff3f;0x185deb31e729f9b87faadc351517479a7b3cdb7198b41e904dc9d1ee39;0x1b5b8434c94118058e6807345490db9aee336eb9e5b5144d557aa1f693958;0x3223d1ee4db50c807a11cbec501804c79698b7b677fb9d285d0d7ffce0f2;0x245f5675c55cd43165a713a7ccc40ea0072abd49dbaea3431a80a3547e06;0x1721c5e5acc98b4c9717c8ed688ed3469f38309b027c697dbace81258002e;0x1210d402b9ff4b08bf13f6956bb1bc419830dcb9f417dbb40aba1ab13eb2;0xd2130ebb912a8d6d1f1d6bf085563b6ca12049fed351d40134ab810f8379;0x5e4eff3ab0433350537a1822cdb0889de6f9a4d1218609df5960fdfd17;0xf73935c97db9a85e508769deb8c5f3b75007a30cbfec8a5d12cc54496506;0x6cf307d28ed3e192474357a067ec25373a0546f74d94c7a75950fc2f456e;0x22a39a83d7261a2537efd1de6fb20006acc61630b5c29eb0eee0f2fb0c3;0xe3faf8f48e1c6e9a3042e6be17a1c23b6997faf07d41d8be7898d68f66fd;0x18b0f0d776fba8c882f70f3d7735a7c17ef76100eb9de988a8e5ed1eaa8;0x19fda84d10343107f03e04f49831290d748346bc3a03c4f2adc8f8194c18a;0x64385c2f2a587462f349aae4068d7dda3ac1cd5cf1d8870d699b097eadc;0x27cde61725ae32d3862fcedd1bfc5786e9cfeef8703ddd726b0ef500846;0x10efcc45aa7e5a4c0d06f2ddddbed486c51699eb38b3bb41665e4c871863a;0xde4698ce0adcd453cb0d1b32d225fd3f9cf3261f33ed8b6c356c3d62303d;0x55f40aedec7fa038a4a3909a9ac7e1556cb67b5bc58fa2cd36c82a3089c3;0xff3a545c1d0c86d598593c6fbde3dab0a8e93092066f9ecb35ae93cca90d;0x12f7bceb80e4565c6c8b55af77c138545cffad1811fb0bebec28d7260dd;0x1146fb10d52ba4808ef2fdd1e8fa40873fea35d613f059827b70baa7f2a6;0xfdca035cae20435d039795a491662b7d45f16752d26f042d8120cc9ed1da;0x6d77bff9d97eaadec0f34ac95d15ca72385235e79541a746ebbb188c9808;0x341ae29bae708e46ed5a58ebb5e1940a656b5fef542fd34615d46ca7e453;0x83fd8719afbbcb8c33d9fd4b6e6cec3f392cb2971574c3c64f12d6c2078;0x17ca08a606d71ef577a5987e1f59c6bff5647cf98a7145062b90701e9e6e;0x1ee2283385840acfa3dee395ee5b1ecdbc55bcd27b0d64482bca1d07413d0;0xf989decb99b8c9628155c13d3be22b990be7756225389b28695cbc5fda57;0xc3adfe6bd39564537ea1ea58132127f582e8ffb26b2b89f874ccdf2cd70;0xc99187d8f36d156d1805c217d03ba13f70c52cc5cf5f6ad18205cb86fd87;0xfc005ed93adca3420ddad1ee3210348e6e62580f0a52adc6e8e265745a61;0x167044e1551d6b38c956047da0da5d1cc5203d3d6124d0ff69b69606bb062;0x259256fc1fe927212f33aa5d052d52ea027ee253a95dae7c938b2f071840;0x1ffffffffffffffffffffffffff625eefe7b0eb67059b500000000c21df48;0xfffffffffffffed448cff740000057b95b52898172132400000000000072;0x14d98b21fffffffffffffffffffffffffffffffffffff;0xfffffffffffffffffffffffffffffffffe34000000000000000000000073;0x1ffffffffffffffffffffffff;0x0;0x0;0x0;0x0;0x0;0x0;0x0];
   s_u := 0x472acb0fefc8db0f393c02e034e2902946f90785623e6e1d068eb4220999; s_v := 0x1afd5747483f1f1cea912acfa264e46b5bd8dfbe9bd7d3b8e529a4282f92 |}]
   [0x1000000000000000000000000000000000000000000000000000000000071;0x9d95b1160a4641818de559ea450d5842a46bae54ab9d23abc6ec532c9b0;0x6ff7345b5942284ab921ce7bb0a3e473a63bbbde483718facbe363fbddcb;0x3732c48da0ac044e561da897bae5f67a38e4b825bd74330eb0e6c1bc4ee4;0x23504c447f5a204676d274d84b0abdc55921d150278cb4f8aae3558c0;0x355718c1c9885fb8091d06cb51dd7bf697595fea273213c8b819e61d69c8;0x7eaa0ada14617da01e3c3a4354bf3c378293c7118d9dc0bbf415ffcd57fa;0x6c6088934465a9cdbc22fdae7e3954e5059d11329bd0372210676160e2a3;0x37c5dd5f58ffd2453e4628db047497389b3ad2cf036ef558b232016b869f;0x8d124a30cab901c78482d4ff1540c77fd9d8bb0563ee05ab3d155d2626cb;0x75e72359d3f3a82d34f60a977b3ea29b89cfaddece41ab84ba33481ccace;0x50fecc4451faa56b5b6767c972b04ab6d8329035177d5a54f3fd50db0584;0xc198c39d4d2200a0ab3dcfaae0a6fb5177dabc57a0b42e3422bc1a69757a;0xad4103056851cd1f98f4c437ca6fb3e6779efdc75262b414902446722d42;0x9f8b875515b1c399516db8894bba0b50db6554f7a4266a0190d3b1446621;0x8010fa5f18a3629275055a1cc3cb07b863837dba8ba3c21ef97e5cf1882a;0x6bfa54ef47dd8b98b0d6dff3620dcbc0a8ca5dea4485464d5ec1ed6d99;0x3cacfc93652dee5f81619ccae78aa5c0205d5ca85f07b677a7cbe3026322;0x302ab34f2d1e42b4c86b54a815bfe72e5bbc0a121c4edcfafa0784a976c;0x682fcba2e178a42547e8498003f5933f53ce5d0d014185099a4a50ed2ca7;0x3ef9bd2f7473d4f7433a5e1e177573605f8b52bc69146a5efda5dbc0d15;0x16a58487fab99501c8257e60bf662841615692632cd1791e69e70254b123;0xc808bbb8ecee47d84774e35be66aa9ef743294ad37e16f90b97703d00;0x6b8790edc6efb9a3a977c040d2a3965f1ff25588ba5e79c47af9a5993f31;0xfc86b1ab5640f9d96aef02a7a2421b8331cad83524ba7dbec93692f50917;0x695234c3265cfe55c12cccf334fd832e507fc3b9b9841e1921ac5c77c0d;0x238fa22260743e018ef0884fba040d18995fb0e06b9504d9c1e6a91990b7;0xe9248d58ae98ab5c53c39e6258ea8805e26b5e9daba2ae2403aeaa2852a5;0x213fe5799699f67f8b598a632b7f6b448cc19eb50d21338361d01a980425;0x10bb23d115793ba60fb71e8c17dadbec81f01a3b68e7e973dd9e85afb063;0x948efcffdc8d7156ca3aa08a58d2b4610ba00eb5ae1705b47340f19c4384;0x72cf7d020e19f2d3902dcebf16b2d3c38c59f46908d2b13a3701dce3dd9c;0xb6e45a02f26efebc07492c4c6f2f06669df67b8125e53582ec8dcfff273;0x66f26ca59868c20681ee21b20a9e3ec1a88384b560ed36fd646c8ae2edce;0x67b482fc356408772b787d5499fdbff73dd5ac96fd65bc8c8c3dbb869644;0x651a6a27ba24967ed62eaf3b799b07d954a09c56acc5e7fe51119bc799b9;0xe5b8a96b556e89c9b8694e9e2e43a8b1f6842e4d7531c1bbd4f164338c0d;0xfd6c89d4f10866e8c014a15a08672bb8549e63e775cc8d08de35222a61ef;0xdab2cfa42172bdcb989d0fd573f98eff72eef9ec81e627e5ea68ded70b89;0xaacd9acccdd825d70cb94ab01107628cae3849a588e5d5362f594c2938c6;0x425839a53bb53fe651235e5461ef2881edf353ee2412faf999d5c36e2a45;0x1598dcccbc6ed12262dadee4f82fa7608f2a1f07b3044390f3bcaffaa4b;0x1855f52d6d0e414d66ac86d0d575685153f7737659ffaf4ce823b3056757;0x20e239be82e7d7147236f62e7e953931f3de04d7296b4231235c4753202d;0x1b1413cda973b0475752f7f1702a0d741156c8694daba1d6652713df3227;0x99a0d3063bc17f04afdef625810a0a360ee449cc36507a0d205d6aeb9a7a;0xea8c0cdfc4b363c451ca0eadd9c161c1822cfe16ebdacb22b81f7da44edb;0xbd46b52eb7c77bc522bb28b13f6c9471fdbd1fdd620e1796a86728544b9f;0xce19965f844c139e681ce4e484dab4a1f609715948c4bb6607646dd6feb;0x2a6ae3cc7ec554b88772f36c915fba4455e9535cf7ba09db95787ad21a61;0x14f931e444bbff246e0cfea59e8daaa4aaba147094da70f9643d65cc1fc7;0x7167088821e517583f599b13556adcca9192cfd49b840cb9084bf85dd7fe;0x8c52d225c94901c552a732c837ca3b601d44869b995c8585f60f54ae5672;0xf08c6803b307df0ab4ec7ca12ac8eebcd309c1a108a2438044fb7b41dee5;0x2148f34f4bcc80a6ce414cacd4499405dd24d4d765dc3e7000c4e591473;0x2869806655eedb131728ada37d19f6996642b357e0eb9af4199e51b9cded;0xb303485f332bb6bdde9553514beb453ed6aeff16f6a6cee340de5862439;0x44a8cfc2e1ac0293c9179abf8587aa0ca590a0251bcd53becdf656e55aeb;0x195392e1a262536ffeb856d27229b803d932e91fe900b030cfc148a04861;0x64557c2fe103b048ff0b0ee354e624044da78e9dbe64d776bff067f9921;0xa21124825dccd1ef81a3fcf11ab314d01c6234f3204a01dbe1736b872e93;0xdfdc16969cf866bf548010efb06fa17aa89b2910c41f15e21dd1423eeac6;0x9350a0307fdc59840d63c0bbb5cd839344616aa7ad4d484e5efd76aa6c;0x26acb5888d2c06100d2b07accb3e7a94adf1c45390181d665b8f7740adaa;0xea127b372576a62cee0eea720b0833174f9eb348c0a3e63a52e6e40304c2;0x1dad0a33db52ab9374c54aaf9943b145e2bcd8722612eb309f5552bd23da;0x12b463ae1ac665e13dfaa378fb9c1835c868b3317fb7f2d2d0dc746ff7ff;0x2ca9c153e64b34815bd3d7bf28e3218c432df2d8d64b799e8ee5d6c4a0c6;0x2e3633c7140343d159eb086ae056ffd86cb13a6c60fd9553731321dbb474;0x3a45fd002ad85f7b62870d6dfea53fbfbec987c5dab13bd8b71a0a3854c;0x6d9731c1242571e74ac7fc2428b60e2c8a72b3b91f9b12d883d627177c97;0x3d9a38ecd65d81eecc9fbd1ecbaff67d720d86b562e1524ca3d6698f6f52;0x6b320e362cec1074ec017799c17a20ff5fcd53969d04403a71cdc466d41;0x68db9781dbf76da02a5d5c02640787da704d7f47243016c8a7bfad0ae717;0xaf8b3cc17b1d28dbf3bddb1df7528dfd427e5783d71bc96ba864c9be8290;0x6a5102a2c63289fc592fa9f9523906f54a18798e3354bb21c331ecf16125;0x42a6884d3891426b7c1d0ed5f82f0898148e385e1ca01c65cc14eaa70ca;0x20ada95867cfb58ec7ead7a2c673ea4488512a61c3a7e7dd010d3552a2dc;0xb40127a537a0336e51bbd3568109cbbc7584a414148d4c7e30562e1274a8;0x3d6d2a98867ca5f9a8b62587f8663e65ab56670a2850b7db8922ec49ab;0xb9a9f3e852c6f1ef171765ff858db063af978ca3b10bf46ff4af7b91d4d2;0xf1d0db039efcce43afe03e49771f4a4a0a66e07346bda50c30237626b73a;0x9c7c0b61278cbbd1dbff585017758b59239fa681584ca38343939f252bbd;0x21756eaeb584f657525822c578a0b503ca58d634d418314d279be96f22d;0x1ddf06bf4da5ba41fb96c4bda8f6bbf9f67d60f75fe4f936b8e0e012ceb5;0x243904319dfbf0e9684455c98ceceeae451b3218a440302adc5a4346e081;0x650a41e4123876b0e55586f2b044a74aa56e948c76589990158b58176e97;0x32acdb2bb2d5bcfe46dd5375a7a83bb321ad1a319f5afd26ee1258c203dc;0x103ccb48fb3eb9d2a7b4bf5a8067abdddf47f7011fb525d338020bcf5555;0x157f63fdffa734f2cc1e601aba3bd2f0062369ac37b4d182c6d41d84c8a1;0x137222e973a08287789a04a42e269fc0d97b4d0219f49ffcd563a6aa8584;0x24fdaf15160aa923d5fd0b8f7405f1532069fa50855e0cf4be176a38dc84;0x5eaae53a99718af5ca350ee3c3af38f7e92e8cee4d15a9cfcc65ba8b064b;0x55156acf27134f087d5800a097ac07122df119b8d57a051f48fa9a755238;0x10395cf5e03c201fc8bf2d6e338246534e48c02b2b8f2ee68a2325625059;0x52b25df507e0c6f58643e123971e9f33d660a5a1b97e5c6d3b00fe0b9be7;0x3e17a0799daee78139f631de7dbede1752b4e0f2fd68702c88ded51ba1dc;0x27363de9fffa4fe433531aa9b5eb22cf15bd071c82713af6854f77b1590d;0xfec8eac9f251fda67b0c08d86bcbb10ee0acd089c3c473d8ae9330b7fc50;0x59dfac9b90076bffd679415246090bb3bf4f5d2498f697ffa372b974ad5f;0xd152d5a2877ea2fc7d2dde497eb78a475d99b195bb96a462b7631f1b961f;0xbf41db5b849d9d5aff85c31eb1944a3b595e5854d3927c6641fca5500d8d;0x2279fd65b9fc4f7d4627d23b3e5a03a2629f6c9605124bec3d3bb04f37b7;0x2e8f85976ce8dcae946f5b7642d99892a293f965a31551cc82e8577fc9f6;0xaaba1aebb6a88dcf4e0f72c21a7f64be79fc0d79d665482bf1c4395f060e;0x503af427b67a1257f59c30b18c1e2abb1c30aba75f26a344345789c3eb19;0xbd8863ce8075e4b6abac48b16ea1031137759aacd07e0f523c4dc3c1be1;0x25ab70c88c1293addd64fd4cdfdc1deed31cf782a32c2917f2521df34054;0x6f144c738240e8d506ffc04208ae2a69da96b95a63d82d1e1aef3e22cf19;0x2681eacc38c510c8b7ef237ceb076794b86a4c1c590be4b01280ffc4918;0x424b942b3b17a38d0264ef19c5dc9f7dcb74bff557057e2cab491a92ea3d;0x23e799a8d6ea40904cc23f06468a58bc1a6040d82ced16087d2fd18f6ce1;0x63a6b08785e893554f584f2f138bc443478f7817668b2ecbdd272249156;0x4db2b69d1c0b29c79f031e204a34f7bed882cb2eab785aeaef901e9b3846;0xa4c5524f3b1ff087a344e3f370a1ce9799cd42c92cbced811fce3343d2ee;0x4104f1bcf53674cd6536ad24e0641392ef4da011bb3b97e4e4b1aa86d1ae;0x8e24549b2f45160bed620454b6c20ead40acb8463383d4e3cf3e5aa87f39;0x2fe3f1add17362702720da46082702504b4c49739a5b196b0d8a262a38cc;0x39eac06ec3bf165520ede36e9dacc82c342f752004d53d2949b23364469c;0xbdb8ae5475728b3c54e9619f942e75bc4652569bbf03e947a5787931ded1;0x599714032863e87fa35d5a08605e91f1ae473918d8fce3da490bf4f954e0;0x6ff6923e7be83eed9a6f53557d664dc2833b5ec740f4134b8ce9a44c80ed;0x343fc30158b21bf4e58980c9969d19e5781b790fb1199e18fe2e9f10e81a;0x1ddde2bf8fb392e0f9f5f9bd64715c11441cd886193af9e63b26eff068d;0x49172aaba77388755df6510b8351785654d5ebad3d7a4446fbf5315ee54d;0x1a506d287b7915491e92fbadbe763cac5a2af6e2c6137c3e6c15fb9d44c7;0x126268c323f7718267f16d6cb8e3918409a3544e8b7873ca3f5eb0b4257d;0x321c65e0d9dbac3ab440683a066a5b77733c9b5ecefaecac7db4a326a2;0x770e6113d6b5241624aab86af2d4e61beff795918dc0e40cba855a312706;0x6f6502a54fad69346955a614c3a278c7c47e27027e9395812ccea6d664;0xf444cda09652ac7ee57da176d7fd65e6d1a0c29e047d309595bdbe9263ac;0x2427e30b5a561eb727f3ed426f73e1f643f231d72b6eb8f226f9d443be9;0x3a67397d3b30ed6bf11d8e86d192abfbc06b234c5606c9f90d2faeaf2e5;0x227755123f30453db2219e570513476ba202df140887559151de44fe7835;0x91fa5b0112ec00db90dca889310aa35364b49e81b2526f5b046c2b3c0e6d;0x70256e2842c9a9075dac63c43f657ffa9fa13316c74b1bf6cc60b83c8deb;0x4da75b46484d689f5132ff1af8da49223832d4bdda0646c242c61d53a2e1;0xa983a1e409e60fc92e5e009b2e76fb0f08d0a9637ea55c8cd6d3573da130;0x8b17eb2c8394690af6c9ef24e1df78aa2c2ce86d0ee50947ca3eb1502d83;0xf0f141c8304c2c3b8684d7b1cd0225a950a28a3e0c3799f4b616358808b6;0x750ae604dee3af8adcd0fb53c4c99ed24e546ef5ba1662a3759e1ce4d88f;0xdcb520e7c5a30e98a84d0c888784a1ffe95afad081dd99646a6d7ef87e55;0x11bb03fab0538ccf6a12f87dd5aaa201d01435a08f7627d0e7a7b0abd88f;0xbfa03d649f1c01f87f462f2b34f59168cba5c5dc0f95572f73885655ff4e;0x724a071c72523b70d94c94cf1b6bf6574611679f4a4cd8f08df8e137bf46;0x8b7dd533a181ea8f22f9586a2f31ac0105938955203b0164ec9aee7b89c;0x853334e51cda03bdd8d38d44dc62acef081098cccbf4b9f247d9b9b7affd;0x944b612169d9503ff09b6decc20b6610352e1791786ef2358916a02bb3d6;0x162d146f5e47da747ad4c7be2ab89b83c95abb4f2d3db2f3ed85bc7d8798;0x5a654346aca41b98f576f9d6848466fb50d838c42d7358b0a2e73e7d0189;0x4fff22db7b3019d8dd4f79747f92853b5b342db77731d1554f4b547b08;0x6ceab903ef4f6fcc8cfcd0a70518501d47d5ab3f52231b6de39bf3f39ff7;0xed55878fabb8d3f16ceb07fd63beb109ecc9905c4edeb4edd1fabb50745e;0x2413ca53682751f30ba95ee01d9c2144d2125189114d93b0e6594f8a6;0xa025dd008e75e7b4d26238a21566c705785c9ca50b084e6296cd3347ef2a;0x145755e45bc097d2c33a760ba21cbda2e636d0a80d9852f9914b34cc06f4;0x45b77fa1bd37f7e5cd6d6b6de337b8c95739dac9dda955c5389aa6d70150;0x8d17024cc90f0c1c2390e698cccbe20b467ff2d3a8b55e9432afb30ef5d5;0x962d4100698a412bdfb4653e8a5f8e6706cd7886e58736728411f89cbdfd;0xa44701f1f9c4d337abb184ee579602cba6a263fc288077e78c27d2e13cac;0x907807f75336e767af69734ee48791f70adfd1f2f455d06a0e8c773732f;0x464387b7f7330644092286349846ba252132c284147cb80131e4c0f30260;0x423e328816c5c1218ef9f536880943c2032b315ee5366c9e60adaef37a34;0x45466ffa6513cabb773a9fd4237e1e184ee49aeeb6b6817a66bbe9548b1c;0x1db43a1a5abe001fab61aca9d1b8bdfdbb1e1d7fc097bff2237cd0c3c219;0xc4996482a225926cb090174f3a02fb82d78eb37a2f39a667d173ae6846c0;0x5521d34f376ecaeb945a698d4451443dc3c24dd0368448672d717770b5cc;0xb56653af8f88bbcade42135f0c4bb96097e3c81a223d93ae505e30647fb3;0x44a48c6dbf8a0dacf8f09a53b9de81a2397154f055a752bfd6b6b3fe4a3a;0x1a056b77f9cbf6cb8b9fff58ce8128db66597a2212a3aca03e2838c94726;0xd852d272093819341ea8d29c8666d0e9a669eedd977b287517613c004e56;0xf141af1802765864508b88dc9b65560e48bd86133723c57205c6af59b911;0x78426a341ecf0b575aeb9f755350d959ac3f2a62a50d8c301c52796381ed;0xcc7fa4817203a8c701f2dc8e8d23741907103164416b9f632a405166667;0x2ad511f11e5f189b9858cfd62172556a8ce4ed8a35cc9223fa43c3836496;0xbac7be004b8959a57d5a791e42bb84fdb049a3e6147e19739e29d5512087;0x21ee37933f8e619e74d03f7ae8251441fae733d34eb3f21f3be7339c9d;0xd9a77dec97914364d74ee2b89448ac14ad26b87ecac1d11cabe33897c00;0x2b66c6b4000800ad4ec848f7124459a0322152fa4b4a425c0be077982eab;0x13760c886e8dc7e7c17347ed6cb11b78925a1393516dc41e74b8b4de32f9;0x42142681c2df7af3d96368185dbaad47670a02f9fb24df412c9fe52857c;0x2afe6e4905a09b725260aa7f711db657c7ffb0faad7731b5b09bfaf3be58;0x185430fa23467e64d69f8212501166e328e999c5ae9db9fd8c0f09fca342;0xfbc4942ccf3079e88c3d5167e5d8c64cfff586b30c9e50796d8b4964f20c;0x2f438065f55393938ba7cc7a6934ef02fc10eb11c1e6a41e9dbff3639e2c;0xea12b1a14d1dfb27b49bcfb985795e27dbf7bdb0995903730d1530fa212f;0xa66f1fc06c1855182c4cfee1057dfc378ef774ff646f2c9278d6b37c10a6;0x3dff22c7ed3d1195432b9b2e4cd9ca23d38b399d06447ca352ceb6b70c4f;0x30bfa260326e3baf372c0879455f209ee5232d37fdc26a7b978033c3bd66;0x6ca2db510e228d7d0a03abf1000d3e82dc481e9047c583e7e89fb6c6fde7;0x44dc382e500c9fd18bd4493c82f190fe18865e5a941fc87084461ebbb978;0x9d0dd63888ab24336799dbc5888cf5ef01b161d18cc7292e64c6fd184118;0x3a52e1c6baf56f7ce4c51beaebbae1853bf210a1be617d5fc1deac8d551c;0x2e77239d8804043381940f2e0eefa852eb50c76a449a63ed295396ed0ea8;0x32cbdbcf9ba81a993423a6815c56f8a01dcb4c84e3b2ac3fcfd49551089d;0x4618d58088ac76c24c3e5648f791b2e72cfe9bb280f763e3226d6fa4c8d;0x3244dd5f8c207aa229376bfc57df76d2d2b685e80f5d7caba25fd47c25e0;0x1d78f35abf290b920c497669505be836a9b5eb263f7aa94634cdfba4d097;0x253649fb144e83fa592642bb5ad1ef2069d206f53db87ba91e9d7fb61d11;0x3ce8e09ae965d5bbf5f75b85e0d74ad605fe13acb1c1b677d82228fccb;0x3c2658115a1b1c313ae637eb2aa4657d3d3576537db9988a3fde96ed5f71;0xf2f847a4ae29fe4fd3282a1c8c12da4243dc3a3583265586960a40d16e4;0x7ecf9eda480e4b8d2fbe74028778fd1e55de95a268e1ad33877bce1bb1b;0x2dd0f1cb41ba9d8519da3c07a5b2e36f90c029f87a04a2f0a66713e838a;0xc723faff6dda1037946eb45b067aa85668c393a6ce78a29d6b005e3af6ed;0x2f32f86fa9ccd5b7cf2512a9bb8f300d931ea22689622051f7073db95b24;0x411260d1abfd4ef536ffb4ef57b1eabeddaa69e8c199c70f2b34496d19ec;0x20e9a9f20a167267756103067888aa1a3df41671c7d2852553c0a50b6d50;0x22b7d1c561d4b8f28c581b3ec9b0bcff5419ae71e633de65ee72e755ee0c;0x1b16cc7c1652be05af59daa035bc785317b62c1c9ff793d714c9b38a1c2f;0x16e1d3595b7d5780156d77f33753a199edb2e7a4b0b6df80824ac8140988;0xd6afb6430441c5c542346017b6dd6c05712853fa79a3ba47ddbc27a09188;0x1774f77188060c2f6082d6fbad1d28ea2d42cd70c16c4b630dc9ef4c409;0x1b64b464f61b5f5d1a21a944669048ce412fbe4a056be8ba570dd795ee87;0x95ffe145ceb7c0e1e33a3febe706d23b6f5bccbaadaa1bf7943a5c8ca49a;0x65d56b738a47cb2b604baafe9b199ccec46393101b68bfae622dba7f750a;0x64af1c86c9d4f7c2b0ac89dc161aa88755692e82d3635916f899a19733b;0xf6a6232822849d323267c2667fbc395026b2db9eb2a835b8bc5950bbb178;0x486d6adca87884af158ce551a256e44a70bd24f57acf504a93abdfd4e28e;0x3df70f5d59296204d0115c24b0bb2003b29d18590a8f3866eedf9c8431f;0x126ea46517d3bfdfa950932f24529714b312785bdb4af9d6bc2e7bafa49;0x2d1b3610fd6d70818ae017d8d746f275b69bb5c70554a99517d1ac420261;0x6ad05a48b45f0ef0a29b052077797e281e4b4f795e2681e84bea9089857;0x7b938010c2c28646d1bbf27b417574221fc5b663f422f61221adf56bce0b;0x555037cda5a07e623f5950f0d37a6ec87b6dbc061445441df5444b929325;0x22dc0f9f0dbc9374d586c3de6f22439142654e4f7313730d7fe054abdc9;0xb42f1c52c998fd3c150a9caa0b3f065e4c129f6ad4656745c76dabe573f;0xffffffffffffffffffffffffffd68c930d312539e1c59c4fd7235f478baf;0x2e22fa609f00dc8397ceadcffc40ffff;0x0;0x0;0xffffffffffffffffffffffffffffffffffffffffffffffffffffff1a0073;0xffff;0x0;0x0;0x0;0x0;0x0;0x0;0x0] _ _).
  - vm_compute. reflexivity.
  - apply Forall_cons; [exact prime_29955515952511465159960107169754929'|]. apply Forall_cons; [exact prime_6999441151774987463'|]. apply Forall_nil.
Qed.
Lemma modulus_30 : prime (2 ^ 240 + 115). Proof. exact prime_1766847064778384329583297500742918515827483896875618958121606201292619891'. Qed.
Lemma prime_37' : prime 37. Proof. now apply (trial_prime 37 5). Qed.
Lemma prime_379' : prime 379. Proof. now apply (trial_prime 379 11). Qed.
Lemma prime_168277' : prime 0x29155.
Proof.
  refine (check_ok 0x29155 0x9155 17 2 [0x17b;0x25]%positive [
   {| s_r := 0x17b; s_c := 0x1bc; s_list := [0x63b8;0x2e49;0x21ea;0x1d936;0x31d;0x0;0x0;0x0];
   s_u := 0x14037; s_v := 0xd08b |};
   {| s_r := 0x25; s_c := 0x11c4; s_list := [0xe2ac;0x8800;0x5f7d;0x10d0d;0x1c566;0xc9b;0x1c828;0x31d99;0x0;0x0;0x0;0x0];
   s_u := 0x1c7db; s_v := 0x3adf |}]
   [0x29153;0xf4f0;0x35466;0x1ce29;0xb007;0x970d;0x3c9b;0x6739;0x289be;0xf4;0x11040;0x14128;0x464d;0x6;0x0;0x0;0x0] _ _).
  - vm_compute. reflexivity.
  - apply Forall_cons; [exact prime_379'|]. apply Forall_cons; [exact prime_37'|]. apply Forall_nil.
Qed.
Lemma prime_34607' : prime 34607. Proof. now apply (trial_prime 34607 95). Qed.
Lemma prime_10036031' : prime 0x99233f.
Proof.
  refine (check_ok 0x99233f 0x99233e 0 2 [0x872f]%positive [
   {| s_r := 0x872f; s_c := 0x122; s_list := [0x827b6c;0x25a492;0xbafd0;0x1abf;0x0;0x0;0x0;0x0];
   s_u := 0x127cfd; s_v := 0x11f372 |}]
   [0x0;0x1135079;0x43d36e;0x11f3f16;0x78022c;0xec2b9b;0x509717;0x74fa;0xe7fd9d;0x147b9c;0xb79b5;0x269a26;0xff847;0xd2c6dc;0x25ff22;0xe52ff;0x71affa;0x1b04c;0x6afd;0x0;0x0;0x0;0x0] _ _).
  - vm_compute. reflexivity.
  - apply Forall_cons; [exact prime_34607'|]. apply Forall_nil.
Qed.
Lemma prime_622233923' : prime 0x25168943.
Proof.
  refine (check_ok 0x25168943 0x25168942 0 2 [0x99233f]%positive [
   {| s_r := 0x99233f; s_c := 0x3e; s_list := [0x78d52d2;0x3;0x0;0x0;0x0];
   s_u := 0x6fc4481; s_v := 0x6e770b3 |}]
   [0x25168941;0x1a924ea;0x2b035db;0x200a608a;0x94a56e9;0x11d3a37a;0x8bc9464;0x7b16be3;0xa1b795b;0x92aaa3c;0x1dee2e9f;0x340d84f3;0x51af99c;0x73414be;0x10b46;0x1d6b1734;0x7e63d46;0x2e381e7;0xdc993b5;0x1f802527;0x10187398;0x24f1b060;0x33ba5ec;0x1cb68b00;0xdc;0x0;0x0;0x0;0x0] _ _).
  - vm_compute. reflexivity.
  - apply Forall_cons; [exact prime_10036031'|]. apply Forall_nil.
Qed.
Lemma prime_31111696151' : prime 0x73e66cf17.
Proof.
  refine (check_ok 0x73e66cf17 0x73e66cf16 0 2 [0x25168943]%positive [
   {| s_r := 0x25168943; s_c := 0x32; s_list := [0x8d5c;0x0;0x0;0x0;0x0];
   s_u := 0x47aa12f48; s_v := 0x44c006981 |}]
   [0x0;0x3a3852fb7;0x196d35dc1;0x17a48b163;0x1cbb94240;0x4ed9002aa;0x5a20e1311;0x4ffa3a9e;0x42995c496;0x796d593b0;0x3689a18e;0xa17a2b5c;0x18c66b76;0x4e4f45524;0xa61cbf;0x977de3935;0x20eb165c1;0x6e909ed8f;0xa41b5b9c2;0x1fcf9354a;0xed04f5b;0x6916f25e9;0x7d11a8f0;0x2d2fc7808;0x57803da;0x18ccfcee2;0x5ce95b4d;0x1b16f0d95;0x92722b095;0x46ae7a;0x0;0x0;0x0;0x0] _ _).
  - vm_compute. reflexivity.
  - apply Forall_cons; [exact prime_622233923'|]. apply Forall_nil.
Qed.
Lemma prime_62223392303' : prime 0xe7ccd9e2f.
Proof.
  refine (check_ok 0xe7ccd9e2f 0xe7ccd9e2e 0 2 [0x73e66cf17]%positive [
   {| s_r := 0x73e66cf17; s_c := 0x2; s_list := [0x0];
   s_u := 0x4d4448a10; s_v := 0x1 |}]
   [0x0;0xe37e87ff;0x17c0cfdbeb;0xebbb16b;0x9730cfe3d;0x1acda20d74;0x2d701731;0x28d0a3d5;0x8d37bef9f;0x1430321f4f;0xe56b7391d;0x1fc2516ca;0x10bbe5a7bc;0x2181d9fa9;0x217d2f258;0x101d615ddd;0x4bc8e2fa9;0x214f43959;0x2c38bc1c7;0x134260347f;0x94ce4a69;0x242d6897;0x167acaf7;0x1834c7a96;0xcbd59fc89;0x2e417aaca;0xafa52ca77;0x778377781;0x2b1f24999;0x493592aae;0x23573d;0x0;0x0;0x0;0x0] _ _).
  - vm_compute. reflexivity.
  - apply Forall_cons; [exact prime_31111696151'|]. apply Forall_nil.
Qed.
Lemma prime_54655205895567881887985563' : prime 0x2d35b0a602d77ffca2af9b.
Proof.
  refine (check_ok 0x2d35b0a602d77ffca2af9b 0x2d35b0a602d77ffca2af9a 0 2 [0xe7ccd9e2f;0x29155]%positive [
   {| s_r := 0xe7ccd9e2f; s_c := 0x31edf9ebe8d86; s_list := [0x2a5627c460198b3a53a14a;0xd100670140db3a43b65d7;0x247bfbe7ceb096e1bf723;0x65e0f88371f8b5fff20bd;0x10309ec90d6582880af541;0x13b7d7b89b0f7378c6f7a;0x119120f5b3ae92ebe9fa0c;0xab7a4294c415fc620674c;0x7fb656a96d42ef3f2917b;0x714efa07ebc8ac4ae501f;0x3c431d2542198ea7690e2a;0x1af71f3f0ceefcbcf635c;0x21b745deb2379faf578805;0x2bd34a465cbd040c0ff6ff;0x7a4d92ecf0a47dfa2e95;0xa0bf386d3ac7c2310886f;0x11b8f6e947470813193e6d;0xe4076a882925e8fef7a;0x1a82633c611349c67ce4f;0x3491e30a9bcc9d72dd0963;0x681622f0ed512f50b2ce1;0x5822b91c7ec7bff406d19;0x2ccebe3e57be34fd1c14c2;0x2cca2388279e8e0d456e2;0x2cdc7a93725ca26e8533b;0x263f451f36631aa550ee89;0x2f0234607150b1f1d5c08c;0x39e5138031e8463db2c73;0x59ef05d333c5eb817c50d8;0x17028d9e88aec3a858664c;0x9b196bc73d87105174521;0x54890e255a640d4817d1bf;0xdb655f11b555290daadf6;0x3d8212e7d60eb5b4480059;0x289dac68aa8e96daed2a;0x3a4f69e10560dc195ddc8c;0x5efdb370870eea4451aa1;0x6aab0003b35837a467a98;0x12e8d7425ef0b5e2eec7f6;0xc2c2931823b94443b5e47;0x19050cdb892e3fa5d23457;0x36c8241ae9c9cf50e4b7c;0x395cc393717e6fe0f791ab;0x2d4c;0x0;0x0;0x0;0x0;0x0];
   s_u := 0x1199e404a9e1e0e8372316; s_v := 0x1cad11957be9fe192a701 |};
   {| s_r := 0x29155; s_c := 0x119b68d59b702d1932; s_list := [0x20495173244472ba67c153;0x287c3b9fa902cd5f3ec5d;0x157bac37816bdf9f1b1f20;0x4711bd9e663c4166cb36e;0xcef2c5a7dec6e5401922d;0x4b93e5c0294c2b34255452;0x220b4a4a963550f9587a11;0x2c53b77dbed9a9cd0411ce;0x1bfd4f8d11fc83c0bb6744;0x10806c299f3950ab1f9569;0x1fe6347f1b3c482033534f;0x10f735aa17d4160abbc079;0x4a281c97dacbcd30db1df;0x39fcdd9881ce13903d2b;0x1cf6d040015a443f4a2de1;0xde5afab0c4a363cfa5cc6;0x2cefd12675154ae97cfd49;0x13a8df577aeff37779b3b;0x484ac835e9789c646957d0;0x4105352d5b3b631b03251;0x41aeced8b31a7b61014;0xac7f3ca1cdaf1252b4005;0xa5c2cf1bcf7b5c58c6128;0x475586e4ac68e676ea954;0x18e4f69d88bf7ddd9e3ef5;0xebbc6ff4435ead436ebcb;0x136c513e2774a8e322637b;0x150ff3a60f543fa3a1ac1;0x52cc71a67887d3e8c22e8;0x1318f7390b77183b91f46;0x3b3842837d7a7054505ef1;0x1c02be591abf5a47f702d1;0x3b52085fc38cfe644e47de;0x4225467ffeef596c5197eb;0xe29a6ebeed1d327456f41;0xef9777215432d24545ec;0x5047a5c0e2d5fe5fa78d61;0xa362c87bc4f826947bd31;0xd7a070b2931f8bf9a35d;0x2c5c2ba5d992a1109fed8e;0x49c22c8585098673eac0e9;0x134aeb2700a831b5f564ed;0x240318330b68aedd90664;0x1ddfa397f7db120052ff31;0xdf5a916306bcb8c9b44;0xa3962cead1685529240c3;0xbcbf84d0991f2edaade8a;0x135767826a8173f7a716e;0x20af2e296f34a38de64dac;0x5d7f8ed75350bd76268bf;0x12c078795a2892b6959ec;0x20db487725069a940bf4;0x5d89e9219dbd03a6d2b7a;0x47ff67ebd6f58b4def7037;0x1c47b1095404ad4f570f36;0x4607cf8dc5fa7c56b8b7b;0x49a8417287ce59a15c1f9;0x32baccc5b6a58e5976eb;0x16b5fa27d4114659fb1788;0x14b26449ecacbdc61ac994;0x929b8834024e012f524e;0x5a9997ce132a66;0x0;0x0;0x0;0x0;0x0;0x0];
   s_u := 0x1facce2aba5a769ed8e04f; s_v := 0xb208cd992f98b488ecbd8 |}]
   [0x2d35b0a602d77ffca2af99;0x3e73d88bfdc1626e9dd5ea;0xf30a392f114903b7fee5;0x359b172ec0da5a83199d7b;0x26c711219633cc2dd08e60;0x12309847f8b1d4925d08d8;0x96e2f59abd57385aeb398;0xbc606ca005a7ea009cd2f;0xfd929c3514374f60857de;0x4ad0b145503decf51d7862;0x22c5e3defa07d29300c074;0x64e938135f21798bef427;0x383c37aded8c13e09e6;0x286b8609146f89c52bf64;0x17475af7e76dbceab19336;0x302fc863d88e6abc510ad1;0x216558b88f7d167e506767;0x3a432884231772370ca347;0x25f6bb523c3052db81658e;0x115f5f94a483270b11470b;0x1bc3703b41cd09a3;0x192057994381e8f010467b;0x1a170ff2e3ba2bb5b34507;0x912417b88c467a05ec7a5;0x20ae6edec8913ecfa1f575;0x16cad89095f59c9baefad1;0x31f34bdbb5a62e76b48a1d;0x463103a24fd3ecbaf67611;0x17201e5aa1238be1bc4b3a;0x15ae95ab298ac6095c1cb;0x480fe00381cfa7bc1e351f;0xb7dd64354f786b5903dab;0x4227c2339fb73a16598731;0xab40293ceebef3c43497c;0x8b17b27c7fa58798c7ca7;0x154ae877ede9dcda597ac4;0x5e77f2552dcb8de9ea26c;0x4e5bfef9e6c654d9704d00;0x58547318414afaea800e;0xbd32c8dfe48cf1e15ac09;0x6772c68d76e119b8e831c;0x7c6aaa354e21eb9b84ca3;0xe88f03373242fc9bc58e;0xbc6f1e132368b9831e8bc;0x2f32012ec8357f50cbbbc0;0x1740cfd5ad0392d878ff3;0xb95df3644433aaba4f2b;0x3ebd93bd22edcf49f8c8cb;0xde9ef84b0e799950fae61;0x44635b9f7c0ae6724d82d;0x182c056044d903b264874c;0x2a9ac318646efeb97d64a;0xed3258c81c1c89146ddbe;0x1b15b1cd86c96b4bf356c7;0x9b47c70429e6800d966d5;0x7685dc24d1a296e666abb;0x9d85023a0e45c7d2ed;0xd70bd287a36b1e35f12c1;0x3b3554d2a450597547c3e;0x88e459fceaa0bd9eea6a;0xd791e6ffc5ff2b3d04423;0x1f9f794e38813d06e44f1c;0x20d4dbdf94d74ae9ed475b;0x5a39b7db4e82a57f57bde;0x162ec66a0c083f6e1e6202;0x8b6724ddf53ec96f748b;0x352f1f2caee6a168f3;0x9945c2d311ee89415c7f0;0x4d02625e7e87723040643f;0xd3a9653ca8fdcc8f233d0;0xb49e314de19633ba51f5;0x1de1c959f00aa64598fdc2;0x468fce691518ebfba15124;0xee1b22e55b29e0bba979;0x2270b69afa4beb89428e3f;0xb9ae8e013de076ea54f40;0xd3b6e65dc5c8742272d14;0x941cff74af5f14f2894de;0x1319c7f089d40e03368242;0x16;0x0;0x0;0x0;0x0;0x0] _ _).
  - vm_compute. reflexivity.
  - apply Forall_cons; [exact prime_62223392303'|]. apply Forall_cons; [exact prime_168277'|]. apply Forall_nil.
Qed.
Lemma prime_16976701669651368349272188178520681328363943812827' : prime 0xb9dada19ead1b63c70f086618cdbc552c4ea4dedb.
Proof.
  refine (check_ok 0xb9dada19ead1b63c70f086618cdbc552c4ea4dedb 0xb9dada19ead1b63c70f086618cdbc552c4ea4deda 0 2 [0x2d35b0a602d77ffca2af9b]%positive [
   {| s_r := 0x2d35b0a602d77ffca2af9b; s_c := 0x41c672af28b5e1f7832e; s_list := [0x22aeb14b341af9bead40142e89d1d34d94731c7ed;0x8a92949a69d3ed6a12605be53cea22d6f14199fa8;0x7af3d335cc09839e42bb2fb73709b1535d9d7e887;0xb67518070e6d0fb575b6bc580705c709ca411e5e9;0x2ef0d0ceb6b9bb7d434c72630e470cdd8244def2;0x95c577124c43c7a99f7a3028179e095d2827bf988;0x60b8048ba03b6e61b4688c5c910b794b8a633dcfe;0x38d98184b2fdf3ae767456a473c993e8d9feb140c;0x1684a35596815362cfc1df4980c2b32411c886;0x3a28e08b1fb6f51d903e280d9917957e1850443a4;0x13229bbaa3296ab6acf540f803dd9a5045bffce08;0x74684290cec292955472aff64333aaa5961c1f8d2;0x31e388dc5b5d6903cc84b4e07aa7da531549f154;0x2190846b07b89a03c262d2b79380b362b7c9d3e7d;0x148145fa213298fa3ebc60dc9849954a3895b7634;0xd620f0d3c904ea6a6b1aea803b343dbffe5eeab3;0x10776caeb981624e199e104064a2a9fdf1c1f06468;0x9e940d39ae55e1ae22805c27a7537c3577aec1e01;0x71eb2a1d486a31f1bb3a4b04fd38da3ba4363f26a;0x985dba93427bd7f9cfe725e2bfb6de0958f217f03;0x5d587b2cdf9159724c590ceb9beb3a0999c30db;0x12210af8acd2d9ab17b51570f2d0e147815c76d91d;0x656d37d44c6a0c35c40581fcc850e08569b11b202;0x4b9ef3affcc4b53b39480cfcb4717c5cbe91a82d5;0x15695317003b9af20eeca96092a4ebed58c1907586;0xbbc848e69141c5863eb095ffc5cae8371faf7923;0x24573a3d118442247ea4d9234e83d37de34edf19f;0x44bf973d55a3f3b9aec40eb6faedcd1d8ef03055;0xa740e79f047a9ff44f8a9c70492449d55a6a67089;0x8267d6eff1ec6997f3b4a9e4048cf71ec0945f705;0x1fa1215c03d59e213480b4f8468f79986304d7da;0x807e19df4fbe752a71a97d0ca52c82b9063226;0x789ca45b86ceacd70e69f55f0acf3682a27ee47f;0x116fa7799eabf40e37266632030656147a7ed0ca2;0x10fc1f50737126fd877ad71249d454bd6d4554543;0xadd988e385025915ae9101357b9991d601932fcb8;0x5da03c3c8bc655eba92d8769d1f196da17b9b8e8e;0x133b43017601777631885c23bc40f392c7dbf1002;0x1b05c0bbebd2b35a1002ea4a6829d5cec877b65a6;0x135991f1d42fa1a904ed59bdec07102ce54fb2941f;0x8185530f8816f1143f1074a48670973c7b4c721d8;0xb6d5ea0e23e4b2061b74e364e93ace6ac599c6021;0xd8ac4a46fee23e5d5898e1674d4848366ee35b9;0x14957a36d2ca1eba0b9b8325e456a2162b534f69;0x674102f35f468f5832a190a3deb4a0ed72cb063a0;0x76a80c12b46fd66b00b1a7e5be7bf6c4facc0d466;0x9b10b8a66b19fdaabdc66d08083b98e29b183b279;0x3e533ccc9167ec2c461f769925a5ab2b47d03b19;0x6dad2dd82621dff9ac5a9dec9a36d5d6df7546799;0x2086f9f065322a2e1673972a8efd2e3130b91784b;0xc839eaa22b2a095a4f3c4150d919184216a938bab;0x6993169009a96e6951bbfc06a6e90cbb1d3dcf72a;0x36904d73428f88475acaa8ff9e094bbd2d46c41a4;0x1201aaafda0ee95ae7628778874ad9bd7c2513a39f;0x4cca12ac36805f59dd815eabeade3f0afdf0d9c75;0xcf416567388975f0ba70ae93fbc993de39d72e095;0x443632ce96f73f3861530a75517f75170a141d19a;0x7690c6c378fdb18259dc4ff1e2b64b7c984da7c88;0x3168d484d550f0c11291e8824c90f5aba8e81aef8;0xa76ed20ec58d8e2c960f56eb17bf3ffaee39a6f47;0xbfa5682217d000bcbf60f445ea36f81e4abec09e;0x140c48003e302fa52ede292b93bf4247d4dbf14de2;0x6d414f5a517a556720cf5fba54b7d72c3f36a4da2;0x4318e84947ce7f02f570668857162a4b00f7effe7;0x44775e4daba49f2f8e8ca32c0dc15500f8833cdf6;0x173b5b433d5a36c7354cb2b4cf1b78aaad811f87c7;0x3069009d0cc367fc03fbebacaebd32e47d43e4d65;0x83;0x0;0xb9dada19ead1b63c70f086618cdbc552c4e54dedb;0xb04f41742115ae54d14f7ffff;0x0;0x0;0x0;0x0;0x0;0x0;0x0];
   s_u := 0x53ed2f0bf4ca6e3cff98be0682e16097af2518d4a; s_v := 0x407c48b0f0ba552cbf74a41de5e08575c9412e7e5 |}]
   [0xb9dada19ead1b63c70f086618cdbc552c4ea4ded9;0x1061761d606efd91605a90c6dccc80bd2201182338;0x92ed19e30cbe3f1436931f4561e387e00ef49d63;0x10d35b9f6e4ea0f89d280da3e004ed363b1e17e0e;0x63e4e6a27cc93bdc691a839f19e0d111bb1db;0x576184569b26ec97d43afc311630ce32f3c5dcb0b;0x2850ee4065f472c195ba4a27c089ca34d41facde;0x25678a9cd1b9017bf453ea6852c79e369b0c6d64e;0x3ae439b4199f5c6faa42b2a047fd7cb4a9dffe87c;0x14c1b534ca57c300b820fb8951801a4bf723ec73a;0x4cf67a703d1d72329a49dc9464daf2cb2f48a7407;0x99b7c3c82ac7bc0b0e7e0b1d0cac8d9ee1d3873d9;0x7e8db0ff316523f27cd1164337952f6ec2c1256ba;0x70f330da6ee0d2cd34bf0985d054121c067d32203;0x2f0f0dfa06672f49c416db0c756b31e97089bba0;0x9aef8f4cdcd4113389e28c74558d7536531948852;0x38eac8db477a8292d38f136185bee08e730a8ce4b;0x58d37d7fe0875b0b24459d73a454bf6d695d8b;0x108bb603d74a2ac006f8093a30c54da570d7103a2a;0xc368bce0003fbdfa0ab149ab9761794745a8466e;0x60e903f7c9dd94ce691fb576730292e4abce6c678;0x2427f767800cbee424a06978826a5ece9d583889b;0x511693298b17b65e31b74b2cff12e5d8e3899e55a;0x16bd2a9f93ee2f679512536953f10dc4fa67cbc7df;0x4747b00c18f242ed668e18c5c62373e4d94b46e66;0x1597decfa508df3e174de687e103ff3ce8a043446d;0xf7963a9788e40e589ba3ce80fb0604c4d14068224;0x3ff962cc2a49ec7ce4e7e6ab7a58da01d24a7da8e;0x6446e4700d821928bbe763fa06ee3fff2a58411e;0x7b1f04787f6eb259dd6bb209908967b50e26625a;0x12a0c6a7ee9d146ecf86fd139e4c5571ff4c30ebc;0xb6211c216d21ebb948207f97112a8d5597cdbc6ca;0xa1bb8a1a6edabdaf2795522b652b7c3d5271ae042;0x39f249ee5d17243de05a6bb5465eab93d403114eb;0xeba20a37e6b530c1fea023477666e560d1a26420e;0x123063973fb413bc06e1f62741a8b8969d2e94513b;0x3cc1ddc8f00b30e1b70d066b2bd050fa29ebe6fad;0x12026ebb7aa1ae6666d712beddec598eba9b5c3df;0x5c8435a663dea6f3e372e3adc1bc54f5f8d0433ef;0x8ca37896cee04c52483fd8444d80a316f2418464d;0x10736239e5bbfb5ac9af5c673bf441393124d5d4;0x1507b5bc86c23ee52c0d10cb9f36dd97eb3ce72;0x69789d135e588d1023fe707b22d2bdf279fed14;0x63bd98d0bad750db32943cbd4f7e81207f99419a;0x6d64d12ff740a6b59ea7c97a6483aec7ab621af42;0x36792922d49000fceef292fd04e31a80377a08d9f;0x692f2dbda0fbd7d3f52ba1ed352cb850b5c7722b3;0x543817fd2841b988fcad60eb4e192c0d6be10b2a0;0x1e25acc7a11e51dda574e6d654f56796b373e3b6c;0x5099c908385c1e7cda8d599f8ce27c23dd97abebb;0x10e322fc344f00662242e82d670f93148140589ef9;0x931699e259c609fa8fcca54284dc3c06df4347391;0x2886706c6da7704654ecc345c1368e6956d5ecc62;0x87079d72bb017415ba31aad017c775b543edd1b21;0xddc811c266a5719a64ffa8444d35572316ba6d22;0x118ccce9810baf2aeae6c39b369e6c60a76f9c240;0xd3084443191387c1bd6642a6e8c9e648c13276647;0x6f1d51ca13560e5e7ce5c9f64f2ecdb69390be250;0x96394a4c1c6ae1a0a1b6e574b00047237e4b0cac;0x7635649d03d4e2b12429d1520b7999e92b0c5ea2d;0x64246284897092e89c11a3194d042911545d5c7e1;0x61208842111d258f4ab1f6d2a82258d2faa3df5e4;0x63ff8888c2557101fef931da09462423fb04c04;0xb7b0a52f872f8b6ad8b1a876c89ad0843e088f172;0x21f6e058cc4d2f13d19e527b8f7e13f8ebdb707c;0x169c2f57bf804fc34a277e98ec59c2af614988807;0x1a3f829c37eb5c5ba4f80a62d7e5ed49980d916bc;0x1d44313baba36aa9132fd534db3eb6f81958d1d28;0x914f76123f534d515104d03f9ac43c40b6bb6b096;0x353d1f2afeb203027402e9bc9fde3a228097f9ffd;0xb3343c317e3c10812845fecf89ca0ecf40d02f9;0x568f29d247f0fd8f603202809747d65c274893ab0;0x6c3467c811ac7a1bca390e05233c5cf268d1982bd;0x144d150c52ee3cb64947c8f8b50d785154b9fa60bb;0x10806b5abe54e11b84137421b2716064a1d08ff0cc;0xa568d66c8c59556e88fb3f9d000c51d89d9ec5dd5;0x1f1bb92fea8097a2ae4ebd87989a79885c2358c41;0x95b31963a2c00dc792080622c859f4610a786da68;0x713b60630dca894a825060851043e036b8d5eeeae;0x7727f160274cbb6b74f996dca5052ceb05c6b7713;0x3e59a60f0d726c0f130abbbd17b1014d552f90f88;0x56d20305342ef5abde75f45382d8d6fde38072ff;0x16437e4e34859fc316333471b5d073fb419a4ff8a;0xf22649085d7db751f998ca91e4941b2885b070dcf;0x16a1984266367a17f80a18556881b8f223b6fd345;0x985db9173d8bf9b6608c0d65365614bd3ef5354df;0x8b810c62acc0d71befbbd798c5b7b74f4968f446e;0xcf115a5b87c7ebcfb778a768440a8120deedb384;0x22bdc6472758283775d97b72697d51714a54220ec;0xcdd6ac7804c5172dd713c9c3730c82b529e77cba;0x23a286a375b2199b7f21b02e5ab6447fea9937494;0x144fdfcf2f2a589b324c634321201549e2de8c9543;0x3c6f4a98d722140be925b7391d3a74bd5615b70cc;0x3a5ed7dbf016d633c0463399cb1f6616a1d5e44f;0xd3cabe3229060c4f1c5b0529ddad42aaee2c2621;0x358ff7e6773d6147d20caa4439b75452baaaaae81;0xab315cc41133954f39b87c41fc52199c3bbfd247a;0x16f3872a642057a7dcc1789f2958816da10b5c2f50;0xdffc42d83354606e5ee0362ebb14456081826785f;0x24032f7eaef7974c85bfd66f595529d1b63c3f487;0x19869b463a9c30ad8f900f4b093eb06977ff3d476;0x1902f49eb20287f12df6e86d2fac1e9af6a5843ce;0x80d3d6eb66a8a15cc323f1aa51185910af3bde03f;0x851e7b933d98aea4393b9fd6be7da1e40d21b6cee;0xf2b5012d08be98d929f7ae8fc481609315cd60ab6;0x29289ac3ee5672534d5052b9e907059af24631e69;0x2499a846b6bc197e78dad854358cd1a4dbf09fd5;0x169292e09431832c5fcd7d81521ed73fda46eaacc;0x590c487a1a3505caa87452d98d38cbe79d3afc5b1;0x87c27a32202460faa57f013bcfa188942281d7166;0x55808b653dd43b51a42802016b7f86b966a352afb;0x694ac5b4f604f708598f1b11c5252782dca026789;0x3125a7fc738d43ddc2535c58078c623fa26c26a66;0x7ff99fdcd8d891c5bd56ce0062e5f001173e30c01;0xf9c2dfebdebe2b5bcc6d69e1742848a02164dcf7;0x8003b93ba811f9b4c2ecafd810ba309a777fc3d31;0x1963618302a7404cfaed45251f9c7d7c7b3269c0d;0x1fba31bfe9544a30ba9b70acfb8764fd37228bc2;0x5c649f1b3ddc98e0c2f731a9576c56ecce5ba6aa7;0x51704ccc6028089036d8108c23e6431e09b5d3960;0x60bd679d00dad686c685e45828f799558551ba785;0x45f20e5c8c2a34c8f0ed8c024e0eab4896e89f3;0x11654bf4cdfb5eda4d5fea093d99a37339c9d0e534;0xf60b0f2c8f7b944f4e930b34290faeb7df89da357;0x986c6c6489db3da8fcf52621230425bca854bc1e5;0xaac03d7067437243612b325a0578fa46008e3d72;0xfe54fef6539a45b9a178d32594586bc57fa6079;0x6bfa19298bb8f046b49bc836b0b9a134d3e201985;0x5f233133ab0854899aeb2d588071816c8479d9413;0x79a1e1eb8f2a95368521830fdf1ac691e7a54b777;0x137bff8d6036ee047a627675f747f805f20e7bc24a;0x8dbec7c46e73cb8a2e7a5657f84ca6b346b962d5e;0xb1c5b76a09e64c4840b377c35fcc8b0e262b57f1e;0x3c9080d1b20ec93d9d68f1f07b14396308eea425;0xa688dc87225188c054e9fb60a9f28c25ee7aca918;0x90383fdba90440a5cda5dec7121bc5d0b57f8158;0x8cb77bf6110c185ca7bf7a8b5778c28a0bb819431;0x325369088bcb97fe2cba10ff6b85ca3457e82ce5;0x31198279245aabdd2574ab4cb009bb384552f42fa;0x464ae5ccd4d762371bd2e313f1f93c4ec70f15269;0x69166a451cd2fda3b6641b3bd8442ff04d525c3e5;0x4cf731b3ae0a279c4d0e811146f1db59b6eded943;0x1a17d13cf5bc1435054df759df2303ea72e47b875;0xc57380075947c054db0d566033d109638d113a7b9;0x12520419a2902cf1ea9f3d59c614c4b1f7ad7fef96;0x13a6f18286471734cf1f99bac86bc8612fe7aa186;0x79898e66fb8c88073ededb42e0cd082fba928daf0;0x150670850d519f6f6c7446654af17e1f137cb82fb2;0x63ad16d2b9133e3a1318786a9ac1542e57f2663;0x12cb65e5fdb884de97275ae91cfc10d4f97d1683a9;0x3c5165c780519ed371a298612cd823123;0x0;0x0;0xb9dada19ead1b63c70f086618cdbc552c4e9d0edb;0x173b5b43335a36c78f318ca2770f2a8abd2455f5b5;0x3117001502734b5a3441d27446bbcacfffa3665ff;0x2c13d0;0x0;0x0;0x0;0x0;0x0;0x0] _ _).
  - vm_compute. reflexivity.
  - apply Forall_cons; [exact prime_54655205895567881887985563'|]. apply Forall_nil.
Qed.
Lemma prime_452312848583266388373324160190187140051835877600158453279131187530910662737' : prime 0x100000000000000000000000000000000000000000000000000000000000051.
Proof.
  refine (check_ok 0x100000000000000000000000000000000000000000000000000000000000051 0x51 248 2 [0xb9dada19ead1b63c70f086618cdbc552c4ea4dedb]%positive [
   {| s_r := 0xb9dada19ead1b63c70f086618cdbc552c4ea4dedb; s_c := 0x1609e82e8422b5ca9a29f0; s_list := [0xb3040f5089430d99b3d2a4ce297ec7135494db91a70369aa2824e435a2bc89;0x609138cf7b56660f511e0e210caff58bdc786231e8966dc023e002c7d2617f;0x20a7e0fb2e00a792be024ae1f0f5eaea7300caa35c7bfbc13b35da14a2ce3;0xbfb4e17ebb850dd8054bd68f5d56eab2f3e3fa8a79787211327e30a3319dde;0x73bad9cae9f3e22d733984807f4ac86af2e0b5c7b52ce3bb9f605d641f8b2;0x1769abfb57a483ac29bfdb6a86e47d6dbfba25a05e754177f51171aac9748a;0x1d7e3a9bd39ecb08dbaeec3f8f22cdf742e9cbeb3832f867d207da90c55d066;0x106ca5575864c5db79fb974505bef3d703a6493ddf0ae29b5159522ce7d28c4;0x1d8f2e487209f5f5f095e5827e9564c3574bc2d8f757b5c7742cf342b13cec7;0xc9713365595c5f3b53f108fd4030feac01ea703c31b74b1447293f5eaa37ce;0x5e47042db40cae29ddcfee804a54ee452818ba20159711f701c434abb9e2;0x14ccdf3248e7662d74fc3da0c88803274d0b92c0fa9d9be919e25efaff78b9c;0x1ccc634dfc05214b7b033e9120a114e18e3145f644df982347342aebb0fbd2;0xb9787785321a100e52df2e1c4498e087d38ec5952c0677571c63dcffb245e0;0xb6f4ce1ddb56da9406907937512cd53ff8ec1a468b6c7867d05c5ff1fe8ff;0x4907c219cf82727d4c7761abdd747e82f9fa451cc8e5eb2909f53d44a0e5f9;0x9070e0aa68346f9da5bf5c5373971cf97430bde75e4789bea3152dbbdde10b;0x3bfe2e45001b67ac7d209fc29916a1ce4fcbad79dc286c83d581e3ae98d068;0xc039382de36190e3cca76fde5011d938559da2c1b7aae9040ca09726741f78;0x13d66a0cc66088cfb89473685ae8e3d1292cb498abc951bb4848782f00ee074;0x1932b3f11ed4c4ddb1103d3f2cb91961d656c181bd7fe4f2b640654ccedfcdb;0x420b4f5a3d1e7a325a64f3c6e3e99fc7c9c671c9c129da873b115264148e;0x9bc440d3c6e385e752955513c8b38f616cf93ab69ae443908015549071cc1d;0x1970641d7f4e986c178b43ac975e48f191d400a262dd238bb006848ec127554;0x62d8ed39d182765829630af8c8a38033d61eaf79495e82414653cc95ed0ac0;0x1a57d7dff5b3a516708ed98661093f9ae915783636123a70f2440cd8c8b9a0;0xa7dbb42786fe198bc5a850b1af882de7dd0ab804ec4172cdca128efd0c86f0;0x51d06793ff69198dbfa3a0442c553b9eb884d8ed3dac29e2dd1bba85f540;0x33b1db9ea0a90934ee0b6375ae836ddb064c776a03c5212ce406ac088f076c;0x65f8d41f8f0b520140b778ce12ec7afe172e4659ccfd7dd1c826c11c2628ee;0x733dea0367b853ad2ae2c27d6261cfb7f3d1b6c78dd83a988ec002708eaa15;0x30f64a8f33354bf06251ffc08cd5befc84616838b76955fbeed5a520c7adf;0x1007507a1f21290657449a5e5342b93c2840d7d20eff5fca7f1a381275c63bd;0x26653d594984980ceec5c51abc9f66c80373d4326511d270d0c2e6f4c4bd08;0x1fa4d7825bc3f108987e0da516746db8a0322e4b0ef3815cbe0f63edf6db00;0x6ac95b390c404d7bf00df81d396a4fb266d79feff2550f18b02fb06acb8329;0x5ad6190a6a34796d1965f88eda6914a57161a2004c0f32efceb818fb4607a8;0x51bc837e707bd96559da22f61d127e3c27e26fb58514be7bbceaa5a19e3b11;0x4fe2956490eeb7184930f46df39bba39c56783c4dde027905350ad5b174587;0xe33cd9beef7ed6f370be92ecee10054ab196ecfb2a80bc081a88dc93eba63f;0xc7fbb7ac2e587231e541271277c23525bc9b78c956192af8505fb53fc82467;0x4ea84d120cac1230920834492f40cd5d4bba1ccc76e83a6487df5fdc9a5317;0xc37a4aa53cffa9752e83cd990275d577f87f186bc2f9cd7f140937aa532d9a;0xe62e70789701572e42362aed1339c8b52d46a9edfad92337873bb1265b9e2d;0x8619910ad2f105ce1b34ff62453e9fb4de0c42cddce657c67ca2900afae6cd;0x1af2a6857a6b8bf6b7a0bd20395a6db027ea9c9c4271f93b6a851e4b78e6d9e;0x1f5e8a2c9c89f0b72a7240c759df5d7172553965ebf8b76eb64bc1609b6071;0x3f2ddc553c237402422921279462050171f968d05be6b4798e60bc8bdde6d;0x2540830f27e4e695bfcad6a24f1fc9a1c2d85687e50a326e57ad9f4fa906a;0x133c7e047933c8237d8ade706b0f3d34e3c7ad67d3f2306975da6625fe665f;0x121ef541a655e95225f48ead564fb4ebf2abddadefc9e305abc482642bed10c;0x678a3a0bb58200750357fcde3ce521c578672d79e19d16fe766f628e84c58e;0x3313116dd7387c1f83606b0a9e9c3988d09fae078cef8e0bd36c11f8ae1774;0x6fdbf39f646d2889f6ad715aea4746edbd7ad22e79baa3a4f0cb5da9990bf4;0xe5fd7225070670e31ee8c5ce2d85898820705a3dd2944d616b2f999f4be23e;0x15ee1b90b0e4a54a4a95f2e066fe9d48cbc43d5b3e3c6f64306253b3adfdb88;0x566606a51f13e186e7b22705faa9e52ece38bbc572405eb7d9c3ed28c357a8;0x658976cfd434cb132d2eb974a30995398b5e996522d29f788070901508be20;0x1de9d3459bcee17164ba3ac19faa58bccff2296fc247b0b1237e314bde04209;0x29ea0e3072b88edc5f79ef3c104e64f4f38c0f9d83fddd6142fadc898d5325;0xfaa73e06ce0d73ca087cd770db819c276bb3416fafe43e5b020ab474b75bdb;0x501fe6221ada2f83f5a06b864f3ead81a1b3f70b28ff1646020076ae6a1050;0x6f7afccbb13728d6cf9803eaea63bf8519baf6d48283d098c4b9e29e04c89a;0x2daf1a0b8a8290dcf99ac0942aceb514308bc8203d970e005c08546fed4ed1;0x46e228c26fa466977a4879b02c2ba1b646daa0247e262f49472b35e54f5d28;0xb8efbe87ddd635293471ef898084a6be8180977958377ae58d6497d182b8e4;0x25c641b71cdb404032ac106362f464ad72f919229e44fc95d5f47651167110;0x6dccc50ed9e90d4353fe137b69e3c1ec180fbb16253ebea37660f61d1a6fc3;0x17ca138a13003c23d339f5b4aa30d5967a83ed12d15eabd574dcde1cd5fc;0x1218b93603f219759d2a628428f1f6b45e55b23fb4d86d699564610a5571f6;0x86688dd91e7aa652272431ae4d7f502f20f36e5262fd28ec7ef74a256674d1;0x4e81240abbe7480760f14766cb017e07fffffffff4f7430cf2a76d05069ee6;0x1fffffffffffffffffffff2a763bc803f39e363c0001643d1551877c4c5754c;0xfffffffffff9815f2378000a8b8b452291fe82100000000000000000000050;0xa435d03ffffffffffffffffffffffffffffffffffffffffff;0x1fffffffffffffffffffffffffffffffffebc000000000000000000000000a2;0xffffffffffffffffffffffffff;0x0;0x0;0x0;0x0;0x0;0x0;0x0];
   s_u := 0x28f93e46504501a221a990dd6fe047d63681294a95239c6bf3cc99faff56cb; s_v := 0x23c7796b0a71dbeba98a10f705e1936d03e73cbdfcce863cb92ef50061adfd |}]
   [0x0;0x0;0x0;0x0;0xfd8ab5e76b1b0a2f43c668a5c0167980e38e38e38e38e370329161f9add411;0x360b9aada11b4695a42ea897b166d9ed55d20884d2b272f252ce22d3da18a7;0xa0b7a44a9f0a8f107f1cb2b1adcdc95ec4eb55b82b6887b2204881a66cfece;0x21fd5bbaa5fdd07b9586f0f07a38c20fbef7ef8fa30960cbe4ac84ea59527;0x2ccdd32955fbc70c1082bcdef3cdb79219a757c75603c5577343d63dc8e426;0xe63ae4eb3d2036e56a4e463ba51ee1f890e2abb86ddbfe624a20f677f19409;0x5de894a5db91e9e79f75dac07bff35799c5697931696ef4bf9b1fcbd4d7477;0x107e0534c3eaf5d57ff0de399970587231f9e21460fa0d1773a2fd689e9ffe;0xa3331a0da88673a8e0917562fa99f45e51912fd550df2f4ca724b91961342e;0x4b18aeaff1dca0893aa7c767c2b43809678d50d3c742c8bdfd386af6e901df;0xb5af53aa6d32a12a542328fc5406958bac2cc51f6414f915eed84f9c1f97d7;0x528eb93ba0aaf7a32aad2ef0ba4222dac81526a981d8a1318f80e276fecf6;0x12947dafbe74447e551a5d645e05fc34f6d3dcf8dabb40c27e77dcaf54aea;0x86ce38e88a1a82d107c96bb3d90149ecfcf61ac40c82ca8a6e98346e443161;0xabe8a8226f97a97055b2e464f880009e6203079f65bc247d392f9156658114;0xe2348ec4acf2cf9e293b25a8906c870248a85dc63bec71b149d9c503a3ee6;0x7a891e7aab6d1d869571bddbc21e35d0b0b504dfaf949815684915804e6be;0x968a61926cb93531fecc3be88d223f04e901d614b26b4b1be55d1a60ffb840;0xd3be6d56ef3f4c1ab820ad70b539da0042a3f85e05cb81f556be179cb06ad9;0x9b2ec87743ed873b7ee3a599c76b9f4ddfcbacdf93ad78fdb37f367333586a;0xbfb1566d194df33c1714683830ca4f50e3326270f23dac7b9f69139d0e92ae;0xb4f656feef482dd226dbc4653e99627df370454c67b78b82cf617392265b0b;0x1c751c5fa266463bbc6c5363cff7d303473f19824915e4bdf6f15f9694eee4;0x9d67d14f0ce7096bfbf763926a91bcf3bdab9a3a51c7949fd5f8849657e289;0x1cd987f323f01438385d3197fdb1c0417dee0090b945705611fb63d9d43864;0xdf78d2824843e43a948eb9bc8d634ad6fb36a509a762343447c5aa7f8537;0xa481727711f9c3582fdab238313232ebea9b8ac67f89ff9e6f0a76fdd151f;0x7e23054d0b0e053d5349db09308ca8d4268a0554631a2b15da9cabcaf6fe4f;0x99cfc48dcbcce62a4939df9164eb0c05b75d2b5782dd2dcf0d2976dad0be52;0x4644802c99db57a7595a64cf052e1e33932c0d33142302bac172b2292ee57b;0x668bcc1b928ee8701d78d3255ebc3466a86f0cbfaf62dff625264f146ce013;0xb7f1a5baa41596f541f8b31c643276423795ffab99c3758a775aa4bf982809;0x7d81aa89c854de4d6c35986c9e55659f354506fbe9c25671f15d4ce5337696;0x171829d712666c8da16705fe9b255a12f5cb2d47bc5193d4ec9251ec5f8a66;0xd451b7d152a755f245a18eda0fa0adad10ad26ca0b6ef892e858bf5271bbe;0x82bb368d6394b12968856a85c8f64def47c68901df7e5c8699a86fea32fd77;0x54b8e4b817ef98e8098634838f662bd782f16ab5c197e2e6905d92869585b6;0x22d4346fa0dd5a9bd3020881f4e06b7c8dbd3d62d9dea00e13518b8d3ff249;0x3085293583e67efe4bf15f6f807f5b6a380b1c573afc2cbda3032218748a82;0x4a49d0f8123163db4224762f225f61b9fe2414be561fc5ec7910d972b0fcbf;0xae73832db66ce2a1e2c1e247d5a1c0fc994585650841ca57472a60000b416d;0xa29fd7aa30d6958570f9959161d83996ef9cdad981ae330c6efba1085b4130;0xc104caecf593856632e318ba185a764ee530cdfb991f5dc757243e2379bcd;0xcb983db74e5fe38b28bd7433c648f4bfd07fa9697fd493d4ef0f259f24386;0x145393748f368860444af83ba6d96348936311ef53e6138f445c5aaa3288aa;0xa6e799c077ce2e8c3b381d26353cec335128b9673239c1198822d2e6bcb83d;0x33938f206a5833d4df180a6ff8d22444b1303cf83d6146487cd7e664a74381;0x1dce27cc62d100d00dddb98a2f98817c03c1139cdfd6065485398882a07642;0x137bf4cff3ce359f7a5ac23b889c2e9156158f99b2969cff68f4a2aff97e99;0x35d10ebff1fb4f590dea751785a4e5977eeb6013fa101dbff7e3c888e0ea78;0xdb10559a8b6d50224e3dd41db0094f14e817ad94c168ac367b4b8272d6519;0x363129af3e3859fb554c43ac7814f86ddca61981bb3724b26a41552213e601;0x4b890044f07030183e78037d92e37f65953895e40883ae06d71ce361878bc5;0x48f8c592c049fa8ad2286765c6bcb7df25d5e6c59033303a48e4e86242e623;0x38ea260e1f2e94e5bf288465b4fec62971096d403d78035fa17ba384a934d6;0x82a5d02c718b8d5652117678efd36024fc8f278a61d0f2bb02f743eb787cfb;0x4ac6a87a64223a044fa19c84496423bdd0d1f9bd38417830eb37934c42fe;0x43f92b93dbf6f8a3de42b6c75d2f936baa5bf2b366be6f423568c84472e3cb;0x62efa553b5e621fc6533a1c68cd97a653d11887a8ae19c8bcf01099938cf00;0xc6d2bef1710cf70de0db533705de9ac4a9520b538084f6d52ff14603e10667;0xdbb2e11e1b939a7084291d1a7d146123811882439d27e666094da30a1d516a;0x619ad22c49e6c1e2e827bb496f2250346718f4307ead0184b453ac81a8e5c7;0x29de1f6504915a5ece0a10bae05a1ca1dd323f742ce30e3f066b8bb7b89b22;0x97f58f6a3c3156783d2eaec4f08c65caaea82397be8bb97f28b80612c2f6f3;0xa1ca3484df8a9ed14304c77f0255d45c6691e069ff2b6b5e95c614d5d1e790;0x3cc8c5fe371a1b8a120a380d6c430fe8f3da56808e36b17b3537a92edff78d;0x4c87b9b1e2933519f7a7d6881481444f55a8e092ac15af5003d3761439b482;0x7d7edc0c44bfcef4672cf8ce992a59fe5c8fd446a5dd1ba2fb9ab365a9ddb;0x250a8dcc71ad1b17258bd62eb9c7c999f888d8b1c9640126c0a209c0e3ea6;0x23a498425bdcf0cd95c827f2441cfcc5bb513f24ffb783e6631bb13bad75a0;0x4449d5c4d2cb5e46315651176b96ddc30145ca9fc1ed0d6b8f01596097ef40;0x11935b8bc21156cdde1eece3a90a5860e5cedf78c6ca8da1d5e5b06c507ee;0x8b6de9eed261835bb7b79d90447ece43daee6f22c1b433a71c6e1ee7433784;0x12bd88763f7d08d467f0a34cb8ef45f4a64d28c1192149323abc430dd2be0;0x991b6ff20be92d2f04507f2896a4df4199704e74eb2f685f5dd7bfbdc8c9ab;0xca0c5b6fbc7197ce2cd0be97acbbc483840552ca90e572fe75e6052d043a34;0x38a8e678c342f1b25025ac74a8519fe1d46cd0398d680f0f0379f99117a3d;0x7d682702ce565554afeaee9e22849603ba7bef5bee45ce8077bf37560fec0f;0x193961b8c59ab5aef14bc20cf77360153f9ac9219ba2a379dcae723d876f50;0xb550ec705f17fce2d7486e8de88d820d91cef1de2f64f3d194d326ce41f9ed;0x5f0cf5b4ad22f89f3b112acaf914134894562e3caeafa762a1901bcbbc1563;0x1604e73579ec5a0d9e99d7d7305ba750dd492d447055269d25debcfef8b233;0x295bae97280251e862a5a6b13baf2522f3a6eaff1cc2ee0fdb4e0e18364393;0x2a424b41d6386fa5a2059233282215c63eefe5bfd5c6ea31ca606076e0c9ad;0xd0c7d5c24acd6565f1e0cd7c9d2e5c18cdc04dabe3bd1193b23469027e288e;0xe8d4ab0e94164ed5e88f5b4a071c81f7abd59e2c76e0dd4ee4dccbf8a55e7b;0x289cf81d0238431bb83551215f9a7b0f0c22a4f72ec53269e09c974d32673c;0x960560d1ea21bca53b3e54fa073ee11ac76abe10943b5683e5a00ae5118734;0x7fb4f7921901e70453b2e74c0d836df81ac12c348da33a57511ec853618686;0x78b39ef7204bd12f3bd3afb1e7214852baa957867dc5ed2592224b4d4756e5;0x1ed6bc2610404d72b1e52f42c56f2dd089989b5fc399d5aa43f39b48f73203;0x72bdf4f3c24a089974bfc69c2da70519ddc291dcfa5d96670db5f031954086;0x1ea3a6563806aba0570fbed39a699986d469bc1ad2db162e01fd220459f295;0x86194f4bd531832f44749b70fc07f18a8ce4e4443ae9488f22766924c02e;0x320ca8392df20c8551dee9142ff6e8041e71b896edcb2463bf60afab24338e;0x2d332826ef0bcb8da422ede41bf56d1c98ce563855f8d9768d36b63bf4d9e;0x27a5ca3e71036076d00dea1b439e722a5b7d094155325ca611f7c4c75868df;0xdce97f7e2c2ae6227f38b26278f2eebf6442dc13ba3812cab5ccec786a7f4;0x267b2f0a15e1684f0520e9cd4ef07fad3809f1570e2a82b4b7d84e7985e4f6;0xe4067d4391c57e0ad02167701cdc8bbced94dece0d54bb08b7402f3a4f7da;0x435b3362cf31c361f33ec4ccede429051a7a9eca2b2fa264f32ddb75d8c0c;0x4932ebea01fb650d1c5425b967e28a5fb4f135b3376e903112ea34548bd8f;0x64fb4c5b1cc9fed6f97c34c459bb6a83299de77571aaf5c423c7a5c98314d9;0x3507dd4f359b178c3999e85d038a7eef6c70237c4b06b9e751ed4c884b05c5;0x21663910d5c2f82155bd0cc2be4a3d93a3ddcdd48d982fecd624d21cc18ee1;0xd2bd09626c5dbe7fdcab4f5ed4ea05ea4ca34b1c16e0f378ce46be784aefd2;0x141bfbceb6273893a03c1d9d338fbe2700920d399c8c4c72b60faf8b740420;0x5d85533c62c45940c3687f99142cab88fd91bc98e5185c942ec8354ba1d3d3;0x4ea4f2a085ae93f77822759258edc98d009ead80e5adc65218a69a189790db;0xe98222c8fa75501a574229c375fbd2fa1ff39a6618c68ea4ba2c718ac2b69;0xa42138a9826d59bb3d6e468f0a8041ccc40b3f604fdf7659b1702e6fa5eb;0xa6b2fec4c2edb8031f4ea327538fc7304137cb309e3756cc56b6a178677360;0x1c1c4fc9621fdb2afa0aeee72443146577abca43ec3cf1575175231e5faf8a;0x54b35f300c9fa6de5e060e73f0455eace2c411437065e2461a1db937da6a51;0x196fe82763495b4eb7017931d00b3ca04317d5b540c8fc6a6d10a4211d8509;0x4576665927a74f2e7024feb33eaa086532aadcc32bd4886fdebccadd165cb0;0x1a992c3bb6cc0b21d40a0e4d216f12142f57c477832c4b96159b9b856d245;0x5db5b1516348ef87b2a102322c9017820323f3ecb35d841f9102587db8ba77;0xe119fdaa8007badd4e03563fba7fde0fadadc6cd283eb39ac24a0eda681b03;0x6e3f25461c3c6a7452786abc935f44f95c176f522263ee7e2644b0aa998193;0x44c0d03538ee80a9e1c1ac9aaa13ea6fc818ee64032f20493d8f842b93fc05;0xcabcb293be497229b62912dddabcbca4142e94d151cb48d2b3cab06bf03908;0x191662a17b59c5a4295bf70c10345ecb32d58203e5be747b9605a79097c8ec;0xabbefcae140441ac926a81bd1dbf5c4ea7d6454f77f8e7297da64680ca5bf8;0x350004932b0f74c651bae92fdf58226641e09a0cff1a9a75ceeb1e047b962;0x12a1d84b36c6269cd714d3188fd8963075eab1020a7a4152c049a83578ab08;0x15935a9aa77255e34c36adda212b4a7a15750dcc6844d18522ab2a716f654b;0x19f81a0f2e2457a5ec8bf1661d82ad589a3b758f929c1a3d4db37c46e7218;0x9299a22c9591d094e1dfa13c7023776f5ec27c5706a921334f6b1c07afe5bd;0x34c55505db4010d91aabbb2dc85bfd8bce6395cc28cf1c1d1fedbffdb3feb;0x5e0a4494b3af5cfe0757cf4ae875eb40ca9782bae142319960033c9f83cc1d;0x556ceb0ee51f2e0fc661ce1f355ee2061c54080ffa73a02b27be6459aedf4e;0x167cd72e29eb54de3c9bea00a8cae5270d42635bea22e8c209fab033cb23a;0x2be58708ab83cfbf7fdd4ae13fecb9515e5eac57935e339c78b513ac591;0xdbaca2b8912082a298ca5fe73c088d50cd05d9621072456cd39816126036c1;0xdbec9b4b5064066aad88375c6a2d77e1711c575bf215694704e50d787a46bc;0x37889dc6bdc5b27378da1bc7a37ca53ca4b039a2ff79d8dc6436e749b24525;0xa14837d11cb41702cac7fbd2e9668607de92b15889343effe50bd9c9721ba1;0xc7c2a8926a4f999ade5e5f0b85619c0bd542748d8a4928a5c3ca4dab5cff5b;0x238bc8c696e7c2e634c26026b1f4695a21843dff4d261fcda36d2285640207;0x6e3f0bc58b20ec96648f726a870f2bb9d724fdb986b6ade195b170adb1f5e1;0x1876d00846fd0a3e90bdda0cd5c3c20f781fbd7fdd03e3a0c66059504f8ea1;0xf2b188daaf6f6e2989cc236d74f35603428469e6c654f586b31628ebba98b3;0x2c67145c383cc39bd21a7ce3ed550a8bdd8ff643347245a92ce4f27340a06d;0x19fc865f72e3cbf9b679ada667047a3528555c197ac7085827bdf542523945;0x2c127f13870417a063a921b196aca725db6550b0a91a6eafedded570d0e2;0x290f7abbace351e9bf6cbc40b8aa6e4e3a14f6080e1ac8c2af5509a630d417;0x6d2bbd737c6b8ff3b7af2c807dd875b20278128bd0dd7ac94d1d83738afc5f;0xf9b4fd22d69c27d3d72c1e7efc16cb9fc8e2c5758544b06634303aa3c615b5;0xde98a9a921aeb7fa91a93d78b8d741741f90e79490f5d5d0d4d927515665b9;0x9fdd3e71c11c3c5fd0c7783f5a74942263c992c58dc1b9e72bd86f4de909b7;0x665e4780bc8a2701535d289df69409a474b30e66c5a5645e8e3c1b5e869c1;0x3851b48656b9df804d701a9fffe43cc7b364eed6382191b962c43cb4cc8c0c;0x592561707520e8e6687ec4ef1257731338e82abd2379998d47bb4ef8f992;0x13906bd96932396351be94628c7d302f6169a040da7c2ca49398f376a9c7f4;0x3f56cb589eeed5f3b32c3db32dd986f0d3d369b8ae626693170377374c276a;0xa869f7b71a1442f8da5db1d4049f38343a15d03d0d409cea40ddb9b04c47f;0x59ce3592a2d0bcaa5abae54b6023cf66a231a3503dbc675227f8f0b2dbb1b3;0xfce1d51b085431b8d52990f6c41d31d5303d64015e144da9f7baf2b0c7f529;0x1e9aa4c1e485d7a7c6aa7218fea77167827ceea8b8c5426ab9c2ae841362ed;0xe560f96840757bcce7c1c48135bab700a5a19bf1d869a9a460cd104c99e3b9;0x43aff926e9404da85fca549d2187349c031457eca5415c65f59c140b1d2e24;0x7bd6f8ac674aa0db949f7e2ea81b5eca4effe3a9a367d0ad009fdbc0023429;0xa0e51106a181b898b32833763d7babea14a30d2ba9c1792a63eb6bb2fb5eed;0x5d29e55c78657724824240de191094155c498353f040a6a0cca96be4ac4de;0xe587895e3c5873cd8fec02549270decb48eb62a4cce4decc606cd7375fd102;0xc2ce29b4b2e2eabf20718eb6f51c06d59bb6af29ebc07f0801c94c54f829c8;0xcb388f990da7faff88a54749003de8afd047dab5402861139a4c43bf66e22a;0x2245cf36694ebd8a31703933f755f8e7e1ca6f008ed69dc7d8260275efb5f;0x6bfa9decc70d067dfe7eb362db25032fda024b3aa6467cb3fdd9cb0c00ae3a;0xd3b6760d06a7f62e43a573f410e72757c5fbcc61ed9049bf766fc0e55f10e;0xdc664071dd87c5276f41ef0d7c564ffc15e647dafece9f38895bdde7193261;0x64a1c59eb79ac29f18b33a1b3be6073d5a14de621239b69d211a188d095e2;0x91ddb36ba4a8975f73fea839184462f53016ef76d1c5e2ee1be20b2509ec80;0x43a147b0c8bd49f66885d770303461dd24c1df1567d5cbb3db6898655528ce;0x3a1739add9bcda03ac3996d516c91e984e40e014e15f6f419ec7f513b8e36a;0x344af144b44ced4eb1ed19f00976c35f8f2ddc26f17253d6ed859c5d039a92;0x420bc426b2a5b750eea7abaa188a70a440917395d4e9fa7aeab5e45438e93;0x9b628c7a52e32ff6d116a70fa4e286a8e9bb7926837376ca6ddd944a68775a;0x3feee6f7e5abc0cb4e9a5a5566a211c967159efb0f0b3a86f13e88a4558fc5;0x12b57308cd9b8545f1a752fec129e387e55d2d03da614eb0522e86ef0aedaf;0x3fcd95f36b9fade7d0d88cc9d65de8df61e19d70b377bea23165f140c6fe8d;0x5bf02938579f9f76b2a0146b8e42a99c36c181e864b29baf8f36bf479bcc;0x6ff9528bf17f706315be4cddebe3207ad5b247800a51af3f2b4ad1e0d74437;0xf436d2f9bfafdfa4e4180ad6bdf68523c39810819047dbed686599cf7d3a5d;0x32267edc5efdaf742662ca16d1d1d844c75fd183bc21e5bdedd4ee62a9acd;0x8b67132a23cf7eb49ce855f960ccfe68f201fdc4916ec0f7c76e80323bbcb0;0xaf1d767bdad62c5198ba9ed21cb537a267685bca8170491772259c7fb7c7e5;0x733f15a9c4c74b5797d228546f12c247ba6792ea321b241d7564026bb617db;0x1032a58a6b4f23f4782e4020c92d52f30f6f7be37090a285d531f5c5460d8;0xa9d14c1a043f4c395329eebb3f8e8fd351a5485916e7ad2220080f2ce73796;0xd8940d84fbe751195c318f97d3e44e95f26bffaefa7bbc53e2dca298b8ae24;0x2f3e3cdb8b9ab87b85af7a6e19e75d0b82fb042e022063e1e30d5f28bdd1f5;0x51708127a6c4bb8bf4a156b9cf8581b3282f0632e49d87bd00eb797ed893b;0x1ab62b16cf16f0ee4e3ccaad06cd08d8c894c4cf56d60fc87e56767f418d11;0x8b41d550036778f76695f18ad0201f7ed2b3775fa9ebc366c31ece1a6c699d;0x4d10df7657e9b59a8dd8e126b3022a59671365cc94806666c18d7f406ef78e;0xfe2e1a3778b94f5a9b9b8a98195bf45e90a89485a4710e7a98c2099dcdf38e;0xd4650e94cc585c9da6acbbf629f8880b3527ab2b17700fec87f96cfb395d5d;0x94ab9434238ac42a38c45637a9311ff25e9d834217b7174baf35f0db4e70d;0x659658456e856c9fd6fd03e28c9caae3ea2f0c3f4f9e997c3872216104ce1;0x98f3350d50eece3bbba7c706bd32e61c159221911aeaceaa07fc309110e599;0x114ad35daed7f3e26ce48bdd131b02e40ea341cdf1526bb5dd17b0c9582b1e;0x1777332c8a76ddea8e40c702ac287ea167890c3791218637d40f4ed6eb9e06;0x282940032425ceabe3d27368aa121671dcf5b010a1f5239951f6d87f07d992;0xbe430e0f42216e2d53bbe00cfe1f02b5266bf2894b9448720ae413bc087777;0x7727c1424b72febe003aa71407c9ed358f641cb28dfc08f2a62dad534f8812;0x7183061f6a9da8984c86a924225b5e01f0e75bae961d96fd92a712cbcc01a8;0x5130296f5d5357c431a5de8f8faabd662f5d826ae332154be1dc16d40f1662;0x66e0dc2c5b87731924f1dc9d9319decf23dad143d272a06f94297365fba087;0x2e1c4661271139063105f555ec60301df86dbc6d460884cc1fe118b0a331;0x6b7a5cd410b5f2354a3f5d2b225ef963f35080f3e130ee0219a258a10738f;0x443f5b59ba2056425fee66430450c87e2b64328073bef05ccb0d671d05281b;0x8113133ceebba4406204f008373d675507cbc6a03ba4861d9e2f0b459ed6e;0x849dd4fe03ba685baa0fcc92ce71bd8c7db6d9616ce01746fd698a85a6a80f;0xd806c778166650265481d9a5f94b1591ab86fc8bdae4007a89ec503bc78034;0x70d00bcac912625e2826803d2e11fcc0551a17640f230693f797b72c40765d;0xb68b0fd3579bb5b0ddf76a3f9f106c740b0ed13950f27be076e3d81029a581;0x1a0218f444c49a00c4e0a6e2c4df6d28c8e92bff4f3b6a96a283435c3230de;0x1274427f756c15f19f39e2b426debf37b6d2500071948e3ec7fece581c4df3;0x33f8722af0264b816c00a926285b2b719649479f324848e5bf95636f6ad;0x7c3984c3322c1c05fe7ecbd092a62623e43df3a29976fe1a5d229c9bd406fb;0x82b18e26fb7cfbd084b8c8a34f379107268e846b579f20865ca19579a49d23;0x5240382beec4a5578b321eaf72705a0023fd9843a1c7dfbea799b93b4dbcad;0x2ad50b75cec056228c1d0799716f167d707a3d94535a82564fbd585be4e4a;0xbbd96c72e34b6012f4cf2efcc945efe8dae62047092f67e41995178637ae68;0x78f491326f4c540272f9d9f79520ace688f91e1a79c79b59bea61f54ec251;0x31f076428c424733a370089d2f7b62b7df7dedde43146e2272968e3db1f68a;0x1a6e3141bb97eab98c908d179a731d558d885fc0b6850ee59e0aa97836ba;0xadd591d49782f15e9be628088dff59fcf36e5813a07c37bf40582de8bb9d;0xfffffffb5b65de1db97c950708dbd1e6d3851b71396de5ef2a091e405c116c;0x75648e690da5a4d2eefe4588f7cfb7be364804214818a867a00ff;0x0;0x0;0x0;0xffffffffffffffffffffffffffffffffffffffffffffffffffffffffff5e51;0xff;0x0;0x0;0x0;0x0;0x0;0x0;0x0] _ _).
  - vm_compute. reflexivity.
  - apply Forall_cons; [exact prime_16976701669651368349272188178520681328363943812827'|]. apply Forall_nil.
Qed.
Lemma modulus_31 : prime (2 ^ 248 + 81). Proof. exact prime_452312848583266388373324160190187140051835877600158453279131187530910662737'. Qed.
Lemma prime_1151' : prime 1151. Proof. now apply (trial_prime 1151 18). Qed.
Lemma prime_1877' : prime 1877. Proof. now apply (trial_prime 1877 23). Qed.
Lemma prime_2333' : prime 2333. Proof. now apply (trial_prime 2333 26). Qed.
Lemma prime_3016876668783623441' : prime 0x29de19589e02fd11.
Proof.
  refine (check_ok 0x29de19589e02fd11 0x29de19589e02fd10 0 2 [0x91d;0x755;0x47f]%positive [
   {| s_r := 0x91d; s_c := 0x49818ba2b7450; s_list := [0xd73814f6bc45f7c;0xeca775b46d8539e;0x2547bbd2dcf40478;0x1fcd053940505e0;0x71053662e2a0e7;0x3794ebccef6e76c;0xeb6733efba10e65;0x72a5b14146532da;0x5de9f70efe1f887;0x40587e6ea40b988;0xd2eb63ab73c695;0x224fc68f95a6c5f8;0xa875a1ac292f455;0x4e07d670481da26e;0x4cfd72ff9527eaba;0xb9c886de105ae0b;0x3786def6ce836ce1;0x23b8f444af6dca30;0xf7f1b5b6dbf9588;0x5e457d396fed3a3;0x17e018a40cf2dbb6;0x423b1d3e474bf104;0x13f06c28362b4bc4;0x55353b016520607;0x422f59cca9dc60a;0x155478888017d6fb;0x1233ce635834af33;0x88c7c147b50ba90;0x45b3ceb908c1b8de;0x52ec84631de6cb1e;0xe808c2cb6b04556;0xa317004f8215b;0x674ce80c79c34c3;0xfd010b0ed842f8c;0x1db141a18d27877d;0x695839340cdf52c;0x73d0fbfdb8aa75e;0xe68f681215e29d2;0x71dec51be5617;0x1f4f16d7a0c6fa9;0x259eeb048778c6a3;0x86e77fb650e6174;0x58638f4577af795;0x218709e3ed77c265;0xc3a;0x0;0x0;0x0;0x0;0x0];
   s_u := 0x210c8d8d1f2fc539; s_v := 0x1b190cd3f7f7d1db |};
   {| s_r := 0x755; s_c := 0x5b5d189f8e8d0; s_list := [0x23e6da8e9c0f4291;0x1ff0297eed24970;0x8d516fcd0a531d2;0x4f11ee4596bc5cc;0x100ee0fae1d10ca;0xc9f8d003e0ea06;0x33ae14de2f23895;0x4cbacd116efe3af4;0x1249568414195391;0x9de6a0ff23521;0x1736855dc86834d8;0x2fe3d4b12c51b94c;0x1a4b8a9ece5aff24;0x74990af51ed447;0x160e23b8ee174a9;0x28174def95d48993;0x2746023534184a1;0x1bb3024e02844d83;0x2284bf45be8a27;0xc9f3156c8c024e6;0x3237b5b49c2b2511;0x30f57836dd59340;0x44e045b84bf3f3;0xe4510d59d43e57;0x2ef92be39ffe9f;0x102d5be164299489;0x6e12e0868a2ae69;0x8e998bd4ac756bc;0x1f51aa32e725c501;0x21026a249b99b12c;0x1c74fbc89c7c74d1;0x39a7e5a81efd0cd0;0x3055ce8b0c2d5dc1;0x69c53184948ba6;0x704802581c153;0x18d65bfb63e4a2e8;0x1b3ec4065e9a041c;0x86ee3015fefaba;0x2610b1fe0c79fcca;0x141feea034da6c3b;0x5267ae5f0f40a9bc;0x83e1255eee1b0cb;0x4eeeec7da43caf2d;0xfe52be340411e1;0x30ea87f5;0x0;0x0;0x0;0x0;0x0];
   s_u := 0x1c3d6effe466b31f; s_v := 0x358f6e6c3e1dc1 |};
   {| s_r := 0x47f; s_c := 0x94fde7e063af0; s_list := [0x43168fe0203d04f;0x12c3835f8d0043a1;0x294cca90bf83fca0;0x12d89d74476e08ce;0xa4410381b8ef45;0x240f60f0839b5920;0x3d1555c2b4c84bdc;0x323d7524fc27d23a;0x4fe634d2915125f;0x2f050caaf8ff5145;0xe20bc7161637182;0x4b58e9976a82a1ee;0x230c64dee3acd1d;0x45b115d10152ec20;0x14e8906bcaebb6e0;0x179a8bf068d6ea81;0x18c31f8c0b43d3b;0x4da16992ac45a2c3;0x191e0a0fef6f673a;0x13e0c08a82356137;0x723af7260842a81;0x167db507304c3f7c;0x189d7ea630ccaff0;0x22ce779326bd052;0x1f2e0a1c6bc0534b;0x2e175bdb44750577;0x24a57fc720738552;0x2de42d85322c4095;0x310e7cc673717456;0x1d3f7886b1688269;0x13591a06cbecbe3d;0x503a3c9a54cff94;0x2654f1510741e0d5;0x4b1080486228263;0x281e61afc025d0;0x4e96c7660b469fa;0x13db2097b9260a0b;0x43ea29b8a3f6642;0x2d13f0f038495cd;0x281f27c980baa08b;0xff3c899401e97c;0x96102a95373162e;0x1d27ef07e3b3542b;0x2c31c7a2bbd7bcab;0x2f3c3103b1b0943;0x1875;0x0;0x0;0x0;0x0;0x0];
   s_u := 0xb6288598fc1ac56; s_v := 0xf99b2c9f181e8f |}]
   [0x0;0x29de19589e02fd0f;0x41af45e4a7e43f1;0x8ec270ffb11846a;0x24fecce8339c26d1;0x6b0554adb7f0039;0x20bb47d27901c172;0x470c1d5126dbb3b;0xcff16f21575113f;0x194a2a5fcecd6b2b;0x1df80704faf16fd1;0x2b1ec532ede6e15e;0x46f37857fc98c2b;0x47830b4df7c5a2a8;0x32a20385c669f4a;0x5e336d6cc67504;0x148fcc568b2477cc;0x997ad3e3dde6a8c;0x12d5d315758300e3;0x18cdcbdbfa8a7cde;0x1a3b80875b18ea9;0x110a88237903208d;0x102f0bdcae986698;0x3c32364ab54b5a0;0x224999ab3101383b;0x496d67c81fedbcd9;0x18eb349bb2e25ac;0x21197e1f9246ec63;0x45577a06d4c1f012;0x27b72cb22889b8b0;0x10da863e5552c6d3;0x3022ede28137e5;0x220e181e3388af7a;0xf06020be67a8592;0x1c4eae6e0c35b905;0x6efb301cbbc0c;0x125716b397384a4d;0x9794896c913e;0xf7b2540660ff103;0x19c47b08e3e9dde8;0x4c064fc719ea252;0x17ecf6e26ba02351;0x1d860cb5531b586;0x1dbf16cbdd294510;0x18b219b9cbc55aa4;0x20bcc3a6209ef1bb;0x319ce8900fcbbbe;0x967347c0312b0d9;0x4f44435b9f0a58;0x3938a4be976b69e9;0x4db4d0943fd1c724;0x3fed2f8b232140c;0xe906cdb5f5b9c9;0x378355acdf29fbf;0x4cca4c9488e1365c;0x30ea87;0x0;0x0;0x0;0x0;0x0] _ _).
  - vm_compute. reflexivity.
  - apply Forall_cons; [exact prime_2333'|]. apply Forall_cons; [exact prime_1877'|]. apply Forall_cons; [exact prime_1151'|]. apply Forall_nil.
Qed.
Lemma prime_2956539135407950972181' : prime 0xa04639073ce370c515.
Proof.
  refine (check_ok 0xa04639073ce370c515 0xa04639073ce370c514 0 2 [0x29de19589e02fd11]%positive [
   {| s_r := 0x29de19589e02fd11; s_c := 0x3d4; s_list := [0xbc49cb81c08995947;0x41a150a207b962dad4;0xcc0727e577f0e17c50;0x663988cb0838c;0x0;0x0;0x0;0x0;0x0];
   s_u := 0x2123673f497a743ae0; s_v := 0x4ec74631c026ab843 |}]
   [0xa04639073ce370c513;0x8439c0d9adbc290dc1;0x5f826b76dd2e25a063;0x45e2106164145fe786;0x24e3592d0abd7e26e1;0xd836f278bb3fe0487;0x6eb354b6d934c406b;0x91b47ea70203e37556;0x46b186e17e90d5f76;0xdd01e5f325a217f3;0x13d55f5005ff266f0;0x37503242d609e25d3c;0x212a8a40a959526644;0x54ed41d7b1b2cecd8;0x1cfbcab1123c021add;0x1dbd4236473bf9a66;0x459144ada203c5b4c9;0x10fe5a0ab88a8be547;0x39f1c1143d68d3002c;0x96f5513d477506e65f;0x7e86b8a344f71bf98;0x12a990034f742f4f44c;0xcb9d5f12eaadb029d5;0x18f00594101cc846c1;0xaaba1c9bc070ce323a;0x15478c1e051e5f59e8;0x1bd2bdb46369e6dbec;0x2ef97547a2a01fe895;0x7ec73487910ece2c44;0x12740f079a996bb4e4a;0x13f0eda5ee946876519;0xbb48e17971f23ebf74;0x413d7ec5b5ad530f9d;0x620c6a2bf1ed1205be;0x12b32958a0dbff2286;0xc3fd701d88cf0c3526;0x12ffbef63bafa2451a;0x218656e43f5b1f886a;0xbd27c2954e99448ee;0x45e5d1d2aa20e367da;0xf05d1d722e28ada1c5;0x13bb978f3fbce3762c2;0x42c214d6800c0e3808;0x18f282485fc8b9d0e;0x4295adf14fb85958f2;0x154604b05591fbe2;0x17684e321e137ef40a;0x2c6cb9730f8ced5b0e;0x6d633efea9b50844;0x47fd812a787f5b411d;0x68840d95f0db354ec2;0x7071ee3ab63c7d73c2;0xe4d73b3e46edd93a3f;0x111090079adf4bfdba;0x5bed8efb510d60dfab;0x53fde2caebab4d4d85;0x124f0c19a74dc37c1;0xaa1a155d0bdd0960e1;0x6e298a199c422e5b6c;0x642f4a3bb412422d14;0x65ef6312b7c537f6d8;0x7fbeeadd10de9364a0;0x10fe4a0b9ca49789c08;0x3db8212a9064e977a;0x8186c34be83fddfe8d;0x198;0x0;0x0;0x0;0x0;0x0] _ _).
  - vm_compute. reflexivity.
  - apply Forall_cons; [exact prime_3016876668783623441'|]. apply Forall_nil.
Qed.
Lemma prime_474233203066845416735444346211990045207' : prime 0x164c5fe1db6f98deac4261668e4110217.
Proof.
  refine (check_ok 0x164c5fe1db6f98deac4261668e4110217 0x164c5fe1db6f98deac4261668e4110216 0 2 [0xa04639073ce370c515]%positive [
   {| s_r := 0xa04639073ce370c515; s_c := 0x239dc47e63beb3e; s_list := [0x9f899b2177a73ca614a238457d1b8468;0xd412e7b3df50b36cc76f9c900d246db8;0x6ce59bc14bc2e39197684a40222bf7d5;0x3e7494d9e340f07ec16f3cb376661ef;0x3036e74540b076b013421b4d479450c;0x252197e9119d8b5d3b18cf9e3dba1f34;0x27311e4ca836ff568addeb183e99da36;0x2d1393f7c12d4a3c0dec784ce1b6ee6;0x171a7fa6dd83d2187761d899c9f97cf45;0xb873df4f465803a9c6c861e5c58ff8ac;0x2df20a3061d9c9941b09c86772abd5e3;0x1bcba8e218b4c9c214d6b303a7b000dbc;0x106e8747a9515f7b6d66f96a8c0f4eca8;0xe22d0a16803550c5f33a90bc0e8cbade;0x228ff5088a6c4723af7ac144338b4c69e;0x4863b685add3bed6e40f0874a9b258;0x26dfe367cfc7a80b5ef364a16ee80aa01;0x17f8f59e9a730b8ed28d8fc349aa2c19;0x80bcbd339a4768d7212f7a700fad390c;0x42e892a03485d33a81166fa9b6567a9;0x3f3c8ad1a54525a764f2a3878f70bc3a;0x1786f23c857f3f88a51e0e8095b816efe;0x104ffeb36d4f0b1fae89d27825a42d8e0;0x385fb29770e9b43b6d258d7970b5518e;0x130d9fc1b2a09ffef14527f6c85a9419;0xaabd199cb3f347a1a5b1e54128427e6c;0x67602f3dc19fd75b2f5276df989bda3b;0xf6be554bc389c734b14db02836b516eb;0x6c1adb01328187c088bb4740fc5eab0b;0xab2c5e21bfacfc7c60be5197c2e00a28;0xa957df15926d268d7f3c79ef81c206fc;0x26676165a5d0f79ad0a9a0549edcf0f63;0x17056e8266f33d1149ae15b3c1801a87;0x5c4d450edccdcc8ab90f06efbf6602a9;0x763547b721095d9a8ec99c8eff05e952;0x94997a55b9c2329d300ac938e99801b;0x43fff365e10911a124a532185331ae5b;0x57d4b460dd231897b40cf44a700435bf;0x1a582cfd32b5c4ddfca1ec35b1880aeb7;0xcd8b55757178a49e7d4f13b9e13e6c0;0x8163797ab8215a379fc9e3db503fab2e;0x1352e685b7137dfdb7213d40c34fc48b1;0x783f1090f216c43d928faa19b2b1eea;0x4abe036c5f56015f349b892677360fb3;0x10b240fd0f3ebca6da;0x164c5fe1db6f98deac42264d049632def;0x215d7f6d302c4a203cfbb48026a837503;0xa428a;0x2c98bfc3b6df31bd5884c2c87c822042e;0x101b77b81cbb852f40a569d0e1a9f3ef;0x2dec;0x0;0x0;0x0;0x0;0x0;0x0];
   s_u := 0xc8e525cce295761114b35f4ae11a66d4; s_v := 0xbb6102ec5cc6fc16f63aaba8eecd6e9d |}]
   [0x0;0x15edb9739c199cc24c21e30f37f31e747;0xdaa1def30eac6ab3314fb2ce5d45212f;0x15456ed9197c729c25540072f664bc64c;0x145b12bb3941f702102b6694c3221c8c6;0x15717bdc8e9a1fa6da369c541b21891d;0xed4dcf136a73825a642673a912da40cb;0xee3a2862f95ccc7b5eb323c35259add7;0xff594e847abb63744853567e27d6cdef;0x4738e6846c47fc7b6886f5b1ce795f8;0x24696d5d1260a0c1e4010e48a94db46;0x66047a4d05cf50d916575f4ad0f8f0cd;0x6e31a3d64b2b7e714a61ad9474e40f;0x9802514c357fdaee134945052e4775de;0x128a1dc8abb94f0ac1966edb45840785f;0xbd6a51f84b5a4c54eea8da565cc34f4c;0x96a26173da3f33f688c3289894b46f9;0x22db1d25907b6d4e53153f55cd568b59;0x4e7912fb2bb7f79ca7cd6844d20a0f9;0x4070ce678ed2afb4e2455589fa7431cb;0x15c4570a58b2011beb1fb0789a1543c8e;0xe2aaa7ae3bf7b40b7d31b7ec3281d984;0x146861e222d1fb3ee362e423eeb488dea;0xe7e2e92def7ec77933e4ec6912c1b8d9;0xc296e6af1c17499ab1a070a7bbb4acec;0x8731517de1a8bc2b0b75c433d38554f8;0x1adb249759c65531481861c5dd22b21ad;0xaf3bd68b9b1567609b8cca42e1fb6eb;0xc2f026a0811bf756e2314a08c54e12b7;0x86f0f430981a4b1f6cb9539c5d2ad6c8;0xb83e1a2a6d4d1c86afccd478545ea176;0x13ba0c39c913c4c16f729160a83360bdb;0x273183aff49f12d297f8c1d8ea999cd5;0x5dbcc030df2bdd9e1604d90eb955c314;0x15450eb841ecc5960602d273782713b31;0x15b1e664ca91fc4df7538c2cdf43dbb16;0xf890af94dd471fab926f3f41002d338b;0x24b84e79229d5df2903b204c9de4d039b;0x213f41d5c3cb87d1337cac2e0ff6ff5a8;0x15424063f7038ded2e32115bcc0fd7d80;0xca58ff2b368300c15fcb15c50d3a26b;0x206a42e9d15ec53c065aeed0bff89d30a;0xdfebf962c6fbce8c9c0e7ac82a786d0;0xf6c758da30331630fa46936edfe7081;0x28267fd44874616d68278c31abc6d1d5e;0x45a1b982229e814a633b4060403cce20;0xd2fc759601cbb9b3c006208f872916d8;0x8bbe3d47cd09b4bec19310f1cba8d45e;0xe71eeb7bc80fc9398186c0dd57ba503;0x40b062e242f4e3369c247469d2b26db2;0x59b30123dcb1fb51ca97431145cca8e4;0x10dd40c1de0a549ba788196563a158466;0x2dd0b2199b772d4618db1f4fcedbf635;0x2a49f8a7f5b8225e975ddf2af12cf27c5;0x2301404f14bbcef1298fde5b9949dd83;0x101d685c9b60b0514a9ae26a266f52768;0x8f4534a684e1e09fbd40814c8d6f6f07;0xf562d056c2c05abbb25a94db9976ce77;0x1049f428d5013e3bd345b80acd29460;0x1a14ff8fe72430d52bdd7d9f12f27d;0x5c464d78d49d8d463d882694f2c07798;0x5c45fb8b66e48513a9ef92efdac445a;0x238927243b5d5445e30c7c416853addfa;0xd8c5f87ff96810a13ac2de2a5e59c674;0xfcda5932722a699cbe2716a4a1dc845f;0x1ca5dce1f4be11c909654d384707e0963;0x13469660b765d22067a2b72fb1a9b5a22;0x15c0f1511d45bf6344373092bc805039c;0xe12820f620abe02208de1f7f95994c5b;0x13460e54262e674422690b1ee0a8e93cb;0xc9790d3ec3c08e7b15710009c7db7d44;0xf472c02514b30794703387aaf73fa20e;0x20578df7ccbfaa073e99678070b6a36df;0x17e0d16c4cb08d1206ee3545e1fed7c;0x1f3475975b2ecad349fd407a45d4ff6da;0x1b28fe223dd9f4ae5050994bf8ecebfe9;0x92dad5f677ea412562c82eb1c2fa1241;0x527d00ec9582807512b21ea8e8ae96d9;0x94d127beda4edfcf2f34bf749aea7a1;0x12f2fb78f697a1e16755dfb359487c7cb;0x28275bc9178197ce7e8952ed3e0a7eb4e;0x17a77b4112ca701f6ec8ea271c328dc;0x3374318487134a6bfd20fae07f26210f;0x172059413bbce668e077bb40c140e42c;0x1570e32d7d0a7a23636f59e88698f1df0;0x46b5cd5e8014731929fccaa762e0c45;0xdd86756b47b5602f4c877ea14603f542;0x1854b36e166e7871ff25b51a3d6b5408;0x1611d646d878aaec118903f496cf6e619;0xb82818412de336e534c7e91ace371cb4;0x8e44311f50dc6eab0465dfecf78bca7;0x671592ef5470ada99dd9a556a94f20e1;0x68cbd9dd1339f39fae61eeb97adb0992;0x167069acaf864eb4646698b26d01eaa71;0x46c1f03f4f745bf7ac9d180879d71613;0x164231fa655bb91bdbf412e90413d4a0;0xc09f323f32673a7e03d488076049b61a;0xe536a7fe18be70b03d93c8d39c241d1e;0x31532ac757479a8df2f5137c3f1fd58b;0xacb26f54aef9d79a49f20c5bdafaf33;0x17d4b9cbe34886e3bb8eea5efcbe3ec63;0x23caaec4c8f67e2af7ff146b5812dc39;0x212013976f2dc131908b577eb036e45b;0x39dbbddcbc2a4476800b2434ef15585;0x19e6a315652adebaa8a1ba6d97456c3c;0x11ddad3866e0cfb455c3dd2fd55f3d832;0x95e5acd2f24012340eba7f427427aee4;0x1df2d244f20966767a29b7d248b3b5790;0x1ee2f1fb5d9de567f1a48de9b39f2bf8d;0x142aa6c9b1255b55916156346b951e287;0x14f2ec331d755a04e9260c501e444515e;0x55a3fd6ef4d0a63031bc01f30e46b3e3;0x1a1d0b5af0a31e004d299fe774c4f4b9;0x41b174c68aa76b2cf6f5ec81f0cf0f2c;0x105c0fe56d9c30e5d6b62a33742b4a5f7;0x5a7bb7570778849b1bd6ef47b29202;0x4a6402d4f6575ffffcd44481abf40a8;0x5bdfe9d4320462c576962bb29187a16;0x2b8638e299b6fd0091abed2293e6ddf9;0x2c98bb23b6fde44334c74b9ce13af0324;0x4056e5e3253364e21e0b8ae26081177e;0x2dec3664fe5e5;0x0;0x0;0x0;0x0;0x0;0x0] _ _).
  - vm_compute. reflexivity.
  - apply Forall_cons; [exact prime_2956539135407950972181'|]. apply Forall_nil.
Qed.
Lemma prime_115792089237316195423570985008687907853269984665640564039457584007913129640233' : prime 0x10000000000000000000000000000000000000000000000000000000000000129.
Proof.
  refine (check_ok 0x10000000000000000000000000000000000000000000000000000000000000129 0x129 256 2 [0x164c5fe1db6f98deac4261668e4110217]%positive [
   {| s_r := 0x164c5fe1db6f98deac4261668e4110217; s_c := 0xb7b0d993f9795b2da57dd5d4b3730918; s_list := [0x8ef3490e74b652f7a6098cdf427380964afaf5f5d6c78847284b5d771e50fb4;0x1353a481b8f8e7b57673223c0eb7909f35af9ac1992fcfb942c6f6efd48db4b8;0xa11927dff66f3cf6216ea594f5f086ab373fb187324608e18d44ec929de34c;0x14c0552ff5c8bf79814cdc339f374a8e607ea22ca1006d4fc1872f22dd6720817;0x2d2d945ee4058f66828920a5ad674d18e2f503576a557b76e99999e8acad6;0x300837d71d48686b014ae9f28084aa30c6df90e42617aec8eec028eb7cdb97fc;0x1805776d1dfe0b55b464263092c54c2c0a05f6c8537ac3118806608b9527b678;0xd568e969624be13cfb6defbf8bdb8fc6737313289ecdf90554fbc3f16890d0ed;0x16f883980e62d6a4a4f700d064d54bf0f885d6d8eefa57e3a76565e92ecaee5dc;0xa5ceec71944b9ce1cfabc775632e6075bae0b348cd8624475ed562626cbf251a;0x36294e3b3bfdcd7b071c2ab7dadfd5e7236aed0ee4c3c0d1d12220b5b6461b5b;0x2190b3ce41113e9e15315402f8f9c1fa03560819cf40da84d3a9e1adffad;0xa3e4d81819d7cb64dc6a48c523e8de515cd164d48fe1ea78a1206f5562c69564;0x167f0ac2b2e4c4e49c7d72a97686a81adc1b1e9a1231c05a014d6bae5112c41d;0x731355b2a56b6bbc76f0a04c8c5c11fb52f99221f92c8c7c256fc967b112c589;0x169d1c72ba90bab702327163aef00234bc1a5d1d65d06546fcea134030495170;0x1eeac9a6a89c6da02af76b44bc10be8463f460d0b0f3b285204cfd56fea2effa7;0x82e52a75eb46c73ed453466d90a7a8f80925d8523af086c955eba39508d995f4;0xff993ea89d238d9b4a6bc79a8a2ad2cbe2c71a26465407db402a244605697;0x948c587f0b8bdfce942e8801b3867c0167dfdf4ec48c1d22d68866c0d8935c0f;0xc0e4182c7c712d47f5cfc17a6b270b61514f0cad889c152c0640fd2c53fb7e;0x67553970178ac30f049622fe755b33c593745392b7f2c97850c2ca1a22848a63;0x13ac30fbefa639f553172127eaf3235db0c64f464cc1b8054f263d4db7bc1ba39;0xf1945a7b3ffed5b0b1fe8cb4731646ba9148225207e0aeb226438b1957b65a56;0x733419e37a2df1e3aefe76eef294e619cdf3c3f6aa8e724baaa47f55165189da;0x12e740d84a332ee6405a12046caa906936fbd61fb2baef2b6e2501c41d616fc2;0xeafc101e5f792502fb53e92090483c0c739a502176d67568a77e3e1cf895e94a;0x1d52a6448625e493971c97a422b9b5257e725d939aecd395a6f64764d3476848;0x1aea47e96c8c414f00a94f15a777b117669d2df9e34b70620ecb73d1cd6229ff3;0x11fa8a0d4142a6ea6712cd315ae3ca3ccf9b9b9e4469820c0852dcc2769e692f8;0xcf4006e9e876bc1b3b94fad251a30437166cd7565e864d90c962693b3bfc6a25;0xa91eb207d839ea2a126815cf7c32bcc9f4deccc9f994aa00de330701940c8d20;0x776865ac44b455ae781d851a022e937865ea83a3ffe369c669c8bcbc4452fa53;0x1401f9c1d9ae94871cc75cdc670a951442276141b8786a305afa9acdd9a02823;0x12731a801e6fc09b8d5c6c582aadd13e013f8246d3d40e46a7762ee8fb42cf4f9;0xf837075915c8cc309fa8670af86d11f64863e1cbf3fa4444241fc05dd53ae4;0x4d73b0baea4f0354c6226ca515045eee29bbed5a04857a8bfb9935c07d62ca4e;0x9d1a39a351d3d467145ef4661e50850b61c56d87712a09c0e106d5ff7bce1313;0xb6404d1c4fcd0550f9e859a70c9d00c8555c96ae2c4edee134a31ab987fc19dd;0x1b5bac973a14ea61d5e32c654c976a132fa2ff91ba997e825fc4ad397cf28e2a8;0x34bc1a1ffb477935f9de7bcf6087cf8adb7be0ad6b0a76b82ce1e05bec75e9f4;0xf01f8689b9a6663a25c951deb30fe996fc8fa5a4b0e43c3b2bfec359b7679d3d;0x8ce76f5cea8ab71b3c274a1860c9defda82e50ff112cb3199f6bebbd32e18a8;0x3aaee74d9e25dd6e275b8117b28e596ad8bd63e70806416aec7890df731349e7;0x1c4e4024b260b6f6f99326f33ff7befa2dd5a55c19adf579ed233ac336f4653fb;0xd178963803c8c48d7b82c7ef77bcf4eb576c71bf658bd7b0c91492e4f7322b26;0x1d42abbec496dfadf178687045dea8faec56458bf81d75bc01f59cc0e44a69e0b;0x7ba819be4ebed178d7c7988d604e5ddcf42f38c294e3e2769eb63cfc783ec659;0xcea39e963119475932aff1d1183bdac1b43c5a95cb299a2ccade5aac54d43863;0x7188342a7730feca04409b2324e892d50f441f84a3017b6f29c12722fe8393e1;0x1a3107e3a16e5b3342cb37452770256cbcf71a154aea2a8359d71db52505a4d47;0xb2f1ae7615e14067448d6ae3526f427e0d970c38bcf3ea4e9048aee9020f661a;0xe966323c5a60d0e906250f1f3a242ff018326fe20f6a5a85ac96244fe821069;0x158a5bf3e9a16846e40ec44160222262b5ce1c4f0a785c939a3c7798d0b92f08b;0x5392130d53536fb45805b147d6f44bd78a5ce25a3c8c24679c4848277a929117;0x3b38e82b4dd989c8dbab34af350d000d516d284430d61f6a01b641adb180e2e1;0x12bcf8f9a895a5efcc4c45a628773d4c65c8f13dcea4296a112a21756df6c908c;0x17f36de7a417295d2ddf3635726f25d1e097b1b1c471978ca576a44eae21e830;0x6609b5af4b095b4908bf50e49ad612da9967122f8d3c8097d90aa762c60549c4;0xc1c96de1af7070034e26513d9358e1f7fb5f6e36a588393ec425f6f8a464a67a;0xbf6515990acba28920b48fb235b4f73bdb481b4f86d794d5ed30ee8f2215d08;0x1e89b85d1f120a700c6f77cd922a3f86cc728373392ae153a09ccb6a2587dc85c;0x2df5d56e7b224e20dbcf4e978e1a0b1b05360fefb19df270b09c84ce8a8162;0xc62687c71ca056764362a4849c5a071ab72570549b97b6b7195f86f71f70a3c8;0x2ac75204f9639a730d2e4ea1ef8ddf71324a3c93bc0e41838e7f280a55eaf04;0xf18fb363177c4339f7b1a5097ab6947b1c9d47d9f3661909194654174ef401;0x40952d4740ec1f26354d9d328f3e622f3d853ea40a1567169a2203c76981d260;0xbed935996c16609c968a9e968e5b02ff2aa4faed2337fb2f9c161e24b9d8496c;0xaab8b43b9c37d590b5ae59cdb3bc110cac0b455e4c226fcc5e165dbe638;0x1e8da8989fa146eca4dbbfb2c31e08008b854db919aed8b6d73289ca6db8736;0x150a7ba054e34c022b71edd017eb5569177dc45eed936c0ab63d64dc80db5d80;0x68285148494c5173ac05e58cae96e7f173e3fa29eb7be333eed0628191aa645b;0x5ea79a9b2589d10d38551ff26cb99ec9bd936f7e7ae828a6c0604fc136aff040;0xfa3b0e1c43341ce0efa77a6ff5405030460c3527fda7d809d835e0994aefd209;0x21375900f868ffb6de6732784d67f386d67de9bc293aa556e7536bcada27dd79;0x1056462c11ff251dbfb6c5524ac7612a1e1b0e726e0e8231f0fba1d576af40eb4;0x1eea04a06f3a65ddb34c3e78de56f225b32445d7893c3ce8cf62775b352955f77;0xe51bb56f7f7bd87e8974abb25b33c2c9833a2bffb276221915d8e94465fc7d9b;0x7134e04bf3e2f0a06a3aa0d9597fda8ba84e63367b006b2fd4d44612ab4fb016;0xb68d8e485a555f80c5e52a44d022d1995fd5c837943819fd87647b05e386ff1;0x6c9add454b2151caea861469ca169fe20fe3df8e639bc43791fb98b305efbd57;0xa946c77afda7b4ed17113d4275729cb7265f4e31067d27c22bc4d28d1423d1a4;0x46c16ce9efc84768a0b990ce5d568f707f0ff1cc550370fb1210e37634a04060;0x777d5f23a36e2e6eda6a23b1a3337059bd238a7a97b22b2bafdeccd4a4fa35c3;0xe2430a36ca8ed520037179c518986f1039c7a4bce65c111a76da8fbc122fd8f1;0xca6e49ffdcb63a5cbf70634d356b263daed199c80ce7c50f1546de55c2ffabc;0x1f87cf89c52bcbf63b32560a341d42cddb88cfea0f8049ef50fedb3cb6968a93;0x737652229d01ff820343b129cf0dfd52dd5765b157420dcac474bc9afb4a70cb;0xc11c4cad880f705545f8a6349a0c189d1833e20b0b6b8ff5e7c5d811967f743b;0x198acfca0ff0591151d1df3ed0dcf220ced50c6c691f4577d7c62c4badea6c0;0x107ca34ac5a6abbe14e7563b466d5bc3fef9483598349fca7b25cd0a1fde38a5;0x1075f148d7f24719413fa7943a31df61c932975de0051e9c0698a6c7002c02cd5;0xc6e51bc30c30a9859d05ec65322812fc2a7ada8431bc141cc7c9dd39f9aade29;0x1f31ce775f964914f38ce7abd9e77991e350bb66409239c87967c008d1fe7e124;0x8cd7323356eff8edf1919a6451422c8922354dc5de66add14486f4c4ad053db5;0x123633523acbb97034a3f61f98dfc58fb1013cd40f67513f5475753725f29621f;0x104955ffd613c4ca4e47de89088c89d926166d87e60c94254bcc84674d864dcb2;0x149373c131d1bde8891e39f2e75714bcc7455baac27b28ef1207e9f4bb2916ba;0x1182ff80722c90f63bc582aaad6572fb0364fc3b8ee66b8a5fd231085888cee3;0x404a8b1afd61256dfe80fb31124bae2b86f933d9970cbc16d8cccbcc046599;0x2c798a55eacf95b8749025a44a7a7540844f7403dea97879b34dc3123b2d06a9;0xb6e0fc006c2efbb53517bb4c91b90ec50d4006b108536f83a8f6c1ec12a415df;0x3470ac9b2645b8c55aa1e5cc9800e4b83c75812f20a99dd6b6503a745e4cd9c;0x13026f44110c0dfa2cc02414c8583e0ca647aa29f92a2b01b7e986def6727ee02;0x4eedd886cb604f9f743729a451cb24dfb4f2b5fa67d8238cd5db4ed93b5cbf1d;0xb0002f6b179a76f080d396a08417a65aa5139a8eca0543c512b47e7eea0f2f55;0x859dbdf2fd7fb2ea9734a6316761765fac8eabc1c03db99608b1dcc13b9b1049;0x5b3d44744e9e7eb41498c126f809a8314e9b58f0b30bf85ff856f5dc88c97566;0x47f80f174b383d6ab5d1ecb3ceb236968a57974b07d04f9f9ceb6e794dc1313;0xcc7d45bdcfa5c8202ef0429e624e6eb5976962403c6572e7b83d1146d694fca;0x753e5996fbbc4ed744cda9169a3d3c51a6818e40786a6d1d7871d269774f88f;0xeadd39968ee4360e00dcc297c860ae96851f5a506d2f9b504d6ae7803741bbb;0xbc5523bee47257ca12757c8fc81df75ca073e1f76a850c5d4d58b14be4006c1;0xda07809e9e2c0eb586574b14025f789fbbd584cd644dc1539241fbf0ed7461d0;0x16b60ffffffffffffffb76503a2a6fc3035f9ba9681a7042cee7a710bc3f6055;0xffffffffffae009b3cd5a84ce0a077ea372eb6e3ca7245be73a55c8fc3995e6a;0x1fffffef2f9a3e7324bbfdb183fcba42688000000000000000000000000000251;0x39f8c0441fffffffffffffffffffffffffffffffffffffffffffffff;0xfffffffffffffffffffffffffffffffffed70000000000000000000000000129;0x7fffffffffffffffffffffffffff;0x0;0x0;0x0;0x0;0x0;0x0;0x0];
   s_u := 0xdd7ad854896bc3109a86de8710d56bb786726af85c6cea3d7e5ec1fe44eed52f; s_v := 0x37f5eee879546a9f1a849acd481230ebedb02062365ce9463254ba970948a1db |}]
   [0x0;0x0;0x0;0x37f38a772288e094ac5f9886cda5533ab866bca00abb7c6626ca137a16c2e279;0x2747bd47dc68a7f26861c508c2179f99d2739562d78ce3dfd5d9c4b0f69cf3;0x7a0b13fa1cbe5ca1bd02a6fe5ddaaf46f5502b271d40c2dd2c9ad89cd936796c;0x11f3d1a6a711f4ba675bf41f43a1e55d55375b41d4afc49dc6f0cb7cbb20399d;0xfeb671ddb3be4af09f69433765f793994ac5fca56f3271a25c997363e83166be;0x15effcc7c41fe1fcaff7477b4313123fe56824ae6536c1059df024e30ecebd65c;0x25b0a25da761543940c28e1434bd03829d2ed96651fe99e7188cb228313186ff;0x1b33004e069b564950ac7633fb0d98a3edf10640f56e3343d1b568b97fbace4;0x19b17a246959cc50c6309c406824319300e14487b9789c17b9dccf1c9a7f939;0x625f60389a237478890fdd3952b42575101e0624d3fed5290307d936b95d5e70;0xed99e0f7e2f8773a5797d16f6b08a89c73e3296195f687a241db56906b3bc3ef;0xfdab7949eb3307144248ea732cf6c5f12b9d1ab3e9ad9c5ed7433cf0bfdeb4e1;0x485ed969a5be14b57473ee776394a5bec407a51965534df35f6d2b559f34aa8;0x7cf257b977622323dcc59387e9dcfdbeb65061b9cba9867065ac84edff1f9ec3;0x9722aad8eb65877d118440431ce862d4ce47be9a64402adf2d894a9d8a9f9d3;0x5b433f39dfee645493b980e4ee199ee4aa6e34680a079e47b084f38abfee9522;0xde2d62abd02342a3d95757fd8e450da462a3445cb97722c683346a9c6043721b;0x955e3c7f29eb48cdbb4153d40957eb1e07a88a701e0a5bb89887473546a0468d;0x9f4dead77bd6be948f9d406c400454c0520bc34ae4407b985a1015dd4c8285ba;0xc12f0a8d7d99e0c0d643623722557e6b280cc78ab9350d28ad608447c4ddd83;0x4d762aa8b42898fe4b7a88aa66fd9c237ba0f930fbbfe1b03bbfa546595016ab;0x2c3e84d35a3e9d17acabe11e155dc3586334a7f50d4883d996ab84e39b42fa6;0xc29385f20fb5ff5a4a6d47c4746fac75ea54380a7c6a1f1dc789ca59ebc6bc7d;0xe9fc4e18f1862744980ad1bfb258136e2e7acd650dba23c1a47d325eff29ba4e;0x6aa22839b42934f698dac8e8b1d6adaf137fc8661d0e069d84caf4bcc82178cc;0x48d53140730255bbddbc678f36819c434c1938ee5900c91046f63300744a2ce9;0x507e9fa3f80db8d88505fb834e47f5723d5659a038052d3636bab35fa81b2bd;0x1727fb2d3ee8ea095d171dc253a176d1ff43308a7465032d74dc5a8acd4dc95b;0x57c20126c59a90488bc001ebecfef83baee43cec92a629bab14af881575fec7;0x714a5b39a01300a429eea2a7c4330123f55f11177b9275c9e000139177b46825;0xaaaa4725086c6cd77c90c892e1b79fe1b2340053d536e79904c033cac8b3d20c;0xff3a61228e5ca89533f297088283fc0e99538482a607849c4381642d61f415c7;0x3982ee817919016e5e5babddd04ea572971bd9cf297d444a379d40b08a333507;0x280738aaae7a43def19445c2ce9951d743db579e3163cbd9e5a68f53ea5098;0x35f25eba5cb87a2e8dfbff8bdc616ff7f9acaa0ec5ae3eff46956c84478e7;0x130083a9e81d689ba696f4bc52028c7ed653d046b9aafdacf65b049e208cd47;0x7cbc5840da58964740cd15b348d45d5834cd4d70daf1cd9e032231abca612003;0x1c3aea5bc646346ef698157161e5f208158fcf07e12b3dcf13c543613f874e9;0x847297b2de3d9fb2de27097ed68a75e69c4f8946a5913babaaaa7be3c113fb55;0xd9260164c01a8728fe521f40d4dcdb9552a905a14b4e111d6858d190902f38;0xd617a3d102cd7c78d1a273a09689d1bd1244b01beb15b041fe346201972c787;0x383ee9b340265a32f2e940123aed39f36061d2b65a02d6c0892f53a1eb3a2df2;0xc6da21cbbf7e351e78e7088c4966a75e021e4404e59d27c0ae1d1cd49a075d73;0x9e6a2f4f30ca4f8bd8786cc5866a86fec397bc8c7f7be03e709d85a883ee4d6;0xfcd64f44cc289a592cb506545a91d1d26d5f2b5f560f24d5f7729d4d333d318;0xb3b9ae389b6df050f9e30e6129a4abbfef3280c647ddada6b248ad0e68d960d6;0x7cd00a84f5574564d5f7eea0a87da71f2fb4b458c3d48b163ff13c936c1eec04;0xb1e0684e1e65f799408ed1eb27595316047994c3a0e7a6a75aa6c5cc0d7084;0x1df3b8097b02056cc283b9d088007a162fbf48e5ad6642be71adc8faa39553ac;0xfc225a48ef11e552ef0567ef5395d607f031fbd46867d40b00a26458a1d67;0xddd4b2e41f430a37864f53add25ae57e648043502c1a481f057504dbc5486c7e;0x11c832ea8509cbaecc9d6b1babd67e48280b39d3b6a188f6d8ac0eb7dd1d372f;0x931fe6f581a964fe25314c6be960facb9e2d96091fa14b4b6553637cca573c3c;0x8aa0dfdd5a407d4ca092b60200b44767753794e8a96229bd09743e9d7c8bd3a;0x98d1e7c2bcfe299070c3b3a7d5a1cbe3bcd74c2232cae35e58fa3e4ef6170521;0x34d9168300162a0dca2d48a7c38db38e206a8bea37f0c439ea2f1755357e25de;0x2e75e5dd579ee78e3c4e9827faab0325b88131c4dc6ad63b898c0fc26d544c3e;0x1ae490cd1e3346fcdf83b53c598e16c0baedf4f7b0e616d713067a7f30afa0bf;0xa0fadaf5f421df2a929c300157b8035f1d27a5284c311f975be544950216edcb;0x6323294f7ef9a854c9ab20e562d0b315dff7fca3ca1428bbb79d3e331f28f0b0;0x19abe19d6790774d03ea83a196f4e7938d4c78f96c5aa506c98cf3ee09978551;0xe37a4305761d946a1517054d2c40372163e241f35703a598694a35f3c1678c5;0x21224deef9678600fb4082825d21bbc7222453ece495075fee4a814370810f90;0x898fec63a1be9e710f691349a16df74fe1502cf8d6317992ea5a9b2c3583922;0xe640038442cf0be789c5b7c550ff3a271335d9d69c1654741e45de62d59314fd;0x6531fd49b5292ec29116140fbd1efe130ae735f34cc00beecaf8f238d5d661d9;0xc42d4e1d312fc66fb70af8210143268f93b7902fd8c0b52cf73642de61cfa183;0x484ce344a4163586cea4d822032cfc7bfd4993bdd8cb1d3d097be402593a1cf5;0x589d33cd88ca59ce7bcdcf26e562c71f1c9ac1a2d3c013580945d30445bc03;0x809e7a56fbb6bc30919e995414b2404e22cf030440b3ece4d781b6cc904e7c0d;0x60719887b1ac9c5af60b7b21d513dc46a4e1a75d688ab790f90099ba535c2e88;0x2360d712bb2b2f72a2d87885d52ec46823df974ae5c497b685ef554f3bbda131;0xe815c5b62274f93d0eceab95f5f433f657d5386a1444797741d78b9fa480d973;0x1a19ef76efa9a0da074abd7a505c26eef686bbba17b807114bbcfecfe07eec4;0x3db6006bb82db61b87347ed0cb42200045f3283c6822c8a95a5fb5726daa32c;0xb2701b6f37642a61c6bb7cef7455cc664850d3c1b41932780e7b4aa37dea0c;0x1b1609cb712d018abdcf4b247b12e425eb74d11c0d7291bdfc7eb65d887aad6a;0xbcbf026a5907984414de3072ee9b35b659fbc08909533af91be5abb30212a1a8;0xeeca3c698f0fe64ad58388427c4b17067bde654b027445734332b7cd95bc9e58;0x915c8ee3d906dcc77d0fc973671d3c4ab165e4d51fb60e85e27b50740497f9ee;0x7f70499ce5da975f6c2fa1de29e458c21796a507fe0801d7772604d27a8b3724;0x36a9ef4174db422da4af014d73625904b491be7d3bb552e461fb2b2949bea;0xcbe4f32662c823b3e97c7718a60ef972e0989076c59b2a4e478c73521c3edff;0x85c500e01f004bc7d949de13a603feffefe605712c12667bbfb2bae5a0c08c6e;0x43c6b6026e1532b8d4a616dd99fee1b442d697869e30b6a6e27dd8309107056d;0x90284ef6ae3fb795fade15e5886f865c900826d0df3ef19355afe4ea94adc179;0x1868e501e557a57d217de09e92793eac38b59bf1cdae78a97c2f7bca18698725;0x7a94349c8d14a52cb9051194cc53e19f66a58801befe90dc0e4e2ce3357888;0x915c395ea92d8a7258584d6193c1a4b610c242f3109b8fc102db45c8bc1a948b;0xe7ded89dd8263874779d9e735b96f0584756b219679473f1bd033825a3e45df;0x933c229f27876e629a8891e7907333e43a9fc78e807cda52497565ea0927bbcd;0xc1ec417d102d80fdab6d18a8180aaf5dbf4615973c9198eea5911166bcbd216d;0xa651718790e8670314b2a175b51b636153ec03e36fe026efaec86f32ba3863d7;0x2ac348394fa0f6385e56e37265cf94cca3ad77c2575ddbc586efbe98481e2f9;0x442e7ded4a330862267c6435f384bd62344645ae9541613acd98975e58e160;0x217f36ff3daaeeee62aa21d80cc1dbd3194995654a5d6fc527158612e5b8594a;0x935e2fc7200726faf0c4ebb830b025b7ba6e6ee68cf52ba50c545ed61592d3ca;0xbe822f3718b2b3abd2e945bf10704e88e0f76255c7e69ab4bf70ebe12cbd7168;0x694e591cc8ffa45c511a3d30d6431fb15d9ca3d2b44637405a974ad223aef386;0xd9a996039543eba38636bca0bfb45452f533ef063586b1e5e29f71a01b7d8239;0x7142aaadf93c09d7f6e35265bf9363df38e16aaa60906a18a5fbda09190d638;0x6848da1b2c4c8e965084f3d5b413d86e707882025b07505ae47d5791daf4d2e4;0x644959c938bf0182f18349e29a30fc126ab1b6e06d728429ed4ac8279d0008;0xab703b4d17d3542fb3bff569880ac436085d41ed31105dc760a227c35962d68b;0x970404d20936dd1441e5bfaf90bdba66ea79ccbd23893d238c27217d5ce45b45;0xe5f7a001e71ef757d492aa63ecbd0aed3a7891cbc3334081dd8adf769d628c22;0x3d079d8efd09c4700b312465ba4f996830f473aa7540de77cf57da4c93548bd;0x65794d01a3498ef27f227067ab71e0ce6d63c6c10863bf52a38ae4f858d875;0xa9e370011e36827642cbbad9e70042494314fe3ae86b5573e9174d4ce5e05544;0x1dbf4b1898d4c252eed694f59636d0d7107722d1b2308409bfb28efd46c101c6;0xf094a9eee785a67c814a0aaaa9f0cc5d01365e50142ddfb867be211aa09b7641;0x38ccf8e867e2c24e1a9dcd0377832fab3f97ee5a5f76dfc84344a73db679b6;0x774e06597b3b1131f39c2d31739874c9c5ce5cb26114f4b181ee925ca6600893;0x93373b759935c99442adb7872fc3672647a27476169560c804760a3420b5a59;0x17d34edfcf362102b9f88c6c42ef10d8da05ed222e10696da093d0396ce2eb;0xff0edd63a48bfb882a371a884cfe6e48ee4fa59e7de2e76bbd26e2c6665c0124;0x9a1e3db9fcbf216b8d26447c8955b338007df1971836bc834e432f7b54ad3cd1;0x52bd17648c6a9ace5517fde899400a420210a37f02280e1294cb210556c12cf2;0xabe3e5f2aa7285ce2f749e89abffa3df249bec5ed00677e786c2c9a79b661fa1;0xd7ae9e60e8ae4321fa401703b4f8246585587ad2760d4d8f953bb4cc3f068e;0x3af2159ebd87f2cfd4db85646f53c9806233315f606d92e9c209e69b0b71bada;0xeed7bb5fe388fbace5ae75b87a1b57dfca7238f4e283e1e920857512c79c4a;0xde48e3c21a9bc523dd45e5e1ca5bef9e2bf9c588d47d0bf2218b713814495fa7;0x52e337d596256eb79844655a204c6eb7cec88e34b2339ab7c94d3233c206b56d;0x1361fb87aff507580464e80e1390ef31b160f1250ba61d06e1ae37e8da522e15;0x2096a79e6dc804a548400aa4b31b8ac396629fb1f046987684c026ee228a5f41;0xbbb045dc75db702f3815772bc5f40e89aeaac38adf05c4268d68ba8e8cbc7e52;0x7a2e0c3f6671e7b48bb151cfc9adf640f03afc2101c3fa015b04a0208486337c;0x2fba1da1cc1c4d8f3bb36e1dc2312a729776786a8b568c24d19e7cf22890385;0x1d737308db25dc611df9e56498f9931bf8cc69a326ce7b511864b2356e01c3fa;0xd2ccba496e6067015370f9bdc0ba4fee0af46c1cbcc7f3cee15948463d4d45dd;0x7a41b0c74a91ba0546cca48ee23b3ce6398ac11408434cad4a8458c8b76a0ae2;0xff2646189a6595daf72756d6e40c60cffc89d870e9e4339273cd4c1ca34ada9b;0x53f402530f0478f15f943eeb5d70a580d95b1f8321b64dfea6d9896a4b9237e0;0x50135d00c0d1077b0f655ec4a851824a538f3ed8d92fe707fa91dbbaab72cbce;0x803acd26cc22b27769a77e6455d574ddc7658d6ced3f0539cd139f6e717c03bb;0xca985cddc93d866c643bcffbb4d210b8a1a03a65fcc93122c392ab56e715e3d8;0x7353dd24e88cd78f6c80bf98c3d8b899c34e83f2d0dcb5079320cc30137bb1d;0xd930bcdd0715b899989138e7b649edde1fc6d12c63b8b0e190b927f95707767;0xbc3c18980321a575dc14673a47b54917c4e3c23360dcd8a5dcd9c097fc91db71;0xf718f8c654158f1af4d4feaad243adb09953ce9af68f77a0e23e18b1b149ce7a;0xf0d94cc4c4484414dc0136095481b21c184c487984719b80abebca97d7f7f8e;0xa1a5d173911e449d3ab469bebdbaf8d72649a53e136efcbfbe725e8ed39cbf65;0x8acbeab7a5dd2fcea5848296facca212a0975d35bc28f7c389a670a445c82820;0x14add980b99f14c9519afac61d8c0f678cde41768e1eb4993616970317004e11;0x1dd89655c8954665c743f3358f0d0e582ca3a3eaa13cd6f5076c304c51beefb;0x7d1047d1d08b735eaeb4bf18e88334a47e722bf2d59b28a35bee80e4157aabef;0xfb25c4e17d70c85527e7a1ff3fd67a0d0d88963a936301bb7d3af8a0ae72dbf2;0x36ed0b413194ee5e1d9d2464ed539c8c09a31ec69eec3fec2c2ed580df3e38da;0x2033286c6ee7931542b8f2f926145994f4cc89153b018c18a567d9b0703e1757;0x14ee0f68edd01dff7ccdd31d28f5d315b5ed585420fb6115c2668af2ad4678e;0x23b2e1c10dcfeecfce606615d5740fdaae21c495902bf3df0595f54bbe006278;0xbae7f9e175327ace817152566f179a462a7204b493eb1fb6969630ccb64f958b;0xbab98d859416196dfab2f15c77ff7050cadf44666ba8741c8b66ec420a6e5924;0xdb08bc2b0c37ea6e7fffa52179565124743c0c5b2df328b7efee3990887c9db9;0x897c0e81fbccfe1cfbe45adbd67e6059c9e8fa0d081173719cb23d9aef8cb3d3;0xc1b92687b6179b893051e11b80ff53ca8cd82168ec7736c747b007815f4823d;0x50638fd5c97436b9e1e5ad16b12a0487c3d7a091e442123a63cda53c627800a;0x2e0bf4e19bcdda810cfc4b02d8d5e419d001d18c8312a16b65b5edfe86c94aec;0x8fed2c0151197b68b8e61804c230408ae09953c9966151404c19f961d74b0be;0x22616a3b7c7eb30b808455a27d4e837b85c5d2d2afe9ad94d8b2eff6ad7220c;0x7c88966a674b7797ed90a1dc76e7fb3d2d3fb2b07fa3671f09a8d8b854fa2138;0x1017b3539e6ce59a6303787ae55f75e64f71e332c4f069b95b55293b64d3770e;0x556f57919210740e0d84db34c89421cc9f462e10d7021c178cac8cb6b9ef8e11;0xb2be40454218234f265ebb802f00ceca092afa47ac84976d90db9bcb27bf0db0;0x1846681ab459f571bbd7870583893c13e18b59fdc880ffd237e61edbed12cedc;0x63c8cb87f1b78672f41bcc758232b73291686693db8c2c73cf650dfda45089a;0x549a1924c7b7e62383c194e5a2bc047ecd2e4081058ce9687e67051396b833a5;0x607aed70106810df9ebdf6b98be69bf1b668637c7e9d62ef340e4a37af735bad;0xa27aa2e1fd9c49d58c5ace365d5917aec7a33bb1edab4460a5462f8110337e31;0x404b72fb9ab8da7f3b13f9b4d32aea869b673443a09ccdffc9edc58763fdc4c;0xb21068186ceaa562a50a59f57bd798728566be263b6662eaae7bea10c34dd779;0x36bc3ee5b512bf255db9aa0eb5250f36cd10b59fa089c1262fbffab0ab7b9c72;0xbd4bad1931ed73a169f744596282d3b326693cd0120ab8310deb4f82d4b0b391;0x19e1caae9fb8269d8fef1eb27c2f39e16201dd767a8f12dedf390f10269629a0;0x3c8a7ed063dcf7bb03f329668ee002fc6c77b91fa7034a3a80b75cc46e0e2729;0x6693cfa4a260e302683ce953f27ea94cddc5d213243168f518ac8ffe965701e2;0x4ff37304e7e55ed17cf5ec70cbe011142e4c225c43a41c2887b089f7905b1e;0xbe200bc34dc2d68d7c08d81ecfbf3b5b8a08d11e4376817a69ffc346441f1a14;0xecaabd61e301eb955ea97ed7d370af93e6ab61a3e3bd6f83954f9b8647097820;0xd790757969de7d180efe93ba94a1bd87601fb2f46291f51e23c773ad7c737860;0x25f3e6b354db164f3424a75feffe2f103e3efd6c0cdb893effdf57e5608407a9;0xf2d90c812ad5bf2da6b58a3f5cb0516f794ecee6d50b7101b2060eadfc6168b3;0xb58bf2339df913fdc5e6543d1abc1929d71f6579fa12cb0be1829e6d75497101;0xbfa140884d4cd45a575fa6b7f14aaa0efd609d8629cb46818ba46291db83836;0xc003fca0cfb0645ed70dc470c1ceef1d0d54d781f10031a825d466baa7f967bb;0xb9f6cdb3f46ef2e7bc9d9eaa054ee458d2e2b4b338f3a8706159253697aae2d0;0x6d23f2e3d452ba10905f67ef0f7341255d935a6910364f4b98dcec88139a6669;0x1c07e9600644babb2c00eab964478fe967b26270e74891b9e4a08c518e1f4bac;0x46ac9af3271107904f5c7b2449b48783d813ca0eb1c9b9bd49c3ec1f82558a3b;0x8cb99f839c4207fa0836041cd8a5f55a0cce36884f55dc58e48347e9c9c8449;0x6f56116a79ab209dae61f1fa89c5b5ae0669edf0359899226a01003de845077e;0x5c7e6223e1f2af020e86796ecbc03f5c57efcc4f2b8e1e10fc2371069a2c076;0xb6e5f2bbc68870d95e37b3a2425f9ea12ba2f9fc76a6b68dcee0cb49890f7562;0x9242ba071e4aa927c46ebeff4bb161d81e03b90c8b5bb2d39ed8722d3fa000c7;0x6e14d7b75654bcac1771f6094e3287d420a05d5fb5abf06835972c575d84f3ee;0x85b349b257ee94c678e990334f9d537644e0f0838918a9130a42430b2ed2e2a5;0xc5a41deaadef8480bf52441ccff170672122c9de3895105f661d65e5b0d4aae;0x51cf8af2dd2a42bb9ca5a9ca1484ecd9760a6048d8f220eb2cb26685a103607c;0x2a99a3b32886b928f10449b80efb3d7934ba8c8ec56000b83a4384ab7ef93519;0xd25949c018cc2d3229568aae1d5f5e9d011db399ffd06c5457cb278f54caef16;0xa2533a6ca733c5498385072d04323999d87e8416ac774fd15c7b5dd75e2f4cf;0xff098fbb6458f8435ee31b5dfd3ac97bc3e88f569358b8b063cf25f78d5bbb47;0x7df489d629bace6c2be1373d686c2c1be0c292640cf8cb5618d5205150e55a16;0x465a0bf77c4c504d67b6ecb9cf09432c888ed902fa1979a2558185c901ba3d81;0x96c835bf4c12f477badbb27ade2ecf7fd3a2d4a36866d78e98de28c40689504d;0x824aa0205678944e20befca1991887ade09dff256ac655602accb29a9b19a18d;0xbc08502cc1209c775a412352cf1e4987f923c989ea2d375c17290e9bc16ea9c;0x179614d834eb0aa810d81f1cc3d8a4458812e98d2f3eeadf1d79d10d26caf0c3;0x4739f4561517e174e459b78bcba4c9221cafb283d6519b9cf92ef143b1368c0d;0xe8f65df3eb2c3dd3be9ea95adb725cd8ef88f59259729d87ad3478739a3eaab;0x869cb388dd30f0269a3544fb70e4d63e3d216dad13d88e135f9c28ba765f81d;0x14077ca7052645ff347ca834c99e04450769bc89ff418ed66d745ac5b52511e;0x4d1cc4841b62fe04e49b998f2c44aec508a0ac1529d29b62ac91042ec7a3f1e;0xe68e01e756622b746ac6fe4f0d8c2658422218d5eda7c51db6f63ee8b8ea0612;0x96892300cbbdcf20691119c4c64f9b7fb4e16da36de328e92d5aa04af9cfa3f0;0x86229c5feb68c3d6d16655ca170604cf77f8910722f221d8ee1ad30d2bc355;0x527e20510ab17ff8994f645d41125de33d4df6d7198f3eb94d0923c038a94149;0x895df8d611613024712d33cf2f29506c8449bd451e38dfcf6dae5ea0d37af81;0x9bbb3134afddc190e7287d8765b05fc3417cbd10388d3a836fec445b57699f7c;0x30e7bfe98dbbc4990827ab37d04dc4b6afe7ee0baa206d535fbd1b3dcf571f2e;0xe35e6effd8f76e5a56e1baaa432f20bd05b0c5b7c22b8592b2c335f13754e8d9;0x8ce573252682bb5077af8b71f543dd1a32574836a758afa7e33f1b25ec4f701;0x161da01656460e914b9a01520709bb54a0ffbdd8f6b57aed66a86313a04cd36c;0x71c83f4d70fe725496d46383301c1e94d60f84fe528d640fa76e11817fd5df78;0x230d90b53ef95d87ecf514ca0a73f2160987b9906bfacaa8707aa96ce47c;0x4d316abe80045aae8600bf9626e203ade072fba3f689d282456bc419e22563c6;0x2a6bbcb08c4faf4112b61678141fd631debb2e12fb9b6efb5987afd8ae434f1a;0x1b5974513520239d4a94e9e6ad7f57baabc229debfdb1bed44e950619dd4c57;0x7b470a5ad1959d8b4364aa09d0453c7b73f817d3c98fc492eca925da2efaf34;0x83afb78a8bc573ae6a55b0c66a1c3a003e584c408403ae0bd3abb799ec0cae3b;0xa2505e94a8b0c73fe7cb5d683d3f5cf9fda13e61f7b88731d8172d7b701e4b59;0x23dce9d61470cd93b7fe4db80d8dac424f64f3cf0e51ccc98a29772ab9961533;0xdf8e3cc5c4da0d053ef786ecfbc971888ee52c54352730edc3ade6e184b431;0x71d121e9e605623a2222591d7e2f1ebd31635e7928852fc288a57f3ea5f8d252;0xb0f742cfc8a7a749b53e0ceb36289148aa84ab8a1b764102fae73cc58a4234;0x1a58de5ba481bf4eec0fc7a5d99f8458bf04f6ea2c8baa35c22ac8c16cef3df8;0xecd1c81d224bb59176d4757b95808f7b99474e362315d2051fbd53988597aa3c;0x11b5e1badd38d73a04ebdf5e288ab62622385b8e33c2d0d9011e6873e90f2f54;0x16963369b1735549ac6a174b8b7c9a9a66b14e8c76ef5e271747fb43923d71;0x74;0x0;0x0;0x0;0xfffffffffffffffffffffffffffffffffffffffffffffffffffffffffffffed7;0x0;0x0;0x0;0x0;0x0;0x0;0x0;0x0] _ _).
  - vm_compute. reflexivity.
  - apply Forall_cons; [exact prime_474233203066845416735444346211990045207'|]. apply Forall_nil.
Qed.
Lemma modulus_32 : prime (2 ^ 256 + 297). Proof. exact prime_115792089237316195423570985008687907853269984665640564039457584007913129640233'. Qed.
