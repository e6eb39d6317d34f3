(** * Certificates that the moduli of aiootp/_constants/datasets.py for sizes 1 to 18
    are prime (numbers in hexadecimal, found outside Coq and checked here). *)
From Coq Require Import ZArith Znumtheory List.
From Verif Require Import PrimeProofs.
Import ListNotations.
Local Open Scope Z_scope.
Lemma prime_257' : prime 257. Proof. now apply (trial_prime 257 10). Qed.
Lemma modulus_1 : prime (2 ^ 8 + 1). Proof. exact prime_257'. Qed.
Lemma prime_2' : prime 2. Proof. exact prime_2. Qed.
Lemma prime_65537' : prime 0x10001.
Proof.
  refine (check_ok 0x10001 0x1 16 3 [0x2;0x2;0x2;0x2;0x2;0x2;0x2;0x2;0x2]%positive [
   {| s_r := 0x2; s_c := 0x8000; s_list := [0xfe01;0xff;0x0;0xfff1;0x407;0xba9;0x1;0xd76;0x15d5;0xe426;0xb0b4;0x290;0x0;0x0;0x0];
   s_u := 0x8000; s_v := 0x7fff |}]
   [0xffff;0xfe01;0xff;0x0;0xfff1;0x407;0xba9;0x1;0xd76;0x15d5;0xe426;0xb0b4;0x290;0x0;0x0;0x0] _ _).
  - vm_compute. reflexivity.
  - apply Forall_cons; [exact prime_2'|]. apply Forall_cons; [exact prime_2'|]. apply Forall_cons; [exact prime_2'|]. apply Forall_cons; [exact prime_2'|]. apply Forall_cons; [exact prime_2'|]. apply Forall_cons; [exact prime_2'|]. apply Forall_cons; [exact prime_2'|]. apply Forall_cons; [exact prime_2'|]. apply Forall_cons; [exact prime_2'|]. apply Forall_nil.
Qed.
Lemma modulus_2 : prime (2 ^ 16 + 1). Proof. exact prime_65537'. Qed.
Lemma prime_103' : prime 103. Proof. now apply (trial_prime 103 7). Qed.
Lemma prime_3541' : prime 3541. Proof. now apply (trial_prime 3541 31). Qed.
Lemma prime_16777259' : prime 0x100002b.
Proof.
  refine (check_ok 0x100002b 0x2b 24 2 [0xdd5;0x67]%positive [
   {| s_r := 0xdd5; s_c := 0x1282; s_list := [0x6dd303;0x1af2206;0xc5f912;0x28715b;0x419478;0xf6631f;0xf55d0e;0x1fff;0x0;0x0;0x0;0x0];
   s_u := 0x14a7b8; s_v := 0xa672d |};
   {| s_r := 0x67; s_c := 0x27c46; s_list := [0x6881d3;0x1ffaa05;0x13b4ee4;0xbce41;0xb5fded;0x36bcd7;0xe49740;0xa8e106;0x876490;0x50a845;0x4f3e62;0x1ad9cd5;0x7fff;0x0;0x0;0x0;0x0];
   s_u := 0x5966cb; s_v := 0x24640c |}]
   [0x1000029;0x82a168;0xd42c65;0x1203db8;0xc0c6d;0x15cc7eb;0x622bbf;0x1e48;0x16f8;0xfb9cb;0x8e6ccb;0x406af1;0x151713;0x57bdc3;0x4e2f23;0x69d0c4;0xb27579;0xcb077;0xffaa32;0xff;0x0;0x0;0x0;0x0] _ _).
  - vm_compute. reflexivity.
  - apply Forall_cons; [exact prime_3541'|]. apply Forall_cons; [exact prime_103'|]. apply Forall_nil.
Qed.
Lemma modulus_3 : prime (2 ^ 24 + 43). Proof. exact prime_16777259'. Qed.
Lemma prime_1423' : prime 1423. Proof. now apply (trial_prime 1423 20). Qed.
Lemma prime_364289' : prime 0x58f01.
Proof.
  refine (check_ok 0x58f01 0x18f01 18 2 [0x58f]%positive [
   {| s_r := 0x58f; s_c := 0x100; s_list := [0xfd3;0x0;0x58ee5;0x2e0d;0x0;0x0;0x0;0x0];
   s_u := 0x16827; s_v := 0x35b3 |}]
   [0x0;0x58eff;0x11764;0xf8ba;0x7a22;0x128bd;0x183b0;0x43ccf;0x250e;0x85567;0x5b8d8;0x5be21;0x3f243;0x17778;0xb;0x0;0x0;0x0] _ _).
  - vm_compute. reflexivity.
  - apply Forall_cons; [exact prime_1423'|]. apply Forall_nil.
Qed.
Lemma prime_4294967311' : prime 0x10000000f.
Proof.
  refine (check_ok 0x10000000f 0xf 32 2 [0x58f01]%positive [
   {| s_r := 0x58f01; s_c := 0x2e0e; s_list := [0x6e07ae5;0x5b8617c2;0x91618e;0x775f4492;0x214afc1a;0x7a61f05f;0xffffe5;0xfff8801d;0x3fff;0x0;0x0;0x0;0x0];
   s_u := 0x6942213f; s_v := 0x3c09e309 |}]
   [0x0;0x2646f3af;0x3bcf93d;0x1ca0fed8f;0x14a9ec4;0x37c80d0;0x45b96565;0x41a2929;0x689a568c;0x33f05803;0xcc5868c;0xdbbfb2d;0x1f3cd4ab;0xc24808d9;0xdde6cf15;0xfd51be12;0xca6711c2;0x836227e;0x8a610320;0x381d2fae;0x101f3f79;0xbdd8443f;0xcfcf5678;0x5b27ac93;0x0;0x0;0xfffffff1;0x0;0x0;0x0;0x0;0x0] _ _).
  - vm_compute. reflexivity.
  - apply Forall_cons; [exact prime_364289'|]. apply Forall_nil.
Qed.
Lemma modulus_4 : prime (2 ^ 32 + 15). Proof. exact prime_4294967311'. Qed.
Lemma prime_37' : prime 37. Proof. now apply (trial_prime 37 5). Qed.
Lemma prime_73' : prime 73. Proof. now apply (trial_prime 73 6). Qed.
Lemma prime_109' : prime 109. Proof. now apply (trial_prime 109 7). Qed.
Lemma prime_36650387593' : prime 0x888888889.
Proof.
  refine (check_ok 0x888888889 0x888888888 0 2 [0x6d;0x49;0x25]%positive [
   {| s_r := 0x6d; s_c := 0x140aa5a8; s_list := [0x74742d66c;0x231aaeaa6;0x1c50932b2;0x5d236d466;0x393bc06;0xf0e65eec;0x34348226;0x4d469a016;0x54fb9;0x3d97836a7;0x6ec857314;0xbb4648ba;0x2ca123690;0xdbbf51c56;0xc1bdb05f;0x29956649;0x2c57d806c;0xf4523890c;0xb1c47d25;0x71582ad;0x0;0x0;0x88888886d;0x1d;0x0;0x0;0x0;0x0];
   s_u := 0x55e96017; s_v := 0x510ddd30 |};
   {| s_r := 0x49; s_c := 0x1decd448; s_list := [0xae909f5;0x5e7f2d5a;0x2e4e628b;0x250bbbb79;0x5590317;0x24ceea985;0xa96fb1211;0x6b523499;0x5345d2430;0x7a2e4c7b9;0xf027c4ca7;0x3d27b3895;0x1a3a143b9;0xd34b604f;0x29979860;0x1a86344ac;0x38bbc3dd;0x47318a597;0x8b6ef15a;0x8dfd4b3b6;0x182;0x111110fba2;0x110f511c8d;0xefffff;0x0;0x0;0x0;0x0];
   s_u := 0x20ad040e9; s_v := 0xda946e0d |};
   {| s_r := 0x25; s_c := 0x3b0a9be8; s_list := [0x2bd04b30d;0x54bee65be;0x1b8abc80b;0xc4ed1457f;0x131ab966;0x470853569;0x4115950b;0xa90b66d32;0xe0c2cc0b8;0x15abc18;0x1950c5f8;0x395fd6768;0x91119d6bc;0xc4fbce6;0x45fd84a8d;0xb93b4dbd1;0x1e5739b84;0xef8b1da94;0x657948ed;0x32354ba7;0x3f2f171;0x6;0x88888832d;0x887a88e46;0xefffff;0x0;0x0;0x0;0x0];
   s_u := 0x49f8c77c; s_v := 0x281a314f |}]
   [0x0;0x888888887;0xae6356b8;0x704ad6b32;0x19c0eba3f;0x4f1e27af;0x6a98f3c07;0x4579b488;0x111eec4a;0x4519342ac;0x29da2062f;0x9894cdb8c;0x5f456ab76;0x37a1f1d4;0x1bf010ffd;0x1930ff954;0x887c4d385;0x3e280247e;0x61cdb2f8b;0x323c015e1;0x2952d1901;0x8794ad21a;0x9d1d1f3;0x182f554b5;0x58bd73a32;0x22d923ec5;0x8886f66ad;0x10e64bfe90;0x6df808888;0x1dfffffff;0x0;0x0;0x0;0x0;0x0] _ _).
  - vm_compute. reflexivity.
  - apply Forall_cons; [exact prime_109'|]. apply Forall_cons; [exact prime_73'|]. apply Forall_cons; [exact prime_37'|]. apply Forall_nil.
Qed.
Lemma prime_1099511627791' : prime 0x1000000000f.
Proof.
  refine (check_ok 0x1000000000f 0xf 40 2 [0x888888889]%positive [
   {| s_r := 0x888888889; s_c := 0x1e; s_list := [0x0;0x0;0x0;0x0];
   s_u := 0xaafec49eb6; s_v := 0x2abfb127 |}]
   [0x0;0x21b398091;0xbb4ebac8f6;0x5b24b6b7bf;0xd89b91db32;0xc0aebb7c1f;0xde05ee3c3c;0xc9e8050b83;0x9509aa6bd1;0xb2802f5da8;0x89f4f50816;0xfa9fc80b41;0xeab1b7389;0x3dade70427;0x38aea7de1a;0x35bf51822e;0xa536b0031;0x3569baae53;0x7c33559a9c;0x8318cd17;0x9d370dd86f;0xb7154d1f21;0xa78cb2f1ba;0xa3473b154e;0x41d83b18f0;0x679db2503d;0x1d9a79dc;0x4718dd3863;0x9c98547249;0x21b2509f2;0x1d8796c606;0x7600ec617a;0xffffe5a20f;0xffe200e10e;0xffffff;0x0;0x0;0x0;0x0;0x0] _ _).
  - vm_compute. reflexivity.
  - apply Forall_cons; [exact prime_36650387593'|]. apply Forall_nil.
Qed.
Lemma modulus_5 : prime (2 ^ 40 + 15). Proof. exact prime_1099511627791'. Qed.
Lemma prime_17' : prime 17. Proof. now apply (trial_prime 17 4). Qed.
Lemma prime_1039' : prime 1039. Proof. now apply (trial_prime 1039 18). Qed.
Lemma prime_6994549' : prime 0x6aba75.
Proof.
  refine (check_ok 0x6aba75 0x6aba74 0 2 [0x40f;0x11]%positive [
   {| s_r := 0x40f; s_c := 0x1a4c; s_list := [0x5186a6;0x1ce5c;0x6e4835;0x36db82;0x1fb8c7;0x3da415;0xe97e1;0x25b705;0x9;0x0;0x0;0x0];
   s_u := 0x68d20d; s_v := 0x1b4b4d |};
   {| s_r := 0x11; s_c := 0x64734; s_list := [0x11793b;0x4db;0x88fa1e;0xde60;0x7187f8;0x81ee48;0x32d77a;0x662fc8;0x79de71;0x161bf;0x6e6f7c;0x52a5;0x74bf;0x43d550;0x4;0x0;0x0;0x0];
   s_u := 0x82c73; s_v := 0x226ba |}]
   [0x6aba73;0x8b071;0x45839;0x404117;0xf704b;0x1b990;0x4b839;0x487421;0x61b1bb;0x78fdd2;0x4f38a8;0xc29393;0x3cd55;0x2a3380;0xdf130;0x39b43e;0x1d2fc3;0x4b6e0a;0x9;0x0;0x0;0x0] _ _).
  - vm_compute. reflexivity.
  - apply Forall_cons; [exact prime_1039'|]. apply Forall_cons; [exact prime_17'|]. apply Forall_nil.
Qed.
Lemma prime_2462081249' : prime 0x92c060e1.
Proof.
  refine (check_ok 0x92c060e1 0x92c060e0 0 2 [0x6aba75]%positive [
   {| s_r := 0x6aba75; s_c := 0x160; s_list := [0x1b96fcf8;0x1c16d28c;0x92c060d;0x1be9;0x0;0x0;0x0;0x0];
   s_u := 0x65992728; s_v := 0x50900c77 |}]
   [0x0;0x0;0x92c060df;0x29a3861;0x8c15ab0a;0x11c1a4aed;0x8867296b;0x4389cb0f;0x1c26c573;0x157b2426;0x7073ab30;0x2baf2c12;0x80db9fb1;0x23bae6d2;0x4697492d;0x62d15c3;0xcc6add5;0xaec9ad8;0x17ca3866;0x776c2e45;0x861a8573;0x3e1fc1a9;0xcb148940;0x1257ecdc2;0x4da77de0;0xf3a7c171;0x1b;0x0;0x0;0x0;0x0] _ _).
  - vm_compute. reflexivity.
  - apply Forall_cons; [exact prime_6994549'|]. apply Forall_nil.
Qed.
Lemma prime_281474976710677' : prime 0x1000000000015.
Proof.
  refine (check_ok 0x1000000000015 0x15 48 2 [0x92c060e1]%positive [
   {| s_r := 0x92c060e1; s_c := 0x1be94; s_list := [0xc3eb4501ccd;0xdaa1cca918b5;0x1cb6c3be755e;0x237f357114c4;0xc24a93007ec;0x29d053204e0;0x4eac10fe14ca;0x12d0f4ce8de35;0x3be9c2183fe6;0x1;0x1ffffffffd62a;0x7f;0x0;0x0;0x0;0x0];
   s_u := 0xb63a6d26ddac; s_v := 0x753e556ad027 |}]
   [0x1000000000013;0xd79992c9;0x6bccc965;0x116d6c9d3d14;0xf82062e0b4bc;0xcfd48e8683dd;0x2ab4b88d5beb;0xad1cb69d5173;0x3099526f1e1;0x45cb5dda0f3;0x816f246d1276;0x42c4074d1d4;0x79f6a0d5f51e;0x7502ad7f6bd3;0x23208729ad95;0x69318856f90;0x39cffbf41334;0x1bfe8d779d50;0x1f517726453b;0x73e7db1bd755;0xed8d4cf4385f;0xcf96c889478b;0x7db631f950b5;0xcba0157f6b0a;0xa96501fa8740;0x52230619d2e4;0xa956479bfe3;0x6e5ee91d7e07;0xc3cad5c09cde;0x4b16cdbe47a4;0x64e9fcd8645;0x29ec4187ab00;0x5df99afd8219;0xf537de9a712b;0x251eb3f3c98;0x3af1f6e0c869;0x9e90914a6d71;0x6ec1df029a9;0x30359bf08f1d;0xff836c219676;0x2f7b0ffff;0xffffffd60015;0xffff;0x0;0x0;0x0;0x0;0x0] _ _).
  - vm_compute. reflexivity.
  - apply Forall_cons; [exact prime_2462081249'|]. apply Forall_nil.
Qed.
Lemma modulus_6 : prime (2 ^ 48 + 21). Proof. exact prime_281474976710677'. Qed.
Lemma prime_34501' : prime 34501. Proof. now apply (trial_prime 34501 94). Qed.
Lemma prime_947' : prime 947. Proof. now apply (trial_prime 947 17). Qed.
Lemma prime_808739' : prime 0xc5723.
Proof.
  refine (check_ok 0xc5723 0x45723 19 2 [0x3b3]%positive [
   {| s_r := 0x3b3; s_c := 0x356; s_list := [0x183a6;0x157bb0;0x15730f;0xeec;0x17af81;0x52;0x0;0x0;0x0];
   s_u := 0xb4752; s_v := 0x19ddb |}]
   [0xc5721;0x353f0;0xad62;0x17d1d;0xc52ff;0x113425;0xb5e7;0x442d1;0x174b28;0xac265;0x14473;0x8cc72;0x8ec6d;0x3f6e5;0xdb1ee;0x14;0x0;0x0;0x0] _ _).
  - vm_compute. reflexivity.
  - apply Forall_cons; [exact prime_947'|]. apply Forall_nil.
Qed.
Lemma prime_14557303' : prime 0xde2077.
Proof.
  refine (check_ok 0xde2077 0xde2076 0 2 [0xc5723]%positive [
   {| s_r := 0xc5723; s_c := 0x12; s_list := [0x0;0x0;0x0;0x0];
   s_u := 0x8d598d; s_v := 0x28b9e |}]
   [0x0;0x11cc197;0x105e0b;0x44364b;0x61544;0x1b5d237;0x3658f9;0x17869d;0x23a6c;0x15e16d;0x3ef8cf;0x7d1a;0x59f17;0xc6cb68;0x36a089;0x6de914;0x0;0x1bc404e;0x157e65;0x9;0x0;0x0;0x0] _ _).
  - vm_compute. reflexivity.
  - apply Forall_cons; [exact prime_808739'|]. apply Forall_nil.
Qed.
Lemma prime_72057594037928017' : prime 0x100000000000051.
Proof.
  refine (check_ok 0x100000000000051 0x51 56 2 [0xde2077;0x86c5]%positive [
   {| s_r := 0xde2077; s_c := 0x12709e630; s_list := [0xa682dbb09ec627;0x38029a45526463;0x9d58d51021cd86;0xdb7b8abf305b11;0x16c1ffd9c4a1a;0x17e143e0f6d2c32;0x61d7ae07ef8054;0xd7906f1f3ee3c;0x12df41077dfff6;0x14cd853ce8c3e76;0x78433901dfce9;0x6d7e07a6dfd92;0xf44189d6c06192;0x164a167839d96f;0xd5bf17918d9;0x12f0340cb1c4a80;0x15394fdebf8266;0x27c0548a434898;0x16ce9609e3dee8;0x93e132c37d8b4e;0x64769ff277889d;0x2319f467c1a91e;0x1435244120f3fa;0xff3056129c14db;0x1486ba07fff;0x1fffffffd7800a2;0x1ffff;0x0;0x0;0x0;0x0;0x0];
   s_u := 0xd0a40052ae3786; s_v := 0x1665961f3f6717 |};
   {| s_r := 0x86c5; s_c := 0x1e648328410; s_list := [0x96e47bb17c7431;0x13efebb1f1f42;0x14f6a48adbba2c;0x38268b872d1373;0x84c24590f731b9;0x1b8680d61874d8;0xa9d55bac192bb1;0x74be632398a04b;0x9ed37a5d395ee8;0xbd67646aa0555a;0x13106ce550537e7;0x1eceeff58c02a5;0x30a3689b485399;0xd6fbb0c346ab;0x62194f440bc4e;0x9fa5717f877196;0x758d703d97e2c;0x404d11ec7b679;0x7981ddd062e;0x735c9783e68b2;0x7ede7581ae2d;0xe0c9d01087c53f;0xeeb5e0ac2a7c85;0x9476ab97213637;0x652d0764183da;0xb22a603ee0c2;0x517a85523fac69;0x12a96941baa43e;0x87efab455e8830;0x7590fb5d957309;0x1a24f5e6765cca9;0x5093d63a8a9a0f;0x1a553f887;0x0;0x1ffffffffffec62;0xf;0x0;0x0;0x0;0x0];
   s_u := 0xbcf52a3278e10; s_v := 0x43806e576996f |}]
   [0x0;0x0;0x0;0x0;0xcaf9242b8e5401;0xe05eb2a9a3d926;0x126851d33652c77;0x2606ea03ce34cc;0x3a4fd692c6537e;0x33f2681274ab4;0x17e5ff2efee783;0x4c290c9f5286a;0xed39a6425bd582;0x3a4431857b754d;0xaefda91a58f23c;0x13e419a4989338;0xdb0bebbb77c64e;0x1c6e471abf6084;0x52b04b5d5b7720;0x29d5cde341378c;0x6c210dc3c7c7de;0xbdf85bef9e5d35;0x21dc98bea9752d;0x1e8ed46bd1f29b;0x84a37f6ff719e9;0x5edf49822e72d5;0x8a5a2472bbf407;0xdf7f11b1d2f9b3;0x9c786b1f012ec4;0xf5d6ba82a175d5;0x29aa909a2e705;0xa9d70cea1424;0x29d9ad7bac1f1;0x4a6b41b2ba11c;0x18ff551b4c2aa4;0x1470a9c72ca427;0x4bfc61c3b2673;0xfa73bf1fab3a68;0x3492b7d2ea5b80;0x72f0cb9da632b;0x3c253b39dba8da;0xffe8cc9e197a42;0xefb70408f642ca;0x2d6939717164;0xa85f2eedabcb1d;0x4d2dc94adcf44d;0x929927e7af7b20;0x51f2de1e3e802e;0x2;0xffffffffff5e51;0xff;0x0;0x0;0x0;0x0;0x0] _ _).
  - vm_compute. reflexivity.
  - apply Forall_cons; [exact prime_14557303'|]. apply Forall_cons; [exact prime_34501'|]. apply Forall_nil.
Qed.
Lemma modulus_7 : prime (2 ^ 56 + 81). Proof. exact prime_72057594037928017'. Qed.
Lemma prime_61' : prime 61. Proof. now apply (trial_prime 61 5). Qed.
Lemma prime_151' : prime 151. Proof. now apply (trial_prime 151 8). Qed.
Lemma prime_331' : prime 331. Proof. now apply (trial_prime 331 11). Qed.
Lemma prime_1321' : prime 1321. Proof. now apply (trial_prime 1321 20). Qed.
Lemma prime_658812288346769701' : prime 0x924924924924925.
Proof.
  refine (check_ok 0x924924924924925 0x924924924924924 0 2 [0x529;0x14b;0x97;0x3d]%positive [
   {| s_r := 0x529; s_c := 0x1c595db66a084; s_list := [0x5bc5bb60317074;0x10660ca22ada665;0x5efc3bc065bc33b;0x70b800569009fc0;0x48cf4394ed3c40f;0xf912576adc4e8c;0x1d701869fa9ec90;0x5e61644c58a9cad;0x128a5f6c51304f7;0xa3c2e3f0a;0xf6e0d713f0a2;0x2c6ce1feb18e8c1;0x54fd7340f45895c;0x350de225c99c42;0x5e5317ab0c9237a;0x1274ac18c13968d;0x199edb041313d1;0xc9cd4156d460027;0x4a0deda1b869aa4;0x59d27dd16b3b14;0x5ede5d021dc46a9;0x99feb4cfed15e73;0x9456d42217c570;0xbafbd2bd33d025;0x3cbbb7573b8402c;0x896b525ab8aee17;0x276f9f5e70b2c2c;0xf9614aa91ff4d33;0x9ae1beb68c62886;0x17fdc56b299e62f;0x214f89a1b0a80;0xd0ce6f32247d283;0xa10525cf3273f55;0x449b4d7b2e9281f;0x1d9c87f4527dbad;0x8f7ac503edd7e2;0x270c30797548d0a;0x45fda7dea07c6e;0x8fba72fc37b9246;0x1249249137c4924d;0x1248b892e89c9249;0x8f4d14924924924;0x37ffffffffffff;0x0;0x0;0x0;0x0;0x0];
   s_u := 0x713e8e756823563; s_v := 0x214db1d12bea650 |};
   {| s_r := 0x14b; s_c := 0x7123b001c48ec; s_list := [0x2c957cf4efe03a9;0x38e2fcd58d2863c;0x154b58355c93fbf;0x1131e4ebbbcefa36;0x5efa61170bf9dc;0xc395d73149387ca;0xf9a2e39d6958ac8;0x17cf5482684f4ff;0x4a1986f5c41f5a2;0x8759d12f563a13;0x50dd9bf245c6fc6;0xfa4ebc491aa0ca3;0x83916ca5b5879cf;0x42a0ea819b6ba2;0x3b4667e1c9fadb4;0xa9676225934646;0x6181aff3d7c2c19;0x842fa2dbf9e4928;0x1578cbd30413e85;0x115c7f70bdcd2d5e;0x11d55495768d81f;0x8928692a91208a4;0x5ccfc09d6044239;0x3569d79a7393d23;0x1e39c2142ec761;0x77ccb00ce50ce17;0x29f3efa153025fc;0x39366d5b96c642;0x75a5800cbd021a;0x19f968908c8b9a;0x14eef473c1328f8;0x756cf347ad15719;0x7dcc977268f517;0xa60576a64863dbe;0x417b1e65d9d7473;0xd82ef157bc35b5;0x2445ead0903615;0x11d0cd1c95177a6e;0x11d3855a982256e;0x3014db00d9c93a1;0x91a4ed9d7a56fff;0x12492491c074924a;0x9245c49744e4924;0x8f4d14924924924;0x37ffffffffffff;0x0;0x0;0x0;0x0;0x0];
   s_u := 0x1e8d0ea09f73741; s_v := 0x119b16f4cf0a952 |};
   {| s_r := 0x97; s_c := 0xf801f003e007c; s_list := [0x274b6ea9857a660;0x283b94dd07d7a0f;0x646a7dc77a3c55d;0x2bb1b8608bf;0x235ea124b1e94a3;0x9da6537261155b1;0x33ac0a207ac3c4b;0x26dc7ad2acd0219;0x55f82c5f51c3f4e;0x6c6d3c07151d7ff;0x39c836c0878f958;0xea1ad636c5a3b7;0x2b0b6b7c37e9ff1;0x6e7724aaf89f975;0x26939bc03c6c819;0x8aaa7a259620fb0;0x3937fd031f816ab;0x4a0f1c91c5e1fd3;0x4b153faeed0e4cc;0xb0dd3e222ced60d;0x8fbcd3d2f789f8b;0x10da962ab51b3a1;0x41ed068c727210;0x9868ff10bb6dcc;0x91a4003e0f3ec5e;0x5c68ae7dd83753;0x21951453a4cca6;0x8b3cd2e8398a49;0x33f67ee76379ccc;0x50cb71c8ea0abe7;0x4a65da60151cd0;0xba2ab476d30029;0x1523d9190041616;0x9eb6caf996578ae;0x11de1b3829cc6b6;0x9777dd31ff61d46;0x3f4b6571eb5b39a;0xa7fdfbfb4f1c7;0x25f5370763d21e3;0x9926ea2738c8c1;0x4bd7f4333b1;0x0;0x0;0x0;0x0;0x92492492492491f;0x6;0x0;0x0;0x0;0x0];
   s_u := 0x5193a1c84b819f6; s_v := 0x1e45955ae584c0d |};
   {| s_r := 0x3d; s_c := 0x265eb9dad43bf4; s_list := [0x8f38b5127ad2c0;0x69e7e9f9131edff;0xb2422db9f6a261;0x8b63859e2ffbb0d;0x8091df053c5cfcb;0x173d21edc213c1a;0xa798b73bfe5565;0x8f45fe6a3ed145;0x58db58d429e9c34;0x4b96eef4eeca80a;0x8bb22457efcd1fb;0xeeb4f8d2a3900ae;0x18ee5d84ab0f023;0x2336a25d016e6e6;0x10d25aded2c3ccb;0x6e7125c8f1dcad;0x46ef0364f58ecfa;0x8c94437b8190319;0xf4c06d92500eed0;0x295b8a82019bcae;0x15264ecbda2c610;0x128fdc5ffbea236;0xbafca4609b09eab;0x44fad9475f81e0a;0x6c456ac4cfbb90d;0xd406de0b504a2;0x22819803e9c4821;0x1888ded4a2b22a7;0x3647d33b61cfcb;0x2dc850f42a1d3e6;0x1ae68033872799b;0x34e8d569161fb7;0x4cf62d9523b39ad;0x835f9f666f7103;0xd81e7f20cc7a74;0xe1475386f309c53;0x212ff871824304d;0x5fef90aec37496;0x31a48e32c9a006;0x99f1d436fc7a81c;0x231778423a6b098;0x8a74fa0adafd6ca;0x7e2402924a357fa;0x647249249249682;0x37fffffffffffe5;0x23;0x124924924921924a;0x1bfff;0x0;0x0;0x0;0x0;0x0];
   s_u := 0x83a54b2c4107757; s_v := 0x3b495cd20c85274 |}]
   [0x924924924924923;0x4c33c135633081;0x2619e09ab19841;0x74c73937745ff71;0x76d958a651eb94b;0x5d5a567d31a831;0x60a974f116bd0ae;0x22443511e277aae;0x732cb44192ab252;0x6b8d815e1a91921;0x7c28117078cd196;0x11886523639e938b;0x2ed35c332e34c2;0x8fe4dd5c52b2df4;0xeb03e805abc3c20;0x5176ca06aa0b28e;0x6906a7ada86dd1a;0x229d9a21551040b;0x3e3c9a5a73d7cc5;0x10b58b302bebcc1;0x113e4d38d385ca38;0x132183715db6279;0x587c93a03e3fa3f;0x27cd2c6b86afd;0x4709cf78349a680;0x1e5c075080e0a5a;0x48cb66e93ded3f6;0x185fe8480ef308c;0x25d6f8de11e4226;0x1e2f204657c31e2;0x869b2d95473de6;0x2b25656945ccd23;0x1ece4d20f62465b;0x494a880b9dddc2e;0x7c281a0bd177bba;0x5525e06af1f67;0xf693af2e6d593e;0x74b3e9ce76943fd;0x321d2e8eef839e3;0x46c09b0a6350370;0x2371cf1b8e58447;0x11d38286e6ecae;0x9288b04f9f941c;0x59c84f1d48b6a;0x5194a9e324f9c74;0x2a5ff46bf52259f;0x8e5e666f7f7b753;0x8ba55c24ab5e151;0x91252492408464a;0x9248d7af533ee1d;0x59b37ffffff;0x0;0x924924924921925;0x37ff;0x0;0x0;0x0;0x0;0x0] _ _).
  - vm_compute. reflexivity.
  - apply Forall_cons; [exact prime_1321'|]. apply Forall_cons; [exact prime_331'|]. apply Forall_cons; [exact prime_151'|]. apply Forall_cons; [exact prime_61'|]. apply Forall_nil.
Qed.
Lemma prime_18446744073709551629' : prime 0x1000000000000000d.
Proof.
  refine (check_ok 0x1000000000000000d 0xd 64 2 [0x924924924924925]%positive [
   {| s_r := 0x924924924924925; s_c := 0x1c; s_list := [0x0;0x0;0x0;0x0];
   s_u := 0x741aa59741aa597a; s_v := 0x741aa59 |}]
   [0x1000000000000000b;0xc26eb460d9a6c0a9;0x61375a306cd36055;0xbe03d64595bb43dd;0x2f805ec6c905fde1;0x654eeba3b6e380aa;0x9b43eec6f8b3a8f7;0x5df362dc919ad29b;0xee3f2d01f0094d9;0xb68fd4d46a1ffc66;0xa7de16e9827a6110;0x92acdd941ff96475;0x19a35942fe5c519;0x62a52b4e74f0492;0xd40b8dbfd16a63fe;0xf194e204fac1d12;0xcedef1ecbfd9861a;0x1571a9e3e733c99;0x4f62f2cf548a1079;0xa079c264860960ee;0x2a55a0c86454d184;0xf6642a5b64456bc;0x18f1b756918134a6;0x40a32284ff47417f;0x446ad1aa06244bf;0x3f56e518de5464e4;0xd9eeb8f364fd9737;0x6558d286c0e1ddd6;0x32401da36f01d5fe;0x2f22198303df8c90;0xfe278f3eb15af490;0x1876520c4458e473;0xb63f73b603d41;0xdfa0efc81dfa752;0x86a4b7bee54308d6;0xa7729b1ce91e03cc;0x2faba740f05083c3;0xde14e120f195a7e6;0x12e358f29364f198;0x1075aff132752d;0x301d9c0a81f746;0xa2aa7b2839d59c9c;0x9514ec435b7aa1b;0xcb2fcf4b2c08b435;0x8a4415bfbec7007;0x645267e6d6ec3017;0x74d21e06b1fef58b;0xe5a0a6a39338c2be;0xdebc920e306f7c9f;0xb4a6a71b100fa91b;0xc846e037941b003;0x2efc4185d5a9b6;0x9caa273cf99f784;0x5546b4036cb4a9;0x0;0x0;0x0;0xfffffffffffffff3;0x0;0x0;0x0;0x0;0x0;0x0] _ _).
  - vm_compute. reflexivity.
  - apply Forall_cons; [exact prime_658812288346769701'|]. apply Forall_nil.
Qed.
Lemma modulus_8 : prime (2 ^ 64 + 13). Proof. exact prime_18446744073709551629'. Qed.
Lemma prime_97' : prime 97. Proof. now apply (trial_prime 97 6). Qed.
Lemma prime_631' : prime 631. Proof. now apply (trial_prime 631 14). Qed.
Lemma prime_60594931' : prime 0x39c9af3.
Proof.
  refine (check_ok 0x39c9af3 0x39c9af2 0 2 [0x277;0x61]%positive [
   {| s_r := 0x277; s_c := 0x1771e; s_list := [0x398afe3;0x322a3e5;0xc8a71;0x2800ab7;0x4d59fba;0x212c34;0x38f2158;0x17bba0;0x3518cb3;0x1eb59b3;0x216fba5;0x11b851;0x0;0x0;0x0;0x0];
   s_u := 0x9f204f; s_v := 0x62cea0 |};
   {| s_r := 0x61; s_c := 0x98832; s_list := [0x8068b8;0xfb7efb;0x23a3b08;0xb4626d;0xb9d2e2;0x5f8b11d;0x26622c9;0xd7d15;0x272e69c;0xa95a45;0x8b6de;0x53;0x39c9933;0x5dcc5f;0x11b8;0x0;0x0;0x0;0x0];
   s_u := 0x2e8536a; s_v := 0x207cb15 |}]
   [0x39c9af1;0x5828e3a;0xcf48e3;0x99ae44;0x5330f1;0x1d530a3;0x587e4c2;0x21b17;0xccb894;0x12e8fc2;0x25d83d;0xd1d45a;0xfac8d;0x1a3b06d;0x6dffc;0xa82f3;0x3fa8;0xf64cb2;0xb04124;0x23c9947;0x155eaad;0x4;0x0;0x0;0x0] _ _).
  - vm_compute. reflexivity.
  - apply Forall_cons; [exact prime_631'|]. apply Forall_cons; [exact prime_97'|]. apply Forall_nil.
Qed.
Lemma prime_179' : prime 179. Proof. now apply (trial_prime 179 8). Qed.
Lemma prime_156089' : prime 0x261b9.
Proof.
  refine (check_ok 0x261b9 0x61b9 17 2 [0xb3;0x6d]%positive [
   {| s_r := 0xb3; s_c := 0x368; s_list := [0x1286b;0xaa18;0x92c1;0x46b0;0x1d79c;0x35b;0x0;0x0;0x0];
   s_u := 0x1a78f; s_v := 0x14672 |};
   {| s_r := 0x6d; s_c := 0x598; s_list := [0x8bdb;0x7b85;0xe0aa;0xd9bd;0x695;0x1cecf;0x1a;0x0;0x0;0x0];
   s_u := 0x5a5a; s_v := 0x2ef |}]
   [0x0;0x0;0x0;0x24179;0x1f865;0x26f4d;0x4856;0x21efe;0x2cc3b;0x54b8;0x1a881;0x1240;0x4e8a;0x3;0x0;0x0;0x0] _ _).
  - vm_compute. reflexivity.
  - apply Forall_cons; [exact prime_179'|]. apply Forall_cons; [exact prime_109'|]. apply Forall_nil.
Qed.
Lemma prime_541316653' : prime 0x2043d62d.
Proof.
  refine (check_ok 0x2043d62d 0x2043d62c 0 2 [0x261b9]%positive [
   {| s_r := 0x261b9; s_c := 0xd8c; s_list := [0x1310833;0x19648851;0xcc8ea;0x4087817a;0x109ae70b;0x13804ab;0x1fbcb87;0x0;0x0;0x0;0x0];
   s_u := 0x1ed2d05d; s_v := 0x1628dc84 |}]
   [0x2043d62b;0x26f6ee4;0x87c64c0;0xb38a6ae;0x7587a7b;0x44a69;0x2e3bfab;0x1aa45ba5;0x1aac9ef3;0x1b5f4b8c;0x3198c340;0xc3c6650;0x891b313;0x146c9254;0x17aba7c0;0x81f1fb6;0x1f407e67;0x29102dbd;0x176f701c;0x445b358;0x1bed2eb6;0x1bbdafa;0x91314;0x1c2a1b64;0x7;0x0;0x0;0x0;0x0] _ _).
  - vm_compute. reflexivity.
  - apply Forall_cons; [exact prime_156089'|]. apply Forall_nil.
Qed.
Lemma prime_4722366482869645213711' : prime 0x100000000000000000f.
Proof.
  refine (check_ok 0x100000000000000000f 0xf 72 2 [0x2043d62d;0x39c9af3]%positive [
   {| s_r := 0x2043d62d; s_c := 0x7ef2e1cc706; s_list := [0x705a7adcd85cf5e1f;0x17276306adcd003b83b;0x18342ac93c5d0c51d72;0x370862375714b5d6e8;0xecaf35063623c61776;0xf0f3df4fb16d71d5fc;0x590cb7ca598c23c1a1;0xea3c735d1089810b51;0xa8def6e4ae3c42b247;0xa010c167ee9d75416c;0xb7e5ea45531d9aa54c;0x7d07bcbf9bbb4dcbed;0x3af50488ed43b9681;0x2ab262fd5964437333;0xbf3a6e5bd002d7af8c;0x3d2841907779278cf;0x5726660144867b8bcf;0x8b326c757c1a9e266;0x67f01f5113f67f081b;0x8184ab1ed7888cc95;0x83fdc5cf11543cc77a;0x78a01c480923484bb6;0x6a60756cd7fe55131d;0x17084c95ac53f7fbe;0xc4b2823dbdfc03266;0x123d3cac37f9c9b7d6d;0xe3478d76b5fb672545;0x58ececfb2808f966e;0x2a73b9462c797bb48b;0x2695b1e68b47f1a114;0x52e2595c565d799bee;0x4d159d12996998edb0;0x15024edcf6de65;0x1fffffffffeba1c923e;0x1fffff96880056e7525;0x1fff1001c200000001d;0x3fffffffffffff;0x0;0x0;0x0;0x0;0x0];
   s_u := 0x82d038ab4e6b177ef9; s_v := 0x16c9de87d38c0dcf2 |};
   {| s_r := 0x39c9af3; s_c := 0x46e14626c73a; s_list := [0x36d62a508ca220c285;0x18f6bf61b05f67cc08f;0xe7c964e6b3e35ba398;0x7431c6b6e08165c88e;0x45c77284fd1dc26e9a;0x5d550c10701066df35;0xd1a7c4d57303476588;0x1bbbb2c646944037dd;0x1445adea4d7877bc382;0x11032a1807c4d27f2ff;0xabaae8bc583e9c3d7a;0x806dc975e4b0bd7e0c;0x88caf526f6fdf715fd;0xeb6ab737e88e6a5f07;0x82e4f0e79cd32fb2c7;0x173bddec22554a00e6a;0x3569667de9af8035f2;0x9bd5dc7e99a38ca8a8;0x11d8bf0ad25c8e4e9db;0xd88debd245d8328f34;0x46c1ebd42c4ca10454;0x17f455897be3dea651f;0x463d43b957a9a60931;0xce5a0be0afb0b73ef6;0x55375cd10841b1fab5;0x52292705080aab785f;0x1bc60c2d3a4ae45b50;0xc2631a098324b67a43;0x55effad64895874e;0x764c7d675f344cda37;0x13f9421a0d57f34ed1d;0x59122fd10d4476ba83;0x10e6f66b37515343e8;0x9d3de633fec3729046;0x2a5ed87fc19df4f350;0xf060f1d1a8f9ce49b;0x1488400000002b431e;0x908000000000000d2a;0x8000000000000000e;0x1ffffffffffffffffe;0x0;0x0;0x0;0x0;0x0;0x0];
   s_u := 0xdc14eb2fdc719c5db3; s_v := 0x48b15bf9fb6cc12792 |}]
   [0x0;0xecabced86f6b0ebbdf;0xfec25403d33d45692b;0x5362eca6181d07ec7e;0x27e58f6204e0d4f8;0xcc6e68b500ff77b1a3;0xb3117ab34c4724c064;0xfe2b9e5d4c8623dc12;0x48b34f932f009d9542;0x1e077cbb1cddb74fac;0x3450d2b46d6f1392bf;0x13ebc4dcde53c64298;0x5713877d3611f5163f;0xfed533bdfa1cba2c8b;0xb6b0177735722a11;0x5432aaa63bea380f44;0xd44eec154aaf4f4d3c;0x2d17c18ad6f00eb9e0;0xd79907f9222b26a478;0xbe01e2486a48af860c;0x799ff4971c7a157baa;0x2b7858759e3761752;0x8e4ff8377f9b4317f4;0x45b888837f660f7c93;0x4d08259df2f382d9e;0x830d359afb5fbc242b;0x51884a5333444faa0e;0x404da8b28a2a4dbed3;0x34c20ffc90c0e20c3a;0x65f6c2f5e6cb38de6c;0x80b68c5019f4be18f2;0x4d26e7844630aff889;0x154f3a1a2d75d4781;0x116847decf7ee15b74;0x11a66428d454780c5b;0xdd8c32653c774a4233;0x6d199b42ae431590a1;0x11a85c8f74196c1dbe;0x62c5366464b685c52a;0x6d33eab1f4e145def1;0xa6e3e24560baf9dd49;0xaabfd64c21d3cce571;0x53ebb7a1df4e0b4b87;0x7a9487cf5a202d9446;0x5d688f44416ed2bbe3;0x5451251ac16cf70ce5;0x2c89b7cb4942f00e4;0x6cc29c44760a37b46;0xeada9ede006f1bffed;0xdc9c1d7f029157b9c3;0xcb31fbbcda3fb083;0x45e424cbe20b4b83;0x25bf1f60ba6ad5dd5;0x129fa57d16e40f890;0xc4ea0a76599785321c;0x9903158aa1399ef65a;0x8df56fb1d2e5d1b13f;0x681a4485e7e105878;0x766c29dfd1aa54e580;0xc9ad0502c7431ff3a0;0xd296071a0487e01cce;0x2a049db9edbccb18f3;0xffffffffeba1c9220f;0xffffe5a200adcea10e;0xffe200e1000000000e;0xffffffffffffff;0x0;0x0;0x0;0x0;0x0;0x0] _ _).
  - vm_compute. reflexivity.
  - apply Forall_cons; [exact prime_541316653'|]. apply Forall_cons; [exact prime_60594931'|]. apply Forall_nil.
Qed.
Lemma modulus_9 : prime (2 ^ 72 + 15). Proof. exact prime_4722366482869645213711'. Qed.
Lemma prime_3529' : prime 3529. Proof. now apply (trial_prime 3529 31). Qed.
Lemma prime_739' : prime 739. Proof. now apply (trial_prime 739 15). Qed.
Lemma prime_69467' : prime 0x10f5b.
Proof.
  refine (check_ok 0x10f5b 0xf5b 16 2 [0x2e3]%positive [
   {| s_r := 0x2e3; s_c := 0x5e; s_list := [0xe7bb;0x136c7;0x78;0x0;0x0;0x0];
   s_u := 0x53b7; s_v := 0x8a8 |}]
   [0x10f59;0x9868;0x291c;0x1d53;0xef9c;0xfb49;0x6693;0x285;0x7d9e;0x350f;0x1b2bd;0x1e306;0x0;0x0;0x0;0x0] _ _).
  - vm_compute. reflexivity.
  - apply Forall_cons; [exact prime_739'|]. apply Forall_nil.
Qed.
Lemma prime_8908647580887961' : prime 0x1fa65e267ceb99.
Proof.
  refine (check_ok 0x1fa65e267ceb99 0x1fa65e267ceb98 0 2 [0x10f5b;0xdc9]%positive [
   {| s_r := 0x10f5b; s_c := 0x1ddbdeee48; s_list := [0x1c045a11393f0d;0xba445d7bd9a9e;0x1bf45631ea2bd8;0x2c892ba4e7dfe6;0x1221bc427f5f7d;0x13dbf3d03ce2;0x236c044032d732;0x5719540e3858;0x2f6e43e605c13;0xa709b0e32b5bc;0x716c1da88ef90;0x688bfaa1a6b;0x493f968e5c42f;0x3a4cc55c9e03fa;0x904605a29f4ea;0x1d831ffa82e240;0x1a35597246abd4;0xb6e29ed676e16;0x108de0e06b069;0x2573ab8ea4f5;0x26e447a849a20a;0x11baf7f8936baf;0x3d3afa7ad76593;0x15d812e2cfa4cd;0x25da34391c9124;0x189e5fe6170352;0x84f8ad;0x0;0x3f4cbc4cf9d072;0x1f9a5f49ac88c8;0x1fbacf9d731fff;0x40;0x0;0x0;0x0;0x0];
   s_u := 0x10337c20ad24e2; s_v := 0x4952622f3b1f3 |};
   {| s_r := 0xdc9; s_c := 0x24bc2a3fad8; s_list := [0xc07b3ef9702;0x19464019555c;0x8221c9232c758;0xc5bc0690a8f0;0x110ad9a5e7ae1;0xc51098be5dc89;0xd56756a39266d;0x2f8125635fccae;0x93db9d51ac4a3;0x6bd27bdd29c03;0x1c0b79c94f26d4;0x1036bddbdee036;0x26f3c690f36e40;0x1b9d28c64fac55;0x373dc04ac8841;0xcaf8854aa09b;0x182ad413df5e47;0x26dc9c82941ec;0x2ed5e4cb1272f;0x1914d3173872f2;0xbd8e7778c3ec5;0x36faede1eb4634;0x33d1365d47d26;0x1ce925edd7d3f;0xdbe288dd8b;0x3051fe4e1f8ca6;0x1263e8c0145bde;0x810fbc90d3eac;0xad1f4ac5678;0x37da34a103745;0x3f4cbbdf80a1e1;0xd67466ac7eb91;0x31789f242d1a1f;0x10c408fc77192c;0x16883086e66eb9;0x102d4f;0x0;0x0;0x0;0x0;0x0];
   s_u := 0x894e90ab583ed; s_v := 0x430a591b487d8 |}]
   [0x0;0x0;0x1fa65e267ceb97;0x36c45b2bca2d6a;0x105f9375061e8f;0x1043c4e94056b;0x12ef77dfdd47e;0x8ef07664e708e;0x4b144d2371bfb;0x3960f03f8cf9be;0x375b7edc656c;0xa8dbc8781bd95;0x1cea85ccdba373;0x2cea61ac4bb2ac;0x1f58db25fe3053;0x11d3cbc1976801;0x37078b5df7;0xa36a80c4b67d1;0xb9dbe61a87366;0x1b9ba78447a91d;0x96ae1683ad585;0x2b6bba0464272;0x16d76bde5883e1;0x1e9f8a138e8414;0x237518efc6e;0x15773c62543a52;0x2464fa544a113;0x43647ed66cfb2;0x7e56a5e934ef7;0x2ca91a9856db72;0x1eb8353321911;0x3f7b3dc561162;0x4cf74798c13d5;0x1674813b03b384;0x1fc20362fdd697;0x15237ea10ea40;0x1ec972cc2fac9;0x14680fa538cd8c;0xd85d494b8acb0;0xb2d0520d4b3c7;0xf4a5d7aaf7ca8;0x3077c3189a3561;0x239b29eb3a4a2d;0x41974069f92;0x1fa65e24cceb99;0x33de541b91d731;0x36789db97f350;0x40b;0x0;0x0;0x0;0x0] _ _).
  - vm_compute. reflexivity.
  - apply Forall_cons; [exact prime_69467'|]. apply Forall_cons; [exact prime_3529'|]. apply Forall_nil.
Qed.
Lemma prime_1208925819614629174706189' : prime 0x10000000000000000000d.
Proof.
  refine (check_ok 0x10000000000000000000d 0xd 80 2 [0x1fa65e267ceb99]%positive [
   {| s_r := 0x1fa65e267ceb99; s_c := 0x816a7ec; s_list := [0x44c362bc948a173b8c1;0xc6fd74e1650b620bb3d2;0x8316399c73ee624d6dcc;0xac984d38527fa35f6240;0xbd6b621b116f727f4450;0x7e527b9acf77bffd235;0x15c4b075da4f2ca726820;0x67e59dbda25678a65acd;0xf4b2eb08e9eef922a311;0x17d1cdb40888075245f;0x12da93b9ccb5b3a15495e;0x32e625b84d691ba71f0;0x98db80c5eac50ba47bf6;0x18cdc5e951a04331e0657;0x9cb1bb0557397fad6ed;0x183aa4fac498a77cabf55;0x483ffffff6da8fd9503a;0xa98410b38d;0x1ffffffffffff76b0001a;0xffffffcc000002a4000c;0x1ffffffffffff;0x0;0x0;0x0;0x0;0x0;0x0];
   s_u := 0xdad2e86d6ed14a5eb5a5; s_v := 0x895a880707e204d2d761 |}]
   [0x10000000000000000000b;0x63e4294baf2f2cd9a594;0x12085b8fe824cb9c01dc;0x176593d0026f2aa0bf92c;0x1d65e51ae206d696a7;0x22d4f666e247fc8d236a;0xb980b579c2eff1dab5b5;0xdcd5af969a33fa8b6733;0x9f6075033ea0303b9748;0xb47a8fdafa121e26cde9;0x5b8710f2b84a9e7987c2;0x28070738d5c72c56cdb;0x17ff4a7ce92517e347e6;0x5f2249f331838e686a1c;0xea6d87bd27b458778e42;0x18e60cd2dabf30bf4dfa;0x5471c38fb42f56ddebc2;0xba31d17347334eafa630;0xf30b424f9f02fdc63974;0x98e43f6420bc78fa89aa;0x38539b6c3121d7ff6190;0x2de8b209d17d3447873b;0xd1d3daa13419cf2f5cea;0xdfc51847eee813fb787d;0x7e77e699d48a0de022f;0xe5e6c4c9f2f63ad2018c;0x1e1fef6100e66d562fa9;0x2ab83a2964c0ee1aea2;0x5263ae2a97ec27f78601;0x14ac539ae28789309d84;0x1774de9d1982460c337;0x56c46c9f035dbbd957dc;0x2c37a65a10ce257b73b3;0x480ff3a04c5133a34063;0x92ab7b3e1e6de6ae3181;0x1c9a4b9ef12eb055028d;0x37ee55257a6beea1ba7;0x36e371149207cd5cd2f6;0xa595802d8549188952b6;0xb918aa09ae73abfcb5d5;0x9d192e04ea86ff7d449c;0x285244497a532c4810b6;0xa9ee1825b673099b4e02;0x705ee6a1c3bb22d710f0;0xca3cd142ac6428512d4f;0x425d3fc8f2ad020a819c;0xf8676131fdb0a2bcb574;0x674d1501c47bb0d71e8f;0x337657eb69f217a5e280;0xe4029515652094576ac2;0x259a307d6947efb0ee4d;0x8ff9742c67edb24ddfcc;0x5d61d4ba3b6b9b89794;0xdc1d50ad0ee0116c3cd;0x5538448d4c717a3968d;0x46df6851850f87f98d81;0x83329d0ae8fae1067a4e;0x80856c3589b7f36aab1;0xdfceeacd951e482a56e7;0x1b9d03ccd86438fa046;0xda9f619470a41a8f2ab1;0x1eb6e968ff805d26ab9b;0x18a80b15940dcf7480;0x328271b7eb888a370b94;0x264965667cb9b05a52b9;0x25113b93ea1737171a6e;0x444f68c76fe7564c8e1;0x333c0422439bb4deb6e3;0x34af5df415cc98fb6618;0x327dbc60ffff0b54610a;0x15308216;0xffffffffffffeed6000d;0xffffffe6000000a9000c;0xffffffffffff;0x0;0x0;0x0;0x0;0x0;0x0] _ _).
  - vm_compute. reflexivity.
  - apply Forall_cons; [exact prime_8908647580887961'|]. apply Forall_nil.
Qed.
Lemma modulus_10 : prime (2 ^ 80 + 13). Proof. exact prime_1208925819614629174706189'. Qed.
Lemma prime_19991' : prime 19991. Proof. now apply (trial_prime 19991 72). Qed.
Lemma prime_3958219' : prime 0x3c65cb.
Proof.
  refine (check_ok 0x3c65cb 0x3c65ca 0 2 [0x4e17]%positive [
   {| s_r := 0x4e17; s_c := 0xc6; s_list := [0x51401;0x2bb478;0x6e023;0x4;0x0;0x0;0x0];
   s_u := 0x2cba2a; s_v := 0x25026d |}]
   [0x3c65c9;0xbfc3a;0x1214e9;0x35825;0x3d9a2;0x1e66c5;0xb0;0x2a03f9;0xec01e;0x1ef760;0x6ab37d;0x1648e9;0x797ef;0x1f4ba1;0x755657;0x2f5e4b;0x45e3a;0x10f;0x0;0x0;0x0] _ _).
  - vm_compute. reflexivity.
  - apply Forall_cons; [exact prime_19991'|]. apply Forall_nil.
Qed.
Lemma prime_222127333843' : prime 0x33b7d221d3.
Proof.
  refine (check_ok 0x33b7d221d3 0x33b7d221d2 0 2 [0x3c65cb]%positive [
   {| s_r := 0x3c65cb; s_c := 0xdb36; s_list := [0x16a24c1370;0x22c2ecd9ed;0x31f40aafa5;0x1f5294c685;0x3caa47988;0x182d38d44;0x20e31e1a;0xbfc9466;0x31066ffc1a;0x1278205b91;0x13ccb;0x0;0x0;0x0;0x0];
   s_u := 0xe60311da9; s_v := 0xd21b6ebfd |}]
   [0x33b7d221d1;0x53de0483a0;0x223cd3ec54;0x15e2076;0x4ca92df045;0x22b06e0ea;0x30cb50c3e;0x43c5ad3f39;0x5fea8ba45f;0x58418d1e1;0x11ad55920;0x158b4a733;0x1559b6d68b;0x116a69d02d;0x13c7b36;0x923747ff7;0x15b55bc15b;0x31ec9222a5;0x212dc53be4;0x9bcba1a6a;0x7849ef14b;0x217194d39;0x21bd3d2cb2;0xcb9074bcd;0x2ceaf285;0x40ba8a4da0;0x3c10925e;0x178377ff78;0xb5cd0a126;0x516b429a71;0x9ae1a9426;0x12ee915dc2;0x2799;0x0;0x0;0x0;0x0] _ _).
  - vm_compute. reflexivity.
  - apply Forall_cons; [exact prime_3958219'|]. apply Forall_nil.
Qed.
Lemma prime_228791153858291' : prime 0xd015977416f3.
Proof.
  refine (check_ok 0xd015977416f3 0xd015977416f2 0 2 [0x33b7d221d3]%positive [
   {| s_r := 0x33b7d221d3; s_c := 0x406; s_list := [0xc671d763f23d;0x83ada9d77681;0x18883c34016a9;0xcf8f5e70760b;0x13af2;0x0;0x0;0x0;0x0;0x0];
   s_u := 0x5f9b8c3029a1; s_v := 0x5bcf09fa2fc8 |}]
   [0xd015977416f1;0x76561f8095f0;0xa6e79df835;0x43ac85c802a3;0x340f602c6b6d;0x16b73030aa1ce;0x9455e3378b3f;0x8443e033b15e;0x119fce52cf4;0xe56cc12fbd7;0x1e09c0fb9f8;0x1eeb2f99cd0;0xd5e47f9bd88d;0x1e180cd686e2;0x3da7baf8dca;0x361ae46a852c;0x1a64bdfbf66a;0x5417fe41b494;0x7489dbc313e7;0x4fd999b48fb;0x18245b87e2cdf;0xf399143cd26b;0x1f164a98eabb;0x858142bfd602;0x196b85680bc;0x19c7309b469a4;0x43f8acc9fe18;0x4c1004a8d704;0x13f3786f44444;0x15d81b651bef;0x3769e4c772f;0x12cd8b247b1c0;0x1817fbabdb5f;0xacef1248f62e;0x28c2eda91e92;0x10ee4f0c78f1;0x1978de09343c2;0x6803634a0d2;0x1be815570b5d;0x63a6e2e;0xd015976816f3;0x617240165caa;0x13;0x0;0x0;0x0;0x0] _ _).
  - vm_compute. reflexivity.
  - apply Forall_cons; [exact prime_222127333843'|]. apply Forall_nil.
Qed.
Lemma prime_309485009821345068724781063' : prime 0x10000000000000000000007.
Proof.
  refine (check_ok 0x10000000000000000000007 0x7 88 2 [0xd015977416f3]%positive [
   {| s_r := 0xd015977416f3; s_c := 0x13af2ffad62; s_list := [0x14be802ef55b0d8771845e;0x17f77dedb5ef32f96bf9158;0x3c46b61ca1d3af1ccccea8;0x570bea7c57e1ac5a31e14;0x2ae3cd52b0f5319553f299;0xa6e38f0707142d734a33ff;0x1899ab9a4b05d717c690b9d;0x312143d3be94743c8ab0f8;0x5fbe22fcc2fe6d60ebacb;0x117d34fb4470dcd4dd3550;0x1c6147cdd602f7fce49563;0xe9949832d43adbc9caafac;0xbc0b0f7cca2c0574b105b8;0x759d811e95dec268b8aca;0x85aafab91fad490d7bed;0x1e448f42761ca8b6f0cec41;0x63f5fbde492243fd7c491b;0x276022982f6c1f28ee1e66;0x106b1162ea672c1bb0679ae;0x1c85b5ee9ef6878f512357e;0x14c9a927eb6000473b5eed6;0x298adda376100e76bcab66;0xcb057d8e95e5b57b37a923;0x304f0cf2266e9d89a14bd;0xca303c17dfc5faa6fd2003;0x5a24d41bc996aa3fc1440;0x6c0179b270cc82d7aadfdb;0x71ca0027bfd816c832e972;0x1c32753db44743b68d5b;0x30b3f5c63929;0x1fffffffffffff9b784800e;0x1ffffffea9000003972200d;0xfffe4000c4000000000006;0x1fffffffffffffffff;0x0;0x0;0x0;0x0;0x0;0x0];
   s_u := 0x44513e96b903ca136415dc; s_v := 0x37ee35bc4356a74e8aa83d |}]
   [0x0;0x41bccf7d866df29f2d8d57;0xe29d8e15511e0844fb977;0x300388874c0cce87dea8a;0xff1353c989dc4f55844949;0x81e7d7c4af9ab52cd8cbd2;0x7471e1220da9122dd003cc;0xb1af4fb4672cf8201e5923;0xba21c857b5f7086fb5af93;0x69e1216dcc5c1f5237580f;0xbe9758bf08c1acdf4afc2;0x38964ecb1c434d1a9ea0ca;0x1323fc5446a32c6b3fb6f7;0x4bfaaef89e7a7e5296a6e;0xda903e0ac6a8861e5f892d;0x8317438b19e687fe070384;0xf858f422978d3946c7936e;0x7ba36c503a2adf904a990f;0x49e27e84341154ab6f25ef;0xfc2a235215a301dbfce2ca;0x175d85124ece5a3a3d3cc9;0x631e835b04ddb892030fa1;0x22b5032bb998dcb9854f6;0x62aebee4b0ac8d28c959dd;0x99566b82d78a7f86d4be8;0x3531f8636431d7477aa3d;0x22570baf06eba43c1bd06;0x160a5a16ce2a1945a133ce;0x331c58fcc4f86cef1690ea;0x9b37ec1347be821a8428b;0x98b2df801586c6ca4f8c;0x409df2b663aa68aa62045;0x620c2d4f9b77b47fa24756;0x18d28d1ca57a60bd671b25;0x85b0875fa71064b1ff1571;0x72c173f48f1f788de0ae2a;0xd3d888a967178500ea3373;0x26fbdd902925992ea8e15c;0x8d7f6ea0f4a92fd8b07af4;0x162dc97e85bf6fd2e6f141;0x17d31cf408a2bdbadd78e5;0x5a5f4e2b07c73e13c8fe86;0xed4ed5737f8d00e16e163c;0x164d5eff66c84492c8a11b;0x2f7b110b4e52893004b810;0x19e5b7e2dc33145b3d6d2b;0x992245d8520c6ffd447b;0xa2395826d94c989eb254f7;0x7a935cdf0b1a219c47044e;0x1c4d00dfbbae9b8f22eec;0xcf0a5314468cf50f108ff5;0x7d1410e6cdc6578aac2a9e;0x81b31ab235ac707288d1;0x20442ed81b81f39cbadb71;0x18e15c2d44566014df5092;0x438635cdfa22eafebb36e;0x5d5c0e4568f1f04c7adab8;0x7848267196ffa5b6f448;0x4d835b225cc86f65e9629;0x14d64c8b51a8f7d0cc0474;0x37f6f027c0b311d75c45cb;0xd507241beb204cce6ea112;0xadb40468db4f397b634d96;0x6e12666b82e3b2a1aafd1f;0xcad488ddef53872feee4;0x3114ddd293480173140421;0x97fda5d29410b10966d118;0x21f11bc818fc4461dc0d85;0x35aa3eaf12dbcea26f166;0xc8e75e74b61bd6373268fe;0x4995695199f4ca529ae3ae;0xd95f177629e98c1aef0013;0xee44146ad5cb9fa9fac2a4;0x70807eb00f7678faa5c096;0x33d5f3a285231f13ebdf3a;0x469023eb9aed362104f6;0x44402b39f27323b76f7b9a;0x4a8b405950226111000005;0x8d883af100000000000006;0x960ffffffffffffffffff;0xfffffffffff20000000007;0xffffffffff;0x0;0x0;0x0;0x0;0x0;0x0] _ _).
  - vm_compute. reflexivity.
  - apply Forall_cons; [exact prime_228791153858291'|]. apply Forall_nil.
Qed.
Lemma modulus_11 : prime (2 ^ 88 + 7). Proof. exact prime_309485009821345068724781063'. Qed.
Lemma prime_5521' : prime 5521. Proof. now apply (trial_prime 5521 39). Qed.
Lemma prime_220841' : prime 0x35ea9.
Proof.
  refine (check_ok 0x35ea9 0x15ea9 17 2 [0x1591]%positive [
   {| s_r := 0x1591; s_c := 0x28; s_list := [0x1e2cb;0x4;0x0;0x0;0x0];
   s_u := 0x315b6; s_v := 0x241af |}]
   [0x0;0x0;0x0;0x53cf9;0xc3a;0x29a1;0x4129;0xb43;0x2fe;0x4791;0x33120;0x2571b;0x533fa;0x12f;0x0;0x0;0x0] _ _).
  - vm_compute. reflexivity.
  - apply Forall_cons; [exact prime_5521'|]. apply Forall_nil.
Qed.
Lemma prime_2650093' : prime 0x286fed.
Proof.
  refine (check_ok 0x286fed 0x86fed 21 2 [0x35ea9]%positive [
   {| s_r := 0x35ea9; s_c := 0xc; s_list := [0x0;0x0;0x0];
   s_u := 0x1d8e22; s_v := 0xbb1 |}]
   [0x286feb;0x2f539;0x17a9d;0x1b24ac;0x27cee4;0x1bc70;0x25e49a;0x18607c;0x393099;0x7cd08;0x20f984;0x2629cb;0x82174;0x42b9e0;0x10cddf;0x99e90;0x654af;0x0;0x0;0x0;0x0] _ _).
  - vm_compute. reflexivity.
  - apply Forall_cons; [exact prime_220841'|]. apply Forall_nil.
Qed.
Lemma prime_5727677802017' : prime 0x53594336621.
Proof.
  refine (check_ok 0x53594336621 0x53594336620 0 2 [0x286fed]%positive [
   {| s_r := 0x286fed; s_c := 0x20faa0; s_list := [0x15eee4b55c9;0x47f90e8110d;0x2a6e95f4ba;0x1a68309e57a;0x462f6f04a8a;0xa07a4fbe299;0x205d4e370cf;0x5b60c9a93af;0xa2de5967c;0xaf96897d0f;0x40035ec869;0x73e92c28973;0x9bc20fb195f;0x16367ef86a;0x37ee01f13cc;0x624930;0x0;0x0;0x0;0x0;0x0];
   s_u := 0xd7127a6a1a; s_v := 0x8ca445427b |}]
   [0x0;0x5359433661f;0xdac52a64c1;0x16a6f114a1;0x454f42c6669;0x4681677d111;0xbda007f3d;0x2514a01d83;0x24611a004f;0x315ff58d177;0x95a236cf826;0x41f3d7f9a7;0x157cac96856;0x4807f53d;0x77be6e03fee;0x1dacaea8491;0x253bd2e575;0xa62ffb2d4ee;0x19120a6c556;0x3f3df9d4763;0x1ddc1df7f;0x3f618bc88cc;0x3cb4e7b9e90;0x1d02175c177;0x25262f2f641;0x39cd744139;0x91d2f6edba9;0x526f93c687a;0x36abf33e790;0x10316d42db4;0x22d8f6c5847;0xe701292056;0x310991fc7b6;0x1097a931;0xcf229c2ade;0x2c97b25db10;0x18924c25123;0x0;0x0;0x0;0x0;0x0] _ _).
  - vm_compute. reflexivity.
  - apply Forall_cons; [exact prime_2650093'|]. apply Forall_nil.
Qed.
Lemma prime_1032208068610458304152691' : prime 0xda941c8cb87aa1588473.
Proof.
  refine (check_ok 0xda941c8cb87aa1588473 0xda941c8cb87aa1588472 0 2 [0x53594336621]%positive [
   {| s_r := 0x53594336621; s_c := 0x29f5985232; s_list := [0x2b9467730d0a1be7b8aa;0xebe7733bf47c23de147c;0x2ae563508bb57575e2f0;0x213bd08cfb86f57470;0xbd672d72234f685e8146;0x5f49cd1c3d079ccbde0c;0x208c597efff10f8a4b1;0xc35568097fb9ca15cc4;0xad358fd4eb809075a689;0x15ed0c6aaf9660b61c70;0x2222f386c30ab2c07b2;0xa2c14e5578b287bff2c;0x5d47ca24049768d911;0x1b88f2f410c0e7abda55;0x8aa2c1a2392915503007;0x392ffdebc75a5784bad4;0x74f1a8343481f79359a7;0x3d489437f8b5a2420aeb;0x55bc67ca12496060c927;0x15506fbf6032b9ed5382;0xa0a896aeb6b5206598cd;0x1ad9c9b1a02e374a1b5;0x1581980a3d795dcbf587;0xdb248a963b51f64a6b6;0x134714fb51eb7d5d2ed;0xbace8f2c9c4bed242d;0x160813e571bdf647c1671;0xda941c8cb5eeda7cc474;0x1b521a19fcd776bf3a8e5;0x1456463b970f542b108e5;0x3bba110cbd9a1a03d0c5;0x9;0x0;0x0;0x0;0x0;0x0];
   s_u := 0x4307c4220c4ee9392a94; s_v := 0x7f864e81b2d8eb516a1 |}]
   [0xda941c8cb87aa1588471;0x60c1c2b54f0c0cc4ce12;0xcc269155786c0b7cd246;0x4437e32bac8474c895f6;0x76dd3a03d6bf8e0e6650;0xf65a4be36035bba8ee24;0x9e33576853655b7c795;0x6748a50aa0a6c134ffb0;0x34a83b3e9ebbcd903f68;0xc076288b49a8d66be8d;0x343dfc7d9e06d321bc63;0x6b4d7c4dbbeda4336bc9;0x2b57ee7f12f2291f977f;0xc516fa9a97e16eed4906;0xbc65b6226f099bf81b2d;0xf8a9a6d4cce5ceee8304;0x292c01a11268f3e5883f;0x2358409af37aebd89392;0x11b9e2dd9f7efc7944a1;0xf2316dfd52bd0981ce6a;0x219e7abbfafbb77d9ab9;0xa9412d23530705c7d603;0x5d2efead69225cf872c1;0x6836e69df081cc433dc;0x23dbc009237e102fb55;0xecc4bd21682416223bb;0x5038a6991582de2f27ac;0xd003fd864fafee872215;0x14d852145dcbbb9312c5;0x484bc773920fdcf21abc;0x937de720c2c1ed73ddd1;0x4e199e7939d1ab1dc724;0x542339e57818a818985;0x172497645c2c1e13b08b0;0x84f4a5b185923a825c69;0xfc16145745f182c7fb11;0x25704dfb16d44b3dcae;0x3dc0df6d4c6a09580754;0x530f202f7b994febe8;0x590b9906e8d3f158ef49;0x35268a3f38b1442b5792;0x2ee8873bbe10afb6e4;0x5480c539704e48b7ed1f;0xb10af2e5b3c14ccf67d9;0x8690bbd4ae0392d60cd6;0x8fc48460e4c43e0f4db;0xd78896736fc610328df8;0x227014f7e9828d23a0;0x4c4ecb98f2e8fc552b32;0x7d4daea63b8a3f42acfa;0xef786297d2e49a3d6fbc;0x3ec10aa381b66ba89d4c;0x914b9f4815e55e99e61d;0x6ffcd4110c1163f67e3b;0x6e432824200226fe1fa6;0x619ff794589eba3fe872;0xaf0ab348ed9a53332b9;0xc90afb6de4201d98eaf4;0x97d1a881e334d741ce8f;0x171d8ece05ea33654df0b;0x8926282aa8072263ad50;0x295ddb6461943f329f89;0x76763e44337bb92d42bb;0x5e82f3763efb5bef96;0x34e7632b007c82ee030;0xb9cbc28b32b079041757;0x165648831acf2fc4a3cc6;0x10db555f836539b47c;0x100c58dbbf980a1a8ca2e;0xda92fe2032bdfd2fa35d;0x2cba73321c74fffffff;0x0;0xda941c8cb87aa1498473;0x257a7fff;0x0;0x0;0x0;0x0;0x0] _ _).
  - vm_compute. reflexivity.
  - apply Forall_cons; [exact prime_5727677802017'|]. apply Forall_nil.
Qed.
Lemma prime_79228162514264337593543950397' : prime 0x100000000000000000000003d.
Proof.
  refine (check_ok 0x100000000000000000000003d 0x3d 96 2 [0xda941c8cb87aa1588473]%positive [
   {| s_r := 0xda941c8cb87aa1588473; s_c := 0x12bd4; s_list := [0x71a67dc0f7d8909298f7b3fb;0x31241c234834952efe880e0;0x38e117204b9ee5e0b0353643;0x655895460e58bf3d039ddf35;0xca334fd7d490f816c02eea50;0xe94e7cade1acbc2a80a32dce;0x47f23e;0x1ffffffffffffffff912b607a;0x1ffffffffe180000000744879;0x1fffffffffffff;0x0;0x0;0x0;0x0;0x0;0x0];
   s_u := 0x79c6fac8621a17ad341f608; s_v := 0x6867ae19f818c2f4e3ad093 |}]
   [0x100000000000000000000003b;0x2bd1d092fd58182579e72cc9;0x14214d821f16adc3d16bfdbbb;0x708a43e89aa22196ebbad7fc;0x91a668fb21a8b3bf74bb488;0x1bb045e548e01af3980e893e;0x14f35bec578835dd4b658f54;0x7cf73291d03005431aafab7;0x39da92c4e40a02275dc999d3;0x31fd8a8d9b92c979c214cc04;0xca03c0fa1fa4b0ffb62ab78e;0x2ea83ae7404f8a2be974726d;0xc879375729112855ad92bb8f;0x3f03f1c904d956f4ddc9776d;0x61ff4408d54cbb6484a7f9ea;0x578ce75d3e6d04ce81862c3;0x58304476d1bc2db8b2e6495;0x68b136bb2b2baac86cf93b13;0x129de604b16088cd7b7998f5;0xdb563e34b30d5f47e52e28a4;0x99cb5a6f4ba2dc3f59c3e20;0xfb7cc21ee2b2d65952887267;0xf58eacd455b3caa2d329be53;0x69819f476c17c410dddfcff4;0x8ed2845b9dabf4064cd1656;0xc5e77426a16fe47e94106670;0x55e3e87c883ee9020280d99e;0x33cbec78c91dc1c1c79cd847;0x332b9d03b89b36f6df4b12;0x1b46a53f1b2f892a73397711;0xdecb4e29e6e8b031b98b707;0x3ba29ff64fef57830fbb065b;0x76253467389fa360cb482551;0x7f37d87aed7fef36a792d49b;0x208e705c778391e30002394e;0x3c23c8c2e1cd6bf88302df;0x6a4c62b1e7b4cac86030c7b;0x60bc88942bf83b34a33779dc;0x4a8db57c70beefe53242b0df;0x50bf45ad33a72988c07a65;0x563885d6f1c6038387d1675;0x59de90afa2513e5fb814c186;0x3442acd624f066f21274e8ef;0x19a9843ed93299bb2facb241;0x2a2b48bd11f135450d9a0a26;0x3620e5d3a09ab2a302f12cdd;0xf4170bbb5b4e0df245ca50b3;0xa4832c60b0846bc1dfcf90ad;0x4a1d057df495953788a4e55f;0x6a377eee1176a1314c5c1df9;0x54946f37bc2ba9cfda7c62e6;0xfbaa12959b7682ff917f499b;0xec7237e1659676ab1e9d49cf;0x2389ae46cc5c91cf87a53af;0x9b8c5b192239c587d05558d;0xeb7bfd633e0862988d850c1b;0x778646147c8fbf1e2fb767f8;0x216c3ae00d617e0bf3e9e;0x91efc3ea68b6c762cc9a1fc5;0x53ee0390191dc86d796876fb;0x4487e90f12d18f1fa7111754;0xf5b5ff2b37142b67963d1c13;0xacf463203fdb865c411c8023;0x5e4e79795bbedbcc3d66286c;0x3ef3f2d105129db46022ba;0x478404703783df2276d65047;0x7d7cebd3a131aea402b32ec9;0x925a960ba1796122662c0da4;0x225d2146d34434b46e695e4;0xb053491d7861e0fb9dd777e;0x5a5a6c45241840f18efb5e82;0x869c63b725ec02add7ade84;0x8fb0405e9963b6f4663428d7;0x9a1cae77d55dab82ddc45b8a;0xf1c7d971184bf372b337b5ea;0xd9bc77175afebf6e8eef5859;0x5a0e19316e4956097199d827;0xe948120fd9e942d13f2f1b5;0xefa7e0b0f8370ed419a38d4;0xf311b719f6103ade553a3b5e;0x13b6acfa6152e880a004de24;0xc7ee6d1ab79f5e246e956690;0xfe925a5f201c859b6896fc08;0x654e2cb6cda1ac861bd893ca;0xc6379d902b104ec2d2bfe2cd;0x1270ec3ad723b48fbbd879f9;0xffffffff9b50f76609e64dd6;0xd34550ffffffff;0xffffffffffffff860000003d;0xffffffff;0x0;0x0;0x0;0x0;0x0;0x0] _ _).
  - vm_compute. reflexivity.
  - apply Forall_cons; [exact prime_1032208068610458304152691'|]. apply Forall_nil.
Qed.
Lemma modulus_12 : prime (2 ^ 96 + 61). Proof. exact prime_79228162514264337593543950397'. Qed.
Lemma prime_14783' : prime 14783. Proof. now apply (trial_prime 14783 62). Qed.
Lemma prime_11' : prime 11. Proof. now apply (trial_prime 11 3). Qed.
Lemma prime_127' : prime 127. Proof. now apply (trial_prime 127 7). Qed.
Lemma prime_92203' : prime 0x1682b.
Proof.
  refine (check_ok 0x1682b 0x682b 16 2 [0x7f;0xb]%positive [
   {| s_r := 0x7f; s_c := 0x2d6; s_list := [0x1a92;0x8e4;0x1e774;0x2f23;0xacdf;0x2d;0x0;0x0;0x0];
   s_u := 0x9e23; s_v := 0x3fae |};
   {| s_r := 0xb; s_c := 0x20be; s_list := [0x1506a;0x18693;0x1c1a4;0x5dd9;0x6b23;0x19961;0x674c;0x12a7d;0xb5f5;0x0;0x0;0x0;0x0];
   s_u := 0xee0f; s_v := 0xa417 |}]
   [0x16829;0xc91a;0x8922;0x1aede;0xd9;0x1d73;0x6812;0x66af;0x11c;0xf3ba;0x2f23;0xacdf;0x2d;0x0;0x0;0x0] _ _).
  - vm_compute. reflexivity.
  - apply Forall_cons; [exact prime_127'|]. apply Forall_cons; [exact prime_11'|]. apply Forall_nil.
Qed.
Lemma prime_3532991771809' : prime 0x33696b834a1.
Proof.
  refine (check_ok 0x33696b834a1 0x33696b834a0 0 2 [0x1682b;0x39bf]%positive [
   {| s_r := 0x1682b; s_c := 0x248ade0; s_list := [0x29415008029;0x20cc9dbf090;0x1807ec06929;0x6684fc07af;0x1b09182b25b;0xabf0d5d15c;0x23dee0d323;0x2cc2e6eb3b;0x121a5d1c0fe;0x48834f1c4f;0x16cc0ba633a;0x2b5e04ca997;0x188b3e08721;0x636de608cd3;0x4b27f668b;0x357b375cdbe;0x234b27cce05;0xc808763946;0x2e29f42b9c8;0x9f5742b6;0x0;0x0;0x0;0x0;0x0];
   s_u := 0xfec6f2eb42; s_v := 0xd9e6d387ad |};
   {| s_r := 0x39bf; s_c := 0xe3eb360; s_list := [0x176c846981;0xc057efda4f;0x294ecfc7a7d;0x209c6cc780a;0x1bef3199034;0x21faf082bd;0x3c24f8599a4;0x459435986;0x2a91cfeb4;0x1848e95acd6;0x516531e635;0x1ccecc5ca0d;0x562b219d6d8;0x3369043dc58;0xa9742aafbb;0x31ddc48f301;0x11224e742;0x5009b71787e;0x48fdd318b;0x14d2c41e78a;0x8617b8675e;0x28d98e0ee75;0x4fab;0x0;0x0;0x0;0x0];
   s_u := 0x30c07c392ae; s_v := 0x8cea430371 |}]
   [0x0;0x33696b8349f;0x1ebb6398ff1;0x9514a3a380;0xfa2bfde7c;0x15eab9a182f;0x23112cd3377;0x3de064a1f;0x1aad4805bf4;0xad7e3c9df8;0x1103fbcadb;0x1e128d0d8;0x5cb1ed7fa50;0x40a7edc59f6;0x2fa28f9064a;0x14b89b582c4;0x25b1d06e209;0x2d94029463b;0xfb356b28c9;0x109a7055215;0x141319200e2;0x786f4af51c;0xa4dd6ac14;0x37b64a54c86;0xe33cd91272;0x3f4cbbc6fa;0x138d1b6fa57;0xe45b566d58;0xfcb5bc72cc;0x3bb3d0598c;0x3a96acd5a5;0x2c6164c18f9;0x140a0cbc7fc;0x29746998ceb;0x497aed8a17c;0x6ca8a54fb9;0x27d;0x0;0x0;0x0;0x0] _ _).
  - vm_compute. reflexivity.
  - apply Forall_cons; [exact prime_92203'|]. apply Forall_cons; [exact prime_14783'|]. apply Forall_nil.
Qed.
Lemma prime_635938518925621' : prime 0x24261f9850135.
Proof.
  refine (check_ok 0x24261f9850135 0x24261f9850134 0 2 [0x33696b834a1]%positive [
   {| s_r := 0x33696b834a1; s_c := 0xb4; s_list := [0x1906685558ce2;0x1c53c797fd9;0x0;0x0;0x0;0x0;0x0];
   s_u := 0x1c27a8a638099; s_v := 0x13d17e7cb8d59 |}]
   [0x24261f9850133;0x35eb8b3996f0;0x1ecbf8df91b6a;0x3af96a04b362;0x739c5818499e;0x360699dab8af;0x57c0235eb81b;0xa63ba3a7;0x29b25e65d32ef;0xc77ecee26be9;0x1208793b5609f;0x20f3cd6a00d32;0x2397d936ad57;0x6f2ff548e77;0x1e77a9fe1f434;0x27a823e6bfb;0x269197a8d2c3;0x5b953e870e7;0x1799a0f628fc;0x37d3c72c23dd;0x10c8d5013811;0xb7318a2904e6;0x8ce7b1de9361;0x1722b8114cb8f;0x107d0558eb856;0x19fd4b1c939f1;0x100b73adcefcf;0x4af169992d17;0x261467837ead7;0x2248e55d496;0x4f0ffe3b0a21;0x26606dd4ff8e;0x37d3d1466e1b;0x13ec4f6736fe7;0xabd5a57cdfe0;0x169fe15931d68;0x4cea5a323b5;0x2b93f5fd7a758;0x73ff8e7a3fd3;0xf3dee7682a50;0x213ad07e8923f;0x991a733091;0x51459cb321f2;0x714f1e;0x0;0x0;0x0;0x0;0x0] _ _).
  - vm_compute. reflexivity.
  - apply Forall_cons; [exact prime_3532991771809'|]. apply Forall_nil.
Qed.
Lemma prime_953795670058807140125153' : prime 0xc9f95debcc71ef6189e1.
Proof.
  refine (check_ok 0xc9f95debcc71ef6189e1 0xc9f95debcc71ef6189e0 0 2 [0x24261f9850135]%positive [
   {| s_r := 0x24261f9850135; s_c := 0x59657e60; s_list := [0x5bb4764d890b6e5baf94;0xb34fc10e175e96cc879;0x7228a8e57042358e107e;0x9dd4a833d0a78ea43e95;0xd8f7415b5132a5d63a3;0xc9d047662abd89286de5;0x8cc19b5c21817fd3d75e;0xb3eda6819656e256b164;0x2a495e30cb88d61255ae;0xc6ddbcb8c4868b5bcd8;0xb4f4f03d7ba8ceebf9c5;0x13c0424c226bf31420144;0x18ba0c87a89aa0a6b8f6;0x5963485f8c8eb6cabb99;0x17d25012df86ef39604fc;0x26f041428acb007c8bf3;0x581aab22ff1dcf4bc70e;0x7414a48f4dbfdf7657a9;0x5bf8a656d7ecdcf950;0x787b21ceb45589351;0x4b0029705f944eea2083;0x193e8944bef568a9130a6;0x1109c775b6002d4dbb1d1;0xb80610ad0204b3abe03d;0x288;0x0;0x0;0x0;0x0;0x0];
   s_u := 0xc6fb71bde442d2674cee; s_v := 0x44cb6a7b181914fdb199 |}]
   [0x0;0x0;0x0;0x0;0x0;0x18d933cceee06b60a265f;0x6c8b40f30c89ff39f5da;0x181a1f906617ff42243bf;0x37472a64708996dfd540;0x4b2972be8707ffd6289c;0x26df4b4ddbcbd3fc09ff;0xa88ad9413c92580cceb2;0x19e508a97a3c2d73dbc5;0x6a1e7e275439f556a9b0;0x73ef96880c82a848a3a;0x17167b2446ac56c234bf9;0x3ac34af977366633a179;0xabda572404dffc10e0d8;0x6c0de6aceb6f7c61be4;0xa7db3338b7a3ef96a1b;0x84240a55e65fcbb84dec;0x191fc41841fe30f21c3b;0xbdde410ff8570d4cbcad;0x1eb291c28fdc148768e0;0x136823dfac485d368eb3;0xe0f74df9e5a70cf9d58c;0xbd68749bd3a3165667ab;0x67d65131cf22ef1681c4;0xbfbbafccdaf8a5ab56a7;0x131fcd5474461b5b2fcfe;0x1610c896fcc7b2e5f254b;0x5bb8af3c51db9ff16737;0x15a787ea7d327d322403;0x545b9e2c6c491cf92fd;0x343b80fb9efe280fe8c3;0xb07395f6110a149d4751;0x9d2df5575b0d62c818;0x57ce15eda8323c00351e;0xadfac836fc2512;0xd41ee586384e3ccb4ec;0x398177e0515a0c92d42;0x41876020c2b4613edbcc;0x799ecf390bcd857ccae2;0x120ff502c8dae971ae127;0x24f6837f7e39728ad179;0x41153d93fb06a1a826f4;0x11dfa122978735a36a05;0x774e982025cc9c809c9a;0x3f2996a74265b2ab67f9;0xc38adff458c7c821b2ec;0x3801a3498abd60b28ca1;0x7de0c23d87a7cf5ecf22;0xcb45359fc57ab9e76e4;0x13f14a4619b5b286f1a0;0xe594a70ae35541d5b;0x18df059bffb208323b12f;0x92333f0383b502a5c129;0xb384ff619946a9ee5765;0x106fcc877372cede65961;0xdd575401d366cea018;0x7ce30a8b72503e468e8c;0x221048d03484f4ee4e52;0x5ed951a0c3a7d6a76f67;0xeda394baf28a36b447;0x6672a7cda39763ec8283;0x3fa9243e2ed670c15505;0x3d109675fe0e5b160636;0x1093fb7d261814edda515;0xb17af3eb6e557da7ed03;0x3485da315b148aa2031b;0x9ccebea77fef5ad29f79;0x58c215c61f5811b25dc8;0x13545d7d1110e768d5b08;0x1447a2;0x0;0x0;0x0;0x0;0x0] _ _).
  - vm_compute. reflexivity.
  - apply Forall_cons; [exact prime_635938518925621'|]. apply Forall_nil.
Qed.
Lemma prime_20282409603651670423947251286127' : prime 0x10000000000000000000000006f.
Proof.
  refine (check_ok 0x10000000000000000000000006f 0x6f 104 2 [0xc9f95debcc71ef6189e1]%positive [
   {| s_r := 0xc9f95debcc71ef6189e1; s_c := 0x1447a2e; s_list := [0x548b0d5d845cc15a59658e1a08;0x14c4a87bfcb20a6e3ab81684cca;0x14545cd3f220c53d15b29b79f23;0xad14965736822e06fad8f2c38;0x61c5429fa87cc4f6f799993498;0x11ebfdc7d0bac6453d7419586de;0x1a5131308dcb0fa65dade19897;0x1d80a0f2d78f495f6fa19b530a;0x790b57c2b5abdf376de75d70c9;0x1500efbb13bdc780d1fb9eabf39;0x1190514adff64e332a50966f8b;0x13c79284510ee67f94e660b88fe;0x11237ca8558a5f9c3470e05bff9;0x3577dbbb9e3a567743e006a48;0x5c9a6c6;0xfffffffffffffffffd6436206f;0xfffffffffc880000000302106e;0x3ffffffffffffff;0x0;0x0;0x0;0x0;0x0;0x0];
   s_u := 0x15735a93f4944c4b76bea15ca3; s_v := 0x6bdb84b7d6518d57de5e0cc1c |}]
   [0x0;0x3b20eebe5858ff4aca3b39f;0x1977e5f1c755a3dac6d0251c393;0x1f3896ef2e51f8ddd96d9f3e70;0x28104a6b57209ad33f8f84a7e8;0x2134e8c0370270e8a95cb40135;0xa383b47906e5d675cd3f3e478a;0x23db33d5786c8f7f3f585d908b;0x30dfa0c08dbddd5d06b494ce8a;0x2e9e433c49d7b63565412769d1;0x12e043d533e70c5bd6136ffed4;0x48db751f52708a2443d8efec97;0x3c1ce1360e5a45b30a982350db;0x33cbae07f17aa260871f105b93;0x98d718e8541e0e8d8156b763a3;0x658d28c9e3e41b2d1c3c324c8d;0xcb788cc70c18900d96166d8b5;0x9d949c898f1c0bc6f8d29efcb7;0xa1676d853918f812f6c240463d;0xf52d3744a7d3efeb4612c9e69b;0xbf7c4a3f7f04a8ce3ab246fa9;0x2d4ac076d5d63a818158aa9997;0x6301ad334844a1ce34176b5129;0xa52cb51b6a26beb7eb0dabd836;0x2ed9ca59cfbcff377968194e3e;0x4a730756e7680dc4b1ab1ddeb3;0x8ed45600deaf66933ca3a978ed;0x4135724d426f56440bbd8a9f;0xfeccebeeb289dc6fe3992f79b;0x2f5260b50e944794be420ce37;0x8bf1831549af811aab433d3d75;0x16b265464549b5584e0f8d2a12;0xf8e06552a1c893f750647e634a;0x6985eb8be3c45430bb30015d33;0x1c1bb1739cc2b0b473d1c5bdec;0x1cca77d9a1ba4d8e83ce4bb41;0x25945216f8b35c089297e1bc5a;0x9e9682079341aeab4f7716a481;0x1df0129523627df60156e51d8e;0x9474397364fb22a765de08be7e;0x213013aa37e686c3ca15dd75aa;0x81a59ae834a4f11f2705a828dd;0xcc44d82500842155ee8467e9e1;0x19957183d620f877dc91afd99a;0x32f0f4084f0c6b210aae96585c;0x6fe0011588b8396f1418c58d5;0x8516bdf3ebcbdb365f7a16ae;0x6488d0194c416d11309b7b103;0x6fc68499ae47c6d41143fca214;0x121ce5e47d085ce9c0fd4ba1d9;0x7cea3b72c2dc6b841c2b2b6916;0xc5e2d58054705d5bb2af883298;0x504131c064bb58274e73134c08;0x8c30709a65e6f402d006e0743;0xae9f6155f444e2705845324f0f;0xb3731d42402f81b995215de7b8;0x503a5527d48989e7e97e69dcf;0xc6151eeda9b59ff5a078e72908;0xf960dfd85ba1a99e5084ed3434;0xea054c72d846e1c490d4db8084;0xfeebff4de569988e52cb6dbf76;0x988318ce9b48af98aa6c424fef;0x77fc94ca65e7028fd8f5378ac5;0x187fe9b2466242804530e71909;0xdc2a75b666d788768e6186bee4;0xbf499e80988b05ffd574a17dd5;0xecf82b0667e95923c72a2e1033;0x20db22b901a6c0ccf24a259fc;0x5718f00f5d0b34760e1e8b916c;0xc77250c42406d69d56fca74a57;0xb9183f639d337630ddd2e41dd7;0x5470a4debcc30828ebbceaf948;0xdc71a47769728216fe3388b5;0x36ec450e722284a2ac42f83adb;0x28d07d95b3d3930976fc4249cb;0xbd3e698173222edcc402f217c4;0x1345d7e8d12df5494f9996d37f;0x14aebe97ac9f20761dc60ece33;0x3891353098be8567903a904f5e;0xa408fdcb5ce5b476800c781219;0x391c70013ba86dcaa917ca38e;0x6d329fdb68acf5136da30051b;0x193695d666e5f7e963063f1a16;0x25796cf11ed27a0961f56996;0x43c29f53ac04c8898bcdcb2875;0xa3f3ea367948d072272b3467cd;0x65576ce054b761da9a33673207;0xf32e3c639e51b4793af5fc1127;0x344d9246a83a69227b363697d;0x6a63d9e81be274f2a8b5f136a3;0x1724eec9ee78dad2c30af7ef44;0xf3709438d2287d458d14ce1b6a;0x91f67a3a2242e08239fb23a868;0x4044121000003db2a972c02ce;0x1080fffffffffffffffe01f78c;0x90c64;0xffffffffffffffffff2200006f;0xffffff;0x0;0x0;0x0;0x0;0x0;0x0] _ _).
  - vm_compute. reflexivity.
  - apply Forall_cons; [exact prime_953795670058807140125153'|]. apply Forall_nil.
Qed.
Lemma modulus_13 : prime (2 ^ 104 + 111). Proof. exact prime_20282409603651670423947251286127'. Qed.
Lemma prime_503' : prime 503. Proof. now apply (trial_prime 503 13). Qed.
Lemma prime_25703' : prime 25703. Proof. now apply (trial_prime 25703 82). Qed.
Lemma prime_3135767' : prime 0x2fd917.
Proof.
  refine (check_ok 0x2fd917 0xfd917 21 2 [0x6467]%positive [
   {| s_r := 0x6467; s_c := 0x7a; s_list := [0x1d1e7;0x10b052;0x156;0x0;0x0;0x0];
   s_u := 0x179f57; s_v := 0xf2bfb |}]
   [0x0;0x52e539;0x8532;0x307c;0xdfc0b;0x21ea1;0x2c9aef;0x297f;0x1f748;0xee7cf;0xd1c3e;0x51866;0x262ab;0x16bc;0x103a8d;0x581af;0x2b9e88;0x2;0x0;0x0;0x0] _ _).
  - vm_compute. reflexivity.
  - apply Forall_cons; [exact prime_25703'|]. apply Forall_nil.
Qed.
Lemma prime_5813712019' : prime 0x15a863493.
Proof.
  refine (check_ok 0x15a863493 0x15a863492 0 2 [0x2fd917]%positive [
   {| s_r := 0x2fd917; s_c := 0x73e; s_list := [0x926ee56;0x1845dd802;0x18f8d0fd9;0xb3faf8af;0x22e193a81;0x17a3f69;0x0;0x0;0x0;0x0];
   s_u := 0x35a67e33; s_v := 0x9596972 |}]
   [0x15a863491;0x5f77c4fa;0xd768a238;0x5a20ca;0x171d8a598;0x5a6f9abb;0xa8e5e55;0x51bd8077;0x3c209e4b;0xe3ccc60b;0xe5ba8fe;0x293073ee;0x1fd4f165c;0x178584ecc;0xcb1e0b8d;0x5799c2d;0x5fa8d94d;0xdb3663f0;0xa316709;0x20136816;0x15918f057;0x9344f3;0x148e49c09;0xd3d0a4bd;0xc7f9c3a;0x17467880b;0x15434351b;0x5e8;0x0;0x0;0x0;0x0] _ _).
  - vm_compute. reflexivity.
  - apply Forall_cons; [exact prime_3135767'|]. apply Forall_nil.
Qed.
Lemma prime_3730024228806121761107' : prime 0xca347c199575402953.
Proof.
  refine (check_ok 0xca347c199575402953 0xca347c199575402952 0 2 [0x15a863493;0x1f7]%positive [
   {| s_r := 0x15a863493; s_c := 0x9561cae6a6; s_list := [0x29051b4ed53c5aafff;0xe3caf6f202df88afe7;0x14ee1fb7d1f7adcd7a;0x97fbdb2767807e5711;0x65432b5f8c30ffce7e;0xc4586c046182c2513f;0xfce019990413fe9c;0x1af93e1f8446abc;0x4faad8c745b9aeb170;0x14fb399b4608d84310;0xffd2c912be380f5643;0x28562f1b1240039d12;0xe003cda8f531b6d21;0x59a7534e69f7bf6cc9;0x9c1d4b6d47abd4309f;0xaf9fd63b68950d2533;0x8cf497121d0b6ca;0x24ea9b3fa738c734ac;0x83271f2dbc8ecf9c50;0xdfc9b5ddfb9f85121d;0x38d8ce89efa4bec1fa;0x776ae98459e74b3a4f;0x1844a4ea173dc59becb;0x683bf129b5e6438826;0x1633f8d875480ae0432;0x2f6b75e2794050e356;0x9725cc5e82b16a64b;0x4c0d5780fb608cba43;0x3ffa9b44184a191c6b;0x1942c3a7b37eacb7181;0x174e460624e0b55045f;0xca347c1395754034b7;0x1aa459030e6881235;0x5;0x0;0x0;0x0;0x0;0x0];
   s_u := 0xb2600bf6c20079e4a6; s_v := 0x7a8b808cfca28a5a5b |};
   {| s_r := 0x1f7; s_c := 0x66e958193c49ecbe; s_list := [0x1e634d10215fc03adc;0x12f2db4d6c0da9db481;0x8a2f2b155db266b8b8;0xd8cefc099ae2b0caf3;0x7fb35d2c72b65628ac;0x471a67808a62c2e9a4;0x5ffe255678f2bf1265;0xc573125ce716233f3;0xdad514e9af5ac324;0x6cbfc7ed022fa01c95;0x257f5c0fa08184c338;0xded394cbd09baf629b;0x2fc41c90eb080d310;0xc5b70ca498bb0b6de1;0xadb86cb5deb25f166d;0x156de8d95ab5ca176ff;0x1712500a038d547ffb;0x501823b36e739bb38;0x197152edb551a8d133;0x26ab87fb0ddef37872;0x3e8df93edce4fedeb3;0x2b0bf1a8e6635ca1;0x5bd1b01b0302768158;0xe17ce3031db4dfe1;0x386c255b2e8811158e;0x7af596bdf2a0f8fd7f;0x57bff4d7b33bf3ad60;0xab4683d41b5e2ae73;0xdf57e9f5e4e16e62fc;0xc598a33f8db581b692;0x343b66e4a883af3e0;0xdd7fdd56d8a181a1;0xcf46eb462380500ae;0x10268edf9ad41fe316;0x1314952041c343bbb8;0x1b05a94c555e204e62;0x1d25e56e0be1857bcb;0x418db220480c7247;0x3035e6a935647e14c;0x264154359bd32a3667;0x1a21cb50fac3ece5fb;0x86a4d9d55f404d2c9;0xb8f427cc2c07b4af2f;0x21ced0dd7863ed8b47;0x1759d09cf7b9a910fce;0x9119dcbc5b18bcb3f4;0x271f7931b4a31c6689;0x2377c01592b94171ce;0x193d22570bb7f3df4;0x89fc639fc9d7d11f06;0x2b5a7bfdea6459d9c0;0x19468f8330f8c32f2a6;0x153a8aa577d6fc7152;0x14db58d93228aeba965;0xfadc0fe89c43b58f7;0x7222a00c70dcaeb75;0x5106d411;0x0;0x0;0x0;0x0;0x0];
   s_u := 0xa81a17188906cea8d; s_v := 0x35f0166fcb4ff6d81 |}]
   [0xca347c199575402951;0x157c7694ede39dee940;0x4feb9b3a15841a29d;0x7b722799aeab9eef62;0x11334192d842fbabd6;0x139fa4acc224e66183;0x43abdd763fa2168968;0xa2e8a6bc662383ce46;0x468fba63e073459c91;0x40308c3b526ea5ba63;0x7178f2695e3c23e508;0x134ea6093f857daa3c0;0xaa3753c05e17ed1a6;0x14479e4c92663a470b;0x88fd0385fc35de0;0x1de63d91c398630a2d;0x1eacf32656319790d6;0x8aed7e016eaaf2029;0x12c446c240cd3823e8;0x3e40777abaec8cdefa;0xc8818838de54c6ab51;0x15bf1d6a5cdbddaf46;0x6e23d54f21cee22a0b;0xacbde65c9957bfb0a4;0xb306a1fa96fa0f931d;0xa89be04b51869d89a;0x1d78d850bf81b9db5;0x16bccb18d0d8286660;0x18e6adad6c3a3d31cf;0xa1a3958f582adde29b;0x143b71e864ab2c4746e;0x3f8721bf3a65795bd0;0x4fed437dc0146355a1;0x1d4359b113abdceedb;0x72f998926cf2db1025;0xaae05b85b18a96de62;0xc823d1f16597639;0x59ef0048e68882da31;0x687021cee5f0c10b;0x64ca963238baef66fb;0x5a51164c67c5c493f3;0x65e2e64208b221eb88;0x2a12766d44d4bc2bfa;0x5ddcc3b01fabc07c5;0xb36548be230593f6be;0x350a73ebcf21d0c6c7;0xad090b1b41d6bc3d83;0xa159d44407db8eb306;0x7471e09937d3d4e687;0x169fe934c2c00aa1da;0x118a3d3b2b370fcd000;0x13dfa7b5f80751f1940;0x1bca34a7c0a068b141;0x157e02d1cb5ed34de64;0x8124a9df7deace60d6;0x32f8557b477401059;0x6d4fd6cd898b4f5144;0x4aadea7f9f07da132a;0x643c015340ca969d68;0x934aac012ad79732c;0x13081ea9fb6f54bb7;0x19464b2b60e1af4b1b9;0x3f54515372fac88ab;0xa3a520bcf29a082f8d;0x40dee084312bd2aa81;0x28836a08;0x0;0x0;0x0;0x0;0x0] _ _).
  - vm_compute. reflexivity.
  - apply Forall_cons; [exact prime_5813712019'|]. apply Forall_cons; [exact prime_503'|]. apply Forall_nil.
Qed.
Lemma prime_5192296858534827628530496329220121' : prime 0x10000000000000000000000000019.
Proof.
  refine (check_ok 0x10000000000000000000000000019 0x19 112 2 [0xca347c199575402953]%positive [
   {| s_r := 0xca347c199575402953; s_c := 0x1441b504488; s_list := [0xa4fceda6b9974bed56eb55749445;0x13b6caac4d674c950b4c825f6c84;0x2db15a97b247910c3a8fa6a9150;0xf8757514fcf313b7212dee58e864;0xdc17ab3a5760fa80aaeaba10be05;0x1226909a1737735310597ec14391;0xcca4d7a2f8cf0b6f9bb00f2e9f9;0x36418f9fcd2bebdd9bdd639548cb;0x1bd6823ab150237f0b1dfee819f6;0xb5033fc698ebdaaeded2b98c68f5;0x10504b45903e945baf7ce8d256ee;0x1a61436e324eb6490b18904cbb69;0x18d56d043434be7b4d4339c79;0x444e5115e469c386ab7da8bf3239;0x5d7f0b4e7031de1ef901cefb30a2;0x5f672441d94b3625936a83f6d789;0xaf384a774bed22a20edeb5c44a0;0x1a77ee40287978b475311327752;0x1d52c12449875a6352ded2377663;0x267a484f108ba341f1519bef73f;0x9d1ecfad1bac0a06168525dd5;0xca53a8c869c523e5133aaa3aecfd;0x1e6463e15892f8254fd20ed3f3bf4;0x18c88199a35d00f9db501d1930;0x1bc456482d1adf1927308b4a6fcb;0x1bc6d58130ef91e3220b3912bc90d;0xddf9d2b54b25c77682137f12e5b4;0x2b18b0ec5323a8b026a8c6c161cb;0x3a7b25bce007b3e965d3c07ab6d7;0x47d22e81730c37f2410011d100e7;0x2cb683e2d6310000000000000010;0x5f5e0ffffffffffffffffffffff;0xffffffffffffff38000000000019;0x3ffffffffffff;0x0;0x0;0x0;0x0;0x0;0x0];
   s_u := 0x60ffb0103e080e4819995183bd; s_v := 0x1ec006d57036a5af725d8323f1 |}]
   [0x0;0x0;0x10000000000000000000000000017;0x1a0f8b1d1e0c7c887ecfd4ef2d70a;0x17bb11de31a69025a180f8864f6ad;0x133bcb9981859a01ec349d5dfa0;0x9c878f54db1a352856efb527bac7;0x599a37bdaad0cdc4519ddf748166;0x11b106e5223d0de482019ebaf53e;0xfc1b09795e15e069dfa6012e8b3;0x2feb690603d373cb4c18c3b131;0x72c7914a2ee570b0642715476bbd;0x286832db6b4023c5e8037587025;0xa6ed9ea61d1535b60a72699cfe10;0x4f7fbe473395a685f3d812818769;0xc66bb575124732f63ee6cbde1657;0x13430148306fc4440098973c3a;0x20fe7ba6e95f4ecb9fe79a3bb6a1;0x3fc7462cdd63b2053eee7b25bb75;0x72a14387afddfe7e11e6a15be8d7;0x1baf5097293745bd080498e3ca5f;0x2d2337ce6fc39ae61cb18b954e1c;0x51d6e102775f4c390e975e2cff0a;0x842fc3b40fb398f6ca004910ba2;0xa206248a374557bbcea2befc268e;0x1a76f51e4e1acbb313d1bdff57bc;0xeec6ca872aae3735bdef87d54e8a;0xaaef725352bc7b51b1f0e486f2e4;0xb320993abfa063877169ea4081f3;0x4ce71dca264563df7dd2c4bca58b;0x1755449dc3b3d80f95af047a0b3;0x43f067b158dac674fc91b938593;0xe93153da12a28c7f48f6f596b9c3;0x78bf4951bec916afbe7fbe1dcc6;0xc11950e563401e783ad6fa95dab4;0x33a0e50cb3e65689544e7188c;0xccbddc413e74ad5be87926d9ef13;0x6076425d08cdc260deb1c6d6a0;0x4cebad84f46ea1781194c1e609dd;0x31fca7b3f4e0b2dedb3fb7c6ffe3;0x77ac3ca78f56810cb340f317e180;0xc453f3a1d8a0ddb6114f6b2304c2;0x50969ab508b6126655a763b354f6;0xe4a0df84509800aebc287055c311;0x327042e952ebfffb2e0c8e4e86da;0xc8f34d3773f5f11211d0cebc1a82;0x5140b7115cca658e92c5edc2014a;0xd365051d4a09f7309c741365c3fa;0x60624905d34f190419402230362d;0x6af52c53e7f76db2940113930c0;0x8987c8c91e48dbbe699f70fc9adb;0xb62d8aa1cb1631338fd23f41f7;0xe303dc80b59aa449e5cd553804;0x104795b38b5772f741798c91f2e0;0xf4aec966cf6bc2c6a50c3627da91;0xa2e4a89ac3999fb0d69abfdd162f;0xd7b11fe2199c572cafa96defd73f;0x285eada9854f59b597823ed49fbf;0x8772059eda62820fba369aa9a493;0x95ef20942eed88cef3c4bd4e84ce;0xfaeb77f6077cb4dc8bb805b40161;0x3c174bd44631e0e798cc5a6b7749;0x2025fa1881ac4eb051fdc693826a;0x469caa1a618a3774a24d9c676528;0x8e80bebdef536df99ca9df289ed;0x3783c06d0685bab7e19a346b7178;0x4443b80f8f2d0ba8d54190278f65;0x353d4be1a9e65a69f54b0430f546;0x752be0fd0744c6ae87a97a3f42a0;0xd912a47c7bcb190cefccf68940c;0x2e9afb7eedd1e10e45d23690eee5;0x690070415b2dc9c092b9787c8366;0x4609dbc2c73ade79c4548284bddc;0xc819221dcc50f7ece178c854ba11;0x1035ed4963c2e680556729957b8b;0xe69797584e3d0a87b51ea70e1876;0x67416780a2c1d67c4472d58fa034;0x93baf8db0ff86ec3c120e20c287;0x22da16ea857e131d9fc9dfef292b;0xa92629fcb6171f117317c76b8c36;0x61eb661b28ced360c1aaadefe441;0xa76c0db716acf8332651e086ec;0xbd4b4d1e790d009d3d2a8a6ed4dc;0xc3488063c883e2459cd08bf0892a;0x4368a7ac835d73af5a1f0d16a374;0x2e8acb25f3712eb2efdf8f11678a;0x549d8d52f6293e76d2ab23b29bee;0xf722d94c820fe65485567361318a;0x8edd326b29f463fb0ae1cd0cb798;0x114707697326a4b2c6e18d941131;0xa0d3d46bbeac9911ce7b8dcaa43d;0x56515a804fe3ebeb8686f4e10efa;0x32fbd8658d7850cb2430988671bc;0x2cfc89f3125a503843073c6a51;0x172086804d720d0607b1ca35ab60;0x10553d449a8a072c9debbfb564;0xa70aee1f71c9bc7722dc77fdf7ad;0x47d0b46624faaed2bc58a2377354;0xde30db96bdeedd72d12a3b6c714f;0x488a313d24a7bbb9d87a0ea17281;0x5a053c9299bdcb1abde946fe1b;0xfffffffffffff90fa4a62c4e0025;0x2386f26fc0ffff;0x0;0xffffffffffffffffffffffce0019;0xffff;0x0;0x0;0x0;0x0;0x0;0x0] _ _).
  - vm_compute. reflexivity.
  - apply Forall_cons; [exact prime_3730024228806121761107'|]. apply Forall_nil.
Qed.
Lemma modulus_14 : prime (2 ^ 112 + 25). Proof. exact prime_5192296858534827628530496329220121'. Qed.
Lemma prime_53791' : prime 53791. Proof. now apply (trial_prime 53791 117). Qed.
Lemma prime_322747' : prime 0x4ecbb.
Proof.
  refine (check_ok 0x4ecbb 0xecbb 18 2 [0xd21f]%positive [
   {| s_r := 0xd21f; s_c := 0x6; s_list := [0x0;0x0];
   s_u := 0x2805f; s_v := 0x20 |}]
   [0x4ecb9;0x128;0x2f1b;0x70;0x59989;0x6685f;0x2432c;0xefa;0xda7f;0x345;0x54a70;0x21d7a;0x1c2bc;0x3d73a;0x1;0x0;0x0;0x0] _ _).
  - vm_compute. reflexivity.
  - apply Forall_cons; [exact prime_53791'|]. apply Forall_nil.
Qed.
Lemma prime_313' : prime 313. Proof. now apply (trial_prime 313 10). Qed.
Lemma prime_10891' : prime 10891. Proof. now apply (trial_prime 10891 54). Qed.
Lemma prime_974940539' : prime 0x3a1c697b.
Proof.
  refine (check_ok 0x3a1c697b 0x3a1c697a 0 2 [0x2a8b;0x139]%positive [
   {| s_r := 0x2a8b; s_c := 0x15dae; s_list := [0x205f0b14;0x204c7bc5;0x159620bf;0x4ee1dd4a;0x1ce06cf9;0x707606;0xcefef;0x627ed342;0x72e9;0x116644c7;0x3f0536c;0x233e;0x0;0x0;0x0;0x0];
   s_u := 0x39bf9d14; s_v := 0xef146dd |};
   {| s_r := 0x139; s_c := 0x2f874a; s_list := [0x2db7c752;0x564ed85;0x2e18f0e9;0xdfbbc08;0x2f59210a;0x1b2cb4e1;0xefac543;0xa63eabc;0x20c8514b;0x31ed7f3;0x33cf4964;0xa2cc0ad;0x16e79714;0x11e8746f;0x617a2e;0x67e51d64;0x233e2;0x0;0x0;0x0;0x0];
   s_u := 0x767d0b5; s_v := 0x5bafa1b |}]
   [0x3a1c6979;0x1f656512;0x463a07f;0xd15db17;0x23b8662d;0x18d0ce25;0x27cf579d;0x246b24c;0x538fd0ad;0x176bcddf;0x1d7a586;0x6c9b754a;0x2f55bf2;0x51bb5080;0x48162916;0xc4c428d;0x5da6505;0x1fe264aa;0x6bd78acf;0x3c8f84c3;0x3a19869;0x1ec29b8e;0x2cbefe9d;0x6fc221e;0x119f1790;0x0;0x0;0x0;0x0] _ _).
  - vm_compute. reflexivity.
  - apply Forall_cons; [exact prime_10891'|]. apply Forall_cons; [exact prime_313'|]. apply Forall_nil.
Qed.
Lemma prime_9607064071307' : prime 0x8bcd1a42c8b.
Proof.
  refine (check_ok 0x8bcd1a42c8b 0x8bcd1a42c8a 0 2 [0x3a1c697b]%positive [
   {| s_r := 0x3a1c697b; s_c := 0x267e; s_list := [0x2f90ffa8e6;0xb623cfa364a;0xeeb29d94b90;0x1fe125393a;0x543646221c2;0xf541921a6c;0x654292800;0x1d4c7aefb;0x0;0x0;0x0;0x0;0x0];
   s_u := 0x23dd3e74933; s_v := 0x1ac76ad6236 |}]
   [0x8bcd1a42c89;0x6287921bc82;0x5ebfa35b037;0x181aaba0797;0x4909a4853;0x41e57b2d31f;0x53549100b;0x113798e97ec9;0x146d1998ee;0x7d0ec3521dd;0x7b385df1ee7;0xa85320d2a52;0x69c7d0f93fa;0x46ef58fb;0x3764234bee9;0x1084a9de5f;0x730c2e6f83;0xfc7b59387a;0x1cb87ab98a5;0x141406d6f9a;0x3ba8b1da4d;0x3784d11db2d;0x2d5e35165e4;0x5c452139d86;0x445c4340d3b;0x18ad48c31b2;0x32bdbeb6f75;0x38e44535ab0;0x104fadea5a15;0xed04729c24;0xaf5ffad298;0x24cac06661c;0x3fb950c406;0x75cf6a0952b;0x4477733e3db;0x2a2972cd38f;0x10257ce6e951;0x3a98f5d;0x0;0x0;0x0;0x0;0x0] _ _).
  - vm_compute. reflexivity.
  - apply Forall_cons; [exact prime_974940539'|]. apply Forall_nil.
Qed.
Lemma prime_76856512570457' : prime 0x45e68d216459.
Proof.
  refine (check_ok 0x45e68d216459 0x45e68d216458 0 2 [0x8bcd1a42c8b]%positive [
   {| s_r := 0x8bcd1a42c8b; s_c := 0x8; s_list := [0x0;0x0;0x0];
   s_u := 0xe4115c088eb; s_v := 0x34 |}]
   [0x0;0x0;0x45e68d216457;0x51e3bcab85da;0x558a2a33c441;0x21ea86a29afd;0x11033d30bb54;0x1c7397ad1c43;0x3bbfd3f0443e;0x4597cf2776;0x531fac8512a4;0x34bc0fe4297;0x3ff28cb37fa3;0x8792f624502;0x3ae2a2be3d9;0x446f63999991;0x4d0100e4dad;0x18cbabff06cb;0x183cbeed6747;0x367bb91f97a8;0x27f57e703e1e;0x6ff7728705db;0x2a800a526;0x335026f99e69;0x1062e80f009;0x313b4ffb8723;0x3f6561eba9d;0x4c0fa2d7ea94;0xc5a604a3ec1;0x1b8bcbbcb6a;0x175093619b6d;0x1d432dceffdb;0x34aaa34f488d;0x39925218d4f;0x91078c57c;0x6295cf4;0x4d8fbbcf04e;0x20f7998142d6;0x8bcce202ce5a;0x4da00ccb92a1;0x7531eb;0x0;0x0;0x0;0x0;0x0] _ _).
  - vm_compute. reflexivity.
  - apply Forall_cons; [exact prime_9607064071307'|]. apply Forall_nil.
Qed.
Lemma prime_1329227995784915872903807060280345027' : prime 0x10000000000000000000000000001c3.
Proof.
  refine (check_ok 0x10000000000000000000000000001c3 0x1c3 120 2 [0x45e68d216459;0x4ecbb]%positive [
   {| s_r := 0x45e68d216459; s_c := 0x3a98f5df613347e1f92; s_list := [0x3e5b368fa549aecda0fc88b6fc6acd;0x1535073518843637a8efd6cea9c430f;0x9dd03a0ca65d809357351017a225;0x26c1a9f1d1d98af87f743b373c1451;0x9556566ff72debf6b48141aa2a3b1b;0x18d2a83096d9bfd24fc6bb5ad77943;0x35c45301094e99d2bd27cc66f4a3e;0xe7e40a2ae36df9f83b122e1b43b;0x36d6ba3c97a0ef607968d56d09e0c8;0x2f09169e7c9f170a2f305bee8afb40;0x13053bba702285d9f343252f6c3cc2f;0x47bbc07a9909d5908cf1c5b235d0c6;0x17fe31ac84f8bdf31027db136a9615;0x45d2c553e92b05fa115344db085ad;0xc7cd0a5683434c966a97a12af82249;0x3c39d56553130beeb396d83804f7a4;0xfc26a7283ff14ded4d1d5299e9a294;0xe5a56c50d559cb68de3fc28162a25;0x85e0df2b7c1437b63247bcbf10404;0x2e075fe6c441737d64165b75fb8fe8;0x4500204891b5b81414365e2e18db06;0xfa680968cc6a766d49eddc9faf769a;0x66e8d06329844a7ba62371bcd90815;0xd57469d74e3833b578d060d371ba37;0x189bf62c4328b9a3533a123eeccccb;0x3adbb15bee8329ad1cff84cc6d5d99;0x2690326c3cfcec227cdbebd94e8e2f;0x145578416c7c9c74cdacdc00975ea8;0x6b94c037cb0a03457e69dcf9883c;0x4506122318a306f23bc656d4d8ec25;0x11e0be0083583f5d90695c43d4370e;0x14859e39c54f6426bc80f4512c0a30;0xe00eac45a7297bb2ae1e53526b1b;0x77eb7aecbee6ed55c7373096b4242d;0x5e4ec6f1dea0ad2ea3fc541d914356;0xcd3cb522bf649562f2cd7fd26a486d;0x40dbfddc227f4d23a00634c56e0c58;0x4c4d8e80c86866954424fef632652a;0x3ab86628f41704724333d88dd7ee3e;0x9999dae8d442b089884f8d9c3e88;0xdbe9728069d3863baf3a804cb54539;0x61abda85dd53cbdc7497cd67702754;0x154905fcbc9af1275a62c15bfc6962f;0xef5c74d47fd6b28cd0322ec266eb6;0x1014a5d667352f38e34227c42f5e933;0x1fcedcd32bc159fc720163d3679d26d;0x14928388c0c15e5c661da6214b4b398;0x7db76eced3d9dd80d5fec8cb58de90;0x169b1967d50bcfdecdb7326c0c6916d;0x5c28755da5962dacae90351bc0dc44;0xbcf58da12d6e70095a406b2d81e803;0xa386df12f967b13ef9c9cb19faa62;0x149e64d2366ac3811687062af7ea0ae;0x600416d2c4c69ff6791d8c95387ed9;0x162d2bfb72a05160be14eb5af876aab;0x18954a7a832aff2213d4b3eb393930;0x7a875b633f357dbfafa4a6eb412951;0x4329bcb7b7953d07572d5636ebeef7;0x466721bd3568a0a1b1663402defc89;0x51c82b64c5106969ce902fb004ef1f;0x1aefdf402299af2eb3f4cec2c16e2a;0xb9c2b062b48bdfc11934ec27cc8aa0;0x59f39970a1fc4a8af845c4c0f81568;0x1e96ad952e7c8000002d5c01d543179;0xd4b200000000000000000018d58f;0xe89000000000000000000000001944;0x3fffffffffffffffffffffffffff8;0x0;0x0;0x0;0x0;0x0;0x0];
   s_u := 0x732c67df8dcd02e1e3843c27b1ce27; s_v := 0x6084f03a3b1a5824d75d88c8854912 |};
   {| s_r := 0x4ecbb; s_c := 0x33fb893223d5b431da87ffba26; s_list := [0x320a54a2684708bf70c2646591e1;0x6949795c9db97fbb31fb0c4f826e99;0x1174bf91b13266e79275725f367878;0x6b1f79a6acce852fff153b739dc05;0x113c7b43f5546c25ead3392460a6e9;0x31ce224ad018160d0eb79955abdc90;0x1ede373b1c35d6b11c19c4b16e0fac;0x8a04461f23f0e68c11bf80324c462e;0x3828c9febd223e02ef4cea5363a4bf;0x77e65305b1e3a72563f8520e876f40;0xbc9e4f38eb9de4db71b5cd2776710;0x16c802ed5f9545254d1f968b1a65327;0x3de0b93bc450a2b8d1bb22965310cf;0x55c78aef3af3d7ddcdf26253ed5b1;0x5319f2febdde922e0da46c7914fcee;0x13f9165a2d486817988e05278da7756;0x80f65da098107f25fc7dfe87c008b6;0x37d54776a3d00cf5e3d38ac1098356;0x6c828f7b84e54f13f831c4dc8e838b;0x260a066e697c329e6eeb1f93b6c578;0x3a404248417752e25aa5af6afac12d;0x158709ca72fbd1c93c05c1a0c6fdaa;0x43e422d4ce2b3c3c2cd5f86a9f2cb0;0x1a3c266bd4c01bb9934c930e17f4698;0x25e3704d172d5bec5ebdeecce138cc;0x612e384b88ef46a62da79319fcb92b;0x1132cd1fe918b3e259580d123aff3a3;0x7ce8b7e7402ed0ff538e7ae1b5d044;0x7660feb125eca62b4ea7627854cadd;0xdaa5fa6d8a3ad30f621662d0dcd43;0x83232c40f3b80fa50dfb669c7b884b;0x14dab86051275af9d4936ab742317a;0x85db1257e9298a2466a2427f97c6fb;0xe8cc7885a8c5e1d6575eae2469dc81;0x3ab5054e12ec58a7a8644f49acd70;0x9074e6a5f9067a49b50ab416f3d04a;0x1d0b25dddf52283e1c6791e00ac2c56;0x3df397fa986999cc85246bdd60750;0x56a9e50bc063037626bc9ae7541fe3;0x31a26e04538c290889f6a76083958;0x15e9c2207c558df3793e6fe5aaa8abe;0xcd3d504bd5bfad2815786ffe3766b0;0x46eddb028e0eb2021b01e5b6bc0ddc;0x7797145afa97da54e5179416eadcfa;0x17a7efc28ffe4877bb79c91f6e4b17;0x890fe22a2753ca6a8b2ac7db898a24;0x37ed328660c839f3858ef50ea228b;0x8697727b466f6d333e33c06aaed20;0x1047a39ce8b4a15fd6c6a18b323b;0xb4f4fd4e2b83103deb82657846c890;0x81aa9cc3bb01c44812c5ca546bcb29;0x331c80b986142935a9d4d7ad918c16;0x71b19d6b0262ee4e01169231feac26;0x115685dc87912e7b1f9baf6bfc0334a;0x5b1767bffe28c565532a0302854472;0x154184077b6bd1c40d94c192cae3f;0x615279764f8bff1a10d5495d005f31;0xbe9463225e2bc169cb33cba62fb2d;0xbdf31dcd65ce323bddc336ed9a2960;0x31fed04cd4f99d5116add32fe277f2;0x27459cea643e004751b312af3b543;0x472ad53079aacf65b091d28ee8f642;0x1e89552b9c84d8b3560aef0bc471bf6;0x12e4a719cc799a75a7c7f0248a053ec;0x71d02a70ca67049cef632f8b66bd3a;0xf92832412a6cbfad741c062e24d260;0xe7d3c7cebdf3ac6f9835291b9000;0x7788d83d30651e1d3feb263d81b893;0x686723984c6824e6405a5be919a5b5;0x4ed0ddf9ea5b40dd33bf027ecf75;0x14714ded4eff2257a98d4b37ae5fa;0x235c6676b76a6bc38c52156295311;0x3cddc6c80a56b16c8913fc6b174a98;0x6d15f837be8750133689b079a009a7;0x3a14ac2e03aeaf0335f3f3c87e29c4;0x3c7cfad93d3e476310dd530b922802;0xd313354b25b970b28ef9b1f0a52e;0x4e4fbf6fe97d45a24c50b8f31a0b47;0xd29c4805a42961f841b3f622464de7;0xe540fd74d5474e2225e3b6cffb9d3;0x52185702f82bb918f0b190701d7bfb;0xd490f1b6ee13a3ff68a96d16368f68;0xd723d57e26297d4bdf6258652eabb;0xdef218606b113e9aa47c0e3eb37e89;0xdaf4e93808f767c2f8dc0be7719184;0xca6740c3341f9d4f7ff501661adc7;0xbdc284dcbff73cbda6ae84d1085d5;0xda4a679ededb56fb0adb3ffeff397c;0x2fb38583598293bd4b962507c00c6;0xfd73c3cc2945c76767d76b2427e5dd;0x9470212e930c1b681254f2308c095;0xf787fffffffffffedb072d7a6d71d;0x1fffffffff510814a000ef2be81d4fb;0x1fffffc7a00018d4480000000000385;0x7fffffffffffffffffffff;0x0;0x0;0x0;0x0;0x0;0x0];
   s_u := 0x2fc7c9b528f8fd5f846f1e260b7303; s_v := 0x2bdbab799cebbaa3febabe130dc7ea |}]
   [0x10000000000000000000000000001c1;0xfecc39e13ec93949e2f88f63a4d82;0xa5130052620724b437edd9d537b1a;0x2f99eac820f060400528b357190c41;0x50dbe57d2e0a44ca13f8d00a81e9a1;0x14fa2baa50296077a5a094f55d1317;0x1584eff38db8373afd4b171f30dcce9;0x5b2b847b820816b5b80f5283de7c70;0x5bc4606ca33cc51277d865223a5034;0x24631b60e73889e2e9b167d78d0184;0x64bf9fbc1c14cf660428051a12f2d;0x8b2f1dcbe03587ede4b2f44446b3b;0x33247fd5ecab3c6170427ff5285f;0x7af6932228ff7f79ba75245d95e3d7;0x187db7223de84f0f3e78db207014e4;0x4d5ff4cbf22cf254208e23a17141c7;0x1abf455c98114fc2f7798e1ec1f78c;0x33e649c2086b0111f8d9edeffc171b;0x46d7525f5aca72cdfc397d8987bbae;0x9494846422c5f9c596a9d98379cad0;0xa206ae1e6fd23fc4b5ed0a68205bc5;0xcfef976220e13f30ed594027da3331;0x14467cbd0c4cbd93f73f45b681d536;0x12957e04164ab5104a375c28c641d;0x514921f5f2954c0ec069b3b1b7948c;0x5e46fcb19350e35dc925f08229a641;0x623ce0d353ecb55b9c26c4fc7bccc;0x9a1106637be48c55b291617a895ef3;0x56c48b35e92fa5b9c7f68509be637;0xb86efecbe753911eedf25b77bc386f;0xa6a1c50664be97271e0e24a23f84d1;0xc40533f9fa0f1513639af5ff206a57;0x99162fdf7b92c76b21196325fa6587;0xb8140f206c4f77ef5838e64438a7c;0x30e5479278d07b99bd667bc0156b40;0x1a9747731d422f4f9f24750f830045;0x23c6ca4c69fd24d4c9c8a701e3e455;0x28bf97a49564bdf53e0b6e984b654;0xcb44d804e5b43ce04b71d7cbaa2c2b;0xae56a49693a8a494c736d43d7a356b;0x2e86879812b3cc651dd8c28e46c13f;0xba04a85a4aa701b8f4b632e24abd49;0x2b34714e358c81ced105768ea75e0;0x2bbf062aeeca8873b43395eb99f564;0x71cbb7f0e49b20adc4e2acee4ef3ed;0x436a6d8b07889827e933bec7f431ac;0xc3be10abfded3816d49e9bd5ae0019;0xf895feb00789d2437d27704b81e71;0x30514b79db8e3d42f7af0c571e917c;0x5e73fd5389aeb8bb13b3b4afa14cc0;0x377087b830267f42463d17b95d49e2;0x5f4ce0ec27871909e7d7c64369222e;0xb18c608f1eea7b079c999b6f6d1295;0x728450f449663487cfafd698a5041a;0xcd30e443cc0d746060f103c8f5e5;0xe930151621e8fd9544b8268ffa1a71;0xe15cdc95bb53fd53b65f697fd8a3;0xf28d7cb58c3c7a6301c72df7facc85;0x837d8b18813b3f920ec423618f371a;0x29a3262e93dee61c76fd0218f2acd7;0xa7a040a46999be93613a294f260e3;0x660c635af2aa2c491852e6f1f7978f;0x46759aecef057af2a27ef51e3a801f;0x9e2dd6639cbfc1604614606c1e773b;0xa9c39b537c5ff0f2fc87500a81835;0x465eea6d0635c494f48469ff7a9c7b;0x82f012f90d31b886dad2dad128444a;0x11edc8745418282969b7c0059b50e0;0xec0e95952507f62927ce956fcc8caa;0xe6032077584a40b6b27ada48b11c86;0x4a7666752d5f7df406a3fa638db43b;0x1152391bb95fc2609c6aef0de4bb2;0x3dd759ebb2b7d571d96147b1baf53;0x287a5f354e2bb7a5a710c9904d7e58;0xcc1a0a022f49aa20a7e43398f30948;0x53a3321dbd1b19c43b1c6d5ac23e4;0x973bbba94fbc93d8b098ff27a2a81a;0xae197de501c9c35b0d94a55618f082;0x892e33f5551ac654000987374690b6;0x352aedaadf565a188fbb012183854;0x1744e5508604fd12f6c37e57e98e79;0xfb469d291a2cf7a57e20f72dcf5846;0x4273fe5397cc8bdf8f7f97caf1300d;0x263acf12d0d60f8c982c5e3fd3862;0x418ebd78e22d55698195e7f509b954;0xd639c362f61cb4e3679532c87a9e0f;0xd3290ee2dbc0eb465a6bb6ddbcb621;0x3d5c160b47d00b45c33f5823667184;0x7c65675640e2f43aaa6ce2ceb63ea8;0xe6f11b0ec09ff140012c7220acad24;0x185c1cb7caca7920b928e2437b6d8;0xe29d8df9a68623732e8617eaab2e8;0x373d0ac53e3c5d04156091ebbe083b;0x32a97e2a3549fa689d14657ea5f36a;0xbe41260187e8cdac35e159788c88a0;0x3ddf5c8ec72ccf5fb2e720071f11b;0xdef216ba42356b25f0fb997fc5ea94;0x5bc0fd2f8ff44b97d50113bf7b362;0x2d849d7667564e9b9bdc7254a01b46;0x9852c4b1aa411710df1fa1cb44e408;0x1596c48b098aca0e06c185743e3f9;0xd5ce277a387b2538e278eec14a343a;0x7a553605679ed28960de9a0e974781;0x4368c624d89fc8d9c80836011d5d8a;0x12bd80d315089ab5cb0ce0f4d7084a;0x5e36025a2ba252a0d4a218b4d4c360;0x5037f6d7a2a1f61fa3c8a5ee20ef70;0x9347f202e808be983176db15fa4c64;0x8724a2351d527ebfb9be7c8c82cd50;0x98729705e50c2863752e41070ef7e2;0x5cc9;0x0;0xfffffffffffffffffffffffffc7bc3;0xff;0x0;0x0;0x0;0x0;0x0;0x0] _ _).
  - vm_compute. reflexivity.
  - apply Forall_cons; [exact prime_76856512570457'|]. apply Forall_cons; [exact prime_322747'|]. apply Forall_nil.
Qed.
Lemma modulus_15 : prime (2 ^ 120 + 451). Proof. exact prime_1329227995784915872903807060280345027'. Qed.
Lemma prime_569' : prime 569. Proof. now apply (trial_prime 569 13). Qed.
Lemma prime_107' : prime 107. Proof. now apply (trial_prime 107 7). Qed.
Lemma prime_267929' : prime 0x41699.
Proof.
  refine (check_ok 0x41699 0x1699 18 2 [0x139;0x6b]%positive [
   {| s_r := 0x139; s_c := 0x358; s_list := [0x1666b;0x1cc63;0x2ea;0x56d48;0x1d372;0xfa;0x0;0x0;0x0];
   s_u := 0x11eff; s_v := 0xeb12 |};
   {| s_r := 0x6b; s_c := 0x9c8; s_list := [0x68eb;0x2ab19;0x15c0;0x45a5;0x6ec9;0x44de;0x77c51;0x1;0x0;0x0;0x0];
   s_u := 0x21928; s_v := 0x14737 |}]
   [0x0;0x41697;0x173e9;0xb9f5;0x9c47;0x1eff8;0x21eaf;0x14eee;0x4ca;0x80179;0x20286;0x3b813;0x7cd0;0x3e9e;0x0;0x0;0x0;0x0] _ _).
  - vm_compute. reflexivity.
  - apply Forall_cons; [exact prime_313'|]. apply Forall_cons; [exact prime_107'|]. apply Forall_nil.
Qed.
Lemma prime_11947489969' : prime 0x2c8203ab1.
Proof.
  refine (check_ok 0x2c8203ab1 0x2c8203ab0 0 2 [0x41699]%positive [
   {| s_r := 0x41699; s_c := 0xae30; s_list := [0x21f8dfcc7;0x2536679b5;0x1d8ec5146;0x87ea573;0x475c8316e;0xb4a68650;0x28c955322;0x2c6c9c91f;0x2aee9953b;0x4aee65eb;0x2e0;0x0;0x0;0x0;0x0];
   s_u := 0x19a979067; s_v := 0x9abf2df7 |}]
   [0x0;0x0;0x2c8203aaf;0x137d5b621;0x27db13eef;0x54c30acf8;0x762337da;0x267af0392;0xe94b98f2;0x67b8bbc2;0x3101e8a4;0x2a7bd1265;0x1bd5cb2d4;0x22ebcfb19;0xb827c24d;0x1bac10f2d;0x299f91f91;0x797975df;0x18bb8065;0xd0b2db60;0x6d174b4;0x3bd3c2505;0x213b1d03b;0x38e8d3a2;0x2eb30d5;0x2b2dfc346;0x265ffa780;0x12bb997af;0x5c0;0x0;0x0;0x0;0x0] _ _).
  - vm_compute. reflexivity.
  - apply Forall_cons; [exact prime_267929'|]. apply Forall_nil.
Qed.
Lemma prime_12275703273579557140363' : prime 0x299779aefdb7157b78b.
Proof.
  refine (check_ok 0x299779aefdb7157b78b 0x299779aefdb7157b78a 0 2 [0x2c8203ab1;0x239]%positive [
   {| s_r := 0x2c8203ab1; s_c := 0xef3a101eaa; s_list := [0xa59e8fe4c248dd652e;0x71359c4bf9c3609b02;0x1defc6890c700a3c24;0x1e0661426b6659aa98c;0xa86e0687fe7296a4a8;0x32da7e4fd945fedc263;0x26b4eed8465b63cb222;0xe0021ba04aca214dc9;0x3227fae6446e164149;0x245ced2866b7fd0b814;0x1a6e2e313fcb3c3813;0xb4eb7d6862cbee16ab;0xb612c1ec1c515147c;0x91f76653b1acc6da38;0x5f2ebac550be7c5d69;0xbcd9cfe6f1ec97c9eb;0x267476f879c73c121e2;0x1da47f1a6027843b8ce;0x20f86ee99cb19580854;0xed3aded06c39dde955;0x426e2373a34cf65b24c;0x575148d4f4b2870ea0;0x21a857df6f6e5bf185;0xb6cf80f856fbfb9522;0x1740d9548e9ce5c92b9;0x11f9f2b4e5a0a7964a4;0x10f0d2b5980ef438896;0x3dbf9ac0924108df7;0x1bca901019988264d2b;0x154fee452978878ea04;0x20a594f20a4fd2700c6;0x214f857563b0191dd48;0xe882ec20621a1ff7de;0x313d978243fb;0x0;0x0;0x0;0x0;0x0];
   s_u := 0xb8a3d17420fcec4c6d; s_v := 0x2f1cb20a1f5429231c |};
   {| s_r := 0x239; s_c := 0x12b66da2dd3a86bda; s_list := [0x87718ddf0b971a2e13;0x40199463018d805b54;0x20a9908128b5fcac8ea;0xaa5409a0f0a8d73ef2;0x4c5e60507f12ea2954;0xc9eb28a8495c9d463c;0x28466729466d6745;0x4800dbf436f6a9467ae;0x1781374d056f15bd11c;0x252001dd8d465737f;0x1917b6d7f014aadddb0;0x10bd44f74f1c89d684e;0xf43f8131444582bd7;0xb746329dd570f8825a;0x315a934870a13dadba6;0x7ebcbac0cc3096588a;0x1f0d2edc96de7a302f;0x1662e1d6fd06cd7fd4b;0x16f5a6d6f18e6ee0cdd;0x2ca81ccbd82551a9ee1;0x1bec5d42efaae5eed33;0xd0cb5b38c9fa731fe1;0xa913010f1a55d8cb2d;0x1f8721985620cc2cb;0x13e38e5d53162dd79a;0x10e62c42ea5f131089c;0xa4f50f1116575137cc;0x7828845db16ce77931;0xa7d88f17a0ba345c68;0x31b18ecaa157ba8bab;0x1073b80cb709d40d739;0x1cb974ef11a0a0311f;0x1bc7255b14c576a6b48;0x188f96cabd641ef5e25;0x973d3d132c0c19865;0x5e1a5b961f2f3f798f;0x1102c1edc39a541b4a0;0x2ad858203fec118fbb3;0x2392bd76208c8491765;0x773590db873bc0eaf0;0x64695662a9f545edef;0x59c14e99bf8ddec7e7;0x3ba338050223b63ce6;0x67e720a90f5644683f;0x8b7da49181254b5831;0x384fdd8ea32057a412;0x376a3fdf2a1dc4c0c3e;0x49e3b279098f01fb472;0x200ee4f3ca0ed5e1cc1;0x2e799aa2745d33404e1;0x39f06db8bb9e4344e09;0xad10b2210d41cab;0x20ea94ecc9f382b63c7;0x26e783ab6afbb1824da;0x5d158dd46a8bb1233e;0x92bf97569;0x532ef35dfb6c9af6f16;0x182551670b5bd6f6f15;0x1;0x0;0x0;0x0;0x0;0x0];
   s_u := 0x16d9a6e63ec393fdc8c; s_v := 0x125371dec492208ba95 |}]
   [0x299779aefdb7157b789;0x3541e38edcd06ede082;0x15384a1d31e5989447;0x3bfed532d6830ac2dcf;0xec602f6aee7b1d15d6;0xf92f72239884c0e3e8;0x13a813525bde7e5e4b5;0x1163d31d6e446fab0c6;0x784fb458abb87fafca;0x4be9ed7a7c5421f2bde;0x51324f895b0a834d786;0x67b53958726389645e;0x36011ee5fb225b231e0;0x4bed4623e7c41ae19ee;0x271c14967d5bd7e2a60;0x8cb8446c379ba8e08;0x28984a826ee3db0f040;0xb74463a6e184560d2a;0x1051a38cca1e845523e;0x3709d94be66be3a67;0xa2e682fa31245c6191;0x11c6119170df6cb874;0x46da127550c31d1cb74;0xaa8ef99343597ab77a;0x9e7cba5fdf3c256d3a;0x5e80156ff17a40c33;0x8c1941ee42aa1ecca7;0x3c1d1b32f53a32b756;0x247b3bdb76a997134f1;0x1bed5304750e9b5f8fc;0x16d0d2d50b39961fc57;0x1ddbd868812ac88dd59;0x4c9aaf88319d6b05f8d;0x13f03ef5d9b391f6247;0xebc8e525400f1a8e9d;0x53b2892f0a1b5115d8;0x2db9b34d6950f3fd960;0x42a8b7524b3a404513;0x423a4000ec4cd8448a;0x67cc4fc8499b003a01;0x11af35fa1790095bd85;0x2a449e80a194c6bac7b;0x59b57457598c82d0ee;0xe1b4bd52bada0b2f2;0xa6c68303f258795b0e;0x13adeaf18c958c8e15c;0xe7e3db582463d07a27;0x315fd5c7a18dfb96;0x735b00b4d8486135e7;0x49fecb0ef9ddb80e7d2;0x40350857724625c911;0x238ff92fb5b8499b3c4;0x20b3eb79627266df73;0x1a6ddaeab8a716c55f5;0x16420e92dbb34111e3b;0x11920e06ff50b2f8ab;0x2215b7a447ba56e4163;0x5678cac6b624b6e0bc;0x166de77aa52273234b3;0x1101420651b510d271f;0x7746dba6ca312f018;0x4f5f4e5ab15239b85b8;0x33e4b268d6381c7885d;0x29977506e610735d144;0x271213d8fd4c0e1c5a5;0x299779ad6db7157f3a6;0x1e03900a6815850b902;0x313;0x0;0x0;0x0;0x0;0x0] _ _).
  - vm_compute. reflexivity.
  - apply Forall_cons; [exact prime_11947489969'|]. apply Forall_cons; [exact prime_569'|]. apply Forall_nil.
Qed.
Lemma prime_340282366920938463463374607431768211507' : prime 0x100000000000000000000000000000033.
Proof.
  refine (check_ok 0x100000000000000000000000000000033 0x33 128 2 [0x299779aefdb7157b78b]%positive [
   {| s_r := 0x299779aefdb7157b78b; s_c := 0x627b2f0487f6d6; s_list := [0x18295fddb66145d823d24dc9c768f8d0;0xc4e1f924f6429f94b22e50bac93915c;0x1eb2f9ae5425a90923ee280afa662429f;0x9067c0410931c4d19ceb5059c86481a0;0xcca2c7f84fe0f692b3e18c3fadb4a00f;0x1e1df54b2f2ffd643a1c9402c41c2c;0x39900c5ae11408e4b8a4148e2ee1767a;0x20a6152157fe4a9d926d64ad5a8a7429;0x43473df200f0d093776bcd0eb0ebe5cf;0x2e2065696a36d505e76c1275bfde34eb;0x23c7b51fcfc0abc53243eee8b9f845c9;0x5fee5877e3ad478cc6dd4b8fa213f39a;0x51f1d374d629d95105107a2cfc1cf60d;0xaaa2706f1a9fad2db9622550ad93e379;0x61bc681bd03c0ca548d3c8dd7cce56b;0xe1bd976f261944c6854e69ff177fc68;0x80b1cfab43738c853682b59dafca8637;0xee1214ac5e781887a3408d0705f6781e;0xc5aac26369368c8449e1f84b23203d77;0x405a70e9e57ed0698e2930f3cfe70f37;0x25f825ce81dd07910eceda2e75c919ed;0x9e253429d1505bc456638911ba4dcdbf;0xf475bfa3b9bfaa209a83fa171311d3a7;0x153f8730d485ee1ffe7355bacc4f0e611;0xcc4b35f1c7f1457c2f7820dac5545a33;0x9a418a6ee9691fb85627fdb4826c5c14;0x14a106efb7bb0a0ba66d74ea90d7f2d97;0x1825b5f736dda367041b64746815f533;0xeaa916d0d70e108dc6ee098a30ab69b5;0x3ee438217804000930e345925355a6f2;0x1266ef5c09151509fcebe429d66511b6;0x17dcc572e46dafd906e691be10837d6c;0x491c8f9de0207b719a6524889187f228;0x3908bce810c4cbcdece12906e08af60;0x483c1143606bd731ac78456c1fa14210;0x13d00fd8423b8afbff9a8c3cf9a2982a6;0xccdad55224471f33cb3d1e793bcfb421;0x232fc2d9a85529d86870b860c4c0ea3;0x80f5d9ffa583511e2d640fc86239e2;0x5c932742c3138e733f9efa423ef63a49;0x8174bbce9db091db3bdeee696d35e780;0xe29b8dd81372f04c750f8fc53651f9d;0x514c0092b35ce30dc81e0741b47f5bb;0x8cde690d8348f91b7c79d1;0x0;0x1ffffffffffffffffffffffffefcea866;0x1fffffffffffff3400000000000145265;0xfffffffffffffffff;0x0;0x0;0x0;0x0;0x0;0x0];
   s_u := 0x2b7b1ef1959ff3e5c9a5e3ec126f15c6; s_v := 0x1e40199aea641d891329dec54f9bae8b |}]
   [0x100000000000000000000000000000031;0xec0dfff4be8400a8ac83a349c4ade530;0xb535e4f03771cf88952e6cacc5b18161;0x30c1f950f9833043097143ae7ae11301;0x4a40522cc12f600edd0dfbeddb13da93;0x1cc45d18e9a3a3e72895c6e9093698a5b;0x897011de2083a0b9e0c782820be636fc;0x2438e53655bf7733484976acf7eeec51;0x2a2d209edcbee745ee5073260e293fab;0x2aaccefe538323b15cda27efe4f8f47e;0xaf1c16a89e98c99390119b1d0c6619d2;0x479701184147cdcef15348f6fe810ea;0x93228a2ea54ed772c910c2583a1c3dc8;0x369f85d19eb9eac993409bc7598d6bae;0x1e6dca0b68ebaf38f148f5d10fc6d7b;0xc99776600b57ec64ac976cc2c0e964f2;0xf3f1f2711ff88c0b934ae27ef62ff69;0x540a5558780af09b478b693ac04a2cff;0x94fb9c721ea2d621415f31c6060e097b;0x3ab73adbb54df12a0cefefa653d31040;0xd5000b169e1b45172a875acb2ce73eaa;0xcc6bb370aa3f68fdbfdb036269f7f3f0;0x149d5a5334761de910451314bab246fd;0xf0c7673a6a3b2242b51ac3aee40a627e;0xa0e19c429096e91544a737c02bdd405e;0xf325e1e1af493ba6586736792176fdf9;0x948073a9bf3290598122ec2f4d50;0x11a2513a7860e0e914e020b769e315d7;0xecd9d0b3cb06fcb11c975ca5af1286b8;0x427562a6701d71994a470c5ef3d5a84a;0x40abedb741b331e523e448e339b783f3;0xe8ee1edb20c854eaa53eabaa74dba8ed;0x4c46aaf3fb50f8dc955756b70f24a56;0x8db49827c863af8428a4223bb9289b33;0x52cb130d2100a10277ad18a707bd5fc1;0x1f2910a96329cbe8b1d00c6b57ee2461;0x577f41195493c8040f5c976045d3b712;0xe0e81ae53fb8d9c1ba41740cdf1fb14e;0xfe6524f5ac12ca6943c2b88e67975429;0xf3d5d0912ff840f3d9886bcb63f3cd63;0x27bd599fe2b83d5b467ae90908429919;0xce109b2e9cb28b93cfc327c27f0cd4cc;0x125c1205e27e5ff05371181efff3f519;0x3eaf4caf0bb4e29b0ee974c50506cfee;0xc8c811d4bdd81d21f26ff6f1061d49d0;0x2c5b6819ee2553675deec5e87f282347;0xcfe700eeef579cd423189a80521b6b2c;0x2d025e0e55fc3da88e6b7bf96ae3742d;0x14e39a864bf7a5e2e19462068ca9718;0x30a012a9be10003c200ca66790ec6895;0x3d694375a364d2ff3d155a3f163173c;0x12e10037b6fc8aaf1e96b138b086176;0xd080d8e44641d3482c39542d22d66479;0xcbe439b8ed850fa9eaa36b7da8895da0;0x583370522b183c941795e6a81c6c71ba;0x9aa6c76f5bd2c7d1b38721dac1edab35;0x4bb3d9aac22ebd155a5da6c6f8a780cf;0xbfc299a7d80b9817dbba8a00173e225;0xf80ba0f07b4524f496c9e9dc4cd7f6b;0x14a80fc7cf92a8a40abdfb288e45c78c;0xf7f1575c2cd453cf4088ddec4b91d5b;0xb356351d8bff8dfe91dde9d4424a6358;0x179d00150bcdecffc966d53ff386bc17;0x1278e5515bf67bf408936c9668df281;0x11778e9ff0f5db5d4800fed75912b1b6;0x7db18de3f065299ee826cb9f19db7818;0x8975f57a3187fa93c895627019af84f3;0xaec07b4484afaa09fee47201233b29db;0xab7f9743a98b43abd29c7945ac38;0xe37321cf92e1c78c1c532ef3f7cedcd9;0x19f4d6a941cfd7f005073c309d5f18c5;0x9d73734bcd998029c4f8760ea47c3776;0xf9f56a73e894ad41fc13d47abf65d08;0x6e2384db888ec3561a9c43383fda01f;0x5c56bab9870d81c7a04a2a75a8842c1b;0x1c989c5d6bfe13e2580fd48c84822f66;0x4848ebff6188b2c94a260736962b3c4;0x25e097e8a9f8561932f2f9d63cd0fbbd;0x44686b9422616d3da23c48103904111f;0x3627b3c23089f98379c3b1a35a36b66;0x5195d297d12d6b3890162b3d36583499;0xfac37099acebae744175b530228684a6;0x609d58dbc298fb9e1e030b32039ca13;0xcf4fb7fe2db8af30dbbaf6f224e3e21c;0xac0d5e18cc52aa4eba59bd263e830b7;0x4a418962d700ee7699c388159740ebe5;0xccc139231b776ce618d704a02cdf434d;0xe8b535788cf0bbf64ef2e6ad2953cc1b;0x150d54d9a1edf801e8816f895b262a81;0x7ae80e62550e9ce762f31f4847157832;0x5f01005fad9e72fb9796d5db58b2b1ad;0xa7d68ab6bb23214c1ef6e2f85506698;0x2932791d53b0e4f62143c0b78e5c377;0xe8a4591acb6cc7370857bf37a51382b;0xcf96f793900c5ff93ee7389986be805f;0xbb53f186f61adb5a435ed029d8e712ca;0xa7d7173140aeb17a8fb35466fdef14b;0x75b5e63df58b1a575bf4fdc7c372f9f5;0xae708926753d60957c7ee457d84af213;0xc221a8988c867f34cc0f6701fad76ca5;0x40896687f281d6f5d18fbd3d7d3d6795;0x80387509fbde0820f94e869c756f265e;0x8724a70d15a156c12c23ba3c4a068f14;0x35cd23292a2c0080fc7016244cb661dd;0xc7eead882c4d42b62a36184b99f7d2b7;0xab89d940f126fd4b1d0c465aaf902b33;0xcdffdb979ad50010fcf01c3ce3bb82d;0x5d5ca5a827f0b2a651517c386adc939;0x2ecdcc5ca9265becb0a406243e138616;0x4909573c71392b52184d950807908a7e;0xb26400fdbf045fb4b61b671d9cba3951;0xa031338a7e2a3295e1a2a460c84b2548;0x43596a524d459d0e4c1ecb9aa60b0cb0;0x6b0e6316aa8c6de345d478a21bc9e1d1;0x46148da95ee65c3a8caec38b1a61eb1;0x51b9ce18f116bb37fd148dfa295217db;0x2dcf865f9c317e;0x0;0x0;0x0;0xffffffffffffffffffffffffffffffcd;0x0;0x0;0x0;0x0;0x0;0x0;0x0] _ _).
  - vm_compute. reflexivity.
  - apply Forall_cons; [exact prime_12275703273579557140363'|]. apply Forall_nil.
Qed.
Lemma modulus_16 : prime (2 ^ 128 + 51). Proof. exact prime_340282366920938463463374607431768211507'. Qed.
Lemma prime_25943' : prime 25943. Proof. now apply (trial_prime 25943 82). Qed.
Lemma prime_1452809' : prime 0x162b09.
Proof.
  refine (check_ok 0x162b09 0x62b09 20 2 [0x6557]%positive [
   {| s_r := 0x6557; s_c := 0x38; s_list := [0xd2459;0xb8;0x0;0x0;0x0];
   s_u := 0x55ddd; s_v := 0x2eefd |}]
   [0x0;0x162b07;0x739;0x2ac4a7;0x2a542;0x5f9d;0x28f51;0x53ec;0x2732e1;0x20dac4;0x1b42b;0x116b4;0xc68;0x62df1;0x11371c;0x11713f;0x2;0x0;0x0;0x0] _ _).
  - vm_compute. reflexivity.
  - apply Forall_cons; [exact prime_25943'|]. apply Forall_nil.
Qed.
Lemma prime_28957388989' : prime 0x6bdfeb0bd.
Proof.
  refine (check_ok 0x6bdfeb0bd 0x6bdfeb0bc 0 2 [0x162b09]%positive [
   {| s_r := 0x162b09; s_c := 0x4ddc; s_list := [0x114cb90ce;0x2b80140b;0x319b0df5d;0x9ed960e9e;0xcdadd7d3;0x13f77f6df;0x2a7b4d859;0x4b10018cb;0x34549fc6b;0x9;0x0;0x0;0x0;0x0];
   s_u := 0x1b377eea2; s_v := 0x18fd2616d |}]
   [0x6bdfeb0bb;0x124a18ca1;0x880ed1553;0xc87e60bff;0x62c14f1cd;0x40014cfdb;0x64b5cb6fd;0x4acaf08c8;0x295a16ee1;0x354b2f872;0x57eea3d5d;0x2425d2cec;0x289855de3;0x84002ea90;0x53822b30d;0x43e61d52b;0x5b13c575;0x27637eca0;0x6e03ed942;0x7d87a6e2c;0xb8db62d;0xd51e2a4be;0xa51f4a4ce;0x2cce760c9;0x138a9f28e;0xcd8f8f3b;0x7f8117a76;0xcb71cb2f1;0x2fdc8abe;0x4bf0a;0x0;0x0;0x0;0x0] _ _).
  - vm_compute. reflexivity.
  - apply Forall_cons; [exact prime_1452809'|]. apply Forall_nil.
Qed.
Lemma prime_6228386882866033' : prime 0x1620af53ad4b71.
Proof.
  refine (check_ok 0x1620af53ad4b71 0x1620af53ad4b70 0 2 [0x6bdfeb0bd]%positive [
   {| s_r := 0x6bdfeb0bd; s_c := 0x34830; s_list := [0xfa12ba905ccfc;0xb9c8327261b24;0x5f3bd377b798c;0x13bbc225dc6e79;0x1c08e4b16b0137;0x1bb39a58b4e032;0xbe4e805f873ae;0x7933373800982;0x3b9f5771439c2;0x117f49560556ac;0xd9684ef4386fc;0x17237123af0ecf;0x0;0x0;0x0;0x0;0x0];
   s_u := 0x115a9c3c7f78d4; s_v := 0x9dc717bcfdceb |}]
   [0x0;0x1620af53ad4b6f;0x15408345a5874;0x48106197436fa;0x99013595cae60;0x458a7636db904;0x1e3732d5405591;0xa71f6af45b3b;0x11f98b9c60872;0x2519bcc544d667;0xf422bc30fdf40;0x5bfa2b67f53b;0x460aa40fb1f47;0x968259ee361ce;0x43aa705c92b92;0x9338dda3634;0xd9f2838128e05;0x84525ee500e;0x2ad745a0bcec40;0xb3e7f4a2c47d;0x5e5482c2ea1d9;0xe899c25872701;0xa197c4fd84a36;0x43dd38b95eb80;0x3c0739a40dba;0x1f2375453d4def;0x15e057c3a38f6d;0x15ebc6f9910b1;0x4e996bd9fe3b;0x1c70f65678d17;0x16a28c913055e2;0x8a9b95c400ac0;0x27c1e058034760;0x17354ff31f802c;0x133fb0dac783fa;0x173d7c39bd33ad;0x14f8bc1ce39a7;0x51ba2961dcefb;0x1a80dc91ea9b8;0x1528d777ff3de4;0x3e10a2acf00fe;0x8dca0d52263e;0xb9ebefe54d6b5;0xbfbab4a33b18a;0x1a739fa57209d;0xc619242f5ecfd;0xb91b891d7;0x0;0x0;0x0;0x0;0x0] _ _).
  - vm_compute. reflexivity.
  - apply Forall_cons; [exact prime_28957388989'|]. apply Forall_nil.
Qed.
Lemma prime_15434391139597596128377' : prime 0x344b334868e17367479.
Proof.
  refine (check_ok 0x344b334868e17367479 0x344b334868e17367478 0 2 [0x1620af53ad4b71]%positive [
   {| s_r := 0x1620af53ad4b71; s_c := 0x25cff8; s_list := [0x1c976c58dd946055167;0x27d275d65a5afb51a9;0x1aab5f5a47981b3fb;0x5bb8f44bd1080a086be;0x7ee503f6a3dbf0bb;0x4b88809d76ff72f188;0xb42ccb77e0f6dc518;0x16a32536a7b4e218aba;0x85e1adb1d3e6f70445;0xe6c5a18aded9fde93;0x28b3632846f500596;0x1422e6765c581da7a4;0x29faf8d6a6e9e75d8cd;0x260ed87d;0x14f6cd8f2c893bfa3c8;0x2;0x0;0x0;0x0;0x0;0x0];
   s_u := 0x312b85ea41a36e90901; s_v := 0x2012ec74aaa39ea5d47 |}]
   [0x0;0x344b334868e17367477;0xebd83f403e9adab601;0x75ec1fa01f4d6d5b01;0xb229cb17db2647930c;0x13a6c29943040800fa;0xc4d702eb2b84d80157;0xdb04bb3b83001b9c51;0x1583e7b82307a20bf05;0x2f4dd90b1904e3cd210;0x200c06591e9d9eb5bc;0x1b83ac6de5534e272c1;0x4bcd988b71c0d95854f;0x54e87168dcd7674e38;0x5f61e904f52401dcd45;0x1088735584cf6a3d3aa;0xf3521d828d70585e9;0xf9d3d53f11dc18da7;0x142a3ba9555f840925a;0x25a587ec16e6bfa6d2;0x1f1da7acd875c94a93;0xcfef9d099e3b5f5834;0x3ca73c54dddc2a6cbd;0x193c9b2ea2ea61fd46;0x1051bd8da508805ae7;0x35ba1e24842bc0dee00;0xb591156b1be4a64621;0x27a9cf34e28081d30c;0x3fdbb982e2fed61e3ee;0xc576ca3e50200fd069;0xa7ceb2c6d30dd81f0;0x310955c3c67b5b22e63;0x2a60ebddc8707da7be;0x251a44c51f3b62ed957;0x313cf099fe31447c2f0;0x3fb52f31d179946d2a;0xc5cfb9f74080374fd2;0x3e8c6b86527afd4cac;0x8d4286b946708c6478;0x66ed4224fd3a3f61c85;0x71601df6de878743b4;0x6cab5a77b6103a3a;0x94fc4cee4f37ca9ec6;0x6c64e7c20d789941cc;0x1081bd117f62484d07;0x11306137fe1f5a3e643;0x1e6854ca087e1e670f9;0x32871ea8285860d89a;0x99cdb472ff19f21ce8;0x57d6ae429989cff4d;0x2314d3565613a84d7a3;0x14071cf4905c7e6a04b;0xaa315a865e83f8b59b;0x7ebcf86e269c1458d8;0x2e58b01e3dcfd01093a;0x2d884dc05052e850a8f;0x47f1169b7e6585fb6d9;0x50c5eb39fd4671aabf;0x3a462439183bc070;0x1943e658296e4984311;0x53970c2eebdfb71b278;0x3a900e293eecb09a149;0x2dbdaad63a0151cca91;0x7277f3448480cb4338;0x32edd25d97e629a402e;0x9546b7cd04c455ea8b;0x18cf84d563d6d11f5b7;0x4e53a669;0x0;0x0;0x0;0x0;0x0] _ _).
  - vm_compute. reflexivity.
  - apply Forall_cons; [exact prime_6228386882866033'|]. apply Forall_nil.
Qed.
Lemma prime_909288538628219561960108944043' : prime 0xb7a11d9b1d8215095e40b6aab.
Proof.
  refine (check_ok 0xb7a11d9b1d8215095e40b6aab 0xb7a11d9b1d8215095e40b6aaa 0 2 [0x344b334868e17367479]%positive [
   {| s_r := 0x344b334868e17367479; s_c := 0x382f17a; s_list := [0x1d1d4090eee97c89c6e79904d;0x2b2e841927efa0c21637a1ee4;0x340647184f06896e5776c29c3;0x9fb1595c88a164717b179c8b;0x2b1243377065c467eeef04ab5;0x97fc23b67725ccdd1e9e34145;0x138c7723eeacadf582b3667fa4;0x3795303bd864404e2bd59ef28;0x4dbd5800fc93960ac58188534;0x44e5e0d6bef3cb80c25cc4dd7;0x547bcf034a7a6f710acf6eff;0x33894a88b07c1e448ab965a26;0x5662855ca8e78bb1dd1994dc8;0x1c32ac94e2b9c1e3683c4ef55;0x284c5527f8764303644243aeb;0xf792531ee5e42f5094d22277;0xb7a11d9b1b3f45095e427ec7f;0x15a8f14edc0686212bc816d555;0xeeee7f0f737bc90e58a37feb;0x164e;0x0;0x0;0x0;0x0;0x0];
   s_u := 0x646a518e210d9452ce3d1878a; s_v := 0x50bc233c7b84f7cfc53ee11bd |}]
   [0xb7a11d9b1d8215095e40b6aa9;0xda870a263a12345fe925d262;0x83438aab48b74b4aeda6865c7;0x9424bdd008d3936d4ef9d87ef;0xaf1d76f3abf38223a73baecd5;0x11eab7de9d449e8e1e6c39a972;0x52c62cdf116745b48a5a9fad3;0x3b6f3c07c543e258013186744;0x966c0b03d22ceae8471eacda2;0x3113fe4d84cb31529ec55606e;0x2c252d4bd72baf8bf6cb4bbb0;0xa447ec0f682985794a4b8977;0x1faa8ae753fa56ebe126ef25a;0x5877d7e369cf1b0154978517a;0x660c15e8c0b67f4e115c969c3;0x5f83e3eba5d7fdcc6e486ec6;0xbf6faea20b3d1bf20e063dbb;0x38a557485465b3d3feebe;0x5c92f62aa65c7930e5ac57db0;0xae9556b4e1cefa656b8739793;0x1cac393354fb3bf7ec34e443b;0xa99bc5ec4d35d728ab74a9dda;0x9a2fd4fd4d7600004e1a98680;0x9b3ee6cd36e2710d9bb74c771;0x609db2e7e49f2eaf72b53f72e;0xa499083f45b20d622e74ad3;0x3f2451fea7eca8f9c34135fa9;0x13b841737353f3436dfba091;0x2389fd1db317890f8cf34269;0x3b5d5393e0f6d7e30f9d1a644;0x1e23dd4068a39f958453df7b;0x18586c700742dcc574634a72d;0x15f86cfd51118f7bdb39c7d76d;0x1b05f58670fb15e21e50263b4;0x4bd373ec176787d23e71a3857;0x6805f0a46cb4344e9a2772b2;0x28b4357e8210436a8f06e89e0;0xff4593ed43c2bfb7de29dc3;0x623c9a2a238b8d6321b6f5eda;0x889316bacd7823238861ea;0x93e0d756e1e4c012e1112d83a;0x465e38aaad5bd45cf6980618e;0x6cc2cc94d1eb38385e3c5920;0x2d04a5ead9af9e692c61311a;0xa47368d8f054ad7e9a894a9eb;0x809c01db0b16efb16515a26c5;0x3cd00f84807e18c4ad0519f18;0x23fc9e767667e2e6f94df8725;0x6aacbedd9bb98fb4c9fae8db6;0x21c7c790e788840cfb73fb0d6;0xe76d167924b2c407dc29412;0x9930c4e9128f4a5084ecce0e;0x1632e5007e16429e090ab9f52;0x569ac1b5963da8c6dae13d8e;0x501173d578e4e903aa6993797;0xa221a468f56ff52464324cebb;0x24b3ea3cb2e4f528d52b4eee8;0x3620e466c163ae16664da0d8;0x7347c9e098fcdb6a93c456beb;0x94f46e38668ac50d768a63284;0x156523826a74bf862abea17101;0x6aff32cc0f9e8f64022e1b23f;0x2ca8c016f1b3273bcda2880a;0x33026aa0ae5e32e14499a2466;0x17c2f7d5b44b8ac7b3b9d6ead;0x78de01c31add3b211c921e491;0x6a0d6c6b95682c45cf8b65683;0x2e02fb8710362db778612590a;0xf0feccb85a2e15beecc2f4c8;0x1332432e960b113afc27a231cb;0x77f5d1c5c0fe5403eae59ed8d;0x12bfb7654a38d46771f7a0003;0x13d44db293200092251aa71d5b;0x48fabcee9b6e97ee04742f1;0x84f69d7e35d3520709473831b;0x1a4b0f4779b8dd977d7a37a3f;0x934cf52907ac1e740c12c76ca;0x1b6168e0c7db7d2a3113eba3;0x82f73e86d840a205b9647e46f;0x5693e6f5ee03cda52a391dc0a;0xf8b3743e17508478c9ac186db;0x11d60b94c8abeb8d51d28ef70;0x5ea02eb7838626daf7e05e81d;0x4ae224ba68d614ef5edff1e73;0x11e2b5ec4a6f4514ba7007b252;0xa7543380b2cee5d78559f33;0x8b6b929f89f3c546d6ee69a3c;0x12e9db47e280ae18ed6f28;0x8c975aaac29793c0287c9275;0x16f32a6ff47551fd4528beea0f;0x1da64b8ba812d5fd1ef29e562;0x16f423b363af9aa12bc816d689;0xb2724807dffffffffffff;0x0;0x0;0x0;0x0;0x0;0x0] _ _).
  - vm_compute. reflexivity.
  - apply Forall_cons; [exact prime_15434391139597596128377'|]. apply Forall_nil.
Qed.
Lemma prime_87112285931760246646623899502532662132821' : prime 0x10000000000000000000000000000000055.
Proof.
  refine (check_ok 0x10000000000000000000000000000000055 0x55 136 2 [0xb7a11d9b1d8215095e40b6aab]%positive [
   {| s_r := 0xb7a11d9b1d8215095e40b6aab; s_c := 0x164e4900fc; s_list := [0x29f5c8cfee0ac3ef185976e8202d98a17a;0x27c13a8ae94670e863130de042fb8b308d;0xcc20208a45f8510fedd9be5245f985331;0x4ae45e2959d159908c3a4f5783f1ded5af;0x2018c1d110545d3afd6b0f97b81b72bdf8;0xfb7a3ca9e8780f2e7da21548c3b594b9aa;0x145a6b41e9cfa853252a899f1162c569c0e;0x92d21efafd8e4d32cfebb27332d0a2088e;0x290d18b8dd54de54fd54ce99e036edf80;0x6ad2c9af17f16e86f5130bf1cb5da998f9;0xeb90b7b419b8cef881ad7f47caac617d73;0xa31361b524c0221a36c0ac9acc914fc514;0x5798f0bba6455fb1d6712f231f18937625;0xd5c5da20b714e92997d029354d6a05a12f;0x551cd115820d517c617133f01ce06982cd;0xfecd25d7aafd073caf4d58806f8b7d7e0;0x58470d491255043d7986eaa9c3ae37544;0xf49d40ca6b2f133cfa600c201b4da9282b;0xbb8e982beba7e125728a5074357f394f;0xd80e0eada79aab027e6c3d4f70bd5ade0c;0x4bd15c2916543e139c31d6f0ae3faeaff1;0xd6d91ef7224be40c343d978a21865567c2;0x117e1b4573afbdf51899a24adc05b3a76;0x357fc6c4598cbfadd5d2cd1b2e1285e2bc;0x18beb19bb2e6a6cb3c3ff74994f0d687fc;0x91cc121e2e87828519c2ec1cb3f398b8;0x1fffffffffffffffff7bc3f89d8000000aa;0x6390961ffffffff;0xfffffffffffffffffffffd580000000055;0x3ffffffffff;0x0;0x0;0x0;0x0;0x0;0x0];
   s_u := 0xeb3e4902f01f1f0c3d0d1e84c22de0ee5a; s_v := 0xa791bbd48c4f127b9b966a7d50c4559bad |}]
   [0x10000000000000000000000000000000053;0x80ce45e160cc4afbc22a6560e6cc9a0c3c;0x175fdb6f60cfd31607c4bbb85b103f4b542;0x874057e423e77f6ed7cf161fa38141d69;0x317bdf525bdd284460332fa545aa485f82;0x75258c2d12d3d3be3854265ec607ab7202;0xcdba10cec27410832a954832e84e65a;0x9e05ac1e4a7eb9fb651bad88c35187b213;0x38563a54e68b7d76cbe23cd0cd5c84b2ab;0xb4c8127c52e7b1504d908b39cef874d6b;0x6fb2288ef5178d57d6ae6dfbb9ddf7a0c6;0x22b4817c7f9a8e8cb1982851d444bc0762;0x4723abf35f8ca7a2ad5406081c2f184a;0xef86bf6a0cf4542f4efa83993d6c829fbb;0x273b287ebaf3bed8774019fe274bc3e755;0x14e4dcd94189825e1d89321be04f9d507f;0xc421094327840e45019ae7810562e5835;0x29722504d16ae73abee686c833e10773ed;0x53e5e5c9d9d61deaa642abd785c9cac2c1;0x15a6299c0837f35c1e381cc3b653a8fb97;0x5b71d8b7f5db43f548b07ab1768970adb8;0x7ea9248deaa77bf87c4fb1b0ca5e3495a3;0xff4e1c37ed5af215729e72b8944c42d314;0x54b7f276e411c4dc160c99c85f9ffd2376;0x52f588e94187d99774bdaea9b288f0093;0x27e9d303b2aad6768a679be69d515b89dc;0x407111ab1afe23d650f64e2c44a4313d2b;0xf865c0609ece3334fa0d469412035e611;0x9cfda44495277d2a3633e54b493a39bd8d;0x1d4f591fd76cb1bc6bc511df944bc33ed5;0x25daa6da6d7b757896b5b8b1318b4003c1;0xffb31d8976a45c5bcf57c8cbcd50a67322;0xc3ffcd4b3c8f7280fb15e3cd80ac8db703;0x49e2d20ec0437ccb74a2361b26ffa700e;0x142a828d8f31e675db1c91e3a54dbede;0xeb4ba2562e516be3a82b388c91eae26f3a;0xa8c5e433bd728c3ee473ab4040c746ead6;0xa3c680fef6365141301a84af7a13386286;0x96933cd36df99a30af6f1ab149746d40e;0xcd45f5ff8da05ae6c5fbc159e4b1a488c6;0x9eb8c9c5f35336c9b85b7d39b60ca8889d;0xdb44b571d99925fdbc7de0824ad82aef2;0x758274ce946d0576d2cf4355e9bb0196a0;0x6ff8c3c4c2a9ef290537e59902d374ba3;0x1edceeff25914437804e2037816a93d450;0x6ed83d5732bce06ffba572e3c6cbaf76c;0xe119846e6ec1e627d59cb7829f6621e97;0x1e0053ebdee50f10b287ac058b9ef15020;0x7a6e75d78e9e8c9f60d7cd4287657f6f2d;0xe7002cdab7e7ed8d5d00d658f950dc21e6;0x288b6d4096dda9fa6458dc606dad22e958;0x35bf913df299a32b5010742fddf36bd8f0;0x4b0250035c9e485136aef414cfe997f406;0x5762b2e8cb94fcf2105a03db2f53dbaa69;0x3836add1917e7c6b8ba4a619259ec07ccf;0x462a1b98aec33e81a233dbfcef022d19c;0x2f8b169ff84558c5ebc4b00c6361db9b5;0x83c34009a8db7fae180a43a44fc1099bb;0x1dd9d4083f08c3fc7a94e642329c5f290;0x285c9eef9f334c77d298a7b639d67e87ed;0xde4b7fb56c08bfc38d9a8f9e3c2923eedd;0x9c86d59bb3c221ac4233171df71736a41a;0xe53923ae123b0988bd48dd4d75161d6;0x1100063a19554be2e02e6eb46ec88be2eb;0x626c10da678d384aad5b62523e999a2680;0x856b003693b5783678921f88671e526725;0xdea7ca9ba17eee66d78e67cc6e831ac95;0x8b7b68cc9aae6ae8d622163ef13562f3d8;0x2a673afda28ea2e50133797ca38f038ade;0x6fcf1eaf8c4f8237214ec9999c0a7b55c;0x7a9969e45b08c6c992a0e69882dae6dcd9;0x519d401379103f6efad26e7018b5f0045;0x1b80240d5f2dd17ee89cc0794870efd547;0x41a14d2f99574e16d53516c8417e3ed50f;0x40b6c22537c834dd2636cf0f1b7a66bc1b;0x1701fc254d5dfc6c2203f5a09043eb9075;0x25b67acefe49cf6d2c8d3cbda46c752062;0xf87565ad4afb40cb6bb5674837d68a6dc6;0x79d670e554e65cc43eba7e49c6fa9da3;0x5cbdb74715b33598a4d5ce913ad51f3684;0x3a8538da30faa9713da88aa6880c38c07;0x32e7f92c716e213bf84e63919bd38a91a2;0x24e44822de8f11db06b2a206ac6fea57d4;0xc2eddfb9f24b6b3b797218b5b48cf86956;0x355f05489345f921881c16389785aed77;0x9517d47ed372f22ee6f3ab947f1ca7252b;0x68e96d13745e12d2c59f4f314da7715028;0x34450ea8544efaf74f9d1f6774bf809741;0x6ee7f8dbdad3c2dd58d88c71070fbda9e7;0xeda5cf4b071bb35f954daf1679c958fc1;0xe21fd9d3afc65148acca365e88ccd68e6a;0x5f853bccc8cce917a7888daeea31cddc7;0x69f0cb6eb44cc0c84c4bd0bf53751bf7d;0x47de0f35786e01f1e85d3b8225c04b0712;0x8f5460af41d810f0759ac884cb79f0826;0x22c23c511ea83e755793e3ec8e2ce82e22;0x19f6180411244cc6eacfd2db5f5a13e1a1;0xb6711de2aa46fdfb2986823e34bdacc4c6;0x750b23938d7a822efdbce7741216e8c0f7;0x2689e32e7e8327a46b5cbd3980e97cdf2d;0x567239bf1407ee8b537d7bbc829bab21c1;0xf5336d583581c238955ddf314f9085ef52;0x84e59238d6b03b3ea89ceccfa1227d359d;0x1119c7069ff0140ec09ba0a318deeb086;0x42ed81347a61df02a043e15c0dda17cae5;0x9f7a16e5c31ba5447ed8d54a1365b5acf9;0xf778403d122d4285941d0b0bbd1886036e;0x5a431c73f0ae4d1c62704aa15d26261f6e;0x461189ff7c93a1ad7a79530375f9943eb;0xd2095590f7dd74016f8c7871360b7cb60a;0x1e5423b412a9553f7fd0a1d755cbe96488;0xc6c5f9e7b7df32dbb8c1a8276e2553;0x4b9f4a539e0813025e41631339347a608f;0x213fdad9a5a3dbc00e86b9075728a2b6c2;0xad86b331c64799055501bc8a8dd89b36ad;0x23d103e8dad7963cf617e3c2a7df1aa68;0x770d91e5c2d186d530e36f15ad425c0039;0xa7cb468a53dfd34737d6683288d95fa4;0xfc82d8d9750878e74f53e02d07d66b7343;0x69596a6455b8cdc8f8b99278cc6a9f40e4;0x3944bbc040644cabf35b171e77eb75d39;0x1db475141bdd4e64feb5583885fd7270ba;0x1c1c96828c7198aedfc1a746f14153872e;0x7cb3340a70694b68ba4334055528bb85e;0xfffffffdcb7c912cae32ff94cc5c677f5f;0xffffc5affaa06b837c49cc92a29980c954;0xffed427dcfdce769000000000000000054;0xff561c3900000000000000000000000054;0xffffffffffffffffffffffffffffff;0x0;0x0;0x0;0x0;0x0;0x0;0x0] _ _).
  - vm_compute. reflexivity.
  - apply Forall_cons; [exact prime_909288538628219561960108944043'|]. apply Forall_nil.
Qed.
Lemma modulus_17 : prime (2 ^ 136 + 85). Proof. exact prime_87112285931760246646623899502532662132821'. Qed.
Lemma prime_27901' : prime 27901. Proof. now apply (trial_prime 27901 85). Qed.
Lemma prime_3' : prime 3. Proof. now apply (trial_prime 3 2). Qed.
Lemma prime_19' : prime 19. Proof. now apply (trial_prime 19 4). Qed.
Lemma prime_199' : prime 199. Proof. now apply (trial_prime 199 9). Qed.
Lemma prime_4513' : prime 4513. Proof. now apply (trial_prime 4513 35). Qed.
Lemma prime_135391' : prime 0x210df.
Proof.
  refine (check_ok 0x210df 0x10df 17 2 [0x11a1]%positive [
   {| s_r := 0x11a1; s_c := 0x1e; s_list := [0x1efa;0x0;0x0;0x0];
   s_u := 0x2724; s_v := 0x1a5d |}]
   [0x0;0x27d9f;0x273ed;0x214d5;0x1420c;0x138f;0x1d06e;0x41040;0x738b;0x3a4;0x0;0x4fd1;0xf7d5;0x0;0x0;0x0;0x0] _ _).
  - vm_compute. reflexivity.
  - apply Forall_cons; [exact prime_4513'|]. apply Forall_nil.
Qed.
Lemma prime_708638427801567409' : prime 0x9d596e5434dc0b1.
Proof.
  refine (check_ok 0x9d596e5434dc0b1 0x9d596e5434dc0b0 0 2 [0x210df;0xc7;0x13;0x3]%positive [
   {| s_r := 0x210df; s_c := 0x4c2a38fe550; s_list := [0x18dadb48d0f913a;0x15e8103e53bf46a;0x14c783d2629643;0x1b8fa7c453980be;0x70c12bedb260cb;0xd73b56e484d356;0x7704b923c810205;0xb2147d4b6a6a24;0x9eff5d02482ace9;0x388643a89c33b3f;0xc791a0291dc14dd;0x87941b2000135e2;0x4f3632db7c1449;0x2803b69435eecd5;0x3d466b75a64480;0xfe416ae0cc2a54;0x825ac46029fae;0x895fce229625644;0xdc0af54347fc810;0xda68fc9ce694990;0x7fdf7df3f291ad5;0x2154abad3ebc2ad;0x1404220bbaa9a81;0x756400a5d2cd86;0xc34f3fb47f6d812;0x120c982dc8a17c20;0x5786f032876283;0x191c0ade7b40a9;0x33cbdab5108544;0x10c5aa86d6eb6fc7;0x74e8830b89ada8b;0x4423c561b652a;0x85cb733f10d0914;0x1f1113bf;0x0;0x0;0x1a080;0x0;0x0;0x0;0x0;0x0];
   s_u := 0x14a878ad1cc2bc; s_v := 0xb4f9a7d07230b |};
   {| s_r := 0xc7; s_c := 0xca6b540a8e9d0; s_list := [0x43cf2a9df5da32f;0x5309c125305b081;0x6ed55fd8786362f;0x2796cca96cba828;0x98e56061a1ffc97;0x125a3088aa80e3;0x3965b7c551fa19d;0x26c75338b0f3d;0x20d0cfd59294979;0x3a61cf6a7427e;0x58ddbacee0998f6;0x87ec8e57bbf91;0x3a867b41bcbff0a;0xd4db1fd4483c59c;0x235d38f69d81183;0x45394282791a51;0x6cca88125c12ad7;0x1a220777f2edd30;0x1758c3174181e69;0xc0ca819b3bf3880;0x18b7614fb85f780;0x6ca09985167412f;0xf35deda9581bea;0x9197889edcf004;0x46373d354da34aa;0x2b6dae54675f2f;0x2a06e1429c63fa;0x4bd2c9f31ff7545;0xaae09519bfd8a1;0x53a08ea18091de2;0x5ff88e949e94e23;0x268122bd22f84dc;0x637977ed9afe9f;0x4475e2093a627c9;0x42b161628c18a22;0x371de0539912;0x6936641b98d2a48;0x9cddef44c86a113;0x24e7e3cfecf6076;0x13685c4e14649587;0x1d2d82a57f89f61;0x3ebd3fdaf16b1b1;0xb80013ab2dd2d50;0x27565b950d376;0x16e1;0x34100000000;0x0;0x0;0x0;0x0;0x0];
   s_u := 0x15b78e905cf2049; s_v := 0x4f4a023b567f70 |};
   {| s_r := 0x13; s_c := 0x8481347cce3290; s_list := [0x704307ac2e01809;0x1181175bfe96210;0x3320a8184e77211;0x2a94c42da14e7c5;0x287ced2a282a2e9;0x5f92ecd57d9f99;0x688c11b13b4c03;0x235331d2f41a296;0x122c342b3be2bf2;0x9d3eb0caccfd8e6;0x162cf8f32d90e04;0x21b79d5fe74e423;0x5896032b99ae34b;0xa7e5701d7a961d2;0x746597d0f4c0fb7;0x79c1af446b064a;0x1e71612e7abfd1b;0x12f6d98f35d5c64;0x95e5d91c8b99f6a;0xadd2a299aaf531;0x95dbf4b8b90dc5b;0x8735f76f67f106a;0x11fb859b87c2fb83;0xa97dfd644752965;0x713351861afeb7d;0x468f2b0cec2ae3d;0xf2ee379fcb33d6b;0x13433b9f442ee0b6;0x455883c50ee4d;0x10083808d1f1878b;0x8329e5b734eed5;0x48218f30f31d02b;0x650087487b3ee37;0x219eb48621d3e2e;0x5c851d000d3df62;0x1e140ae1261fbf4;0xa492821cf46acc9;0xa6bc6ca5120c06d;0x16e69c32693510c;0x1124b28951fb483;0x66013ae22d65dc;0xd6250e01cea613;0x2af9673b50bfb1d;0xdc235b6b785c48;0x18771a4adc30053;0x2a000f5e1ebc15;0x568f8787878789d;0x1149733f004eace;0x27565b950d3703;0x68;0x0;0x0;0x0;0x0;0x0];
   s_u := 0x1ddba89573ea373; s_v := 0x2d91c200f09b84 |};
   {| s_r := 0x3; s_c := 0x347324c6bc49590; s_list := [0x15b94523246770;0x15b94523246771;0x1ed4609add421f;0x309e6a6dcfdb034;0x10426216db102b18;0x1871cd306ad2a7;0x6def08e128041a;0x131fc22f06686f37;0x1317bcd8c6fb39;0xb10f215286abec;0xe59499dcfda7656;0x2df404f3dd7b2;0x17a9ba89c5e5ce3;0x3888bfa94eec247;0x3253117af5d1872;0xa00d1ff10842812;0x23e5d71278d7797;0x7e04cac39f8da74;0x397edbf0f45b654;0x9ed73ed762053a;0xbaf952a3480ec0;0x7eca64d4643c83a;0xd2e56e02b881586;0x216b42080f1b0ad;0x8a70839b12e1ccd;0xe7603ac79e864a7;0x5b4c6563697baa;0x1722174a9281484;0x3037286a0453c9c;0xac54a1043127390;0x391dd6dda7cca1e;0x8636f4bced6fd4f;0x4b2b2eb6b8bf708;0x7781e60ef322abe;0x33a35564d1909f1;0xcc8d1653db481c7;0x4ebf0876c589e71;0x23029ab35697e3a;0xff3b9fee3ea8d96;0x2a25f6342567b7e;0x275f4ba3f0820e8;0xc675ec721590609;0x1660646b1a74d29;0x72cdd5f1965660b;0x7bd277c737b9e8;0x523f988f9b498ee;0x1cc447627fc96e;0x161fc5229a4b7d0;0x0;0x0;0xb7084;0x1a0800000000;0x0;0x0;0x0;0x0;0x0];
   s_u := 0x3952683775895f0; s_v := 0x33ff48ab5631dbf |}]
   [0x0;0x9d596e5434dc0af;0xb9f0bd0eacf589;0x6e54f2bf719fce;0x72cbfd7bc91b121;0x43c5aa90f700265;0x184ed665ad1;0x13aac3bdb702761e;0x80bf7b5347d8149;0x2079304044d9da;0xd45a68922fb9e1;0x4171d1ede871cec;0x20b51ab136733f6;0x79739c28cc1a8dd;0xed9b16401688fd4;0x10c1a6a50838206e;0xba0afb5a222fdb;0x3b35d3be6edda5;0x715dd005005a6fd;0x882f756510623;0x4a4018d24c219f4;0x14b6cb2679ff829;0x1186297e36ea96da;0x38e4008dacdbbb9;0x4265fea7e038ba8;0x3f3302de39a2bc9;0x1341feeddf7400;0x36860e474d50bff;0x59116f46c3afc93;0x3aa491bbd7c4dfe;0xa64316c86ce627b;0x992fa0662681434;0x116dbe6496ec470;0x27c368de21014c0;0x33ce570362c6443;0x86e5fa765128a0c;0x2de5a89bc7f9734;0xdf181058b8d50e0;0x1576ea7637b65c;0x100e545ce97c9d9c;0x2675141e239499a;0x6d6f58f768f8b6;0x6567183320cf19e;0x8c9af0a3f974c42;0x16b9383ef5e593a;0x79c771b6661cae9;0x2d8a189ab97d59e;0x6f2c6c59d0d64b9;0x39b3e8ee1f1f21;0x825898d;0x1f1113bfec100;0x0;0x0;0x68200;0x0;0x0;0x0;0x0;0x0] _ _).
  - vm_compute. reflexivity.
  - apply Forall_cons; [exact prime_135391'|]. apply Forall_cons; [exact prime_199'|]. apply Forall_cons; [exact prime_19'|]. apply Forall_cons; [exact prime_3'|]. apply Forall_nil.
Qed.
Lemma prime_24093706545253291907' : prime 0x14e5e0a72f0539783.
Proof.
  refine (check_ok 0x14e5e0a72f0539783 0x14e5e0a72f0539782 0 2 [0x9d596e5434dc0b1]%positive [
   {| s_r := 0x9d596e5434dc0b1; s_c := 0x22; s_list := [0x0;0x0;0x0;0x0;0x0];
   s_u := 0x2b9cf63ad16f13c3; s_v := 0x8590b214 |}]
   [0x14e5e0a72f0539781;0x26059fa8b105d30;0xd59b62ea12fd590b;0xfd080cb7e068f32;0x3b94ca9e7622c328;0xa03a0ab802c7a09c;0x55dac63f9a172252;0x1866f4c9fb0bcc06e;0x6534e5c2dc83e8af;0xb07ed3dca2058a52;0xa1aa5797462ed562;0x1a1ff8cea5df2470;0xb043e0ac1303d56;0xc5936dbae9534e1;0x2cbfc39d7edccb68;0x151ac7a5c02a1fcda;0xfa198afaf94d5094;0x6c86c40ca962873;0x127d443b06f62950;0x1342255208c2688;0x1be5c3a3132f6526;0x57d74b70ce5afd9b;0x28b4b0d2928a9dd03;0x36347bbcb4e3c29c;0x62566a2bf86ccfb9;0x7714dd45d1405bbb;0x100d8b7dc33762d30;0x1297c254b258dc3;0x1cb7a388506ede341;0x2842ac72fac3817;0x6470ee19217e1573;0x5e2d90341a1f7e1c;0x2a1a254b70951d5;0xe3cb650bd814563;0x1f9b47f159a07907;0x3f91e65e2870d4;0x48c3102a29f3ee6f;0x1a9e9745de806ce30;0x201384252189be903;0x385751bd88cdc52f;0x6ee6a46c2c567f8e;0x10166c6c03185fd21;0xc0618bc8ccb00e14;0xda4728cc3ef4f11f;0x12541441d3914f64c;0x70de9fc11bee363;0x19a70e4071b50dd0;0xca491eb04b26497;0x1e0784f9a5f574dc;0x9a4495f75da6a8f6;0x20d9b3cb7f1f797e0;0x113afee9ec3cbaa26;0x63d2a7374e334bf;0x14164074b03058ed;0xcc094661b1fab8d2;0x404a5eb2f0539761;0x61;0x29cbc14e5e09daf06;0x61fff;0x0;0x0;0x0;0x0;0x0] _ _).
  - vm_compute. reflexivity.
  - apply Forall_cons; [exact prime_708638427801567409'|]. apply Forall_nil.
Qed.
Lemma prime_3792643741246704615907435080382374405779' : prime 0xb25449d6e692fb78dc200b25449d6e693.
Proof.
  refine (check_ok 0xb25449d6e692fb78dc200b25449d6e693 0xb25449d6e692fb78dc200b25449d6e692 0 2 [0x14e5e0a72f0539783;0x6cfd]%positive [
   {| s_r := 0x14e5e0a72f0539783; s_c := 0x88888888888888886; s_list := [0x3c244ff30afeb7f3ab754985820e09361;0x94e6358fdc3bdda4638abd797318f67f4;0x2d8a2e6970be468695cfa5a99f9f70415;0x211647db97dedf3d03fed3539d58bb33d;0xaf8cdc65d1570675cc72e5d7a312f791;0x915c980bd7a2b084af4f096b6c00803;0x368f446557385960a35612342185144b;0x5cf59420aaea7aacb1a6cc819d94fb4f5;0x29dbf657b8b264f55f82c4676cc02da6e;0x4320fb29c93752f9fc9a29df1e5f395e8;0x847784584f07e3f752899e4781f23e5e3;0x43713091e6274e4bb4c3fa783120da32a;0x944d4441aae4623a6e4073805b511830;0x8c0cb4be0d419773e1ca5742a1c17491;0x31261795b9886fd982ec04097e164fdad;0x710ee6a475ecf21902b2c874c75733cc8;0x52d6e8c6ae38c33d8fed7b372769f871e;0x56acfc341450343f43a285ecbcb4c4a;0x79e5e51ae866449fdcdeb9360af171c7c;0x104422d6661d1f078d6e1b35661e15eeab;0x6702c911dac3660976617bacf64654f12;0x78647030f341b2aa9bf12e07b5e4ce66;0xda892fb29f78211292244c0da5247c4d;0x240c3d3b730f8e3c5e61ce5d58e24a71;0xb00d2130d9b6f502575fd147bd92ef86b;0xa892dcfe70b71e7cc5bb8d5ebcbe1dcaf;0x12132865d6e326dee58d27b7b9c42ed4;0x2abd38490c74ec73e4bee0d1332e49c;0x225e64132fcc4bf542803f47657f7f19a;0x2a338442bd328428767e9c8b974b3e6a1;0x19696e0602417365fda89d3d620435a5;0x2abedce8c635c38d7ed7dfdb5ec4d6859;0x5b59b81b120a9609cb250ed97267d493f;0x7ea5a2135b1490755862876c7f883dc59;0x233e6084deb06b8f217f6321a56caaeb8;0x298d4d8a96e2c56631f1232b86f04a2f2;0x66b07c44bf226bc9bc2a80af4d38e1603;0xc7ca8639393f3d71741849ee7fa909ed;0x16f997345ad81e48d8babec1d1e3590e4;0x11bc2c11e552460dfe8e5056e1acb5ea;0x3d0f8ed33449c3c0571b48a7447ee81e;0x26f5b0452186616678fb9ee9792132c55;0x128e4ca0bca7fd0debbb8cec8ce4419a;0x2085271633bcabdfe817a4477ece7cc;0x88760bc22b6e79163f141b5f3e92286d5;0xad574a928fb1337ff4097a08b54e38d2;0xe6b7069556aa5017b9a67158fc1913bd;0xd8beaee3db506ae6d12ee9f04e04a2020;0x2ef28b018db942334a6a88972edcc9e51;0xa0187877d9d911bb79295bc39d70c0344;0x16e5fcdc57ab462e5c6ad10cacf8befa;0x128621a9d9dcdb3c412152bbd707ed67a;0xa16f3aac05f917e78a8cd5a1aae5dc691;0x11952495e2b353a158cfc254f15bc8990;0x644f422d300397211851fc26a8400df91;0x15eff94cb330e6ca07c1ccfb1cfc7d5d17;0x13495857d7007f86dc200b25449d6e692;0x7dd7c7022222222222222222222222222;0x145c200b25449d6e692fb78dc200b2544;0x14eb73497dbc6e100592a24eb73497dbc5;0x16;0x0;0x0;0x0;0x0;0x0;0x0];
   s_u := 0x491eb50052887c8eca617bb46ae13a054; s_v := 0x7301125f1388cfdeffc3485b2e8ffba5 |};
   {| s_r := 0x6cfd; s_c := 0x1a2df950aea29a1f6096a0ca7bae7a; s_list := [0x61b67e886cdbb3225245c7656af0ab1ec;0x142257e99b2f22f63da44ce146c6c24cf;0x654c126cca7856acc3bcdd4ba873c2cb2;0xbef5f7cc1c83e3ae11d829c35ee1f8351;0x2cc13d3517b43ff0f89c9f8b899ada57;0x5b1c708fd24ff39a7ec572550a1911552;0x11e19a10578655dde6f6ab380623c7bccd;0x4487dad59194d235e20f8199970508a0b;0x6896658ec7c55631116646a7028d96279;0x148ad223a3470249aca3e2ec19b0257b90;0x2aca846652f915a17a9892da2b2a0afbe;0x10378447ba6680c037b48bb8c02534bcc7;0x23b04aa85af06fc15f89840f2ea6c1983;0x472065f0143ff513e70f0f34b24514751;0x259230f4e16a34dfbdc1df13ec3609de;0x66f92bd89ab083008675156162f01b46a;0xe128c4b777051acae951d0c3658a5dba4;0x7e9f45baa895e6345d7a9faced73a725;0x40f1d2d0e9ffc7727e1baaceadc7604db;0x244a23010a4115b3c769d20bc08f2f82;0xaf3c15356ff9bd1de2b3cde1be7f86f4f;0xe661d95bc1c2205a811e2618a1f38c20e;0x122505ea3a1f2e04b9447ccd1fcc9aed16;0x467ef40cc94bc0aabb1ca1db87d0dc333;0x1c7f03242d60e91d4ab49682b5e180ccf;0x3208b4dd5fbd27a7c16097d167118f7c;0x5923f8d3fac8d2f1b9bfbb3b3be54e1ff;0xb2e9243fbbe1ca3363b8fbac000ac03b8;0x9452ba0482227b6c69a91b3ba286428;0x79c12691e6973db2ebf6a101ac423e7;0xeb68beada777432d97cac221345359f19;0x106b7cdcc43c5b18b0adf2697c38ebb27d;0x416a57a1a6df0872bdcf5ae3b73d07f72;0x395a37959a32c1c2b7effbcf079821111;0x20710540a632a6d6ad383c16e4a4b0dc;0x8569eb9942e33cba5b2d740bf72071713;0x13749f9ec7e3a3eb9b6f4ea07683c7b2;0x27e967cd632858c745204c41c6776c4;0x6422a4a0b4cf624987aa9107b91ce409f;0x1fd00ee1951bcf76963a836f4cb3ba56;0xc6268ed5c934a6b88e5b449e1665cbe;0x9710d7b6dc9e12dbc93269bb77851fb8;0x1858a5a203901a6cae918f7037bd7272c;0x78db16afb40d50e88091051723bfa679;0x158f832ef2ee3e3ec77c8c51042e54bd39;0x2f28ef4c2bcd195af3bf38b2cf544d578;0x11c2a14b86851539b18695c2b5d675815;0x1534a6d13ebad5d1595139c9f02472ac7;0x44fd0e24e079cd437ba323f672e22720d;0x4e7483f9e42942ce3982e18e098458f5;0x645f0216da94d1eac9b374ab3aff86616;0x6641b658bea6c20930b6cd3c5f7b7530e;0x5cb1a40e5f4c89bb38c701275c4c3f;0xea64dca3d7efc990493c08756ddae;0x90c35d18daaef0a8232a090cc49521c45;0x2ccd624748b5ff26f1a9bd48f4af87c20;0xf86ffe6c62538352ae69011ef70cfcf1a;0x12318c7e7c8a0eb01fe7862a49bbbf7bb8;0x9f21b2c5c9633b9fa3d4289b2c6be87;0xd7ff13af5b0c9987d90e14e59853e2a2b;0x10f4d20a5029c2f5f24eaecd915c9aaea7;0x919daa38fa71b86bea8aa0e1257fd3d36;0x7650db245b2b0d425da953ed4e1f14dd3;0x6023124ee9e65a95eeb179db3b879285;0xa5553cea08e3f5a5959bd8a6f28171c;0xd56258f1f020bf86d4a89588712ec987;0x1cb49aa22fd0ed73f86faff46e4666f8;0xa0b6a33e38de18ad00135ce462ae575f5;0xd8d26e1114dc52a450269d82c276735ac;0x6f6dbfd7267b6d2ff906b89dababab33;0x9a2072ca9bc56a1f3b98f3513d259ecff;0x72b34e9545d2b9abb895d7f0998479715;0x6b76d223fa2a66b427abc31694c92db;0x22f482433d7b3a08ea28fcba2c0ba4154;0x3da5b7b2b0324873c34245cf83c45c2f;0x7b597c6e74d3f76bc5fffc6696742a3a5;0x41373521860dc95ffd10e6095073c1def;0xe1be7ca0e10232d22b19484c50f127a90;0x7155996b02f8916d6c5ab01bcf0ff020;0x3a62edba880995075313f1d615811fa61;0x14efa0d5f29a3368af455b39a87f30a2e;0x1c1042d5da486e1dfd05aad2c2097a025;0x4c9e4fc79dab31c6e02dcaba0fed85836;0x8c4bbc7f60155ed22e71a2bf16fad5066;0x146ff5e17a232fc04501d16e27202d274;0xfc5c6f5f99121b050cfd9d83cc1c48d4;0x6cffb312c3c8052b537327913072839cf;0x2ba1d5fdf4efa60d1014fc9f273317f9e;0xa3f26b168e7f60546dd0dce2075412ea5;0x2c5fee76c881505819435983fc76fcaea;0xaebc192ec4e91cb8876e424f18bd51d92;0xba6ac9524dda6f9fbd0ec9d00b8013f0;0x15eaf1e3000a216f8dab72ae923cbd6c2b;0x1917d5c5a1094ce2588d3367070c1e0e1;0x717c66d228d53aa1f2afbb03b52e796e;0x6f95a2c3dcd2d274a41561eee4aa485a6;0x15cc47970cc8c3f5b2d4c7ee7bf99d9e;0x2c023ec6e3944dbd114cf00944920aa87;0x1a3ef7823f9f63248f72a648f0f083346;0xedf1b17466c76f8c04d0824ff81d388d;0xce7b0939b7ddf327cd9bb72870723640;0x341028131e0b1da814ae81d93f7844438;0xb82e49ebc402d41136ce004bd96ae6a0;0x74f7f673d7fb8c49826936ff86ff13;0x323ab19ec8dfe7c14e882a46c3c8c685;0x400b79c4f6988e1b2ad73fbd212f7c506;0x57164a893adcd25f6f1b840164a8983a6;0xb840164a893adcd25f6f1b840164a8875;0xb25449d6e692fb5edc200b25449d6f5bc;0x2defffffffffffffffff;0x0;0x0;0x0;0x0;0x0;0x0];
   s_u := 0x3ed77f8f843fef53f78ebd59cb80d9658; s_v := 0x5a6dd2caf3899d9362fa926f356b3305 |}]
   [0xb25449d6e692fb78dc200b25449d6e691;0x10adb7eca4e7cc6378aad2bcb563e9d350;0x2e5a6c45b5d0cac7fc79bfecc0eb4370;0xb904b27039aaa238431f951d61897d33;0x2fedc3a8b49eb0e6a1df716d51cd0a094;0x6a725fe51ef717efeda4515b5bac83b8f;0x6b60e77175c0b5c93fa935e402c4e605;0xc27117257092a23c82986642c97c7f69a;0xa78fcb71d5e67b6804b9030fdbe35bf4a;0xa2823e9fbbccec763aabd9f660359d1b0;0xadbbd5e6045241bc99a6fddf69fdaf1cf;0x3c74e6a27fc5efb14ec3c0ed90097c6;0x388ab08d73e8c1ed5cb9ea17474f75b3;0x15a689e0c08893bae28cf4b086bb85fc22;0x18f7b60e21675df8bb9c2e73c202a2026;0xd65af932534f7d3ac3f5da9701d107c27;0x38762d7b5b168cd692e0969bed0dae34b;0x244289d86b7185f2e696c0bd0024e7f8e;0x11a03163f781530ed3558880f6196fdda1;0x2219555862be61f8658d4aedf37971f65;0xf8bad334ec9aff3d74d3a18a9e27d745e;0xe21bc8868ef6b22139b7444088ecbe5;0xc243c6b5e4509e6859cea64a502d6abc8;0x59a6dc014c98f8bd10b50c8af24f20fd;0xf1fc6f83ef342962e84c8ed2d8090f479;0xdf6c628328f2cd5a2010dba6ebb1cc83;0x6962a3e7afe5b0d6667117c601afc3ce4;0x21be98806b9c1f6aff8d05b1e8b2f3d9;0x5868aa4d4038376b26d20f6fd7a288b14;0xa04e46072cbcb28b40e5b16ed15fbecff;0x126617717b56ceec5999310456a3bd3c39;0x93d29bf9bac5814a045578da4b8c85ff1;0x2ddf8ec2f4b358a1d5ff27d6188d780a5;0x595f61e86ceed24e600b38ea173d236d;0x53a3292077382ee3e8fcf14f639d08e2;0xa27456494ae7a000bcf67065dccdb686;0x157edb7bbfa148501aac56a134dfa07e20;0x8cb4e86dca3e70d2a2632737dfb9ce89;0xdb7a290354cdbf6d55a429dec7becee25;0x774636ae35a7e4308d098be4e7b54d602;0xa08ba8cd752372f447e8e50f7537fd15b;0xd414aaa20ff61e318310485c177b23913;0x3a2b2832cb7c6a126debd071c9d41cb14;0x7dddf040a5eea8f60a6036eba9c313394;0x6c468e11f302fc6a44661b6936a241fbe;0x139a1c9384210de01427b1b889c066a86c;0x4706d927ad7f3f43d3ca2a713c9c0ef5d;0x416c012543c476d4f1d790c5c2833910;0xce4ad25469fc6e4d835c534e5e0819d9;0xacf0d070faaf13a964f9b00db0e823585;0x832d1e0dd2e7085adbfb7f00ad5be250d;0x9e4bed00b1623f7e6c742073069f56a53;0x901aaafd8a89340c21034ba003d5cee2b;0xeef7fd789b3c06f1767369917ca4e9d2;0x27a4bbfabba2f8fd6c9ff9bdad2645ead;0x1c541b46c09cb05cfe7af66d152be017;0x96a3f422248b14f65da46f84e0512b14;0x278f4a449425b76f8eb034d6e7b5fd3e;0x221660ea50e9faa22b8822153cfec75bc;0x867c1809e250808e2688bd8207ad726c5;0x2fea347504329da156d844fce9af90460;0x91d8f91730aefa96181c3e21b55403bb;0x58810f50ef32d387a9985edfcd100d0fd;0x58d6eda96aa7879ac69200d9a265261b7;0xf437e43fd46590c4be804eabfa88853a0;0x1006c33d5fad5efdd8787f07efd69f7a8;0xb529d33c117336441c8ef8ed3ff88e7e7;0x836f65e363e916b35b7715143b834ace4;0x8b47255ee20eec69c25ad9746d73979f5;0xa46fd850b4eff6a80429b15b8d01502e1;0x5af1a03cfbd8534e76b6d8e9d1601615c;0x119757b0e0037621e7f7422144d0839a3f;0x11f69b29cf1566541d077783eb672fe188;0xb70206178a0818cda91105e0d4381ff79;0x43f832aceea4b267191d870d009306fbc;0x4e6637106d1568f8e867b421d768c0cc0;0xce517f4cc6bda766e9330c9768977082d;0x121d86723da5cb7cf44002c9c993c2d6e5;0xaa24e9ba3f96098f95ad5004ef0b35c;0x112a15ecdc4f17bfc75a6c9007256b60d8;0x5576cf59caa7ce3d6499e35ba9d29398e;0x637bddc0bc8fa37544305d3ee266866b7;0x1d437b074f84390829f09701e18da600b;0x4a8d4104cbdc4580ce47f237a3a94e89c;0xa7756a853973e0a87d0ee8e05797678a;0x3c2d5e8b65137767f637b145d4980b14a;0x8a662de0ead05b6fe755d09cb571e3f6;0x54a169fbfb91aca864f79cd23542525b8;0xf00556c7ec6f8ff5fec7fedb7bf48115d;0x952d91b7daaafe72bbaa2863445ec1614;0x28285d89059b541a961e366a0069e145d;0x418362584e5ed3a54de9ee54921085a9f;0x38c2f9302e2d2aec2f4106ee9e6374699;0x14752a4d4fd5b20cf8e205a8d612c0738e;0xe8b42201c22d0668daeced763be1c585;0xb265d65f3ef338fbabcaf25082c0dd7a;0x42ff735370ff2e227fae30821050ebc8;0x105ca23171d9efc6521e2b9d4e60177db0;0xff0231a9b2de7f3d7f73b51f3bfa52234;0x54a745fc1d02a056025ee4d4fb833a707;0x89f66794059d1c78796353b8e382a35;0x12c4e6665811b6610bd5bb2df5669c9b02;0x47ab187f69cc575813364ab3c4625530;0x8df5f32e8a1c09de26874ae81f59f9988;0x211bb67792b9e8c26942926fbf0310f4;0x2fbb32aae372d7b35428659ac8f7b595d;0x1384e230971c4691d403eaeb67f4c6ee1;0x12966bd9994ba72e5238cfe8ca3fe2;0x8de358545b08b51124c998f74ba80c840;0xa34b9248ace00981a04b9ba9ffa7e0ee;0x2319d967d2f6980bb5d108afc6313292;0xf17f26bf55970bf6c8fafff28a0e3820;0x147867de2ba58c3303d793a1f993e231;0x4fd8a0b6b3f56e9ddcbcec578a657189b;0xa501a80d73e4a9c6704e7b08f4b5b0b06;0x2f6595c196c1c18a055affe9482974179;0x17681f7c13046122a0695608e1dfd4cca;0xa533d6ac7ea73971aebf876345a35ba80;0x132b52299be36bd1fd153c77c999266da3;0x5d00803c9c8f279c5c885;0x0;0xb25449d6e692fb78dc200b2543e822c93;0x140514eff;0xb25449d6e692fb78dc200af1449d6e693;0x5bdfffffffff;0x0;0x0;0x0;0x0;0x0;0x0] _ _).
  - vm_compute. reflexivity.
  - apply Forall_cons; [exact prime_24093706545253291907'|]. apply Forall_cons; [exact prime_27901'|]. apply Forall_nil.
Qed.
Lemma prime_318582074264723187736224546752119450085437' : prime 0x3a83a83a83a83a83a83a83a83a83a83a83d.
Proof.
  refine (check_ok 0x3a83a83a83a83a83a83a83a83a83a83a83d 0x3a83a83a83a83a83a83a83a83a83a83a83c 0 2 [0xb25449d6e692fb78dc200b25449d6e693]%positive [
   {| s_r := 0xb25449d6e692fb78dc200b25449d6e693; s_c := 0x54; s_list := [0x0;0x0;0x0;0x0;0x0;0x0];
   s_u := 0x35d40fca387f31d3dfa8661b6cdf61b3d60; s_v := 0xeb7fc514b72c79fef280b |}]
   [0x3a83a83a83a83a83a83a83a83a83a83a83b;0x29f97a57ce75e3532a488e38f56a6437991;0x26e5c4ded6f2302581a165e489e71c9ebfb;0x30ea82b66ebe5e00d75b93abfb463e3e959;0x210fc46655ca7adfe3f25225e13847ce7c6;0x108324d87f039a5d03ffdcbffe77e0231;0xa60c7a97947884206561bd16d84c58d038;0x102db76cf331cdf0a945f500c051b788b39;0x147fab1c5ccf5b291285eb3e797723b872;0x138159c9cac7430a814012dfbff17724710;0xd437214de34be6ce9eecf2ce69771beaa8;0x1d984e6d1dce39bd9ef595432ea9f45133;0xad1ec475280618303fbad1f7d18f941f85;0x65704ee64691f1c7b13b845263bfd75907f;0xb2fcc3f79081b2072ba543447b5ba1cf62;0x733a5f47eebcc99cf46f73f78fa5c0c1282;0x44728541fdbf227fb1551d145ae4d68494a;0xb1e3f83dd8114561f642438b64d4958741;0x3f402f03ecdbb8185f8c5eaab2d77d2c48;0x48537e3f089584587332730893e46a3e39;0x389c41638fac52c71eceab00ddb7a1af73;0xc86e0f9587ed0c3c6ebc768cc1a1dc12cf;0x8507ca86453bf5d6be224f3b27c417f198;0x3df3ca4b48cb1ecc5861bdace5598e8e274;0x2ecfa57f84094664269ea1db547582a24ed;0x1871e16da2c09af64e672a2ece9d6c76947;0x1daebf2c07b2c7188ff5e47109cadecde4b;0x263cf70395c4ac95f02149f40861fd28eeb;0x38ded742b4109f793e9c0d8f9138fde060c;0x351d66a7ec5e8cf0410d8e3039bfaa989e;0x225cef001219bd653f2d4342c3006157580;0x410c863f87d95ca2bae5f64cb9dcbc0a;0x355d7812eab8000b8dc4331605b70caf55c;0x2532cba8335acd14de4663680f92ece8fab;0xd0b4f6b27c8ad1413fe299a8f22287a675;0x68c33e9bb04290a602f4318278cf48b9f2;0x2f4a648ec62a47d1b7f1ee56cf0456f8685;0xb6e610ab0758119843bd0ef5b610d2bf87;0x39d17d45a6d506151c6423401d855e9be3a;0x281f9c2f375842192e8f5091ae98cf5ae7;0x1ebaa0fc0248e0c29ef4254cacc5c528b57;0x134d507f0b5e5d48cede49736657fa806b2;0x2c7d4b0071809deae6f6e1dd3fd46de3840;0x237f147f0fe3829316acfab3e1c5f7ad1e5;0x89f4dc89ae729267d38fc0797e0d4cb430;0xc053f83619b41f45429dd2ad710d0bb101;0x27b44330ebc82b6603189854f4d54faef74;0x5ab0b46d8805ff2996e664c7d9c39f77000;0x58868fa03be12546484d52357a2590693f;0x4fb77d48442f27b30c589d064e733b691b1;0x108acd733843e74a39e806af1a74fa43519;0x6957c84e76bad9d63ff129efb0e5aa9c80d;0x2b9ba8747084cce967c661f864e65d5bf92;0x12e99d6169d143e3f4e95b8bb13c2c9692f;0x21315ec884cc82bc1838af068364a9a9003;0x7e3a61014885b1767be75326eabdf85f42;0x56245c432599e001c4cfbdf74bde50b11;0x2808075cc39624b7dd9cc07f15d97e9ba;0x4fe033401959daa5748ea8dadcb2e450fe;0xddde6cd71e2f512d51322f69cd321b8302;0x99e5a8ac75c292367210de850caad3c19e;0x4833c0bb082f8e56b9cc52d4aa57cc0defd;0xcd7170bd17fcd0d8bd4a6617292c42c958;0x28e43fb932fcacfe1e49ec098160af837dc;0x4e50faff2c20c5888dce7211835a0f161b;0x1b18442de1a08a0ed78d51c929fbee097b;0x63d7a289b4fb5cbc9993f878128ece3c76;0x22c704c32fb71132c44155a29e0a8c27366;0x3a0b10855201d5f50f95cee2d4aa31f9954;0xea81d93f0e3faac70dee91b75afd8e9b0c;0x8d6a7e025da3ffc70696d173571384bf13;0x10281fbb612309565a3d24e57a839ef8152;0xb42369e5dc5047f7a772a9a0337c6c8ff4;0x15f9b9a0e522ed6b4f0ec8e2c133599def2;0x2a76f21ea7147d878d08549541a81797d11;0x7883244e13c1edd489efdce82f5b60988;0x581ff73d588b23266cf7e8db7749ab59c31;0x30f1bd790fa2fa037002c9fe056eed78217;0xcdcc5c7ddcfc003bab5f4c8bf204983eaa;0x14b382373dd0b123a9ed072a478d9e7d134;0x1ffd409d3827ab8a0ffc52b3236acfe53b;0x1abaeebad386fe6c456d50f4bc3fb49716f;0x363d97f52407f504f245c3a3286e0185e7e;0x1fa410c2ac61a1abdf0f16db7b05da13f60;0x4cd489526cf39184deb2d68858cba2e9;0x3296d56f32f36a3d457f3830803de439b2;0xb1f77f7ddbf8a3cd21080fd5b841429087;0x392763db58df2804b9001b69cab31d97b5d;0x253b4a9560a17fbdb5a0c8483e7fac56702;0xf2983ec6c5370094cdb325daaee9af6312;0x2e177c156bef484d1ef78d0352387d990;0x77d657f3f984a56f1b2910567cfe76740a;0x315335bcf960ee7c95d23dbfc9cb69b438b;0x76ede153b291809b32aa353b1f16f96b4;0x14f1b66130f214d7c17b85880f486470b6d;0x6cb02b8bcad30f763bf6186afdf828f615c;0x11f84a8d108c35d3db7c41c21f6d2cc405;0xa865e30b277492980d7fbe622187931c4f;0x1ab459e2495b01ea7f615375c4dd49a9c02;0x1d50c0e3fea58605397bd36405a8c56f8df;0x38adaf31b6f91a85bfe94df7307dc603386;0x46e2a2e4b6d672c30c969f28fa3bccff2fb;0xeff81c42003da584318ab6202a56f23c5a;0x109ed2f4382ff1e469478615fa2db70fef1;0x10ef88ee56b17e6b6113119a498c0d9ff4;0xa56030fbb660ba0886743386fd09cac62c;0x198647ba104c2c2cd2393cc947fad609ab0;0x3fe703d9623d2804bb02c54356330376ef0;0x57195583e6980ac38f868ee9081aae4c6;0xd572c66cdaf300b6d3edd612749959b98e;0x6d347cc2fe4b5a40e0b2c1cb3f134af7b0;0x6fe3def777813217d95e5e0ccfef0ff65ac;0x139b6c014dc549fb6646509b2172bd2fcc7;0x1ef68726a2086a3916b7a806c07d3218b54;0xc6835e67cfef560533ac0c37b5e3771b76;0x2a9bfb743fd00805557e4c740da08936df8;0x202aded22db06afe0374fcac86ed5141adf;0x18d2085d8d0dd67f7b61b7bfed02926c4b;0x24caf0f7b06b0e6e8c103887956593dae8;0x26b61d8bdf1be817dd02e0b7af52b43d412;0x911b615c4d504abcd1b6061d45667b1a17;0x64deda0b81b735ecab3fc4cb51344ec4e4c;0x27b58d43a95748ae99cd01440cc2f4198c9;0x7b405bdecac8f66fe65631479d20555a3;0x1b86055a2bfadaa7a79f39bab0f9412946a;0x189a960a451ff1e0fcc20f3a14f6fa05ac;0x3a83a83a83721a1bd27193fff9537c41589;0xae33541125beb8bc47a85fff;0x3a83a83a83a83a83a839e2e3ca83a83a83d;0x3a83a83a83513a83a83aa3fed283a83a83c;0x117ffffffffffffffffffffff;0x0;0x0;0x0;0x0;0x0;0x0] _ _).
  - vm_compute. reflexivity.
  - apply Forall_cons; [exact prime_3792643741246704615907435080382374405779'|]. apply Forall_nil.
Qed.
Lemma prime_22300745198530623141535718272648361505980591' : prime 0x10000000000000000000000000000000000af.
Proof.
  refine (check_ok 0x10000000000000000000000000000000000af 0xaf 144 2 [0x3a83a83a83a83a83a83a83a83a83a83a83d]%positive [
   {| s_r := 0x3a83a83a83a83a83a83a83a83a83a83a83d; s_c := 0x46; s_list := [0x0;0x0;0x0;0x0;0x0;0x0];
   s_u := 0xb24304055c7b4f141ac90c101571ed3c50e5; s_v := 0x2c90c101571ed3c506 |}]
   [0x0;0x2cc38b43939dbeb1d14d729978c670354f;0x3285f8bf4d41bdbcd461a086a64eb709c54f;0x5e92b90d794a26056a38a634e8e9a607e11f;0x3332b979ee94555a5edd0fcca6382c4bbb6;0xd9aaaa88fa92f80772340dd0eed1cfa1133d;0x29d543f981bf9b5592742fad2af4f42a6787;0xa6f56825fd9752113b516bedd110da6222f7;0x2f7055d84d55c69d5cac7f644cb65d622149;0x2d28c3ac7fac2d6c5d3f3bd33a6add1a6ede;0x26868ec782efe5665a76f8c7616173318335;0xd9e22ba6ea3401c2d8e08b1d4f6650870789;0x339e74646632ccbd8e29d27c3742bd37c594;0xd4d7b7e9412d01a66b98f6a4e605962082c1;0xcd18e19cfa067f9efcd2dbafb14ca6733e;0x872a3e9f88a7a853767d3411573b75ad83f4;0xbfbf90186bc3a703f261acd6449150211ed1;0x3f91feb7ff40f8f8870953abf89e5a7b4655;0x4a94f82d3092d0b5a31936a3b60c6a856881;0x2bee5fe7bc16b7ab0b295dbdefcc5ef24e65;0x466a43e3d2482adb5fda43661b934065fb9;0x8b5b2c9a6c960dffdecaa12c6adec25a6535;0x4ca456c9553d1a716ff34abb363f0a005c07;0x619ef5137cda773b31b81ed7740571d978;0x2cc4ffeb37b7ff483528f516bcc66b74619;0x5d9786a2ccf567e16d5c3977cb97389adc2c;0x4342057de9193e38cfb338213e3350cf32d0;0xf0cfd09d82a4c6d09fb09067536fd71c1061;0x7ceab70aa9fd4e200dd7a8aaed5683829ba;0x5581a07744bbde460e874bf94ed86a689312;0x952b961cddfce9ca25c92508cb011129fffc;0x1c6817efe990eeec5bde0f3808ee5b81325d;0x89cdabfbe1e6deefce2fbf7e186b9a3dbc4e;0x505541b4e89afbd4fe000b65edd40270a594;0x34ca04617f065cfcfae0ea29519ee3b5996;0x1922a8cdf50df31fa80d11ddc0160fe1a775;0x864ffd6f66a276fc24870146a9c0a880c15c;0x16304dbd772cf55c6c27c8a5b6416e281947;0xf1c7c8a6b2d5bef6565d4988b98ebc6e5154;0x3dd51a8ac29a7a443d355c5b9e5029c4bb5b;0x6c1d61d1df6ea19af3ff6e5764e29612d01;0x45543502eacf16c384b478a35bfbba92f69f;0x64c43134a4dfdafd6f4c46011959f35d43;0x486007973848db4da6649a20889776f749cc;0x94cd6b4832f9e681714c839bde1e2241780b;0x108e956cc189bd18817f6bdb943373c95efc;0x19f151c3cc7aae7ef129777c3ca2edf5b724;0x5fe5ed426acecaedf1bba6321141b027412a;0x4e9888b4cfb456edee6393e71a529f47d5b0;0x148c9285ad1df5f50998ab33ba90dde13bcb;0x1ee214af6da6e305bc212637752d554331;0x2830befab93e95bc211409dbda596019cca7;0x1600b295809084ef2712d2a90502504b0df;0x4855c4e918d77f21086327b348a678037c67;0x36e8e572cf91d7eaf3484b2abbebcc8884f8;0x42c4628e2fe763325f1d7cf60f30d875c1e5;0x13e317ba65e9af3fbb503bd4cf972724ad4c;0xaf5b001711a71b86edc7b1222289888570c3;0x6cdd51a951f1a9e74381b159bc2ebf3461;0x6e9c3494fd1a5fe6b5770a41c3923bbefa55;0x4ee0fb071caf1f9fa0d70df37edde98d2066;0xd362eda6da09ac57c4d114bd1ff5e1216961;0x653b68cbc7d92b43fa577741800498a30c81;0xe068c627a4322564475cf68a8bc8f9d8da6a;0x10b3a667add13074d3b8bb48b4f81cb9afd2;0x1cac391adfc3c3dfcffc08aa11367f02c93b;0x324be7648680c2ccc897871b2e35b84d7f89;0xf9ffab6c59a78a76250c3dd74e3ba243a202;0xbdb6aa3322cb61504279baeec03e2e956b3;0xec0f6f086c53a4ac23ee34651fd13485dde8;0x890ddf56003363ddcb7c9f7d433a64951c7b;0x146aa4784238b74f2637de621704382932a;0x266f370bf19b2191aa1a99d3d64e4ae25e5f;0x13209c4e195bfd8117225a8ca99b278cf807;0xd20dce32761eade1d29bfb75b56679fb9d2b;0x46e9b376f525e17df30eab71e3486b29381e;0x623a973f66d1eecebc095cf4fa4bd5e53fa1;0x30f00e00f6b3c3b141f8dc65cced325a81a7;0x74499cd833955eaaa23f8f0af290a1f30b25;0x50e684d227d2244abc69ae57b33cda8bb65;0xf71d3142092a090f0f62b73a12357e1a2428;0x318b6bb91871313b0e70c488c94d2a9f8fc;0x3bb352533b837419834756dd08251df6bead;0x5151137642eec0c716f7a4a653803ca63ea;0x7942db94d970592fbf16ca6e39efb57dd5b;0x70a5e9db02efbbfb2a2aa0523374bdd33199;0x996aaa259ef4a21647379d58cc24406a82e;0x1260baf7f11e491e0973d6f335f63ada8ffb;0xe470d75fdab203e803023d8d8d2db3f83593;0x65eaa758a74431d2ef3e1e82e7d176434227;0x7aad9165174a23d88b682f49b32f8acc4eb;0xe5f4d599e857610333e2f8236cd8a93a832c;0xeb296283d2fddef44c2befe48ecc5605122c;0x4dbac0f5b993dcdb8a92f9cf4d2eee8445a;0x4139329c33e633eb5ce2284535b801ef56ac;0x58585dc1c8782a7015375624065d88a88946;0xb61e10a9d9d4228e0b20b9dec3ec884a2198;0x7ea68de7015f46da7328556636c4014e4f69;0x47bd1fde161d9c1aaa478c214df4d46a5c12;0x1fb8dc88d4fc3ad1aa82a5cb221a7a791eb2;0x8e5651caa88b149783e72df41b35bb68c3a5;0x64b7cb056d5684960080306f4b9c7289fcc9;0xda32be5b0f9a62139c67d153b0b145cf7817;0x1ac1ebf5391721a1f5b4d514580f318220d7;0xcaf92921b273262cfa57b76c967b4abdb536;0xc5e3f1809746317658b59eedd2750b18d05;0xf35395576a85f6828ba1b00180be46d8601;0xbba1c7565fbdac6f81e07833aa63626850b0;0x348d81d8554077591a9c03edbd1c0ce831bb;0x200678e486661e1e71cb250d36533926b2c6;0xbf512383b9abeed881b8ab33844a121b4179;0x33456c24ad17cab0de18f15232f8f1a589f6;0x1ceb9bd64af295675b47c3c37c1f34b6959e;0x3a3ccf03f2c12bc8788c1da17073a137c855;0x1ee4d095b9f1fe8adf21b1cfadb7d616ef0a;0x12196e980e6f7e58c68515b23cc84bc56a;0x3d3d3e0fbfa26040d30c66932d04eefd5eb7;0x340ed1da847dd4aff46609fadfcea1c11b95;0x8703a2052f2c6e9460f213af8af5a27cc0ca;0x35eb4a9453c5ef94f61185fe0f76283d2416;0x7271e01a0f7c09b9b953e7e41558a4eb70a5;0xb54ec190384f2e295aa9f028f21521a561d3;0x60e6a7f80690c82a530abab289f64d305016;0x20342de53bdb3f91ba0c0bbbd6ce15d5e7db;0x240653e29b8691cda2e8a30358a0fe616f85;0x2d08c42715e1ca4b1d4a2d8aaaac3673c4a9;0xfd49f3e3369cf3a37690bb74e1af5a939634;0xd69f2a70d0910b8684413aaf9581fc2c5e78;0x10aab6e19e78d0d4b6f32b0b4be87a5ec74;0x1d1d1930fa57d66a36194e6fb7ad849e108;0x3ead48905dc6745f72214b3ca921913025d;0xd6e5fcda7e2b56bb318c088dbc6ca89cf730;0x18d408b58d9275f28f1c3b3b805c0c2e5;0xffffffffffffffffffdc48d603dab06200af;0xffffffffff5c71e200001a1f924652e100ae;0xfffffea2000077a1000000000000000000ae;0xffffffffffffffffffffffffffff;0x0;0x0;0x0;0x0;0x0;0x0;0x0] _ _).
  - vm_compute. reflexivity.
  - apply Forall_cons; [exact prime_318582074264723187736224546752119450085437'|]. apply Forall_nil.
Qed.
Lemma modulus_18 : prime (2 ^ 144 + 175). Proof. exact prime_22300745198530623141535718272648361505980591'. Qed.
