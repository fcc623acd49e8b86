(** * FieldPrime: the field of secp256k1 has a prime number of elements

    Written by tools/gen_cert.py.  p - 1 has a large prime factor, which less one has another, which less one has three small
    ones; what [prime_by] (Primes.v) needs of each. *)
From Coq Require Import List ZArith Znumtheory Lia.
From Verif Require Import Primes.
Import ListNotations.
Local Open Scope Z_scope.

Definition p256 : Z := 115792089237316195423570985008687907853269984665640564039457584007908834671663.

Lemma prime_53 : prime 53.
Proof. apply (no_divisor_prime _ 9); [lia|]. vm_compute. reflexivity. Qed.

Lemma prime_29 : prime 29.
Proof. apply (no_divisor_prime _ 7); [lia|]. vm_compute. reflexivity. Qed.

Lemma prime_7 : prime 7.
Proof. apply (no_divisor_prime _ 4); [lia|]. vm_compute. reflexivity. Qed.

Definition evidence_prime_107590001_0 : evidence := Evidence 53 2030000 2
  [(0x52f7e, 0x19a6723);
  (0x498a462, 0x5c441f);
  (0x1f4fb51, 0x56dd9cf);
  (0x3afc43c, 0x38ae514);
  (0x3f4aa56, 0x4dcbd2c);
  (0x48a424f, 0x38fb9a9);
  (0xbe83ef, 0x3d0bf72);
  (0x7d4c64b, 0x22f41a7);
  (0x5801f, 0x502d071);
  (0x11e394c, 0x4331b4);
  (0x41117c, 0x2ad7c88);
  (0x32f9f12, 0x146d62e);
  (0xb0a750c, 0x3323ad4);
  (0xc6d6fee, 0x5f32ef4);
  (0x5357451, 0x6500141);
  (0xc50fb71, 0x4163681);
  (0x9, 0x648c307);
  (0x0, 0x8000);
  (0x0, 0x80);
  (0x0, 0x8)]
  [(0x1890b1cb2d8a, 0x1);
  (0xd16e8f, 0x9e9b45);
  (0x4875ea792896, 0x24a5d36);
  (0x1755c2b, 0x1106726);
  (0xa479897e4e0a, 0x30ee811)]
  (-0x1e667a6) 0x79985d.
Definition evidence_prime_107590001_1 : evidence := Evidence 29 3710000 2
  [(0x4f7db3b, 0x4113566);
  (0x3640957, 0x5a4fd99);
  (0x170a19, 0x4a9c120);
  (0x20e48e6, 0xc27bb3);
  (0x83ec90d, 0x3a183d5);
  (0x652a6db, 0x5244b5d);
  (0x42a5cc2, 0x480ad5e);
  (0x5a89841, 0x52b1e10);
  (0x978288, 0x6061fe1);
  (0x49c, 0x1f2bb2d);
  (0x110616d, 0x57003);
  (0x434f46e, 0x1d8d864);
  (0x2fb6c3, 0x3ac3875);
  (0x220d0b, 0xc5e74e);
  (0x4127381, 0xec6f33);
  (0x3100d08, 0x51c32fa);
  (0x1923b53, 0x3223ce1);
  (0x2, 0x32c9d1e);
  (0x0, 0x4000);
  (0x0, 0x80);
  (0x0, 0x8)]
  [(0xeb5135e3def, 0x1);
  (0xfc8a1c, 0x4d0c68);
  (0x42fc593e14e86, 0x283e372);
  (0xa7dd8d880b8da, 0x291bb1e)]
  (-0x72838d) 0x48a0c2.
Definition evidence_prime_107590001_2 : evidence := Evidence 7 15370000 2
  [(0x21fc3d0, 0x5b4ba30);
  (0xa831f9, 0x3b0d350);
  (0x21e9a4, 0x20d79d5);
  (0xa6f7b5, 0xebf42b);
  (0x7ed736e, 0x20b8e04);
  (0x2ea04c, 0x50aaf5d);
  (0x108f9fd, 0x114ab53);
  (0x1ee2574, 0x2938d90);
  (0x9ce84a4, 0x384afce);
  (0x66ed9b3, 0x59b8805);
  (0x9ff2474, 0x48aac9e);
  (0xb5c41, 0x5a95dd3);
  (0x17f1fe, 0x8890e2);
  (0x1095da4, 0xc64500);
  (0x1c31316, 0x294098a);
  (0x9ae25d8, 0x35c89c8);
  (0x39ad9b4, 0x5923f1c);
  (0xbb0655e, 0x4cede54);
  (0x648ed4d, 0x61f4213);
  (0x4, 0x6593a3c);
  (0x0, 0x4000);
  (0x0, 0x80);
  (0x0, 0x8)]
  [(0x6ab428c3d536f, 0x1);
  (0x1cf81934dc639c, 0x2bcdc24)]
  0x4b1e7e (-0x42d6b1).
Lemma prime_107590001 : prime 107590001.
Proof.
  apply (prime_by 107590001 27 26627727 [evidence_prime_107590001_0; evidence_prime_107590001_1; evidence_prime_107590001_2]); [reflexivity|discriminate|reflexivity| |vm_compute; reflexivity|reflexivity| |vm_compute; reflexivity].
  - repeat constructor; cbn; intros H; decompose [or] H; try contradiction; discriminate.
  - intros e [<-|[<-|[<-|[]]]]; [exact prime_53|exact prime_29|exact prime_7].
Qed.

Lemma prime_419 : prime 419.
Proof. apply (no_divisor_prime _ 22); [lia|]. vm_compute. reflexivity. Qed.

Definition evidence_prime_20113_0 : evidence := Evidence 419 48 2
  [(0x1b7, 0x3add);
  (0x342, 0xb9e);
  (0x0, 0x1000);
  (0x0, 0x40);
  (0x0, 0x8)]
  [(0x18adb34, 0x1);
  (0x10cb0db, 0x16f5);
  (0x2694, 0x12f0);
  (0x3d3, 0x370e);
  (0x2212, 0x1157);
  (0x29a1140, 0x33bd);
  (0x20, 0x1dd1);
  (0xa23f37e, 0x327)]
  (-0xbba) 0x8c9.
Lemma prime_20113 : prime 20113.
Proof.
  apply (prime_by 20113 15 12655 [evidence_prime_20113_0]); [reflexivity|discriminate|reflexivity| |vm_compute; reflexivity|reflexivity| |vm_compute; reflexivity].
  - repeat constructor; cbn; intros H; decompose [or] H; try contradiction; discriminate.
  - intros e [<-|[]]; [exact prime_419].
Qed.

Definition evidence_prime_1206781_0 : evidence := Evidence 20113 60 2
  [(0xa8d3d, 0x13270);
  (0x379, 0xdf06b);
  (0x0, 0x8000);
  (0x0, 0x80);
  (0x0, 0x8)]
  [(0x1d83c236b, 0x1);
  (0x7b526, 0x553b6);
  (0x4f886, 0xbe9d2);
  (0x89ab8, 0x99138);
  (0x1331520a4, 0xc965c);
  (0x17c4f, 0x44bb1);
  (0x4defa, 0x53af2);
  (0x114aca6586, 0x97882);
  (0xea5af, 0x104f4d);
  (0x4107cb4c8, 0x106c48);
  (0x1340025b7f, 0x7e83d);
  (0x1427843872, 0x113556);
  (0x66ab5, 0x119ba0);
  (0x13eb, 0xadec1)]
  (-0x7970e) 0x7e4f.
Lemma prime_1206781 : prime 1206781.
Proof.
  apply (prime_by 1206781 21 890371 [evidence_prime_1206781_0]); [reflexivity|discriminate|reflexivity| |vm_compute; reflexivity|reflexivity| |vm_compute; reflexivity].
  - repeat constructor; cbn; intros H; decompose [or] H; try contradiction; discriminate.
  - intros e [<-|[]]; [exact prime_20113].
Qed.

Definition evidence_prime_7240687_0 : evidence := Evidence 1206781 6 2
  [(0x0, 0x40);
  (0x0, 0x8)]
  [(0x6e7bf1, 0x1);
  (0x196125, 0xdcf7e);
  (0x15df092d, 0x34f3fd);
  (0x1a006934, 0x625074);
  (0x6a2e9c4, 0x6b3244);
  (0xcd98477, 0x3627e7);
  (0x8480280, 0x4b5b80);
  (0xb45402e, 0x3c7f0e);
  (0x1a16eb7c, 0x46933c);
  (0x3747dc, 0x6b60a0);
  (0xf3e, 0x4e26c2);
  (0xba6d806, 0x290a6);
  (0x4698f1, 0x47c241);
  (0x40e2468, 0x585128);
  (0xd979bcb, 0x2a557b);
  (0x4001, 0x4d8112);
  (0x806cb, 0x5417f);
  (0x2c6e49e, 0x1dc77e);
  (0x2, 0x230822);
  (0x0, 0x1000)]
  (-0x16cc5e) 0xd.
Lemma prime_7240687 : prime 7240687.
Proof.
  apply (prime_by 7240687 23 1147921 [evidence_prime_7240687_0]); [reflexivity|discriminate|reflexivity| |vm_compute; reflexivity|reflexivity| |vm_compute; reflexivity].
  - repeat constructor; cbn; intros H; decompose [or] H; try contradiction; discriminate.
  - intros e [<-|[]]; [exact prime_1206781].
Qed.

Lemma prime_239 : prime 239.
Proof. apply (no_divisor_prime _ 17); [lia|]. vm_compute. reflexivity. Qed.

Lemma prime_101 : prime 101.
Proof. apply (no_divisor_prime _ 12); [lia|]. vm_compute. reflexivity. Qed.

Definition evidence_prime_96557_0 : evidence := Evidence 239 404 2
  [(0x166b6, 0x7392);
  (0x2051, 0x16fd4);
  (0x152d3, 0x6e69);
  (0x61bd, 0xfcc8);
  (0x15b, 0xc001);
  (0x0, 0x1000);
  (0x0, 0x40);
  (0x0, 0x8)]
  [(0x169c1f35, 0x1);
  (0x31a22b95, 0x8971);
  (0xb00c08b, 0xcba3);
  (0x4108107b, 0x5fe1);
  (0x88, 0xe918);
  (0x5aff7f9a, 0xe30);
  (0xffc8f61, 0x113bb)]
  0x2089 (-0x9f8).
Definition evidence_prime_96557_1 : evidence := Evidence 101 956 2
  [(0xc073, 0xf659);
  (0x4c49, 0x10d6c);
  (0x295, 0xa9a1);
  (0xebb, 0x1613);
  (0xfd7, 0x34b5);
  (0x15b8, 0x36a8);
  (0x0, 0x4000);
  (0x0, 0x80);
  (0x0, 0x8)]
  [(0x90c72548, 0x1);
  (0x2372, 0xee37);
  (0x3a81d638, 0x73a1);
  (0xb82, 0x976f);
  (0x5f16, 0x41e3);
  (0x9ad51108, 0xbd61)]
  (-0xb420) 0x75a5.
Lemma prime_96557 : prime 96557.
Proof.
  apply (prime_by 96557 17 34515 [evidence_prime_96557_0; evidence_prime_96557_1]); [reflexivity|discriminate|reflexivity| |vm_compute; reflexivity|reflexivity| |vm_compute; reflexivity].
  - repeat constructor; cbn; intros H; decompose [or] H; try contradiction; discriminate.
  - intros e [<-|[<-|[]]]; [exact prime_239|exact prime_101].
Qed.

Definition evidence_prime_255515944373312847190720520512484175977_0 : evidence := Evidence 107590001 2374904191824599455024826335976 2
  [(0x163b090c5717648e031324466b98322, 0x3dfa0b72ac4474248036ce39d059b84f);
  (0x19b77a1ad96ddec88b1ef7bdd182b2, 0x1057bdf433f730018c6e82323bb9415f);
  (0x87cb8b871c1cf8ac9a141fe65f655048, 0x464f5a7debb55f33f27dfca1fc471b1);
  (0x105b728ad0fb90208cc0b21f771d3004f, 0xa19105f3121ff6e5dabf71c2e7d0c42b);
  (0xf26f472ff57fb596c18f3a5b1223c9e, 0x9e9a23cf3231ab6cec738280b8cf6e63);
  (0x41252506c6f38b40f465a8261637ba53, 0x35f822e5afab1d9adeb72dc27c3c5e87);
  (0x14938fd6803fbafc90c6c74981017388b, 0x4f20ff9c12fabf682c1f4740fcb5891d);
  (0x149b3b648990d441284a1844d2563be, 0xb1e2892341b89777126b4d292851c824);
  (0x6f2538d2fd9abdef12514e5d8865a04b, 0xb203ad9a35dc6042197c1bad7dcb13d);
  (0x5a48165f13d0957328d2aa485fd8c00, 0x922b3da3845a2d7744997a8e247c2480);
  (0x49e123362fd661f98650f9cf13fd37b9, 0x1749c0495ccae235b5c6dbcded18d088);
  (0xb90e0b3775c5fd5e843737c13af942bc, 0x772bcf6a8a11db1e089d73a5d103e0ed);
  (0x81dc74631946a13033644522ba442b24, 0xbc9b94c98ac0448fc7c02c2fda523ffd);
  (0x2f7959b0f891f70975027c14df416d57, 0x9dff3c7cfb43b2c76d58d2ccc6a236e1);
  (0x3557e44d25446d901ff6305a4e7bce6c, 0x5f878a34f75677bc59d0643957eb36d4);
  (0x33bfa36db222e075f50df58bf643e374, 0x479a7fad0483167a04f41baaae28c9f4);
  (0x6210cf2d501ab40bb0db78946a31d7, 0x46866adf339ee45a030a3a724d235452);
  (0x1d80b0551033f86e6b3d3c54a32e8599, 0x894c92eb0e1b3e5fb811b760ac7dd3f);
  (0x23c48898957ab6807e9ddc17e8d1e74, 0x4b4ecd4969a8f2ab00193b5c57e573b0);
  (0xeb8e220533ffb92aac6008d0e5e43dc0, 0x14bad34e7c3084887b54f6a2930a0c12);
  (0x5c293a056c3ca8890b9d6543551063, 0x96777eb6b5f71ede9ce10c23c9dea42d);
  (0x4b9873e6edf7047c38669615bbdbdf0a, 0x5e1df1f677b694f1558ba2bbe517876);
  (0x6ce6c2a0938f1bfe91c780df18eec64c, 0x788c18397d04a4f517cc3053bf0e8b54);
  (0x16271ec6fe42af29aec502706bfb601a, 0x664eeef41ab68c6342cc15a923da16f8);
  (0x327e402ef5eff059151760cdae327a2f, 0x2e24afb8619ec4be59a17431ce867e49);
  (0xd672add4a7ce777f8d0e38fabc02e7d, 0x628530093d9968fd4dbac8f465db5a54);
  (0x48aba693d917a5cc7c399af48d134681, 0x32c23836e181638bf9d6d859a924a53b);
  (0x27bbaa22a522d9aa7d6b257436f43926, 0x76312c074fffea80c7cae36caaa03ffa);
  (0x22f39d3330a2a8e1dd6100918fa6ad, 0x57650db1fa8192aadeb6871db0d451f4);
  (0x15bd65f3f6d71e823ab75c6be4956b25, 0x51f7bd144faffe88cad44017a559653);
  (0x1f374a6abea66e162cf132d01f08409, 0x2db60fb623c215f6272482ecf2f27338);
  (0x3cb7de6d073451b35b3ec329b233bc09, 0x135dabd28ba9cf9cfee72ada6175e853);
  (0x79678a395e9185455c39781ab0a7e6e, 0x6c093ceedbda94b96dd146691f517e02);
  (0xbc01ef4ed53ec2b2e1a83301d1d6a4ee, 0x1b0165d64b515cf160a341456c0d4574);
  (0x16ee31163743d2cfc5d84345539a20655, 0x866cf2d05b2c6e8a8540ee2a34d0be43);
  (0x8376db738ae2c37f8c435f56ea1d626, 0xbbc8e82136457487f7f3a508f007ceac);
  (0x4d0299dcea823543a6d2606e24c4e6b1, 0x1c1a20a64fc5601a1181ff9bb504576f);
  (0x151bf9aa5b18769f9a13663187be2b404, 0x56089c61e60f0c75d23bf2f5789d973e);
  (0x5b9f5ecc01fac9b75f2ef529d3f6d951, 0xb42c6b6f927d39abe38edc3f334ba5e7);
  (0x30cee3df25c27116f81a21065d100676, 0x5dd773753aa1cf7a10d20ed6976b247c);
  (0x89dcf4b651b13dd31153f382263eaf1, 0x447dfa7bcfe2013d1820b324743c3599);
  (0x3595cd672f83626e86469f89cf7e857, 0x1cc72104b7d3f66a4a0062f4a50248d5);
  (0x52a481c780f3eeffa84d9ae815bfa2d2, 0x195f7beee1c9c00ad75481d39d22d7de);
  (0x93a205d473f37367abd3faa24bdd2e4, 0x591fd3ea518a0cde1e3f8f2ffe4cbb80);
  (0x3fe065591b06b007eba5a6e3c69579ce, 0x2a1d8a577c32a4259a7a5e12e3401ac2);
  (0xba274f90aae6f7d3870920a579bd6c, 0x6ecf6d3f2b40d864a515594adcbdfcf8);
  (0x12662fd7bd1bbad2181cc301b7de86bc0, 0xbd2ab3ddfcb7f704f60dcc640cdad52);
  (0x4afd3089d9818e762d1cebc4c04a8fc6, 0xa835e97565db8cca383a22370c63e543);
  (0x792573cae31aa6e265e68dc7ed0585d3, 0x78100d23bb177496cedbaf49a97c9475);
  (0x45728fec1a498a3e49c00a58c7128880, 0x6be82c99af329c60ca5deed9359208a0);
  (0x1048b73e2a8d1bce8278adff9e6487bfe, 0x51b339e70423412fc66cbc2953e8db34);
  (0x56f6295b14f565982b6897a6e54b8481, 0x9e3f39c4d28a04a7480f4d202ac0a179);
  (0x154fd87fd8e83b35067218484f1ff3919, 0x5b6c6bede489fd912a3cd03983ff1187);
  (0x81679b4312e97470358a2b977846736a, 0xb509415aab9ee89013a221fcea4fff8a);
  (0x31d4833483314759f04fbe87ea58c4d0, 0x9db81766d43fb7a12733b6e369df5d82);
  (0x18c52e10241511585478322174c9ed3b, 0x45349802611c782924fc91e026a6b8ed);
  (0x6dfb5674740dc94ba4c9db6b51eddf7d, 0x30cb0f4c6903efd07bf3e9a74e50cb1c);
  (0x23d921a69af2639ebba6e5adc7ea7b5b, 0x9166d97736439d37a36f4d39977691cf);
  (0x329465f3b4bdef8385875ba9370c1eff, 0x3ab2d7963642debdaea4dededff1c169);
  (0xb0635663e66845b41a123b79463e7d68, 0x45b95831ed25ce751f73ed8627638420);
  (0x113cbe3b67381f00b73414ec7396395a, 0x823491cdcc63062c53670394e61caa16);
  (0x760b128a689e5372c957f379ddf0ed24, 0x3990225a26e6e76857cb555ea59b7ec0);
  (0x419ab4da08a8ea81b75a2d11d6b4ecf6, 0x96a2e9390ebaf8043c888a486b00685e);
  (0x16994d7d32cfc9e2490809c604811717, 0x704c847c622cc494599192bee4585e12);
  (0xc453365f2d253da614f5ff015344db, 0x41e8ffd3145cf12918b869625560d4bf);
  (0xacb100c1aa620fba13b40a4b620129d, 0x895deda90d38166fc87be07dfc65ce3);
  (0x35d5158db9f80f1f0b1a155f2cf56867, 0x20355c222f0384392b4ff5c2d364465a);
  (0x47594ac057993f74fa84e3b6c69d5a5c, 0x65b9cbdea588ebceb6bddb81974c0f45);
  (0x18b48161a65bca77c190d3d941f8f4e9, 0x751cc11a162d701aef68a93054f8f07f);
  (0x836862bce6234c357a214b2050e0fec5, 0x44e9c9013b7271bcce247edbb50da284);
  (0xa4b47ddbc2e79c7430e34382df84b243, 0x9eef615ef91648f65a48d78d889f1b77);
  (0x458fdb09aa9cc1a486d5301b3e1048c, 0x7dd1c63a7821cffc2cc5d63e49a599f5);
  (0xfb67f3477b3e44ca7f0a68e696dc099, 0x1ce8bd177f7d16212713322a0d82f8cf);
  (0x5d9d2ad269d0a454eb2784e68571fbd, 0x36f5731114991c4f7dc7dc0ac95fcbd4);
  (0x6a385d67ea7195a4eb4fc8ec46f11b65, 0x218961195e44f8bb86ce27f4a7b8905b);
  (0x9550a3779777538e5ecd0a59416c580f, 0x650a810d70f77ea50be2df8a4663e98a);
  (0x2eda1c61fc5fa8c50c568570d042baf, 0xa96b2670787ac30be00989171cc651b9);
  (0xe89c9694fd5c93008027119ca951068, 0x10c6c101aea72e51f3b8aa2e2e1671d8);
  (0x3da30244e01c875198ff2149cc1c34f8, 0x2561843314db96c0dce6d9166b63f6d8);
  (0x8a715894ffa34b2007d2d03d27682456, 0x6cd9a536795954ef46bdc50bb559420c);
  (0xb613a29471b937ecb6b4fef6073ed9ee, 0x735a66c7e6a802f8a595ca2b368145f3);
  (0xeb946e558fa194695d9d97cc230cfb21, 0xbb157b7118186b58346c91cc6af8f929);
  (0xa1a27ccde20e9a433f2f0377c22532ce, 0x967981a736750881e2d068b8fb57db1b);
  (0x74e6011209275194682eedbd8e9bfdd5, 0xb044ee5baa88162d9429ed498dec79c5);
  (0x21cd94ac9beea4903a55fd2f1559bd3, 0x69ff8c90e6bc0b4d9f0fef39b9294397);
  (0x10a103fa7d84a00af9d57a83a2ec02303, 0xe3ffa4e7b31b1e65265c376236ac3d7);
  (0x508968aebb49a4e893f3b0700bc0ad9b, 0x9fea05ad672bcdfb7a43ad5aa93bcbfd);
  (0xe28eb7104a2e5c7de6c6e636bac5afd6, 0x7c6cb3e34aefc9ad2931928ec75d1e0c);
  (0x10386a5aa70794de3a033ac16b8232897, 0x9390a635d4e2d2d92e3452fe88209f93);
  (0x2093615f55ec3837faaba91f340fc352, 0x9deff20543a2b2bafb904f41fe5c1c9f);
  (0x6e19332ebae37771d14b73451908d98b, 0x4f21faddca23ef67a163bbe9bb791aa1);
  (0x17e666d37fb6b46ecbd3a749d4e2ed852, 0x917a957e7e5a6ad19225ca8f45e18566);
  (0x64f91609ea03992726bea8a4cc356192, 0xbfb6b86dc26faa8301fb9ad7e8b58d1e);
  (0xaa76a822f9b190c09e9b91f22730, 0x628385888d5c37d26a10d5131e08ed50);
  (0x0, 0x800000000000000000000000000000);
  (0x0, 0x800000000000000);
  (0x0, 0x20000000);
  (0x0, 0x4000);
  (0x0, 0x80);
  (0x0, 0x8)]
  [(0x27260dfa86934d1093a2e0a5f0fc653fdffddd96a257681d0fab05f6c16d871e, 0x1);
  (0xc3b2e5845287b201061face185a8d3d, 0xb04efaee0b4c78ead30a64ebdcd3817f);
  (0x5c1f7ce4326cd949c395d886947313, 0x307d3023c532cfce0aabf8d3261a491e);
  (0x28227e39d92e97d299ce0b91cf484e6b, 0x8512f366d97cc4be6a9a4b8b49baa2d);
  (0x1bc30f1232e6569116ca68a4fca9b93788098b797130b4590c66b0b6f42ce12b, 0x57d5db6e761949b7c9ae0d92b7b7cc84);
  (0x7a22b0567764f009552a9eb4e5829cd5ce29a902984260179c21a8e3a17c9aa, 0x94786bd4f5fd1c82feb0eb2672af6c8d);
  (0xca4f460da76b17d7b9232065428593019aa17e0ed789f483cfc8101459967, 0x4dda6434c76e8f8a0829472347c5cabd);
  (0xb375efdf77315ac042b8ad789a3d4b7, 0x6432ef073f6bdcfa12a01ff86018b92);
  (0x1fb313881908f0431976d329edf0cf776b93c0a938e5e86486a3b95aeab1c419, 0x2e6f0b8264d3b04127323169465de72f);
  (0x3e1941eb35d109d1e454632d64f0cb58, 0x9ea68197966385d7ed2f277ade5d762c);
  (0x53f47fda72908dbf813b6febcf694842, 0x6d41dd1b5b6f4e39168ad5bbaf1f60ee);
  (0xb31dd8162d2434310a27c4b08c746af1, 0x7f09a9017e2205ac08f5923720c712a0);
  (0x1759d8e9e87f69165f317ffe8bbc3eec19884d4a78bb5a7874cf13fa52804a9, 0xb98e924fca8046c2f52fc39fd09d5e8b);
  (0xcb0e05b6380ea222b16a23c81cc00cacb94f32b5872aae028a2582488a04771, 0x220a98bf5a7e5a6a654d65d8e406e136);
  (0x3ac725197d9802de4400a9836e22e8b, 0x646220782492a908621f1e8be3fc90e1);
  (0x2912ce00ada7c91387edc0af0fe3bc665779fb8fb722b168ce4f20a65cf13826, 0x1a92ef4c78998e3bc0d75b71ec58676a);
  (0xe04ce827e0991c703a4158c839ad3e8985bf92f77826bb064220ad43915fbf, 0xb4973bb996649c6b8ced394fa5c685f0);
  (0x6428d87559484ff9b3f192a78ec0724f, 0x1a604593cec0000f7e72be3dae472ebd);
  (0x776cbbeab19848fe7c592402b003d8e, 0x8ac1d6448143c36fb956b098df2796c6);
  (0x52be0e387d1e83485d35654d696b7214a04fefce6977886593677a51abc36be, 0x25e0fa459db8a36f3e192a2a455a2d82);
  (0x69bb2184e735ceec82d4c0e2d7f71bb0, 0x401458b3ce46976433c7957419a96854);
  (0x5149254a6155b8c9e96186cce38f763b239cdfaeb81527a61ea8e3abc10d, 0x8e906d7e27755373c2f07ad9ba1b2fe2);
  (0x79406f08a1654ff2a563214143a2edf2442a0ad8420ea4d4458528dbf92cbe4, 0xfe0d39777112e9d362cab033b86a3b);
  (0x1ab94ee62e58c4f6d80e1b63f1f063c1, 0x4d92263d2a3a31fe01a8c29fc510b5d7);
  (0x4bcca8cabbcadd018db9a7d4c2401b01, 0x47ac6d26aed2bfcdf22c139ce524ac40);
  (0x4d66b426c5249d198b646f23d664922d49f90b8ee9798731c8466bf18d1181c, 0x78b5b11b59d04fb438bb8c77d4148a73)]
  (-0xf5f8ea8d8f79cd46db0879f1747be42) 0x4f4de303bd50569484821a76414c395.
Definition evidence_prime_255515944373312847190720520512484175977_1 : evidence := Evidence 7240687 35288908963101546467996824129048 2
  [(0x17fd38279f84d292bcc2df03888601ad, 0x53aedf869210fdb3043e6a09b8d8a514);
  (0x3ee7af559a3efaf5aee524a94b3f375e, 0x43e84610493094b914c265b7453fcb83);
  (0x1dd6c2d0954f6d50d30c36abdbf6258f, 0x6df6dfa82b747beefd7f52e132398369);
  (0x13553d2a06699d56bb685fcb4affebc, 0x4bbc57f2d55c1b8d918ac8278dc0c6e4);
  (0xc67d3f2f746113a7892a4196c7f911f2, 0xac6d21563b795afbbb1d75a907b15f0);
  (0xc8d1e6a78db93dba5df3fc68daff6f6, 0x8a1f393f99c16c254e6eb298cb7bf57b);
  (0x1f52ba8a894a327197567717eee7a302, 0x311e8e2d9fe14f7f9d22ef48e98adc4f);
  (0x23414e720fa8c4eda76125dbc2ad003b, 0x4d98b32258f4bc0aec11d9c0b6e17391);
  (0xb7d725dca8507d8054d7d2078c3d7e43, 0x5252a49282ec1172a5d49ac8afa1474e);
  (0xd808c49d5c7766340daa29469ce973, 0xbbfce353dfc0d544702ad014bc3085dd);
  (0x1476d244be10f7ef30f7c7a83b379d74, 0x9018e2b550e9d36f0588f5a593b913e);
  (0x513940e0a59625aa3604339dbdd03bbd, 0x2c59888e22c4775a490a3d1eb0169bad);
  (0xca67ceb8bd681dafb67fe9aada85cc7, 0x585b1b9b7361713c54e1721953af9705);
  (0x60ed78f6d9c122cd18c45a4737efbdeb, 0x31501954238900c700b1f888a95e9166);
  (0x1297126f992f4b86177dc5adb578f4dd7, 0x88800846d60ab44694c92ba86b2a6b23);
  (0xa7057f87d9673063b9a8f6150df8b55, 0xa914cbd66eca2a8839bad34578b05733);
  (0x1a5feb53715920252bd0804c861e2055, 0x2ccbacf0e6746b82a71cb1642ffcd2dc);
  (0x10f16de54f415cdb62394972ade9a0c15, 0x4734295110067b9d871524663ed365eb);
  (0x3f83554efb7e429432f8784254ce3d14, 0xa16adde1a9a513fa79e2ab9f875316ee);
  (0x59b90dba2045c71638025d92ce2d5191, 0x4e21a3ed8c8cfc56d2a84c56d5800817);
  (0xa5caf7d155a2f701f2b48fc3b852e030, 0x83543d2f0d6e2b46ed8143b0d77f4374);
  (0x1558b7c7393a5222d7bb3cbd547b271aa, 0xb285acd5c281ad8e68f903d1f1d4a346);
  (0x4e43409b2567e8e0ff9aa1b2b1388c34, 0xb52eec3e71bc013f7d4f9eaf9608a370);
  (0x6f1054dfb699ff5d3e495ca48d3026b2, 0x7aa7c89646280ba90f4f0fa3ee83ff0e);
  (0x6f5c5f40410021ce27b2bb4d4de410dc, 0x921d8068f00c59491afd3f6a0d5115c4);
  (0x2b07534b4a123c4e6fcb3ff373ff3922, 0x924f7cd1434da714910f8a9e0610b380);
  (0x4149a56e88ce3cd284a7a6c22277b3cd, 0x404f262e74bde3a49c56546bc6fd772b);
  (0x4c73d588e89466f56a84e81b7b33735a, 0x70070e4576ca2051f9ffdfe705ad59d8);
  (0x1efbff8353ad01c707a9533ef0f02bf, 0x55b8b7e4ac7ed9efaa5be072f5a7e1f1);
  (0x99365b458c07a71b056a63917c3fd5ec, 0xda492d24f54262cff289303f4c544c6);
  (0x4a37c11e8f4c27370297e59f90e46374, 0x7959b2330c35cc332435191665845b1d);
  (0x4be61ec4efae6a40595fa79eba7baa61, 0x777196c86161b437c25ec86966df30b9);
  (0x880abaa8c6aede4d95e787b818f85319, 0x5569205891b4808c5267bd07dcbfaea1);
  (0x3bf8b025f7a45c8529bc1c4a5511, 0x725939f6ae00ad6ee707ffb5b645c627);
  (0x13a8f3edcfe3f91d6b10e00a9c9423eee, 0x4bebfb14a4330f57d607d7cc113924);
  (0x4f3dcf04a66cca20f478dedf9ea341b, 0xade0e0a487c115e5b100e7486c749db1);
  (0x1d54d5029cc7dbf8ddb77fdaab972a, 0x1edae0d14bb38cbcfbfb5f18a607f50e);
  (0x119e882a41e2058ca94ddc7dc4133c1a, 0x351888d45f0277b29dae934bc4c6de6);
  (0xc5ffd2c8302db0b93a85130c34daea16, 0x3a3285169b959aaefb2f321dc961778c);
  (0xa38f254ef87c561146088df0e14cf4c4, 0x89f38ec4dcb05d0626c5d4e0d4b2c91d);
  (0x587eb0bbcd5b8faf93de415a32eebef8, 0xb150c4a730954b65f082fddb8577aec1);
  (0x2e65695fc79aa0251aacf374fe166eae, 0x826d606b087d0b12728a2718807ee30b);
  (0x929248fd58ec84a8dff3ba6cdd10b8ad, 0x5e70514375ac2840b4c1bf5c8660f16d);
  (0xa29a13cf12569cb0f704b29dc665bbe1, 0x76b0f9abef759774f3eaf90a9646d7f9);
  (0x5f2612d995348af7bb6f47e294220089, 0x7d0376d84b72bc4a011a9e2138347951);
  (0x6740c02f17fb97e9664044f26b82b9c7, 0x5fa15eb6d5c28aec58a08aef079c5661);
  (0x1208bcbf5ba488e9e0554f5bd9f8994e2, 0x8ce23407c91424a938732ea27f7f5c50);
  (0x4b0b50c2e3aee31db01a1b2212db29a9, 0xa68899a046502836c75650780060cb41);
  (0x4b3fd9180be5e019baa52e572a00d207, 0x54edaa3d0d06c4942f7f353e538fa623);
  (0x1e50fed0eb02c93b5068b7ac5849320, 0x550b5edbf2ca8bd3eedd451936876ec1);
  (0x13b1b631a1e0a64bba737a63b0cb55b8, 0x1315b6921ef1f283be240fdd89e792f1);
  (0xd4974e7c0e5f63847bc25d4bcd30036, 0x3d875df0dd0bf77937923a6ab5448f13);
  (0x5c8160b69cb497586c903dc5e0865d5, 0x3289d69633b89f012aa8046acf56dd2b);
  (0x175fc36bd18bfef513ef46e72da54c6a, 0x1792ba820b9269a39f60b2e2b6f6f60e);
  (0x308f61499ea18d28bfa7f22c302decc2, 0x2f65edd9872296ba2ca45d53fb16ce8e);
  (0x7c27a2b3fb127f1a1969df75aaf226e, 0x44515c2e40cf9be938391479be2f3c24);
  (0x224f5dcd2500a75c544f414476ee09e9, 0x1b4f44fcd6aa8a896286bf2d95dc8daf);
  (0x1088ea28e5db45305920392edfcc70e9, 0x5136406b043e6a47fc29f1b365130558);
  (0x266fe212c81c2627b005b7d7156780b7, 0x3860bf45868b628b46eccc57040ff753);
  (0x10db0301f6d6ffc4ad7e5c4b3184aa6f, 0x3cc7fc8e814e648e1f09c1db1cef9879);
  (0x13d87063572ff81282586e8105df0164, 0x38ec093a5a922090339c159248bb8440);
  (0xd7d22e5ac8803c1330a66f816387d10a, 0x3dc3bf53c7b0b4d2eeabf2358e0228ae);
  (0xa9ec99fdd75a8e243712f80b655abdc, 0x9006ad10c3fb19d2b7312886d13cb4d6);
  (0x1592a8e7e6db82c1e4e158b73735d413, 0x1ff30818e13c2ad09090667f6730567d);
  (0x1612bfc0d27f333840b5080498cb817a8, 0x2d890af8455bdb521908d802fa86c53a);
  (0x3427926677204c3f74508b69d8cd2a08, 0xb83dce04adbf80c7d2b01bd1c7d78329);
  (0x61fdddde52559a59ffb32ab93ce19bdf, 0x6420c3ab4c295fa43c51713466d0f719);
  (0xde50716898eb4f5e1bbce756643ee6e6, 0x893f4f957396f35ccc7968a552346b6c);
  (0x24085afe7fb7bb0fbaa750656c1ca8a9, 0x922d368cee45fdff95215b4ee705c771);
  (0xdf1d916a870b3b195d6cb532b65afb, 0x3ad9749179b00486a306c07e4e70bcb1);
  (0x60fe3892e0830c543744e5ab60f1cc5b, 0xcf18df30f6b2d07204ccb9f0ba97226);
  (0x10851619f7032c54010fde50cf18337, 0x888bd2d1f66525170b805b46c556d375);
  (0x118b4e0d0bcd215dd5a954aa7f671490e, 0xe168e0447e455107deb30044ec80942);
  (0x5341694f36bab8f331ca80261bd27c0, 0xa44177dda5527d94006424c4b3753340);
  (0xe057d1faa22b28ec9c5d09f102b8fda2, 0x1fa07872c531b46ec17b616b6f990bf0);
  (0xa24e2d6cf3c63463ca30e8379d98febf, 0x92d7938f31b7140c07a52761bea28ab9);
  (0x3c56898f1680a33300a6a3cae5d41bc, 0xb0a2739d2104c29f7fcafcb791737e64);
  (0x2ab5501f18d85dce72378995b0a93b8, 0x1309d2e59027df9049658a317b45b898);
  (0x849580bd572202f90a30862b6b42bc16, 0x16a6e4c6a31bb1f2ac080f580493429c);
  (0x781eb285bdd89d2a84bf16d3c792d658, 0x70e2cc555e212189c334720a9b891bc9);
  (0x184d9dff1813063dd27b907b7386d49, 0x97f4a37702e68aeb2e198bc0cc4db58f);
  (0x301915414d81f5a5d99785ee8894e4b1, 0xc152f5dbb94268b6b4f98a8ee781ac8);
  (0x70caed65a4827939c9fab1c82290e8f7, 0x6027b9dcfaed381061a3f0c3a646d731);
  (0x16485b097d333105dff8f290b804430, 0x681ec152af9d6848d71fab1a3c257a98);
  (0x1dcef48db09813bda074cb546ee2a, 0xb91cffbdb1780dee0a8a96916ff38c6);
  (0xb972a738aa4cfd964d021d2dddc94504, 0xd61a7dba3c12f44c2e5fcc9fab09a0);
  (0x219b4ff113f3db23e5044f91bdf84fe, 0xbcced312f3b1da14ecd423424d4be3d2);
  (0xc63a4e6720b15ca96f582dcde8e9472, 0x14180373222f74fba5d5ce542ad950c0);
  (0x5c8e4de97e08d233945b976aa179bc9d, 0x2281fb35104815d6e422aa23bffa9d1f);
  (0x5446a478118bf6ad69f14eb753e39a56, 0x8562e54698abe46b1cfdb24fe88c0e9e);
  (0x3dd2286ba5ebb520670b5194d1c408ab, 0x7f47bfb286cdb371a9dded9d46ca5b96);
  (0xd2661d5ec11757aa706a8e27cbb5caaf, 0x6d033f2caa1ba28ee9719fc9a07413eb);
  (0x650af252d115c79fe9c2d513f2a8982d, 0x8e3492d4a1012d86e79284bf1975901b);
  (0x39819aa98791a6a7328aa3fce666911c, 0x8b5e1beb32c8f60815d5653e59aa3bcc);
  (0x93fac564d2d911229e2e6b9e391ee698, 0x4a5852de6268e79309550de96d16fffa);
  (0x1124956203d1c17363f54b98246cb6, 0x7742959bd0e2f3d2b3004fcde2208033);
  (0x2409e28bf766c70b49b27b0dcb58615, 0x3967bd2e7d68db030918381295351e5);
  (0x553b54117cd8c8604f4dc8f9, 0xeb6ad1352ac2e74720750405653a1df);
  (0x0, 0x8000000000000000000000000000);
  (0x0, 0x80000000000000);
  (0x0, 0x8000000);
  (0x0, 0x2000);
  (0x0, 0x40);
  (0x0, 0x8)]
  [(0xc2b1a48ce2a83939d406ae179d3990a05217ab7daed5e73b394bdbdb4014ffb, 0x1);
  (0x3f0647b3c7907e83de6d4f61faed5e403e84ce12216b07b0436d1a362602e5d, 0x54976a8e3a09d6c1784142d7b450471b);
  (0xc38bbb73789058a5917099098f80f24572d21aec7581a029b49740a051149a4, 0x3020fa3062cb57b038085f1f6fef170c);
  (0x2750aad5d2250708c2fcb4663063c6a4476796b93834d10283369230be3604d6, 0x54c6be24f39404e1b4243ee16f3d338e);
  (0x2a60a82cd3567aa9b36f71de2ed8d790, 0x980d2120b33d9582744b5af15a40ec89);
  (0x3ce10cc8aa0bedc82feebd5bd0b2da660714b58db0bdf17fbea12a1feb1571, 0x5a41995dd091559629676773167345bb);
  (0x21392688aab25b21f5ab20ad39ae6e10b71b13d3a3a9d7ea930c7d3c4aad27f7, 0xbd35ce019fc154d383ee8c18a69e581);
  (0x81c8f2709a77754c776a3bb2156a99c217a80bfcfa44074e12f96afeab3b25a, 0x8bc68e3c6860a90bca1db9dfc71b13ea);
  (0x267cd87588c84b8ffbd1a35e0ebdc5f4bbab87e712ec2934b78472c5ec5d1185, 0x4510d309ccbd840b05f73d2b1973dac7);
  (0x225781b1e6a940774f255e0004ff550590323cdcd36504da4b21e94d0bc88a3f, 0x96715730232915c778ca8a5af6f01169);
  (0x46e487f312463ccab3c6a0ca53182945, 0x8e1bf13e3a8a690f9faec698753f5924);
  (0x10ee6f35e3c4bac23cde6d1d63a13f23c92ca14f13b1dbd44b75ef2cc63a05, 0x74bcc64e37ad63ff451f8390ebf1b5e7);
  (0xd2218cd319908e74e1c1708a5bc98aea435b753cf40ff042c2e56642d8b036d, 0x63c8736b6bd0c9a097baee14252d09b);
  (0x16e7114f64e5f57b98f0983340ea1e5c3dba61f043534553e9aa45a9652a3ec2, 0x57e18ff844ce2dcbe10fdf3313101fbe);
  (0x26255885f0816f92e19555ef88d459b7332951da0d31535ada79d8fb29eff692, 0x740d538af8ffee1c9b0c132577821112);
  (0x2002ff46728ddfc5d817328c3a14253, 0x95c5f282d9e5d8292428d32d20414285);
  (0x268ab45fd311f67ea815a0394b02757c, 0x139c7631eabfbadb058dd6d89b01cdb4);
  (0x3ecc548b6c4dbc1f5844f81821eb1decd04a94c6e03e5b6bdea6450e1724eca0, 0x56131d4531254a0fff96c84633399994);
  (0x9fe81f4cffeedbcd80859956067951e481adac3aed1bdec319e5f5bb58d6f, 0xc02b52932df46959a5e60af127aecbad);
  (0x3aaa059151f7a5bc2da38f8bbbcd45844235bf9a60bee9cf4d5f89a7bc201299, 0x4ca9a27f3735568b916dd504443b373);
  (0x10b18b5a10a7e35dc3ba2fcd23b42b49, 0xb9bc7d18863f95d84815f245dec85eb3);
  (0xbe88f52d4248d687953103132feff6640cbf7c081248d413c1c6772cffbeef6, 0x38a5d91f9687c1387fbcb9040e70ec5a)]
  (-0x3c29f5d89904739338ea26c1ab418c1c) 0x1a30f1f1755094653666b77cc0803ecd.
Definition evidence_prime_255515944373312847190720520512484175977_2 : evidence := Evidence 96557 2646270538369179315748423423599368 2
  [(0x41594398792100669364624a35c602bd, 0x23ac68c78f30cf7c8df9abfdec7d9f64);
  (0x300db9059997283c6d4ed7c00aaa2f9b, 0x701473b54db70a9eb8b7bf3ce43191ad);
  (0x3ee769d63131cec66d4a434eec4810c, 0x601c5e312c70f3e8c301484128053578);
  (0xd5c62288cdab52a72cde6d04feb8bbb8, 0x1b7da8ba60a04f49265e2d375f031dca);
  (0x11290c4df7dea006100bd75b1437e14d, 0x8f57669dc1e207d27fc938cb41b8e16f);
  (0x1a3e85f4370425274907c5f63fb1bf42, 0x396f364e3efe6a85ecdc95edc711117e);
  (0x21443cbb2f1766212ffdeccadf3a7dc, 0x470706a361932d390588cee2731aa554);
  (0x550e2f51ba6f6ea6a8ce0b9cec1b6ed0, 0x13fdea6c87f15bcb04816b15cc6d68b4);
  (0x1418efc80b2896e7af9d77909555294e, 0x7fde159d5df0eb0fd3cddf652ad5f702);
  (0x126d2d56c79dcf936cfb3c976ab7a8482, 0x2bf3572351a978af201118f2c837f3e0);
  (0x2779b08e43260c04c5a8f5d0912c7fc1, 0xa855da79e076bdd1ff4eafa47f59a5bb);
  (0x43ffee2cb89a87f35e0dfab5ceb88b2f, 0x571c60c423fffdb72d98cb2a7715c46a);
  (0x529b940478bf7359bd57a431e63fd562, 0x7254a88d616a1955b1f094c7d3f358c7);
  (0xb385e4c2ee778b732e669929b51ff515, 0x7e03a4c4545e580e53d2ecb1f64183b5);
  (0x54a37cec79c441d432cb3dcc188f4bfb, 0x835b7a87e4db7c1efa87704a8866460d);
  (0x6b7fa74db5b0d0923fdd026a60a136f2, 0x7f8dc8f036f464526af09ec144de2e80);
  (0xf62fd4ec4d4bbe24fa68a9bfa29, 0x65a5b42ad51be06c8a4b2cbf11049d71);
  (0x682b62302bf541b60482d5aac4e2c0e2, 0x2674cb69426e8689ff1bdc2c042e6f);
  (0x1ffc1fc590ac9e90b3ab57e12bae2a, 0x8d81ec10c2b07104fd00b6d5fa34baef);
  (0x923b9750f3acd3be06ad1a5cf65ffe8d, 0x4e696c7ed79a3fef5ad90e23463bfcd);
  (0x457808954c7b06b90fe7f9dad3ffb027, 0x768dda6cf99e5e03682a257c02bcafc9);
  (0x157c297aac8e114f441457cee0c99566, 0x51b671ba7e336b1f40dea52e0585a16a);
  (0x4f77e3354c4d2547b119e405f99255c8, 0x4043ef62084b12b756601a8682d4c488);
  (0x7c9024ac868057b4830de6adc8fe2dbd, 0x7b98b5bb472c148a5ae60ec088dc60ac);
  (0x37d2f4320b3b262d7b87c400872b1455, 0x9abd8f16d222f04115791b559b078a87);
  (0xf568d9bfc69548e058c7b1a0811817ba, 0x67972a61e8c429ed56b289a48724ecb6);
  (0x383fa7652e9553855c02e612c2709a44, 0x9994f6e7109cf0cf8dc62188365db020);
  (0x9d330b548e682070fdf85b3c32b21bf, 0x67fbd4658dc9733be1e8449494011d82);
  (0x579bf8e4ae3d3e6d66d64c2ea4b333e7, 0x2b75600eebc253b8bd521388bc132ce5);
  (0xb09ec7bea199f76e144b7d6c261cd3fe, 0x81c5e22b111e6107447e20dd5b54251a);
  (0xab537d957485b42b51320a1ccdc3362f, 0x824a807f2c843c445ebf100cd18bd2fa);
  (0x89dd5b243235b24d1f0159067a74ec7d, 0xb57a0e71a8b71412b0e8d33c7f14b3df);
  (0x3933814b17217a7d6c5fbbadae9d5f78, 0xa2cb02d75c70c42f921e7a47717b23ba);
  (0x87c48d569b889da5d01972a904bbc7df, 0x4a25c5cf632e4f94d133b6f607a7b84b);
  (0xae0a3dca8cda9eed6f1129420e832bb7, 0x723bb7e1119f562c8dbfe56dccfb4c31);
  (0x58be350b1aaef8325c724b393aa51afa, 0xb6e89136c6e09ba53f94d044bbc4b598);
  (0x95b0abf639e231a44f67da8fcf04b11, 0x5c5aedcb40e9b46f1d8e9dc3ea9bab97);
  (0x2f0be3143434e8ddd0903f53a90c9c3c, 0x2a68663cb45dc5092af270317fc3b56c);
  (0x346d4d60ea269961f490a402bf07c836, 0x433ea02e36727cab4c914cd6b9a0a2be);
  (0xc1dfd210f011782b10a715a8acd4fe, 0x64639cc9759476c6de256c1563e2b356);
  (0x470e4a8a60b4451711ca19b42cd8786e, 0xc10cc07d05f4a4d379541bef676bae2);
  (0x1c2b1f0bee218acd5cc7b3051404d84, 0x74df2339947bc0e4687b04595b134080);
  (0x91a1afa454a4a3633a306f0cc5cedf08, 0x1265747cb8d30568fb98809dba9e775a);
  (0x7a03555c702d2ea85d97ad52e906ad23, 0x764f66e3364488e522b9abcfb8d1bdb7);
  (0x6e1e6e7136365d6a7548b9835fad8ad3, 0x6c4ad08b7a7be4a75e11345fe963c13d);
  (0x14fcd9f0dafb9aae67471d6816469e86c, 0x66e0ed733b65e7fd3dc8a8aac037eb56);
  (0xe796e3f0f058da90e7aad4b2206e2581, 0xb3a766f865d1bf99864410cfe441f637);
  (0x549566420710c0260e7af4ff2dd3cb8e, 0x9531dce166045555876c05980af67484);
  (0x3e3d4032d220f74b944badb53806a53f, 0x5a2a3472f205b64168bf149e8cd503f1);
  (0x3f8bdcda518ab4e81754151294da6386, 0x4d580ea0c57c1bd2cff3ee7068dc4e4a);
  (0xac335e9208ab720254cd0732a3ad05c8, 0x6e86026df0e8478e400f8864f2c79c08);
  (0xd2432829daa04a4bebc48d28ee1bebfe, 0xb5f07a205602b9bb08b4a3488a01e6e4);
  (0x7bbccc8dfc0847fd2afe9978f64f, 0x8e28c20635d2e0beb145fe0e2c8d4e7d);
  (0x15311487be89999457a7c87ad9014a, 0x9a3a115d8b49dc7f72c2eb139669aa);
  (0x309351c0f7fd25cbc811ff0c76fc85f4, 0x3fd342038ed80999c95e50e387befbe);
  (0x5af2f5b46dab52b40d2e2dfef0abc0a9, 0x44542184125945a5ffdb3238503b8a93);
  (0xdd4adf80bf60b6cf5d469483daf85e2e, 0x843931d138c1781162cc693ef241e16a);
  (0x40c0f537cfece06097575eba5d5c211e, 0x91d71eb78bfe4b3abb7d5e6853f8c53a);
  (0x4b1eaf8175abf63df6752ab30a58e17, 0x4ee40f826a5e3178b76370275d1df712);
  (0xdbc659e0b826e61e97ffc8e3024b3b, 0x1e0ab6ad7ccd614770f305b4f88ca0bf);
  (0x59504146570c8164c572de3e16230d85, 0x9156dfcc49b7510d7359b924ad9a7b5);
  (0x54a7a527d5854f2111a8f9239e7eeaa9, 0x5ca6cdaad86a8eb6caa2d776bd374c51);
  (0x41cca3394fff91b840f846269b2afb13, 0x5a33ed7a960bc77bdd7b86eda2e2ef37);
  (0x6a7256bdcc2521d010b6a3d6ef40249d, 0x4f8677aff6169bda2c742ad73330117f);
  (0xc18150ec402b2fe9cd6a584e22d58de, 0x8f0bbc32cb525bc2c8fcf7087f37b316);
  (0x5636a48ce8f45fb06f930b852659c597, 0x30376b67b46d37b30bec16e6dc6a7f7a);
  (0x39499d11513e11314061c36b4a2daa47, 0x80bc2b8ec60468d0aec5d3b3d837b193);
  (0xb2892d1d68cf37aee03deb824544f72e, 0x4a3418b15b27a77c2c9a9cd28dfce25b);
  (0x1268dad2700b972cd2351e431beee14d, 0xb94180980a2d6730df528fe3d02b6bab);
  (0x3d915fda8c4591ab326875706fdb5cf9, 0x3b7cfefd8c7aedc10c6088d04f596f48);
  (0x885251aa1722e98a2de50f30b94312a7, 0x6cca11e1b9b93ed702c77f3f915d4013);
  (0xe50f0184ded30078d83b93818de90a73, 0x72774c4a95e829085bef807427186c1d);
  (0x7da7ea4eefeceac990a6c16390cd9a, 0x94609960d1c79b9feb950d9c65b5001a);
  (0x19ed81aff91c19018297966a0a3e6262, 0x9b6af4809e91919ccecda4f8dddb2d2);
  (0x50cef0c3cb730b8331a19c31cc42f6b, 0x46990fc38a32da32fe25e31101ab68be);
  (0x171fd6a555e242ecca5bcdf212151d2f1, 0x1f289797344cb034ffe710d319e986af);
  (0x63cf8226d42aebf081556769218e213b, 0xbc93c3e9814180892179f6ffcb5ceace);
  (0x439b62db41333de4297d6b1e51a116a7, 0x8a83e69ff56b9e28fed5939d207b2e01);
  (0x14252c1b69532875b1cef3f64b8f889a, 0x509c366101bcf6ec943e01273b3d0b48);
  (0x67cc7e5b2332589cdfd84215fd655965, 0x2c00b61bc8ec51387c7a00640cbf74d5);
  (0x36e898b941f70ec33579992150c3657, 0x63e1fb1a818f579c04efce3ab3519751);
  (0x49b5be7221c094f1eadfa4f1c2c2b4d1, 0x19af34a981cc50d266c29830fd50dd90);
  (0xe9326f5aa71d09377f0875ccb8f6241d, 0x7708cac812d95561edb99dd85ff9fde3);
  (0xbdbfc405be385ec54441b117ac6be563, 0x95b63247652e71f5cf4780c22b82c9d6);
  (0x5afadd36682a38e242b9dd3088b95f73, 0xbefc249afa2b4896ecb73cd41f2cfa99);
  (0x933153ad70a8c78554b1646431770c0b, 0x843ef0994b5819a7bfb4aa06e026440e);
  (0x762add3fb6a7eb5af15918c0c8480e1, 0xa835d0da1509bf457d49a74ec46918d7);
  (0x8fecc269b84f6c786c5bb4f803935fc, 0x1aa49be360bdb4d86ab797a82c0df934);
  (0x366d24a887d5ab763b08cc16f6def98c, 0x299547dac54692c102430434b1d5ed94);
  (0x9e7d1b7b04c4e3a90d1c557585e3199, 0x4853a49a3ea6c8abcc18b3d5bdc0b4e0);
  (0x64db0d3978d2141ef685979beb3401ba, 0x2ba2e7e2012cbec8c36cc8a66542262f);
  (0x6d087e692c211a2f6237f4de46cf2d3, 0x8b3d102ca4a0bcd64520e056e9ed1775);
  (0x71b3129ae4478777dbff9dbf1f09b10, 0x24317e6f9da43bd1d82a7a5cdbff1100);
  (0x91f5f5b636171820606404203a34cac6, 0x24f5af8ccc5c4df052a1f1fd06877bcc);
  (0xecea180bbf1b90498f7bb6be459aa2, 0x76719d4234f476b127f52d3f52a2363f);
  (0x153f6e4a750a4af3e2264fc35c10ea263, 0xd567bbe22bcb2aa9150748a5ce5ecc7);
  (0x9794d4bbc40906353c992a9ad384692, 0xb4c37bdb9cae86a9ed104d774fe83447);
  (0x90c0e757984c9984a7878c838584246, 0x2aacc427498977acb38152d12ca38a33);
  (0x1599870bfdf2bb8191f827a4bdd660c, 0x29b3e22149f36129a187549164467aad);
  (0x44b2ddae29304aaada2ff870e2ce1305, 0x101bf2e5a0b9e8e56a70416a243f8c3b);
  (0x243a0f0754aea0e268006fefa233edfe, 0x514229793854dafa6ac9e1471b81429a);
  (0xaa8da, 0x3b01fd384184189bd32085ec72515e96);
  (0x0, 0x200228484e9f7f02000);
  (0x148d89d5e7aebe947c836a439bf36081, 0x10008a0fc0);
  (0x5, 0x3edb1881dc80ab7fde2fc4004205cdf3);
  (0x0, 0x20000000000000000);
  (0x0, 0x100000000);
  (0x0, 0x10000);
  (0x0, 0x100);
  (0x0, 0x10);
  (0x0, 0x4)]
  [(0x6b70f3c33a3e7189acf2ee5b522f5c89606cabcf21b409cbaef1062a70437, 0x1);
  (0x8489b1783f0775270a8a7d19927cd99f, 0x603ef01af1a4f0d7856d745c3395112);
  (0x1bc99fe4d0d2d4d692aef285becb782e2a058ed1884a9d3baab35ba2d9d5899, 0x9f9df630dadf13872460af7fbf9eafe3);
  (0xad2a99d6f11cfcac7b19faa82ec6888ee935724d1abfd08aac6747c1a1b329f, 0x30f250c5e4b69e0da1ad64b9106b5109);
  (0x5ed7948028d27f68e2169be6f199525, 0x7a301d840c3135c85a23581b6e92fe2c);
  (0x33f18ab6d96e5c1053a7d35c9eb34ca75fc382426010ca92ef2f6e7685ac6ed, 0x21c183982bbfa78279c4e850eaeee75b);
  (0xa0d4b35a1cb5f5cdb7a84c130bcca3e6, 0x42ebc4f4685ca9c0ae63a9f9717dc4ae);
  (0x8e43b44fe5304c9fe0b36e29a2cc9517, 0xafd494ea764629938bff376c7bb25782);
  (0xe3bdb67310c1268dcba8d8169e52e32f516df01c67d240656f9ac9087e144f, 0xa55ecb54d272450626c24c84d1b663d9);
  (0x11136a869ed2bc8478508b20736d00e4, 0x230808773d22285706d00d65fd23870c);
  (0x4c426bf65f5f4bdd7e707712767d5ac5, 0x394af79918617e998ec279403529e674);
  (0x77baaad9b7825ef1b1959943473bfc30765a7185f99182fd8b718d838f782b, 0x7913514e01c3eabfa283d61c432d36a1);
  (0x134edf59487ae2a2e2ced3c268b73502535bb3a3fecf04ff56a56f1b223ec7d1, 0x1966713f88a22e41ba1a1213162783cb);
  (0x52303d0fc6a9c236399c6f210bdd0b6701e52b1855f8225b30853e7ec30f7cf, 0xa333c9aa0191e0c17ef030290b0342bd);
  (0x14f85ac815f24114c46efda0b856de81586aa01542aaa6c01c5b13bba4a838a1, 0x542dbb49d29759a66268e85c53399ef7);
  (0x69ec698296058c6ed8914bf66049908, 0xaa14df4df0b76191a5848cc2bb4f1ac8)]
  0x275f06e520cf17b3013a76586486da13 (-0x74e7283cdf390edd3e6f1d05c6cc498).
Lemma prime_255515944373312847190720520512484175977 : prime 255515944373312847190720520512484175977.
Proof.
  apply (prime_by 255515944373312847190720520512484175977 128 84766422547625616272654086919284035479 [evidence_prime_255515944373312847190720520512484175977_0; evidence_prime_255515944373312847190720520512484175977_1; evidence_prime_255515944373312847190720520512484175977_2]); [reflexivity|discriminate|reflexivity| |vm_compute; reflexivity|reflexivity| |vm_compute; reflexivity].
  - repeat constructor; cbn; intros H; decompose [or] H; try contradiction; discriminate.
  - intros e [<-|[<-|[<-|[]]]]; [exact prime_107590001|exact prime_7240687|exact prime_96557].
Qed.

Definition evidence_prime_205115282021455665897114700593932402728804164701536103180137503955397371_0 : evidence := Evidence 255515944373312847190720520512484175977 802749442992798076634733441528810 2
  [(0x1d4a9c66ed1bfc3cf4fa372a7e1306712ff318eb2840053e12cd86596f15, 0x7b08ccbe4749ceb24c5edd1bcdf1f473d4aac9b13960ce85a31117c6622);
  (0x1c3f5c1018f98f61f21e4b275461606eee309ba3a9e8894ea044947669b5, 0x1d812e65854513583ad411126493235b7082eca0a26c04694360a2e45feb);
  (0xab49300873a0e3c0c9aeb9c2cc715cecb278e2c0e2cfe88cee8a3c6d56, 0x147cddf17d756fe93b61d2687da688964514062db4fdd618530012ad4687);
  (0x8650c04e504b331255b8cf4d46bd99e8ca016a26524edc150ec45ee3227, 0x47590665e0325903634890110371401b01d56d185cf479a843f4bc16b65);
  (0xd293642324d1abfbb9c19264c07f7f597f67627d119e5b959c61dad91a5, 0xb2b381c52d22301a83aeeea43a3b31ae9ace9237977780bc9562fcd6d49);
  (0x13919aac4764acf14287c60762a23cf21c97ea25e1a988c65fab2af8ea, 0x13c6f3445b1b8bae3812ca2446d389905dcb1e8a304da5452bac3d931184);
  (0x3b2e3ca37ddbcb82fa91acae513873c1cdde3207be267e7962a0c4918fe7, 0x110d6bf5229a876bc0cd566b26c91b4923849532d84c3008feccc5ed18b);
  (0x9962c847e684d5632a920680ac59ab3297a19986e87c0d553d7cd6cfa30, 0x1da79d96c7fc0cf414f0ed5cd73298a0a0e2d43dd28d1c09f4b8459b18e2);
  (0x1505ce24effde1864308731fedc7ac47d0e67f8593a4a28f448d24faaaef, 0xbef76c515919eccc148bf8b1333aaa990740943dc0ad3122edff0e0a3cb);
  (0x4d038a8ea653ec33c877572f31545c6f731b1cd2010e4b5a6faf9b1fbc2, 0x11acafb932918b903e2f10e5724c41ca6200ca91cdd27db9c8d4f9cd4d5c);
  (0x2d0e1651e8ad8be09844c1d5dec1a47672d1f51c98200b15c80c9c7442, 0x8750dfbbe46280457755cbca0aa4a7f4ee78c7559166e92b99ee605d963);
  (0xce5b1984c6ed934a31400c08e0d3dd007940bb019ccb646e932c2d016a2, 0x2497a8e7ff30137800406438616dfdd622fbc592e13e691fd02ac34eefb);
  (0x723bf20fe072b37d7f1da666848a1da164928fa20ce8bea68e0bc571ee1, 0x1393f69ebc0ba499bfaf60d5ca1ef3a0df62a0f08bab68a255ac69874c37);
  (0x31c2a1a2bef1eed1e37566362aa3308c1ed55be65427d2d2cc1fcc3c737, 0xa4cd5094bc3e951051f2d30a8a599b77e809d8fd76230bb84e64c4a7793);
  (0x1b7568bf7db0f274dac7f3deebc6b177e9df7ec259f2dff8340ecfe83114, 0x6cc4e9de1f9f78643e35b678af66276444281e7e9770825700668f3e688);
  (0x343b887484af52d49c812b6882eb68752f363ba64e6679e488ba690033e, 0x1c910e5e7bee618fd637b1f4321f126487c9f3b7a74ef83da263d47f103a);
  (0xb5ae2df60bb17f417d37ae2eee0982bc4096254217afe67f90aaa8eeac, 0x9d9908baee7a1a08221be81014f7011443dba2db0082a3d09404c31357e);
  (0x13bb28401644093dbbee2212d0251aeb7288220277b2993558d508e17e45, 0x33f56f6d351fe9f27d6042ce62e645a1897e838bd0fd8e3908e23e322e9);
  (0x147ac6f807d4115f538f9b980b7709eb6b73b00996fea8f4af5421a7ff4a, 0x1837309b801009129dbe25f3fdf9d90499c3be8ecf7bce8186ab60acf334);
  (0xf43157204f16105ddfbf047dcf02cc430c433ed43e5d840b5974f057343, 0x1171dc68ccb545c1230815b72b41627838de95355a85062ef8b17f90a34f);
  (0x7b8d356e555c51ae57c431076e6a9116f9e2dea485e67e2ab21c43aa736, 0x154c202ad86130b2d304eab5aa034ad30f3e124dc4f59d19d6f510a16460);
  (0x1f119bcfa625b73e4495ff98848041b80ceeba179849cbd5d4b53456731d, 0xab642a012634a21b6339c6bee35d1f31bf4c8f67ecce29d4ee28729bab3);
  (0x3883089bd0d2e9bb0e2e472205448b4cfeb626c29b62099e7ade752dd2b, 0x157c8e62adc5664a9de44842c0b6311a0401e36700e0802632f87de1b969);
  (0x2101faedc63486f4d132bcf38805fb5ff11cc17de7db5d39bf3461fa7ddf, 0x73e9df7de1d42e6e5edee1ff4c060b190d8ec0c03dcb36a3234924f8763);
  (0x2f4e461636b09e4b4c8149f7ce5dfb04c9bf9566e89f4af83e39a8d74786, 0x1625995778fba79165601139b6c9dfd6bdcc0f35149b986e6a3ea389201e);
  (0x1e5a660bf0475d44962d7252d396ebd50d60ddaa2619f8aed392b2deb9ee, 0x1a835e885be567b233701d0c0d697789a9585f2fc98d69313fca93e50858);
  (0x23184e100696f1c2e2f664b9ec6098e6f642538f997350493e836a979417, 0x153cd5bd180456acea82eef76a9a6915ad9611c8ee4f8b9ba705b223a7a5);
  (0x90b0f14305443b60fa05f285c7abbd4a108031c8166aa5421eaef9c4ded, 0x16d61b51d362de99119f09c549bd11d9ac69fd43af9ccda73c136e21a805);
  (0x201b49ed1edc1b9023fa53830c6c9d10e0d709843001c60573441707535, 0x1064d25a1770227a9351b74a96619b6a09bd8718ef17b6694d4006dc8b4a);
  (0x4b5ed0c5f87e8619e300aeffe32236229c3541badc2e938c9f2242102d, 0x7b8f44ae97d041a360005f5847d18f33e61a44e273ebe8c26b617621221);
  (0x10104efe001f47255701e77044909705b922929ea14305a5081f95bc6b48, 0x2f5403e5641e4cc9bc0ba2f6af42d0f4e36ad9a6b892b871bde3336b2f8);
  (0x516e73e8fbb271dcbb3c542363b65d5d4b21fccbe883d7d10b25cfe3987, 0x15d97bb64ada1f05630a7e84af2d777d9d6e67817320ae814c9314122934);
  (0x1ad4139a8c0c39b0bfec85e2358dacf5710833d136af98fdc799bb4b7026, 0xc4c70f25f8e13ab6a863f3bbc7379c28451c37cd512ce1f3d1283b5a7d7);
  (0xacf18ad1f762d0bc5224b5d1fea20db32c55fc1528770cc1abdc08210cb, 0x1c3ca5cfb96cc67549832b5a9a9fdf9ad7e7ba9a9af688456ad88e3b3d7b);
  (0x151be4f54fada3db6c640fad3403c2f4d3dbaa8a9e8d5cbdc37ae42b16ec, 0x11ec4c59246c56abced1d5e7d82ab7f332f50527066a36c5b17b6ddf685e);
  (0x31b69ae2d3cdea2e64057b31419d8e94f1352a038b5da19bd5e813282a7d, 0x11b5f66596a29bc42fad71212bbeb2ac357f2ec5e248e917080943b045f1);
  (0x24fad1ea8836d21c158da1a70ab40fe30c5491f32dcf799afdf15a915830, 0x1b2df10d65c09ea7ba3880de5fd2db64358cebf1654307ad21066c47bc78);
  (0x54ea43c3625206a8dfbb57b6bf2649bbe684b4243f5bfc770b660cabba2, 0x17710a5d14547dcc7693863bad7455da5cbb74ceb74676fc726560b82032);
  (0x2b8ae00d716f7d2918f2b954324d4a81a2936457e28ccbec19366a8cd57c, 0x8e167db1bcac71194e94fa7961212802b0cc8a5b35f04236fdded9e9a7e);
  (0x30e231646988a733f592fc53736b6cca085a1f492d34af2b58e4a4850f2f, 0x196fccd9bab13b812f76396b93c99ba52455bc85532894ef78316e9aa7bd);
  (0xe69ec9dc10b41190e1d4dcbe04b6415ad5f2e80cde8c942aeb488a0487f, 0x1af3a1c2f8e1ba9ea5633a827bcb505e2fe55c9100e25b63020d4c049d6d);
  (0x2a431aad6d20a47660e745ac6cf82629ebb0d5f6636bef4a03960eb504c, 0xea290890ae0bb2124a54bb79954c4db126fc65528457ed2101ddf97fab5);
  (0x15ae96fabcf203acc20e7caf62cd1946a9ec80cc036a91300cd0cae7f53d, 0x8dc2aec51505445b74c2685f1b2f526ed58085562b46f3bc7216342c6d5);
  (0xdaa76fd238ff38b088d122671a6c526047c08da23f66b444a72e3a37ae5, 0x1962706f7f0e521531725769e494d7ee9e8a7937641a24f4f072b0c9635a);
  (0xf4070b4ee8bb5697d87d4bd7049fe249ceb4a8a95521db991a1c30e77a6, 0x142726afbd68a740b14a112c04c44c88f1d2b0e89af64cc147cc2c2e8e8f);
  (0x75c2fd756c67f437fb86320b85eaf4c91fde9dc1c16c14c6b20c3585a10, 0x154a47e94858069487990b04d16261e1507c3685cae8d3be6a3e5ad96509);
  (0xe85282a04fb73be2b1b045fbc74c4ef5635cb404fdd31bdd42f09b89a5f, 0xeca2e954c82553ad161aef9cac3ab09c92b74679ffd11c2ffb04d8b796b);
  (0x32142f47ba25d6bb0595352c2c4334f4a1065adf1588d0829556e96d12, 0x14c5f55dcbaa77e3ce47bc7e164ea0ec3cd555e715163a419d4ebdbf53cc);
  (0x9b50070887c2f3e1e29acf2fbfbb6e1469874564fbd46609ae48bcf35c7, 0x1b4779d3b2b53aa6788af9547c77009e6502555c3d1a7714a94ad03c055);
  (0xd3a89416b20d1ac4934b461618f2bac32c9c6bf4f4592c6da60fc0eb57b, 0xc029830124ee2f55c521cad2c64372912583f9b748e8e83745594f88dab);
  (0xfdca1bc29bac07ad780f817e487b57cc414bef09e7f1bd7489d6b844d89, 0x13d3f340b486bd9b2559259b5932d3b0852266dc060a7c747ff7d8a0b96e);
  (0x501d33171f750976720d6eb314cd09083a4da7984352cbb27dd01a8aad9, 0x15b63a2d4abbb2c8feb8b6733797c7ea0c1a684c87be369f6389a7510a61);
  (0x22085debbd94c8be4d5a1ec3acc83a756bf876d5049098ba0c9dd8af4b6e, 0xc32dea2674d10902c7cd91c0e819dbb0bc4874a9131a8b9b823101d5746);
  (0x25da8126c1a71f0781950f2111df3961552d04f0f32b761082aafcfaeba, 0x167cf398f6ec74480dedc535eb456c300c5cb9ae29ae23628afc53e76d84);
  (0x9c421eca724a7a80d1febf75c7d0d805545aaaa813c3c71733673382d3, 0x5ede1836c0b7b1e700de24313e179f877f31ba71b6d10f5012da25ed6a7);
  (0xf4b5bf852969fa6c958b94c022c35a697b19ea7d27ffa0c0af9d3a78ca, 0x302fc3397d9461c4acebc6d97fc1f6018fd9ab165f574d5b5f498b2bef2);
  (0x1e3cedd8061d43f307c264f3b905af7a6b7a575d45e4e33942e6ec22d0b0, 0x5547961de0bed1f5921cfc9db763cceae9edf7a6fdf94440695b5882890);
  (0x1a32a79729c7d15739a91c5a25c1eafdaa1eda2cec8449a6f1f7082134, 0x153283f26ea9b04fbe95bfbbe83b89d96f43c3dbb3c3532f0381aa4902cc);
  (0x2526ea64f905d8c11706c9809780e042caead8c573f2cf6881e0f4f0ae, 0x13bb004c7380e7fc5d7db2c478735ac5a5b438cda8899876950c3ce18f6);
  (0x1e847c77f3507a8e8fa36bca5ce16db9f4286399c22b2483bcc4cad2ec, 0x213a7ec24812df0967c236914b5433c57a44ed80f9ea49d429e8004192c);
  (0x158b9b61d916c1450daa7048f5973b756215ff201f38eaff9c6b55482c30, 0x1e1da3f6e9b346ec1227d93e834739e319d79613ef91a3adf46283334b4);
  (0x14b69108469ed3c1b6f55430e2547573d44918140199ea61be2deb248775, 0x194dedb26913b43b3a5333c6b2ad995fb56d1d82ab863b48b5daa563b3b2);
  (0xfe7ae96fdeebda623bcae3d6a1222a6a8c745c8e3d8e3358f12e4e09e32, 0x18cf976bd0dddd35aec49732284699ca19df1616eb666bff22a93ef0be13);
  (0x120928cd6684c3cb61d5d496c72e5e94c94156eb109a45b71519d0ef87b2, 0x15bdc8f11877288c29ece4d367d26292d9907318df5b812245cfdaa5eb7b);
  (0x20d88debaad7c52225f33908bd1beb31b62856d31c9bc03f95b67e1100d, 0x1726e40dbe58ff42754de8874a4098304738e9c8ba78c6c8281f928ef581);
  (0x67a2eb48a83943504cd7280241ff8c6ca78e49f707ca3935411d279ff3, 0x7cf961da5e9302e634bfe44207de81385d02493c88eca17852226b68448);
  (0x1e77ac5022da0a685f7201d9594da74fc58541c8abf2e018841d2c233f, 0x377f6f1030e71a4880e862c8e65c4c0331c8303486c8eec4211259939bd);
  (0xf2e7647c588d406ff1764b8b56376a2fdb0b71752dcdbb4d128e43e85, 0x15471116a907a8550bc11ee0f5e50f49c64fb6bc25a9442b48c295a15a1);
  (0x96582ac72bb4768558994c594fd83e22162ef3b4753280bd68e1deaa9b0, 0xf050c2a672b22bd6ce8afd4538c411b8e6abe2d50d4e9d087b89556682);
  (0x1713adf9353bf5bd218dd52e6ddfd1338094ab89401fe9070d6c104b178f, 0xbd104e36b9b36f23b751b8557b2f9d3a273b252f9b5372dd6df92cca77d);
  (0x2b52540effe0e661621920649accebfd909394cfaee8e814f06aef2764, 0x1284989ff78daea43c2147757c720d8173ec7f4aaedfebc24f58fa28cf25);
  (0xa6abe2c2b6aec8bcb04a35195b2b3ef5afde6a064d298f103d8205166b0, 0x23e1b02a86454f6d40e29dd0bec1657dba9f60be485c73a8f3ecb6202f9);
  (0xf1a1f9a75f5fe0af56605af78a7a32c737e7f55ed3f742b2c82a947c84d, 0x1198541f00cf80b163ad3141337fd8786bfd7d5fef8d6619d54518d5c043);
  (0x28c3537e6678b83faac62d2b4f4afebbfa688b7a4eb36d972c72b8bebbe9, 0xefaf930a887bb0bb44ddd2cbd3ec8c19b0594a5e5009c2f537bc679df0f);
  (0x1b0121442cb32fe8467b7961a6ba6f51b47d2f19cd37c835210096615fdf, 0x189c8943dfb82cba4a4faa8fb965daf65fb4dc9e545b1c8ad9bf54bb5c5f);
  (0x786f452d8b85995cd83659c4dd2b1a431e3d148caa9a92cb2d914a52f9a, 0x1c54517a43d1f3e5b89d537db2cb3b4f5ffd8eb248c3b3ab90bb7da28c82);
  (0xe21ecebe8863d65763e5d11652cd1668eeb30104938cacafc3613c6a80e, 0xa9372d50daeacf0a9c9d0032e768607b2379789642ac10a1445a1c619a8);
  (0x1c79ed580d7cae3da99a2b5d2d0897ec7f9fec3e09f5fa9b8cf3bedbb181, 0xe7dd520dbc6655a34831f98eeff412e6d9e12193b7d3be58d64a81c7747);
  (0x378f36a56fd7a92580083a909a925d6e31aec3a6e5e4d7ecf72ae2062af9, 0x1492104092a494dfbc1a56ab6481bdd5750b1de3ce19332e70dd03ba59cf);
  (0x2332335f780e6ef674409416bcc974c6af6e25127f7fe5b826ad24baa7, 0x1cbbb064ad16a1c9f251737c99abafa3bcaad90ac1d54f489eee40b7cfcb);
  (0x26289e364f648fea3b6ea76dba8f1cfd818a072c423031245321c78be2fc, 0x16de869ef8ce0b82c6d0b3d110757ed561a47202ea0d0e5fdf4bac7a74e);
  (0x1cdd621a51cceebf19faaa58d24dbdb1bc51a5025281d1f06162393300bd, 0x17cff1febe2603883c6bd3eec0b150d2be83f39b9e56f75961d65cd5faf9);
  (0x3202338e95612c8ddc8259ed832675c6a0692a348c3ef4dbbc812aa3f66, 0x14b5dd35fb3d81de3b12bdc97a629c6da80435f42fc296049632bae9f646);
  (0x75027a31e4d1262b114a2d3298fbe8163686f53271440976417bf95371d, 0x6d0a4e055777a35953dca793cbef33e0fb05367f5ad9f6fa7cf0c9fa1da);
  (0xcc9a5c1e5faa52928bf72d6bb9e7755a4ced7755f4e3dc026f5b6e564f, 0xebe12dddac31de8c9cca101b169f22c78d6b3f89048744eac62a2d0391d);
  (0x18fa7a9c7d7adb1cc77b3dfb1248cc82e8e8ad29c3838ea0d57b8f80d065, 0x3723a2c3c13f2e76ae48c2844fbaea97ef1a00c5f44a6c448d919fe7a1d);
  (0x38ae8f9e1746930d9b69cf7b31579d904e91c12677669c283d3aeb57dae8, 0x1b3ef737bddb225c17afb50fb0c0129d98ccf2bdc3ad89b2f5ef03744eba);
  (0x59deb9e6743fc2a659a767f2610810abc8b6ed025e7097a447a790ab6c2, 0x1d059eb5186a8b589c66fd321404fe601dec0de744c374dca99350907ffb);
  (0x88989de5589f0c6e1c22a6476c850a1a1bd22d5e610d9299d65fb60efd, 0xceb8dc4f67af60c142a1ea8b523fb53399af1323c996a668c9e5b2bd1f9);
  (0x5caff682bbca5176d045d5f9db957bd2a5179e3ffa966edacd1f8083cc, 0x2d0d91b3f9a5d62df5b8b6d42079b8f0c69259aa7489593626cfd6d933e);
  (0x2a817515db94293bf7832c033f857faaaef4263fe900a6246c0ee318331d, 0x251cae456e9244e3967f9e1c6f988fcb0424dc324a747ed5a90bf2a6891);
  (0x18d91e5fc872d6ecfa83ca9853a4f808a7348fdba123346c5211692c9a6, 0x1921ce98140a77dabb8c335710d640e81341e97a2f35d0d9b8cc84f542a0);
  (0x1cb8796ad71f41f35ae30745896e10725177d0f54bc31dadd200f298af33, 0x4cdca74794b8470e6b11ee31d1d0c3b7fb4451e842921cad4c9f24a8b07);
  (0xeb9f08a7d9353423b0b633db06e1909fd07dd2ae3397969e140370b7405, 0x14a89b436836b3ca9d8ef9fc855ed1258cb440f7785d60b988fa2586c602);
  (0xd11bf29789396b6488d7722940d30dd1c7bc13d6972c495046871246f64, 0x14eb950cea0a63b286e42e13926aba5d0e2da16189940fca8d58e4bd3aad);
  (0x6c12fd50a9f239fd3f3786fa8909baae5f51b7a25f44c867a292d4f46a, 0x13b549ead2604147d3bff1a71ad23711795c6e542baa14f8c32d53af43eb);
  (0xddad72a80a882e6b411754d6fc6ed82c1a6830243556f6a1075bffc906d, 0x38ac6e53c80c8b97e78ed1ca3ab7e934c203a1a7fc1c241b63636f22a65);
  (0x110270a95d48ad55892e209ca2dd8a92931fc8077a5649a85dcbda955e0d, 0x144ab2bf5e0121180008079e2441e737bb99d766cb72f47a0f10d3af0d92);
  (0xa30cccc9d3fc31c3607900a0f01ec7e2d90ff2e653adcf41c60d5d7561, 0x167bcca9b875b41cb80da828a2993b28e841728223f0134ca0a04005e4f7);
  (0x2274aa0e86b3093dbe7049113dc1cd95d9, 0x3138ff07cc122c0104f90e6e2b7d458a60a9f5ba24184b48786b373fa3d);
  (0x0, 0x200000f48001d3088000000000000000000000000000000);
  (0x89d2a000000000000000, 0x1000003d2000000000000000);
  (0x0, 0x4000000000000000000000000000000000000000);
  (0x0, 0x80000000000000000000);
  (0x0, 0x8000000000);
  (0x0, 0x80000);
  (0x0, 0x200);
  (0x0, 0x10);
  (0x0, 0x4)]
  [(0x11ca4bacb963714e069ba0f8c996d11300badb9e60b3ba87afedf8f04b415a22c511cd95a8d59eb6933fb8b29dd90024abc33132538a95028f732d, 0x1);
  (0x12eea5ccddc380ca6ce430d20c664ee571a9fabbba420441fa3286591cdc, 0x84abd834f410a145e8196091c147329c2d785626c185839b30da53fbd4c);
  (0x3ee4b0d24630537993d868aa7a97d8e84ac423fa68702cd759e714d9033, 0x17b865daa7d6434defb0c1a2cfc2967921cf3d6909859ec69566d44b4110);
  (0x34255d01a15c1ff2504f97cecdd75e8932c6c7d418fbe2d029673ab3174b4dee4a39a3410a5c30256ddf0be7dcbef219edcd909c44bd3ff5c7032d, 0xacef3ed62d06a38f8c1a22dfafaaf8307f636b023d7c4411084c7157369);
  (0x201e584abd3223f2c3236f3130fb65d52fc1e2cf3ca75f9022d2ddbe021, 0xe3243b57025073c59f28780d20cee1bec8f367eaa6f8a6ff1df42addcbe);
  (0xc68e245a995160afcc2777cb2a8d14596588b6070b9317ec4369c63d808481816fe04e3512e53d04c1e43f9963e03ccc133754792d4253918b8ba7, 0x7b9525fa47a569e80d83096b7839be6e4ea65935449e98f731d403f6d85);
  (0x53c8b90c23c0bff3075443590b32bc636532b290530ae23684d9f756487ff50e765d919c84c42040f88ba26d19e2b8fa9f2d67d4374b045e37a7cb, 0x1bb3a4d20ea75fb5aa39dd0d06d16a5e47bed7a986d635a729da651e8b17);
  (0x270c2acd3217bd58bd2ce5597465aeb8cb4509ac4598bfa1171d282134, 0x11feab2ad514f80db889c24f41b2ef6e424f0aac41dbfa24f0acbd90da94);
  (0x618ab5a7a120114f539995a0c40bc32e1674ed4f244c54608313e637e70, 0x2210cc68b964ba3e45cc889e3d0a0567b4cb86f93abf3d6cef69ff095f4);
  (0x1725e5d4a92567845243d0b930c3a8d9af657b47f049904998a4ac46da3d, 0xd75d6b5aea8d03cdd93d108053c5086d31beeaed71b27169de8a625a132);
  (0x84ce650c2545c5486005a61d0ac5dc4dc6603beea0a22c3aabe638be706, 0x1a3a8b74c4241e7221db84a3ffeb5a407323987e905f706dc28c9c28117f);
  (0xdf80f147cc932a8cd7ab8275dcd620318774a1321011c42061cdb51fc0f, 0xfb4c3e24ff72e56bff4205f1f0d699637d0f359fe4962b163fb1cca844f);
  (0x3e3eb764547eea36926354bf335b7a8815201497876bb1cca2060deb48d9f86e78b04bb4d700155285d43614940fafb1128df2f7f45725ac929d8c, 0x14600d0ca43aecf3dcbe2e5998496c7a95763f0b3caea5aeff32c0ecfcbe);
  (0xcd7d6ecc33cb544993ca9dc4e70fc9158e9c7d95f808d822b1b789e36a79d02a900a5c3405ea79bbbffc013fb301132478923312bdd1a6b25b865d, 0xf829ef282049499bed423399aaacb5fdad06eb919a6938b4db7b5453d19);
  (0x20753a7c37768135d0a92aadeeaf175437810fdc2f22d3e493f9f10f4f1bafdb326df30fa012880e634fd3830c8e686e469fc2963e2260c7f27a44, 0x1c2e6c13dc24ce02b301e1c5b597e626a44814c94b166463071c07eac596);
  (0x153629e5583d6f1ed9637bcff3c84217496cbac70aabedf26396f578291b, 0xb3341c312de0ffb66ff0d927ed095b2ad7666b8399c15dcb10414608b97);
  (0x824ad453ca09ab140324d13b9542494f89e0fde97ab4041915a484a8080, 0x191b8ea88e33b03522e3f645bf396fba7e2ac9ae2c9026298bedc9f1b464);
  (0x4b2c11b94b9a8f3bd3fa50d1f3bddae39c8d20983b2a589ec9f9e1c1b69, 0xf8e873b8fb8040072f2add9ca09c75bfce1b71105d79178d128b7018416);
  (0x21cf2168680901a56941a33efc955dd65e057e3f771c9625f6e492b2cc5, 0xbd10499aca5bd8b05291eb01cbd5d58a66a29e6f5bc2482996cee0f7afd);
  (0x14e0492368f0a986d877e8e83495d06fe590aeb8bbef2e126a4ffcecc824f38713ac08e142cbae76e1f4c57dd82464b30a4f077d14d248337740a, 0x7ecb1634514f51e089c7bb27d397941cb7d4ffe4273adba38494205967a);
  (0x624d99d111c562cd9d72137420bdf85c858c7133a285027374c35f735bdd7c5d31670594a17511acb1ea6cd7937af3780635d15c53b148e1028b68, 0x23edf362cd298b54a3a345e2875c2cf046da2027ef2953a70f8cb5858ea);
  (0xa521b7923f2a2de4821a68f6d2b9d64ec425108c399e3da8e566010a69, 0x137de0b46e79097315cff2930d8a38f70548f914d497aa7e522f2ba694f1);
  (0xbb4a91b52af984e488c66e4f32cacd45c777f49ab81cb499fc1fed80f1e, 0x460de613654d8540c47cbaa225d4337211d69d53a59c6ddbffffa904196);
  (0xa0466639b38e4c073017bdd163774e90a4b592b6dda86e2ffda4e5c98128f48ac98f37e34a3d89cad5a68e848c4c8f3d8ba750f5161519edb5a260, 0x12a6d57cd0fdd7ae95912ff04b7132bb677bfac4955b149d16c2b76d8100);
  (0x9877c599f08401c2be27cdb239223c21ca4326167f03f6ab8607c372e74eb021432fa1db509a78d75ff0756cce3673420cd2763520c713075bdb7c, 0x18e37661188b7046d7b84aea62c3a0471c6a58d62918436c3e350fd4f9ec);
  (0x8f92a37dfc62357aa4d0ed2e682f6b494aa07a7ff5aad1bb431694b98c55b8e1552e6ae52fc91edfa694c972a9c3bae11c1bb044205908d34dd1e, 0x1846586b7f246ae67aa3c93bfd028d29eb053f1b95e1c5afbdaf54691fa8);
  (0xd56fa7c69bc37a5af2fee76abe7b30f83785ca72fb46d000eab7a8492fc8fc6c188e1ac6e1a8f7076aa270fdccd033398d690a3a000b84494ed4d7, 0x5e3963bf53e7dacaee78ac6f5865ae6da2e9ace45b26651ae4e76ea3a75);
  (0x52fde8d2d0c600085abbabb92f7378ad67443779a8b615e015891894bfa1e0ff5cdd16a9a871d633e45d642f85c51736dac584bea3c08097182003, 0x1cb89685aed2e9e2a802d8e65613bb8b849ac51c9fa18da29a56d1f28957);
  (0x4932c1cdaa8add4d48f39e0c1ca7bf1af06d6d60b3507d7f0fb5c6fd627949bdb3cb8fe4e284cac5d9953911acb2fcdb67181b7557060e62b813b6, 0x11e8d65169704656218bedc5c4fee82b9b3382167ffbc9def22d0d3f9ed6);
  (0xd2c4a1abc121ed731cce933358688415fc90b1ee5370b1efff5f6ec26775652edb7c16b8753deb86c59409d924320ed12bc657e9c8f8c5fb646dfa, 0x10d1d3e2265d58ba8fb58c28df2d1a914fa80215c5c3224c1cdfef7c93aa);
  (0xf911e04d0c0fb87111f4d77e50136e5c6608cbd91e2ba4b7b7c97b35a, 0x1c8a7ce61e90925396510f3a004a4f7b7ffbe48829c8b823360c1d7d33a6);
  (0x880ac259dc8787a717817e11bbdd51062ed5d7b48c82396699a235b81b825e20f72ea0d3c1c3c09cee301987f2e0640ee87885ad204bcef3026238, 0x15824d60a8adfcf789e7b3fbcafc2fe390d7546fbdc25fe3f9491e578aa);
  (0x65b5f56c2b04a08add3bcbcf1a4ec387c0cbd7f520f9754d7e5ea9481f, 0x16ee10354a9c26a1589be6362f3aed72b452ab28b2b81018dab7c032dfab);
  (0x6077a8375c92af886a68ea6946d3be51db11a8c1f6da0b21b9e460bb7, 0x36fad2d9c5c717f40fc375b2ef2b2137d71b436b751b4558c58f3365d84);
  (0x8d80b1684142b1e06302bb0c6b77b0fe950f5b31c2e7421e7236572cfde0f9cb2ac7877e670d037ffe49a3fc425c62abbbe9d6c614a05428a74d7b, 0xd62cee5c9d532ef53b6ea9d80de0f4e5fb1100228897d85e8376c774d9);
  (0x1ed672b9edeb079507037d409ffdc51ab86e48200b873a78692a3349b2d174ea37273af3be03a0062678347aaece515a512591d35b7f82438eccad, 0x1762b7228ce69adc45e6e96bd305ebb28fe8a935277bb726fc561d66be73);
  (0x1bb596d6aa29cb4c1df05b8adc27eede5787b4d4a4c1906fe12e48b596b2, 0xaeac6e1cf6603b141ff8a89d4da6388728c0a9a6145235d3606c0a8e60b);
  (0x196ad15277d737da0363294f0894628bb657d2123c2d3fe2ad92661717d0, 0x1cb25d7bebfa96b85cc23f928b74ea3e1931fb0fc88cbb7c222de376da29);
  (0xf849a5f21fddf72aaa91954b5d92452dcf5c97fa744101d060d6ac391c52aa4145e3ee018bb82883b0f53591bcbc40eeaa1f431e0013c961570a5, 0x1b7bf7a208e220037b0a4b31475b29ce478e1239b21380bfc203b540e47b);
  (0x22c7a63a23dcfdffcb6d6889c63e7d1649530b97fd55ed807199847c8d797a8ad1a8a15087c73a8599cefc9ab63a52d6b055cb5d8d10f6c68cdc3, 0x7be8c6fb6960234a53967f89ebbbee10c7412dc4502174e554f15825117);
  (0x1873201e1c9b7256cbc4ec10e4674637041e0be85bc3fcebd090248c7ca5, 0x2e602ca74f75432e1b4503adcd17e83b26c72c3e6d690a77857f45de10a);
  (0xbaf846c9bfc18ccb0037c01766b82497b111e95d6a071686d0274c32725, 0x1af4c01e5cfd944334a5c0faab6922acd5b449b998a1d55efe7c28887a49);
  (0xd3a15f075deac0e17c6d3b16096d5c2c945a9f4a316a422065beaaa5334, 0x12a2bc0bc8da21ccb93739688bc34783bca984e02c160eee415bc47f2794);
  (0x398f19833f6b0c22607a5769454842e2d21190bf7e398b525363e7d41533336c7d03bc10178a441c345e1f7f127d8e90dea2cc93f8a9bab0ce012a, 0x13d39cd40c89b1754fb17bb250cabae2424e19e0d8feee9c1ba137c4f154);
  (0x5c8dde83697530fb4f8f9f34e47b9476e4808a6ce1d01d5ce2ee37916b89dd056959211fc08f6f1ceac5248f37d682b94e870c588e36dbaf263b25, 0xeea3c78bd6b30aa8304079d99982c2f89d7609e025b39266bd2d47de939);
  (0x9ce77c9f00f54cf83afd6aa17f4c6fc02fd2ff366a6a9e336e7b040174, 0x12e9c562015c0cd87357c87f89c3fe75dacbea05f6d301dc6e46bbf63b88);
  (0x34dbed407970199a8ac4a0c4bbe0bbc9be74e6d3d22e90fc67b8b8196c0be9c7ce68426be31ca7ebafdd028f86148583bce114b91819cbf199270, 0x44496cbb67fcb82da682701ede22a7d65328bb9321beb76d5e8e8e819d2);
  (0x25936876b2c2158f1cc7def72804be8999113ef9e56e76f6c2b374844365c310e519ffe912a4fc519f1345d928cb08e0ec6c7bbdcab133a2029c45, 0x392c1f9c1dd679e2734f29cd7099fa8de1e8f9c652455bec135f17409e1);
  (0x10b12d9cfe47b3484fd482accf12390244b341d79710ee67359062b43351, 0xc0d0990983a9d7063b582c7234ad64a9afac8a84a0bf9656b408b8ccf9e);
  (0xa64fbd3a0f613df441afd09d17fa89fcebb258589c23a6ce2b89f81c424, 0x1645d6efeb6154424216f9423bd686f943d54ec124321de8391634fc58fd);
  (0x35eff3e14bda64856459db3f79cf3a25c9cd5af426cff24eab1b01ccace5f5e335258a41ff0e2df62cd71a4313afb338a631d264dd6cf0f4c294a7, 0x1193764eca9cc482e7990dbf5f0764136ec7ff294450293554a0e7558763);
  (0x5e34cc0c735eb55c5b63139d7a3d878948a824f1e9f2992dd830e62f3dc48b7c050d186ea6bc039ce7d925175cfa0faaeba624a6276697ad2a6ffc, 0xe7029418f59737e67f1cd9c8a47338faeb462777068e52cbdf789f5446c);
  (0x1273762863f784fc8ce37eaaab9e87ce663fb64939766b31d088a2bbb58d7e13d20c7566b0026be5de6ad52fb24a8e414a202952e2429dc05c10ce, 0x1314cabb33e7734a079eaf4399a2055a4503c3e5ba2f7fa138d6e39fd8f8);
  (0x123c50014f23b80d99d3ce4745049ae8015dc197603133eb3fb2bf16d31a, 0x871cdfd7655e65dfde5d99caf7c15f426d2905a11608e936021ec3144d3);
  (0xd7a8082cedebdf28e05986fb893beb156a899959a3ed6b597c5c7c0d26d5756c7750e625c51c62d8e88d88d30ee679d1c3a89284db6b06c8dd8ecd, 0x1747a1d609cb35853be519c8a3858ffd3e3ffffec7e38d1460773af1f589);
  (0xcb850b5072d8a569e79e409c17f344e72a3453d86c5ee7f21a9877165d6, 0x1cdebb190f31441fb0007e8f4352df81b8e6010ce623122e75b8d5a797be);
  (0x3995bfaac329aadc7ee5acae2d6f150a719ff170acb904e38978e48c71f, 0x137166e8f03a99e1e9835ffde1e475d8dfb6c68ba5c11000f146219b6774);
  (0x76d029609f76f56207bfc640a92c851b8db352bac17636668d61975c22, 0xa579c25ffa3c97b9c6201901c89c4a5817f24d43e9ac2729242c034011b);
  (0x5020167779672ddff87d0bbccfc71b2388108fb41b19808c0646e398b2b, 0x3b6c30422b0df4f1bab5b213458f01f069cc53ff8dd975178d653b4ebe7);
  (0x8801ba7e18dbef6981272a481a519bde9a46576c7229fba3358763eaf, 0xc3316ec7354174b6e316fab4278b1b764a12806b1b554fe8478bd0d6adc);
  (0x86162d41f58b6292ca1d9b2c9acfc3e8fb845cc463be9f659f7829d069e, 0xfe4ece2cef766107a2ec60f4d5e7941827fa299fa8f01cfa5b6bb1e5e7);
  (0xabb656369efb63568cd661d69a604efdd35ada8955b1ccbfddbe9eeb838cb02ba6b72247bb0dbddabee700ad2ca16baf2a28a6da2e90e2883ca381, 0xfc819da4ff64d23b976e4c734fe0ad9c9c0a617fb753c9bb861dbd14ab7);
  (0x4aebddecb6baa78aa0b7faae95e6c7ab4031c7ba5d9838f8a8622501ebc, 0x19c2e1362a06fe1cf067173743bf05d74e0be12d4c2f92fd9a276e96f03d);
  (0x8c653772e73e4d6f0d0452950ef5d74d215ba91202fe535d2003802617335943811931dcac162494524c5dff339d897425721f19c46032cbac20cb, 0xbcbf7bb2f1ead6604506c9206743f7d82310216e67300b5cf0d2c83a229);
  (0x5f62e9d0318744aa1a5804bb263f2dfdb7612cf6dda557d89160d6a75f5ffaefcfdbb3711fd5594c36298c4b5cf8ab6e8717760a12d30e7ec1e031, 0x174b3eadae28f225e73619bc54c560611e1a0ee7462c46324b4e659cbffd);
  (0xf718d83031ec74d6eee4ff7753db1e8943fea1ac5d0e737d5c94243c85d, 0x13334b092767233e76ef90fc8d92a2714f6f2120d4d2f547571c25e054f2);
  (0xc1473013ab1cf9b13496a1358e1209e76d56a77e2ba9e616bae4adfca4e, 0x156c73cb642683bf6232d602d9353958a9f05d64492df31df8dbc5b6236f);
  (0x3e3f8046dc908ce12b87b1698a21d64cb09cbdb7db90f2cbd244caebe0372694e05a42a107cb6c88230f01998abbf740d6000a083750a778f4169, 0x12f28c3998a6c7db2645c520f964fb4a98a0aeb33ef57ddc6078d51c452d);
  (0x905f664135dc9a48e6a00b5525c3e61580b1428521a8a430e80262b8b12ff553a1cc6318e2a21e82de870eeb5c719223ab8e237fc71ff5fb84e854, 0x3e0adfe6b211e99d6cecb6457b030b6bb2926b42cd37a0445c01b89242c);
  (0x230481673d210b59e481cc61908fdde4d9df8bba0b25fc9dc2b74050a19, 0x179f1f25be1ca48f5f40ee83e8769ef657d1707f33519b233ffecc2b5c3e);
  (0xb8201816725e0289c80de090ff577f08fc9a17f63d1797475ebf492f8ad, 0x810a1d0515b240cc70d2891a1fdad361c4b51a68de5d6252cfdf8e9dc61);
  (0x209500f397594a47ad6e772e6b6080a09ffe188c0a02f68ef8f0aead23, 0x127e4e43e70fc957488586925f9c7b97eca830ab530dba93dbc4d016f4c0);
  (0x1b674bc721bf69a150bd9a5f3edb69e6bb6248d4fdd17471dd65d7bac96b, 0x1f1e2735b9717e5ff9ef20916ef0213ddf902bc877b85a1110573e8ef17);
  (0x388674b6c08ce513b68fc55114bd38083a45f8eaa6dbb54cd07dc8c9f5b, 0x1c89b60ba028f8f91921a3766a768bf73679e450354f86ab7b77212ff8b0);
  (0x1343175877a180fe988180fcf851b277db23a6a0c2f17c73beef39876aec996775d194143fbdf417a6400030fb62cd336b0fbbba40116ac93976d, 0xa3f2282ec27fdc570408c1779d36223b30d1f5e63b96e62b83ac93b8753);
  (0xbf1902f9f38146d689816e48564c69b68bcd201c0f9a61ef29603ba28c, 0x22833a5fca0992f19d379bc80a295ada9d6264284c2e49f004be4041c7d);
  (0x7a6cd9fe24413a2cb3ebd0fe2e1ead9c333c891568a194cd839eaf13dd3, 0x4b5c7138dcea5f34d9e65b1f303942e11db83d6d2a7ee03355e10e2481f);
  (0x32b03733281c637de399c3a46ae013680d695b93b34ad902c1a31d7c92b, 0xf146c4cbd76923435df1b768858ab5601662daa57b6ce530edac8b68020);
  (0x401538add33395d3d51fdbbd4b19e404d95d45236ee90eb799be7df36e1a9d91074d1ff32d54b06067bec7768d95684d90d9b59d83eff6610e4bef, 0x9b402d6c0592b0a854f72b6d81d201f71a9ed15bf4dcfab1402d340f41d);
  (0xf3e71cb23c5f49a78c7b3c955b1491b950fdb3242ea987cf89e80cc, 0xfbcd0959cbe034270b934e4565fb5bdd0fde58ff9092dfe35e6145cd14d);
  (0xaf239121fceca686669f77bf4c44bdcecd37e11ca6e3c28c666f30ad600, 0x1548e344de538be4289b46e4c4a4abc6fd9f7059dc2e985addaa8c0489);
  (0x28fb6d4944587638eab0c7b2c08e2d777bdb0cc0551610e235425a64fa0da39b883b7afd2f8371ab3f38141fb7262520cdc610e2b80f0a7838b231, 0x120954445428da5e281e35c4e4694ae9600a784926932576f7728d85b43d);
  (0x1a794ca531f38061fe5a844b9d14aeda2a23621776798f2ddf1c43ee5435757a4726b05665b07817a107e7a7e2989dfce5daccb5d25cf38b5d3876, 0xc95d63675e43913ad66ef22d8b22a547aa49f0195126662ef89231cca96);
  (0x57cf9da6cbf771ff4150ff061b30923489f3b35829aa8eca063c6f5e2f5, 0xa1d7dfa069d7d09deeae1215d29561ea42b52b10e80abeb56a056a3d82a);
  (0x175c702549029aa04485292eab5ae68dfb2e93f6e099da2ee96875ca622f, 0xcc571bf2fa4a05afc2a593b670e2eeb322cfb85d64c021e18c6ba69444f);
  (0x4fe719477fd18aa32d4c662ea63ac78d53070409a243c535f8f28aac8a38a3fd50dcbea87ddc1f843d136a7821d4a610e0e9f8c6a91b76f1dd7a08, 0x1a595f94fb89bfd88db7c345cc92af4b6a0082322a91cdb30b971205398a);
  (0x9f1e03423e8cb88539c48b0dc17b99dd4af33d5114ee45f9e6f8c9766e14e3767fa93b53fa0385cc0f69b2331ae3e3ca422a6166822881f8ec847b, 0x1192b33af3bea46e1cca4991872bfc6e4b7a5467c217fd4429f79bab672f);
  (0x2dd3d933dd3031c191104e094c8a55028fe55e6cca999b26fdb7429217cfd779a6fc94453296c5ca9ffba7e39d8b994e23126279d7612b24af3d88, 0x18cc6886f3e7b61be4c82ea0c64bdeb7b4d6be3af448fb19c3baad3ffd1a);
  (0x3d66e9607e282cbf80d709ac738242e137997103d673042111041b1afaf62b8ddbb7eb1f65aae20d205176324df5eefa75716194232e018e4bbfb7, 0xd4efaa9b955b45a33ecb9c857604e916140766b950d3043d620015a19b3);
  (0x5cdafac59796f57533e601f2fd6a1dd7670d3230c15765c6bb63126a294926911850b4dd357920ef520b20f0f2156834bda24ecb5810c8716d4004, 0xf67a45e42e07480b3fdb321295476102e4b3651090b56b7c2cc3b126b1c);
  (0xe0b589cf35959db2476e710de2205929da8535cbe8d4d81baac8af24f05, 0x12f1a4acffcf1e94526f93f8441891be63eed9ba97ca3930892a87f74692);
  (0x2e73c2d0a9d197f0bc9175f7304521b11d450b8d5bccfbb62b8edaad1db, 0x146e192867331db1d1996431de2c7fe15221301c9cdd186b0ab8491d3b0b);
  (0xcc983a7e01e78ba89e3d4fcd3fe5f933ed30a372662a1b158fdcd87b96ba4e513c33dc815ebfb3eb39e786cd71ea3108be743f8ae0e5054c3d8e7c, 0x949f304dff1e14630c64b506183841d22968884b7c51454f9f074d5818e);
  (0x96919ceec59662e4c365fc4f6127ab5eef1c58fe5fefd95d579911db5de, 0x1c1eb030215cc09061f02ad3847c08cd7c082e75c61bbc4af6d082601a3f);
  (0x8c54cb039c3fdd6392f91a0a31f149737a9aebb51c2260724954bedcd70fba737779f52e1fdc74d4b1a0542fdc5e1a47c3e74b3e6ec945a8f9050f, 0x10b936e5d4bd46d353bfafb4a1f3b1848004536909ee22b809f55a1295ad);
  (0x1f48281ef495b1b77be177b9f3bd20318c2fda0ae89d75b42def8906f4ae37941811ef13a8260e7baec1571097fafaa26e2d09a78504c35ae7d363, 0x1749e1d88690301f042c4496058a1c3581185cfc315f7ffa7faad2e2dd51);
  (0x11832457a3979035dda4d4124bf657440e881ed83af61ca57f3c9677d94e, 0xafed515e28fc7eb12b1e43cdc73b3315b5654ec8d726d5d7db202b72baf);
  (0x1d506e9be0833286e04fa99d7c15a99f70be3f32ce9ffa4ae2f92f085c9c751bc337d9a37dd88413b1173d03268dc723726c8e7609ea875047baaf, 0x16d03d9943d36ed3502c3226d2c23bd21bf9d9cf87c1f6fd6454a2aaa7b3);
  (0x3a1bcd66e46eb14b7a1a3ad12e08048728ac4a86aeb37e7770bee3fb45, 0xaa4ddba1ddfb73eaff6d2267b5b727855de31ce1dc7b74dcb497ecc8b4a);
  (0x4ec56ae48b4e9200b8c011f30981eac5a06e5383e6532aaffded8d1d08, 0x298e7b96e78235310c062025cc49539c79924ef4814f8d513ebfe9269d9);
  (0xd9ed995d1624f4a46c4db28aa52cdbec4e75da4e342e0070b8280c16377cfebdfbe5b1406aa35acd510aba411d2c46599d235150e3c23f0e6d2d4b, 0x306257d2e59f321d1135b3ad5cfee65f846afb182a8ac1f7a175ab92239);
  (0x286df5e90452182e4ec928d1be992a437c54209763845840fb3ee57f41a80e50519f348e4c09d128593b7eee372bc3c827973bbfe5741a20bc14b, 0x1d058e65616745f94bf7cb157f3693af04db4d9d2218c2f8db37fa3fadf7);
  (0xbf8e4b7a68df7e1b16330b8c96693fda247057e72879835094fde749ab, 0x32002a6e7ebf5968bd4039ff6fd1eecc9d4bdb1b88bf077a4edac4b2ec8);
  (0x196d752c7f38626b956d41c7c575209aa8eca9cccb21b61f685f9e105958dcb9ea02bf8699c0bcd2195b2ab9ebcdce3458f24d1cb4580b1a3d9591, 0x4b738de5086d1b1ce70c03190083aca6d250b332426081cce602d270167);
  (0x4239802bd3f2fb03ff6e1de4ad33117ffe19a5bd0ca30088a665f04, 0x9e9ceb197de7ec94228028babea91424ecd507578af6b7459f58b4ec015);
  (0x2f58246dea4a487c2495c84bbb81dcb26ececfac9f123e43f8d9e92d5df, 0xb17494f76545bf4b467e768a8413841cb9f672989186f1a9203e0d77f);
  (0x27d0bd7abefa8eb05b4d9cdb1a71feeb007aaaa55e232ff5fa42ef7f07c8a0bf68808c6741581ac7f86025bea28041bb8e31f5ac24bad7612e7e72, 0x960acca505b0dd4163630b71579c913b4d5e90a7a0550af5e7550ba3eba);
  (0x1703e3c4ea99cb25dc35892b957279354beb7c34ff0a2de2c7b8b0dc75f4, 0xc67a4b6ba003b6cee3e46badcb20743566d674240bb8d646f4b464e04e8);
  (0x4cbb352c81bf1f9b04010b33fbe7d4b5a57076010fa7b2c017de06613acb90f64088f00e849171dc6ba70c342ad8f09f99cff9ada1843c6981c28, 0x1a27400194477664aaeb1f8e55c5f8d9ae8655a4049f4878bc67ed7187ba);
  (0x6b1bf965b5a535ca28a27c488f98261ac499954a247327bb3e7d8808439, 0x44e210c535e9dba5bfb0e60ba7a5c616c6b9ac9a2ca4589a8354ee5042d);
  (0x16052bb824e36e59f11547254c68107e68fed483026ea789bebbd7b5f73c, 0xe1ae136a2de814e24cef8e9def176b7d8d41f7c7b05d1956bf2bb25d1bc);
  (0x2d6d21d9c4cd3155bb2dacd57924beec35e23ae5872c24b87cd49f917823853a8497263fdf160521f33d7cbd44b860f5361cf14d3e532d95cf2404, 0x1994ed160204a7c9378d64291a629080448bda54e8af738c067b361e3a14);
  (0x28a7c7aa0403c44e9070e1afef23f7b0035eb0322b527be67e490373e7b, 0xd4008209c1cf8e677fd86e2783dcd3e5b68e6c4d98bdc64f6978655b830);
  (0x6cf24bb78fb9c44553ef7ae9e965ff8188e8003fffaa8afb4663791d018b0f06de0f137c8c1a4ee23d95e9ee621d32b5b057bdab264bc22d360087, 0x8b0a2484f9d6365c96f4e5508250a9988a87c28660d5de22c7bfaa00623);
  (0x11da57ea58b955e00c16a6253747ff327dd7938acd3f0f40ad97e7a5d9b, 0x148510c2f99acd10aee5e4d41044f4c353a38d26e829bfe8a650302b0048);
  (0x3a871703457c207be51a2131d2dc841da1b984ebf633ca7958bf4b76e4c572cc78ee8225f15c7555890f09293ae133840fb3010778ed7d934ee2eb, 0x5c2310a28a1c0e86606be9fd85335fc344bb7e0bef8e422d1003e8e575f);
  (0x2162e7ef0f5b54f8b49322c119410966f1097328b696858cb3b08ae93be619af100fcc093fffc926a854c65113e7530d185b9732814b24228c4b24, 0xf0a3b7fe46fecb5f045b2414bbd212646ec2fdb4524276d439c8253a1e6);
  (0x30a28b884aa71ecaca062bc0af9d8153eaca9367d0d6a33af73c83fda1d8a26cf7c7ed5d40c3be80fcde038ec17d8bf5caea5a1c6280626d2915bf, 0xb5bf9af1d51fc1c5e87e1fb1266153e696b1d4dafbe049bc9e4f0899ebd);
  (0x9fd5b490b88f17c063300a7cd3c8abd343d055b82deed1f3fe69e25fc66, 0xdb5c8ccaf13d522982aa827e7592f917ec8cc2755e58382de4ec6a8f067);
  (0x1185da22477e8c086c83f0ca83c8aa979a29f60bb48b2248fdd4801a4de2, 0x113afb02a9e7acd5d7cdc8fb21f18b4152406b0f2837d2f193d9ebb9f893);
  (0x16ed92e0bfdcdd8e8a5576082240a8009186ac1252fec649594f39a0a7c, 0x16d2016f7fb66f916be1fdc1978df5835345d54cb48f2ff9e86e1214cd4d);
  (0xe922fd43e94b30990a539a037cbaf5465d5005b04ecebc6b5267df3d878, 0x686a3c0456b6022393d4f9c4333b9450636865a88b2cfd8ac9f1eb915f1);
  (0x54fb994590e988b1e987514ed898d002d69aa9eb2c6a8b4be39c94ab294, 0x14cf455dfb9b8a6251be9fe13da13932327bcc4765c15b28bfa09f313ec5);
  (0x9944795939d6a8f23d4929d3bc1b2df7c6d9ade9e61438f944170cb92b3, 0xc905cdd02b233c77d7e4799bbcfa3ae99f29cab5e15a5f514a12021698f);
  (0x4fc5792283dccef3286a3f2f110d6de3644d51d673e2f28d2ca2f26fbf8, 0x10df691d2c1007e565a341dded5c5b98c365e4241475181f34e41486d4dc);
  (0xee15bb1f2834df1af31cff9b14391bc2969c6c9785357e7bd902dc9df26, 0xc2c2f007a20acccb560cced82337a62bdc0508930407ccc95372d40a042);
  (0xf4cb361524d5fc9fb9c4fc4a1cb66048ce2e7f4c252d47547b33a01a710ef3d1d1c2987ae754d85ebee58dc4b05aff666e7a517c211a85ad19e5e, 0x1507822a81adcb3f784cf47f5ab7482b6ff9bab672f0d25ca10b2d4daf5e)]
  0xbce1bae6645f252963752a74333138f457aaf3fbc9c842fbcd0b8d48aeb (-0x30df27ef44f1b0d7c0e67e1b615d72f105e1fae692a5c772c6dd0acacbe).
Lemma prime_205115282021455665897114700593932402728804164701536103180137503955397371 : prime 205115282021455665897114700593932402728804164701536103180137503955397371.
Proof.
  apply (prime_by 205115282021455665897114700593932402728804164701536103180137503955397371 237 15740601075842375300797486998932411749631322407916266585063271206180101 [evidence_prime_205115282021455665897114700593932402728804164701536103180137503955397371_0]); [reflexivity|discriminate|reflexivity| |vm_compute; reflexivity|reflexivity| |vm_compute; reflexivity].
  - repeat constructor; cbn; intros H; decompose [or] H; try contradiction; discriminate.
  - intros e [<-|[]]; [exact prime_255515944373312847190720520512484175977].
Qed.

Definition evidence_prime_p256_0 : evidence := Evidence 205115282021455665897114700593932402728804164701536103180137503955397371 564522 2
  [(0x2b95706e0b742cfea2e356c1004983ba2b09fbb4a4c701ef1bfd7b2ff257d10, 0x429ec5b06c46c20546d5aabbe15bfbeedcade9791a517f619bf3f4135dc4da10);
  (0x16f6363476f589ce05105337e33102c25cd62384f6f2b93638ddf6557a516fe5e, 0x1a683deec3a0c63a9bdc3c65379ca978ad6ef6593c9f8a9246dd5e0907ee9340);
  (0x2b3be701a81bd31c49e50b6fb4da2a5b7390725ed52f84a64d534f2a9ffe7d7e, 0xd8daa545d1d086fbaa61d513f7936e76c6d54f53db25bcc1c77768be9f29de5f);
  (0x9e83586ce9a67637611cd407b08afeb026f00792f7827f1059f5d50d5a89b87, 0x69343fced6c46970af7976bad62a5424801d188cc60ab56325071c6c4ca58fbf);
  (0x1ca31ed71ef6f603435d1c608fa1ef4225118e628760fee05f78c48128120049, 0x239c46d0895bc16078576c680e3b44fce35875baf949a6226874a896d5117ff2);
  (0x15fbf89d83e0e5dbc34c25d09918a0013fe949dbc16b5bb543df7bcbe032eb10d, 0x559f38eff44dc033d6af89f3432b8e3ed3199aebf7c265c6d6fb474874e0ca25);
  (0xff31e233d71f1785815438131bb37755fbae5618ba535580721b6b284fd9bd95, 0xd4302425c37ab5509c06e542343db7133f12d6e69d98d97a30965f83b7589b4e);
  (0xa518394b870494dfcc16772b86f107b16ce9f20941c6db46a07a0ca29a54cc1a, 0xff98dc530e7e0105aed4e8607df66d000823a96d66c10e0f12f0da06b7c18b73);
  (0x200003d10032fa350519c457351f7134710d16bb, 0xcd9528344359cab2cbcfd79b40418ad6c7a6a8afac75c2062e0c1fde72f3bfab);
  (0x0, 0x400003d10015d8f1b795f6a608d4615040000000000000000000);
  (0x0, 0x800003d1000748508000000000);
  (0x80000, 0x800001e880000);
  (0x0, 0x20000000000000000000000000000000000);
  (0x0, 0x100000000000000000);
  (0x0, 0x400000000);
  (0x0, 0x20000);
  (0x0, 0x100);
  (0x0, 0x10);
  (0x0, 0x4)]
  [(0x1f944eb331d3f2e8aafd62237dd1ac96f489a1a4ccade921e7309a818db12d9fd83ca686a45f2500ee362212a843af26a23038cf1e3c340bf3ee269dd0661821, 0x1);
  (0xa38a57ef3aa4d356cb05602f92d35f49dcf2cbb33b8a17233007ac3330bee087dc37ca7bc61f6b60871dc1610ceebc6c079f87a98c0313944871bc679e5a221, 0xb040f7076c7cfdaa2c5a379e058aa32427bd1caf2cbe334102bf5accb63ed881);
  (0x5eae80890d1b3a906cb67b0de517360dbb3f338244c7a121138a942355382a59, 0x644636da27bc0b4882ec6444c2d26649e960b3380da931d3c75bc6e3e94657ad);
  (0x6e9ae539e3c4427f6dc086da787efb7b89120afbe1cff08072befb1271b61d97ba8e3e0299513c4a0ce6788595334ba0feacf53b31105ccc817174eb2db1e, 0x9bafebe2d9b02d6e7a4a65fb2e1464eefdec54679097ef23c895a031b78d617e);
  (0x27ebef9abd18a2f2070b64025968ec358ccef7df70be25c171159fbe34304e3fbf1eea20905d68ce27fdded9804bb1620d08c96ba9a4664f93bc5da98104888, 0x5276c9e6e887cc11bb22b421b69abcfa827fdc6314ae1d05af55ad83ac71d98);
  (0x8d582f461584aca384e5813c9c0f2be111ed041015fdadac323ace53f3a09ba961a951ee1835a6c4c708ab33838ff31bdcd41aec03ba57313cda2d92d19cd, 0x318af91047d6ae7546bf72c7a708d369a3267b8f816adaa8982d14c9355b259d);
  (0x74fb97a4767820fe5043ec29403992953bdadf869747ae4802241c30f831dc521f8bce9bfb067091770a99ca49b74dc3f742d4bd682b04e1f2a38753156f86, 0x5d38b8bd74bc071bd590ba3808366702323e5dc8f7691f0dcec11050b912df6);
  (0x48861382ab3bff74302fdcaa3775a12787c48ee86f3ac73070ce20d8ac4bd0c549622768d8bcd6d0c029d29a1166b3e6564955439fd577ad4ddbdd0914b6a6b, 0x1533b9f1388235c4bfffdd3f002be5718a81c4f4671c675826afdcd48469325b);
  (0x5feae789d765d55b9f2329554f5fe1ece3626b7545b52c8cf3ce43d1673f60c, 0x42c686716bcaaba60dc5edab4b15902c2d8da27cb72c2a0b21af39fca6327710);
  (0x19b6352d1bfd3133b1056fb4b7a8d36e5c05e926458fbe41a04afe62aefcfe783ec0a2c5816f9535fc4991188c7ae618d425b916ca06f3e5c461b9d7added77e, 0x272ccd8e25e6f3e585470a98c957e09c8fde1df366f8cc64f6d99f999adf376e);
  (0x29c4b7f36bc3d6fe84a02bd58581d13c430203491654cca92c2f85eb7c8b1647, 0x9f09e7b87074ca9c0b103a420caa49395d9fafe1348446791339616e5f2cd85b);
  (0xd2e7ce5ae818a4eb9d9ed6dece748028639ae70be78ee6616584b849cd6f2064be03a813aaae2587d7c6014cc482c69e568ebdb290d2c3cf7fbd7e13d1e616, 0x6767d58b0c1d18ba7662364cbbac4522ce9cb774d4898d2cd4ad40a712b1b636);
  (0x45973ffc0eca0af6e2d92d6a06e15f2562824b166ca26754b2f79123fa3369aa, 0x1c77dffe9a6d7f55dda05b21b550d555c51f2d6bc4d3da2270118d21f080d96e);
  (0x37bbd9c7a32f0e8c6f1ae87244fcfd256ba60a21741dbbb849c2cd5d1f083333ca41935c5fff299454f0e33f3af7a7b40e7a8a59b8a4a5abc53bec931f6062fa, 0x857949a4ea8b69120062e7962925a4e718a41d3ce6185dd744f13cf63704d65a);
  (0xebe9955d21310c91ba1898319a24dda5323abc046ec847c95cdee22c00f1d1ad, 0xea26b14ae5431a358d8dc27654d3dccb06327b55e24b2cd98ff00349cb60a746);
  (0x17921863de072a05b9a721fd8daa8169216f882647105da3b1b3c42fa44960884cc86dd3849c29e3b6eccf98013d61947b82331585640db62c4a75894e654c6d, 0xf5c045768609ddda45e9a530e17b3fbb042f47292b18e985c3909e040126ecfd);
  (0xa89c939ab70ab841db1bd6ae3d7755f91208272ead944c9173fc04aa36fe4b43, 0x9845e77ce9553c9cdb9c82432bd4c5507557a046eb45c36cd79815a50fd7e744);
  (0x1c8964886dd29b22b4464edd4d2a916d42de9376cd06a438d2a71552877937be, 0xcfc2c7fa71502d7d5efdaae9d5b439e81f1ee3dd977e36d8635f40bf1f9764d7);
  (0xcaa45ecaca5ed41532f5b6e8b429f473b4d9a371fe1b830a5ad115613a74fd77, 0x5578ba203ca6fa937827339de72295162c55fb74b651016b42a8a167fc97ba6b);
  (0x71b61ef3afdba8f9c31c5715323b4a80dd942617b1b49522f09e69893800d8b3a0dc89c8e11fce22a7920f8068ad18084ef9b2d731d2922aa8fee6b9ef40be2, 0xe3c38b847b36204a652e7a612b34179903a077e382f842b6b37f91b116889d92);
  (0x17e14161c7dda2db766e962bf44e899848b26f54f6df97f89430c3d4769ea162e0e6b55f93b9e368bdfa9ea356a719c9ac018afe81dac31583666380488764bf, 0x539d2f50bd812e1021cc2f1680bf571ba5fd11b98b94d2fbaddbd22b9277e32f);
  (0x72d5c731abd9cf605cea72d335d7c6fec543b261b5b53015a748ef68a4b6fe0d6ee529c6e3286336b7edf26dc901da3ceaf449f4f7b51d3d58adb8493f2976, 0x9944c4e45d40f167fd02ea5135362d8a56f31626c2f4f516b61b208b4b60a196);
  (0x1ae971cc3a1c7579b1fa32c352984693f220d0ffe27028cfd6b5cab2a84c6346, 0x1501abcf8068b5b6710800a8f85af539db73b6c12e68049b71db64ecc3907a6a);
  (0x61bc521256364021c46bcf3b9d9acfebf5c2e148a313dc4f3f2202b2fc3b8d19, 0x5300af7e154b5099d7b48f7927c6bfbd433382e8342e8a4c1037790bf6c4dcd2);
  (0x75d116f8cd39d424c34cde18455a87fd7ba6db4dcbdf9e0ac6b41bb8ff2ad2516960353a708cf36ccd5e5d923543f7f0327598c7580fdb221da408ed28a81dd, 0x9e2d99e1ecc9dcf53c23e8921a4687a1783fcf1044a9908fc5b9b2d9ded1dd6d);
  (0x255fa8832afb0e1b9637ff53d5f65bc69e486c1448481b05b84834e3bc3264996de3902d7efc4bc154c2e1494d22cea6c045357c43315303d2f813f6d40a4b04, 0x551c2823983392c35289a97672df860510c66d7e7dc8d1b5501370767fc87b44);
  (0x141b34addf80b0986ef2a528e6b54afa724d6a72f145e4236706542526899b, 0xbfbe3e4b7888015fdf6b96d5d101b4afc537df7a0869dde6ca510b9b490564a4);
  (0xc98fd6ce61855bd975921f839c7c257edeade1f8dfe0ed93dad91323ec83742a, 0x47be78b8b50098ca9b45d5dbcef2baab8a63f39ede2129044beb7d4d384f9fb);
  (0x9708375fc9a07a9adf0aa2455f8b5e567e9c0af9a0fae953471b8890d717300fe1fc5e9d8e02280ff58bb4f5f2435966770d050b5ec9db85f51c3eda1bab87, 0xe327ee4820910df8c20246306841099deaee4427258b700f04d184a12f646f47);
  (0x306806d962a32bba67c1a4d81bd0a81546dadfd43aee5391cf9ea33ca051e4591f6aa6bf58fec36d596d994cef8e17a2f47bb15375a82a3cbc0e01755c2b677, 0x18174023c81cc57024fa9a7806ea883d039bdbaeda7c37d2b2d4291d9d19b067);
  (0x2af752dd5c9b24c87c23c68c819167d21a42360cc702fb15ec4b685ebbcfa2efd093a0a105d2484a2ed4338cc8b76fc20273334a13daef966f22eca87abb132e, 0x368ddffc08b27b38a69dced55a0f5a5bb470ef6d2927ef77a869ed89599a728e);
  (0x2c52957e958624d48512b43ecf3aa76da5d9163d21675ece87829c00155704e2ee414ed84beb2307dcbe08e3a88222ecbb7d4eadf2ef867f73deb501c058610, 0xcd96cc73c86543175d17e6c06bffa06fc9dd703cfa796fc37d7b5f2666d9f6a0);
  (0x13f8cb556b4082a3562e2e9e09f26d51b796af154d6489859cec523d166bded1, 0x3433c9751ac20557d30622ac28909481ca8b0265c3a1a6aeaad9cd9f18b82345);
  (0x6e08cf63b0d95845774b2e69eecb85daf0a03b546cd43aa2cff7020ed924dc86, 0x4780f96e0b24436bccc20f9fcfdca324757e539f36a61eb825bbd49128c76da6);
  (0x880dcb53bfb7a6a0ffc8bd33a600ab899c586c5134f96a0385fa1b9dc1ecf21e4babf5b30235aa2adb50521633448190eb8317fdbd01e7ac3be57651c028, 0xa7d5ee13a92d6bc69ab90cfe732cd1cc3ebd8922e3e092717a33c1a6b892d0e8);
  (0xac173dee59003f8b0b842116f399a511895d1ef5b72a9f80c3c509234b2764e1, 0x16dd75054f4e53dd341490d29f976f23592ddadb4fc3586ffc8d579464a1842);
  (0xea2d9f8b7921b4a791a091e68b70076e58635a904778367e66cd441128a55617, 0xd1e4b642df01255403a2e107f0bb9be76f0273873beea04ccc261ddb1eea3257);
  (0xa973e604180844cc163addec5dc1a1dc4f8e7892f51454368b0b40cc7f23a38df0641d80a40cff509b24b75be5b363b445360214109397fadd7c208634de43c, 0xf4d89b6b742b3688dd448c261f761b1255b99f688d00495a4d79159ccb64198c);
  (0x2a7301a7a3a94e5db5c20c2ccaf14ea4b7a8750310d509042d064591e45bed9d, 0x66121c3dea966c76f5ed832ae506fbdca8ad01a68df1dcc4f4d55806fc2b966d);
  (0x4bd9092a38a7d28ccb244dc32df7dd95d03b76c850d2b2cc919100d1991f69a8a8a7a9964199bde005c7691a2c23af903d883fae743d972f2b968c86fbd2c08, 0x683eb40eaea774aef092137b88f5be9b510cf649fe103d5b105c877cc8997418);
  (0xf9a6e4077ffb4b3b8e37635654c0b0be63d116c9f0cff37d2224c0db676049f678012fe7c7654e150d26a2003c0a7bd94c2ba6a1119415c1329f78dcf1d1a65, 0x4449e475477ce9644b4c7f43ed9900f84e19cfd81cc6a7b3b84ef9b4fbfd27b5);
  (0xfcc0421bd798dbc8093db59a1f2128d9b0331e73135f5a6ea21da1f5f8c1fa09, 0x7be4703d6ad6fba596e012510d1b47778a686cf3de18d0cd110e711f7bec23d2);
  (0x8a5f233a4972997e16615c17b0ae66fca5c5d417e9e92db005c8a326e677b86dc081004dfe69212b0a2b459ea3a6850d318c62f8e7fbb827c98feb4d2b9955b, 0xfe5ecd1a7ee5e84c3338506cde6fcb10827f832eeb523beacbb40f7f3f46aa8b);
  (0xcbcd51ac2ebc7c4578667954cd9c0a414bd43f8c46e5ca1c93f554154b661491a90b62b60e488ca97bdf41b854e5fbbbe7abe475ef20a33c137a35440fae16, 0x5c3c6b6586ca14e3b03e5caca05ab96f28dab0d141096d542ee80b0d6a9d9c06);
  (0xb241c2156111bb6c94db6c57c253bd09e9f45517ef320e3b5731221d45667ba1, 0x1bfc17d326b6f0c12141376d23ec453f97cb0a02f3749e7ccd2fab380c81ab01);
  (0x189408d88f7c0a4f9a4f735c8504e79c2c3e88090a15b6e012ba817a84aa033, 0xd59edf3dedf1050b88e6a1e3c50fcb032eb78bfb4509839b3cce36ed0d3f20ec);
  (0x3102349cf7e71d48492e8f157b6a4d6c9b3da8a319b0e3fbd13cfde16d7cda84, 0x13d4a150934c682832d9427c395880f5594f7e4adf461a9b39b1f89583e83b9d);
  (0x217ce6313cd97549c33106f62b24cfe562d1e4104d025d5fd340dff685d326b, 0x7002853e6af1bf0b9565370bb353c2df002ab92677182ae2268e2d4a04d1429b);
  (0x8c290d1296e2364f24563e23ab0d933794f1845090e841886a788755a636f7cf, 0x1725c1c585c5915685fc263d4fd6b9995571e6b349470b8d0f412813cb5e6678);
  (0xb8dacb0beafe46fedfb8020631d9fde184ead903f463c85ad2814c159eb041f7, 0xbd6c45f21d73c6f33f5edd328a5d4fcf46604095eeba2a1774f795e26182ed8b);
  (0x32745ba7de9e11049e5fe0b5e59727d431203249f41f400ae92b3ebfeae1a5bf625bc9f43d8371af2aeda0fd9aae6610cd5eddb9947b6152842f9d77f2b5fa36, 0xd989bc21a20efcc3545302785d662790c7fbf3c45950eb8bce9144237f508116);
  (0x30e042881b62b2783e07f6f096b7e5c2660ac72523195d2cb82ebb050ce1f44eb025cb237654577636669810e93eb01ae8bbeae26a08fc239b8129da1da33e94, 0xdec91a8c64852db1ae5c0e629f286951e965042c6f2a41244455e22bc0a562d4);
  (0x45d91485f4acaf9154ae43102a92c76f0c2afaa56c3e7073cc82e3404e8d9f07, 0xdb45da2c181e1f81c394a5829641e8ce8824b8f5fee5c47a3fc6cd392cbd43b0);
  (0x36341ed0ec97fc1bda77df563104f945fa9e1df1209836c72815740064992cec, 0x85b85c27cc4f43ef75d17aafd5db3e156ad8ee1cbd88f65466b11de8696559b5);
  (0x36ccc6b5fddab1c98b72f9114799a1a7934408cd9caefd94fbfc4d3cc98a7e8e79bb976e2896982aafdfdea931d2b4476160597f6000b8fe730ca7a556a55983, 0x75cc049f3e0cd4f7240d0dcc31635084274edf5c9ff6a7b48117cebe376a7183);
  (0x9b2af834e586428c29faa0e8bdc70c2cddcb51e0b5ee101b578b00d285bdca, 0xe82e5db8a262fc6f25f2d95a3bdb0de0b9d5f21562ff0b1528e2c568d48044f3);
  (0x727cf04fec924c1a856929ca7002226e264c19418e291ae4b062a290cf57f05a22e9f09259303bac2371612df3dfcc4ad5432aaab9274f72d763bce36cf06d3, 0xc74e64789d5393dc8e2a18f054a30a6e86f9e096aaf486974af31a5bb547383);
  (0x5ebbb49b600d828fe1df732275a7261b584c66f7c1bb2ce8b8d8582fb86670fa, 0x53e62855df9a5978903427948cfc3500fc7e8b0104c1888bc753983796a35ffe);
  (0x3a309f210c6d9c9475bfd4a71dc937a70b6a10d48acddead0da10bb4d9f011e9c4f045da8a2aeb94a3765fe914923c0e8e9a013f95cb3ba57107a7f2a31073a, 0x9bbac678df696d95c201e5320de9f619381700caeeb44ac7f7dacc396e82f8ea);
  (0x93f6853d15c466d69a7ea101f7e9af394e809787fa10d5802e6d5ae4791a74973323f374fba3316c380456f2489947c3ae6e58b7c7f0d1eb3dca6ea0e19ae73, 0x3bd050c8797a78c652dfc2d0e440add5179d0724b6cc1d6f612f3e958c128e73);
  (0xb49ffd7a17bb3db774d07cfe88b0ecdf50aa06e908e54c4da6cd1b82e2fc495, 0x5f6110f40597697330a6650463507ee676ceb68b14c6f54344db2f2a0d9f16b5);
  (0x1ae6bc970c8c0a037d1142781bad628a963de783870201c86b60a696da43b3a2aec0928ef5a07aa37b50babb46368e84ed8bf1d94e8bfe9964629878e6764a04, 0x35c23b1cf16db9f4c372c89954b740165a953314fbb9ab50ac6c779cd3c78944);
  (0x35160e75c617961ed8c64cf7aca35b9092adf61646256aba473eb18240605a8debc407caa275cb5647f9be7d74fbb44aa51b960c74c9df1b9dab80d65605390, 0xa2ad14a6edc3d0beeb546f986e6a368c0b4b6b7e40687297ef6b82243ac24c90);
  (0x5108c21e38b215a0d3b4af3d3c7b44895015977f0ad4011105940a67692eba4, 0x39216527f1680b84de885f6f9f310587850a7554fcf3c7a23ccbf2fa2b7e52a8);
  (0x2d206edaa5bee63b22361ab25c97111613e3404ebc890d690a9a03a330ef8d1c1f2a8e331d071752b2666ccb5a75d8271e49b881af231100e4493e451c0f1282, 0x2401f232239c837d1ae730f5bea7d0b3595ef2bc606ad561b1f34611cf61d732);
  (0x69187ef53e34417e618e7e25032b1eff1a5e637507dbdc95a4889f3795575bead27e980886a71c396c53e9194f1e4e3395d98d63bafc2b65a56864637632b87, 0xd2b1dbbdca8ea2087c19e3b241669ea2d68a8645d58dcb31c85b6cb71b5b1e47);
  (0x40c695757e37050b2f61f8296543cb948258b4270f90878d775150b97751b0e5ee0e6f60ffa04f22e7bad570ed09369f6c9962ee7f63a02dc0adf9f15ca2e8df, 0x50624bbefefcdde7109a0f157851cd29e611abd1678678b897531bdcb978614f);
  (0x252a64236c527b300c366755834a3e40032b6bca5de972e0ba20a0b887af154a, 0xfc6e65e14fc69d4a864a826cba7df741effbece27ad0f1bcd7e516ba86143f6a);
  (0x80f1498a5d3e6c6817925bfb2c3ed73b2d9a0ee2c6cd89e1b3e8c1d14c2f7d059c9b12b787bb61394628c986de502e59c830be4a65948672fbfeb718db6c600, 0x618aaf839937915b4fca4db195ab6c9ca975cd6905acbcdd8c2764bdfa7f2a00);
  (0x2af459f41ccd88917e3e6db7e9683136c7435eb2cf60fb3d041b6093438befbd9fbcd34c930d385f9a956ea5a0e0e74d0495957ef09d43fa61db0a97193bbf78, 0x5909b632b7fa3241ca2681bf8d9b79e00054e70035cdef1e1e80583b5b9e4f08);
  (0x6ca701b7c67c5f16621f0988b2ef2809f59c71f71092fed246345939edf2a232790feda951f72625d13c10eb784ec72184e9a76343153b130b3565bf47985f, 0xcd8fafe1fe29c1616db5972fe825c409a5529b1b8d3bbb55569d7aca8522f01f);
  (0xa3379262ad564799592d3ad842f7cfa198493616ae3100abc1491ecdee63da12, 0x146ee6df41d4404399ccfe0361888c329ce178f0f537652f71f9f0155f95e2ab);
  (0x43113452c2dbe44f2797d55a8912bfe043b3e79bf34eb5862a4efa4c1030621, 0xcc690997b8cbb6f317552553783a904b1efbe819a51f96c4d05e2517fee80ab5);
  (0x208ee6fe0f97e4f5e5581927d360c73b85005df228cac93128767c2a425a06f0da9a122932208f35cafeabc5da7977fe1ee56f0f9844b356ca9a639e53b27142, 0x20c200fea8d38184c8b7e97203d324098dfe49c6fbefc8ba20e6a84d55100572);
  (0xae8dad302d4ef2bcda86ec3760917221021b3fa20fb1de53c4eebe56e075f0a, 0xb2f6f371b3425ca4db696530747d7729a693a36a40126ea2dbe5de623a80fcd3);
  (0xd38a8e9f2ffcbbc1ecc9bd0956181878fb8451be314bb2220266ed0fc022bb2771c44ab4a61f9b11b69ad947d2ccf30e902db498e4dea323c42829553210973, 0x34d8f39b2098c3aefa765c7cc65e914ac287c7e5f5b62c4f4d9fbdbab20bce73);
  (0x25a69b7398dfd106d60f466f337b1fdf2e46138badfc8f45b94596832c8ccc54351941d627cf22d00c2af3ce53074c9af2fe0cd48ab242bc41ff5e4db34ac33, 0x720b674b55c7457419bbfe383bee98c7924998c01f17e12ca397c7d6814850e3);
  (0x32ecf3e1ecf272ab87c5b703bbfeb51e2a173d2c70cbec4e82ec5328f3b07725, 0x301cfa07d4390fea2d3878d1d1fb1eabd1c337b579ee89d4edfb0863d57509a6);
  (0x5e7d5bc37b4a55ae87cbdece6eb5b686730be1d0dd1b610fbc5cc85489893af3, 0x722df21e3764dd18c9747340cb6352d1233033e9cb47bb54cd7cec12cd647a67);
  (0x3fff8e17956cf9d76845dd3b2af53d6d1f1d0375f2cf62c523b7848a316237269f65a56272bee6276778d705bac01b96923067239377d0f1acc59b2412a44d1e, 0x9b877f368e7af39f8653012124eb68c0a225e2153474ea64d01824a290fce3be);
  (0x5ec8fde93e9fca3849d82c40d5a5be9125c7d863674896f22fbb4459600893aa, 0xfae96b5783cdd98d9411c7f84e77140c27f05ef4dcbf6127d8973e58c6051d8e);
  (0x3643ab4e0f48e1a5e70545ae2b0329039838985e4f31503fbe7646ac26231d, 0x9bc5b1bfbfaa313cc877824f13e44828becf1c1bd6d02701e4e3c884812f4dce);
  (0x77f037e76841c8f4808ef7122ee3069609a59978677421141d785f56c4666310, 0x75dce8ac1e9d5e0ad0ccc2b8a2d5448690a89484a0629ddd3866ac515cbad91);
  (0x2825a1a5070ac7795f55c1b14584f3dd7bed1265972a16506d8b48c39b93cf758c90afd4afb49b27f81aedd813fd27b5735af985eae74b4cb5f27f673f2a9cf, 0xaf39e7b89cbf1e99cb7029a2dd8c6081daf0276950dd045a469e0c7ef7d0f93f);
  (0x366b9b08526bfb8b637cd0f6a0692671fbe35344b5d5fcf43f25081ab3a884fabcc20139e2d91db5cc847d8493255d9e1488ab01ae0e5fd4bdd3925d0d9a94a, 0x31aeb8ffa208d90054143d0a9ca872bef7f85e10eedc9db2f9c63976247a94fa);
  (0x1d35767d6050fcdfddfd5af4119a650cb8f094412e22dffc1f80bd9dfcb1a3d5, 0x39d80a1a1dfb3df164abe58dfa990ba14e14fc86ffd9167b7f75f358da69b575);
  (0x10b3578c2662342e358f2cf93ed683e5595307699483e61b47de37a7321703ab1ed9e87eb3399686065f1c89a148903cd5d4ccfe1fea165b392936b7d410e44, 0x5678ea3cef6cc28b3cdfb17659df972b788c382d2a30828944bea2e1b5521494);
  (0x2e90e9bd7a6ca7a66d9ff2afc4be946416570cf37fbb77470f9f5880d8e113bbe570e928cc4907dee4b9fe1d5155a6a8134321917134927790e33d37802a21d9, 0x200b2ee1f789424e37ef1c8bb984084e0ede084e73fb7795be42468fc9a2c629);
  (0x106b4eb9b0930d14136864609eae73e30dc421f00984c5ec11cb84ac5b5fc30870461c692f297bf4d35f875936610ea2b7923699ff80f5fcb2eeee40be60d32c, 0xd60750cf63c4e499b4714140663fb0675d5699223ab5d65ad1e0b04698f6472c);
  (0x1391299f70f86de79dd2d624017c9d43c043d71d6f5f6f699e35a66df706a96a, 0x7f17215fd9743d0d9c223cc857b4a0cb3e440148c6234b709b299749762afa6e);
  (0x35e17f49d5cd3618181a8fad458652e3422ceb18333345ed55f1e6166535775ec6b48ce3b246ecd0f3d6a7144a2151ee7b3811298ff4c144b740753f4b0ca436, 0x46c68316ad496f74ae5835f11fdbde36acb55cec7938b19a832b724d0664bc56);
  (0x97c175f60c5fbcfdd3d4ad7a6e1f31eceb503effbc358e0d90d8ccaa18921515, 0xe639d5471243c06840894d618a263a3cb3e305b3020b3dae4a0b1f763f62f486);
  (0x2e97632f0f9aaeb216c85bd0e94d20432af260b7f4d037c0177fdd6b3e775e4ce8984369d850a77f4431bee0363682fe6ba24224e608cc8050930aa7674c4c5f, 0xc51a484ae7cb00f21bdd1b71ab36e70ae568a57e5b521eef8d385c74a3dc54cf);
  (0x370478ce264e94f84565795be9d690844a47e8c3c1e2ddae09928c005c8d986f68b950077afab2f37fa7c551771b0017a10de22c2181c5a0821a3142f6721456, 0xd616314b134c751121e42fe87fef82835f7db6a0541943d6dfe92ed84e77ac36);
  (0x19168b0b08a7de397a39adceb95d0249261acf0793f1d835691c5e31758a99b2f188c1cac80310eecea1c6ec172f6a349fdd69d75b08486b5032bdfa546793d0, 0xe8a43cc83d871684a03122b7740adbfa72727fd808d4719ac5390a42aa873710);
  (0x25517a8d2af4a3861736aefc4f3e65f26600c2938386d169763c963b8fc835, 0x9d1913440479041b3e9687965f9f300a538de20470df397e8d201ccf571c1346);
  (0xff06c7f8a15c33fc7a37c8455cbc2bbb4c844a6b42d24af37118ff3996f5fd55ce926e9034ad732c7cbf43aea2fb2d634fb75b8f7d5b3736e516c46ec08ad71, 0x61bded0ee241f880a3956bba9f02839c2166ba5993ffaee16f3ef37b1806081);
  (0x8f3c755465804842838381f9375d04e87c44ea02ef98d55d483805ee60fbe61d, 0x7d380539e07478e562164ecc7fa423b4c3b213732dd06a2b20e11304b276220e);
  (0x614fa9084bf4e72f295554ded51bd7677d1871bb31e83ba895b0bfbb33ff0387fc3652001fdb9ee0222571c0ca62510dd1cdbd25805e2d522a590d6a6a351, 0xbf7d772e1a221708a95d0b9be54568a57249d40dda31a10566ad27f92b391231);
  (0x5f36dabb7a131a873b779d68a09c5c6c875d13a8b0d3e24956d9f3c451e196b7c561559a6a11f16593623eb6b0cb059cfa63018749ff5dfac640b3d5ab0ba4f, 0x4d59829ce02aea03edb80335ec09a2d8d3defa8d554e78f0a92f625e70e587f);
  (0x228553dfe3381e2be139920ab92f6fa14d51b9bdd7edc334a0db3fcf2fb39363, 0x4c8300cd71f9a99f3a529299f93ef0a56e4fb08f9ccec8058ef7ff0738d2911c);
  (0x32c13dd33503d6e475e85595c759e881a9ea2094038827e468241854d83b10454dfeb0c95919ee8050eb32afbfda92d501df966f8f205c34e4d313dd685c46b3, 0x5e01ceca60221a2768b9d149e07c50836db80800e8bc4e64ef8f2b148ed25d63);
  (0x3e6963df766a11dc6b39edf57ffd1c3bba8bf92ea019fd5dcaf27d11af2270b0f12cdd2ee7d34001eed535db6e14ac1cf873b7761370222d49cdde8554721222, 0xdf729817092854b60a3832075bd45fd3d00136112ecf355795f27708dfd3c452);
  (0x160e03f173cbb61638770330b1480722d0738789e1d17f9b8a1d46e3566f3cd, 0xf7c8377bcd57b142a6d92eb3a017c55a26183c4df3e32b84a4290640946f0a6d);
  (0x18514cd6bfbed7f92799aa0ac61a48c0fb40855768aa0c7cede35aa452606647c5f8bf3a15787e6a599143650079f842042f71548d21f903bad5369e28514e8c, 0x12c8f54d6c2da79b7644f8b709a700c1b3f7e845e54e18f19a59356320fd295c);
  (0x2d991e9eb90a1eb9afb8e5555bf1740765c8e07ca13ec0133f7e38103a3544d77d200b877b26e191d77a29fe3bdf046984f17cd09a4cbf98727b6a3850689a87, 0x9aaab4996d8c7b01fd80e0573a995d7980de19780a0455a7e2d875d1d61ac0c7);
  (0x963f4af8c5feb567235937d762174260952522046367d6036b3c399e5c3e025, 0xd3cadde8d6913b3e0ebceca357a7b418dc73d66c47d32558c89779cb03f972c5);
  (0xef7ffe26a0e0bf89397825f07c2958824ba8a58e4706374d005430d1fb941e2b, 0x3107b80a5cbbf3cfd136202f3bbecbe675f32f77a6a90ffc1f3b2c6d5ac51e94);
  (0xf67a1d698726eb458eaac5633e3fd6332a0c94c0d90fbdcab8bf3bce03b6ea66aaf41ad79d62449afe8c471c44255df9769862408557a5d9e108829151a9f1b, 0xf79cd270b3949ea925d4beecf84df127239d9c8941abb3a885f0d669b90fba0b);
  (0x5beabfc49587739ed309b603ed52bc341243af5c3af2bead7aaf223755de1264, 0x7b1a1e72eae681817a0dc02c32f068f494adcb384aeb48c4ac369a944f354008);
  (0xb5c4d8281642704067f06c1df4397b36afda04cd5f21d078b1397333688b4606, 0x9965b92df70e4220d6441cfb7fea7f00148a53f7a32e839f6687273abc4e740a);
  (0x6d7faba0cfcb401796d53a66e479468f696061bf4f4342d246c48bb64fb1c7ec85dbb29f49d36c3bf7f52223296411fb10708130cd9cce7a310cacba9532826, 0xd7b6f87ceb6d33220f90ba2d9ebe318d99d5868ffef09fde4c97738c72c92346);
  (0x81ae4e00b67306d0a8f27edee70034889c112a3cfcf1aca9d775c49c636c189781aa719204ddba403dd5855ee1aac0c4d8a5b3535726a87b6fcb322a1405bca, 0x520cf0e7aaf7fd5082163238218f0a54827769dd874f61b068b745eff0f14cfa);
  (0x383b43bdab46c3da2a7242d6e5e90894a753337d945764f577d57190609be715, 0x594ae10d52d8c2a40832caa3293d169c3141e9d441b7b587940c5e0704b7d009);
  (0x60ee14e2a7a1722083f5596c35b53b7894683a63ca70062fd2ba1769286d0c4afbe89c5731252e767d39a1b97d40f15bc636e07b1348d70320192fb6fa888fa, 0x77faf2d13a6c03b0b9a8353cd7a5030f71b5cde2294dc42764ed58a4891526aa);
  (0x880fea18363ae8b219a104363a67cc370d8db0ba3d01fbe0b8bea372ae42f0ed, 0x4d32b0e5ccffeb590146d9aa6903931d59b8402a78d3db4591cd2b3566e4d18d);
  (0xaf9bd50657dbdd0410f7189b6ff0bd24ba38086388f013e88179e3ad0f03, 0xbaa212ea299d3af31de57e632c32a96a17cfb29298dc01f3da0fb3cc2fa1aea4);
  (0x5028e6c3168878f430f3a178bb1886732c2f24b88240c3750f8bea324db76351ca4f2a96cec49266b3072538c987d5a6c88f4bc6ae9bf9d9002ed9a0861257, 0xd40724b98c57d5e3f093a035c5ec2b765284bdf38ce97bbe48650efa5e3e07);
  (0x2e235c6fd2890139c753cde5b1908470ddb7e87db11e1923ed7a0e628c834bb7, 0x118cfcc7f3a6b8c147e4998eaff35091a652ddf6a0146e2a08a34af6b2dc6660);
  (0x2fe88cd2b13d4a5442f883d5c83bf245bf4961cab385d459cc25db4ff477b313d3af6ffe7f70e91bee7845cacaf6e1fe752b2b13ddd938e036291c5fd586a4db, 0x6cae1a1cd16b362a892b66637312f3259dbbd794cc9ed0ec6af2ec14e656b8cb);
  (0x52e890fc472f8829a4262119487ea59eb29e499041b580d76f7087900ef5ee1d327c6c399fe653fbfd148ed47fac4a2947df917cf83323f65a8a0c5b223dd14, 0xd9176c5f5dcfef258bfcb186d29d788a7b0d0eb998b677ee7b4908eee375a364);
  (0x73333629e82e37e6b82d7c42b39991ae3b4f1c1d121a2ca4c24cd973b87f2c5bf97ffcd10e95d2145babdbf7b1dafa3150af4806cf90b3894ad77fc4ccb9cb1, 0x47657baab7ddc93032d1b07f463d55edf8e867d3e55906c9e1acba638dc7a081);
  (0x4f2bec2195ac058c937f1d1644233a79ba028715331e71e655cc31b4f9472c, 0x5428d730859d55bd6862842cda5737b04c4ade31278ae5e313a503163194edfc);
  (0x3a4a7f03e491e661b4dfb073f8c3ef897e3ee79a10d133fe23d997ea2a653b8, 0x8e5d8e5e7fda4852afcdbb784483c87ab3470ab7771d352a6df04771cc9d29c);
  (0x359458a73378d144e69c9e1ede2e3536b062cf4e99e0f028704e840eb8631006, 0x1e8a1740b4f4a138fa5f0b16197e502ca173b410e53e6cc2ef124f2b1df6e34a);
  (0x196ce341ae00e5f43209895c1ff19fef49221e42369c2b489505323a69e0d8e5761293bcddc13af269de5c7ffe6dd29dcfc93f8abd57c2cac03bd853f59ce25a, 0x751de703559bcaddb7c87f3c95b533a97b6e0f722dfc6df0f1f4135f7607e30a);
  (0x621d8e2e240c186d56c50b7673ba0fefb6968ccd4bc557a19977386cfae009c, 0x9e2682f93c819a15d6c44aa42cf3cb726a37198120a3747cdf53bc7ae57070b5);
  (0x3d12144e63572d02636e3f37b77143083d106010c25eccb7a1d33fe0f6dfb9cf0ed405468e8b5a29fb0dbe62f8ef654988230f9a2b543e4c878760c498c9825b, 0x279f0d5997d855687e3cffabc41172b48563610083203fb811cb42d5b42be3db);
  (0xebc954390e99e6b7f4fba854d85af4381d3c211b21560bb6fbd889356c96df3, 0xf51b05d65f6381f81224fba75390ecc6ff1c33041538fa3d4fe76413f25f3aa3);
  (0x21f14482a1b3ed1b2b8c716e24e0db366264945d94049d73f710833203aa1157ed38813c7663c8773bb8f1c09734a0022be01ddda28f0ef1da9a8038f3fb698, 0x3d6bde08d3d896547c0b42631c55f0104e17481108eb47f507f154ca6b337858);
  (0x1079d328355838f91b39694f65505331414821d0357635f308175dc890325a8bfd3ed0acfe00fdb222a981421cb3b970b14ad117424572e599ed6b78d3c86916, 0x2daeaf9b1864c9f8aab210b9523b86ef11c0a7a3d847d756bb423680c1216d36);
  (0x6187d6c2a6abf89d710ed088b0b26fb32e75dad77883be9268b37a13e3f0275, 0x7f4f443e6bb5b9de648a363a908d3deda451ed08e468534b578f5c1a1393491e);
  (0x115c2ca15ac87e857cf9943c095f965c5c9240279dea70c935a06b0b4e133528cc1f4c00953801aad5a502aabb6846404771e46719829040eba5edbb5dfbaf5, 0x2780c7084cb833d4818fefd275a1b0fe9aa84ce75426a8a60cbaf3922b536f45);
  (0x2c3a53da94147a40f036530e8b5af810c1b5be04292e5850f1ca28e82eaf5e80babf59aaa1789c5478e80507a4b2567093f20ec1becf39cce91fc089c705ad16, 0x20ab95fcbc4a250c6bb61e2eb8718be21b0ea5dc19a0e5aca2d7904e516774f6);
  (0xe3d07b6899c8ac5724e58ef88da274ef12b510ada7c7171178303676ae518d3a56b09e7638a069d3b06fbcf541598d6f9be133ffe74ea31d06cf2948fd268, 0xd095fad09d26c618b73326fd5c00310ed13000ada2e993af17726a9c65467f28);
  (0x1432b1c87f0e003120d1f326999ceb97bb6cfd383fd86e731f001409df9afdcd0874317dcf6948b625d3e1e390fdf65f0b40237ae8a3f2f92c0d874bb91e4982, 0x76598d24b8a7b72bd9100306b5992f7439add4c61c0b8a0d3d577710e3c0f62);
  (0x1baea6f7bcb425160d241a5c9cd9f4783dbcba3767d4c6b54ea7550bf8221421, 0x8cf563eaa0a37e5634dbb13475c43b363e991236a80468ca59e7f8a38a3150ea);
  (0x7f191200ba1b37a3c60a6ed0c13eb6639bf65080c4a9605cc255b57e2de570c, 0x542ea853861bc2ce47ba31ac9260732b6a4a3a86fac3e08cad5ccc799f2d9235);
  (0x2ac6708ddfb442a1222421032f74244d367350895682b2216209c38b9bedab3f4c230cb3af34f60bdd0f4bcef85367a09918680753b73fd5d5674ec29f2e435d, 0x2d1857a38b472aa2bd1c3deefbaad6ea187b64af5a79a0f77178eab6e13ca5ed);
  (0x163695a6a4031c7a21cc26166818c68bb4e4600786f37880253ea01fed2736776094369608c2da603cfbbbd8c54c1c216b1305cd6f1988b7b9ecad2bccdb5120, 0xcd21b72c8ced575de2e92d6f9cb026e91f75e06d043a53e0afb16691b9cb0ab0);
  (0xe28e7ac3f2f9d30eba620799c942115692f9014272e92a33e2d26949a311d522, 0x93d2c0b3c4b3dd6bd1fa15633c71f49a9844f246279562ce8e0b4c9d19b17f5b);
  (0xa29a06b91956ee189b432b48b8ef8e09fb2c274395f3ea43b6992ebe01347fbb, 0xf0d427f862d9db42f25cbc5d79e0ae9722902678a7c9e9377103a0113b4358bb);
  (0x34a9a3d7978779fbae1f7ccf7f83556c38461593278bc9ce5aed20103919fef314dc8df9cfc2457c3ef85a6549f3f8ecd431b318ab19064b88554ec9390398ac, 0xcc064a6559b4b0b7300046a1449dab629ba42f5e80e23270c19024bd70c503fc);
  (0x20411e58cef9255aa0d69f79bcd77ee79c08ac5cde5ada6a214a0dfefce383478f72fe2986c89ec7a6da7a23e8a57ee3c9ba3501591c0fb9c487b08da5ad368b, 0xe39bc2e0d340643ea55db5448460a6b771afaea66a65be1b9dcbf2bcaae7797b);
  (0x6aaf573db45f033c0a83dd2670a1fc89e1ab01531f781d1a758bdc7d5ceafab59fff48e21e0813dfa90870812cf6a5491d9c43796e8e26b9153aa9a21f8a21c, 0xb220aba720718031f2b7faa2c25dcbec5bceac2ad432f1ed49f895858c8b1b1c);
  (0x3b9d703265ada0641e2dcf441a7faf7782f15fc91f14056c525f1487c8d635a6942dbfd4ec5f64594226d4c87ef3d17f94307f82d5ff857267c5dd86d681dcaa, 0x50fd4d7d683ecd126597558d5aa8a5d1b7f00a681321abc2c7f9781b9227890a);
  (0x50da864e82eb7d8727646b8c709b6e3f8da5c0541b9352be72f4fae8b2327d1a17d28d295c0502978e63540f2af1b7d176ec5ec1ac69bd4875f6403ce4bc5e, 0xf22ab841007a0663baacbfe07a5c6879c7c8db52e3392752974346810fad484e);
  (0x4b84dc01c52da0c6f1b201d072fc305b53a77487df0df5deeab87ed6b7831c0ff3c19aa99304b44c948ba6c2d127f2d481b876a48fd70adcd54396a5410cb05, 0x11a063fb67ae27ae4c8463a3ad11e43202838690185715af6e0a410f527dde15);
  (0x168bb54c582b23e8ceec4bbf56c8f43a3ccdfa2e71cac51766b1e617b14935ac, 0x4423f5290605f67d606cdb2c5eb05f33e343c2b86c4417baa5121622a4beeb70);
  (0x33b8c0f8bbdd845f1861e5246b4f464cf31cf499438318468a2d90e6c4133ab5, 0x4bf8c5360619d21393da3469bf33e41d79bdab82d7d65b49201df4fd30954a7e);
  (0x91641ca7fb2ccdcdd12d9dd62313d39f47041c9bd1fbd9e429b7ceccd02277a1, 0x731187896877938a77f359768743e342abf820daf99f6a6b985454b988b42615);
  (0x6097267f94e720926ea8e14245da40b59f43eb3f611c55bc11c6bde55822d4594722368f6713ae91a385599c1a9de1ff131d603efb92ee9cc94845de711346, 0xc0ecd65d5d060b63fe627fe7bee97a1509f88b989622aa739b7634d426f43466);
  (0x4c34c8f6e47f9ff6fcd4ec1dea6f3b3be6279763faa49b3518d2d938981dfa6, 0x134402c586753ee90daed7e1672ab3dcb3e8bde0c56bf2efd7853e4e21f7d096);
  (0xd0c9157dbcf58211498c7ceb1f7eb5c02e073093944407b0f600c81b68d5d5a3, 0x22eb206569658422626e522d3bfc57232640e9a4cc6538bd6fe6aa4c03200904);
  (0xf720e938283f343931d0aee5bfefc818b768140a7ef35c6c027737ad2e9d2308, 0xe730c9cdd1d6fab6d31bb0630cd06a326ca68906667d77eb3c1aab46534597d9);
  (0x17a2db00a8297924ba6c687c23a369098ef2a3cc2a7c8f77ea97206ffde258a1b02f974595725c3eae7d4ffd4138a981dbe485597e3368b0baff1918f15ef79, 0xfb8671862d9be8c0d2ae6efebe74ae4afb88752f22cf49d6ed43565bf57c1b09);
  (0x4b8817ba382b809624d6a1cffb1995cdb8c51dda3e24bb002ed0a06233c95c16, 0x261f004914d56c96b9f1f596fa2451062d2886f58cd5d3c409895f67d56e7ff6);
  (0x141d2d552046e70d5aad9f2f8c10de9dd946089743ba5c28f4e364dcbd21fdc, 0x8b0de5452fb626b419fccd1d2babe1e428c2a147f04686e879ef4cc2c97ecc40);
  (0x21ddbc89a3280617ed9939580e958b8862f61ef293e5f9129affa2a59c8837d5, 0x11f07f3fdaa6024eb011c1297d3cf12158afbb292e76bd93f18b9901586d8426);
  (0xd65e50e9570a56003765d14b80eed6e367ff12054dca3fba57575e74f01966c1, 0x5d1c860011e48604a3d47b437f71014edd1ed1c2101305e6c8d6a8fa60277621);
  (0xb110c13c91446fe865ec13e72aacee0785c4cc9a9c510654de672a9a59295610, 0xea42dee016ad860a18178a6bbe6fc9f1c6102eb11c9b342eaea9ca53373064d4);
  (0x4b1a8163a55b927c02d9118992aa3ccfa9652deba5a2fe4c729d06c6c35c52fd, 0xd4e7cf4b5b6bc5aaae26bb72bb9331b8e1aeeec5e28fb6f3a8b7efcbdb7835ce);
  (0x1a816f6139ea66bac6d3c298dd0dea96fedd7fb9f952f7d8940d2f9dc186f5d0, 0x8aa8e07347aa445800a7cdd894560d08e15d1dccf2e25637810e8f0339f79d21);
  (0x743f5aadbb3e4c82ee610cca64d8647c05f7b0fec911b5919d04583c890fa163, 0x525fae3c0459ce315d3b209c220dfb60a8d5f791c96739d79b1eb0e9003cf8f7);
  (0x1dca13f9acaf6b3e810e57565cdaf5e7ff899900138e55fbd4e6afcb11ffa36d, 0xac824da8c1b48cecef3342ffdf38abc0649874f9b5af1e8a92dbec032d5ba686);
  (0x27cd3b7587a3332ad77af5680467d2984f09ed853ba0894d6bf9788997aba457b7024440c4366194a0e5926f9456002a567669012bb013b9d28031abbd53add3, 0x5753d1b3881565e84f18400ba7dc2b6a1e88f4a4c92fe667f564634dfa0bbb43);
  (0xbd2b0be3cde3d69085e942e0b5ad69c8026ce12e8159d1574f6e9e4e2292925c, 0xc5dfa0a62d298aac51be3dc671a0ed27513d002199f3060f7fbc6c6ff48c89ac);
  (0x11dc77071b4552e79d3b849a88232cf0310c6bdc4eb8433c8a3a6db6d60669bcb25ca91598dca94f9ac3afced85dae815ccb52143209c778a7592adc6db503c, 0xdc0fbbe1e3cc6c808bce11f4c92760b72fb7743f58acc5411e014edf41a7750c);
  (0x141b67de94fa1a480c83bdd78587d7a8da8c9cbd09ea2c9178ffaab3e7042ae, 0x2123718730ca083ad7fa003cf331db1f693ebf2429b027395306d8dd81aabf4f);
  (0x1826b2727a7ac69758cd96ba1c143c36e3c89f7aa69ef7f0edf938dce7843cdb0d805b0cc3bc32b728aecb88804cb3cc0fda30e9281da267c979b5068fdf0d1f, 0x11efb5033718311fdd55726fbefe12c56713c77f8d24d822b4520353bdd80f5f);
  (0x2053153d1b6694808654f31dedea1f04cfee6410a1e1e6f063481a08725111dc161b576e0f2adccf88a2ad7b3ec3d8a1114570991f15113f7ef20354a2b43dc1, 0x9a22fd27f00861cef038361ca6b66d3c113ae03ea6ed5e18adb6e3ec929a4e91);
  (0xa5678e3c9e6dad108e64b72bf02645484e1ca073181e851d5e2e393dc4af3, 0xb2523fa5c33fe0fc9ee4969c5995003d39ce7ff4781b21d6977576c8963de5fc);
  (0x1ab57e299d11998bb4489a810abd9ac18d2eb8ec4ffbb2a536d7a3b2640ca2, 0x3371a1c2b92f5a47ba765b88d2e53d20b6b69914a6bb8b8e1af68d7cf015ebb);
  (0x65744ce1d048609937d003825664530cde92c1d2391f818c869b26e846318df4, 0x52b06b0ff72ac3550a052707fd41eba0dba21a81c00b37255ff2d9d0adbc3f5);
  (0xcd217804dd4c64dba9c44ea12192a3629e5dd82420c9aa2b637b66ca2f9497b594fe627559b7765ed503784dd8ea9ef47ddaf9a06cc48705de88095dd7a52af, 0xa128c3e363a499bf3ee96ff265d493c4abc835c05295cd97e7858d895651801f);
  (0x297723fab903a9cac6820ed66a9bd7efc9686b38ebcd9dc5e6a4e2b75977e5c2, 0x704da27c93dacfe43fece805999da01410ddd22161db794f40b1238e3a090d66);
  (0x7ea20d0668db853f7bcd50a7ffb0d7a096979f2332bb751b9e94febaa419545a, 0x6707a13ec45f9557d469ca849ed74d30bf25a041041c645f09b1a49e99ccf2fe);
  (0x1578b26fbb70a8b8445315e017a2cb9cfc8030f5ef54a57e29f289279a1bd7568f3da294dc011b97181d0d15ddb5ded9988f192633e5491e26d439b376b65c42, 0xb40cd59acce1abc4c5b7a2d6f42d435da2b5aefa0f5de7187238535a27b550e2);
  (0xa80e4940a9015531008a56404a575d10152c6ad0f804729b82778374de2e44, 0x91558fdb2fdde3d1db87a3d205195c6ab7ebf783da3af138f1b0def9069ad114);
  (0x186c44d4bb7d5da8cf7427de88a80a7d12bdc6f41c56acf735c5d276ace62c6fb243bfcca80379e83851e7ca077a79220bcb6c8590d9cde3ce41df3d4668d65c, 0xcf6b0b6f5d9e7e462fd26b4a2aa7b51afd306675da5fd3d3e9a537d8d68952c);
  (0x2450cff79854fb15035f98839b6f1a86bfff6b54f353855dc8dd3b92d9e20300, 0x9b0060902c4d98683215effbe6cde140a133dc3232c40cf4a2d5591cdb77c2b1);
  (0x63156bf0625ae415e5607895c76b52c15afac9183ce6449b228da901fb3f5f07, 0x606b83c04269835cb53f724348396cde021366e140ae4100df04ab24e630f247);
  (0x769e7ebae368119f27542f56ea13796787c5eac79186c553a51e2c11a84d3db4, 0x9f43e7ca40e6792ebacef28ea595cc977652c4944e58f84086b49c56ea6cbcf4);
  (0xbca2cc1aefd8cea5e812873ab60dcb21d5fbf600e18fed6d94adc5c5660dd2b7, 0xae428579f661e4ce6f6e166b2ddecf80c9aba683b2d6118d1bbbcf0bf2c2fdf0);
  (0xfef72cc7c97ef5f695e9e7df95b52a0a3b5e07debd6767b139b732a071fa1bed, 0xdbc06d912f71c9c677bb3fa6e12453c3f575ef4ee9cc36a8a21138d1ef225fbd);
  (0x3f135a4c1b90571e9a1df83b9b2fb328d162f3ade30ebc0fad01f4d98c15018925d0b8cfea977a2c16d07189f72ced45f5171426fb4e0e3f1a3bc46e8d6d9da8, 0xff7b7413989ce295eb09f9e22b33537befa89b89b249b9f8efb870c181f14438);
  (0x1f63a257013ad2ec7e7bbc90250ec722466f3b458a004e9cf693f098981621003759c77272ae1db8806522dca23eba9b5a7f5ff67e814bc65c704ac3c34cbad1, 0xf918b5e2d77523ce51b56013aee4747fcc6a879211e90e06e1000a3121651fe1);
  (0xa8c5c79107b8007077d7252944aaee19835c3ad8f1f2de7ca30c4636919c481, 0xafb8ee033fb131f51c446db15783047dcbc6e071b875c19079e1a3191eacd302);
  (0x84c801cab82120faca56ecfbedba755156b3985bfad90d42d3856ea8abf1e218, 0x33f70a3d00e4488bfd387ba4a0ec9acf97055cde748a4161883d426a8a13c339);
  (0x529a7b40c8971902c20dda43ce527f25695e5703e57d6f42922941b756e56981, 0xb85e84cbc6acd58a77c13164a384b742933f792a2132ce6b95e659d5c4060651);
  (0x9b0bebfa908fd930cd8770ae76ba4912b153c2d8470bef5af158c5be003bb311b0258775359ff3d37a672589c577b96662da404c4549219f48482b3ce72d500, 0x916b159797e025ea9c69a82fdc237b0a1000ba39eb6d84451a319d4250fa2b10);
  (0x23f961c8f03ae188470cf9d55a22356104ec58ab4ac67e8edc319ce03b559df, 0x61a2b4dba919406dc45261c3936c074d219cd1e6850509891514ded2b6493a9f);
  (0xc86499cc676147d0b2b3c5ccde2f64920910ecf3e0ab59e03868e9849e60e4bc268979043c3165ce819ebbd11f005b08b13d6355b858f9c70a51d71d356688c, 0x17fdcb2903fe66263eda7333b590c136a9d833d144c8e5497e98a726dc45074c);
  (0x98496d55f0a187059f1746312e159b58ec036ed855119c6d8999990761175cce9e6f2b9a110ae81b9b1ef1a884f450666297fd44c99b0452fd04f76e51dd34, 0x6effb096807f90ffbde782dc570dfdbac904be0aa4bb7dedf59a69b013784fb4);
  (0xc2baf2e418c16b98d15ef941030e8b1cc095d97048021a0003665cb0dc66866a, 0x1830d0be034e8a3e4f5dbd0ec484a176a381b62273bb661886e56c1e28dc876e);
  (0x295351bba14e595f241796ac3b7d0452810513e641e45ca445f020d9730a7435f2f869971a42ef7481e4e507b78407d7004c2cf20054123f35af322b5add85fa, 0xdf45f46420fce897453b56bc8dee4edf3695ead22149bd5e9e063ad70605ebaa);
  (0x2f288ef587568fa4227a66c75e89f89d4d0d18ff217a055e1080fcd115f8d1527e88a284e1c3b83714b3002b6f66252ed335f5bd4544e3da3d2f8d53808821bd, 0xc9a02d2ed463d96fb49db126d4ff311c2623ed67597c4c577f5a0593697b024d);
  (0xe8c0c11206f45e186bcc6c2895a112b7f0dd4665da41b3eca705e0506d348d1beb3a857024656284ff52dd508ce442bb1d1e10e0aac160d07c98ec3cbcb07a0, 0xd762b697ab58d43f9adf3a9115b0f17e8ed909c2a884ea10d8a6fa8ead7ea9a0);
  (0x3d7cdaab17593ff4a8469f8096e81a837b393e796c8ed09d674e5e9a034b0cac, 0x77a02f9c3aa90af69e9f69c028bddf6820bce299bfdb4c6fa45a6fa47d8ff5d0);
  (0x562155f8cfeb8c1cdbb7614580e183a2255a8fa6df82a0d0161026745d4095, 0x7d766a632ab7e810bfc84c9c53234dd4c7a4cc28c0883219b451b9da1a26f2b6);
  (0xa64c7bac69af6f87957deed088794b131ee61b825b64875f0b2c6864ed71ebe, 0x947d7cf00e48ca73c2d274dc94009776f6c040e486e7a1e4552f94dffada417);
  (0x3770a54b70a4d2738e199c78035876523653a7825cfcfe034a13677f478d81549c431a6f8768ad4a0a71fb690fdbe36c115a620f4ce2fe135d62f7b0900f76cb, 0x33952f2a430ff2f545d17a782fd0a88e35a9002d643a8659382bc7db8e5608cb);
  (0x26e64b8a50a7fe926a16633730d32441c4a750da0d5ad54dc5ad56fd6a267fcd8fbada7ab55c68bce1c96617b01bac608a6d6ad585803517efbc580c6cff7001, 0xe98881af8881210fb32932374b95dde56f289d3f15775f930867def95faf7c11);
  (0x71b5d3e3070e5027516eb5fb0610de8c47ec196e7a73ace734474870dbef76a4378a8c69d73054f3ecd5599c4d429c4d8d44a0ac8f181e807c437aa6b0a50e, 0xc39e49755e72ffcc63cce46fd459b661ea391546e0003c1c902a193c5f5a197e);
  (0xaf159b3842c95ed9f711fff486e27a1847f45f8bb2f513deedecf0adb49128d252f10bc06951fb6a5448e39bbfd46e94dc26ba210e1039ffb73154f1f0677f9, 0x14e744ede317fa30765152a4153b21cd8372a063facdb5ef77b2478b609fdd89);
  (0x38b3e4154691d1f2552ffc1bcfab83b073c7bd0a28f6db7a32c1849fe9e4d25a, 0x67c0c58233a939d73af628f420ee6d9b4b61dd500c2dc8ab77156275af0d229e);
  (0x2e5a02241726d33dcd1e2d2eb25fc9ec7b62ebebd864d14632fceadb2aee604338dd0f888e40ae725adbb996e4015c697f6befc3e581b200162e608090661dda, 0x787b5e89e9bd7ba4a657ea959fe1be8a52592fe04d26e42917e45b0f4fd42f3a);
  (0x2bc6537afa62717fb9200c9afbdcf2c32acabf52c1cb815bed15719c8fb223a2, 0xd588fe1d3024eccffaf04c39ef1f2a16634be7e537c6933058e61e5cf56ca326);
  (0x5b7ed03b007ed82e11dd1866eb54e5d2e83a7da428c7213146a6015caeed4e26, 0x69dc24c79c10688cb11301242dfb31d5ff9bf492e9895a782a60797dd0efdb16);
  (0x505e76789a5484f726ee28af4c1408c55e41429bdeed5c1085f6f7e5279854316b9c6649da381fe153a62e3b311c785ae5a10183821ef565be8e267125257b4, 0x990b8dfa8e684736124f7f6d5a8df19372ed4841490856917589f1325aa88b84);
  (0x37095001f9827a8483fe00133fc1c2c7efdf0fc613d52d06f36b1a07f6a0f103763cd505706edea6fd5960d2d70f3ea628cdfa21b99d85a6fcd35ece284e3085, 0x464b637bbe7d39b0b4d6aafd692f756c49c58b9cd09c58f2ff34ec59ccc96b95);
  (0xf396bcea7e0a049068e176a8ad900ded8fa2aaed49e69c30f3f9ef17ff8f9f5b4286d0936930a2b4477c2667a67b8089796ff8f17824c16b5c439aae2ac7d0, 0xe8ae788b014fdf28f6e65938d944e8519792640b7fae5fadc7f9081978578a60);
  (0x702d24869aec3ac344b79467232ddb35984d6cf73d5f1bf2482998812026a461, 0x1e983bdc493206cca51bf1acd2dd905c6f2e9ec119d7185fc6a94a50f6a9ea35);
  (0x9d958105e418bf0a699f7554cdca92957c7a0b72bdeaff767039b8ced4995e62, 0xa97619c8940244a089ff5c4589887ea2d8342a8cd2cb19a82973f192b915e502);
  (0x13f5cb7498dce99cb118a77a4986d832d0e6ff338a381c3f088d0d3317a07e3f, 0xc8da19190c2538d8ed9461fc9e9c0078a97412751f26a1e210d48f3125cbc390);
  (0xde85a28540fee39a2479283d6f189fab7658bc20654fc691e6196b978fd2a1e8, 0x477b9aa365bf5bfb37b66b7e21ede8890973c6359e8e1481596fd43fc37d5a11);
  (0x42089b174bc40af89a5b835570ff5438c953151e55249e8e8c83a764888f1f59, 0xeeacbc37d29be2387cce121e5509277322b3c9eb4ccee1a0719cb840a49b1f8d);
  (0x2e7c29268139e058deb87c77218768a3326a72ce6a5f10f4c947249bc321b2a835b929aca31f0aab468e3c2ced913fe34b1332808d65b81de6f28e2a129d887a, 0x820488df3ea19a48c439b2bb18c8da543e946d6018f73c9f543d5277a308b7aa);
  (0x967fa37489e1e98922ec133497d36568d20aff946d6548c8caab4567c7a305458a302966aa3b4fc99bbf8f292caa4dadae5a62f16aee5bf0abcee56077dbec1, 0xd5d79a897d8ba6c361e44f0f90041928d73c0b340e9cf9fbfc4081a32d63fa21);
  (0x64a2c1495351b55d1f46ae2e4426bbd2653e6183539409fc87db9ece9e1b9a4c, 0x603164a4eb8ac39f2b2ff709087565a3f2c79bbb9b5056160424a184a4059f85);
  (0x88ca437d69c71e49a1fe9ca27b7c4f6bc7dc9099de715b1202186b4052f9012, 0xa081ff6b22024398d4f0665d2a0ee92f08062652c56a59edab50e42648a7b48b);
  (0xa9907edf5a456ebe3145a58d48ef4c8e69db4ca3e762ceba35404596c777b850a6cbea7775f3da296d6e8f32a6d2b72c4f5d1aab3f7d12c8f88e46aa44f8015, 0x2ec86d5b3b6671563de665a94c362efcf293245a5bcb57f04f521f324ed82c65);
  (0xc8734a2d82162c44d80d789a6cebe27abbc78468e58895c76eafd2b4f8e45441, 0x661ab8c1bfa829e7f542ea296a0e3a79d5e9df808c1d74c258cea15ef35d0592);
  (0x2245a0efca3fa1f3c27f2a69a9af9d9c88604ed35086a6be119e0bcb3900408d, 0xe2875e5b1abed45b057621eda835b7535a8397847bf8aa1904e378e47a5c74c1);
  (0x4ddb650031417293aa1a2a829c1d0c3f4d71c65c6f8a711a2caf93ff1b68c9a2, 0x5daaeb1c79cf39b5639443095c93bd143333a264cfe0073e21376efe7dace1e6);
  (0x196d642eb47d749f1bd81de55dea041201c90349302fda45cc2d1d238d2925, 0x8d2db8227134c2de73ec421a2ba7e4ee5eb9c285400dacaed3f69e59044bcce6);
  (0x163702795854588380a2f71aa4e898b7d8d9f0972f303cf68ff5861d738c24d7, 0x50ae48d8f48a0c125c147c81e7b9421353a27cb346c30d998a2739ca9aabac7);
  (0x155b32d71b266a988caca727d387cc63c518909e37345df1b3a3d86552489b500b83db6ce8a80f581d19861682351e92d6460344b636d32ca17b3e1d78664e98, 0x4b698a2d936373e832247dd539c5e5f5221ceef45633271971c3173d07bcf618);
  (0x39b4b4403b0b4967fd04cf65b95de18d7f88429de791f7e277134f3e27d28fea4e536f9ed30658eee2b13f715112ad7706af8f24dea99e09cd7efa94e22b54f8, 0x90f1982ee951870fb6e7e282cebab83ea66d4c0d82b3180708935d17be293f78);
  (0x38dcf81314e9e986cf7941d216d29b990f2d4e5f3e0a7681c248b64d177fcd823299f432a62fe3eafd946afe9c7cc5f60688891b44df563badb2cacdedbd054, 0xee41fab6c8a94ade9f67f2fa56d8056ccf818ee82c2ae9ca178db89116b71094);
  (0x315b859b7ac6e414393ca5d91450d3ef0c6822af95f44f903fb4593abce95517, 0x3b20be619f17fe8316134b1bbe8f261880b635a7b600cdd1fb69d36a4284be40);
  (0x103d84c39f30e1007dcb70c9c32ec519485f51b3c1f550f0178e7b296ca25c674f4d05dfe0ae067fc6232a479d1a21dff32199636547349bc6a5d94974925, 0x70686807c282e880d7a62175942bfbb1338bccd69406a8145d4bca7381cf0e75);
  (0x27a73d89fc6f3adacd058f5e4c33878a407cfdd0122c84a11862548d71989d7f08ef3cab66268379b47cbe74261f9e534353679e81f5977bf61943bb967cad0e, 0x1f995bc18814dfc959ce2db0577829a044f93e62bf161833732334f43d349fe);
  (0x1ec3b13ce402afeadb826303c6ba827261fa5a48267512f570df33b1403d450c, 0xc58119eeab919a4062bc9f0a0a4c00f4d269e4f543e997169854c3e7ac5302e5);
  (0x7e76ab746df9bd9989b7157411507d72932465cdb323034f173320165d5431f6bdfabab5911ea4b03d6e407d379d571e1ad94a50e027ea018268f77712a39b5, 0x58bebeb62dd6dc118770410d5b18a1a9b1fd74e8883d528c2f63ed3e3ea64005);
  (0x482fd39c6dd385c3e7d0a1e2123d32442d32080517a15e280c2887697a560b7c57015aad336b71f67f7a54352f67c4799a0ee073baed1d3cd9bd80ca0757d92, 0x582d89f9d650d72d2e0e48e60759ccb8f60e2bb2cca894096311b31b25b24a32)]
  0x55a50f4e5cae279e7cab8b266ff58ccd44df516a804a84c110b6adb787d46fc7 (-0x1649abf4b0bd3b6524397b629ea1c88c293cd1ac44ff54631ec325633b8cb5d8).
Lemma prime_p256 : prime p256.
Proof.
  apply (prime_by p256 256 4294968273 [evidence_prime_p256_0]); [reflexivity|discriminate|reflexivity| |vm_compute; reflexivity|reflexivity| |vm_compute; reflexivity].
  - repeat constructor; cbn; intros H; decompose [or] H; try contradiction; discriminate.
  - intros e [<-|[]]; [exact prime_205115282021455665897114700593932402728804164701536103180137503955397371].
Qed.

(** 7 ^ ((p - 1) / 2) = -1, step by step. *)
Definition seven_steps : list (Z * Z) :=
  [(0x46a803133c12520e54f1f245ae0027aeac5ca69b27e4096f682b2e80c86c5a2f7, 0xfffffffffffffffffffffffffffffffffffffffffffffffffffffffefffffc2e);
  (0x47a57e101cf9069fdd15247a599af70e69e66fa18fbcaad43dd63531a155de022, 0xcb551222448956ea934ed433ac17e2bf9a6b09d75e2aa27f221d0ac61aa75441);
  (0x34339a7256fc44b769bfba9f5ecb0074c0aa61cb6d69d48f9ddd9d47ef02e5e57, 0xccc087d63095f6e03bc115dc193070d9f0e24f7e6fa5d7a60afd83c887f016a3);
  (0xbe2778003be13f0fbb0088429e727e31230d2a759b55681fa3acdc0a22c93d69, 0xaec5b99a9aebfbcfc209cad7d351208e8912db1dc8dd7220cadbf3165b52cae2);
  (0x1c5dd6e117ea6967a97e7fcdb8cf0601e64575097f81876e1f82b9eefa093ff0c, 0xdca25daf6f73ee0adb834779e5fd98f98e8b6c3365aec4ce87cefe000ba6a8b3);
  (0xa75fe146ec662421994007092359d5e442a144710088e1c40e56a324c96be9d, 0x80d5cae4f4dc7f6234dacf35d88e3ac51896ce9d96d8bb46aa50c84e91066e11);
  (0xcbc436357a107a4dfd7db3ace7d92e49951c8f5d9b38e2ec3b032e3bf1b62031, 0x33bfd3ace64704ccdb616906d3067b4b8c7dc909a41734e52e97cb5de1ca9aaa);
  (0x25426c1bc97730fd1c4da9fbe1c0efa92b1ca7f4b7e1b93450cb2bf16df50932, 0xe465157fb8f8522158850c6f4f9640daacdaaa8a59a70ef2a3b71a98bae6a273);
  (0xe725c738a24a75c7f817177c2ce0cfbacd8a253b1877fa9bb368639240be5576, 0x61aa33663e7c71756d28df40cf7da44da3cb93ea4e722280b18a683d08d40f2f);
  (0x10e247f19a04538ece25177ddf2d7085374b3adc497a81e6e05aba050c477495, 0xf341b12dec2a239818bb82a64da29cdca09f77cf09f02cd59590e47114aa6065);
  (0x33732b49d04a5f67cb20025772e03fdafe09dbb8fef9e0a67dfeaf73bcaccd68, 0x18d952ae3c7e5d646d0024cd2efdc779cd663e428b5994222f21f8af54cefda8);
  (0x14fd55d296dd3e243b006760af1ad60eadca3f01bbcf0ef053eaff92b2fe535e1, 0x2b609ad5a2193666008e6f9416a59eb737c0b7b20d21cf646055d7127fc0b458);
  (0xc2203690b5600d72de9e100920e0610e0eefbe9029c11f52722768b616e33542, 0x6ed2e2ed0545cd5a50042e1346f7461b251a1ebff8945fda00bb87d3a8c1d2b1);
  (0x4ab3000761a023c015fc4101491b3624091fdda12f18955d241e250b479b04669, 0x54421f2202a3360aee1ff8ab9e46d223f04a41cbd04217c58eb930e3dd9393b5);
  (0x5e8e9f1f386a1fc87447602d127ed3b05ac1c10600149960361401431b4b9f636, 0xd1119542d6f046f5bec8872c4eddf981d15de6e6d0b502177d1db4ada6e8db06);
  (0xfc91505aab7700e7042da31e02669c8cd05e5bed4c44bcabf5382ebeacc58c35, 0xeb38d95f750cd18d0ef9cf983896703dae2f19825320c8f806debee80ebc1494);
  (0xc6916e083c983fbef77e503ae3fe0287af68ce099b54fc54b053a1c61f387e9, 0x601ba9cbc92f71818d07173320d192c3b031b553a01bdf51952ccb6d3313ac75);
  (0x4e12c7bf41dbc2a1bbaa75a8faa60ed7436d07a63a9fe8aad2cdd4cdc7566247f, 0x154de18b9a1155a167e55afab52852818405eb4c98dfa4fa2f757bb4ac049ed6);
  (0x458204db6b262df54247d6cbca3bb3a6290e1fd4bf16f1866bf08ae4572b13c12, 0xd5bd027fae6e88911d5fa8b4b7a618c212f9814b872e7ef71bfddfa571c897f1);
  (0x6fc911d41f6f0e5cfca8978289140f5638fcead53a2a8f732eb5a3baa1f8b5684, 0xc9ac50f2c533160f3572505c81dfd4fe5337c6a1fb5f48e78fc3ab0955cd7d83);
  (0x6113a83b08a1dfd6343290d5175a0bdd8aa55fb6a97f6860bd28a448f74e4c6, 0xffc1313e06986db8c8f04a8d4d50e6e4ac4ee6eb50812e3384bfe05218865f3d);
  (0xb791a69f325849bbd1cd555227f9cf52b461b94f3bcabdeec45767bdd7fbd8c2, 0xee55e031f0e8a69d5a11bfb0d3269e1fecceae629a80d3f3d53965bb68fe0d9);
  (0x31654de330805c241673f2396b433a91ae58ef8f2c7fc49b0aff05a74d47d965a, 0x51ef69f20fb6c8fa71e733944813f270a9829680d0eda11614dc400021d594e9);
  (0x3fcf6ef62979125bbc7c5f1af98ae2dc17f9274684d38244e0dcb1ae2faeb66e6, 0xaa02acbf2253ecfd070ceb4fa9eddbba691c1f9b393ceb82cd457549d6bb9b25);
  (0x286bd1975a331c2e676750e6e964287e7423fcd5ac0c49db920ae446f8b9a4b46, 0xc13b14452d650bac28bac8305ebe0a8837bf6ccc7b80ebab422e859d00a6082d);
  (0x5e7d9ab738e02a3c67282644851e3b7c715bb7ba76ccda4e72cc8f8d1563d15a, 0x99cae6653507a1c333ac9e594ccc6ba103915b57b139de39c152cd69b033d701);
  (0x522d85c09edabbbddefca376e2fcf2a8c1fe353b8ccc0e8d6b62dd435ddb08e20, 0x3ac8eb7862627e339434b547098ff3ff9e6315a0718f2c1bf3c9a3585b37813f);
  (0x1df71c64e07f4a2cdeeb4821b7941a1aa22ca1e546cbda73fbacd5b228c9a4c74, 0xdb48e0018c6631e40386d65c0147495fe428d34839994c04b5f891aaa1c73533);
  (0x23110a00cf8e3d27303439835416a5190123c4d8b7ba4e25dc04de15653d71a0d, 0x846a77bcbaff1d82d0ccf161ddecdb674330bb0a09a2cd8df22db5479f8b635d);
  (0xba10b9b5f537e54fdf8b34214ebdbb954d91fa3e11d233578b73690b124a93c, 0x8f3e8e53e9cf3d11330dbe59736295d6c303977dd92ff87381d62ba94dbec898);
  (0x15dfea2e509fa0d273c49932071c5a9bd0fcbda25f5cfd3ff68ca936deff0e8bf, 0x149f639ab787b6ec3da64c6c82c64c31bb842c5e48a391fe10ee5d5f4a02109e);
  (0x45576fbfc7164edf4a249799442f1068f864c0b31ed34a5bed915e2072e366fc, 0x7122df93e6c758fd8767624ed2c2643fd40426e31d296f88d0c773f08d399285);
  (0x39d9778d375927fbb1a9b01f154b599950b3460130099745dc87bee10b84f3, 0x853c094e5a7c6de8aadebc4827236dab917ac359d9f326bbbc64c56c2c4b6123);
  (0x309d6afcd293100a09cd0f46f3f11c3cc1ef988522761e163c507148eb568c9dc, 0x2dfefe387e8cafcce3e932c7ab7ac8d115650bcb823934b83309746b28396b8);
  (0x1eaef40af128fe73f773f756e0ce22cd83adfc1b3fac690c4ae58eef41d5377f2, 0xa8a951d652a3b1cfeb37bdd122a4a8ec4c4a4fa24e58dbb1a9558aa853d25682);
  (0x10aff3f87a1f394992976c17f15572985c29ec90c49f9d6a7e61746cdd7273b5, 0x85fe42acbe7c2fac0d55a06052620a90bd7fccdfd9d04e55529baf665ce915f4);
  (0x25be9c5ad59e4c96975d939441c31830e1812415ab08fff9ec845946f6831ddd9, 0x18b42deadbde7e509f42f0149bda86e4956b7f09b01a5f870064ce107ca13545);
  (0x25f6bbda77d763a2fbdd0f0da4281f5aa932b6ba4a686cb4b8ac437c097f43dae, 0x949d0d3fd2eaa20afcf96746a7a9264c8d1644a44aac2cdbf2dff3e9048c7afe);
  (0x2e9ec6c32303f3055d23b2aa518b242be2883753a98101b8cf9765baacfac4c1c, 0x950b6135e02c369e5733d6b7d4c871d065263f86f6135d1b0c5bda37a975a34c);
  (0x35a861b21bb7eecc57ade3f722b2d295fcf83fb2eaf8b904e63444e9b4465eb5, 0xa52a3fc413cdcd7ad87ca80399048ed2c9662ff48934f40de3a33e9237cdb97c);
  (0x4609cb5ffda01d32655b6847ad81a51a6cc4f1f2499db95c6b850c144b36cc9b2, 0x2c4c5e045322f9fdc086ee724e07e9904626782c20e11b08e5298bd4ce3104c9);
  (0x6b503627db2ef76d6983f9b66832b314840eecdfc4d1e78fa9ec606b3744ed78b, 0xca70ea09764137090d5a6366c73ba47c041542782df63d3b613340eece253b17);
  (0xf8d94d45badf0bac9292ac2bf3ef9585d0fc6005df403b44a97a7461c97cb7d3, 0xfa96291a1099255bf30c4ad0b5a9dc0d6e802003e5ea4f3d1ede93de905f73a2);
  (0x1a6c8837c45dc49d5ca2ddc03ba68850897722a411c08366a76e755db4fd03dd, 0x5f65dc1d988e194bcc61d986d479158e54f064490350f621824a667111cb082d);
  (0xa9a67b0d2f2901de18522b5eb8cd05844a0527fd57f69fc4fd98494ebadf488, 0x1f161ba30eeca803600caa343ac48389b73d1881a166845550ef888c89217c78);
  (0x1e10d3fb773d92c59f773e5c9c447b7d481c289a74a606759112c2ab0837ddf3d, 0x13b12264d62b358612f43e2e2dfd562e2f56478a919352e1f3feb923d91e659c);
  (0x51eb731f5b44d36ff21027d1583b7d9c13c0fa41f2c79c6aaf4f9b3f17a4e4eb5, 0x84a33dee444d14a6690de33c133dac6055efa17e69fc17cfb8d092d4eee66db5);
  (0x72a5cb742b3a5c3cb8eba61ba3604649429bfc80ddb3e6a889118a33a66c2895, 0xdaf0a69e5a7d421577347f577635c9af2fb8151a3e43a2b1e4cec366f67978d4);
  (0x1684b7ae39ecd51e6506b3e872bc7b506b6d9ca004a9170f3757bbde0cb4dcaa6, 0x40c08644b16d902a8bd9dad0530dc684eccd95f6aecaee935a3946fb48963945);
  (0xb4c69ea472d72815e6afbabeeabbdfd651c256bbe47df4e6ecf62540bac1a53d, 0x72c9f6f1d3e8a5019cad71b9102b6ae81152f35fba402ff9df63c685b3a5283d);
  (0x92355987c5baf824a108a21ad12e5620e600fe7e775869f1c68f9ecad200eaad, 0x514f3a051002b134e895f495e3a624b91269374eae6d56252f25b9ee5f04fd3c);
  (0x3820cdca5d98bbefb3561d3f4910f04bd4716342866fe16270e6870f77aafacfe, 0x491f9f5ba750c60c7e52dfe7405c0208ea1d04b8324b7e90f0e5a489e53f6c1d);
  (0x217978bcbda9721a4ce11d4918193fda754884d216d6e734b0746255f1a2bbd71, 0xb539f0539a55209ed4335120fdc58dc9c9c3c529edf4c226757ef73b2ec699bd);
  (0x3b3c9de5eacb85c302f1288646e4352ce82a6f7b63de632ba5add5efe3f9d2d6a, 0x8bf471e9b1c7f13a3b4051d4324efd86ca0ee8fc405083a1f5a4d4219b3d2fa6);
  (0xedd4a5e68b67f00df56cf7b7e4b2434f32dff41cc6d028646e88045a24bbfdf3, 0xba2d6282f83d1ee724ae0d43bfbe26bb5b433750b6387e1d0831d3e7c7219c82);
  (0x4a421a27609afa8cb781f16f11922c242bcf0bcc5dfa4b18023e7c33a39ab7c4, 0x5d43149e12fdcbb863866b3789bb13f0c4c1c43f63764990479e46c8fe7cdab3);
  (0x73463615605a639e27217a8af2c9316613b2b9edb084d15d2278620304b98de, 0x341cd7006db3ad8f235eb25c2a10df2cac5f76e1a12c2b694ef395771d3a0685);
  (0x1de6b94b34f63725069a8f242c73bf37517ec6a0f85e46091e96d1a0b74842395, 0x103b70e0e00dac9cc3ae4a091032df28dde0ee57536d8d9fcd87869668b69961);
  (0x30253429de569350553bbf158b76ec74c1c27087093a6358f8e7a38bfb082baf, 0x84463dc12d61d7d2820d96f26df741835e4e950c80bfdd7a1434886feb8a25b6);
  (0x5e7b66bd8504080c6082e519249feda06fa14c781ed5d3e21781a6fd94b1a5980, 0x29f6120dcdebca2a2b9e79f895d646e7053ba604c13f4b30d65ad6714b923ac7);
  (0x189cc652e7ab6eb77c0f3b7efe59789ecc1e34cc14df8e4fa8ce6e1dd65c0a6af, 0xeb20f023f11993b4c4c46f799709c6517fa57447c62772b5817c95f81d10f39f);
  (0x1674f3dbae28c7f1cd9f02964d417b57e8f19f0d0cbee151cb2b35371a4c2e22c, 0x7801e3847f178232d6a15207466ecd6166886429cb37c9866c69fbdd81b97b08);
  (0x333cfbc938ea07835082dcc041e426a7419824af564fd5b47561fc1b453e0a5b2, 0x72a1c17d283dff1164d1aeb29978128f9cc3ae9d1ba6328c60c56775349575c2);
  (0x4812022e9b6fb1741d488d290f8c89c61bc4ae76e961dcf95fdb68f50ad4f2b0d, 0xad26f51f0c6278a165d3c532c4cbcfed4b34b792260f449b5c144d7cc7b2509c);
  (0x20c028b8e4071d7fa5d19f663fe7d4b9cae966f85c2671fc211ae99fbd687d64d, 0xcd5b5c78624da91cd7b4adb9455a5ac7dc48f3d4a8f7c09efe2539d091fb739d);
  (0x86efb7171697d70d642e6f029076a06623b76425be1d30d1ec47e2412146cb41, 0x8a6eeff8a62ac316f5aedbd080c719e3989fd1768b94e52740395f76000f2568);
  (0xc198ce875fc91445e2c7d059e274ccfab31e352a38cfd61f19050131cf2439cd, 0x463f8d3b64f9e1f8b7d66f049f621e3d4aa8605e7f06404d6f6cf3a47de43f79);
  (0x1622fd7955874b6cbf545cf9b856d360ca86f2ab09cb14bc0bb26d4f7b0af2e83, 0x5424b738659f9eea805258afc38bdb013abffd169a286261393a80f245184602);
  (0x190da0d1e877462cc307a5c984037685d6592de82bfa4d0bd4763d9aca0d77e66, 0x71cfd08962b9d2b51d5d5d934224774f92b28ebf99cda394e18d1a6756da3415);
  (0x30ae33473c0641c48bcad5448dd19715c1f175f9cce8a2266e78160b1cdfbd4df, 0x7913cc6085bea76bc6ac209e2723b4d1417250ca4727789d9876cf4e633bc9cb);
  (0x9db0a78366406dedebb972aa05e5725e36b940800ae75451aae991843d9f0f13, 0xa8c66bf625eaa2f0abadf87edceb613b9766ab8175ef9aebc980fb8f2d48080a);
  (0x265035d82713e40394423b72e6ccb56c0cc49290be7037a83737b6f57e25f14f, 0x4bf0c0c26dceab568173c1d9727515f39ebfea59b4c4ea2da73d647a41bada3f);
  (0x281ac92f3a1074628d667a0c4989aada9b37af52c551d05f406724ae7eb9af39, 0x256ea78df0f39dac7bdd851b3e03e24155b603f41f2ccf5d11c2866b0dafc428);
  (0x9764b2bb46e0c9ad8b3b0fd98f17782dce5ad3d10d11befb973fe3598fcfbe1, 0x264c1c49e58ebbd2e735ea31ecdabf338b1903c05e3f18d27d45e04a273ec28d);
  (0xa9a486ba5f643571cd5ee94954eef759aeee7a88d8894bdf45a923f40ff1f02, 0x129a29f5f8a1a7f4d342f86b20be55e5f71f3769309d98babbf79d0d1ff82312);
  (0x25995769adc332db7a3ab2358844aa64f53ac602f1ed7e98676e392cb8859a33d, 0x13b1055b3bbbe1f0a86883d22c9f6bee464376fe3f5b6b5f3e454a45e30d4d7c);
  (0x25ae2a3e2fb4fbc181218a4c6bfc0bc9394266c9e241f3fb6bc12920788397226, 0x94539c1a477cd70480335c8cc86d29e82404431bbd04107554f1887a3ff85d85);
  (0x15e7bc4c9ebf91d5dcc79dee0da912fc87eefbc0377122609839a8038fd7ed80d, 0x947ca962424869d0bf4cfb6259bcdacee6c230cc073b290b147e12b6d171955d);
  (0x3f62be9d1ba0551ff165ecb78674a1adca685ab0e01d3554e72560917246684ec, 0x7137174513a4ff5643c05c88f15f10271aa4479c5ae21b2a8b9a5c5b0d2a3a28);
  (0x25ee11a09a26f632db165519f89102fe8021bcfd28072e65e51c2d7abb87a64ef, 0xc0963d0320a06787d544bd0fa9e71b32cdc5f1f5f8badcebeb96a90bdaeb80a6);
  (0x818ef4137933a08e6f55207b3bc9d43b75e633152d4523471f7f7357da1a0015, 0x94fa5de76507f8ddeee6f83186672908060cc8319c2f9e08b8c2c8a997a08fc1);
  (0x100d54320cea06bc2b6274ec7f37b59743fcc6d2d347bc4ab5ee56a5ad8601c7, 0x44d588f2e2b9834ba11c75420a3ac3332a4e87bb8e25703e74b87780173347de);
  (0x59f8579d8b14312933db203c8674ec9d1aa93cb15f586b28478537f763b510690, 0x183aa32ef0ae708fa2c47870c326ea463b73a1fca852b4ac4c6970a89558b5af);
  (0x1210b5936950dde24c4d03bad6f3ef22a2e3174295b065e9dd6da2b8cb10b9f81, 0xe5721ce3742297e91655511b17e00019efae1e0f36aee0b91e4beee41c554c4d);
  (0x2cdf39e428aa5df43ed0ecded71aaa0171796cd349946f26af70a67082b954b66, 0x66d070cc0a138d340f91f74cc9a6ee28326a6be90cb232be97eab70a0bedd406);
  (0x1db23eac221bdf68b690f4a029967eb154c174462201bbc5cf0e247682daabf61, 0xa209e38242f5817e303ee9d00a2a40807f9ac61f9137bebbef6d32e8edcc6ba8);
  (0x463aeced50d76e4fd233a03ab1cf9cec06bd727a89c638c0bbebade7206940f82, 0x83d1f73f2ee79151316f31a95fc5ba7cb9b6f425b2923fd0690335527f80c1e9);
  (0x109cf419ef8380e5273c8bb87aff95f714f97e5041865776daaeee9811c66456f, 0xcab7dee731b54e86c6e2c1e2f4e945367305638c3e69ddbbb18a2e5901db7e5f);
  (0x36e16d6e7438d9eb06d41e8437562bb9133e0a6f8b644cbedb81dd2f1f445b288, 0x629866b9169a81b5db51d07cb5f260c508b4b1808a0e110aba4518bfd0faf808);
  (0xcc28633e713b0f12f3c6792d1e66adbd45c235db8291459df209f3f707faa14, 0xb33370d5ba7712204345f5b4b2cd1d7160f9fa1e3cb18cb9a91c8936312cbf30);
  (0x6763295d10094324997f174f72596c3be1418ed92f975c8385ee276b4fbcbd972, 0x159a1c8ad41e25a5ba5d7aab574b25e8e0153e5a5545cab23ba8ddac92a8d812);
  (0x1e26340e554dd5fd20168a79242b8a57e599ce212046c732a41369bb9049dc2f0, 0xf5f5c8eac8406f2a948fb563199a231554fa420e26cd6ca7f6af3eac4e8e0c60);
  (0x14ce5d8509268e317ad65de5dc197d92c3e283c0d3816b8fa4d8dbaef7c858e5d, 0x84d25bd5072c3100627d0e3702f092f876cdca4efc3e026b55debe10becfdabc);
  (0x2b069b8568b16b00fbd9cf242dac994ff114f6f4ac29f24a9c606c35e8ad41c56, 0x6e569d73ee976ddba29f696c1b721b438ba59b1b8f917466e4ad5b647962a7b5);
  (0x696263daa098dc45347f548a5340fef39bcb878746a905ead34ac239a1066c471, 0x9eab94fc49b49ec971c0aef000c21ae917cfea55e40312841e1638a52bc7b2dd);
  (0x34dcc024f4c950939f873dce833ffa66d3a6b7527103f9d527233ca6e61606d66, 0xf852fc8f88173e530a10086ec553580e9210770a2e1aeb8b88eca57943a8c822);
  (0x25543a9d156876835724d933d3a557de19a93b9f2b6eedf6ecce43900ef48c077, 0xafdffd54387ef50fc52bc3577eb3432e6f985d0c152995d55e83061d2db4232e);
  (0xdd5d1e8d3d7526599cf3d9634b4aa7b173525cdb427c6444c3450311665fd3b1, 0x93cb0a848c5104aeaa5a1227c391c60c0af9f8cce8f7031bfc83d035c346fd81);
  (0x12f26d16084d648dcd510076a27db6f9147679e0ea95765da069805332c2860d0, 0x59f9b9984d2f357d9c25d1391b83d72164a64434203a72613ff1174f4b7f8990);
  (0x34aa1b14157019b7acb13d59b455b611181b9bd7c951361ae50ccc3ada4666d29, 0x694b1895e03b778aca463be1a6aa0c6fbc9796b1d70e03fbffe8ad6ee68b1fe8);
  (0x13ae740a7b966152777297fde087e4f6c992fddfce7e9f0f59eb429dcf894166c, 0xaf8ba978e58783b190a4c5a6c1017a00ae4bdfe8517e5f180620cd6f0329ba5b);
  (0x15cf76399232da3b827da285cd6be991533f9346fa523ef3cb5c680da9b899d5b, 0x6b50963acc39bed668984c6f8e6732b16520cb2bb922cc4695adae8a17a92ebb);
  (0x20105da609dd45e2da5ed9ea4e46a13328da49f30d1faeb7500b96c7b3261404d, 0x70f84b677cc2c5287a0b06da43a7e58bc522c33cf5d9520655f4ae58c3c76344);
  (0x720e0139702e650d1d07997f09520cfc133d2260800b9b7526d538579b16dc83, 0x88f9708b420ac2ce30eee1ee0a8415a2bbe129fd048251bc5d51dddbe4d9fcaf);
  (0x2a5d2ce32201d32dbb1ffd3744b303b44448b8de50825ed5bb97814a6c2aa645a, 0x40959aa360ddcb7519a05d19c88f0c97b90628b82e68581dea338f8f126c6c76);
  (0x6954c2bc2776eb1b2a999f2ad0892b50869b1f6f2515bd893fd8137806bf3dbfb, 0x9d71f4b724e70b968cdf5e5c96e493fbf0f7dcfde79b2bd39889a39be84b93fa);
  (0x534a9bd136bc8b88c145b69e916cc1aa69d5eb8dc352029d63a843f890c40c1c9, 0xf842ed380e09e46ed0c141a971c2e2139ccb85199d6fac32aa82d0f420081295);
  (0x436a8876052ad599f990748cc4edf0a6a0551d179b1dffa12407100b692b8610a, 0xdcc3f59dd08fd4e345a758e37e5855592c8316de5d101db825124bb7e342141a);
  (0x184d7532b09859af33fc247773c7bcddca94d64d87cd3b36785bd3e12d5a3f7fc, 0xc69d8a98510dcceef49600e5615853202fee0396b819a90869a200c4f825d52c);
  (0x2950bfb0dae8cbc8915918f62719e65c9151b58b4bc54d6f3b1af1ca7f5f03475, 0x773fe7f3936418de5b2ab6372075dd23314a3577998b3b907ecc79131790de84);
  (0x1fb31e0cf025ad5ba6c21bfa50856fd44c45692d12eafd14fe1256d48b527620d, 0x9b7c075d2adb411dc74c88eaec02205fc062c4a15f12b0e00e6a02da13f16f9d);
  (0x2c8f5a0dce217196987ef41c2d5b53ae4cea661e7414787678b4eecf85eeed9, 0x8831b230493ef615ae994959e53169e22195032f86951c92c5780981ded4f2a0);
  (0xce4e8cea4d099b8df2ba7b69ed89dd829c271ff679d9385a74d6c8c24b0b760b, 0xa1796b2fdbcc232fd28e945fdda57525142fb11f45cab2d4e5a3855546c0d17);
  (0x6807fb0e71ef3573d979c7e270df920400f98a1ccec314e5958cc5606bcf91a53, 0x56dc9125cae6d3dc6ac0363ad8c8a51510c08db0ceff77b59b4312253e6d8ec2);
  (0x53137123665df0c7dc6c33aa10fc0b94cb5f0784980aa705318d76fc79519b397, 0xf6b988bec8cdd1ed219990f766e306720c52dfbdb581331e71d43bae2cc12e63);
  (0x1acddeb9c65db27cab7c9e37a73714005e0c47586712719008517121162e1653, 0xdc7acd497eef18a559f250a91d9b17d866de7c09533deabe64882542d7f2e342);
  (0xe27909d6ed1f208856da7886499a9f44d8f36110e6260431bf4c7bfb42ed82c6, 0x1f4f28ecff36a8d60b300cacbda2b15ad87a13caf1391157c9c555597812665d);
  (0x1cf9203871ede0e78e08588ebbb1abd6aac3ad23d4f3214b8a73f42ce25b79cb8, 0x5b02045dba8b4f39d1360816d00afba1f74494c9f98f2c68d57353f6b84eff37);
  (0x1ad327b9523a1d96e8f702c6f9e738b180444abdda1abd94891eaa6ce7b68231, 0x82349127f576b6f707f0a20987e092c57ddd45faf757d3e3dfc241e704fa551d);
  (0x5928b563ac6c81724aeaf8a97c1eba8276be3822dfe93d8af68f9ccc2a6966026, 0x1f523ef93791dd0fea6419cde65bc5b484aa4b3875c26d61ecff196263f7b202);
  (0x4bf764ccd6e6d29fe8931093444526860c49e0599ede847649d0b1f53d5cd8b, 0xe468c14bfb961a7a6596bc452156a0a7775a3e20e9e9e2bb4cd6ea11f7520ffa);
  (0x4bd147d08a1912ba4aa32fc45cf6bd5c43d906cc43a8ecce798b19db081693973, 0xd2d5a1afe967342066b4b5d87d6e5d3c56ff34ab099047c9de4deeef1a331a3);
  (0x4731d869a1bef0dad2c0fc3c0dcc08f2b900cadc61702a14d7064e7eba8e202f1, 0xd2a0b771e27928166929f3ee6ed1134cf1d457ae360d8e98bf15f7bc76df36f8);
  (0x882c2ea4985a3c9e49b6a2d1b9fb3c901aa76aa1a1a9b634156631f0b8e44eb, 0xcc1b05418e047aafc24aedb55eb9877726194d2608d40ff9c083e70e08727d77);
  (0x68a8a52c3b4cd21ff68d60ad0c76072ba551f361dbadedfda8d74dfbcd44fd282, 0x11a46f6710fd4bc5e74baa15dee8bc055c892bda05e39a47d9574342003667e2);
  (0x2e894cca41e6cd6a4e6ffad1dc2cb46ccb285c16dfe28132b1ff4053c88abb6c, 0xf777c45ef4a18fe8b19b6fbcb8e3d5ba980522e85a04026f67b62beea034c4c8);
  (0x4ba9ad9eafc8cc62f3474e55b9ea640474ba3f549b5df217ff24ef1021c1b290e, 0x29410c158914397b372a1f03ad07934400373f4ee322fe55e9c0198968bfcb5e);
  (0x3bcd22708ceb6492a890c24e6c2d5ce9c2c90b621a7d1b4efb03018145d735bf0, 0xd269add93504d0e1ac70a8ff2c59f6047304baa2d8d37a5a17ecaaea8ae5112c);
  (0x43d5e3809268d6072e32e45d9093048126d411482d20ed7bae44f553fcb8076, 0xbb0ff37db9a2f6731959d10fd82acba0820d875766f714bae1385d06a9244256);
  (0xfe04a68d7ad80015e91e4048004abfab28f61374d4c0ec9516e61ac48908ac19, 0xc73b6fde2c3ea390c5aa9cd98faf410fbc952fa9b72ab7eff7b1f44d917dd00);
  (0x18fa0ce13c58f985813cf9ee6a817d127da9c941d1dcbc22baa9fd452311edf77, 0x606236a0d5f47ef751d646fb0806f84c524102d7fd8cf762fa95564ce5503427);
  (0x343b894aad0478d595db0c000b8db1d465103df94d36c12e2edd62cd2128573c0, 0x78e4744326ce363268a47bbf91fe50f9b4a21bc0abc312c43c1c8c7104746d30);
  (0x4f3b8ac69eff1ba4696d79bea8033fce901b940da3a5e3a1dac03d8222a976ec5, 0xaed300c35d1acfe75c96ae57ed0b6fb3d22c21704a3e572d889ead9ff0bfbce4);
  (0x28c53c81332ff6e614774d99490541562d1d9d4f253054afb74e799cf503f82c6, 0xd751babfdeb1b981d75eecd4c1a1a8a44f107de2d905726a9535890a3f52f095);
  (0x6fc3188b81ad6ca420f8d9ed1590e73b4963285e5fac474b324126d0e06c3c295, 0x9a74a3dde601ab1df7d6b9a7c560c22beefe8bba7fc67c50b7983d2de89c7665);
  (0x575731061f0c8c27ffbb5e502ff69e1bc2da64edc75a65b3cb4a8d7d64178da51, 0xffba5bb8bcdb69397beb271ee4a75e3a4cb579090fbed037d192315975c68928);
  (0x2eef4592d3f5cd95071481e25b4fd637b7568bc68e34a46a62ec3f7de178cdab5, 0xe21165f4985dc064c997533479f5a1cd3b41d4bb8679adeb36198454b8122b01);
  (0x431987c04f00cbf9116705fae141de92d6dfac2497d819e05ec5a321f64398a, 0xa5b8991714dd0f7cf80bf8ac09f5e3005d3f078c5ebdf63bbc595f0440b33eaa);
  (0xeee735896180a93c5248eef7408f52ca53937e636955924ad901ca303389320, 0xc626145a01a1fd6146b8d1a5decef3890262d07784b8fc9bbb42b586112f310);
  (0x3ecacde1939d89876a09f37d2a0490c09c6b96ca63201ccd5dd0946631693a565, 0x175e3692147378214f50c1b34054a592f6b7dd5db80de030a7d980d0f60240b4);
  (0x2409c5aba2686425c24de56eefb29b5e3bdd078235f5838a0036849817f7712a3, 0xbfaedf70f10ffd4a2afc9a2be7719d4f99a06bf8362c57f2d7de9cdccadab103);
  (0x3e70d45fba67452b461b5fa215de805617b2e7626642c7498135d775faf983df5, 0x91371cf6a932560934e62c0d45751a600e9d6481f6b131b9cd22f6459f2c5e54);
  (0x1e5badc18bfdf7ebd5c7343a2f1e1b6b779cdb3a0839009bd82c6982ecce6ce2b, 0xbf2559671934c9acee86d05be1ca404f04af1b8d2d098b36b838764beafa218b);
  (0xf6ab00f51ca6be88dd3011680b1e1ebd94aa3991ee68bc46feee55f5a01f85c5, 0x8547f29a305fc397a1c615c437b54222b4f3169c44dae4885c540756b6280d5c);
  (0x3130a06cf0f710515ead37c7622d17995b26e3f275b54fe8657a045773361b793, 0x5efa9c537f6399f1e3c7869658ba3ad6e48251db3ff357b48db69d35ec367e3f);
  (0x6614f0c34fbe774780c6ef52e058d2440438d5d61fe0cb9fea0ecba2b3cefa606, 0xa9a7ed5c374222e0d27a34e1b5ecef9d6f43526080385265dc51045a28d1c356);
  (0x36e616d1d56d4020d96acc09555a85ddf1aee69b7f0d380a83a5c3129d295c44, 0xf466f694e91eae5fc64b7722bd86137a79ba553a528876c5e9ee64424610b344);
  (0xa02cdabe02003f98eec85f82eca7ee97067532e8eafd53e763617a81e0ff1729, 0x2ccec3435349c55ea593594cb70010b2075d79e1714e0bf2eb8ecbf5efa41c58);
  (0x5d9acb729e2ad7be6a4eac84cb14f78bbddab00e8877d914682388942d1e004ec, 0x4c89584950bd932ea48e7c71de2eb25ed7493eb2c69b763bb8c66129373df193);
  (0x2de852dfa545f07fe6027b93372e0a3cfb9e49f7e9cfaf59d9da8d5f85d39cbf8, 0xea08ceb1c4fa7895e83315ceb17174d15f0c23550a47e9a366d27e799ee48c6f);
  (0x65b797bd3142346ac8ae8c794c8ddec1192a0bb09a2bb7b7344f5e957cb6f677d, 0xa3e5cf4ccdaf03def01732d899fc34e3591c1e84cd80d7e26d02415338f6d7a9);
  (0x283115acf5402b4c57091d0197f728345eb09d1545c5cc8bd214727d199ed997e, 0xf3f71e19fd5047cda38531035e0b805b6eab322dc5fb7cfa55c438836d24a8de);
  (0x6456791b46b4f6583cef10014d10d707cd7bf5584b3ad5661e5989d0edeefc1c0, 0x995b01b6d5384ba450f16ca2fc49b929bdbaa57539fa20ca27dd30e2d3922130);
  (0x115284d4fbba092b2363de1c48f415d561f6fb3bce868dfaf464f8ada5f2aee8, 0xf24e32f723d2623b6ddc13558306a1a10dcd463a59eefdbbc3f73138ee1d0e24);
  (0x8ac8a500a17e84192f16138a4aa5a81ae52a9e08ba375b77af6ecbeb08117bd3, 0x192b63018c79a5ab45d17bae0ec77f3a334ec937dd2dc2fd44e31e58d03cb60a);
  (0x103d72a72627da0e54f6c7f9feb845d40558ce37ed850ee8f43b45c326d9736a, 0x473e20d37ffa4105fed28a2bbf88335a80d08ebc6f50d397cd9d3c015645dc21);
  (0x1e7f7d95e9a351ca7f5470344e4988554a5c043d011e25ca38e040c796a2bdadb, 0x185ed8e3f0d81f864d0baef48b7d61460bf9ed70b90db94a36d1ea90bf2c65a7);
  (0x16fbe66e10487578dc7826b388694b0a59007ac7f2da1c500fe50851854ea217b, 0x859678338fd5750181ca81f4009dc6a3f3c17e57f36743e229e986c30ab12452);
  (0x299884499374478d206924a985b04d3fecea2dc806ace864e9087c4ece9c6802, 0x73f82e38470d529b7892566a6084e1e472e693389c898c4ac29f578966faed11);
  (0x10ce9f7f3cfea22edd64e338ce0b31236963503cd28b8907cc8dfc0b2f8ba570f, 0x2700b60c3518bcf3b25e29bcffb567107bfc1b8b163b8b77e9550cca1bc65bdb);
  (0x51c4d63cd239a149b772049e80895209638ba84ad39986f4466697c009ff1a2b, 0x632b5cd21f705b7a529166894f10d6e51f365eb07eb1f32235c369d351767922);
  (0x633e2bdfd66aabcd045dc6ca80911d674955f97a0d81a48c9a0da0bf1ef8a1855, 0x36af41d1c278ef940b0b3a49a89a575df050f3a136bb298cc3e7a1cfe1a44681);
  (0x28c65ca01b8296d29ee4724884fb40a73c8e4a662c1d4a3a1d9da06b8fe549def, 0xf0fad21d90195fa0e4429ed2e0d1aeeb68140387d575cb3a213cd1c987ce5e7e);
  (0x2128845e1ea227395313f487084ee4c8442298536d6c7e7026706d956af25f19d, 0x9a76c59d02bfb449ecd9effc02d766a5503ff46c466153a0cf09cccf22814f2d);
  (0xa189c5b5bf31892742e1a0737c422c809131f65026cba101e7b16a4fd7588021, 0x8b4acf700fca0433614ba7b38ef0f3b99db3417c7c8df9a3256af8e21cf57f70);
  (0x27dee40790d6010f3e9cd978b55dcee2741304aa055156d25c83c029756070c, 0x4cdc87ac24c1faa12bc2d8bb8932a8f75565fb43838c80b2485870cc64137023);
  (0x11f0cb48aef197e4196d454f88dc825ae831192e16e67547053e875b5b7d69670, 0x98bde1fea4e9e625f1738e52297f0085aa5607129a54d65b97efedb26c1d507);
  (0x419eb8b60ea7d3ae08b2f5c183652f640e93fe23ade37a47b9413db12d0342922, 0x667576e731b33ef120f74d302893441a038dc9ec05a906d53b060a5ca8e50ad9);
  (0x59f0c083931d59810426535ced2fbec1efaea1a551d9282c235bda982fb19b992, 0xc3f3a41fb1ad43d47365d7dfcf49719d829bcc5a164cb6e5e315295f14a9b899);
  (0x64751d57e14274b98d74310442a0649c20dd2123656ec006ab820160bc30f5891, 0xe5686efdf90390605b451940561e8115fc37ac6b8426a65a36ea831bec3b74d1);
  (0x37c1880e8feed863469d95172ae1db2fc53a6f348298c41b8ec30dbf42e21ff8d, 0xf2732fa7fb2276ea78b97ebb243ad0c26e5076d8d0a355800ede2043613049dc);
  (0xb55bd419b861b4f27c66698d36995be7023636a27f691209cbaebe5c7e79626, 0xb49fe01a01946ee6c2674f58b58f4a70bd1e6a7f0a29c9dbbb0f15afe42648bd);
  (0x3f0ae7d2a2562745c436b82e45c39800056565b4e6d5fa67896f7376fd3bd525a, 0x145c305618349a0052ba3f2866c82d48fc21059fea872aa52fc11df94f872849);
  (0x58a1f6c1f48b274822e625e9e2ebdedbcb6ffe8944eb7e95cf13149b2ce6aaf5c, 0xc0109d7cbb9fdfa151486521309f6d1638605f3b52ee584688acaf9125b7accb);
  (0x1b3e026cfc0dd28cbbb2c3afe2e55be10a83d0bb27f234390e22bb2c1807f367c, 0xe3bbe7679974fb565d8a357a7dd5bc06fe250ca422cf88caf45208e7742ba2fb);
  (0x163413055a06ff79c6fb03c661bbc4653533854fbb639ec98c9788fc0757fca51, 0x7e418d40829c2796ec08b9af943aa2bbcdc563d26b7ea6134ce8f192b742f53d);
  (0x6398ee53e64bc327cb917d4c5a0d6d1c1a82c94149534fbfce94f8d2a2703e55e, 0x71fbb2fae3f2bc9c67c7065e53557e656e3081e6d3523fe721deec31c170917e);
  (0x22575c20b0555a7c9b957707d203af567af1bcfccac043db371e425071c7fd71, 0xf168e9b6ce0888caa47c2c35e045adf932898a3b83ba1ed8ae6c4992dd93be38);
  (0x511ceb5b5b8dc54803f97c0a5bc9bb0018258b1704477b3e7caf92892e6689d8, 0x2370553443c36d9c87d6b7937cf8fcc9f01a2ab4b1f17034f00d730c9473e9d7);
  (0xfbe5d005a1da1ab7a866be591ed4d73e26c1b48e5d65491d9d44f59acff69a4, 0x3676feb46a204c152ce6b604401e316a436a12fa25dd16ae3cb8b1cbc75edda3);
  (0x5850afdffc1aafeb767c3b16e1f4be8c17dfae1d6ef9a1a272f1d11530d1cc58e, 0x17fec0bb053f0d04bc0a448259809717a325fa9a9e2bbfba4f1b6299ab5053bd);
  (0x2230b9babdcf322ec6a270e98b0262720ca13c09b87e60e286bb4c48d1937ec, 0xe35364ade3e7376ccc87e2e9454fcbd086d19feda5409bd8d3d96d4663a9b1cb);
  (0xa4e912ec4c5add921c76105dd2fb175347a4f0ecf46c41ac67a2e037a46b1283, 0x8d718158ee9bcd3bfe91510ca56138c3d9a4010e9dcc5272088fbcbe634e9b3);
  (0x116b09c646f9808c1f9ce4c50e423fda6033dd86b7377c89e8b05d918739fc9, 0x4da8da511476a086ba2b7b111eedef6d60254d8caf25222dbfa1bcba8a9b9358);
  (0x241dcd8b5cf843f74720823bee844d34fa7ef41b1642a136398cf08e22954d11, 0x64f4b3c2fa8f8618a0088923b4619cce569465facff3402f823cafff67d677d);
  (0x270c82d5215c0dd9cd5b65ab50b2632b1fb3751605596f2c13d5dfb4acf27c5b, 0x2457dcad51a7464228b972a3738e5a802c1c754ac7222544d681a937ea4759a2);
  (0x3de91453b8048c9f20811f3afde309735ed9931d1fde770d782f1d8e5173d371b, 0x25ca33d2b5fb34fb42ee715fa6ac1069fd376cdaf84f88f2c7b9b2bb5174e887);
  (0x22d7fb18dd9e3c86226708638cc9a9c9349509e8f783dfd93b1d72b9740eb8607, 0xbe551fdd612676694f62c08c7c854808db258d5c9564a511abf6ab45992f39e6);
  (0xea95e98ae2cecec2abb691aadbeeb3773d4396c6c6031288e3ef1f965e4df4f, 0x8ec9d4b13322c24ce484ee059a070571bcd2a0c69cb9f5e96e04d02de084513b);
  (0xa16cb3ea92aca6b44ff0542a9c7a253fa00ea83b977ae3b6b64de8d37c0ecaff, 0x1727e8fa6c086a2d12894a9c1f88fd63086022d20539033930aa4c8f28545e76);
  (0x494e0e419b85157061a6b08befd794c100a473f69e3c47c678cdc31a2b35a90d5, 0x4cd59cec0a8c0ede57b1e4fb490dedd31a4186cad77b12aacda05d06db12f561);
  (0x108393c9ad7d1a4c4a69e15216c8a88e770c3c3e43debaeaee6d41f99286b215b, 0xcf1bb88b182dc0acd1981606439464c4e2e2c91e25c639cfb4ef7ac423d5049a);
  (0x3f04976d0980d22ef4b8f5f373e79a700c5a47a809ef823b2f133699c94d0375, 0x624cfcbdddaba3f838a44ac978ccc232d7b878a20c0f9289983a58e6da565b75);
  (0xc0403844fd54fcd06d617fb1d324aff3f0d7b82e898537b7ac7aa4715cd63234, 0x3001bfbfdb4aa06553920087a5e83af0f9120e819243a389563da88f21e73434);
  (0xbbc6a6b2bbd12217cefcd912fded7f45be12cfcfea45ea6d9a71f6835333fe69, 0x53d9b368c02237ef77d8aee0801b7b39787aa53c694f2b110a73105bba192d28);
  (0x49f650c04351747239051f377cf7dc126bc8e91afc1d24699d7e8c2c72cc7b4ef, 0x52de68d55ddc261021c1933b23c0a4660d6eae8ac583da961c78e9be3c9d465b);
  (0x63db4ea5ebc8382eb2bbdbe2f0d18643b4ac623071bbefd9905b56a7b69ab9d47, 0xd008e1ebf2d52bbf3d386b7358eef690b07581e1158695c641e0b30cbe4f7656);
  (0x1c8d9e7e5b787431443f166b027c9ff356559c58efefafd4d5b3298681d6707c4, 0xf1b94dce38586f1697ec4e158004191c90b001ab29f3e0db2b70bda309e8b353);
  (0x683affb0ba06660b7c72196de0d2722f691696428462c6a1b1d19ac084726f7f, 0x81421e1a382633eb4ea907f209cf386bbd75c0c880c5fb919e9521310a3d008b);
  (0x489cd59cd21b25f0f2ef48b24a94896c9651a2ec11aa44e55f906a4d57b111317, 0x3dbd803a56c3b54ca04bef0e04c2512213db433fbf41061c54a49c3ac5f7dcee);
  (0x37e4c805b0f01ee0d5aa2ffb1b78d528fb95a6d591744b65ec6547b283b428323, 0xce20c68492a6331a06c51022f35111ff2f659d82a369bb7a5880dfe397b14e0f);
  (0x496a44555ad6c0849c8ef26e0727920aeeb97284547b3974cdca0a0e9b15cdf56, 0xb4d8efe64ee9f1db92c8ab5a4c5f0332ae2ea101e749b99b7a6b72ca711165a6);
  (0x12013ae4410a0dafb10b2171caefd5301101c4d43fa8f692ec1bf396ab89be6d, 0xcf438ef9df0aedb5d535c44665035d2e5d878cd6ef5b4258f0db569b410581bc);
  (0x1633de5d73e6d23cbc727dcf10db43ceee4b819a824413a2ab73dc1f38d74e753, 0x19a916c050165772d489fa8dee5470805ed742d06b41f1d44b60ceefadaf72c3);
  (0x42e641c12bbeffd3f0fc9cd37d1d6cddc03f350cc2b448065221571816c671d11, 0x71fb2bd27314d9ccdf2f19bf45e48a61be7d8794efe674de54919343dba99f30);
  (0x9b07f13cf24c7071c2e3b290671cf9fd4eeb08029723c43b3e56fee8b30b0ce, 0xc5da5103ea42b8af19ade463171d4c615acf2754dfd418a6e6cd87163840ccf5);
  (0x69d8257ad14527dbef901c2429339100de549c0037922bc298d5e89717948b238, 0x12d3096db78cb2cb3259a69ebf7fa3c95cf3dfa171d00b4cd4db687271fd1a5f);
  (0xd5e3ab55c0b3b4718df0d38ece7ad1de528e210c32665533139388464e7e5f, 0xf8dd92f769d7d66ee6fbc73699d0d5de8c4eff61cf0992df8f9d4f295309844f);
  (0x24f3a332bcb80366e49fb112be04bdbb2b185ec4d709ec7f35301b1e8c16a1c1c, 0x587183f22ef7ee8d29c710d28fdaa26b11e1aadccb4ebf218af951b9dd794d8);
  (0x228e863626c5d5d2939604a671c262c6c03e2f6d97005d3cc5090863ab0504a76, 0x930b57c72c68917a7f27c68b30b92fa84f4a6b286e33fe0a822ce0c097346a46);
  (0xff41646468ccea2d6919c7c3b1a0b0eece371352ea984b676af256907e1128c, 0x8e3302176241c3bd5b92efa865b8131ae6ba11be3b328ef98e3da0c93b8b644c);
  (0x300546639bd47fa81f24129c99c7027fc6104fc989557f1187dc74056575f84, 0x18278ed8b5a2acf80b21d3eb980bf9732e5d1d5c2bb3892586734c8c70574de0);
  (0x5c6e9337f9a3f2bbbb547bad10667272b1780149456dad4edd6e1af64e7a78aee, 0xa7a09737db90fdbe10969d9cbc2a8393c0910c7a42d9f7a38b43e739001f3be);
  (0x1c51a5d082f3403aa03b5dc187ba08ff5e494baa55f4b41990e87e57a9c38fa65, 0xe890503d1628bffce3fa09a4c459ee01921657d40eb9042b01f742608ce0451c);
  (0x1f3707c7ecf5b430d8e7df97a0eefcba851f489c554596c0b22749fe30c7c3, 0x80ba184c23832d2cf1158f3aa0a328abd09cfe9bf6d628ed59c2a9f13c3113cf);
  (0x18f60ef5b544abf59839067a34d3a882d44638d10cab2baa277cfa919099905d2, 0x21c986cc9aa0c922636a8c686e4a922e5125a12c7ad6c69917b35a6c83430e2);
  (0x1dc03451a7f27625010159a64e2e6a746d197ccaaddfdea710acd3e3c5d7c0714, 0x78dacabad278623f335963d8eba6c761655dcbb58532d34ffbc9628adf0b44c4);
  (0x66848494b6ee59b1fe1e06bbf0810fa0e6121a1baf6175f9ec6b28a0f9ace6665, 0x83f0ef394f4da06731dbe705df3e33416f0ff030e4ca637bc8d07967c70b059c);
  (0x4984d2a0ba831758b8f7917673302e53874443970cf258161e11a82a59ab6a20, 0xf4ec639f38ff44b42c38d00e698f3c2ee8bf07951ffcae7ac7014ce43336bc0f);
  (0xd461edfd06e373b5a6bf9acff1d52b305a18966fab741d64981b5995d7a8b27c, 0x33da41ff170aa3f698810e8c21769fe14aa81d896dddfd5c01345e6aec2cba1b);
  (0x54b6f534cd95c4d9fb081a7386dd86444010105740d660431835c02babfa07e61, 0x58219f64802bac83b6a330a7959722334e08ea740cd86c946374ffd802c3df6d);
  (0x52fad66063ddf627197b7593f1ba004d8cc90d44c56dbac656369340274ea3253, 0xdea4c56e34f8e23c7c703c8a34cfcb9a0e99caed61ef5a7c31560b772f748d6a);
  (0x47d54d83fd79d496298986ba29b5e989415ac4389c156766547c51a07f138dce1, 0xdc5a248eceff700b3c8e556e4640140abcb2ae05c5e70f9c06e3eab8bebf25b1);
  (0x553cf0106e3e4b41a55e3c3b9af0af715933d619e646ee087104bc93d22e1e840, 0xcd04cd7ac582260b5a24cec80423349a6176eac8294419e79406c47f9ea80bb0);
  (0x210cea0e673ab2b4dd687d70e852240d7d160b0da8c201550ca45d8f73bf37d64, 0xdf548f75117f2084009c19d6e40461d55e93b68caa7fd08115366b2e1fe686a4);
  (0x59a3f3430adfb6120ec28f4f8813a93af6d238b5bf44cf5478d61252d80a5eb01, 0x8b10c92b29bee14731631d4a62829378834dc95a38e8d9f7ba74a87deea3afa0);
  (0x3d3525dbd3b15359ca668be9ef21a8b0fd043fc74b37b3ab89b3c197cb7893066, 0xe50667695ef10751959cbff9575e432382379da2fee2b952e66a4d0c05abb635);
  (0x1a52123766c58989255d1b86d57399003e59bdeadca3ec9ab7bc0b936ce7d9fbb, 0xbd3fc065b938ae9725aa29958e8048bd5e3eb0037bd99b190b5ae69f5cbe189b);
  (0x285d0576fe15327b3aab9d5273ce1ba741ec8b5e1dbd1be28a89c2f233ba40138, 0x7c1a1c6f2cda6f62ccf2754b889273f4edf636a4c604eab2952bb5aa70608674);
  (0x2eb2a96d8c7e7d54fe6032f515bb5fb9c8bf078105a77fdd82fe7582aac8eba, 0x99aebd5f9ddcb61f43bbba831dd11f953b8c7b7610e87214a5f72555f2a1b436);
  (0xcc36f62551e00449ec8b66248436bcf2fe8b6e3dfc8a53220c3f498e3fa731b, 0xa54d758f1a16f51cc949c9fcb4ea07d686bc46c7d87e8469daa0f4186394132);
  (0x38183f80d8953ad55c18610e9c8b8f3941f29c38742cb989a4a06f0b88ff68d78, 0x159ae1e99976ba45a33af3d8bef53229af63302b66d62b245253921f5249448f);
  (0x2468c0ed0bd3f510e24d30d1ea80aba39b01b229e7e162b43c0be6a45ce80d7a, 0xb52c1fcdfb5aef74c2215fecaa3f4c0117acc2f946a840d4e6a38ab2708c05d9);
  (0x1245604a679c1d00ae526b238c381acb9178ce57066e69af92c3819b4a0c407d, 0x247d7f2026ad48f237bc693fa07741d4ab2ce494fd194681c892e7ed3eafe27d);
  (0x3df6d5a97c1fda861fa8e514a82cb82ff09a26ade332de5d013de900b7a406a35, 0x19d978c1afcec54282e455fbc9d9395c5fb034971f76bce8c607ed6b534de9e4);
  (0x2e86a8c0e46476c3448551789b5f372f4f4b66d0d1730fd009fb4252ac5ff47e4, 0xbe6a438b54751331a85c50ebec8824a9dd74ce0f778fa3622a23e02f14ce5e73);
  (0x6bef65954432598450ca63847dec6d9f86d7c9945ed5194b167f7da0db8a4d02b, 0xa4ff81aaf39304be3ba508c5f55dd3fbcb17f4717fa3d6ac6b6c40b113f27b0b);
  (0x8171dc952c344917789950065096ef3d9f78aeac085d06e6b6c4b3238ed60dec, 0xfb4fbf8ec55a3a1ce879db99cca436b1bb1e840987e9ef83e45d803afa5a6d6c);
  (0x25d6a5ccc93b4bc5f363711ea5efa88c47e402ed853902f0b5d8f691a9afe8, 0x44cdce188006b36e6a0c663998c13eb533e3f9695e201dad40738d9a8601d9d8);
  (0x3e2b5b4902a0d1ac9b0cd439e9668d29e6fbbb09d97364432fdefd48e276035c, 0x253315f65a6a1de411b521c3df9382cfbd6e099747874b38470d2d1f2af0e1c);
  (0x4c037761f0d11ccd7fe61699aac253a238a35700071eb56f41055882570119871, 0x2faeb964d801f4f2a7cd95489ac9dbfd4558abcb683eede0b12417710dc7d2a0);
  (0x5707c77488662267b85de7123c965cf09a266138827aeb051f8d86881cb328881, 0xd2e661c529148e0f5b15d39fd9c479d9372d8c2a8512ae4b61bbd74b11c09e2d);
  (0x2b6c12b5041c37c0562fb286e28a53230e1669846a86fad8105c4d7acdb02e632, 0xe1aa888a404f27f4bfb3a87589d304eadf025fce62b91e2992284b82abcc23d2);
  (0x53106a6513d9d14b7079777c7e88b690537481b9c3c4dfa2d593196a3ed32ae34, 0x9f663ebafce8a71079932d74fd9ba064b68cb5698cf1816c36dc49900d3ca8d0);
  (0x5e9a92ec4ded967ed63f273a480f142abeeb2eb82c4273657c25c51a2df1b472, 0xdc76c92f192e045961323d7904b223cb75044cab226fea4d9e16b206eba123ce);
  (0x24fb5011f9ba5a87455f06d280808d0439e6dcdbb9eb14ecf8fbf89bba32b4647, 0x3ad1edad9d4996e3d82d7b0cf2593bd67ac1f802256d23f71d8ec1510b218076);
  (0x4688ac4e5db2027e4308f8d92e47b52f399f94336c1435024fc0d6bb6d84c96b3, 0x931a9c74bf1b2d5f407b906a851fa4b62dda2b79ba602bd361ad52d5d6522123);
  (0x8b656850fb9c92a42b75ea5388d34153b8a414666a2b428e8bf8eb3ab5c071a9, 0xcb27f54d66078e6814e7bbfe72980d80604032946a8d9718321f0414a8d4ff00);
  (0x172b1041361669b7d60b55cc48, 0x476651e92ba73f47d384f5650578426a5cc5640eee88c38e28479347fd46c07f);
  (0x0, 0x1d1bbb69c328a67bf5a6a36fb99bb2839ba41401ac7b7);
  (0x0, 0x82823c992d2be80fcb9ab7);
  (0x0, 0x45160b7a437);
  (0x0, 0xc90f7);
  (0x0, 0x157)].

Lemma seven_power : power 256 4294968273 7 57896044618658097711785492504343953926634992332820282019728792003954417335831 seven_steps = Some (p256 - 1).
Proof. vm_compute. reflexivity. Qed.

Lemma power_p a e steps r : power 256 4294968273 a e steps = Some r -> (p256 | a ^ Z.pos e - r).
Proof. apply power_ok; [discriminate|reflexivity]. Qed.
