(** * PolyPrime: 2^130 - 5 is prime

    Written by tools/gen_poly.py.  The factors are those of D. J. Bernstein, The Poly1305-AES message-authentication code, section 3. *)
From Coq Require Import List ZArith Znumtheory Lia.
From Verif Require Import Primes.
Import ListNotations.
Local Open Scope Z_scope.

Definition p130 : Z := 1361129467683753853853498429727072845819.

Lemma prime_67 : prime 67.
Proof. apply (no_divisor_prime _ 10); [lia|]. vm_compute. reflexivity. Qed.

Lemma prime_11 : prime 11.
Proof. apply (no_divisor_prime _ 5); [lia|]. vm_compute. reflexivity. Qed.

Definition evidence_prime_221101_0 : evidence := Evidence 67 3300 2
  [(0xe923, 0xfd7d);
  (0xda5e, 0x1c0ba);
  (0x132, 0x1b248);
  (0x3, 0x16bd);
  (0xba6b, 0x332);
  (0x2103b, 0x19141);
  (0x3e76e, 0x1dd9c);
  (0x97, 0x290f5);
  (0x0, 0x1000);
  (0x0, 0x40);
  (0x0, 0x8)]
  [(0x15fed9ee4, 0x1);
  (0x2, 0x22a0b);
  (0x1fa6e, 0x3);
  (0x536, 0x2955b);
  (0x276, 0x431b);
  (0x4a66, 0x2e1b)]
  (-0x14fbb) 0x6289.
Definition evidence_prime_221101_1 : evidence := Evidence 11 20100 2
  [(0x2eec3, 0x443d);
  (0x234c7, 0x3253e);
  (0xa931, 0x2ba6b);
  (0xff2e, 0x10e4e);
  (0x149c2, 0x1d576);
  (0x451, 0x215ac);
  (0xf5f5, 0x3d13);
  (0x411ec, 0x1cce6);
  (0xf131, 0x29ec7);
  (0xee16, 0x1c86a);
  (0x2, 0x140a6);
  (0x0, 0x200);
  (0x0, 0x10);
  (0x0, 0x4)]
  [(0x42cd43b4, 0x1);
  (0xa37dcf8, 0x1d13d);
  (0x564, 0xb5f5)]
  0x17caa (-0x1e13).
Lemma prime_221101 : prime 221101.
Proof.
  apply (prime_by 221101 18 41043 [evidence_prime_221101_0; evidence_prime_221101_1]); [reflexivity|discriminate|reflexivity| |vm_compute; reflexivity|reflexivity| |vm_compute; reflexivity].
  - repeat constructor; cbn; intros H; decompose [or] H; try contradiction; discriminate.
  - intros e [<-|[<-|[]]]; [exact prime_67|exact prime_11].
Qed.

Lemma prime_881 : prime 881.
Proof. apply (no_divisor_prime _ 31); [lia|]. vm_compute. reflexivity. Qed.

Definition evidence_prime_37003_0 : evidence := Evidence 881 42 2
  [(0x41e4, 0x8374);
  (0x38, 0x6198);
  (0x0, 0x400);
  (0x0, 0x20);
  (0x0, 0x4)]
  [(0x3e7c7dd, 0x1);
  (0x35a3, 0x2128);
  (0x8c, 0x580d);
  (0x780, 0x8e9);
  (0x3cad73f5, 0x20ed);
  (0x1e12ce3d, 0x82b1);
  (0x6f1e956, 0x5c02);
  (0x27, 0x2c37);
  (0x3d630cde, 0x4b6)]
  0x12c2 (-0x110f).
Lemma prime_37003 : prime 37003.
Proof.
  apply (prime_by 37003 16 28533 [evidence_prime_37003_0]); [reflexivity|discriminate|reflexivity| |vm_compute; reflexivity|reflexivity| |vm_compute; reflexivity].
  - repeat constructor; cbn; intros H; decompose [or] H; try contradiction; discriminate.
  - intros e [<-|[]]; [exact prime_881].
Qed.

Definition evidence_prime_4024685905107147541_0 : evidence := Evidence 221101 18202929453540 2
  [(0x69dcd3a4e4927a0, 0x1dd64cacf21a5f09);
  (0xe30d1f810dd059e, 0x133945a8f84cfbb3);
  (0x77718a89b0c1, 0x1c27397a8d4dfc73);
  (0x2a998c4755d17cc2, 0x39c16055aba8a6);
  (0x27823d1f7705d9c, 0x30c7566065738234);
  (0x1dc1192d1e539ea, 0xbbe70f07a96da60);
  (0x560cdc6566780cf1, 0x734dedad62f2a9d);
  (0x5b1f0edd2f6c5faf, 0x3105852e14dbd4c7);
  (0xdfaa24eb2b9c27f, 0x32720253c9390657);
  (0x6fda8616cbd90fa, 0x13c2208f2d7d808f);
  (0xaf932835af5ffe8, 0x13c29bd78a442c69);
  (0x82563b2be932985, 0x18c1c7ea8f575019);
  (0x55ad21a552e5, 0xf1538a43694e83f);
  (0x157ca6e107e81cba, 0x30ea3902cb8382);
  (0xddd8d68dcfe4bf6, 0x22a48fbc4a56b6f2);
  (0x5fbe7f19cc21b66, 0x13ad886d8b1de444);
  (0xd3304a4203b19b5, 0xced624f261f68b7);
  (0x64ffb546de60649, 0x1b26e7b6f83497ac);
  (0x2ad9d52c3490af53, 0x12c6e43f08935cf3);
  (0xbcf02030de6168a, 0x2297de0d7f91b88f);
  (0x28acd97665d9d88, 0x19ae8ba920092771);
  (0x688058315790dd9, 0xbea7fc657c1e2c5);
  (0x1fe6c3bed6f4cc6, 0xd816b4ea50cbd63);
  (0x22700e9e6f913ea8, 0xa8d89cdf0f35951);
  (0xa3839aa34c563b1, 0x2bdb818c7f44e77b);
  (0x697cb961660c7220, 0x10e4d3885d359d80);
  (0x7ec2f3989a49768, 0x3646c1f32acd42dc);
  (0x9439ddcac28d363, 0x15092cd1cbdb2b8a);
  (0x23e30ea7c009063, 0x16bf49fd650e0073);
  (0x41bb2f2dffd3d49, 0x7ea17be7d1f6023);
  (0x2624dd6be3454981, 0xab60f2beb063adc);
  (0x11c67e5b5c2da329, 0x2e283cdd0fe1b667);
  (0x22e875269617d26a, 0x1f825179c6d9b34e);
  (0x2a81211064bb3dc8, 0x2c27e9b0739d1e60);
  (0x4fea2c3edf707e5e, 0x2273fd66b579a66a);
  (0x298fadc80088d76, 0x2f3dd937fdabf264);
  (0x9, 0x884655e46c35d43);
  (0x6374256f7ff46e4, 0x169c18970);
  (0x12, 0x12a1fadfc4349886);
  (0x0, 0x200000000);
  (0x0, 0x10000);
  (0x0, 0x100);
  (0x0, 0x10);
  (0x0, 0x4)]
  [(0x447ac9c377d3294792e3ad7f9f7, 0x1);
  (0x159f94bd1848d02e, 0x2d49dee706b33a);
  (0x179ab7a671ecc6ffdea90c1472c34d, 0x22c0acb1f411d110);
  (0x965cc7929fe169a1b56ace81940edf, 0x6a5b4162004e1c5);
  (0x27d0ccc62c585910, 0x10c6f156f86fda34);
  (0x126c1ec2905122c7583307353d44ee, 0x2f2860f1147c9ade);
  (0xd656f200093c1b7, 0x5df59a9757942ae);
  (0x17ec2f76c0874a115bf853510dd7aa2, 0x1b5a91639cf8b047);
  (0x4c51b1507ea483e73bc3c0ae6575dc6, 0x1ac48b86873f6963);
  (0x517d3b906b5ae70edb2c29545bc6b66, 0x2fcf84feaa34da1b);
  (0x17852274b3597e00ed4c25e98165ef0, 0x31674c057b82d359);
  (0x4286a43bb1686b2fa837788edb35da, 0x1a8aa5a3053130ff);
  (0x3aec5763c5ad78a8c8dc432b29b4885, 0xb28d289f143d2fb);
  (0x9e594b5a1e0f307, 0x2a0284570d7efd8e);
  (0x254765c937ff4d83c2ab74d9f7eb2c8, 0x1782d97cbd2f0c91);
  (0x10daa29fc230b630, 0x216a32668ae18519);
  (0x1db92e4887c3d96343496dd2f0b73ec, 0x1eae7e25fa5fc97d)]
  0x145d7b287be3a3c8 (-0xae10ba1f745f103).
Definition evidence_prime_4024685905107147541_1 : evidence := Evidence 37003 108766475829180 2
  [(0x3359e2bcb557672e, 0x1a240161a416117a);
  (0x16444b0e664dea88, 0x358e1cdcf16b35e8);
  (0x9791cec03a4177c, 0x234410bf3062df1c);
  (0x129956d097788e32, 0x1043de8b52365406);
  (0x9cab4583db3eb6, 0x16ca648a6fae8a44);
  (0x324eae87ecfcdf7, 0x4225575f3c8c345);
  (0x346dcaab3b0c4a5b, 0x95ededdef00a272);
  (0x3b81dcb2fe514161, 0x361d3d59d47e50ad);
  (0x68ab8a27e1d6f8c5, 0x28c40c903043a5f7);
  (0x1fe476e9484cf1c4, 0x3610d64b363ae834);
  (0xa4e58dd72fd51ee, 0x1dd807309202ee9a);
  (0x22e973a6f91ef67c, 0x10f7128986ffe3f4);
  (0x7df90ac523e3af4, 0x1f39849cb5f9c304);
  (0x29c09884f2317b42, 0xed4076c0a313e5e);
  (0x3460265e56e9b1ee, 0x22259c2c10bcf20a);
  (0xc7708b92b6114dc, 0x3616329ca8d4f674);
  (0x3e94a471b60bf990, 0x12a85b83d28cb0f8);
  (0x6e529eb2907da2ea, 0x29ce269987644c56);
  (0x39da5e1727c0ee14, 0x3781a82dddc4234e);
  (0x1b7160063dd5e75, 0x2831f7c98d31248b);
  (0x10042c43862dc083, 0x9c9a7149ef9c1ba);
  (0x573870feac7a43b, 0x1de8cc458b7d1b8b);
  (0x88781b9091e8370, 0xc56a42f1d7ee539);
  (0x8913173711e47b, 0x15d39335203b75ed);
  (0x231d6d36ee7fc520, 0x577fd1fe07d7742);
  (0x1f9de95b9e946773, 0x1f50ba21771f8b99);
  (0x2b4f1b2805437edb, 0x1db6f2290743ec22);
  (0x11adb97ce8cab51, 0x312edaba0eba5b7b);
  (0x1b28ffe130468, 0x58e0d0e10e9a6bc);
  (0x2fac271699ae030, 0x9bcb66d0731a92);
  (0x1aacd63fe0189842, 0x91f345d2caf2e5f);
  (0x172b979de317284, 0x26996c2c14c8005d);
  (0xfb66d82fc789, 0x8fe5a27915c1387);
  (0x61d476822f1b, 0x767f6f39d730f2);
  (0x1776f8a6355e4059, 0x49eb858c1057b3);
  (0x171f3337d24196d0, 0x19994848a3bab0f0);
  (0x8ff4942b65d540, 0x19693ab64a8cd800);
  (0x246d86442413060, 0x59ab2524af08d28);
  (0x3052cf15e50b6194, 0x7f94de4c616545e);
  (0x355adff8feca6583, 0x24bc612f7d1bea61);
  (0x125566b984, 0x2699db663f26dc2c);
  (0x0, 0x2000000000000);
  (0x0, 0x1000000);
  (0x0, 0x1000);
  (0x0, 0x40);
  (0x0, 0x8)]
  [(0x10503cf2a23dbfad8a00fa4845de3, 0x1);
  (0x57320aca3af0c7e0d07db9bcab5abfc, 0x179d9db142628f4);
  (0x233860a325c7b8, 0x369907a965d90bcc);
  (0x19858a7319437ea5af5b7eeaf8c7ca0, 0x2c5a58b44fb00ea);
  (0x291b2d921b2fdfec, 0x1d89bfa7a30faf2d);
  (0x41c17bc32de2d4, 0x2fea78040dc8afbd);
  (0x4df8535318ae33, 0x3c9a55274e12311);
  (0x18523dc51020e241538a3541b77ddfa, 0x41fde64ee06fd58);
  (0x1364a5858c39acc5, 0x1cd5c6d9531e9c67);
  (0x68b8d1d196f2659, 0x20e9651c608024d4);
  (0xf22cdeffedc7652, 0x131eaff56f7a29ef);
  (0x160dedb69d4f1c04, 0x1d1364ce86ad8a0d);
  (0x1b9309475d4fdc78d6e2a66548504d, 0x2318e9457c73db4f);
  (0xba205c45f1dd5c, 0x7acfdca8d33ffb4);
  (0xc3bfd6f5f50523c, 0x65f5c701c715b38)]
  0xf38ca52ba04ee17 (-0x71fc64054b30fe6).
Lemma prime_4024685905107147541 : prime 4024685905107147541.
Proof.
  apply (prime_by 4024685905107147541 62 587000113320240363 [evidence_prime_4024685905107147541_0; evidence_prime_4024685905107147541_1]); [reflexivity|discriminate|reflexivity| |vm_compute; reflexivity|reflexivity| |vm_compute; reflexivity].
  - repeat constructor; cbn; intros H; decompose [or] H; try contradiction; discriminate.
  - intros e [<-|[<-|[]]]; [exact prime_221101|exact prime_37003].
Qed.

Definition evidence_prime_897064739519922787230182993783_0 : evidence := Evidence 4024685905107147541 222890620702 2
  [(0x2b29c494ba61c1ab3d23c8270, 0x19877fc2a2a187f39a63cc600);
  (0xb7e6b8afecd8c5c3d95b1eafc, 0x586d82884819e7234521fa0fc);
  (0x9349b6203e285ac183d79d2, 0x8110b6771d7cd4d3f0d7f5204);
  (0xb55505b91a5b3ad2ab36a2a7f, 0x738145e4802018a1c7f17ff7);
  (0x607aa2682dec5707abbfad190, 0x80291bbdbf269383ed4ed7530);
  (0x10be595c5b9b1382370076533, 0x5d7bb32ce7d52d9e1cdde6c2c);
  (0x9916d214edf64ff632b0dc05, 0x37133e9a3bc25e9a317e08171);
  (0x15ecd9d76607bbc86c710c1da, 0x29a235b218451b92db8cc2f8e);
  (0xe908b8d10d04c1b2e484c792, 0x3f0610e702541f6945521e3ea);
  (0x66d7b180ef0594b545bd12a98, 0x24525e79ca53bc3ddf36d4bca);
  (0xa0bb4564241431875307cc4b, 0x608455cab4e44301013ccd5ab);
  (0x8dd59430a5f857a08cf9735e5, 0x1e2a510f129d85b131029960e);
  (0x14ecb586d0be0f7e65795ae679, 0xa04bc7664fc244d622188ef41);
  (0x7025e853ebf16ccbc1cdcd730, 0xae249e99869491332398af0b8);
  (0x144f6eebc19ac23861dd0b818e, 0x64c9f9f7fd7c2ec68790526fe);
  (0x2d32ace49b9fed698edbc2110, 0xab9149e50f378bb0d38d6fcb0);
  (0xce20e84151ca860c8f399ad3, 0x3ffc1878ac97ada55d0ee0d6c);
  (0x86afa329b748dad086da72db5, 0x304f7a479c8c8ed5661ce3941);
  (0xa75e02053c7026b5a46b243d, 0x9c345813bc92838b37d936e36);
  (0x5fd94911f15e4262de546321, 0x2b88287af034fab2752b45da9);
  (0x40636f24787151f1a4b6e7648, 0x20f1738872b80383cbd8d2210);
  (0x8abde12ec2f8e7d347c59201a, 0x4c5ea33be636224e02d29b18e);
  (0x9c297395a6c9c9f936b69ae68, 0x9e89f0345f1cae8e8a291155a);
  (0x6c2eaf1f8dfb205e62ecf479, 0x76ef02343dbd86ecb34db4c65);
  (0x9d31fe42917a51e375ea07ae, 0x22ffa26c42d8d2c211d5d05a6);
  (0x4aef4433687e09a0b516ceea2, 0x1dd4e5285391dd711e8b4c8f2);
  (0x12cc2c1da3b6a3763f889a24f0, 0x748342767eeb7922c527161b8);
  (0xb7588436, 0xa50dfbadc4145464c3a3820e6);
  (0x0, 0x2d900000000000000);
  (0x196f9ba830000000, 0x1b0000000);
  (0x21ad672b47c4b5d56ebde5e7e, 0xc0000000000000000000);
  (0xb, 0x373b3d4f7cbce0764c6bbb5e3);
  (0x0, 0x8000000000000);
  (0x0, 0x2000000);
  (0x0, 0x1000);
  (0x0, 0x40);
  (0x0, 0x8)]
  [(0x8d6115cc2492d73e5d2a365d17de0d861bb250aadb765b9, 0x1);
  (0x317f69a8a8681a0ffc255ee7f, 0x7eb25ed81d8fee2405ae0ed0);
  (0xf271f5f9dcc15daa43df27ed43c7ef6df5741fabc898d807d, 0x5eb1c8f09c7021dcf7f83f8e5);
  (0x16db228b936f22c7789cd8fcb, 0xa5e9a21b32be77e06fc3a0f67);
  (0x1253543df4d41e7d3cd16ee18cc94988f4a0c12ba6cc5315e, 0x4058fa80fa569a9254d13a34e);
  (0x29ed200b53df6745400c61ba9, 0x2d9d4048f4746a014aa0e11aa);
  (0x39a741ae7cd5ad10cf9e08a4c, 0x5726cd2fa2d7e4be4a5139c55);
  (0x2f91b98c302fd915a848010fc, 0x6632ce44cc9aa1032dae0de8d);
  (0x4d6cf98e5f6bad360259fd6c27e48a23a0ceb8d02d5d563b1, 0x5cd4daa846fe451c9992cc9b9);
  (0x65825de02f5f2a91be6bc160d25c205ec3393398e1d45f3c4, 0x5dc26d9283d7c7dd470e869e4);
  (0x253b56de4821415f0910bd48b, 0x6b5b154b06d512ea0f4b83a73);
  (0x218db12d9bcb63a73084df982de9b454af8f0b98059a42664, 0x5220a9b2fbade284b49d9b184);
  (0x712641df6ed97772e8bf1fb69afae3611fa36898c05bbae4f, 0x3db8e3176a9fe8dd9ab709047);
  (0x1ee81ac281e5940aae023ad91, 0x71581695f4b2d6211b0bbfd2a);
  (0x10444da5bbc8648cf243b07b0fc8679265bf8130e0886f7d5f, 0x4ad3b3d6c474f3f65edcccdd7);
  (0x42b8947dc5cd147d66ab7e590e613f2cb84c53f61fafa79, 0xabe735da6d324baf8d8d89ac1);
  (0x9d1f3dda7ecd1e9bc41deb7d7, 0x57097a246f09d3b766eecba0);
  (0x5db1cb4ea2dc30cf2b005e6d02c77a8cdebd6410492c3df, 0xa8b6bc872026f40c1bdefc257);
  (0x15e594d350e7ccbcebbe11bffa24b91913dc8650c19989860, 0x6723fff868c2490b0e966360);
  (0x78b883ce834359319ba5d28337209c1a5f8a00e8e46ecf6b6, 0x31dc79ed99a6915582022ad66);
  (0x1269a272a8505d27d5f4ad298, 0x75132a71deda523b234842e61);
  (0x11e7b01fbe970555cdad5c872e63118eaf285a697250bc0855, 0x39c14bd5729734cfba8620b7d);
  (0x3c2aef9a71a1265c372e2b396b300ab248e22007203c88f99, 0xb45a0878b70a2600ab42d9ee1);
  (0xb1bf97d04766d5fff54a8d97b, 0x52a6f71bc74efe84035c596d3);
  (0x29530ca6525b16f406effd6a0, 0xb3724cd3785e504d394c6f5e0);
  (0x72bf32409777f012b0719c1ffb3544302d0f7de4bd2ebd3d8, 0x568615c5e29fffc621620a498);
  (0x51f16fc0513927b4c32e64cb7, 0x7224310e1410700f1415ff87f);
  (0x2163170515a5a79fa789742ee57f170820744d5ba2fb75994, 0x79d6ed542fd7b0806bae50634);
  (0x99e11061408252b84792cc592, 0x3d91a796e9513bfce419fbe5b);
  (0x12886e87676cabed348863ad, 0xa6f6b34a0acab7d145d4cb5d5);
  (0xe7f6ddd354901ae6a64c0ee68a093e211b518d3f5f2948c98, 0xe7c612eec8f7c253b4f71558);
  (0x9a822af837bd29168d0692e97bb5bf9a8358406a425363c1a, 0xa2496ddf506adf3d5096349ea);
  (0x1af64f9a85d87eae766448290665b2cf88a8e96a6ea4517b8, 0x8472f49f37aaa5126ec9f7778);
  (0x6cca01a36dbf3d513da7d696e, 0x375421818971bc64b83bcb6df);
  (0x15725c1acd1ed730485cc1fc8, 0x8c62e53a52495cfd9d7f61581);
  (0x68124606001736c21b5d4463, 0x3e550b982c6b771b30396ec8b);
  (0x3726f9724ff97c65b14f382db, 0x2253c02a84f5dc27b006ce2ac);
  (0x2d009a22aa666e4e1e0b6c263, 0x63f505131063a4b203dd2508b);
  (0x92c40f275104fd488007af4d3, 0x5a4ac64f528d9636ff6e8a714);
  (0x811470b6a362010b32bc5f2fcb9984b221319b9a8ea51e9db, 0xa30f168c6ebcc62f95f277c33);
  (0x235c1ce124e346f6b5dfffbbe, 0x790f72bdb5cb8362ed478c577);
  (0x5785b8f18969efe672fd64c98c0d05b32e947bfc3744ae4b, 0x50094bfd030c2fa1974d45c23);
  (0x3c301bca85c3822bda2fc1916cde93d91b08e6897639129ef, 0x18ebdff22f0b483768a8360e7);
  (0x70b7f16f7868dff388afd5bf1b9cbbd377ed222c6c63ffd0, 0x52aa848c6ab2bbfae7e3d1c50);
  (0x6a477e6cb50f6f5f9cff85afc, 0x1c48322555de2736b45755fad);
  (0x1e2e24cd36860f28079a7d75b, 0x8ac1e9b4425b1216c93117ab7);
  (0x44977b5745c21f44265f501d, 0x49f140ad0aa8eb41f0788c13e);
  (0x4b4f335646b3b10af86a4be28318e92836120e3e86330002d, 0x1bde3e59a9db5178aac75e815);
  (0x53a0b1e9eee018781fd3ea84f, 0x5c781f1ad44831a98bbd817f0);
  (0x42dfc68121a68c224443222505037d358ae40ba98ae4d1b, 0x7b15e9249e66d7402aa498b73);
  (0x429bbcfc7387a2820e32daafe, 0x57230709404e64d9c67d7732);
  (0xf8f080b889fe2910846162b592348cea39ef5d5be997a0bfe, 0x6dd95d8bdb5609d85a3f762ee);
  (0xa0e69523c77dfe156befbbd885e266befe87520e991b4b3b2, 0xa81ebcf0937dd2c7d128eca42);
  (0x61be74942bc3b13fc2269367, 0x87293cefb3da8443e8a470f68);
  (0x4c0e9e1ebd9c73790ebd08514bd95200475d6a7d401d0e6f5, 0x21446b647d960d9a03c04c11d);
  (0x5687b94e6333ddd8b4a261315b421cb79c64309c3133eb076, 0x5ced59079d727003b87dfcf26);
  (0x806d320933424311194d8db6cab14621af6b6db3ef00da0b0, 0x631e702cd460f41addc83d630);
  (0x42ce309cdf0208b6b9e2a1cd0644f880e98f3606d569e2296, 0x78c0ebef03b465148525d4846);
  (0xcd8e897f598c552f5396f79da35153a9d3607e2005cf97e6f, 0x5717914e2e70743130ae13167);
  (0xa0fd91d6876ffaa58c62f9601, 0x98c52aac1e245c848b7712892);
  (0x5bd823c67d4f042758062dc40f477c9bc432b4e2ddf6fc2b, 0xaac732d09c67dcf0fd5caa303)]
  (-0x17cef579c7de7cfeeebdf1fe7) 0x35ae7cf3d6488ee02cc4f136.
Lemma prime_897064739519922787230182993783 : prime 897064739519922787230182993783.
Proof.
  apply (prime_by 897064739519922787230182993783 100 370585860708306614266520211593 [evidence_prime_897064739519922787230182993783_0]); [reflexivity|discriminate|reflexivity| |vm_compute; reflexivity|reflexivity| |vm_compute; reflexivity].
  - repeat constructor; cbn; intros H; decompose [or] H; try contradiction; discriminate.
  - intros e [<-|[]]; [exact prime_4024685905107147541].
Qed.

Definition evidence_prime_p130_0 : evidence := Evidence 897064739519922787230182993783 1517314646 2
  [(0x197ba65c221599b45e864e015345604d2, 0x3e0f777316a0136f120d3ebd36d41a4e3);
  (0xd6013777cf3c700d250a022da500f011, 0x2862725755145da766335e95a8f0e93dd);
  (0x333b10ba8f020225881048b0c9766b8a, 0x14b03a5da3932778eaebf5dbe63894a32);
  (0x77e38f96abb2c8c5cb11394fab311ca8, 0xa1f50a432897da82ed5759a43055e588);
  (0x15308d93de5432598056e225fc08c72de, 0x15e6150f46202a34e8d35ee3288833128);
  (0x34caee068a59b1a5ff9aa108a4e0888c3, 0x1a0a2dbf65b9bf9d5c81707ec04315413);
  (0x4219e77f32f3e70fbeeb7088069ef41c2, 0x3a207a3b40e931b8fc48aa1efe74367d2);
  (0x60c2393a5942e5f285d5f6a4662cd4d, 0x2dfde12adcbb3d77f1b6e8604b915d2e2);
  (0xdc9d1b60ab47fc5403dc356ae2cc018e, 0x4eb15af8e22dfaecd31338a75403644f);
  (0x5cec30b6cc1a622d471412ca0b340b7d, 0x1db4c5a3401bdca548db48d41c860ccc3);
  (0x402e8b0676fee2f233bf83fe300283bc, 0xda1ebf41e291c84e3aefa75f8434768d);
  (0x163ac02485ddb8bba621efc4f42e5eee, 0x1005d05268eee95860d8f8491dc52968f);
  (0x158ea8b20d5503238f0ccec1286f5da, 0x96dfc6cb39351a1c51c05a68aea0fdd3);
  (0x4a0c57218dbba6f6f0e3bb79bcd4a5dab, 0x2524d29a4e7476acd094f3739ff48d29);
  (0x68b5cfb68c08f6c0ee717ea939de928a9, 0x30ad8df2c26906d4d1fa946691f81936d);
  (0x23396c2b564846c24cf8a3b76c5a060df, 0x39e2ad796ad5b2a581357db1523f6b484);
  (0x2a94043d7d02a9a172bf9347e44f39892, 0x2f7ae4e46ac5d21a1e826f583244f9133);
  (0x2c30ae09d8cd824fb59a195598207768c, 0x34339a3c71d500c57c95115f358a85ea5);
  (0x11efc659cf7, 0x352e37f2410011d100000059aedfc10d3);
  (0x0, 0x21e19e0c9bab2400000000);
  (0x12a05f20000, 0x5d21dba0000);
  (0x4e2000000000000000000, 0x186a000000000000000000);
  (0x0, 0x320000000000000000000000000);
  (0x4000000000000, 0x14000000000000);
  (0x0, 0x40000000000000000000000);
  (0x0, 0x200000000000);
  (0x0, 0x400000);
  (0x0, 0x800);
  (0x0, 0x20);
  (0x0, 0x4)]
  [(0xb4705b51044bf9ea78ef49a07d319fa6ebfca42cd362898127c36edad715619b1, 0x1);
  (0xb2ddccdb26d5acf06833a402289e4cf7edf71d7a0e9702d652fe694b514e5aa7e, 0x36906ec2d79097e76755336243f060902);
  (0x34264487c089e4339ffc937c57889ad46fd8c417a34c0402fe4b373fd2375e46b, 0x36536efb5e9710a0e94885068e9ff66c2);
  (0x2d532899eea0aeeee832b311d66b3e94a, 0x1d5570e0c938c87a8d556060664e63f3b);
  (0xcfc955cd0ed30cefa95ab86d928488c42b743f8daab76f89634a5fbc9f264820a, 0x35dbe611044dd3d43e7ced569e0a24ddd);
  (0x20785ac526372a1dbb0450eebdf916822e4b9522741b96533c828b76726ca8a9a, 0x3a8da412208dffa967d326c238a2d2f45);
  (0x285a7eaa380804ad7b9f37d84f6145c047673829a9fc1619406c1d2c384bb7aad, 0x17257ec3713febbf8f0495d8af1b08911);
  (0x4a72212053dad72208eada6cdf5b014, 0x19cdc412fe979750ebe94e0d07eca1f74);
  (0xcec74639e5b8051b768a891d13c8ff051bf0d3f93b2e92d1d7ca254db4d1393d8, 0x45068d3261cf00c88513f64cf1243964);
  (0xa488065da0e1560ace962fd05b356116eb256437a41db12ad323db76c798136b, 0x3a693c8bbdc87e89f42904a62043b95aa);
  (0x9942c4f2b8e10ce68b44727652656c3db70fdf730692e671812c0508c77184, 0xd069fdf228843b6d4259bd123a0912d7);
  (0x60926dcd2534c5e120f44b30c36cef30bf820beeec166f72a3a0ae96f87e04ba7, 0xc9262e86e1ecbfc7c533c7bf7f0f96f);
  (0xd44fdeeb52496369e3c31c481f0f12, 0x27eafeb872a9f36d7a1bb650dae6c1f6a);
  (0x5ac8db9813c924340b0d294ae5be4a21fed52fab99006ee99ad6913bf1edc4570, 0x1d2450e923f089595fb334dbcaf8ad7c);
  (0x958cec75d5b7a809c90cad1f2528d42d111679e190843991f8f6613fbc60a728e, 0x26b40fc0812521df338838d6cd5d6ba52);
  (0xb85e9b21c5b170815e60cc24ff70651d4f839d2783e5c65f7ed6f741d8e5eafe, 0x31acc2d4a9aaf7df6c22a0e8f4f499382);
  (0x441b4c9beb4701137236876e7af626e6, 0xdc9f068f0816cb6ef200c557aff5ecc2);
  (0x19b987c6b918c1da536549e7eb229f0fa47cb5eb83b55b74a5d23a55307709a7a, 0x10815e8ffd1017bedec69970e96ffdbae);
  (0x666eddf965efddec816a582fa38eb8b167324dd53e8691e7e9e7e277d911f728e, 0x149a378f8303098f3b72f2f9a92b8fe12);
  (0x21e23483e188c5d901fc036d35fc7b94144c9f68227cc0b49770aeab21c3fa153, 0x291c87a5d3ed20ad0bcb0ac88fcfe9592);
  (0x390f607fa98d03a2023d0f5ff08ca6f31, 0x17a51838f8d35923944e8cf4fa8d14f39);
  (0x455c6b4ae7fee86c1b9c74ac21118d0a22955633f4f4c727154fd721e72f90b6b, 0x3c6e34a7ba7ca271fc0f0f0e384619492);
  (0x65da0185f700f534fa88669aab9106f8b16682386dbcbc078bd0c826c250d6abd, 0x21d472737e72c3389f1f1255ef7dbb63d);
  (0xa22818dc1d953190e9fec97838be9942d9d124393d36acde566c9ed57a391716a, 0x28fe9d5d00943b7942c5e5bbc1aa60fc2);
  (0x46dd87a199c74ea442074e08195cc6170510bd2efae6e36c592bc27d14e5b5168, 0x33b9e3ada482c85750e5d9c94eaa47b54);
  (0x42d212399991357bff7959470d8f521, 0x2231dc07ffd5236fd22363b7f3898402e);
  (0x11283e9232cebb03693725b6a0e0c0e2ad2d137d65ecfa8804a3a2c34e8cdc4d9, 0x4165249e7e36a6a59adc96cc7743c43d);
  (0x1668416e8b8ab20119a129feb49640c9ed64e136a1095d7b02b5fd6652339ad60, 0x10d34eb2638a4763db4e007a4b07ee3a0);
  (0x2acacfa802ad2e09ab8e03e391bab18d4, 0x133a664b2e1050c3db38fa94669999d88);
  (0xce9a3e48e81a97675b1c82b5b3152566d45f9b68b6508c150a7281f759ea0d646, 0x345526613709367ce9b88682c2852474a);
  (0xaf55097754fc002bea2f51d9c1c69b1c3e5725b3c885d39c998f79368a380055e, 0x3a62dffbf92a6c5ecf6b871ff2a3a2a06);
  (0xb9448217cb4cd23d64755d7f8b96e55dc26f8b46c4b41ed379d0fbcb57f6f8835, 0x35c95960e02a3f976fe38ba47547d171c);
  (0x1e14089d72bdbcb55fc728d1766c433367dc757c4689644f7b3c2fde16f3df79, 0x374a1a5bf43c77e24aadfb8111ab55769);
  (0xc616c1fac7d42fcee7c1d79369142c5b800473b4c4485016511e0549e34b96ef, 0x591c4abe36d260974ec7ebe527479f1e);
  (0x65f9b2476e47e0f00ff7cdd19d612395, 0xe4aeb0241085302cc8ee7084fe26bb79);
  (0x10325fa9a0957d9a56774efcdca5580d0, 0x14325284fabe3016f7f79e4547bd3cd14);
  (0x4cfe2b3b552190135ec5d7f760e9b6485831a6496584938486f417df073bf44fe, 0x2032384188bce41089af0436fcd2f4e42);
  (0x106a8c8803c3eec95b89a356f0804d46, 0x23a4791754d4c3952e97867f379de136e);
  (0x2d6108a8300a15e93adc5f1ee7ae20f276514a32c48d4485a76fa78ccdf168945, 0x81a775aa012b08f6eacf9b689d68225c);
  (0x2cdde9bebe0bef026820077036b566ca9, 0x1b5d08b1aeb98c0e079ab8badd09e02b1);
  (0x9c1b7a3633bb2280b70a27ed3357a2737ccc0ad2adcaa681040dfb23b4fb8b902, 0x35960fa2adb03d8fbfe97bdd5cc2d3dca);
  (0xc2552d5c397a87dd5326143139ea2e95f68ab30e20a298d4d3058ec50990d9df9, 0x32c08bb47d5385eac4e8106b5927de388);
  (0x16ca49a3ad2333c490187d16a528a303cfe44ecbfcc228fec4b91b0ee911b9ce3, 0x38a03f23c1016adf83548573eff3045bb);
  (0x9e5802e804e426b5bb6490d12a6743f52040e0491a6705ca1c151bdf11e3ef126, 0x13644877060aad6425895bae35dbca36e);
  (0x5669d8271d389bfe2e55ddadd88e856aaf979d00278a006e649167a6d61ab40ad, 0x331d487cc17c9533854b68ec0c170d9cc);
  (0x342a11367579eabcfaf6f89f1c51067ad9eda01df9146d61264dd97aaa8664ab2, 0x25c296f5657cde1f9bf9b9797202299e5);
  (0x2a8778a4540541dd1e5946676710bcf4e8144442a835b423aa7a6945cfb1d14df, 0x1d56826c269503fac2b73076612929d1b);
  (0xb6058b4ff014b0e819dd6797583c22ffd38a61f1bc855afe1a5b1d9f3e5c26a8, 0x1a7d81737d44337acc0e9dcbf7e1fec48);
  (0x33c059d596107177e4b74e6c987011fa4c25dad4050006c10029f9bbc97acc910, 0xdb364027595c1b9bb0ebcebc2f0cb850);
  (0x2e540b67a25a6d59db0bafafd360d7bc, 0x1d38b8e4f02327fbd2e78612d052b6cb0);
  (0x181b93eb574056534667e5ab6e5026379a04297f038b2f1edce3d4557c08a1053, 0xd9cec305f3c49dc55660c93c2d603d82);
  (0x1699b1b6e9a15cefe4e1fc15fd6a4d00d, 0x13f1c38aa898495aaac20c1c156790681);
  (0x8ef54f1ef85ad1e78d2b24bdb61da776405fe75f6d96698ba073d7debe4496b48, 0x260828fd1b08af27f926600ac31a6b328);
  (0x2f53d45275d2f792519616b4b72ef7328, 0x30915288d37784388df65dcfdadfe50d8);
  (0x57502fa2eaf32ec44b9c98a5f2c1df3985bbffd626d111b74a277d64b4d09cef8, 0x370934f1afbd3a3ac76a6d72f27bfeda4);
  (0x8052519c5873673e7768f01538da68543f808c8511fa5d5e454dd6df901e68f8e, 0x25f4c91d8a13dc94886aac31208912fb2);
  (0x8e6f913ff23ccb91b5b931fd7e752f1654acabc49f88261af3e0e0655beb968b, 0x2e03a6944cc4a8ce53a1ab7c073ef777a);
  (0x2fec20b0e9dcaa55d22259e4215c3d27e, 0xc1ea555c0ab9c510b0edd5942b60162f);
  (0x193c191c508c7f308fa890a3d267e8814, 0x37617b77b15e4c26fe416bb610ae78c15);
  (0x10b21a179e5370e75d5dcc262b6ca65a6, 0x282ff75440cba736f0128160568895847);
  (0x1d53b96c8a75c5da0c1fbaf37fa11b813, 0x20b034f433683c4a3ef465af3c6e83a03);
  (0xf0d88be98abe4f0fca81147f90962905b233d2868362ec3fe14c1502d6b5c36e, 0x2b52d4fff84bb1fb9f0bd40fc38a29d26);
  (0x373a2df2270b46356a4c86af1b76695ea84ceb93bb1dadae84afbcc3cb4bc0184, 0xfc285f51d90fdc233f1be3b5e03e1f20);
  (0xa511e77e7c257cea0e8775a9f75cd1, 0x1e2fdcb27815830717c1884122425d4fe);
  (0xd7227c962935dc077e7328e338164f4, 0x19b2271c7caba46293727006510a68ad);
  (0x3ccae3a957d358829dbfa5e98b4ff4154, 0x7556fb2dbf94ca9825ab42bf6d3d042d);
  (0x1231db97778bbbe5cd7e2aad73fa849ca430338c2f5e730ffac4b8cd2205f0, 0x3e602aeb98e73d54091ff8d086015f243);
  (0xde9104a80855c9345a93fe37ca691a3f84d9787b4a2a148b21270a834da54fe99, 0x454e897e65e5eff5709bfba4cb4dd29);
  (0x9ce389e2920b9ce6614a99c759008721, 0x3c999892522e310d2b46ee7567ffbadd6);
  (0x2567117a64850510fb04a32e5a2a8d95b, 0x190d11dabc866ad352763381d299c9307);
  (0x3656da9ef1152070dabdcfa1261e71794, 0x30ed177081c96ec30f074f5bf5face448);
  (0x50474ebe29af25f7e2ee34a55833fbd526f52b01696cc59b6c2c6f398f1a956e6, 0x3af8de4751da4dee8d629a2894aa2f58a);
  (0x73e02b47be97c7831d3c9e1bc981efab537d33daf8a639276b612b68e9f4a746a, 0x24652256dabae973f8a58b06aec581e5e);
  (0xdb33d94c4d65fe4d61313cf8d31bad0edf02f0ff6969ddc775711cd930e8a173a, 0x2bb9d483953c3176c92d91b66fb0fc6d2);
  (0x8e6181700ddc27fde52b33c2251d02a02dce799935b5d1290927645408ddfe8f5, 0x3c23e92b172d207685a6700b9b35595ec);
  (0x4960044924e707be6d17b349ea47a5ec57964c21c7eeebed1efa50f54a7b9991, 0x307830ac29e58380650d9683a5fec4d61);
  (0x143adb7e69f97cdc579d282f665960fda, 0x8b2e156facfa75d2bb297ee5de6b0f82);
  (0x1042c00d9f1fda3523c62a14c732f1bb, 0x23fb6d7b5e30efe07b73727eec6fecc08);
  (0x677c472fe21f1aaedd3e8b5a118ae080, 0x8109ebfc13171fb2e398306a20b79531);
  (0x3d3825be09ba4d29063ef0ca47a141814ed147617cb573d6e1ac29d758242e1a5, 0x145876ac72f35fbf3a0fb4c8f1f2eab39);
  (0x1cb2b1c357ebd490e7d7e3ae215e212e0, 0x1fc84c69920d9ca0d75f8e751d7215ef0);
  (0xd70e1780d2c5c408ea3f481baf936f6ed59e671e26fde3f9b39a7494a78c2ea8d, 0x2adb3efff579daecbf238eaf71d185ff4);
  (0x1dfff8e86bbc9da11359f62e5acc505ce, 0x3b919051b4351235db7c05c527c848467);
  (0x40bf1a38453f1efd44a2e4140f51ef48, 0x2bd1567683a1e1938d34df8432c135f31);
  (0x3e50a8cb445d13af6f3803f742d506063edd550ae5ce49938e18ad24eb2106d78, 0x1017d18c728e36a37d62b4e9d14d03d23);
  (0x376aeace84d9f5f72b0e4c98957239db1, 0x2010ca546fa907a6a9e22497f51daf2b5);
  (0x2ea1c2902af9f80d0c1f8d75bd2647138, 0x3b8deeab11eaca3ffe7772667014fdba8);
  (0xa1cbb717681f31085eadfe721f5ab29e3970f608fc35300bc5b9bbfbb4e7fa17d, 0x36a1498a915d3ae128bda65cec812e294);
  (0x156391423e33d49d64a0194b5a6fa446d, 0x33ab2592b600b667bfebfa64e00d14061);
  (0x112a10808bbb8cbe8de10db24557e4e752d7c3ccbbb9b0150da21a926b5068a49, 0x24ffa038ce96889c6b6430a2312ba4c68);
  (0x2956496217993c80c807bc4d3158bdc19, 0x10d43322349dd43bd5eb1b37175239d7d);
  (0x138d34792df55ac9bd35c2db7d1140fc, 0x336f641587c81d5c7391918a0d5c14090);
  (0x248e0d490532aefdffcf6c6c2a605b872c3cd4b7609ac404422466efa557dfeb2, 0x8d7eb4d100596b20d9bc5806976a4ca6);
  (0x2b26a27720a69d7c140d90f36a2cf6cf5, 0x188f2c097a145024b6d733a8e9d162a6a);
  (0x4c9e6f6c2555c97e5bbc3636a28a478cb2fee1af184038431550f03a94435d36d, 0x348d2e2c08331edd1eca409207e36f851);
  (0x23db56846fb80feb3442a5091a1d4f1e0, 0x238e497558651898c7305b735be86d3e4);
  (0x8bdbf67cd52e3036b584a113c939b6df2164b1c4fff9727f39d3406105ac3922a, 0x2fe788c6c476eb04f443559c0ec43e25e);
  (0xf5aa33b0467cb901967af033609c0e88b87990d59cc62d94f923d50b660acda, 0x3009d22cb618d2c4e22a550f4004cff02);
  (0x3c2dfb2bd8b98bc8ee949fcbb17fd31c3, 0x3faabe37d9fe42d2ea337717eb6b9a18)]
  0xb8a7f7d40edd77d9cfd441c6ee926c2 (-0xb30f5817e4013de0656a3730e6ab359).
Lemma prime_p130 : prime p130.
Proof.
  apply (prime_by p130 130 5 [evidence_prime_p130_0]); [reflexivity|discriminate|reflexivity| |vm_compute; reflexivity|reflexivity| |vm_compute; reflexivity].
  - repeat constructor; cbn; intros H; decompose [or] H; try contradiction; discriminate.
  - intros e [<-|[]]; [exact prime_897064739519922787230182993783].
Qed.

