(** * GroupOrder: the base point of secp256k1 has prime order, and no point of the curve has order 2

    Written by tools/gen_order.py.  [prime_by] (Primes.v) needs three prime factors of n - 1; two of them have two small ones in
    turn.  The points 2^i G, and the sums of some of them, are given with the slopes of their lines. *)
From Coq Require Import List ZArith Znumtheory Lia.
From Verif Require Import Primes FieldPrime.
Import ListNotations.
Local Open Scope Z_scope.

Definition n256 : Z := 115792089237316195423570985008687907852837564279074904382605163141518161494337.

Lemma prime_9349 : prime 9349.
Proof. apply (no_divisor_prime _ 98); [lia|]. vm_compute. reflexivity. Qed.

Definition evidence_prime_44706919_0 : evidence := Evidence 9349 4782 2
  [(0x21f91ed, 0x17a51a5);
  (0xaddb98, 0x260f0e0);
  (0x3fcb2, 0xf38462);
  (0x2072718, 0x24e0a0);
  (0x84c6d9, 0x1a4cdda);
  (0x2f07c79, 0x12cf5b3);
  (0x2158bb, 0x1fa9e87);
  (0xc02, 0x96d332);
  (0x0, 0x40000);
  (0x0, 0x200);
  (0x0, 0x10);
  (0x0, 0x4)]
  [(0xead0096f39b5, 0x1);
  (0x1659e62, 0x1493ad2);
  (0xe76e4f466d3, 0x1edebc8);
  (0x119f5, 0x51b66d);
  (0x795617, 0x1b6920);
  (0x1e6d440, 0x11fb3b1);
  (0x2a46dde, 0x2404867);
  (0x1ba9f108863c9, 0x2a74b95);
  (0x240df6, 0x1c4044a);
  (0x58029, 0x9cd452);
  (0x2b8a3806d41cf, 0x3d41b7);
  (0x1a705f, 0x23713c0);
  (0xd1cec2, 0x864c4b)]
  (-0x872389) 0x4af1f3.
Lemma prime_44706919 : prime 44706919.
Proof.
  apply (prime_by 44706919 26 22401945 [evidence_prime_44706919_0]); [reflexivity|discriminate|reflexivity| |vm_compute; reflexivity|reflexivity| |vm_compute; reflexivity].
  - repeat constructor; cbn; intros H; decompose [or] H; try contradiction; discriminate.
  - intros e [<-|[]]; [exact prime_9349].
Qed.

Lemma prime_113 : prime 113.
Proof. apply (no_divisor_prime _ 12); [lia|]. vm_compute. reflexivity. Qed.

Lemma prime_19 : prime 19.
Proof. apply (no_divisor_prime _ 6); [lia|]. vm_compute. reflexivity. Qed.

Definition evidence_prime_120233_0 : evidence := Evidence 113 1064 2
  [(0x6d9, 0x8090);
  (0x117fa, 0x38b7);
  (0x1abbd, 0x16a9f);
  (0x82c, 0x1c036);
  (0x227, 0x2bd1);
  (0x11714, 0x1fcc);
  (0x0, 0x10000);
  (0x0, 0x100);
  (0x0, 0x10);
  (0x0, 0x4)]
  [(0x6a2ae3a7, 0x1);
  (0x4586, 0x13b1a);
  (0x2bc5, 0xb4b4);
  (0x11717, 0x8f61);
  (0x9ab97a64, 0x16a0c);
  (0x11ac61a3, 0x17c65)]
  (-0x6c0) 0x1d9.
Definition evidence_prime_120233_1 : evidence := Evidence 19 6328 2
  [(0xb9f3, 0x129b9);
  (0xcb1b, 0x12786);
  (0x98ce, 0x134db);
  (0x6c95, 0x10be5);
  (0x1b371, 0x9faf);
  (0x1d42c, 0x13fc6);
  (0x18535, 0x14b93);
  (0x11116, 0x1ab8c);
  (0x8b, 0xfd3d);
  (0x0, 0x1000);
  (0x0, 0x40);
  (0x0, 0x8)]
  [(0x8f8e2ca8, 0x1);
  (0x9e452142, 0xf0c7);
  (0x11ea0, 0xfcd1);
  (0xbcba, 0x16ee7)]
  (-0x8dd6) 0x59e9.
Lemma prime_120233 : prime 120233.
Proof.
  apply (prime_by 120233 17 10839 [evidence_prime_120233_0; evidence_prime_120233_1]); [reflexivity|discriminate|reflexivity| |vm_compute; reflexivity|reflexivity| |vm_compute; reflexivity].
  - repeat constructor; cbn; intros H; decompose [or] H; try contradiction; discriminate.
  - intros e [<-|[<-|[]]]; [exact prime_113|exact prime_19].
Qed.

Definition evidence_prime_174723607534414371449_0 : evidence := Evidence 44706919 3908200597192 2
  [(0x63fe1cb431e966038, 0x3c02f880550dc7bc9);
  (0x7b19c8e5c97c3d9c8, 0x7b19bc18a4fd23121);
  (0x121a3cc060fe576fe, 0x889604dbc1385e7f3);
  (0x47d5ae8dec611d74b, 0x3460a64b8e2d886ff);
  (0x48fa24eda24fbb481, 0x49c73812af8470aeb);
  (0x1d3e387c636f8167f, 0x692a1ee76db49e8ea);
  (0x1aeae28d19df06e9f, 0x429242e0e89301159);
  (0x262afef7f6c87e6da, 0x2d299ccbe649ec008);
  (0x6a9f940a134dfaf5, 0x35c75960c06db92c3);
  (0x3757e6e93fd65be54, 0x1fc7758690ee2cacc);
  (0x9701d7bf39f8fb5ea, 0x40c20f1ab0dcb96b8);
  (0x2c2d842265dbd596e, 0x6af82db039fc00db3);
  (0x85a1de3aa33198cd0, 0x51d2cfadf84250139);
  (0x532d54d37d67625a5, 0x8e4f0b0a2a4230543);
  (0x191ef9ce01f9fac38, 0x70460c54f60f0fb18);
  (0x89032045315258036, 0x3db388ffce83c05ec);
  (0xb973c76c67a028e1, 0x65e46171fa07311eb);
  (0x3749beb505ce81a6f, 0x29e950722f4a90152);
  (0x3d3cdf3ecbb83983b, 0x5b893310a94e33a5d);
  (0x268e4a90fa05c2918, 0x6055d90b3522b29c8);
  (0x25ebf37f04b7322d5, 0x360d203cf31a7501c);
  (0x48bab5dd2885b74c3, 0x4bcf0ec84e2dd19dd);
  (0x7cd3ef5b7d71b86f6, 0x4a3c77b42ca235302);
  (0x35fa16dbb74c2d508, 0x61418daefb0e55c9a);
  (0xd65e912d214c7945, 0x3ff41e9877ef046c7);
  (0x8d86164f767559c7c, 0x2d0f85f08c1735b76);
  (0x5bc734620d2ebbbce, 0x678e5bbccb719b383);
  (0x315d373ef309f9ea0, 0x75ef8ecebfb6d2971);
  (0xa7ecfdb13061217af, 0x567e3e24e70bd3c69);
  (0x88616b59630949fce, 0x70cd7f0455c1f6944);
  (0x113618ee2a72cc71, 0x65a82ecd603c3bab7);
  (0xcf3271d30afad610c, 0x907416a7b275131c);
  (0x10fd111216b98eb5bc, 0x7d4cebc7ae9675a56);
  (0x78bc3dacbf3c0023c, 0x8f83fb44edacd1e05);
  (0xa4d6e90ccdfaa25b, 0x8744732b944f20a4f);
  (0x360e269e85cb, 0x1bf0b9a22adbea50d);
  (0x0, 0x100000000000000);
  (0x0, 0x10000000);
  (0x0, 0x4000);
  (0x0, 0x80);
  (0x0, 0x8)]
  [(0x889cfb7a40cea30e88f0a2362a55d4f5b, 0x1);
  (0x1e200ce95bcaf3a28206fc05ae1487f88f, 0x4a4bbddd70de4a5ea);
  (0x4a761944cbff1458b4340a353a5b77cb4, 0x8b8de6e302e0c89b5);
  (0x100ffefe555c8d747, 0x36d9d3dd53504a781);
  (0x2542191cc15e34455, 0x31568cb92fd7501c4);
  (0x22181868cdf7d115bba79361a8ec3f9ec0, 0x4b24886a953fabcd9);
  (0x2149b9f9e14cef28b529c7cb3b333a48a, 0x947683027a543ea77);
  (0xdaf98b87dd0fc3ef, 0x24aca073baf24c60d);
  (0x68594c33210864b7, 0x2d8ac69e1d6428a02);
  (0xb3d71a786ac7838d, 0x1f703780a29adaabf);
  (0x1ee4a1cd5d61e8b3f1768eb3970b641507, 0x2945b9db4355d788a);
  (0x3c573165bfba71b107cd54063f07e9c73, 0x8d525ddc6416f4629);
  (0x27acd3f1868afdfea, 0x316077267b2bf90f6);
  (0x86230b9b88e14287e1ddf33148d5fafed, 0x4d8aa8fe369090bcc);
  (0x5aba4630408c1f8f4, 0x499e92a7c9e5457dd);
  (0x216529cc8c0448743, 0x7542457f87d9c5179);
  (0x336d6d2a9a1b6be8b, 0x472400c2e42910686);
  (0x8f4da17e74df77e8d87f0296933f82b4d, 0x584841b72f168e3ab);
  (0x153bcc1fa322b0, 0x4c17e141d90a81b74);
  (0x223078906fc9f8cb5212561ec6b871f27a, 0xe2e825c84bd7a66);
  (0x2969294337ee64d3d, 0x94ab8bebe031a6a14);
  (0x4568585f82458ef9034ddec790e4d36b9, 0x4f3837e2b6b65a8d3);
  (0x2ecba27fc93e9dcee, 0x34f4f16a8462aee06);
  (0x1c058e6db239c429c2efaf3e64efe41956, 0x54367543f0823b75e);
  (0x17c39236b9f759b13, 0x86980d98ea45b09d6)]
  (-0x42f80a75dd49a0b8f) 0x1a84db13bb9d6a441.
Definition evidence_prime_174723607534414371449_1 : evidence := Evidence 120233 1453208416444856 2
  [(0xd73db9b85dcc1fe0, 0x54d08d619496f1ee4);
  (0x5ff6fefd05f163dce, 0x2d26f41550966a5b2);
  (0x147357848164f83dc, 0x78988276fe3f2d904);
  (0x3732b1eaee8b03d40, 0x37abc1f809867a5e0);
  (0xe24b3c954cc243e, 0x40ac46c6f6f3b6774);
  (0x38ef9d2715e9f0119, 0x82f291f74821474f);
  (0x150795638800d7a8c, 0x41aee6def1225a4e4);
  (0xdabaaaccc969a73bc, 0x38741f5f22056aca4);
  (0x45f51e9fab9ccc66a, 0x80bd7fa693dccfac8);
  (0x7cb5d883eaf2017aa, 0x48cecdabf724f6b67);
  (0x38758d6978333f867, 0x8979e08597b7ffd61);
  (0x5e5815b98bc6f5415, 0x5c801510f33d2bc7c);
  (0x105389c6c0fb9e86f, 0x7792b27446b67f36d);
  (0x2fa91de4ed54dc8c, 0x31bddc0bdfed28f16);
  (0x99c8a1422a75faf, 0xf0619e97234aacd1);
  (0x5cd7f0f97a0129fae, 0x6bf2c875d0696752);
  (0x898f9a1b86717bc4d, 0x769e496db9692c774);
  (0x564077bcabe4a9d3b, 0x9062ae5b0c4560565);
  (0x38c2f8402b2effb1f, 0x50d7ef41b9b035c7a);
  (0x4b99e964ba90bca3a, 0x5cbf6a8d9c30e5e6f);
  (0x24155096e5a8dd3, 0x6b09e00e572c2f865);
  (0x2761551efe94317c, 0x344a175c0eebea2c);
  (0x7fa96e87c62fa6b1a, 0xda81170ca84df0d6);
  (0x5519d9ffa97f8dca4, 0x625a97a30183aaebc);
  (0x10d32dff4bbbbebd8, 0x71908dab510e11a08);
  (0x92a8131934f3f8bfc, 0x23b4a824a486a27ec);
  (0x57940c12168aec5b, 0x696ad04ed7c7246be);
  (0x42761433848ee48, 0x1ccd2b35fb9e4dbe1);
  (0x11f581b13b19eb0673, 0x645c218aa9252a2d);
  (0x5551583dce0c4b084, 0x938ecabf40465e9ae);
  (0x3cfc94f497b0a4b6d, 0x506790a43e2f91003);
  (0x95f5218d74f8dbcc7, 0x43fac404d5649eed2);
  (0xd9df60964fd89dbc9, 0x96c03ed2bdc7d5ef1);
  (0xd2ff3c728e19d7f2f, 0x807ce673433a18f8b);
  (0x114bc9e2bf0ab978b, 0x7e71ba55e635f47cf);
  (0x746f0542c79c8bb9, 0x2433c035e446ccfa1);
  (0x198a5069b72d78f5f, 0x177b769bbeff17cfd);
  (0x3c18485cfd607ec1a, 0x3e36cf57b691a87d6);
  (0x30043aaf58aa8704d, 0x437b0f0ddc1efea44);
  (0x7c2a682b8fd15da7, 0x554deb06322a9b7f3);
  (0xbe941d6a406645fd1, 0x183fdb25500139559);
  (0x1472d4d132930ffa, 0x782ba799adac514d7);
  (0x487f6d56583e532db, 0xdeac404471d58301);
  (0x1b9752b29be59b6ee, 0x68d18db55e31169a2);
  (0x6c1c, 0x2db960c58fbe40ec4);
  (0x0, 0x20000000000);
  (0x0, 0x100000);
  (0x0, 0x400);
  (0x0, 0x20);
  (0x0, 0x4)]
  [(0x4997766f90ded59862c425d05248be037, 0x1);
  (0x2859ba9ffcc0898a1, 0x2dde575cd75d26a60);
  (0x3da1106f047d8f59c, 0x4e32e84bc04f263f5);
  (0x1b5764bfb9d046c7accb869601cc3cd84f, 0x60a487bd3bde1bb39);
  (0x5e2ec9ee26e3ab8f, 0x6fd54b4abec88c572);
  (0x2e12a83e7a33e101a839c9984cac90ea5, 0x1dde210aa64b3fb03);
  (0x902813754eb0063ac, 0x244b038697b3dfd38);
  (0x98ee98840746f7ac0b95fdfa630464d52, 0x93ce6d555fe244b62);
  (0x2154cc58d8965be91216201bd8450e3df1, 0x421f6024d7ef3a557);
  (0xbba108f8dd759574, 0x7b7a1f3a06f1da43c);
  (0x45c797ae6bbf05feab8067e64cbeef1c, 0x2a2819674eb56a204);
  (0x867de9966775fd7cd, 0xb2a8b371f2cb4f7c);
  (0x2a7822eef8faf3bc02235349fbdcc01cdd, 0x8ec405612801973cf);
  (0x1fc3fd7705757353, 0x8b6112293700c9fc5);
  (0x138a96ad1607108c48ed161497eaf0e24, 0x11588671774501040);
  (0xfb9e16ccc36919c7216741828e482f073, 0x17a2dec498bf7a5e5)]
  0xc63ad50804f2104e (-0x6ef0a1b884084831).
Lemma prime_174723607534414371449 : prime 174723607534414371449.
Proof.
  apply (prime_by 174723607534414371449 68 120424297644938454407 [evidence_prime_174723607534414371449_0; evidence_prime_174723607534414371449_1]); [reflexivity|discriminate|reflexivity| |vm_compute; reflexivity|reflexivity| |vm_compute; reflexivity].
  - repeat constructor; cbn; intros H; decompose [or] H; try contradiction; discriminate.
  - intros e [<-|[<-|[]]]; [exact prime_44706919|exact prime_120233].
Qed.

Lemma prime_2011 : prime 2011.
Proof. apply (no_divisor_prime _ 46); [lia|]. vm_compute. reflexivity. Qed.

Lemma prime_97 : prime 97.
Proof. apply (no_divisor_prime _ 11); [lia|]. vm_compute. reflexivity. Qed.

Definition evidence_prime_4681609_0 : evidence := Evidence 2011 2328 2
  [(0xaa5, 0x388f4c);
  (0x44ca33, 0x1b945);
  (0x4b985, 0x4619ac);
  (0x431e05, 0x125f1b);
  (0x599f8e, 0x30f64a);
  (0x19ea8e, 0x389426);
  (0x3956, 0x2b06fa);
  (0x0, 0x40000);
  (0x0, 0x200);
  (0x0, 0x10);
  (0x0, 0x4)]
  [(0x4bf8c052f77, 0x1);
  (0x99d35a9fe26, 0x272eaa);
  (0x42bda1, 0x37c118);
  (0x3edd0f1859, 0x450c5f);
  (0x636813550a8, 0x8e918);
  (0x390bfc, 0x2cd1e8);
  (0x8285120c94e, 0x3fd64e);
  (0x372fc9212d, 0x335b77);
  (0x1ee0325925d, 0x85947);
  (0x9e4d6610ba1, 0x18fa97)]
  0x16fcfc (-0x12337b).
Definition evidence_prime_4681609_1 : evidence := Evidence 97 48264 2
  [(0x269668, 0x3fdf41);
  (0x5a61c, 0x3480ad);
  (0x4322df, 0x14168d);
  (0x232b26, 0x4540aa);
  (0xc2399, 0x237130);
  (0x99aa5, 0x1d7297);
  (0xcf8a, 0x1a316a);
  (0x3fe18a, 0x79c2e);
  (0x3dc9b, 0x2fc45e);
  (0x15f7aa, 0x109bf7);
  (0x5993e3, 0x279d27);
  (0x1, 0x389077);
  (0x0, 0x800);
  (0x0, 0x20);
  (0x0, 0x4)]
  [(0x50b1346b780, 0x1);
  (0x4dae9, 0x25ffdf);
  (0x27fed0, 0x129f94);
  (0x110866, 0x3573aa);
  (0xa46b8, 0x22e1c8);
  (0xe3fb0fbed21, 0x1b1818)]
  0xdf5a8 (-0xc7b47).
Lemma prime_4681609 : prime 4681609.
Proof.
  apply (prime_by 4681609 23 3706999 [evidence_prime_4681609_0; evidence_prime_4681609_1]); [reflexivity|discriminate|reflexivity| |vm_compute; reflexivity|reflexivity| |vm_compute; reflexivity].
  - repeat constructor; cbn; intros H; decompose [or] H; try contradiction; discriminate.
  - intros e [<-|[<-|[]]]; [exact prime_2011|exact prime_97].
Qed.

Lemma prime_2861 : prime 2861.
Proof. apply (no_divisor_prime _ 55); [lia|]. vm_compute. reflexivity. Qed.

Definition evidence_prime_85831_0 : evidence := Evidence 2861 30 2
  [(0x30dd, 0x13fb5);
  (0x0, 0x8000);
  (0x0, 0x80);
  (0x0, 0x8)]
  [(0xbaf9d939, 0x1);
  (0x17e3, 0xe00c);
  (0x9d12eb63, 0x597f);
  (0x188e36316, 0xcd5a);
  (0x1e72, 0x144c6);
  (0x9bfb73d5, 0x650a);
  (0x2aab, 0xcca3);
  (0x1bb3, 0x779c);
  (0xc54229d7, 0x605f);
  (0x51664ab, 0xe620);
  (0x130dc, 0x24f5)]
  0x94ad (-0x8dc5).
Lemma prime_85831 : prime 85831.
Proof.
  apply (prime_by 85831 17 45241 [evidence_prime_85831_0]); [reflexivity|discriminate|reflexivity| |vm_compute; reflexivity|reflexivity| |vm_compute; reflexivity].
  - repeat constructor; cbn; intros H; decompose [or] H; try contradiction; discriminate.
  - intros e [<-|[]]; [exact prime_2861].
Qed.

Definition evidence_prime_107361793816595537_0 : evidence := Evidence 4681609 22932669904 2
  [(0xaef3079e96155, 0x243f62073210ff);
  (0x79098f3ac65176, 0x409499164ab2aa);
  (0xbed6aabd0d4780, 0xd6dd50094bf010);
  (0xcc6808328c7d38, 0x10dcc2d5f2fd32c);
  (0x127395be627514a, 0x117394136720c16);
  (0x370ee0d0c9209, 0xed4857462f8058);
  (0x287450bef612ac9, 0x243a9c0faaeb87);
  (0x22a8d213e6b0fb4, 0x15f581506cf4a0c);
  (0x2f105be1f7d0e2, 0x145352d11056650);
  (0x4edca82a08ca0c, 0x5ebd78cdbd97ad);
  (0x66bcdb24f0cf9b, 0xad6f8fb76f3075);
  (0x7c943c06cdad1, 0x8bf9f7ff2bf318);
  (0x2ce7b8824d1fdc, 0x367f115b1211d5);
  (0x1978eabfbc8c3b, 0x82dfb913c0ca19);
  (0xdebf73433f164, 0x62919ae79a6d0e);
  (0x1cef0dc79e4dd1d, 0x3386f83e14ba1b);
  (0xddc77c9e59ae2a, 0x129225f8d588f7a);
  (0x11d6b19fa992162, 0x122d8fa1c13038e);
  (0xd55ea8ff1aa60c, 0x149f2c610051a54);
  (0xe25c843647590d, 0xc9b93537632ebc);
  (0x1100c63432e33bb, 0x125d63778eec865);
  (0x19e5e14cd7ef9d6, 0x14220b08a6e33cc);
  (0xafe236986bc1, 0x1191d3e362ad021);
  (0x1dbfcf1b133cdd, 0xb725f21af5905);
  (0x2b09ac5ca232cc, 0x4b52b4dbd43775);
  (0xe041e489f720a1, 0x801fb3f8016d01);
  (0x1b31045a4d87967, 0xcece5d6300d84b);
  (0xb96363ab9d7c9, 0x1200c89f4add9a7);
  (0x157a3148, 0x427aafd72f0838);
  (0x0, 0x40000000000);
  (0x0, 0x200000);
  (0x0, 0x400);
  (0x0, 0x20);
  (0x0, 0x4)]
  [(0x20869af7fbe8bb9781d6a9728ebf, 0x1);
  (0x97e6de25db3d4, 0x1280157d2f029ec);
  (0xe612e73759a100, 0x3c2d2b2b52a000);
  (0x20516be3c58daf5778c0e8244f97, 0x1283c8ce870a290);
  (0x160b6111a3c04, 0x1270ef3b0f94f8d);
  (0x4e6ab646a6679, 0x16ec99e1986bb7);
  (0x7f1393a7672420, 0x2b3c85a8dca1e0);
  (0x2203a7f7f943e44e19aa8806d6bc, 0xdc28d93abc60c0);
  (0x1e6e019fb18ebe18a42b0e913502, 0x12eb3d91af5d9ce);
  (0x156b7183fd24095ad7dda817d973, 0x11e4efd658fb6f4);
  (0x2ba78dadfbc699b8329b355931f, 0xf035e77688480d);
  (0x22956f3e5e14947e024a3b3c44dd, 0x55bb3d6ce4a9ba);
  (0x598f7c5697988f, 0x13139d125754225);
  (0x1bb9c1cd606091309eccfcbab546, 0xb8d378f94b1bca);
  (0x1b891d8af0c5ced1478ba2c1d300, 0x1114a99e55e2a5c);
  (0xa7666979fbd3ea, 0x1105a756b42311a);
  (0x31e5058dc73dc4c7beb5ac7e051, 0xfcafda5a3a1486);
  (0x2724fe31ba57bf0022fbd3aaf567, 0x5ba777ff964de5);
  (0x195c6a4316b80333189ae193017e, 0x144ba92132b5e22);
  (0xe9800531291610, 0x10560b1ef236df0);
  (0x1505760eac9c74, 0x12a6f239f7b3330);
  (0x371d63e26c1fb, 0x598b30dfd0b996)]
  0x9f4103445a07f8 (-0xf225ac26cf65f).
Definition evidence_prime_107361793816595537_1 : evidence := Evidence 85831 1250851019056 2
  [(0x68deac4d2f7915, 0x168fc495711f1ec);
  (0x41d8fb8369b7aa, 0xc800074fa0f057);
  (0x802157389b69da, 0x9e7aec2ff91def);
  (0x139163d52acac0c, 0xdd120c75483e2d);
  (0x279e0d4f8b24e25, 0x15992337fe23c4b);
  (0xf1ac8709543d2, 0x15bb0c92276fe50);
  (0xf98c9591bec81f, 0x35abf0e383da71);
  (0x122253333aeeef1, 0x1348511703645f8);
  (0x81ea5fe60c55cd, 0x14cab592ee917ab);
  (0x104ce3c73f660d2, 0x9d67dd57d0f2f2);
  (0xc986de92b0449a, 0x13b66ba1f4c1e4a);
  (0x176d671f8ef50a4, 0x1153ffa8aeea13e);
  (0x34b792508e8b4b, 0x10b5e8d15629dd7);
  (0x8f89fed88d1164, 0x6444cd7420019d);
  (0x1172c67400b37, 0xe9fc6f50b03721);
  (0xc7a214e3936c32, 0xe6be014d7534e);
  (0x18392b930138436, 0xc31f3d0cdac0ac);
  (0x1b3c4e6d955fa67, 0x10fdf9b54fdf6f1);
  (0x11b82599ea73be4, 0x120484f8ddfeb8e);
  (0x3eaee1dcfa5, 0xe886ef182c32db);
  (0x375fb9e3915a88, 0x26a803a04edbc);
  (0x104d1214cb855a7, 0x9154af2c87b072);
  (0x47c922a3acb00e, 0x13b687a154e1463);
  (0xc84f29d5037c99, 0xa578c5cb9941b7);
  (0x3ba01775b5c245, 0xc373c098406adc);
  (0xe0c4e5c814c7bb, 0x96ce8066c45139);
  (0x1259df7ba09c7aa, 0x124cd2ffae41d36);
  (0x328a8ccfc371e2, 0xeca2ca41575110);
  (0x14c6563226493f, 0x622d7d1272fe23);
  (0x435f8be4acc15f, 0x3ef1cbfb871543);
  (0x3aad446476a81, 0x715a6942fc7333);
  (0x47adbc4a652ba6, 0x25668c2be5837e);
  (0x1193bb354520b00, 0xa5592e760ba2c2);
  (0xde7f47de573683, 0xe79783e6c3c90f);
  (0xabd1, 0xcdfe2eaf68d6df);
  (0x0, 0x1000000000);
  (0x0, 0x40000);
  (0x0, 0x200);
  (0x0, 0x10);
  (0x0, 0x4)]
  [(0xab0ad6220085d75cacda3646520f, 0x1);
  (0x849751f6bd369c1f177356807114, 0xd7188522717d5c);
  (0x4d69ecac5dfcedcd2427b3801f6e, 0xbd61a1e2ee6932);
  (0x876feefaa7e53c, 0x90b4f6611c4228);
  (0x32b57f9efaaba3, 0xe3496575f48786);
  (0xb4edd69fae6a2e, 0x8b13107f4f26fb);
  (0x6f46cdc9177eee0b81321073fbbf, 0x106b30e51c1c6bd);
  (0x2eeab9ef302b39, 0xad7e359e8ee487);
  (0xc4e1f0ea170587312c505a4f44dc, 0x85c5faf0321994);
  (0x79e1a33eeb1acd9bfe6d6d449e6, 0xe6c5b79405a5e6);
  (0x22ae72f76ea70c45a41a08a3a77, 0x2d649b23bf2589);
  (0x6dec7081db7dd55d33644988296, 0x1836d07fc174ba);
  (0x3688d36e683187, 0x2b1bd7da367b2a);
  (0xa9e5030069c4e1, 0x903999cbc8f30f);
  (0xdb212d8218885a4b6f23ff0232d8, 0xfe900c14fd8268);
  (0x155a40156e110a4, 0xf37630aa8c3dac)]
  (-0x3fe075ecbd682f) 0x3c742615874446.
Lemma prime_107361793816595537 : prime 107361793816595537.
Proof.
  apply (prime_by 107361793816595537 57 36753394259260335 [evidence_prime_107361793816595537_0; evidence_prime_107361793816595537_1]); [reflexivity|discriminate|reflexivity| |vm_compute; reflexivity|reflexivity| |vm_compute; reflexivity].
  - repeat constructor; cbn; intros H; decompose [or] H; try contradiction; discriminate.
  - intros e [<-|[<-|[]]]; [exact prime_4681609|exact prime_85831].
Qed.

Lemma prime_631 : prime 631.
Proof. apply (no_divisor_prime _ 27); [lia|]. vm_compute. reflexivity. Qed.

Definition evidence_prime_n256_0 : evidence := Evidence 174723607534414371449 662715765037699607481235088557493206623080876315205958464 2
  [(0xeead0909d0c1aa3e2508fbcc17dee594947e3bd84c5911d1245a556b8a0459b4, 0x80894521654e00cb538d9bbda87ca1924c43e68444848439d39a6b50ed475170);
  (0xa3b12fe50143a89f8de5d6723049e98be61766f167cf7b5631b3b44fa70e058a, 0xf72fad2ae4fc27e4688504d3dcad00157194418fe7e63069755b4c74ecf55106);
  (0xf6f4e8bf60564aee9ef844520306cec76e28e0fd84c8d400e4ff36f2ec02a8c8, 0xccb522f78e12dd60a6625ca8b343efa50873a3232569a091458cf42b90c8281c);
  (0x29361f1d6649a725b683ae47690b474193bda36fb3c33e844eb96028dd8632bb, 0xfb700c16d81c1264fdc3ee76c79bce4a24e6c7bbc9d4813588b0ae7d4be5d2d6);
  (0x76f0880645b26f4edc803f61b409b66d796efbc916fb9060547833edc242, 0x66b6ba960b3b5d7534b3256e3661bcb138f3b894e2ed96d65ab1d0948bece477);
  (0x8db22fd8d451191d01930bda3a8a8f0f50c2e8eef89519d445efa54d0c83f56b, 0xae7ebd43406be15783a2da4f1b666f2cbb3d990164c84ada7579f19b3c14d5);
  (0x19489270c39c27a7fe2e4fbd949253b4bfc1afa59d21c914a3dc42a8f998e7d48, 0xbe7534ac38a0f4a19808afaf706937326e9e24c54f7e98966de7b4705adf92c0);
  (0x2e764c7111bf5bd28e950831ef2dfaf1fdf2fbcea71dd597c61b75d46b97b142, 0xe38daf6d0dd61d54a53ad49ff02d0133b60f611d7a1ba884b67e8f812e233142);
  (0x3d1516b70c3e3ecf2ac6231e935535855292b2242f68f06b6b446b5f965def86, 0x6d0f9cc2246993c6e17130e640cfb5927b027d4697daaf740f0352a90badd942);
  (0x11cab2fadaaee65c5c4602f5147d0d99abfce65aaa662fb07ea5fddbd393768ce, 0x586c2b219ae8e39180917ad644f36cc87f3a884c677e46ee72c76d642869cdfa);
  (0x14a431bf48618f9667ca16589a35d021bd73ea3f6bd3a2a5e8806cbecdd0adcf, 0xbee2e6e3f1b09018b7756cf9dd14ab762c46f0e96257435316cff1eb36f042fa);
  (0x23ee21add863c4497444311d0748c784623a5f8550eb48c3fb964c1c5704c5, 0x48b1455266840ccda8a09eb4579c6000f00327428451e19b5c80c35a15803b43);
  (0x1b8cb0031bdad4ca206568dc0d4211f8c4b3cece82bf102ea886e1840c50489f8, 0x43d10065c6b600f5fd5ebce98d11ae6d30fea3172c24152516cb7c9c90111ba);
  (0x2df12a01b6cc718fb0a6f338508d86f2a6265f6f43bf38f62f1ac9e8a802e1ad, 0xed8837f5ef6b4c3e853c296d143c7e60cb60163c9e8aff331a094de94adcb91b);
  (0x18f5052393b2743740b9b59a0508e5592e60472419004a3d57e79cf277d7f7304, 0x4caf5917766d739cf0b4e3f7c7fc9aba924c9b1e7fafb8cab5eda8ac2b80da9e);
  (0x1371067707151542bc30168f6840541659870b20afb002860e9e8df8b141a8d49, 0xe2147a09cf377313cdd1760995c8b235585ea1d52441349415d794fd7b9edf77);
  (0x7d3db9059e3c0e82d3649483fd429d076fcbcf77ea12f7d8a7d25b55eb6832, 0xc78a3bde4f1a78f1d88b5b12ca13a33df65a246ccbe4bbc4a712980ea091ac60);
  (0x3a0d87dcaf1362931422a356569f404863124d2dca3aa140091756c2e6691345, 0x7e9cf00d93c79487f5c2fdcae37437ad17dc61a896c5563d26e389d4ede5bbd);
  (0x12b8bf07964b40dec60b0dcd1a65ad37c5a929987c4f651192f3d7bde4c6ae93, 0x5633aee1098aba60a0bd6788626af1d33f12317fd8d851b5ba5c54407df89cd1);
  (0xf624ef917db2982b5207ebbfbb2032f852879589fa66ca48b2f3471cb01143a, 0x453acb2e2cbad8ed8830120b6abaa16aa5a5f09ba423c01ab363cf262dde8446);
  (0x1112418e7731139f1e84e822839c6168c894536576512ade83ea530478890ae58, 0x3ec185893c6fcb84017102bfbd96fb3160016dab502c5907f0512b4d4a932cf0);
  (0x19361b3ac7465cccbecd4ae400b1fdd07cc358f70057cd3ee658f887a03c0b222, 0xbafb3dda68cf540b78d5bcfe48d5b6a0a8bc6c7834458a0e1c0137f016e61566);
  (0x7b17d071cded6b14b3d7ac7f79503ba6cf70e1c9b3a4ee55430b0c2fb6091dd2, 0xe33a8796473693eddd842ee46bb301a89255ab2f26911ad803fff9ec0d8105be);
  (0x78410aa2bbfee7029859883cecd3acc54f95794619b9839e2bc7936f14e05b8c, 0xb1840328e450fb6ee9521ba253b26ba380db814694c305896ea147f4b093d4bc);
  (0x4720631bd09d20d1cf8c1620c5626dcc15e8ce6938d22d25c91642545a9a1c66, 0x7c110c934c32c716311a2782e9f279c49ef80e9fbf83c2b2fa99e293f0ce5c5a);
  (0x67405ab8b34df8456c98a98eb17cc179723889004c7539f041b6d2f778cbe421, 0x86f03eb5a8bb7900175c38fe2cb61885fd096359bc1e583b4273bb8c37012c78);
  (0xaed7f6b29ab2e0ab2b1157db74d63759ce5e5080bf16d00ebe8ac3d38b855b8d, 0xa2948ea0c57d872affbbf2baca8b7e5e3457b738d01d679a3e482ae8aaebf565);
  (0xee47cec7c53f38c9f26e4491cdfbda60c3c892a8331e69be4e01f7f8addf7d, 0x9599729307272efa42742c96dc4fa3c6b705b2df6ccf76c0f8c5577c1826cb45);
  (0x588d455ec48e9c70af092fb8e3c38cbdcc0a1a899010fc3a3b0a79ccad72f11, 0xaea46850f773423fe444f35a2484e54ea4bd3ebb0be6ba7a8681ab7989ac9c1);
  (0x1b35c3b86a835518d38eba1b433ec90ab4aeb203a43f36f87a92aa3f05a0e3d4, 0x1a9db631284a5d496c1eb73fb3666f7f2714c895701f03de5a36e403fc73c97d);
  (0xc861e74aacacde0697001d69971c00ee80a39a0fb6aa97d70215e8375789601b, 0x53760e4efe4a4aac97c6d0ab0da028f01d40065ef2a68b6c5679d7bcee625cf7);
  (0x93c6dd8b295228218611669f5b3012a80807cfb72afedbad1c10ef1d9d7c5553, 0xa027248759824079316a7928010c7c91dcfb29565685095667468b8cd66262ed);
  (0x37dee45c24fef49511aad73057eb7bd576067880006e4b4189b8f8f80e6458b2, 0x89888c16d4c7f5937f866d0fbd1522407b887ea321b4fa168c02df35f9cc2040);
  (0x69ace88a4b6c8b0ccd0566ae9a3a58f40df76e83aa7efa445df897d1bcc1b616, 0x5490f3f7ec50ca2a72a59dad8f8feb33d13594af8c24f37f14891ac6e1681eeb);
  (0x9813d53c6d3b85127e09aeb8c3d593df77498490449f1b5395858e1b897e0172, 0xa47a4976c8af11a76c3a20b4e42e1ef371b6842a92f9437fe2b886ad3d208fbf);
  (0xb70ccd2a6c19c4fe57b7b013adc44b88caf5f3ab7223033e1152febe83cf, 0xc54fbf47ffea9824c328cbedd637a27cc7f10dfc663009def7846844875c95b9);
  (0x29556af79659671d6baf1a0515a475bdb36eef3517e72a45af23c758eaa74ff, 0x9911e657aef948be0fcb4479fc53fe28f14c528a6cc32b67722dae61ce497a);
  (0x8544deced0c4e195c5d2267a3fc04da56aa6bc79cc710c2c32a9a7ae8e3690ed, 0x19b76cda74acb196199b06b41f03c8b977655f410e5d375b8d50727f125aeed5);
  (0x305f24956452448e84dc02752b78239814b02983133bec5e24ece8e7a52068e1, 0x829ba2408555ea156aa4d493ec84e9d298c7162560c24f9f7dc46b36e15205ff);
  (0x15eb3addd9ab1dcc6cfec5de5a3d2971653c2beb9abc5463b924845edadef17c, 0x4eafc1088e9df141b6f65110c21052bad8bc5ead88a24abb1778b1e9b281b484);
  (0x31a3b4033f71f1f76390ee79c18b54bb0ff5aa1b12271b43fafe060311eab749, 0x4ae87c15fbfafaa581baec6bf8b64ae9990189fca5f6cd38f3220c29a6482c10);
  (0x6cb84f297478f55c210054d277603f2d49198dc8bd8433ca1930447854aabf5f, 0x70ba7b9f4977b2a755abb359f4ad8cdb1e05a4c5fa1d4500865fc988af061e45);
  (0x20bcb547f78a770d6b9e0bf584c25f249f5bab644c3448e06b974347a825b6, 0xa6d486baa0be5196f6cbf81ff372c6ae7e09a5c43e7863f2f6e930e6ba0e710a);
  (0x4bc4751940b2ae5c94c9efd3237e5aaf781fdd218a9d2011428ca009913d6da8, 0x5b8bd443336f750284cbb4857e08d9eac53310f3c1a056355ea548f79abda98);
  (0x57e1580375279f8a4ca8e059b04849b8b1608714560b316ba828e5dfcef8baa0, 0x8b456b12bf5cdde4409a268612eddf427b50f07d2eed6e2d802c34e708d3bf68);
  (0x11d1aade68b62bb76dd43527ca0ed3fb0651acd93a73953fd74dbe9f71c564e0a, 0x6a0f4c2ff444712fdfc5a9ab494dfb9afb2077ea29c55d2a9668377a1c66cbbe);
  (0x36faccc48cf2c499b0dc3f65b59125da9a60526515d4b2e48ac08e92707b8042, 0xbf0844d059ead23d3037e1eda15440289ec300c035bbc5cfd27dfa08eac3e046);
  (0x8e986067f459b6a992632a4e0962937dbd3ee52cff0fcf6f767bd4d85a99e35e, 0x53e3a36a807048f375bcc424a0a8049256b57ef5e16fec7b64c5b3c40fe2cd62);
  (0x2f369b36b482ce6db491bf13f6e769e2beb8b236fcb0b4d073fae52f2a80bb20, 0xbf0fa9d98a29f03b537e5a58a6e6e643d4b797eb88a363d7095e1e1393d8ce28);
  (0xb368a28038ceb6f1ff8f76187857959b1d55876648420a8736fc027aa5594b9a, 0x4dbd1a7678ab23363fce9c62ad82753d25b0756d41f5c276140875cfeb810c66);
  (0xdea284ed0c4f7785173f0a952e66d26c70af6810e1d215a380fec9a73b3fc8, 0x978a31b77fed13cf7661b7939bea13735f1454a24f6ebc252a116576f2701638);
  (0x5a79aba7f81f73bff958c6cb0f7b3c07fd71669d4ef2a5be4112df50c2ad8ef9, 0xeebc394bbf962ff9822ba931b0deef0e2f9186102e4141e2849d8f1e723cdc0);
  (0xfd035e720c3b909af6e5efc333ed3af27b2cd4324477a9f0a45cb8199420f95c, 0x983088cdcba83ba79fb50ece73812d3e8b2336f0ef7c387a2dd54195ef4e82b5);
  (0x1f5781ae6a8f48d86adc1bc6973f67b314b5e48887b7182ab11bac15c56163d31, 0xfe809010f706c6f432397886589a76fbe0802b82c840fa9bba8718dbcd374d97);
  (0x11d33e4b149a53b90ee6e03cbce1ac05853bc94665b3476cc4d5d37cc9be56dd4, 0xfd5a864b322a98e516bd9ee036679ce5c53489ded66944246c09c86281dcb6fe);
  (0xbd46b8ea8e3b9814af6ac94e882e2c8ebd14edf3bbf9bd9903cd9542a3aa2735, 0xbf10b71fa8cb37b80ec47817bf4209f163a80cf0b693d09d1c802ec47ad605ad);
  (0xcc34d193ef1727f898f873bffc2c0e9652de26fc179b0d5be57c3a3c09bbb927, 0x9ba6c2bfb2aaedda9b3643aadb8126be8597c14f5a740a5d604cf1e9006644a9);
  (0x1ac2d0a564cd5de379aa851736dda711b65b77dd3e681b716631c5ca78521ae34, 0xe4a42898a48924f3fba084ffaee4d759827bcf8174981d67676204292562d14c);
  (0x1652f5dcd58a79670c5bfaec0d709b3415732ac31bc70d1e6813b26f50eb08900, 0xea1ba0ec3434697ec385cf3344ec0f863b135b6e7eeb11de27a45e7536deda08);
  (0x1339948f7422955120b387c9980b502273aeb1e7f15ad1d3eeaf1776ad03ffb66, 0xd5d25562d6f2fe9778a7cc22efb49756086ec5850b68a4c2307059a9ca69fb62);
  (0x447715b067906918e75656fa2cab18463c39226f9a02dbed77c61f90c6f95746, 0xc66ce788b2a42c5dbeef42c0fd19dfba34831dd6c2acebb78b26558daf59d9ba);
  (0x1d594776feed2d7c3f5dc12722edaa021d12770c9a51b2cdb84c89cf5a0035c, 0x5d9d2194a3de59d569a4e15b46cd86ce83d37bcbf025fe93114d6ceecd617548);
  (0xc93caec91b95596d7df76b1474ca876cbf2a5a4dcd423716fd6a806071e0326, 0x15ab77951da60fb0208e224b3a7be7ffbff65a43add3b5aa15b8ff4754374f5a);
  (0x71ff4d84f4affeec9dc41942882e2d7b6cb1f4a6edcf0ac510effa479f850f10, 0x281f9e94c84d5451137b484c877f59c7d5d0cdfb8495f91b89c19d0707f8acf0);
  (0x2d846b548587986d4c46fe251ee55ffc52466ae6f528403bcef327dadf6c6a4, 0xaad4ca4642a1a4b7de872f28a6073189ff786bc76ac9b50240a1c0a4810478c0);
  (0x18d91d9d2236792586e51254a71b7ef5a57eba2746269b3447c2570187486867e, 0x1afc915c7514398b2eb130cd440188239032ca87ad0adf8a2b678c845359c70a);
  (0x28ffb31aed73cc4a1c8b00942ccec2bfcfee182354709f47740d262f9c77782, 0xe195f2f5f514cc665deebac3ca79924dfbe2b74703a4a8b1aafc52490d11b462);
  (0x60ff6d5c8c84308561dbb42e4500c037e0e6f278f04cfaab3117e4227018d5c8, 0x199cb494ff52eb39050ab0c1c7b0314d2f8a0a5421c906097a252615a73c3d8a);
  (0x12e65d8028934a97ddf520796634616a295bd9aeade34f57f95b109ef3a31a57, 0x6f6d029bbcab63e31af7034bb7361c0b190a1c1556088e4e04ecfde667f89f0d);
  (0xbd8e8c65209b6bb929bec481994fc65caf188f0accc73a39c6a59ca1f970729e, 0x458ef0951bf1d9215b5fa3238bb7be2252cd26c758051a5776b48313817c5886);
  (0x186f30f1ddfa9357acfea7862e11da87fb9a315bf5aa57d45ac6226f1e60531a, 0xdc499481cd0ce17086cc30573f5de59b5102e01569b8c95d00a811df2f2dbe66);
  (0x1b1cd08a863d71a0acc6e1faf46a2c84067c444ff491fcdf86e3864bb1351add0, 0x37ecc6ec5e83965e99867d4685867e2abfdf7e21bbb2f9938adb7a705c17fab0);
  (0xb0dff8d0b3ffabed0dbd1a2bed26322bf1647a6f75ce776cd42db1a92776e948, 0xeba401c6389ccbd1ecb6f1a782cb7865a9fd830486e99260635e557fe733c4d8);
  (0x1326f2bbf46a2a08a2e001586a82c903fcad5916af7178372c45bd1ab07e03c7e, 0x967744fbdb87a87a8b3bf1723368b3da99a64686ab9a50af3cf77855093b7c84);
  (0x11f20fe20576f44e0c98d048eb20afc653bc0a31a772fd3f0525ca8fca1561f, 0xc60ca8e325e2ceb24e533d938f2ac95f93eea1863fbd9ba56e9e28f6e0cc23a1);
  (0x140cad1b9f84907db0e4308810dd8412c557e1647c94b99b7050851f760585728, 0xbfb59ba153c14dbe46631799f7e97b19414c0326e1220f8f515191d3cc1b8f8);
  (0xbf70eda3a7bfe68f2cbc9a165f763f236941b11cbb88552d2c82f6ae8363724, 0xcaa2dac7d512f178d644cf4d41c43724f2848df13f86c9ca15c0aab227e1d45c);
  (0x1842b073022decc56f816c4675c7ab16a56519ab78b99787f20509535ed14e5e8, 0x27227f451f89b9fac55b1bd60050a9c64d90a3618f448c23e248328b652a6938);
  (0x3462e228b46a98daca516fb5a77f1dc7c0516907242e5f3444b250da5a895c0c, 0xdee708b3866e2c6bea018ca7f858c617bb8cf7e8d09f96df8f8249797d8886f4);
  (0x1581bd4bee6764205247bc3d7d0b6c14805eb56f12b3a18b1d1ffca6573032b1, 0x51e302ce07948678b9fe971e44dd7e70d9520e60dc2f2f2b801c413fd9abb4b0);
  (0x2365ed1b88ae761469050d3f035c6cc3ea050eea17c5a7dcd7cc77f0ac6d2948, 0x4a335f1d39cef814456cfaa23dd68f42638ae2c2af88e30201e7cf8307fe5dd1);
  (0x123aa421f2502c6de2bad69ecfcb764e4add8af2c2e3886bfceb5ccc6b83ecfc, 0x5f31b3d11e13ff61c264082d81cc2fb9db70fc2ab36c5bc910e46d21be571685);
  (0xe6bd90f7275ec9de772a1ca8cd3f51e215c094efc5b4f521230f9ba26aab0a72, 0x445014dc0d542e45760975a4a9fbece67d2fe1967da6bbb1350bf9b6966928bf);
  (0x1d445f851521057b0930c6249beaffaed0be3db40b298fad03a0850f44322a141, 0xf30ad512dd865d6b4914ca8b8e1c6ea0843c3c9d441026d4b7c53bac97237147);
  (0x598f84d5265084c539a2648d089c977452e2ce582b3ca74ce80e6e2d2bb26, 0xf4d30ba1d3cc72884df51dd48a08c000b5e22ca7a74528b8b3963cc98b0a4bea);
  (0x91b4a54a53da8bb4dfcb475981447408498db7dd6ed353a1fdc2392cae5bc398, 0x25dac65d010480eb6e7976f2035c06dc4cbdfb8554fcb594d2926e90f86c44c);
  (0x7384f54505eac38634c8eb98c8537232238ef381cf2ca02a9f155148f2333497, 0xc1223d7ca476333b28ca416edbf45aa7e97d90b6e463c334c1b062171a015cea);
  (0xe3da4a777c755315edceed807b9675aaeabffa4295ff4258ca2b4e4ad4931f11, 0xabf7c830bc2099bdc28dcdbc70ae82279e7d33ac9fc55285c2d17e1a56f1e521);
  (0x1643de24893be0490bff784ea8cc2e0462ab1605bbd814c596191b0627c35b867, 0xaac72ee040015a5a4e0e3440fe1ca2d7fe8c1a8f63cdaad4abb61c3184b0506b);
  (0x3bf74112afc5c96cf19bfb81fee0df564ae6af848f364c346c990e9cc23dc901, 0xd58a01a62a7e7ba1a0db5691d165b4c38bb2761baa797dda69a4fea03b20b023);
  (0xe5845928642dcae170f8e7ca7be0f2b1c587370c6bca681253ad59c13311608a, 0x7be672165c5b7ba9e4105feff06e5ed91de9d436696b7cc7547b0a2f05b30376);
  (0x8796ea1bddee10b3fc0e64632d64e37bd4560c8fbd748d0ef444fa2dce2262b1, 0xab668f569358100031c3ccb42e479b65379891910c803c71bedd7899e60ba778);
  (0x1427fe53de6d01aa58ffcae63992a338beeb7255f12fff6b1b57940442cfdb, 0xba4f03efc8dca080c03144eacd850fa9f2305bd372a12e6e8ffef5c803023eed);
  (0x405514268092cebbb4f851e2389ae41febe7fb6a7327784b5a2540fe6d7db9f6, 0x32cb2dd78d30e1bc39fa2e6f01c1f9ebe413a7eaaf37b487d130da8619661d2);
  (0x194605d6f58e662650c2fd44dbfd91544dd192edab2575b0662daa445a321262, 0x5abe8e8d48cd38e435d5ccbc004137e7e9420b77106c821a899a8ebd80681da6);
  (0x643a0c31a15420b598e53a0e6c2406cd6974506a66d9db249bfa3be8585eedef, 0x38e08d99fda551ab56130810fa83a584473bd0a8c2bd53ac4d1106528d840d12);
  (0x17656a6bb3a47d2ce94321254a35f0057f0370c439792750294b3c01d215f880, 0xa02e696c758c963f1b7f33334b3c4859311cf91cc5e3371681eaba029cdeb0e1);
  (0x11e4d93caebf77b75c3c34d94b705f89854938d18c4c7579b4b446cfc44b742a3, 0x4d642d3fb354a9c8b94a5c90be67ecae4777d79e61282c2e0833ff22f8a85fcf);
  (0x1bc6a6feadfe66666e41004f0cab66585baaa706bc3740598ef6d72ff9a94177d, 0xbf6efa7ed10424eeffbef64f71cb832d48e90dd8992245dc602052a8adae7585);
  (0x2158684325bfe08683449ca9fdd75c3b9f7e14aa889948184dc6789e39c39c63, 0xee8197daea1523cab7a4aab9fde374e951845e9ed293adc2a3c76a0199d79a2f);
  (0x413b814683c031fb706c09b8316cf5ecc5376d30bc94c7dabddbb857a61d58ce, 0x4154dc8df784514aa13751aae78f2a531646f77704cad1c009220394a90e6ab3);
  (0xc943ed0b0c29f6bc190e6b6cb76a31805c3bec2d17466145e46a156f7e5313b2, 0x813a00222fe2b545ff880226c66684ba0bf57207b58d50e2efabde5ba841fd7f);
  (0xa8f282d1391e15f6bcaccf1c9ce3fb98cc656f89d50a7baa0753d03ce1b0cb9, 0xe2fd2387d0de6a72edc209e27072b66e1a73415e534172b8e16ed183b2cb8247);
  (0x151c0f7a4cbd7fe23df3ce538c12b4adf8f389e609d67612723d967d6c29d7758, 0x33fdecb31fc98a3a19dee51c8a5b80b0395e8fe27d06e70b243287c7b8aa1f28);
  (0xd97b30de2ac9b239eea9f5f9f51db056cd7201b5ffc7b8978d36e91f838fe8, 0xcfec9a10110e5af1af67e0703a812b66a31da13fc50fe7872cf1c2f77817f218);
  (0x140aa316e4c5336fe7358515795827e33605e917d436f44f9125e4e712aa36828, 0xebf4b670247ea1211a6414057dec2456e85aac168c8010b3f5d558d6033ab60);
  (0x99ce6bdfb150e069e3ae9c3f0ad2c20935aaf6fef089546fa827765257a619f, 0xca988c8de6f5c0e250657efd773035f5da0ceb8018d9ac9c5f7adb1ddea93c72);
  (0x3501a87707a76b78d3220e91549478a5423a1eaf92f812ae8731123e6e2e9c62, 0x319b8352ca594e68887bbd15bac04e276d5aa2fbabec0202b1df692a5d0597b7);
  (0x18210c3d39447e266711f073d6204a09a985336265ad5583f252da0c2c94a841b, 0x747d26ee54f3aec886c36e8f53ce9385dd4bbc5231da691bb65a164291ffb645);
  (0xfc7372a25533ee2164bcd21d3fa83925ea36bd4b05719b59dd8c51ef0571acbd, 0xde4c4706a77c6db0e3e890daf6cba6fdf206bf61aa88fd26486a25346fe5803c);
  (0x10a2882c24e9a83e666ac30ec9165601a368a4069c895bd823af4a4cb5fa22e, 0xfe382370482689383ec4a4a538cf6fc044d35e9e9c043e85e1986ad39a577b2b);
  (0x9fcddb87635e3a3dc17cad72e22ca81b1b5a191806a3872d48872e8ff9675527, 0x105079b3c0d5556ce01c344cbefcf72569ac74a8a7e35a17f9694d8c8daa9e1b);
  (0x12f0fb1c240c450eccc23b2eeb3b3d6b4b79d3caecb3861b1eb47d9d7501ac49, 0x8f054e75bce6bcbacc35fca844754ca162fa4ca45b70f7d648cd9d0432b876ff);
  (0xbbf518cefa08be44d5af4768a0815c479764d8788419533d6aeeff245a5c9d6, 0x313d36a487b5e814a0fd54dbbf173a3b68e6db5bcf4f1d7ade7da981d4f6346e);
  (0x1da8080c81cf5962e167040aef52ee27f7e7132d78cc29c420d78a5398f0ead7a, 0x36d6ca476941e2dd9572db8ad9055cf33ec3d428993f43e09520221af3b20fce);
  (0x8af44c7770505e164ab945d159a1d5252f33c54fe0d6995de6bdf26959dade4e, 0xf6727f92d45cf43b84017abf02625201f2bc913e6984a8990b12dee133ad82d6);
  (0x4a5b703aedf3c2372a28c7f23d21f7633751ff706f732818ecc646a899bffa83, 0xbc9b2fed2fbe5e2569d997302e34edbbe1cc07ba0f90aa7e462e06aa5a1ccfe6);
  (0x1d073c68c51e487e76c334e124e7054a5ae944621e791f2b62824bdf959f3b20d, 0x89f80ed357780cafca2ecdf7f4f52a543ca7122dc371bc3ab8b174fa9ac26633);
  (0x4f7ab34b8ed0d7a327e98c9c160a612f72913809977a8afc147d18159071837c, 0xf3d2cf5e70bd556ba9f22ff29bb71b82fc2c6800c472d3b77fb30624caa07e48);
  (0x7df33d4dd1541e4590485cd09a7e056e356fa357228cea823b135524ee416443, 0x8ea450f887e8f43a9f3d72aa37e96e09be4374abe6ce41ad71be12eee7dc710e);
  (0x6db0f707be7f58b6899fe8d6fa65d89478a32cf5bfe0447b0fb6c8963a8a81b, 0xb3906403ae8fa1caecd51e91fd7a39438ae6c40f650c0ab60e25c13c721f8769);
  (0x54cd5de21b82a8da33c474100d1e117566cb2605faeacf888714f40ed5e3a65a, 0x29e4b87ae10d2a7551cb0cfc8c113a8019d63fc9ac110721f17fd1df93cc5bee);
  (0x4b575dbe1f519d25074d5cd8abfb3373e7463e84892b9836c7e634ccc3ffa53b, 0x682f915b8473904992218fe0929fb404de9c724b77f17fe0dad2d9c52c8aeab6);
  (0x602941794a4042c567bebf2b4ab6b17754e20caa9c8cbfa28ee8284fb1011579, 0x8ae103ad2240d2d4f4b5c7bb498a17748192484f2e3b9475eba432f47aa90547);
  (0x2236ed160b37b4526a4f130e0ea501ee3cf7a8dc89e3e50cf976811536b36e34, 0x6ef1babe444425c726001a029864cca55c53c0e41f732cfb6ca54ab9ad042bb0);
  (0x66cb4ba67fc755c56d410a0980a1585bdea86e545b6014d53b77f5e4af15714e, 0x5d96d186a7d1112d27302f0cbe89546439a6f1a824fea005bbd1c9fbb573bed6);
  (0x1c69fe969c60fa8b7e3cfbd7b1b50f7b9d8ee4d96c9f54eb7061d830710f6da8c, 0xa2384b46b3218d1f44e4b6544085837caccc5171f92e65015e9d661ca023c126);
  (0x1fb8dae9cc0cc584e3af6e982b4aeb7e1f5473d15a9f070eb580b358dee552e5, 0xf13ae71e7526a59ad160e52ad97bdfd400f6f8ab1155fd58f2ec0d9a44680fdb);
  (0x10a73e7fba12a7e354ead48984e65dda2464a02103d5f9a5a26419948b7d96752, 0x5a1da43d677dff7eb2d59b231149e5a6b7ff0761d97beef6ac908eb2309fc210);
  (0x50315637e51df6f40ac26c20d429938cb4ed957f79226cc2861570f7c4055fd9, 0xb8ad8f875028aa7b3ed407551def036fccf105e8cf6649577f8e28afb60de727);
  (0x74abbc85311af63128755d1faaa45fecf859a9d30f988ce3fd1272a57d948e79, 0x8f47d6e0abfac985df0843912786ca536ac8766c9a6e5f26a9dfcdd731771ed8);
  (0x161f5af9740d7caa2d92e968bb025f7d3b86d8fafe284180fbcd80862cac4a869, 0xacd2a618046b93234a0b2876b1d45380c0c4f20a96c01c6a2f1745acb41798d7);
  (0x2d9cdd07df3bd2ab2a51dbb88bc323be861cafa1eed9b9ee13b321ac16190bba, 0xd4daa27574b2e274ceb1696036b4915bbcf5584bae6d9b9ecea08283ff3ed7e8);
  (0x9afa4d09a7fed499af7e57170fa937b9c721d7686dad0a04abd8c962a067b32d, 0x4c68dd92cb111558684542e751bcdf27a7f0ab73f0335099686d4e59f6570e17);
  (0x527ff00513091e4555ba5513bb06ed13af3e513abd1780722cc8caa9030d077, 0xc72f2064d2407e7ce6e0e5e9e58a71ca70c125c89c3cee6a0632a2ddcf7ec562);
  (0x7ec6e4951a8394979d781f1756d2a58d1755d789b976905c1e519b78cadf44a7, 0x2454ed9ac3e3e3d066146484ffc035d99204348f96f11815dae6ee91865d03bb);
  (0x3ee5b195983780f582bfd297a84611fcd7b6718c5a0f357aededcb840139bcdb, 0x7f631217bd18616854f312d8e10a649a9fd62e8b6dfdc464bb4c5939e5f444d7);
  (0xfeeb175515b9537ba4f8b21d000915e250dcbba59062852098b4413152af0b07, 0x59b9fca659a7313c771e74619a454da6fb96893abd12f282ccd912cf33411beb);
  (0x28f5fc1ace309b3b966993d1378b42260934d87b14820ce9e797c39b197fd177, 0xb4a2f1be5c333478e604e266beb9b3f88a0f6a3f3a0aa86f931a2c2710bc879b);
  (0x19ee1ce0ebabcde61c9ef9f78bf6b2022230a1ac0c46afaf7c9e9c30cd058e, 0x48689424cd453dbb06c30d2f486317e6ebbeb71db03d635dc366faee196c1a53);
  (0x42e3c7d4cd1881e24241a3371fefdb474b0a22dd399d764323f80243c590b3, 0x51798055e3c7ddcfd21b272709740f7c325d99cc9d61b6532ff77344facfbcf);
  (0x3bde431d1a3b65c4c828c314c54ce5e92ec3b098ab22c170ce29507ce33d55, 0x5c87cdbce42658aa2c83db4e1c102629e30c00c30dfb9ba1d6cd9988b71bd6f);
  (0x1a61dcd37247f61b9608574f6d9e2e2adce214b3e0cb050c1e460333e2bd2ee3, 0x7bcc9dbaa1ee2d436ef9b7a1dce111b2867d0800a0121b4a07eee590c2faabe);
  (0xcc957614c28e6026f62589d76595a24e672d65c57484519143f8860176ba3c2f, 0x522e902aa519f36aa6d14966ed5c154f213b9cbbd36207d5c065109d9120f631);
  (0x245fe2cbd0ec9596b50aa7341f4af79cfbe2de6dc9a617dc9af5b145cf382a26, 0xa1d2b9b49d9be11561584e24e682e3203496e28351448fe7ebdcf0196837404c);
  (0x3964dbe973a3df23e232901ef9b8e1147f028f034c72d30b0918f0bca266ddd9, 0x443c0641d58d3f5487a44784a6031026fe1818e24908f1aef5e4739cc98982cb);
  (0x1c85f4d93d8e1aa19d6ccc82e5a9c5777c94d194e37aeff6c05dd8df03961fbc, 0x7936cf869b1af3797bc84ccaafd27e57b104bfcec1406c6e19415a6fe49a7296);
  (0x3827dff477e4f093e6b4f2488d04373dc30dc11372db4bae8393894afa3de45d, 0x3c6c5f092a29f811d49ac0c3bb786f6d9085bd4f0520b4515a9d6b7aa71634f3);
  (0x5215adbb9f3e5e31bac0ae2b3f5f4191a3228e5fc9a0856a9d46b77fce19d85, 0x77e64175031edfc413e359c7d7ac0c9045baa9094a7732094a85d0be2fb5bc6c);
  (0x8bb5bf1a58454e3dd0a79674864003f0440ab75b3e644a5a102281549da554a9, 0x243d804bdab0d6ea97311ebb02fc29bebafe31e721756579e2c7c0c4dd23bff9);
  (0x52e769aa7ad04a7dfd87df0d6fd5fc8f751c99fe5b637ad6b7c6b3baf64b804b, 0x85ba138968dfd4414896ebe5e10ab09ce74a81369113fed3d132c9ebc0c2e127);
  (0x1c81d4e04cd340508acd930647539a022ed70e51c390e7268e7fc0475f10231f7, 0x67035cf100050543635b0b30260389fec8bb7868a2a8b0cae0e6a051cc447b3b);
  (0x8d546485c642a277376fcf110f08434bbf11ea7dace0d88a2aa91fb0a1b7efde, 0xf1a001981dfaaf8dfae3a9da1fbb56f53d2486cd10fdeb9399780d7a3f3fb8cb);
  (0x1fa688ab4461bcaa112b892dcbc2a0816e5686224ac88b95adcebc609cf595bb, 0xbe3621100a417607965ffc8fa541679f2d3f5642b298bf90d2996d7582cd61cd);
  (0xb247a1a71bd29205ea7b8ab70ab461875b43e551d5aa997493d7b7800a1acdca, 0x3fa649cadf20dad28affaec4ba61cff56c5337fb49e6efa40bb47526c350199a);
  (0x1c147d304d2578e0c89d30b37e928f30d8efe50917e5f2bccf4ad5a6b81269ef, 0xd5a264242f62bd3fa32f45aa357eab44b6cf4692389049eb5741019f820ee66a);
  (0xe32e4feedc7146ae5c5aff93a018bad6e880ab6033194cbe40b70daf62bbabb, 0x54c8f2f98714ddf78ca2763f34f33fa19f5c0b2573ba0b6d5d2337fbf3511f85);
  (0x2436a8f4c0fe54d44a17cc97b6ce6d4236127d709f41fc12a7b3e4853aebf860, 0x3c4a4319be8539c66452336933787c8e51ee53983c6d4cf8eca7f1a2c0eb23e0);
  (0x8df4fdf4fda63a2f4df910eda9e35734e9ede44a7d7630bbf131557a0b514a38, 0x6048c5b1462613961f817715519f009943c061c150268a166ff981ee72a19848);
  (0x12eec7c68f6d10cdd6abd734c2382dfe5ee32b988a9a7873dbd3da7f7d34d219, 0x86cc4890048461f486d76223201651b3f62777ba64c65b4e01405ecbee360c48);
  (0x302904f909f6529e3a6f2edac96f53e3e1e1277f929577928cc106419588893, 0x459e6b1dfb8a310ca631970a2ecafc82ca990e02a0fadf7ff488d2a7ce62cdaf);
  (0xdaf181abe4994d5fa1aff3e9e2be9a1a6fcc4b75555f655b2087a227ba605ae1, 0x13a0ebcb644bff02f36b0f4cc055cff07853e7f80d78682e03ddb102eba51381);
  (0x107ebc26cbcbcfa9a199952f5a431377cacab0985d611cd3b9d816493558ebf7f, 0xa767ec916bd196b706c8662731fe14653a08344ca591a446caa5641f24f4ebc9);
  (0x17b3a6f44f60c95b950bd18af3f3633cd4dbf3fc6738cf03e1dfcd696d6c98ce2, 0xb7cc68ea4fb1d7e31ba26647febddae9bb300c071596537c2ec4386cb0a14abe);
  (0x1a507897fe38d4e9a30cb415b33b5ae29297e70b7682df99acb413aa847ea3b4, 0xdc521a5baf76301961c6d7b24e0383494ef21cd3387507cdb090454c4d86a55c);
  (0x1fdd88b0b9eb6e94c8f950d8e96b30e1dd108ca867bd01ff0341909c42482f60, 0x52137540974e77abef937ce4d1342bd846b823be71f644351499623a3a670b44);
  (0x3a362e431e590f67280e09ed3abcaced177411179eb705a871d2a3cf2458f9ba, 0x5a51ae67accb5c7682dc970cfecec38200783eb0f39734822572abf59273f3e6);
  (0xd055a4645bf64360b98268008584c66abbb4bcdf792b56b5ffb0ef9ec2845bd, 0x5651d7c37096f3e0b6a0ccf5fb89e58838376947c1ca375b5fe400cf03b1e0e4);
  (0x5ba8d300449708fbe2fa5d4c91d092de40d90a9a963b6a10b6aca6c3b436966f, 0x39bc35adc86aea0c69a6cb8dd0d52fa3d6a4826d502d6d17ae2fbaf3220c58f1);
  (0x1460abf88ba33e4200fc36690dbe37f94e29a09699b0c703f71aa4eea3a5929ec, 0x6c50f664fda929fa9884534f61e3ec333d74e15f76ae683796f4ea10a0096cdc);
  (0x1edcb7deef6b1eef5240fdc4ba950735eaac945c62aaaf1350e3b4ab1dfbac3, 0xcc499839d8d78ce68aee1e7a9ab3942379fdd06dae268054e52273173afd39d6);
  (0x1d2fd4dba4c6d3b0f1c8361b802a2c44fae5a5b81ad9b2de7904d4d4c68329, 0x1638b3f872e332e9ae417ebb450ccbf832529bd714b9a4ca38d070c40a94cc5b);
  (0x2492cf9e6527f3442a8eac6784babf4ca2902d324b9e312d75c6d2b664951090, 0x567093df23e450aa937ace072f3c03194ee59287c466375963457f0a36e7472);
  (0xee443c42407e3f31c701492ac98a7122fcba86dbfe69f481aaffbc9ee3722fd8, 0x446bb95f75bd1279ed80ed6eedc7ce99eca8ddeceebc23fdf24cf2eb9b438641);
  (0x97c7abf0fd9f2eab567df83afe2f213147e6dfcec22c86fef455f41fd86faee9, 0xf6f96281cf20181f2895771ab51c0f64f1f11aaf6f2080aecb0fdb8fe177a5fb);
  (0x2b57515d33a4629ebbe84972e29472731f38650fa08a988e0acffc6c0af532db, 0xc51e50cbfd9a63b193283210ae11a9e7a0d1acccb4cf1af7fb1575bc980fda06);
  (0x1f1ed65dbb9230439ba3e60b738121487ff257f48f2f1af391ff2de7da6a02d8f, 0x695595a3f2f4c5ce362a4b3718acfe0936ea6a9aee19a079a0f5172b7b653ad1);
  (0x3c21cae7735e8da4857526e8cc2d33f6ac013ac531b8e61fdec6bb039b545f4, 0xfc7512fdb679ee80c68050fa4b347224b6a5aa2d012a913ead50f6a7271c0b94);
  (0x1c8d535c4c0a02624ed8353bb409cf0019885c70084c01e5caf672f7bde407450, 0x15eed8629a982887d76a4e3c54a9be14ad9c4288d24a72523bfe50b50bdbf812);
  (0x23d33e1433c98eb4a8b4ce00a5d0dbfbc575c575810db016dc9eb1a176c9bb58, 0xf1d0b2da6c92265d5ddd1d51d4baba2946dc9ad85af1e920721a20c3a8a913f9);
  (0x1000000000000000000000000000000014551231950b7, 0x5fc4402da1732fc9bec09d671cd581c6221366e46c5a9bfce4d87d7cf27a0a89);
  (0x0, 0x1000000000000000000000000000000000000000000000000000000);
  (0x0, 0x1000000000000000000000000000);
  (0x0, 0x40000000000000);
  (0x0, 0x8000000);
  (0x0, 0x2000);
  (0x0, 0x40);
  (0x0, 0x8)]
  [(0xcaecc4c91d5fab5b6c8b823c2cdd4e73de085f91931e434a62a6ff6985e45268b41b9fc04bdf896e5ea2284497a646a857dfd5cc56fbb57b4ba2ee1c03683f, 0x1);
  (0x7fd66ae7708fe2ed0b0fa194d2d135ea5d0f894a2315474292ccf130eedf14c, 0x141a88b52ccba96d1a95b18972fc89341685c9e7216b648238c2cae541a93744);
  (0x3265068dbaeaaa7091e8433c79c9e3c11d060c827464497da70f23f6af1ee5, 0x2d39e26603f1a7b14736411db74cb793138ec45f27b9f919f3d9d87ce61117d4);
  (0x1428963d102d6436ec9d7160fd98997e51701d12594ae72af67c42988f965d54499045c842c96c494f11589a30f050b574f7725132a955c41623a9b31e0faf7b, 0x71952aa2112c493c1779e74b161145643859c98a25f1c43a7faad1bf7971135);
  (0xd4c6a6ed466e483eb33550ea7a31e5931839cb2f8c07fbbfbec150e3a6f026fbb72a6df94272391d5d8d9b022602d080bb0d73249f3dc13ac12bdb765f54789, 0x65618c73a87d7fde4f8a4de122662bd080c47d1d8c20a8d036c78631c842c027);
  (0xe835b24c9e09aeb7d9a7d4bfe117c6e8336e4cf442e7f72d6a035306a6f054dbf8bde4146a51195a65eea995e9ccb79ae7c3d7af37ca135ec554c4cd4bf8823, 0x5257e5c8c26f07eca603aa0586f946d87c729b8efecc3dd8f5beb4915310968d);
  (0xa075eaa621f8cd84365c3acff176bf111079b9accd2519884ea952a5eb5135c983d84d9000b85c8091ce247f8e1177a31a8eacd717b73075287a9abd1082b19, 0x560586c60f54387dc7e2fe665b309c0eabdd3f29e98cf39ef0fd459e1cb3b1a7);
  (0xfee633069366b049a3e8c877e462ba0029b794c3876161440963e17c153784fc, 0x4781e9f1c7201d313ce7ead3b24f687319afe7d7b39d755e38320e5319cc2b28);
  (0x973b7e242649f0d9f2bd2c3ec8b11346a17d2f8562679878753a81bcd84e2bab, 0xff72f2a76f92bd4fbc2f9d98c6d409274326b179c6eff6e118882090a3085246);
  (0x2ed11ce6be820064e040b582e0ab3e3fa92cd3c7ea120cf2047e7904b00e9ce494d9d16d34399bd92badcba518f99f73ea275921ed0d6723bd26db879191e87, 0xc4c335165aebdcb08a2d0794c3b227349b783d1e698294260339da8292dbdfb9);
  (0xee6a88953f1de88eed79870f79d46809e84ce8a61a4534769cff6b50d3926e55, 0x269ffeee51f2ad8d584efe02c278c42c7970c0f139a0fee1b4e4ffb649585b1c);
  (0xb6f623c5005308e4986accc6d3e174ce99ab5d9c315ce79ec5bacbd6fc4821b7ed72e204e8502a05413568f8eab1db469de5dc02d8f3375d31ef90a6a4f8f79, 0xf70d3b065253c2d2b12a3eb6a4cc7bfc88cba5e75e69deb50968038c134c9047);
  (0x38ed8310f09852f9390b40bea5063e00b1c53353d070d5d04223e47cfd634c8d2a0bf1f1c059dd8c4b830e9cda6b124569a45de69e2461aea41e75879a7ee3c, 0x4c5b4faf155184c2668a908c194399ab114725d8c26194b0481987b2352fc2c4);
  (0x29fd0d19ce6043fb1b44c3e457676c71fefd9f6f5d671d6b59b1c1ffca69b649, 0x2a9795ce88a12c72e669484bcf2a0de2d500698deb2efefd21991271ab2b1d58);
  (0xcdc5ac446d8c029941bd78b7c0194f12ea4e00ea499cae7002e69968bed63d35, 0x67ad793a14781a419eb228e206df9b250947c4425606de24814ba842b8f9990f);
  (0x2d4fa1d0284f118bc5c0c21eda9a567dc6af45ccad347bdd268cbdcae8386cfb2f6cf013dd3a463ee835f6d8127bbe8bfedda75db2694b0eff435e603f3e045e, 0xe58423ce85e74b606c1c09ee6b3c2e9d4fcfb766099b70b8d1ab482961d25522);
  (0xb12021843bfb9f69b75ea90f94cf8f7ef9a14e6a1524ebdf658c95b4978cb918, 0x97feb943fb894ba7635388dd166d0c9bc5111d5876d58ae83782e5a72d123b0c);
  (0x101509eb31cc6ee108f384fe70cf28d4ab6ecf01d41e1083bf145a25546c188a, 0xd4f10d9b89e85569ab89141d02bc762e2625faad836271e0b9633aea98b87e7a);
  (0x444bd66c3d5a0cb1f9b41170dedc49191b1cdac1c7f2a9bd62e11d23dffcafdb, 0x402a060a6c78b387a1484d7398ecb4dae53de08f115e42ede5ebb26df0e8901e);
  (0x4753f1dba01f39601538c8f42c8a3fbf75f3cb257915c5f882ef0f75c105e040d642901fe89a49f40fc77de06f89f93fc3f232158fc8f3987606ef2a46d107eb, 0x8439f97f35dc76d12bf8e35dda23bc754e64a52989650f703a14d02419d34815);
  (0xab1991f5f4f10b7718e65410339ffdc132ea4bc54358d527432f70a05f17503e, 0xbeb3e7b31f8fdda9e95ad598575dcaf7f68340b962c2867c792c157080715342);
  (0xbb5ecfd6ae9a1ddb9dcf12bc89194daf966ab4342e4bf133e614cc7a6b66bb4, 0xd149ca873e37079ffc9c3243e24ea9943a83b916ce5f8d76980f436cf327f190);
  (0xa931a185afe980b85363427d5759524c9a12d0ba62b1b12df4bbc9d1feed50b2, 0x36c0d964fd32e497293f065622d57c3ab027179b8a367d352c06fb858fdb9152);
  (0x733f28b0a00ba4b499f29a1ada4767e56991056044ea4750c33dec7ac4c0877def0e1d0cc07168eedc0b79a66a71030c3a7551c347bedd6cb18f80afcd7131e, 0xd01e888ab546fb46331dbf1780e0d8381bfd8bd5d9f91b5cf13aba4b48c35f22);
  (0x68296498de31350f6dfdf70e9b0f8c79b4c1950862479a9a5c0b59697dadf89a6c3a078357afc65bda05983e640af48ec96ab289292a070b8202fb73aeb4ed5a, 0x3c99eacd817fbc4b896072dd67e800813ad8e6dc5c02cb92ae5bb087ec9d0596);
  (0x7afde0d0dbf9487c490c4b9aeb181d406c70d9bb2309aa1bdb7f0889bddc0ddd093f0e0fee34cde467bb5a9c4263ebda51ccd8d96e747fd8e891d33f76df85f1, 0xe673d04a870ad09950d893c58c6eda73f68c6a6a5ec9646b0324659f4736288f);
  (0x32692ae42a532a6e9b7b480798e760fe172292f1e6afa1193a3f6b105658f2bb, 0xfa6af2e0096dc8b6d242deedb509579ffc74298e48066af7b2eb33d313e1a026);
  (0x58759ce48e83c9c09baef7e31c6ab093608fbb6cd19dd00331a93abdb404a8f0, 0x7199d5774a764c7edf08e1e67f62ca3fa2504ee6bc8f6a86ddf0ffd4c3de39d1);
  (0x42c83c0ab62288375d506989637ca705d333c6af78162fbc1e13fbe64b1a0b5a, 0x967c0e50cc52b304f2cfb5c06e0cbd0d4371105ded44155dd1f42efb9dcb6a9f);
  (0x940481b95640a954e30309ba7b4495ea9dcef4faa21ad17cd943f558df40b434, 0x82c0a86bf58e1ad225f8099b42fa39514dcdade60b68033ba2a2141098d366f5);
  (0x7d79fbdb583aacb2b3017b703991851a6cf2202578ee453a8cf88c29933d474abee736322dbf0369d42f470ef00ff4823fb6cf4195bc306eee8e74385552273, 0xc2a8f44480d65f09c4d0d8df404d5cd72d5524f6a47dd096da86262634d84ccd);
  (0x168876c80ca250c76201f9ad2a813c9e7c1a6c6efa818c49849f0488ea473002c5255fd1d793de71d729f2c4c85cf8cac3a78130cb0d2ec6fa347927d2d1d614, 0x3f3bd2228dffcb41d61490311c6b5edd146751887a4787c1afbf7273c1b84fec);
  (0x46679d640f4ac26e689dea0272a8cedeef54650fc899269092e2c6d00846818346511e2c0812ac4cfd4e6e05cd6e879fd2ed0e7dcea3711cdefed41ffb29ddac, 0x6b2f91ccd77ff1e4dbca61b885407e74ce993b7db7019e2b1ca3246d16583d14);
  (0x21736cf8bb9da649d72c5f6dbb97672cad40f2b5429ddeeece67368b40582faddbaad3d3b6a0506c2fe0a09aefca32d7ace11cfe0b424dc32104523c4e2a3d82, 0xbd76f315e8889e4277ca702df4be29b7750f29afb00d5d422b40767e2923d46e);
  (0x3628c44c9a920f2c40a788caa063a9f7883fde5cd5acc29fe9afb5d8fd438b7, 0x8298a9a8fccc81ead1cb49677e131720d8d9ec93e85dd8847f4cdf4df20eb289);
  (0x1328777323377d80fe1d2504a462efe9df9787a93d6a75bafee2c7c87d57d850, 0x1d6feb6d6268f964b7a50b15e8c27ddd897735edefb54a8d504d6e32ba419ec0);
  (0x43138e4d2570ddb8063fe6272c980cb1ce7a372677ac0fc8b4de1f2fe8d0800bd759cbec648cfb8873342602e39e8a301eddffd6f9ed94284a45982c766aaad4, 0x46082a673db275e367c302341c5e0321f9b250f58661b83add1d554cd3da0d1c);
  (0xd41950dde661672e37b94e92cf34d751c7dd93cc99583ea7d32df113f5cad07, 0xb8ee975988a1da5636f062f2b09efa931ca966dc7b5e2284270df59f1962055d);
  (0x1c8552911ab95716322d20c5bcf00dc0481eee1d89df67a56e9d04ca2d5bcea08a970eab0247a2421626b1f597684874ae1bdc7b28fa2417edd58112af8c072a, 0x3a41245d883ecf950b9f3625472c8361ab5f85699e69287eb0b6d6d8a6d34e46);
  (0xf4330ee8f5c39277d04b903646e204403dd68394f2fae60a95118fd4c13194ac, 0x7896ce51d00b1eb1675b3056ec92d661af52b4cc4159b4ce176462200fe6b415);
  (0x9d6a37d99c0534cd06407a34e0a53a2eadfc081ab56d6754469000f0c484ec68b006991ca004f8576042ed69d665286f8c161187312d5a030fba624f03ab4a1, 0xfa07b598554eebf7c0fc647ebe34c335d2976af38061d1a78bb0f7113a55b21f);
  (0x41a6d696c408b45c2b0a05880a28ec8025618b7e5abfd7136e2e15c7eb8c667951be2bada52103951c52e7247a06d39e7cff5351ec08118722d8b6370fde4580, 0x46d3597e8572e7a77517a022502c1d36f4c61cbea9147f9314e67422f73c2570);
  (0x9bb303ab6408781687a6673812efaaed6daca33a55d571af068610e0e3e91e31, 0xb6f51f8189da0de03bb26af4cc26b90bb3ae829dfeac0be45b7e71c351079b33);
  (0xebc2e0418da4e47041bbcdc5dd4cdc6039bdd6819bcadd29f3b223ef7e745ff, 0xc7a5b084bde1b62b15e26f28dc20cc18106600f3530dcb39ff1bf3e4dbfd611a);
  (0x4bf84b489131c00b42c94c368e89d9f3959560d2064b3dd097adee84bb58eb7c81ed9c03f1c9fb5519905b847635a7ec2e300158c68dc303b0f86fe88430fb15, 0x3d6b06dd14b00f204d1cac328bd7f35f880de6340aced911306f91dec4f28c9b);
  (0x20d6b92f0faf80af7044495fdcb91e7a844b068de706c7e4dd8bb8df18401b7b6394bd401897c1f1311ed99d195ad9b344b68175481b798e616a0af5ce33f7eb, 0xc4cf74d52e2ee26ff31c0dc7cb2e1403870070213f50895ca48cf8d737307e55);
  (0x7ba9deff70aa93632f1ed2eb13c63d587eb58fd31c0903edd8bc824b6435b81e8ba95c60a8a7211d390271bbc677a82c2d330aac167e9679dfe933264bbefb8, 0x81655ba0b1c6f072f7a3c15f736e942c5622fa3b85e177f1d257ccd808f02a48);
  (0x100f47cba80a81c258c03e1c931230ee886ca23511b86ca0de89277183cab87927307d414b7dd21624045bfb4d593c72266747705e9bf1045f21eddeb23a11a0, 0x3ec6736f8e17d2d290ede99fdbff63846f6b8bf81d0b0750558ca42509045c20);
  (0x7d58c66f9f6e70dcb9764aded87c571e7558a08df3df020cd658fb9f06654fa2, 0x5a7d2f1550b235b7092674a6ba106de384887235fd7d39006c80bc32bce1fd42);
  (0x531b30d045f67b111a19c7abde777e4fc9716bfca23024424bd54038f3553cccf86c4a81e65c283b9064bf2823b72ed6890232a4fb253e64ca250e33f08ec1b6, 0xb322268769978909274f56118802d89897c4209ed1129d0c1dbaff18832616ca);
  (0x31a45df0331ecc4f78a0c8754e5e39648121efbd2b3d65089487f8d956be032b48673f3ed4c906c82781ee5451055f42afa8abb3e0d9ed73d74f41929bc8668, 0xcdd8c31b8fe4cf7bab6cb52c91aa622d0eb7cade130a495f15740a171ef91d58);
  (0x76c2d04d5905084fe3e2c48f44cb967cbb14599a7b653590e279a60ca604d2df, 0x27c5f9f05d31185d323fb578ccd6f7aaebc85f9ba7219d8cd9497d3660718282);
  (0xabbe35fe06fd0e824bc72cce1cb05951cf2fb66593f9f6cb5969d26fb808df3f, 0xae5d30d4799f1df938185b16f555e16097e46e79933548ca869b78fbcb5edd91);
  (0xe6a8b8fa03864ac48eb85d76f727d10f2edd5a55b4546606f98bf392380cb670, 0xd1ae63f28821647967d0a7f2965a32be382f1b74c937a2dc8ac7ece5b2f1d654);
  (0x260f3620a840c4f069e86a4190ffa98c2c7fdfbde67b58f1e424cc58ee6a13f40f57adb47b449a07183e62926f94744b5eaae84645b35b864ca8da713e90372, 0xf2ffda96a56dea8645dd8249dba7a8065dbf5d16b246d655e52bbe93f466aa0e);
  (0x7275ec4cec78e3150b703f3f84c07edc0b77f7c1af3d3b38d3607eaca263945fd60c75f954cdf12f454cb26acf9e5f7930f29e34589fb8a81becb4eb403a1898, 0x22d358f290a71c908a4ba757557d2522c439d945a9e9d3abfb96bb73871b7158);
  (0x5baddc5358245c3cbd4e082c7b42b5d4bee7520b5f35b48144d838f98b384fae, 0xf193abd5f679934ada919aa8c990464c30f1afb139ee30d6d412d015b2c3a71b);
  (0xcbfe41120f4355ca147c3101cf7f74b3d8822bcd171ffea58b1d5154e854d34, 0x9932e20f46bcdd68ed5a95bf80dd0b83df1e0613fc86552b6e3f4f076521389d);
  (0x715033900cdd1fc167ec839f5f8f4c9bbc3fcf0bf3ccfe200df7a8e4fad3c822, 0x392166a510438384637197dfa76fceb958a900caecc095b4f42486f43e344eb7);
  (0x180fcad219b537330e39742fd00e1b1753b72d9b50ea1e039e1e4fdb51970d3bf002ef28614394d1707d0db98ad7d0eab338e91ec1b61b3512ef19a5d822f1b, 0xaa5164a80e428aade2f2367ab796d0978220550f2a233d39b6e79b9d221e8625);
  (0x7a9a8fc9cf579797f927d12cf1172d2f72d7df168a0c1eddb6c68280b6469881a31f77eacbbd53bacad115a96bce9994864e160f103bbad5d47b45e3a45e53c, 0x1bb0c26f2acdd5adce7d2e1623d59acb8d2bbdc89a65bbad43e7694377ce7d84);
  (0xb2055a9c7c034d0657ef995aed465d251ebb46888d1971771b655f822a632d7253782c8f54aba1cc1084dede498be02a5a5820d38642a586bce1556978ad2, 0x3e8170c44affc87022043fb94090a36baa50b860b26540d2921d7630b5ad729e);
  (0x1d5811679d06cfbda4798a14abe2e6715f5053357eda8374ffb7cd48aad1d670997848eeacb9cbf752ad1de9f4c8f5732f4572e3beda05ab77ab396bcf8c7645, 0x4b5195775ebdafa00daa43d684b9ca705a86c2debc688fdc762b6b6a864227b);
  (0x384fb747d3b4d3ec4dff5d4b68d34c9e0d432882afbbe35a16ccfd40014981b5, 0x7a512a0ba328a9dd74d2f621f29b18839c32b4464c3a42a47b75dce2937812cc);
  (0x13289ba20edcf804933248e70ccf99a2499e226590f5405b406538326ae0d90aaa021f78e0eb775b546e1db82b30753463cd53b4c7d6f0a1b12b56326778ae4f, 0x7810c254393dc61e2f967d3eea1bd3974a65c6b86a3b6e5262158b2601a38961);
  (0x1a30af33c0b9294ebda6f1fd20db533df5541ae10f7fc8f4a1ee55049d37474a, 0x62d5adf1391176f92967602d2e81a6bfb202338c0440c3611ba60be6aee7c827);
  (0x40898ebc75b7733f7fcd7d2925c6a35c58764624e12190e953737c1585210567, 0x51e1d3bd6c6fcd3986aa6dd0d88ef8e8a00b10816bbddbbd0041feb4a28c8ad9)]
  (-0x48e2908ee0eca412e0158abf635580ecec03f6f24dbe6212df31ed6db10903db) 0x24985d355fef6e02529739dc8d7444bfb668eb8766cefedfff0cbfd49df02376.
Definition evidence_prime_n256_1 : evidence := Evidence 107361793816595537 1078522304080742162682399010554089082520748534743704783428928 2
  [(0x3bfc26275cc3d75854bca9012c1d09f5c9c68edb73f7f4fc6fef7d25a21957e, 0x8c1a9f0d40be770e7442a2d8a968a6ebeacf6a265b28ac35d8f4ffbc3385c4e3);
  (0x5c3f6852430a0987473a6b209a894e4d795fdb6e1417c2fd54a752d72edfeb4a, 0x1efae021db78d0cca5ee226182f08da69a401565bfeb317e27de5f3e0bc40c8f);
  (0xeeee3626369cdc6f85c53250abcb3272725eaaa3206e152b5a6327fddefebffe, 0x99ac4d433861b043d83dcf8b63423bf65e75bef511ca992a3ab5dd7a5fc3ce5b);
  (0x9851fdbe3e6b17b9e2305e9506fc8bff1c10b6ed76d2640f5e2279cef5bcea16, 0xf7516ae2ab4ba4cd0f36396f3ad66543b593276cbf901ca05837de8393d6f59b);
  (0x29912948076373cbecc1c6e44d3a7a42915121d51632fd886326d2198969e639, 0xc5780dee92d747e5869f206d7caf1a8c69e7ac9836d2988a776809ca4282d687);
  (0x5efe15f0dcef285e9523a97354ffdde8ccb4f1a81ad78b82d6b9f25ee2478d20, 0x6727efe8747c650e538cf8786cdc15600a62f0d3fa9ac78746166533c0c37f20);
  (0x251e25cbfb5a15cf2157a0e04e444a28970a2be783c1e03b69f827cc33d8ca7a, 0x9bf14c630e9053f19b33fe565d32d450779e5eecfc32d0fe0f9c1658b9b7c648);
  (0x23f2503b694ef1152a01fe270d4346f54ed0fb0e65f5523341fcb8fc99c067f, 0x44ed939ce2095dccee2329a742d6e8685379668e8b7d1048a3747d68a03f25d1);
  (0x160118d9a50f88296446f3281de02cd135ef8f79fc54c404e07dda8ed5730624, 0x17fb6fa4b71470a4e1676d79182088312019fca43cde52378ba38dd3f79dc8e4);
  (0x49577b69415e7a8a2c358419696220883aa34d30cee1b0a7850936e836c7ca9f, 0x351237db947109ce55939532c0816df9f43ef2ca4d7c2ffd260e09862e071f82);
  (0x15a5a75f233b038b12a23327ff278977326ac25be93bb5eb2971666969a927053, 0x89060e43d0b84091d2de52ea7f6be21191ffc123877f11f7527d2c63b259880f);
  (0xefe77cffeb4f8c196bf48194d1184308d4239e377078e733875654a4b501fd5b, 0xd28df8d4c198595db6d50e70b4769780f7664cb40ce0d227f0ad625218545117);
  (0x1e6a7ad169027b7c2760e575c5955705c058349225bbb406854ab7a0fdcc7855d, 0xaf3c7b08d1797ee7a71740593c7eb4dac6dc50658ecd3db957c9c9236b1e3005);
  (0x8c2465629303ac55d8401232d47146d63e4b664d76099a5fbde368fa3f6dbee8, 0xf995550ae2c745531fc0d8fb9873e4eda85f2d0959130c6271dd10d8c54d6049);
  (0x25a33f1b7a9a78c578cca0ad4f80bfdf10615d75645e08957c5e13399c6c4cab, 0xbd6920a72057524b600e4d0a0f4976763f31f274c53488d24003b67f6486e479);
  (0x38e7ad00e7060621fc6299ea88eb021d3cff75fbeb13b38ac55d0b40b98d9f, 0x6228c7545a2c76b6c95e76c8aaa846b5d66eabf0f5bd89f70d9c75234520302a);
  (0x150119b30fb3b903ed0168f787fda8f99c9e0f2acd7adff7c376443069745541, 0x78b2562772519fb8891a2106e4f46bbe29b247e64344c231241d7a9c86aa8c3);
  (0xf2eaf5c293a6e454ee9bb3e5e31958fc78583203de4b6ab15ad9824bc5a55560, 0x495426a442c22abe7937db20fb7124433f80efb689bae4c586ffad1ab468a792);
  (0x1c674b6af7e4fdc9bd6e94d1c457f75a4632c7a711f7bda094023abe7ef817dcb, 0xb0555bf0cdbe5ae4a06e7f12e6783215d910f5a3e3478b008caf26bf3871d8f5);
  (0x1cbfa30f1beef6a808cd527418403cb5295011a23d243f091a16b4055ad719fa, 0xf12f70e3e767700aa95edb2725c5a774d580e524dc0eda87dc86a974fb52b798);
  (0xdf0f56345196ef307b7c72a206506622e250ea9334c70f80bf803e9c0de9a54d, 0x3ca9588bca2f36bbf6b6dbb02e952aefef9187edb707d7e2d8f5204cf0925b83);
  (0xe28de04e58170d7a19400a5afcdcdcb008ba2e189af01a7e4d97629f6cc0aaa4, 0xeef68a1912c5d0d7c16e30615d83178ea3f5d3b94f73778d8fd18ca904ecb7a4);
  (0x6122ce0675e920507dea3103f66084439ec611294a3664de20fa98691caaafe, 0xaa4a6e50b91a629a78a937a06cb422c1224dcf06b42f97df0e828b10cf5c19a6);
  (0x258cdc573a2afb75e5299bffe755520e889903b7a2bd0b6eb11551b45ab0b498, 0x276c4bb2b1ed23ebd9e20aff89c64f96e3b08d2574576a4e9554b1281fe3da7a);
  (0x2399dde8b67f7df8fa9d14a757ff30c4c7bf25cfdcae386e2a334aaf6f1c7521, 0x45541395ce6c6c19eb590c2bef78acef77eedd2d31eb2c9e678f617cbe0c03c3);
  (0x186f343010b2a0961e695610f3c1087e4ebb2816730bd6310d943c695886450a, 0x5f77716be249b2278ab4ababa4ecbfec830d9cc1e53b7a93b152d8507a043d86);
  (0xc159e1eeb20c0d7fb2a66ce1c6809e03e6d4c5873aeeeab4898d9862e4052a4, 0x4f17003246befd65df838aa51a9e8ebf0e4007a1a014b36f6e9e8f9ca242729c);
  (0x515f22f058c53ad1342aa78155e2a8923bfd14652af4c77c39278e451eeacba8, 0x379ecbea1215cfa2f5ac52a0babf075400f8cca77b8a46b6c1e8eb8a74b6f4e8);
  (0xf4e1fa9ebd9efb9177bd9ba6f9fcb8833e109a21f49ee41a71e1d21e04876e9d, 0x9054780f6933532f1c76266f36fff5933d3054f48cb1ad90f23e0ff0434072cc);
  (0x9d03d1fcbbe4bcd33e94659c3ea4127965d0b999e28e8789da7e49f77df0cefc, 0xfa613208155bf97b765f29c8477c2cdf6ff7fc85470e3c909bcc46a1a86cbc8d);
  (0x1975a6832915a3138762ea8a7db57bfc9316af109e019c7048c85f7502f375ae, 0xc87d2c0593c2e4daa8a02388688522e9c988718f408cf2ff72f680d5faf833c3);
  (0x5aac15a83822508830a976cb377fcba0b38f5c096a4c2dbbeb28f9d4bfbe59d2, 0x50bb622a8ed3c86580c9122eaa8419a823745b4deebf52f6c2c1f0c3d8bc9da7);
  (0x9fbe93b6b3c820f3f7332879bd41cecfff2b4425c6d1f3a3dfc783da7574375, 0x985ae9937f6add074e594b05d24018a989199fb222083506beb3d9a0df4cfc4b);
  (0xd5612a9caf8e842f191978abdbb3a4efc2d89cf9a2e39267db1349241cd7ef8, 0x23bf9df3b17755408f8b78b14f0bdf275f7bc35bb6c2d5e299e98f61db3a12d0);
  (0x10a0dd68f1b0649d92f030aa912c05ae0f5c89412aeb976d99ab08870e636171e, 0x2950f8e2070a71a1ab89d1c2fc40c77057c24d9cd65710f9677c17024a2b466a);
  (0x5c8f09367aa6fbcebd285a32d1f559e8c3cd3accf10d64d863944b01984c07ab, 0xb88a2d0215cf3bb2ccf9cc40428f7cdd3db39b5388df9287149e4650cca2e09e);
  (0xdd111dc5a7db9681018941a516c5609d0eca339339e18dc4c842f04400c3bc45, 0x99ee924ebbeef8621aa4720ac33462783bdd2de1c949ecd7b2bc5fd028ab4afd);
  (0x9172f09fa85dcebf674a8c8e69ee1214e4d57ffdce6622454308a7b43c9b5627, 0xa8373f35cb95f03e2166ebe38635ddec245d8429a08ca04de6cb35b81a75f561);
  (0x1d292b2ab292208825f2ae15f4c4c0d0c26fd6469c938f527b3ae9879008328, 0x88722338e2844a542f186c70e9e59640da45116baabfca083dc5f58392007d7a);
  (0x7fb762f958465f2236fe6ab4fcdce1b1d2be6d393fa900f57f7a56e881eb53f, 0xf461281c694fe7addec0833bbce0fb79f48b3edf7390bdc8df447d8e804d889);
  (0xbb85c3f45093185b80c8f59cb776ce61e4de0d6156f02cbbfb1ce1e18ac2af62, 0x1ff6eb15422d55023d1d0cb48d8dc5063c4abe552c3f081e4cf3776a3d2152ae);
  (0x43253b142b424eec513c55bef5dcf4a8177572b759086abb23cfa2efef434b45, 0xdb1a287e48c71337ea3d05782e41d45a0d61b3781132cd4069d2dc309e7bc574);
  (0x1a4b4ac0330d132ea32f7e673ebe172ac1230ab0e6822ec617433bf1f2c694f5, 0x831b92abdfba41844c7503609d6735e56c0299f2b23bac6781dde9ebfe82c9cb);
  (0x8b3ae0365929ee38b904ec59f4c2059e458236f1ccac3b3938b09a5eb24cd9f1, 0x520b6129afc08d845ae5d2d4c7db561d5a24f5fc9d81fe8232dde0b50c2bab70);
  (0x9ff9b64397146d010de50a51303c4fdd184c0c566ddc607500a1d53b6674c200, 0xbccb0fc19aa7c277e490f3113a0b8464067c4684fe154a114251c619c14204d1);
  (0x88b52424d747ad7d9a56f6f40a777e23ea4dc3255b332434dfb674847600ce09, 0xca5ec7b6b220fe63999936193444cb81c88c90e7215a1d61e08e36c4f63aaeb7);
  (0x33d4bdcdfaf006bef8bba2e01a2094e3159971e89e21e090d2dbdc9aa91914d9, 0x84483bd22641b9d29c9b065120fddec83e405c600523c05727823077facdbe60);
  (0x6b010c78ae5673c997517fcc6562307a1d7316d9b627d160da8a7344e352d1e7, 0x7330a55ac63961692e9f7566f95ab1f2d55747ba2387eb77ff37a3c3ed03d30b);
  (0xf1b4118d5bf7fcfafd486e2660d6fb97788708f7f75033b49893f6a8491eef36, 0x75083b0b97e0b2ac798d9ff0831a7a3a954ac7038d52dfff3b886c3115ef901b);
  (0x216d1c124612de0cc49fc837e698aedbe8073a99c0f9ce7717edd52632317f2d, 0xf8bfbeeee9d67a4153955153d57d5bbbd2cfb10ecbcb1545339795dab074c0b7);
  (0x2d9869f896fe06ed9572c59929aa94ca8dec427f3c131bc7690ef8df9ebaa14b, 0x5c8130860810fa136067a4f83f09b59a86853942af17c0310b810dc802738a06);
  (0x76b7eb2c25d8e7abdcc2f3caf6f4f6ac68438e65453acfa1346731998d1ffdcd, 0x6c09f864f5309f9296b10e3735637979191d708397efec025c02e8035feda897);
  (0x8d858dae25063a020e06debe6113e953dbc180cc28f82e131a76d1ad012366, 0xae553128118224fb974b164d5745f10138f11dc8d391fbe5b05530dc11dcad1a);
  (0x98a06b3717ef901d35192c60b267d776eca7eca80949188df125f22b871469e0, 0xbe57332f5eb733dce5aa36bb0730091460d55f46a92bb976397c56882143d40);
  (0x5cd5c947f5e0c9b3e99d61d945adf62c1b928fce155901330e5e92b1971982c, 0x8bc5a12ff3bb396c0c2fc4d0ddb9ed27c7c98a46fce9739be4f6f3bab75212d4);
  (0xd2a32ae3444ad6c49dbaefe6a919c512af0831ddda3a82416a4a6c3b75f6d920, 0x1b408e462d28627f44030717ccae82b8f81bde478363beb44611a231eb3dbe70);
  (0x1ef07f252ff3ba28139d05f1cae181a281d4521998b556a0e398351d79703c426, 0xe836b01cf6934c4ee8b74111a0d23c594f314d31b923d7935e2a467a6b797d2c);
  (0x84395ff2bba382b8a5c71da45ba61f70b0f3239e4e626d6161713c8f030dd3b1, 0xfbb8d608bbb94cde5d945368d35b4bf8a48ea45bdfa99854f0bf739ba9382693);
  (0x11af84337f5dc07edfe374b9f67a3962cec99544abd6055ac19f4c6c37ac62064, 0xb7fb641483b284fb800b97c600c963995ebd4a22c661dfd1e4258719880dbb1e);
  (0x36a561caa82b0158d9d5e2e81935d45efe41e7c125afaacd465947718325d8e2, 0xbe50dd036fd04d4184c04d117c3d6e5dabc348b3b86566d80969f50b92f72bdf);
  (0x243406ac9f03f1cbd8facd7442d9121c8556d74c5a44d0cfe535f1ab33278baf, 0x7646d6fc1347a6bed07a6d7c976deb6e9708baa69288120ab71ebe9bfcb57da1);
  (0x69294e2b50913a89335a03f35a8e0e0262c210a738ce823332f3d0c523ea588e, 0x6045453da16b87f8590a4480103c9023443c35853b9cec7eb93bd7b2618da484);
  (0xa4b01af013600ab8a1f8a6a549c88793786f1648be33368cf3953f8c8f753da4, 0x7405222fc8a9fc092aaa48c561ff8f1156071592a9e834c615572b9a9e11921d);
  (0x1b5284a76b664ba6916049d05bc83713cb0d305b6d1c7a46ac545fbbd8c80a65, 0xcd544a6ade0a38d748ea7b3753c4392fd1d7ef225207bc4695ce1d1d9070239f);
  (0x1b0f15d246d15a36757b92f6a88588ba369b112bf9862da17da16b8fa122f62e, 0x53a21bc2bc08ba4f447df9996a3e760d711abc40b01efc52df4419083ed570d2);
  (0x4774f7fe3761bdab1d1f41331527e32a9de03572acc43b428322f8b51688fcf8, 0x3ada142979c84b8b1eb1ec1604d9577365b1851069ca2bf2ed24292d63f4cd08);
  (0x18c48ef38126403a365c85e51eccc1b02eb570d1393c2e1d2f1c4438af42211f2, 0x5fa32314c54cb695168cbf3572402d2c82f70b741522dad342fe028e0ea59a00);
  (0x2b46dbc5398925392b5c58df16c1fed7b95546023b0d1942825bb22b0f9597b3, 0xe1388edb2674cf54878ccb7f8813944799365c3f3cac6f0e9d2c1a25a36116d5);
  (0x56ed80a2501026713bf65b1fa44faab61de9d6592a7358d66c6bf08652f40cd6, 0x4a6d664940e5cc890454a9db7cbeb70109106a044b909154ad0291706c0140ba);
  (0x4f146db1fb351f50c32db45afeaaca7d023bd77a9c9e201e8f837bdbf624ccde, 0x952d137f8782dc995c8bf0f05e44f13af25bec05ad836fb572cdb5b61ff29ea4);
  (0xe610385df79027ceb92fda89da80614a0894a04d3fb7586e6aaa24d131908c25, 0x649bf58c733462201bd75c4a8421d214f08331ce5f1b9956736751dcfd4547bf);
  (0x37756819e891cd72a72e2fc8706ebfeae0c30ee4f36da3c190831a2f3898b0eb, 0xf2af78a4eb7e7fea24338e2897b403c52d432f90fce9088c62500078e39bd586);
  (0x18a6d11e22d720a1e0e1afda4c411f0f203c4746d85ac4991eeda8b7393bc96b, 0x7727228c393484c7aadcf83c589452c438be77fede95760bb3992368992065f9);
  (0x4a044a6940cc888453028a5351c9212a0ffb964e59101f0db8e2b6570ac7adab, 0x4f70ce6f8fceae8c25cac5fffb1fab0e824ba1e2156789c6691f09e534d34dc6);
  (0x2b5b24337eed75cce6737aad61b7bf4083cc15bb490f9806083909fbd97bbc1, 0x89a71d4353b9e70cea9f4a85a9da300d0ef6ea8c08de0b0c2cf06bf5e2885387);
  (0x148f4dcfaef2c3b9dd2a0964bf3a09ec7b90571778dbf05670ab225bd4833313, 0x129fb54d7b29159d6b8d7f6bbb3cbe211b06cc9baa94405d834ebcfc3070922e);
  (0x3290ab688c4033242cd086b2dfc215113d961cc3680cbe36ac25cec230867d3, 0x488c731f3ab46a63cceb12ee96f637ea82e52fd8fb1b46f21705a530bc8bf17f);
  (0x3f469785f473e6e2d4483131425dc568cfa61ae20f8ced038a4d73b5573ab16, 0x141cda45144bcb96c7c233166c51c53d72c8d51f804177f32bcecfe716bc7ac3);
  (0x6f5bf1887dcc8d67c60ee5465ef208af147fe750806782fbf4e0c055f020a3d, 0x1fd1841e79212034e99f663082b6c8fd9d8d78a36403ff9b9f0e0da740ab6625);
  (0xabfdf7a94d7c9d85010b71d86eb52ee233f2bdc31d339c4c2f074e17e08d6209, 0x1dd8f5bc50a06daa576efcb5b5449f8f07cbbe956a2ef9abb4cc84c8130fd8f7);
  (0x3e64523eb7b12002f435aea58e3b3b76ee5e56b952991b234c6f5bfadc630768, 0xd1d54be8aa2456e7ab47955ddab79a3e14c3c0abe222395abcbfa47d6cbc0028);
  (0xf07d871f781b1fcc7ee7b6a5b35d5d8dc3db27686480cc3c55c091aad0f80058, 0x7e61b3c40f1e61367f8b9053b36e5639ac176660198c65f47f116ac1eed02aec);
  (0x984b6c3ab851c65322dc5d6009877cb539b39437d482ea236f0cb1d2c8c82036, 0xf81fbf94648a53bea86f1699fea33450eba302a4429a2aca37942f32e45509ee);
  (0x2b8cd6cf18a772ec2efa2edf313eda66315bc778d8d0deef3ff66610b490deb, 0xc573cbec6ccf675b52078cebc2b6b2eceddbe4daf8ab28bec453a84363db9e26);
  (0x19e9e507df1825a91cd29af60274adab46b3b8e3c5779849ec9a0ecb8dee4dafb, 0x1a65a2d3f9a9d6f978e3f5df0ef347b70ad43ef5ae44a55c26007931cd52b537);
  (0x17c552ee48c5961f3966fd72ac1824fb12888a80fc4d02518672f541dae38e215, 0xe65f2d004d252f100849467fd6a7f5c0d7841424b5d47d5f4a4e165e4c5856cb);
  (0x9a3fa465d69307c2cfcd32b7a0afbd03cfb486d175864e0c09df6cc08a063586, 0xdca42d7901c75bc4557d5a63b200e49d7f1a430874e056b0401c25471adca2ec);
  (0xdf8cede4736d66966a1cae0d5029b55a96274aafdabb041f550378840d1210d9, 0x8c8340d3aa47fa930b291293c5e8ba91b5fadfb03aa885616699a7135acdaf4b);
  (0xe97a42fe787a064a9ea91b2d74f386d465cf412067a6b23699baec3bd1536ed7, 0xef39c69dabfaeeb3b6e809e8acd14c71f3eb5f9941fe2eb5ca0c83368cbfecca);
  (0x8ca2b10db7a0af7191aea08917171a4d29c6dd72cc0be236ad891cb3591753, 0xf47ac54e97de04a0528b1f63a788bd2d82c4f244d43a53f56b6d7c625d42b84f);
  (0x632811f7544353aee1b30431bc9b44f888b31eec736cb526c91255bd033fc909, 0x862b49c000107c51b1733a08f675a765c8b7ecad0ff693fcd24a97234cafc47);
  (0xf9a953b2d7e27752b905e05c1c292028be40663205f1ef10dc28892ef4042530, 0x9f52e3ed194f843c9976f401495b88fea31e740896bde52e0815b4a18de391f4);
  (0x30d54b076e4341c553e429609b9b0340f1756108a4899c7a6da2f2ddfb0a1efb, 0xfccf940118a84a7d31241b362b7bf950b08cf300b9940bacbcc2b9679b71d846);
  (0xfed9c15c0c591ae5b9b5219c9b7c0e5d9c91c5f538f1178362e90862485f2331, 0x6fcf2685e440b3244467019104e7c3237aead44693061e151d5cb8104dfd9881);
  (0x8868eb05c39592001f3bb9f3f002ebf70f52b56a519b922a1710a517febb20d, 0xb49ccd40dfacca17a11d0925820d2854b492034591e82d46b4bb20bb53c505f5);
  (0x1be0760d806f288804fff3eb6dd46302f364f4cc3ed4e53cf1a762dfb6bf74911, 0x2108d57cabc6c04f181c6522db20c6e4aa3af46ea02c5bf9b2d2c5a8d1a06991);
  (0x2a12cb190020fc9881609f1531803f9983726519ceac6dd88a68accb20ef9799, 0xeef04cd4e6d7d7e4106d546af670492127dc95eca4342884bd022ea9573ee6d9);
  (0x1e60b02524d79d48514d935f990f4cf21309f36ced22f948198242e89daf47, 0x4962a0875e44165dbe22e3846e141cf0fce5dcd4ba9544806d32167fea790a1b);
  (0x1382a8636f559d268e88c3d3693fd9cae511cc424b2f184646f483b043dd339f, 0x3e5b49556072733124809320fd89d051c56507288da245941a0ff2c7d767769);
  (0x42f5e113f17cf8f4a7e1576b53a171030556149ac62f75e3cca57514b26d631f, 0x31f928fd45012a41f2995041f560e6a1a51cd35f035ef1ab467b82b35dbb1aaa);
  (0x3cb100feffeade44c155203660b3f4fb7d33d2981a4d1c8a26c4601c5e85c18b, 0x82ed4fd7a4bc364ca3c2e346140a85e39d14fa0517436c0217705bee8612673d);
  (0x577e60553f9b96ecbf07e7454a99b28ba12c80e04027065bd6fc543c0ce801e0, 0x58239c6d9ac4dfa317b3840ca225c9efdb773b2570cd512d28ca3ac9776c9692);
  (0xc6cfc0d3b1c9d723f47f1b0ed2a228b59c13652996dd2246ac815cfd307ecb4, 0x69d382f0c7d2dbfdecb44702ba89023d137b94d6ce254295c7cf028c5a80f655);
  (0x1b612c40413227aaa51fa775b1fb032d788d5cb7e1e479c1d63096731e019a3e5, 0x386674add0f71e053563ac9a41c58cc6c237fe28b9032ee291b2313e7b4d09fd);
  (0x211d2bcc27a768f3ba69dae10890e3b9bbadaae72f72e02565ce56b75357cc9, 0xeccc563008ad12cbc03c8cb4d3539b69d6b246541b8f728ec237d2ec2ba61e17);
  (0x2fcb4d63a1a3cc7f4e7ad83b8df36ee93e85d6de5fc607dd57b9e3c75f88b1dd, 0x1046aed2760f2bc927b29f4322c39cb9c7495d038fcef0ae88c239d84ee204e4);
  (0x109c330da61747c2ff6153a0684b5bfb6c69164c05c724d3d414384a00066e0b3, 0x6e9d01470e8511f80d538373bf08a6c86e394821d213dddaebcb1ff902dffa7f);
  (0xe673e2e4f40ab893d7706f8443ecafdd4ff46040143b74f61d3597f6139881bd, 0xb87047c72b5bfadb256cb70771785d9a2f5ece86148edc752a25179a694cf475);
  (0x78b242c2673d356381099927061f9d37f0b29a9c471eaa05e09340712b1ca9b9, 0xabbfe93ada5c53777eca5668a7827683221ed72333c2b653899bd9ca05ee9f2b);
  (0x4092e45fdbe909f606b67b176dcb1d729a1aca23a7d987bb6b1872543ab978a, 0xafc76d47303687de651f8df032143e83eafe357cee6b4f56b0fdb449b645a406);
  (0x11ac8442aea10f2c7ff7b91e3a1f99d312f699eb314f28f1fcd356e48f31b5484, 0x2024a41db0bb38588b97deae09fb54b6ceae1a95451504a0ba5779159c8a8504);
  (0x36844ca4db8581afd43c4458ea3bcdd341e51097de652550facf38a9779f730, 0xbe40b866e58fe92646ae621b9c0cfb520104565eb1c72e6090bf7c9bc596e392);
  (0xd8b737d3960fdec135f76a268efa3a4c6487d094f6db4cbd87d351ee2c862473, 0x14e242af03198af1aec70edeedf4703e8147e5d8e3f39e7c6d0cd9bce6a7c131);
  (0xd2472e0431f462fade117f9ae24694e6a6ece6a56beb7412fd75301af9951b0e, 0xeb8a4f08de48d92c5f1016dc29a171f6f6a44690217df00dcd38c48ba22617b6);
  (0x1097087fd94f3f9b04faa3e72b24782daff15d3e10f3455b2e28f6d58283dbf6, 0xe803f60b501e370f2f928538136c7f977f7ea9ece0422d87ac9712d9e092792e);
  (0x53ab8eaa58dfb9635163a4b0ad3d875905b766799d74ac2ebbecce9634a6502a, 0x412b55005c7bf155ae527035db5e279b2be4777a49ab5b8aff9a037b0df5479a);
  (0x4355e59956ab7e34446433acc043bd9a8b84dcdb1cb3f1e2cbf13847385be10, 0x925aae11173bbfb229a2215a9f1fe1f701b3cd17a7886441518cc61fed5128d2);
  (0x1e090a09476fb9efd86550f77209139efb571c8877d3089df10bf526f69b737d, 0x1735a692e6eeb95ef3c726f000e1dcdeb70d61e8f2b2a51fde5c8fc8e9696667);
  (0xe6d9ecfcfd8a413836361cc1e51e45d42923db91f4dc40f56d7f2f65bffdd1a, 0x57afea282ca0b9d3d56ac203f9655b36c08f1e47ca16a808758c4fbb3e6a8486);
  (0x45da198252cc8a6f9323d3408caeda922cece105e8085afaeb263a6cd3276288, 0x2af97ac2a5ce3f5c0cf76d4cfef2dfd2633b607bc9cbdbd19e1cd2e2d3ca705c);
  (0x4bcae8d1e2ad54c64f58bfe1a98327417ee346cb0156c926dd20ed073e9b605f, 0x85b955f9378f33ed0afeb71d4e194743781b0c7bba7032b76fa0f7c17b24d7aa);
  (0xb80dabc80fc1687ff8813b0f67c4683fa4d13d1b546ce7c64a719e8eab0d2b7c, 0x8b4b58feba75d5b5e83cdbe6e82982f7cffcb6f0c6e0a244a93587cd12a6b8dd);
  (0xc9679bdeb46479ddff2bb6e62ce228a865bc45692cea51eb00b70047c08843b, 0xd910e8cc2bf74769703705d7c5dbc7a45022ef8cf542570f084bcc8bb0829925);
  (0x1939a2ff125fe793bb5c0a6b4a79f3c72f291e335168187eeef625c39c4b8a306, 0x2823e5e0f2422ed601e2a0a5854dcbcef2989df2852a91df46dd8c04f8a50cac);
  (0x13a3502902848ef09292690121701a17ed72f8531ef53b6c6742306e119a6b53d, 0xe34a6fd4fe4ff75674e7f0b7f71d6b7ab13f346c4f27f7531b1d108f58a6cac5);
  (0x293b6a7e748fd858d664413619f082e07f369c11f8abe1fda06707f2ba95c551, 0xc88ba71a5c7112d1bc1aeee8e3a39e123e81a234de22c2688966694dc4b8756f);
  (0x1a741db96fe44c1d47d2cb839332821d082779aa4fbabad88182380996b74ea92, 0x48a5d88b5474b0b6e83b6b42f70fb41ebb3e8bdd02a7332ec558edc09f1b5d40);
  (0x98333847b13e9d687da4a64a652e1738ea4c0c222ff1e7b07ba2425da2f9fb, 0xe8c266b6fbe8f755496ec41a9ca80e653edfc1832a1c7f6e12ca21c52ba1444d);
  (0x15613f6e47fa7112ce5c685fbf981c1bae336f7ca8f418590277a11e79e3bf9ca, 0x8b9397fc44c3ed906b4a01049b9100ffba521079d285d44b36d54e181ba90fe);
  (0x227d6b80362ad2805c9f408e374d0bc99d4e041851c9c1f1d88dcf7f4910b293, 0xd14041b9c405eabd59a2e1db27e9b22472bcaa0a4a92eecf9e93665d64557aa6);
  (0xad3c3a86ea95e4e433b49161d8c6a4848eba7fd994af74beb1da915a5daf, 0x5df709c964b3e9b7a1ff8d439e153e2576e1d65b099f676065039515bc42f935);
  (0x6f2faa17411af58d752f27ce0f7dfd033ec575ed30eedd48b710547ac8934338, 0xd29716c4e7c92868f81a678959f04215a1dd666cbcd5366a2ba6c1726596da);
  (0xd1e1f96c6dc4fbd7da617b6658cf7903d5e8c8cbe7fed9254d26411fb97a49c, 0x774c181f82c3ac507485a87ccf5cb695c9911662b7bf6da573ee219beee717fd);
  (0xae332260c5fa7034cd9d5632020f6cfe1f870a004f1ea88eafd1751dd26609e, 0x39f3067820e0a9262dce37c56d8784a72d31e7e17865a59ddc75697293211b3b);
  (0x1a210a80032b9639df998794f5589a40683d8f580bbdb27eb60467d0fcc43f0cd, 0x34cb3d0a4d7d2a41364bd7701e8562298152edb7fb24722ddfae3c494c2f0625);
  (0x8a686aa0e56c91b0eff425af3559d2ef616fa03c9df0c2c31314d1f7c9511849, 0xe753cb1f732533a5e7e665ac69f1df998f7925e8a45cd038499e9e23fa89e53b);
  (0x3a7958c886e2823a381f8d6fb6f5209632496c07df9841ff9f31096c68eec14, 0xbc3c292f5d00860e0f4816158f4062227ed9706c02cd23c0c728d4fac62bea0e);
  (0x52ac557987bf2612451fc997917eaeb7a86ec90746e961fa84a9dc4f303e2249, 0x15a0e57d8f790f1df7964a67e8626809a3ffe8775b96ae75e74e6d81cbe1e4a9);
  (0xcfe5d0767a0391a612c404671874e1f0dc686cc1172020a00d6dade7db3f60e, 0x66dea20933e44ca3ddd9d389af4972df2f53ddbb32e9297fab85dcc87108117b);
  (0x14596616d4fa9e54411c66433a621636462e03a94631319b7b22ff1767fc7c3, 0x39acb4ce7a52bb3d66c485fab77abae4e7bbaace7276b9c94dfc626c1dc0867d);
  (0xc0fb4c8e74a61958e989f1e83e2162f1d9f07851e22d7425fb88930bd72e6314, 0xcc252034e9b74a37d44e27cb1d665b13541e1e2bbd1a64007e7483b6d2194f0);
  (0x1f02d8fd2143945d32984fe5619d8058114aa34ececf63c7fe08a99acccd5e00a, 0xde44be537bd8f3e8cba8449efd8e70c4d03dc36a2cf269057d2151685473cfbe);
  (0x2e536f3f483d16b986ed90d978937b16ce382191c482f0c68c9995b2d10cd8fa, 0xfc0371b56c5eb201b8c8952bf299046bf549039f5762beebc7a896407330d286);
  (0x9e9d872b2246baacab25f650220f9cee01eeb779b1aa14a7a14e4fd11cbfec04, 0x6ce6a9f835ca67871c71d56bf36f6871d1bc0ad7c3881b72dba13e8032b9d360);
  (0x45dda0bc3c7ab1c203d152485fc3a25986d50b3780f05f06eeb51193f58034f3, 0xc982150f1e0d3297ef1a381cadf80c8ddfb5b4dfe2ad10b8b05729c23c10c2f6);
  (0xd75284b21837ed3a3ee2bf8dd5fecb0e756369f9ba14440edc3c5fc3ae2d8b6c, 0x85bcb67ebcdc40770e951a284b642594545d4d404d3c6606e21166cd1176c18d);
  (0x6a4a19fd11728d364402307a75fa839870b6ce50a9fb94fea34ef3f499622bd, 0xeac8277f19ffa2565f48827d9caa097b066f5f477227d4b6c5a35d7a968ea2b5);
  (0x18d23ef2ca735ec62841486a2222f5ae908128cb60c9efcd5512e6d0e182412a3, 0x1d29011423b4df66139b0caaab6cc6324979fcab49e8e57ce62bde61758fbee5);
  (0xbd91b2ced3f2708a9ea7be7d8d6528eef2a1c277e4cc0d08c41aed9479e38a9a, 0xe176c1b47108a42fa0b79f0081fde150dec12c5b9815d9575db0bdaa7e3158e6);
  (0x527bd1fc4f4d34f7570e015d2ef59f975892508bf716654d1356e67f18887568, 0xdc4b6912ac25f68732197957124c4afb58c812c01dff59bc912eeb900441a9a0);
  (0x22ea8e8661540f17c90816ad33565cc0c4b589657c7f588829093c3e9d76847e, 0x66c06edc74a76ff9dc51c911f424df5476200c13de345308b3263905e627eb22);
  (0x10e302876c178b5bd37d97a0eb1dc2b8ba8dcae10e415f441912ba480f598a534, 0x42da480896d21871179ace1be2f56705a6e34a269e86e5f3352a1d34dcdff24c);
  (0x598cf1ef97cbcd856e3b5d33fe024325725b2fc3acb0b8eb65e7ee4eda3f6078, 0xb9f7cbad76f939ec52f4275d0976ae1e77cb68b19ec9b88a33cf2b11d3175fc8);
  (0x5b54f6335e5f4daef38cbb6846207c4fc93b195844f8245052434a845a3a551a, 0x9768ec721f195dd636ee3d503d12eca3a745525b20df4f2cafa34cbde574c128);
  (0x18d66606c8f46310a4f59767d5d185fee6cac84c05d2473dfffe614d44c6875, 0x6c1f5def2b9bc97561f847fbb4e30af8e2ccf6786b9bbc686a331383203736cf);
  (0xeb2bcb07d256b4108ff98da265eef62cd1d2b8feebfc5dd0a0eff62205e12466, 0x13ef5510b67c35dc1aadc2f64281851c758227c109a496261f95d1f75c567c9e);
  (0x43bbdfb179d5e8edf2db050a9464431bc18f42282a8d95afd6a53af022ca5b5e, 0xf55d573f6176fcb2241c7609b6a7f6d6195c934673aac22a4ccb28262c2cf722);
  (0x1c6c5f721b43e3c45964678cad85815c1c1ff6965c6cfe2a15b2bb4cb6fc8182, 0x5d1ccc88c01f3d1793ffb077594ed0fd2d84e263e957fed90d5b74a4ebc165e0);
  (0xa28c2f41f5c2cefd83e0eabd9da2230744f87a8d57b8b162b8f017ea13eec4bb, 0x3c513fdcf7311a7ed1bf68508317f04780373017f00f9a8c9aefff2924c5c4a7);
  (0x5cafea6ad1aebd01236c0ce107f98a557b281e2a654d71a213ca2aaf3507a9b7, 0x903e406fbcec4c4596e5cac8ce6c2fc2b5d3224e456085aa48028be95a598da9);
  (0x76135a1236836ac0f91afa27bec4a3ad30e1d4efe431bdbc664454ceea81ca68, 0x6cebfae22f111498043f9f16a8376bedd57d0177a0efae70298bff153653303c);
  (0x9dc55af74a60190e72a5f4b3b74e8c57e012a772c111a22040d2dbf56fc80d83, 0xaddc32ce51417de86887afd5200b8a6ac91e28d80a37126f72b5b1f24a997766);
  (0x247d22cec01181e1e62d7cf3ad2df91f286fe1399e44e4371f28eec56b8614ed, 0xc8f8957e46aad7ffa3fc421915c1e96a7cb3138478679b81ba69708bb4fc1bf3);
  (0x1ec9416f9ace3e5d88e20cdc463f617d9be3b95cd84cd2704265133f953ae55, 0x44577012d6e605f9c64d8867a84209853b5ae95e9baa72123fe55b377602708c);
  (0xef8e393b3c645ac05a26587ad0ab8d6e6cf8bcc6a6c55bad40437c28f6ad38a, 0x1631b12119de3ea7e723cbb55f264c7dc77761ad324702f38da5feb00a849bef);
  (0x52aec7fe9d73ed1d1b2e67abe8f54160e520f53dc0d74aa6cd079e4ac4d0e36d, 0x3de90b64a3d262c099eceef8eb6cb570703f98e40dbe14a1bb532e56ed4ff6b5);
  (0x17c9f38ec67b3272f932ad67cff2989eafac354593266e888c1db00a4f6999d39, 0x66e027cfd3dfa08b77f96108f69777fdd2af48f2cbcfbf17aa34d8946e5da387);
  (0xdbc3b81d56165aa92a9dbe05d2d5bf5bfbe4d76c985e1771104f4cd418664cc4, 0xdcb9a64d0be7c5cea1fe02d91f3007fb6925b5f48b33e63286e1e8611d7ca020);
  (0x846eabbd7d1a5dd14c4c8dc604cee348059d7674c8f9a5b24e74e7787a5e688a, 0xed30f9ebd5b0ee5ed2b5dcd5da4b6980f504d52ea47668a6bc2d130f288be816);
  (0x89990c594a00213941634e488092c76f2613ef693cc5552f034081b9f34c1bf0, 0x823281e04010230e4bc7ba06c921b7864c7c5222899e219e026d9eaf6be648b4);
  (0xcd59a094850b15bf726269969dbe5a4e495aa358a80fef3e9c0c8afcd965e62a, 0xbbaef17caa42355ad2e335a7e6c90ba21f116e0dfbbd16ef1ebe642612958e66);
  (0xd0f09ad0fcd3e5b74133ab07160727f234e5c3dd17d1ba04297fb52aded6a31d, 0xe547da38df49f5d3a977dc5b3d23f88c0af1c7824641fa356261fdda0f2c175c);
  (0x3506520b54e5581b905260be4779b91877000a0648cf421807c737801919bd24, 0xe746aa48d26a67d06ab0f8aaa6e0954d4f5eb770fec2901f26b88fe76b05b495);
  (0x459e05a9d2956ad169e256c4130d7296ea5d35af5571f8f4d54360d2db0804dc, 0x7482465811c9ed3dbd96a43bc18ff2650aa539a874f5f81cb8915facde703495);
  (0x1171486eda91bb77f6f9065efbdda5635b4291e85623ccc87aebd99e11f7c729, 0x857fc8110ae50724979cf633bf31b8d97eccc6e8045809fffef1f8b00b3bed19);
  (0xa42adbd0a09e6a054b959b738d87c612751ae29ceb021ec2c9074104ab450f48, 0x2f4036c41480d5bce4a03f00f644d1b4694fa629403fc9e8ec1de17d4f7e37e1);
  (0x55ddc9d6e66a9be5006c38a49d2409336a6050766e80c251eb65024b3b0b9f9d, 0xcd0129174714d9e531064c259ba0ab824e7e65f2506062d97506bf834a1346b3);
  (0xac9a7597b5080ed593aa347631c724011dab6da32e3d2293172345bbcf57babc, 0x94433784255e456e5a1477e717e7a3ee55513283e0db279899391975452fbbcc);
  (0x409c04129b1612a8c446856a46e47c45fbef1730f29969a9e8df9569a0f0919e, 0x94a34e5ff5e64aac0def20610e3fa517e13f4d86e850f9472941451956abdbf2);
  (0xaec29462eba37abbe7301d0f8f6d9ed062610100d9176afbcf0a283b15466726, 0x809ba570d98402aa5243f3766319b4632e206d2e93b6ec717a330a84e651521c);
  (0x8c82b46857521fd5174b9d6cc85bd3889d4a8c961c54193c164037d1b7a8d55, 0x95904c55790aea3fdc14567aa48483f38065313b91c77bba38a915b98363224f);
  (0x58eec16edd126756241d7b1171bdbca42137bf8c201b687996b79e6a7723d97, 0x2f6a3454d06771315f6feae3df89d7a74b5389a983f7cb810f8b1d2495940dea);
  (0xed03190846731ef9263efef328e83b2c4ff8cee40341e975c44175b2ae318f50, 0x25b8bd7c8568bc034f3a9509e0dbdaf478857e7612d09900da6c4a489a1f4221);
  (0x1a1e1e93c56fb9c5866e5933dd5477a903a1c00bbb0ea260da2dcb0a4619bd4cb, 0xf652ba6e78ab3d87cad32fdf1629829434be7df96926805d79fb0bea1f9f2a67);
  (0x11ff07b4520b825999c0cfa1d7f224af1c07d9c1160346d038c0c2c41382bb0b5, 0xe746dbfc310f3ff9a0b885789ea072efc72fc7cda95d074a0f14128b5ca42d0b);
  (0xa504344d22959613b7828791b0b402540b0ca310fdbc3ea37be7b5c97e447264, 0xbffad3afde5f6941c953f8b4e55262d6ede155a1afc39b4374e487096d7fd600);
  (0xfbda48dacc1befb3eb628c8be690ff08f5af578192f881cbb12cbef416f751bb, 0xcd88b0e636c9118971da4caa6fb0951e906edb3d8843ffc33169c079ecbae3b6);
  (0x2b99fbd491cce6a3a7e5e7cff855936f4ea5769a716c475885aba6f795861cd7, 0xfdeaf98364893fa32f36b754a7df029330085479ebe05ee04c164a345080cb79);
  (0x1cedaa954fb09607089b36dc31a338efb920c63b40f5092deeba3bc611f8f50fe, 0x69a67962a62aaaec82871a08e74be4aea029062f5aea9cea437100d18d25a624);
  (0x16e137cd6ece6f4a639375137f8b7aa64b18208198c04062648c1398451fe09, 0xf36754c8c5fe6a74c532d69c0a6b08eee191994b913fb41282a630ca68273af7);
  (0xceb38e6ac0e34de2f34bfaf22de683e39e0d30c8f2b8, 0x132213e20907e4a70b29aaaec0060c7770668533bc93e516cfb3a90ae489a748);
  (0x8000000000000000000000, 0xa2a8918ca85bafe22016d0b997e4df5f8000000000000000000000);
  (0x0, 0x8000000000000000000000000000000000000000000);
  (0x0, 0x2000000000000000000000);
  (0x0, 0x40000000000);
  (0x0, 0x200000);
  (0x0, 0x400);
  (0x0, 0x20);
  (0x0, 0x4)]
  [(0xc1a770d7cfdfcabc202fed39cfc3f0b2d17482ee5197b980a844c105e06b34f0fa8855228e62ab8c130bfcb96bbcb0289f34bb01d7e66638fa3ac28c95cfa62, 0x1);
  (0x9bf7a5b129172a3d489d681273f5cb6dcc901d75396f8bc3df6fd87480d7e5e3, 0x4b3e4b286ceac120ff869cbd81046af7178bbf04f67a1265a164106663f3c801);
  (0x4980f57d5f92fad34ea2a45c6270153687990b0575c19b199032cb6d940ad4a6, 0xc7d1ac5b8441ae0772397c35d1f64e860b9d4bb133fe2791fa8e1e8b196fd4da);
  (0xb59a305b720e8cea5d73576b488b5ddf820d123023a5d62cb9af012e092b1e1, 0x892cc79ef7d80f6f649fee88e7bd2b69c855c13cc3e34d814113291eac215b50);
  (0x4bbca5d42d99d034b98dad61ad5830e00d897c3aa737045314a298feba5e19c30d33aa8ed4b4d28f1dee0d31f30fb4230ca636d91878fb858c5d9b5cf41ce705, 0x35e769dcf7b990da15389d0bbf05dddb8e5fb68bbd5cc3ef3a42c32ec40cdde7);
  (0x122cbfcd3781701b2625ac78af7b2eaa0220b1eeaabe8a63186a3a9ddf59d53, 0xbc389f4371af58dbe06a3fbfa5a357d7f67eb9466fe906ed2f4c0ed729091396);
  (0x4c369c207ea5d8715b888b51a6561d2c26ca656904bae9279c3cd51322e7ce6be34edddc5aa18642ccd2a74de81570227cd2d109b5f0454f0d94dc18d4d3d2ff, 0x110d8211c09a4efe8e5330b676dfb664a40454d35fce5542b674c8e8cc6a3c0d);
  (0x169d382722dd143cf8cf070af9b2f606aa3d5735349f844dac73c010ce40a22b, 0xbccfef3be9c499b2785036afbdc5e78a48a043dd77fe64aa264082089feee40e);
  (0x6fe54a93e5d766e087ca8f1a1195ab02140d8dd3c05528a46dfe5e9a6f32428c, 0x4c16405e54fe99a2ed21887a07f8a5cd545fee07ec515201faa2acdef18106b5);
  (0xa47e984181a5565152fa3b0db87be3d64f20aac6b0033e90e7cd5d8a3e86946a, 0xa93fcb7f52de402e4eac5f09b5f72d1f2c6cab6d39c8c8f6d3ef2302912885df);
  (0x314855986bdefd823c4b0f21db3629ec34926417f6eeb6290e096e9a82db4a86d331f290a525ed673015b0eedf9db938b0a0a2fcde9906f33359e62798cc686, 0xcd356ad6d9591c2b8fabf1cfa4bb9ffcf269efec0dfbbfbd745a08446fe0f0dd);
  (0x5788637b40ffdfe90eeab0f40567bd0811a5761d1bbce686aa2c42d3f996801219ae8d70f896237496eaab5ba3cb070c29af6554614680054fc82e41e1b2a1ef, 0x25f5341cb1a25288086c2ce15ba26654d915aa94cc6c2bc0cca9abf485880f01);
  (0xff7827add09a117e1ef749d82dca53ae40664ee73dee30e799cd92231782943d, 0xca593901882277d4f72d9fac9aec45da1468c325722bbab028a8ea3702284074);
  (0x23c2eaba2df499bc433f143013f1167ba5501940457c67350b1dc1d4e9bdcfab, 0xffbc0ad1c7cb931040e41e735f8a8e60fd3d17867bff709d056faa5c20850959);
  (0x61a7814e5553cf17f6d8c6a2185f8e062bdfb15c39645fdb85ba93a3665ae3b, 0x5fae6ba3f24c7c41f93633ba6897f62660ad49c047eacfa5e0f5e76302fd888e);
  (0x552f8d90af6cb3019ccbdeaf2bf3960e2dcbf18f1e5c87a3a2c30949ccf947e4, 0x27873037d009584e2388a92a52289e64056ad226049b41f7e0642148b2784d3d);
  (0xfe735954a35fc9c18ae5f88e4cf6764b6e152c4fe71717b70b00b72f7ad78e05ab29a30684db92af99738d2865ae2607a22c13fcc3f991dd00b192dc18f81, 0x93ac7e8d65c1b73c795105c007c7bf940784bd92430821fb8e35db2764caef6f);
  (0x5a4e7ece4d022526cfb3243d73e9dcd1d8280f6cb829998c09d7341682b9ab191fe5133791de0c01241170beed972946048ef8855790e32ac9b085fe675a12f, 0x563fdd6c7ba0d9ac3a0d93bc1482d7a0f3a7528072387049cc5147acfcd013c);
  (0xe4806250aa4ef40db21d24c9e4424158fafb4f5dd1378f7ba85153f94c8a18e4, 0x3361e607590c7fc482e03465027397c610f0948e03e6545d7dd2875695cb6685);
  (0x48bb2d0ad4e02b59d96e4eb5ffa4bdf9c49f3ea13bc2370f96e289ec98ec32d6, 0xf1dc39d1eafee2e3ae217bf3731cb6d4af8ec4e0a2d68bb339aa840e40754c93);
  (0xc3aa18edce090e7a6372847531643ae1982b815ee220db7200573bbe83edb7d, 0x8873bce90020f258eeb102ccba184ecb22d14d35cba3c0245d19367aaca6e853);
  (0x69ff0fb5c1c86b44b9860bd0276fb36078055b78e5525da61561fce111e42c81b2fc728ea0be286613f5df31f90ce5262cbbf18700739c2c4731d9ae3be0daa8, 0x37f3b9129912ce3a5b35ed55289cfa7a38ddae95c48e4a581a399674b464ac04);
  (0x29fdae9a79f4dfb5f13de491c07187f84e7933033c68297b4a17be5079b13190e2ae843f32d35fdb5f6969b9cd5192d210f105672126e7c8604d4abe788ffa2d, 0xdeab5040962346d59a357c76c3800779e8a6c96095754fb9201951ef6fda3bf6);
  (0x1d6ce7bd5c9ac5829a397e7c96f405034fad138385d67b1250792d14f88b3a4bc3ef8039e007a0ff0daabbf2ac1fe103575757197c5ed870888ed7ecc953b3cc, 0x8c265a892338433e170f915ee678fbb7dd8f2f4033642d277671e3cb512833bf);
  (0xf5c5fc2a1897456c1f57739cfbea6c987893fba0338430b83afbdc43638b1f3e, 0x755231159fc183c5b268b743f7a8d51f2dea75678f5fdecd1ad1e1cbae763dab);
  (0x65e7486c4001f575f347331370b60f23bde77e605665417064df21d9feeccbb591f0719456d1c5ed1fa47fa14f11d0b0b249134e2bc6682a45f02010c2292d, 0xfad5a6d68cb7614303f7eea5fc352295367d3af10de12b3d6f9020c3707b6993);
  (0x81839d1b03a04ab3591ae17542d67b23e663182dac682e774ffd30f7b15e9c76734783d50980e74450812f9d83c766207e8a9c16747d890fe6820d825c9dcfb0, 0xda53ee8eab2f5f39a59f41be5b14a8befe6debf73d97d3371bbf41cf832a750);
  (0x1ccda3a2526c5e7a152475e239513be3515161c8a6c53af592107c7994d3dc6b7926368be33b22bb6e7b62f08eaa5e0260a422db8f843b216a361e0f2c32a30, 0xf6228b636e4d9524631fd5bd90baa053e090e30c10d24f56f7c1603c0c8c2690);
  (0xcfcf0ba70aff78545c64470575bbfb1e9c59f38ed2ade4a9984e9703866e66ac, 0x1d04bf944e487aaca71576c4e8a1d1c2942f37627e8c1750a00cb9a0e0872738);
  (0x88a119906f4e2a72383606616ec9596fe38c86c32f5ecac71023afb74e5db657, 0xe6a630d7be448266a156aea59c9f83ead8e0bc98bcae2767ad2daae7200769aa);
  (0x5aa697d0ebd993952d60724030c4d903cdda1558674820e1f3362f8eb5dc2eb1, 0xbb058b41815db72118047f9fcae526acc81d78e9bff02152039c2754f9db2b9f);
  (0xc764968e66f1a3b4222c0cf5c3b1b68c0f018267551eaf538cffc017fb8c6f469914b24c43372f89cf6eaf87f658ce5f7d7116aa79412464c9ddcaf36d3715c, 0x98564c66511969a70ddd2febdecd4933dbd70f58a7af69f0b25468bd698945d4);
  (0x19733788e9a99ed8ae6a6114570f88159bb11d96b527d2f27877f44b7db76eea7329b9def87c5e0f03e94319c1451b7a25507e2033b2ea5f9df615074da478cf, 0x4c599ff2511f81e1813b00c657d5c3fbbc3e3fbc9e770d108d7f7a800d1fa17c);
  (0x35e4638c75fd1d4da39d62446948dde757e62ee95b7a17116723465a75989120a50ac63e757064042cbe00ab5a8d13271e8accf10d1c7df6328f804b18881cc0, 0x6d1bd0515b05ab0cfb7acc1e7ec2341ab922e491728defddeecb4f31f5ec78eb);
  (0x89133b9f2d8e268944a06bb9564635cb41f1f32c17cf735bce9b7d4aaa8745ff, 0x9ec5f65bbd606122f1759a000599d1bb40fa50fac8c43cce303d610c8005ae45);
  (0x5f7df1853d0a5dd86807e3b86acc8d4e9a231229b8ea97b330b6c007e0df240d7e0c6c73d7edf5b9aa6e65f1da102ef42866e81681006a1d06539c22e6f751b9, 0xbb53982df5ee402c0c369511b58a24e6237e58bff2ff8bddbb538285ea0468c2);
  (0x44ccb2b4e9397416cca59f5159f87c86f8fe19429328df5a7ab64641d16101d314cd70319a376b7c284fa5653bb1d8cbd63e9874552f12ab5a537a822b612ad3, 0xd359163a23524486812f1514f91f15f958e52dc93e846392dca271546dbe261d);
  (0x16111d3dccb53cdc2e010a00aaa4ed18b66ccafa9849db085aca1a203dbb4316bf98f3c00f755051d0ae7abf99ee4491a071e199bcb06ba652114bfc3757ac5c, 0xb364d6c65b39f13a25e9f7b9ca3cf0d83ebf85832e6c88e93c540d046bf62354);
  (0x6dc78c0171d0985505cc5a3627203fa754f92191ed5f8271e2800741835324d9f2c12395b4663f28982a20ee39ff3ec49bfdc3f3554be4ab576f71eda646d407, 0x659912b602381bfbfeac7d5416a3fd1aa6b84d01ca34fd4e0c7ce1df7652d3ec);
  (0x151e15b293508632de92bce0f0070433cc9a5e725a9a7db282fa8f489e06dafa7e5e529be9af25f8356d69f1e983add3486a8bde0a3d0c132c00e6aa4f76d7c5, 0xe29ba7fc29764c428089ff6cc1289b2bd591748c79327cbe055b30007b938427);
  (0x76e8a7c171c7af89dce6a18fc4ebf4ba466be22a969b25d88aa23afccc8f6d7b, 0x6363750bc08d09fa4764df57a7fe2c230829a20621d5386f17e4aa291516e956);
  (0xeb374bbdde6c0704a184641d3ea64b4726a872fa72f402c4794d2050847840a, 0xae78f6249b119bc98e7561f8bc93b9b17db0baf9fb6211e8afb0071140b592d7);
  (0x3d721b2093de7c32143aa100cbc62b0856c25ca9a48fcf91b69a83fde97a324497815044c203c63257c4983eea6a06d9026354e385a3f7b1a23db69abefba9d, 0x3d58d5d65c23aa2dad904cc0f33eb66d60e9657accf1ebbf52fd33eed015a2cf);
  (0x2a06a0f030a99300e9960be8aa134772334bd6a99cbb781052746d44b24b201ee8d22289a70e93966dbd21ffb68268a9dff81cbc12d7183d0ee403259028aa49, 0x2a624505396db341feb45b43c19585587919eab30b01a90877aca6669ae8d1ca);
  (0xc92e14dfdd8e9bb97dd7a1782adb6932341d2c12c9a6b1833cb3b770aa407750, 0x8c3547dfd8a99f01f4bad5abc5df07beea6cf00a9b36038869227a438dd8bd49);
  (0x67a897ce24e14fc53c75f454e3aeeafaa50c92332bf3f95c4fefbdbafe31fa9e8642409db1d0e27ee665e176874f4fef0f894f482037f5abf443f11eec557dc5, 0xe2f0d1bf63086b21f3c1928714637825e29d657c46e88e644fb9c16ad4b838bb);
  (0x1d1f660db9741e0d1e62980c1334b0f14e30fab1d41647a648e2859a5f1af2876c3e5bbed2cb54074ee46662983de7afe7273fd9d6ffa02074d5b5893cd5bd1b, 0xdc333328a9e341924e4bd7d511beacb81b850e92641383e5e1c7f24e1c9a7ec8);
  (0x3bf125efa4d6889a2425e254a60b44ca755fdcda833eb83bf46469eb414bbc32, 0x74b747c0ede1eab712fdd0ecbb05af681bcb7478730a1fe794edc57d6e00b1df);
  (0x87295f23b3a29a3f8b9e46833a29434e8618352e9201d633a62ab89d5dc6088c26d01f47f97ca36a3e218e63d8427b7d16756a0daa4aad439851fe47dbaba3, 0x7be02310eba0d5f2f0edb13348248e53c5444a3493bd1dbf8febce0ba9c55b29);
  (0x3f4a36a95c687ccd62852db6dddbc14a1373916b0ef2209012539e7c92d6be3b, 0xfb71ae3f4d9b01b6f7474844873f1299b3bd1166885e45a38d09540340ca6be);
  (0x114dbf172a85b69521a796ec69cc231cff5be956a94a122ed81f2eb85668a3ae564af1f50bddcee2198793f2a85638262385a9c0a0c0e65564375e802ea11a3e, 0x7f49b4da6cec532237b2da82a3a9118a6e0d999767ce5460bb5e59171b2e9c95);
  (0x177fadc62683d8227a440343de9fc45af64b7b9144864b8f96ce9a615cc235a9724202702a0a9398b472eb08eb78510065f3f3387f791b63ba88d91b054ee46c, 0x59f799e5bad086c1c74213bf00bfe8161705379da5d2f2d5bc5d3f8a54b1e737);
  (0xd26ec6533d4891497f0fc01a71f08c2f9cbdda26065eb36c056e90b3ad0aeecf1e45869d6da6e34e5928630d0df453493419c55aa7d46fb553bdea74951565c, 0x68d7a91216eafa28270ba7b169ca9bc1dda3d9421db5b9961c452b8790149e5f);
  (0x43f060d9117e855000855c191fd0b608a2e2814dcfe840e07eabb9a695a615239570077161b52c283b7c07605650a94c748bc3839ea6d0ed4c19798ab80b904f, 0x4e6f6d529ce61575042beb08b2e2e1600c96fa0da4aa5a657fdea627ba0f5b1d);
  (0x2084b279360fe5d45d1282f4888858d0f5fae8a7ffe2ac4469b6dd402b87e8615ee632720b66920baa323f5145fb5c990ff5a9b7edfd225ed6161bd7acc66e2a, 0xb244b1e03c9168b3d832b61096b2a36dfe78c2e72dca1b2afec80a1762e13856);
  (0x4cad20bb3052f00439b454c4cd4ee18273f424a3899cc953d5eb20f7d4c70939, 0x7b55391f0f667c91f76f306aadb0466f8b2e12c47a3c954cb6931b26cb6390d0)]
  (-0x583bc9591c013ff5116711f6d6a9660605f5214514c2c734ce358ba9e5ce54d0) 0x3049df00e1c5b0c434442e215bcd5d4a92b63fe0e12f538142a344a57137e661.
Definition evidence_prime_n256_2 : evidence := Evidence 631 183505688173242781970793954054972912603546060664144063997789481999236389056 2
  [(0xdc8bb75a4a477556a0dba2426ae0b1ad24cfa5419f32434492b28b88387d1e4d, 0x5397af0b7a773f85e1f137e6f8681c8fdc92e213e18ba797d52339ccb7fca73);
  (0x963508d07a8ff3049287babc6d26b412044eb469b42458ee8a218ddc55f73f1, 0xed9ccf03f64db372ce47cc2846902d095fd08246864dfb8cbf09f1b47395e030);
  (0xaf250166b61755d4ca5b612c63cae9cda7cea120644f89e6d1a047872a94eb3, 0x31060b83e32924074942c74489f60590493832bd9acdf10df04def99a914fc31);
  (0x2bf090076a51a12aeb228203318aeeb57cf24019fb79e6b76efc3bb7815ce413, 0x34efd71b3f6817a2324ea8b1464e92e16c49eb3fb68252161a46cfe68c323de6);
  (0x47bf5141a59447e116dd7d79f9e624c82d02052a9f909e1cbd08da66bd2acf99, 0x6a0f2a6bf985c620ee29dbe6ba9086f5d759e8b06f0f5dfd91dd0959c39173eb);
  (0xa8f00876c1b598e066b0f1791f0ae916e3a0fe2b4de5b439b5db896a1e4be44e, 0x8786acf2da8c90c03b8627b967a405487ebee2572c4b070ae6317e5d10469472);
  (0x954a96e6e96f0c00c17af2e58a7a6d16fc9fe02c70c3b72898a5fb295c2054b8, 0xcff62c5c6d1298496eeb1eb55655038554906ac07e1098324ae0931efd8f2f68);
  (0x15686c1ab5f678782bf668abd039e0da23f21f2ecd31f87885408f0d71b9f6406, 0x8a3c82eb6ec09aa30554cb4efa010fc59534813cf54f1fc21979e33664f939dc);
  (0xf84a1ac4c7439bb5b0ccae019cbc2afa5cfa25300ef6fdedb2ac2b55c183e7f9, 0xd1635acf3432dc7b7be0fe164e249561973b7c49f85770245fb53f665589a4c7);
  (0xf100d192e0700e01b9c81550d44c8570b0d03e478ba86021386d95abe35fdb64, 0xfc1d81b5e8cd388cb6deea4461d6e08426679cd88c584405d80f447e233d14e0);
  (0x4343840157c340ca7d6707fa3af2679d68e4140910a1615ff9e3e9f30fda592, 0xf86371012d3c66e3d6d89bd30d7b88476929ee29f1fc9fe98ee434bffed3ccee);
  (0xea1f0f26e26431170aa9ea20de66eb6391a2721080636d88c328e908d69df750, 0x20ce481fb875ea5bdad85ee85b6503ebac4e579c1b61d09c0062e244e4fb9530);
  (0x38ade00be0b1ab1e0bfedebcbcc93abc7924c989aba6da89d94e005078e9695a, 0xad1c7f8f03385e0f1be2b63d49e591a68726a1ebc4db9bd1d5390b907410f188);
  (0x111c7f99346c8abd4669d95d409c8401929f7e6da010d0dd538dba899d0e809, 0x552d092fbf9838b86c40e200025db455575a0a82d74ea02076a8ab20a38d1f47);
  (0xc919322c31ad484b7c1499553861949e9789c143a9cf7371b8887ed0c62eac94, 0x108bdc82f8d96eb1d27fca2bd02ab686ba219fdd107dcbc63de5897076744d34);
  (0xf403c1d0deef2b917c9b59ed1590523cbfa7655500529c0b3b41e2e085e554a, 0xa070530aaa0e571b990ee62f6d1042a4639ebc32c081cee835ab14fcb0a562b6);
  (0x438aa278b9abac97fb63b4b46f59d49a96f1b7f1dbf8550757059685e2508861, 0x2c2eca3226871d9bf0246229cf8836e0b5b2486259c53dc44d0df43672c07468);
  (0xb416d6e691299fe5f872fa2906251b381b48a425f0924726573e8ae9be528c7, 0x837e6d77f8edae569149caa914bcd2e042e61e0a4601ae80cd67c7d5ac4136fd);
  (0x16dfeb52838a7a2975122e7ab322084c62f8de6c96b03a2851dc847560e7a42b, 0x35adce51e34c161df5176c0d33da4c893f6d8708c277802184ca98447e484ade);
  (0xea9c982a87e3d88a0164e1a7bc707953c85a97498bbda2159fd7fb19fe79a374, 0x4c86236e2746d400a0ecf55ad8307510c96d18c910d0b6f2267622ca9749afdd);
  (0x7081b379e2651a71a16bfb1828e4aa43bb6ec64fb5cdafbb3d8705876121bb77, 0xf51297efb4c55d8faaa88616147a2bff032f5341b3c06eca231a7ea5cb1e4209);
  (0x19424a11ee8c0330d8b8eca7c515d2125655d0d7c90dec4b762dd3e5a6455198, 0xa9b5ec746387ffc713fa410e5402c620e79ceae7ddff4df4379b4dae6d2524e8);
  (0x1556d58166e80c3b9719b17aedd0eb653f1b1bc1934a2cf7386d6d37d01cfc7b0, 0x38dc59fbd8a5dbb8ebd0eea25016d406b975681aece67250327cf4d3cba81a98);
  (0xa54161a5c197e8b608d5414d1447a89a65d070cb1f15495eaa9d8217be29815a, 0xd10d456c753a1419e08de5a9e0e12ac09f5db6cef0fccb611477600d80381946);
  (0x7f988454fd5576ea3c990c9ef94e1714bfcfea31b11e09f81625ceeae7538ac, 0x91708ca90c001bd0147f72358574b8d3d837b88b27489a0110326277b57fea94);
  (0x7da239683a31cf47eaa2ca81d1bfe7786efa660cff12043b8cd3c9b2a8c86b0, 0x2d2eedfcee0fa2821c5f24620cd2505ac4f7b056a80856ed1961b2d73113ee98);
  (0x540ea8d11aa4d2481a26e519c4f470ea31fee3f82f1853dd70e6f9f3acd8b1e6, 0x1fb3ecbf47c6015736f7afcaa55d4517a5ae36a03c3d7a8cd55247ca775ccf9a);
  (0x7fcaad0b187987897ee3421436ad0a524499734d041ae6b4e6e23e7a42d87930, 0x92b140f3ebb81b8cce1f3dd8b77244b644af48fbab7633d037d226b1751bbcf0);
  (0xdc9b7984c91a30b65bd2470269c8c044c0ec401c624e425d9647070789e4a66c, 0x7fe553be1af1a017d529879fb726b1118224bcfa0e971e7e405dafca455d3ea4);
  (0x1686cbd94d10c807fb30dd3d0c66798a0c64305543af4039e5ec8192c46e9014, 0xeda54c098c88d627e53fc3ca15bfaf5804d868aea2611f6da785be7c74932a7c);
  (0xcf58e4e74be4fddd8e62338a8d4267bdd54b944f7e92013e26d3e9337e5ae1dd, 0x4bf07e29d109a2c05d0dee94e655d27de0f417560777ba07f61969f9e74d1b54);
  (0xa5927e9a7f89c1db49f4dde5907b1d25c80fccd2fde6deba315b0651cd8dba7, 0xe66495eac20e9ec2525431a89c8f92a202c35b350c27e7729d4ac4c12421d399);
  (0x19e313ef6440f53f6ad84a19c0d49cecffa318a762e7a383596e7efbce9d2a59, 0x33784ebe17f061eb9e20c31ac5a9dfddc27a299dfa853d206d01d83a4af5f900);
  (0x2f6313ea27fe08d5e5a2b9e904461819e8c72a44486b38395846a8d2deb55587, 0x51682862d96402fa997bb6ba6146f9b4fd4a027909574362ce82feb44aa45fbb);
  (0xe57d858c7cbccffc7915a5ea8a3eee385a207e32ab0896c1c0a219038cb80adf, 0x4de1ae8cf16ba1faf2e28eae2c4b1063e0508d60b5fbd0b58cf1946e30d3f781);
  (0x1224c18f7f3df0eb14eb344c4aec4c9589056b2071be21d1806e33fc7bdbca8bc, 0xab6402c5ac182844ed6ea36ef67ce06a07f4af14256b7d1583081d4977a2648c);
  (0x112ad9892fadb9e215addc3910c3778ea1d6c61eabb4f46a024e5a6f771594e2c, 0xc0c3a4a5284abf88169efabbcc09bea325fab43277e212919f643c534b40f506);
  (0x9cc341002965e404e63ce6076dabe4a8575c410fc33245bec2946818ae3f04b, 0xbb81bd495cc5c0dc97eb025a0d9786d34b24297edcb620bb55c77fa7d64dec85);
  (0xcae53fe6689ef64108ee189b8b05f0c568642975ffc29bcf83607d8a5d6d50c4, 0x3214fbc1cea50676ef5ab5110967c5793199641a6c93799b36383bb88c8229cc);
  (0x1c32233e27b757293d07e9af94550d18e81b50fd3ee647ddec71a99d33485b26e, 0xe3e7feae2025c0c90385d260fa9e3b93ab955efd4b2e57004231340f54b038d4);
  (0x402d74144d77b816c55f1b4db7c3a5b3d8ed1f48db84b8f1e7d7bb09ed36cba1, 0xf04d56b550afed3dc1dd7c877297328f88b8dfd35abd0f4c701ef5aca7cee0b1);
  (0x1100e114b5ee31967271cc7d0fd7dc0b0b88bdd3f88185bd7e7581be1e1ac9305, 0x5aa297da77b1aa0673c321cd0c5bf6be43eb5e09414353a667df5788df0c56dd);
  (0x6cba5aa997525be8d42cd1916c36e161c24dae075f13770d7a5c15e47a18d77, 0xba9bfb997ed3b14996a85fb1aefe1750b459fc55cd22c687ba60b20f9ed5c2e9);
  (0x4daf8feaa067f30f377e3c929faae11fdf82767b10f1db6ae3e763cb4d377ee, 0x1d7e2644e1fe30ac6994680a1dab06485699cf96680f690574dbee13342d1134);
  (0x7b631cd31c894fa9fcf584feca320a8026d3a532b47cfbb1cba414516078d3c7, 0x18edfc0e38124d79a8dc3146329d8b22b1b1022ce69f0fb5978fa4abe9f09889);
  (0x4b829854a8a5fb0173870f7fec25d1ab2ca0ed6f76dac25a9c1a8fbf482a069e, 0xb1ba465a411f3d5999ccaa50dcaaf5c019257b1e886ded0a35b034e59812dc24);
  (0xd9a27ae997ec6ef308b0c42df1c988b7820c1c34c38b8adaa3be24889d17283f, 0x624fef4a25bc4d848111dbb471501984bd69a75b6f8b04b0360730f2aa07f191);
  (0x6c3ce207198a3e672e5f02cf030729e90e880168cad3686ee68a537fbdfda69c, 0xec0a05b4b0a3d69ffea8bde14cd22df68be5f9d285c3a43898bf953fd186e8f4);
  (0x2c63144ae2a5a09f3579c2bd300ec374421dbc0d7f570fc97d2fff49be494bcc, 0xa675b8fa36e0ba3fbd72caf4851657133cdb9eb6833d676e76050acffe317d34);
  (0x86974057b83f30c15faeb59987ebca00f213924e25030cb07ec2bcdd42386332, 0x4b6040c7545e523adf9cc58751533b3f677bb1faca8e1024905333c2b189c520);
  (0xccb7e9dcc1c8123a3ce66dd11be193bc93e8cbe2e1403f143c4b8d1c6654478c, 0x8341096d812448562805a7c536e84d3e536f5415ea61946bb9a202c981b6aced);
  (0xd0db6cc889a6cca888f6edffa0786435ee83234085cb3eac2ebd4ba580410597, 0xe4ed80da57f17f635af7f17ce67e5d9e728a73c246b55ae8d82b572acde4248b);
  (0x1d77c544ef8b79b644e2a57d6ed28c70517bb64b24cce2641526fbecddaa659, 0xa381251904e579dfec1b7d7cdf97fb17b78737d481a4cdc419fa464a8d235367);
  (0xc38a53b6df5911f2f5d9b6b8caae2b0affc5bcd8aae3f5952478fa1f5eff391, 0x15b6b6645777042f56712cd2d0692b1889effca8798d910db081338d0e78fcd0);
  (0x4818ddeb62c43c3267be66fe5ea2b235d3aa7fce79c72c646abcebd40a1f3e61, 0x37ef2e0128ca70c94c8aa7d3049a39f10eebeb2f1239012b0b05f6536b9fe651);
  (0x419a027ba18db2f48eab37e659cdefbd40aa3d5966a938ccd194c1799394cabd, 0x60109284115c0e3606665b9952321c2eed24f001be83d32fe401fa8c68b035cb);
  (0xfa5c80e6529ba3dc6d496f2841b06c0e26fa8e8ae939c0e930cb7ecadfae78a, 0x5ba29aab2df7f1cca8a87d81366457c2017fb665bf025e555d17553356a73876);
  (0xc0edeb5989ab28f3344caceabbe4026eb0c410d7419f4ecedd97a4fd195e7f2c, 0x2cc0f056b6e8249b15cf6ac1facfc3ca67ddc25f896ac66e00a0e42435d12fd8);
  (0x2bea8df7dbc19e9590a9c3723d4fa9ff8ac0f5bee96c4bf85cb06ba39fd7bbe4, 0xde3d09af3bd8215298dbbfd232842ff87fc1b91498c49a18b2f1c0f957da267e);
  (0x1e8b535413e73100b833f824e24dc3712daf427ec6b1daf2b896f54e4d4734079, 0x4af9a54015b20bfaff93d56e3d9f07a81e185dee033605fa170fcea9ee146a47);
  (0x6cfd7afd780cd3c583676a00346f51af6bcf8a22ab9c9edfa4b8cd0301511880, 0xfa1bf37ea55478ab67a8cf2830e7d53a046666551a56aa553629ddb28f0ed210);
  (0x350b062e4bd0879e2a65e70f5df968c6dc67da59e86156bf66d0552722d6790, 0xa7099094aeb59ae75a2e3c16112378eab01ad2b68663fef5c2a0e7b401e71034);
  (0x126f59a96d4dbc0bf22c5a9553b10d64473b641702858fa742472ded1df0a5fa0, 0x1d21dc48377de6b3e0b14803fc9df39c75d6224a7cf2adcc019e43a606e9bcb2);
  (0x3ade865adb335ce526e68e51154400abd0d6c50c64b3bd63044c92a82410c4, 0xc24e52b16e9405837ce286e90d70c2d05adaa7e671472b92da54155f054473cd);
  (0x51fd30ecddbe078e464db79c5bf5c6cea6d1653d1e198363fc4854118c4b1d7, 0x7ac316c032c183387582fa1522f659fa659f48724e542bae444d2758f4c7da9);
  (0x2f1944870e16818b04dbc94ecfc93c5a69746a9eb39d4546995edc0015808231, 0x2438180f2e11530a401193c1cdc44db9b2726d0e50c848a802d84127b55bc538);
  (0x60918b5204170e3b5776607c622459845e1964a103911622064771ecd0c9b975, 0x6dce3b2c5a74ca38f8c6d2e8d4ce59af2e03dfed7972a83eb160f4a6940eaa0d);
  (0x41e19bc5f6a62068ab87689b81e14594b38f0ab9c9574e93301a3223459795f8, 0x6f2dd38dc7edcc981a6a5ad9d5c0635cffc70cadcffc2b8f6f04bce378a12cf1);
  (0x5c9a04ec8d94e7678c53bfcb88f3bc4199ac3d5b5395517d47e0fed025ea1f6, 0x81de1ecee64cf3d892966ea44ffbcc72ec6576b131016b8bf165e9a45c335553);
  (0x6cef3c67d3b46971bb8c526252588da5a7c95416bc5514a5352776bac3b216bf, 0x267ded04edc6a8c87e00daa4d7959049872f59aeb4c7fbbe09370efc5e557123);
  (0x6e0682f63b28c97dffec20e20c734d9d2e72f1046c69a2b30af51a66d7be1d1, 0x761545e548d7b4d641a0e4793c74a05a4572dd763fbed0a7b23a7eb0f6dbbe77);
  (0xa13920529787d48df2313e82164a4aade67fdf2e226092c529f78f7b81a64e32, 0x1dab10b2408e694dc4f101d718ad8880c1073b7861a801c9242066be08f33872);
  (0x5401a4c28739662067afead8e32c466c61ff5ba62ed1cec1afef53fab157ffba, 0xcb286b27ae347586321e6b02407b97015409e445918c03b683f044c67c9bb9c6);
  (0x469f8492247388953863ea67f1016a5504e3f87972baa96bc66b4b526b581ab8, 0x67b220da2cbbecdf322a0d89fb49775c8d969a1b379a41dd16a9f4c6c0df8590);
  (0x76f13f802a6a0a459aa94928b44cf1943b27a52fd44b273017e74de323930fba, 0x5f13e0a9b4606e3dc44d600caa7af16211a3dd3499f397df6123c1582a8d7446);
  (0x17094e8cef3c166fc028e415832ebb45f9ad032747f8b8e2f9b4417cac7a1dda, 0x7b635abc20d30f2803aaa1c7ac4dd1f9a2ca024fe446e51acb504a470c109ed8);
  (0x7f82184d30f9c2368e7957575a77691c8d3e9238434084a38494f5bf38e90e05, 0x364d2f6a73ab24cdfcd309ee9c79f557e94216515d5adede68799405bc892dbb);
  (0x8687883c0b532b6f177c779fd32deccca64c82a7e66f5b1ecc7d5824eba148f0, 0x7fc0fca3f12246861aaaa056aa5c20d10b5642055cac35045bad59d8a470cc10);
  (0x3db56883004a33fd61bc7920c54a7592f0b6d9c84b465e44509ac7a0557c5a2, 0xb9943381013f0381d98e97fc0af45b05034468e198d672fa70a2e5cad21d2a10);
  (0x7616b5895b967c1e5143c83e51b276133c17e4eda5b6f69dd89b9350e813107, 0x1637fa54ca66981b849eaadb48d09f62c41c84869f8d89fb38397aee3899337b);
  (0x3be7d561e1241e2154357a8bf9a2b97ab7f535d0fa7b0d8e65863661cfbb1c75, 0x1ebc72fc9a76f8d15de03dad43ba813816732581cfddb96a514e4121de34592f);
  (0x1178e8b8d4ab32f231af9807d46d9618462d1d332eb12fab95fd8461e1896dfc, 0x7bd682be78a2c99bb9deff3d7d5f4e799c4ace6c5f6dfab6de23a57b46f4f496);
  (0xa9f43812440aa28b18c2e6cc2aae35f8afdf6dfe97618deb1b5d51153ea409a5, 0x2f4a89f61a6f9e1f0c02603b809a1529f337fc41df47e78386b00fa75fe738dd);
  (0xd7cbe8220d44cddf28f4022d50943940ae25c5f3c354dbe79c73442fbcc983f3, 0x937e24777af5f2c822497469e277c3278358eb9781d385c94d90f252c3f4e84f);
  (0x208ce0ef2a0b3cbdc1d7ce0393873e03cbee5790986f10d240dbe27e170f29a3, 0xa632d3422d1175c1f366d29453d2773dbb1addc4c0ab72f5bacdafe2a8a00701);
  (0x26d2bdc46fb711910ed4b3756af3874b96089ed74b093238493e96fcd5a4f0a, 0x5b48dbb53a6ed5fa7cde40fd52cb52353b3945eb40dc0c3ba9fddbd1ad9c8cf6);
  (0x2c07b95efc552cfd6e2da43f6e04590f1325a3308cb3c28a4df287c1e8486080, 0x119f99d0a4e0c55d0b84dd2ea10c9ce215a853116b27215d9400c118685fc048);
  (0x3da9d7a01924206884cc45e52821ce1a4b9439cd7a314142e4416deb13046b1a, 0x4b12876a1aa6d8a796508d30f7ef483bf80cce90ed4e8511344a6818628b380a);
  (0xb6b8fc5ba3eaa4c22f042b745b7f2f2d95e02cc0d23fdaa1e5fd1f2844d6eb1a, 0x7da447e33d3d43d2eb265b6c5a2277e2d07ff7b8887887fc25b03f848f92c2a6);
  (0x10dad9456e2831bd40059dc18a87c0facf08e9a43b595375a7423aaed006ba2a, 0xd847a61b4ecf1ce4a53267071190826e92c21bed4018607c16ca6475e97e0d58);
  (0xa91e0f19af53f410877563ce285c6be6ff396eafb9bac16c1dd811e171b933d1, 0x2e72b58710e0d21dfa563448c6a3c11542543f048faa04bc90e244b4562b80ff);
  (0x1f10391870175afa0d5e8d72e560a1e27c5ab8080773c85238e1f8ee5f43049d, 0xd0127e9fc64b52ce0af5e29c7bed90662ff7de3cad68bb737c674bf1ebfd7abc);
  (0x4dfad549cceac0b0fea172b535dbdc296783d20b9ce59f66ad2794fd6b01b1c3, 0x592cdc61b65722fdf1a7882429b830c874d4931da7a751fe1623e87adc60fec5);
  (0x19c96ac81e6ec79efc7d0366b0c1f33d98983099e0b53b111db7ef42a3cd3d7, 0x63e833c0b87cf22782644a10375e2541a17ab652a74d1937b15f5ae772475e7a);
  (0x9fcaea2d99028b69767bceca391899b7a1e04247a327fe21b8078f5a73642331, 0x144ff15775c2ea14a438005dc653bb6cc283af4df30e86d558554c6f8bef4597);
  (0x1d29bdffd7259dda6b24804457e702ad48e70792b5e277285fcb2f2319b5a8586, 0x8f03fd56b82eef27778e3d9fe6e81431fd19b2e3eb40f7048e1243ecdeae10c2);
  (0x36977fbbf243268a6cca459b0b20268bc05928e159c542ce40c96480ec4457ce, 0xf4638f5b8ebb57fc70b24ec3905603c667d146708eedb459eade2ed246ab59d6);
  (0x1090284464b0439d91d1e01f5ad0bb1da08b34ce17c41e9afc1d33df4d31c83a, 0x7637cfcd03ca1fde24ea0c2e4b296c27b5da6d81806d9313cfb645d1e0116846);
  (0x53c8272fcb813558ed3b4de056c5d7e010610710e36127a785769e736952c809, 0x411dd24cf139aca0ed79eaf7ac8d79fdbd8ee95c509250b38f2aac523236b4b0);
  (0x52908e76ca9de71064f1ca287c5612f6801c78f2a5f993e6b428754ca9b7cf85, 0x9273ae63a41c32f962f3929c48eecda8fb7bb276873dee27ce05f8bf28ae6b4b);
  (0x67802d082b7623d3d41a63f294bb46c9722405ccf274f580266ede6a225d20c0, 0x916258e0c57241c1a70ceb1b00d825ee7abdc9c6b64e6fea13690f76978b57a4);
  (0x1ac0d1be8bb95c09ccdc3545a7e27f98d52bf58b6480771870427bcab8ca2e852, 0xa2c6c613e31c7d8cae465602e632e082698fc75e24556b3ac210495ea71cedf6);
  (0x88b69172b0095b17b6eb665381358c71464cf31d7c63a38b5e39207147a41e67, 0xea12e60cb1edf89ccfeeb87ec4f1b969b0556642d501d0b92197125feff4c18a);
  (0x57899a99fd7efb444ae6dba2159e61398bc6497eecf08887a134f109144189, 0xbb143c21b3c77ec6e103ee58f2424b67c97d19bb46d42f4e9c3b0ccc52c265c7);
  (0xf5989f45325c9d0a44fa3305a6ce1c9b380c26d8d9cc626a6911bed753c7afdc, 0x95b2c8cc9355bd49d5ec06573180d588f1f0cb671cad912dda68757b8719d34);
  (0x9c76c001af97e57522f5ffa25095f966a7f0e7208ca98d800f687fe8b73c5e75, 0xfabe7fc029a93d909cf9b54b16faebbf198fb0f5e6f9eb6ec8c1be8bdb3b7bfc);
  (0x30e011cd049b26b9fb0ef51fe57315876654c329212006d9ad456138dae5918f, 0xc823072d4335c48786c9e35c0a897ecc37406ce852676996c91b5e6ccb611039);
  (0x12943e3ac97b7d553c5d0e195f6d57084d159c8d63417f56e3176d8e37cbe0f2, 0x4f1858711acd1dfc3d235c003ad41e345f6a1c2cc27b8cf8423fe2a535e3a452);
  (0x7f529b1c4058f5fe7b31344e64ba6ed31b457f791e2d1426d1a5ad45fd0f4d34, 0x44f72c621787efb4917a6664225e5a560bff3920b537fd16362c12cc7109214e);
  (0x771f4c82e59e6d2c5ec5f8f0b4083a042123c9784ea344570318309d5b7b5bb2, 0x7fa9301dcb61878d16fcc940381f40513849ede62a2ca5e929add356179b461f);
  (0x8ced21905a61147a0e324be1b0e683fd0c062635558bd3eb0b7f0acdf42b2ee9, 0xaea108406160ff2f7277c03947a4f96e8fa546c93da2b47224ae2db27eae1ff7);
  (0x1dbe3d516eff8c7f3423f2d6786e84587331890e7fa1ee789505de02b57fd87e6, 0x864ec733c192390d98587e4895ae72c474f809c8aebc9878452d37d50f00395c);
  (0x2b3365958daa8a9535c075c6bf53117963b679e79c6d279774cbeaa0f9236b98, 0xf6ceb4e2c976deef03663f8650f782436e7ec93db538f5b3a650e753e90ffbb1);
  (0x2b5a4c924eaaf0f29082b5f1b05558d931930c8e2a89099e081013c21f3cb3, 0x6929e611216c8e25fcce3c9fdafc559123991e4c40efec6a3ffab32c94c0651d);
  (0x6f0c011698768f678f7b6283d3b8dc50f406c1e7ada4bf5c3fdaffdf2c1cfe, 0x69593502ee824d7a1515a33498a19e9ce95b0bfbc3b4f109436bdf18a50a814);
  (0xb35c71b31d6a3ccec6195632ff340843976ad4491481a5c142c7fc9f6464756f, 0x7738f51b0c9bf1764fe8b6c1ee5e7c5542222226dfb9b5c326a6de7ffe114e3);
  (0x4a41da08a19b5d90e17290dfc2dcf9083154bcf5652b46b2eabb3e6f302f8f8b, 0x97850b9e14481e9c4353339a4234e5c0eefa28704659c5d30f2810516435563d);
  (0xf75c3034285cf3dc531457d9562c19874dde651fd532b4f66133fbd3f70c404e, 0x617e42f5e1fa1a43b68cf21401b76d7cd58f0280b4a485d54210bd272922a032);
  (0x10891bfe50d1d67199d1b25c26480f26c8ca5211530351d000373c72e8a9262f0, 0xb1f03ea8299c9d671298c3f42825b40026df4a9eb674afbb40d075378b50d310);
  (0xf837daf061c01e2724eded9bc5cba3eb7d0da7dfd6489d5ad60f582fd40732f9, 0xb8062c61ae1c64efefc616f208d1ae0e23d72cdfb2b639cf92e2d64b344f6670);
  (0x1521dce3e0c250c69eeb9d4ce8848480f1d51b33b8f549d97e876c914afaeffbf, 0xfc143da1e050853cf8ed65f173b6435fe1d726d88725d1013f0dea62873797f3);
  (0x1fc655c24d58aba204b54fec2cd791de7eac4f29066a1a6ef742294f2fdeddd6, 0xd0092b9092c3e35fd5fc3872abe6ebb7bceba850bb4da7b494da5c14e634fa2b);
  (0x79f6d3523abd39f9e48b9d0fef6a1bca57d0c227640b9ba5b08d70e1eea86ea, 0x5a30c7c55fe99aa7f18643c55ba28a4d500ccc5033f3847ee05d75bf999e363f);
  (0x6317d9099465645cb64f0403151f11bf95c91a17713289d12f59e9161cf6ca71, 0x2c2cc9cef88ad8128b366acf1863dcea2d40019483ced2d7fabac3cbfb708d73);
  (0x9a75e21fb7b9f8882031b41d4567b29a8e340548ff656811297312e6e0f96ce, 0x9f45daf2f9af8f2fe8cb0d5511e29f27f865255b0b07395cbd86aee24eb25e3a);
  (0x112cc71f106242f4105db4eca35d5825de5e349c8ba56218f73c8fc675aca0c12, 0x2326fcd0514c64a013d28925a733c73163f4cb30d09b727cedab4b18cea5a56e);
  (0x2d9b4fe73135cacb85d1a6d67cb24305038512265999eec68f2821e07ee76868, 0xbb8c44872dc674f4f1e4c76e4183e36bfe28e838bd3a47cf5611f53b6911a5a0);
  (0x8dbb761eed87e81bcfee27ea4daef35212404298bc06726e109f95a59125dd06, 0x4c6790ee91d15889586144cee60da4b84c88781cd72a08b8c5ecaa8f60c84dfe);
  (0x13db5022b8667c4d711e4826ed5a39a67ed97604b7e6d529c87ea11ad173a6, 0xbe7b703c8d90ba80ded6f70820c310acc80b75742d180369bd38ae2a1c3fb3a2);
  (0xb13957030912862bf32ae58c0436d5060f020c21f59b3b4acee8042aed8d1587, 0x326a333a9d34dcf87670c5063acd671f06154e4ca45b97bd9ea935f861813ca);
  (0x3d44ff21c7acd312b933fa5111dd1e38347aad31970689848cb703742a6b24ad, 0xd5003449e9666892456650e506d8e6154ac376d5ee79f49ab6cf5918e92a5817);
  (0x2c5807e3efee0c56736ffc5b6c4b0ed0a22489badf893b994c0217cb501f6eb, 0x7d3d60aea7dc8a27cb87051baee69093ac324083be9d4da197659f79a3ed3ebe);
  (0x15db3f963dedd63aee815b5c26f0534469b52ff81cd2d4ad5e407b493b1ceeb6f, 0x1aa2f02e36f93114e92c26eede29703ecadece10950e9043f3b176872be49f13);
  (0xd261e76319894601d9410a43c1541f53f6afd23544c76c7a788ae191fce6e9a, 0xd391fe71def64504d7f610323d1f829b1331849d350b5854dadd9cf4226d6f2f);
  (0x76f059436446178477440d4c90f14cfcb1ee86193d3f594b8640bbf939c833d4, 0x3a04acf7e7aef61b6b83d291d8ed0644eceb03faf99896cbb542f544850e6b9d);
  (0xd55728cf9fb30586a83131350e0ed6a6b50a640d4651986fe827a527a1c99ccb, 0xae7e9af60ee753668da0fdecca72f140651f3d6cce258bd626d7b062c67dab19);
  (0x543abc15eae9d95d3738338e6e3e85f3f9c4be3074a463f8b7ab21245b64f5a, 0xe9b2e8ce09987e7ca917537768cbca63af2f505ab193062637a182a6689c0026);
  (0xe9132ce5716023fbbd4e27e3ab2c6816b3600f3f8aa9e2333ac33a77b5e2e392, 0x19f555d36ff06eb66564bd488a70e3b7979d88eaff62d0149ae2cdc1b2b09e00);
  (0x97935058469e044d9d2bde8251d8b667f0fa2bbac1b95ace3cc67d70d4125147, 0xacb9597d376381cbde353651eb85ee13c1978af96be1aeeca3ccc89e843df5fd);
  (0x5d54b4b3abac2498fadce43509371128745c6d113625d9b7aafe5c217733d292, 0xc4fc4e28b0bf7e1ff00ace92b962c9920183e701e6a93129c869a463546f97fe);
  (0x1e18d188c13a7f0b1231e5e348b14d9ac0edfb4476779e5be47931a02aa02d5e4, 0x9a92998f178fb8f3722e750f66d2f933dd0ca4cab829b38eba462f776e645fa4);
  (0x1f1a34d815325c71263526e2c21d3864bfe52f05b25062de89fdb57dd81ddfb2, 0xf84567fa3b33ff02e0cdbba700fac555178472dc83278b3674a82564872c6212);
  (0x2203a846c3b328f592123c1048934ec02a756f061afd2abcc069fdb26f5156f2, 0x593b2fb0fe2c344e252aa7d710659cfa220d815c8311f57f77265b3045f925d2);
  (0xbc39b1b69653e39511bf73a11b62f7a08abac9a705e76213f3e97319080a2fa2, 0x5d5098a3cc21f0392d86b270b5a95329733817d00780e250f15b412e3763d96e);
  (0xd5485d199a5e622e1db41f54b4985d65040faf4c0f21acf65e542d37084c5d9c, 0xdb832cb63cca8893f9899bae73e8205b008722a7bdb6c2abc9c48b391fe31cac);
  (0x142600c764e4325d3efc34679bd7341d2e75bf8bdf721efc1c323b3f66d48cc9c, 0xa53a485d09c0a03338c9b4ad5bea85a43be673e987c8a23a0be2131134d9d4e6);
  (0x8041e3eee3b13f030f92055d14046056618bf13a002fc4fe5ae9fd7b2a9b861, 0xcb22aefeddd49e5c03cde0f746785b9b6833e3cd371bb76a19f139eef284f721);
  (0x56bc0f7f54bca932cf56a9d10b6f05b8daf4f9fa57680ce2c04b5c294d799f35, 0x20083b6ec992bfc27c724d1f100d44a14d8c015e46ec516f9a4564d60e8ad24f);
  (0x13b976d14269169c4143908ac2e9bbd849ba0c0f5e11a0a95e5d96cf64b94bf16, 0x9502a10c62fd05459f760af64fd2f7746943b117504e3e9cd9827c8fb5633eb2);
  (0x1588f48e9cdf3431243d1a430150c3e2d8cf8fe77d358a6d8204891e21d8ab306, 0xc8fca2110724897543fb831697af21aad5e0b8fb2076c8e076ce46098297c49a);
  (0x7691e202f01b33dedce8b44713b2e13b648bb4db4950b1bc27dfc1e6c5f4beb4, 0xd2023857c157d50655e086ee8147abfe1db236b991d6ee3dad82ead1e6e90ed4);
  (0x4409926d29b3c9c4c08c4d6e7fea5e6197de18d093c41eba85246393af75024, 0x7b31d9ce6e0407b9a70c3f3c4b333e6a71abafccd193b6a6fc09327b3ee2b66e);
  (0x124c5d612b25d9e08becaff8a42f76e704aab774e85d319e2ab4d63848b8dbc63, 0x1754893d8d00d3bc2baf4c484393335d92ecbd911c6111501a5e948a0b12ec5d);
  (0x34b84ae6f04ee33924d1ecd52cb4fee6ac929b0d793913c93c2c9aebd165e4f8, 0xc1959aee832aa40be93baccda6cc3d67d69be3c73904e59099a7122d06d68d18);
  (0x5f8b0d8f89bd15206984d16e75d6a748069ea75456a207a120467b8b2a633975, 0x742c6d7401cd8b8b97f62e88c49251169c237bc99a3844ab57ee10d647ea0afc);
  (0x23bc0fc0d1e0801e13bd50047ad509fbccc547b911886c58580e943e68c7bc29, 0x9c64d6d7c8e7eacd42c67a3d435d57c8ae30f36c95cf99f86813937b4cdecd39);
  (0x3d1bf0d56e4d11d77664ea14b9c636ae2b152c156769deec32ca6ec6f0aebbe9, 0x43a1af4d4438c300187e7c8986aa4ac6134716ef927628483f684082096638f7);
  (0xd90379f61942f5a6d52715d2632880036c513a7ca1333bf9098276a0d559e725, 0x5871209e677ed01da6b6d01fa3fa5ae764ef3879ae5333c4b2e5cbb73be3467c);
  (0xd5be8d45df4f11f03e581a28f2560b6648bfea170eaae673ae10041ac4eba682, 0xebb3bc559d66ef98e1ab4394c806e5b69c373d08c8512c646e8f3761ac261a8f);
  (0x26a8f3dd0f3de7155bebe6d91a75cac713daa74858d92d7e676e323ce1c448d7, 0xe9eb8314d97f211889c3a31cb88acdd813b11f7a5d767ff9bf3db228d3876aa9);
  (0x1ce11564428a2164ea366902bf2322da7fcc65f1ba4ed4d702f8915eb0771118, 0x637bc1fc38bb9eb54901b6a8fd8bb33afdb77610f0406cf1e383e09d550097f8);
  (0x6f283345850ac394bdc7d247886459398c50c099e1b0b049c510e7fb3477635, 0x55fba8a8cd6b692f50a9fa457a84151e55ffb32b6cdb9f54d9a1348c171f439c);
  (0x37e905ad7d1ff28e4b2634de4d20829b1a690a8dbeceaba267e64bf8724f97b, 0x2a2c2355e145004c1103e624f1f3f92ef6ca4181619d0690f10e183b013654e9);
  (0x175f926c1fdb8829e51e609d34d171800bdbf819e279fe5e2ddf2bae695d5b16, 0x1de8c5521e674a34ad2a219f0e9cac77942646632b021195c12fc239179801fa);
  (0xc53c0471f2fa6dceb59ca8df4464464e489a5ed71636cc0aeda8abf73c5995, 0x4d5a825d6d59251ef64f5c451aecd949df1a506a35b3b1ad8b9ecd00167502f4);
  (0x4d1bbf31527b8ddaef08691bf886cc163a448c1b5213b5e364925b8ed14fe1, 0xe0b44c43c7658cf38e42f556356b5f5e6d023b7de29a2bbe8a2a43d9d3b2323);
  (0x89a6183cb16554491e7a51d9c60c65dd18ee170dc25236e07dc51393decaca2e, 0x8c7f8aa6d22abe4f5aa65b77dffe4a13353887202d46c84bfd3f05d998cb8d2);
  (0xafbcce42dd10530b2b0e8f14d66f0bfd64c30d2840d95a4696bb4f4f1a68ce4c, 0x84bc9c46401dddebb8677ced20e131891c854da502ae26fe21eaa165f59c5458);
  (0x3c08de1d890aea66ec2314b8da05a5c41b9c571370d4e511a464059dfa202136, 0xd41b0bb72dd1c11473f6df6e4b9be4b3186dd9736abe4ec8b6037ecbc25d5ada);
  (0x6ca8f2e37ac5fc46acc879b7425be6776affc45609a619773145cfc2a8a166, 0x7bf8a2ff4b942ac06e01206b72f665bf44940a86c8bbeee65598f0f58ee42d2c);
  (0x75c364e00542513472d4887a06e975b1c0ff922f6cd889c7ad9148541fef8a45, 0x75ef276a407754e053d1311aec6c73bb70091e4996779f035dee853f49ff683);
  (0x1979d330e6869e1e2b5541855b0782944b51cd6cff6489795b1071db58edddd44, 0x7ac66570334775f3e716a64b6b10d3d88f6cfbbbbd0a47b2131dea29cb746e1e);
  (0x1ef6286dbb7211affc9cbecfaebfbbb4bbbf2d0bc1af34ce7cc144f749facddd, 0xe46ae7cb780b9eda838a1235f0e0193f838c524fab3b38b8cc8b84c11f3e4807);
  (0x1ff88405be55e083a64850d3b1d673aac11e8227493b28d29d916baca56204e06, 0x59076abc00f4302502f7d1491f6b2a83c519bc7a07a4b5dea19f4fc00c910c7a);
  (0x3639990f99d63203f5b96dfc21ba28a3e9a24140bd7b2f24c15ffc3357237699, 0xffe20e56a7184b19b957feb2af7737054801957e3b237a3279f99080f6c25f90);
  (0x1ee31d955dec56db965b2dfa66bb9a5cc6e41985d85f6063c0bf2512082e8291, 0x75d1f82c3e5ebf424ba5f2d3222ffdbb67a9af1e9637e3ba92793560a1136e13);
  (0x623900c6d62e8a97427d9d76a90471e86b87104e5f66a510541327daf5bdba4e, 0x58ec05c9bcdb1af33f2c218a8a059210c92bdb02bd2b7d38c8466f4b65ff6b16);
  (0x2aba40e8fa0e9efb3e6361f443603bd91c29948f8420ecd6417c50fa469443ca, 0x9e925edb24843b6d430e62b7a7c620aedca825556b255519474b76ebf67a1fd6);
  (0x6b6f1eb06fb593b9e98b646262e2e2fb8c04484c87e5513eb4582a0974359c5, 0x49f41b81d373032b06e9fe9d3c33ebbe90640e43e83b998a3f79f26fbd5565fc);
  (0x75285cb0105c8310bcddbc3a3f683e282f37d54afa69901b62efbbfe9225b500, 0x2975cd250eb9cf6dcc6184bb9e94807f69103b7f1a4038f2d606ffdde3779b01);
  (0x4160a8ef5ae9e5343a806d9565cd14a9863ea7e39bcf5e5032d80e32a0bd8a, 0xad2edb16a34ff7cb04745b472d032c7b78d55b0ef737e271d3084d86a62037ff);
  (0xcbc1aa6d22adc9b3b1935ffd8cfaec41485df91efe57dc7c7553fc78bdd83d5, 0x815ec8471bcab7b8b0f5ad95515e562d7d5694941400572a824e54a6b3cc4fd);
  (0x11dcd5b13bd3146f9b50728a5a6d77cc8c04ebae334962efafa6e7602398417d, 0x285fb81d957972cec73614716bf3158adfbc7b39cfdbd6fce8c5c1d5e61a8443);
  (0x8eac99101d88b723ac95a3447423913648e7af1a351f9310d5711c12919b7754, 0x2fd105ef74884497a87b80716d72276783ea75895f64aaa50c8ed13779689590);
  (0x72aa49b0fdf52f359c9fd43d7eab6e08b4845e80a00eb57ebd34c1cf5ad258a3, 0xbf1d356e8da09d0fcb7469697f8c6059a60825d43508e84be1bb645dd2a70716);
  (0xc188897d868c2f4e57dceb2f803d298ea9004f594620cf6d709e2d7d6c46477, 0xab54b7e1e942e0e9f21b2e852feef451d3137aa52535e210081f35bc5045f08b);
  (0xe8b1375b0bde287de6a7ff272e7581c537dc394592e5244d2f887aad9319e98f, 0x275917ed37e29734c21ea3ee358da33124d383a6cea926424b27f5e9f2e689f1);
  (0xcdd620b025d3f5e46833c4eab3f55900b1b1dcd3a25d07b92e9688252969bbcc, 0xf4116c279bc21ceff8e540b5f53a7afaf9dde37a639f92b1e17e1dfa959705d8);
  (0x6574ef53b5d2f0f12d46eaea2223350557d36731f583281323d4c8608b1d39e7, 0xe58d50de719ad9728255c1d23bca6345188aec5796c8a27eb6a894937f48ed9a);
  (0x1b2e8a9816d71e7fbaeefebd3ac618a1e2336347dd05e2536850fa4d0ff5b9ce7, 0xa12944e8994259c92a3d8a0af67eb994919c568f3031f8b2181655ca0bf2e221);
  (0x4ddef597eb8a0e64d2a3078aaae8684657d912345013848395050a1853f496a, 0xebf0fdc2f4e87bef92540177ac59013c2c87e326d4b692b7346650fa22d16296);
  (0x28241f8ce666b2c8b7dcd5037fb00b7de8f77a9599e4ab50c97299ad8ac971aa, 0x18f595c3f8c278af436edaa7247596af8ef387623c0ae60b28f112cce2ab5388);
  (0xdbdb239cea0456d233e2c6efed941f6a223b4db5749a125b93e141bf2d3ac09, 0x47ae2668f2f8508e1a1e666b297d1a3fa34591b035758232e6f90a69a214cf1b);
  (0xc661d46d4f6e052977e2fa2504e570173ac54c2741fedec60e540c2ae485d2, 0x3b4f674310732a65483299ff451a0d6cf7b7fdb89a071116f1cb59b3cc876c76);
  (0xc48e3b7257684e93f81aed83fec2acbfae3b1f0ec91cc7215968cf19f8c95e8a, 0x9f59feda88e5c9bd365517883109aa640780784dac5f6274e0831972333f4f6);
  (0xc9b8cfd65913fcd5e4ef1f83e3479146ecf414a745e9830e9202ebce609574a2, 0x9e9dc2d65e5d022c1d769983034327bd4534f13a5c7cb76894d3f7454aca5500);
  (0x1dd65f4de51f29c95611b7238852b82036bbe7d162f51ec72b2ec6c41d016bd29, 0xa0aff264b4472d5275fbd1f8608a01eb2378165c2f8cb6e2c92c223b04411c17);
  (0xd40accfe36f9eef89929263f08d5b972baa4d74f9b5acec674605b8834df01f8, 0xf732c0f85649aa966ace661af8a0fb02d5c9ba0f9d1909e3d00bf6adf17f5428);
  (0x26761a46cd5e51a5eabd264f3be42b4e7e7bbe96a8a162a5df78ec648ae51acc, 0xa4bf18db52943441ac291d8b6b654918f34732c9aee7a4c823e54340d0137ac4);
  (0x103ff42417c802a159d4b968bf524be587f1e7b02092ef7615bb74797b8dfccd, 0x633a3f6249e01748f4cae452ea488885bfc77951e4a84ab693a8afdcec57b38c);
  (0x84e3d5bf83d21896aa47808c59140c23c852e83d486b06291b308c7c70db808d, 0x407f69749555ff6b695ebed31d4373399b025e8a688cfb6ee3ba960b2b85a345);
  (0xbc348dcd0ba6ce22538b0ea6d7c9abb12f18c9f890363e6187e6c6730d2588f, 0x826c0d1079721e245631b6cfa68f0403a78080cae27a75f7348c43380f601703);
  (0xe05513af8cd17519f39ae387fd6aff2b0c14d4a28ef60adf796d019e2ab9c09d, 0x26cd77a6ef6f8e8c59e385bc6dee9e259a6b77684852105b966a29e661299eb3);
  (0x47aa1b27505865c3e2b25ba5417a45e80b7c3ea036b221753219f18d3b55998, 0xefa4c5f5fe28537d90fbba1b717383fd649199e49067f9c15b70530399f6daac);
  (0xda85fdfbdd38cb70247ef64de6a34ad5d693c2e04672eedd04d0d07fdd16716, 0x21dca8ba4486bf32df8d60941952a6480eac92a717bf57afe4d73172d407e9ae);
  (0xcbf8c8f39425612a02dfb1b8a3ad5b4c0db34a961a41ba65c461e3d4ef94de7, 0x3b2151700aebb1e6e928bb7224c380070678398a6a14bee4b6728077cbe2c0d2);
  (0x9e1f7f1ca968f4b707297f948946306d5011865596e515c5d545c01d98058d74, 0x3920a2949aa009374cec2c17d6336d123d827144e74541e5bf0b807ba6206975);
  (0x4d70848dd82ece5fabc773c6142760334299e026c1b66f31b627b94f345947ed, 0xc931f6ad680372a60f7e83037eefa786ba714bff71024b7e30e8e2ca52e69fd3);
  (0x1b769cc7a7668d7fd0e899effc545d056437eed458d9078e0cec53d1ab6ed4d0, 0x8cccb05bb3b18e2457d115f9180f4de58f7d14593a7a663b4cebaf07a5f69e40);
  (0x4eb264aa8b377de2c996f8e87ef4acc32d454bcf72c88673320c4659b25511ed, 0x53d947808d19e263182f61524f022dc2f2b765c47f4d23bd726159d7442f859c);
  (0xd2d8c213c1553bf58488548ca213f8c93115535ca109b1fe0a443b3daf50daad, 0x8df02029f58fed9e95f46ba96a861aaecd041b22fbefdcd887a925ec197924a3);
  (0x15d432bb48626cb6eafeab548d26ac90864def3dfdd69b01f2de1a8355126118e, 0xe854387ad636728555f382c3d240b52702498e2a53578cb92db510400cb289d4);
  (0x713d55ff11b68940956bc6f5b500650c2d9b803b7a6e830156ddb8ca350a80b0, 0xd36fdc317c382a6df02dc017269e48ba908b7ac4f33fa093102bc29ff273d219);
  (0x3ea7b6442f7d36a926b04be55896c41ef0ae42c2ca402e5c4216204150bb7d84, 0xaa4336799b752f1b3ad1365f1c67d24092292ee0a9263a01582229998e7a98dd);
  (0x80ebb153bd4b9e459c932b1cae0766954890a4b67858a27e1912d5b6179818a3, 0x7ea5e24fec16048f13324dc4ee0784160c31c8d63f226867757af3757df836cf);
  (0x7d37f60c49eea5a73f5dab49424570353a16ad9de832e4828c15a4a3fa6b722d, 0x8075a29bd4eb9774ab94a39842cfc8fee47cd82d6c587d827bf274ba644bafc5);
  (0x4a42536c06139abbdd38a969b21721bcb8211670522f8baf32dab028e55ad045, 0x7e9a067431c8e9aea163bb9fa4819ba6e030b84c1e0b14e68107b448926fab7b);
  (0x21615add63f8b0e54e2c97a853b27046ac059e594319779851c9678f354de5d4, 0x617e92a561f5dc11bda5989257f0b7ad11792ec579ffb5c9eaf819fa08c9e830);
  (0xcd69089bb86f308bd277e56ccb9d024e3158dd19278f8ea64d2ca9249bfc46, 0x5c70eb35e5273860658323d58d032e790204f7b24ae1671f5fb415d6a6b041c2);
  (0xeacc87af61ade439774020630fe744d8cec2829fc26614fea57ad4a38c11b527, 0xa226510ad33cdd4aadcdc2ce60b3988cf07050cfaf4166d155694ce16034672);
  (0x8376b803872fe7797ab194c50b136b68418351b7c36d9ca245d2ae9388d58f9e, 0xf52ba0002033adc5bbd9ce1f0c99a45566fb0e05d1c4a53df82adca61f69725b);
  (0x2213b08fece098e5240bfb104e0d87c489a9b584471711a6bcd7354514e0b654, 0xb773c5020dcd2e13a3ccee9868763fc93abbb40efff3ea97526bbcc881e3a575);
  (0x8344a227444857e36571bf902c44d569018c2b167a5fec3b6839319a1b544b5, 0x5d6693e6db7a2b15318a525f92a0e791c51c18c72c7a49bf51fb5bfafd0b1fdd);
  (0x4a8a3a43f0feab2cc48a84a73c173e50883ecf044c500792c01296c22b7c05ad, 0x2067eb8769e4a2e5a1835eee958332c9992ad3a77fc18ab5d8e8aebd8526bb13);
  (0x70cf852b44136088561a5f5090079096a2790bd376cb8541d12439de24fa5731, 0x8a237090aa9cdc0de07cf6caaa9a29047bfcf9d0f4634b27b355a92d7f2bb850);
  (0x16a4d6bd65f79af38231025bbeb26a2972e774a56dc1d153de75b85a9c24662a, 0xa9f093c1cf12e82cff4f05797271964bd1f706710564e0bfadd3d9c90954eb9f);
  (0xbf5f694a9c22fabae73805046a14ee6f3ce102e66a0af24d7afcab95a0124c25, 0x4c2310bc5329bda55c8ac70e5bf25b7d976a415452ebd0eeaa17e77981a89063);
  (0x8e5f7f8a2f709e292cb5cc706bd9b767e58d35ee9ea3fced1cec53674e07cf12, 0x9c82d384c206d37bb0a2b118908bf00239a65a458b331fa1bcffbe1b6ed9abb6);
  (0x92eb7524deb2caf5ffc91902d40d12182b14464f3b004d66fcdf095f6c5d14bf, 0x86fed05e845ba39687b97f8a930cc969180ab3606be2fc0720602e69f2b0cf9a);
  (0xc5c820d81cd850c379f593fbec70771314c8c31dc04bd25568d7ab295e74686, 0xc1efcdef3946dbc5bea56e25f9755a4254dc76641231a44ae63f58167358447b);
  (0x14f486d8935bcd0bcb7fd636745c6850f05900c44f3d8d1b75416600f99e41ca3, 0x3841038635f19d177637b8179cd8620212148f2e30b50af9f1e25316d6a62ebf);
  (0x6a893526d79d39a3c9d46eadc27585c97118fb7890df93f46ac169e1db45975a, 0xcf298bc3bbe614630d6b7dab33157e43620e602ee710b9f2a9e65f7dd03b3157);
  (0x566f429edd9c38d3f9cac6a946d4c4032336a38131e2a1e0dc934c060d31c3d, 0xa5256181f2be4fadc4755f20e90a2cd66b0372222598caaaaebd5bd08ededf87);
  (0x94bafdbb8cb93e2cfcf3d8f8896e466ffe42bf81f3739fff500e73db43a544b3, 0x2530266cf663c3db3728b5b1f911da034ae2af21d6bba26e9c700e3737c05dfe);
  (0x6197a504d764701062402787327941bd21581afbed2f5ed567c7296fe4381ff9, 0xc320cdcdc0e064f56dc12c707021268e019969d292189b82aba5bf16c3bddfe7);
  (0xa85749aa00509b11e72b597cf82d150e8ef433cb2c0e216003197c410930716, 0x6fc44e6382ac351459a17864e34e882cdef4d11ef734d7d6e819042e50f65fac);
  (0x5bd7e88fab027d1fc02e8eca39254ee5b0c3f110989e8d1359dcb851ac902461, 0x24b2a2526c5367e6e15eed8629a982884ed43b43b87b37931e199d775eeff011);
  (0x6eb877af4db7b1c7d8fa5d773f5120c6883b2837f1e34fef36524af3e01d5ceb, 0x6c6cc4d1fc742cb69b24899757774753eb663b642ae1d9289d4d2ebce2c609e5);
  (0x80000000000000000000000000000000a2a8918c, 0xa85bafe22016d0b997e4df604eb38e69eaf18b810aed85c9c93b902972b67f74);
  (0x0, 0x8000000000000000000000000000000000000000000000000000);
  (0x0, 0x80000000000000000000000000);
  (0x0, 0x8000000000000);
  (0x0, 0x2000000);
  (0x0, 0x1000);
  (0x0, 0x40);
  (0x0, 0x8)]
  [(0x22c74baa0ff4e298ec452e7e0cda6c8dd63da97bc7abb68188caf61ad951fe87249ad2155c613663f905906d06ea57ae34145decffcc0a683e266719ff502b, 0x1);
  (0xbca6a162edc134b0da5d1d2c6d7164358e3505bf9a357f50a1ba925b615303dd7615ede9347aaa4450b2edef56c28920a1d8e7cc42a6a98b4ce07398776a36, 0x2947f8d9c42a3542307716b77d9ed94a1daf43c31da08520f573686fcc769036);
  (0x2ac6e93e30f00f105abb1e001a620c46279a3a46b8206b82a9f20919d4e07e03da4898e68eca122a9847aebdcb83d44ead0be678acab4b965f7beb5c0788f16, 0x60251070ee71b3f047f89e16be15e65fbcf8bda3a9ff82c7bb0a429708d8ce36);
  (0x78aab8c0f6c67aa379108bea120e04e615fefa09fcd57da8493bfd927585babb, 0xb7217cb50424507fffee4a0a745e3be719569c55582ebc985a954fd0c66546be);
  (0xadc058d1a47ebfa3c906a167f424a6bf32616da1f3f39805ce7708da91334b7dc11e862971da5d2891aa060df0414b2f7f5a0b1bf3560984ccfaa786ee3f10, 0xafc1efc98844180c4aba52456fe31b6fce12ce171ab766c31d955bf4ea5eb62b);
  (0x6ed663a85463cb658ae6a8dcc8c8852e8a6e24a3c38fd1ef775f74c3f9104c3fb8492c67fac915b8e4dfaced1a114997e2ea042514ca1b8fcbcbc0f0a78767, 0x5c451cc046f9bf032febe5499c823083be2bae7757ee0a9894b79af65b5afe05);
  (0x4aca8b5d6e46e0ba3433a0cb8d71f9a3c6c8ced21f34c2c2fd4429c18367c583a96a8257fc54f3e5142fbe050c611f5881e1d3a515a505a7a8d09511aaac0d, 0x49b1fc95566b9042166d4f12ecb61aea4dcdbfc877954e16fccba78bae443f86);
  (0x5f7ce7d0c0b568dc6bda56c2df94a6c5bca3998ab760d61ab971c6e9227aa3aa, 0x3c897e564e6ff6fed36f20f672eeddc770b6363203049b4bfd1b4f4900fbb7ef);
  (0x1b4bb56168a47dd08a215550a64a4592307c3397cbd5bc882ad719ecde0aa4, 0x9c594235dda550a709a86a43d75d6ed3976adc48ee59c11d848fdd1fdc875805)]
  0x587a6f6bed3cf58c9fac0de8d21dee62718ab13d4a4e21f411f012e385afa9f7 (-0x1ce41ed76054d358ec89668275d1963acdbb840827770f60c4aa5fa54de29bd).
Lemma prime_n256 : prime n256.
Proof.
  apply (prime_by n256 256 432420386565659656852420866394968145599 [evidence_prime_n256_0; evidence_prime_n256_1; evidence_prime_n256_2]); [reflexivity|discriminate|reflexivity| |vm_compute; reflexivity|reflexivity| |vm_compute; reflexivity].
  - repeat constructor; cbn; intros H; decompose [or] H; try contradiction; discriminate.
  - intros e [<-|[<-|[<-|[]]]]; [exact prime_174723607534414371449|exact prime_107361793816595537|exact prime_631].
Qed.

(** (-7) ^ ((p - 1) / 3), step by step. *)
Definition cube_steps : list (Z * Z) :=
  [(0x453079ad00c8dbc59e170c2a32c63e4ce3f557593a5eea99c02dbdbbf22d948e, 0x7ae96a2b657c07106e64479eac3434e99cf0497512f58995c1396c28719501ee);
  ((-0x481f4223f450dd72296a3c690ee19bc5970bbb6687ec7028745efa49618907a84), 0x851695d49a83f8ef919bb86153cbcb16630fb68aed0a766a3ec693d68e6afa40);
  (0x913d6bed31c4b5fe180e8d5c3cda42365268890d9ff05eb544afe60fe0990b96, 0xcd6e3c1e14cec02afe40de54596cf176419396ea4ef9bfdf47c0786d37f5123a);
  ((-0x127a823d18358187ac5ab99b451702b5ff0e83341101764b94ebbee5d66f41412), 0xc0d3292adefc3fb6e4c65165d7694ce462c499841b3e25e636ac7073184dc58e);
  ((-0x3b83b98205461d22505c457faeb79e8bfb5a210bfa598df9dba52c8cf727588), 0x67fbcdf30a8d2da5da09d4bf71bfd4ad881d7771fb61e1cf46f09cb3675b5608);
  ((-0x2640b3ca72e1cff0e553d2007a88a6a238b4253c5d82d1533c4564b169cd50f0), 0xba9cff6cc1ecf961a9c6489569a40710dd44c1b461b03fb7773d383dc7f8fb4);
  (0xf7c46d9b3bd959623dced73dfceb24192646f9199f54561d094457fe1d018f02, 0x25671368cfaa7f361a6f332949f179a9fbe195f8b3386259f3028fd49e150e32);
  ((-0x13649c94c1ac986ac2920e774abb9ed390c621b4b8c94b2eb2b4a6724ed26a675), 0xfbd99a55c99f3725937f430a90a8831d58bdf8e92e9763871eef8163116627d4);
  (0x21554a9f638bedaca923d3aa2801fd69c39b0f0ccc387a644f86892f840abba8, 0x6a8687a9be6284b51c6215e698ef76dd57eb11fcdb3ea1fa6221b7545705ff31);
  ((-0x4d37adc5c132fd0ac21a425fc3a51b9c9c03b24cf69c0e467ea19e607b1afc1a3), 0x5c60358476471a3401d3dc7cca53d985c0340ec0d79f85e7a2bdba643d21677d);
  ((-0xdb91174c74c139b0dd00d8c3e526188d607f9a8e3bd9d9f800ade219612da64), 0xd4904547eee03b2b145f5b40c22b38529e4064bf0102e43c077a16d5842f409c);
  ((-0x5bb516b826afa104dc031c7f67b3a0544791a6dca915e634eb42e094f8a7ae18), 0x166702bf6b1c2c4bff1916f1d22c74363d5b27f7947c6bcb0e85e8a777d1a668);
  ((-0x37bc309e70c3716009ae6e2e3a727255fea6fba19c4b36650ceff25969825f7a4), 0x39e9a07baae0bca2b9615dcf26ad006520af049f619e2b9414bc19d0207606c0);
  ((-0x101e76b53fd01cd318c801b13c6e3e23fbfe9a7dadf36b266db5aeb38ce4e2f2), 0xb49738f32422eb870bd9aa016b5fae098f5f6ca04e8ff2c680cde0c031fb0932);
  ((-0x1fa4bccb4ca1039459246202cd97573efb82601939b24a888d06ac300dcc7d1ff), 0x18478e3fd15047d84981ab49e259e6f313d9a5c36610ba96a7ef6b6b1968c0ea);
  ((-0x62b905a4e3b7011490ea69265fddbd4b460a5e9a52760b84fe7a70e42df5e113f), 0x8812caa0eeeb165e60dcdfcf57423b46cbe56b792cd2c144c47597ecea073f91);
  ((-0xeef94e4ee4ea1a993b706bddd19ed7c858945a52ffa0b667e9ad3545bdd7f1), 0xf058f3f52afc7967cf450b32ebf98cf69bb1dbbed4e512036fe9da17ac73b650);
  ((-0x2979811f5d1cc26835553f023f7e6b3e084e0bba68b47161a497de828fca482e), 0x5d7c648362412c4d2aaaa8de13d761a3a2b19c15c6afd1889aa2a37474dd19b);
  ((-0xabff00f20de3b6924c2db9948672952ea63b28643fefbc13f14f762eb589d322), 0x26f22934db07cdc6ec6d0d6104badc04df4f6db2f55c1e1265b513be5ed71ec7);
  ((-0x6769420e154b5a31d5a24eaf16b65d8d29ce7932a67bd69f149608048567e59c8), 0x4f4f77f5a49b33976227f99ee50c168a8ffa90bab7a66ebf4f42dea3e96ed8e9);
  ((-0x37b56e4f02644e3889a262c923b3f41155cc432f6509c2ed6c0aad5989d8f7c66), 0xf5fd0943c77815a1df273012312c2b4597b207cf355a1df364ef61ad882fc6cb);
  ((-0x5db99cb9cbd6a31d07d69a5853d09917c6503013b1e39a1311a78d89d30bd359), 0xb48c45605a4e9e5f88abe87ebbd80bdb5971caf728a13e8965a4918505121a1b);
  ((-0xf9d7e5027b8019ce150230db88ac0cab856f72239a8c6214c92fadca97ddbda), 0x3a8bd485328deea697753831b807d690148699ae5ec17c39f693f4d854531d6a);
  ((-0x2b7a47ea574b6ffef4432d4d4caedacd12d687ba92a3357c81e9988afd7891463), 0x17e5a71c2143e97bb1ca361dc60a193373ea68ee1c69f1261668601bd40c3dde);
  ((-0x67b5d78ab4ecc73731d7d4d5c1e47440c3bbcf7483f36e7923401dd8c0bb18009), 0x9f80508dc9939b9c01da002c689ec3eea544d6857f48b642a2eaec2b5f373a8b);
  ((-0x34d3043fd73ef088a50f63cee297d04e1103b707ed6ddeaecfd123881019bed6e), 0xf6580e9df392a1d43fb276d9946a6237b0b29f5cbf158f6eb738670407bc5d42);
  ((-0x547e7a7b045322c1befc97ca33c53ac289b1d6a41a0b6dfbd553b780da1266e5), 0xafcfcb447093adf72baa8ad13a10010fd32d6b472a33a2782f54cedddd339acc);
  ((-0x3872f0ffc6a7fbd5d3375692be047d6758a030b67a5b6f6b58473344f968ec37c), 0x3796a0484c10a035d566be4649c11fa672affdcea09dd0da7258eb50ba53cf7d);
  ((-0x48935d8c0679c3ac6ea6d685d8e586ac88c33f7a63e7afff6dc6d97d4c2a636ff), 0xb5be5a3ccf4dfe895dfc425e821d6fd698a2a561331aff39f820ff2376a472e1);
  ((-0x6712ccca4d745532a6b75cf8fa8ecdf83c5bbab0d7fb494d5243945c931f2dbb0), 0xce1355708a91a47b67312607d089d77e4fbd9da1103415fdcec5de42b6830434);
  ((-0x1ac78cd7931aafd72a0ac5b9df3714ce354f15352468d7eb46b2e777d75842262), 0xf5961f14490714017b9526a34ea64dd3f92c2b0faee069fc9c54a7e846d41a3e);
  ((-0x3c193961a37f70d713ea81b3737aa6f7a75bb91e04fa3fd5479a9ecb1ca1199), 0x7d2ddf38fbbfce55224d3ef17607726d8868ed2d6bfb2092734d55b1c7c2fe48);
  (0x3300201f13b30296bcd8bb3012ffe1420930b7383b36df5931a9aceab94298c2, 0xbb86cf6abf01a27b7e43f2956475fa5f3fbec7d6e2c9da500f74691bd4a5dcb);
  (0x7704cbb2cb53b0c1a73b9e78d6218fa679e96aa58aec588fc744be18d1b96fa, 0x72436e705fb3d1d81fbc6e2bfc349547f11c8de77ff70f202fc96fc5b0229013);
  ((-0x243f775bc832215fb08a49b580f7b2f56d8994366983283c8b2e80e8bf5fdaf66), 0x2ba366816dad28cbc1684ca76389744bab62163b67cf4e4ae6ecdba59f6c4f4b);
  (0x5966946d4af5fd81492f69ff06a6f5fc68158b1b3956742c18181057701c4c, 0x91a322cf35159167baf1d6949c3f61c23a63f0c0f45aececfcbfba5a9f6366a5);
  ((-0x550074be5b6422c87bf637636a777d4ffcd074207bd1216d6109357ab5de8b74), 0x974879fcfd0e00570a5670931fa8222447ad62ca0c094d263383c170374af45);
  (0x2784e91f14c8274abf6dae0b8f3ff33a762f1f49c883a602ef2d782b79165321, 0x37c1516833fb4260bb8523e2bad207ada5a04401c7fc53b4d36349bfbf538681);
  ((-0x60f4215f6c82e958c7feebe3c2c308edd4cc6cf380b5eb19da16c10fa998e9bb5), 0x649535f4c5bbcb3c0376ce8ac9669fbe5814b036434514ca81e2898a65a22694);
  (0x20bcfdaecc2d98e2ec348b430ca36c1505c845862ae04c7893f17b540945c03b, 0xee2f299392417e9a0f92247fbec3ec703c764d324d7417b0dc30a8c088bae4cf);
  ((-0x2b84a56b451f45f8c198b538deef03f1d3f5362ac2bb39d6e5cc4160ace1648ea), 0x5b8c397e66b3abebc483d0bae0bcd7719ce9d242c22b4586b4aa0c4a1c3b8d5a);
  (0x18d5bbf53d245e955d4ceb2a245a9b40b187c11808e7d22e591c3b1c8c20c31d, 0x9f9352b70ba82a00891c31b355dbf3097f78921a9e0cd6c5601cc9aff61e975e);
  ((-0x6c7a319c3f1cb446584ee4a29f608c4ca11a98465c03db46df37ea51e45e5cb8d), 0x4fbc4341706134466438ea793bdbee1fb9e84f5f9fd86582152ce8f0274b8747);
  (0x59e25b8f7334361dc4b95294fccc498cdc177d4ff8e44622f3975f0570ff87e, 0xfbf1215bbb8bbb19734d30b9700e648b5ec45fcff17662eccd341ec55b3798de);
  ((-0x4f519b969c5d7922d1e59539eafd5cd13c188be863ed3eb4ef5f2ede42336e6d1), 0x25ec440be194df2a093788565a16a1c71d4b12484faaf6ec936ef31d75274b80);
  (0xcdeb59e8724d5a8746d6de422d3505a7c854b5a634727945fb0a064ddbb38a19, 0xd76fb4279bce79fa11fc4f1790b8cd30ff29482807d0d3cd4fc9f725b8abf26d);
  ((-0x5e5e98a5e60ebae06e0e374b65c77b35968918f216553e861ac2045618e2487ee), 0xe599262b7c70b944ed9ab20c6882dfb2d58afee4b894c81dde924a9497eeb642);
  (0x1e54e37fefd2c80e9072b827c5dc4bcabf05ac1365a4040fd7109bbeb2201b, 0xeafd15cc3f73526e7756e677d9953de5f4bab148b81c1cf81890d3481c5198bc);
  ((-0x19f4947bb498edd3ac64c2b8ebe75c0452d7c2eb9be997b201e6548d7b0d86462), 0x581e5cf17c561569372c2370ca0fd4a964b05d7bd9a4454e3b05afa3fec8947);
  (0x1628c747ac71ea44cba991c2db21ed852ed571b8a66a392e69e09fecc1d23103, 0x7b3cef612ea70916c04347450a14f019c1b74876378ef0feb737f35cef3f0537);
  ((-0x20dc524737460ce96e3fc485b5934c1a1fb3aab6ed1d1e84076b10d0dbde0acbf), 0x4b515e93f2250965d4e6c82fb284dbff04be0f4c43d3d29907fcfb0cc20aedf2);
  (0x706fb1ec1f852ee4b5899f87a1255f868e4d9f8ee71496a1574e37c54ea519f4, 0x8aaa6834abf639b7165e3024c5365bbf33efbd9c46e8245065c3d7494f9a78cd);
  ((-0x638a909dec9b30dd602592f96efed3e05b5bed995d806cf0b3cf7aa94b065104), 0xa9a8574546525993139f6a3002d2e52d9dbc3b2dc20a262ea8d4ec3b5a014945);
  (0x20c03c2ef56fbc547440033d05bc1a0560081e7f420c733256a7d9e2da0150e, 0x3c55dffdabbf329ad17d26df314429313dc72a56d8aaaad252a840da6b943c17);
  ((-0x8c4aa1cc33bba4ee53a4c05589864c748ab102d922b93b0474609b999cfb231e), 0x16e430a4647f7cb123f3eaeb896529c4d8133a065b0c17c629cf4fff96ca8d73);
  (0xd78b1fe9b7f9f3c241e905386ae71033cf5edcc0f0dfd3bea8c7caadea51344, 0x47a0ee63fb9af66f8b9f3ff84a9764238e7d33940b0500b99ad28e44ba733d95);
  ((-0x2ac62d91d878bb193f1a17711b9a4439120070b3e544aafbaaf63b5b2c9b3289a), 0x3ab9c079113b590fad79ceb0340c19d6eaf5b9227f7b86bbcbd6fb6b0322a997);
  (0x72fd9aba410811042e6f7e50f3dd0c23052e631f055634c7f10eb01c06554534, 0x9e349b3f9756e5f743c28f475ae4ab547bc70d3efd31ab1dfe87634d66219b05);
  ((-0x1de704ba78faffed8cc1e8124659bb4a09bb4da4a89be301754bb7d342ecc62a), 0xab92eb590ccc3e8facf1e6ac57a7b5895606fe66a32948f0870e369e43393757);
  (0x30d0edfcf7e76fe3833036dea3d84b11072ba0ba5c84e4e2decf77dc7fd29699, 0x2111b9269c1aa5b63d8e7b8c02c4108f2a55dca26d6e0499743a4b9c2cce78ad);
  ((-0x2540cd6e002f5289ac0f666128a7f99f46a37efb65c79fd128fcd5c1afd40dbd6), 0x6fca279d527353216236342e4817f9774eaaac876588a390ca5d402e175a8d8e);
  (0x25202f1cee9d5106084c1f907b2f7205e57214b780dff82cd8ef40cfc1a9b63d, 0x93a49096e3253a64252a1027e800bd38a82df1aaf35ad1c47df295df22be00f6);
  ((-0x36fe59c71421c0c16d626ca4521d66956d907da133a9334ab09c7c2a7e92e1cbe), 0x617d49a0eb45228bca7b5ac60fe390ffc127736a3fb1bfca918acb4aee1a5433);
  (0x5315d3fcb00665496019be5d9e8eb05f8c4a331182da0b5405634b5358a3cfb, 0xb362a348de23ffc64d77479b1260805cbb51f95597b51ce65f6d4dfbe38e20fb);
  ((-0x4e7cdfb487f06d49fa7cd11b304bfb539d7ba502b09c61c12762cc21b5606d93d), 0x2475dfe8662bbdc597e26fe72eb12d1cff5af22b7c5ffc46bccafd91631fa864);
  (0x802f30b7e20a414b6938331d590a4e624fb92b94d8c7ff55f5b936c3a0fd4504, 0xd64e0aa8c27b8c84c57da8fbe7fdee7425109b4444ac220c3d3112821125d1b5);
  ((-0x5118dcbc6f0fb044d34b48635435305b4915660386d9b4c828b1ea0811c33789), 0xb5264e7ccf26841633c49e9c3954ff124231dea5764170b9e6bf7f77e5770e67);
  (0x7dfa138035aca589f1a85b3b4d711779cee9ffddbbafb70ac2911fa164bb9494, 0x3675a1fcaba38b2698fb273f0d814c71f6a5c007874f052b540eb02f5b8a3318);
  ((-0x1558b2784057492edd41ca82e73db0ff0eba79060dcc546d58b5cd80499be1273), 0xb395438df2232a4cfea9207e0b5deca896dade0c7c6c7de9cc20916018d99bae);
  (0x11645883128f91680c2e59c6f7135fed669540abc59dbc7d54a6c9bf534ef92, 0x6fc30fff1424fe271415acad7d51105018e734f51c85dafa7e3c4ff5ac1686db);
  ((-0x4f509fb38ccb70efeb9d97380fbc7f2df0d75fe78e61e56f47e6b748822b15104), 0x10ae7525e08125b448179359d36cacfa31ab4629b205a4b7a8291afca0a1d10d);
  (0x8bc2379ba967cf3351341a1b5e69b4e69ead1742dfef3e6376dcaf028b548ec4, 0xd76e5e13e50a9fcba16b765678228066f6a2f08b829ed92fb6d4efdf3479f505);
  ((-0x1e70b7029ba39b7dad98e8a5af29d2e97acee4ca51f26b65beeeb3bba9eb9594f), 0xbd26bc1a99ef1698ef65b211f340d9b8b66dc9b9764d9d080dd3e1ffbd776d81);
  (0x7e4c5b818d3db1ca01003fc3d2699aac0f9f2eeef9d8f7f8feaa847dc68cfffc, 0x8576180926af70d40b40ebf374be00bdfcc5b6f641dbdd5f126aa2122412e0a0);
  ((-0x3af3583c9306f07c4c265fd83cdc618b5e8b4887e0480298a72bb580334ac34ee), 0xb3cfdf9d6f1009af2fe28bef8792b8d63ce194941e53f28f4c3be4830ca17296);
  (0x39d768da20f8ab12cc466a737286fcf9759ee869c3c558a344ca2f8606a2a47e, 0xb9ba19c690f2f262615f92e773e3838922b108a1a5751d8a380812d2eb2b0ec2);
  ((-0x3fa281d4dd8105764398e48ad4665ba6f7286799f72c042100ba607e97f1d407a), 0x79af8a08970fbcba32e5428844f0614587d0c36ae3ce468c70c7c88c1cf9c9ea);
  (0x50fe465344ce4c51cb23fe5ed88b305ae45c493eadb327b68ba849635a422bf5, 0xc0f70260a40c455d1fc9c28bec01a850f2706f33dad4f964bef6dbeeca8c5a66);
  ((-0x24871d31b2391ff4d6b8fbee1e43d64cded51162dc1b5b6386e850283d085ede3), 0x8ffe77645ed68021e8be05e8106ce1f9140eae6efe6a20e516f1186d25a53fb1);
  (0xb7db638ff4faab92dd2b5e6e54ceb648460ac51917da72ce0045ea99ded3df25, 0x9232caf773ca0db2c6932103cc01a7bdbb671e1fcd219b066b82aaff6c0a9806);
  ((-0x652921dc4b29b32828e63b199a00ca89f28b46b580c8b2676ba41e3e715528dbd), 0xd8f340408adbafe3310a28d088e416d08b50a86966b539d9c1696d4b6989c837);
  (0x2ed92afe0777a632f469852353f07344434e7b07c84acbf2b29e6a441c1b8182, 0xf34c0a357259e0b82e0c6b8a025ac67891a053b58118841229929ddaa6561ea6);
  ((-0xf30099d5bd0d5459c126437a620cbd8be5c99bc8441091a8a24087f0e9621182), 0x6d836924b3580b677d57f30c77ed198ee6474dde43456c2c6d36adfad07b8e62);
  (0xe134dcde89ab8b2a13b9b0371dfb070d24a4f8c8cd2db320ea045de956f581a9, 0x5e4544fc7b5e8e55713f59d9f6f11ed24741409575339965321f41d9239d329a);
  ((-0x13731dbdf5d8411d72abb975b7bfb63adc15fe89b4c1148c65285fabf8ae42ff), 0xf01c2fe0041d21bc29230207166eab5c97f79c1e469268b904e73791fc7c89d1);
  (0x88e1d5d2bec885aa86538e7a521fc52b52c0fde18a935766c94817adaf1cab6c, 0x1aab959908fe593df48c064aa6f65a433d8c3dae25abd7c960994812893f4210);
  ((-0x54771a84ea8b7d4ec850975a9d613531c324fc79fe77d1e8048a32e04b5e08b0a), 0xbb31d4470c0597e2df507418c7be68d9cf1f419c13c5a4fe946c5bc1f029c2d6);
  (0xbf808da874d85fad1ff129dab17d0ef054cc35f634a7af9191348d03d4e41390, 0xde50ccbff35db63b2cdf90b92b1134c32e37aef287a88853711e1a0eacc17220);
  ((-0x12e08bbfe71a80e97240a5fe1e316a64e015baf9209ee3fd152295e6700d7510), 0xdd6a363502027e23c86cc8a187a4298f40c9ad925ba0f617f8ea45457ecca514);
  (0xd44a545bfb6269504649acfbb25087df1b6b4af23a9636aac3048c1b38e3b939, 0x1a4657870bb598dc003cfcd299688a0f02a0ee77e5b0e810630a45c5932d1c12);
  ((-0x8220ea08668682d03addecbe16865d7244ed08be1b7fd71c3bbac52e194d3991), 0xe91f7c6c029c8c3ff8c18a03a90f0863bb9028447a69982273eb64a032eedc43);
  (0x19aa38b35e5db6e7b0f5e6e646ba4363407fadb1148faaeecb87bf5ab99784c2, 0x44fc4447c66cc63014854d37b644d7102787f17bad5de5077958f803acebb4f2);
  ((-0x4f135236a0382f0cd58c4903dd330b02a57131133eadf410c531717a6fbaa4ddd), 0x510e912e17b0caf475dd14352ccf9a7807f06c5f9ef29f72185fe73689ea9774);
  (0x951347b0efc57fa93789f5f64f0ebcdcab6aed479f9d7703fee57c1c57e123a2, 0xd71b0d0c0dde3990b0a84c32d42c4746c355cbbab92cbbb1ac7eaf99a6ff22b3);
  ((-0x3e8a434c3dd42ee14c31f38bfddcbff8faf191f71dd27857f4f302049fe6e4049), 0xc35aafa21dba207b9525a07e0e5dba4933e0727c6eed82f4220d5f634de05267);
  (0xca4874db52ad2dbcc8643e9fe71e70c37a5e86fa80f365fbef29849d5f74b6af, 0xbf4c432e8b0c5f8a1934c151f920ea78c501b917260c2e07a85c89e8d173a790);
  ((-0x8da07474f4306c19dc6b0a728d13af95560d30e56b70002d5e18a56f7cc10afa), 0xe38fde2b9fa66ad98568d2f997893157bdeab1062da02255f85bd5cf4c314747);
  (0x143f7a1fa1c3751d81d9a0c3d086bfe2dab6d832a619b711096961ce8436e059, 0x47f7fc9f5bd585e4c126d22f5e01875da4c716efeaf79d57062df6bdb5a2380d);
  ((-0x2bacb9a355b95916a0a07284d10a8e1164956852b5a246caec8009d58c86f03a), 0x47ff11fdcf143caed127c3999b09dc19489aa95eb7a82653bfe2bc8754208d0a);
  (0x268a8859d4d9bf463d71e63d2d8a81f39afb4aa3609966b8fb4cc86c68f50d9e, 0x27f72f52014e65af3a782e9e45d91e204e4ff360c17186974bb0350a128f3aa2);
  ((-0x6eaf2b3e2bed755b495089bcaef92e69884989967cf799d022a4c6d8b72260c16), 0x6354967fa3b30fe3be188b87c0b3a656d9e7f99041972189a419c638daf7d01a);
  (0x88b22d4a02db75f5f43842a3737a60951e9c45d2da7e408edd3dcca7bb1a618c, 0xfe7de9b5b9cffbc5c94a775d34aa71345abf639031d20240dc8ed4e36f61838c);
  ((-0x2f82b729e2bda9f94c7c973ccddeacf8793a365daccf1cf99c0f9fe825751dc), 0xbb113af4738d4da0f3c85c69bb630251fde397ee6994ba97e2e4f34910157ac8);
  (0xd7785264fe2dd75deba9d9ca1625c060b8aaef69de8691743e5bd35462ae4911, 0xa6bc1ba8118358e32494bf9553eae4410d8573d03ca11c57d88681e58f326e2);
  ((-0x24bdccc62d0caa7e8dc845f2c0e4e782b2c208542e2f9aebf9dbc2cc24d4ab0b3), 0xeadcc2bf48e4b1b7cbb4cea347c1d915d60e0c7509209f43a011ae5e89d20681);
  (0x46d029d0a1c6b87f482d3b8b254444de54f5899e44965c6fb111a87b2f0a8e6a, 0x92a01201a801dfb1a890ab61f1798ad1b72cf881326c56de975fcd16496d5e4e);
  ((-0x6bb09e9970e77109b101f3f0de0103d432eed4a743f838bcc4dd68b44e0e32c77), 0x86a40fed1bb14911c464a2debadce41ba1e9a3c72a16adc176d42bc0df6498b2);
  (0x6c6f43c3704e86348dcef4ec8b65bf841e958e15f81db64f32ae1c51c4773320, 0xfb069f6d6ccede6e0966f1d864b77fc85d3af9cb349d17e9a3f8dc4c123a3471);
  ((-0x7cd9e401f3233d54b3925c2c062c106c12422bc574a714839bb0867bf9ee6c2b), 0xa69c723db1749fbc1d107f701fa6b8709a89b830b37586327584ecbe1d7c6f89);
  (0x25b962c89930377523ab9355599521794bea464b0d61c648eda26c7638f601e9, 0x4392730d1467734449d1f15edf72705857771e6978050584409fe319993b5132);
  ((-0x23f7e88331ed52630d2da3b1895976b4f6ee63e363c9aa1ef5d0b6c0f4cf546c), 0x6245a1c14f6193a49c10369185046a3936aa4119f07c7f45ba3157dc9324c635);
  (0x92a08e19c48e406b04067fa88199d1b0e4c1b68404e781a66faa2ed656c8b403, 0x2444c6b0cfb65b9254978508b22d7aea808e1f0cd4184ad33c960510ba921073);
  ((-0x296e7f3505194d570b5928c003bc26e8486ed70933c5c661beb62205caad7ee11), 0xc1be57ecdb5f5a9cd969fde2d3342d67639b3e67f4f739364871f958c2278690);
  (0x2688abb30a16985236dffb3a72efc877b702c2e6855ac8102c9a4173df6d4485, 0x9bb3f73c785bd5247d81144cb168eab4615ed12a70cd6b3bdb8507af3a8ab3d5);
  ((-0xa02cbbcd95c9c631ea07b8a17ac26514303700c3bbe556828f6affe2ddab2b81), 0x6352303e300ae8ff6c0cf6bfd25d7f676e1756e302d08d21d48dbe933e494db8);
  (0xf3703471f2f4cb46c6508294784df814cc8ab2245f10d127bad172a0182d03, 0x4c8950e501b4ceeeb55f6ca22e60f754d8f6b97227d85baebf8a4c7f82bf2e57);
  ((-0x20f17b4be84b8b0ea881692991e4e91d39abef6f0e94bec01adb232702d262a1a), 0xf9a3e0eb50085891a85923ae6767435020948ab24b0e48f29efbd36773b94ea);
  (0xc1e66a6fd77e83984e16d8c7ca695cc8fe24d4488a7598910619a368929a5589, 0x8ad7066ca6b42b11aee94f5dc3bb0002ed2c18d449db47235b943186421afed2);
  ((-0x2777ad20b8f9daa2782fdc6a512d9d120804d4713c152cf339fc7cc7eecd2bce4), 0xdecbfb54eb487f773378df59ee657aa6e67be1eee45582face5c1c264f1a7a35);
  (0xabbb0a6caa3929b90742ec457e4ee080f3ffc49ddb01e0c6ee73b3f93d5e8851, 0x97f7ad4050e7a53f722cc58eed3318808082527e31d508db03ba7cbafb343731);
  ((-0xb1069852b9c2e946f46baf182e1dd323d1e953808fbc491c1ba75acf7203babd), 0xd1ac7484380d52846c1c9bdd38eb879dfc0a2f2e5e5745deb58728b1b25432bc);
  (0xe20424fc1a0cee01c2fc068459d3bdb1b215aa42303185e55314f98c84c629c6, 0x507631e7693879bc07eb40f350570663b7999cc93f3b963343b6039a9d5b39d7);
  ((-0x3b6e9636fb4ffe56095f9e2e6e4ec86e7d6334ae068d08aa865ce1eaa3f139ad), 0xf08a9660de8c71ac3e8b861675989f0e03719d92059bcaf7319c3edf188f6587);
  (0x2da2847ebb84cec200d17906d9b88b3ab6471537dd633256d154c748ae580d36, 0x2e9ef62b81bc38cc03d2964230e6a9b32663c3e0dba707f862a3766df1ea4c16);
  ((-0x31469c0fff8811c6e6ea91808dd46e6442e830aa680615247e9f703b7b1867ba0), 0x6c15f022e8ee5c9dd7b743454b5480c9feba9e2aa7af072a32d0f58de8db88f0);
  (0x6ead3d1a2f69a8a7abae358766a02529caf9d512b1c0316fce31c0b6b4b8e120, 0xa9cdd1fa9c98b655d4126fbe7cf035e6cdfcf15941d7fc3f56de88e9c2671d64);
  ((-0x18cbde5aa4d3916b3b7c1009935cfc8fdaadd906a294c447610036694c83102d2), 0xa853262afb50b125a7393fb1ad7a03a56edb8246027b87ab9373dd4ed2330652);
  (0xe6a3d01a362b8bf337901cee5838829dd30f486400961681ec6e32cd7e720d, 0x78747cbe5e7cc7d66a04b576afea34a43bbd9e5752ada838c31cab342d1ea756);
  ((-0x5ffaabea02839c22efcc65876ec340aa54bc0715cbd4a3c5cc67156e46fe34969), 0xf2fd448414815dbb472ac0403451d639b0acd168bca894c475435583bcb52eb);
  (0x4acaba61bcf7255331ee4147bc2f290d1bcfdf243e3bd52dfb921f9b0e47a50a, 0xecfbf7d5e6c9099e67635df5e2ba44a51bf186bcb5795ef1e353add7cf36878e);
  ((-0xacc292d06bb3cc06f9ccf0d8eb47bddcda24ee80fb392ee40866d06fbcb60f3f), 0x8a5f27e532ae47ba92571f24ea3f66ce3c1659373e2a4236b7b41e7588c86f0a);
  (0x3726cb0f54cdbcd8f3005ffcf743df296fb6d8e1d18e203d02e8961c615646ab, 0x4f7c824bb2ba55705a730003de494d8e4ea5a67324b793775ec3e404976faebf);
  ((-0xb09f83eea5932765b31e1a237e0f5f9082954702743f8e7935121693914936), 0x76d29134e9e70f096929eefd27fe0323763303a3f6948bd613318df24ef66afa);
  (0x20a5e69958c331f3b6c691f225fdc30526aa40b7b0b1c6a39ae41688c1878e3b, 0x505ec177cb7e3435d6c92ef460adda644056326633a857ece8eb0460d5dea4c);
  ((-0x2a20311db26f8339280e9ca503b7de10e49bff7755cc5d41a76ba893af1e354c0), 0x5b6beb0caee7a991faaabe223ac41dca153d3d468868bacd541d9f375683bd11);
  (0x196ae39b045242f2ba2df4883d6762ef7b2aa43bca045665c467abb227bc50c7, 0x9d0079580081c0b1ab9a8d529d72c9c280d9e777783efe2d4a0c381c277cc7bb);
  ((-0xba0152d2bbb03927a5b9bf9c1a71d5d00ba653052193d83d457574922f040c47), 0x50aa5079a8b648f199efaced5ea29b543f75775abcfaab4808ad252c9bcc6dd2);
  (0x35b6ef595425273dd3c3dd53b5d55eef193acd722228fa6dc0b3add6525a3083, 0x527a2453022eb7ea86682b305bf451793f6a7a1bcf131c3a469d8367490d1a77);
  ((-0x1909e71c661f20cbe38b642e6acef66b1de5e4437634878aa327c379a67975f92), 0x7543ae7261cdf8bec5f90873771684dbc415aeb0e93cd3111d31ddc2e0c8db5e);
  (0xaf8f285ccb5c91834d6760a40635d28fd4fdc2f667d876247af3ab9948f3420b, 0x790acb7fa5e63b7970cd6693e3149a4a9086ac875889b928692388bbbcf834fc);
  ((-0x6eee6f94dd75a515d9e7b8c4e1f6f701fa23da850459639f0b5897ef5706e2d5), 0xd3ff7dcd9b420599deef9e86a3c7feb1685b848c417b83f60e0478ee5d358b7f);
  (0xe5a959b8cb32fa6034735b6fe813589aa3d301958614f2e524a3b796301bbc9, 0x3fb1a6c7d6ed12e9d73dd8454b408718f83af24fdb39e0a0959e32064e17f2a2);
  ((-0x29a2be405780adab3839f5740762fa63ff970fe85371ead92e566423609c3c351), 0x3c9e4c3628df016375802cf60462463cb9038ff7ae0a1b729cea778f27cc1ec3);
  (0x27a238ec38a3784d88e2c77266fcf68abcbc41dd614a91a15356c837fc815835, 0x9c16048b40b239a850170e52d52839fd1c63e3f87682e891e8205bd2d7dd643e);
  ((-0x620863b4013b8102e09765bcbec4acda075ecb75c1f70f3497e9eedca5f1c07c), 0x64ba7c41d2c96484aca80bdebcb0ec364b46bab2be2db13042d7d5038db63db5);
  (0xb9321809fae65bc8a24d448d01eeeb295e12bd48a9a7a3c8b08d92abc63d5ea, 0x3be0641422ed3ecf8d3f4bf31332f2339229a3578db76a68cafd3bc64adf586b);
  ((-0x38e6e45cd094e7baf1dc4d8672938075f8fcfc1767fbb7f77308a4bda4f0c0560), 0x366f4512244c2ca05cd58c8775f487e1b8dc1a6a37e24216f4ef5f1be4471eb1);
  (0x1bb35786c5f36d5f95a9a059c9a57be249e62c5d145faac6a39bac4d6f92fd1, 0xb678a326884c7f34c461d69b7f007c310101e34a1f6ad2d5b704fc3b28edf6e5);
  ((-0x8dbc65fb31e7344cca5227ecefc57e2504292e9107a704ffcd78dda7831ec4f3), 0x150d725f2236157522581af8531ad62845eff3468908c3fefaac71006fde27ae);
  (0x494f2c3bbe5e0de9713116e8a7c019fc5a9d8fa605a2edb5fb90dafabae7b171, 0x47ff15d4a8411aefb02681e5be16a48629444c121210295eaedaf1765836c565);
  ((-0x5aa48b81239cf885aab715164288b9fe131df170bbe3ff8c224d027d4a6395b0a), 0x88fe4af3b1bbd520f721a3eb6824721d95b628f77d5306473b8bf143154e8a3a);
  (0x202be3a1b0e07fca9a04157dfa284e228d58a62411881c13c5f3481671c4827e, 0xe64d489119aa20888626f89285bcd2d1c0f8674d187982c56ffb86d5cd68431e);
  ((-0x3a9b80270398a57f97e11988c4711ea992726c04e2f706ed998a93d1c920b70c), 0x5ac075f5642d86b340f3beadbeac3cd1322eb2d69730ae4f702f7378e969dbf8);
  (0x157b5e6eaa96add7d7eaec83e75310331bd132d1c30306a488504823000bf052, 0x2e4be146ff7bdf61dafcaaaa1c38d257903e64d8dff0779c134e401a95c3f296);
  ((-0x6194dd16e5af060f0d3b6867c38949851b115084dd0247fd48afb413f73c828ea), 0x4a2860f975720c2af1872206e2e7fa838113785f3d325a83b4f92565abf954da);
  (0xd864032b8d934af96ee98ca31cbc25fe94f8bdc110b0c3efe28861af1ae965d, 0xeef4476f4c15903790fcb1f4abc593569a57b598f4c06c6c9905eb6a878a9d7e);
  ((-0xeadead0abe5c16a0741b74b9a0fc4a1d020d3e40fee8fa1ef149cd8c9419a2fd), 0x3ad744cf99b5243aa33ad5f1250caeac84813ba4c06622644934c91ae4b038d7);
  (0x264d9a7d00f95f78fd840689b3429a0e87d9cb96a2f0c183acb38b556b8100d, 0x5cae003bbb39aafee759ad2d94a62b4873e107ea01c3388ff6c0a586c28ae7de);
  ((-0x3bd7bf227640ab5035cc6e544353532514703244a9477dbf51fa19bf9e06a0bd5), 0x18c17ce17b80d28fbb47c5120090780b17d9f86163b598effc2bfe792c2bcedf);
  (0xfc88cb9202af06278e37a2afa4a3e01b7ed1736c7b04736e7330fdec75b5fcf2, 0xbb208bc0b52bc9ffb9d5f71df4c402bd91f3e2c9c38584bd3a8f0bc16c10fb16);
  ((-0x13f5f2295f42cbfb933358f47b112f195bd6361d6dac095cf1b3aa047e67f38cb), 0xfe42e2d1c653818700f6edab10a6ee8e979fbb6796add6ab005cdf70882bd81e);
  (0x69bc02f8ae8d8cbede86dbb97384cb05ac5718921729799d92afc1252490, 0x6c12cf646ff3625e6924ac5188245dd24c638dbfa35551a5ee1b8ef496c06a71);
  ((-0x1e0bf5a345a0f988d233928226b07a1a93c0933a4ad0796831865583e6ac8818), 0xa48609fb7f1fdb9dce451bc13705aeb788892f0ba1aa900f818845d26eeff1);
  (0x3e4e3edd90143782005df7c2bc41e4ed96caf51f4db5dc9ff7b04c0ea387257, 0x21262014395472712078c4d85cccb40762964c62df3d5192660d14b3c0e5ef17);
  ((-0xa5a3dfaff6968adc0a6442f171585b20c8da94d872acc79aa6a6b4c196665), 0x1f92d5828c7dfd8566eb364dbda776896ef0cf6ff85ae4f6322e3418252a7da4);
  (0x613fd3a8fba93d47650543a6a1b2e697424e0e951547b5959e64a5cf24384c5d, 0x13753270978397d3b9cd05fcb75ac960fbb479f85309d97c61f3b24b48eb291);
  ((-0x1026daf7771affb67370643092231e342b846fd31780191a68101768c60800ad6), 0x9dc8bbbacbec93e5ae5ac22f46c89f4fb1b2378d2e9a0717f78a9903fe894d5a);
  (0x9ad02ca8d89fc6f36f0a55d6463ee06de29476ed05b50b75c9c1eb6372af4a83, 0x61377d697b5a6e142bd5d3333861a4c935d9640e326ce52a5bf7b24b92253774);
  ((-0x7faa68f1f01d0450e826b8ff0f6bf49fab7a9bb3ae21d93fab34c9ca3a707b82), 0xc7140c47595594c9a3fb47955f76e9793734a0f5a927857a0c5dff5f842e5b3f);
  (0xbd05a875c20e7d20a5e541969e4f6afd17dbeaf47d813a429e4c73522ca9262, 0x445457c77f307d5b47178e967ab670b34735c83a766ecbfc3f84736168bfb073);
  ((-0x5d1313ae1907540ae56d88e45f33c4ae439ae53aed16e986f6275cb3cead720c9), 0x36fe7ee1f87cab85441e132434f4382b06e42ab68f95daaf76c50366008c84e7);
  (0xbe4450f025cae6491089f5cde3dae5ef746736eb6ccbb89f87bf01dffa8c1c20, 0xe95ee7176128eaf778ebd28e56d7a92695da6128666ed85bc70bfb350d04d720);
  ((-0xb0975692711eb4509adf4fd10d7c0843ff06d91bf4dcb35e2362f3d90dfbadf4), 0xdcb31963dbb61a9fc3c8e6607d7538c6e90ce3ed0e7a6a85382e1dcbe5aa13f0);
  (0x360455b6a913c20d7657be10b254b10a00ccf40f8e484b276e2a71ee844c9f2a, 0x505ce52aeedfffdbba9930518a08982648280b7e6f872c4a98dc9d5af4a474ae);
  ((-0x851523119443dc30cbac3ec534aede6340f5d1b2e0ae1db9d54bf87c8d8c702a), 0x75980c7a5afdd1a62211fbbcf886d3b8f281199417ba46b10aa13437fe6173b6);
  (0x39c3e2969a06bd3987de6e33fa5ad9e446a53b7c7ccc3304f419e6d69812f09f, 0x45c39752cacaf5571b11eb0ccfa6a03aaa65aca95335f2627dda7889a213f1a0);
  ((-0x2ba54fff6b1f928688c250ef1de245c365462a675c2323ec23f2c8f23e212823d), 0x799afeaca608629f6d62728e88ed5a43f4ff8287c0bab43d40000a170016f0b7);
  (0xec5c8cdcef47a09c66a5d558092dc9f06eff154270f6b746f2bad44db4fdcda5, 0x9fcf2bbeb5cb14a3dd96cb92fc998e7a6630fc8f48baebf2c324514c821ab266);
  ((-0x3438c07212f323fdaa1f81a93b822180692540dcc3579eda1ca7ba239a6ca1d68), 0xf5fc1fa3559477d66c910be2c922ebe83d04c46b4728b168bbbda94e29a695b9);
  (0xe8d93fca364abc28b5565699e1205e8ce62af754ea5e325a4f9f682d1b1b9d1f, 0xaece57bd92d07260a3a5c95d35af46c489f96062f85e5f934e6e3db39dbcf253);
  ((-0x16dbcff118639d4441fe2d7ccdfd369a9b3aff6fed12b8a8f9c231ea42d7f9066), 0xf42669fb0ea0c77576f11527c6479d760f86afd81bbe9cc9e9dbd493e4d7703e);
  (0xe309323bae68579eb36a99ddb3a16fdca4ed0d254aa68479b3bf2b1535e84a1, 0x73a71e1dcb6b56cf36972e227768fb5717e38363013db539557db729a02bee1a);
  ((-0xb8edf411731f0fa45e913b3c28d542da04735885580d7f66e8b9cb856515ff96), 0x3c45561a0856748715e854c5b1c91a8d618f99926364660f5165956e21f51873);
  (0x8d2965011b9597ab43b0c48c76004f9c2b9c490a9f4959c43651ab7a1bc1209, 0x523d00842d1607ae2ccdd6c2fdff9c088d3803a78c29b6c621748604b5fe6299);
  ((-0x6f5d7fffb0e350f114afced3ef94efef91385c35cebb99286c22c8d94c324c1), 0x2f864be0ceacea106354b7158bfc61ca9ccb1d33bbd2f29a2682dd9413b9caa8);
  (0x40889401980af32e5067cdd8b4ae0bd02f8308a3157629367859814ffb9adcd, 0xff46059646ff31da8c8366ca0f375c910661c517175802ab5ace59b3f9d7aa1);
  ((-0x255b61bf8440cc99c92e8f4515c4cd029ce48b882548ce7cf45e5358bc964e39e), 0x202212dc5658180e6523c7adade32b9aded1c6a83a1294e952c8be737f253f92);
  (0x257ea4ba8a1a3d07e721b5b4be7b96927e5a24aa430a358f38ad344c993f1ec, 0x93d932c1639786674022f7a1bf6acc67447a7d4881e517ed78156008f14e463c);
  ((-0x6867fa9789694813df8d70ca0d3e99784ad5ca8dafe79864c65ccce8cfa7fc74c), 0x187e402cec626f294b3d95f333fcdca9c8728f1760bfe4fcd1bc6951d92dfff4);
  (0x59fa289976d345994cfd1c44a3fe72ade36cd814473cbb35d31f9379b65a0507, 0xf72b44b8be55bf5652d512eee8f2ff1586c563539743e391d66ee30ed71c0d10);
  ((-0x530621fc66686f9f92d4467294376797ed9b142cd8397c014544cd1d5ab72f759), 0x97c524445894e44499d178e9fae6ac27c0902ca95dee58f88e7f8c0eda4003db);
  (0xd190f6d693e0f7af0faafd3b170c5d15f244da62d70cc49c6562ea68c46ca296, 0xdc69235e1a6da4dff84271dd7ee53e9f87caba951b3d35b9a3ea95acff7a0b5a);
  ((-0xd88e61253f8edaa9e31aa314e1df2aab7083206c6c88128461ea45b37ddf87), 0xe79f5992641fd9a657ab5f1eb108e863a06a71066a13623e345d0832af0cebaa);
  (0x64a336062cc036ab336a8e44715684c04275754d97896f664202565eef19baa, 0x58fe3a91514a7da566949cfccbc00ba63d1ae4447aeb8bd653c8794e8246fb3);
  ((-0x104dbcb8b4a48f31f3edbfeb4b04c3c41f5e77993858a7c1345476eee228306), 0x28209720d1332539e37876445b176c9f67a1500af6e8d3398ba540e6f75e6dd3);
  (0x5107902d8038bfeafa9a34b21786de8d6bc538a89065f8d924a2a7a6481db3e, 0x61ac3ae627b00ff84fb9d46fc432bf792679c1ef4931687e2d22f935c118f1f);
  ((-0x407ac7c26f4c7317f80ba1e537f048b0d2de4569184c1890e907b6da73061f8d8), 0x2401ae38f555e086e610df661f160f4792051c4ab67a5f12e4ad17da226ee3c1);
  (0x1a8a38859e6337596d05fa135df8664eac4abd2bfe84284f7bb2eeadecfe0a28, 0xc23dd6dd868a9cb7f12ea6c1b2bc3d3782f939a595d09ae9a87a46f51b60de11);
  ((-0x8585717e92696b174775c360fc12ba7249b4042345d24c4253efa06be7d16454), 0x526d5407bba91c0775cc15b78b4f5161b0fd150db1a474a43572700a8a1020ed);
  (0x1cf2081ff2956850002bf881fb3c0916e9c87d3b3994e00e700d0f2fdfb6d46f, 0x45e100d7828bf521b8b18491a893083a1de5074165a918cfe3cd4d0b016c0aa3);
  ((-0x5ac03904a17f2168da6dcfd57e63e569ca203e52174e4be026db0344505193b8f), 0x5614dfe2880585fb8811f42d74d8ec345c262c0a97bf4a1d115b51b29484cfc2);
  (0x3cc100f5e1d26ab9a00588bee8292cc5426aa5f3110a6ddb9bd6e0eb841191f2, 0xe6706f31e7874bdef77023ef1c701c058c153656871ff1b6dc5404afc317bd23);
  ((-0x84d1d5784c475efa3e2b98d82bffb717de2bf8dae671e6772355ec9e210f5bd), 0x7cb630d3049cf37fef7a3207c1fc0a20ebf3acedc04ae03cf4c9b3b9d462ead7);
  (0x3275a5a8588b98338b51c51b5bd21c17595649a04b2c33b94bd004f5375, 0x116c7c44bdd9cf7186918bae9f525aeb6f883454869c4c89c471dfadf56d3d6e);
  ((-0x3f9b261db9025f5c25a2c8698c24f9353c9f8b499c4748b77187e191a71401c07), 0x1c69f91373611217d94f99f795940e5d284990b60b92fb60cb87a5559b822d);
  (0x97d02fdcce9aa09835f38311d3b6ce0d96743c1c4107f645cef6363132ce0ce, 0xc0ebd9fc012965790c2bc908b8b62e2b43f49606e5c665007314c63b83a0e3be);
  ((-0xc92661dec4c37fee5f33f689b6a162479a90042d91a801264087653d3b8f4c98), 0x3148f610e2febfa9a867af48804ec66720e663bcff3feda1d75910bfb09839ec);
  (0x60248d798fa0c1b690a705c260defe11d6bb72660afb6734c78afcd7b1f3ae5, 0x55c4e46e4ba9ef4cbdc0df641ba8f4008c1cb96d72a7347d077bbc2e75038c46);
  ((-0x6cdb4c5beebb2b42f3de6849f344fc6cb10a653de58d52f16481e8968fd590feb), 0x273891888b802b3da703c7ce0a994f5422338b8aa2cdb9f02e9f3425b043c409);
  (0x81b35976121fca5d36ad90f27b4765a200c2190191299184c789f4e17d7da39e, 0xfc61cbc58dcfd39be7d2005727d4654198c05e46351e45bd253329b920436902);
  ((-0x688c60432c19f72868bfa69c36a374b402f5c70b3d0b73f8c544b487165490f22), 0xb637c5d83cb379caaad30fc65e5b5b6146b52d46e9ab8d3f15d8d29b624e9ac2);
  (0x36c07516198373f1d48c32740b4a6b7b1ac48d238b3cacc737e2d23ceeac7a2d, 0xf7565633453e10f5a75c2c06562bbc713ed0a87f7e11ef6370ebc35dcf51ba66);
  ((-0x60f126df36d25c993d4ef23083eca52fd1f1679bacda0be6b5e3c47224b3f5aa6), 0x76642075f002707de9038e8531f42ce4bc5a6fcc425ca26be2ca94645921ddf3);
  (0x9784ba02d18d29daf9e143478a54ac15e431d0effb0e1d2ff1f38969b7724738, 0xee2b80effa06988619b0bbf5327da2231de5fc65541da50d3998af071e9596c1);
  ((-0x38e62ebec99c8f9195c014662822f0c4c2ea8e8d019d3b77f4d8e804ccf1cf93), 0xc4f2d362475071f1cdfeda4b67a3277702cdca1b6a4eaaa016744d4da34f88fd);
  (0x464604bd54bdededddca9c30e7a6fb5bc32e52baf1b6c61d8cdf09c989d5f0, 0x2d9ddffc76b64c5052cf2fbee490f6b03a9f49c8d4fce1ce0ff15b7cb7de29f0);
  ((-0x1a9a47f85871c02624b0dc229bfd5264531d55bfb45dfab5bbfa3494171342f80), 0x86207adc11ebe5e9c81feabdf7ae9c7d6d42687952ea876e1f7fd56e3b84390);
  (0x749a8a73b3fa02227c01ad499f731c910efe328674b8eb895d4ddba17552c890, 0x7cc3e49aff964c5c60ffdb61036ae6a25f08b21431514e4785e5a50cfda117d4);
  ((-0xc562cf5a44c89721fc073d26a22982e606ee754cf6e40d56870adbb165dfd8c2), 0xacc5e9439ec70e0ee455ef3a3b3d0a199e075e7595fa1a724dca070f479e3bae);
  (0x8ee5190efc12644dfce9cb8df2e574bd273162b0a22a624eddcd993f8219a9d0, 0x54f67dd2b112cde7b742a0b075d51202697e7791b04badbe9ae003ba25d64974);
  ((-0x40a4f813075a61614c805db240b77085275e1626d59c0c35ce01ae7d7acc5c23a), 0xbf43090ce5dd42cc78a925f1b49f0f2fda42e4188e65db91549d63872562fee6);
  (0x3b1c1d70ea94bb027bad1c12b5201cea9c4618e8ceb8694c87624e635e0c194, 0xc27d582f4c514c562487cd104e8ba38f13f1e22fd14d20986a178c3dc79b8bf8);
  ((-0x14e72ca85b16fd38870ebc38ac10900fb0d9aaf04a264d5de51a719b4168233), 0x1ec0cf742394e6d8d24a97b9020a34778b3e22d913b47f5ac735f2ece31f6086);
  (0x3e9dc98ba85ec15327e7023b1b2d8b83a30ae03c26a508e6cd12ff3828e57c6e, 0x6e985277992760cba4a4781a6f6b06ea654e0042a111667e97891d7b8c6c0c7);
  ((-0x48e48b09a4e2d9d4ea3e47e40f0c8d937aa53acf70df6e0147c9651343010dff), 0x7e9bda122537a5dbb6fcb679b58e545d0db433a9579442034e14da695a529f35);
  (0x32e9f43b2ff7573d02e45b20cf1fb4a6b71aa93067a06b14e65a1884e5b3f6d, 0x33a19d57b770dafd4a25a5f0d2d63cdad14064c181d324117dca54f5e3bb1b9e);
  ((-0x2e63ed89b98822b9be7726582d546511d8e337cd272ad727b0b23acd92848ae5), 0x1c8aa55ff10ca0b48057a740cd98f8cb0b2d8a1822790325333f5c80ea209e2f);
  (0xcad953c2259e8a92e9fc4dc8592026ff9595cf10dc1e7912581f640bd9772ce, 0x2930781b29d36715cbb777c0e4f3dfae64bfb7691815a29fd0facdd5ae589ad2);
  ((-0x63bac327a832f1ab80d951f1a32b10c36811bd44067b310102861b1e284440eef), 0x38f85319338abb596e9c230853b79aa84c0524263933eee989236bc742b4d11a);
  (0xba485c16350e82e841597fefaa20af7e2c249aea11e50fd48bd394b7006c83c8, 0xf191e6899ddea2a7a4415e739764dd169e75d382ba0fe078828dbcedeb78daa1);
  ((-0x258c89252f67fe6df26ef4d0ef07a6087865e9fa219ed4e7f532943e7fd38331e), 0xda606be6d020adfb311487c9001be310e3c7575a7644692e198f7051748f925b);
  (0xe8f327197ed178c4eaa7ebab59c16abcf59986b9b534e26ef20eb9ff3ccbd220, 0x943a57a122c555ef7ec0026f4a51a3436fe0395ef959e0214ca0e6cec1d73ef1);
  ((-0xb07eabcbf75c78fea3e982b153762d9cb2d91cc42626d2e4ee54b1fecf585697), 0xf433fe2f55cf611b52f874351a91c838afe30ae892d6c69c5f6d522e43ada749);
  (0x60abc27c1387539c77d6805fd42a6553408ea628c6844957e6cbaf500f82cfe3, 0x5057481ca4c650f640c86bc173029d3d28b3812a026b15ccd4443801bfb8703c);
  ((-0x1dd025a0f710e85a06431a71f932c3948e921eedf1047deafc9f0ae919737312c), 0x9d506fddbb912c2a0fa1e94cba15358e9f3a9e32f46a387e26ef51ae2295a1ad);
  (0x8196a3e11a5aba48ed77da59d55acac55f0b3c08765ad177e2bd79eca9ed849e, 0x8414448c2f8c9eb4079299710dda0ceb1cedb0fc9ad6ccf464889a639aa478af);
  ((-0xab2bcd78ef504927ea2d3ad7ddb10f9fa785cc584e515b372d83ec909fe49da), 0xb62399f8b6acb094f272ea2dd2b17beaeff1edd692db29fc09c3136f93914547);
  (0x81d24005a89d7dbaaa57d793a87a16da04cfaf07382163e3a1dceaeca3c6346d, 0x13c7adcfaa4326448a6f7af558d45374c988df1e186449b1bf77a153cbd5ba3d);
  ((-0x5e53b15e6da34d00a82a318b20910c2db9616779d7210b3f4ba00f5cee571bb49), 0xb64d795f3dbbe8b860694fc2bbb6f5bd2c1a8c2317ae44167b1dbbc3cdc78dd8);
  (0x3ea44ec65a5e1594ccbbfc86d74aa5d523651ba2d9b0d14140b1dc70ef87d504, 0xeaef82231869d0509f2f3d8d14363a708fe2572a68b04044a11528016824e4d5);
  ((-0x1161d4791f32aa1699f9b78d6e424d54cbbd294e23d3c37baed18e96e7f812bda), 0x7ea271786d5d984deaddcaaeb2e57123b32c7e63909cd867562dccb77de912d7);
  (0x324cd5f6c929b3cb3db3da8b2011640595dd6e9fb9e00bef7f14fdc307ce2325, 0x64da00bda4fadd7a862a1465d293769957a6f1ab2dd848c4a9433b847fa35845);
  ((-0x21e96d16100583deda27a9bf0dca6a42b328b3dc7b076023319102b9134bef1d4), 0x7179e4baa38814288058f142f8de52be1d34a8c703136f6a9b57f09e30d838fc);
  (0x6d2c4ffbdb14d007e38361d8821e8791cad456947d698e390007a2364bba293, 0x8cddb91833dba20fbecb7caf0a27589623964cdf39604afc72bdec62c4c5492c);
  ((-0x549c93529ab670155b21f9ae52f6fa8633a7218d4d4619f46776234d5db629c), 0x29cb5bf5e915860e6c183048dc7a4027409a5424e94423c33f54c047db267dcd);
  (0x299b5720cb8f5235b702321e89fc9a0dbc9a44a2d9722c6327f8d9c219fe346, 0xde8217970e0693da10a6a0ccb19412f3aaf6d4ab0f97ea8be70e606680489c7);
  ((-0x3f71212238668d2f7a41b40949a020172f3f6bccbab9a075ba36f37ebf947308f), 0x19cd242494a6c7a6a9ae8cb5c69c9bef0a8f3d45550ef23758635d6d9c76b951);
  (0xffff3a93160c6a3e06de850b5b6df1f562fe0d1e429188bd5eff080071e37754, 0xc0ac1621d65b051afc8529734a32f4022a41431b87946413ccf2abb0668487d4);
  ((-0x1), 0xffff9d4977fe13fb7196b35fdb0c7e8960aabec6d4cb41b7c63235e6e23e6208);
  (0xfffffffffffffffffffffffffffffffffffffffffffffffff07f4afce91abbe1, 0x3c157af0306dcb7f23e06460ecc5f1);
  ((-0x1), 0xfffffffffffffffffffffffffffffffffffffffffffffffff83fa57df48d5c08);
  (0xfffffffffffffffffffffffffffffffffffffffffffffffffffffffeffff78e1, 0x10d63af1);
  ((-0x1), 0xfffffffffffffffffffffffffffffffffffffffffffffffffffffffeffffba88);
  (0x0, 0x31)].

Definition cube : Z := 55594575648329892869085402983802832744385952214688224221778511981742606582254.
Lemma cube_power : power 256 4294968273 (-7) 38597363079105398474523661669562635951089994888546854679819194669302944890554 cube_steps = Some cube.
Proof. vm_compute. reflexivity. Qed.

(** ** Sums of points with their slopes *)

(** The line of slope [l_slope] through two points, its third point turned upside down, and how often p is left out in each of
    the three equations. *)
Record line := Line { l_slope : Z; l_x : Z; l_y : Z; l_k1 : Z; l_k2 : Z; l_k3 : Z }.

Definition in_field (x : Z) : bool := (0 <=? x) && (x <? p256).
Definition out_of (k : Z) : Z := left_out 256 4294968273 k.
Definition third_ok (p1 : Z * Z) (x2 : Z) (l : line) : bool :=
  in_field (l_slope l) && in_field (l_x l) && in_field (l_y l) &&
  (fst p1 + x2 + l_x l + out_of (l_k2 l) =? Z.square (l_slope l)) &&
  (l_y l + snd p1 =? l_slope l * (fst p1 - l_x l) + out_of (l_k3 l)).
Definition double_ok (p1 : Z * Z) (l : line) : bool :=
  negb (snd p1 + snd p1 =? 0) && negb (snd p1 + snd p1 =? p256) &&
  (l_slope l * (2 * snd p1) =? 3 * Z.square (fst p1) + out_of (l_k1 l)) && third_ok p1 (fst p1) l.
Definition add_ok (p1 p2 : Z * Z) (l : line) : bool :=
  negb (fst p1 =? fst p2) &&
  (l_slope l * (fst p2 - fst p1) =? snd p2 - snd p1 + out_of (l_k1 l)) && third_ok p1 (fst p2) l.

(** A sum of powers of two times the base point, and the power at hand: both with how many times it is. *)
Inductive move := First | Add (l : line) | Double (l : line).
Record climb := Climb { c_sum : option (Z * Z); c_power : Z * Z; c_n : N; c_e : N }.

Definition climb_step (m : move) (c : climb) : option climb :=
  match m, c_sum c with
  | First, None => Some (Climb (Some (c_power c)) (c_power c) (c_n c + c_e c) (c_e c))
  | Add l, Some q => if add_ok q (c_power c) l then Some (Climb (Some (l_x l, l_y l)) (c_power c) (c_n c + c_e c) (c_e c)) else None
  | Double l, _ => if double_ok (c_power c) l then Some (Climb (c_sum c) (l_x l, l_y l) (c_n c) (c_e c + c_e c)) else None
  | _, _ => None
  end.

Fixpoint climb_all (ms : list move) (c : climb) : option climb :=
  match ms with
  | [] => Some c
  | m :: ms => match climb_step m c with Some c => climb_all ms c | None => None end
  end.

Definition base : Z * Z := (55066263022277343669578718895168534326250603453777594175500187360389116729240, 32670510020758816978083085130507043184471273380659243275938904335757337482424).
Definition top : Z * Z := (100056811408208733275829432225571761443897154861420255832015183193056831248263, 55225563209553524050574769423916742683973132338171759239001668957831436739955).

Definition moves : list move :=
  [First;
  Double (Line 0xcb35b28428101a303eb9d1235992ac63f58857c2f631ee6936d3aebbeddcd1b1 0xc6047f9441ed7d6d3045406e95c07cd85c778e4b8cef3ca7abac09b95c709ee5 0x1ae168fea63dc339a3c58419466ceaeef7f632653266d0e1236431a950cfe52a (-0x3b04fbed296cc1277f1659ab9a6f3feba665d74e98725ee2d39e827bc28878b0) 0xa14e3460febe2c2316bfcccc1b764790c3b7d9ff92663ea740240f16b583e774 0x3c8b95972f12b04b3ca25330b2bd449e8e938229d1fd14f76cae42249ce0dc11);
  Add (Line 0x342119815c0f816f31f431a9fe98a6c76d11425ecaeaecf2d0ef6def197c56b0 0xf9308a019258c31049344f85f89d5229b531c845836f99b08601f113bce036f9 0x388f7b0f632de8140fe337e62a37f3566500a99934c2231b6cb9fd7584b8e672 0xf8819baf19538f6abb328694df01e7f3a13331aae64135353dbfa72a8c09fe2 0xa9d76a4234a8ded7af964ec3f6f871ce09d7f68349a3bc2d7d569cb7f027896 0x19f3a99fa69f3c1317490f0bcca28f687ab777d2900ab78f9135c8d654514146);
  Double (Line 0x6ad2cb95963c033328d4857d4f8711deff557dd9faaa673b400442833f0efb64 0xe493dbf1c10d80f3581e4904930b1404cc6c13900ee0758474fa94abe8c4cd13 0x51ed993ea0d455b75642e2098ea51448d967ae33bfbdfe40cfe97bdc47739922 (-0x1b511f0c4acacddb11995426b44becf23d1a165eac933b36c0dae7f6c721d3035) 0x2c933e2a83bac0c704d83956ce68e1a07920f532e04e27ff098c8c712d51733d 0xcc0862604f39a0c08e4ce0b1d06b205a54268b6c11e626473e3a3a21a84dcfc);
  Add (Line 0x51dfec5a5e088f7a36a091e7fa53dd881e0928b1dfdaac75558eca95363a4c75 0x5cbdf0646e5db4eaa398f365f2ea7a0e3d419b7e0330e39ce92bddedcac4f9bc 0x6aebca40ba255960a3178d6d861a54dba813d0b813fde7b5a5082628087264da (-0x6979a96581e1f575089d722b0fa162341b565c9857018499bba084c4caed292) 0x1a2f776ecf27fafb569548607ca49581b39a73c221bfa9ba5fe467993daaba1f (-0x32091adf67a2f540876cb09b4ef9ae6dfc83e5f38cce5ff8a237a76bc728cd7b));
  Double (Line 0x9693023fb325cc6c7bc993eb684358ea623d5feea8ff351df662beabd0efdc6d 0x2f01e5e15cca351daff3843fb70f3c2f0a1bdd05e5af888a67784ef3e10a2a01 0x5c4da8a741539949293d082a132d13b4c2e213d6ba5b7617b5da2cb76cbde904 (-0x203e697a2ff0b71f15bbe8e0b1128a2612545720e641a25d3f0da1b92ba257869) 0x58909b0e3b1d179e26d093a041c3e56b0e5fcd45c4d389144042c9dcfcec275e (-0x6acbca9638108e08374e790d2f8fb746c0f38f81a62038c77abfdadb56826ebc));
  Add (Line 0x44be604bdca00ee48878757c670e79cf87da1dbfa7aacada06e41787e70e77e4 0xd7924d4f7d43ea965a465ae3095ff41131e5946f3c85f79e44adbcf8e27e080e 0x581e2872a86c72a683842ec228cc6defea40af2bd896d3a5c504dc9ff6a26b58 (-0xc47f58eaf64a5a1126bc3258454e0674e5145af377460398624893240112c2a) 0x1275b0bb6209817292d22f26333239d386dd56e3cdbc1b47a2c85402fd50c2cb 0x20fbc07f6f54df4a7af32171b990976fbf2a85abe5bd417a501fc1c6e97c73e6);
  Double (Line 0xbc380350880ab969e653d334691ca8c2da83b2acde59e7439ed92d96a9654a07 0xe60fce93b59e9ec53011aabc21c23e97b2a31369b87a5ae9c44ee89e2a6dec0a 0xf7e3507399e595929db99f34f57937101296891e44d23f0be1f32cce69616821 0x6dd55cce46f1224cd99f821ea3a2f0a9ebe970a9b8ce11ac81430dc918b68adb 0x8a62511fbb16418a37f7a5ead3f099487b15785e66a133e078848957eec143eb 0x8696444c9f994992fb103911d7efc9d6af6d7ba29b92732df8ec73823bb24fdc);
  Add (Line 0xbc85a9a0f382ea6c70477c24c69acf76f2a8c6deee14df45ff531e9bc3d65f7e 0x6a245bf6dc698504c89a20cfded60853152b695336c28063b61c65cbd269e6b4 0xe022cf42c2bd4a708b3f5126f16a24ad8b33ba48d0423b6efd5e6348100d8a82 0xaabbbbc386341fd5c927972f63dd1e4567d7c7fbd079b6565dafba1c80dbbf1 0x8ad496ee174b350afe5fa8648721a33c70549e4f9c9d98a409e35b0a18ed2648 (-0x5095dfddda4d9fc2e9d43727ea8fefdc07d73b4e556373757cf467e6058e962e));
  Double (Line 0xb68c9cb56c4f0fd3279f2dec6acae3ffbacfb8384548d24892d676cd6beacbf5 0xd30199d74fb5a22d47b6e054e2f378cedacffcb89904a61d75d0dbd407143e65 0x95038d9d0ae3d5c3b3d6dec9e98380651f760cc364ed819605b3ff1f24106ab9 (-0x10ab9b201128ebe909e6b37287520fd58164cf175e3decaf3a10f957ce0bfa99e) 0x822c3c0dbc5c7d8c3c32320b58378c5c160825393d62371ce9fa174521d13e00 (-0xd9690ecf0b9571b77cc0887ee3bf9fc63a5c7330cffad04355faeac0e641f21));
  Add (Line 0x7011355b1a5cd94653f22338c8b42bcc49d5351e572f6519fba80e4c8e7f3974 0xe3e6bd1071a1e96aff57859c82d570f0330800661d1c952f9fe2694691d9b9e8 0x59c9e0bba394e76f40c0aa58379a3cb6a5a2283993e90c4167002af4920e37f5 0x2de7d79e6d99ec42c6190676751f3603a9d3afb4f9a59c10f0ff8b4817376a93 0x310f0fd7d84997c8977b998b79e4ae8d3933602bfcd8e5dce7a2c2d91241dca1 0x354d39c436b84bb6d04d1f45a02a774bd9b2aef092303fb3b564d067f86da1a9);
  Double (Line 0x57aaae4151a198790e40eb37fe0dad5ed4d4581b1a82c40124b58ac767ed1ec4 0xbf23c1542d16eab70b1051eaf832823cfc4c6f1dcdbafd81e37918e6f874ef8b 0x5cb3866fc33003737ad928a0ba5392e4c522fc54811e2f784dc37efe66831d9f (-0x1a3b3ccfcc7443b593002caea6e5cc086509c6bce8bc4354465c8e5f864c2e02d) 0x1e05743c4ad91be301d2b36fafdb42772de829193a4a9e64f4882f9890335c35 (-0x6cda36c32abc46e74112f34db81c84c8eede3927bb247626df1e0bdea815270));
  Double (Line 0x875978642d00b859133774fec1878f9e7623f6df9c734f7ed297e920a77b4406 0x34ff3be4033f7a06696c3d09f7d1671cbcf55cd700535655647077456769a24e 0x5d9d11623a236c553f6619d89832098c55df16c3e8f8b6818491067a73cc2f1a (-0x14a1cfa9fea71de68e71e2ba70b5d638c74f6dd5926c1a65b4b1ea2d5127c49b9) 0x478f7c3e95bc1e51fd80a25edfc36ff0eb8d5523f1ee56a882e1aa48e6ddcd40 (-0x49098a07b728aaafaff50d946bf2d2a513aa2fa43789f3e06840d7ea9bc98e5b));
  Add (Line 0x50fcdccc62856f9303befbef7ec958d3ac2860c881a782320d152773b7f9015b 0xe75605d59102a5a2684500d3b991f2e3f3c88b93225547035af25af66e04541f 0xf5c54754a8f71ee540b9b48728473e314f729ac5308b06938360990e2bfad125 (-0x37551b1ba10853ed94dff9e557b3272cd13737db524efaf335554379a688218d) 0x199f03c32e6548f20e1fad2d96658a895dae7fd4c0e69da09286bdd307c5e53c 0x1162b3f9c62e64238188f88d8500f40d0f93cc56d930e707cb5ccfdf49b0c09);
  Double (Line 0xf0d3817330010db820c7710c8ee17a157984f4bfd3bafbd4a49079efd7754990 0x8282263212c609d9ea2a6e3e172de238d8c39cabd5ac1ca10646e23fd5f51508 0x11f8a8098557dfe45e8256e830b60ace62d613ac2f7b17bed31b6eaff6e26caf 0x8f3723c85ff3164db3a07559b4963e07950769fd94b7a173e978889b3444bc4c 0xe28d41769f5865ab14c24658822fc9961aeadb95b0bfe9fe782f4a0efece7b64 0x48eac5c2254e673b8f140471c905697727cf02e9fff1852fad4e9e3e0cd660e7);
  Double (Line 0xed7816fe6ca3e42058b150c9eeac31ef8a6bda7ee9e51a0ec33e09f96afc74bc 0x465370b287a79ff3905a857a9cf918d50adbc968d9e159d0926e2c00ef34a24d 0x35e531b38368c082a4af8bdafdeec2c1588e09b215d37a10a2f8fb20b33887f4 (-0xa6420f67637bb25071e77ce944474fe9df3cfbcfc86659791d17ebcd2533bdc8) 0xdc4792e8a5be0591b11466a7b249cba8f2a33a30c8468e1f561a5045057941bd (-0x37d37953fb0fa4bd1da2e0c78a3d18e7906ea3d2bbf400f5c11966075d72b11f));
  Add (Line 0x3583e67ab361dcc68c5782aa55c7dad17e513d6d9ae164b7efd06069ba474e4b 0x4b4caaaaf5399535d822371d63965216d1b53584d89a84e9d868395a70b3d804 0x3ddd27afcd18049a3b01d0437761e4ea652fbd91115c470ae4c7bd4051ee73d2 (-0x21a87e280fe889f871e6ed0e4903e19baf73d7930fce7ca7fe7dca7fca957bbb) 0xb2fe1647f5ad0b578fd0f3bf929bde0964f1e6ffb0d8d6999369f12f7b17dc7 (-0x209e5524aac2436a292a85fa2eebf9e3479056ab6da3623fd85aa37399bc67ae));
  Double (Line 0x62f219d148d24eff34fe56735390098e29b6a2190daa3dc0fbd1d33b92531a49 0x241febb8e23cbd77d664a18f66ad6240aaec6ecdc813b088d5b901b2e285131f 0x513378d9ff94f8d3d6c420bd13981df8cd50fd0fbd0cb5afabb3e66f2750026d (-0x104bcc3d6c16aaa6e41de7cd3a7f9df365fe8717877572d43f3d2ebbc048b91d) 0x263e40b90e093d69ce9cb94f331276dfca50fdd5d52899f82b416e3f11684268 (-0xd38110e4317d0ec08c09ffd9caebca5fdbc0a7ce9f3c36d91be61730894d5d3));
  Add (Line 0x80f6f16189d573997229ae3f224da81e595e5b5446bf750e5edc22fb556cb74f 0x902469d5a0b2d5d1cf93167288506b950f2d29bf6ca291afc9b39cbffc798ac8 0x356d011d71c769d342378bffcafe4ffcd78addbabe8b0d4fa63de891fc3ade4 (-0x13bc296892ea848a8aec5c7c69d8055a91d2dacdf6598542f1a22e6ff292b09a) 0x40f7df9654e324813eafc148cf084e324c23015bb39346398d6f1fef1e92276a 0x22ae47d05e84dd504325c8b39b521ef20722afde0148a93e8bbbdaa9f351b46e);
  Double (Line 0xda8eabc70379e66ae8e505f49deb2e1b4906022def4c45ec320e33aed7091903 0x5d1bdb4ea172fa79fce4cc2983d8f8d9fc318b85f423de0dedcb63069b920471 0x2843826779379e2e794bb99438a2265679eb1e9996c56e7b70330666f7b83103 0x7b5b31118e706a6f8d21e90c3e5ea4663c618a515ed94cb62815179af21e1ba5 0xba974c11f5f6f104f4a38f0164419677e70a8dc4d1e0c492b7e51bcd3a94d1c6 0x30a64c00ff8a9a57ae5268b8915895ffdc90bcc50a5f4835a3176aa1164c157a);
  Add (Line 0xc788bf213c072a4c8595eae4c3c044ed48958f03a3921899a2ceb075e1a168f3 0x569cb44c9b7900aa576ba0bf61c4455afb09ff4bc30242d7fba993fdbb37425f 0xdfdeb8d2ff1ae3d41e78f646ac7dda3dc1131de80e2566d0d33402720cc350b1 (-0x27c6e970aa8ac4578960f1cec4fb5597a4f919aa08e3eb3c861810f2d9866a8c) 0x9b85e2314d55874322077590965799885d71f57ac720be206920615016cc02bf (-0x2cd73929ac47c7be47ebb25a23ad23e151b516bffffb32f2fedd9c2921aa18ca));
  Double (Line 0x6c49014b33417076abaadc7958f95908e93dd2886468bd7d27d61cef7c1fdfdd 0x175e159f728b865a72f99cc6c6fc846de0b93833fd2222ed73fce5b551e5b739 0xd3506e0d9e3c79eba4ef97a51ff71f5eacb5955add24345c6efa6ffee9fed695 (-0x4387d42d834ce77c2bdfbb0b5c3cac71a4050b08b24c228ca392b55ebcd59c9b) 0x2dcdade930241eb3da0207e1a22e90f4e54b1654ef831673a369c13514d214b2 (-0x1d7ff2dd811340b382fdc822936038d852438a2146b088d8ab34010335a40240));
  Add (Line 0xcc900867a25603b0729e3d771f5cb7f84717f7733e3083284291251d16786d14 0x718736490d700ea17ea26b19efe4b48ba4a73b22bc54066b1202c96cf3315f1f 0xf6cd84474bb374b7753fc614de5cf429515127482042215abd82c11d87ded2fd (-0x32897bbecd46645b8fa630c7c70b0cd3cc0c29dd60583c984f9314bd555757e4) 0xa375de6e9f965abec5901cb2ead6d9bd42cac5c7e7d5c13bc902704f95e93977 0x15820460824c9ba718d5138adc41751ef3ba35fbe45b0913b997b85e875b56b2);
  Double (Line 0xca43b3ab114e7c697fee873576d7b89f909e0592f9e805e00246c31200fb967b 0x423a013f03ff32d7a5ffbcc8e139c62130fdfeb5c6da121bce78049e46bc47d6 0xb91ae00fe1e1d970a1179f7bbaf6b3c7720d8ec3524f009ed1236e6d8b548a34 0x1478493006042606ebaf3a073842ec13860fe45dc5db3cdf4018312111fee64d5 0x9fcee97180f397ef7f1ea6a9af040c9da7112c47f135895f18340817b5f96aff 0x21dcdd8efd150c268bede9c019716bbfa25aa10b288f800c3643785b508ba348);
  Add (Line 0x22a942e7d843734e2d412acf0f24db84ee64be2766bd96cbff3dbaed7215dfbc 0xf7c7545649b465949618dea7fd15a061e7ee0325d955649b76b66f0534a5501 0x2a929b2a68342c181b2f55d6b5435840ac06077d95ad8f3fd3f3ffc24f56a3f (-0x6678760172e4672fed3f5a6d310476206a5b31cfada57eed9d36a7ef4b6719d) 0x4b165aefd09d129c91d5a2e464ecb5774a66f7ed45ab9980f1e252d85cd6306 (-0xd46405b7820baba621a21c52d282fce53d88df329433b0e7487c8fbd5c2eaf4));
  Double (Line 0x1b5d9cdfbd96d7eaf397653b120ed6cb0f4bd05bf004f79c2a9fd0bcdf4929bc 0x111d6a45ac1fb90508907a7abcd6877649df662f3b3e2741302df6f78416824a 0x696911c478eaffbb90d48dbff065952f070008996daca4ca9a111d42108e9d0 (-0xbd2d5b4b69b8eae1df0bfc0ac9ec40498debeffeda634d668b3379e7187a574) 0x2ece1528caf03c02071834190fc18b0cedeea0605e73d1a35c9a08e6510e906 (-0x53ff9677d1ffe6ad3a775007ddeabc1b0ff47b13574906bdb2d6d177386b2f4));
  Double (Line 0x6fedf4339b46436d0db4e1864076fe618c51a754e1c0ed5708b889c5733613e 0x4a4a6dc97ac7c8b8ad795dbebcb9dcff7290b68a5ef74e56ab5edde01bced775 0x529911b016631e72943ef9f739c0f4571de90cdb424742acb2bf8f68a78dd66d (-0x31295687438b3691e3d17d8dafebb1045d575330197ec85036975ce382d6854) 0x30f036f2d126d8f6968324ff42731ef15eeb7688f83513e3844fc2eace0af5 0x18ffa9bcd5a0771eaf92f0fa74c4b5f3dc5c9f27e00cbaf762a52d5d2f19209);
  Add (Line 0xeeb0e0aa33118941462b95174e5be38119b38cc5f5bbd62a7acfbbef0e2f36c 0x66697421b3d71e5251534ce02207ef68f2bb0ce81c4e2eb75fab18ed11531b19 0x935274c3553dd34145c6cb5e7c130e0e3d25fc0d662932187bfcfa0a8215320 0x36d41e40f9624aa305de73a4b4f243b6bc1bf1ba7fd6e9e7b4e93533e2878de 0xde8d5bf226251dd8a5e6088552c102622ebace93f4fbe91081d2da44fe3ccf 0x510c642932d94aacca1ded84731b023418183067240c752286063187a3035b1);
  Double (Line 0xa377ffff0b36d0535197bead9992fee7698334fa5bfc270f64d511cc9ab7c03a 0x363d90d447b00c9c99ceac05b6262ee053441c7e55552ffe526bad8f83ff4640 0x4e273adfc732221953b445397f3363145b9a89008199ecb62003c7f3bee9de9 0x28cf04b1cbfe92d8768178540ee817b905160ac1eee61d1a85c9bf4546c1ad57 0x6862083ec76250ae5213dc10e6d2a32a6ada8d51e30e61ff447fc6a4b31ca726 (-0xccd96b79f4c0b76f998c898d50fda9757e88f96dd1d6b7ecf22cb0bb98ce214));
  Add (Line 0x6ffb0a88dcc454d8631abd935a7e4304af69d103b1900c9d269318103fa881fb 0xd4f2e41ef3253b6fb6af870a9e15ad159ed213abd6457ec21fbb2d8e99e93dc0 0x336b23dfb8f7a230f19119ad45c7ac8733d23a6095a26024224f73ae553d23e4 (-0x15124491e68a6b3ed1ab85770b04a8a2d86b7bda290f8a842a9b3cdefe0ad534) 0x30fba950584224fcabe09ce2dc72500ffbc3316cfa010f6b80cbdf3fe03d4300 0x3059fcdc12763552e133dd9ee6a8f817994bb2fe2ff1d65e6049ceecdaf2ff0f);
  Double (Line 0xbe610814de113647213fff8fc6378b31333e2bac4ac437ff9a702a6734563c9 0x4c1b9866ed9a7e9b553973c6c93b02bf0b62fb012edfb59dd2712a5caf92c541 0xc1f792d320be8a0f7fbcb753ce56e69cc652ead7e43eb1ad72c4f3fdc68fe020 (-0x2205da3da20d2694587a87007f1b0adffc57375f6010372238068eeb7d646242) 0x8d942cc619b325313df8fa55e5c71316b73c92e0c7ebbb2df4d2261a408af0 0x104313706e420e07202194031d638c56d395896464c74366718eaff086645ce);
  Double (Line 0x92ebb512788e5c3c7a3baf1feaf8281104d50976aef98bbac62a97be2d8b7a7b 0xa4083877ba83b12b529a2f3c0780b54e3233edbc1a28f135e0c8f28cbeaaf3d1 0x40e9f612feefbc79b8bf83d69361b3e22001e7576ed1ef90b12b534df0b254b9 0x9ac262009b89c175cbd678a06fd84f5402c686a24698d987284aca6056eff453 0x5451b38f017ed660cdacc050a98f48958c36daae31d09e1aeafad0be1c77641a 0x3275e7b129800aed4a29e992243f38ac08a7ae21b931f0bb29f8348a56722d47);
  Double (Line 0x9b0f855eb9be64f095aa255167f0f0baf01b2cd3cc72ef8f1444747071666278 0xa804c641d28cc0b53a4e3e1a2f56c86f6e0d880a454203b98cd3db5a7940d33a 0x95be83252b2fa6d03dec2842c16047e81af18ca89cf736a943ce95fa6d46967a (-0xecac6acdf617a12c0fc3cab2cf7b069a048c3961fe6344fb5e0e0a7396f6dafd) 0x5debcc719b81e297ece66acf5c5cd90c3479aa2d47d460e8e685a54e458b6bdc 0x26a27b95aaf6d1c9e9dd930d18c059da3dae6bc39e15846556d58318a76ce85);
  Add (Line 0xa2038b4ec91746404935bbbe3e3b18dda1663a9940957e0047ebff3f3433846 0x482dfa1530d86ac12443afd7eefbc59de2c3098734b170c40f418f18e52cb682 0x2e47f98608400ef14257fb6e2505d9417a475f5c35d6e667387e8122a6bd16ea (-0x1c6f4e23664714b1ddfe94ab93c60fed15611bce19ecdb7d4b5253426027fe6) 0x66887c5c4628d2137097e5fac9a20103badc940e67a0f8e842116dbc061cd8 (-0x59168f0328b7e681b553f931d7c468f30e26d8c4767ce08de1b43a7a518caba));
  Double (Line 0xc95c70effee378ee51d4695a7e30804db90a8fdfcca618c180cec3ec5c83b500 0x8b4b5f165df3c2be8c6244b5b745638843e4a781a15bcd1b69f79a55dffdf80c 0x4aad0a6f68d308b4b3fbd7813ab0da04f9e336546162ee56b3eff0c65fd4fd36 (-0x5f417de978a22edfa469e24dea0573f9085dfc70f76d02f457fd2960ed6ec854) 0x9e624aba3c93476a1c1ee0cb1425ac0e200806a56469fa72c409926db514d680 (-0x1697f14e3cfdd54bfc46c4b390e76f70dbf980d8c8d01b56f162416b83c20eb0));
  Double (Line 0xec7e64a924b93bbe0b71cb15729ff63848d6104ae7d55a16ed4a41d45b8fe684 0xed0c5ce4e13291718ce17c7ec83c611071af64ee417c997abb3f26714755e4be 0x221a9fc7bc2345bdbf3dad7f5a7ea68049d93925763ddab163f9fa6ea07bf42f (-0x5968060be05e4550a107807a5d46ff6ef624d4321cad7992e1ba5dbad1798600) 0xda7947ff19ca40ef6caf0b245130593d7386691fe132793106e05a3dca8183e6 0x5a4e2d67463497086e8f4a0565b68eed5403cb63ee254077874028156d100d63);
  Double (Line 0x4a97f998b50e69d9b7f9c654687b8490e7f4a168b22ee05f0491f67c5bcae6b4 0xfaecb013c44ce694b3b15c3f83f1fae8e53254566e0552ced4b6e6c807cec8ab 0xcc09b5e90e9ecb57fc2e02c6ec2fb13d9c32b286b85e2e2e8981dfd9ab155070 (-0x27e9fcb816f540970a38efb8f3bb1794b7b6ec1b1546063d8afd671a732062d4c) 0x15bc3684ae2c578048480c3cbe2205afdeeefc3a383c1028ddb1105441b292e7 0x40b14e41637f2b157c565d83e2950266c9f2b651777595e52fefa5006b9af2d);
  Add (Line 0xa7a5fb69cb9399d9a7eef4586d1cede3a27fe4237bc4c789cebc18dc8ae7533a 0x7ca58d2d3df229f37491f2ce4892b7fec2a71a901a07653eee6b8ed157c81624 0x1f5a6dde15a573c72b7c36bbb665ef2acaf00a47811ac0214bcb056a0b1c9989 0x750e4d2f3a139017d5e5ea2f4dfd4d4dacc540caed52d212b13635806852787c 0x6dc9f9a214e39fea5c54abc5ea43f3e47d989c90da072758b5c35972261b859d 0x225c058d6b0938dd47b98a503f36d4d91adff9b7483b442cd9b2935aa918d489);
  Double (Line 0xc0b764bf04ae63359beb2b4fc6f722f47da0482483379a58ca50aff8c2ea4869 0x9bb8a132dcad2f2c8731a0b37cbcafdb3b2dd824f23cd3e07f64eae9ad1b1f7 0x945bb2b2afeee3b9b6f9dd284f863e850f54a840f4752d5364130627c3811c80 (-0x1aea680db6da70879fdf3fe19077a44c6c265cc2a38ba6a90464722c97c4d0825) 0x91139a7fb7c410527a5580e2a973ed19de91a4c86ceefc4df3c5d842dc61ff7c (-0xb591a58dc639cc68ee6b80d560bc0b59536beb3a30ab739ab716f9c10557be5c));
  Add (Line 0x98ff31f42160e02e4c5f5e906b7eac20ecfda1aa01669cfe5ff47c6067038fd0 0x4398a9fad1ee8619290bc61c46c7448a6331cee78f18f1eb5dce2a3eff397b68 0x4563a4b07ed397427151cfe2b783dbb9367eac10c19b022f0bc5034f292316d4 (-0x44ad7f5cf12c0b900dea97025f4829ff9123aa32b7b618855a6ce102f2db0929) 0x5b7009b675bce6cc51c4963cd2170b2400f4cdd1c433e090518ab141bdf05213 (-0x221885de1e9133b9c414d91240d86b48087d47a0885e67c9fc523dd25fad220d));
  Double (Line 0xb9f84addcab19fb53a62e79564f6075b848477821df6d6c58668d8e9b2501575 0x723cbaa6e5db996d6bf771c00bd548c7b700dbffa6c0e77bcb6115925232fcda 0x96e867b5595cc498a921137488824d6e2660a0653779494801dc069d9eb39f5f 0xd670256d7deb08454ce883be32981339ddc4537d27c02bed4c770daef2e73483 0x8718cd05b2926a4fa5036246d666daad8ca3b5a3c98e7d865de6e8545bd1131f 0x4beab7d1b16e8543048c13b33d73f80d14132747bcca21662f6dbc1acc88d7c2);
  Add (Line 0xb258a69c13b78535dd2a5c8cd0f087303011712aa2fc88d0848491c22616a55b 0xf0f12ace5f4f5d0d4b88df1045f757074d3764090c5a7c9ac105ce8f18fbceba 0x1880ecf07ca8f78bf9f6bc6b5c705d04c8303fcca5aa93b4faad85acd63fe12d 0x207e3a5833630b80d7e85426bcc2649829520af3f94042eaece196d7f69824f5 0x7c3f666403278c248687eba1a62d0b63178dc896ca7d2acff4626a3a79773633 0x78c390d073d7735dd5070c50a574e56a1179cb993b5a6fba8e69419780b97589);
  Double (Line 0xc985b179caa5bee0ef6acefc42c0dec227b196c5dbd0953cc43c5868392e7cd3 0x57efa786437b744d343d7dc45773a3c62d240a43079849071fd383d60ca030d5 0xd712db0bd1b48518893627c928de03ec689b6d2ae5e9974ab07ab44274b02f9e 0x54a823a57da8af30a8be0434766ae1afc6d78eb92734cc2507b3e0f6efc1a7b2 0x9ea3368323ce7a1ff0b9f641ce3c90557704df763321e14b45e35824eaae12a0 (-0x14b4404b5ceb4c2c32ff2f4c679f8ac58aee29f289033d697669b1c2566e3a7e));
  Add (Line 0x836b71d131f92363ea5cfcc30f050c5c434f968843ba2b5f078543475de154ad 0x7e48dd5bf2787db7ae5d356f06e8d668693ba9f9cc2983164a44e45e6b05944f 0x5cdb10f7cc694bcd818983d6c183cc93757208c7350440197e46b3b7f9a9849b (-0x4e8bfdd6786e45944105555edd0e2dca9e0fbecd68f8604edc7e0dfdc4c8566e) 0x43772394709f198c6b2c6477cc609d5aa3f5760b0fd20eeea56607c0573b9de5 (-0x3adc3ef3e87dfaedd9fc3aae8af103e8eb7e6448cd8d1de8b9d1b0424755c329));
  Double (Line 0xa6d04e5b19577537db75701165cc1aa476cbdc92cb167d90af93b785d698742e 0x264bbd436a28bc42a2df7e9cd5226cb91080577e327b012a7fafc7770c584dd5 0xd87c6fa94ee093b4d4f75ce24c33be226a118243717b8d8de61227937704ab11 0xbdac29b962115ea33a0a115ae783fc7dee05691e6ab124bf8c407a598878b073 0x6cb2cf1d90e23dff3d7e7e640c92991e4765d6b76b6f46cec27537b1a8c3894b (-0x2058ae474acad1d6ba1a83b0a8025efa6cdf880696de36bf4a6899e681506c7f));
  Add (Line 0x71b1750036b294375cb7b87e279b8e703d5c9c2fba24c9364d473c3fe87d5ba2 0xda09c6be91877b10ee2ab0c0ae32ff46a1af0aa18fc0733edc2b897e1bcf05c2 0x1c7ab8e746e0aa43bc462177b8dc06cc4e385bee47b223a6feefc54700e9bb9 (-0x2713b964c7996f8cbb07b9194a6e5c09ad69a5802ee710da6032ecca50732076) 0x327e244d300e7bc91b92d4c639f7e98d6b8f9ce70862e8618518ab636753a1c2 0x28bfc15523aa5c5fdc62b1922f696fc083bc09a23c484c1d2081913a93e98d06);
  Double (Line 0x4479d94c2f98166b4c1d24655334f9bab459cb5a6c074f1e9bb5b9ea97b6a18b 0xa94c6524bd40d2bbdac85c056236a79da78bc61fd5bdec9d2bf26bd84b2438e8 0xb5201fd992f96280fd79219505019e3a7e5d3c60a0e39b2bc2e2c8dbf18661f4 0x62a078adf0cf64e9f1a14ec0ae8d3742c3de95d9c8838d3019f9614bae96e625 0x1250f56f9bc0090a5305d836dc51e3fe9f40680ec79afbed8fa63c9e881374c9 0x230a8719be6d755deb0a1a8aa993f98da9304d2c9426822f51ae76bf78c5ee8a);
  Add (Line 0x4fde99e1f6bb6eb1100c1f1d238f4b7efa93bfa73415d82cdc1d165aea7dec1e 0xca5a16925decc995bc66a2df07dde11b35c3e0e3fa9b4308c56c33d845346fd8 0xa0fd2ab12035f3f1673d14247a257d4e3375eaa48e58d6bd675a36425e17788a (-0xf34d2a550a9467d3abfa19e9868fdc74f2dba45c2e145d3159ab8fe4a7e17e9) 0x18eb2488b6af7bc4f0944a9dd65d049c2a6d3303e4036f63d2c06dab1272009e (-0x4e4db2643140e043d4124c0d75c296b8d115762eceed24eab4a1e67dd2a5627));
  Double (Line 0xbe5aafdeb2f0b1599d1b413e816d0ae93363953c3d97e4fd3afed1c367f9596d 0xeebfa4d493bebf98ba5feec812c2d3b50947961237a919839a533eca0e7dd7fa 0x5d9a8ca3970ef0f269ee7edaf178089d9ae4cdc3a711f712ddfd4fdae1de8999 (-0x4285da49bf5468a41d4b91f6e39dc72abb96589a72fec0cc2e28fdef6d45d488) 0x8d8abd2eb30552dda136a12807e6feacf10e413ea6b6b639125ca53d523ca891 0x33a4237f1808ba9e406cedb0a59c1ac31d3b27a8e9e005c420d5745315312a79);
  Double (Line 0xa6a6f72a0273aa6f7b6276e647117f1c0e9f5561a551c6238ec167ba7ac03635 0x381c4ad7a7a97bfda61c6031c118495fc4ea4bc08f6766d676bee90847d297fd 0x936af53b238eeee48f3e5fa709915eccf0451032db939c0093ace3187d493fc5 (-0x2221c2a4666307762f95d1f4688e7ab60f2529db6fe40017c62077045982a178e) 0x6c7cf56ff44b46a99d74c57da41ce0f9bd2448b3a952547fd63066ed6ef96778 (-0x76e50a9bef7676950e7d97600e37b41148cb63027b6939b7b770f18e36e8cc6d));
  Add (Line 0x877e38a634d2aa49c97a307cfad4a02a034fbd07a35cdad1009402c9a87f0d14 0xda4e95adf16f0e8fd141d21013af123e7e1b5c6c5808add2c2e0e8826a871af0 0x80fdd306f511388702489984a788e2e1a8e29aa6b9dd2d85c0baf2e94ae135c5 (-0x4d66b13632d30b56896a4d8fc5daddf92b28085f2082557ecb40dd3513359959) 0x47b65dfb1bdb51fe29bc95cc176eff116c4418931a5e44c7a6fad6b29a00cc25 0x871cce5f1ff8ba2cde9e3855f022aa61b9f298d359e62feb397605092e43801);
  Double (Line 0x8dee3efccec9fbd528bcbdfc380d106f09ab41277d36c65ed6c4dc4784ea857a 0xe1efb9cd05adc63bcce10831d9538c479cf1d05fefdd08b2448d70422ede454c 0xecb4530d8af9be7b0154c1ffe477123464e3244a7a2d4c6ad9fd233a8913797 0x7e9109f1ab6d237b52c6233d46453e5890e4548af0e459f783e8cbe2a48509a7 0x4eb04f1ba95a6ccaa9e464453058399cba2c109870eb3bdaa97b0c93f41dd782 0x5e27807737148c8a1d60e704012cf7d449c4f154acda8f41f0893af414939b9e);
  Double (Line 0xdb3e8ec5d990ec59421e6569d96dcdaecb7f725432c5a4ddb78439afbfe5554f 0x5318f9b1a2697010c5ac235e9af475a8c7e5419f33d47b18d33feeb329eb99a4 0xf44ccfeb4beda4195772d93aebb405e8a41f2b40d1e3ec652c726eeefe91f92d (-0x23cdecbed11cca3538ea823a592de789c524bf2ab7af7d8e95a246c2d91901be2) 0xbbc4178ff9b36cd88a81d1afc5474c5dc2e536b9e0f0acc77f9b2426666e05eb (-0x7a549e0377c36bea062b4b76d3a56084838cb9c1278f396e189f824c9006482c));
  Double (Line 0xf18fad968cb987adc7d7c35fc6ad8974a3fcf82a55e9400e7bf3015e6b558a5 0x100f44da696e71672791d0a09b7bde459f1215a29b3c03bfefd7835b39a48db0 0xcdd9e13192a00b772ec8f3300c090666b7ff4a18ff5195ac0fbd5cd62bc65a09 (-0x341aef8155267225b84f83c1129eb67f111f4de69d22cf122d1c900099807232) 0xe3efd578d8db5b76be90d381dba2abb6f39f69ef7b3c3e43d78758f5ad0f6f (-0x3f41c31f9c9c69fff2b320dbd3594391fd551f32bad14b8b9969d4a7703a652));
  Add (Line 0x5c7a48e9ef41c39ed40b29a55b6b0efe124899ec05943af81c571116bb6122d1 0x89ee6780908a61da9abd77fa145ad00625b4342c52f261913f9af751ca92214a 0x2d508b857e20d30a3ba985245b2ac064ab91b64632d9d454a06a2d8a5eb76590 (-0x490f5cd3291028a12df6f6b66271200d947f86a5869b309e7ca5d8193dccadbc) 0x21681ed1b7b3bba2ff256b1e4b1ec63ede23f1cee640c64d75cb7a0a5e3fd5f9 (-0x1d08f552d017968c26bf034694ea89ccca4917ca46ff7e7bdcb3f05eb4fa609f));
  Double (Line 0x82cd82212ae9dbf4101c8671a40de941c0bc39b23359c41063b171fe4cbf7c6a 0x8c0989f2ceb5c771a8415dff2b4c4199d8d9c8f9237d08084b05284f1e4df706 0xfb4dbd044f432034ffd2172cb9dc966c60de6bf5156511aa736ac5a35d72fa98 0xcf560c624e549b7b75c9dfe917c089bb70899eeb05ce5c35ff039911533569cc 0x42d55d235ad9f1cfc01eed52110f1f6251a63fe8d72fce0a0c99268ca0d158e2 0x3f589d84df18f008b2eaafceab870480909ef201d86300eac81c1653b4f4d953);
  Add (Line 0x5ddde52ed34c9582efe35e13406ebd914227c5ac82c4065a74da71ed34ca0038 0x3ddd848b25422c73740fd47b688a494b4adf1bab39efc081e48b6a1739de3561 0xea310090f682c51e0f4b542e8334be2100901fd19842fe63f578f83368863c80 0xc5aed2e5a2d02fd2f15f77a5df79e929e849b01ef1cbf4bd95bb240e1b9768 0x226af8d9858b4572e7c6b2845a92df6ae4ac353dd6438420fa60e43fa6ebeba1 (-0x1be411201aadd64dd6141ec31afc266de0f29e5864c170fd98529d7727795398));
  Double (Line 0xc5ab93dae7b4d1d3c5edfe8bc49fa6ba5566b166494b830b6cf082231fe99f39 0xfb8f153c5e266704c4a481743262c0259c528539bc95bc1bb1e63c33dc47bffd 0x6ca27a9dc5e0621816fa11d9b4bccd531dde1389ac542613090a45ddd949b095 0x9e47335685a3f69de417a2be480ca26797fc0cf14ae2c708daf4104a53f423fc 0x98a1848dc472f7c95a311a1583fdbe2a681eaf83c027acce20c6a2fd8b6aabd8 0x561c82ccb1289b0635cf65b3e76959cd0f84037300f8739a0e392c864ce97894);
  Double (Line 0xde12036f73e80356f7db91954e2ca46c56dcab93ec4efda7fa9e72b8b3a2b20a 0xe747333fd75d51755a0cc9f0a728708465a02c587737a7b8b8fa1b8b4bb2629a 0xf2affe0145070c114cc43603804c2581c88376aa6e1a969a9f8d961a6946f6d6 (-0x2291c946a0bf46f28fd1deb7521dcf764a2a4477da8a6e9c92db5a80b433cc639) 0xc0a33f39c8be7fa875dcdfdfb2c1d4e07c369ca29f61911a3e83c7ec9d02d330 (-0x1197c34c8ca378d5a7cb32a416af77900517029730af857795a7bc9553b386fd));
  Double (Line 0xeaaf7c28dae8dfa52783d0b7ef5ebc91aa999f58db631588e00a05856dbef4cd 0xe1031be262c7ed1b1dc9227a4a04c017a77f8d4464f3b3852c8acde6e534fd2d 0x9d7061928940405e6bb6a4176597535af292dd419e1ced79a44f18f29456a00d (-0xb5de42807ef7faeac174cacd6b51f3c6388e61583093b9e142b6e7ac72c56bd0) 0xd7254745ac449dd26ca852670e7b2165dc0442973b7deb7f559e4b0a505818b8 (-0x5be88f160c3da00c5e65cc0efa23d8963f62f994e28b4abf41c99126f8c597a));
  Add (Line 0x4ea288a359e31f05f47a6baacc1263b164218b99486a25fa925b8fe6aa646d32 0xe6501ad77e45f83510e1b4658d9b9d53978f703e4481654506eebc503e35060d 0xa8a991a078449edaf398f625f86d495d18be8d6c1ec8e8258f0df560403e7a4e 0x321d08fa6c92344a19ef0574e0847dcfb7987889bfd8771871902a28ce474ca5 0x18277274c2722217cc438ef5eb1f31aa7dfe759e2f5481782789d1efb9a32627 0x33bddc36bb6306a83be9f9cd3d6a4f67b8f959c1af3c0d97d10b276e09a45a7a);
  Double (Line 0x27923dd35874b9d0c3e1b1930352c0c3b0d91412f38fa8c1341f5a73beb4f8b9 0xf4b93f224c8089eab9f95dcd0f29b2c9028a6ac5de94d85784e27e36a95c8356 0xa67a92ec062962dfb0e5f6a7a40eee90c37ef1344915609abd5861b9be001fd3 (-0x220a74733606e362e6d838e91131cb2614a5f6f517fb18d013d79efc2a7d9a2df) 0x61de260f8f2dc641d5671fe3e19dd05802b6d4d77e5d2dddeeb5c649563d2cf 0x30c020183634c80539172de50a073a35681439960889802ee4be6e4a2f2b74f);
  Add (Line 0x270b0702b445bab097ebd1527c13a199e7c524a2edf0252574b3ee37cca7f883 0xc9ffb9779f92267fcd2e475c431cb2b53d5ad3945a4b281c7ae9851494b84fa8 0x465848cdde6e312541e1429e8b489ad9a9ec74ca12aac79e714fe41cefbb452b 0x232a370fb97f74ddc6156144698547b15c03e66164859c6bdc349eadbb5bb0a 0x5f45c9c6d59e2c2f9b59ca2e501070e8a8322e52541db9181da82bc4ebf5062 (-0x45177104946934ade7b6498f2e9fc6ee372acecd3ab970e2a80d00edb9fb9aa));
  Double (Line 0xd8880a7ae61955a53b91ef1d5de7f4b9646afd475edbbc8974911329e12fbdcd 0x9d1aca1fce55236b19622ea025b08b0d51e8512f97e696c20d62fe17b160e8a 0x1153188f5101f0c63e56692ce0d8c27e6fe9e0ee9212b5e534e050c57ca04c44 (-0x1a4352b65422c6d32a060e95804f8ce58a213f8eb6200b203b728dd1bac4469a2) 0xb725d9fa874d106bedbda11a8968671eb7e0704be7ba270241a962b6cb63427d (-0xc6b0383fe88d628a967a4b3374ddf9c6a4ce776f9360cd6de8b8f97f19c9a2cb));
  Add (Line 0x36325e6c4f4d0d91b9f920d0b5f6809bac3657b4e40dbf36522652c4d20dae6d 0x7ac5690e16f63b30eb0d34a6c61a333571387e78718c71befb92a452847222ad 0x6b0c2b6601d34fc8e79f3f21b3f9b0c5b7e43a61f985264a0b90e571c20970fa (-0x28af8695c9b624647ec390d65bb0e4c8803f5b657cb89a9321382a6dd8c8c651) 0xb7949beb69733e25eecdc41d7c1ca3c8667047ce69373da21b8d6203381ca96 (-0x10c5e392e61916534bdabaed408693f37ec8deb0665f962733650f9874d57066));
  Double (Line 0x8676b3eae525414b100a173e847e521f75a5c46ae628b3858b1c1fbcbc59daf7 0xc66c59cc454c2b9e18a2ad793821cde7518b3a93bfc39562e97d7d0475ba7fc2 0xd9592fe2bfb30fcfbea4f3ceaac10cb2f00a60ddb15955977ec3c69cf75f5956 0x1111d10e821e5a493e5805935a47a2af94da445396b2fbe4b738f49f9018edb4 0x46a07b6442e092ac94835b868a5632a799c50b21501075739b6b332df56e0475 0x63106a7d28abddd6da9a1efa65c57dd78d6be6b1defea936bbe46a3ee2b464fe);
  Double (Line 0xf53ade417a0d913b3b9e411781e6e8de0ff1a6b169ca912fe5495f51c90530d8 0xfeea6cae46d55b530ac2839f143bd7ec5cf8b266a41d6af52d5e688d9094696d 0xe57c6b6c97dce1bab06e4e12bf3ecd5c981c8957cc41442d3155debf18090088 (-0x2cfaaed409e0aa6b343ab3719d3271b797debde12efa2a4d581de574a278bbd4) 0xeae9baf2ca3ee68febeb56ebc3c7b4f1d50b6434542093974b6ef659254cd8e1 0x361da5ae59fe7fe77b0926417cdb13048a8813258c1e0f999cb3919e9f7828ba);
  Add (Line 0xdc17b665198d45013ba0de08c1630eae9e1546240ad46a1b6df971c8ec68ad 0xe43b4a0132ee8cdec67447e4654d97dc9919fe12708914e3404ad533fe253a67 0xc4cbb429f14f0daec7d90d395a055f87ee8d84d88c4ce7b10796c00ac4229319 0x719c0c977ce6e640fafe834d0cd38457bd42eae1903c9ab4ae2c0a11075c6e 0xbd38c3b00c094e3e8ed84db80e336ba2bc5f36ab0e2ebe63171a4db78618 0x5aab120b95d6349f3d7e9d96fbad322d47aa3dd562b10390a6b553c306354b);
  Double (Line 0x32f78aa8da44cbc85c1d785fb24f0e7f0da8ec5386523d436bb3a50d1e52fb8c 0x4d000b621adb87e1c53261af9db2e179141ecae0b331a1870aa4040aee752b08 0x6a0d5b8f18e0d255cb6d825582d972cccb7df5f119c7293a3e72851f48302cea (-0x29e21aa577e947ff1d8d971661e2bd7a327de2391f4b7c74d8ccd45b7389e2d75) 0xa25a186d2328b0ce0b5fbba78509fa09884c4ae0fddbac11b1aa91b1691e2b2 (-0x236bd082730989c579c4a37fb62f2f63af147f2e4461ec910dc75e9264298f56));
  Double (Line 0x2c5edb78f874848d89ceb49fa59a1ff38ba3a6605f567ca67bb74a6e78c097d7 0x71f570ca203da05dd6aa262114717128d657a0403e1f1b77f89962fd475c58ef 0xeb42415b95dc880dd25557345bc95b8df2445d00c3363e7df8649a72d35d420e (-0x20b7e56b8b52477c8ed413dce38272d418486b06ace054219d3b6e662580768c) 0x7b0be977e66b5633878a63700e4b8d365b2a30e773cf37429f64aa0e34cb30e 0x667df3881c4e829712dbce3f84444604b9cafb317016b42f06919a510cfc757);
  Double (Line 0xdebcd686b581f6645f94a93467d0ecdf9e4ad7edeedcfeed57d9d6364c78d427 0xa2b7b3629f7bd253b7d282b5c21da01446b4821dc65e76516048b06043ff8359 0x693038941695122d57a937a3f71e29c910d10835046f3835a2397fecfe86fec2 0x10132324aa38de45cbe6b9c79593a1e65702ca96f433c7554d533a3090f641def 0xc1cc0f5d6c6d7c8fc5e1011431013040e05ac70f323f7c05374f90bab2337266 0x2a6c6d453241d117ad08179952492e90264f7d9473e67c781f7be0cdf2b1c4ea);
  Double (Line 0x81751b61f3b4ad7169d8ac62378adc14043339e3a60078fa2bf394c804c26e20 0xda67a91d91049cdcb367be4be6ffca3cfeed657d808583de33fa978bc1ec6cb1 0x9bacaa35481642bc41f463f7ec9780e5dec7adc508f740a17e9ea8e27a68be1d (-0xcbe432f6b2c45b68fa24adafb3022c0c99f595d65db68931d41b776847576b1d) 0x41773b2ac212a8d589d8fad82440bc210dc692de71f45c5818e6b1e5dc2750f3 0x1c2924335fc07896590a25980bc056369203e56969626f062d6635cc3910a351);
  Double (Line 0xea6ec05c50822815af2653e43c1adabb3be24e602591c72373d731cc1a44a051 0x4dbacd365fa1ef587c0c0cfaaf00d8718bbd9f35ccea5a835ee3cc821fe741c9 0x16c3540e8a51892e7fdcfd59e838299d0cc384a09fc0535f60be10f8338eb623 (-0x111dfc880ae94af33e82c7217a6fa69125215107a19a2aed7006f49a271b0d487) 0xd6aea792a30dbb2f49d387d7012c0513c57b94ce194c58854db63d45feda9d6a (-0x80d2dcfc2fc561a802a26c9c240641b035bf2336438bb709d86f03cff162c158));
  Add (Line 0x5b0f6146bdec5b82b2d88f3b54c1540bb1ecd11c4c444c3021a7a48c261313c8 0xbd0622e5f000010af29e4b1004f951036e623827f5deebdf5a937fd05b2dd965 0xd997755cfb4a923df1441ad2ba157128a3703bc69eca9307865e80cb7a0253dd (-0x3588b713af11676311aed8623d2754eb5675389b6e390e05b5662136c7840ea6) 0x2063f014d646fa3b2bf8db8eb7f25bbacc894915aa03e6c342da0b945ccc6245 (-0xdf23fe9f4d42e6244c0775a1e20686fbb39d931d3307cc61efe3016eefc7886));
  Double (Line 0xe60635d4ed2d254e05003b55d58bd309cce50b703f8dbf6d4700a65d85559a25 0x13d1ffc481509beee68f17d8ff41c2590f4c85f15268605087eda8bab4e218da 0x6008391fa991961dcecb9337b1b758bda4ad01206d5bd127e0db419ddb191c19 (-0x1de5a17fd7679964f07f1944ed01d28b68944e555c146d2592809e0fde5599bb) 0xceaf28e12b7a187450995cf3fcd0e783fc8eb49eb8accd328b04975b09a395a3 (-0x340890367b61b8ba95fcba53deffc80b83227fc04a4b632558df4810f42317e1));
  Double (Line 0x7471bc58c865f770a22bcb1e2465507731b3ad17d19c55c851a736531fefafae 0x219b4f9cef6c60007659c79c45b0533b3cc9d916ce29dbff133b40caa2e96db8 0x24d9c605d959efeaf5a44180c0372a6e394f8ac53e90576527df01a78d3b6bc7 0x52c23fa572c43b1c14356c9b4abed3b19310be38c0e4535b4a62ad4de4ec89f0 0x34f74538468fd762aacde1999d76caf70fc377458fba5b941d568c22034084a8 0x645582eef0e567ca1b23f150258a06773eedd9ba6437d82b180bd819976ce7c);
  Add (Line 0x3a288a61e23e547d65e5d956a5462588955b4da662dc97cc4cf2b2c0aceb1719 0x3a7f5a222f30987c98c2cd3b0f5425d8eda26877f8d4a2761155830eb5a7b187 0x14d5d92e93dd5081ca0e9c93410e895ea6a5abc2cb563acffd6968dc3d0c14ce (-0x234ed092904318372314e311b8445731b9452b107813eca49b7107d8a111b761) 0xd36651fe3e89f1ba7a1538ca50144244169ed6ef8a3f5bf38793a0cb3ab90c3 (-0x1da7351a48eb7b2a0cd18d27b836e44e52399585dd2d34fed181d0e1156b526d));
  Double (Line 0xc84b8bb00e0f4407e49fe1be00895dca6d817c8ce64cfebb5d67625411bde644 0x53904faa0b334cdda6e000935ef22151ec08d0f7bb11069f57545ccc1a37b7c0 0x5bc087d0bc80106d88c9eccac20d3c1c13999981e14434699dcb096b022771c8 0x2c6dcafa73fe6c863e18f27415e11f0ab9ba17f5ead495848d7366326283c088 0x9cb6208e3b58bf961b7d8fe1092825ffa19cd2b916c610aa6a7313977fbf2720 0x27162613a3c0140ea4b269daaa2b56dd1f7ff207a7bb1bea44a274970f419c81);
  Add (Line 0xe8bb61b9f226469b514cd457c38cd4a58a76de7de49ea4075076e51ad12c85a0 0x45ae143c5e76be5f2ca68437d79f747d6d90554469810fc459f1547a39df6a89 0x39f6ccb310c04e8577131e3e841c937a19ea9461bd94ef5ae02cb1ee8e1375eb 0x16c9b7781b9fda85747fd031ca1d2d24a7c0a1ef186c7629f07d4cbbe5a9cf3a 0xd3942a48f1db94758c242a6bb3e70d2a983fad9ba873168b0c8bbbd6e2ce36d0 0xa2a880e7fd45b5ab0e2eefb959895b678f8d3e1d0ca93eac45c80b775b31e57);
  Double (Line 0xdfada4b2106cac4951ec538f3d828576d57426ebe0d870d5e091e5b044aa5639 0x1a575af9d4146753cf991196316995d2a6ee7aaad0f85ad57cd0f1f38a47ca9 0x3038f1cb8ab20dc3cc55fc52e1bb8698bdb93c5d9f4d7ea667c5df2e77ebcdb7 0x4e8135dd97fd642afb502064d179b174938cb3a12874597604bda1dc3a95c1f0 0xc36ffab63b3c27eeacbdbd94308385dbfad275bbf2f1efd2eedb3fffcc4111f8 (-0x47932449e2339287a45b7f4534a5c3a4becd9324390b6d64352ab68ce281bf60));
  Double (Line 0x51ee9a34eead0ad899a54439d004a42a2f3fa11be3c4773c1dc6457062e3572b 0xf5f0e0437621d439ca71f5c1b76155d6d3a61a83d3c20c6ee309d755e315565b 0x6b9f4e62be5a052bf62189160df7101aa5bf61bf3ed7e40a678430afdd2ecc82 0x1ed5cb67fb111b420892c7d794c43ba44634d2984517aa30b6a4507e332580e9 0x1a38dbf8965904b741d77a73193f95c44915f3d0ca8dca55c236d04790d2c834 0x4e2f8dfdbe4482843e5875fb8e0b3dbd85fdb7d0cc825f5da186d116b6813611);
  Add (Line 0x3f2d786f4235ea7b3a4cc510150f8dc15cb4dd39f4eb5c68ea430e740503228 0x82f6d632226a6b10b8fd4029ae8eab2b50fcce776b8d721deee6ce47eeb79143 0x3b067f3c1b6e50316e38612ace08d99cef193a8c7c7523769d234b8ead570854 0x2b7fbedf8642657f11fc444af7008984f461050366c66b7a8d5be42d0df8217 0xf97695a525c4eca1db8fdc23132423928d032de35e8c93cbe19088372ba37 0xf1fca5a50bd60f2c1f53526922f80d6d7cfa91380a4b4370a13836444ee6e1);
  Double (Line 0x602c9992d00cc6030985312c38033bca60ce74f3a25777862a7288488389cdc1 0x8f506f0b6c0b6e9a57a7f36d970ca4e347cbc92146227642cbe781d9f5362d33 0x469f955d2afa61719530c5424f1c336848cf925d43bb8eaf30487d0c87fa243f (-0x273f7d5064c2720ac1a414d7548049caab349431925507daa8faec262d62ddea9) 0x24217af342a1e9c7948569ea3ad2a67fd008eb2226f76e30d454b42efb1c69e8 (-0x268e0b9937fcacd68c0c1c4220f48e9cf647ba267cbb99f84bcacef3e4f9db49));
  Add (Line 0xab9c69578e1d0b9e9df5c9d5872e72ac7a0cfda6db8964137cadf79544b93e37 0x772b16eb774245443fd39784d1bd2a156e0262e286760ce7dadf32c4e3f96474 0x7e405e5c5a7a51bf2068a88499974fe5713c057d7fa182b5079921422bad2f8d 0x84764c7419696047cf57d4ed287d5a2b5b1333e276a1f186dab962e4113736b 0x730a544b85e8f171ca811ec3d5289f4741729285b0db8a4e7b8f334f21b134c9 (-0x7e84dc75da275a52ddf664d6c9906b531f0ee5d201582d9706d6dd6f37400e8));
  Double (Line 0x2caed624594a3483ad98859bef75a97ed7cc509bd906bb2b23fbf9fbe4e5004f 0x8e7bcd0bd35983a7719cca7764ca906779b53a043a9b8bcaeff959f43ad86047 0x10b7770b2a3da4b3940310420ca9514579e88e2e47fd68b3ea10047e8460372a (-0xd8098d8f20bf73bcfc1de03569fc924641a242782fa4f6be9ff64262de27fcb7) 0x7cc91044b3bad5df27c028d022a69bed3d1281c2de52a6b318e9e6a1142cc8c (-0x251d0fe794f8d9f24d5c2a5c5fb106e6caf8f1728f8bb3d028ae73606fb385));
  Double (Line 0xff486a88ac95151d852a5270924d4ccf1fff7b676398e499d324893a4bbb576c 0x33b35baa195e729dc350f319996950df3bc15b8d3d0389e777d2808bf13f0351 0xa58a0185640abf87f9464036248d52bcaa6560efbc889b702bc503cccb8d7418 (-0xcc91c5c267b4b96691e7cf29fd9f24bd6e72b42858154531a50d2bb846feaecd) 0xfe9158b861078bcff820c4e06d10d88eea026d7aa3efeb8b7ee641e481c7381f (-0x5a875717b25fa1d6c1d69018948f0778a17a8cd36ecbebe11028151d97c1e25a));
  Add (Line 0xe45dd04f4a5c37845ab7e67a26b0043808bd8d9f2ef4b9d0bfc3d192f32b47cf 0x7fe695b238d6af4cc2a019dd203fe8c83c69c6e0523ababce736995e59d04a92 0xd2a196cfb8e25a4aff4d3d192b21cc8216f05716b2856df2a7c47d0d8efe3d11 (-0x3c2f5c2b6c0ed29ead569d3d94cd3a7ba8377aa682e495ebd380b8a660a7daa8) 0xcbb73d6e3f913b48ec7c4492554e0a7dc0c3347a066b336a6394eba8f79dd516 0x7ca30211e0375e43bee05cde9e6f0ea9eb13d167a7d0581cb0dd0c1f0dea520);
  Double (Line 0x8309b9cd7caf364f8a4726b848e574837a1498176583cd38a99bbf35c27c0e01 0x374deeae22c93f955cb83ad2071f7e2256f6e109cad7bca6d71dc7b24414bb36 0x171165b64fcd4f9916032c06f806f7293828d66300e543217875bea98daf734a 0x8a24f50091d51cfacd01d4b39c8ee1d3d28d93a1d9c94c30a017fdb44ca5c743 0x4312f486e4e8b90d62f2b067f9b3f3b73f94aab58fccb4d380346aa3ff7e4127 0x1d83c47d4bcf751ced405a6580f5150665620f03dd61bdc852dc2ddfa812a69);
  Double (Line 0xc3a088da9a740fbef9a36dc94890489302dbf3a200c6aad18428714f41d62ef0 0x2380c09c7f3aeae57c46e07395aeb0dc944dbaf2b62a9f0c5e8a64ad6ae7d616 0x6f8e86193464956af1598aefd509b09a93af92148f8467560099be48161bbc1a (-0x964d7c0fb3a0610b8bf527ce126416d45f897afa14e91a383f9f70c46b7454) 0x957df52861b6dfd75a9c9798b98626bde391b0c5b90ef9472194d803f02a3de2 (-0xf21b4ea23c0a54711c056be16ec206de776d55a92758318971889262a449824));
  Double (Line 0x9a1bb41d1a00d1b60cc94b47fe3b071dd38189836c875b949a5bb1b3744d5622 0x385eed34c1cdff21e6d0818689b81bde71a7f4f18397e6690a841e1599c43862 0x283bebc3e8ea23f56701de19e9ebf4576b304eec2086dc8cc0458fe5542e5453 0x778a3e1c7d442d6600aee87baf15aeedf8b4fbcc6a059e55e65b853398224784 0x5cc557b28025685b518490dc1cea9677798e17372e8edd638b53191021329bea 0xc8fe8f0e2c03d5e1f83927ce1a10e94d4b7945f42830eeb350a8e9b4fbd978b);
  Double (Line 0x738fd7bbbe9afd0e286fa67c1b3d9d1d4306cf1d91327714eb87d7e6678bcdb6 0xf6f622083daf54800456be134d5f67d147c82642befc1ce2dc83a27078f2827c 0x1bcd4e817de73a0faf2c5715b367cee7e657ca7448321bf6d15b20b520aaa102 (-0xe9f45b5861c8eb322816215dbb69b91e08621f30bf8fe981838e55950241f8) 0x342a8ca566cb1459c78b64608f14d738c23e82811db5a1c8489d717daa1a9b1c 0x560903ce46813c4e69df99656d7a6d1b5bb48c0264d487fd1602a44dc2fa2dff);
  Double (Line 0x245df8c5a6ad254b4c4c56c0d969cacd2ea321b08b1ed4d55515f34d582f7420 0xfb26e5188f953de2bd70cb3c3d1fc255cd91c3ce7d8c6f369d893209715adcb6 0xf3e128811012a34d58e846a719d0176916d2cb31b8b7ab5449dbca3b58ba68f3 (-0x2c2d3badf9cf50512a306a0da6ca9829624d1cb705114c135e6e45237aa7e6b50) 0x52a9076483b57d3b16d330daefddbd5db18784245246df99e34ce690067744e 0x986537a1aa744a19c5cdbb7707f824b84564a6a6154d1bf65fd4189b09b3db);
  Double (Line 0xb51b78655a4e5a25c8c18dd20190b5571b736e586729fe907b550841e1b6724f 0x8991225911b9132d28f5c6bc763ceab7d18c37060e8bd1d7ed44db7560788c1e 0xda8b4d987cc9ac9b27b8763559b136fa36969c84fdef9e11635c42228e8f0ef1 (-0x18a1f274baff4637bfe39b9b6e94360db2f1e8c4f81ccc2d4a6c123ce56d27a6e) 0x801fdb31efb304ca480bc8c25e1ec286258e204764701f3ec770b0be640185d9 (-0x505b12e8199ff30ed1cab364979a6fbca2a0e1bc86331565093f6debb7f2c43c));
  Double (Line 0x2e95bd430cb40948c3e3069bb698efdada1d87ac3d902f2d55129e9cbdb660d4 0x6f9d9b803ecf191637c73a4413dfa180fddf84a5947fbc9c606ed86c3fac3a7 0x7c80c68e603059ba69b8e2a30e45c4d47ea4dd2f5c281002d86890603a842160 (-0x8e3c41f27be5dfbe684c1952181225acc1f1f91d7e5d7cde19b4612886b02ddc) 0x87a2799f4898f3a71ad4975487fd7ade180a320d2011a7099b2311fc750aae3 (-0x17c391a61ae98db2ec4cf0d503dac84b4df753d5affaab28c1c82a190b6febb5));
  Double (Line 0x61ff0b09e723c8829eb256b349701c992867da5babb9246b4e80f4a06a7739aa 0xae86eeea252b411c1cdc36c284482939da1745e5a7e4da175c9d22744b7fd72d 0x19e993c9707302f962ab0ace589ff0e98d9211551472f7282334cb7a4eee38bc 0x5ebfab968388ffa23571a2645339b5336bf455b29bd2bf3e2de7cb9ab06cdfe3 0x258344747f5d717b94ec38ab3dfa5bc7509b96f83781ece63cf8650a6f7648e7 0x402361c9a6ae590b7bf32fce7b86297ed20307d6544c327b28ec6fe54f348c68);
  Double (Line 0x3172c36f49857e7e10d1b5927bf54091d80521d6b2eb92a8998b92cbb2234de1 0x2248c9f90bbfff55e61d2f8c56dc2c488718be75cf36f2ee7a1474267c169290 0xfa0594692d21eed7a506bb55b435ba18e163750235da2be2369d8a12883ea257 (-0x15af07584b8d0470396317ca0af1921db2a9e2791a48f12af26c43ca570bfbd2d) 0x98d22433e754fb3204c68fa6d78511ba8cf057378e3fd2c9657f5f1a47fd5d9 (-0x1b16c3cee6975e5e8ad7da433cc95724fd295f9f0cb01e6d0f59daaf06a3a636));
  Add (Line 0xc7574b2b40dbac5f18b4a8efb1b4e10a1a31b6037217963c82a3555323f306ff 0x9d1baa776f8a086c5b840ef4ae5e5f3d0759434530ea20dbfdd3e7bb0545f92e 0x29858b3b6ca7be656894f329f13dcc4b9d80abd1a6e243a3239ba4345b70eb01 (-0x48e5957a39e335c348d2b3f0db05515952df0a833d0a32af10514d60f70f13fc) 0x9b38d4a16c4dfa9a9245dc8b8bfdb78b56a4ef5af7f6f096c42c982714ec0e1f 0x16be38c2d8f19aa62aadd14748848e97737cb2b0f61c42b47807df01cb314e6a);
  Double (Line 0xc3c8b71e8454afd4fe4ae23209d6947bbfdb44f29f3474cbf6e1de6bfd9974ad 0xe11a6e16e05c44074ac11b48d94085d0a99f0877dd1c6f76fd0dac4bb50964e3 0x87d6065b87a2d430e1ad5e2596f0af2417adc6e138318c6f767fbf8b0682bfc8 0x170a64f768d64a28eeee5661c4bdd2402d7053fa868e4d86af6a90b185707a74a 0x95bb645720446d0593d6946bd4e5d290331303f95f60ba7ca5889fe27ed623fa 0x91ef4c498bc6e95cb76cce220a85977aa1b79b8076ce978ffff8bdccaa5ea7aa);
  Double (Line 0xc781a37bd88a0baa945a25dcbec891a96eab33936f3ae33b924c4ebb9ccc91e1 0x3322d401243c4e2582a2147c104d6ecbf774d163db0f5e5313b7e0e742d0e6bd 0x56e70797e9664ef5bfb019bc4ddaf9b72805f63ea2873af624f3a2e96c28b2a0 (-0x17e1617a998721b0182e8faa597fd0df72b0aa18451fb93e3499b06939e9694a5) 0x9b7acdd0b5ddcaec8b3956ad22b3c12965ed319b036ecd085c022fbd8c16d722 (-0x879391a45a6a3ce01b8de5e3671728c369c513ad0938529a31aed63f43f6e762));
  Double (Line 0x5e1c71fb55e898f6e64912dece2b8a3d031f1eaee2af6f37ebd48ca94c1a3624 0x8d26200250cebdae120ef31b04c80cd50d4cddc8eadbcf29fc696d32c0ade462 0xebed3bb4715bf437d31f6f2dc3ee36ba1d4afb4e72678b3ad8e0a8b90f26470c 0x214049df73c3e469b36ea795d8cdc91d96a79c41bfcfff8c51bccbc9c6d19dab 0x2298e6ddb4d173cfb11a3e3565ecd08617cd4e3fde4156fe4ec749cb7d361f0c 0x21173658927b8fcdb889b30be48ed09ad3915586d139d93fb6988ab3db2ca320);
  Double (Line 0x5adeba52ee6ac0e141ffb884efa7a7d9a940b9950373647c8aaef60dd14e763c 0x1238c0766eaebea9ce4068a1f594d03b8ed4930d072d9c8b9164643e1516e633 0x8a9db02dbb271359d6c979e2d1c3dc170946252dcc74022805cdb728c77b7805 (-0x41fbb9f43245552045b46931e5fce4a9ae98247c9a71531f67f237ce163cd4d4) 0x20415cc9ff152e15a3cbd49e8199b645f4d2af5e36fa89310b868f6f6bc94f37 (-0x2ba266e852bd863c2132869adc2e3957fb154665a692d453097f9073d408957d));
  Add (Line 0x1eadab6ac77119c144d62d6efb9e46c6354ab702c75439f3b65ea499b210f4ad 0x8aa2beca11bd50870e28f21d681d96c20a10573a6c466862da8473d55cd9c972 0xfd0a93503bac2a7ffc9e518e9a2e73408c553bb6ca8cda4914c3a413d9387a49 (-0x10a4cfc3c13e96db8f79b6969a1735a306b52a21874d21f94159078df31445cd) 0x3ad29fe27d7e3e0f8cbca24c54421a1477dcec7d66e028e55f4b160a63a19ca (-0x236b3b40f08ecc54735fcb50fba522c45f9ecf0ccf0292f087d0d17283d64de));
  Double (Line 0xa478dd7bfcb0fe45115c6952feba38f9de0842736b164666c083b48c9ac6cb1 0x271d5b0770cb9c15e7b2ea758a6a11b9cddcd7282b0ec21619b01552788e7a66 0x5d3aa45834e7f491e457d09949ac877fe2a065e3508a824e7a8d7258e03c9727 0x73db7e66067ca1da1fccb9b2842e63896d50bab74547b53395f15f8a3860bc1 0x69ab14d73f9efa0d418332e3e686d8a5d1a8a621cf092ba2c45e7560056f7b 0xd6c5040d13867f170281dc10a1f3d77088b9ff7ff920103a26af32bccb05c1);
  Double (Line 0x104f2aa37e05be6add58d281a2334816593555f014ce643f702814ec1391f5a4 0x85672c7d2de0b7da2bd1770d89665868741b3f9af7643397721d74d28134ab83 0x7c481b9b5b43b2eb6374049bfa62c2e5e77f17fcc5298f44c8e3094f790313a6 (-0x60ce18345d1de1baa9b2177f33623a3b7323e5cd991ee5699bb7e0ae5e54c4c) 0x109fdcfc7c28d1c7d74eb6b542a00d2640ae6bea152b38be697e6d17388360f 0x601c59352eecce7e0bb7240508863f7b4e242a4bbacc5db463c9bc2730d966f);
  Double (Line 0xad98ae499f8b968dacfaf69097db01061deecdd4b8b7fe434720aaf6131a6fc1 0x534ccf6b740f9ec036c1861215c8a61f3b89ea46df2e6d96998b90bc1f17fc25 0xd5715cb09c8b2ddb462ae3dd32d543550ae3d277bfdd28ddd71c7f6ecfe86e76 (-0x27ff65426eff22df724d7e2febfc45a9c0225b6e4eb7e52c5bd330e830d1e361) 0x75b7b69eefb8494c65bbc056da836c4543f165a10e791e0537ea9954448b458a (-0x21f9b2a89118ea0d45a65194c51595db9b838d9b7182b971ce361908f6544bde));
  Double (Line 0xe3b8c91ddd9155986dea06e85caade56b09b179572444c1c2007fd77d04d6f0 0xa91d1f5cee87b7f3081e142018f8aaed79020d47ecfbc8d2c7170923e8bee8b6 0x748a324ee2df8ee15a7189c8dddad3b2f800569f628cb225003d16aa410644c1 (-0x3994fdd73316b2c082ed4b0f770ce3e3de6b03d9e0aad7dae386fc41664b4025) 0xca913a0cafde282189260a17a94bd4dfca930a780b357608432d78a95cc000 0x4c55a80726cbb8df592223354fb49c6b09a932e937c4847958dac8a81ed0489);
  Add (Line 0x8d9b748fec4afe69ba3d2b22a91283d6e5ea528da64ebe1021a07d5c8f2c8e00 0x64baa4fde91f4b7b9fb2841ab2eeb8526f6268f36f7ae85b996383bbea93fb32 0x85215c125f4880f5b19775ca39e794c54b69f636bf60b973926a66bf7f6f87ce 0x10dbe929f2c766497326fd57fdaae7ea9cc9e26ec64a21d6b040acaef71460f8 0x4e549ccce5a57e1e57a14d86eafb27b890af902509be67c63ab95474e2eed03a (-0x14f7daff8c4f9e7240255c8981bde2915387260791affbb87a03c5a2ef9aa967));
  Double (Line 0x6d5074103e91fdcfa4597e9b5c32b822c19b5af92207eb477c72ec4f9dcccb6b 0xc15c8c23d90c8e35c1a214dde2d4383c0735ae45bef61f10aa1a1c255984cf74 0x2ba954d828522235c8dc6f45e25fd7ba47bf772d50b015a2c4a48cd839ccb000 (-0xeb9f7547cf28ce81a3475b55b813bae3ee055b181075e93af8c52657899e350a) 0x2ead9c1e940e271da349ded728010972eef16fff1c729a7484bb1f847a213c77 0xa5aa020f731f7bf5a0c75450ecad692c5b4a3953b570bf7585df7449c7200c5);
  Add (Line 0x9a864302175ccd411178a707a343cf5989240dea5ca54c26dca0c8adf48bed1b 0x5191bcbfb01282f6832b00011afe83ae0cc7d3dd1cb8762fd5c03af772a6c543 0x9607e94bd8a45fd22318d786cc0a03eac1cf86273768f0c016385b084fba363c 0x37e9fa0af1672ca489e12185055cf872de1a3d254562e77ab9f6aa2eeeaf327c 0x5d45cf08bbd634581c2885f356369f495f1ee21235ff86b108c59537c43bb210 (-0xb90a822dbbd45a981930d193a7158e6f163a95218ba952e2bf67cb2d88eebc5));
  Double (Line 0xb0486abb58d31b2dc9704b8502170a38dc4139987db4802a1661a40d857824d 0x948bf809b1988a46b06c9f1919413b10f9226c60f668832ffd959af60c82a0a 0x53a562856dcb6646dc6b74c5d1c3418c6d4dff08c97cd2bed4cb7f88d8c8e589 (-0x1b263edc42a10eda7b5fd85cc0fef21c361cb0d58ca086e8e1a35fb11f6b4f950) 0x7963a73dd003eac7f479277bf12348c61f9105686ef60abef6ba1e3008b079 (-0x7ec1af00b1912d4727fe724b5073603d918d3bb13b482f3a86f407e2677b2f7));
  Add (Line 0x950173687908826465b7e687fb769d77601f639db93fe66c8a952f7908a839ae 0x19d4ce8cc07ad4d53cf7fdf6d76349330ee8dc19806773a8ccaed199d1036d6b 0xcc56f65323dd7a165fe7295014a2f9dff7a306929f8b15c5fccf3c1804802f5e (-0x2a12e444fe0b1d8344afc25f78c644e74e5eb61850b25784b18ca9ee61c3a5e5) 0x56bab059b7bbe13a187a0e4b4729d6bc6d1b2976fd3a263e035a102726856434 (-0x2071478131c20524d6935245eb3fd38d11f317f44c559d176a7ffa288fc610aa));
  Double (Line 0xe6d9fa3e6518d4e9723dea425cf89cf627c6b2258bb185785b0f3d91b04e6115 0x26952c7f372e59360d5ce4c66291f0b6ef16c1331e825e51396eb0457e8b000a 0xf513ea4c5800a68862bc893d2d688422debe398f653d67318c3d401f05ef705a 0x95d908869a9615836cca1796f817c40b7d16ef1eade6aef68aec08f8aff8fa12 0xd02c6742500def560cd69c8378152dcb014068be11b433080bfab42ea667e455 0x1a6b9c58ea9209a6715cb6ae75ba645c574626024c4f2d2c03ca0526715e628d);
  Add (Line 0x4baa931d83337380cd547738469bffacb3de421e50111d4c4ce5eb0950d151a9 0xeafc65a8e9b3c1ae2d1daa72e974316f1fa3f7e19cad93c568727fe4ad62a0fa 0x77775dce1e6d9d131e8cb9a0be05ea167ad65ea78eba1990ca9171a10d2d8ab0 0x3c4da985a0f49c56b5a309abd9893beeaed916484a7c48f0044c982aed080f5 0x165d63db029d4e16f2ebfb93e1be0dc8deaf55f78b99ad1cb66dfb23b0530c7e 0x3dd1f5c17139a2a1ba012b8f9ecd43a70fc5f1f3dca9399a1e8cab3d7cde4e9b);
  Double (Line 0xd884b65bd5b8dfcbdda21a681b317b0bcbf4d101debc21a38ca7300520334d4c 0xc62e58e6fc23c5bdbef2be8b131ff243f521196572d6b0e9f102588976134f96 0x4397827d45b1a1678c3d676753141fc5bcfb853563731c3e82277ed4d14cf97e 0x18d1dd4aad1222c3d6287b31e6508ac1105fefbf69acbfbfc937bef81e4b486fc 0xb72038878943152352503fb8af8d7ec95859ac28cfa7d980527a486222ff17fa 0x86fbfa2299f2e497b9fab6c6ec4cc5072fcac64cdbe58ce9d90178cbfc27b118);
  Add (Line 0xae906fba9dd05cf3f775337caf98b359465104214766e67fa63c4332a7370787 0xec26b0dc9e867ecd420ff80cfe8d8c04c5a3dd58190ff11026d03c56eecc6fda 0xc1990dabdf2dda3a976c3a170b5ad9f5d60643eded16b9ab8ca9fcd1e73f49e7 (-0x1918d0a3287b2bbd96fb38c63d1e3f0ee76cb91062cfa6314d73192036061d96) 0x7708a95f913c25a89b85948d0fa633034424a58315197078b48ca0094ba5dee9 0xcb6769a20ae4f6620ad31a022ce79d77ce8b3abc41f9efee4c7ee509b7adf9);
  Double (Line 0x9d1540c9467d3bf99ee5b77f3c9121f1a88e1886ce5c64aa196b85cf6815554e 0x107460520eec5c741683329a716622b0b81c03200807de973686f8800b188cbb 0xabe5d4c09a21598c35326b9b9cf54a11242e0d748dce3da601d7b6361f272124 (-0x179501e9d0550d9d2468053524a232b98cb0c123751e10ddaf1d1f6fc696ff25c) 0x6063133a91e06d9a65e78c40ae5b86daceb88f83fcb37eda21fd8fa92d320db3 (-0x6f8223b218e599b412b93e52c8402bcc951223626cb3aab2d2cd3bb4e97ff868));
  Add (Line 0xca095072c37a6c2453ae51af2744ab6f158d4c8d605b9ac5f8ee6624ed0f738a 0x8c074c803b98bd4fdc254f3fe4a94b4ecc47153a5e9be8f5d945cf864869c258 0x35a94dfcc777f40e936673744516eb3952d1cee338827a9cf6de524049c6cdce (-0xad62b1dc6083b93c0327ce29a071c9d4328e266aa9c6fcd88ee6c940f012f07d) 0x9f72b34bddd6dee4207fbb1c3a615842aa31e9d453fdd6c13e551be847456f39 (-0x4bdc4480540c861a2fba10194c2b6f562914c8308824206af0b32acb6c204cd1));
  Double (Line 0xc48405b3038c03bd744a8ed8a5527cb83e8f1929b392d0a6967cbd721bae0b 0x6260ce7f461801c34f067ce0f02873a8f1b0e44dfc69752accecd819f38fd8e8 0xbc2da82b6fa5b571a7f09049776a1ef7ecd292238051c198c1a84e95b2b4ae17 (-0x224599a9fb5094922086d40cf6b79758db3d2f6118efe667268435c312ae6bd) 0x96da6ccffe2a896f63714dc51e67f34b231da646e18e744f52ec9e0501d5 0x3ee3441655285c8c804b56dfbc5f69b449c198f42adf1e15e7baf796ac8af6);
  Add (Line 0x70d9c1ebf1073914a27d283cec98f19cf5cfff0ce8ace1d7d2030b28eeedeaa1 0x2d9d8830c936d1fdb72505b9ab5a7052415edca951bc20ac3423438f60b8852a 0xe1f296340367b8375b74ae4d95328e6dbc6795ced9dcf72bdcb9a1462a95e076 (-0x125c44ce2243b999a916e9f8fde488cc1d762f0fc31f07c791e5ea524f14b097) 0x31bf42e8c7ca8b121d6b7df3948d65ec5fb1f0ddd811e06502b08747f7593bd9 (-0x299e950eea5e21de8cdddc4edb8fde0bbe1cf60788760d131f6de0020ec28676));
  Double (Line 0xf9bd4b25fb8787ac97edb42b9bac8deb9ff7ef01b41f5d6575086f1012bf96ce 0x85d8da4748ad1a73dec8409be84f1a1316e65c5196aad27e0766746f3d477c2d 0x58948b53665c6690586b536531efc7bc94b0a02033c4d5a62079816fc7d1dd70 0xfdbc52ea7fc7f6b0790c73abd565619fdd7c6e5bcded0ea380d3f4cedd6fd4fc 0xf3a1c827ef7253102a34222ee15d034ac50087352d9054cca4b43430d68bf7e9 0x2299fd7fabd3b4688ce292b0bab4e31aa4a70d73d88a0077a7e41e438f92e183);
  Double (Line 0x95b144bd0405b76f012f298ce4bf1355bccb8671d21cdb26d904bbbeb3860cda 0x8e2a7166e7ec4b968c0892e9cc3ee3ee4d1e7e100fdc47f04850312d6c0b80d9 0xeadb0ba9ae2cbe592cedd29b716a9d485297b688d706349a49c61f2ad6b29f50 (-0x6a598853f5263be2696b8497cfe9c7d985998bdd2709cce77721c81daef85cf5) 0x5787d4c426832d20d8d489fa6aa0594149b1db21a8c61e3d4fa0b1e8a85fd55f 0x4dd3f9ab50f50d9e311ca7778762a712ce99c5bc759c3e5f5f1d39a301f8648);
  Add (Line 0xeef3e2e1d4edaa805395bdab9af4e81b454773c777a0393f8007af7e317d59c4 0x5539473917b45d7983d56c66b4f5db8f8da79d515c9d2e57b29fd5c061d1826f 0x1445aac475365d96d9dbdb8f0c22a1c7ec8148a8061f6b4328c014952d6973d4 0x5a1efc2340f4f0de6637d7d6cb5f960c28959e59f1120ed9f181af68b718457e 0xdf0a623469b7a763e6f3e322259b667e1e39170d624daf3ab65e8ced25d3e6c2 0x24f8878a7d55343453a4815aa5b5da05259233ecc494e252b50083ac3de7aa42);
  Double (Line 0xcd97a7266946a362a966c2469bb3e45413110726a2c395c2bea221545461dbef 0x769bc75842bff58edc8366ecd78f8950ee4ab2e81359d90f9921fa3d2c4561be 0x4bf817362fe783bac8dce4cef73f5d4741a177767b7873add5920bffb0d9685f 0x8c5fbb3f12a885e4d42cc9f7d7b32451cd675b14e19ddeae726d35f5fed4b503 0xa51c3b8a210e761e5720aa3151d54f5017877324ee06bc83129a84a054d5e41f (-0x12eb32b5a2b4bdc2c3055d959b8857ada0efe78a7d6be733ab0858f57947fd5a));
  Double (Line 0xe53ce2c798d39bef6ff55175192d6b703f4df8f610db8e47bda11627318a4605 0xe5037de0afc1d8d43d8348414bbf4103043ec8f575bfdc432953cc8d2037fa2d 0x4571534baa94d3b5f9f98d09fb990bddbd5f5b03ec481f10e0e5dc841d755bda (-0x1ccdf346c66dc6fe0cd85e4a1e3c4e765feaff4f9b271347ab832d786ddafe8a) 0xcd45fc342ddf3da00a1486bda1c824a726c4618bfd4c95cddfe037159adb1c90 0x62dd0864752868233cee4a7f3d8b2480526012960780a91d721f4e4aceeaa0dc);
  Add (Line 0xac6a97d8fcbe6503a096062b89ad724626de794144d78f83802eaf1b7b4d68f8 0x2967a06a239605cf5d7b4842157cb5479c8b042cb0a664c1fdaee0cc269cc84 0xcaefcda36b536fcbf9192391b53bd439906ea9361b322d55cda70010dc2a566b 0x60d7bbbd625efb2ca2a5d24509f0a37fa1272dc96faa8e78e390d024e2032416 0x741f686dad62d77c9cc6b690d2e672ae409ef121a32e39f03bf986f14c27e2e0 (-0x37a7ca4aefcee44806166a755563f47a0f38f88151bd3efb8f6de56482f995e7));
  Double (Line 0x18b9cd189f45726e2c6dfdc2cce38866bc945ec92113621bfaa817ce723adf9e 0xa5e00da467fd5494f40b6cf7d2d61b3ec3ab217c792a2ddb8c63c8c79e3d34ef 0x98fe5f5e5608555421726fe99bf43d25b60dcfe790900acb855c5ce2f7adb4c (-0x25933b1131466a51862cb3ca36165e6855044280169cf9fa73883d9f2bb7a6bcd) 0x2635d4eafc3a94784f2155984bb3e982cb923f6990750e9ce624db8849a01b5 (-0x61925b735c538043def17debd9932a9ea1ec99618a49beedfdb2d0c6b84ed42));
  Add (Line 0x4ab6bd32281bcb39618989f8652f8988e68ae17d2261acbee00621ba9ce9bfd3 0xd89fb8bff89447d8c82c34a0aa51adc126a5204b691c0381cbc6753ac8e1f8f7 0xc8ed09675c45a85b43f76cf512b43e720ec45ed5ea006001378fe6032adc4ec6 0x2fa7d3a7dd44c72d450dc4c8eceead68023e2d47a49522fce6f41949f48400b0 0x15ce27d28e54320edd310249650ba137dad30e43861cb92b3f4595461a459fb1 0x3e7774e2ed5f6f2e38de532448b7d0a3943e737b749a2bdf6413af86ae1a3a26);
  Double (Line 0xbcba2313f29e1d97551bf61072f2a6f583d17ef9378ac65a6a5a28639887beb1 0xa99415f5ef3a2b403519f4bb1c9bfbc46d4afd2e4477572ae6737160d7b91252 0x82d0e64cae81f84bb9e2f10f24f6f6b6899a16ad590f4ddd73a377ac4bedc264 (-0x134567f8f42e1a19966da002be0e46676934408e773d13cd6e2e7664dd85b74a5) 0x8b21eadc4a233f1e6a67d560a74c022b4eb3667cfe35e759451cf6f6d3c6379f 0x2bae76bd18f2ccbe097960f18839bf91cebf33d78e2e7a97b674a52afa3e14d);
  Add (Line 0x6249a7ebe265ed783adfa5e393d5256c50462cdfdfbca6079beab63f01cddb2a 0xb5a6eae778419f4b8fb2c49bc465937d04d811d26615ddc1a4984ffc1de78db0 0x94185f94ca4e7626a47a54cadb3b93d85ab53673fd56511b8eda372901edcb65 (-0x120ffd7eb3ac662662210853b1682395b485446616a7113aba2c5a748669cd50) 0x25bc79c1cc02c2abe6d1c5f83f1c25bfd45583db7fa4ab95d3edb3886ceb3305 (-0xd6d4eb01b76ffdef2a8e2b6897ac5594c05c5d0da6da30e6f66ad1c7e7bf575));
  Double (Line 0xccb0c2d5a765fae0fa90950f0ed92a38ad56207a00bd4f3ea9da4b31dfc25815 0xb56f4e9f9e4fd1fc7d8edde098f935f84c750d705f0c132bd8c465b66a540f17 0x32e8e53429cca856d3dc11adf0582d1d21d42963cbcca85446a2fcae0200102d (-0x7fccfa927cfdb9671c64e37c084307dc660f581e21e5aed2c3fc84a75bbc96dc) 0xa3aa3090fcd938161215a0727d2beb1d5433c7cae994cbbf13259b0089cc8c62 0x97ae0e4324516b04d78a80bdd178e5ce6bc6b8d5b0d91bd2704ef792f39f466);
  Double (Line 0xdfedec6f42f70b127c80c91fa38ee129550274bde0c96a7286b93a0f6c39dfc0 0xe06372b0f4a207adf5ea905e8f1771b4e7e8dbd1c6a6c5b725866a0ae4fce725 0x7a908974bce18cfe12a27bb2ad5a488cd7484a7787104870b27034f94eee31dd (-0x128b360260ab035ec54a737e18e29e05fc6780d161ef7ae366007bcc6b249fcbd) 0xc3e05f097709b687554ce48ad461c21369027274adb1a14cd8be0eed304c23e3 0x2592971c3a968ab060dfd0a8477740d3a517f147279dea214746e8c7ec813596);
  Add (Line 0xf8f52fa739820b93dde5c5a8cc25170fda47055bfc6e615f026c589ef4ecf8e7 0xbb868885f1c580405eedd86254519cc77963c9b056ab0c5cd141ce223cf0ca23 0x1e9e5c8eb3817fc3ec8a26abe05ffdc82e69ec01ed9874721512b54a148dff0f 0x298f91edabd5af90a96567dac7108cf987e7cb386a90fbd061f1289d6178d9d5 0xf21bf7283e5eddb27bca7a60dc7e32b911a92ffe1ebb73c7ce5f01ed39eb8ad7 0x5b640cb4283bdbe422cf45b41dcd0dc590bb7df00298e53730bd1f47118ca17);
  Double (Line 0x24076fdb1fa11f74017e5c3696347308e32b3f0e740977d9c044061b43cc1ca4 0xeac134ca2046b8f9c8dbd304fad3f3c045ebfdb4ec6ed3cfe09aee43ed2ff3e 0x49630dbe79359b4245bf103bf2b11799ac19f696b7f21376e17206207d210988 (-0x22b8ac85b3ac70e22b550e8d9b10e94619b761281b21f65667820e6830a398f8d) 0x51217acefc0cca5339e73a53387db126dc3c312afcf96726a52ce815b9632f8 (-0x1d83e10fbb80b98cede1db9a501919ffa989a921176b1c3c2d9b4973fa5e8819));
  Add (Line 0x9da5f5eb30cea5791aeb6b5136a0e6c1c1ced7aa1d1aed25bf1f568c697e0bbe 0xc22a7786bc3b421cc34d2dea783b32155915e8300ee7c04da22558131468b5b 0x5db8c9f5344f20396655ad8fdb107dc96a7df1ade7259b85242bdc1d3360fcc7 (-0x6a7208bd9387c392623c3f8d1e535acfcb63e9902e875fe8595fabc1bb9728c1) 0x6114fb39674664d6068d33d41f47313a7b791cd02cc97212d220a4ee219b3e38 (-0x6c01f4e111684ff106665daae69c0adc87e48f3c491da30b1fd9a44916a20c86));
  Double (Line 0x38894d85c2951105037a5d11369af6d039f62d660aef1e5b13689d8a8da7b17a 0xd6788590731fea198392119d7adbb41ff5948a7804c85b17476706e4dfbfa4dc 0x28eaa8c89d5063c4940ef5c6d21c13aa6206f1c4ddc9a07cca7bcd6bbd3b5406 0x1de43d275b31a9f195fa24270df5f2ff26f22354cb9cead0eec95a7e4e1f93ac 0xc7c5b8e95c537efd7ea3994c7ae78a109b3e7a267b1f15705122a65e32972f4 0x2c1fe1e8df7bf4642de8f86d67419b714d464671579d68921b9183b3f907ac46);
  Double (Line 0x43e3186271177bc3437dffd0f295e9a9b2a7a173698f8c15f747e07c7e8ff275 0x6930fccbd9a040974abf210f12b71d4bc7b1a6205599b01a7275fb40e48ff9b3 0x7f02ae94b94701eada30fcdb875f6d78090f9b13e4acc51acfddab5f8ee96a4e (-0x20555bbd52b2984b051df74468c8a68708e677080475003800730f8759b12b88c) 0x1200a837c819757ce0c2c0ec32784be67252edc78e56056e9539d8527a49d152 (-0x1cfaa9a274fbe8d7e888fae6c26131d467d8cceed9928574ae1518206e3881e7));
  Add (Line 0x12a3e628e939a2fd8f1ad0bde1092df9a535481992ae2d90cfb863d277e4cce3 0x85fb62c5afd1c4bf9d25d4b96d47422798f7cd92d0be7d29faf069c5b92b73a9 0xcf1ecef37d0961352a1916499d1ec0a95571e2d9cd81c1ca053589cf6fa1d59 0x6c695c9f185be242e1bdf8581f4e128600879a29f9f318b7da4430fc751c84f 0x15b754ca7d2a3ee7e60858cf816b6072bff9ec54bd039050c3deda40ce2920e 0x8df3fb6e221b2a5cf4726a2e3695d24915d4b8d436a40d74131eed52b2c90d6);
  Double (Line 0xb52c04d03ee5d1a4b1d4065d2e74ed960cb2de26a95aa21abbc0df208ef24801 0x213c7a715cd5d45358d0bbf9dc0ce02204b10bdde2a3f58540ad6908d0559754 0x4b6dad0b5ae462507013ad06245ba190bb4850f5f36a7eeddff2c27534b458f2 0x3219ce540d8cb0682860acf0b518be32db1f3d6c62a2146ca9126fcfd6b079af 0x80374660209dc4d06788e2ee0eedbdc009c0fdc4d5727b6350bc6db369254a69 (-0x32ec3f8abc29b506a219d8f89b29c6a5dd57666a3150b01213363fd5df65e811));
  Double (Line 0xa25099814b5320e1032c789b522196ca8e997d9c4c7caf884c79019ad46985e4 0x1c5e548132b49a7f66ae9fed8323480e0d1ab974622e7cf08993895e0ec87fac 0x4ffcf60f837f468f2bb959fa1d4c2ad3a3deaceb26fe324c555d7b3d5fc2d4ef 0x52b45c7342fc682cfe049443d210c83e1f5eaf193b000f86e1fc704170ed45a0 0x66ea1ba7f03016e7b1e42d427dfe309e705f51be0f1a222f082ff1afc82d2c04 (-0x3161c590fc281f0fd0544e76bc7e89fb339c5a190c997f8380a8912a12a1571));
  Double (Line 0x722376042ae0f9d2ab08571a325abc3a4436037b5b82183ef03f4c040825c566 0x46276d0602c5668ddef6e94210bbc7ce1f901c19fed5c970e20fcba1d4531dbc 0xe0f7f24d44c75b84a292287570ded99498badfbffe1bc99af8730099686b8e2 0x3de524559d4b8a2bb5903d65293f85beb9ddec8efc8f12c13ea8d33f6c79e57c 0x32e39a0531bbef9cb472cdcb7326fcf0e0cc40b0f00b255e91ed2e61f42fbd70 0x12a156acde413de78fef4995ea4d64b5267712b3f100f615f29c7b345e69799f);
  Double (Line 0xa108d01af8d3416aa2f0e358342876e2ba7343cd700f6c28a824e467637a1221 0xefea68eca7a6c24f4e65eb211c3191636850e0acdc78d8996114ef13522f001d 0xaab847869d583c14da150307a3719a17e413959fb3848771c128419f73bc4415 (-0x27fc4b54a4e867ce205cdc11269adbf6871af4d37edd9d0d3a1e5086694573d4) 0x654c160f97d51caafeadbc8733ae4f7849326a7f838cd3dffcf3ca43ba589714 0x6ac978843c60d841a623fccad98312695da75926a3cf1801f10228d84b6ea408);
  Double (Line 0xaa93ae9daa82037fbb9b9ac8d39248dd36602f49c2588d2617debf0c252844b5 0x4e7c272a7af4b34e8dbb9352a5419a87e2838c70adc62cddf0cc3a3b08fbd53c 0x17749c766c9d0b18e16fd09f6def681b530b9614bff7dd33e0b3941817dcaae6 (-0x1bf04dc23ddc839053f93a94bc7ae25be1c52a44cb3231f4bb9afaaa5ef029f27) 0x71a8791b66a132d8fba6faa751d78e7117346ac90eafaac04fe8a02e748d95ed (-0x6b90581711036a88b9d3f62b75d8ab018e174eef16460508fbc6b42387335306));
  Add (Line 0x418eb01924dfe8c1d1b5d2640f7b4f51761f20a7ed44fdd0ec228c63b32d591 0x749acb18b6174983026e5dfe174d198c2b95d3e854a8e86c8e0e4e5aa7ebfa33 0x8b009c60cf4a450b8a818ae73b032cb13ff5c10985b66d3fd8c873a37a07ab9f (-0xe363ce264e96939993dfb5b231c0f9093dc16434aa0f0d81cdc42f8967c5d6) 0x10c9c4f499c131c4bc98ae0f05f0d4b00b74fa2de046df331909e168681847 (-0x473360b2a9162947b252c194b7dfb7386c0ac91498326f466614353745af82));
  Double (Line 0x1636e902f0379b679aafde9343d791a7ab89d449ce8432e3b716d55e3470094f 0x899017b02696888f268a269f4e385d9c9b11f25a1bef8790e2821e6e7c6e1b4d 0x43ae2cdab5b334f0bb45798336358bfae4e51bc0f932b212009aebdad814ab2b (-0x441d917262eeeed21f42d0669fb6dbd298aa3d62b05a37b6757a2ff87ac03c84) 0x1ed7bd3a29d3f793974d11c2a960fea4bb8627fa737bfd8beee428490b8b624 0x52062a60c732d5b241652e4640ad9ff6ad54edf34281f01c4fe786564b332b0);
  Double (Line 0x61d87a0cfe2e33fd3d7b20932d6ec316534b451b05017d55ebf66df97c650703 0x67f644f76e905fd4a8f4728e63227f0e2831f5bf91b583a8af2635a17e5f712f 0xb833d68f66445d04f05adeb7b586cf785e0e1488f7d36198d68acb5e707160e5 (-0xaa062aed44bdd1a5e5ad58378757b59c1730b939f2aa3264550518060397d9d7) 0x2565c38c08bc544a7e31044edef33dbf5b48398d71812bac968c5b07a9ccd1c0 (-0xcd7b2a6cc9432869c7b8341d2ba32f7d673cf5aa001eea7549aa82456031bd6));
  Add (Line 0xaac8d08168fd5dee902229130935bd5a0ac4d379be933febd919cc0b7a2e5130 0x6d29c82f189bb5f2dd33cb20e6ed7a53daf5f3629d0910acf7d88f32185417d0 0x42f72c8a81020e2d9f928923834c9fa2a2748a0e7b72648087656bd4b1385cbc (-0x86f2be6f4917330a139cbaa5d6a19b32fe22e2a77e88232a6991200be0936da) 0x71ef5272537718aa4f39bfa6dc41ef87d877e792c393031f93373534984b5d92 (-0x4f6e248fe74a6cf8aab6f7d1d93bf43c6213348ffe794f84bcd212b0271cfdb));
  Double (Line 0x24454cfd40d319c9fe377ebae48788ea6718ae1dc023e42f98c46838dfdb2715 0x327f876c93652555fa80a054968b4712930dc93012ee6b8dc10263ed3b89a762 0xb2d404eab3524026b09969255e1997b975535070febd7dfe9c9fd959b9203301 (-0x4a75fa21f209d865287ac4c4c52a4bbde5e9e37ef15b89b7d9b8181af5dec37f) 0x5239069d1e7aa133f5dc8b8d2a2a68a493a7a4d744a35b45bf57354a007f657 (-0x7932bbcc16777cfbbd5f57cbc7b771dfdcab64c8fbabd6460ad3bfc63053805));
  Double (Line 0x717534901dbb59ab006854c068a50dfdd20232fe591a31fbd7dda12262862069 0xfea74e3dbe778b1b10f238ad61686aa5c76e3db2be43057632427e2840fb27b6 0x6e0568db9b0b13297cf674deccb6af93126b596b973f7b77701d3db7f23cb96f 0x80a0ba48fe10d7809e6002682fb28e671b0427fdc527b8df9831ca1e7d8f029a 0x3248ae1050c56f9e7f50ce270961745323e43485c95b9badee7b4f513613ec19 0x5a7b06db34140ad298aff2fd9da4d9a8552722dbeee31fb6775778b44596f25c);
  Add (Line 0xebc6d109f72f728a610845d8b80fb19ad841db2e1c03dbcb3eed0dfee6d91c17 0x145c435e9bdd31e135990111388a9bb0179361a105222364428832d3b7fc2938 0x1f37b4410762f6f01534fe2cf537e51c39cd0715bb340d3c8b4964fe6ecd172b 0x85ff37f245ebd41b5b91bfb1eee5d7575b53a75942d93441b414e90fda95f5b9 0xd9269e3051ecbfae053be1048b176f298e5235878a9eef6ab26624007a64f01d (-0x51c9a0635a2a005e5741adfa05ea37efbe920fe1bb2a60e928f0462ee9bd3b0f));
  Double (Line 0x41c5c1a77b62baa51b180e1dcbff6780ece0a093f5a78051c6de090fab67d58b 0xed9441c8304280ff180e03d850e8cd0ebb570ee5de3730488fd97c961f9756e4 0x3dbe9e9efe8bfa19afa176128b13911e09f23774fe4de98bff0e09f93f3abfae (-0x2bf688bc61357f87c7ac12c53159eeeac37d98b44a67b9ac998c4029840f67bfe) 0x10e6051aaae9fe582d9265e290a533f25b3b43b831051c975afcfa307de0f827 (-0x46306bcf79e6401bd6822354322dd2536f536b57eabac4524ff47ac78329467));
  Double (Line 0xcc008c577437b3b458c9b836494bb2bc62d6e64da3f0842ef710401e85163577 0x29d9698ee67a7c3fc9fed3f624b487515b10bdd84fab4d3015bad033d51cf119 0x7fd02c517dc82b45277a125404f1c96fb89c940e93a7c2963c88740575056339 (-0x2330b767a4a6232f533b631fdba30cf527ecf10705b960ab7acbcd1c24c99ae54) 0xa290dfabae288b648cad6a41a581e2c2464a6422885a03902fa3619684e63c90 (-0x9bf94f9ab265741dd9f65db9c434ff823dfe69943c7914a48eca57c7bccc566a));
  Double (Line 0x9294b9f9f80b87f9d51ea42cdc54616c6c8cacf9b6a14ad9e9bee370d90df338 0x126b57d05013936d6f3fb7bd33580a31fd453e4a86060cff467c44537f422491 0xc1a7dc13061662c2e3c4a3eba2bf3fb0e148bac30bf39347afa31f199da3ef84 0x7dd7df98fb8f17cf7baf259f7de7b689ed0d8d23a4a8927c4435b25e600bcff3 0x53edfa88af0f3103514150b0e2b057b6810f4e48e7adde498f6db394b794c213 (-0xd6a62c65f8b50b487863b1bc79903cf90ea51746eac421e2ed06c6f23184d6d));
  Add (Line 0xb356d43dd2529c5a54aa1be37ae45f40a55eff9d37fb8e5982a4020012e3357d 0x2e023f3352354e9307dba954a494e59490f878207e44d360caf7f43ab14150c5 0xe5d4bdc9585055ab1891eefc68c39ac45a8eb448f1dd6a2d6ce055824c69cbdc (-0x15c1d3f9bdda8c6e1793a5f10db18f6e4beb2fa0462438dc6d16f01cf74f05c) 0x7da28a41bd9f496e1a3687bdae3786613e3cbf9fe7c006d427d8217339c21175 0x11f7c21bfb2075c3be85afd927759cd7b2910b4e3ddc71dcf2725cc2c94d8220);
  Double (Line 0x27b376e30f76ec47e5e68b16c3a2cf484262baa820f9d61937a65d963ba0a28f 0x76e64113f677cf0e10a2570d599968d31544e179b760432952c02a4417bdde39 0xc90ddf8dee4e95cf577066d70681f0d35e2a33d2b56d2032b4b1752d1901ac01 0x3816d9965fddeda9d51149bd47436ac6f2ccdf7a0ecf4e2cb3f052439e5dfbfb 0x6282c08a773f7f264403528c9d2707635cbf47433afc46943a019d5e204445a 0xf952a242f3a83e9eb8fd8955fa5295170bf5f1a8b82a65e137608eb955f0d33);
  Add (Line 0xfd1953e6245ee1082c462f3f48fd8774608596ec7cb902992e71480dc130ee0a 0xe73dcd9449823ca72f0327de75505994adf71de4f3d63d07f158fcd76a1ce145 0x8577911a0d25733c8355b68056d315597cd6a4639700a410eed2ad6fd09cc7f7 0x48108c02a5165c9c480edd77df10c6dcacbb2318d179fa7d0ec71860b597500d 0xfa3b12566255adcd00add8f1b5a4ed36b30110210599703bbe636f7602181caf 0xb7222f3b90db8fd077629ac47570f8e9ab454dabf15f28cbdd3072801791709d);
  Double (Line 0xf1bf5eae2a0c4c9ef23bb69797a3827927656b3d5c2e1dc0e927cc43f0db11ba 0x708a530e9e52c73bee87c9d88161c810005d57622c29ae691cf999a83a1187a5 0x9b884811e1f9a897fa9656dcbb6d38283ecda73c6d353e8a58a4f19b473db9c0 0xd60d7d0e5aac29a5e83ab10161b05393996cbf17bb7ccbd4263a9fbf41efcf6f 0xe449df52561243fbd126ce94724abb193a5849501c201affbecdeccb7e620583 (-0x6014c03b2e4c140700dff4d4c42084c5c173d46798f76384562d1d4ea8761e9));
  Double (Line 0x546acca7e813b1998650b06326ef6544d2d72aa88a3413c45c35c5c3ba5cef5e 0x19cf034fc48b3be219bd648395e462cf9f374b6d86b2b59e2e1b16c6cde4f5be 0x28e32b06a15ab466c3b4be68ab181947ef91d1c93f0f1c0c0a91532b6f321af2 (-0x2dd8c56aaff45fb1a9bcc2337484db46b624d92d032cb409a3cfc1fb1707cee5) 0x1bd642dc4ef524dbd26a465b157f579aa935d187cdcbd4e78e5345cb15ae6b44 (-0x1c99a50fcad92dbba75a01fdfb6a7fb6285682d323a3d2fd65fb6177004aa2e0));
  Double (Line 0x631098678fdb228e7be3f87f83e86efe5e8cb7d78b2be931475be0b75e618be4 0xaf6c44a078cb5f0d7c719c2f8397f576ee93bd034bea2219e3abc209d17cf3e8 0x784096fe85d4b30af9e73153cb246dfec362aea7ca0d435b8add0601751baea 0x17d6be378b2e949cfb54590858db0f0bdc5e54a60e7567a729268bc42b8e0b3c 0x2655d6f380f09cd7d1d75ca76b5a7606a02bccba346b85f6c46817d5fb763014 0x39e583282fe02d4fb19a89201046b3eac832a6612fcba2f53ac812c696abadfc);
  Double (Line 0x792c04e8f7afd1b9a401fb8523f74d5c81c76302b10a6726b0a0b54d60e62eac 0xc738c56b03b2abe1e8281baa743f8f9a8f7cc643df26cbee3ab150242bcbb891 0x893fb578951ad2537f718f2eacbfbbbb82314eef7880cfe917e735d9699a84c3 (-0x16182343f468d0ca66637786f8a1488f49c84e5a81d1c5d65af71f57a5b331cb0) 0x395aa435ea517470f1b8ed804752e10f71300cae9ba8c39566383d9721410901 0xb43c07ab8d5bd59c7e4768350e8dab008b5b77f63425fc688c2285049439917);
  Add (Line 0x8ad9d5ccae481c43ec6147504dc79bcd6be442d17a08e8308ba67158150af0c1 0x7caf77f8c1e3e2de797cd96b3b94a1a495787977b8943410e05bc7dd3c9221f5 0x8ba1d0b1cff10c62a1e855ffcd7897cdc89af32437a7d04e4b97e5418c378390 (-0x115df567f4375974c91bd0fa73b980f0bc850c5b0b1c1c19b9459b0b0b42fb80) 0x4b4f93dcd37372635e9bcc24545c7b2ddda6a3835a95a59246a834e3725d8a2a (-0x39cb65ca0722b362c0ccb4be36bc74d678ebed5f6a59edc88bf347a0f2e07d87));
  Double (Line 0xa12d5e05dff013873b8147dae62e9e6caf91901e3e357c1cec3858f69f0d4b2 0x5578845ecd7c037435b32a6992e7aa94647197ea49b8c9e4ddaab0784662ab1b 0xe61d07978b6de2c3cea6d0a51d2a4053f653a7746a5d64de316d18f3056f3511 (-0x1c64ec2127b90ce08a4959a3234ffc3c4910002e73e81399618ed530130f51379) 0x657a184d9445038dc7ffbdfa1505471ab982c07cf19f9d57dd3a42bcaff429 (-0x479e117b5162ce41b3c0e22beb4bb18d617ddb78fe809a45a9b484533122348));
  Add (Line 0xdcb178413b5bf8a7e6673c725205ebe2b46d08b48dfd10d6b8b5b64c7784cb5e 0x7c01d9ef6618764ae8c4698c3c038471c552ec5b95694d5672384d9f36079d64 0x2754f47ea169c0ea074d85fa301ac7c5b36a5e872ef0fa54f7c36a558a42cd3a (-0x21ce68c27bb7053c9102c970de9779019ef65c0e89c7286ffd6fa057ed5cf103) 0xbe4181b7a0b760d3d7c33d91f93e98592400494401fcf2b0dc5f9e447498a0f0 (-0x95ac2bddad0e2884643b54ba94f85ce33d01c18d6f71b021dea00b32db3ecc));
  Double (Line 0x2a2f3623eafc2706805279368e2b1c5c2afa8d5e85e53d5ba7e9d48345cf88f4 0x47f3383888a364cc4abfa3bc1d0ceccd22f12354fce3996094f869b8948b6c29 0x48ca9a8d0f032937190e48675b416c7118bb499588f994a81edee1120e537ef9 (-0x9c55b6ea0590c810380345c9488b0dc63cc8c38d191cdb9be6ff7ff6ecc944d) 0x6f38678b5be3190ef9987ad07b4e5417c203818effdc9c4c6faf85108144b9f (-0x23a5cd34604d26f5f8f98235d7c6ee0ac07d833cb17d3ddac95ca3d5faa71c2));
  Double (Line 0x292696c573b74a6cd56a72bbb1bcc0d621fb2ff611aec55bd728a03258fa9ac4 0xc0c01f34ae41b8cfe466b4c9c6a5d5f614f570d6fcbef768a81a6c8f05ff4adb 0xb84f5bee4357f5c7c937a0b4075b8cecdbc43d170d15b85fc4eff73ac351065 (-0x25439964a2f78b6f4511234230e364c76f962aa1d38c70703632cd16da200a85) 0x69d621c5a7b0c270c49ba0ca7e99de18d0796bc6f8d282ed89468a38c21338d 0x136b068de713f863bd4563ab698839852ba0ef480e41f640f0bd45e6acafcf3a);
  Double (Line 0xaa59b2dd302ea6d3ebf0bd86b52a675096448eaee3e2c37f59fe73a32ea2452c 0xd895626548b65b81e264c7637c972877d1d72e5f3a925014372e9f6588f6c14b 0xfebfaa38f2bc7eae728ec60818c340eb03428d632bb067e179363ed75d7d991f (-0x1a40d940c552bc44b7b02fca4c481de03513d149ccf41c2bad9311eabca6da01d) 0x715b40fb9ec1cc1e8e520e2aaed76e383eedfa9c79bf6d9dc9f3dc09bb2061a1 0xfdbf86982c64764665ceee09b37e2b6877990edad98e0f3cfa04c76665e527c);
  Double (Line 0x9824e79ee39825411d7bf6454d5ed23a6453d1b81b9b3a889361ae2bb1a01db9 0xfd136eef8971044e8a3a43622003a26703ecaf7a0ec40c3fba5b594b77078424 0x218da834f3c652cc67a1d191b5c5efa57cf2b1f78a2adfa8cd61eeefc671ddf1 (-0xf6e83a9e304081e099cc77108cc65597ab03761ebe744687604b753a6bdafa73) 0x5a6bd85ea484d0621ab42b6367dc2886430b148ee5b9be8fdcd1166aa31fc5b9 0x15b01a303d6de17b2b744573a66cfc7ecfd1bdc16af2aff56ead5c0d7fa285ef);
  Add (Line 0xbbfcd07191b18f5a117705fce0e545982040ce1aceba58b3c845ffc73862b517 0x853c61bc7c98a0546c2eb5ae5ee72a6cdd460dd25bef08690221fb66b6d5f487 0x136e9c6d8f3e6b67ee2496251c6ad3db6d0e4de314c380d20fb1dfb278840339 0x5ec74e3d513bd7835452e476f18bc49b58f06b9a706c3b56db1f9ec689dc3ec7 0x8a0b5230f428fc224973ce83a1d2a8525e214677b3e3091e71a4691e9135c39e 0x6c6de5423bee63b64b1ecc2369f4580bc10e5abce5b95dc5316c29010a477e8);
  Double (Line 0x1410252b4cd150f805430da05be0fa84af1a95f3bda9041d49b5dac99bde7dbc 0xd99e8e9dd9638d140e9cca5367519f861b7003a0d43f024a5f1d84ec8db1cb3c 0x36dc19ad1cc0a3a7a945bb321bceba6e6286fef8ffc8765cd88a29e36b8637a7 (-0x2e94be281bed14a399bb11581095cbe701170af64d95780bf7ce02f51fbb03248) 0x19286d36ecfda584698fa927a91ecd982de784031b782c33ee76a7eae61fb34 (-0x2c75dfa4a8d3a8cccd0a4632606c0da8f98885c20d868816eae4448535e35b8));
  Double (Line 0xd835dfd81665457b77de5400f8e630b0f3fee3384b8a278f65ff35efbac3549d 0x3fdf1619a198317a1bd8a54e5b09191d203351e0440e636fd46f68d3c385172 0x408d02c06e5c12c3fe470c7d3c8573755b9b929e90e7232b79ac67f0fccb9794 (-0x1ce500d8d0a90aba270b773875208042c1a03fc6152ac935425682cb0553235c6) 0xb69af51318fe58995b4ebb0128d58ac886e342f5b06cc428541099c3535fc2d1 (-0xb46c79b69e0c08947b138695305925d9fa600f94998ad4cc25c5f2d0d5d37409));
  Double (Line 0x31acb4e1b1cf7975d68309d78e4079a67ff7ca16b70a141bca36aa1e38f7816 0xb8da94032a957518eb0f6433571e8761ceffc73693e84edd49150a564f676e03 0x2804dfa44805a1e4d7c99cc9762808b092cc584d95ff3b511488e4e74efdf6e7 0x161028e3f437f29c986b2d84ff0fe81999b303ec52b665e062509c2072d0c1c 0x9a391c1f52684501f782ebfaf1cf8b391421a7b0d4f6cc6aa5e17033ede93 0x23183f28c71876d8b9c9c3dc7707fc0ff1c181c4c4344bf328c4926d34f12df);
  Add (Line 0x665a592e9e7e0e0834520299dd18932921e8b044837672b84a1d76bda94ea771 0xe0acbdaa856e2bb6748617420d4d2c423e4a54dda4bd9e075f05c47bff4b0b49 0x7478e0e8ffb3493866897fd6c96d2ce08b79c1ed248ffd6b7a47f7490095b54b 0x14a33fa13c089091ed7274d539bfa1c63a3f676730c5f6ad9013f1a643878752 0x28ec1ef3fa25568164a4ba743514977f8f932366d3827f1a2b4352c75a3b8552 0x248f09fbdff6d5811f7406c1b79b5e0380acea0362d600b30ea9be5d774368ba);
  Double (Line 0x9e134159fa7f342a7059c56115bfcbe4aee40bb38561a32f7d1cd882eb497297 0x6d36d105ed8cc5ce53f2cb698ab620f9469a3e5cb25bf6e6d413f414c5af726a 0xe4ba5c34e377669e72d8c66c95c50029dcc59936b4108a35c570491a13f9fc7d (-0x15f04c4f851fd3d06cf3f9d036222f779859daead5158cfde34f0ec5dd8546ab7) 0x619bc61dd53f041adb08009e881497f40c7a698486c1dbbdf97c3531fbf7e62f (-0x2eb4c2ceeeeb7c714f3b1ab78cbea46338029f5f2381ccb7e75d60ea777dfa15));
  Double (Line 0xf7f95ba71f70ffae38b8afe471517eb23276f67bb7e8587cbcc1c8f03fdd8edc 0x3ab6bde10cd3ac0cd06883fa66f0b0e3eb1309c0534b812286e2a30ca540db99 0xbaca62079be871d7fc3117a96a13e99c38d137b0e369c043e6873fe31bda78a3 0x12f560708de5589c2ae043c9244c045714daf5eadbd8c98aa0614e470e551a494 0xf03321bfea9774a7f16ebc1f349c7f646dcc21e6502484d0bf44edffb2afd5cd (-0x30eac31fb23f919df0b2e05df070d5350b6fc5b92e74304fbed32bc8c5a86844));
  Double (Line 0x775399578055e555c62520e02bf03e8454a29230887ca4369e4c87b9bb0ba8cd 0x796634e3f1ad56f0fdba069d9d07bce2ba2fd4f373ddd3ba7777bf279f1048da 0x4d8ee2b6cfb20b8956de74735a7927f2532576d8cfd74862e8f9be24a106cf01 0x85bc34aeb5f7fa0cc635f0f1973bf074123af52ef756c48780e39de8cc7e6535 0x379ed3dc23e6c8379aad69f0a74b6b8e34267433e27bee7f6e92e5df15598573 0x1d3808c2398051b042c6c1a220fc12180612f51aa1d51f2d86c0772909ac8d1f);
  Double (Line 0x500a08279b3c953b7ea4c442af79ee4fc12bb93017e4727816b4374fcac245db 0xe80fea14441fb33a7d8adab9475d7fab2019effb5156a792f1a11778e3c0df5d 0xeed1de7f638e00771e89768ca3ca94472d155e80af322ea9fcb4291b6ac9ec78 (-0x7c35f29c1b3bc8a4d69f2ffc9b445f98b3129d0e4e288598b10d0a2773b220aa) 0x1906457d64607dd54bb87aa03b9713e5b7d09d82e9234aca09ef7175d7463238 0x22995ec69a46033becadcf2c3d4d9bd05caf77b3c53110ad3d8e0a5142564796);
  Add (Line 0x5405a7785e36b9d167d595f723278e971d3bb97a4e508380e914c029d238e8b0 0xd048af46f0f1a9b2e770e18e97ca8f19fa4eaa388b7e68d3ac40553eba4ab5a1 0xcb821f7a8dfb0422233ce2e7770fe61f6ac0a859d6b447b4f109c102fb0c784d 0x26cb457bbd0c57d138a8c0fab69c91683a02f007e1ba745cef0f3e0d8a29edd 0x1b93b606f615db988abbdeb4c017584777e4ac7a4d70b8c019e196ac1b933797 (-0x5613165eefcb3ebd7cca7faedf458b09ed41205d5067fed83b24b217ce7e698));
  Double (Line 0x759f42169706492f4d893748465b0b891cf451657415eb8bad19754d88799bb8 0x440ca1f08ea41265981ac4ed1efe7a37122dcc3877d2f9162db0e78b0f83cd58 0xa6c8b0d2cd5ee122af8954dc9d4e2f02a21e4d4269c0a260b07bc069b88a3f4b (-0x19ba19264cfd6c9389ad6a3c6ce837935eca0a488f5e93bb162b1121de5c26515) 0x360af57bcf2b0091b18b1f9420c8e6f25e2a05ba8a4ec12e9675212e37c02932 (-0x4b5b885971c296a9a7e8eff7bb943b4f8365fcb7a158af3d5c39622d9147503b));
  Double (Line 0x9b2f8851451a0c4a32b655df99f323889b9f437a5ac499423c383f787a29e43e 0xf694cbaf2b966c1cc5f7f829d3a907819bc70ebcc1b229d9e81bda2712998b10 0x40a63eba61bef03d633c5ffacc46d82aeb6c64c3183c2a47f6788b1700f05e51 0x93f0d17930b35150ff01563b015d9d26552b6e46481b2445ad262f56fa383aac 0x5e1297e5c01b5daad6d9150c9e2680f6a8244fa4d9bb091049791ec19136d5fc 0x6c3997571678e3278816110d73f8335f349daedd0e66988bb53d4d6ea3876b94);
  Add (Line 0xd25daf2b3ec0a1fd31b026d1d4a74c5b91cf034cca47c79ba6a7f417cbb8df17 0x2d7268dbc9e8b611bc99e57e40958ba5b7b2236294077d7f2db8166c43f6594 0x5be2026acc697dfdd763cb6aa4d84d00bf6ab81455d1c63cca88c4fcebabea8b 0x1f787328518fbb203e781ca278170fd6b60854c97efad68484d5b2e16b6dd11b 0xacddd5abb03bc8d2990b8e1401f334008ebdfe27c23952e1d638e7b56d6ebff4 (-0xa8d250f9e918d934b61a43db103c68fbe47710b1b76b85255aae7fbf1de5701d));
  Double (Line 0xfd694f82ce17714f7e6a833cfa028cf5206ab4c04bab17679f65e28f90487e1d 0x8b6e862a3556684850b6d4f439a2595047abf695c08b6414f95a13358dd553fd 0xea5e08910ed11cb40d10bc2df4eb9fa124ac3c5a183383d0d803dad33e9be5ed (-0x24889214ddf5e96ecc980302fa72c01919ea3c594438286a961298487c4b3fa3a) 0xfad9527add59633a80bc1c09cd3e7592a414d4ec7d5877d9688df09cba02c694 (-0x6a10e6ae7a0c355bbf382c23f27a5ae640470cbb1c50858a2f82191d5ac7e467));
  Double (Line 0x6d66f1633c0ea4e3be369e04bdcfc73efac3f92d72320932c55fd0197c48e44a 0xa301697bdfcd704313ba48e51d567543f2a182031efd6915ddc07bbcc4e16070 0x7370f91cfb67e4f5081809fa25d40f9b1735dbf7c0a11a130c0d1a041e177ea1 (-0x1b831007207d2382aa16071eb5866c5b6fbce624e385d54c8697d8440827a599) 0x2ec0d2f3bfd451a06955487f1d7454a6c9b8fb266dad94e1f5d4c40956fcf226 0xa13058ac3742a60924c7a8cb34f0d4a7064fd8e1951a097aaa12bbc837b83f4);
  Add (Line 0x1e6b383d53e61c18decdfe12b494dcf476283d680b35bc7e4d5eb02c077d0c74 0xdbf81a18454ddea6d541f3c16a2e0e731ad2cb733ea3c600fd44a4cfa2e39024 0x6b735a50c85430d6720148241c6167370ab8b9f254facf19c993911840d20eee 0x130808b17edbe91c4fc87703a0cc2700cd0071cb3760bc19245328bd1d8f4986 0x39d4e166f48f4571475d221b3887c31727b1c68f11694bbf036184d9dea0618 0x19cccd034034dd585159a305b616626aaccba211e14808872d8c8f54b6822d97);
  Double (Line 0x60fb0dd8cfb159a6cc7a0b308761f2bb17857246959617835ef54989090a211d 0x27e1e59cff79f049f3e8d2419e0bff74b43965004c34b5d811420316f24ba5ae 0x310b26a6c804e209ee1b5e3cfc79df05df48a1a69afa63f784a5bfee883a45b3 (-0xdfe93e25f9a5c0730e7d580c5270394ced55b3578f9fa27a0697ece46483c85a) 0x24bd4096c3ac05ba0d5303cca082457955e16a902c7577a0c386b3947621ef35 (-0x2ea49002bfd29ed6fb40cbe1ac119161856afb9cdf37f953225de64a09882d3a));
  Double (Line 0x50018607e3d60e50bc5e7dd6ea0060dab9e5478b964170294f64677ef6f5adfd 0xc712e7a5f6864aee16588ec3892d7e4f5a39adde84fbfb4f9969175c9caed7ae 0x49644107516363b365ed4b82311dd9e5380d8e544b0ce63784d148aa46156294 0xc03bbb77767a7ca496ac970f50d70b9fdaa4b173f25262aa3ef056efde41a9e 0x1900f3c740a1d360e9d3255fa4ad5e78c907ff186bfff642a6ad7c93d216bc31 0x31c0432c5e52239b674dca9cdb769b72646ceaff5a1d2ab9889a2fb4046ecd69);
  Add (Line 0x76ad8c6a8ac55ad1b09889e9c6a81d96a91dd1bd446aef83c40f4f061310a947 0xfac00fbe9ced24e9649b893365ecf988a7af0c5d5202556aaa5192003e138c41 0x12426586265be061cf494fa852fae83cc424e0848b9c074631743ea20a4e6866 (-0x9afcf99d1604a5ae0f7656dfaf24f13da1b8e949e89485a57d2d47285274ba0) 0x370473194cf2329520333a29f799bcc0a4f1fff2ab8b8a4237df20484975dec2 0xe45093dd79ed507c282c99eb076b36b8318e472d50836cb0a9e43121da13ad1);
  Double (Line 0xcae60ba240a4434e4187587e5c8846b5fb61cb5eed6df31ef65e69275e8298dd 0xbfc0504a4b3235d065c0d426b8675fcb2c85d6f58275d791b43e1fe44a6db03 0x1955467a6c34f3453fb8ec7f94a6c99237427197345d4f0558ac8d1a464b8542 (-0x15c15132c3388cfde23892f2d20bd8615d31e2e4815ac35bc1e588cf0a6fe93fc) 0xa0cfd914f616b9c46e07ca946cb5e03879fff07bba46eedff8aa96423cae95b6 (-0x94482de376f63e098f3e148bb102e857047429389c9f3f4363c8af3e87eaad87));
  Double (Line 0x27fec578a9edadb2aa5328699c0a3cccb201d9e4c4c46c036041f20898797576 0x90ad85b389d6b936463f9d0512678de208cc330b11307fffab7ac63e3fb04ed4 0xe507a3620a38261affdcbd9427222b839aefabe1582894d991d4d48cb6ef150 0x63b862d71c47d1f0015581476fb72ec8e8184f46c7b5b09a64751eca379d4d3 0x63f9db7378a8cf8ab62d0f900d1503b04bfc19af98bde118883a2ee393ad696 0x14bb191375bf0dc2b820bef535d1ece49581fc8a8e6a5df28e1d03feb2b7fe98);
  Double (Line 0xd4f0db18fed8a66a083b386445c250011b57923062480f793ccb65d82d6f2d6b 0x7e2cd40ef8c94077f44b1d1548425e3d7e125be646707bad2818b0eda7dc0151 0x905b75082adcfab382a61a8b321ef95d889bee40aeee082c9a3bc53920721ec7 (-0xdd7aca48986e41b1a16dcbcd39515efeef51292aeb11963ae122dc90c5091330) 0xb11fcd7cf078704f177cc3fa5493d96d22c100b379d5be92fad13d94a94ce040 (-0xf63fb98b8daed0135b1c3c559f98cfcaf5e00e31794151f6a04306500651176));
  Double (Line 0x58ff873b75fe48d0de02ba7960e477f2b009a1fad79a0c13db1f838a68704f33 0xa146f52195bedace21c975bbd1ef52a79c636bf9db853cf90e103ae41345e597 0xa5a99b0ab053feb09ae95dd2dbb31b40ea67a5b221f094b07675676af45a770a (-0x56316a9cacb70890c6e5ae730feb8344048e0af8387c2f873ccde94d1586a8b7) 0x1ef0ac079103a6e673206f33a47744e9779bb4463a3a92b9459b514293677710 0xc3404f0462304c85ba5e21ed042daafdf9e71bf81507afcf822a02baa7522ad);
  Add (Line 0x4e219c18ca5619c46eaf37fc301fe79a4dda7c44b5afe42b99f0a049e5235432 0xf50cb15a62672f2e7e0ac8a9a896e1a2d52edca00b0c464f22917c18f52a81a7 0x64eb695602f6c6006cb4097be2122fac397314bf544032e85b1159cc96b53316 (-0x1b4ea546bcb7dd5510cb1b0678cd417859e183a92d0e2f19ef85f18af6252ba8) 0x17d87f88b8dedae5d78f88a3baac89b723f3686823dc7edb61120c071ed6a3cb (-0x1bd665b8f97bc826d81261e45330bce891bfb1d199919716fa16349ac99cce8));
  Double (Line 0x4a448861c49b177bf3d75a72ffbe403636a0189476ffa033360c12be26583b58 0xd24c75a1cf1993b9bcfbf9dab25a8114dbde421efeccc4e20cbb53fc4ce45444 0x58fe1d2de84dc1d1cfcb7d1810e5a78abf7593f499f1e524cb93246987dd4a57 (-0xd0b03bbe5cfe3d5b497a1099fa460a5bb8dc409c302bd24a63e90eae4163d71d) 0x158bb13142422233804b63a161e1202df118f86c7763ebb82b7ae3f62f8d0492 0xe38b6b8d7a32dd15b7cf7844ecf370fdbf193924ac29e8d3876729e79f72e77);
  Double (Line 0x857ad2cd6b2921bd076754555a30fbaa46c691e4d20c90d6ea86468cd38da973 0x8f68b9d2f63b5f339239c1ad981f162ee88c5678723ea3351b7b444c9ec4c0da 0x662a9f2dba063986de1d90c2b6be215dbbea2cfe95510bfdf23cbf79501fff82 (-0x1a9772865553569fae00a81ddb53874d1963c339e5902ed64c58d16f4c4fdb2da) 0x4598d9f70ab888e6d9f1fdd04a18fbee8a6f61585609dd9d1452f8fd79769f69 (-0x22e0682e73abcc81f5398d4340dedfcd0a23831262df4b1b5d2edaf81a85a94b));
  Add (Line 0x3cf6d0d4f96148d20deb44279534ba464073d732225d9e675a1d81a446079a3a 0xdd3625faef5ba06074669716bbd3788d89bdde815959968092f76cc4eb9a9787 0x7a188fa3520e30d461da2501045731ca941461982883395937f68d00c644a573 (-0x18346c7d616656aeddd42d723381e78c994b7e3846b312574de3e8793eaad382) 0xe849fd9d88fa7867c9d5f3fc965b7b98e944eea8fe378155ec955a2e32c23a4 (-0x5ad444672d0f7baba6739291014c19d0689b80988bcfa46b81054a215df27f9));
  Double (Line 0xcfc72646669a22e13c4fa2f56147ca7fd7babf662697196e4fab511935abdd53 0x4d49aefd784e8158fcafebe77fd9af59d89858ade7627eaee6847df84cf27076 0xcd32fc59a10dd135e723f210359ca6f06e0f2d1a7df4d8466b90b66203aa781e (-0x4b2a9d174fc00a12db59c2156ea5ea747cfc488bbb2970dc01043a682405d760) 0xa8a3aad26119c1dc8179af064489ee05e73b65e4c2a6cc237ff98ba4865aba71 (-0x35aa89c6d7603f95ac6ea76ccad7e30cee4fcb231d727ef9bc2a38a9046970f4));
  Double (Line 0x8adbeb828d3955fd13580b649ec0d51cd200054e8894fa357bb6dd39dd142198 0x7564539e85d56f8537d6619e1f5c5aa78d2a3de0889d1d4ee8dbcb5729b62026 0xc1d685413749b3c65231df524a722925684aacd954b79f334172c8fadace0cf3 0x989b4d6c0cd53d2c9358d62e376a1abdf929adf7d8185d7396733a3a4ae0a9cc 0x4b51d6d58a4862a8f7dc310772897420938f4f7a537558d5b8f2a46517dc3832 0x15c0d06e8fd868192d36282880604791327e4f30579bd7fbab368e75c59c6a3f);
  Double (Line 0x8fd62364fc6918a7b6ad07b7300fbb01b94e5f0fc41d37bcc1f45a015cdc44a6 0x210a917ad9df27796746ff301ad9ccc878f61a5f1ff4082b5364dacd57b4a278 0x670e1b5450b5e57b7a39be81f8d6737d3789e61aaff20bfc7f2713fd0c7b2231 0x38535dde3a98b8e7116a21a93972f0a501ebecf45dbfdc6cd4b8f93b2fd5ab48 0x50d0eeaa03b82e1b7e32ea9100d86cbbb1c53a4118a8905e8efd09678d4f3d20 (-0x2f64b223c2a6049c1647f984a02f0c11ed52476522e7280c84681ea95e469750));
  Double (Line 0xd9a2254eb1165724d49b7f402b59327424e10d29788a1a1b00e957605bca3d62 0xe4f3fb0176af85d65ff99ff9198c36091f48e86503681e3e6686fd5053231e11 0x1e63633ad0ef4f1c1661a6d0ea02b7286cc7e74ec951d1c9822c38576feb73bc 0xa26d4864e14a303963a646211c7eef660d82fbf632c39fbe0decd3bc0c20687c 0xb90449f2a53fd763945a58e25e3bca8dbc38a26634e05270cd32fa9dc30e31ed 0xa68cf0b4d6fff23c112668113d4e5184ba7ce8993c477ccf45eeb5dd86f331b1);
  Double (Line 0xe838298a11c6053304d86bdaf61c5c8d69f0d9a71cdac755d0eef49f886c88a5 0x4b30cbb7686773e01ec64110abdb362f88531a825ba172953bfee2233bcdaf2f 0x74c6350265bb629b6f9e2c5777c3c4a91fdf3c81e434857568033d463d26b5b7 (-0x22f2905b0a14e528212c5461e833b093fcf0185f668a161a52f75e90824b35fe5) 0xd2a5d79c735c3437577e3a976b6ac4848809719d9f289424d2fa83a30430b778 (-0x8b7a9e80a59bb07a49a0ad9c6d2702502c90d31d6eafd49eeff2ac63679b9479));
  Double (Line 0xc32552ee2210231698d000b389e2f9bb93532e3f3c0dc62634ad9f14b80b3a81 0xcbb434aa7ae1700dcd15b20b17464817ec11715050e0fa192ffe9c29a673059f 0x4a1a200ab4dabd17562d492338b5dfad41d45e4f0ad5f845b7da9642227c070c 0x6fc71fb5b90fe1e0c0dc745aaa07f8037f4dcd9c42d96859ef23b5b7d2ff5065 0x94c1e1c7db97d97442590f718363803102e838c2116da8694a152de73a10aa3c 0x61f6d590f5179262a58fd5cf6598c868937162bb855078f0637bdbba8636ac3d);
  Double (Line 0x5b992fd2d78850b42b957a04c4217803e73a2f75edc048f1fe7f5d849cd9661f 0xf478056d9c102c1cd06d7b1e7557244c6d9cdac5874610e94d4786e106de12c0 0x7f09e610f33e3946e68095e01068694c26c17ef609ab92d769a76ce6ca5361fe (-0x1b13e9d6fdb951c61211c038d3c4687571c01e3aa3a4d2704f170531db9c6a295) 0x20c643aa182fa31aed152d281b40a6fab06ad14cf514c653927ec4caac3832ad 0xe95ffdaa7b1ae25326a8facba46cd74e2b8896959c446ef101c790937f1db47);
  Double (Line 0x33fa37f998b0740bd3d01ebf4eb5dca5fd795ca30bb2b700f6c2c5246c91c493 0x8c00fa9b18ebf331eb961537a45a4266c7034f2f0d4e1d0716fb6eae20eae29e 0xefa47267fea521a1a9dc343a3736c974c2fadafa81e36c54e7d2a4c66702414b (-0x288c8bf4c056e3700552fd53dda00ba8428a306b08ca18c351a5f9635b198df74) 0xa8da6ded291b9d591af762f8f7950444d4ce97e8c2571af77cf6f31f08246a5 (-0x1535d23fef1fb943ea7bc7a4527ce904439469af82adbb4d2a7b433ef2fdcb53));
  Double (Line 0x6c647a1f5541b1be021e4f77cd01120521d0d33c945d4d43da55868291df55d1 0x24cfc0176da2b46fa8bb5bf9636be1effd7e297f29122fb3e84c9ab0c18ada5f 0xebff8fbb079c61a69868714d5deda927ed959ca1a4f814f268fa6139978a586b (-0x1ac458ab4328ca5fda95119f22090a55a0e07e855224e39c514c0f33908f6bca) 0x2de4ee7a12abea638df211a87cf3fe920bd8cb804df071fc20d8915d832dfbda (-0x2bb145247ee8783c520471d18718d9301a1e40d74d2cee42e92b502906a64397));
  Double (Line 0xa881cca3218459c4678bb25fbc018ebb7201965d2d05436f7cddc2a67995862e 0x4a7d58d4b9bc82ea2ded72a1292ec616ddd67fc7f057edf103189594679da2 0xb98ac5b76702cb75e6b1d8147ec71b3b71c3b494963fa28a4877f484779ffe26 0x126cd79a400354cc5d119bff03d7499a47b05de534eee490f242d3721bc5afd1f 0x6eea9e65fbf9e292e1d66d9b4022312e3f052cd64083d0b5d81b3ec53f2f535c (-0x1809f8252d35606ca23d2236d2672aa987a7d73d435754202a5acbd29d6e52ab));
  Double (Line 0x9176aa61da3a43f2c3aa722d4938d534e45ea3c34dd7d52d38fe3a4e4b052794 0xee7d69c4cbd001c7fc76c5e2c066ce4996f8808a1e07b2a9ccf34eadc87c4b65 0xecc8626ec1a413821a192abf030f2ee2c33e8999bae942e523e8f44ed136a95a 0xd2daf5dc0fa9cb2377adad42070e595490bbf42939eea6cb393c10b9653c18dc 0x52a7a4045cd149ec21e0a94b86c879ce087c3462ac0562b0b59fda9d1b28fac9 0x875941eafe105c942d93e1628a609660af23a5c2bacfa588401daaf260688784);
  Double (Line 0x15f335679cf24d02b0b55fdd7638c68285de4d357daa4be71b389ad9535365de 0xe7a26ce69dd4829f3e10cec0a9e98ed3143d084f308b92c0997fddfc60cb3e41 0x2a758e300fa7984b471b006a1aafbb18d0a6b2c0420e83e20e8a9421cf2cfd51 (-0x271ed82f3742c6d7c14de9ec3dc89dfd424dfd75d419e364b83013392e7b8e5fd) 0x1e1cdd16d97c58ca32e82949716599668e5b752b6dbc858467737d32c3974d7 (-0x967a0a5d54f33bfb5ba0e9dce519eb05f9e0d946da16158f3cb3a641396203));
  Double (Line 0xd752c21abb9fa74c23cf9a0a508bceb1e8ebf1a05fa786e83dfcabe7215cc4f8 0xf5cafaba036bf8d00d38bfb6772089f5203c35e4d6e32fa9d97e5b917b4ae861 0x19e83b8a022a6d817bff9904640839159b3b2a9c552f05f3cc9c239c0d82239c (-0x22d56ae3bbe6606eb4c7c8bce1776ec7b78af5bc405e7e0d914e1d6faee15a4dd) 0xb51c1cc9d372e471b06da97467c38f360e9ccd7d46e89705f00ada40d1eb5233 0xbe8a2d62e01cd461e9ba93e7f9f63392bdf5df971d1af8cc532c0e0162182a3);
  Double (Line 0x8b3d8da9821538c4475232b06093d3fa288c68c003427d39f1ced9e3bbfc8c3b 0xe9389024ceb63f1f12df5156d7e805428f9e509c494c982084fd4cd7bd2a9651 0x8648688723726595f9287abaf671aaf18d7110cec6770bfefefde2b75e786824 (-0x2a7cbc889aa55cda48db0fc0a8e3d9f04aea8dcb6912704ac067f9067f27d8395) 0x4bbbe6a2e46f334a95a3f9581c856a8fbadeb40063be1a871ad3bfceff3f5a5a (-0x6d685b760ec2a946844c3e0bd19dc06135fcc8b8307044c169e2e372a4e9510));
  Double (Line 0x4836f38b45f2a424931add7980a31bf02d932c6fc999d1fc31ab23c7225027cf 0x264559d87829256bed116900d82d0c379f0e4d1253c68e6fcf2d41ae7cddab8b 0x79e5bd1926d3512cef7bc637034072d77a8631af39caf1e6c9f64b45001de473 (-0x231a5a7cf753be2897daa5fa35da9d1b2cee0737660a3c737e0c82886553d2a45) 0x145ef4c9fdcbb1417e658d5cfcf0ac90940946053f159843068eb4c21de4210c (-0x36fe4009d84f37244cee64f7277e1fc578021484128548bce18872e42ab584ed));
  Double (Line 0xe8336acb6dc9e42fab137b0020cf959c58beb9c8dbd24817f0db4d4de21a0ce0 0xb6459e0ee3662ec8d23540c223bcbdc571cbcb967d79424f3cf29eb3de6b80ef 0x67c876d06f3e06de1dadf16e5661db3c4b3ae6d48e35b2ff30bf0b61a71ba45 0xcbf76199743574d1e5c111bc598fbd56cb425bac3a8e4f9b9a5ace5ca9a2a63b 0xd29d3be47098c499cf4e61816634ac3126f883d84f8a36728c96a158d212ddf5 0x829d29f1723cfacf23dc556443b0b37224050b751ba70f35542a183e413a3748);
  Double (Line 0x2ecde3a1819b7740be340e73abd290b7be207dc8b994187f22de6eae9bc0bf87 0xe5d8e8f0d9823c88e4d36f7301f41593b6890576be79c211253ef375033eb51f 0x4dc1e9b7861e3e04abb16a57d8feeef0e509dc46d9f0f54979d5bd965a62a2d9 (-0x182f5ff5e285ae9789170f1a898780fba5fb1e433c75be9ce1d684a1cb482cef3) 0x88ea36465a543963eb231e925c036417a1e69fa04e5ffbb40581aff4761d00c 0x8b2bab53049b159e1cc315a4a471df49530f87b640a3e416e50a2ae322312f2);
  Double (Line 0xd3eaf468a8bc9da649bfda360e58123d08a8994961d8dcc798e8f327d77a7b58 0xa9ca27f77dbc8c3dc56b0f7321bae0ddab66be4fa8a3011737a676480f155e64 0xf4bb335678fb14d4d197d2246c02d004875d41821bcaf0ae1f3f333c561b3297 (-0x1ea5cf75d6a6a8d164c709d37784cdd677cde431fac0b91cf4a56f31c38459b5d) 0xaf6d26883ed31121668e4203d86d40fdfc19da374f130ccb15eb059ce9da56c2 (-0x31b747e08813d23c2e755c0ebab44b709e58f98f238b17355381eea67c12bba8));
  Double (Line 0xcf169a730ff6bd430feeadfce090a00b8759d8d0bf889fc3f149e8b8873558e6 0x68fb71800686d7f25eba105611cfe7591f478e847f51cee06d4bc629d6ee247c 0xcd12d23462dd963673735427501b0c079a8d580b04c73c9dae1f822d1a01865d 0x3a1c5b484c848edf5d69075d6890f2137350d585a9fa10dfea04d691eae1331c 0xa7858fc4fcc667672fac4bce7911b93fb2810eda2fff84c8befc64a8e6f690a0 (-0x346cde67c25314053fba7b80e4ac2a437b64f3a29e8f000c6432368b3605bf44));
  Double (Line 0xb2059641ab0bedb3d33165cfdd3f28ea07ce982b23a5c2c28b0b13e0d6398458 0xd68a80c8280bb840793234aa118f06231d6f1fc67e73c5a5deda0f5b496943e8 0xdb8ba9fff4b586d00c4b1f9177b0e28b5b0e7b8f7845295a294c84266b133120 0x9c0f5638f97080489c084b8158a1520bef15a7a81d69d87b026dfddd919e9840 0x7bcbc512889e4a4fa39d526eb27e5bce5745bd754be36cbf7973635b26f28ca0 0x4c2fdcb96131da984b257b8044af23a1bf3143f522abfbb4fcd8fc0fdb696cf3);
  Double (Line 0xadd2fbf87697aae5ab2e2dcaaf5124953800e7ee86c6dac559dcf3af6cf0dbcb 0xf16a409c677a40be402f8efb3752373caced053c6f702b828bda222ca412b6fd 0x2a41311714532799d7a6a75a74e30e4e16540659249ebca4268dae77eca052da (-0xf13ee9a4508d9b43e215225f874fcee253efda06ef83aa979c70d2632ad74200) 0x7606d6702becb7823012e7b60f93d12464140e4c94b5ceb9c8388986ddf56794 0x123f5aa14143b90e767e340e94af17165f614d57800dc113b97b9dc69495902f);
  Double (Line 0x9287be7f0afa6983cd699e3214e93be3f148051bc4fb4ef320c804f4b794300b 0x4154b506ab766f42fbe37f699976f84db89f4f2f6bed98325c1a0b6e326dd4e4 0x23ad075043c5988894c6e44d61025ff6414ea9d9d1e22dd46c859295075ded1c (-0x27a9c819d5746555e29cd2b932b2a9587f55aa18df5d398ca994f98fa095c6fd1) 0x53df1d43604407cd38dbf8b51b4038098410c5a83b38662d7e079f7e8fe57e55 (-0x64c9a7ff6106c96088754de7a7bd7631bcfb924fb2d315225adcb18ccbbe8273));
  Double (Line 0x9c9fd4930c70494186b5d5d9d890e2bcce7206cf188411b34d3b67ea6f8c28a2 0xb73c652769cc95c1080a8d4d0b5956ea93e86e49fc727ddf4c51a7a63f7f0246 0x9a67db107174ca9d4b535893c5b6c1ea1a0d72e4c6e554e5597e5164ea2a407b (-0x65cf2c595c76e491212dd26640a2edaaa447375666f8e3b133ef18195a90240) 0x5fd32edcf6562dd41e7652fd567d59ef5e2b4be5a8368818e261b940f95e416a 0x4822cc21eff28abf316138bdf59d4ae9925f4b9f49a8e3bfcddcb287583fa655);
  Double (Line 0x34d435f849f01d44561214651ddf3211d592d451d2a86f8735fb65f4cd4bcfdb 0x324aed7df65c804252dc0270907a30b09612aeb973449cea4095980fc28d3d5d 0x648a365774b61f2ff130c0c35aec1f4f19213b0c7e332843967224af96ab7c84 (-0x149bc067dbeab25194725700bf6dcb957f1229b7032591bc99f7d4600c6410a26) 0xae6e5d64ca4c100fed7b82cf7a5c7904f44f8f0ca9185ed837d4b6bf3708790 (-0x1b6f404c71ddeaefeaef39124adcebdf5a2e8eb5b7c0c908846bfd8b9b9afeec));
  Double (Line 0x7b7846b99d2cb887dc01de992223a08bd13234db3fadf04f7cd70e0a52208267 0x32c9331ea26f490228d32681880d7203f72b3e4a8de0db1fa8f38381b2919749 0xd7cd272b34209cb5695a2f02b6f3dbb8268a4abdae39ab09631e97b0f290b5e3 0x4357393e44f05ae96814658e2900da6ec57296f93bbbfd12ffb5c243ffaa0eb3 0x3b8ccc78be965bc88cd4f07b6e5f35b480f06ab2a4a664ffe9f072617751e1f2 0x3ce6c7b895762e486561d2cd2b3193c041635883906933a9434a47fddd5f95);
  Double (Line 0xf7a26b6a8ce590440204968eaf4da18c5dc4f489c2df35ce2ffc02fc468a6fa9 0xeb292f3b3b9837854a02f6a70fec6b1c69c161b6e1846b8e1e1c22527b9795e4 0x8c43c25a96eebe801696634af145835b57131d7509111c6f5b7e9d2fae53a0fe 0x1834614083c279526b4ef48dbbbd82731a6029368fe1ecf941be84b98f2915d2d 0xef8ad253bbcf8d0eb4379dfd31b2d5e90ac4f8cfea54271caa0c902b759e7ad5 0xb2599659fd7795861cbe32f498fcc689a1c64359ce49e7183f45d97c1c26920c);
  Double (Line 0x1100fdec7e6383675829d155e86ec171267c223e1af2130f62dd917a4ab681ea 0xa65a3a01df3b5ef2e620d4310049fbe14d71457f19d1ed35aea39d5789303fdd 0x798ea0940cff5c6fb8f43d8d90ed2c7686861d024faed3cadad44a8d02e68703 (-0x2756bd3f39dab34757495f13fa38ffba5d32f3b5eeaf052d33bd874fa289992a8) 0x12121ba64a683bdb15034a33de6c1dbd32abd13bb1f714499c30a7598900af1 (-0x4920288e83e87975f5a2880ecd87e0579dd1b9758acf7c9e6793f1feeeed2ab));
  Double (Line 0xa210709fd33d3229ed42eb3f8adbf0b5aa1160af5247148199a372de4e262559 0x4df9c14919cde61f6d51dfdbe5fee5dceec4143ba8d1ca888e8bd373fd054c96 0x35ec51092d8728050974c23a1d85d4b5d506cdc288490192ebac06cad10d5d (-0xaa634911c4a75ba3e24c2d00ea540ca179f6ea3595c8fa92add15e2fb26ad9cb) 0x6698cf988ce017c0f5bd491b299353cdcc2f1848cdae10b33f76814f2bf2402f (-0x37f2b94dda24123e43352f6b7764a9a27e1326e48973220b23c1a4261003f3e1));
  Double (Line 0x372b7dac49413e4c9dad265782bb7a697f6b7066a48cf5559b1227cbfb02729a 0xed32cad8d2cc998cd25317d4e4b87088e9de4554e57a8d70c0c6b0fc1da49e04 0x129fef5f1d030204a541ca375859d20b52da9facb49fab7db63120d17c1db9e0 (-0x472957f17c75e4c663d2241f9644458fe9165c308eab42b1ae322a5de1e352b8) 0xbe3b7637d0c582c14f62dbbd7ad79f07526c906f28ba0abe7ff080c14fe28cc 0x22504dcc7d703d2e2d601d9c3609f5f5432cae75fa436a128073003c67699fe7);
  Double (Line 0xa9587d010c296df8256bb52abcc9f14a8096637c08c53b90c2508e512193e884 0xe821ab724d6360f18049e4111c70366e28c36dcb63c34016cb7418d4e883f855 0xadefcbf863f53ce367d0d4115416cf598b3b19c614ec23efed4e0c6a59852ddf (-0x27ab136cb7eba80237113b9b388b032551a25465410c15c17e71b0d6d5e8db5d0) 0x7005f3a18fd1158eca4d08be20a2e7ff3806b975585839c6be922b2b44b7afbd (-0x35a0e16daf42078edf84fe823770ba0789d3b11d37857b6a51d5f8f69a34913));
  Double (Line 0xf2eb75eec8d833de051f90e5ce580682965818417ad8deeddf4e6b867fdd2966 0x3f0d8994e51ad212f455452fbc9693a72f14a547af3806e9fbff59eeb441742e 0xfbd76c23f28c3dc445e5cb0e847a6e0b1e205e2c3ad13d958c65363bcfecadbe (-0x12d5dcd62b569fad62db35ec23bf0208518ec415bdc329689b646e2b655adc5b9) 0xe68203892e71a14eaa48ff095a56ea160668e8e1c4b7f0a14772b247fc055df4 (-0xa0708b624bab83dcd537a505a337142698869585a31efd84b896b69b41d5d7a3));
  Double (Line 0xf285b9d782f0c0358d78c0660d654c01b9a4854ddc7b5cebf22e5cbfc0c44685 0x9c3919a84a474870faed8a9c1cc66021523489054d7f0308cbfc99c8ac1f98cd 0xddb84f0f4a4ddd57584f044bf260e641905326f76c64c8e6be7e5e03d4fc599d 0x1ae9364a41035b78de732670826cfd3b49a02213b48ce0c4ea2559dece9c45b60 0xe5c1193614666a3a2046f1445aac5ef48c81148e6f8561d1ba16f13c7de8d310 0x5843d9771a135a5a901678f422de41e30519fb440316724677e000b8e5f10bea);
  Double (Line 0x7200f1a08c4d4fa4b78f1a5ccf3dcd2a05dac0177c506d88589c5ec2a987e9a 0x2e3c05326255d80f0a42fc69d5c92aa40cd326a53e8535f0435efb7b694a09ec 0x1ff891656c6fb5bddae240b82fc1abe048a53c707b66512534868188c7327e (-0x111a94f7552579c0b30099170b6f0d7480d6e7beb8d26bbfa3f50abd1a55cf119) 0x32c4d733e10487c7f0f7c970b5b8c1203a7da0b64e026a3975ca8bc8e15b42 (-0x30fb1aecbc00eb9e5f7c149c1e3b834631960c6e3405d4fcb29b51eccb8d3f1));
  Double (Line 0xdab54b18d28903cf90b96a82c856b347b5809ef67d80f359ed223c17009cb9c5 0xe8e2a24ccfa41587ae15fb7e3e24dda433710316a1908934205f19a2ab9c7ce6 0x46c983ce0c6f5d1b4caf2b2b3bee20596e09e603b5c27a73b2c01eb68836267c (-0x18d63f31c1015e9e33a26ecf4e6b56634effc0779925497d8f1815d19d77647c) 0xbad944498db29e01550fd8e4bef72cba48a671a5c737def51a62c2be46a1bf15 0x9f7610567de9f3fb68098a14cd0cbd99ea56d6b3bd605607dc5dadd9a029f564);
  Double (Line 0x40f885d90dd61ea2f5659e2f2bf302f4e2bf09826f62d88a8053c5b509a23510 0xa7549aac5d8573c2b2f0a38b170032a212acaf92383d5b5f5b0d39668ac7b3c2 0xbd17d1b90d1c2415335a1d70c1947d2b5d6b5115537116dffa0c91719287eaef (-0x257a47a0ebaebc3ef2a5ff584650e06ddd508d159766ae8ee6527d5f13bed1b54) 0x107d343021711e95c802f96d770b0927c12361596df2986f6e23e22b9712cd2e (-0x10a325c5dedc135e8126a02e9d001b22cddd03f6d99efaae17a68f54f27e0a3b));
  Double (Line 0x1cc8488cc365cea31f2fa2bfdaf2cc934a7ee50cabfd150becf69e6f4461d10b 0x6057170b1dd12fdf8de05f281d8e06bb91e1493a8b91d4cc5a21382120a959e5 0x9a1af0b26a6a4807add9a2daf71df262465152bc3ee24c65e899be932385a2a8 (-0x11d996302bd0f265928a4ae6f7624b3f998dd39d82aa047cb6431169039f42f1e) 0x33c6c903b3f0f961e6d2b46605540c8026601968821fac39df373dc1bd987f0 (-0x7fb4492ceca28f16950aa35d7779ba646d7b6b7ca4104977146b1611c330098));
  Double (Line 0x540888725efd001e10d388737cf1cfa7349e1f8870aa9655492e125f3f6807ab 0x6773fd677c52e0640394110a46dc85df7c133f8dd4a28e661899ca5d82fd545c 0x444eb6d8cd97652f0f0f25c9dd2b246bead780f5a1c6cf98e8c7f034947eb1ae (-0x79858d092e5bfbfe4175379bb88212bcffc4d6fb64cdd4a28e818de8eea4bd5) 0x1b9599d3de35afe9499eb18b5e5f58d75faf4cc38b53eed96f908a80fec9895d 0x255b84809c8cd76602150510256ab703a15d296b4362204f796cfd427a2e69d);
  Double (Line 0xcbd459afdcc89e756164c6f50b08e8231a953ba7807175a99eeabdad06dbbab3 0xe0f86d94d17ce565237c79aace0c87c20374e43810468050373c616b0b86f021 0xc571c73730abcf47a91e832f1c89a2c9a80bcc0115fc45b3b6b79ccb5bf325a (-0x10a5772d81d8975ecf115b0846910af9320f7d51a4f28c6cbd94d2fe71bbe8e4) 0xa24a766192d797e7b1bed237185b4910087ce5346c4995f1da9b898a22c660b0 0x60c0d1335d685572ea4b706106b3836388e0b52a3ee600a18ca411ff315cb6e9);
  Double (Line 0x5e4c5a26fd030caab23e28ab4cfd0f3bb05b85f1a3af85084a01f8e337e2c301 0x42ca15ab9f245041ce991e193d696f4f4c277df908cad6038ad0772c02da6e03 0x68d2ef26c81c57c9647ce4d1fcb800eed66e85a68106bea7836889fa8c347793 (-0x24803bd3c1a3f433128dbc6c7bca15bc8cc7a3f2a33a533d30773ccb40c0b7621) 0x22bc28fa48b3e6f31c1e49d9423b8ecc3f72fad7f107cbe20c5ef46d26b96904 (-0x3a4431be1bd630a000c25154f0220a8d035a7b4b84100fd9034c3c0cf563bf9f));
  Double (Line 0xd7b2ac50e5f422a44b5fa8e1e17009beea07a30d87d1a22f1b645e1a2b9436cb 0xa576df8e23a08411421439a4518da31880cef0fba7d4df12b1a6973eecb94266 0x40a6bf20e76640b2c92b97afe58cd82c432e10a7f514d9f3ee8be11ae1b28ec8 0x7c5e280d4f5e58c3bf026e6702cc347847d52354fb555141777b3c4f876090a9 0xb5bd9a23f6bca840b8c49975e639a43bcb3aa94bdebc4600596dcf3320d86e03 0x5323fc1ce30a604e6cd28bf1d13115f5a065b680eef22a70f8d2ee7247fa97e4);
  Double (Line 0x6f6f2e174458f1d58240ba2cfac0d9070d865a2d820ca850f93c92ac5eabd882 0x9e5dcc62ef3b5a3b546520867be71bae6f3ba063c9acfb8dcec5725bda704896 0x6fedd12ddb925f3ea5fd3a2154c7612279605d186030f51248f2769dca82c835 (-0x1088e9880482d15736ad2f787c2da2ca3058e19a0c87bdaff4c8d1cb8e7dc3ef4) 0x30819a412dbec5862f3ea421b36dee5a7324e922feea0a72cd632c8b9cc3c2fe (-0x316f476320b31b75fb63610e0a4de2d9a169396622bc2f42628ca549fb95dcd));
  Double (Line 0x287a0f5419f0c50b86e3d4e36a2093c4853f9fcfcd9c9918115a50d610bd0574 0xa7de08375b8745adf8d6e9f976f03b20e33625a05cef5833953ed58744bf7ea0 0xa63d96b057ada5e52104a0b334888e9a645a47c0febc5aa2e04c05539bbcabaa (-0x10282b287a9800fdf6646c577a370a57a17873a56ebdd609f5b31ddd9173d579c) 0x6665efce52eedbaa8dd55fb8001d9cad113d79e2cf7524d74cf2add0a115a7c 0x180910756b302640b50ad8379618d6889a0a4dadef253a526fafc4e8ea31749);
  Double (Line 0x9889077ff7088509a52a94303f520cd847b1998c048b4457312e0c5c1a9507ea 0xc266658e689080c9c13c35ac01cff4cbe68065fde949e4a3a9f8fa104ad916fb 0xe7e8593854e7daab0f798170b24627ab6b8fecdfeb61138856aef52ba0887814 (-0x841f33452c07199bdb57aba80fe0b1c378109643323ac209c5ca58b875dc6048) 0x5ae30240fc88c49358914f274da463018778f6247a157045dddc0b239cf9e5a7 0xfcf2b2ca12198af99c09875de5b1414ba93128f17cd61095f2756c83cad83d4);
  Double (Line 0xc519b871bb990b190be26744246550363e9ccf0909487de80822bc5c0c725b3f 0x7778a78c28dec3e30a05fe9629de8c38bb30d1f5cf9a3a208f763889be58ad71 0x34626d9ab5a5b22ff7098e12f2ff580087b38411ff24ac563b513fc1fd9f43ac (-0x55c3ddc495d0286d4aa781619861c9f1dc3bd8f97da6f2d5e4d88af1fd04defd) 0x97c0987495d3df2bddb7840dd96c48acaff922fc52304655a64ee6e31abbfb06 (-0x39b07a6b73a6f0a09a79daa5bfffaa2ff45794a3adb19eb92a1870454d476caa));
  Double (Line 0xc7816876ad9abbf99acb73461760051cde30b403c126a5d18def648dcd8a3255 0xe7b9796b5ca006d1632f482d7f0fe3932cf16a5ae104eea7a7ea1c251073e879 0x12b8988c19169e2fdf42102a737cc1ca9cb5bf25eda98af338e71089baa89d98 (-0x559e318be5fef9551b36f331287be7f9f8b6064f0484c62c1dabeae84f119185) 0x9b7a71d2f4222a41b950e5b733bde06abce7c366edb7a86d4ddcbe5cfc199382 0x577b219ca1f760914228d1affb4a4edc294551c9016b9cbd60f9418340950cd4);
  Double (Line 0x35ddc1c3218ad84fc1545f6ca20f19705f4cee46b36e21e1ffd9f4f28793f197 0x71bf01850876203c2c915a24be09a7365423daaf2aee919865d722bf2628f0f 0x527aa15d504dcf4ae33600bc1c084ce2098f9c6a231c80bbb57c5cbd45a1c334 (-0x26d5fe0492357cabdaedd1193296d675e2fcee28718ea60335924fe059d9e322d) 0xb559252e9733499f7d39d43f7b0191c42d7bd6c5005d59fb8b71a19df5f15f0 (-0x2f432f6fb827e330442d208dfee0a749302a023d0e63ca6a3c3de35580d61466));
  Double (Line 0x634da6c426d7e9540c4ec18599a4aac7b6f27f4541aa9c5ec26df1f1922fde6c 0x218343acb9be56833a32e594c03c39e5b1911c8501213786f6376dfa39620e1 0xbea81d48970a50beaf3f24fd602fbfc0443299a42f43c9ec5e0199f6506998b5 0x3f65437f1c3028bedba9bf731c97bd836696b451fa5f015a9ee01a786e64a853 0x2685268974ad5504e12f69156e4388b62dd4c0667fa4d7b711b9e99f0b3f013f (-0x1f1f70a6f784e66ce778d6eb6c7b1b3a19b70bef22711c0534e921e9b8a09b1));
  Double (Line 0xe8150724b4cc461557c8359ad74ec82e5eaa15d665db3306a7517390d4f9a142 0x928955ee637a84463729fd30e7afd2ed5f96274e5ad7e5cb09eda9c06d903ac 0xc25621003d3f42a827b78a13093a95eeac3d26efa8a8d83fc5180e935bcd091f 0x159a2ddfbfb44b51dc84f2ab6bffeb953020c78e26302beae4196800fae8801bf 0xd2661eacb3eaefb0b3940e5cdd88c953f01bbeedcdbf9370952031e7b6de364a 0x6676c9326062476646dfec8bec9ffda4275c159f9b753a3411ee82015bd90f6);
  Double (Line 0xfe85fc2db040e0bf7f52d908972234ce554af464e48dc688262d664d91d26ef2 0x4f89bdee3771d350dad163b04cb18ad67ce5e9c55b58f0e7231047a60f59dd9e 0xca7952d5227a1f695c4baf4c043bb2471e4882506638df5c1016ae320156b049 0x18172b30a9fa3c929267f5bc4064391d6e903c926f63e9491ad387883b1ebb7d4 0xfd0e268aa9a3dc8cb243fe38e15f62cd567ef07979394831a1dd8a7630aceb92 0x45f93c0c7882c10b9a2bd1502e8d05c8d340fd3c95d44683d569e86f835fdf94);
  Double (Line 0x9b3653fccbfb063809d9bd9c7697e235a29eb0e52279887b1d3729fb5b679b31 0xcb9e8304cae3c5a80c396baca2c3c4c994b668f079a245bf529c314cfff01197 0x62c7d2801eb80e6a127258cdff08891741b2d18c015e0a24c334e0763b989c1d 0xab61f25602999746d261af9cc4165d72685d143e637777dac9a76afe5fdbc57a 0x5e1ad53ba935ed557a567a301ce8055ad2ada754cdb4baf47b383dac00888cd2 0x4b3ae86b813f8f74c90910598792cd40aa6b7f22e1729a00da9091b78ff18021);
  Double (Line 0x9af09d487e0b537a82b89893d84e5748912cfa7c4d1e82a889fb3a08966ec885 0xe2f349b0f89c69bd3c8cf2a410730dc58e0beed47048c58c15f9ffc2508d2cc2 0x1feb2f280f82723781860aec760215ba42344be8e09cbdb37e347bd8e0d4c04f (-0x16e4c3880e52cb415b7b4619c2b5104afe8968f0a293adeb198302dcc06d6f8bf) 0x5dc65f628033f4ccf3cd919cc8dc9bd3ed1d6c7bc7f2122a4f7a46b1e88dc627 0xe1eed536e182a4e9a1fea645d6cd656da4df675c1290b2175c5a67147603aad);
  Double (Line 0x6eaae5507193866000abd5a64adac8a3737a5dc078c8273a372cba8385e9f1d7 0x85d0fef3ec6db109399064f3a0e3b2855645b4a907ad354527aae75163d82751 0x1f03648413a38c0be29d496e582cf5663e8751e96877331582c237a24eb1f962 (-0x23ffea5e4763161dc68649f4441036271f0e902fa78c2af74a11ed31503d426c6) 0x2fd74f267ddaa3e21513deaada319581b39e3ca607e1bd8f457548a97435bf04 (-0x2842e84fcdaa6feed7cd5cc73f95deb28a6c9ebdf5dc12b836bafc7ec025deaa));
  Double (Line 0xdddfc2224c76486c7cf9a8aad85abc295a5272e88b500a0a3fa5d2868ca0cfb4 0x6b790f4b19a4c4f4f607a6cfcd11df0468b482e009711ff756356d141d5fcade 0xd03a981b2ff9eb3ef296661f9cae09cba83fa5b47be26b0ab6fff86fc338d3ff (-0x9c16681b9e11356807578763a92c173bc48fcaabdcff5456ed76c810e2be345d) 0xc04c18c302fd6f9928cee40dabd9fad13fc4ea014cf1926555c818bf947fbff0 (-0x16d4f078ad311c1de14c444e971ce45eb675af9818271c88d79343d2d17f4175));
  Double (Line 0x2f57949e5699197663093203346d7d5f2bec999ac95a01ab37134aa771c45fe6 0x41149b2c2d7ebed3c162c367acc4f8fe3d2479de85978be0bb0ccdabe3a3e0cb 0xc90d5b92db7c30542b415c9b9902cf28b3ec7805ef490f2470e92e98339033a8 (-0x3a5746a604db99619859b06b0196e5792340d84cb26894aa2c8ac8ea7faaee28) 0x8c146887db28978ce8c39ed09302bb6a68a9acb9409bd2e62fc64dd69e1ad73 (-0x7d6f2116f55e0eb1cd0f788ca288300bd629926fdd5b5b26e80af4178351285));
  Double (Line 0x49129c375ba6e6bb5695fc239fa9414fc1f82bfe3acc41f1a4d2696df87f6430 0xd1fad4fa4e7c849dfaec3dfe2872a7ba664a9b8205c29cebf8dddd28e3f3d3fc 0x8fe19714a348fdfe5473f70e858b7818bad37131eff37326ed22343c50f3704d 0x4124701ab8f1ae32634149f38ddb03d88d5f9da82611194f1d6dfb9ce0ea66fb 0x14db9e71e96196bb357541c30046d162fd56f4cf2e93f39c46d7ac6f253ca1f2 0x295c2f1778770510f02e3a56968ca988095e09e87f941622b23e827589d8beeb);
  Double (Line 0xfa027415863d41fa371c2dc21e44b0c9b8eba0048b2c4dd2698ed166bc4e81f0 0xff2b0dce97eece97c1c9b6041798b85dfdfb6d8882da20308f5404824526087e 0x493d13fef524ba188af4c4dc54d07936c7b7ed6fb90e2ceb2c951e01f0c29907 (-0xebab3378cc98c6feb465764172af44d4235f478d5aeacedd79e4c7a74445e330) 0xf428cac00f2941488bc7aa88e22ed784fc244ffa20df8e16640052730c584396 0x2c21865d67c917b66254230414054b4321a5ffbe3b5da51df30ea79fe92a7d0c);
  Double (Line 0x282ba9fe238cf4d58886ca874c29771dec3f1fe49d8d1478d77543a97562c63a 0x2982dbbc5f366c9f78e29ebbecb1bb223deb5c4ee638b4583bd3a9af3149f8ef 0xa61b5be9af66220ab9fa5339c7b5bc9d095db99412e3ed8456e726b016c7a248 (-0x2e40854353246c7653b8ef6b4b13981ac5d66ca973414482d28ba98651012a720) 0x64dac91f75d8517a64d9b1e4b2aff5d2d6c08e0f396a509c096db44d7bd5d17 (-0x2186b8f36587aef7a60b920c0e75a10f9cafe058b7b759f2e775e2f5d2ac6399));
  Double (Line 0x2a296a5b39c00f29aefb930028fb5f9a29b29d6260977e5390ecacd1b4f963a9 0x1a28e5042af0c0f6b436eb590497db5860011f4580e1765885289f612380441b 0x55779a7996c59dab7c78329a8976f0ed04b3e75b46ee67aeb05f606a8452af25 0x2285311e6da6142d6ede4b837d5cc234c5a82c8b01be5d4ed6c36e8a217cf8e3 0x6f19d992c5b30d3b0e4fc332f6eaa0e14d91086b27e0a21ee36850ee216abe8 (-0x2873e4374ad52c26f49d31b8213c2e1a221f0e57747a15a0700cc2bef1d0929));
  Double (Line 0x7f8ab1c12cc5ecd1865a8307f2fa33d5a7e43c5e2a992126e8e458e74de52d59 0xc8b83e9535f30601d250cc0bd3f20142edd5eb7985d83242eef0e39621e30a7 0xdcc7077065fdac7b850e3f17efdc854aacad237b987134dbebf7beb9ff688de 0x4d2447bfe9d29ca72e32182d067e47ab3335e0c050a33b7342fb0933b983d301 0x3f8ae781ca1d580970f019bb410ba4b42582835141126c69eca24e33d0d3282c (-0x6c87376bf94c2df60b08bad4307393b25f25ccce156ea5cc87b42d5c0f36c7f));
  Double (Line 0xd1d1154a63ffd0950b5550b0ce04673742208ef0b192ae37de10730284ce6d31 0x827fbbe4b1e880ea9ed2b2e6301b212b57f1ee148cd6dd28780e5e2cf856e241 0xc60f9c923c727b0b71bef2c67d1d12687ff7a63186903166d605b68baec293ec 0x14c6388a60aee8ada340fc3f21d1e363dbf3422d262d4252e552f7bf2b5e5127 0xabf70f873c84444bdf0ab4097746554cea2f61e92fda9a1d2ef4507c332c0ece 0x60acb7e53ba9664b7f0b2ccc7f7d19c90f826ef0c6c9eea08a2b90348d9ec1fc);
  Double (Line 0x9e87acd4a4f9954e433d87d2c82b246380f5d49b0ade098a24addc6e6ee1de4f 0xb77f12a7dce56b973e2d7c8d576e6b3660470a9218b87461ef6e44b70cb1815d 0x4b6f85b14f86acc43f0cefb373cc2e654c42f0f91a44816d6ba3d2bc8e57dbc5 0x2dbb4578f5dd668f508435e0ddf31ae01de277fd063516ead8776d536e0f91eb 0x622bc13e389881d91bdc0d278b4a666ba83f7fb05a83cefddcf49aaa3f09071e 0x20d1adfac959fd910f16d1d8a82184f5498fa19e2beab47a37a7ec9b4c4155bb);
  Double (Line 0x4ee74fade23a01a878fb3c374df45c17c225066fcd6bde84297fcb6d0d076b80 0x48973b943018bf1247b308b2cb79f956d858d8df4977c5970fe5dad2c45565ec 0x761f75684f3cdc1b6437bb3a01445af1511b3596580477b83b879075faed07e9 (-0x15c147b8de426cf21c754dce3bd50e03bb0985b9c8efeb26af9c16ff2fd2df795) 0x1851c58eda76656cff1a1e8927fe43f2c260cc35e1a67affbd6ef96f73c425c6 (-0x222ed93ff17480fd1c08e92f8b56f63861993bc8af414dcc4659efa555847ece));
  Double (Line 0xf6d86bf1dc1c078cbb867791047c8b5b38eed75bfb229a5c0ded069a7e8ece5d 0xe931258e8eb5559c6d6972728a704c170b775a265b4527d4a4d4d742bbfd71fa 0xfb1e33364c3fdee0e85eb4169c954b40b3946ce1bb5e35f33d9bd0d3174d3307 0xa60bedc80199f8227973db15ce88444ec7f3d83462bd01f8d69d8b563a5c5a86 0xee04a66b28ad604ece38ec7b7dc8695370c135374973d3beba74f0ba6e164eb9 0x9adbac6c11f111ab890a12d65166dd71553fb0dd3336eefbed6bbc781868e0da);
  Double (Line 0xdf71ec84c663fec05c571e2c6fc5085c6011af545fbe42f3ff693db7d801c00b 0xeaa649f21f51bdbae7be4ae34ce6e5217a58fdce7f47f9aa7f3b58fa2120e2b3 0xbe3279ed5bbbb03ac69a80f89879aa5a01a6b965f13f7e59d47a5305ba5ad93d (-0xc6e16180b8034c0dcb5578ab860bec0abe52067e4c23abad68e8b238994058ce) 0xc307acc1f95e6cbf9541813a7c8d723e72a5f690eb13e813ea2985744f1ff4ce 0x145b0c089fecc48a97c41b5aa4d261ff85503ec373380c5da103127f24d2e79);
  Double (Line 0x361f57ef460f29732cafc83d9eba25fe0dd319931c8036710b2a38f274f1db61 0x3adb9db3beb997eec2623ea5002279ea9e337b5c705f3db453dbc1cc1fc9b0a8 0x374e2d6daee74e713c774de07c095ff6aad9c8f9870266cc61ae7975f05bbdda (-0x234d163445271919f08d811ca96df1f37454c40e81d7fb093aed71143dfce718f) 0xb713cef5bb5de6ad266f40a46da3449eca6f601bb60a5e1e1bf655756636abd (-0x252a464232c99fe538dfc668b2823b90740419227b4be22fc7b15dd5b39c902c));
  Double (Line 0xa4afeb28ea7f78a6c09688fb88e28a8a67d5786fa2f90dca571f6de9515ef2e 0x129e53ac428e9cbb7e10955e56c5fc69fefdff56963e7caf054e9e0c90ae86f9 0x415ecb958aee9a29b2da2115b712183fb2a232fd16b3e01b822efdcd1e89c85d (-0x24263ccad1bbd0c41c71c6834664c99a9754d10f46c3b291334950e540b0a018) 0x69f1de2fc66811ecc0e14f0be4330c18a3c0709e8f79a6f5046f1f13f445f5 (-0x19e2ea49180de97eed0c5af2d9e683be0a72a3820ab76316fa4f6af1bb2e5b5));
  Double (Line 0xff5737b636d1c1ffbe6c3acb14f153e190294a4b1510629bd4c822ab9dad3e37 0x60144494c8f694485b85ecb6aee10956c756267d12894711922243d5e855b8da 0x8bb5d669f681e6469e8be1fd9132e65b543955c27e3f2a4bad500590f34e4bbd 0x7e5773673ca885ed88cdde45e49a22894c6a5419f9369aa6a15806464e0f750d 0xfeaedeb3eb2ef04d7887efdc07d60f05a0069b599fef6b9c1001c8922ceb5d0b 0x4d42dee7f618cfe85c789cfecb2c1cf544968ad05aaf3bf638920da5d6938c5f);
  Double (Line 0x3c8aae7b252f8ad62c5cbd47b0395603168652829700f7c1f76902d8f7ed0e95 0xe4a42d43c5cf169d9391df6decf42ee541b6d8f0c9a137401e23632dda34d24f 0x4d9f92e716d1c73526fc99ccfb8ad34ce886eedfa8d8e4f13a7f7131deba9414 (-0x2a190420b271f3ba3cb23d8499d360ee4ffec781ffc6c62cffb3dd3a140dcb36) 0xe514cea4d1e021f7584a1c88d12e859ddf921808f19979dbe05b35a8e0e312a 0x1f598a76062432225d0edd413853730b537e320b7b1ef11e5d30067be2532b36);
  Double (Line 0xa5af926d811d13acfb2c4a8c53c007027c0786aaa9e7ca78d2ef4ce4f1014719 0xfd6451fb84cfb18d3ef0acf856c4ef4d0553c562f7ae4d2a303f2ea33e8f62bb 0xe745ceb2b1871578b6fe7a5c1bc344ccfa2ab492d200e83fd0ad9086132c0911 (-0x20024616b1672e4c07526510ac50a437374f8579bec28283cbad20c68c8edf4b5) 0x6b3bcb2aade7173a4098df95046641ee800376e2552cab4beefa0e90b0257a68 0x1004d12bb2f3049ccb13d4120675e27493247bb156648d7880250a696e067e1f);
  Double (Line 0xcbe492e4985bdd16dadef632759ded318b5927d7201171512a30ff038b505ab5 0x1eee207cb24086bc716e81a06f9edbbb0042e2d5dcf3c7a1fa1d1fb9d5fe696b 0x652cbd19aef6269cd2b196d12461c95f7a02062e0afd694ebb45670e7429337b (-0x18008a081a68ce3141f51ed2b32861b528834ff5ad614ade331ffdf4b756b3f0f) 0xa2644d0c851a9e2c96509178cf7ae652f92bb45e42465a38afc8339973477e68 (-0xb12e5a29b3cf7905ad09750acde15ed9dcf6291868701d4fd7ef7c794de5523c));
  Double (Line 0xc194d171091781faa47f5ce501af8b4334ff7fe52203f734ac51cb5aec54e4c7 0xcc0ea33ea8a9eb14d465ab2c346e2111e1c0fc017c57257908d40f19ef94c0d5 0xf9907a3b711c8a2fb23dd203b5fbe663f6074f266113f543deabe597af452fe6 0x8dcd0f0ed3ae22ae806ac38da4e6cc7692644baae095ad98e0e1baf63e04e921 0x9261ba4f45c1b7eb9f24e67e200ba479535382d402b58d66541a2a202e9471da 0x82ea2703cf2805c9e9203d526865e0de7698af56bc35b349f330f151b10b48e9);
  Double (Line 0xf2da5bf72e636a9f21f40bafdc050a179de1ea73d05fe6de8bae1ac6ca80f88d 0x1ec80fef360cbdd954160fadab352b6b92b53576a88fea4947173b9d4300bf19 0xaeefe93756b5340d2f3a4958a7abbf5e0146e77f6295a07b671cdc1cc107cefd (-0xe771a8f2a0bd58e5dac7764dffe10b3d62b97bace02daa8f98acd4ea13765e1) 0xe661902015b8a08bad43fbe03c69f56d86093daeedf1a670b21f3fdc7fa3b9fa (-0xa4608399f0db86ee65d28cae49f70a1359b0ba93a7300e764bcc5b7a7a0cdda7));
  Double (Line 0xf492eaa6961c99ae817c48f8e3a99d4a2945f856225756a063f20f3021e24ab0 0x5be7ea3519f04bc6cbeeaa0344fc90bb8e8462f6ebd890560dae805d414ff9e4 0x32f32ec3f638e605477f890f655ab7fe0e99c6302119a3094030b07847e0bdbb 0x143279eaadcc423383e9910de17e1a3ca3735f5b2644d0d8dc2eb2c1fae972603 0xe9a8639e0b3eb4673ff0772f4aa0aab491afc69a08f71a942b2496d16260a136 0x3a65703bfd13c4bf942300c131e4632c6c5d0e218b515627759724e377864438);
  Double (Line 0xa72e4243dc96df2a157145e0c716cc80520155f5128cd64d74123b48359d5782 0x58f099116eae4e650813fc8698df7f5cd50028649f853991e3fb545f4ddb7bb8 0x7e07002aaffe111a0d62ff7614638066507ee4062d174302bdec73582e5b2d6e (-0x20706705e6c0079f9300b17397a10e5f871af7835cebe65d5011cad2192841fc) 0x6d2d62d06b572d1c1b37a9709e8fee6f7cc93a79228d44b27876b26969ffc4bc (-0x1efdf23655489dd428167a13526fc67a2cd24e98c4453b232688d11dd161101));
  Double (Line 0xeb7198abf8ca01eb3fac129c5a73dc3b83d031a663556a8467837511c77ce4b5 0xb0f9e4b9b29790b633bcc04fd860cb0f823d8d1a4cc1a1c1413c1606cc9a8e2c 0x49e82bf1843ade6d41cbb0b906fde3f03350cc02c171cee76c2066c4df3d0db4 0x8b1dd0bc1e65945a561be41d11bdabe0f222320a873b8f18797b0612c9b56cf4 0xd889c0b3dda12cd1ca820f15b4b4a731b8be3f1c70118c8d802d02c6e315eb33 0x50f7990e844d04d84960cfa767b03412b8403ec992f81f3ae068b2e1eefb33ba);
  Double (Line 0x97b46ee4200685076ddedde034be36b2906cd6bc27e4a45103dd3df11241112f 0x146a778c04670c2f91b00af4680dfa8bce3490717d58ba889ddb5928366642be 0xb318e0ec3354028add669827f9d4b2870aaa971d2f7e5ed1d0b297483d83efd0 (-0x1177198ee460c5439178b6efd818938cf722aa0a17215831ba24277799404b4e8) 0x59e659fd3e9d90e88000643a1a1c0b0032e30b2cf3d8db53f7b20a63aab3e765 (-0x5cc6f20fda19e02de8158c73342abbaef2e0af7b9e5d403658bf2a0e3fb7ffb2));
  Double (Line 0x2236ba67f0aed1ee74398f778818bc9190f4f60d994e1952d10793288a21c756 0x574ef0ce8a597e24e5670b5c0bcd14cfeefc983c7ecb261911b2365579de5cac 0x9b99930281f19c73bd6ada0569b78451a260a7bef10008cae59aea6c75a4805 0x2afcc22fed81ca4fcf577c4a0d45e31e73d3c24b7375cc2d4a7bb9d8a8aaa98c 0x4929536c7832d757f7c022a9798439b1f8d051a43a79cd8597a3c033f326204 0x8f0a50192bd733048c7015068342121bfc2fb525149f9648598aaff46d47d87);
  Double (Line 0x8eddd290e5189e9a09c76ed6d712441b6d27664842dd8e2a2da6fc2264734dae 0xd3d97e799d8bf9f85d909397b98c835d10a770c1aeff8645808c2d74260966d3 0x8ddbb46376bac95e6aaa89275d403ad3b5e48711be8dc4eebddeb850833c2e52 (-0x4e797fa89c0c1bbcb5916f2f603f5aba0ec976f4943071c0c9151ffb914f1f5c) 0x4fbad5cdf984e653a5ba54bf9c5fe61706ecf7d1f4aa97a92adbf78951d36c37 0x4580c4a156ef841e2bef8dcf0b1a1184c679a3ebfa1b1dabe263cce803648277);
  Double (Line 0x5e5d9f74a69405ab738e867514ecbd088355b4c30437e68d0aea625c1d4349ec 0xb1aa653288b318987b974e782cbbee0ab2be78cf8f494c120040fb93968c6d4b 0x7ed6071c60810d712684aa8e2d63a83b100a1d909d623cc383d9e62ae891ac51 (-0x1a55ba2fa19d7e13271f3e921e604b8ad0b6d626ec026aae9aee1d687170ff465) 0x22c8e356e867d7c949030a2858d8f16f165306237a20bdd8657eeb73843aa091 (-0xc99cbaf1cc31e13c00e7194c7a06553faae6ada517abfa9d5a78da0d9f3a4d3));
  Double (Line 0x86d7e10b7570e8b0637420fc36ff4e519a6eab0b3ffc8ac280b69a1d86ff9887 0xfa50c0f61d22e5f07e3acebb1aa07b128d0012209a28b9776d76a8793180eef9 0x6b84c6922397eba9b72cd2872281a68a5e683293a57a213b38cd8d7d3f4f2811 (-0xec493a1e167d29e0857a5fd100a696ad013ff4b87f29c789ab7165fb2cf17913) 0x4706b5a3c6069c3346ff140fc7ed2ebb45686f1358f98a5f3b026dc7f92419fe 0x2644579ce815190084bda28696046438056f1339c0d9610a35484dff3735ae1c);
  Double (Line 0xf66c18362c94a842ae9f96fd5fe8a693363e8759ff6c57cdc3f98b7730339f73 0x63964eee619074e0780140fe02e90836e72328d2448386d459c5be23187f5048 0x3b6cfb3a6b89cf41a39ff9b1c34bfbc93d580b934dde6c84383a284d89309df8 (-0x20f477d0ec61db522b7f1eff6200ac49eef8c0869744fc0db2540d136fdeae343) 0xed33ec2c8dad84a0d5e4f9dfd9779c4d335a6cb12034548d77c3b283dae840c1 (-0x9116ce7ce9c6341942a80dd54c1d7f6e9e7907971e7d32d34b87fde5f317d4a6));
  Double (Line 0xdbfd8bf7c3b1490a8b50e596292609b6253877026373c6a492ecdd76197b8138 0x5a3ce25b4d15b7e22d1469ddf0fc9f75afd7f12ad3cbda31f814ba1ebadb2a65 0x8b34125b92e05f63873a6dbfbf3f99af3ee28bc3d825fe8ed8b170cf1d327f1d (-0xe169fad0003ab7be6d5a37b161f6fbb107ae599d31e57e0c36c24d4e30b83c0) 0xbd0bc897dd111db02437bc638a4969c3190e1699a4980c2b53b74d2b505389a5 (-0x808c25eba417234b5486bd25d07f9557fa44237df0f27880f87556a9ecf15dd));
  Double (Line 0xd8922062d40c8a8ad208d58d36ad5621d550e8fb087d1c34f90909dd1a2b4f79 0x5ce605af98f93eda6910be34f0de41ff85dbcb6e69a8fa0016a733754a9f44d0 0x4cddcf9bec226bfe7ba56bd031c76c58ab3cb1bfa32eccc6c0d05f3489d30105 0x8c1a30aeb7f0c9436870d100020fcb11fe9ce589180a6d07aa2ee2fb37736f51 0xb736ea0fbaa7e34274a807501959f51714af717091bd5f90c78cd34040d1e319 0x2403a9b71798405ff5b1cddea61e7fb4bc96dda16f74f9fa03605942386335b);
  Double (Line 0xdc1020d83e933047e2c67d95c88b21a1172997339674cf169ec12b7e79270d55 0xda1d61d0ca721a11b1a5bf6b7d88e8421a288ab5d5bba5220e53d32b5f067ec2 0x8157f55a7c99306c79c0766161c91e2966a73899d279b48a655fba0f1ad836f1 0x1f0483f9f852c7f9cc1f4fdb0bfa2753eeddaf656f439fdc1e1de4e1c45d824e 0xbd2bb977cacb93b00a8092acbf433019105ffeb4146cea525072f7db9472aed9 0x6ba376b2f96c3cd98acbdf9f52c24de9a63a93d24a0e580cff6fa5022eefd1b0);
  Double (Line 0xb30ceb66c726c55aa8bdeef02647bed83bb630d8025e1beaa2a4659163a8f3f0 0x9c7be00b4ef4c444df85d5f61dc1283a23605483e1f8e934b3c210d22cd3c369 0x9220c0de74b20d2052a26d455ce401483e31153a16769cbd29ee3feba2329515 (-0x178941aa9d3e4c7ef0d891dc04eb0b3a0cf27df0eb6a296ca692711a545a57494) 0x7d3b11d8a498be83c4a070af897942ee32a5cd9ec577632eeb868a3e4bc84d5d (-0x2b1b09fb2b064b4660cc6ee93770a007b3fc34492f40454c9df763d79b6c47b6));
  Double (Line 0x90a197b7b8e33bfeb50cc4756bced529643b3afb182001e52b13f8336cf36bc3 0xfcd83f42825263bb55664b238ccc49174dd06a70541178e76bcd92d7bb8c9e3 0x6c0bc1cfeac5fbced1d8232de5fdb683adbeaecdf1627bf4e86d55fbdf4aa9ad (-0x79d84b9b490028fcd5dd7b638f734b95c5c971e1295233d7c01b0345b715f5db) 0x51b630aedf007145ed3bc6c0b50482f1ab23d4a3afa073c123e3353e2f0bbe6c (-0x4f7ae0d4bef3dfad34433bd45909db54954a7dd722148473969745d7f4b7ccb0));
  Double (Line 0x538642245d31a63b4ffc418923f6e47a203f3c84c89fb4291b3726d7d2c6be2d 0x7175407f1b58f010d4cda4c62511e59db7edcf28f5476d995cf39944b26b64f1 0x43b4554344e3d550f36d3401134cc86eb01fe8b774471d2a426e7efab24234d5 0x4393c476d88d03f00135addb5ec20378a901bc7b4f735ad71300a8c6fb9e39b9 0x1b40554ce39686fc6d8fc0e84063c363a2e4ddcdd3592be8a06391764145b16e 0x1fdc9928db544dcc41735e893c8af7bb4d7ac12915e9c366d1607333d0026588);
  Double (Line 0x29e06cd166ef787ccdee448a9b153c1f4e2693bb0de4270e420d5e1413c652ae 0xa8e282ff0c9706907215ff98e8fd416615311de0446f1e062a73b0610d064e13 0x7f97355b8db81c09abfb7f3c5b2515888b679a3e50dd6bd6cef7c73111f4cc0c (-0x80b3b179031a0ea4e3a75da1704fefbb9aca36abc8a8c29a31e322088800ed99) 0x6d9a799afae31ce1e6e707b46f4af00545600a5738afb79a5f32a0fb46f9fe1 0x91116d01c20adbe9147a40c45e127ab75e8926eb36d1967f0099b739a626593);
  Double (Line 0x22045e501c08e7fd4bfd5e3730fbefb93cc5ef12bac847beb4253468845106b3 0xcac6f2e7e27faecbcb876f805ea66e63efbe9eaa753d67c1c15eb9ea7f7653a1 0xf7d416e5e2aa6f194cdb65d9a42a345081e83ae5688103a068c10ad0fec5e556 (-0x12c55b826077d8f9bf983fe8e12f2d7398cb0cf388151f198c722ac4dd9c0f3fd) 0x48529205cb22b8e9b1aa21de4f72438d2fcc5bc796872f88dccd04092ef823e 0x480eaeb283cdf6069c21fd72d9591c8142f04cbcd302d6f9741aa19b6740c14);
  Double (Line 0xcf3730f3c43c216356e4851fca06af5a3feaec8e75aaf2a402dbc499336d49cd 0xe6dfde46ee37d206efbc5932e58e43254ab767294238cb11cc9f4ab08624003d 0x8727b3b7be9139498f2f48f7b88f92203b1ce5ea527fd7dd7548650e2216b93b (-0x50a7dce6a75b656d31cfa4104c6ca69ca420f6c35006284ab632b82eeb76a1a9) 0xa7ba4d104973e189ac4da9e70c19ae79a7688c8c985880a47f37df927669a776 0x16be350bd938542d17238c88a6e09071a45aa3a12d2d3f84dd73777aa1422413);
  Double (Line 0x5a72b1347f2f36dc741c32f6d55ecc4feb41dc1d79bc84dc3c3caa4d33b31c33 0x3c4e089cd9a6823d66a40cfc7ac96082e250e3149cf211d3b0e1103548dce109 0x43fbbe669fe191b480757bca15764d379579e142d97fe697e2bf65923a19aeea (-0x2112410afc74715c22c5c810ad1ae82028a0db3f37211d8722979bef342e63837) 0x1ff4d7fb36d81b431236403507b3132936990c495461b20e70ff3e12e678323a (-0x3c43b020c0100bda47d05ed30e134d906297d232926da9dbb27a6a8142de4379));
  Double (Line 0x2cf6e38b89eb995ff629523e4d1a1870528d114ddfac39b1848799eb9e8e3a19 0x174a53b9c9a285872d39e56e6913cab15d59b1fa512508c022f382de8319497c 0xccc9dc37abfc9c1657b4155f2c47f9e6646b3a1d8cb9854383da13ac079afa73 (-0x12bc59588d326ea499d2d96fcfd5370d235ba67167df0b1fe8c362219e45b3f1) 0x7e5cc5211d6d02aa3320b6dba80f50b468150a28823bb7f15f7c1852309ab8d (-0x680558d4f4bae230b4e6ab2ea88b48db0380516537dc14e55ca1b354c645f18));
  Double (Line 0x4d2f7028964ab24df12ede0ebb0d70474d9d35e3fa88a6f72d0992ca075e7423 0x20e6e2e796946bb630c7071ef1b92ea3d53d280e0e4501115f5da36f840dd273 0xd3ad7afe4f1559e44a0ba1ad97874655811ec9793da8693cc07cfd15bb46b593 0x7522022a3b0f63fbc00bd80019a686348dc248089ee0223cb2773463d5a0225e 0x17459242ca73a8a1074c4aedaec3e3321f3fc756b73265706431a7c96d8fd102 0x2e5df0514cc554f4339ac46abb1f115dcc11db701f5c8d5b1af07a9e6638d25);
  Double (Line 0xe7f7b5bf52677f47c909ff753e0cb6422a756242da7e9774f36f7853e8ba4548 0x8e0ca824d7a351dba80280a07e71db7035ae68136cc24ca3e7b54f301a077674 0x4ec560759192d41dc569d24da62cf57cff60419d2f910290b84cbec12b7ed98 0x172ed1e66c9d462a1a6a46ddcc015245919fc76367548909cb64b917c2541735b 0xd230f9af7eefe4ed9447e3185236236f65fa19bdc05a74fa1985f04d1c87edfa 0x62e6b1e8da92e8634218dd5cd03fd0eae2d4197b61af4812b9a558b7b3ec92fd);
  Double (Line 0x67cf0c07b10b0e211b54630fd69e79dfea8523099792a76ee4fdf4e9f6aea0a0 0xf7bb50da51c982d1c5fa63553e3d66c1afdb5821a321b4afe96afc5ea8192441 0x93cc3be30334a526311bc63bdde6485db1cfdc1fbbc4c74bbc640ea1d45165ae (-0xe877fd97b5f859a51d4f8482c62490afc5cf1874dc7446940423369ae7cd2f50) 0x2a184322a577ee13afe6449259a22ed99291d226f5c5a495fb12ecbe2f96a1d9 0x2adabf12cba89440afae6d5a2920b30a1ec444ba4c7d4441b5e1d52985ee2b7a);
  Double (Line 0x73055117f8fc71da09e4402e46a97b6258827c6a82b8f56dd4ed293544d609bd 0x959396981943785c3d3e57edf5018cdbe039e730e4918b3d884fdff09475b7ba 0x2e7e552888c331dd8ba0386a4b9cd6849c653f64c8709385e9b8abf87524f2fd (-0x24a615bd24f1783954fed035cfaaa6775a24b4c6c3646dbc756771bcfefdd1619) 0x33adc6f7ce52b5f4c6f9f98b17fbc4a97db0968017f4056ef2ae1badfe7b3b43 (-0x2c19e28a25a7485920da8493c0197f57b5dbaa74df6d0184cd161f56cc3d5a00));
  Double (Line 0x20f70b4b1d6ce28d3cb19b2f27a9714fe1185759ffd6109ec1ae18ba7e0b482b 0xcbee1405ff0da7deafe32ca7dd73d95ed702226b391747c707275a940bc8f53b 0xf6211f4f4e75f902b51f3e689b8294cf0d9ff4f68126f7282922e6b278c87f45 (-0xfa3615fd6f942de21cd20d748eb758668602f0c4909065e6b9ef1242ae1f3cf2) 0x43eb13992cd8b52185e412201b9006f8c3d7f87ac61d1d7fe1e3638d20a2196 0x6ffc36297e7d29264519bc04fffd52123e97e917d739e88a42745ef41e513a3);
  Double (Line 0x92ed0bec3174253e88f618baf673554e1329094b7bfbcd13d35dd9abf016b216 0xadd5bad28faaf5acdd580bfa0ba252e03de3beaefbd71b9cf377c88b14b311dd 0xe9c43cf4da3dc3a5974e434f8359814f52d4e1e7669b9b8902f982f349d6c38d (-0xccd4bb88ca741bccaac18c48be3838bb5de22454f75307aa476407e84b079941) 0x54533d187c4a31b37ce801e46dab00190dcc320241d1231e995e2d90eff8d23f (-0x1145c0d0ba3c29af715bf17e4866c7baf65fdd3ca649e402c8a2f40210ad165e));
  Double (Line 0x2cd908c6c9e08e431bd3bcf301875953abae29e512407a57a9131c017312ba60 0x53f2432ba81717143fa9df3dff41ced24a29b314bc5a8c96f5f6400a0d7c0979 0xbd52effbc1f079b7ccd4e3e0911b07de4bd5a4f5c9e8b845f9f7e90c537b36a2 (-0x11037df283087462737e521502e6a0e4bdc9812a36f070877ab1d80282b41cf55) 0x7db530436b476932ec89bd4ca084bdfc0f260d528f8a08d8197ba7cabf2d1c3 (-0xfbf4d7604d5eadc20547e09767737e7c6f315f8611539675a1d3b9ca6c1c87f));
  Double (Line 0xabb29926777623d00344ec00c5dd34ea088fc53e9f5ef3e6d3c7cdd083ad1676 0xd2a63a50ae401e56d645a1153b109a8fcca0a43d561fba2dbb51340c9d82b151 0xe82d86fb6443fcb7565aee58b2948220a70f750af484ca52d4142174dcf89405 0xab600001f9e307f7386e985ab5492f6471c9a670fb524355934fe743d2d57e4b 0x73281532b8b4f4b49742f09affc749e7d50be3b6f6b32519ae2035793be58aaf 0x54fa9b042b67a11da5e3a26447472c908c3a996ee40e2be8a43173c5b82d5a79);
  Double (Line 0x695a461880f215df8c78df54a946d96d3d913b60d87441a36d3e41538f4789b7 0xbaf183a76100525e23bc7202033725f922b9cd6b36c413497c6c4bacca72da5f 0xdeac9fbe9ccb4d335688bd58dd69b1d18e2336c5ca739361377ce628a8f2a0cf (-0x148e652f1aa21cc21173cff95af228137270c9526106024c475b32c79cce1b1d3) 0x2b5b2d557632a90594b741b9d42c34bbbb2538f5bde8cda2d9829425c0901530 (-0x9c17af1570884453f7e1b0fd6c24f45e9f7f43ec92f33541cf5e17c896691f6));
  Double (Line 0x779bd28859b018134c8e880d8a3618c424181023236cb8286c33e300ff139275 0xf7aef8a7e38440238f9332906e48f6fd5adbd02d56b76a5ffa5aca58c56c3943 0x4e3b0b44d5ffda797c442bbdc3ab3fcfeec30184a8dcd003431f627facf442f1 (-0xc977f5ac094dccfc40cb80cabeb49c8e0a31595af209d63d32bbbaaa02e34003) 0x37e23c9361a24d636a905f0f0d926c0f9b75836c62616ac9d230266b02ef4608 0x1c610a0cd7e292613fb6c59e4ff1ecd38248e5f5272230210766fdb2c6c5544c);
  Double (Line 0xa35657db7e33dd28b733057677392155cc1b5230a1fe05b24ffc8e5b5198fefa 0xdfb547cb10019036c5a2e29f0dddbb1f7af2fa25a3c7a78c1fac945711924459 0x9accd2a9ba0f47088b8389ce9dc864cc22af0930e5c031dcfa205e0dcc65fd9e (-0x26b155c8949c51c43692b0c22d38a585acc0fd61e45ebe0d790f982769f9735c9) 0x68371100a855c272dbeb37a0980b430b1d013ef71dd9ca2496eb2d52fd0564cb (-0xf4c11b86e625d3682a8d13a7cfc4f97a8cc3cb7f7c3c8f01d6d6ae9cb5db11b));
  Double (Line 0xd3c93a931625a689dd3592bab79729508468624abd1b29f3fc8a043138c2fbdd 0x64587e2335471eb890ee7896d7cfdc866bacbdbd3839317b3436f9b45617e073 0xd99fcdd5bf6902e2ae96dd6447c299a185b90a39133aeab358299e5e9faf6589 (-0x14a56fa99d4c9ef17299bd2b46df8816dbcc2245a239233c5af9cae8a3d476da9) 0xaf3554bb7ee1d23247c1e6b9c810d2ed6f53b5b1b14dd9cfbf54a9dcc016a99c (-0x660e724994b658dd246028d1e839f74aa093e322087195f8b0c9be5536e8fd49));
  Double (Line 0xae953ad3269b7bcb3fc29e1dc17815047a20636d0ece8ba0dc6dddcbf615bda 0xb866d6b142df940f2cf28b54c92f0c1294e0b6a22a91f2ef44bcd88c4384480d 0x1914b0b3426aeb7089a278d7ea9ad7ac24e522804b1d86d60e659b470c4cafa8 (-0x63729429eebb0247657f0746a73c3f1969d8903948a1eec499a20fe3c7a5f609) 0x770f32f48fcaa8ed837d789b4702805162a3841ba7d188887a445702554d1f 0x3952bfdaac7be4213d94ad5325e22920c9057243368d88925c325d5b7cd0abb);
  Double (Line 0x4fff3d2acd719a0c307986ea355754397ae1fca620951f11cae247eacc5841a6 0xec2bb89085de819ec4d9d1646102ba87e2d52ae4ed4fe455d229cda81db20d6c 0xccecc17661e013a1332f66f0650940c633a2364be87efa98a0e99c4d629cf4a0 (-0x17ecf3188e4f17465cb8cdab3aa83ef7455f982e15fd71d4d24eff794f600cfd5) 0x18ff863b54aed2749bc3119a06c6247d623a7df6ff31ade94dbffea597f1ca42 0x102d5f2f74bb4ac41171f7f702f8be9c13eaf1e7231907f401e605baec10acbe);
  Double (Line 0x7a52afb302ea144dbc27ab1f0c7c9af22e769094a0a9b1eff91b1eafbdf41c0b 0x71c4a7e389e296ced39d75ef5e545905e50050640f50becf38a60ecb23b09d0f 0x1313fadb737af3ba0af3e0a292f810aa786f2b084a62ffc7637b1f01720ddb62 (-0x1c9cbe1eae7ecbd5098b7da218034bef318fa56ec0c01258a06e9851a502bd810) 0x3a72ea2ba60b3478344582d0e9e15832275f6a4892a335c1e9b232ae3450fa0e (-0x3a7ca6f7d35a67d98695d9cefd8c1d1f4bee8dba658f189ce0bec9fcda936f93));
  Double (Line 0xd81c11d09ea2ebe388858b897a2514e6c806372d05dafa3a8307e1103e57626d 0x8481bde0e4e4d885b3a546d3e549de042f0aa6cea250e7fd358d6c86dd45e458 0x38ee7b8cba5404dd84a25bf39cecb2ca900a79c42b262e556d64b1b59779057e (-0x7777b3803471027cab2e624b856090e4b5a1deb9133c7a9bd24576fe9f50d101) 0xb66f6123f29300c75e88456a5b9575244da53ec448f6efcac6815d37ae106f7d 0xfd1988a00342d151890eae32f7431cfed57ac1e660bdcf491efb0d78e40ac1b);
  Double (Line 0xa1f316299c051adcfd77e3908b8b8e1d16a72fcd0b069f7ae3f53fb842d3ad56 0x9629a450bd383a8b9fd43c6cd1d492bf392ed605299561dde54433526ce9f114 0xbf439b280c5fb6d7576befd220cef64db925593e5c56af8dca3972c4a24aa391 (-0x85ba12b1720d77d50721cd958358d2c7129ffffe3f07858ece048e432fa8c568) 0x6673a8b36b27cb0f2fb0cd0703cfd64119ce061ae4dbdbdb0efb94c78694eae0 0xb2b5bd35faaf6da881e8f348f61db40bcac8f3f9a7633912293da8c70975679);
  Double (Line 0xaee719a737ac4e364919e03e5445a0aa54749101ba80f9870cf20e6dc301ffdc 0xb73b1c47ef1e4688eb1730da7cc893df1477d747e187e18383d38d9626ca6cc3 0x584315cb294922a90a57d64bbcc805097322a25209757f5afac35d76a54fdba3 (-0x2e540bc766aef3a20a075b1a497cd3ef68db194437a0fba64f9b9ed4208a408) 0x777ef77e9e06c96047873c365cd9f305d6d344f52c29e2c9fa653e3a79cd79eb 0x1697b99d9245cb790a6fdf805daf784637f9740e7891fd3bf630146023ca70e8);
  Double (Line 0xe732d14399fbeed039026f11b190354fba6434bfd8f73a24ef6362b4a0ea91ef 0xedfe16b2db40180311f9892007a2fef7d05b2a3bb676899f9c6e2192d38f93e0 0xee6902f1fca5db3694d74faa4b05d0d25b3d5100c46e227e3d01793de29405ad (-0xea0494695db0cccea8369a105a55433e780cea7ce11199cdd1e48e768a6bf98f) 0xd0ccbfbe695c42ac62a6c2dc31392aa14829c55055374711080b80df88962635 0x3174cecf085de34ec932eb5ebc55458c6a166464dacc99aa35453bfa9d1e3c0d);
  Double (Line 0x2c649e1b444bfaa921f03578039be8f40e5e8ec300f40fb2cf8755a250992c04 0x13464a57a78102aa62b6979ae817f4637ffcfed3c4b1ce30bcd6303f6caf666b 0x69be159004614580ef7e433453ccb0ca48f300a81d0942e13f495a907f6ecc27 (-0x24511d51ebfc3e90f7c37f7ffde6f6853996200a29e423b683746668a9b83e4e8) 0x7b2bde5466d24bb3b752f53603c1ad52c5ddff4fb703c11be520cfde7e06a2b (-0x25ed8e003c61a2270f74c2e987cadb2b1994fddf26c27839105e16f201b50000));
  Double (Line 0x7f6ca70ea09ad6dc86113265e004c641fe4ade7c26f023e090d6fed00d0af860 0xeb3cf8f532245362ec05c88c85fe12d19182be7dceabe577c75849c6065084ae 0xc833c78222d9d70043fe63dcefdca4a1f52b45c5e7dbd2a66f67c1fff96b9480 0x64e9d4c7ea4b5840100224cee77efec4f282ac5b458c0766cf52981dce0437fb 0x3f6cfbdde4b53a34111b4fc7911867f2ebcb1204d0c0c195912c254fffae0a44 0x6b7f09a01520a0c97909dda06b9f05376fdfaf33a0ab971fd2b59db2b0abd5e9);
  Double (Line 0x956bb6638dcfae6ed2d37ab4883e724fe35b9eef641780caac5efc9af49ad601 0xbdf1a67d092d99974f7a60f2184519b2a576fcf984a201d9f8e5bcbcc2e9a5d0 0x4095902bab65a1aaa80be54a86bf7baaa6280b61e5626461cdb4f7018562ff7b (-0x19ec63ffbd46c9d6fd5f429185ed5d468c4511d7cbd7f25a5d5be5f57a2d463f4) 0x57368fa1dc3e01031b4355bc1ddcec5b5c7a55f02c1d63a7fb8a9e7c0180823b (-0x1a6fe5c091ea460b15298059e3246ec3eee3e97cd253a6f0e5003d8c3e40578d));
  Double (Line 0x4ba55d8b5483fb0b4eef34a9a5f85538af7bbc4e921ba073bb4bf2b4cd7a6391 0x68856a6eddc4ec29cd5be267b64483b48c3b4196477da62abde5fc173b27e771 0x77a33df14f79a1fb13b6fd49c19f7b4a331d22f293b0733a6118d62a07bbdab6 (-0x180a1095623357ecf8e094b36f47bdb7dfd067d4591f3c2e9bc82ebf186120e76) 0x165a4fa15b4ece7704739fa11d84d785e8311a9da471f7c47c92d960190477f0 (-0x193de391aba2f499bbe89403fc304c348d6a1d6ba56a561e89d070a0c65655c2));
  Double (Line 0x13b8ee10d8c63ccc1406374f50b83c6235b74b6e09e566dcd2899776e23a0e7f 0xbc4a9df5b713fe2e9aef430bcc1dc97a0cd9ccede2f28588cada3a0d2d83f366 0xd3a81ca6e785c06383937adf4b798caa6e8a9fbfa547b16d758d666581f33c1 (-0x6d96efa76407cdcac813a6e1a1ac4d65bedac449785d51936b2bb48e3efe1b21) 0x184f8ed95c85e2a19b7e3fdd38788d444c2a4c37796bb0a951f083178c02f97 0x6742676e436e78507d42f04417e4e9c18cdd6feec2a760fc868421c9dd5a29e);
  Double (Line 0xaa3e6192682f538d4b72a6099461c5e2cfe08640786f4558796afa7bdd1b4f14 0xda433d5e11ceccc0abc5c7626ce7bab42e89b221f785c409282de545f3fceb19 0xe498dbd321a810301debbdc4af95e5218e77fc2d9227b277684e7120a6f5cc64 (-0x18de0e274989e4d28d93528bc3b1bd9663efcf2d866d51407d157bbe88a7fe57c) 0x7136e8c9da799892fe57ad06acc22775b7b3e5619e61c8c8c0cf500cf478a145 0x13ee677e3fea057f5cd6207b294a4c384449264d0298cd52abc732ad554b3daf);
  Double (Line 0x6d40f867eb9969bd1934729f2455f97d4dfc8afe1a79a60beb99bd71d438f605 0x31e8e1ee9e8c7ec1c1c116981c16efdbcc4838a72207e0654de275c5acf692a 0xad7e7f5b465b353dd9d0970290d6743b70649827c5bf73b09cc2a84eb16f667a (-0x16b258f46b6eff3ff98ea203f19bcbe228b8e65a4f5e34fab7bcf950ff994c785) 0x2ea06405a39ff3689127bee576c70963b283f14c3bbeb8fbb3bce7554bd61ed3 (-0x5bd1388c934e3548460cfa6557b8cbc6411303ee9bff1efa8e966828d73267c3));
  Double (Line 0x41c6ddf7f1d7920ac2d440aa504b65fbd35a0fc0b352cf7d2843b7f37fa68e6d 0xa9878607a88d61155d3e00d862657f73e9c9bf363fc7a91592bbd7ff81f488b6 0xd181a1abd58895d61c063e7c82157c2239d0f01964ad5c6d495a7bbb031dab1d 0x590a9846cdd31888c902f87d0233c3e8c8caf987e190c020e1d6415015672248 0x10e6973404cf9952242f24cfd5ac7ea7f250c9b69363318312226dabb48cb3d1 0x2ac1ec6ba0eb4ecf248d6324e51188c0ccceac04368fdd1ac8e6879ec513bf3d);
  Double (Line 0xf717c949c00a247330d2c209336c342191c46c4a3cd7e6c574cf6d0475aa1d3c 0x8c28a97bf8298bc0d23d8c749452a32e694b65e30a9472a3954ab30fe5324caa 0x40a30463a3305193378fedf31f7cc0eb7ae784f0451cb9459e71dc73cbef9482 0x43a2709cacafa95df55c3c3373958a311e9e2e3fac9324d444bdbda1c69cdc54 0xee7ee8a21a18f8f7d7fe5bbd1333b31e85fa9ff5b76b144505155b2decee7726 (-0x1c59416888fc0c6c5ba79677d0bd17bb05fb65ece6177db40fab4f14b53ed29f));
  Double (Line 0x1bddb5e9b6dcb12288dee8372dd502b817cebcf99239560c5bb02eae1f5b8d6d 0xab1ac1872a38a2f196bed5a6047f0da2c8130fe8de49fc4d5dfb201f7611d8e2 0x13f4a37a324d17a1e9aa5f39db6a42b6f7ef93d33e1e545f01a581f3c429d15b (-0xd823273fd961a5ee24a866a9c00ace930162ce5ccfaab2d179e991ad292ab188) 0x3088462e35c98599153265ef599c2d49ff73669f4ef7f5b6910195f1320f93d 0x35e55855b64659c937d19fd3539b885c6499ba50b37b1f162ada39d8f54435b);
  Double (Line 0x5155e968839912f9df9c4d6591d7f05b63e0a833bfbf06859834b241f4ce2c97 0x2564fe9b5beef82d3703a607253f31ef8ea1b365772df434226aee642651b3fa 0x8ad9f7a60678389095fa14ae1203925f14f37dab6b79816edb82e6a301e5122d (-0x14a680fb7dca446f5383340630a5b9d4b540d7ee848496049e434a5b85012776e) 0x19d77a88f77dabe08dffafc94a8e9ce237cbfe28d3050486c0582b826fbcd61d (-0x2a7b61ef598c925423a03e619fb09fbf9213b3b808d857b46f90e02685576fb0));
  Double (Line 0xa6e9eb9d3da9c42f9aae6f283394cef1be5989de42d18f364787a82adcf070b8 0xff3d6136ffac5b0cbfc6c5c0c30dc01a7ea3d56c20bd3103b178e3d3ae180068 0x133239be84e4000e40d0372cdd96adc1547676f24001f5e670a6bb6e188c6077 0xa4ad61346e019ce5c60c794d0a59748d49340b74f9990a1dfca29404b5e80efc 0x6cd4334ea90c793f3a862a21c1055041debfff33f891c0f418cfeaf3813a755c 0x8e095e621c87348891a7ed4d816d565c8671b9eccd6f5d6a3b44c7186b00e88c);
  Double (Line 0xbbf8483324d2a924f05c202908140e3f3fd6da9ac5f253124e8953d67d1905a2 0x8ea9666139527a8c1dd94ce4f071fd23c8b350c5a4bb33748c4ba111faccae0 0x620efabbc8ee2782e24e7c0cfb95c5d735b783be9cf0f8e955af34a30e62b945 (-0x2df4166a8fc2356c87c071a01ace5227745cc49292f3f2bc81cb652dbda12631c) 0x8a04aa46af3fea31df1862522c0ee36eed73cf53ee7c13a81d894cd396b6656c (-0xb4dd5fd395d12a3955ce4f530192934a9cb2884e586d1b88e81353e154737dec));
  Double (Line 0xf606cc653fb2edb4402ff71980fbd71223060bd7ebc89b350e2a4b367515686a 0xc25f637176220cd9f3a66df315559d8263cf2a23a4ab5ab9a293131da190b632 0x53154fede94d2873989049903809d7980a9f04ff9e027a1d6eebf3d6fc9590cf 0xbb8b7e11129dfd70121b1071bcf5831ec81e05dbd54f75a38deb9d0b0535a41c 0xec711100ce5c62ca0daf95b9d3b7c8eb65a9ea77e81b45e2a779bca10bf8e8ae 0xb23b29d82b970970e2d6a6c5fad0f421e434b581b240984fd1a2b056e1076c78);
  Double (Line 0xe0a350de580db0ef003512968ac580a51a40c6df2112239e26ad8a411bf7301c 0x2a9e8dfe3cce6bab3e82d82a5688544c0c7b55dc31978b4de2ccb3b7d466d561 0x1dfeda5c16e651fbac7b5ad608b96cf5e01eaec17a02182f96ccf5252e76373 (-0x128eed546fe55b9c458fc76549e898c2580461697e292f8aa993b82788144933c) 0xc51e35b52ec7cf36f554cd2268ecae0c9e7cb8adb2d1a09675b9e6e4d12df9a5 (-0x85298a7ccaa6302b0a9574687813d27c760b20225f4eaa8ae0d89d4cbc26ce86));
  Double (Line 0xf0313f849e88f449ddecee7e8f30603b8b1fdbb3cf774d1188570c68388edc6d 0xb23790a42be63e1b251ad6c94fdef07271ec0aada31db6c3e8bd32043f8be384 0xfc6b694919d55edbe8d50f88aa81f94517f004f4149ecb58d10a473deb19880e (-0x11c4a423154063f086d42446670e4100a59876e784426e2693b13b371bfa42bb) 0xe15c609209c805334c08d217b82ee86f8c439865219ace13f40f4fb63895424d 0x7f398869f86e468f1d17e5a6cc56f39c4d1d69dca23ed0f2bb495ae6cf35a018);
  Double (Line 0x68ca87e5d24c22c2e1ac71fbd4d2caaf3ba53fe97f87e31de6444abafc9a1f02 0xdd3625faef5ba06074669716bbd3788d89bdde815959968092f76cc4eb9a9787 0x7a188fa3520e30d461da2501045731ca941461982883395937f68d00c644a573 (-0xa58d488f43aa7d044764240911dfa284960617f56eab2ee1d6e8411a5fce1988) 0x2ae52ea579b1ee836888fb187fbfea08c5283f8bffa158c703c0ddd9dd31239b 0x1199705fefabe2277e7c8754131b2bdabdb60cfdd3ab6e0ccb1452d4c613a129)].

(** 2^256 G is (2^256 - n) G. *)
Lemma climbed : climb_all moves (Climb None base 0 1) = Some (Climb (Some top) top (2 ^ 256 - Z.to_N n256) (2 ^ 256)).
Proof. vm_compute. reflexivity. Qed.
