(** Certificates for the order of the generators of E(Fp): the steps of the chain of doublings
    and additions leading from G to (r - 1) G, for each curve.  A step holds the slope, the
    result and the quotients of the three congruences; it is checked in Gen1.v. *)
From Coq Require Import ZArith List.
Import ListNotations.
Local Open Scope Z_scope.

Inductive stp : Type := Dbl (l u v q0 q1 q2 : Z) | Adp (l u v q0 q1 q2 : Z) | Adm (l u v q0 q1 q2 : Z).
Definition hBNb_0 : list stp := [
Dbl 0x1291b24120000000dd1a26c0000000043090800000000009d38000000000000b 0x948d920900000006e8d1360000000021848400000000004e9c0000000000009 0x17361ed1680000011460b070000000053cb4a0000000000c4860000000000003 (-0x6f6a2d86c00000052e9ce88000000019236300000000003af500000000000032) 0x948d920900000006e8d1360000000021848400000000004e9c0000000000004 0xded45b0d8000000a5d39d1000000003246c6000000000075ea0000000000005;
Dbl 0xc2956189fc64f537ec736393d4bb7e5e61dbc64f52edf930e1f8c9ea5dbf197 0x1e7b06aaf3813e852679a5bec79456c3e4cac2ab58020816392d34f79ee6dcc5 0x10e9618ff958fb3e35ad8bc6fa84d9f01db1ed1b4e7994ecae07878efba221cd 0x83d08c65bb7e3280b8f353f8c9ea5ddcd6efb7e327a977422576fc64f52eded 0x3fb820d78d3de7bcade1475e619b24dfceeb1f965ec31c6b0cb3b91b2b5181e (-0x6f0e1d7af01c271c53e251d3bf260eabadb69e3606cd59249c8b81b00a78afc);
Dbl 0x2cfacac446cfb0774eea4f467c9bbd468660338a6302d607df163a9dc8c522e 0x90e1d1faa02058dd797dfc64017a1f2afc6fc34834038aa18869f68aafef6bb 0xfe97a1d9a72302df4c28bfb00de0012f0c5fe0e37ca671e4005c32ff196913a (-0x487d279e10091012e2785718c0b369208460ecb46326e4a0588144d602ffb045) 0x367a091f140704ca45897e0379a6d8df86583c1e206d4c96b6c3a91cd625e5 0x19f3006921674327130fc8b1363ba788e6aeb84660fc60854514dcc810818c7;
Adp 0x104348c686ebb6dad25d60de6cfad41c2e0f99f10b11a48f4bbad76079412098 0x1403e9228ba58ebe76b81150cecf007f3f6068010a451c56fab571d2b1a231e7 0x87d1b37362ec3c4c25c538fdaa7f4aca6e5dc461e53f89afdbe2ade269021c7 0xc4c2ed7c84ff285f4a37e576b054646f37336ae71fa263ae66e9d42f30635bb 0x71f19d4517f3b62fbde398f0ab45bb5897d00d2a58131d7563162a3adb8b1c4 (-0x4cca8589225536e8ce4fc3420f7ed486b97fbbec6b11e5b605ba2fca531047b);
Dbl 0x2007afc95f0f9d857dbe02f0ba85cf9f16726b728c03cb6e7a6041025c82a81e 0x1d92b7f208411b0f5ac5fec6464982412fb760d492d6bf7b7d24caaecad28a4b 0x2fa7662c93155c2f0ada878cf15c566ec092a3697ce9691b40b4d78a213aa1 (-0x11b80733e0e22df41cda975d4b1a4b10ff06b90a61b713e329e9d0d4f6f30875) 0x1b9fd9c9b917549481a3dddbd4de26d4b31b967903bc9e58581804b80783d049 (-0x83e42387cc400b80a3f4d5eb4c454ac51de445589eadb8fa61435887bd98b60);
Dbl 0x1a41b453647cdb5873274be7e2bc7e0da5b27b79fed920fb2ab08d796c5252c5 0x539de53d9342ba5fed999504921469091ce21dbaaffe2e5e419c5200e030508 0xe61282ba6e5c60920d295e45f800e5b593480ae0eed33034c66dad087692703 (-0x4662437dc0f09df6ad152b45f410cbc85b2f1dd6c3b2ceda032be71955567f7b) 0x12903ab53f8d347df0acdcd6360314392e483dc7e917540a78044994d3a5d379 0x11369c470a8d404de03d096476b79ccd28546f7855a3a3b34fd13aa1fb4766c9;
Adp 0x615cbf9e57ed53213cedd1bd4fd0d8de61dd830297b0844aabcadb97cc39df4 0x46d3a37c3d44d4a4c5a0f7d0559b6e53d91dbf7ff404322d17a10e27769b767 0x16f17caac4f0191dfcf45ebcbece9ec386fad6964a2303083a3dccc78f656567 0x53a95e6fa454467c47c6044144dda16870b5d1ee9a32d09763d5589560eec8e 0xff3f2945df8b11d154dd6d47f6fa162c73f2e0e4a023ac71c7989619251395 0x2187d982545e91ca7fe1ff39aba0ca18e81b2081dcaf17c38cd496c480bf0e;
Dbl 0x150f4fc1c293bf817d63c2094abab9d5f95a3c49aa30343231922c7cbfb3f80b 0x12e7103c7ab8b468baa6c959466e674c483764f59485f768ca5fccd0998dbfec 0x1bea624d39d6d3be0a861d80df5ffb85cee55c04218c75cf4d08954173e25cef 0x187013cb31b3950b1e02663aa91b6b3d6a20dc986e03113102a61125be4b003d 0xbf139a65efd890ee3b4d6b97b1453f3a0ad2dfaaf213d74fc12a4249d8b4525 (-0x835735e75a61dfa6aaf876e9d9cbe8db0e00bb4f3bfd57a85bbfe8afa446b5f);
Dbl 0x1b907051e5684ba06c76bf8a984655d546da4d589134cb05faab15ce7559f9cc 0xf64b8fbdb03840a2b66749f908baa415b3734aa77db6f492f691bd67a150d01 0x19fa38460e8f435ee722640757f676ab9ac916213a3ce1022742f2750df8a18a 0xc9339a355bde30e743d61fb09507238e220eb7c5569cd4b1ed5bfec5d0fd7e8 0x147553d074b7cd5f29a080b4c0e78baf645099c4bd47e0c3940cd98405cf784d 0x29ac0e398945ebcfd20ad246f60d94e28d68db023f0b033d18e01d83da26069;
Dbl 0x4d5df287e4e874878265efc6bded4c5d2b9d7772370b8a6235aac93196759d8 0x174ec861b1b6c978be5c60f0397e784d634e37952ab47eef4c7923c11189167d 0x21550ebfabf8b87d4916804e3d9dceab44e7256a1c42885d9c2403f2811a002f (-0xc6071c9bccbf835840a2dbf256cfbda6d33d713af8928c83fc79ea241a8fcb1) 0xa12c0e57c83a18d03dd76339ad5c798ea5a6c87a879561110705addf74755b (-0x107cb847d910f534bbca89aaaaedc7e4f3c2fc4ac0f8dffdf7f615bc4e74d63);
Adp 0xc6bcc6c4ffd1437591eea26ce28583e8cbb5b5e5913632f800f081e47638bee 0x20fbf0f4d7549a71a51016a16358ffb3b99354c95b27374b95df0b72db94338b 0x1588d117e0085318610e0ce5de2e828b2dd3d5e6c86c7ab8a52245a5d7d4c81c 0x4a02d0dab32b183f3fa93404daa19b64f221881a039aec9f39b890fa75faffc 0x427802db9d794432aa2e0f38a9596b814044e8667d9d592be72f092ed56e56e (-0x33c7fbc2635e08e3ea67eb2ba4fc8c88d0b48db50ec213cd7b7c073a63c0555);
Dbl 0x80f4de88e60b2e658ffb463aa1847e8c5713ef9331e86ba5f31b36fda80216 0x7d5225db93220af1c2c4673c4c9a0fed072aae2a252fd577384c778c4ae0e9e 0x19b2015f1cbae47ef5bdac257076632f46605b15a9cd2ac21e3a591ed7af080a (-0x574cc7138bd59fa14ded23d031c026937cd004cdf44ee9bbac638d84a133bf59) 0x1bfc7cd0d84229432e961bb7b02f917357a891d67930d24457b6fc694f110 0x5755b4dce62769df3ba7dfbb79cdb59a3058270507326097447f209b6ce7e8;
Dbl 0x11bffea570f1cc626b35d82f8c50c026cf7d28a2e8e5f0ca10076fbc4fdc794b 0x1aa3b7bfc75bf4962f26a42ac803b880e02d2bd678cce8da458a332194f71b16 0x1b0e602e64a504fe4a815f1cf8c14a74a303f41e01894366adea0295014e6c82 0x139b29b9adb6952584cf672e35e9b445708316ca837969098cce664f639ae770 0x87bc59a0691606d3aa5908d88d57111945b63c884d3f0275e56cd695c87689d (-0x8fd1916462eb3dfd48e320902c48067ccbe700e218e1c8258c0a7482a565bfc);
Dbl 0xa60af24c5b2405c1cc9bc337d9248b858be499244ee4832bd2582e870b34837 0x9b8b5dd270593e3e29c034b939f0c37c3895d2a498b33d75430bd7756174c0 0xee1c43b6acc650bec0ffe17d6cc2213c785cdf5cb5410a3ea1b17ef272803de (-0x2a34914e618cbe51cf1e8d7fcf201d3d90afd7d2f929c00f73036d57ffc260f0) 0x2e65dd94a8b933af2682307e13b0cccce1bd1ea5286e674da213162b6d73a27 0x7463182d0fb31f24010d177a57ddc87d6cbe93e9248a7b6c049d9aa4c159abe;
Adp 0x215509bc6bc935bbc41fb7b1c5bb0963cbec2a9035e44b39452a2dfc2da622d5 0x125d0865da3c92b3bc516c3a2eab5f8de0049515ea94db3f1cedbe089351483b 0xfc8d2d3c6ab2d71809a290d2554858a02b252735558198e2629baf0fffac8da 0x20c96f368e94b64f1ba4182ab63b2582b0bc133c2d5a738894715d7a7d4d696d 0x1dea8a02564ad048181751a1d2f1309f1768f2986882d7dd04bede4a874714a4 (-0xfefa629638fbc219964b15fd6a2718120e14dc193aebb25829affa831655f95);
Dbl 0x1ccd439180a130eead31e5b4673b1a4ac4c48f2211c9fa0233f2356fd3952c3b 0x1247cf04f72db67b818c40703126e2fbbe72b3086cc6a477ae1c7750c7cd61b7 0x8780b4dee567b996d640f65847dd4a32a711448099946f609522ee8eb60be7c (-0x2c1df796b6603b75fa2064608f02494a3713b69e76e1161696db9ccc05ada55) 0x16562f201aad95cee9b16059c02a01f3ab471a6e0b6e0e1a932a1bfad577b464 0x1075bedda7723264117a20428e52569d543650640e02fb89e949068f141152;
Dbl 0x236338e69d213e587334d8ac7b499e3a8516e71ba8e3f2c5e55e1b0396403420 0x2297ca175934a01384cee8c91875c538e56fb36d78c76a35abe383eeee96d77b 0x7b76db7216bbb708a4589465bba15f19855e80b51ddfd5bd596cdaa356dc4be (-0xadaea577bd6ac2397098d7d63ea1ba2f1ea4fd3c2963a5b99888c770a154b21) 0x21b82da48161edce82e6f0b8df09cd1c46f20313c3d3f5f7e25f4e7e44dd3b6d (-0xf8b20eb88564bad731f6836abf287a365b826b62137d632517e3c5ccc93009e);
Dbl 0x75bd14e1bb8091d9605a80df09980937f7dde427cbce3987f6bfc91e04d1a84 0x1f6afe6c0099b4a5b0050cc63fc6256e5c6781787aa731b000a23cad1a093c93 0x240d20842340cedd01694dda19378883a764b2c8c130f43fcc6503ceafe2ee45 (-0x5d9bb3bdd6fa1248c883905add475ec39e0eb17fffe3caa5f3e2542573012899) 0x175439ec9994d59a645841da3374bb5d918112eaaee99c1820d8fb76bbbcc3d 0xa10c9cd87d936936c869244520e5538132f6e85d976618fb99078ed338c68f;
Adm 0x112e169394baaa4ef51ffb8eb1bd7eda4c2f5db7747dde7dfddc6bf9b89eb7de 0x230dcb7e1e84d54f8cf3c75d886086a1792f566d17f80185d3b968fe717a6c11 0x201e00cc100d2b608104f2445d0b8e38114ea67a48804cbb788b27b72baa63cd 0x2a56d0e753ed272f9050fc31b95bd2f27cee57f290522bfe21638568cbcbff8 0x7f28a7c8ddcea39e5aef4b0e52b1b84d1420e0eed870b4fc140beadd8589aba (-0x1ae95e1837e3e8bd1acbea4dd15411445dd6be25ce716934c4334e69a8c6612);
Dbl 0x1142a43f84384f358e13cab4790e416bb49ffbbaf5c4adf87534fb87be2b7e50 0x1359c73f13db5f39775783030dc5c5c83cfdc31d84ad7fda7c8620ef4c17677c 0x1d455ad87cc7bc775aa34397996d1a542dc5a3c0c3223a456afbfbdeb53d59a9 (-0x4567f18717ee2805a8a9416ddfa1f9d11d8231a222b6b6bddd67eea175776a11) 0x80599eccb01ee35d64fb23f67c7749eb4257bdaae560170a9dc683a6f0f8156 0x74c563f7d74be7d2b7e0a860f61b1dae279c359315505eb33975252f11f43be;
Dbl 0x1a671e8cd6e24dacdeecd968e0486224c5821443e6c078def8453c948e164031 0xff745f7dd7a6eca7dad285eb964d130078b61bb430ba4384fd78caa0494354 0xef616b6991443ef33a836a7c9b34e89c713f4c480a0dddbb115360f4243ed6c 0xb5f1fcda9903b29bab5e17fe0411996d4a64af7fc47219ecd40b5ae769483b6 0x12c547f75f9c8ce7757212fe2544d426c8cb286b716e073bccbd6060390e2137 0xd0c318755d0e0a0deb6cfdcef01b4c04db1f95f06932e05f550ec5d75dd5981;
Adm 0x1ca502c832da8f668c25e08abe0fbe9d2c4f06cf4cc561a35cd8c27c30466654 0x691cfd49b76aa4bdf7e7b5d96b29abc085e68373181983299c48e7aa4cb6f49 0x242a5a3963903c27883e6e71d8a306d04506cc8a0e9d348e777f46c925dfb2c7 0x1bdffad787ae4674be62ec8aa2ad4ce019fb86d7debe4790998931a2fc129bc7 0x1617eb6bfecc778d75517e639bb37feec0d8c436d5ea23fdd4cf4f5c1fabe9bb (-0x44c24a83d111e81c6244d36309e103bca9e9d1409cd2a0c664b7dbb5a6323ed);
Dbl 0x225bdd5ec8d428b7ceb7686e5558bab6b807722204d6febdc49b7921c4b383e6 0x964c8d844aafe893bdf65e666cf8553fa6537ff71a120972658e45218f48e8e 0x7a1b5f4c36c8ee005333854e666f05b4ea19f31d8c651d5f306dfc33bba875e 0x3f6e6977abb1347d031451d65e460caf95e195368a68dd3459f832a9e640327b 0x1fc99651e3cff179825ea2186cd577d34d16689b0e242f4f0824e24f1479fcec (-0x29cdda7e84a409cdf3a68439d114068ec2027dd5b46fe38c0cc4f2a72409cb1);
Dbl 0x13315283aff7d1b37b82337f9db981f7ad77b15c2974ef49ecb396274f8b9b23 0xb0b82b7385e5287daedab1a68486a3c9ddb643a55103b38ff28af43b70e93ed 0xb5da73e055eab98b8a6767351910657a1aac0d2eea4ece1bcd8a5b93bd1d778 0xc2873310b68b2d019dc95dbe64657ca69d0ade4c61775ab6aad63c7bb9dbf8 0x9eb277c1a96fcd72bc6debb1e6eebe0a3454500d667c0d255cc1131071bab40 (-0xda75e0ce4ff7eb77f98391a8c4c61a5c72e1060825dfda52fba08d87ae5941);
Dbl 0x107ed1bbd15ae791ecc8684dabedbb378b0153824aedd051296ce6aa1581c152 0xabfffc529ae6c18ab84833a5f1a1f23ad418a23983ddb6cbe3dc6ddfbdb0822 0x5bb7b42f4671edf70db940d1354476db2fb862e99f76bb7fa8160cb8f3a932a 0x3dff454f60fc72fd9e42753d6719aec9d326bdaaf614f9245b5f5da8a27767 0x7539d4a1bc98f3173a73ccf87c6378667f215df15aba336bf7b21a19a23d198 0x218a1098dfeccfc56015c5f90be1925deba7a1dc3c0d9b5660c88cbe52cf8c;
Adp 0x101d87d8cdb977e13e6c4a9e98e36b81b94aef2f0963339b19c02c45bdc99b3e 0xcc2168ac795036a0a7d5a688a51e69d9090f14bddfdc8c53a59758114231e43 0x1003daadd889f3493f64e69cc56bf45c70d6576b7df574fb946521ed83e04b65 0xb735bf5d6b4c3604feb4cde617fc57c0af0def149660af9bcc320ce333fd6b3 0x6fe2fab8a86b41d2363f0be30cdd1e73256a09372b78a9328e71bd830ebe4df (-0xdf13f513a2cedffa23549367e68c5c872e66a4df5f6bdde78addfcb3bae7df);
Dbl 0x8e0f70e814324175230972f344a83ee7f1e2a5ba53d60fa4abea65d304f8371 0x1662064000514d41b6611db6cf9d4b91a9474f21a6c56ca3def72efd5ce2d35b 0x669bf9b1c84f2e5b1b115d22df44b61f7de4c152d8ba3d8fc584efaa2a93e74 (-0x57dadd71d66b057b65fd87c771a7fca0e147d31da33dfb458bc1364adb1a6eb) 0x21f67d405fa58b800b5da6d0daf72d6a6f1f7576583c33c1263fe1c2bb01800 (-0x24d0fce68a8a61d013dafe5f2c0c6dae4ec9af1143740898a4574acd42b90eb);
Dbl 0x152a6610404ea31a41602e581a5477e3825466b8782168d99f010f9e8a36b2f2 0xb12b34fc75cc8858423a9e57e6bba6f204cb64acf86b6c6579f68aa81c9ea25 0x6b810590dab4db3092c1179e13f8c3af70e7f56841c6f4b9ba11de4fd0fda95 (-0x2128ffadc2fdc5d7ceb2824fde4477f3926d54d91028e53920fcb1cdf924f2b9) 0xc1005d06c517647ffc3d2f43ac27751c47647c98d878a0b556457678f8f0b93 0x6721620faaad8551946f4a45dad5454983abbfdfbe636825324cf956d55d651;
Dbl 0xc28f9887f8009f78162ccaffea0ac137c26fdce750735afa4559b0855b9c00a 0x124c1719e833f0b95bc3df255bb811eeabb7e047d967df2a992f70bb051f8d0f 0xf8e143c808723d6d96af5bdce0779f0f895b72c5c72805caec90cadd1281961 (-0x5812bf73c5be65fec1974f842364442cf2df045152797ecfc3c037ca1b348dd) 0x3fb456f144f01c108ae21ba3dab12ea979a7f8a55c956dfe12968269dfd7429 (-0x25d8a2a413ddfebffa597c81a6189a1324a18aff963040f3881e4ca3dd591be);
Adp 0x1355940a00f3e626383862b2b267ea25c541c8149a89ed63fefe0e63d9ce2b4b 0x1578e2563c3bbd40599e863271c34cbeccf2ab2d7979a4e0f7210ea043846a82 0xb90f433ebfd7c89599fa4e1f2a13b773598403977f5b3f4b6d7288243c9fb7a 0x9cf06b9f082d032ab6dac8042d12fb6dcd14bf9a5ea6128366e3b115fc554db 0xa10c41254dc981ad7c488083425ba7ff1faf48b21ea114157bcdc6cecb45512 (-0x1a7249e0929339f55c715c7bafcad82d64fa31df28f973257653096a16ee8c4);
Dbl 0x1acaf33298d8d8487c8efdffb069f912de789c8ece5057deb88146d8bd3eafed 0x23320779d56648bf246b52411dfbc5d4dcd2ac63921800d57018557fbada8ffe 0x14c9e97d3276b3496a9c0f2d77e7c1d381738ca3df360b4ed26d6166da261607 (-0x148e21463538b46c55f3f941de95a8d5cb2842a2daf284773502a8e965cd3a38) 0x13544672c9463f87b080207d545a0949c75fd623a55b612cb7a6ede91ffd64dd (-0x9e67ffe9e91668fa02bac8bcb249cb3ab7f0d26407fb27e75cdf1d144dc3d1f);
Dbl 0x1ffaab4381f416e9f45c878c3b8353778309a8f9993499bf21949d00b1455818 0xfcf3928054f9d7761931d3c96ee83a307e68854817931bdd8d8cd5b65e366a6 0x2c3634b224d9b345f02eeb7f48383042dcac85399e3e0c537670faa30640b77 (-0x4042d22a4d0f8b22504aecff79cf95e150cd05b8c69fa0595483913a1182a5d4) 0x1b896a0e96e8c8a5ba52a9a85410916b5289c3b4a57d428827de9346ae4c35aa 0x10b16544485da6bd188a30ce0fb17faf159a5045fb270ef866fbdf3ffe4af276].
Definition hBNb_1 : list stp := [
Dbl 0x232e121e4486c7c040d7c4934d1bb703b7b2c2c6993a1f9d44336fcd1fc97050 0x10e64584ac7ea6493b7c998c86808da835666665540f869c3a7d3ebccd7368ba 0x141be6f9484b3a269cf721c09ab4b047f892c06de7b993d05d273bb650206179 (-0xef470882b44122459f9a9800689332f81420090ac89b3c76a2fe0f0861076c4) 0x21532ef88a5aa53627949e5086fe25300eec740145fb7e3fed599f1298b8345e (-0x108558b7f3c550febc54833943850f10ba9c87368514a5ec39120b55d452610);
Dbl 0xcfa70db13d25b8f6cbbf58280a5593c355316da81add619d854838cdbc68971 0x1a14903b041f173afbecfd3cbfa45fed815c08a6f4815cf79c81ef757fa25c41 0xcac145b8bedf4c22fe45ef561a469c38c8bf8584f3185b69d4e3d576af0566e (-0x903f5960f2697b7d82e4e25f37c69d4cd9b5cbec2b06a676743e7d66f25563e) 0x4890e47a8bcc5c0afcc8c84e400b750b3840941e2c8aaa7960f9f766000aea4 (-0x3355472e86de317e28ce65ee9fb29a94a15acf5002ffc6beb1a9bc21fa8d04a);
Dbl 0xe2848ffa36155cbdcb5c4fe286a9aedad90e913bea5db24ff6caea15883c685 0x18ca6989f3b12887bd4dc9eaf5aac532f0d6b0e17526d01dcc6a189d7f0affa3 0x11b1e5e273187bb298a08d54c1213ae414fe0f2c865bbba607d513a3195a50b1 (-0x2d4882f0a1f840240385e2597818b77190e7f2871a56cddd1331169e60a8dccd) 0x5659a630569b0ab644d98b731cc8e55afab5cccadf63699f7bcb46cb8d439bc 0x7ddb1f244a71bed7628393f53cc9e12a4b97e09aa362e6a5ff55632291ee0d;
Dbl 0x133f20b509a1ecd21858e568d3fe01340dc608f977e1fe44f9071c56cb5d2943 0x1ade8d898dd1bc5952f758aaf8a5167390266df3ea13e8535567551d51931e48 0x19c785e048aba69fc7ff010e6b46a5e302783ebcb9cf70d2fc1517dc67792025 (-0x1f4dfb660896194b222863ed4098272ab2cd97e8fe591b2287336b95d17d5717) 0x9f9717c3fdf5555a56aa1f100968a25f4ca848d172718580508175e789d3b79 (-0x113c709363c7c17bdaecddc9cb5282c15ab62422a0d82c04bf089f07e54e387);
Adp 0x866f54eb3218d660ec92482dce10d84cb99bcd3362cfd608dbcb518d29a3b31 0x25042cc358659cfacd2105054f56f67942ee34699f81c74744b9b9f39097523b 0x1efa8b59d5ab8b187f1cc1b48d6df63e129ed9b28346566d2cb25912ff62ff88 0x252c012a89e2e7c2dbd2b66f9679b76109d2b2607f0a0c173f6e8cb7ed5c8ba 0x1e6a25379777bb93c3db0bc1968a98043a74825cfd77045e275681cfcf8e784 (-0x24bb003f90d0ea5713616960f65e3af45de9c7c035976da25ae60639476cb10);
Dbl 0x1b722ae3d2fa8fed516cd3752091152a8b96ec2896d6ac87bc4fc72c312c2a2a 0x1365af77ebd3769408dbe13260a73805a8f9d8772ae9851083db44871e95a421 0x15812af2dfe4f8fcba34c83a45e17a94464e3b994d9671a979956b2da172b564 (-0x40e57e47a1bc5f4cd35a99ee9c55403f9319537e4c5ae0c3a8e3c31e61f20e89) 0x14487d26502e5a93e2c188babebd3e9a8b1d6e1b38e35b8ee5916be1e9c4ec1f 0xd055941d53035176ff879fd0eb353d604a4c84d114024f42adf8b553949be48;
Dbl 0x1e5b4644c4b9551ac1358353a05db404fdf5336303e2370c546dd14da5b4e1a1 0x1662e204928769069da975ec7bd01f11bb93db5910befd1c215ca259812cbdf1 0x1c15f9ef81817ac64efc16c9b13025f219543107aa7cba18cf7a61a2c4dc8445 0x4c313bbd6309540415283e4c931d325909c9fc5d34b087cebb6bef5e6411b87 0x18d02f1a09b76df1b4360069f6a9e3f9495ff2a0dd60e1d41421cb95925d487a (-0x271778778d4bb056810a1f02527681bc525c51900bc7814edeaf289b4cdcdc3);
Dbl 0x19c9037c98de6fce074d30bcda7bee0ce5ed0bb35455b228f5850258c698da1a 0x1fa1f598e1e9399bbdb16e8783641ac5e742307c9edde0635e83fbad5df0305c 0x2103484adf1bf9082dce5d3fcfa548c56068e578a6a6be0dbfef113900969b83 (-0x17b5dff7c3017c4dc4b4c1386e3849de4c5e38740981bab6b12b83891c0e2c5) 0x11e71af063357fe0cdef8cb74c74ca9f2e64d316f9f620c324c1270f587130c2 (-0x66b7809f2aae4e3fa4cd35af8d07088fa7fb2384014169223827dee62a54182);
Adp 0xafff2157441f87536d6eefd565258a04d754309be7793bd2922224c862c85a1 0x1158658a6b6c554255f0d065a76c3b43543681f1e5b2f99286c09a0fee1abe91 0x1cf97555aec778c6fd6a4fa8f83b2be0356f754a88533391b2252739fd4deddf 0x1a173e8ef3a8c3d912c21be966c8c3509633bb27d79cb7c30b8093401681828 0x3420a59c930536951065f8a112030dd6d24dd25eeb612dac783607fddbd5af6 0x43b508d8f7ae0a3d02dea880f2fecefc7cd82122866d3b5b3d1820fe5b3ebb3;
Dbl 0x75da0ebf1b1500ac81794a88dcd0a8b184f15fbc61aa1370f6e544e161f8c66 0x1eb5563291fa5242b09613da09e5211754d75a70780f5dd1713f74bf1f8bfde9 0x103bfee579e31c9791f93db6b544d41acc20a751cea935d892d35b30f8834069 (-0xccf5dcc5fd3d8817e5bf662243ef7752750efc3c3856da898b9ba9a4b59a475) 0x175fb6ec9c2092822828b89f3e3cceb6bdaeddcf1a6f2a049bf03a5c81a3923 (-0x2a67c231b94c86ee7460b7244f1934e7afa7225788eac876f09121e0b1e2248);
Dbl 0xada3cc8bedb63e7498ada9f04ea1321445bbae31dabdd888ef61b9e7987fe8d 0x39c7df90074c3122dbf0a3a729d352538d15ba0f4b4552595f3449b336bb41e 0x21b5501e2937094cb57cb6024a01e94d734c7c87544679dbfb3b8d1d214ac7a4 (-0x42afe3c9b3476384505914744b95627aa0a4dbc7a7921db3ebff61d9d8137673) 0x32bda50c0bc19e955958afbdb51385289f4cc316bcf0d3de025a9f01f042083 0x7eb134bcdc7fdbcdbe1e74025036dbcb8d91abba50a5165340d790ce310ca76;
Dbl 0x167cc503220baf64349fe8c4f5ffe7871157f818810ec3e624223203f5567660 0x1959f8f09e5334e3e3fbf1d53e63f6df9ef8d452f65cb62214763c3e858ae1f 0x1a1c9b4c874e7eff3e0fd88819729b8e81593e43367a85847aab361903699b5e 0x27c47c5feb35fc7ff291b2d78b7c56dda88a54a41dfdc11dfc60a8a8d642043c 0xd9dc00f141d177e7d005e4ef47503136d53e95969ce400c054ce479f50e2267 0x13a2d6bdb31e109db9d3e850c827f8cf72ca4e10369ada21374371e41267eaa;
Dbl 0x160bc3e3f91996b78eec45f4e98b76256d2c2fc3d7cc043c9a520b792dc8ccb8 0x589b1f77ca0ef188834b5522f991c358bfbdbdfb4726723a02bf7952fd904c0 0x18b2e4300f189eee4f2a7876c5f255c87f61f354a8dd0b877b6c228fd74cb097 0x1ecc4c1b89e97b29b55ed4443832e3c31071e1cb8fd82d130e49ef546b1bee4f 0xd163e7a8e54f5e012af5d1c7b8040d709c9763dea260aaf6824fd4760fb8bf6 (-0x258c8e35cc8dcb29eb75340fd148b151c0c21f2a6d98fafdce7aa598d68ad3f);
Dbl 0x7aa8118665cf901999850838c74dd6321e58c3da3bbd426cd76cadba1cfcda5 0x249e861d5bd2c586ca3ef584527d8f24dcd8a560f7551e58512bffdccf08e479 0x108dd797a40612c39a9182c29d1f452b050e403583f527127e9656b7223e8446 0x7b820be08e7a3eb1816d7ac9ccf6226c6b20f9994476cfef280ee5f53a32582 0x1951903fdc48597d5f6090e3d971ab5c5f4fb3c7841d811c4787dd2736fd420 (-0x66a70543ab7bcf70bd22a87d4ff4d70101503693fe18ea4d8eb123dcc454abe);
Dbl 0x2223138b9b49a14a558bc1c4a207c0718bc6772cce6a24a1b188618ca97219ca 0x1c6a351322432895ac3b8a7dc75cbb25a47dfa577eb896bbd2a132bd34248af 0x1bcbdc8442b0ae6497e71806d09cb2016d844e484926664b06524c67e2be7c86 (-0x4de3cb0a90c01d4f9a6ec8f5118c102ed3f5ac906696db1cab51ffee83df33d9) 0x1f60d982c20c36bb627450c9cd4524c01bc9a1554c17b15d943e29352ba40d91 0x20070c2c84e7298178abc08d2501489793c11910bb076a92f075487791198208;
Dbl 0x1e90d82a0acca51a16b7ce61614846decb1b99a5486e71dfc9a0776be049e8f0 0xd3dbad511110021609e242336a6a52803f98acc61d87d7cc630b34234d3fae9 0x130470bd3bdac0d1898b00e12a2d0b99ca5b0306d2db5bdecfebf4527ce8eda4 0x2d7fe03a7801a4359ec0e3dd085ae1a098c26a307b4f97ecf0a05a79acaab7cf 0x19280fa72eb6dd5581b34408391b28dcaffc5181494087f111a620a1ba2ee983 (-0x96fa933dcd5162b02402f3d8f0be55d94661ec28d894b34e9a57e5c8cdba28e);
Dbl 0x77e8b297a4dc60ec13c91b9d220c10672d208cecd2d9661585b49c5e3f7d38a 0x13832c5614e0acf87b852e7bc4e75ebe8a00df2a0d832a49c042bc129afdd4a6 0x479cf5adf44374dd086d5aa1f34e7f74e4bf02d80239327a329c4205226804b (-0x67cd4c9c5c94de5f5eecf25d667b3f0f86693a95082642662d6b2aa594cb171) 0x183270181b27ee673eee05249955623528183a70c301a6fcd14b6fe308cc9e4 (-0x143f8677edc8b5694b61ebf1a807ea6e17bacb5a11f4a95457c1ff100a79c0b);
Dbl 0x228e0e30716b8c109eb1f35351d1ae673775f04779e58f2387eebf5bd2290b92 0x215c0c31713e7c3b305595cacacc7f57d41d485dd8b34b9dd4845104b2724862 0x84357632ee36e17f440a563cbf002d9d7ad688e60bc2db0c21a175e3a183fe7 (-0x166d29206c4ad8827cec5590fae5f9959b050434787042ffe45738581b1eb320) 0x2026b8977697ba7e0f09df7b3cf517460fbcbc4130885957c3713eda3a5c6ad2 (-0xce24ab82cdac2b52d75e0b3990baed602dd6234464a2e22d9c4c8aefbb9262e);
Dbl 0x146a9ae577f1df0f100e2b0e8f9434f5f588d18266575844f8f18490bfdb3f5a 0x1783674e14297295da93983d04b9e7de1daba426cc8bb5139072da910628b769 0x1f1ddbc84e72aae9bee22fd87ce09def916040c6e463cd11ac82891f3061d2b3 (-0x50cf9987e3ec5f1373d25c465c9d6ccd44fc245c0ab266f146a9fc08b82f5360) 0xb3947aa476ec6a9ba9078308096889eb45280cdee328673bbef06938b30a38d 0x569b3aa11a5c300ce47c38a7fc071edd7a3432d5d786ef55b67fbe17a010250;
Dbl 0xa14e8dfb451c12dec135d0b1d223535165dc149de51ccc0543704a72a171b83 0x23300955f67e85623421d8a55ac3bd597a4f9508fd9dc0bb1ca3ab998d5a1138 0x1ec1d62e026aac34906a8fef70c51dadfa9372661abd8c9d9e3dec18151e82f4 (-0x1bc44b0f3754f29cd3a8350a475d01dc9163f9fc41bf2062fb122dc5c3783c1b) 0x2bc9f66922020fdbb265afe08d962fe08eee5e0b3c26178f03196e90491dce5 (-0x32b4dfc0847ec6f6da63c5f4e891062dc359a71420b6f4c0a690536750b1c9c);
Dbl 0x1e979d6b95f0df2656ce66a4aacfaed73953bbb4dc749982ab934779d7b7ca89 0x2283febbf67b6300608dcd69ef7c2d444f2bb522e2e70da805261932e3e3b591 0x14783af335f3a576e8042d1947b5d480b9f2c0462df901ca833f9af025dc4d37 (-0x3158be4675556b0f65c22baa993823a114f2234edfb2abd832815d3bc4643908) 0x193335ebf3c73616204a36188c5049d7a6744db410f0128c92c6f5c011a88f70 0x8db7a18872bd66830c5a86d0a05dfc20f16a447f8c167dfabf436daa0e437c;
Dbl 0x1c6a4001739dd174011817f1e36cbb0150d314992ad2ccb8cc9f315add45fa9 0xd322bbf79c2558dc7d9ef70d94090d0ed45c0fbb790711be0e6b8c41d5f4307 0x401308294c253e6d9ad00883ab00047187eb2c665ca7c1d698de2f46eb1bb31 (-0x5e46dbf91181b5932e384ab524183f27435eb0cd94d4946289868a1c89d0dbc7) 0x15bda38998ac635fcabdbb09148c5a6e5673f0c565a932654c555ecb650ff8 0x104fdd28479ea7cd40244149e5ccfa22afec7a1ed3b53c764d2df3a1759d4c6;
Dbl 0x1bdee9274c59aba0e9c3ef88ba797b5996055f018936630f0481b7223ae129d4 0x234827023cfa1a7952f6e7fd7ef21a42b5710f948038c44a363e01a9bcf6ed23 0xeb80f186bed06c7d8fdc5597a3500e6dd02c2d5a4d4b63e9d3020637c36215a (-0x80e46097d1fed29b5800fa642c7d752116fb4eb67657fd69be1f4ebe0d48a49) 0x14ea75b518c458c440d37c2c0b53d17db6ab3791dfb449340217c41c7483cc05 (-0x1093152d4ac8e4aae11a90e9ead95d3df844fe0e1fb803f22680639c89c16eb9);
Dbl 0x1ef7abfcc0f6a48f6c8c8b8d5375124a39b5ff7cfa712b33db92870df0c2728a 0x1fd726e55a46911ef3e9c1667366675d366815caae97d446443aa64c815740e4 0x62daf2db0786f001e4963aad61c87e548e4361e83879c40de5e7b1cb51481e7 (-0x4c02108ba53a63eb6338b44e4a8e34529e60c916c162ba4d101d703bd2551fc1) 0x19d26ed025b02de90c5b51403cb5524a7b1692beb957797119c5aae2fa2a371e 0x2de9dafb39a76a32b97d3fa7922b99697f4c751a8692dc88d1250f267031117;
Dbl 0x17a71f6b5cc11b9aa9e01897b9da9a3882bb647f75209ed46b5018d0011eeca3 0x21a28dd946ae255aada95152cc51ed8a03c29a71e19e96971b8591e69f39fc31 0xfcdc6a8c5c2eaea654ca8b229313fdc9d8f9ba2cc3ff6b1b8427fdb2146652f (-0x4a066ffa8969111fe4c77c8deff100b1f8f9dfdfdb7c7a9b828ba2f160f91ba2) 0xf106bd9c5ceed3740139c0bc85ba4e8cb93e46d26c0346a4b147fc993a220f0 (-0x1249630caa88da567a111450483f7c33ef04fe15c87a303eaa90b8da37ecc0f);
Dbl 0x23280d4a43da90f13106fac8de4b1eef9eb9272d23720636f0a9cac02afa9a2d 0xfdad9828796795e2180aa0861ce4d23dc34391517be24bfc0e5de4ad0115cca 0x1f29369fe8682dc484c9d63cd0b28caf99dfaf6c6abb27e6ca94e9129fff9c9a (-0x3d772e2a4ecf04763709af2e4e1da867e832717948f5dd316f6c5901283c998f) 0x2147c8c8e9b5a62ff39fa2270229f6d434e34ea6598245c90df12e986e6ec7ef 0x10d4d01cfe3818d978396225b9f3112fe1ae7e4e8740323b70e0827b4c47ffa6;
Dbl 0xddf0aa15cb1fc32815e5dbe5bb54f7a5f95be5aaccbacfcbb845ce96246bc72 0x1a68b10c3639ba984aaa33fa664b98e77d6071e74c75021ba674779d75a7cc4 0x174e797eb61a6dc694525ca83b95ba48ad03b2ef1fe45f3dc865c8325c014fdd 0x2f8ad31b6823c25255268d4ec43cbdac24d96ed9c31f6497341db3af7651094 0x52e534aa8ee40b2112abf32c5ab3bb6daa9d1ec961d260b624760cddd22a764 0x54e2c0cc9f5164fa61df99fb3c715665b2d3c3bc2c87e6a6bc3fffb74306197;
Dbl 0x146bb09f312522a6800027f29eccf0a420ebf75dd9b16645842f58864000bc7b 0x1c88bc85e14aa836409df8a1174aff589383ea6ff82dfc1d9f26740a2a67bdc3 0x10f7f99553913b02382c8ab664b310d7e06dbb9d63afe84c2d790d5543a237fe 0x19690e91085ecf89d0395e867f1e0ca8e7f7a81c961f29feeac210551ee10cda 0xb3a790d15009df4173ef53721e0bcfbc2489a02ea968bb31dc42b946e672aba (-0xec835cf4d916ce96ce423426736d138cb456459127222077811a4b71b176c20);
Dbl 0x1327dd17b14d316e5b3966645ccd384af4473dc299019c849d32c9b4ff6afb8e 0x142617004e94d5c6cdc5cd1bb98b7b03dad287d816e1633da587868f54693dd1 0x2b5d779dab8635be1d80f73f865e9297f8e22632067ff78fef0c4688d3ec1c8 (-0x3043f6c912e1689bf362f3674baf25750ccb081bdf12766304e4067045d28b41) 0x9e16329847823798702f1ca72114e5cd646482cf004cb73fe428ee3b615007f 0x4533aa85d8e94c4ceca157a64e7863478ace2dea978272d527ceacca7ae5472;
Dbl 0x15e77e6774e719d7a6f7ad68535ac5316b2c0491440c29a798df685fe30484ef 0x16852ba0535cdb72a107fd4988409c43e3f758904a92de8c912ef43b86814573 0x1269d92dc959f69f0207430fc0a97a6105e8f297559f2641ea01fedeb62a680d (-0x1d98dde0d7a41780ab3b78410fb0113e54dc79ad1aadc6addb47d36c4b266821) 0xceb51d418fac1a30aa0762b47aa44dc51852665955702834533775c6d024b44 (-0x1660eea626e05b84e1ce4893aa04556e48fed131cba20f6bf1baacbda1f2601);
Dbl 0xa50ecddc822ea22945234afd3f7d6f8281eb9a422cd85db956944b470528759 0x1ca5428bb67e55fd7426539fdaef8006c2c544da34fb3ebcb3a001393d81f901 0x1490d3553dac83fd5b4b247fc88cd3bdce4480aa83ee611c1916d2e4a671cb79 (-0x1ebd017a73ec281124f49cf53a003d72221e6002ab246c19fdd89864ff4c4a6b) 0x2dd95e94342ac7fa741fad0dfde320b79efafc03aa3f941aa6f439afa36a80e (-0x1b393dd86236e13c7441cd0bbb98732524cf41ce507b448bdd7bcf3d7799b0c);
Dbl 0x16a69445d6d4909edd49a3803febd408198cb63e314e5f07a230ef3800bd607c 0x21884359e6b0e19feb542fd12c95ce7a8a7469289d8bec5528d77190e6fcf2d9 0x24fc3d3545e2275e98559e455698dc8af5b8701a788567a6ffbaca11dc7718be (-0x2932dad035f72008d77814efaecbe4990476f7a57af87b6ca5a9761ae6376b69) 0xdd090dfa4f48c95a962d5b079d8c22f18c9dea478052814aedd33b3973c0497 (-0x2fafd5063fbb3fd9013291fcb6b37ff98f950576eb25132b160a6362ac534ad)].
Definition hBNb_2 : list stp := [
Dbl 0x7d0db5b2b15df92c179dd9298dd897638a105d103aee323f536b513cb932622 0x230314709a1955ec0db3bb132efc109a3b5148a453d678c74cf17da30982035e 0x1ec9d005767b88d6e0486e174d0e7be7d105a0b3d71e85a8530a3ce4ee23fdda (-0x4b43103a53823b1d7bb46e1c391a663a7015fd32d1210f2ee8d7dd191c9c1a99) 0x1a515f8050924a7d90d790bd952e27feac1d6733f2f0f3462cf0e47e3a4f53c (-0x4fb91829383c8c564f40ec59ec3575f94bc07f0208c4747c63f1779544bcf6);
Dbl 0x11ab3b7b4c9ee3264c2dc136abcee986fe1c5f0833a9a469ab6013ecfcc5b783 0x172bd98645a185d9f5092bd80df330facae4298f3a054fdcd47a5d20ebf6ea8d 0xaac859a5f5a9c4ea48e72298f93adc3c8e7a303d9d7f8882138cdee4a67e111 (-0x45ba18532a7a315dd517e2890ae839c53a1699b8460c9dfc34a5e5e5a210f9d0) 0x867f883a44853afd35abcb2a4769442ec5c6da5fd6e39779f6f2c7ae32aed40 0x5a222f3d607e7b736486ab4b4698451cd892bdfe7474853f2a9aa797b6e89d8;
Dbl 0x1cf4f9b4a9803abf4535a82aa0a0ac8174fce157a058966cec559f0aa1ec42b7 0x6bf1ac57d184197981aef0203e72fff5d262abb4632565186e325a1ec065d7c 0x79cf7444289d2fc43e703ff138bf30705cb80b466cf8275896518f873e560d8 (-0x1ab9dd31d8827ca00097b71cb410a8705b48ac0e69f5ea79a233025f6dfc823f) 0x1693f1de47e1d1151e4b0d1ede21e7214ef1ac3a65b3ab493420b855c333b839 0xcce7788a6f4157d0b09e2699c902decaad2e2fe760ea978d39aba0d93c5ff8a;
Dbl 0x1d6a06f4ce1b2e14640d7e6b53d199426309728346861b55f7c9ae04c757111a 0x1e68a515f9b2af0fb0ecd80fcaa53a317247334cf1bc758c23754fd144bca1ff 0x10c90b27e588b47107121d4a83ae449f4126e162014ac114f3b57e5366348537 0x861ffeb047a7cf775172a7f2448d41b6ac2d7c62f4cc9a8647cfab76148f790 0x174beafd285d7b8c08aa6b89fe9e72d1701d3c2427b24588d69ec6bbae51373f (-0x12bdae8004840d994238afd05987a08843c9e604f88a5c2cc587aea4f39d65cf);
Dbl 0xde73a6685cdf03ea4b171629e607cdb3cc8690f1d5c056628eb3257f36b88a4 0xcb234216f81011c32b94348ac0a7fd84c0725f6eb70c8be19b29f323a138000 0x207a41cdf9c46e7e5fbf8e1f03aa7e31a517268775c2195813eebcad567a1830 (-0x3e20dcbff00f11640e7fabb3da3ecf823d0fc32e24d03be58e8b983e5ca5f3a9) 0x53472a66414b87150530033eb86f55a801d0e9a7458fed244205e7c1c215ce6 0x6a188655cab4291ced735c6fec9348b1d003800d0180d00854ce1e7539866d7;
Dbl 0x888773eba55a50791d2e3aa19be928dd8d93ebc180ccd90194027e61352c31d 0xe72ce51148421ea3dd7cfdfc20712f54058efcd86969930a7464e4734200acc 0x1fff90f49e330779b4b71981cfb698da60c2ff6d01b4396915defd435847d5dd 0x1e74cb7afe82f7155ff56446ceebd1b553d2b5ef61db780742592dfdddb15a0 0x1f5e9e9d75e80f7f3863dee754e5588db9587178a6e165eb7eb1e9653d7b12f (-0x6712b63332ba1ef204c3dd48b4ec662c3b4938f849cdd512812d052a978753);
Adp 0x157be71727486b591755b6cf489946410bda00cfe7b958c37f9008b69e978fa 0x251a902fe68803756fd2ca7ce336f23c02a20d965c19f5ef23370f1e0a102983 0x5ced5e5700c2a1d3d06ac33e6e23c84a987b33b2227383a148f701fbf6c87cf 0xd2031122ee988414ffcbb55a39bc1bf1bd1e9decc87ec555d7e1d41274d9e8 0xc6d9f3c9f5eafb670559526a1c6110d76c5370660dd1f19bf3ac011293791 (-0xd1b1581206f69902727ce4b0d87e244e23250339526ebaa0d211f23dcc2a56);
Dbl 0x1fd58e42a2e42a316b8e3aae0c8320a84e42ee966018891c92fe1eaed4131d41 0x17a0fef64b8b62eacf073d3f616c892d960155270d0f363d76a5dacbed53514a 0x12c73648e9f764b2f8d093a4475c59c003e98949668b6ef288331776a4933177 (-0x6540408302e08bf6fd09c5260e31d3bc0fdeb05c0bd0e6b2f4929c78ec755baf) 0x1b49a4cf865f4b0d385a3d34fd23c24a1dad8a0e9f0682177756ab02ca2fb12b 0xb8ce73fbf84660ccbcdcc3952098f4e55f5e3875e5cd8bf1a6e2b62d1825961;
Dbl 0x82159fb68f2e50501e5044ca30a2a1927d6dc28e2da58054d823889e3b1a3a4 0x5ae1b849cdeaf79b6e80b27ed6a60a0759ccebb70ab0e2cdcab0f7c6dd7e0b1 0x1f406214c91f42ca8748336ceee2393d73e4d10b0ef33aceb28819dbe96708a4 (-0x24e114a1decc997f3da4950361c309bf2ff93e6570bb07d697d2da5ae18a25fc) 0x1c7a5e09cdb30b4aa923df1655343499073dc649b6752d517fdd2bb97a03269 0x3ede8de94bbb4a9e940150fa96a335c2042f0652072074524405e4146739893;
Dbl 0xacd0e28e4648f401d9c49246b1be56548bced7dc0bbfb9b949ce7f7cdccfd1 0xc4fd51fa03b184dcb8311badc40ba25ab1fb945b03b26cc947c2052991eb290 0xb63cdea5139984d4a45a5403f9b76d7c375d1bd472198f4661dfca9a8ff109f (-0x178595a8e5d22cf9f510bbf10c8a7b97428cd0c64b6b02ba9b421fde8b57099) 0x3242abcee4c34c42e81d0874dfe259dba9308c716094c9a5bd70b84cba475 (-0x1edc0c45b974e52a10509a8771c3b6668b6d01f2ae471a3dd1b006dedf17a6);
Adm 0x3020046729fd77a106bb2f3b72e561de4507a3be9e0f6053197e91bc09a84bb 0x21df328ca487697b1c133ba2622fb59a4ee9f12182365fdf4b63732987af56e4 0x2455e6e7d7aa86909bcab2773c2e4eac14da8166f9a8ef639a7dd30f69239e71 0x202bc2b854549fb75cd634366011a305d10900c6bd070e73689f4835fc69dd2 0x3e5cb7517ddace577924b3ed41025e56368d187219bbd53bfdd711ce942d01 (-0x1bf030715f039ff5942ecb4265c0a7c99fc0c73fc08d272ebbb0c7740441b64);
Dbl 0x1d5c80ff33a0b2a66ebb021c6cd8c9cfaa1f526319ce328e5fe675ee60bc4638 0x230b5f1f6a5db279fd176ee453ecc58d5682748c80e7f478919163cd46d75456 0xc1cd36751b4fe54d6b5bb611088085e62491c132e436b718d938ed40246ba77 (-0x23398df53ebc14bc694e5860833582952e0adeaa1be742a75cea7efd6105d540) 0x1736840b48bf7a470d4079314259fe1e7386ecc4cfe8a44cba5f8988778ac596 (-0xed50fd9c8fac101d1c874047ec9378ab8c0c62d6fd91701747348bbd385dc8);
Dbl 0x46b4ac8658db1a0ad49b3a0455ae3e2039e714c7cd6ec3689efd14422340cd3 0x1c25ede62d119645e93ebc90425729723b13fbf6f7fe8b5365070c889d31b9f5 0x11662191b47e09e9d0af012a05c38723166fb7a56579d0d623cafb0eef194468 (-0x6052c619a341a89ddab5b41e51607253041a1b41f82fc76566688375e054cbb6) 0x869d03c31d6fe753ec594e7ed806d597d231363e348700e8aecf27b064d898 0xd21244f33884d94dacc71ae3e7fe68bbe5c3033782f488a6d4f607a029331c;
Dbl 0x3214f7440a7886057838c626c170b29616c645a438906cdb8c13ac31f7f1f18 0x1d478568c75efbd6dcc8a47f64d050ab9faadb114155a738056ed93fc98ec4ea 0x22489bbf9cca14cbdf3d4b17b3464a0b73f1b25409aa4ccce1c40a6bec1adc7 (-0x3d11efa087d2eb621c48c526b484eb0f51b884ea3e221405813f1248b80179c9) 0x438967cf004604fedc1919b73af2c72722b51d3d777cc6500462c8c58f6664 (-0x18685a93a7a3ce81df6934988ea9f03adbad15ca7489284b759e1fcceb161d);
Adm 0x16beee88651239f76bcbd9bab6fdbcd80fe93053f01721d4dac8b5ebad084b56 0x1713a64eebd513f3e9fa7d6cb0792cea30d812e62e23868bac5b08f252d8f70 0x9b0d5f0d484b382b96e0c84fc819a3599253dbb919a84846841e80affff851d 0x4d032b18e706e5a85491a9e8a4fd4bf2f3c87a06ad68ef05a008bf8012d7ce8 0xdee556b5da191d2d34c661c5c08d52747e9ff095859665279e373cc6d1860a8 0x110c9850906e1fc504d633628d7a8eaabe694b7959f7262623a6494300f7a888;
Dbl 0x19d925492f5b86b065ec4f9e04902b1205b9f1fb08c50ddfcb99f2740575eb0f 0x235610522074c3d551f401ef8fd90b4f3bcc1c761948e7c84ab0c18e2fd0b8b5 0x1c1822ae743ed04563ae46fc7be98ccdf91e6b5d194f78be638b7e306574c966 0xd524e3b7162be76711430d81129825e8b1bc9331981cc5097af0689fa4b92c2 0x11fd889cc6a0d4ae6b612dd6b5049e78a0edf06adace0929a587d871693ae104 (-0x179713f5bd3552edbc17e1da83ac8bfb9690936e636f5cc695be64ece520cafa);
Dbl 0x12bfa5e21cb4a5619c16d4c43c831c477fd7284026809ac795ba1c0e8ab82c71 0x2d25e4eae2cd8fb0061066c5704ce0604628bf6a53b42a99b8ac398f67ef344 0x9df7352378429cbcb33f40320ae395b669d6acf79deec88a0848cfbb70cd9ab (-0x487fb3a584f8f5fc0dc7e037f89b44d7d6de96493390494fe5441e59102b6e85) 0x977059cd9d5548c50564b5392f7033e89f8b838386ad3e02ddbcf443b5eaa61 0x106a1407d23b2eb6054f1fc56fabbddd807b94208871fc18f66774627a326af0;
Adp 0xf16a4c906655e99fbd35574ecc05efefbbe001405dd2403936b8ee5d863f15d 0x35799984c98afe52027e7f0b233abdb4d13221bb171ad5b0c1cedef2dfc8360 0x410f084bd89ddd51ed60a1df88894e5734f889ce42fe2b69c2716406813cf8 0xdf1294f4f84af418186ea8c17f0734feb4759e997ea869b4c7fb998dd3ea780 0x6214e8d5278d27c8f50f381a13476e3dec144989d1571630480d8e755bcc701 (-0x362109b005a33527bf81b8f479522e25164f45c9075873b33aa6d95708efd5);
Dbl 0x2018fdde089ad17a86724fb21d23f80d4a75e7bcb2ff22499eeb6ab632cf5edc 0x1349b8dea2dce9cde5223dfa71559b44549678431fb0e3faf55be44f9f89a85e 0x21c8f431534baa07f61a0d8835e4623d812d9ab6f9fff8d644db4462f222098e (-0x7689885e54d04616a99e2ba8d659703ac191ae74dca5c0dd8235a6f8116f40) 0x1bbdbb54c516eb16b8827aa286a8908e8e3c85a55682cac07cd51a9d2f209c86 (-0xdc81261fa3ba8313e9e22b692b0f3246a7341f224f2293f417bab39bb4f7dba);
Dbl 0x2022162bd5319ee97ed8c8d75c5da28548f99453abc03f0e5bf1f8b492c532f 0x21054c81ba490dd21b94e38b1c8e7d95e55003dce4f75173483a959339612a57 0x19b9fb4ec422847be6126155c2aa445dc2f60e09510eac8ad788cfae84bc317f (-0x1a65e40103d27a8bcaa34040a4f68b7800187de140de5a6f7e106ee30cf985f8) 0x1bcd7624a8ea0667d2d2b72cc1dada69f348de337579c6897e6727d809d7fa (-0xbe1c8cdf908a7fbe28c9daae963341e0a189cf7ef06c1fb49e88e0783ae2ac);
Dbl 0x174924ca07045a08b9d1ec349b0770220f5a0d3c732c67391e7398710a0b5ce0 0xc20c0da097c796028a3f7ef354d8df549a5a2f80453b3ba468b244374496e6e 0x2519f07bdcb4a8f1e8033e70d43740b232cc5e367d06d7cb2f52c598b0eab8ea (-0x37d1633a45ed18909735d083dccde4f0848ba75249fa97186d3b3bc9c7f21c21) 0xe99a478334e61eb4883faf17de1b09ae75f108a2c4b8b28aa42df44ab42000c 0xd198af835dcb7f7bec06c68000ce1838d3967d97387c991a5da859bbbfb618d;
Adp 0x20e9a8dcb8997e48e83f9075fa36597c6c78f6bf8aae3778e5bd64d0d9a5fe46 0x3345b36d7555d4643ac6f4496b84c33c498c24e7a370a61e17dd80cddeba694 0x11ed02ec4c3dc0647051149d6978767b67a8934215921c894b1626f47fba85d7 0x162a28c170c7050c91ed47418b5adf3f39ed710fe3e870fdb7ec887b42516f5b 0x1d2b010f50cc456edc71a4d884f18abdb5969c3b26e784a56dc6d3e6f407e3b0 0x7e87b915277e256536dd90fa68217784147f80c8ecbfe0140901b3d3025ab19;
Dbl 0x21f8f062c7b308c33e29fb3dd187e8832c690101ced7525c8c83c6ca1b918739 0x538be8e11219ade6457e51843323e056393d591c3498797ff297f4280949af3 0x149ef89f3b56d41cd64deb006142844d79cc5fae244e9a5f47e41c59c1531cea 0x1ff74a41031fc24c855cfd6e13bcde31525af4644bb526a2e52840ccf58cb67a 0x1f139279dd778ca91335abd4cdcfc21a3fbbcd1c55068bc015ca05772bc461d2 (-0x1d85e67d5f9bf78c598f2635bd5f8d9d811bb5cf2d243dd9f26513c0d7df478);
Dbl 0x1e7c770071940226f93f02de14d03e39f31405c693fc897ccef36e058ed4a123 0x116f8f7cb60619db5d7c2ab931da1ae9f79332a1071d9b423cac219c45522dcf 0x1febb7cad70f8193461bd5b526b56df3e03008e8a88ce375b74b13138035ae8a 0x1fa700d7a6975a8e1f53114c8b2b4deb19f0a9cf6115c6ffe1e7060e2c8c061b 0x19068f19e6ae2013918ee849a057bfb137eda622235f9b1aa685acc4c7d6671c (-0xa06c0b7ebe59fe01cec054500d81de3f0b7fb7e4e6d319e37a511bf0dd79758);
Adm 0x17f38bad606e8f47744dc68d00dba97a820e3665704b942bd7def52155fb7df5 0x1bf2c5ef32c87583a640466a6bff865ae624022444a5ee6456f1859288a7b392 0x113ab6c8f9eeed08d64f68b25933726ff2a410562033dbc9904c78124ce4dcd6 0xcb4e36b0c3167c0e125f2e2fd5ac05f90d7ed687489a73df73e9bf9eae3faee 0xf726181ba33661d6c487fc8062c7c5540afd758e495e82ab8e690aaf43ba5a2 (-0x6c7a0ac8800b08298c4bdf27a133fd19eaf68e243252d917917b90ef12117e5);
Dbl 0x6bc0c1a4c48e1eda26894ef64dd849381bde0d57e4d2e5197a828d87ddc847b 0x24890ffc1cbd8b9372074ae9bedc91edf2e6abc11a5f340c61945dd7e577d9ec 0x2769e35a06402c42f53b5b8807ba17eaaf16da65f3520023a1ccd5e4432e400 (-0x38d9488b8f9cfc7b993e5f8dac73105b23ca50118b18323cbba41a72daf09c38) 0x138a26f1c22e23c971ba99ac501a6a8f8c8d69981103a32352d74f1378940f3 (-0x18ea1e41bc875eb09e1c7b8ae4b5df8387190c6a068c3127ee20a5312bf9c1c);
Dbl 0x63b64d3ac906d057e7892f8c1c455a0a13645f4bbf2aadc810df33ba0118869 0x19382b6b76be4e2dba8ce941e94cc04f4527ec3eeba934c63b8e7a0ffb7a7477 0x31746a455f863ec9045a9947a57693162a8688f6ae65287437f5328f629e929 (-0x6b0011e40e9fb6e645a5a791e841fe70912d4df2b375984fd5eecaed8b327690) 0x10bb74ec0405f819b4f36d8ce6ec2b86abc7319a312d6bbb151f17e26bf8e76 0x1e61d68cd410ae5628a48ed20fd7a94e46948a942b0ab0e18ffbaaeda976b5c;
Adp 0x110d417a694b2e2883277b3564a7e28882cb87a09a72ddcc2246035e81294c65 0x23b084d441154ddcc5216d0ae91afa3c7c5431e6e2b90e9b9b316d676bb0cdc8 0x216f65b29bcb0a1c22fc39dcee1ee3d1bd762c73d90ce0aec498bf602dc6389f 0x578f2daa94f13ef98a29d70a23d5dcf7e8eeda39cdea3a0e8f021f077527955 0x7d4472bdab99778f0a83d5d46b35aa67c77bed186299bc5ef9e9712501aad58 (-0x4ceaa192337899e3f9c2d2c7ac34c0cdec6da63ca50fcdb2c3a4540aaad63ef);
Dbl 0x2e4c1dc574159fe51cf252c3689af2581000f9e485d49739cab80fba423fa69 0x5fb1fbadcfa57efe8bf0f13e367f4100eeb2df2a32e7b92cb29003de1a742de 0x1abc7ec078a28af9c019a9d3e9cc15ea98cb4b820a7165b7a25fc9683dfce507 (-0x61ae8c02789e841b7197682f2e85de6dff05e074d4c8e5721055968b9a3d9ea6) 0x39b7192bbc2e11e9422ab95de89410c3127bd2a6d9998d766adb9e3915cf31 0x25090bbb3767e78c46575419721e5e8a1b22a445034937e8fc0e4ef99c770dc;
Dbl 0x11949afa91d289e16375e1859b83866957a6d2e45d28aabf53aea74ccbc4388a 0xf59f6f0299350f5a1bfd938e7fdec1ccd97999f4800dbff5ca3ab575e703eda 0x8240ec764470113512d9b45bc650ddb027dfab82c280d55664334f9dc884429 0x166c5888fe5ec3c5f2cbfe1ac02b7c7f70d2c98f0cd1da425cc50ca5597ca600 0x8527e9f9cbcd45d0cc8d4f0e97a472c104a6eebe0372fc0ee44ab7bb3e5c8ba (-0x46f8fe8f58e31da78c56e0e27069fc962613869cd4537143fa17819f3bb95d8);
Dbl 0x12dd44f7495a91d0e6d44eb14f0be89fa47bc9ec3f8823dba55877325a03acff 0x8a3fd714bf8428ee6e6ea43858b77b659c1bb6eb62f2eb9d6cf1434ca8cd8c7 0x2732ce491f5e9b83deeda33a8684bb234e0d6e383d3f805ae2e8abbfd5f3704 (-0xac4445ca5ed463574b43a6f9ad46b5bad4a6c4a6e8ef2c18d3a7570fa3cf38a) 0x995059f9695cf57164f5a706fac31823ecbc1b867215e0b816dba207d061f22 0x368a4acf872b644bdb491de12e5e328b1ccb9f5766e9ec27b748d1fbe3b6b40;
Dbl 0x23c6ed1b6e96286eb425a98517cda59dbd9b74f6e9c72249e6dc287a56afed29 0x772faf2d50d76f4d73fe41745f2d73698a38fc1662ef3aaabc231b74c4d8931 0x23e5f1d65bc95308aa39e48aab326e7382abf3248bb7275920507ac28ebed65c (-0x14f8c7ac48e4c36f78d6b131bd8dcd9bd0c421bb4a5159cb0fb66ca390b2b69) 0x22773b59511baf820b18d388c71e794dbbc18a3cd989be3e926f0260e1e9e126 0x125d49a3a56b8ebc1785bf538c8799a4b9b7760aa91e2e33b78b41ab0392282].
Definition hBNb_3 : list stp := [
Adp 0x196e85ca5011b88accebb3ef7641069c48b087b5c28b36929bc0f6c2c48d9133 0xdbbcd524671e82c2b1389dcd72f3d21fa2b15d55d6246a8839e2ce319d238f2 0x1e58c86091c6a788d9c4dda710543ad242e2cfada0ef6782ed8f0115b0e04851 0x1454a68c6f2f425335af88741699ca323657f2db3d1ac09d47988233cc8e42da 0x116a4f6477ef36e0c4324b8d336ee4a392d1975fc5baa9eb1623b9dbd71300bc (-0x44db28e45b49d4d7a5626feaf743c63afa0e7110df7c989f030e1e36aa06460);
Dbl 0x1d84a1c89935731a6a31ee6185e97112cdb79c43263cd09c99288547cda7583d 0x138135c7cb102e82fad6a7c5de21d28f75ee3f17085d2a6e58d9a4e73c8e30f6 0x1096795cb86335ceb68285f9dbd9ba1ec5ad1805913a76cc953293f68a23617d 0x21011def02edd8e39b04de65ccb583e52089bc1c0300a8058b2aff4a8b535c3a 0x177622a52196ea01843644126c454144c6276344b092bbdbb467ac192f25c175 (-0x49644a904373acb108d921194703292cd0d16722f082fd5e2a5c555018fbe76);
Dbl 0x1d8ad1d706d139fcceb959cc65c1264050ff4c036b9061820ed81b36d5e1b4b9 0x14d4e9d768c78685092c9b4fef6cbe920b5341ee9e975544b83fe19568987ba5 0x20227f8ad877bc9fe38cd600618be27e4ef4f91675b6cd19ae3b9fb25c7fd9f9 (-0x457534258bd056e641327a78d39e11ff62dc60a0d78d9058954d4a06ead33b6) 0x177ff9be7bededa430902b8f8bed74c70da3c25679b2ac15ee8a648bf47a3360 (-0x10e3910877e8ed801e1583e154f6193c52f4a99aa1afe955da72866462dbfff);
Adp 0x118ee8b16a4c66d14220da60e28a3cf7dac62a0be3d2306531044b8f781227d3 0x11d98462e16149f396fc0985f6a0c2970b9862d6607a1994e7da127037230f51 0x12a8dcfd239f8b7295d2a406c54be97ccc21e17cc4f77e8250078caca2aa9d5e 0x7b59ca9b1da6b6518d20e5d6d7fe0907558e56a773c47bd82f2944ee974a9d5 0x84d1ada14246cd39d76b89014811a16c329c0fe9f406a804005bf47c79605bb 0x168eb37b06f3bbd3c26209a0c27a626d6988b33d24f227c597484ef82005927;
Dbl 0x12f0d70ea002dee24644c16a15f9487a0c491d7c5a0f7b974d525d2332ad29e2 0xd2b207a7cba6539e5392d6eed6356b00ba1c404543daef62463d6653fbae3d7 0x12a5d5455dd903dddd68ccc35e63101b32e2b33f94d6ca6cc3cf08701ad35247 (-0x6b43d7987bac09a6f743d4a8059e88995593339101243702bd101b05a8d76c9) 0x9a8f1ad4726dc1946a483f5104dfbea008e7c4b7def9b695b8d76361e1f0229 0x26330161f6c1e2077d2a5cb0d34619a51feb7c03c21b116e80d868380e36b95;
Dbl 0x6dac0385b088a502254f42170a46ec27d23aa564affb3e83e50b29bd59096b5 0x1e48b2233332982a0c83edad3a1b3f99db8cc582379763b7b8bc3ac4a8f680e4 0xb7b727a000e3d478c9f7c9cb8d2b8f53f6516db06df5a69db5388a076cd50c6 (-0x71fd053e998c9ec99f8234912eb6f40b08d99e3085cddd9a914abcb4e067f1f) 0x143de7c973581795c49b306243e9f4563ac596dc630669c0e6438d885c911dd (-0x328b169045f745b54145fd9a28a07cc5f8b436ee0e9af258da204db0e44db8a);
Dbl 0xd7563f01800ff8e41a0afc17d0e429d0abb6ecbc9481273894aaabb02971aaa 0xc03762eeaf09efbb3d9fa5d13b90263838eef068760ee24683040480b729f0e 0x1d69ae329e2d887282b2c77e9685b235118ebad550e28a017974e4bc05423517 (-0x41c31691638ddf77609e4171eb8531d132007cb74caf33e1b71dd80d25660be8) 0x4e093cbeb80796ad5ca1591ad1aac49a592ec498720486fb491b90f75ff557a 0x69efc6cd82db7b074f24d51e9ca9070a4016217c7cf8e2ce3b607db203196a5;
Adm 0x2e178f33b5937d91a4ff61d2cf782c7bb6028e14043153c73d4f3adabb11859 0x1661c6919b11d0fa7e6cf169f2508356bc6084d2aeb39774bbb7f544bc1c5799 0x1194013e548d3ce34d8f4ab8d51140e6220a5f4bf7bc536b1b777e225319470c 0x1f2ea00943fd8b7472ae2424645d9a20d50d446e6cca6644dcbfb9279db3a14 0x39345a0c2fe68373ed0d39fd979969363482c8e464cdcc0b89c668c75bfde8 (-0xcde403484fe128c25e98fc9c88034ac2a67a3f15586c00c5760facd9254c72);
Dbl 0x20066a9271668d79ec257759a857e73aeb602d122763bb2c5ef0491cce17821b 0x1976627a97f8163e5e4286ed946b6debb6b9a651b1083dc86fa9fba6d40cbc1 0x182c71a4a7d25a300cda05cdc0b6cd5a1aa36cdebf110cc436706cf2cb0d650 (-0xa26856b8ed963adba075ba2348dcb529872d45bc07927bb548aed5f82e0c869) 0x1b9da8ddcaeb493059fc211a5032dd760976c6bafdc7b561f0b56df510143542 0x11ed97b77ac5a21404db5db155156e504494d45d0f10ddb89e0aea229d68e964;
Dbl 0x4ff7a2a13a3e2df7bdbcc10be52e50122d687c07f351bbc0fa213753d53257a 0x1b829b525f2d8344a78d09d00c32d41e237807afc5c32b1a91f45c4029283b78 0x82ddf5fd213f5c60d8e0fe6a9f593252cc687298b380ec3a43038f28877c9c2 0x33bb134bc4ff102585ce8e73ccf2b2423da1519c1c97eed335da614655b4ef 0xac30356ea508a20330800ffee7f4628308d7e4f7f181cf183ff9168cc9316e (-0x37cf269895d37852132e0a39abcdb2abe278d24311604e622267aff2f934798);
Adm 0x19eca12a8a9ecb4a8f8ea19b1fbe7dec8150a9032821416196464fe40ca6c09 0x1fad83f4cd19410b49ba4c2351864381a3f8295213f03bf6d2d8ce0f7720a2e3 0x96825b6c12d836171b631bf15fc2b23c9a565a0d7503a1c7de66c728e5cdc33 0x6b88ad22f712c00a6588960aad23610ae8b3e8d08cad077b40a9c3c6a88fbf 0x1218b1f6cd2384293429ee1689c857757001a0c3c45f63bd755f742fc3830c (-0x2e8c14667fb663353875d2c3fbaac3e7f6df9aecaeaebffd84d9666b81a768);
Dbl 0x5753b13f8dfc97ef8f4a1eabc74194a6d9c2e9295616224ff6bd1c259ee933b 0x7043f185b9ffe99d233908188a4ac9eab7f39ccc819962c942997dd53304c7b 0x222097248c9284aefe97c341a753398e05badafbeb1fe74277e7cfeb80eebce6 (-0x4e4bb11bacaa557ab97070b64a3f08454042a43e265e7b77a6c69acd1f821d63) 0xcd573276d58eecf97982ed077e3fe17edef2699f495d4d8c0e1b60416ae848 0x39fd06e51b82d7139ece549aefa7ac957de82e22092afbab350205267f7e585;
Dbl 0x1cc8f8614e7e5bb351e8294e42f410736c88019ffc1fa289f2a824152a923c97 0x6eec7a87b5a2ddea5ccc0129327af70ac110733d482db8c8d1998a8b6ff4345 0x21a756a61182c0b6a38a34806af093e2fc9d75e4e66af29f9db19c3b325502b0 0x30ecf9572cbfdf9af807a740abbfe7af6331c967d4444b43eff110b0124b84f3 0x164f86b74222e5d1a896138ab098cf08ffb2d0c2e66333cc2b194284122b1e92 0x10a364587a0d92765065fbac03d32e10ee3d9c22976262be0df15628dfdc2c;
Dbl 0x5a35666c33df44eed9338accc3142fc9ba368125fb417dc404a3be089a2445d 0x14c6049651c077d5719b4498437fedce204c3da883f46bb2609cb77de78c97bc 0x2a004b9193deccc63e560a9c20efc3b826b18503e5ac214c7c6bda1e96e5a73 0x655e9634ab69679135120d6dbbd58a9af1bd6795566740536bc5daf27806a37 0xdb1dbb3df08c3b5b528b492cd04387564a7f7dfd2537a11cead327efcfb4d1 (-0x219e81082334c1577d857180e6c0850fe59e2f5728ffa7289eead6b63fdedea);
Dbl 0x27964e34c04bf66eb310d7af6c01c0739d21885c4de33af31a986cd9781fc53 0x18ed168912949e71f366e0cb1c8a0d42c65b0a923b972960f454f358b19546eb 0x977b5e23aaceee0e17ed6d56d37fa81313190dc629d26d55b5521b5a7c309f4 (-0x228274a7cb2013092f5c8ec718c821738b948f429ffc842c0cdc2fc02ce719aa) 0x2a328e8439a01b877bb992f75dbb91b712a560cca42d6a5fca7c3974ee0e22 (-0x46d2b1ee7f572446cf4c411d5eb136a01d544ef5ec65de6bbab5650852b54c);
Dbl 0x1b89fc921aee5d758a5c2e57b3129e3ac7e98319add1f255ada6015840770985 0x1b68137597e6969ae3d04150da187113d9f7466ee3cb1db96a1937fc0474498 0x1562a585f55c275fb46d5e0f12b509876180fcdb81d963038a4c5e33e06826be (-0x2425ea2af2609d0677ee116879c92378bcf54b8a8dde10c9ad184fc257713031) 0x146bc10f8992d17c42dc57fbdbb3170e0da820c61ed35595368b413ab2078409 0x113695ba821a83f9885c3e57372e0813c56217f9022a6db5f0ef1723c21b427f;
Dbl 0x134dedc3c6ea13bf8b9684463dea04ea59f2f1f70c3dcce44118268ff2800b8b 0x10c2caa537044ffc376fca21b3ec13fd590f9270b4ba797f3ae22ee6c6b82404 0xcb032acd3ee1dc03d7bbfb03f65ae5747ac2358b7de1844578133b4be43901b 0x15fec0728678b2f2669c7e23aa351874a8dafb75782e7d44c84878c56f12449c 0xa08ceae044a7ba358a8c0425286358def611f12807d29eb9fbe0fa52946a947 (-0x7d269be3a1b21e33f723bbe80379bdab1eaeb0340ab6d55e4f9451c32d19d2f);
Dbl 0x1a5f51e48ee2ed7bb4272cd2f5f43745c389b11db78734e10f9e73cf9489ea4a 0xe404c655328fe359b7bef5b1e6f205b470937fa79813578fee81b4581037bb6 0x1f854cc4b9f1026d709ebe78efad34816ad0e285e93df54614abd0a1a088931c (-0x4ac45b50735e31165b3929856b45b6bad3b684618f3b220dd9d88e6e4afd39c) 0x12ba329fffc7986ea85777353a920581d55b90d43eb345765f488f916d383082 0x1c83e168327fd32604905495b98b8d392a3ed222ce7b00dcb2178875f50eff7;
Dbl 0x3ef62bd8801390d42917af3a6db00212a7248ed32820bcf3492c06174667222 0x474557558cd4a98dd19a1a04e2c8d7276bc43d143bbebfb9f93b2b438d33ed2 0x1e45dc6368dcb9b6232405f352d2a89c895141c016543b2f8490abed43428c02 (-0x9b9e6331cb4dfb3fd10c242b8d9c5311754b124f921fb559b4db22b76580fd4) 0x6abd9fff5ba0185aac4ce7e1d7c8af2323008bb3c74a6f2fa3b6ff4d379562 0x109bd4192a74cf2c9f1c449e6e02bddd267505f6f6b5daa93a3330e9e588d6e;
Dbl 0x13c8c277fd3eee5531ca5ff958835a5ea5a68927c419f167dec27f034ab7377d 0x1a9a964afe9d6670fa1b6812ce36a64da239676f98953460d1286d13862e7406 0xc5aeedf30b666e7fb50e99a3956465ddb8e1e69f263dc8449dd04052b5ac2c6 0x1ea6a913f752750a8f83eb91d4ed5af8b0bbbd7f83058e35456011dcf446a738 0xa8a16c0901c7d4d64882deaab7ef5c4311d2400c5e1bdf72b03ff23b8421b05 (-0xbcca570e5197bf0e2d0aea0ff8619d5757597ec604ef966f6eb10cdfe2513a4);
Dbl 0x2061c58e79abb2b9b698b2f0f36a2ee62fa4cdac3cf60043bf4a701504106555 0x1d1b1154677a2d502e5f924a0f0cf47480cb7cb37c6b06457430d927304e217d 0x18e68b4be2260219280eee5bdad474b97d1852c59c47bb04a990a10c0a03eb6b (-0x23a08374c35a7364a6961a3a1170e84107e16ae4c720059fb6509133082f4d50) 0x1c3c17b9b81b2ccbf0a480fc713bffa47f682286aabcf73bb4a2694ee851be90 (-0x22e74221258b0947c503850908d07ab7846201a5a48ba3c76d2b8b16a5b1dfc);
Dbl 0x1e45d27225357250406030d0fac256f6b90a9580e7ee57230f1aeca8c117cb45 0x184a17efd0762f40fbe5ce08185104efae621269beeae517acba2d739dd81e57 0xac343339a6b8e23f2a4e8454f1512f4b064144fba837e913d8c1de86fb9d39 (-0x1bd6403333523dd02bd4a6f5628a02a6bfbee517f27c3ce37537b7d766ff767f) 0x18ad298a59fb4ed5ae0e5365407e228ae5bfd3632dba7bbf72a9362f46121c98 0x3ed0acc2e15cce7e66ad17712d06f1d5a36449e5e340ed3787257c3dd3f9a3e;
Dbl 0x24a41ed7541ab37b074c08af094203a1ddd93b0e7f8cc4e7be4449504d509b24 0xfdc73cc8d82235e28d349068e8e187760cf1b6c563a5262acd8e2cfecc5bfcb 0x20745ea2ae7fcfd3445f9567c12bce0088f8aa27cac944a15f482fcfba70784f (-0x2e549c198b28f635d7fa1a6c0c13567935f68d8e92170d1d8080641aa9496209) 0x24268d5535e00f7a2126223521782aaa348947ef59176b348179ad069f5f15ed 0x850c1f0782999447b4e44119b56592ac0aa41353cd6a907735ef264c252f238;
Dbl 0x22ab4d4669d88f123d2918b7acf468fd6f365f07e9e03960dc934ab3557b3e1c 0x19452a827d4002c8e056e962e41f41f3281f17977df601ddc6eeb831fc2a1fc2 0x175c36a084aac2f3b74b31f6e501eabb6c8552fded998533bd0a103df2a00196 0x284587e8d0cc32677e045348f21a3716828a2c34579ecea6e96b8d46396427cf 0x205d3c2fd6a24bfb824104879ccfc0bc6d9aecd2e8dffca1637daa19c361e468 (-0x8c8928d694a61fdd6bd73e11173a180956ea1649b9ca7b822dc8e47766b4093);
Dbl 0xde6cd3725b018d9bd62ca886697d8864358aa99d6d3777b74f7bf873c9ea78 0x12e67a1026da4132faa93681eaadba5256e9986d005f46b55d42c983e79bdaf1 0x1049fde04cfa5be308acd6df6e0c52b1b53d040fbfdc806e5c15b21527177d5f (-0x327dbbefbeaf9c0f9ab6804cfd94aa9f48cfc10c9f3a1a2cf6a3a8daa03a6b64) 0x53420e7a6f198c8d624e73b672016cfef4c0090da9be405d548c378cd7269 0x262660d560d5679f8df2d8cceb0c06126adc6ea436be9c8a427e52de42fd51;
Dbl 0x74c1fa51ae51ab1db2fe6e81a8f31e8e88b370860fb41b2504eb45e961f06b5 0x15be2f279edf77a2033680a5077e6b8c5e5580d0e9f138b7db0dfc1183edf950 0x78d22349e8ae8dec0362c8875ac072a9bd29edfc6a6b4bbb1c22de4cef2a8f7 (-0x16746aa692d08c48261588b48a3038a1caa87fd14119fbd441d70d922c45621f) 0x16f121d56ef4ec1c34078a6c80947f4683360b94b034e24c778db3bdd191efd (-0x8efd0b39f3c498edb0410e05d2ddc5d6297b20ac6bae049f41e4202511ba9b);
Dbl 0x1291ff701b88ed760cd5acb2279c76d632424b9fce8ea117dd6518bbc795c2ce 0x16af1bc11365683faa94a0591c5a0ed65e9a7e4933a02b3452551501342d41e7 0xe95c7326e897535690199422fb805a60a8793c2a26bf156e5ae285ef1873998 (-0x1ea30dd2f7d9080e025cc477045f2257184aaa93e2c5c6fb7d1329f3b9d2a014) 0x94926502bf18a361dc6d58586a941a194b34d0b2b1e314089948b621ffffb6f (-0x7878416f3c81ff0fd5f1236b454b17ba90288a8f978bd40723e50388e909cb);
Dbl 0x207af0edea40bcde3472af3101993c4b0eec608767b13655d7cb2545c5d8cadc 0x1d5be9edaa5d329736d68a1592ea883bbecba775daf625bdb15675a5b14e214c 0x20df678d7cf96f123ac919d3a212bd5127f77fd85003e83b4e25b30c884f87ec (-0x100dfbf8a07c02c30ac5db424f0ef25c1b7088b371691909b4ca22dfece14a01) 0x1c680d1c6f8d04b2d250ff8bf3e311d8de53b1549dea0e86f211ab1771ceb2f2 (-0x5d67b17e9a4d6dd73a090460040555d4251460102b9c75905ecea3b0222c270);
Dbl 0x13eacbc6bf35cedb13d849f68900b27f755bde55a6aea28e0c647e51ceb9c428 0x1030dc7ce63fcf788be76b9028ac96ab2d78eae8e54650db3e8a35ebb1dc601b 0xbb86b8d4678cefaa899dff862a366291f01e4562a5672eaabe2a9ac111eefd0 (-0x225e6b1dbd93e85c264193fecdc9fea7bb7480b4a0687ff859015f92b6baa450) 0xaae796b11e2f1518a3c1ed055a6a86d0853846a54469634daa9fe3dcf5981df 0x70fe38b2066bcd2c40a3eeed44386eb4066b1fc27bd92995cfe129556e089e4;
Dbl 0x1bc0cacced2e91bb888a31312e1f5d9cb5cf0f22946f3f980f62db4a39a37676 0x4b69d5f59d7b56d2c29340bb604f2c5b74c779824b20edb138e60b8fe1f7c05 0x8e649bd1ea2fced9d73ebfbd49d737b2a7aac4d63a9db10de406e51f0506156 (-0x3a8a117b1d59ca96251d77b4bad4faa376a0643297917ca068fa3fbaa93ff69) 0x14bd598587018907a00314875765da5a21b5849674c4c3bd69f0b99ebfbfd453 0x893b9e892f83879b5e5e23ac17df49606a613ee22be9fce5b23d4e0365b42ca;
Dbl 0x2c3941931af61b56e56ab3e76fdc901eda2a9033e7ba6655f4fefda94d44762 0x15962501d0105e03edc73944e65964fda9228d244324d77f55dfdf49b1306b9 0x1b6955e6ee4a1e0353fc8e698cd8d3fa8e5406d706344a9491e72e2c2692a5aa (-0x7849a45e7ffc9054d906499f0b8bd24ada063b78e954fed120a62c8b780421) 0x34a92d439548fb0e8def67e44ee3d66bc028ed6a2a5caa3c8b7887a20c145b 0x4018a4ae91610dd4d345e1343f6bae853cc6fffb2119f1ec1dfc5e631fae88;
Dbl 0x6b2708e729c2d3bcf25b71c468022738171c7ae9dda62c435cb8e22906b2e55 0xcdad8cda5304e4722833eb7cb9dc10464f81f11eb120c07da849af573b808c5 0x22dda8fec9d446710478be1986b8d67f676a3fff144d4d2759ff0306f9b77d73 0x9bd30617d18d4ecf2886c5f38d1fff8dc1971764993076012f2fcfb790f070b 0x13528e73eb1bd9d0a32a881de2a313a1b4b68dbdfb71379545ce1ee9080fa36 (-0x21325817375244abeb8baf3bf5b9db2078e9724ca1e47a1f424911c9871ffa3)].
Definition hBNb_4 : list stp := [
Dbl 0x7a8baad4eb6fdfbd003682ff467497d70587ec2f87c2d176671f88966a00825 0xfab76a90e2523a432c2f9ca3b2ce7a99ddaf0a1e4e69917adc87b9c24fe97f 0x172856382483af746abfb8c45cee7babfbc11c29190defc7355f1fc7178f536d 0x10846ea5fbfedd681a07f8d7717c32520dca203f24bad8af183d48ab3459e21 0x1945d7fde7a51e85bb0222e80d4685b5a673e16af98bf49de2807d0af32a670 0x272f8ed698d9617e4492f44553c2aa75023258b1536cea318493b991e7ffe8a;
Dbl 0x584b991532ba51d0ded61515b08bd9ac6823b28dc47b4988557cf553e423bfe 0x235901de8c61502e19387c005b73122afe889d60d2a8cecf9992c6ff59dd1745 0x6ef13eaf57d71cb99ee05223b9b53fd25ecd62193d98ae2aebd1efd500d6f7c 0x6cdf9a1ebd24ddf87101fa42cb69a8c85d5aaf3f56a08b735cad9dda65e72b3 0xd1eb8321e3a859082a2c25794aa59dd3f64e6c7c5528881ede27490207455b (-0x51b5b9ba513b33c7278a3de0637c012d7534391d50d605e8c12086b5f2c40cf);
Dbl 0x3b023bbed9308a5e6f2dc6fda44ec2fdef3b2d097911e76e419dad47dc6052d 0x1c6c3ce4c831c1d71bad00b212392f439653c195e92ec49cff171a0d0fae811e 0x1ab66796a0ba4416c0c1386159451d4934aef33184b7baed97225d20bd609141 (-0x638d9db04f8d6c2ca40a533e8fa29f8ba38f9fd99338f8e6a15144f9c0416361) 0x5dc231ccb7a1c65892c750cf723600af096b0e1d468cc734be6582da1f0edb 0xb00bddd505b7d5d3fa33cd12483740506e482093de9d1a8d0f0465f384cc2a;
Dbl 0xf851747c5d2dfda4b81661ca15f2f1aa2462c2800aa599a16915e46754d0c8b 0x9575bfeea712f72274866390c10ec8d5f3d2f38f1aca3023478b9c996f675f 0x1dc4a1b463ff2c3832bf34058113515c036a886092e47622c588eb0e434cc65a (-0x2aee9308c1b54c5b0bcb97a38f43e49e07e475a7ad3f2520b827ac8255cbc8f2) 0x67c559f6008ead788ea2d9319a8a1febb476a76d7844be5c6e65a5dbb05d66a 0xba23e82a11f65509457e65230f9e59588b319ffee1179474a49a0711d9773be;
Dbl 0x15a0d5fb850b82053491ca4ea6b21200eea673e41a693b04b38e71175ba8f576 0x11bfc6dbfab80661c1d163dbbb09504c7491c6ee64ba4512debffc020aca6d74 0x16c447aea0fbc840d96355ee897b7909927f0645ccd894d4bca4b71dfe302b39 0x22a507e73490d10f85f353f14a52dcaae6d4f8cfe3f3a16a6db465139760dc97 0xc987f07971ec45aac97b620fcdd42399cd9930d0b706bf86f7225284d4b0b46 (-0x9ff20221cae6374765f8780711787b440384c8ee315185965e02996e60e18db);
Dbl 0xec8458d0f343eb00435053462a9a25054090955e7f947b3fb8612dfa2b000a6 0x16fe521bf44cd3d13ee0ffb8285b470489dc2c54247b62c35ee7c2dad2085563 0x10c342f48107fd8d7a20dceba45668d95d4ca2907938072cf08ca0030f1a7eae (-0x752f9d90592172fb5d6ca135772999674f1d01f10aded69dcf7626dd39e19ac) 0x5e24570c8f54a52039f2d430504ff89b909ce335448ab651c2178d9b03e7c63 (-0x2166106ae7fc0c4789a895ca9255bcd230c463b2ac3bca77d9a1ea4a0ef1bbb);
Dbl 0x7c68a97a37ecd40b5f1741f7c008e75b1fe0134afdfc05368f8df7f77b5200b 0x225ade3e5643ad48b1c4c27ba3c0840b0b67be9644cc54823b11d84a35c71154 0xb5b4613c11a156c849e65794c4b4017f346240771e72e7f1312f5710636c174 (-0x23b04e564e500142586b026e88b58d225fba64166cfaec806a1db079181b115d) 0x1a0c152739a530e44433c6da4b2a97fe30e5f5527679e542ce449d59dab6c05 (-0x260f4bd936b7d4a8645389acb89f3e2972ccf63f14d4e38ed515b64d92dd02f);
Dbl 0x36f76e3c8c3b7f6fb928d13dc0009f08a53fa6678a31f7b14bb4929c31da7e3 0x128ec23359aa8df2db627ee5682034dc70177d9f49d38f9102167d46c2f49963 0xe1faed062c5bc6ed23bb5942b3d3fda205b82a44d1c47f24743db6b638dc56 (-0x5d3d5d90e63de9e90d358c3d96f337904b0e6fc78949d58191e6320a7b8db428) 0x515a711d8354d13d40f4a0930fc2614fda3c2570a48c86cd55c000be0dbf8a 0x17617d881ea002783fa8812c31ba9ea5eff702c411b68adbeec36082fab9393;
Dbl 0x167ef7f12ae0fa3ff915d22cb5f5e4a0b9cb067eea4e573419e182b4f2ba82fc 0x1b5dcbcaae47241b020f548ffe2dfe00fb1d2ef04da9751b57e9977696fe33c8 0xbbc117d349acf6fcdc983cada5c47043425a02a448509fcca18783c73608820 (-0x1abff7287624949534001e9fb053c86f67e46200657dcfda8f23e594e6cc7da9) 0xda069e6f9ba125ca048747f4e69ed531c4446d49475c83443e99de385b33cb6 (-0x555f4fff70f18ff46e198f8eeaf2a57c0d1bbaa22e5af18c7254d9cf8263ed6);
Dbl 0x5be0a0d7f1fc54871d662c18238d979df49d56887b3c3076996b20240de1a80 0x1819b82868ca3e1dee2f52d08956c4bc7a93f3521f495f435ab4f132a1086ffb 0x11ead72cb7626437280fa595d647a2af3602d101ea231014d30ac85074b75a18 (-0x38de49283b32e42fbec577f04ea8315cb92075213aa18f28b5781cdef855c040) 0xe34c662913c03da1debf32143e931bcb9b25047b78015e1da4bde2a3e15657 0x8146546da9a724c6017e27233b87434ddb3c7f47b3327b864c812995496998;
Dbl 0x1853e7db3cd5c5a3993d2efe1afe7566775d7a9ad8c2e1146336dbd1272eeea6 0xc05b19b140b6d5e00c7e772322ef434da875be973ad3327facdd23fa7bacee0 0x19240dd3647d46f443e835538493a9a9286d56bc265b6b94afa7cfe90f2fce7b (-0x1772033d575b8df2efdb7f780cf6871c655c0d9dff29f13e5dc513c532370589) 0xfefa5ba12b12ed6b304c2abe7e1c04d1e078a0d5d8cee4fc14d8aeec0a62dba 0x7e975c4f3ac01351412612324551b20dd631be8d93532c8d67230aa486ca735;
Dbl 0x67718a81fce479f2ee8553b5722a76532cec52b8ec54d72a4b01573e89d0796 0x132eff055ee0ec2c603f4a75f1c3364d025fbda6ed00f77974571866bbff0fdb 0x2f38484c17e62ff8336b0b188791223319d4d4706400d6348e6f6dfea720b95 (-0x2ec0d285f8477f3b7d25bea562ca6d685ad0aab2aae2b68c34bb451ff415234) 0x12020b567be50bb42c4885fb42337710f2b16b0dbba1e1d360d59ff2a400bb3 (-0x13f269b7a71e865675f451af665cccadfad76a9504db88282ac6bfc79c12596);
Dbl 0x120feaa43320256fce7d35bd866d5ec9376723bcb642656b6d106259ea883342 0x1eaf4d918748465e75401485682b5d240a99506b2e7434b7b92c111dd5ff1c02 0x1fa349fdea1d0a75dad550d8974927fd302eb41ccab6ba516b3688a9b4701227 (-0x1adb5c38a6a7e4d56a2689428d01e860a4bfef6a0b62b810ed23b8faa9954ecd) 0x8c8d707a7e98110123c861775e39688e3a039bf2ee79bef8e462af469cf7b04 (-0x597f6626854d37b26f30a5785baf36e9ed82f9003d11d74c8eeb09c7f28e54e);
Dbl 0x16d80b6b1b9f2a7d4dd25e8c22a7c043f162c3a3ee8a9749b918bfe8ce6fd7d3 0x1debc9e5e0e9411bdff5351d3d21604262c52a870f029e023ea192792d425ab0 0x41845e4e137a02bc0af68d12918ff7a2aba05c8d0771e4a360f669e282b2057 (-0x25230f45a2e9b64e5344134a8326dfa9900e1e1c51716976838337426ebde376) 0xe0d29513b3911c07dee4ebdef0bbedc9dd1e62fc5b06e1cd6c7b61a158fde97 0x78430837f99f6a0e548d19a83b12dbd65d15718f9ee2bf729988f0b6852888;
Dbl 0x8b4bdc5318682aafe45dfe85e60deb2943be3e8079bbf2da6fc31bafb42e084 0xb9532ded5d9c83b0e6f1452f4cea71143c61a0c808c45d68b22dd5fad21a152 0x209fd031e469ec9e13cf04321ddcaf6c099447213dca2b4bce97c25ae32bfce (-0x46663b342858e5a6a604d3bc40aef16a8b9a8b1fee5f6636f4de8cadcb9da298) 0x20a774066d282a54cfe33e477c668690a15218bc2c5ed6f38971ab22d1f34ea 0x44c83cb35de08f524d7f06722567d3cd4bfa8336ba9175d874e4b6b76c942c1;
Adp 0x22443939b57b1c5e3477c908dd1aea9c309579f6a7cae075383e660f1b440b3b 0x828967f2bf89de5fe691255ebc9d3edbb86eeb8b3db4a75af10f9021f5be376 0x62786691251d2ab65f7c2bfd8a845b30b88f2d232f36e0ce4c9eb71baef44eb 0x17944fd9ae29f5fd8eb10c638a855b1ce85b2934a3239026ccc9bae49e57d55f 0x1f9de6f52f3d5e970d2bc03738ff8ef7c87af747653fdca18238a09408480825 0x328d373c4dc758c62fc599956a5995a7a6b61f85cdc06a16714ec5799873879;
Dbl 0x1cccbf32b4dbb884ef3f833ccb00dd62f39e4c1db195b6af35ae523a152e8167 0x5d2d6fa34ab5766cb0b2274a42c502a7f70e3a302a303afcd073a014408db4e 0x68d83b54ab6c7a6e52e58834a1a96f0372ab0010e6317782f5d055e0c8e0b7b 0x42b187802a8fbbdf708343a26f135b9546c572df06224c7263333ae748cfe1a 0x165561d18613799386db599fa41a34105844ce1968276ff3cad1e68b2a6762cd 0x1cf89f06c9d44f2c2551e9262da455a95e25594ca7eb909884dcd16f338cbc6;
Dbl 0x1202f91f7d21756bb8fdb85855d6ec180edc82da8485269443845cb48ed7856a 0x14782ddda2704d803692dba96f088b2e26639b760e223881f63eb51ecb986770 0xd43bf270d8edbfb87eee10ba2f1152cc1336cd027a3a7ed721caa984b047a27 0x39dd20be63066ba4ad03712eac934bbb62164d9f2549b5154d77a93b06ad330 0x8bc447bf9492f82af9ea795d6d63c6f4f90b3cc94f454e4a35a05f7aa34b1c8 (-0x71a62a53d7f953c63071ef3c3c00a767bcec0f0c4fcbbafb91e031866634632);
Dbl 0x6223e68fd161967f9a25b0e763d3d18d85ab61137f9493b420052594dbc182d 0xbec92b68fd0220de47d81fba1d19fb71ac1013661e101e0f42505f4cb793376 0x175303a17fea55d0e1566ccb66f806c530cce735612272790b2ad625970220c7 (-0x1d76fc81542eedee86a42bdf1e045a025039d567c6766a3deb1082c09eaa16ce) 0x1035788c97caa483724535ac42126e9d0e5f4b22136d2b0e289fe8489756481 0x1694e403f8e6370c34621c92c2e513b3c2525888c58e0c7c4a2265fdd5d506c;
Dbl 0x17ff79bbc0d2004271f8e042a7551271787418ad2bf754858bcf629756aa7f89 0x244d73e2fd2a665cba30378c7414c99d7b2ec41a1346c189070c2609743b2617 0x1d33ef3ef16da36113e44eaec35f7c232e38db06290e1ecdecd6c8feb8b83cd0 0x12a86220800f52bb5a734f1bf701f653f1f39b0ad7f494670e5751c857717726 0xf81c89b6fef13fb3cdd80222fe958d2fa8e33cec60546ba88a637d65962823a (-0xfc0b95c2169ea9b7c73475b8d2bd1c4465f17a0965f6a8881c3287bbd40b040);
Dbl 0x14a7660f563e70aee5970673b376d4033750f1a00ff316bfbdc3c557a2d8a638 0x14265cc252672608881e93f19b7efd4bd7479e1dfa1f81b888e6c26947fab3de 0x4666c97939c6f14767052b75a20200c16f51d5cf70b0263b3018c6c40f90fa1 (-0x49f9b723ef8b71a9b4a6a4cc17538301dde215d1914624345689d5bee0556061) 0xb7c829aced1acf1ef30230a4534ef06cbf711a301195a8c27d7511eed28317c 0x8fbababcf94c959d2bb91290b643d65411870c825b79d1451a5be47ff3008bd;
Dbl 0x1500dffd7eb1ffb44ef397ff33e4bfa9319980424673ab78fa387b35e1490a78 0x2b95f19ff8638ab346a3b8fc5f1ca7655aa889ca704e0289bb113335adfd1f6 0x8c2638447d6587d53744a36e59565f4bfbe60c58fa3f33b37e92d68ce2c95f (-0x1bd21f8dff7025d3d825481e13d8c23576cec09c21bb2a6328620d05ec127e74) 0xbe0dfc7c7ccd82b91d39ca8ce0302f3b241b5e73c1fa18b20d1b6421ad804fa 0x9dae61bd4f8c700030601a10232d6ac63620b1f0ea4f490de0f4b57eeab6d40;
Dbl 0x567ee35d2665ac0bad67814b41d8b40bc1a52eb4ce1558ebca345e2857f05b2 0x1da0dee03f6386dfe1d63af5668ac6d81228b2ac653756c7c8057aef6bc65237 0x6a6a14f5d49e6f2e788d6361a46f5cf0c20188a2931d2b9c6a0c5698768f0b1 (-0x70a8001a31f2c5e990e1de63fcab971dbe0ef8234e4053562d45961b18cab0) 0xc9732f245452e563d1e6ce9458209f5a989c3515d114c2c2108177c302ddfb (-0x3ea91bf0bb7bdc2ff2a8792d67a4adb8fd593a5d3ae83bc87dc6c248311bef6);
Dbl 0x13c624aba4b05da393572fd934ca2953c2be3df3aa8b8e0e9564d5120d46a29b 0x222d5ba3f0c71c7d87805d5919423e6f1d92a83c819500590bd85d0002cdd693 0x22ffb71786748a3b09eade32dab6bc4439ee447a76d4023315f12538b19f475e (-0x3fd437e6e34bf9befd3f3c4acaf8a94ff94f3db47c5339a8075e391ecf27b40f) 0xa874d4f2f5b191657944653c78adcd8c67d035912ffa8148405907853c600c8 (-0x26c05e185249ed644d985e3abefefc39e7e5541cc409674300ef021a58d7391);
Dbl 0x228269548989caf90a53375745e56fd7e26c906f9b2c30180adae345a691cf4b 0xd4fdfc4c83903b64852cc51e94f2b59bdac6491537bbcff40491e8668773ea6 0x19326a1e8beb11791c4dcfd1a84f0727c45c407899a2576c92fe887925766068 (-0x1d5048af9b77e2a3de1d8dd7bb5661022aa3e294089f336ce8f7df1380aa061d) 0x201111392cfacb6cf329b90ee08ab6c6e56145924d208f87253ac10a9875c2bf 0x136363005c72299edd0880f7d7afc4c5894abe0d17549b83ea994bbee6c19ad3;
Dbl 0x21b02091f19f38c08795b2f7869ba01aca76055fd656b1dc5223ce5d093eeb1f 0xef7daa1cd6ef6b54766ad30d92672d93cf903335e14c66b130a336480823d6e 0x146afe3d81c8b458565212e5f0e0ed65c7a0a32172fbbb1aa83f7cd3a812d06e 0x1f65b34e6dd3cba382249cce9c37483fde9c41e4648cdef3fefb660f0bd8692c 0x1e8eeb7b8a80975efc4c1b693eae7b2a7544b1617d4ff9386f47910e813ce7bd (-0x1809746bc8ab241ca6520c4ddf47a9626330b7f28d060ef3283a3659b893e7a);
Dbl 0x1d775d6a316027d8a26662b16b3fd4116cb41d9283a7fc2d32edb3410d82fd24 0x191ca08b36b27836df8e5c286387ec47d88ca74c7ae29d1234f8415a67ac6649 0x141db1ca6a05b4d8ca87818fb0e92d4040c380d1d5e609a8b91bdf643e593a16 0xe4d3f595180699978db115a2142fcf8ab32ec02db9af965582ce22850816ecc 0x17611067aeeb45e13ba41fe6dbcf101e6736fb2361cda775e9920ac8701d6fc9 (-0x80c559403e63bb36f8aa4c91dfcd51b43ea77b489aa44ae4ccd9947ff351070);
Dbl 0x5f088a542512fbeb3593669e0457d12f96f4fb0d9d3533948f1ffc0a58057e 0x8273eb1a5efeb7bd814deb4694707b9ab6537d0d2c3e9f40ca6b0eff0ad05a9 0x21ed8b40c0225388b0c81270507dd4cb7bf7e719a073b91d292d27057c912190 (-0x32899c9ce9598bef3f6f6662f65fcf43166f7aaf0085519ccfb5b1856574ab69) 0xf32e7d5c7238e4feebc7c26abb488c2bf4b1a74a66bcc7105ff40bb8dc33 0x2b65324d35ee6367a4881ef4f274a8dc59d70d48b241a4d6dcd0ea116747be;
Adm 0x3b53b549c4132ff92db285ea1a6e379891d24c05bb2f37fa721930c7bed62f5 0x16df660c46dc8476359063026c28b50fe8c577985827ebe832bd8ad4dd3a9c6f 0x6169b9bce9b4d1facec1823b54d479d716fa1a7aa2a641b0c2520c372769fcd 0x2e4d695f36bf08adb81598c459d7a198286514883e3a1fb221fcace536c6b7a 0x5ec5cd5d5d2c825312e2eeb09a09ca2baca75a970094dff667488c5e509255 (-0x17837c7ac8ccca483b22ae8bd0c6584e97f9d5725aeff34efe41e1e10b6ad19);
Dbl 0x9a22b9ab95b1ad2ed2e9ecddc99c5fbf0da4ce9deb7d2adbda835cc963daede 0xdc30e0079e0185e75a3e2af949ec82e38825ab5f5ab3d77c786471f35a95832 0x225db18c0c1326093e80d8215b424577129521a2f0379ccfc83baa41b35a010e (-0x271a0d4f0be2141ed7fe2496fed414f5ee78614ec5ac73032919f7f2225e58ad) 0x27fb659faf499bd92cfce3e8d73f8892c8a802ee8ce211af6e8814e511ca13c 0x25cff97b1e8c5001bc38ddfc9cad6a7be56949b7061321cbc0cdd8ef136e529;
Dbl 0x230099c7e01cadc3b10c6d24d4621cba5a81adb535051b6a15053344bbc9f6d4 0x72c479298b31cbed2f3d5202a2b647890f78b475496a1e981833c00c5c8664 0x12768b5cb1aa4ba322cb100e43895a501a1b746491e3bf7da016c603d691208c 0x317aee913da4f795fee4bbf2138796e20f8fcc55c3b038e9e78c80f0cea0130c 0x20fd418cba8579081c7aebedece9b208a790ac10395ad4e070f9a8a94dda5d18 0xc8c44d198d3b1157662c6a6f5470db540f50f281091dcffd5c42d3cc5e5b6ca;
Adp 0x1563b6655d76a7ef85dd68702d95113646672180b02cf1226306aae0032914e9 0xa847d4c60030b77093097151ffb5f36cbd9c84fef39d6452a781d5faed32038 0x6b22c3173e17f57e7e4548595595df84cd4bea51b341d9f42dc1e13d284d695 0x15219cedf93da1d85b8318afcbba65350194bb733552cd0b250dfae692ab7f93 0xc51b23508b55e99d7e9e1c236e9fbb14082c2eef0f60cb72a879067dd6ddf71 (-0x5cc9eb29469c45e19119ace82fc91cec6e3e145123b13503cd5b9c1ae000737)].
Definition hBNb_5 : list stp := [
Dbl 0x57207d9c065f29cc450c0e80543427a6dd81446dcc8f62eab78cb5d4524fbb1 0xe45ddd79190b066f42973bff8309609a2819395d7ceb2305081b8d1e7c195df 0x183b25a5389b5b00da4a229ebe9c5ecd772c9811f9d899078296d70cad3fd544 (-0x6f8d9df6df4c79a920b298fb551af5565e085cf0953350c3875707821830332) 0xcc66ae6ce2474195fffe10907c7cc12d9b9bd9c52eeb2a3f539c1badc7d3e6 (-0x8cf67d926480985cd7aae0a9784ce80a3eec189fb77290a90efe411deb8370);
Dbl 0x1ec483ae0cb49992bd08ea776d1bb437e4a4bc0def894248e46fcc03aeef592e 0x24f9db51ca5cb523286c3b60cd40f1ddc69cee9525ecbe6431e5095970ac3277 0x22b0eb0a343332e0ac729085a9768a89fd26afbfe20e134baf54b0d94d9289e 0x17b1662eec50719c2533fdf4a90b37d110b531317781b0d52fe588406bb2853f 0x197d64c17f0d305fabd9d3cf334aa3d49dba3399712fc54f2c2bf4b078255995 (-0x12cf0375c980ba8732100ff710291430e1fbc5e97ea891af09f842f6a0c4bc46);
Dbl 0xebd18981ddacadb4fbb4c6edebbed573a9fb2d08c5ff7bc6cb1a33c5f8276b7 0xb76770708aa173df66599020fe6c16df59a9b91ba2aed4fa94b1fb6c536660b 0x879300600b3a267b2af2bbf244b41eb9022e3ee6e2628284927457deca4a6db (-0x6cb8f2968c113ac6050e9a1e969fdaafbe0bf0ebc2200f78176062c72df4f795) 0x5d963489cdf8f32244423b5e7c05e33297933ce047ff58329ae4b27f1e9cfc8 0xa200af53b420e4c60f54970d77f25ee3aafb56d7f7dc75ca197f10a46ac44b9;
Dbl 0x15bbc78ecfcb2b7c216229c01a7eec33350da179da9bfb660a61fa8692a2028b 0x63fdb3adc5d2556b74d5fa6b17e0e7bdea10730f2dddbda576396a1858c9181 0x698b6bb7fd2ffb2e03db8a7cb9c5a0b72d5c66256e950405e798d7d4cabfc22 (-0xb2557c1acde8382e12d3941c00b6e1e1546f76adb1cc27960e20a634633f23) 0xcb7f47b5554d6704bfe1bf80fb55c9e31b3d4e26a53582632f17292ab280ed6 0x30d053b369c4ae8189e8a9084a3790cb186eb6bf11b3b914dfb5d6b6a0bf06b;
Dbl 0x199e24cb34925e42aa847abdd74926ce106611da0e99d23c890c8c97a2d25685 0x1e6eb289c17eba6c392f3068d91a38e6b96bf8d2d21a34dcbf771d4c3e42b48d 0x1277f1ccd9538c7c4e851d9e083493c24fa0e81bd2159e47fb8ec5ba2cbea8a3 0x5f2151468c095aa118e0ab6d2cd77845db8961f757c4bd0268dd2b1c1d0e08b 0x11abc4e526121d4627e401e98bd49886eec7e2fb68f73478c94abe59be01258e (-0x10ae67e825510d249779a72f6149aae77a915b591162d93aa857b7faff8fa01b);
Dbl 0xfc0434e977813f2b77a4260896ebc6fb6343396221baa137962d7ef2300f567 0x1a7bad1674e8af2505a61c4529f62911214396c781114a5133b167993acc2ab8 0x24c88c515004cb4ffbe522cb67e0f0efe52636e8043971da0e89cafbb31ae14a (-0x3b258238f91877f0179d67f2a45c226344967cdccf49235c8c305524f4bb950b) 0x6ae28778ae27b5a7c6e4dac02c36fa64e761d5f8c21665d43ca4153f7783fc5 0x1accb03d4f4a95149abbed0d12196421b409a750db0d25c74fd088b2990e1e2;
Adm 0x2a701363f29d124813be07449f4a7885b09eab2118bce19e2c0ae39b42124b2 0x66bb1a7ca3088c45fe08232a6e3f84f0688ec1474162c546ae91de11f9be3c1 0x1f908cc6b29ba08d8868789ecddea4aa8e0b2cb0517023e546d04f14508dc6aa 0xc2cf493b0113dfbf036f16aa0630b2bb8c78c046eed84e514b2519adabc885 0x307e5abd1b48f9e6ea1e52844d3cf8a8508fd038a07a6569e2208271b92f03 0x16ece0027885e196ddc448fad6869a7718f9f15ab4570c78f8b96a02f24c24e;
Dbl 0x78b0c29e441328714342997edf7002a8327d14d9f1db476754cfeca18095689 0x143aa261886aef8fe3ac8cc3442369d0345729380f6c279e2cf44e5b9175387e 0x2af66b1cdaf7899610826bcaaaa70c83fc8f5a5cb1a0abe2619df1ba81d62af 0x97df7de50df23ebf1d9853a8d4b36bd77589a981f87a59f75430ab398a3f6eb 0x188371b8859a2e359b4e09e969c4b0770be343887eec1cd3b2c30fb51cce98b (-0x2cdfb6b2011c6278d2011557706b2019c65dcb9632a4eb6bbd56c169c5f794a);
Dbl 0x2387d96e2a56745db3a644e02767583fc5e3fc46379f820bb729f4164b4f408f 0x148ec8ea75d2c0e850f8b2057530d8b7001a4e37a824f9ac48c100bae1fc5f90 0x12d492089303d807f73f7da1ddf7980e8b5921d20052e10779d8e14e7a10fd (-0x1beb0b947ba4bdebadd7ea5296328bfbc13f3bb2dcfe0cc31780899e54fc708e) 0x21fe1ed245edc0e2ca4bb25b6c752a10090fc9234c3d2ec013bc667fee30fff7 (-0x508207cda35a506c66a7fa9d38b8e60e77195aea9e46632397a3a28799b99e);
Dbl 0xf781c5b64c94155ca1645707374ff87720f5121c6fc82b81d845577ad827705 0x6fd9bac875d7f45070a6c761541b1b08f11a5a68dddbbd5f62ddc64b82a6f98 0x1ec34e6832c026b8b90f3bf063baa8edb9f914c07f0652fa85d87ef31d3dcc64 (-0x2213e7315a551afd35352fb35276c9d8a6a945cc61dca7e32a7a5dcc8cf2902a) 0x67180e4cddc4c893e81b387fd48fb8856cf346b911d5666c0204cbe992c213b 0x5a6ae58207453c5e591c14faa3463f5ea387e9beb7d0ea1529c4904b50bb08d;
Dbl 0x911c15f6f0a4f67fe226fb0e9af3c7c01b913cd482bc6f12c3919779b7b3dd6 0x241ea25bc0fdb0c494daae97f6293ccce9ab2ab212d934fb05e41cd8f0ff301e 0x1bc678d19f63e4d181e7fd9ea12befd0be10bdb966ed067b7eb635532f84d151 0xb13ca7a11f5ed583c858d2366b48bd4f0166ff9bf912e30465ada4c19db0bd0 0x236fc21cf4d54724317d1b6f9d75e92b221c42dd044131df48885a8cd5430d2 (-0x71d0b89214743dc5246d9e12c392d4d77b8b4627c26830d58440d290f4f0683);
Dbl 0x1fbea170169c445c740cce53bb72e5d22ea30bd774245a523339232fc91bde3f 0x1ac8e08d77fecd7d23d6dc236eb7da62603b28b7f0071b028dac25add0f43832 0xbe314e22807fd770aa94d035570d2f9effb016cd25a06f344a8723b0a7bbe5 (-0x39e7739f59f387972a9f84321350293401280a36a92352b458d77392556af65a) 0x1b2265ad376f7ad8160e76f7038b4a3b4401875dc70b657285664683e339b901 0x7fab1193224e148d424d019b15939bd95335afcd42032b68403b2b03571526a;
Dbl 0x25dd84ca8848e8488fe9eb82d377d66c36ed9547663b4b5f956c5557e3d41ce 0x7d536a3b5b76b74b0f11b49082d6a903e112f452b9dfa464c88b40171c218b1 0xb7cf8f17b4a1aec9a630eea408d8d27709abbe8a64e0d71489cb1c7e20ebddf (-0x39db9d6e23ffde4ceb323a8beb060dfa7c14ebac547813b047ce0521f0060e40) 0x269b49e220585f588a9f0d865891f9e7e65fdb5373aa5f8e68374f0f3b9075 0x1352a509d8190ffeb8b3877c7a948de047058922716e98042c51c4690e9e00e;
Dbl 0x2159940a88306a5e4374a4c9df0f91da7b04f981ef399d458e12c6aa39162d64 0x1398866ae7bb696dca3f038caf88cea957955dd3a84541778078763e43998c5e 0xe095c489744937443e35a888873f8221ccba22195b3fd5d85060b0ce5b454d7 0xfad2f44c6b1366512bcdfb98d22b676938b16d0669b4f65731b595c74aa8337 0x1df2b0f077da0705ec907ed9da3cac7c2dfe457ae662bbe847d6869010527370 (-0xa9023855f372c0ffa21d3abf9c6d4d4949abbf02742771d0244933e5f6d74ce);
Dbl 0xcda967dd7af17ce56aace5f98613c383e78deb31bfbbe2c8c75475953e1de10 0x4a370f582e1def39ef3129ca949f1d6f06017396511b30ad9f19c89d9386f8b 0x1539a139f97bae40a54af6717743a63df68a189223b86220fed4ebcf48280d98 (-0x154d71b34f31609870fb79562ecee8b9f85617a0136bf677f33271919f7e1224) 0x472e65f86f215b6f43b1a4f094a4331d1f87e60b1c5bbc5c88cc9dca2f6f583 0x52d47206ef308e4b901bb71a76c300e3c1ad29f64ba0b844081819dead2ea5b;
Dbl 0x1f02be38e78d49463bb082276a8d4d58a5bc4bc59550771cc461333232d23b69 0x199d63dbb0daab161ba3eb9464ed0b8f8764ac520c7ac96631cad8be07325fc1 0x1f0b2cafce165dfe0b6d315d55b5c6d88282e05740c2ecff2120a929e140c50 0x21b551defcf146962d964c0feb9d3d72061c2c00aecd2a80bbc6a6250597ab47 0x19e4e8ba1676e1958c66e04e7db4d4f7ec35830206842af943404dbd4e56701e (-0x1183f26a2e57af8742a755a445e6cc25b628325de241f49c45916a41a112f37a);
Dbl 0x24372eb1e3cc0a413142ebfed0311d9978034e6da037e5c2a563eb8fb11be6b8 0x9e6fdc32abf55cbf2527f2054b65c5114ee6500db6f2d5a8b6059cbaffd070c 0x181458d24f92446b55522725ee63fab865a776e6d5a004968ca2b6409d14e549 (-0x313778ed21926f88f761bd6f82a3365f8cc643146ec9af5a62299aeb40d4e4d1) 0x2350d73f55cd71d9415c237b30e358eb9141d86794f68a26cb81d92d532d55c6 0xf527674bf25660bc1f7f44bdb15cdb4ef8ae6591eca6b0cf950794dc878dd65;
Dbl 0x11102061cce3c1c10ff551cefb232ff225738203de75a3c1e3fc6bde06a83f29 0x1f8dbf6a1eb412f0022fc4142069183a9657c7cd94411caf3f4abaea0d4ea74f 0x252ee06a06faa8dc71e8b11b51b55e8c8d656e06d49b0fa9f73ef07e50eb43f 0xe349e230a2ac34822b67f8ebe73dd7cf75caca6c3584d0449f3fc3cff592dc6 0x7d6ea3edfbf20fa1953b54164154f6ca6419023ba4919cf2a7f4cd971e68d6e (-0x9f297db780dbac377fdb6f7ab05a732f306ae5860b509abbfc184222c3e4011);
Dbl 0x1553bc72d520e6a81728ab6348549e19c111b13bff4bb4411271aa4a87da5538 0x1b231205d7ac72a85309a48347ab69292c2a96770038dcdc37f9ae742fbaf0a5 0xaccbba45f60284fddb3f0c730b54993b1aafc06262ed7c47a868944a8f2c4f3 (-0x4dc1f3d218643a6b0dec38e3c21152d408b92acbe4677b60642619a9e279ac81) 0xc3f51ee175fa6e68a8c462e597a333a418f9ec1baaa738cbd051438512050af 0x2894e23ada034dd7fb2eb67b305a06dce0b897d55142658be52c598607585ca;
Dbl 0x1675e9b105652964e7847934613c3fd5104034e2d598cd0529374dee86519d20 0x54e43a1dbe2a0c4883ec938603b8ba7bd2478dc72d0ec64e5c590e8e9d8b5a8 0x16edab82c0315add2fb105b00c2ebd1ff0b53a23b5fb1bf2e37cd49926091462 (-0x2e6c95b81b0c7664807821f1ebcfdc7a0efd9941113336aa54b7c5f4f86a51e9) 0xd95739d8ae060ba37684a591ec0d1cbea2efa291ac874aa3568bcda28b44c7a 0xd34045a6eae91256af700c5dbc7173b7a662ced398bed1ea62438b017c3aae9;
Dbl 0x171deaa8f8a5b2a6634a4229be36bfe7c4ac513ec3231c9040b02017fc58afc9 0x70a2fae1ef3f6e9a814dbcea1977d818d419996f52480b785a3fdf61d62db56 0x1b4befc15ef0fe292bda0df3da3de6a43f1af28dcae726304ce0b08c1e9a3868 0x1a450f7b6359464afb0a244cb250c52510a1f23bfde9c36e25126cc4de6fbccc 0xe63a1d67eca3f6d53f9510d1f8690ca32a54f969c3fc009a1ba2e453740d989 (-0x1145237907d95f89add0c5f6b4687b31c8e7d629341f2ffd466001a564c76f8);
Dbl 0xd93ab03a370481a7aa678b87e875123e4bcfcca14f51a6584f4c8abc46d26f9 0x1da898fd5f1c62ab367fd0b8b6430c3952c1cf91c75e8aca7b69015c16b7d2b3 0x351e9d1648f5629e45e77db76cb212816b303ab4ab5131e7d126e4cf4699362 0xff46308927ba4759d1dd9fb5fb490b79e3374af591ca2b914ad5cfe021b264c 0x4f69e510450ca23052253353908b12fb32919a222dc0aa811a7063045b5a626 (-0x844d4d9800786ddce00558a8f98eeb41b449d52cdc9ffe88f008fab830d1da5);
Dbl 0x12a89a710426cf9a2badeea3a9f55b32ad4f37daf69f42639f035084619566b 0xa2cbde5d708fa2b0afdebd9aedd7e0f0843f1a82635a70c90028aae9879f847 0x1255e7d1946daf3c05f41e62eae746282dd66ca0c902569813d134c5fcd9d03e (-0x46d8f4841c3907b8a0aaa32fbcba5f51404170f1b98d03a0ed6f8fd3a7229a15) 0x95fcf71804b6f5b98338e35d57ae01806f84b659312eefc8b8700b90f9a44 0x9c9f211dbffa93d374e0cbf3f85af2764b7e99e97d4f77e38fc5bc7f802aec;
Dbl 0x1bbdacad80a8858b0d78d49ec84dafd99f0f3fd9bbeb31fe44ae99de1b70967f 0xd5dbc6f588d22b1ae20e8cd8d5bfd1b643274222232795991e861de4b71ba5a 0x17d30243925a575e320de288d4efbc1182fd5e09ed998647cfd474a74b23448f 0x13077cab84125d39b73e66f7831b4107417161c8d27100264d3ff94914fbb3eb 0x14b8b0ec412fca8d7038800679ef1863e93c4f22df1dfb6d96f00403f702b4a3 (-0x26243cd0d19624d067ea139ce2aba30a7a443182a0e26a498c0137d37e4141e);
Dbl 0x95e75fe79476f9ae3eb8357e811258d31ee99d5527163d125580324b621476f 0x1d958427a3d9d9078129138794e4a4ef09a16024476f5c9802b7f961eec326d8 0x130b2c4b65826a314fbd9f0051f7ece2daf61d72e436a46ecd5f703fc3ad487b (-0x2693e059b764cda5c9de7ea4f97926ab6c9e02c10b666e8defc4bad81770cae) 0x25d114af8a194da4a22cffb4dd3676c98db2b94115f15fb02638aa19efea3b7 (-0x4176213662593e863e6abc1b0ffe58d6433252a8793c278b15583aa0db53d24);
Dbl 0x6ed93de0bd24ef936e4abf3cdd067cb012af08cdaad06619c6cb1ccb58cecab 0x83755726f8320dec3278f9e3a575af3bdbbb78ebc940082edc0549f183ca445 0x10c166c2df28a2ebb8a9fe66a79dfa68b7a926df804a3fedd7923c765f5beefa (-0x3f981d8a86bf8cef5a8afddbea130a52665bc359cecfeb619e9e946c1261199a) 0x14adb205143ad8d450e855997908491f7f30d31b0895b406dfc1a488e36c72c 0x3fc728220ddce08158673558bdfc6b7d90f7c4eaaffb9d169953753d0df57d4;
Dbl 0x19573ff60d63de3dba2fb41a5e0f095712f63bdd26dcb1e83758a7f0e7896e0c 0x1a58f0965f7ba53bb0ece850b62f4a38f106641f618a704dae875dfa88ece8 0x13c703755ccb3bab6e18f2da2f148cde98d1bde44dbb556d3ba97c96a49eb824 0x1169aaf81741bcde1ba1f34f33ed569d506bd1448759b25f6f68120b5c3a1867 0x114a7e4f11878545961d65503bc2cc35c06837ec2c77222706d4017cddbe882a 0x589349de13e6c8d481acd0078f18565ba0488fdfab4c7ef90d106df74794f8a;
Dbl 0xf84b4b8ca1cc88f4f77184c3e70df9a89942a2376dd52a6694e0a9c8fdc208c 0x12b2c81dd218918ab2d4423f4e50de726a6bed9a1e7bee83c5f663e0ffb6be63 0x385550eab1b37caa7dc2bd2463801d3480a56cee1761e70591ab0b62b2bdd51 0x1086fc6b6d57e27c0ede3f32c6c7dc7af8d49d7b1af5d411ee489f4e1254e0e0 0x67c0340991e2b2dd09e165cc7b8746b1ee351a35f33c6781c599f3eb4a167cf (-0x7c52b20974ce5fd7b09dc0a0d0853facf6666f95c034e3eefc608bbd8eef983);
Dbl 0x22f6cbca05a6ef06cdf89ef3ebead1dfa5ab0db3b4d2bfa8c1ab90a92da9a700 0x75889c82dbb934c8802e3620fddf31318f6a218c2c38d7e30d1d5141a5f89fd 0x208d76f58dddcf5604be553fc35066161f7c1df796b2f7240dfd6ee14830e17b (-0x159d0414cd2f1f38abc5dc04cc314cf6bf07bff30192d02eee3457e49b8bc519) 0x20eac8dd9d8d3eee4e2e5dad434c1af382d3b5338469a09eb0f627e925f46b6f 0xab01a06f7ab1cfae2473f8feb6efbb566440ca4fb5ab2f810186ef45045767c;
Dbl 0x3e38d64726159c940837e9c8e6f76c8beb4abe9da9e561bbedf24ad46bb25f8 0xdb7fda8cd1754260b072d08c163d1d14d90de7ef1f99a031d17ef1aeb772051 0x9491a7c4219d63883d423527e49cc4e278b4ef2004059def7b7ad5865e71bde 0x2755af6e51b86c0fd5bde8153f8bc63b2196c2a77ccf237c87df48fc1f43797 0x683f6d61d36c32c6f404fedc7f234022692165bd1edeff9f7270800d5ab4d7 (-0xaad5c9babf921090d914780a855682f27a3617db3e335aa6b9bb37eaca8383);
Dbl 0x3341eef756d5ed9e62cfb0fff5357d112783f0a94d21e2afce6e029f3527e9e 0x1ad3072a7ebf61b81b1e40171c6b56c7387d364ac85957c7dccd86cdbdc69b47 0x10c8a2558cca8b8b4f19d25b493ccabb73296c1af46a4c55cfd60ce454020dd1 (-0xd99d6e99e0c19069c9ed0028259328c8fbcbae8b6b378535bd5b94583030f19) 0x46bea87e5e8ed65a3390a8d62675d302a50abed40b9d7ac5387e584d37bd59 (-0x12168ff4987e2626cc7d1ce12dabd9ae5b7f3818fd30c0747c3e6aaf9cde6d1);
Dbl 0xb4f9aa5677ac6308751a783cb5392635eef5640bcdaf1780aaba17724a73c9e 0x13f304d82c3df07496d9b45f83c9de1ff9a67917887af280420f96f5fbc030d3 0x1e2e3e524a965945eb813060ceb6e1d773d7b31e3ae27435b4659fc8736ada5a (-0x2fe69e0b70130511c2d4637052ab8d3d873c90904341b2e834185b1c7598d96d) 0x371e525bb04c8c8bb9056f61473048179c39462c27eb228b38be3d27accafb1 0x21808ce23aa1ebd61b292a81763903024db6d60fd7e8eec11d2f043e82a867f].
Definition hBNb_6 : list stp := [
Dbl 0x338e4dc8df7a79764296789ed1c5c6a9aab06589d1022a67546ae65ec435b6e 0x108e0f744843668734a733c4bcc3a57a6e45dfdb366b08fde5a37241b87a43df 0x1ec28ba9f0c9b22347cb3961c19626fdaabf74b7f24d8a05c53827f424b2b9b8 (-0x1ae9316cf2bf2c4d7661e80b34396300a45a104b96533fb9f97b07e2d3a54071) 0x479214ebcfcc245f9653cde0795c1b042e8f80a28892475c26ce423761b925 0x4b64d1af194225683d5e554741eb1cd3d59dd2390dcc23566472161c9478e2;
Dbl 0x131bc92131feebc770baa4c715d1d229f3f0a73d93095f2f72c85a8d27c974cc 0x16e28c612fe7b51301627361d8e2eef442b8118a80d71f120d0ead38bac3517c 0x116018221d6164b46d75b3bbd82a4c0fac78e0e074dca195818397cea29a3184 0x983c2246167ca21229f354c4be813a928e2088f8bf607378be376751006472f 0x9d4f174126d76690c0f1f5da5a24e1f17c7df0c453a0294cb66ec29d234b812 (-0x341c7d82672cd81f74bb7449cae6de1e997ec267040210a68192c2fa5d6f148);
Dbl 0x76eac79d72b93caccc3825949597bdd1336dfbbb54137a4dc6f34d9b976a53 0x2132d97c6f18650875be8791b6d009c61b7276b0b3f2c79e50da5af966a1f214 0x906d33d507d1f776f86912a0c4d002ce701c75fc51b2207fefc168f8118d454 (-0x29df0320b1ab262cac194c42712c16077b6ee6bb110f1a03beec3c2a0bfd9008) 0x17cc620e4af384704e852de8e8c8d88c46b0cf1cd57fa4f0c72e2a50c544f (-0x2106464bb10cd1d2c9763bc35642112420cbc1be4e4d0f98020761efd80060);
Dbl 0x8d214d96aead3ab09bd012c8953c7e85fd4c77a37bf48a856dc7e0a7ed40a5c 0x17c5f7457f3e138ccc7928519ea8fbb44c22afdf42626e7bf66d9eaea3396624 0x23fb7b6b5afaf35e73212c067884a600a8fe5dc125ace0630a1a29f5842dce76 (-0x54be32f9be1abf0db17056ae413623e4120a254719c78f2433e97dbaa008c070) 0x2184ff449350d8c12fea5ce8876349b84115879d160b396b89c2112a57d5eac 0x23d143e78ac484fda362e3f66ddb520dc725ad6ecf5b99ae59ce7d50406e572;
Dbl 0x1d376e7cae5c2d865801434dd5134d83b23d189d86ca83048272311978143880 0x23e14365e14dedd8222f599f126afb16c537090e33f79a689b56db24a7318657 0x93417508a19080e8c85c0846a421f9f9f9e82463967b23912cc10411bab3758 0xaf5daad51432cf58ab6548ac1a32e68c4af0050704073ecd5c1b18d239727f0 0x16fc0abcd6959c941c64d4827b419843c622945b16cd5de64cfc0c293533933b (-0x98634c2e09403c9580d07fd8deb9093d25b5f2d65c37fbbfed69ef9e935113a);
Dbl 0x33bcd12401ce57d45952936a144e14a01399b31a0142525c14dfd3c7a855da9 0x11ee132e181a0fca64f9674820f0a0ebdbf64ec378633ff007d09bc8b454797b 0x100cdf23f9e1e11c24809e555da9c18fe264a091f8e10b10086452ad7a1acbc2 (-0x6663dbe8e1bda896a562652c51b807a55871f015db9588ba3120a55e3a31d1d1) 0x4813731cefb5de1602aed2815981590029053c45e1e86edd060d92d11cfbf8 0x1901970423779428449ad9293c0dfcd866254003d0a9a00f323b9ec301c9996;
Dbl 0x17aa32b1c45201150e4ac1cd57a6c61b6f6fce48c49ceef16a90258b8622229a 0x114c05f7f70b15e81712837e5240ee2d214cf97cf64f5f30270e0404f24a4d73 0x22922178d89f47a09c151413b8cec6a26550dbd687bdd57415d98c9f216c7a06 (-0x583b4d83977b1261863383e165c642d6102f4594373a1ec2c8922f8651dacf1) 0xf1456e9eddf4df286237638e39b5efaed2e12be6208afcf4efedfcfcb160039 0x6742c221add73a67e2443d01faa5f911e0d5c40abc2d3d585d58aed0ebcdd8;
Dbl 0x17966637dc79c3eae67c488dfaad446d43c32cc703166992f4eedae808a43362 0xe45a906b7df8cc83ffbf7726abe73117d8adbefe140de1c5794b20c03c32e43 0xd1b72c0bc700e39f2b92cce42cc7af28a69e2fbe5eeb335c873a27090f7a243 0x13beea9a9aa26734b6cc2979e808e951bb8aa2fdccbcda1f86b28b26c58efb8f 0xefb261bff4af29911b738fbd74ce6b81989622a7c78b384105d9400f3c3cf99 0x1ebd1954fb613336a6e291a732a3d12a0b68e59511be97bbb1b6b330da5b46d;
Dbl 0x1e3c1a451b4cf516da6d2f93186f4ed45a5b188b97f8fc0b3371407eb369be3c 0x14da49d3a1da446d935d862692842f581a96985ce107377fd6ac62287a84010a 0x144c8137bf4a886b08f4dbc9852529d7a99f30ad72ab715892fdeae35875a0df 0x4e32a886bb0c14a1e66628f7c00b3651c461244a3c82f193078e0cfd8dfbd9f 0x189d53adad0b33b8b50300d71566bee4b11d5c1d5404be42917a580700074d80 (-0x55b7ac3fff3f2e1a3e82a934abc7cca4342aa42168658a29118f23d4974e9e2);
Dbl 0xafadb75ec53d8331bd581662464b654de66c135cde56ebcb51ab552fbe0a8e7 0x38d8565ee3ac4dcb0f01135b8e3f66271d3196c31e85c42679c57674e2d0fff 0xf5336494a9b5bdcdb53dc880865c4f84a7d08807d7970baf187b9f18a1cd9b1 (-0x171f77b34324855d84a8f19112145dbf2dc6e35480b5527ea9b41b791a7cf59e) 0x33f0769d4a72efbbca9bdfe4d6cf278b58f7c8f8c5b897a2b9b94fafc574fea 0x51d5d0d895a3758db2306525bd47db3781602e3915f0f674ff133f95caaf5cf;
Dbl 0x171c7435a4fbb6df14ee72e64efeb58171ee9a2c057c84b8a13b1f3b1633d51f 0x23117e995a42ddc8a11bf493787cd76b1211fa03345a1be159bbbe9335ff05e5 0x8ba252fc60d0c1fac3e730595e83896ab948d6883aaf25ee0a5335c085e5a12 0x120dce40363b62209819666831197826bcd799f01c93f015c0d10196df25fb19 0xe61cfbd2887a14ba393023efc9cb2671465126a6550e5761717cdaf95c2646a (-0x139cb3eea28a43374d16bc00b4bb76ebd35056f5c43bf723b5aa9da8013a3a8f);
Dbl 0x18b6ef1ca98e43f6c525c22bc629a351cc6a5c3892a18a552bbb1e9b945e49a1 0x4753119561e765ece7c316380d292e93a4faad1dbdaae7a54ff7211f23cac54 0x208a3b6ee9bca3c928b50a772d3aaec76aeaa10dd822284288c99ddf8198472b (-0x57b9dae095f29780fb3f42fce645a28c9f88d9bf102e2f9fd5e11dee48b99d5d) 0x10726aef0f5263f61094e6c4c974c886825ceff5344388431e6095c4bbda06b1 0x145edd7acc78a17c04e23ecb73894c9d17af0da745619a79bcf9aa0453afcabc;
Dbl 0x122230bfdadfe7931d881b8213fdb5a32b545fd9032e44bb6474f7171fda3812 0x141cd68cb7dfcd4e661938c9a0c281d89d235fe3c9fc1736ee0d1f6ce5d19c23 0x83ca9a2b90377d863ec93121c5e7e6c5ea15a1550e7dc32f4a414a1646ce110 0x1e2be4d7156e85237182543ee39941b61141a73a22b094e23e7727b4a63126b4 0x8daa669d8915a7b824d12689051098993066b97d8c565600c3e7e46e68f6ac3 (-0x7a4d1f412a1e088bf8339b846e5be95c6e3717142cb4fd3b8d5145992a4b333);
Dbl 0xab3b820d39155f5f86faba3a0a4600d7a4b595d64b366685cbfa5875c611c96 0x2355b9237e069f2f3b6393b5dfa3f3d219674add893f8748cdba4a051b5d5e2b 0x21da002da999e4a2df310a4a3ada6de02309ef92891681393a3c5e239e9ab425 (-0x1bedf15d1f21faab8ca164a6a942528e460b9e480343efec992f69a4e8385b59) 0x3157f54671de5f45e2817a614a656fc4056bc6409e46579ca6678249c191521 (-0x462f466d5618841c6da60c58a881d6413c446f3292ebe267308afc64445b127);
Dbl 0x1405a3ce9230abed835d2e4f095c6b93e83168a847d750189ea44c41913f8d30 0xe2dfcbfd96af66aad59d0a47ed26e348954fb08a3c006a5a84f19384d6945ce 0x22051aa08e8495281fdd9ba7df7049d1af0fb950d5cebe656b5b80075633497 (-0x405b5c7606f8d36bf02cfe7271e962e5149ab2d7154cc42ad628c75a7eaede69) 0xacb57bbf7af5d69cf6fa85ef6b39be0a2f44efcb8602be94dcd73847498f134 0xb67bd5e3a4da4340bf88f535837ff672b18885df39bbe1bf0d5dfb18f87d5fc;
Dbl 0x9dcfb917e5e7d81dc9324043d64e69ce58ae651ad8d00a0f130f5d04b189056 0x1e900cd273476ffa95cf42a6d7edbb6a8731d6083a061904e5589d37eb1bd278 0xdb6cb6f6639d79528986ffdd962e85c45b9c0940703f67342205e97a3a35d11 (-0xf1cbd7934bcbb83e8ea200aa4fa3a0bf96cd66d66749a917dcda25f27e40bc8) 0x29e965f0f84e1bb804f4010b8994ce7667037c053fe028812f93ff2cd737ff0 (-0x459dd02b6606eead1e328d95d0af41cfcef665504745bb26ae539dade51c2ac);
Dbl 0x144e2eebe3cf2d23f55da5cda21046c404c77d1139fd5e4c4be9385648b645b 0xe3de365f8508c1b5e4649b9a4d4aae80ce2f457d44e9ed2bd958517885a604c 0x19ae8545eaadd75f0cb64df522df32b1b284c5906e628a30a0b0e413789eefe3 (-0x4a8451d0ee7d27af2657ad0599420d4b6b109cef10a5848da947778e413fc7ee) 0xb1a1d9c44fe6ef157263b0fb4ef709508aca90287d250753b031f5c66460f 0x8ec6acb7731fb622012cb4a9c147d5e7b4effb00f03961e626324faba19a90;
Dbl 0x19fbd2333b23cffdaf1421ef580d181ae352bcf91945f3b4f44dc405cd1fe310 0xde77c10f3bcf3b3dbdc317d793d23385be72fe11648ac2155053d812d22bd88 0x12fbd8407f26e6b8838bf1d7d37bb528b3b02e965395c2bbfe4a7b01039fce6a 0x138d528bf03a15c2fa38a428a17066d17d2999d4a150f2d33adcf946fd39c090 0x122deda75a1d0aca47105f02a402c1ee0c115ceb16e494698beee765e73bada0 0x3c73bad8e8e9dad1cc58a0ec01a5fb9c16222161f1e3736c568a524639daa1;
Adp 0x2012bff13a8bb6777a880b325ca447d2478ff41ed4a4f1dccfa9ee535e1ab6d0 0x1ea970912a806c72a3a306e709e93c31aa43d768c5c5ac7063623d6c41856480 0x119906deaceb8ac03c47d299b6265c72d745cfd124dfe7bf5bd3237825f0861 0x1410b7854d9a424fd224bb09223becbfc42d39bf346083d9c6dbccd2445a8673 0x1bb2f24a522266a1845b05502840475ccecb11424f2f5fcecc0e2e5e27e6f642 (-0xe78e1409e4a2929a2b7131076d7f9521ea586dee8b967de1cc7c671dad825e9);
Dbl 0x188dfaffb3d857cceb63aadeb2524f0c23f72618bc7f53d8d798fe3c2e1f5941 0xb54d38e0fe1a0c0a69b3c5cf9ee55139bd5586145481ce0d9bdc835040bafcf 0x14d50a40f087ebbb05554ddc0219f06bfba779d742020a1e82ca13feac3f8c93 (-0x4a7d81ffe84cead26c23f453e2b4990979bdf1d8741e159a290d60ce07ac440a) 0x103c1642922117fb26cbdf8b0014978c3a542ddfaf8944bacd4e18ce8e68b9c6 0xcc7dcf1a8974bd4dc78284513a083dc3a9e129137573f344cfac9baf83d18af;
Dbl 0x1d53c364ff3a11df846a81ccb2ea8ef3d74a085205d38181a68d10c652ca2064 0x482e50a479ed02f0f86fd90b3088898a476896743174ef1e99dccacf5811d52 0x1bb2206fbef53a2561fc91cd6cdd66ff4679f2d70974508ae879a5c983e2d76d 0x168783ab73019d8006069e884fbd34e1ad4e3b949e59c4064f9684c3f6e7b717 0x1728b40605dce30eaa8ebbd773e163e2e8fd3b4ce299c4b480dee9c9461f3160 0x562b893848064c3d725ab764b8f1100a2a492eeac68f3dd1bc84a379a279a5c;
Dbl 0xca3abd00088fff61ae6aeaf11a1e90957b5a9eba0a27f4c0ae56bfe8044561f 0xd7d6fea05bbee109f6317c96f72f9a33c16610775fe94a84cf4f9c3c08eab75 0x1cfa465cf1e3e6690ec58315c30ea2a64ca42a3ce91706d18237f1e5b8967cc7 0x1135210a6ca2ce0fa44b6cbd8f25be284afed3c2990ca8b7e4c081c18a15633e 0x44d33ed4db46581c62491444176052c6193e1f83cdab601b27b162538850cb8 (-0x30e4491b3ef6c40a566242c916d8cd94eef506cd55b0be3060f6cd84be739eb);
Dbl 0x1af44d80f56ad69b2bb949a53204ac8114ac533fb935349cb3111f530083cef9 0x9618ece7bda571a8e8d6b82a0988bb401e63983d9e3804bcd7290d7b1dcf99 0x1a6ef5cca8682698e9d1f46d15ba2d34315bba83e72ccb32fc845202696a4ad8 0x1b5cdd649fd478d226ef17e135d785dccba743b38ccbddc5ad46277bd0ce8ce1 0x13901f1f498c16d0162f64a2c755c70beb77750e61701e6d0c34b824f9279b5a 0x95d81e8d0459c5ed9280ba609913b98ed32133b614f8b7a29119fe99e110ecf;
Dbl 0x1f7073d17fc551e77fdeaf79b22a6b11e5cb2e2e7a622a30b9de39bad673dc7a 0x1ef857d2e01574a8fc905db6e01a34736d48808a4a40537405eeb769e00f00 0x100cd2f9201422c0e63d89e371ed50e86100375973d4629824dd8f69bca59fa8 0x2cb9fcc871035af6534ec437b2be3b784e75681cc6ddd74b3282dd2ef7bc53df 0x1a9d642d6cdade99364327dbb3c7ef3d763bff2f9d8b82bb475f633cb4cf4686 0x64d8c872058b764329d2e75612dcecb490501aa61ec84fea356f2ca9232d2e;
Adp 0xcc3633c536a2405dc5c6ca9376cc952219c09faa740688714510bb1b1582c8f 0x226261db3a83185ecb7dcbbd6876e8df24b4777ae16cc51b3e930405b59f4d03 0x11e601014483e016736318c1403fa6d0165c7bc722b4a1a33479892b41af5853 0xcb8be8458e6e745ae92b3a85dbff814ab33c1a0c7ffe39d3da7339fdcf40517 0x462e59d42f7e7b9d14e1b514074721e1eaa63f5062c6d3c55de6bd76f9be684 (-0xbc674629898e76b35b4fd671a0fda91b9bd1ae955901e5ed25d75871518e6b8);
Dbl 0xf001053adb4378ebc318b54cb90b5d7eb01d15ad0e298bfa16693e596611f18 0x10d28f0f6c64bf926d41c5b7bea106b71b05d3f4b68886f13453646bc1d88cac 0x21196b67e32460a0bf99e850f105c4286888811ec134257a5e6049484d91fff2 (-0x510b95765a8f687d9bc668a7571cc4e95e1148a2bc37b328ecfc8cec50ebfca9) 0x60f0355d80134a28969b32dc43b7113f27f07fcb6f5286844d032329b4f23fa 0x717e0537b917bf84cab69d032c84557a741dfefa511f70de66530c11de01df1;
Dbl 0xfb338fa2bc9a084a9af144af16f2e4d89a446c0387940584aad8e08047ff0f3 0x1c482fe1ed38cd2547aa919f17f7daef2239f42c154c45a7fa0153d109953ffb 0x647dae657f619644e41a00e3a227dc453c0d49d832a156a5ee0486d51b97e12 0x52001f1ebde0973bddaa4006bb1e5c4e01da1fe282f53be3ac75f72642219d4 0x6a31d5986ae5b09c42b6ff8b3918c79913d488cef5592592b88c70d7930a412 (-0x4d82ecb7347950b14536326f97aaa3f64254ed66d4715a6cb6a67ffc790401b);
Adp 0x28d804e5ceb7175877edf9ff65557cf1f69924f69c1dbf1ff7b2fa9d7d76ca3 0x119fd1e3e212bcafa60276cd34790c064eeec82c44e3043a19526ecaa961aa64 0x22d5987d622e70918dd66639904b67b3bf27793af4f74200d0bf2809c94e5e79 0x9bd6c1c5da01984aad66be096ff18657e4df006f5bc6f8f0baa69a41f32f32 0x2ceb4c28d2a49b6267af61545858746f7c6fa0856ce70a899c5f6324ff0048 0xbb898fa8b0587328b925c78e2e021eddf0c296c4ba36c460a9674e6324e63e;
Dbl 0x1f9bff840bf775af173d998aaff741693d5c782934866460c73546c777a33b9 0x1d4b38977643781c1cea6bd644ec049fcd131551f00e06a3a327054ec9aad939 0x20262b371ebfe8d02f7fc0715ecca77a82d20b5826a8810e4497d0eec672999e (-0x1562a0057dcc453895c60ae623b1bd428de1afaa22aa8bfd9c8dd9f49555603a) 0x1ae75154936abf4d836b166e7c950a8b151e660b02598946e81aed6ec15190 (-0x9eea85c96d0a6273b8c0087e35abfb8f40e65fefb9374ca6f088561849cd6c);
Dbl 0x1ee2898e5111e87a66c7c1b2985ea14e961e69f387ce8b7209bfc2ef2832c0f4 0x2ab6bf69a8074f25feb8d53decc9a4a864ffa9c40e4f2bce1853d067938cd4 0x158bd24419fbfc4a98d03049d297dd05f4da405952c348b5d9b49fad27b29431 (-0xfd8ea06a7a01a0e493fc417ca9cd5f3b275d8a2d5c9410f7e5c0c42dfc2e7f1) 0x19af3bf0cbc05fbccb2d007eea251aa413e8d49a8c1b3ab28f1ddff9970b3ece 0x1838fae8d062604ea1e1465e66664752532d24bd1693c2cba7412ada3fd8b457;
Dbl 0x1662f0e5e1bc758a21f1904b4bd6643fa7db83799e488695140b76b157c028b8 0xd12bda0fa5b2a69024b592007376689bb9ee8727fccc4af467ea8651e4bd01f 0x1aaf3cc184e257fdf6a464913f637308aa87a155092b600145e55755ab43f6b6 0x19f92a2f2b555a4f32daed68f4495adb4136258da9a0c4c422182f87a9753140 0xd7e8ab0f58586c2a91e66d4b4b1a9e8ed821e5d3183823c0a499edc033644c3 (-0x7c7a099ddf89427d163353341c2be1549619b590a3eff01752390dc92e74bd5);
Dbl 0x6eb827228fee08c233ba72545c9fbc6aa779e3e082ac744203818ade2e16e37 0xa285b86c2a14ceee32f3ba364bc2c15c8e65f9f4059a33c94df3b0c073ef4a1 0x16b64ce3a8ff4194bac1fecf4c1d8c60844e27987c98456cd414270b5a993525 (-0x3dc946de2b493ee4d5cb6494f2dc1c28db0b27aaa2901305e19ec1b58ff3295) 0x14a15b79b58e0eaede119b6b23237f8a940a0ad52e08bd244faec309e8aab86 0x8b12c76c6ec00e225fbedc65aea5bcbb7a92a1ae7e24e68890bd0bed27cbcd].
Definition hBNb_7 : list stp := [
Dbl 0xfc663649ba6d28602eedc82d3187988c2311df30b3b04524aa306052782df00 0x58900ab8a098587357c37089d83235b94c3db3b88c7e6f3d758d25850cff1f2 0x1e1cfd371bfc38a3a3fa7ae6b9a3b4ff046e2592dd9f6bdbe41b3d434669a422 0xaf5bc3a1055ae2b8bbb98a0c4868d6a2a51242a7d2b53c549aaceb214ae226f 0x6b35b961e769420cd62d5e461a8199bdef201ac576635b4c43d9bcf9ff1d984 0x1f6a534c5b579c002be87695f1c83dc16abfdb30db9542abb759fd50145fa83;
Adp 0x137becef101282d1db180e78b863d8cf4c7f3446b10be9d4051a89d20796ccd6 0x4d431688e53fc664bc05e87490c2245aebde461c269014af0c90b29405aa306 0x1a95aa06d6611f0b15ed71a03d277b7ffaed1fb8ef3aed3bb856a45bcceeecb6 0x109483a1360342b7b40b4b724df29e361e193c7345c8d6ce149b16f0459c27bb 0xa38d9144ee20c58a4f501e3a04db2adba8175c6ab8c9b7afbda5c15d521d9fe 0x5edbfd14a55f9b047a7ee29de13aa362a2bef2291a846492ff0db384d613d0;
Dbl 0x96588664f3c888a22701a8909646e24bc3bb64e453e2dee7ea62f5ef4887619 0x1033e4a7464abae483b9678f5cd40f01556de27f903c89b71967ae13856e776 0xc0eef0929361837cc63bd854b2ffbb18bf64cbe732dc48fc521165d25b85c3f 0xb91b163f5ea5840d0e02dec91fef647cd34a6811faa1db9d90194e566d9b060 0x260a412c6357d954bdc7c355ec3e15e31aeb8fa2fbb97ae213b90e559434f35 0xf72f59d55876cc37d35c57b6447706cd9944bb90d1746f44d8678f496748d9;
Dbl 0x6ca548652c2baf6585a0710f7c39ece8a9ac07147ce704e77edef866b4f8605 0x15733073f7292ffe7582a077ee0d466a6774355b1bd16c46866601f2f0f23370 0x23e1d045b516a7e2cc105d17232034ed45d78e586c9fad7b56f8e24ae3681fe2 0x4539f46590ff0d3d0c3c50a1c80ad39d68b513817810936175707c238af00ce 0x13dd6052eaa4d9835f5dfb768315b811cfb671e6146b60649bebfe8915938ef (-0x3bc9bb1737e433aa4a6121ab9ba6ba59b20fbbbfbb4390edf0f785326a2ba51);
Dbl 0x110f73d9385af049af9ede0a6d0064cb4ab5c7c4acb7809e64f1906f526dbf1f 0x197de3dc6c7726d371c0dfd9b2bfab61b696118ac65394e99a698c34c5b0a9bc 0xd003ee3a713631783241b6173e96d46ce48c106f49073d18d8133b20ede03bf (-0x43331114d628699bf4df0dab8a0bb58c92b91f5a8c5830727279cb58d50f92c) 0x7d64bb7ea49c5cb35f882d2d87ddcd327975e2b9463f01bfce3731106ebcce7 (-0x1db50a65c94146752ba59460c5cca610a2bbf1d4e5d283b82e3c466c3ae9677);
Dbl 0xf2952687199ac1b1a8d2e37f523df5a6451dae5c7c122346ccfc6225a215751 0x20a4ebb236606dfdd88abf58c6a6d088e258c2c9ece49971481299e2847d0026 0x90572b556733da07712850033c19a27d83cea04ba79315a92a62e57e0900340 (-0x29e0aebe8cedd0878e8bc6dcb97324664ed7739fd8123a65d635ab890c91f3a6) 0x63085480f2c89552fe806c28c5a0d2afd23942d6f2f20ee925af5f1ec0aba51 (-0x2eb8129f2d76cf0b94c6fd0afb566690ee9a4fa4b713eb3989a4c23beb0b473);
Dbl 0x15b8f639e8d064c52a7b19d151dc373e1dcae568c38bbcb45295ba5980e44f3a 0xe24d2c7fa68d916b5fb2b0126b0e6673867923c48d29040491eb1fd32cbf54 0x1c79519cbc86899520d612ce37fc453483b744e17deedc982e0d09bf14d7189c (-0x4b875c53492eba67385bf420e580d462e5002be1ded719609cd7e4bec451bde4) 0xcb4a870de3e7b88afd091c5d1d6cc605921207662ae024d724b04c055aad8ec 0x1293aca1b035b568d3251fe651effee06073c2ecb915c6f3c14c4baa31fd7e68;
Dbl 0x17f07db2eea0c7f21186a890386bade99bea908a37651c44cd73b09f6e23202b 0x6a28a17b49a8e10da4cbf9c2859183cb369841aba734507e73492d0a2bdf4c 0x19c5edf7677f43465d33c05bedf68fd5e307222a1e817e23d4181186d00e5432 0x24a544fe75168278b1648b532ba5a197769e211f9c2fe9aadc18083c45c2d668 0xf6e711ff6477c9154c5589dc334cab91ca344bb925efaa8bf8aa3eb296f8c47 0x4d71c03a41f93eb016ec530a3952d1517bd2753df156461678c95e1b8b6e8e;
Dbl 0x172d91683b40177e600d858b65ed38c581109162b1001826cc5a44bc88339f8a 0x86c1a8c58f8d3d68def043063feff5e446ea624a5732e8db5a70b7118da8737 0x1bfe55fc3f52e7eea77ac2f60e68300aa477dfc4f34133ff4c5a63623c89bb7d 0x2027fc4aecd21b5a2cbf1624ff6fe24ffbc9465c18c6e059a7876904aa5ef7e8 0xe772477995e129c556c7107ba69cd22b6ba7624fa71d02591654f9f2dda71b7 (-0x4ff5f206a3161c10cc01739694d51e511b2e90668c06de7c10b6a624d4edecf);
Dbl 0x1f5b28416a620d8f9698dacf14bdde4b4e6262c189b1213f92ac84b40ffd7909 0x1e23153f191ce131d03009c618ed86d8bc35d5cb714e263c1da4e61b205dcec0 0x95100173970cfe3fdcb71c4adad927d38726e6c00771cc06b359f760369e708 0x298a474916f86a9bb7eb8b6d339f470c70e602cfa1d9bfca706440e20e24a42d 0x1a796261e7f677ec27ffcb5cba53e0dc9abd0a56a5317d7a5b7ebf18895008b1 (-0x12557c0f59515331e9c505ccd2bfaeaffbb044708692547f0b7344fb115b4212);
Dbl 0x128cabdad16ab228641c8f2bf33e24cd4878158d8385dd0f8cecd289dab9f269 0x1513b19989aaad3b160077df9565f680da056da54b65907eb775d4dabffbf1f9 0x248337377c520cb66af24f64cd70979a6f6a4594d1eac404bddcfa8cff854647 (-0x400f7c6572a56743a9dd44175fdd907c28d2e4431216f0db25f4c9a60e1d94d0) 0x943d3684fe538a2046a14e64ae8ec5db7575a7d549f8b404a71dbbfcb304508 0x48677ff78fba9cee02f77b50b5f21a140c5ff4dccd6a8ea24295a681b757270;
Dbl 0x1d5a88b6847386eb149933d665b0343bb29b94d1b90b3211328030d43e2e25c0 0xfdfa78f11ac6da97e073550d792cd319e8e89e5d636e2218d9bf1ed5f214f0c 0x14fdae4b406f20cdc89bfb2907df69c297025ad6f7ce2e4bc53801f27f51ee3a 0x15d545c07d5c487b094e9950b701b950dbf85b353a0b89e5ada316b708764bff 0x173366c775d434cc1d9851151760a8bd03a51b39070a41b392b154e49ddde336 0x41cd419bc9902ab6b54930bb3e4cc8f009172cbc331a979502d1e14cfc046a5;
Dbl 0x205538a3da48805ff9fabe8b63baa0411c1186c735721a7c6d8014c97a5a0138 0x15f1147e98aac3e3054445bec439b50f5420316f9296229bf58ddf22602d4230 0x1dfb4b1747fa0d48e6a3843d4145521809f8cc02436353e01271ccee9e9d99e3 0x103214e72917b33139b1c84c76621f554b3cd67d0c67a10d920ecff4d75e1390 0x1c263918ab80471e4e08d7b6d3cebb9b62bc6b96675421610fbfba17a3352328 (-0x5486d1b0e6dd89ab1ed6ecc5de793f42dd1ffff1e887c5a4c6c16acaf88d5af);
Dbl 0x204a4c3b674abca6f6ff75766366c77a4c7f6c5fc7482540be7f75e463509dc8 0x113d2ca0e35c968834124fe57c20406d452b58ca86d3f4472c442e4dc9eebd43 0x2307b3b524fb09940247e821c08e51950b9a556e1bfdf6916a437b3811448893 0xd3ecf2e1826c85c2ea56f738c42b5ffe5b625fa76d64cd32d6635955cc8f990 0x1c1337274d4c0ed621e5f5dceaf5286a591c2f577805d1a368f812b07b27e08f 0x416bf764808818120e9c834b29bb982d29d8bbb66b09732b5d595372b731bc6;
Dbl 0x1ac02db65b21e49f7d951892c0a4be950a73952cbb3aa08b97d4e7ca1f7b5a90 0x215963396092ffcbe9836edaf5a7e65f2924782c1d39302b43aa0eeb29fbf2ed 0x21af90902c7979d76718b814277fa94df5f0af1d248664170b081a00cea4dddd 0x1a754f96d997e40d3e3cee269031974412ec8f61101684a4625342ee6477bcc7 0x1344bee3890a1be85cc2af9c3d2c4a7b32a58fb974ce26567a97f901473001df (-0xb9aac22ad4b65bfad01652e53ef57ee32c21c67192cb3e9bcf875de4fbb1fb0);
Dbl 0x496cef302917320097285128bb31bc8a87e3ad317c5a641cfb7ae6d153249ee 0x172492ff32c64b98308ba2ce027ecf76337d95a10d8ffbe7806d94a7b4bccb6d 0x1bca69c331f2dab7bccb5f05199a051eef40c673db6bc73fcb3a6ece037fcc15 (-0x5183dad2f30901c6be7e0dc3ce413e30aee70ec27c4b88fe6539c7e9708bcd55) 0x912b289e51d9507e4ca37fea573e91a750d9d7ca8592ed76c487cca15919af 0x142dc1d6a088d3f2cf6c17d7642ab61ec307e119bfda9d28b268a567141227a;
Dbl 0x184b36d7d2ef652df5d898dc4ffa666db7db06adc188d1cd4107417abd2c67b6 0x144bd1d76ad60f058ee7111e7f2d34c60ea3bc06d53322aa45c928911df80347 0x1ef066aca10c624a7de895625c11114e40170ed48ce261454482fe858fe8fc97 (-0x6e80ecca9185c252b805e66f7ab59c005518e444dc19a29e3af94651c6ccb05) 0xfe444bacbfbf9297e0ff04618868646faa9433bec5b4b9b2a29a91343a37e11 0x1dcb61080be40e6dccbebc1ff88a9f730cbd0f6d86ce1c70013d3f3bfdefd48;
Dbl 0x2321fedfc66aa6322ca235c842742b72c31f8ae5b76e87bda863a9868f197af4 0x1feff62bfb85588756600f5e10ce59affaa61dc9771fec31d0556e6bb646b90b 0xf0548eff8fe2b2de921083ffa0224f95cc710936388422776009687cc339fcc 0x1942ceb907120123cc72ff58d11f4e86f81e9a8c61240f94173b9c2b1c80ccc7 0x213c5268d134fc6bf5eaed6a4ce3e010fefe417c4595181661f00817fe8d680d (-0xb03370637626b1f167cc379abc308f4ed6ef74a1227bbd0f0f167e254855461);
Dbl 0x4af64379652782309004cc3097cfdee93f07b9e2ec03e885a54170336ca0ba1 0xc1e34b9031ca3871d51d50407145f43401971c850f42d3ac376797bfcc84e42 0x1a2cbc10043959540a59b8cf53fb0b05155f1bfc3c81767655135ad185f18024 (-0x4e9ac4341f2cc0b51dafd78e95f4f50482c692ba23f0989301ef4f21b6903841) 0x974eb8ff503c1d5e73b23982687603ea2c423919797660027a4d25f0b2d093 0x280128686970c811ee769eb663ae757b9312b513cd39b85b9359e3620b68fc3;
Dbl 0x7dc21c2cd3d9098bc13b20226c7afe2c8de9f414c3e1d7ce72907429c93424a 0x196218c594606c37e141314936f596c8302ae4796784206bc05a2dc0429259fc 0x1388a41937a8645e7c67e9c74ae2201124a50171475f3ad6d83b3df0ea4d7f46 (-0xc86cdeaa0d0486e8bdcf19010f72974e46acf0008527d041ac277e6ad91054) 0x1a9d84ba602a05506b208de8c67a57c9f249dcb6d8a368f84834f85d994620c (-0x2ceb3a90fda6aedb50090f4ec7482362fb26b1c9ec37c220f14a9ed32eb7dda);
Dbl 0x13d48a122d160e003097b35c8863298238f4b914543471b48cd5bcbcf8beb1a3 0x114b16ae00c253530dac3f3600de7cd2c055b3a9083ba80e87344b89a716d749 0x1d8d7976fb7e3e115e4e76f66c41ee781a9a6ed09e25d90ccc902a9a20c03ec9 (-0x1f2fab769d18c3ceabc673bde3588e322710fb36da664f5303bdb428003e2444) 0xa96a76b8a75222e26db2a5ec8922dc759cd43748bcc672b69438fecefd75458 0x451d454e0a8fe3c1775f3ba7f036a9e53f5f8021e61cc76fc8d84eb4d9f10ae;
Dbl 0x19a6a284d551694cc22f27d2d9af751fdb1a4ac05376c45c26e275729a4e0874 0x15b60221daf1129b65db646bc4ed65031c3da72ac7d48716852a0a18ac4f23ee 0x9809b2a87639d1a66ec0e933f85116db79f838f14a831443b32dbc34f12676f 0x10aa5f4d8792b129076bfbc8362df74aaa1229ed7c03e347bb6ecbcdd69fb417 0x11b77daea2c707f90660ae31487ce6b6caa543aa8601b5931c2ec8d8e17fb7b0 (-0x30d1ca1950c8bc2afd5f301d88538c3db277665e5795053809b9f87b1794a94);
Dbl 0xeefc4d2e68e608e172d3fbc7a3271be6c7ad5347704d1959fdd5b44ef6d217a 0x15ca63cadb3a50f8f3f3e7830ec662a6ee9fbc3af5ef64ed82023864e3d76e08 0x9a2f30eea39dbe5f113a599ec129b5c1f6656ade4fad3790c6d062669028d28 (-0x1e6ee06a019e30d82c016fcb68a26299479a266c2413ce9cb1881a184b1be000) 0x601e0b866ffe55af7d6a51af80f6d52ccafeeaf54ac7e138979531e5f76aec0 (-0x8327c4f5a34e0e9ab6b2846c304aad743e73830a44f660c0c22c38108d279);
Dbl 0xfd4a7ef43028b7937fad205aa13b54c6b188d77d333712b14309c78f312ad4b 0x2355df27a48f99cdb545e27755f0076a71c266c9b73c7ab986dae5a0b62076f9 0x20265638dd5ec40d4e5c973060df025ed517f6c82fb8181c0ae2675849f01fca (-0x1e241738e265b086243ba5979bd6ff5f247bd8873c72466b05fb8cd433474170) 0x6bf7fff1f03cb8937420247323bc74c8ffc4a431af703488db96bb27579d950 (-0x5c60fc041265c60ac3b1e0a760457e5bcc5b2a119b5b4070022403f94e988df);
Dbl 0x24bf8f9cb797d3c4ce9c7f2b3dbb7283dd04382ac26cd9955148728755189348 0x1a710f200159b631df43595f752dd29a0fe16ea5fd40977dc351652c695f1bb9 0x17fadf16261b341cad30276d5f6d24a06aeb3093d524a04ac27eb72f8a2d8c7b (-0x253c6f210942ccbdf07e1582d450fe4b8941b0f8dba7612e19c1697715024ba1) 0x245cc712e0e24c40040f676f64dfb2602aa7298cd3a1d35f6b4158ee19ed3fb7 0x8cce7b6450bb3f24faecb41dab248d0ad92e5d229999b523e3676a773c590b9;
Dbl 0x7ab99c0384d73a7d379152dcbff59163cec5ed70e75d587d8b395c25abf4cf1 0x1a6fbc8b00c77af66970f1fc9a730b284dd34d04ec69010c56a845b38cebac5f 0x20ff9edc2189bb3a60743347b33069bd63a92dade7968b7e62d2c02cc490c37a (-0x2e92804c03b28664e3ef87f08ccee1ab569f3f4dd1630daea3439b9824a4882f) 0x1958ce9c0d7961267de9b41363d4ebdfb637795d0b8838778b4965479010eb0 0x45edc143b31f59b81322ac517b3c5d3b9fe7d64c288f80be6a04971cbfc7;
Dbl 0x8125b864513dc196dea72a2dc7cb9fe31b96e39031fe24171b16b9e036db37a 0x1aa6e497af44c532b5077d8f1f6b63f2f43ae1debea0b8a6609aa3ad9c1bd675 0x21b9de2f0545cfd7b25b92cf52167a385e93e4cbce30c87957693fab74e71e8d (-0x2a1c9350b87706593a41c8f5a4ef3e7510a1a153543ae8294d44e25ea66e71f9) 0x1c11b4e6804d099af93e59bef461cf15f338687eecccb7986470ec67232c56b (-0xbfce1e97557c8131c9b564386acdbe3480de1c5583cc54166ba612cb211d1);
Dbl 0x6498f062ba642bda1db6336554d1abf8d252de960aba9ab6cdaedc4d40da873 0x971300ad4d69d6d53b295487e7b053e84463cc9f7d75301ad940d5fb4436476 0x836c68ac9d03e9fda09247c8fe60296f55de4bb1bb07500245e744da51f615e (-0x2df5cf392e953b5a0148d30709a447ede8a9711ff8b8977183c066529c27a0ef) 0x1107db3e53e5a04f1597a230ec391680dd3dd210c8f48baea72f4b0520087b3 0x2e9ddb44263e28b796cd867923f8dc3312b5b6e12399f83c4b16ffd51864416;
Dbl 0x1e93020cb8b4c48cd8a76538f7f51e007dc160691c68a353f5e29eaa8c00a0b9 0x1b67456d971118ddfe42562b489cf6709e7b4962f057689e4f3272c4e82e0819 0x15703a31776f0de8db6ba87883ac638a25fb1c9a3c2f59665554e74a89ce8083 0x65294f7507a1959275f0063c87e7196bbb11691834a0a76bf078238673c9490 0x192b9f8141af29f4ebe130f269167cbd2320730bb033aa989e36f1e4c2538624 (-0xec965202b569f164563696b1dc3c98a047ce274169590d95caa49adebac0024);
Dbl 0x16b05659c260fb9c9954c81885272c6434167ce0430594486d304a1067998218 0x2503c42d266cabe91b71f5f373e53d95358a1be578e50d44d01b763212dc23a9 0x1a49363baf0a4769ca057fe29ffff1c7cf61213a86ef9a7ce1e6a3b1d4b4e953 (-0x22775beea3970794271094652f68994c544b7984ed08cdab029530e70e855891) 0xddc7a9a86fa4957ed494958f3bd93bf871fc2367752b659248459ca1d7396a7 (-0x5df2fc78e2de0751fa5198021870e9237d04b7ee9af40d5b3a2cce596d62a12);
Dbl 0x21d001462443aff36cbf67d6521e92d7aef2c016ed365d9de45db6cd8b6e3bdc 0x6e30c9f02dcc8cc3c236bd603c230cd7325078c0a4f638b7c77469fb5ee441d 0xe245c8ae7bf8f452a3e5f004fa910e2cedce82b428adcd09c618acd195777e9 (-0x3ecf83c301cc49f6afcb0eb3a962da320186a6edcf648392436ef28066726729) 0x1ec8dbf1e1f03dd1fd53aba33d5743bf5be58fb66a17daee84d4635b9b8c3dfb 0x1b6e0aee10ede7d414f5d889db3c7d1f1617a7da905a5727c0a70e564100af1c;
Dbl 0x15d133d457fa831dd3844d3997875b087cc86ef0ea62b850ce8c541c6cd5d12b 0xd3443ea1213a91436eac6adfbd5730a2fb1bfb125e0298c9f8085beff794a97 0xec20737aac066ab69c334fd7fd7c914e51055933e548fa2c7dccb9ad62a64cd 0xcc8cef9a7ac7ffe87677580b95f941672fdfce59b120bb0d2b39faac0762149 0xcd113b14788a0496ce1b790aa9f010892e64284aa839ff692febcb5a9be48f8 (-0x3b60c4577bc2fa001cc0f15270d4ac9dfd739231446140daf8ca28cd2d2ec7c)].
Definition hBNb_8 : list stp := [
Dbl 0x102c01f0fd84f186ec8c915cc1283c6e54483a16997db21cb3e692cc4dfa556d 0xc86b4f57ec1f2a008b031ed33806725fb57c076244deae86bc4f537ecece126 0x194dfb27dea30ee9bbfb57b85aa9cd4349ff1762b0d854006c7e6e1b06459d0c (-0x13b2ba508f858fcb4e6f717abeb621cd3b6bd92c4d14b93dc6d35488dca0cfb) 0x70ac5accbebcd472520d4616ef340ae8ec469ef61bb29711edae55366805237 0x4b9385c07be9cd3e2be873b7dcdebdb38bba5aff580c4668a8c9c7fad3a72c;
Dbl 0x18cc4322bf45577acd2702aa6db73c4c3b28d228bbbae49b9dc736fdda06eca9 0x10ab4e38403b296b2bcc736186ce08d49e602070f6a2674096819c3213efd1e3 0x2343753cc996668e44ac7cef860818f8f7ff15f941c21efbfe4db8d60ed3de2 0x151e3527ddb0b57bd0689eabfcd2f103588ff8e870bb9a25d35bcdfd4b0abce4 0x108eda340c8db061dfa9906fde443fa91b01cadc151137d5e8d662e069bb7f56 (-0x2c42e6faac31cce9d5cbbdaa4d666437b18e2eb2543bb74b84ac115d03ca1e1);
Dbl 0x106a1f0407883feae011602086c4b62bad9d88a311f98c27ed228b7bbd6035d 0x44897c0bf4eff960d2b9a5333aabee815872e2d7773959c4a3ce82115259d6d 0x14ef0dcea90c18ec60945283b3d2a747631ec39862fba857a4b40c9330b6c7e4 (-0x1652d9b61157f9cff110eae8fadf562868de553675460c2fb39068dbe77b009d) 0x74145d9b41357eb729f66c88d4f41c6a76ebe6bcaaec0fa383746f5ebe5d2 0x57967fe3857177a54ab54f6391adeaaf4bfdba4f719f05892ce99e207a3b88;
Dbl 0x1c2d39c65c49bc7e7e93fb211abc3596f04b7d7ad87c10a25b2b00f95bdcf29f 0x1c8df2a667d192355c5a12725a109fb6e32774d5b846329ba1fe6cf75c27fb39 0x113dfe51c7d09eb1779e73301f45046c3f976a58d2b054420d251cd4e83f5156 0x1e4858377e337fdf5fb5f61ee02c94f0fa17296bba961baf9e8ea712643475af 0x1560a63334b217f9d9048633bd7e61fc275e401f3f93572a1390735463ef765a (-0x126a0d05541f77de469a7d341d065a32b1faac05d101db929207a6059bc22b1a);
Dbl 0x1392967d7e4ea850306fdce0ffbfae4b8f860efd6f77bdf20ee18b165355ada8 0x19cd7a05518bf1d0baa71f0497af9a3d190d60615779aab1abc04f0a6a8af6ba 0x16cbe863bd9d76cc74fca5b3ff8d7ecf993d8dfc08b34c802918f9672df0be0 (-0x2fb0ab4076c4fda116475ba5831bc3a47e80c80f9c4abfb45b6e23c361a93c61) 0xa50ae5339a5ca15887db2dc9d0a240adb053ab0d499c0c8e3af4096a980151c 0x1734542b72029a5438c08c1bb231a155b0bab4679b7f2d68b412ffe1ab0ea96;
Dbl 0x8897fbcb807170d3886d897470a8c91dc63c916f8f9c70478374e8c82407104 0x176db09c9980ff7e48b4f399e47ad5380b21b725ead57e6982a643ea8a72646a 0xb4fec7e9d7bb9b3a4ec6840cd537850e104dcfd12bfc3f4f8402403dafa2c73 (-0x3520395528f166227549c3048f07d279578e8ecba32bb037b517fa52ff57ad64) 0x1f6637bf7c03d45905b5f4287020283f37480bd30c57028e22afba6cf632b46 0x8bb6d2e05f66110d04bde3efca56a8da7f6df4bdb65801687220ca2bbe3aff;
Dbl 0x1fb3a38d212cc5b471d2400eefe63c1c8aa93eeabe0a83328a00fb25a25b6e6f 0x16a68650c54b7e56aa999d4236d36edeb3081e621f573a01c76ccdfd21292f13 0x90c8f268a852ad934f31e47977559551b5ec354f4aed583798b70d81d6a84a9 (-0x1906d619bba7084ae15969c55eb4b0057ed2bbd50e9f8a4c7d2a5822d1b58e86) 0x1b0f9e7aee852a526b3129c0349f4b9641c71f06f1edab5ae410880942f93e1e 0xaa02977e14da3788de59846237769513bb47cee7c38aa560e0dbfb9645fd8f;
Dbl 0x16b8bf9416bc09291eba00075c4b90be2f08883ae7b306f542c668d6e7eaa2cf 0x2f1fe834ca3b9a261e7c6668b2bc10093f76443f5404ba1d361ffccd9c8a0ab 0x245216348ab094e3e916128cdd2b0a49a6ceb393b155e84579e89adab0ecac79 (-0x1e5ee52d82e5e5d86aa59caa69ce2dc14d99ea0dc81a320e8e3db24a960f06ff) 0xde6c371f616345f01a768365199c34b01c04f1d2accbda01c0887891433fb30 0xc0e4f740910ef6c5219a5778956a12ffd6d9bcc004aae0eb24777ccd7e3e1f2;
Dbl 0x6f8b30ac3f865cc9d370d4af70878686fb7acb5b1dbd3a3a2c4da567aade64b 0xccd9ee3b373642bfc547989cb9b05d80ce56e81b4eefba880272909483d922 0x525fda576834edaa4453f91c12e75990e84b4886ea64ad9e80843c9340aef75 0xcef6de0beca178431e118f13bffd667614c09f0d0eadf325a680ccc7e36a039 0x14f04b8cd7c401d4ad40a72f70f8b26d7780b514681c7d944931084c03bfc9b 0x67155e1a7facc83b26b177378a10b07de0900cbaaa6402d1080cad11d80c97;
Dbl 0x19cdf332da9eea75b866d7648fa325be397044cfeaa00d96417277fbdb237f2 0x248e4e5cb3e6a89b3dd9ae99c64d540c3b28b2cae322b3fac942889f1ef08d97 0x3c94385aa583e393a8386143b4d36f724ff9f772fb36f1900a7158e27be7bd7 0x653acdb59a267f3a9bc6bf0ecebb5b720caf2863531d08a00db6a16cea28b8 0x11edf664ce64a7f17d762184a49f6e2c8eab13f776148456b7d028e39ed293 (-0x18d806abbb70272a0542d283b118ecf59dece9af1729158dea4f4e0c24c6042);
Dbl 0x50d4f172691fc05c3d0a64b8e6294837d39808f2234fd2e4f9fd40b5facaeae 0x18e582399e69d259e4046b2621aae9bd09c12cc5ad236ac5e9136159483fd78b 0x20f9a6e262adf494d7997d3555faf608f8faebe2c6e2c90a18044ce9113578ba (-0x6aeaf87da47e6eb968e7ff713c8db0126d767a19e2d61f65d75efbb966377f35) 0xafee6a4cea0689de87376022906c11025041075bc82feebcd03ade25d5e5a9 0x196071a61ef56c9d226d9f494b893c993206894502e235de9eb6324b6e46aed;
Dbl 0x57883a5fd8f3c7088641c6fcafbe33527d42539918b0c02d69bdd88d5f0acbf 0xb884da4c4ecd37f82155c17f6c60a1091ae45ae6135d784547337581f6278bc 0x643b8f13e3441744c244707a356fed4ad981eb77335c9ae41554e18edc9225d (-0x285adbe0bc5a839f669d1603b73e21330f2c1036c2158a2142b42775ec5d2b85) 0xce4e8d5ba1e05ecb209b0e28ee99e79f1040fbf97efe0decf89ded7291a275 0x1f7f87d12644171046c490207c5f302b9ff05820aa1a56ffa0336ee7dd6a47e;
Dbl 0x123afa3f919cee77eabe764372c50a969d3ef4d4191f613096c2e081e86295c6 0x23852316fe3ee539a5834020d1ded939a55c0c1ad7a3fb326629e843666278d4 0x3019c36a82040e1cb81adaabf08dee586bf715bb2b03ee969f2d3e56560f873 (-0x497d8145cf82633b7024c63137fd3c68292c1c60caff84dc61e72ef0a040cdc) 0x8f2eb9c974c5fee37c9b132742ae2b40bf30087ac81e52f79f86af2dad874c8 (-0xbc667b7ea4955987411318d985ccb0cc0417d91974a40e6aae837b57999b120);
Dbl 0x20de968a4799018da177c50e36a1d3dd934f243b957ff4106f10342699fceabf 0x94a1021dd60d20f8702169ab94b476e5768b3df0858debec58ed66027235c04 0xaa048423bfcd569c25a08f5e1db5785183140460e2974c267f830ea3807a93b (-0x60987ef59571bffc1df25306d07976b8246cc768909474a6213dba175c758b52) 0x1d1764af139d314964a47f7a9c206139ecf2695571e15ae2d236c911122d8c77 0x173739d387b2a49bfdcd66c5771257c0e991301a829b139c3e92225b350a50b6;
Dbl 0x15495d094c199f5617dd77e3231e8b2bf1fe3ab9b9a5d3d9eabcc052c243703c 0x186a6c3cbd7af3ed6f14cc62abd5bc828c309e67ac7a95a6b2341d4dbaf32590 0x6765313d002f10bbb91dc143eb286320c79c6ff8556e2a23558f29f9f78136 0x535ea786443ad238f4c320171fb466ec8b02f5bb89b113c14682bc164517da8 0xc336b057bbb8295e799e6af4e9708740788712d5db0b9c3195b48a518cf4ca8 (-0x8ab8667ae50f9b4bc8d6cffc308e8035473283f777afdf089b9d7dcd206eddb);
Dbl 0x1b97d38983bb02943099b70a66525d2e9e0d95dd85925daf81c095a2aca28c90 0x17c42651f266af2a735485917d0a9d5c6df9d272027e79383d942a9cb443046c 0x225371d15f880ae945133d63fc16280b7aa684ab245a861b190047cbf276d1fd (-0x2f8df5e9299dc04e0195a87a20d8ddd0a336bc544f10932ce38543b7323d48c0) 0x14804ca09ca3d596d29e5d001978c769a9e0ef820d812b348b9142cbc3db2f3c 0x7b89bb42636ac4c7245de606e5bbfa92fe46592c2c0daa1c9c93ef8b075e5f;
Dbl 0x1a69189ee5cb6c2809cc909a9eb480ce97b76127a7d5e3a5a749deb736b28343 0xf1c4084bbf13b1711e64e476a3ba20485f5e32bc541da939c24be7af37e495d 0x17b397806aa1df3a0fcd7e72f95edfea8e77de7e7765851ef1b602d51f18c51b 0x331c5c02af6675210987e1a889215bdd6b742a6f2b898e61b371dcdc60ef50a 0x12c817a2d3a90ef970f2f00cfd3503452e121ea4a94132e057ddecf1b8a7dbdc 0x627d0c882d7f5207c5311b6304d9d7334a3ef98e9441064c26c4a9f39b03677;
Dbl 0x176bf65494167f0164cd14f3fdd9add14e110ac90fd334f2e924179ad2cf373b 0x150e382774bc467a3fa6c788724436c7d19ab803f0659a34159f083d12f0657f 0x1711eca0722150bc8673430f6145904e0244fe99957c27ecb11de4c379ec0b80 0xb739c8a09b0eedd6ac1697e94acec2417e21bdbef9908435d8e0c5c9a87936d 0xec56eb5bcd7377d228f0a31c9f13cd9cdc289c8c4ed4802e906e70f2aea7f20 (-0x3bfd945881ec015074dd4b733db41c895acfbde022c8384b6a966adaf2673eb);
Dbl 0xb8e8cdf3a6ea5e242e0503bebcefbe4114aec3453021737bc397e81ffb30b91 0x1e96babc86d8fe248f6f7cd600bbc86a2c646ea0cec30b9b010b2dd409947e8d 0xb158448acfd8f253ffd245ff90145e1b5074d577b55b8e8c118dde033825feb (-0x15744c9f5fc33dfbcca030a084f8751e9757c453632ef0dd531dd3902eeea651) 0x398a7719022839322af133289e04259f64d89bb028a15b65cebf6f3c833b5d2 (-0x2f772ba7769f59655db52868df09676aaf3e408042c8b8aa76478d0c8a4f563);
Dbl 0xdbb69ad2fc383efeec513c8606d8461465a570c72eb84b2c35b634eaeb56da7 0x60a60300e3381a7e59c1c0898871e86ce6a270242f68acb8925e9f3fded7c8d 0x778b8d366d202ec182f89979f2dd47294026f8e22446b0357fc1817389d39cd (-0x4362e12e1ebbb1850e3c398016c18313a8887b11c295c78aa9ecf4cf0f4ca23b) 0x513d80fb801477885e4bedca045f45ab894f7135d8e039f24520b5b8943bece 0x913acfc83186d29c03f6ab0be32924c2b9bafb79e274843fbdc7a3dd38fd398;
Dbl 0x1e7f5295d107712be44748c33fad2c57b3ea4ee98932c87a306b36e3bedf4ea2 0x1d8a985a3ab22844ebd3e29e33578b9257c9ff886f63ab1ef2edb21ef8b7c726 0x128476bb38a5844902ab0737f3cca189afb00152ada5e68a45bcfe42f8cc0112 0x952d77a9ee3031163994ed53a2800cbf348f766a55e09411f6e72745be9dcc3 0x190b40694379ba5dc401312d03d70ad10293859e3e18a0840dc621b9a9c7992c (-0x134c6cf2955906b28e48ee38f6ed156550c90e382c7a9ce37a0a5c970e641bab);
Dbl 0x1f471a2cd19f1ff3792bcf15f8dc3d886644121c3c2e261a5bd8bf8ebe234f7d 0x16bc4e5853384c3a17766bd1fe8cec57b00db218b16f3afb287e639ae8c6d737 0x14aa5a27eb556a86f845469e231fcf97de7c0a19ab1f28ad5b7aeedfcbd7fc64 (-0x274e0a9c92913ee3de17335d223c3c63f68ba2eb31ec138c3c3e9eb978c96048) 0x1a578fbbb012897dd926c540f0e239c815457538fc0aea1b6b07f75a148f7922 0x5bb59fc82791e9c0cd20fa071ece5663b300a01af85b07fc8df229fb69df16f;
Adp 0x6496e0c132f08b84f2bbb0b74e99de488c349138df27267d8aeac5cf823cd3e 0x22e93a1318da831690d4bbedeac034c0aee393a0bc3307d4fb5c31346435d886 0x957aa2cfa9df395e5d2b1f968882f36c7e832526a87396f0a79e2befc6b8657 0x270283c5cc07a41d63aecb791e908b7c995b5874eaaf16c2fdb37afd6b3cd7f 0x110728997ab5ab469d642824c574df2aa6f301f5c791cc35aa816059c21e097 (-0x20fa36e820833c98c1bb3628e8eea37e70aa8179147faa3d547f8f8db50cb4f);
Dbl 0x9c1a6638022faba731ca6287d2d3378dd3d6298eff9e8db17390d1a28b961c9 0x149d012655d3d923a46eb9832fe16199ce1efdadf08f799655d07888acc233ac 0x550f7eba4277d7631507f96d827ec5ded21213d1bb93702d90f69e2c2efd2bd (-0x5d8b2741a5cd06ded062e2b5b15b15a7a36e3a8e35ed99def7ec403cc98cf6ba) 0x29025da0c132e4eda1b74ef5b870fff46402348290fc0677b5ed5ee4e8fe5a3 0x3c1900de0d7a0cace8f4cdf1f90f87b210ba1138dce810766a91dd9e920ee52;
Dbl 0x15d0d0d31fc4d6ff2307a23388c6f6c3dd222b83e05d65f37936288576c5a3c6 0x15e22634e82d56c19de46b2263f5fb13cabc168a663fe9eb3396e2ae14257ae0 0x15557e06f00cab361c3e833fd2d6608e18abc383018db343405dfc826423ab86 (-0x1c13f7414cff3c38c6ac1905c0d93d4fb4d60afc15d11ba225b4e9e1a0b0e8dc) 0xcd09f5fc2b0de98a3e6ab840070881389c0ca47e5db55a5cabc0da915264ee4 (-0xbefef6e849040c6d810330dfd7bc3648f20cb70e001eb8cdd1fca6e6463ef9);
Adm 0x7a0429519cc102dca1b472405b4ee47039beef69960b1966891593ecc30646b 0x2338fa837a7bee8bf468d6b2318e527baae9d814bfb4a96abed914c0d31c35ee 0x6847dff4b3d8b563b06962677e8d1ace4b19439faf3f6d04fe07b31c8bf9b07 0x321e85b00bca358940f6cc456e7c5eaff6c66142d2839122cd2540ed992927f 0x190e12b69813d7a2be6b0ce12f7ff3f460fc6c499c3dc06bf4f7c662e5451e3 (-0x2bd3494c92fbf778c25314672ea4808a44cfbf9afba97a8060bce414b754fdd);
Dbl 0xa3e4ada32772a7e476a602fafa186d89d71a39dbb240c2ef1ac90e47b7813aa 0x14a79ef2ef558cee138df6ddca6bb77dffac94986e6c330ad9f6eb3bb23752a0 0x11a1bdcc65bc8231a4c1b42d437ac081a4b96353f7cbbad2a7708c8a45bf124c (-0x609f30896f9ec75accfb73ef98058b9c96f3ff69574b1ff18d921379c1cd1180) 0x2d34544ddc49410eaaab05b445e9ea29ef4c27c1048b17f743a691eddb534f8 0x4049df7c61adcd646eb935cfbdbd54ca47dd2c34f16b31953e8cbe6333500c3;
Dbl 0xd67bbc805c16a05c1491d6d08f0934d18fb70d7cff48a9ed325393e6586a9f0 0x2523648240000001ba344d80000000086121000000000013a700000000000012 0x2523648240000001ba344d80000000086121000000000013a700000000000012 (-0x15bbc396137912e19c0e39180519437b66a56dcdf33f294c3610bb0296399480) 0x4d6b2de9d53ee0ab8f31c8148b3ec09752c41f844127e4dd7591967e974375a (-0x5f324f90baa058209cd3880290544597df381ad44ec17d22d5ba0287f29278a)].
Definition hSNARK1_0 : list stp := [
Dbl 0x244b3ad628e5381f4a3c3448e121024631a10fed0e5557e9ed186911225dbdf6 0x30644e72e131a029b85045b68181585d97816a916871ca8d3c208c16d87cfd3 0x15ed738c0e0a7c92e7845f96b2ae9c0a68a6a449e3538fc7ff3ebf7a5a18a2c4 3 0x1b386c209eabea1777ad2736a8d8c1b4a538cbf1cac001ef71d24eccd9c64e79 (-0x244b3ad628e5381f4a3c3448e121024631a10fed0e5557e9ed186911225dbde);
Dbl 0x2ebdfa51df55c085637c14ca7745a9b77dfa1863b93f5dd40e70e4678578ba64 0x6a7b64af8f414bcbeef455b1da5208c9b592b83ee6599824caa6d2ee9141a76 0x8e74e438cee31ac104ce59b94e45fe98a97d8f8a6e75664ce88ef5a41e72fbc 0x29cafdeed9c2219864ff820658929dc5316421daaba817a88561ed598c6bf1f3 0x2d260bf7cefe770c7a46658961c0610599aea9033ba8d7b876ad0b29cf77856c (-0x381c1e34cb09516b3a98a6b5aff81ec585c513c1c2572c66c0f03e9c0103c74);
Adm 0x2b3790f34693a1033ea2fd36c1ae1186e727b7905466383f9fb15b18480d2993 0x769bf9ac56bea3ff40232bcb1b6bd159315d84715b8e679f2d355961915abf0 0x2ab799bee0489429554fdb7c8d086475319e63b40b9c5b57cdf1ff3dd9fe2261 (-0x5f186ad9f3a0e0b527f9af4a7874f91436d19363237f9a729c37723b3f56287) 0x26987c9a01ca1ba7abede7a806548476c2f30f45be8b53806db89278f78b74ee (-0xad49826abe43ada49527b06e3afdd8e763ccb657428f8d809fe89d328e3afd);
Dbl 0xe961a40abfecd3902bb1c8e3868f2f06a8e6111bb6072b6104efcafca7fa6a0 0x9f4ca411a3f52f4e0792fd9e792779856719215d3b32a762afe3d5b8c684af9 0xd8ef3d795acd4b35d4366ab22e4ad335273aa59429e26929d0f64583474d9c8 0x16584f81c6a94ebf3e621b23debc3e22b0f1e6b56e419e6795212813ecd6cbc0 0x46589fae0e4426bc7950c3c4b13c383b03f13d5df84879c5948375b5aa10d21 (-0xc43ceb900cf7d0b0721ebda651440759f7aec0a9d252d2de2613be1b846a6f);
Dbl 0xb98b758c06981308b79a1a019a4b04010da58f80b6f8222a5d89ee7855f6456 0x25d32c471c8cd1ab9ac9b4118d040166f75ad9e4f36526b09fc0b7d1002bc851 0x2db09ae9bc0cb9addf3404069078f0367ff42b63cb1c200bae5bf9095585b69c 0x5a5f2ea62651bcad88ffcb4837ccaa88e0b89ab3aa242b98a05c61d2aef44b 0x2c76b3fccc30b234c472b65235fd5d399619de2d0ea835d1b113216107808d7 (-0x6adac64761d5f13d53c4b0e48fdb441753de98cc48113f5cd3bc2355fb53e6c);
Dbl 0xcff828bafb248c839cb800c24b8a47cc46daf2fd5c2f040278d01985527272c 0x2d3884ee594280d7510d2d0d5e732e53085668e1b6d8f91de3942f922ec35fb2 0x152fb4da392da5c238d1e65a12a41f89c9ab5f5e7a77107ad38e34a1b835ce5b (-0x4026c689ac6b4b9dfd5bad73f51fdbf952abe393aa7dc4c81411f93585b64c25) 0x37dc5a7195492c489bad8c96af8df1b085926e549c3c3fac990e1efadfcb4e4 (-0x1fc8df1e8820c30b72d3274a9bc710e0147c0063ab0d6559d87027f7db3cfc5);
Dbl 0x2256e093565e4984ded667fc6496031dfe0fe653a6ec989265265b1fa025fae6 0x1774c9824d457fcdcdbbe9679bd152d351a7597b49c9f69bb2467a6328b7b406 0xaa49fb46445cf3aa565cef7d4040b4c60d3e4f866e8c90a876f9d7f4d0adfd9 (-0x60b456e57b9c8321a9dd442b91d38ba2402a68370830e94f32f8112f9c4585f8) 0x185e1a2fc52327e0b85a32070bfe4d7a9f2a70b7d3b1f18abb9059004caac7f6 0xf71c307164f3fef4cc5b27bcf5af09789e68b2d5aac2e72ab82f39021a8a10c;
Dbl 0x251b3035663e7e72c895811a4c9a83698329e3065ade57e3b20c3cf2d1d28208 0x2947e347a1b83971790018d5fa3a3c691f0dc720e0cd494a6c5f860a58ccf953 0x1143f0155e0f21c29867070064ac3778983f0d47aba2ee9eb64dc3f0e22a2b67 (-0x11c967ab374c2ea6eb17dbeff2a78dec3468636be7c1858f732a905d75af1844) 0x1c73d9dd2d56a33c3b27f9a3d7ac89a46bdb09b4451f69c24bb8a5e69f1bd697 (-0xdaaecbf2e82fff534d6809e1ab2505492ef0d79dabf989823f805c0b70d6718);
Adp 0xf626240c40fc8463a704cb31518e8171e5cf0c69758bcf2f4b62b75475704dc 0xb302b5ded75747043c1ad07c98930f3c19ab9e7a5625a0ca958e78660f74fad 0x2f622e4d9eb1cb784b44b11de56db7da44c1564d1680e11b3a91b6812c01ab31 (-0xd1fa6e7a808a2d3c10dc217f2a5a4622fcdab4a00939db1c1d46903fddfc5d5) 0x4e40e9db735d232451c6ab609108ffd85d859c900f7615b2c88d5686a4436f9 0x99119919922463258453d22a75fe41225a3664bfa018e07109443929098db70;
Dbl 0x23cdc5e86f628c58c5ed55b2ae280e669de5f9bf5dbd252c3f94fcf709177289 0x16cdc71085e72dbcf9d9f1802651051ee42daebcc92465b9c60515b43596542d 0x211e1d8c654090fcba6c6b41ff7c57a8a9d8951d0300d5245daa3a1c408e278a 0x3e5b00bd09831c94c2c05da7ae38273c8f5c43bfb47d547b850b1b7aee07c411 0x1a7d81fbcda2c283b9caf1cf35ec68bd9ee53c85c418b30dc11838f61fcbd4e6 (-0x89817a2a829e293c0879b31e9a424d2ae3e8092cd48284391162514329c7c6d);
Dbl 0x273881704bbbdbf502fd4df746ce334a68bf3af7106904736fcc8637a0063a6a 0x1eacf8162f65a418b50f5fed83823366dc5f5ac1e66e8d44df6c350b713abaac 0xa2b9f54437c5744c9546b9fae7a5c590d580745d67878106c7f6d4b48a7f936 0x1571deaadada9781925b26e463ceb065beb2f904e37ef79007f2aa4b70dae78b 0x1fc9a7753b0fe3d5fc30491e9e6bd83422a9374feee3f72651ca0be3a7925f32 (-0x6614706b837a9d01232634a1a40b5d91e7e406fdcb9a75a88fa6469f33400fa);
Adm 0x16e922420ef7726ebfe60f5f0c06a9dfb58032d299effcf6b16ca52c5a92f622 0x2b65f4e693d52d982315a229c7db569f8c79f93aa206b5353a3f8bb669cac132 0x29f24e9fac669034b4bcc9aded460e0a046a91eb0b9cceb2647fcec23979fcec (-0xe85eb278b2bf673322ba4b65e8f47212f993e1ae76f026a5eced87ffb5c4792) 0xad8cbac0067e2d4eedc9195afa9781ea1760fb83cc21793036b9d5d9a2af8b3 (-0x605fdeb701152f0e53211126eab1542fff3db1fb2af24d367ad7985944ea7a2);
Dbl 0x18b5190dc47a8fc2388d2e7eb1be103087916a1bcd4bac52b9b99019d79be8b4 0x2ead2fce0edb7d5401c712891cf90a0c0c8e090f91fcba4c51dec8363d3f5d9a 0x2847329a18a4d1dd391b26024919bfc1fba4aba4e7e33b6eaa150b6361fcb9ec (-0x49ed3e7ad2a5c24926744b968080a7e83a122675f57ed70dd360bcdf2c9bbd34) 0xc9d67c49b79f878afdbcb7f44513a5433a9848f75346764e041ccc967996dde (-0x1ac7c588c662b50cecb822c70ea14cae1e94c7e478e57da9c05470fc068ac48);
Dbl 0x2020edce0a784e6ac774151e3160c2382f646fc6c00d139446eece41741a97fe 0x14de9b29cdd83c5eed88899646f1cf9097e05b47aec57cfe936552fc10b6fd58 0x1e24a987e680be96594b56c724b83a47c937b070dbabf453a4f7fe3ef9a166f6 (-0x5195229e5287e884e62ef18b247e04e46a1d46ce59ddf58f077226da52ae2784) 0x1554c03c771e2c9f368bdca353c884e64ce0630d2ea24bbd5d606df2fd19b8c8 0x1122493cbb9d902229cfd06b5b93d24bb74480c5a8ce52eb6a7b86626e486196;
Dbl 0x1a48faebb3190a6f38f62b206455d444378f35fd1d1681a4b72fd171b3a6a3be 0x3019fd738a37aad11ba41d67ff91919053e5244d4664d306469d903abbbc6f23 0x11f42edeb9250b22f7884e1609c9f2536012197a3085aca4c10efcd015f2377a 0x5bec2525739d5ff920e4b33461b34af2ddfb4b66297d6955d4c8edcdd0a3258 0xe46fe38bb413174b5f53e226f31d9a9d0f9014a81340e7018af8ed17e14a3c7 (-0xecaa8f45698802f0a1cdcfa1b74a0a85c62e77994b7e5b78d2c9a7a8e5cf016);
Adp 0x19185428ef39f8fc71c632d8bf590612fc846ea28669a43c8998439282f440df 0x1d08fea0d6494b1a2ed61046840f53cadca36b2258dd52a1cf6397221784d0f1 0x8fec6b661a1bda3262f068994c9eeb97636f6539847cdfd309d8b2ac82d8a80 (-0x18f1ca2cee9991306ce61791ff4297f7140ddbb23589378feff0fff14c20eaaa) 0xd03876075f8fb163f3d757a317e4e547f1c6ea4b3c8877f506f53829f20d274 0x9e32fd94b1f1c90450f6bfabd24f98c5b80b3dedb045086104ba484a40411cc;
Dbl 0x16977aa83d87ad71978b57c89c3d6f10126be63485c6db94afb9eff33f49e493 0x157c16ec92ebeaa708ce9803d09b97f564b3d35fe34d46d48e8f5486252e3609 0xa12e3ac90116fd7c4098b37834bd4cf156e469512d086c0d274d2e55b85e575 (-0x2bdd4ee8e76875556ebb590f9dabc0bbc24c8cf0fc2b57aa9952dea5e4b2dec5) 0xa8c04344d3350ae95ceacf831d44e2c92865458bfc0e09b8d34ff9e5bde0e92 0x386606089a237defe4ee5950799554b2f1b84c461f83160f50d322c50e23825;
Dbl 0x27451181e3f178a29d5f8e315b3e6720e921f458016ed9ee9bb7e66ad382e014 0x17711b568b0675e01bc70c255e5d03ac7a2499583d3e7a903d1964f138026d45 0x28687a50b3c052468273146cf2f2033581bebf586f15013fd4b4553a0439fcbf (-0xc442cdbfb61a2f9bd6c372b68ffbbc0514e0529cd7e5d478741e987e723697d) 0x1fde07daaa6a5f8a17e8efeebd65389947e4de23b36fd3f1cd51b95b19d26e7f (-0x19692e359d9e5c95934ccf0717a574cbb59a956d9491037eead60d9c4fa17fc);
Dbl 0xbebc5e4a72832894dce797b023675d94ba4fb3a6a36dc63c5dfee849abad581 0x1e58559e3af408ab36cc76330c7dfb09d283ee44f03b2bcb3077b0355fd711b6 0x1d2bfc02d25554c536eb5a84f9aff6076e9e43cb4581188c9eb7dbfcf2e9f369 (-0xe2888fcc656f39be01a2a2d7dce3c89da6f116a2ef62122ff309a7e997328cb) 0x2efc874bb2edcccf798571c42234bde5cfade11c3e6d4cdf28c9062f48e07b7 (-0x1b3581f36b35397797a03ea45574d1220f92c8ac837b1becbb1b1bfb853e59f);
Dbl 0x2fc6abf9f34d37080e5e40038ad78f066575d4dbe9f9c72e48ae6e350bf51275 0xc0ddb2e56f43ac699e79a186c8f1e9a445253a5739717a44cf361899fdbe93a 0x135d61f7edd7339701080b5b15ec9850f568afd5f803ecaebbe2c3286e876632 0x840cba8866fb61057b5820f45405eadb18a092f14501598179c38b714e66c2 0x2f2b0afe4b8e7cc7b2365218d80b6f1ed48f9f852d69f9fd4d308fd00cf87a15 0x120ee56dc9132a1a8d0784ed3608949de6cc12815e7d82beda36772ee9a30ce7;
Adp 0x2629f9ffea8f943cb4b4e71d3e7fcb2cd83d9efe6293ceebd8f3abfa603f17be 0x1f899934c2182b05f437119e66e1bbed41ed73e72717cc29733ac0dfe0f6301b 0xebc8a5e86219e336226ad25e79717f93ad87c1e196280b3b3bd64115c820014 (-0x981a52bd9ac1dff6f0d134a11e8523e20e0e8738cc311414505ce1743037cf2) 0x1e190b2d5aa836234123e1371e0c8d28b8a607f061f9639195325dc72e6589e2 (-0xf5d8eeaa2a100530e6dcfffb3514df82eb65d46dbdaeedc8d7854edb188979c);
Dbl 0x457284b49335a1a09419ee3fc70f2f477fff8854cf020b9e98045a2acb51779 0x39247cce3ea935866213a0b654196c8378563096dddbab8585b02564f28df76 0x1573e71ce49759ed06f0223a979a2497f9d208d9b0fa855b3c586136fb65ae59 (-0x3b04372cf94588a8df86c6e80e0cdb7c5fc53c33aa2d55cc22567a3223887ac5) 0x63aa099d6639954b1b83e5968951c864bc5400f99bb364b176f97cf3045ad3 0x28225f2f1b132714696e5e2e6b2230b261b149b3b9f4436c6335ac3fadbb0f0;
Dbl 0x15a8c261ed8e0f26105550369668c3035610ab4f4031396b3a2038d0fb0605e8 0x23110dfc6fb75366e6a61de00d90ffaf202cf270fcca64dad9e32d73b76073c0 0x19b6e0585c0f4cc00585e622a8cb5199ec923abb7bbfaf1903d71ba2d21f2d0e 0x1269b4aec676820540d39bc53e22a7cbacd2f855ff2a4a6087cb3dfe506404bc 0x9b1b94f5fcd19cbbc0c0aac5f41270864dd09ce034b0ad3b4e727498073cdcc (-0xe18bcb7fc71bae958217793cfee01312b003a2e263aafceb03fcde449758b51);
Adp 0x160ea2af73f16e0fc871a70f3e1f811e8a53eb1a9dde41e55f83b6d46c11971a 0x5717327207e4e09f677c013c9a76cb53f586755b8b642958024af96e7dedade 0x92d85cf6bc93e593f57366922bfe251919c34432483eb807f7109fead5f24c (-0xffbc63fc6f07d35debd66158b61e5213a8ce9ce3e7b957c0b41de19ece05cd6) 0xa0dc1d4fc251f3e68e91d90acf7f3f91e4502435b4fa929a9d0e5132f88ae53 0xd80a28742728a522611312797f7ba620e9aff40d79ed85620c36d1d8ecd4296;
Dbl 0x1c01dd687e547afce8b54cf5a5d2d551778fe980f17c61fcf8d5d6c3b5a3fc97 0x1802bf5c6ab42edede9aae6cb578eeed42c1698eaf91a6a3cdf63257f74d3c93 0x2b1d34640f4de720352871cad09d4e002427ad0ec9b3ca2a5c59d5bd078b83a2 (-0x12c3bd40f68863ba15a00a1f01124bb50fcad4d45bc6120173998679c112efc) 0x1035a2d0a3aeaef9f37ba2e6588301f00c7daf13b8c4e9e028457b047249742e (-0xabf059a445debb3d096064f6b0e691ea1088403dbd91222a715d0265cce5347);
Dbl 0x2afff5a01de9dbdadba6de71a929f3c1f9c6e5324a1b0a7d77ac9c642df1ed76 0xd7b32fe5dd580a0a90f49308fa7e22f0695443243f0bf21eba494c2d6b735fa 0x14bc33ac6ec66b32045693e0912f35341ae7cd15debf1b5d1f55c566e0cf0e89 0x28e13f43d3bd948fcf95a005fd7494a4228e983bc16d539c46623cfbe694617b 0x26356a59bdefb1f49855d08f29453d5ddb3eec44bb6fc268cb4ce1308c14f49c 0x95b338268887aa15e97d03bde6775a3e95c99f5d19a2a9b9ff589bd63fb194d;
Dbl 0x21c06e8daa1cdc5f3bf223aedb63a7d520e761f362223a8dbf8631baea668da 0x26608ec304943858641fb418ee040d388e3f14b857de7917acbe35decf361cd1 0x1516fe323d333549fcd37400e29a71f5c01cba2683c0c8e97cf321ad871c346e (-0x97592940ecd1662814c31deff6b871f1e1be96c3635a70f71c2d898bf0b1c28) 0x178a69f784267efcc074b50775c88ef23960293ceb7447c2429ee175277ba9 (-0x115d34a40221723ba72ca66b3a20eb7eb067d0bc916f148f8d72bc6c535540b);
Adm 0x26dc14c76241c6d5d2a7f47387aa9e963d68233f3640ab735f070054ab65cf87 0xd656198a4895dea5943bd3e6e39d1f4ce7a5e5c76612fba953b7bce17c14b72 0x3f7c42a464986266e8bb1fae49b2213637974c939a357cf2fb867f5343bdcf9 (-0x1ed155b53544672f9972ea33c6e4efd1b525570d8d4712a4ad77f8fc635708c0) 0x1f3486e128d719f4e84be99b055ab2d47bca7bd26a5f2ee7d6e0b2f27fd22a2b 0x140f77744e47b80412607d2528c249bffbad9faefdcf9bfc46918bfbd33062be;
Dbl 0x2b6d2fa38bdae61a43e939fd275b5da1bd06f3823e74fed6562942fbd7cac6e2 0x1fe716a279860d779cd8981cc065027f923fb1112fc6b1cc4dcc60ed0f825f8 0xc02b1b9294ca834d6df557e24a91987b5780bdf3fab4c164f472211ea9a6d18 (-0x400ebe7bc154de01bb472cfdf8f27fa4b0061bbdb55f45263fd34d46954c618) 0x26f87dac03b6ff9cb8c81b484336d9d5a6fb5f6793bb96d45cd72878502afc18 0xa3b6faf9d995a2d2fa6cb5e123dd89bc0ab3d9e9f57cd69dbea3c3c65dfc0c5;
Dbl 0x26200d5429d515598024bfe610e7878a494e590700cdaa4f6bd465b60019a277 0x151e37bcd860948a593b1d6583be7aef2304497f75e86b07a6670feba6b5fb56 0x15ece7625df7c298c7aa6e821c8947c8886e486f18a476a1839d648f301be90 0x12ada97f08c852b5715bfd5368f6e5e17372cf5e8a88db8b597709702cab3ff0 0x1e0965d6641d6531712659dadef6ebc4909e549e4de7d319fa8e5e835988cd1d (-0xf111b3c8cadebbcfa27d903b94ee5253fcbc70706bdce278b945bc493977bd6);
Adp 0x2ba38695d4dcf4db8bb856d565a10b77a0112173a52c31799acfb53f88bc8390 0x11878f4b08fdb2355c29db7efc1084f3b65e786759bc6c6bd028f9c68f440761 0x2f93eb73692f39442fd3730a01eee6134b7f0e6978d67ef1034c7175b2f0089d (-0x130b37edbc06606cd060ed4688ab860d89d47fad266213ab21307a05d26536ae) 0x275a41e08d28c25c98070dea72fe81ced9b38ceb86a83e0184c66799195ae378 0x33c6d63eacd6b81c98188c62f97909f54162cafe80a2276d3379e933e7ac6c5;
Dbl 0x2e6082cbba07dc3394c6ca4adbdfea89fd1f1d4f95b21e7fb8bf574f86f93b36 0x1df4e1725c025a9c626a1e27d2e1a5320605bda577720c7397db7f3f7600227c 0x2acfe886b86bdaf3b8ed222f1c0a3a73c099686cf3b71b9ff8eae7525d3f7d9a 0x4824dbdc4e55b141791fe5b93c7c8afbb08d18963ec575e26429a34deea0d0bf 0x2c7230dea3923ca7fac07ce80048d4e17db69c061e213164b16f3c120ad08baa (-0xbe8dd4d867bd1b89dcda6d2dcdccdeec5e9fa3d23d00abcef1600c162f7424f)].
Definition hSNARK1_1 : list stp := [
Dbl 0x16801b3c328958375ccf50fff9678ae775b03fb2d5f996e1f4c95edef220dd5 0x9e58ed649a5f28a86a1f7f6d4c3f5c3f66e77d543da8fbfd83c055fae292630 0x19f0f174a4b4c5ee5369cb041779c2452256dde27812cff2e4737a62976c21c4 (-0x352514b741594b8555e197c00ca4ce3124797d62a23d9656f6daae92bba0f8b4) 0xa763cc60aec25299dc6104940755e301c9b410cabaab7955c2eba86ee3be7 0x953bc6959bbf42451c6334cc5199ad8dd0b5a8e1a311f3f5ea14ff354fd032;
Dbl 0x2d91113829d084b83f00bac0a4b0f7d6dc5164fc0054a3cc7253c667c801a0ae 0x16a16ae35e33bc11b2cfaa11058b7de6668c1a2894d4e519d55ba5105fa85cb4 0x1bbd66eb7f88d25d130903c4ef83277edba12246a6bfccaa679141b082911748 0x2ac80cc55d8e1ee94d0eb4825a6fcae77362daa3983ebebb394c8faf63499110 0x2ae80d263288f574d609cd026d9a6dffb8d4dd3381df2d1d78d204bfb04a2150 (-0xbfd8bdfa75062a7a77783ddff61cdeb31a73e2d3d27691d35cd90de65c5d51c);
Adm 0x21f1bbd5436ab5c6a8438d35ec64160f48d75e3403588bf1aced2770304d61c1 0x19c2e7204167047148e9ae9601c3fa23c884245bc9e1a03e309ec8b3687e3b54 0x6ea177549e049616771e8f3e06be46fa16a9db2ac9b9d922277cee53c716418 (-0xfdfc5b0e86db4893ede35977166e2414a09c93282c3edf7e079d76b546ebc8f) 0x17cf620ab211d1086bc30a6e9843a74438dc3bcbe5d4e82da12abc40ea11c4c8 (-0x23232f3b03b24066822c51553a816267b1a5b2c5301a7436f94f594e8e77e00);
Dbl 0xae8014f6919e0274f0af2e3c37f022fb8f79c46508728d48adf96e03ea145b8 0x1ce7257b76631618ec3d3ca7ce6d66b5c01f2a2c7e500f3dee357328d9c4744b 0x6587155a14015641f19f2383dc17b16cb24a122c53027afad8d70dbd6cd8286 (-0x2606810fecd15d5c875ab276ce36206e5c2e959735f688661928091d6d016e50) 0x2753efb773d2719c696f438b64ed58a5dc2a913672ca0639d432e07c1ea7ecb (-0xb5417b05dc1b410fc006bdfba8fd47926e3f95ff7ef4701c9d2cae8541f6aa);
Dbl 0x2f32de11a7f1beb19c3bd7a238726cef7e4b057511b48d9f6084b8148815312e 0xed0cdfceed465e34cc44573646288e1ae736a78c0d67304c2c3ac689df8e011 0xff2e53deab21ba9c98cdf2c02a6b145d245b2f2ee1df1b3a142a0d93f8747f3 (-0x27690cf6d290746bd7c86a6ddf73f80591ba518882ec9309c34a63e18c0311a5) 0x2e08f58e41bf0dde485a0d730be02711640a79b86c86d28a02b9ebbe3b12c1fb 0xdbd6d066044765670463f1287dc6ce089bd6fec9c7f52f457dc8756e55b8bf5;
Adp 0xdf0f69f01dc1997240ae11aa2730a0f07a58173ddd834fa8f95b0fd6023fb6e 0x231ab1efbdbd293148a19010f6ec2895252ea120d7f06b17b31e027715e11545 0x24788e407825291ed1e4dd7c7bcff241d2019f2406b494198d07119c58ac3412 (-0x444ac8dae947f398e0792bb36f2508c01806b77916c9863c5c0bc685159f519) 0x4042ff3a3e94dd31c88b12d21c1c69d449e6bd30b5d4f263576423195f6052b (-0x5d8508e13cc2c1873475978533a343ae78f32300668a69c82697eecf044e33b);
Dbl 0x187c23cdafd85d01e1a55442b9d3dd9df943507ac411a87dadcebdc178132641 0x143a4758ed0d402929921b5173c9b4118e8d778c6d96e49504f6b98ee98c1670 0x194d4c3932fe0c8a59786fb828bdd9b03a41adc3c6bf73294dfa44f610268e5d (-0x277d3e052c2d644cd805ed59a0567344c5fc8e91c8344b53173cee35bca48da1) 0xc63814f5e02754861774401af22e201bd4d5959f9e686aa05bd9f797d9b0fc1 0x786f403246358f11d8c41bd224d913a9dfc4a6410b7405351d024fee5bdee2a;
Dbl 0x27a9c7188fae1fc9cc1bd8ffcb7a5d5b63d8c2bd40b6983c2e8078af497aa97b 0x3ffeabb5ad0a6782f9cdb9e45c4e8ab814da573fa2c5db5c652c055723fd9f2 0x11800e0549a76bae6353be5fbba0e2be8dd11597aa1974ceb3e828c997cf0b3a 0x101c673fddb9942f548c53891eed834eb92e3f8b57b9740f2f9dbe4b2c6e0fb2 0x20824cc8ed8f8df77fc403488c28cf77ab83c50609f8a1713c5323202b8afb01 0xd4d05d7357bf2e0318e662026d3d3fe98644b520123c9ebea7b95ff3ad5c0f5;
Adm 0x251997b19897c8cab3323671bdaab08b993d49b343ca1d1e47f56bd36c3f570 0x27e84163841b3c626db4f47cadaa73d3c997c06f5783635599ef090c350fd3b4 0x25f2c65e68295fd3b2de5a86974f88aa6c99321a071fcc5929128bfd3761050a (-0x310fe74258c07168b3a134f65fb09a1045d5b7edcfe9b7c484d54fb4c2bd2c) 0x1c71676dd945c6001775279df13c38c5e8298c8a2f790b5fa7d614c4edea5f (-0x1b8760ec0c4fb4dcdeb579a52b3589b25fdb156bbd43ac03348551b01b389bc);
Dbl 0x1c8cb1b293150c9fbd4b2a012cbea591ad0da1a02a577c3fab113368f90f6f01 0x2d68154d0a2d2987d513bfc2b5ba267ea06b8e89e697b1ac4cfa70196cff9495 0x54976a667e4a3dd8c27905f5a269413b3865708046b7ee25e23f5880dc18b55 (-0x35f44c74f0ff3eb214301e43b7ff37d8f936d6dd73bf4e3819e1eff620bc8384) 0x10d7e3bde1b2690e387c5e69f45e2aa68f2a9b1173419efe5a81673ebcc9bfdc (-0x33e927a2f378abb29b3e36d10ac7d9f202acf2b4273e41caf4a9205995d3dc0);
Dbl 0xa14b5738b9c9a320aba0fc41dc34a7eacf9995316b538a2e8f0afa10cd47829 0x137df2049e719cbcf6ea80b5a480700c9ccf0dfaac81578e76bc46343c16cd08 0x28fc7c2a0715b1bc2ef4481a243cc4d2e525702ff9fe9eba50f02ce5f9f38b46 (-0x7d9d1c53b7566c3f20e442466bb9226ff1793b38eba64ce4c1dd50106bfb7207) 0x2199bc191589a0aa68c984a79509e67b4a932155922a58087cf01954c649029 0x56602dbc141e229e26a53df2a6218de6fc98e6547a10b0fd35f2e9d1a3d2636;
Dbl 0xa19e34504d31f5136d97d99ee02acafc84811e1495fd8576e9d3b119fec6b3f 0xfb77c442f4d82db89d54c7f31ca8f8a005d502904b45c40f829644a4d20d561 0x76ce3f08f55cc908a2a85ae615b4404e5f118b67060767ab6b069df4cbefb72 (-0x671731a6c4213695938bb23716689c660508a61b568957a28cbf898b7311354) 0x21bc4b1c03171a49453f33071d123527dded12fe1c2b32e87ca878572552d70 0xc9bc339b16d0e211e9f9aa9ecd10479f6cd2fb4aa41c51a14f4fdeb1a25117;
Adm 0x7d529f33133011ee943d8b6beaf1cc7f64614574ebc9c509f8b416223c47cc 0xa6e386aaafdc48debc5e1022386e6c6ace9c87878489826c6cf1357b6af4dd0 0x25836d5350c6091707470961bbe2726754f2889552f293e912936307debaccf3 (-0x28b3d2b4718320f2f0c00e9202a17b4d407391d3360e2725eff2816497c094) 0x1448dfbcfe99190e6f77cf63015f3c08ea82e94f0b84773a16e48b53714b2 0xdb09e63984b4211fe4ec062b694183a6dd442bf34a33e606ce34082fab021;
Dbl 0x17bb8c9e8957d37f901ef4e021c2d48c25514468863656d7bc971e63af5916d7 0x8b318ba0a2f254211949d247cec79f067d455cd541bb981a59e724af3e04c7b 0x24220185d812807b7050b987ed4c2f2dd3d38f16bfcb034e5321b6a2d4797daf 0x1e0ce57bfcb21e18956ce6fc36c696125b561e5e375dcc399ac4b71228e73a86 0xba39bb1c8479b3fa3a45791873465c0d2233da8562038607b36a285ccdf5eda 0xd951ca049a87ad583ca809d1b6c247f3f62259b635183d50b20c92e50a4cb7;
Dbl 0x1dda5675ccc27bf681af2669823a2e82836679361947ae1669b1dc004e7a6e07 0x22269f0fa4e41e45e5ddf4e6f9d59b9fa76aa58dfd251704625103daa631eade 0x8f7dc58e7d02aff6b4a98ae6fc3c263aab934be27ef89de71a848d58820d2a5 0x27e3859529f977966ac075c28b6942c87bf2d20bf001bfba22a080469c6c1b01 0x126a8d8adbbeb2a52e3dd477d1d84bbc38bd8024f26ef4782c9696ffbace573b (-0xfb36c38aa10dcde290774eeca7d4ead986b4c4b607acf8cafc59a93b75e592f);
Dbl 0x1442c245686c8b476cc84a5337dee66479a11777716e64f1963f27564cd51172 0x28e5cc04c1464726c67c6a1deaec49c480d400e8bbac17ddd605d69cff226642 0x509bc2ede457a1b5d76ecb6c2a645284cd845d17b1f901a9159e3d63f226931 (-0x40caf1604c7401f91c0375844dbe48e05d52e1b2a099d7d587f512208d4882a8) 0x87b9a0a6acc4d3911053eb544a01d2b5dafbb6a27422152b44a29a4b8a51a0a (-0x2d3231614fe7020d2669497b414c9caa59c43ed9196e0297a7d1cd241ca11b2);
Dbl 0x150b05bc01631d37449a18ac375dcca7f6be692491ff0a5a18fd0c4c5861bb2d 0x2006739343c9a726e9879a9b948abd3d2bad01f984d4dd218285e5b54de6c8f9 0x1a7ec982b70141a8006171c47b30f4320a03a89b08e2414d6b81d6bc5d9ce663 (-0x634f838d960edadc2fdb679a17e6a540a80073c1edbeb9640ad72902556e289e) 0x92688514abfbe2219ff93f9c2c2788137f99ec72e2fc0567437de5d1a135234 0x3dbb047ca994ad2127738085bdd5e62df32565dcc89cc72a12426c2c4a34937;
Dbl 0x26e99335e96fe973cad007b35e14e37b3685b24860f0336d8919996c73a98d2d 0x2e5efb7e927ac4ebc8340144e9dfa02dbec413eaab0930e96b0473f953c36cd7 0x108df32b9176436ee0bb49a583109cfb97a98cffbc21a14ab844311ae456b66b (-0x14f8b7ff432b003755ad905f64800601f08cfc61d8c96cd10274e17a6af02693) 0x1f4a369c5ee97f93e427dded282b8a1aa8b659aacc7a2dec80e933db3f249be0 (-0xb891f7bf07840b502ab53394ba8df42f2f70dfc4bd1ec6722577d5461e4628c);
Adp 0x6dc90c5a5be3eeb145e8f7c4101d2954e9e25b9cd6c4b3cb7805f660ac2c0de 0x17767667b3a84605e8ce962a872562b501357953b8604332e887a2f4bcbf0336 0x922c9f42a9b2aadb825d8ffc92556323e4e27004b72979407e44153c4d668c4 (-0x6933686818e0f140575b7f4b1dedb1762fb5d608e36377f67f172872b5744fd) 0xf9113c8e3fbc8f9a915debaaf3e43297c793110259de40d391244fad184eda 0x33f8b169b6870b7675decff12f2fe412e86cafb97f7357d6ca78c5202c4cd99;
Dbl 0x1ee719cbfebcd3259f5a49d3c5099858aad98edf372816c163affc6054973019 0x164cd01801ab11312ac93ed5e1b4514c25a863812dd6de902fb7f730f3f93cb5 0x142de7bbef6e21a545154097a5936611b65523a65ba9f8a70611268d1ef690ce (-0x16759d532a723b22580da6d8d065cde8534dc6cac20c9fcc29dda5776f0e2afc) 0x13bbfbafa07b5e92b07f9655844c65ce0e96b83b8af9b9945d7c4504ce634e30 0xbe13cce9b752964369e510d1816e47f4462d8db98e8d8ce17c51a5e2746641;
Dbl 0x6c143c5e6a1e24183de98f17fb81e13d8975f2befd0997ec872adef94fefac7 0x233a93ec978652ca99049ff297993f1829e3ca917ce6549986ad0755c3e29fd 0x18aa11f266d430ef8402a3769728ecfdaefa6cb6ca1fce2430e5b05a1f052134 (-0x19320cd56275204b7c090df2d331811bd9475b0b07c4de119a33748626bd8aa1) 0xf162aacaefacb48cbc7bce376f75e5d1e1c1e25be2571238fa45ffce8aff66 0x2ce343023ca5b3759288d4f5c5fe764115f6a2771dd523be9bea97982cf47ca;
Adp 0x12792a14b1acca23192e125d611f55f4a0286cc3b90e32d3de4cf8158d030d8b 0xc4730106c2a6527e4641d2057ff25e4472ab7d327c028471f852b75188897a5 0x6423866d813ffb3348810a9f376b3d2a767a7ffce046efb47fb3ee8b54e1e8a (-0xd72ca3ab184feef6213087aa242019d1a27c08a394c983b57a1c7a863add4e) 0x70d54c7535f8ec597f3f349d5fcb84a92fb7cfa86d5620abbe8a69b88f86c7a (-0x3d8b829850445a1c2404fe183a4f666eb7d29eeee049731fa4861eb38e8015a);
Dbl 0x1d7b3235387f80a18d19b42ef1af620c5010ba88c5d68dc6f86358660e4bc906 0x27e2ffc9d239b3e76458358440e93de4feff7a4cfc542b23f388512fb0645747 0x14f2bf09964335e6e0c27258f5ea35d296743f279c61ed8d2e19a83b1c792b02 (-0x1b8482367aee3459f90aedf68d5bcbe2133a5bb0a7b407ee27f2270b3e15a55) 0x11f5e5e2fecc7f2f5ac3ddad1b714c4fb56d2d75e650840b6196f33746a34b55 (-0x10d1d8f94479a250a0784e05457547a715aa521a321a997a7932b87f21dc87e8);
Dbl 0x135ad99ffbd7e76f30376e8fa0db3b38d1127a38968f882e5e272f947a6526e6 0x284cdd64f7357c2b65102d04b4614bec6e60cdd3f6e57d357e1d869e4eeb123e 0x20375adfbf567f8e98ed8596ebeef224c11a8404b37d893689a95488c97bdaf5 (-0x51df4e52c32731761b7be47b08aa4b5230763d8e4ec571ee1c8817684b2f842d) 0x7bdc045d3c482fe5155ee496a825c4736cb7c17649d9e436a8dc4e006d68768 (-0x2a579bd92cd1f0ebc00e199158cc92e62d35c19956df520f10e4680a591397);
Adm 0x2a58f75b55e85667c5ce4f3c707184d4687b941b2127935d55b7bb678477b65b 0x1eaf194a99062020cc86913e0eb7b7a60f1606f9e5ece1adcf663fae0cb6ac91 0x2f237de4c78fda25b24736da17f309f655092d1fa34bc2dc4347527b1ea0fab6 (-0x23444126131b0130550ddb1e09416b167c4d9acc6eb8ca256349181aca998788) 0x250ee4d779ebd054ef1b9f8bc94db2bb3cce8954e123a8fae32ec754a6374eaf 0x86a488a16b5f09c755b15e4a1b05d1d816c87fc1404f03ea3032c1460b9e68c;
Dbl 0x8df6f9e9074dc9b4821f9f4319deee252ff56908a024accf49963f4284d7ffa 0x2d00c18ebfd27c6a67dfabe2809cb7c4a4948a4d64c26f6e0bab59e1f5c7bd40 0xa56e317021ecdf40baa2651a6f4a4b500a1a65fe71362515420370fa319ed70 (-0x2914e80fc809e71c6b7078535d7cbbc7fc5143a00de06e40c42343f40278733d) 0x1a079a2433e0bfad44347eb58f02f273bad0e75a8332e41a2a019eabf28e12e (-0x2a01c300af1e7f20fece1a17b485b54618be4acbb100db1ac1c1c1bc8de3194);
Dbl 0x29bc6d3376b3e4f403abdcae00f7fb5abccd2ba8ff6d54c8014474987c2d4d5b 0x5e2b0545325e8845898bb6746ea04669c5acbeb4f4f2e2fe36441f3b5b26d30 0x2ea5e44600027fd630c68954fc61d5c22bc7aea2feffdb1d2318c86c349df5bc (-0x6bb8355f7a5d71ac0549ec98611427e5ccf84679226a6dfcbf0ff40039ed1aa0) 0x23fee5b2bbce7c5ecef16a877974030068df2e26ba7d6b3246275a46302fa48f 0x21bcbd20cdeaceb0d8d0e65cf496d555289d3309336b6b07ea5b1ef20eda3b5c;
Dbl 0x25f52c3ba81ddc7e1fac3cf0eb318176cb77d2e944925f5c15db595f86cf6e46 0x66e5b700dfa062649f64bc4445197e3a216dbfdf70cfdfae87e018437da2f79 0x4e988d26310bbea4f207a560e5cdf4f5723fbcc0adb6ba4f3410e8514016335 0x470849684b73465a7c47f0304e01ed3c990be5094484d7ae6cfdb1e893bab1b0 0x1dc5fb5b0a42c76b774570fc8231bca87d7aabf99f357475163d7b97e4f69ddd (-0x6d8dafe2749e88940d4a33d8676af99c5aac14aceeb77c70aa05120f87a961);
Adp 0x19fc3410a8f1049291b8c96a3621cc7666c317bd7a83c32c4059ed1c52267d8d 0x7472d3f761e3a11b2067b81f6ed6f7a8bab6c73eca891d370ca34fb73bcaee8 0x2767870fe39d94b82bf14ba836a60da5ace06c64028c7e8c3532cc3284e021e4 (-0x3740d3921b5503597cf146a3845dfbd63b4e5b47f42e693d37518e0f9c65573) 0xdf4101a0c814dda495446ed12c44b2abb1b252e21cc637ee5d3aa114d4dbc01 (-0x746d32ee24391da70a33790550cfd1e3053f1204ec96e507e0e19bb05883e4);
Dbl 0x268f1f7d3a6a58f68c2ebeb7c3f07afbdf1ec6035f03f1cdbe1b0b22e1857206 0x213fed07dde3385bb4cf85c5de672ffd1056fec52012d9d96684d84da5fade88 0x1848c40fa2538c23018c8f4788389fc45d5b133e596b611a49b976decd52a12e 0x3b83069bd84bd811735c22725a025c8520b8631cfa7e288133d9e694e495a890 0x1eb9682237a5191e2299cf9326c2302dc6b75620ad06587b91cd87a3d4d03bd4 (-0x14b1c9b7bc8835060a3cdfc16ca383686a8a99702eb6469ad0057d0160ec399e);
Dbl 0x109e284a33747db30a621365ecf8739fb36add5d6e295169dcc349ba8548b595 0x50e350891e3c5d9945458a8a353518598985050210b4b64383ad425af2c4018 0xaa77223121a01f81b984824b2052c6f56756f5ab9d0493ac88b9cf35607c7a4 (-0x33dbc802a7e15c83b7890fd451baf41ecbfeded5577b5a0fa2eea39fcaa2132c) 0x5b4e1d0ccf575f4ab5f4c91520728e4b7d98d059586fcb1a88e0c668750bc67 0x9ae92791a3562e10b74bcc487ed2870d6bfeb16f19af0447c14a024aa1985b2;
Adm 0x1095120dc7ad73292706c053806bdfaeabf5f6ba067524a90c0c0fc4f550f7d5 0x6d4e3c398a233ecd52d8c38daec14a7fa30bf7d87b3ac4cd82807011f3b1bb 0x2725878c5b1155c9a103a243131449a065ad55738ad982c2d43f704612bdce86 (-0x1bb7b97f7d3772f2b52b08440831c2bb64c46a68f96b8b96da10efd7081ca1b) 0x5aea5dbb0cddc00e5f48c82caf467065e74256809e3a141328be2a13d164df3 0x19606fd661fb5154acc0860b5d200e96a12c0c95ba3a6634f103306f9b34591].
Definition hSNARK1_2 : list stp := [
Dbl 0x1f5c252e0c6d29fb807b56464c2b3ff32510ab753ea7e769e049f6d8335e46e4 0x4d441b8b40a032a0b52c5190828637cbd0c948f9d83a018a4c3b771ea58830 0x21117d1578a8bd1003570452c8e505a898ff708c566a061f414b9a9005cf38ad 0x32b9dac1eadb839d581ab07e58df2a3d87d5b3b02903d2538603acf4f010dc73 0x145293aa51c885e77e6b8016f7b54212d7dc0ab17e79803345eb6a79841d4246 0x14c353241a6d07b011c22db1f4a1bd485ee7473d44e47d067a85b076ddb91f;
Dbl 0x2904d764ad868a63c312128d5cfac63b2d449bb1e010bc4001ff8423cf2b778 0x177f9c2c48b777c0b330364950e5a109c7581ff9850c147d192af71ed94c46ee 0xd730a5883765b8a9dcd15e76e911785b3d73248dc12b30a75d8b540abbf6916 0x37f843f9e3d90ca5a721206bc5700bc511be21f2812853812e035d18f859150 0x22c4f2a6e2e77aaf8b7325f0f6affce9b55f30145f79e766a1285131fcf87e (-0x13a99611d7b6ce6d7f3f4ea646588d8c21c870b06ff3eef7535a521631d3a15);
Adp 0x17b287e59f438bdc4b42cf5a2e8534fb9f9b5fad4db8d397775298d69139a11c 0x1e143cb9c98129fe2f22af0ea284f15382ad59bbe75232ec491724e3bee064f5 0x217ea5c180406e85652d6239a48a33b67d98c41d203b10a8fbcc02b5141b648f (-0xb81d54a230526ff41460a5e204de2e6cbd8a1e7b58f8427e3383f62e49ef768) 0xb9ac4dc10072cdb128f7f56900383ab1521da319a902067dea7c166c1a65d74 (-0x338f5750a7bc8c2bc71b248107eb5ffb6524be2d5b5429c14ff626ad45047cf);
Dbl 0x1dbfb1889fcb8d70cf3aa88c606610534b771910aab8af44358f8136232b040d 0x12ecd235755e35a28298f925df137b8ea01508824b4517b42fc4eb3f69ae5bf6 0x53b6b6648a18cc8819a22f83d92155578506647cf9e092e69e7397930d56afd (-0xee8466bed000b0ad88eaa504aaae0aa02acead5e28ad274225b45e675406e73) 0x1249bc901825f031b40f533c82b0195fa67f68f8d17c79ac4fd93b08b55b876f 0x6db5ce7cbf1fa9e3a3acf9c56ddb62ecc63b697b434a41f64f9e736df32cae1;
Dbl 0x7d0e4de599e89a0bc21bc4d2bd7832bce267b1e16c133d72a651cf3d0618c88 0x16c1dcf5078f49c49c69fa4ee4ebc2c30276f1ce7813c91ce7feafcf4991338b 0x2330a185aec2392a21e3a61e27677c6225ff52aaecebefafc1470eed5f19669b (-0x148377f5fdd5685d631e95d3ff214f5be9fc849f9dffe61c94dd2a1752a7cec4) 0x1432c8266faf38de8a57d415c6f59e2304bbdbafd4886e1bce3be319d99dd6f (-0x9e73e674a3dc339db87ae6004ec5d33028074c55ec7ad7dac4763b2e24e540);
Dbl 0x2cf5a01d89d359a2ae7b4beaef0192270182845d1d56c4427dcaaeedac96b77d 0xb96656b328c5ceafe6295a1830698008a8218344c792ac4e6a02d4849ce87ae 0xa7ec0644b4fc57b4ace95fe3912c8a1e3d938eaba6acbb438beda972dbec2a9 0x21481f74158145a0bc452ba89ef2d636ee0fcf72895ecc3aa87267567d23a0f5 0x29c5448cbde715d968c9310533c7cf3dc7bcf222d88b3aa2abf364992c320813 0xa60a66264a651841c656f07711208546aed7728b3dbf69e9d2103c5394b3cb3;
Dbl 0x1be7c36735c142edeed61917515c5e4373acb9307826dc2f53106b72b98150f2 0x2acec64f3ff33d5a79e6439b986f3ab29b39bf5f5f89f0d3d572392145c34c81 0xa5b4f305f1df4960908062c9744269f6000b1c7e383b6bb46b1691f7cc0c3ca 0x3c7ba74b18c2c3f41c6befd81ce03520c0a6f5b224344534302474a928dfd88 0x10177a5474ae0b96a0c8cd56be730cf9fef7887111a812af12f892bef5862761 (-0x1200d5c0f81eacb85a8a9e5fcde22a9e5be7a82fb6cc6b065fa321ed7e933b4f);
Dbl 0x2a930c420be9d7752987279c1f1505f995771c2c31e9eab166989a2c7a815572 0x278a4d433a55f2cb0810143ee329f6d7635d48072359646422a45066e8817346 0x2c217a4ba655ce3e3a0d6299711c6ce143513f72529d7d73c7218ade97be0b7e (-0x5f6170aaf44bedf76ae2175d86d3a085f1ce9bb2c21071a68c4d45ff4a28c18d) 0x2574d201ae92b98157aac7ced2add174147b3c5ed5d8bda8565f847a35c51fa4 0x2dfea975d1cdc411ffef76beb4eed708ad3163634baebe236a0356e6f132312;
Dbl 0x1237ec0a92764e29f1e2ad621601b8cbf79d5560527ead139762d2040107d2d8 0x136833e662a3f8598f3e88f3cac64a1d7aa4ece91eaf9dfd05118fd48114eca9 0x248b3ec4d81ef8b5876787824ead1cea00e8781ce119cb938fc2fe58fa9e592b (-0x3fb1d9b15cbc96bd96bd417c7a49321c8ee0e8bdfe5aa0edd4db03acc774a6d4) 0x6dbdcecc5845cf9e626d2b1cce4fbb8ccc0a68a1ec17e37c8daec8a6755de1d 0x794675c00da169712cf8038152f76592d9777a044813a1974617bd6ac394339;
Dbl 0x15e26273249766945affbd32c2dd606877ea793e57a60d0a43ed85f8739bcca1 0x29e93343ca6076de9a610f2bfb7f12a378feb2fbbe4c056246f6eef7c376adf4 0x2da0b0c07b0409a033d48651787e5efa7fb270b614f6c4c36af1518d7cc5bdc9 0x9b423027b95b1806cb1b342edb78be47270993fd6a5129bd071c9c48d70a105 0x9e59364ca5e79ba3dc3f849570785665565ad9fe9051b8094b2d9e659a8cbad (-0xa2d4e38f3a454c4b5fb25b3831be59d0b1807d1246514cc57f74da7ead8af69);
Dbl 0x1571e7c652b64f803cd992ba6229230a3941a5fe9e4c4b929a7638806c22f791 0xf94461ec566037f6a0af0784d459866cd439026e5eb8322a6a62366991a9c38 0x361dae585d64ea897b0df0e496edcc507d29a9cc4995020a328ddd9da1bde6b (-0x4474391293ca2c574c63d29bbeca11827fab0ee88463042e1957580b53e1e112) 0x980dd1b0efecef500c170421f5101ea92a797d8dfcaba7e57beb917615f3477 0xbab41a3ad2558cf72cd082b838c5dcabd8ceca112905e7868e815e2e0121678;
Adp 0x2018fc262cd5298575d3796c36a34bcaf4f2b2b440e3f8ef55a865ea082fb1d9 0xbb8206cc6373661fea600032cdb23e3b0e26bc414693afa0769e8a171102c8 0x131a0a11eb0ef9117c0ad48f2e670b3e17270477259f95c0a265a55a132b22fe (-0xa555d533186080ce8f3a8b2c84c45e19fb352d37c303f93f6b6889ccd0a561a) 0x154a3524a261712e8624b96675c2424e9db41caa99f1c39606712e550c1e3590 0x9d8fe45f07f5af088529cd8bf2668d02868b1fbd9ab2926fcd5c287d99214c1;
Dbl 0x1f9fa64eefcf029fb9e8694bec446ce594875e2f64f066da77ed299ee5c2495f 0x2a53b6cf2b76d5be6f86d5bd27f87d2378b67aa1629261076daf2ac1e0ac58a7 0x2098ea12fca034a1ccd4b0b5df4483eb5e3ce89e7dc37ac89f53b15cb267493c 0x18eeae6e5d534b4495fecac3109bba221d675cba7257882ab8628e62db58b41c 0x14aa6fa1af9b46e9d6e750bdeb299843aa5b151fbac95609ef87a3349a7111a6 (-0x1b2e8266bae89c8669ecd0e7b3303c41f9bd6b5889b3f0bab639ae88206b88ad);
Dbl 0x1510801c397503143ba34d09a7a21362685724d9e5e9a5b658a87edfa0160d31 0x183e3aff7d3e61ad88faeb897704d3fd391326bfceb923b490d5c787889bdbad 0x2168fbb589bfbe8ed0fa49699ac4837975d8b94359cd0ffa497e74effe5acb79 (-0x52b03417d062b44db7d57fde6880bb10e08326b446b473353645463f825b1ccd) 0x92b4c939939e7268c3c29eb7c5969e808c9dc6d0b8cf82ff64bdcc00ac6316a 0x7df2a776e5a02e9f5ae80c5e6d3579026f695393f4118eed11a915992454c33;
Adp 0x404c72b21c90840a957499653c28085d4f2776627ade19e07894002f80d0c51 0x278712b937598417863daf8104ff51ab420bf952408ea7018258ce2904eafcda 0xd468d7eeda8eb16cf97b6e408d23a77d53828f4860269011dd14e9af51d4556 (-0x20364569ecad3f00a4c8438d1e8e2feba0f3667c60ed0b753b0843ab26550e3) 0x556f231d03fafcf28a0429a93201f34576e6e282ce236672bf105ec3e7269f (-0x144f06fdfe4b364cd542aadc705cda4803af0aefac1e4dda157f50bdabb4994);
Dbl 0x17879a7b61a17c327d14a24949623da0393bc6202eb3a8e355e66a65d1478f71 0x1204303c7fea2c0920dbbc488c64ede65dbae20146cf59982887f30a1c20c69 0x118df95c4b95b3e8c51e1c443a8e203925403ad401541be25dc505166340bf69 (-0x53f38bbca7a14b66aa153ac7a67e929f21bbafbf2b430c6ce85e3b012af97500) 0xb70dff27353275f5159f40d6e833c52abcce3635881e22816d511ad7dab9a1c 0x12ac109f6c34e28a16a04ca2bb4e936162c8887159db6a01e15594bc95a8abce;
Dbl 0x4ce96142a13a74d4549dc4a88a1a52d15bf441a4220156a05855f16b2981b74 0x261dcaa02ed0ad50b46d2218c9877fe368304c1577c028f75cccb7f7a0016f41 0x1a6233f94357c0993bbe26583dbd0d902132f69447e067c00418f8cf78a38599 0x368b0d6d2b369c77886f41c8f33faa2436d3d272b622ec0ee29d077bb2012e3 0x7a3d5b189ea08ab29d8f1419338d3501e1e6bf1d575ca3c945bf8d97d6221b (-0x3aca6a8f4df651367c0c4bcbf00f48aa0af293f5f33825b1518b7a3e8169b0e);
Adp 0x1e612182f7409ec97d153181947f43b99fb407c1b8a5ad8950866d434a684c54 0x1803bf95dea50abb6a0060cf1b6a904fc6dfa5d109650d9c66365aff06ece1e7 0x1372ecf3766273a80667b609d3dfe6e397ca1d13453d8298bfa6f7ac30559c96 (-0x17edbf0b1ec577ff0c5a421fbd9a72e80ccc36292f8dfbd116dccb1c0516d9cf) 0x131253c1534017656a2c2859aedc89042fb9f97d87465653f542726d48a9f9e1 0x8da501657a9a24c7f75d1714d86a7c123b10d9a730d0f2361b59612be1b365f;
Dbl 0x387bb97d0c50ccb8a835f3a3ed7365a057f165287f2787ee20629df7c108a96 0x23dd9bec44649677b1999c97674b7d2e5e3d1ba88bba6fda58fd6da4e1c57e0f 0x1c7e3cf4543d6ba076b37f1bd79cbd75086db764e4934657a3c8d24c61588187 (-0x20ea1b5b1eb6c108842e88a96b7f970a3d164ac38005ae7150bcd55e14dff99d) 0x41ed7fd878f7fa217d89df8d76ffa02b977f4346458a9e68b62137e7e50941 (-0xdd52521cc802905b04cdee1904586b0266b2f8ba945f732a1da39a1c7d188b);
Dbl 0x13d0048871eedae06c3560a9c139cd7ed19941be2254885796ca2f98f0fb6a 0xfa742fe9fe99eb2d0f3f775f928265c24eb30693ace4436dda02cf1e5f06d66 0xe2ae5da051023f666262ac878434bbdb9453ad86bb242cc62a28e386890c4d2 (-0x4fa78d6c6596fe13a239f12bdb7a94fa84e47ebeea01e3e3454e02f0ae7797f1) 0x81c9599c667dcb2c56ecef2280b2d185aa2bf79da2b17ec6ceea9171ea0 0x8467aec50a4283d78bf52812cd73587363c7cef40539091a08eeae75c84d7;
Dbl 0x1ad526c6a54058996d94ee70c87db6adc582b0263714f3523d083339c2741f84 0xb620dd10fe4616900e87eb87145ac47086ed79319fae1cff20feaf84b62f182 0x309eb133a299fbed7b004d64bf137927ff669d0a3d51f3b5809f3ccf6f0f1de 0x856e4dbcf2d6cd141812ad566cc8d7d15bd7d7856dc49af1fe686fbfff463c 0xee0da7208f33cda05f1c510d377eec7ac0df02108b6ab6c03f9c607e95b2b2e 0x25e2b4ede5d81891c67b6474411fda316d851767e531cfef0842eec5d9af220;
Adm 0x254f800127f541922f88d09722a30c3abe04c8084c4a234619c62bc6536346c1 0x29cc2e37a2a5d8dfd27c3cd56f4c20b190261ea5a5bb3cd2565039f698366207 0x249d39710e2d91a245d390b7b5b8ad601d765e995da627cd6778b94ad44ce867 (-0x8c6c34977b9c154e4c2baa3ef318e72053956a688ea53f4a52817a071c0b317) 0x1cc44bb6e58808cde4321d0834147b09e915ae1028b4e5f2fdda22126a2565d1 (-0x17732d242258e1fcfd1f34995a9c26775f128828628f05f7a4bb23f832c2ec26);
Dbl 0x1223101c4aaae50db202a023ee3aa297c89cd986414c050f1cebe29cd2dbb694 0x7903b1e0e8b2ecb924989f1bc8c79a032cbd89c168dd329cdc8efdcd08bb191 0x1183fedb00a81d3dcf6996a9c1a65dc277b95599b97f67eabe374fff73c4559a (-0x50dc37ea739e38f4ac8715c9adc1a8bb9f0c960c5478b2938a189a1c09087c2d) 0x6cc312f843ba07e55f20c03d3aac36119348f0a0d7d3edc15eec8d8419f0507 0xcd4acfcfb543d1a24967ac406aa67d74a7e3096569f253a601c029f18f5a391;
Dbl 0x2160ae7a77ed4e047da900f1ae78efbb2dedfbd5fc9987b83cb90ac4636be8d2 0x151b79f0e86704034747baa6f69f9f65cd26f1e903410312bff992b4d8f36741 0x10a798b0a0e80d005a350cf6a25404db938675ac76e8fe8479bb1271eb10eb24 0x149db0f958a5ee2d64cf0a56a707f6a4ded27ad54717637b7b9f97e78ee07813 0x170596b54bc809aa0425827160dae48f4147c4b7d1ea093b352fbacc458c7b97 (-0x9577d603333d6aabe1a1a7c13c60570fa7c1cc0c81b6becb3ed7334d0bbb2f2);
Dbl 0x24601888fbc51b48d172ee785c178b651742e283624a78fe4cca37d447dd76f4 0x12273aae7cebb02afa8114cd0f6b6e95dcc89c96ee56c4cc65a23acde8994e06 0x1bb41c4c570b915fd4bfc26611d69165197d6e3398cb29eac5c6c4c5b99a8475 (-0x294d5df99d6bd69126d4bb7934914247cba34fcd84aee009ad1f0a3f79a9f85) 0x1b57c1ac22c2d8279c338b8f6475f60807e354a2b68948d0b879498916bf47b8 0x2387587a3dd5ccf6de26b4794f807751cc812ac509b07a2e530e1b7a07261c5;
Adm 0x2167a15b82d6aa5813037e3bbf9ca06f4dd44f1a691c78da1a32ee11cd58f599 0x279f02bd00a2273ce2663dc6d01e54a2814b2509703c79651c825ac6a30bf870 0xc91d0aaa619342f9b23e769cff3030e7848055203b41a69eb51349857317fd3 (-0xc87f9c8bc7ce97d8d0b14c150f893b7fb6c8d9dcb638baa2f3839faaa7f594a) 0x170f2da032f01f316451aea16020b0d91014d702fe0d3c7ce81c5abd7bd16e36 (-0xed1bae99d977f2924c888210c261ecabd58a99143da21b8a8db8119820abc4e);
Dbl 0xb610e00597c96c1079176489bb7378a5c49024685c120b102e1efb6bea36d25 0x120cfaadc2927e79221070da34428ac7873ba9ab63f905edb738af214d1cb9d9 0x2b321e0bf681ba00ef0ae78a23207438c77c1008439826da5013f0bcf60d166a (-0x5b68ab322574bf30dd3fd77ee2a318c120b557c18d111219822d4397580bb6ee) 0x2acfde2fc5128606079e23725e4eacc66d029709a2574f30d0b56c51aff0e60 0x5127b1e86e69b4d2fb837f0ba6c55d578330ccaf7fe9208f4f1e9d7b57aedba;
Dbl 0x1e1ac59502c903441e65e9b29d57e7ef8cae98bf55e2b3725a377cd1b58b246a 0x2131bede48a5a5f0e46bcca99b38351c9857361a15ea636c68e4b18f8a4c8357 0x1424e81cc7d0b54046c571950e8e6305403c37d33ed29826d2df0478983cb8e8 0x218b7cd1c421481f62a82596e8d577b565e165518e6c3411ccb8cb0d1d1e64e3 0x12ba62fee1267b1e29129debc70704d4ad341c234641a14ed20f9278eb96b5cd (-0x96bbd046dd35a5b7d83841537d3f3e945e6db5e59fedf00b0dad14ce136e592);
Dbl 0x1e4f85c08fb05978e54a2c6270592522f79527c3996b14a788a7b174dd063287 0x2fea7c927621e26e0ed6076df4ffbdb5ac63e53485c63fad94ac5fee0787a66f 0x9d99014513203ead22770d2c957b4a9a06809731f545e046ac4cea2a6b2d4fa (-0x2b12e9a42573cbe46b871536e8664a10d832090c637f296dee3550e9a30e7365) 0x12fc3e666c8f615f48ec2656b28fd6f58965024aac78492bdd7368af7284334c (-0x938955a9b32fa1ef23e069f04409373cda952f1f6f265a82949b8a6e6fa2126);
Dbl 0x979894e03205744b1603e68c1a98a80e4c94e2d008e0ff2d495d3681c41819 0x68cb95e882e0508249f2a9e7bb1895daa64dc668e0e268eb28af9ea4e8d3589 0x2ba180f56a7fdc38245ccb9bd5948070045a3938d5a2695df296115bdf75f511 (-0x8e17e196f57f500a32e424ddd8b19bd7d3d06a291beded4e9583ef8419a65b79) 0x1dae6cf5b971374ba3b753c13d9c91617c52b075f38f292825518f3a66ca6 0x819652548b5057bcdc1650cb67b4a1782b27c9fcc1ea185bc2debe6a4239bd;
Dbl 0x195c5802e045cb7aef280e15a2c84df17a71e166d93733ad8fe39d0f5bbe7d94 0x2f76ac2bbfd4ce3c092fdcdecd057259e21404b1f59f1104dcf9518f952a38fe 0x1ce8b0bd1e2e66ec4dec6348b0268db8ff38d92f61ed27693ea8612373694455 0x2b1263fd86967b572bac5fb708e61950e2978ca654dd767dbb106ac3b897dd23 0xd4a71d9b2f9e77cf186b79118f2df507cb9abf891bdc700a84b7a4e5bf7ba80 (-0x157115e8392121769813e1ab4096347caed7f56bb9790503d54ca74863bef2a6);
Adp 0x1915e3020ad3da0547c24260c6190f5193dd2a8d1835e6a4ad8f779d3a8496ae 0x962ba09c26825836ced77ec4b19cc78d799afeaa6af3db744146a6a97d606e6 0x2b6f54efbc0f5d31a33c2c2270072a78fd14a309b9813730ce100704f1291444 (-0x189ab38e55c5586890bfeb773c2c10c8bbe8d9990fafda468d9f1dc9bc65c2c5) 0xd00ff1e0cc8a732f0c2761c0b781f432a16a7bb404cb0f2bb9a9948e2570229 0x13bd2b398eab4b675d263e78904ff96f5142d71ea79e26af5522e8790b347e11].
Definition hSNARK1_3 : list stp := [
Dbl 0x1f278a36a1a78529848782949af9aef8022a17ef838e20d96df589f656b640c1 0x1219fde300a30c8428be2cdb9626dfc30393955f6567d60f9c19dc84e6e7e022 0x7b39ea2e1bc516f30a0f4d83b6678c0d1a82d5f89f82be70097762ff90d14c5 0x32771fa1648b62f7122106a7e046f83d567e8d5f30aab9880561ecb7bb9e3e84 0x140e9e86b1da45fe26f116763e939028370d223dfac55df7cfd5bf36c5b81d55 (-0x59c7aa6577a274eb0f508088f30b44ddc66a98ec216b2bf8c4399429ab14513);
Dbl 0x2a6a13f925fd12d91e07f8a654852b677b2788feca31a4f3979e58b7b2c5d60c 0x2ffecc6e0801e3fdf70f059c18a4060587e07ca9ea1cee0f8490d48ca3345115 0x277ea1a7c7714c988ce815a23669f15bf04ed31daa8682a858a4235f94f7c090 (-0x6d008eb1c0669518eef8ba34c48f78f1486d21fe6c4f565e1d1200ec8d8824c) 0x252cddd1967756d6da3ac62f882b0cf7499a70c799336bcd0683f33b0fb82691 (-0x1a33844c204c9cad0966783ca7fc906d7709c2fa7b09ea410b4f5266b614bfff);
Adp 0x4b258b07efba57d9e516f398d9caa5ea94169478fa74cc864101cb6976976eb 0x210301ad44cd6e3f5b5dfec6d0775a4bb06239c1af0a5df46bcd842caf914858 0x21a5df53132237b9167b07f52c472eaa061d3990a2fb1e1046804e620a69ed94 (-0x4a87e9e2228cd79b91b61de0cbf676928940f918da64d8813cdade33c0ce3c2) 0x74b1947e2ab625a4a7b548ca706f823f9280adccd81a30f4192d102e1ce4dd 0x17448582975e33563b26d7793e4dfc095a0140e1987a5285d863067a9d2014d;
Dbl 0x112b81a89b1c57c0e16c4c90057f8d5409d5a2a63160973e841b331e8bd799a3 0x17fb78775403a8d098da16c8b11f8594bd7bb03c3304ef355b0586aba6f5aa59 0x18d74129f559e0728deeae52c07ef370af8105a9d633e82eaa81774668c3dd8a (-0x2baea1c868dac840164b6924404bbcf9558646557148d6491a0c0f619bef5978) 0x61792df8fddeaf9abd2a633ab603dda25a473dbec300b5be299e56102584740 0x33428812eb81d22e5c6238b88b67bec287b70c03b17d5c9c2a6f3fccbe42449;
Dbl 0x9c5c687f1f3889e11dc89016d0c8d0a5527c09d63b2fee40825e8d30f6dc141 0x2edee0a2dbfabc305053e5c8852f3bc828bfb688ef9e3ddbe43ef9dff790200a 0x2dd7fff2def9ee911477b2673edb7c8e0f175151bbe85318bc5f7674e0301791 (-0x199f727c1f0726b0dc7a30ec679caa002ae9c8eee8f887642159a0e5040238c9) 0x1f9399224910d200f2e5f90e075f73dc04e2e91768ef0b9175a0d49dc416293 (-0x49f497251f70ea82b7f5cf647b1c2ac462a824327beb43c8c6f6fd052d9cd94);
Dbl 0xc20952c118eb9187ccf1c8d33fa608ebef27f0a2334b99e0ab6c536289d2f64 0x2996df09039564a449133837afb21ef03d69d60ac36c1df5ffe0354e3e9bc9a 0x2e3c465110e6c8b2787abcaf325fb8dfd40983129b2fe97511cf3cc2c30ee3bb (-0x7136d96c26d1ea9edafd6f135b3fa543b8a0d3a071e1d0749b81c6dd122538fc) 0x30a06d8e8b38337c3ea42d162d4fdccadf1bb8a8568317f276834861cb3f38e 0xb183a9d394d3b327393778e2fa719ada6a225804bc3885ea1ee0f74d66419ec;
Dbl 0x29c370ecda430fbf5cb240ac975f5b6716f3523eccbd169ddf2d12df6eb22f2a 0x403805ea3d8a32cadffd699fcb9aac47f87e0b1b60e7b9ede0b7cee86c37adc 0x2017d738cb627666353e703a2f8cef4384a83ea819b0c140736134579f3285e1 0x4f62d104ff67b0116d9315911694760e0d0d9c7302463363973cfb3d39b74f10 0x240b0032a09ba679e2203f186b5fc259856a992373dd45b8f62b3a4fcbaf248c (-0x1387a547d90de61d8fe7bdc93c352dfdbccf3cf79a2ceff74459df9f528c610);
Dbl 0xcaadf0a15a58f18b77c537e6c98241a47c4d104d437c1bf39dabf2d43313c6c 0x2e82fd179f850dca69271f2cfb3310ca6677bbc9507aa2eec5e37f4ce2f914ad 0x609c0cfe660777bf19a3816c5e6871128a10db8d691454757f043fee5a510c9 0xfcda237cf9159cb10ac2f7ecc8e89890e77e6e62fcace9942f9c89497175818 0x350e1ddb2178b7c9535f8b502380349cf6660ea593461979e0ddbd5a4b1ecfd (-0xb1fe8d847a2150105d9c3b1a10a76c7854ffcda9f1b247e0d38ca57e335a57a);
Dbl 0x19c1a075bc7593b7c8907a50e511976caaec45e8074f4cdb3f51ddb27012f384 0x19777e372f97008ed25848cd22971a346f04c1485a75b807bc1433637916521e 0x881328ca1d4d57fb2197bc693aeb7b8b6f83be014a197f7f0a0b50babf95b57 (-0x7fafac026797b6aac50921f2386d4033a7cda6818c8bb0498856735ad753b075) 0xdb56e7e9a51c092aa3cf4edecfaea88e57843b8851a5c6e5a17820213de86a8 0xb33791ce12f6da60684bd1be67c07426e3d2a0b3f7b01246d8c2cc38f4da684;
Adp 0xd1c4ef7baaecceaa58721427001cfdd0086dace0daf045f46e91632887b2259 0x64f3008c7f257ce3fdfd2332b475460481d9b078c20528b20d69afe3cfa8d75 0xa39a42ec34a18b3837a81a03bb3d6cb44b11e74e44820cc0dbd956948c7c8f7 (-0x6e64c0e5208cd8fd846ebe9a826b02a22442106b5ecc749fa5bda416eb1ff40) 0x38d4f44e21fe850e66a70e10985899b8a8f0001183f5488f4298167b85b5c3b 0x530b3977f4a7e6c976eddc78a891813604266c38f06cc131b2301f994523d75;
Dbl 0x112f8842639ac7b70f58ea26773ac9996fccef0ac371e20d69891b6a2557669 0xc972238103951178be295eb8b24f9969ee2e2d0667f24c6d303b6e8860d1cb5 0x38346a1da4e12a14aa0a23e3d4c724e6f57dadf9aadb3d692417d4a0d95ef10 (-0x2038ff1fa86dc2a70064f287674d2852f5b5865f3b6c20c30db0b04d7f65c4b) 0x61a6e8b8454c44f53efe3b411e2943162b6f2e9399788577bc762258875fe (-0x23b0a12d27231de1a80d906c55f591712acdc73923a3acf7ef8795cd212401);
Dbl 0x223898e14545ad37ff32aea43ab66a0353126d0f1e2eaf9d1cea8b9bbcd78bad 0x2822e9e4bac82d2d8b6d20d22a6f30bc619204ea187893fe36cd7f016359c4af 0x1884a53e5d6f4777f72310d73a910105c664f936a27ab6be5172c0834def4e67 (-0x4dbdd81661a5b670da11baf5b7f0132fcc429383b5279e34889c9b928baaadd) 0x183333c222fd878000b8597b4d74e8bb6904b213f9b2799808466368cd972cb0 (-0x137ac89c6bfddf7b392b2cd3c42407f3dba1d89234601b35cb434f143d9b35cf);
Dbl 0x9836d84d11be7c719a5e1e74c9e64c03901d04ce676567b978a0acafa57178d 0xdc367c5827f9542a230ea055543ae2a3ded3315aed7eca2cd8b8ec349a2965c 0x144dd4d282a1a0594d188fa13c84fb454a9ea342400585327bd8289862cacdcd (-0x5a3a4ed7503c3bde7b64bc097e877bcbf1fba774a94c1bd94b1262584ca537ab) 0x1dec8688e8cbf81ac14ce992d0a0a4a6d91879ddd7176380fbae77c399ff819 0x52f48e9b0283a28e5772f175b11e51886ce9b0f4d43c27339eff0f026e954e5;
Adp 0x161d09ff6a27e5889f3d7919d8af2040c4647045cd255931f81b00ff2735a811 0x39860b0068681323c48d11825954f3cdd67005251794ac8187cc4219e3536c7 0x2438d624ce4aa560a43432c82b87533d874d41ed7dd4ea6444fefeec9a3c05a (-0x64a13e0eb7797e227b31398da78bfcee736ed27e973800cb94b55fbf8df07c0) 0xa1ae78005cf6ae5ec6daef72ac728646ae8c8fc1a1d0b822713f5d05e78869b 0x4a57efbb34ad639782bd9aca3e9d973e34304aedcbc6db37a60cd73f25efe52;
Dbl 0x899530743ce970ce7edefe493549c00619328c0e529a915155481659f32f942 0xe0ccc6ad58adccc583f68bcdb5bca2317fc852a0ff9d6667c1585e9acf5bac5 0x2c9050812aca3334d416ee44defe0d452b80d17b27f85308df3a5512b39bd7cd 0xd46dc98ffb72b18b5e6a3dee36142094b318b87549a43604c7c28954ad83 0x18729598401c3464e0e0d73d25a0e41272550f00a016eb7b8156e7566278247 (-0x1db954bc7f1576a855b11c12e04b36df3c0f2398983edf9959cc76144d40ac5);
Dbl 0x5f6773d8fae9413faec2512557c15715432ebcfdfa22276effd7f5e9e98cf99 0x1c251bd24894f1b585cc9eaa2dd9e76a5c24bde529fce9c0a11734fc5a27db81 0x23db3ce73190dcf7b825a997dd6c050550b988df97aad18e26e975d5ce735383 (-0x141702ec83b9353d9cc350cdd49c0bd6a059feee1dc4399582d6a61fbe594b7) 0xbc16a6efbbb88e4f12401466d107f30438b17f3067bcf61cc45fec34af1f6a (-0x1bc9c198bca4f5186f376365cc3769a6751dc55d1a0bf0f89c32064a175e8f4);
Adm 0xb268eddbb607434f481481dc6b74e9374b51d93df4393eaf02925d43529bd76 0x2fa863f4e9bfa4d8bc93bdf8b2fba664db460ff961bd9562bcb0dcb293be3c69 0x21c67caf91438ae1b0353ed8b815bef4c02c8e7467f4e1852898c3589e5c057f (-0x67c3a1e34a2725e21ec5fe72f23d6a22505a4a92feb988b6572b0e8fb128c2d) 0x291c1ed241c6a14a41981e81f83ea6fc6b009ea3ffc435d05c0eb2afcf7ca3f (-0x47f07e0a0227ebcd2d62cc9ffca0aed47ec6ad869543abb1c06593eb5e1c57e);
Dbl 0xc7226b66cc216236f0d29d2e7fe742725981f19cda7851cec1eb9fc4827965b 0x24c2b811ee9420210b6f6564f090df12f7442b7a05dfa6c1517f0dd48b8bd1b7 0xa9d154009080831f0467d81841ee41542cbb6b5322db7ce441df0cf4ea64856 (-0x7b6e641b55c72bd252966aa82f5d5ae689b2fcf1316860af4905a9940a209c4f) 0x333726998fffb98fdab7db05568fecbc598f28d944716ef2e08c7db80c35fb0 0x2cd79e84cee4da24165a0f35de1a0e4de5d417c8c8d383347137b341fec4d87;
Dbl 0x1c6e2eccef845a7b15aca5f3e4267c9b71f292435cf731d3098410259008c2b3 0x88d473d8a290abc3f3647b555267d4241a4416e5356d0e672fbe71b42a3e38a 0xead442266b953a40cbf79439cfb061484f7f526df04529d34316ca5265ca9d (-0x474dd490e18c492553e9256e7143e6435ddd9d6528fbe6fe95cd3ef55a41b7d9) 0x10b3f6a233e0d0c935e4d87f0a76d9bc2e4ade8e2468f34e5e84c7c34ed5a0c7 0x1092a0905709dc4d8b511c9a5656b41de426576caaf1d4a173c101945c0a9d5c;
Dbl 0x2f863709c69b04b10f835b22afc853a036a011b0af47c5c564cf77793173e28 0x2a6ac4fbf43abdb1858eef5ac4a16babcc4867d7ddd783fd07dc1ac5219cda83 0x12d2855e5417ad4159f3a3e10cd674aec6a00f148556aca11b2cf8ac41759302 (-0x46bd9691ffa2674650dc105cc833139a98fcab19cf9c6a0eedb92a3b2a5b704) 0x2eac1ae7440e6325ddc4a39be333196665349496fbb514f06e02fd09a1668f (-0x2142119e815e8926180d86f5e34f75943666b14350f66e9f5b14e28ba7f30c1);
Adm 0x269556d04b38a71f8b412628a585a2fef2782f8040ccdd3d0228b188c10b075e 0x1ab83c927d995ad6c536b29faa2fb1aeff798d528f9a220768bfb0ae6ad8ee29 0x23125dafeb565cbe2589461c168a484b119f61047fb320728dffa9fceb335417 (-0x21d1d25b7c1be123a45d292dc0f09e527a9f6ada2dd2ce17c253a833c4278f88) 0x1ec350e5d4226251fed8fdbd1d452e9d32378458160a19f6394397662e1482f1 0xc8405be78303a987274dc69b756e80f2454a89afa46661496bf4cce151ff5f5;
Dbl 0xf1b2e069283cce51cd664d79e6c0988bc1a4caff58b2cf5bab77677db866af9 0xed4eb982dbb450a1dc70d17d73ffa377d27d61551212c52579ce114fb8ddfae 0x1054a6c75400519437b0c8ad1a61e6261111065012577b92b9d6966580320fc9 (-0x165d1feff1a93df594744f2ca4441a67ea5e7d9a83211ea0be460773846c67e3) 0x4b73176b38d1d1bfd9d88248e0d562b75e352505368d0a91329dfaa417938c7 0x3b6034fb1a146b6189087be89a8f13813217d6136856e32788a8d219df417a5;
Dbl 0x2ccdd9f203ecbe1da550ba133af4b2c895849a28230c08a1af5adb41d90dd5e3 0x5367786f0252761836a074b8d9a51d90281571a7c74312f780a45fa703cb2c2 0x28061d43f6f4444d65c060b76d785fa73e2e87587550e87f3b0a60472149fca2 0x109a399fe2bd0fbca84ca49a48e5589409967ad64f3432061c543838c9ec7606 0x297b7d4ed59029505c74f1e541916b59d27a775e9b76b54805a035901a120afd 0x8e7e3ce48aa985fcce21c9be56a2c5a2a57acf7d81e1b17e1f7e643d0e35cdf;
Dbl 0x113c0819326295247da43da89ddf4834c45e4ba6fec48a38e1889c2c157b8133 0x1aac15ab357de3ecaa12129a1d2a82de59ceff0710c150ed9a77f90ba0ec2ac1 0xf771d8f5789d272f8b72b83c1d4621a4206fb641e5572990535819799287d61 0x1ad2f4bc8725c07f756891fa3b6493a3e990618fdf4fe407808a40d7a25e0880 0x6235287687befcfb7e421347e1c5225129920855bffa5183321d073244b02fc (-0x7a48611c5392aa9e06eb69db2d9cb8057fd73bac92b18a0f96395dffabc40b0);
Adm 0xf25f9ff248986f1c805a24476b2047bef0a0186e600c0703c3582f760a70279 0xe23f91811982edf9871d85f93abec0116f82f9ae135810676df4102600f1aad 0x2ca86ff3fe685046b4fec58098753ce53ce4db8a0732d6069fd328b0871cb43a (-0x8596e6014807e9f840117236261fdcf8f7512297726a1e05ee5670d4bd6683b) 0x4bdf17ed6dacfaace7aeae8e9f20000adb9b39b75bc2dd594f5ed7d0868832e 0x3ec4083a988ae684320c4dc9c28533ecff946fbb5ecd7a1017663bc038119df;
Dbl 0x549ee63d300910ea517b332749293eb9b3d697d2e3cd185c31f126cab89b89e 0x70db738f2c6260a37bbd127189b7c2d2c3c43beb03e89f11da29964660d247f 0x1ecffd8331eb7103ff8981c06b1802b90bac90fa47fd967ce98ad7d06751a400 (-0x2a2702ba8965194f0be379ac7ba28597da54b0e8d06ef95790fb57f51035945) 0x93f8fb4e945a48da5f11e47d38ca3d18c1a1ac88d97e61519fe26dae5da47d 0xc64838a995b020f603a63e6e57e6f7dbad4ff5192bed9c27007e40a09bc386;
Dbl 0x76a8bf56edf32a926bc9c65f0a8d724bf7f437f09043e56c4bf6fdb0ab8e33f 0xaf6e0d6a9d2086eec5831bf69446d2af8f930cbaf5a508695a492d6c800973d 0xf6b1cebfd39cee2d69116ca3361da51f40c998840c9dd937d0df3f369e7aa76 0x65c1ddec0d4613c16055f0615a7f647fbfa988b15da3d1d40530c9a07113f9b 0x122f54e1570a00a9f3c01e53baf7362a71705a7481f32f3aebd11448794178a (-0x996e695097d8c9519b4e197f156f93b38dbe9792aa11980cf3d3a6cc2f8d08);
Adm 0x264fbc37fd3d3f92e4c655a2d93bd8e0cb477e95c162168cbff9a06ba7b62713 0x115f74710fa15d7e310ca2d37da7303d07a278d3d082b54c0b955883dfcd6d6d 0x7415eb017c394e63a2d71e83b4241136ac9cf9915b786484c9985cd6906307c (-0x8ae2f921e49bfcf4ef9e25f6927c66677885554af988043f7abbeecb483c324) 0x1e54b71219f1582be11dbcdc54c41027eb6457f494e7c018c35d325568ba2a52 (-0x512d53c928fdf7ebff61cc4e42fe4e34be6e9e5dc4c970979345523620de46e);
Dbl 0x13ccc983156e70e4a6008bf7de3062ed1c94e8fa00eb63ceab61d6bddf15f080 0x523f36c79c5f49f0875e26755a9bb640e27feeaa86536bf447c69320eeb213d 0x14ac1d670343d47e24de76119e728d0b17a87c74ca66080ecd510208d5afacaa (-0xcc60beb0ff592dba0f0e5509dc73e9ceb84d645318ee740d8f7b2198d46626d) 0x819f09e6f22664d20d781feca464c9fa3e774216092dbd602d6b3b2d6e88d4f 0x50148765c107a3dbe87dee445e8fc5e78ccc4b6fab6fba00aafb4ee0d4d3356;
Dbl 0xfd96d3981d2353a23fa9147cdd2d1034a067430135caf1bd6da7a12937ea35a 0x2eae18f26c4302c51792c551a39360a8f1c391bf2159f8965ce124d48177e0c3 0x16a4ae0c76063ade11ac317db7ed9432350dfdd979f20e14a4bb177dd55b8740 0xbe7314dfb44d27f02d6ee9c6c22323c924be7d1323f2d1607acf8b69478892b 0x530e423fccd198761b9e4364a2e2d18d5c8c4c76f83f83e921f128b93a79be1 (-0xd9ae72bc0696b716cf61dbfe46a171196bc828cd1f14e80d09d3b5acbe777ca);
Adp 0x14458cab61a97566f2487aab4c163600916409984ef63e54c639a197f58de65b 0xeb8125301f747a037cdeea6489fcb30e331cf160f83c807de0515371f0c6281 0x223e28982a45973d2d5fdf1ef41502c4e85b0c8f54ea999d7355b0405e823666 (-0x138dfb0accd484e7947a86615eb4f2733eab9929731b3a81dc885c6ee6e20488) 0x87df069af3a8bbf5690c9bfaea2ec92c06d125421ccb411fe6f97825140504c 0xd63823a941ee5aa52d8a45b14c934685281d6ea16eb7a192d9b9caca8fdb9b0;
Dbl 0x15bc91ce76532356c9069b9d241ff98aabf7bbc273934733bccb91ecc95f500d 0x2c93636de30e35e6a40072c725bdeae94f407537dd58214b5d2ecf3535384246 0xf0751af657d0ea75701a5e286f5c91730521ee54d298713e97cbe4896d3032d 0x1154d260d8908fbcbad81c97bc7f4efb1491b2f2cc846d1c2dff70b28774f65f 0x9c37d2816bcec8a384ebc88249fa53ad41010b5a1ef5385da3d400b5f96e817 (-0xd69380b31b87b63399821bbf6ce59def293615644fc6af9da016f0644301ecc)].
Definition hSNARK1_4 : list stp := [
Dbl 0x22ddee6aa3d487d19122c25e9c02dd175bbd0ede00f2d0c809727c493a61e2a 0xa3d4983e692885e902467bc45f477837bd24ec57cd0c95088eda27df35678bf 0x10c01a65b0f910476d1de7fc3ee98f5cd92eae5fecdc05906299236bf203c7d2 (-0x79d404fa1403e9e8c747c5f578b9b29698e911e3ec3c356b9195098d23d37418) 0x191f3f0cdcf60991bbb6e1c9756383bee929c117b742c8def9b25033051a1f 0x18bd6105d6f97f694e6dd0afdb05bdd2cab81716fc1c7e05ee8b618f9598721;
Dbl 0xd3ddaf67dc486c4f4bdf6f55dab14986d79ad6d20a4dc2e9870d75bb4957d37 0x24f4d82cb09b554afadf9106897f92c924b9321565b4f4c32ca57de2cefbad76 0x2bf728f7e4264fc5ed5a3af80b9f06041c201f5b5846d8737efeeab8afa91241 0x2aacb37c54be746f6fdb6aa8fbe37ca94324dc38799c8b045ebed94d0bb5dff 0x39f93f06c31790236902caf12985707fd8301308ed34cf99b0ecc360e47e0bb (-0x74f8824d40d9690331415fbf182ee700818012382891f72d8a8aebfad5d567c);
Dbl 0xbba0dfca1d05b6f7c9b10dc8031903c6cb0b0265a2f5553092d307c10bfe65f 0xd43f5d3b09202c52ced19907a13531b4445e27d6f41b31887bc461669c2eb83 0x11755ea99a8c384e279c59f8f35f214471f3633f9741366ce33e6e585cb0c19d (-0x3f5c94990ad862ab6f19b3b40cf9142c2b4bc8cad17e4a72e5d904e4f538c8a2) 0x2d77cacd45dd7b15d3b0cbf2d66aebbed8173cf263fd04a5cb1494350bf499e 0x5bdb39b3c9d3e4e955022b8f841ffd69be1753c7866b7f37ccdd8ff5f6799b9;
Dbl 0x2abf7e3ebdf4d35285e41a6234121f962a8382259b28136a42d14f377d60e1ab 0x28e54ab84ee8662e8fc7347b6e1b67dd829770d0b98e1441da1be47d7337f615 0x2608cecd6770358db56e47283a11de7e593904e2652e2b0d5ff6ed895d87675a 0x13ef794796a94c75da8080fc052013b6ff2ab8a010114d3cd05c5db510bdbdc5 0x25c32f31ebb259e2b34410e1e83e5f38e3ac9f73f374d3a3fe1b9fa9055fc2f2 (-0x1868638cae36633078e204ca6c78368f81a78f4776877b524a2cfbd5f2c98c1b);
Dbl 0x1e658818827a3ea7092f30d3ea6fcf00dd2c4709b3ebe6b02f80377e16760c0d 0xa1d00f4f864f76d84f52f197bdbeb11e3666b55bad06a55055a8d9015ce5079 0x1ab30a11989e36ea86c426e7d6eadbf1ced7083e2e7df7f79985b83bb85f1a9e (-0x37e69091a73f14b1c7451c6c28e460ef9ddb9da06dcfed0d80c8a72a8a40cd41) 0x1317daa63c4250c8a78d4216a185f52ce8a9323862338b67dbaf2370cb20ceca 0x1355e2f47fb5101e616a309aa78e66b288f97dcc8857b78ecb65345b74b83b6c;
Adp 0x8a12bb3f6ce59b179936ceaccac98b21913529c217711498964407a21039b9c 0x1703903e493f12b757c7ba684dbff2250aab11e81bbaecc49c6660403b1f69ca 0x1a08624338cebaf78e7857674576856b8c2ff450637607f22f151b269c98f2f4 (-0x1cdb0844ca685ca15c4cadb7dde197ecd911535561aa429fe06b94f7018675c) 0x189f47acab17864003a4be016278ea92244a0b748aeab96ea026b0088a9c2d4 (-0x24cef9612626fe75beeefd3f69b12258d2e759b946a245430cb7b16ef5f49a2);
Dbl 0x88db6899fee2448fa543bb674e1953a83d096446f3f96848ff24027dae4f4f2 0x1673d6de2cefdeb1e0740204aadfdbe2b6cd31d7dc5ec566c3cad9858d35bffa 0x276bbb1228c397df57736068f7a377fdd008c7f3560503afbf9b1eadf7d24e68 (-0x17a1b003b00d3b735a5f4c2e043550ff4d6934c7be0fa27b766c5bca32cad244) 0x1830bbff2b586e2c79e204487504276c7e42ed8f87ccf2b195aa46cb1ccd81a 0x19677761b24bc3695281d5300ab5ad622c6b3cc12365b98874532d8cfe629c;
Dbl 0x234cbe78d138ee1e2422ce9e9060b7fcf714fe368842bea96f9db6bd23d46229 0x2ad9bea10949eb5b5f58bfe4d6177ade3989eeec69b6d366b471bc3d41767530 0x218d256a496567877d03dc91eac18edb6ac306c285c69b577fb6b6e6ce6819de 0x1a4273e5970a9806c9ae84e679bbf935626b3c8e2c93c9817cb51e4e2debbdfc 0x19bfebe2b5f29b8e4dad01096c7919b792678107081b7e15f4acb9d0e6d901ab (-0xee1288dc71a33f2c80478b3e7b954b9c71938fba2ec7c02fb8c2e8fd145dcb4);
Adm 0x2624c03e773035578041a07c5515c9d9d6b73ab692941efce81dd55dedd54400 0x96f2d2ff53eb6d86192bd67d342f189da0ce6322dd9e2293f166ef756268d13 0x2e05eab6cc1b678f94b2c037b2e7e5fc10789c5f992b7ae5a4abc7e354d836d4 (-0x21c69b8ae9fcdf5e498b845c64f00b1816894d1c3447072868e0cbf4702e1ce0) 0x1e10cdb6725b59b1aedd17d1d582768213fdd6c99f64ed255445ea6d57ee8264 0x1a56e8cb1ba800aa734828dd1a70f59bb5ff85b85fd8a2ec7e85646d7ec7b142;
Dbl 0x8e7975e05925b3ea9202938762244f3012e2660dd5040c8e0ab52444467be1a 0x2e83851ce1b9cf5156ac102c79cb4dd10234b5d215cb6d96a69678750723daf4 0x7c387a2603a35b7904933b485e073416a9992d4c5d4af7d5afa38c0427a7462 0xb6b74e7fc6555d133eaa831fe37f85cf93bf9c23e335a7ae820f04702e10b03 0x1a378994e319b7cca0703e56a78f505cb185b101226df67d6f1e077581a0b26 (-0x6d2b3602c1515eb3a927782e3f9cb3e9cb02cf539f17ef18a901355c575a570);
Dbl 0x14c0d266abc2aaef0f845aae2a267c37b7d1d56a53a430a3316a13d20a60a4ca 0x16deb46cf9f66baaf72cb58442d1fca4ac9a8a330f06d08b52d1076b697adf9c 0x1a5310850cc431808b6eefd5009b8200b35e8dc9cd3d2da69ed27755c302f168 (-0x7f77715506bef43c71392fd4634d43cd3c15d3cdd547b053f4425cc514aebcb8) 0x8e671f33332f5962854bf70e77e4591dab961fabe53f62ed7b1f234e7b9c720 0xa23cc09801763b5417df236829241a7d4836645a043ebbbf0346f3a0ca6402a;
Dbl 0xfc6e0c32524153bafbf9bfc1cb554fbdf67ad99995aa1799720cd6c01ea7642 0x24045052a49b65b2984ca57d8c88f10037c8494f8a0b71e79f856310b71b431b 0x2d4c43e298cc72a66a59ce8e1f7290d62b976cf55c207b6aae74a3005893102f (-0xf429a2d11bfb20ff611ebfa57d1862209648454db6332ed1b71e73628fd8ff0) 0x524c4cf9dcf8138c7b44c48471ae7260307fed5e8e88678e6e4641ff6391847 (-0x449446fe8b50b37062596d20ddd41f60a7a7f13593e508e2b21a1ec1bfe3183);
Dbl 0x20cfba8b50667d6d9d76db6573641a436186c023da874cd0ec8a4fe2a91f6258 0x2af44c343f53d28dd9e8fd050b12cb93c2c1009ae3ba775a57b75bd1cc573e15 0x19b423ee87d6ee2224ad13fa4245cd3dbb779c385fb90fe71dd20d9a83a5f843 (-0x12fdf8bf9be92ad5f41111eca0b3153d31c5fdf90c2c133c6c73f4ec035b2d6d) 0x163f536b95f4d6246c07a212849faddaca246955193dc1653137d5639d23bce3 (-0x4b42ebe9b9e297f69c5bc3b79ac989e1ac23b58ae18cdcef95d5f46f58dd38e);
Dbl 0x6ebf8a821fe1b5bfe9f61b89a8d6a0dd0750ed492610a121d7c25dce77b1db3 0x1f3ebbaa2c90e2d01de929e1d3d47da297988cf316439680b941456552addc09 0x3f3b0f350a87cadd4ac76d1ada53b65302b4c40379b37a658b743d07ec2f0e5 (-0x6b07b6a9b7d679b29586f884db30f207e440334619c2f23fcecf34344ea9df3f) 0xfd7490c002dcf3d22a414d489f73b53ae3a363d15595724414220af858185a 0x1acc25118acbca67e0464536cbfbab4cca456393454b87d28b51ce4df0722e4;
Dbl 0x1af1f4741583610e598125e8d5f1f36292d4c6078fb6b14d8b50c61d2ce2760 0x1d891d0e4359b9efa618da9c6e415b6c769f0515e5dca1f3890c3bc6f2b7bfa0 0x199e3284a28a810d1498a3d247f99867c503379ab7ff2f668cec2d33648999dd (-0x3c3f29ac89ba4b7b03fe7d33386dc38f148cb3fd9ea401fb7bd5db148453fcb5) 0xf00dccd5c30932d6881a4d8b6a07ae1e3d2bd7f55d1dba77ff23760016042 0xf3abf655e9ea973cde9d46037a9dd372e2df59fcaa359981372dd2c3f1e72;
Adp 0x28047402bb0768f801622843fdc275add5277032524fe2028488d91a5a29d372 0x2b4f8482c40f2ccea16952bbe09779e96dd955fca2249775c639d2741d2236a3 0x2959803984ea78e787c86bf0a0f5e051aa44ae8cc12a12f829908d3ea7e781d7 (-0x186ca0cc0ab343521e41756023ffe53c7004496adfac4b74060c376ba4e005f5) 0x21179a8189a25806a246ae5c20061e37fd0ecb1ee55cc7d64fd27059fcf9d380 (-0xb6424c9fe5ec84716c3a9be7721c253d59328681f645548e2f41ff8ae68e8a6);
Dbl 0x117fc46b7f60ffa9b63d436519633263e99d0eaf3da90945b651e677b1517f02 0xc572c1fe3a43b0e743f5981b85659bc55b3db196c419186f6cbdca79dc2e710 0x2f9e4114ec76a3ec3132b943d64e8d1de8a52e02453bc5da92260325d9566cc1 (-0x56623d68a60059aee61657ae5a57103db1fe244990779218f4fd232d78d1e989) 0x653f0ac638d1de75c4215acf5d2291f28516ee25b8d7341ff4c656ca902f9e2 0xb32fd405fd66ba8e1567ebad411b51fb492342a549ac2cf52a43e37f284c502;
Dbl 0x295ce0611683d843b552c973173f2f998fb58d09e480449fa572daed5159dea3 0x251b44b64d018e47910be64cefe4966964e3f91af9ab825414da742a6c6f6b9c 0x277ca7e2dd4530ae315ecd34d84992b8de7f81f5b65e2abb8070c5cefc828665 0x47f64c7c418a2696b1208c1a649e813b7feaa59f0173cea3a7cbf88fba1fbe0a 0x235ad15f066b28926b69adfeba046474df42307d7cc714f62e4e17302fd7000b (-0x152b2eba9fa6aff6034094decd12c01aeb66984c8eac2e0a338d3211a1c27a66);
Adm 0x1da2dca1125c4fdf53cd3cbee7d4e7216b5e17b2b17cec21e6eca0e8eb24ec2d 0x10e51b42a19f84511f5ed011541d16d56eadaca13216776cbb57b2043e06cf20 0xb998fdf4186736d3947daf5a1504011e4ac1a9d1425e5065ec161dc2ed306ec (-0x16b98db9b33a1488de5c38bc6b773a922ee641bad6cbf632190265e08c5f0568) 0x12265af09ce5ad855b372a133b8ef6da55ee4b55135dfdaa6a5c2d517d9a7774 0xc60c43f764e9b4d52dc4a0255f3b4dcb4a0c5cf76f2da6e3a9ba16d883dc92d;
Dbl 0x636dae5dcb6f4cc93e6120d66c1efc87676c7cb1364995630ace2d3c1c1d580 0x178ac5f6ca497f72246bd34bc34a2a6a98d827bcb99af86065c310e4dc06fe36 0xb7aefe566b78d3c54cc2682d950276092f0583488909f52ab0467ddf749fe2e (-0xeb75f1b9d967b5d1bfb069fc6d2a07a66bbf89fddd7df09d320a85a2a041800) 0xcc4a80c9a5cc5e3b5998bda5d75d9fc085e14b805685767f21b67f09ed1d26 (-0xda85611dea250d7f68f0afee1b09384e794dd5efbd8726601bf05fc4da1616);
Dbl 0xf3bab473c0a52be7d7e0544de03f3c6677d90523b0372b79372da52ed3475a 0x22156134ea6a64b3663f06aa7640281fe2e55e70a0daa7b4f61c7ed6560c18 0x14a87fd851cc5a0eaf40aa236be0c7d5893dfc31a83e241f122e267a1492f02f (-0x21e83b7e22b2fd2f0198a7a2c57902f50da0a4851541e928d744e30f9e97cd8c) 0x4cb8ff71bc5871838309281d50c7bc59c85562a0acdef7166437de2d5f3e0 0x75e6aa63ea1d90eb47a1ac39a1368bf13f775a5e8d8d1f3d77f14a3cd027d9;
Adm 0x2cf189b78755eba6730f8060c48e609f48798ecbf2ccb8f3c86d30f637580f01 0x1cf1b08d41fdef3090cc1edb21dd598970743709d1345e55fe21d38c8ff149f7 0xcc10f0450e50b10ab5caa0574322d008578d26b23678386c8b9b25e1280774e (-0x1fa79ff3da610537771ae67d642d2cb55c7f90ebcbdfab6824e8c0e9c87eea) 0x29bdac89595a32c25a324eba835d6fa99591179a83c9fa51ac6c3630630bcd07 (-0x1ac2089f880aa9e13129d1d73f68213b6490afffeef6f7c8fd25971c594ad4c4);
Dbl 0x25cc4c58da4df51bd5ae337a3dc9f71d668e392626eedf6b991d65aae80a5d7e 0x4ab13323cb73e8ed28e3646b2c29dd71a94a63f51a8dd9ebee5508a57e1a89d 0x1c60ee41e445dbd32a9c630f1c76e07a3b15fec5f69908e0209ecc759a53d0c9 (-0x200314031fd1156a8b18a70dad86ab1dd5805e4905dd35b2cc9482d04e14bffd) 0x1d85fe7fccadf8209d2e6857534a42c80d1b343efb60b7441c2b6f7319b07f3f 0x12f62197028b2c55a624b7b553cec59e027dd7fecc308c55a96f3e4006d1f0a3;
Dbl 0x2f8c217b259d5cb5b70bc64c6dcbea53a2425c6540bc97b19e8fa1d22bf61176 0x288278eb0a30b9523edf5f44c7a487fd70ae860421ba812628efa5791a46ded9 0x1bda0a6369d42c34fda489e4a5b66584d5ff9f7563f5dac3015a8deb3f5e022e 0x366a74ca5d89dbad204aadea856042925d0f6d6bcab514383986ad6e6eb26687 0x2eb7ba364039beace53e7c739c0d45de67c96e9acbacd7440e9ebe9785e73fa7 (-0x2337497137c6009b1927e9de1723ac392fba85f604942ae0f2be2196be05efe9);
Adm 0x29158954fda5c1404883a7bb05b1be69227795cb848ec1066c0834773ba7cb3e 0x2976b4ffc83be02c0d12b72addf5315515ec9c237b573409285c9ff04db29b77 0xea0aeb8e2d544dc08715cc64a3d84b8ba3849eb6e560deb67bd0f1af0254a5f (-0x22646adb02a00a4c341635da36cbafb5122a0fbbb352c935daa328b960e760e0) 0x22e145f24a2b203316bc9ba437e06a4d7b2b233e6f7b096ddcc7da3fdfe73f35 (-0xcf5a42847dad9cde0467a5216065ae49b37b2c5ad1683c3b2d852161aa5927);
Dbl 0x92d7a7ea13295ffb39f06f8918ec7b14549ac93a148d21d05c40b7b1d4677c0 0x107a4783ebfd8cbe730a6ccca66eeca5af9eacea969a44583763d04fc113321f 0x19ae5c5f953116c1890062a0df7f11e923e1e20b7103920b7885c6dcc441531b (-0x6508b4f0c91ef153d33d4968510b8d5b591ccc7dd0eea5e8d7d2549bd0561e75) 0x1bd95e090a829476ac49d972cffcc0c23c8690e1d342497ce7565184c81aef5 0x4bd19e76ff33d4d88d16b77e21a25a9356df17837f4924de39c7d0c976b3a4a;
Dbl 0x14bbd39e00706f30102c044a5319fd6610d47fd37fecd0a0e43adeae86de6aab 0x2075b0be136710c7ba5971bec3468b84c81b92e085aeac9c7f6509853dca4782 0x1faa1e05e35ba5d8c186e817f9fcf2382f82c4279b3d1f2b040e5a56a1ce070d 0x52c986753a74076a91b22d18f4e7aa2934d6d3abf1b3dcee2ca5ef039f97239 0x8e229a1fc7ad21eb8493fc25f84690213da3cc0849abcc89c09c941e723823f (-0x6d8fbda4477f348e7bdccb1de8060dca605d6c86825e91772ab09c0130d74ef);
Dbl 0x2bd14b9a9bf6f826403a81474f6a3bebf2ab4d943f89f2302fde326986c7d903 0x1f592530f82fa77569cb46f9bcfb27a94b8299b25241e2d46ef6f664c499d2e6 0x1658811721f8e2c3738e2785fde0a8290fbcf3149c5078b58a9957686c56bbdc (-0x7f9e16522d85bb4957fa9c76d61671fb1a025de52b8a5b5cf6ba842fa2b9352) 0x27acf982ab9a2d1313bb7603e44164f51eeb5313452e7e8c12a6486bf8449e69 0x101a5fa037b17ee3a228ce9ccb95716a7f0a20f9f2857ec46881a82dba61b3d;
Dbl 0x757fb3998139684197442dd7a05ba45dd94fbb59b9c7587465390654dba4f16 0x1e682074ca6b2d0f73198c005cf8114f2a69f71e4805c7837fbf6afc9fa520d0 0x1da3e7020286f1c54ee8157b442bc990dfdf3563397e4086f0da507f57ca650d (-0x3623d7eaef38d54c9a217bcdb3f9d519417074818d56abb8f821b86a7a1eab04) 0x11d4baf5795f836c6a7e34165e64f5da25167645c8895cb9936bab0ee433a78 0x24935d5c3226d1ec5068396cda2e846b9f5f4d2910fea104ad0d49c310c2ad;
Adp 0x10ea365b674e02991709b0f4c703b83278218970d34b2bbe943065a5e6dc8a68 0x2fa7333b95ef51f482d6475de63e06f3d1705c889cf8094c0ebbb3ac3a65b44b 0x57b2a671b349a9b908d6750a6b84b3f03c735422aac1475872c1ec1114dc260 (-0xaa0ddb22786354feb572aaccf02e6567a64132bfec9640062b8e87c00a8c50b) 0x5e9956e1ede6089dcf27d2db1b9357e4d1a4dca39f84c77bcdb468ee24b63bc (-0x6073efd802371d06b1309504ee0d8c6a748ac5ebd71083d61bb18a81142e3f3);
Dbl 0x1366965ac6c442e35916142a835f2048c9fda3c5594a5594725924ef9746d5e7 0x1875bdf37beca7553d58c8e4bf19e64556167903192563c8fd1ac6c518d36e5f 0x289aa9cc4f89ef68f743a243ad2349ccf76244ea9be17984f1f46af2fc22e796 (-0x8861db713d510476336f6b6afd47a10c9ed1ac8daefb1875c7fa24c82d2c637d) 0x7c726ac924839c9f641c186e129c348f468795b9cb43235f25544a91e90f2a4 0x94c61d8a0c95ccf1c4519420134e7949ff133c64d8e41e5be6e867114b9ad12;
Dbl 0x1cb70e1f9a1c93624ce0b3c766600f9ccdc8bb211a0226be5056a72066db8e3c 0x26f8791cc8a15cef3a7e4a10d98a8300670774d44da7e26dd9f93f6bc630c6c7 0x14df97b6726e676f6bbb67f0f80f7036f708c637a299576407cd3e7d9c8cf618 0xb19016e9e2ad908462a98f3dd6d766c1657b588485950d8120e6f858f128d8b 0x110a0488bcf270aa424a93cb904560489f6bd9f5c8ea04d1e8c69e25704e2a9d (-0x89c458ddfabb378f6d3ec3915e049200913dbf4971d56a7f681307f5b4d1882)].
Definition hSNARK1_5 : list stp := [
Adm 0x4964d37efa8f1d2c5fc77488f8d7282688bd804374ac950c51225c23fc859f1 0x4f5f5e1d963f31c9848553a8903a2bd1b54599ded3079d7a59e572ea4da2ccc 0x23086ca3437ad3968ed5bb2942621fbe171b39a6db5b227a1c84f9687e65962f (-0x3b1ae63fe8ab892ed650170647d1ef63ad08f7c4440d33b2fb7337a3e297354) 0x6f503a06c4961f83a6d1a02410c9bbba756d780aad50db27edb309ae5e06cb 0x3394cdb0ed5dcd5ace920c694df2637eee4f2f716830e101e453b03d73265dc;
Dbl 0x226dfc056e89f92caf01112fe5ea88149fce91a7ff75c92e13c601ae9c6ae6d4 0x254a4a9b305241859ba836e2234358e32bf6a384894826afdc2a1a8e300ebe60 0x215127160d11fbaa07d974552bc44f653a86bd9c4ac1adcd524a1cc87e408ea5 0x305314019274d6264b8063584ba4e6bdeefd7aa223a75fc67f994e88d5313898 0x187ef08cbea3a8fc8cc50b7fe4dbd045c5edb3985c70a7b73f10f8dda359a7a8 (-0x1700697948328b7cf80084293b301507fe17cf20affbb067e441fee90b3b9b7c);
Dbl 0x93d4a638b1d7f48d69f8969929fed26ad82d47020b6256f42a020d25ce0aa39 0x2e9bc1751a9bd9883cfd3ab129c0405ae2f8af41291e3edec95db537cd84062 0x20dc5e1ec67cebeb553d397335b30fa56a0450ae83342258084c02cd4ded3f36 (-0x497bde5385f686d72935689f69db396f10b40863e8c61e9e7c48e7afef11944a) 0x1c39a6f0958506303d517b180dc71430d97b714cd0a7a5a8157cb002af9cb79 0x69048b851860381d7d42384873b218b8d78909af53c13e65b40e08237dba435;
Dbl 0x2a506f85b672378a62ce1ad162d311e2e8c0942b40ae33de92c457914adfe6ca 0x51f8a0e8b58783ccc8148753768e376c91dee6efabb2696d93d447404e60184 0x2ea2cc23f7c33503a9fa24c15c5a64b1a461bb436022d82c7745e47b643888af 0x38f103468072c4de673b18669232bc8054789176b428529f3d921b9273b907f4 0x24fff836786ce4b3cc75b74778c20fc67205a4c046c1eceeebc500662115e004 (-0x1eebe7cbec856d3b85aa6976d8de95c52fe259e532b7b0d71f22c7a4a2599ff);
Adm 0x16ea01e5650a28c7079b0e4af5fd7e0a551b5d134bc8d530be821980a206263b 0x6b2c2fb561d5af5e96deafdfb6511c59575b6a843b31bdde631ad4cf43b4229 0x1e07020cbcaa511194c4487e1983d48dfb4eda1c2ddcefba760614db5d015c76 (-0x26d0774fcbbaa40ccc7a60b004a57c453bb09b03b17041b5959c9499ce7e980) 0xad99f725047ef59b41ce1d568d1790a078eff509185a67499fe3a7b7a9a6c3d (-0xbeee3453c84b17d1a0d649c50a719dc552f6d2bab46bc88498046bff7ed374);
Dbl 0xa42f8b891bcf0f0a7cefda6496263874bc631ff41948bf8f4ed00aea1013211 0x18e0b0ad29a54c3c07607c152deac667dce0f12dba754a1b28a6c9ba1c3a0c48 0x135360f60f48e4571b981085913555378543fb537e149c0c994c8994df8111cf 0x9f409d3f61a14e4deee1ca0a4b7d6774764ab9b41900645277986b3c48ad8bf 0x22d0e51aa763364ce93ab45ae5aa980111b03c892dc5c02fd6ffee0063ecec1 (-0x3dae093a4262c59fd70f72c8a2a998d6c01310e5c114f2b5551e683eb7d2f0c);
Dbl 0x11fac73b8a046fbf95944afe752dfdf1f7fdd7d7801f7a2ed2805799353c86af 0x1c9ee00234d588389d9195f10c25d1b36a345053df89bf483cfb8d7bec97b3bd 0x22892a066fa482ad72cef6f5096546132a367b37b5ba6970083ac84ec395edfb (-0x1801e5e2facb6346f557ddbea5bc40a1609ac912a75ff961d5c5cd56ac10b952) 0x6ae204fd13aa9aa4f1e842c7d617580824e0fa9c44d3ff38d23aed75a24000c (-0x164018f56779692b29ffcc3dc4a08e2b2c9b2ab15fada2313e0595cbaab0193);
Adp 0x1d61d27be1fc147bf32382b655cb09415db9517676b31892027a43f83d7afe3d 0x1a77dfb39f93644c0aa05d21d7ffb7f56f1a2e568fb88dbb5897631f8d5472c8 0x251e9b06b67ed72af3580fc027229f93fcf4b05989d0c41d5de2cb075f74b9e9 (-0x1160aac72ab924490f120f659cbafee7556e50936df18b072d463f47027ea115) 0x11d7088cbb42f8d29c369eabcf20af1bc58d74564151ff485f460b48293a4165 0x14e8d51c2653f876ba878dd5f7cb13513ea909521ec0d8eb0e9e204567d3e1b;
Dbl 0x21ed326a3d7cbd4d723a45044799ba102db5b1aefe8c1e2a9f36b9235572d612 0x173b7c988e1feae45d7700918f1eb493a9af3356b38e5dd6d5947bfb8f9a6114 0xbf0a002915cc0e273c0c773acf84efbe5656cdec94572b99664678dcb844437 0x89dd6a5adb4ae84325b9e43e12ac21d51d0d65799530a1149ea44aad5bd15dc 0x17c9051f36eb72325ed16db5101492334fbb25c7e8b081551fa691ca2e656860 0x244c40f0bcfb5d4b261c4d0aaa26ef08ae22f991961a3c66913185e8380a738;
Dbl 0x45db853818fdc70795c86b9cede38871dec14c3d1d55a9eb0aa79631032e862 0x26d6d93c950997145bc8ce16ffd2bdcc9da21bc56da194d06c40136f81f596b5 0xf785a2ea0542add27f7512359ca13e45240a9306c2dbdc58ba63bc1e304824d (-0x1f4e676a08638e6a247a3cbc29ee18f12239dcc14b6b42453118d778e16e52cc) 0x64d84e29542fbf3347ad9356998586af5b4f5552f41016587ca3f56d5045a1 (-0x1687a09ceca5b1261c641e275a1a08da1b2e0d610152e2bf01ebef1fb1753aa);
Dbl 0x25a88106a601d5850b1a022cf599ef00137cac2233f8b3ae09d1284a3de58e3a 0x26e46424b1ebcda798af9904698bd7bddf50de5e2c95b265c3642cf5089a801d 0x23bdf12ea1227fe8bc7397b3dca6aaf67c4bbb1faaa86b35f7dae8de1155f2ba (-0x45708845bd7e9c6b515f7fb9381f929de465168b9b7f385fe368b008265d8241) 0x1d4e2e57b964fdb914916e1d224aed277f098842204d476b3619e34ef51c05fb (-0xa89eced8fdb7d7285e98ee59710483b07a368b4bfb2bba04e3f96a2f71431);
Adp 0x2a04062bcc045c64e3fd401f696fa7970b118930d33735a3c9a463f558adc04d 0x7f79523557ae758fe22bb56c47fd479046d0a8f2ce1c27c733d7b4281770335 0x281b8582ec5d11359073a707d0d8cfd551e3803fed24dadc174b61a0b0d21fc (-0x21c489aecabeb6f0daee6ffc455d415e41d5f1501d0f83f79337543d25d846ac) 0x247acfa8d7c39c69497ed8d9e250992c25e884fcea9b217ab957e2bd1631a07a 0x1ad9b0c4a6897f86f3190d0f79cff1cb1fc0cb99acb1caf68e3870f2c5bc1b5e;
Dbl 0x180b0ce25a74dc249e485a8bbebd9ee27be601b9dd1fee07e146812f10d37aa3 0xa0eb68592aba4124b1c0f8ecd5430d76355c331b6dd671b42a8dda4fe1beeea 0xda8c867616e456cd14447996373e67934fc73a9b4f65a232acbc90500d9b665 (-0x171b52b790e45e718d185d83deded44d271a329477c880aa85357ca0e485165) 0xbf218de76c1d6f0b04a07403cca0585a48a7e821c402569672e7dda8c5d4463 (-0x109e047f4f001a6c1436cf7ceec0b7d172d73e8c19c234e28ee2d2239532c60);
Dbl 0x2e6ff53d8f2e90e314c3be1af21c38f04a6b5c93e8f9cee21be90ead9691fd1f 0xc4dabf116eeea47b3601d20dc917b69e8f35c3c77ff8616afd11a74e6265d82 0xd5dd1d0fbfd4033d5376a7a74a65f9c0c66b4dd27a0eb5ce6013ff1e82244b8 0x13f1c3aeebc11a5c514acaff6c6adc69771bd650e687bcbbe2ea995ba85b51e6 0x2c8fd165da5b911c9794010f6ad11d4520a68449cd601cbb1946146bdc2ce7bd (-0x227bc9ec7a3ad16cba5811e46acc91ffe2e06c71bb30a146d907facf43d7ad3);
Adp 0x111d39268fc1b34f4e7defe60f707f98e67aecd13e327a58db7eb4ba9e43f564 0x2dcf5a6d4ae0b3b2ec2b71d77b679cf3164f2d1477e4207afd393132281f970 0x5f8e234bbfaea48d9459c66b687d7063e2da30e5992d2fc6c9f1fee4b274eed (-0x459e80e17e8288cc65d78f9c2f99ce0e8bf2a0ee004fba96214b2a8b483f2e2) 0x60d7459e3c703e61b6db71efbf89cef246cc0f02bd19f15ec6e3c2e9ed8c17b 0x356b08148970f234f11523cd6732334a860e02d40891829fbc98081d7e35d05;
Dbl 0x19a5ab946a1f10e7618062141bd5c86e5bce73e872cca2d015633cf6f33bf3f3 0x21398393ea990ad5b1f742e1cf20f5fbd93a5e4f64269e1efeef3e22452cf38b 0xe8c3029b4565f22f91e5b0abb1ff3bd3b9f6171378f6631a3f4928436d80f8c 0x5d27c83c000ad94d44752b7fb6d927d640a0ce0d29622a60c3e8e2d3a9066a2 0xd97bc341469bd4179dd2d1b135b9f1a85b8f001a9b3be7fa75e97886b0a02d2 (-0x10175ef351a2d6d4ddee8c13353275741117d303813e15443d8410708f8ac516);
Dbl 0x14ad2f1c612e62b9278758e38a860c9d42263cc7fe26d2bef045bef4aaf03d57 0x1389a1e2e9fb8e68570f9f21efdbe840b19b3c0b93f75fc11ddb34a3d79525bc 0x2c5f2f7fe8992085bc47791be12a18a7e11b574a1bf0769582edde6c40b314b5 (-0x38008eed80de15008020cc819d7deb3e58d20bc8226cdea9fb7af799616d3c25) 0x8d5a1ef18605e33a510aa4a9595a402406946c0d9c7776bfc0a17f4522706c9 0x5d91cd5f1d85fe0f418a01ffbe6457a3c9997fe377e2a9eac4577094d9f8b28;
Dbl 0x2788816394c4d74575a332d396e7cc4778249075226963b2d18b532000113e0c 0x2ac3c4fff29e638bc422c26b058ccbab266d2b0c2d4b3e9243746ee5d8dd400b 0x204ccf474cc929be759525db3a67a8662e0b68074f9b9634513ffbd2c1eb7807 0x30d5801f0e7d68291cc553b00fb696332e6cc953bbf991d133ef66e21c2196f8 0x204bd8fe6f25a5cb46673d74c3fdd8f19d15ac259e7159f1d878d76267ef050b (-0x12f9a36ff02c2c5c3c7c5e107282d129f5ca957dcdcdf12d7ac88d0324343a10);
Dbl 0x302ad7d40982853cc80d039dc1c41e90210583fe530c34ed2eb629c5d6ac70a5 0x2f7add5511db248a8f99e9e108d8b127b855d123e5b7ce950beeeca477c21510 0x1f6852b2020bbdb2a10e2e26f4484346eba986753f321d72b8c5f309b52f9e8b (-0x31135062a34c8d78343828be0a456da6b569885f6b6a24a8116b2b34617dd2f3) 0x2ff1a5717874f4583085eecd2aa93a26bf25406b04b4f525371bb9da8c72ceb5 (-0x4b17ef488fd801929a2d367ada7962b04baefcc9dfdcb9f714d7c253b54f05d);
Dbl 0x56e1236874abca11f14edfc8afe616271c227d6168e59c49dffd31c328b6063 0x544851a5e687e4dfabcb26458a1a3912a0eb9a724319dd3bcfc9ed0dfa5a06e 0x23a1e70ae926c5f92fa56efa90d16969ab71edb840320a724f995f9072cb3d72 (-0x84b5151ed157d76a2c420597bcf7d58a330433dbe0e959b5e34a9b83214c6792) 0x9bfa413e7530feccab844e9c419ddf23474a6385d1a95843c05854aadf57ed 0x4bc8fd5e65680d057c87371f13e36c2fe578d12318712058f7d217f840e5c8f;
Adp 0x5e3e0dae7cd96992fc62157663d643181ca90e94d675454e71dce135c72cbb0 0x247e320d0206f4c8845804b5ce82b565b8f069f6563004ee415bce03cdb910a0 0xaf71e848da67ed3f191ca78bc09503dabdf8c175a1d0963c75e790a4d5e22d1 (-0xa42394476a44a12273505d31f95d093bb79003a510ec271a055669d1acdf80) 0xb78926c7d8288dd22957cf8c3fc2b02869e8fc002659cbc6eac94f6532ad07 (-0x3ccf9242cd2c2ef0c4b99cd069a08f703441edd2c33863085548334a40f37c5);
Dbl 0x20b1de64c7e8487dcd455d67cddef2f2b25d2412c5eda859f834a9ea682ce080 0x3ae567af4d08f341ae9ce1567b7051f85c1969c7825f0d43106c10c7ffd0f31 0x1cb1e33507c396bc4c9ce1c6d40a4ffed2e5578e831ba44816dad36a1583da2b (-0x43be1cf8fc5bc9dcec52b68b8638164248549c453d453b3ffaf5e07635080d00) 0x1616e7d02fbe8b1ceece45e2f9eda645691b012a3d77d3e7672d02228ca05f79 0x162b2ab7bc8468058b02c21da3fd27b6ad86b8ff2c9b808c1cb695219867035c;
Dbl 0x1d40bc28a67f95532d3d0252d08030305380c28fcb3d85d92f8d699b73dcec14 0x184cf4f0affec84e13d44c8c43450822df14d62f9ec6eda2e7ce0c1fbbde18d7 0x2b6da22fbf75b70d6359c719eb027e485b208721e2735a2cbd289bf46f4c9021 0x21da240ddc3bd06124589d60902967197eab3ecc7bfe7aacf00ae947c0b4c943 0x11aef14c72ab856705b2ec3a63d619824af6c5c1075c6ecdfae6bc112c1f3271 (-0xc76ed41185268ed2d2d74a51df4f4ad7d34bf31a4e86c7b19d03bfd53f7449c);
Adm 0x18eabd34d796557cce774e37e6cd8cf9951cba63e594338ea5113431c37bae15 0xf2c8fba0e122b4a23255ca126290190bc329b4b1c3e5912c0c109af92d8974f 0x2f8a73eb7a00fb76926b109bd3a8276013443b75ee45fe37ca5416ec1ad598f1 (-0xc832bb36357d883acc90ab3de80a111846c9d2f4ffadf142d92683f4c2090bd) 0xcd469adcf70c9f297041641b4eef51297a5092aa9f28f4569bf27abba5ef6de 0x4b3028ede3f95975d1a3cd16aa1a47dca3240ea851913a85e20826272d7d33a;
Dbl 0x5fe489e3d7fffba4a848d1daa8a10744ac891dd35152d6c15fd4619e5619b57 0x2d0ccd1e76dfca3f1667f731979439953f7a3bbfe99bc5a2c2f017e4490567ad 0xe95a86ab43ff267505e7cb38e2b1b503de13e14a8969613d8cd889974905099 (-0x27f9a6212dbd61ff7e08c544378b04210e9e551313d6c4d4e0985da73c7b683) 0xbe0520b227ae72dd530d3e3fe953c55377efd0d943c834fa0cadb325045f8a (-0x3b33ac100cfd8be1c908ff6a37e183d681ca97a7b0cd80f9b10d130ed688ea4);
Dbl 0x178dd10db238d3be05a57ca784a7e228234890e2fa835f7401aa2e4151b0c021 0xf4c556230accb23ac7cd9f95716b20ae92d5e9d413aa920f93bac78c9a632b0 0xe7795adfa2716622da1763a220ffd0b0adc6b6cecc74ff67a9103bf7a1ce902 (-0x6f9e8656ba89b9b21023562103b9638c501f86055ebb7e7e41fd1892fe769cef) 0xb76eb8584a42d07ccd261f5b7e950d96c139c5c7b829a61ba0d1b22b5b50b91 0xe7b32a965883b2687b1b309a38b409714c3d423c0b0af095ab36e18631b85ee;
Adp 0xcf71846985302ca1c48cd2df4bf52caa0afbb6fdf9a37a56fb121e3964be10f 0x8f76d6d66d2487f8b77ea6ea7564998f4dbe413b1d880635c0d0a8520efab13 0x2c2db01229ce02b0b9bf95e39f13d3705c7c0012939305922b3a18e4e4f7ca2c (-0x4194534338adf29a7d8e910e0359edddaf4df24f809d19d4c678fe3b79fec37) 0x37941d6a9d3db604ff3182990b80d027abd41c774f5a7e2cdcf31c1d197b07b 0x1b24697152b21bf5fd184e910200a36395192f85b77af90dac14375e456f253;
Dbl 0x3048a4c9858a606f35c924d2ea4d82fa477b713b8f092dfcaf28f11533a59743 0x2bda0da7cfa3761819acc6768c490ddc898860ec1b2b1202cc0844cab6664fb6 0x2d1f47a32ca9696b5e4747d39f21a1f69179dd1666a90d105d102a2def9d3c3f 0x532ce8ad58979af0617df481fbffc90ab29de484b80dc6cfafd0f0a9e7af3b4b 0x302d0af0549413dc8ac8cc9206f8eb8d5e8a833a08c9832bd4fa616c76791f6b (-0x22ceaf1e304b0bd3b5c51f25752087ff41b795715cfff53d7502e911b021e74c);
Dbl 0x2af4d70795ffecb8b97f7cbbdb1eb15a48478ce5eb31a111fd984a6dba403443 0x17eab707fcc92e21a3920d940870f79d7103ff70f4b597b3c5403c789368edb9 0x2ccf05634b7b3b409df66cf2fbbb25c7532ffdb77b8d9632ec3fb937e5c84820 (-0x271add919d3afe6dd4c4ac3f3abd6e8c9887cedd752dc888703fbe74c65ab83e) 0x2621aa119070e5593ae561d44453daf5adc8e7761c985ce6279e2c0e894b827c 0x11b22062c304f334abf42a68496b6a337dc164dd0687d2ad7653b32be7a76068;
Dbl 0x1f9d686caaed131e5e1e3e8a562a9de14617b0bc9b875093a2054e368b858a6e 0x19dce919e4de5932abb01baf7787df52511a866152f6ad96943cc5052fba882b 0xca6f4f313f89bfd38e5d60b4b93e3e35e2083d5fea45fdfed1ad5be52a0c108 0x17161ef5a40a0cdccc2dfffb24016ba1d6a7ff59117cbb4230b2c175f9caf2ab 0x14a781ade5bf21edbd18810ec05120755d49499e26ad29e89837676be56d16a1 (-0x14579ee8817e7487796561b63a279c00376bf49efe1cc8f0f3e127572c356bc);
Dbl 0x2ecf336779df206169e6a4169fbdd3ed34414a83755581222cb08226255ae846 0x21b6d6ddc5991a21df3e1f1ced3b5ac2ea84935e969d5526d138e41103ef5dd0 0x442e0edbc347db622057d0df46d8e0e70a85c38feed6f677b10f9729961bdb8 (-0x10fd8600bb6b4a07dd3d1ec17d9ab2b6d1614b6c8f04b98a89db924566f999dd) 0x2d4757a5ad00861dfe49fe05aef6c7435ae5ea1fa8534e071da6e4d457349a12 (-0x79833ea8e27b8ed04cc411015d563c302f5a0102f9314462e87ddda29d23632);
Dbl 0xa938eedf8687225c1bf938e9f63e821c166402074e828f332d6e4d4ea2e6ce0 0x20dd46493702110f0cb63565602a58517c1ace0127e404590b6d677cf4a59291 0x2b769408af33c6e5fb29ab3f64caa957ef39bd43dcdee199f60c4182c55a674 (-0x449a481bcded0b8b1813549bfe7bb365691c1cc959186c7c10df74c378ac9f00) 0x24fc1e52c8ba731cc761795c2919af85c5f3978e72593e65faa87c207c6e739 0x2f8ce8f58e373e30dfc3093cc9bd330b44a03c4cd1833cf668036a9bd0eb6c].
Definition hSNARK1_6 : list stp := [
Adm 0x232690a3c00bc0ae4b6f7a99a6406e2e6df84ea70ad1451cd72706f37252d0a9 0xed11bb80e0af6dbb5704244a319c3c08692faeaff40d66358fa694e11bd55b8 0x1890b2a7c5ebb6a645d62880a5134a3e4a661b02c42de5ac59cf087d83da99b2 (-0x17df32c7593f214e949480eb6eaf487352fd92db8d2c8463118a037c03f73596) 0x198856d0a9241ae001be09eb8d0bef4b1f10cb18def597b80921113e5bfc8601 0xd1bfa0296685e83788eb5162ca7c406bcf03d466a174b1e5b73ae18a140ed8d;
Dbl 0x357822816269a44c06c671073b2e8d170af17f9746675af2606a5059da83c39 0x2f52f71aa3259e6e1dd612cae233206b2c427f07ab54f6e29f51a695b1cd4ec3 0x3e856b9cd32b344ecdb1de1a6a5770b29d8442540549bc364f96d6fff73c807 (-0xa379b6fb9e0b84ec031f768bf7ca9e45908d84ab26b0c841947577a1e1836a4) 0x3b145898a59379d6434d26803bf9d336aec2fb6db97f6d1ac447b4310ee892 (-0x23eb04977c649df86e83ef47dce5d048a32687538e0704c05c89fa1b888b374);
Dbl 0x26a7c8e556132d0db44b1d47253a85c34ec6714ef7e5e82707fa6d7ca6e15240 0x2227e2fa9f171c6593527e0d1132c7905f707354c56d2a74f9d4efabf10df8c6 0x26808d53f5226a7f48123d0fc501c7d11115c127c5ac5859042dc101e48ce063 (-0x8498d2cc38b02d9ffa6cc1a2a67b0d1b6c4521caf2d1077bf110d5835494f68d) 0x1ee0c1de9b6e94e86ad68a5bd799f3d58538aaebde55c69fc8022676321242ac 0xa84d1b13e1f32afda8f775d87497e70763e9fb2153485fd4cbee01b61f4eb7a;
Adp 0x22dfd592ca8d4423cbfe3ee9f8673c858b5b4fff2e1ec059745765d3f5b87563 0x3db5da38ad12b3da324af4a92d6ee8c96d9247e4a41d24b365845712dc7122 0xcfc13e55e8323e693ec3099b5f3a90e11c2d097fda5c0f3d7e804e1f61bd49d (-0x189d6c8752110d7138eec3f555f4cfd12adb8ace94f2a6c21ac90641dbd2abc2) 0x1921fd2161a685b20a54aeb8244b36434cdc4ad40ae848c8b421c6f3d38ca2a0 0x1870f38cb4395030c75afe9b0aa3ecdfea79eb8f8e729424637c5cf7fb793734;
Dbl 0x2bc6ac7170b4450ef9c928dd5f36ff6ed6bbf210ceaa47e650d320e7b1598886 0x17c94ffe7186923ff541982be4d91ce8f37cf52769418263ac352cd99ad9fe93 0x12d328fa89986dd877fbb2cd196696a5cd2842c34703f0b3722b89502d5f2034 0x177d1cddff26be0e8c231a346c9fa185212bba823efbc6fd6c8ea4652cf386b0 0x2799bf949431587cbce4b827ddeff1fd872ae5bf8b2075241a0d119c83dca2cb (-0x154cabfcf5728cfe87c5bb032bb971a5edcec2a992d74dcaca3af952cac449d1);
Dbl 0xa19a0d34088177bd5e39bed6cb88a7b4bfbdf75d6bba4e08145cbd6c4f4c594 0xacde98eed13ffe34c9ad9bd8247e77ddbd0b1a25bd2078a6bb594d5daef1fb9 0x260b7749d8d07b616f15f2a417fecc2940576f4915ec9eadcd55af9e072ab7f4 (-0x1b37b485582e125f542716588002d73b3e49b2724214131b8708434a5d36838d) 0x21ba8f4ffe7897c4a6ac800658478d2d04c8d3231985731a6d9b2d23a4b2e47 0x2b5a4ebcfa3d179e33761a4a67eea52cfbc5b54c8b766261f9a76204781b120;
Dbl 0x6069e8395bbe44247dfc6e78011ce1472d7a56f55d65b85032bfaec13ef46f6 0x20e2dc7c563347253e062c3f0d668b287130d3ccf03ca2375f53a3df95104ceb 0x19788d08859e23994a5c971d26d784cbcf5fcfd8e9f5d6de2d7920cde97430cd 0x23cf0bd85cfa632c616e39093833885578e546a4cd689c6d5da7ce8a240adbb 0xc017207239443151154e24e4474d67d75add60a5bceb4e58e757d8918f1f41 (-0x2bfeaeb01cc4bde88b1b9d05bf836406dbd3b6c92398399a807d4bb55c1394b);
Dbl 0x66718e4349d7ef4a6a343e43512a54934bbe39132b0a818c3a994b7b09407d7 0x17344dc3e8a1c062a1d329316ece0d0edf6492f6bfe5065ba54bfa22aa5e6947 0x1d2b4c6612a2bd7052cbdafe99190e20cf095018a70c2e5da83e55c575df1199 (-0x3c4e6ee64d0d7d6f2c12050f93d45d4db5178aea3a5cd71bb280c8a73b0fbf03) 0xd8de775995e78954ee8e19011469fab823c919566f24b27b2d2e78e85e5aec 0x147f0225f36945f202751d971a689bc82434cc4bb3beaaba2bdf1eb2b6ee7fa;
Dbl 0x45c8a3961e8f0e435228fa47122046c65da6b8c7d7560874bdff2587a22b637 0x19edd8309df001c16f150781c6e73dd982e4b5f042f7d071c474e74578582c3b 0x304ece8337a5599cb57b86586f955adb20991143ba745f65aaa824cd5bf0d1ba (-0x1c1f40c73a320692651abbdc2dc0fb9892d45b35a0c8a625951262f398e7d283) 0x64a1d20cea58af03ed48465662cd5e89eae377607f2124d4d7bca354061ab8 (-0x3ede4a89aeebccf298b6407bf278396faaaa754e6e1b6b3691956c43ba17c9);
Adp 0x144d7d1801d7fc37a87497db8fb4526f938a0627fd4e6ead3b673229c6359f2 0xe05bd55a73f97ff295ffc91837a1ab40406385c929107acf8696b69f5e73e35 0x1583db57705767bfa8cfcd044a2141f4a58ca17f5b1743101982d8c359e30d36 (-0xae0e4e31486370a23e6eb5f536a0a6f381fe700bd2544bbb5e7a3a1cb43e04) 0x88498825f9619bc43f600210d317191046808429606298d6e10354ed80c95 0x4fed380b2b13c3a68f1030eb3a42d0e08cac12c37b95e75b6030b71b11ef64;
Dbl 0xf9311c2e70426da42826bd7224526a4ecfc996bae985879f5b3c279ebe8c2c0 0x6a495fcd8f7a4a3ac98c74f7cb3c6892070ec853598a890d65cc6ead1a3041a 0xb08edbece8320dba0eeb4e3b8391a9fa9bcacf9daf5469966547df484ef234a 0x1a8bbaaca1869fe3a3f983e4916cbdf22710d6452dee9b3e5c30f56770931c3 0x503342e0ce0ed4280698773d4b80a8110c7898c9d26f891332f7ce1c9acc2a4 0x26001fec55e78910d668e1c9a1acd54c1e78d5c88ae5c18c381e33390b53840;
Dbl 0x303769dd8eab6c29ee2c76b0d2c79ce1c7153c414e5c8829b22ca4c934eccb0a 0x1ac44a8fa3597b5ea396221d1a78a3c4c1ed01599fd5ad8ab64ef3be6775dc6f 0x2a75de2758c253a2c88b7c96a688c07299d6b74995dbc21501fc28080d638b1c 0x13410c1f2214319db5098a59785c8f4d284b0530de9cd3f028bba9353fd42944 0x300aaeeddc0060492a5677d1420ab1d4d7b3ce734b2ee7695ab69fe7f409c6b7 (-0x140d095b465104a7fd8e8aaeb53b06265001e2c2cc4fe5d8fcfd717ba961ad88);
Dbl 0x29b5a6479253145ec6fa71b38a658cee0584e22183245f0f78c78484497e41cf 0x118a5ba9750df9a89f3860b405e26abe2a255bce1155a7e07e3a95525c77cdc2 0xef7a1a8861c051d666f2a82ab46b37764f887a964b06409635cbcec66912adc 0x1cc73cb3cee910a8b09c391293128fc3a9c2364dcaa02c7f117928adf6318073 0x23f3360b5bfbe951dac2cfb9d8482aee3030e626e2452b431a8b2f47ee70c7b7 0x7f3c844806c8b2d61079bfb5d0b4a5ff4cc8bb5eac5deeaa4350ebb273aed3d;
Adp 0x8ee39b97844871583f0c5328056206d28606439fe94b203dd62538b1d9739a1 0x4a497fc907aff8c5dd3d3f1b702182a61a736df65ef0614b4c63663e235606d 0xd036c3b2ca7c7370f2ad7720aaa91f19b4bd67fb3f41ade7b434a1add6d7451 (-0x33caeaf31a16a48aab50c93f2368cbfecb6dd8687918fa59e2bcfd70d0baec1) 0x1a5ea8b01927c0c0a0ce661b1bb825baec14e164c4c546198bf37d8f4fab2e7 0x26154b56263dd75398d1bda42f80db12aa9a61a54d84a5b7eab5dd67f207178;
Dbl 0xadc8e12601996e2c755bad097f6814f539072314d2ae99e4c9f90b4498f2035 0x21585cb28c3d9c1039e25bfbd12cdd1fd3f8ab1d21a6d23a802bbbc6da5af373 0x2f25c5cfa5a686d23fd3e48115c86ce5f99b91cef0a59778651764893583c382 0x4815b767962615cd30c134f097722ba3e3c663ad19b1c68cc74d9740850bab9 0x2701870b7739fe8096c331d52783a3db59b15969f2df19ac04fcd6cb37dd9f4 (-0x67134d4dcf3148048691d2ca4991a39f950360221c40af5dab415833118bbe7);
Dbl 0x167c6c75c9e42c5bb3aea341a5548b08ace9566752844c3ddd4e16ecef903540 0x249fa95f47630a8e2d5306772d7c59ed47721d06f29a64179fd5c7ae65475800 0x69f4b5814337bdeab8df628fd20d7f744c54dca398716c0ad4f4c9b30a0f64 (-0x191d8794a7557730ab6d646bb67ff74f0b04f92819c7f7a03bd70b89ae5d15ad) 0xa72d057ae745f9826fc48eb679fa3321d3cdd2911e44bbf8616f9ea16158b16 (-0x185fe6e438c75736ecea6c77162940f1bdeb376225f2a3cae37759be1db5aaa);
Dbl 0xf2ee9db8e046082458146ea32f66575233b4994d330045d4cb133925d6a6b71 0x2da360428821313386882834dd7e1e0d67490eb8ef733315e358014649f0f892 0x27f2807aa2e5ef7dec69badf45f259e7d3b13ff1871b36eacb8691398da88cb8 (-0x52e4729d648c536cc8ce9dc177917aba7f63b521fb9bf9da9096540612759c88) 0x4c38b82186f2f450e6ceabbbb4d831d041405cabc73250b0b6b1b4d595ed1b9 (-0x2d40f8c73f1d1a73424831e58641dc4f260ba938a71416ca0dee8a2e72e3802);
Dbl 0x5a8f4d37d8eb541efcb77e6181e4f248249c6759702f2475885090c4564ba63 0x75163bc8eeb42b923b587c540a3e857a972c26de1cfade18e2afa9235833c47 0x2692e779f371aafaa868fd0350c7641124435478ec6aaede44a49aaa24a712d5 (-0x77c77546fd64c87e2057eaf47d1d54dd2d715581cdb26b6b427bc0887068cea4) 0xa978e732466d99107853515d2cb352e416ab8ba16d42aecf3243c7fd323b32 0x47b6451d244113a6e7327e37f4ac045132d16042724dde9f1ce736c3d063eec;
Adp 0x293a310e2a403a2d28e73c9ee6e64984c4fc8516a4e715e29596dcf2fc6653ba 0x103b34fbf4c63dbaf52b44c35d125b90f2223bba2a04f2c7a8c11ccb99e9d0ac 0x827e309981b33d23ff9688a707440fbd806d882b5aa77d64b1d22021300331e (-0x63c07c3822a68243cdbf4f089c762c3b5623363dc13d8e976b073fb2066c62f) 0x231f9f1170825f6918da536bc038dbaf85aff4419a0f0a356b78953b472a9050 (-0x797fd50bf75b46df173213db586ea0cf0caca72e2192f452ea3ff11cbdb6d83);
Dbl 0x1a39720eaa39bac770fddf647ee049cea4a50c1191a5d8ef605449f929adce34 0x1ad4f99371249ec06d3e679aa8eea0031097c4885259d4ba129cff413a5f57ed 0xd3556bfdfd87cdc02986901e5115d75383036608aed6c41934a0f9e8e13ebcd (-0x77e366c39ec320e38bf9608a5983a96090a0e9eb3277f4f1de12c244bbbfd80) 0xe3622f7aa393dd6a3964844cb0881eea580c189c5b5835ff60b2b447e0a8ddd (-0x5bea3b8a7793d21302beea53a4d01511417579d9f792a94980c5784dfe6dc69);
Dbl 0x1c46ac2077579de134086fa961c32f49e50627e4307097c1b02cbd27c60cac3b 0x759f82506054693b31e2555714dd5834d446147437fea09b378fe51b02b7b31 0x6bdc54bd2f71edb38d53a9357cbbb8754c32c6d0976ec359127e086725eb5cf (-0x1d32705fdd8bfd72c90c2f8f69dd1f7a3b5ab26523ecc42c7ba2cfcd7d0400db) 0x1085aa109be90de61828f967b2880b83daac2d6ced279e86bfaa3b851f3b5002 0xb61fb57af32d22fcf9856f27e8f0da65af726b8bd034fa015dd63dce67f0088;
Dbl 0x256f63008c768a5d176132ac32876fb17d1a3f10b7e1258cbd6234e214135f2c 0x2044212a0e6dfb9b8bd18bc777c23ec946239ed335948ffb215a7f64ac60ece9 0x16d896b0de2d4001ebab3ebaf21334b360c91cb647a95fefee6a30f23ca29ba2 0x7145b51601a07fd63a150b7377dd632a85928d8ea2eae588db954952729b353 0x1cf58c386986816409ae2f2f716e0caa4d0faa428262c30a26897c04f43d0013 (-0x134609c1b61d71e7d21fea213863ba12dc35b9ce6c6bdd39f5565f4e9e4496e7);
Dbl 0x2ab4ab6b908853631de8b8ab2ec6cc851ffa67d205f99f4ae8d8e049c83d64ae 0x19fa1b5a1f0c3edd8efc655f310b62e0412da28c525c1eb89de66a3048d4151e 0x30613e37ba948cf5ef23a6ecc9e12405f73d20209b4631f727cfe57b0e87cbc4 (-0x1838072687d36ea85ff622b7455dd26b8de365c0315cc883e4df4b6de9d3adad) 0x25b01245e58e61bb7495188d9ac3cb36bdfd9cce9041a018e4403f6ba244a80c 0x58cd7f81d7812c70d3d24d47600bf1156d8cf2d21ca2535f34145c3274764cc;
Adm 0x2539d20f81c182880125564fe9c25bf7ea65a5b591a1e963bab3d97fc0c7e8ba 0x59b9f8ca6aa4c262a9b254bc2af00f8733e78bcfd8071916fa35c6ff17a418a 0x2f443750b12292373ad108b394ded69c4aa82c1c8d16a0cfec48588f649043e4 (-0x13fba828215e49ac95dae370bcdd3e47614d4e03a170e7d9673534dd17f48854) 0x1ca2e74f3df07be3e4043c69dca91de0c60a2e608e0753918dfe302851ec5d2d 0xfab4a4eb0ab4019494c53bb12f22f659aaa384a336fe223c56bc9fec9255720;
Dbl 0x205c0bca38980b47a2436bc5da10c6178a88905d2765d1ac14ebbc595487c76 0x1db1b35ad07205067a2ce1b56376646ecc7597d7d716880c8efbdd6663ae5a8 0x25ed63f3d46f907425cab45374926f967025a209e27620855f3201b7f3b75ccd 0x200526a6b21729aea0864a4c114bfb4eb8bc6c353343e2b8160c18ab447bedc 0x15a3882c476e92b4e940709d6c51782d685f4dafdc8c458c8e8e8bdcbd2918 0x2824beba7d7a72624f0220f45b848160fda64f2924e66c4b9187f49072f42d;
Dbl 0x190606ffac1d3df77055315017e98bb3bc01783e168585a8312515a47ebba56b 0x45f7c7c952cf266fd4fb0f600862c4b1643e8b60a59edd4fd0357fe346ffebd 0x29ace61ced3b75a523b406d5af3c5fa322e2eb5502ae305deee582f3cc7ea6c2 0x2702d7a360ff0899b132872a6982f80ea889f25f86f54d7a55494f156440e772 0xcf093092f6abc2b47d5b7f761ba7188e0124bfdf0601670cdc3770717534ff4 (-0x14d35ee1bb791640e531209bdb22802346fca9be96f693596faf423970d47fa);
Adp 0xe4d994307f26ba8a2bb88b2b6a902bab917dbaf228f7594d7e9fe66c12e5eb3 0x2b96389497d1ce615155ea707b3e24009c22f6fb72f89cc5e45a90dc36e96dc8 0x2aad126e207aad6dcaa4ed8b63b5048e327a43c053504c6dc9d45a5bef859252 (-0x14ae2a82f8c42c5f086320788c33688c0eb71f031a403694174783260db95ac) 0x43a413eaf93e1d003ae6c566ef9b9c7f3118b89c3a9284d85f8a7fa9609fbc5 (-0xb9723643a151012870f53b3f3023b91b7d06c1886235cf94218106254b8c893);
Dbl 0xe790ed192e05461ecd53c13edfebd0111eb5b6f1f1ba15685957fdca6dde5b8 0xa02270d6811bfaf119ce7d557de75fdeb239177ef7542f4f2d93fa00a9cfeb1 0x1cdc70a6b7b2e83fe078ce918d849c3308484a9f81c601271d746300f95ca109 (-0x5c3ff382e3e716e3b333b10cad0882104e1a5c5c931a14550e83796696995e20) 0x45419032f883ac3a38aeb97e1de88ee7c7b5a1035add16f5e2dff1f9c51b989 0xa0ae2f97c626a106c5381024ab8de956f9375fbfa45086d3c3e11de621288eb;
Dbl 0x10e9ad1c3abbf0b4c1029630d312881a946d4757ac34cfc07760aa3b0efcc87d 0xc4faed3b93d1df37e3cc7569aa7574d65c311c5a1f4bdb43efef7f02c3db80f 0x16c70dc402cb23f84a582c51f5efc88136a1a3fc4e84b4fa2eaffbae47938394 0xdf6c2b37e3233f64b3ab77c1302e4bc919f608df5e9b2e7aafe68fd2dd6eaa1 0x5e9357d52965e1135f4220ea2e96600a6b00cdf843239942ada80a7ed61d7a8 (-0xce0a0308be3ccdc86de027b52dc7aa989988fec0aa06a6b97ea661a665c1e5);
Dbl 0x17b9eddb69ec7c7440d2c385845efc10e02551acf6403bf75b4b64a49ba5a01 0x2eb947d5af027d27e787ea131d936293dafa40bce1e57ea91850a7f087dd93fb 0xcdbae45e2ae35d4c2f8be033c4decbd6ed9bbb73d501ea7aa123309670c07c5 (-0x800125a642a490ed63ef5898ce51a4f9b90f57a2fbd1fd3258d7cfdaf3b3a2d) 0xba204eda25f760db0a2750711ce2809a35a967a27e3c198d0fc565af424d8 (-0x10df4e0a2e538af83e9ce3e6a3fe7b4c0065a93c79bd8d9edb0e060018f5513);
Adm 0x1c4280fa25ac250957fe131c62d02708fc737d51a535e93dc62ee4a6fd44e278 0x2c62a8cf028c028cd9b63a88dc34eeb2f541147112ad4f172c9b07eb95308fa4 0x2c0415bf372baa4a40081851897f22dd8f89805271032cec8b6a3f19dc9bb624 (-0x1b4921438f4e186c9eb923640c06122768abea1a1eb86c6943fe64b114a55bcf) 0x1080cb522c2fb87c295e0c6620f1a221fa113271801c90993ac7029192523660 0x15d94f564e0aeb5f39535f733bd0ddc726695b69ac560d760cd18b9129f73a9;
Dbl 0x8e040dae17124d0da191ce147d65acaa8f84ea716499f8fb75a41633399a15b 0x2b9dd30a75a29ca52955f000d39e4bfa413dd83c235313b781a97832485ee5df 0x1eeeefec22bb44659c9118f8e23e6563e3bb8573a09274e13f06bb5b1191bc8c (-0x69fc3726a6399bcb860f0dbfdebb54d15b8754d5a55ef7b87899f5b1905161a8) 0x1a0c6602d73fadfc554b87272244f817ebf79c8b7ed72dabc3b0981265ef63e 0x241a7383ef1dd92f0e6d04b4595df33a79c3f873393d8e6214885aa6338971].
Definition hSNARK1_7 : list stp := [
Dbl 0x11259bc0d10c8fde31d3e295fe89b9e0cc4ddceb5b7a877abca7205aedd04994 0x2b11ac5d3c62eb68477b0e2e1d76c8ffac17fdb8fc30924ea78e1498d1c53f18 0x331996b333b7d0279e349ae91c321f5451b86c8bb6e64e21d055e33a9d9eca7 (-0x600405704f49970eb12e2af879ded35a222c212f0eb42d8d201557cd4fa5ff85) 0x613642159518e3ecd34360cef1f2e107c76ee74ee90a80c44778b0829f46c76 0x31a9108d9d5eeb23f39e68abcbbe7e5b64b951ee5089be4e3327dcb7f220df;
Dbl 0x283ae84a20293e0ce83a51b1cb32ae9b7ebf16ef9ea1a0ba2d17492163534758 0xafdbc48620fe7b4fa91e2d322b6368444ed1fc89c6625f1557475c7d6d841a3 0x3834ca8533b70a2b47fae4e0be4c40c63873ac0e2b60c085632807268a5de04 (-0x6daf5aeb0a5bfd27081b03d2e05363d73fbf3a79a3f575bc6d66af912af10690) 0x2171e77b3ddd5d1a090c23cda875dc5c1ef987f0cd9f6bbf83a7650da75e00ab 0x1aaaebba0b64bff60ef0f4459c15220daec3445579b848af6e8e9eaa99ff258b;
Adm 0x1c1b500b0a44d28f583431b54aae90137556b078e1b178b14fe4613072cd3e95 0x983f2b525ce0aae75a07e070847f6843cfd3562a225d45971f2a2306f24b814 0x559ca480fba8d6d4294806dfd0d713a44a9292a7b07efc2373d9003333ed1d2 (-0x662426993b351c6a21668b3fd14ed6d0531e9df1ae5c63fb6c43981b8ddf69c) 0x10532506cc2864389a02987eb9340cfb3ba66089efc99b287ba9214d8d3c4b77 0xdb6caee2b5fdef16b6a050685e06166ab9b5f4afd9ae0148c6fc0d7555a8f3;
Dbl 0x149214e5dbe70587ff0f61a06c13db757c70cd62c486461412008aa7823f3827 0x239f687e09fc28cfc738d70c46896dad875f7677411a24c06982ee577c8a6875 0xf9e1107c1c43b42fea838e47aaa7fb85b6bc5e8943e8b6f7cf4494ff34470a6 (-0x110687ba00df19d37e89a30594ed7a2aff168174f0319b7bfa1c2418fa6ddac) 0x8be8818a34dcd0b17e01c317813b7048f9bc0cfbd80182d6b390eb58388b20c (-0xb1909ab0a3c1c3816664ae4832694d7e862bc0b859a2c92a501b2082bb5e049);
Dbl 0x9a3bef7682411722160861e27007b8de5185ce265fc29c789be5762218e0ebb 0x93ddad36db6297a79e214ee846448257223ae14b8d574936679e93ea683b2e7 0x1462b8cbdb04487db832b0feccf8b65a7a106f693145518039a1a8a1500f81ed (-0x4872646e1aef575a5fbc93121f659bbd8daf2eab7b1f289d83e7e5a8a7a6f261) 0x1eb92f5d2577e285d4d681539647e1db926ed18eaf98e7188d885c91e0604f8 0x5414e2701f951faa36de95775bdae69a8dbdc87cb81c33a9440364cdf96e621;
Adp 0x2b6bfcb173e1566aaa9a72263379cae0069fb72f1b4bdb81c201d3264e6b9797 0x498117c207e8c3e39740ee6f96f3f82e01a14582095d6ffffe97d1dc0f872a1 0x294849c4a879329797175b23410acc89438bb5ac3518221b7630bc86acd1c6be (-0x84adfb1e4a6aa6d761e17abc441ae67ed6972b931c51295acfa5381870227c9) 0x26f656ccac6a923fc6c16493ad82707a5a0f0708e0fb3b9a2e57e62fb385a238 0x42b976f9dab94fb1db42b5b56976cc12d112e7ca92c2593f44bd02d9fc0f3e9;
Dbl 0x4be13a2d3a877e95195a8759378bb4ce60ae5dbef291ed478378e35746de769 0x728d9e1455d8fd618a69804ace45cfa5fd552c00ed40062a69de6147df24348 0xa0e0956ac3fe04d39c6d54b807302d199e4196821d248e74a096ba7c3b98098 0x6c87a3b129f83e01ae5561164f7c5450abb02aab2d21c59265f6685ec23379f 0x76fb533c7278c64b62f1a4e18ec7bf36681eaf01e5a4fda734b305a38002c1 (-0x405daca769e3648b94f97ad1305179a6af95d234ae67bffbc2a0af76c54303);
Dbl 0x816b8960c10165858d58318a43e98112b88350a4a27d2e122a8a4b98c65e44d 0xcc8c4bbe9b6f62cb1469cab0153dbda9b3785398a72c1f5f2ff2b01800c1370 0x26a750ca6bb77d78d408514093b471fae3547dd384732aed131108b03ba79c60 0x2efed376c37fd7ac191321da21e8cff225c51c765eb6bb08cb35bf259253d0 0x15a1fa65e50179b9924a5659af266e3c1c65ab0cfbe5d7a4d407b508598c20f (-0xf0af1b2e7cbaff9d7d103760e77be5ca5c0a15d7605b33d9e05dca9e955f00);
Adm 0x1de9fb55ea3ced89b02d207245f783c94aad1172636e8233f2d5b34100d9630b 0x252e55c020727b9042d40b5ccc645c5b84c989bec82238fa5e9259931b09ac61 0x514a707be0e856296af452c40ef7677a19d1cee786814fffcc3f6be371d963a (-0x7e719fca6d65dde5b01e9e250c5922ffed3353bbd96af042afa7ed3d4092c05) 0x127ddfcf43f6616ca2ded783d55c2fc18b67a81502b419e0419366310e7e3fa1 (-0xf14c5ca030fe2a5f7b9fb9949d1ae20947a47b3955764220be3bc7eea818ee3);
Dbl 0x264a77b7fe7515a006c7d958a6f30a8686565e3319c7c52ab5b97a8b6d613d83 0x1d9f92cc253fbfb04dd51fdb1192b5ff78ebe4150463946c971b6fece589346e 0x28efc5bdc62a5af203d4795bfae3c3fbe150fc56f07f50f7dfd4e8fa85038fc3 (-0x4da966c78def9ee10914c818286422b407d3fd887b87eae29c7ac4b259128d61) 0x1e4c6072bad8406cdfeed00b735470e5ad1b5c46a5da0071d1a52151ed00e5df 0x5faea1983c9c10e758466badef509974abd57dec7baebe1a72649c4931808c4;
Dbl 0x2b71b6f9b87479f6881ca3089bf3c8252572ad14c1758d3db1f2b65ea8c55bcf 0x122ef9c660a25b84c390542ce121dd7bf374d5bae67d54a6933030859277e118 0x29eff9029393ab182a2b06878125f610460ccde92b094e309135dc8ec92dc0ff 0x1319a311479f740561f8ed5a8b50cfa52fdb97da21afaf13074fbef2b452c102 0x27009edbacd3bc70bb4bbc343d4217574dc583b5283ffaffb9198ab430925fab 0xa452cdd66067f1bebb60e655cdbb14557f0dd407a17f879401c133d311401f8;
Dbl 0x89433d7bef9974ee585f300055fa900bdc50008805bf5deea0a060c7ecb8aa1 0x15e1103d100a2478a377cf31ac78e1160178b67392a155005bc34f030956f80a 0x1e77ef390d1de0725f9dadfd9faf9a6336f0a628a704308e622514634f810083 (-0x5a0d8dbcb92e5590b73e69b95f90c6cb376f7d1228aeaa4eada5b437b98feee) 0x18557e9b08c2898ee9d269a4ebe2c8f07f0aa3b6caeb9f862250d44c52b9041 (-0xa7b9034fcf10f21fa73370f82c662a6de025dbf576ac5686e2e40a9ae1c8ac);
Adm 0x4f778971cf0648aa5874b1313229918b3b04113d532837dcbb07602ce8ed1e5 0xdac510091c9eff0449b51bfa1690fd99436b815ef19dd66b4d8703a9f3cb0ee 0x2024795e7aaa5a125c75639e0a1274fa5b9b449ffa8efce94817b62afd92b7b (-0x23edd27eafa023672a91203569a7c5091005629f2750ddbe6f31f80a1cd2738) 0x827f450564192d265c157671c8efa13bdc69fa13d7aee6a5ae8922094af320 0xd79c15422a6ae9359167285a9ce7bd1393ccac3ef2a9dea08b1ab08ff4e282;
Dbl 0x461c85d4404909e4658638684f3a126d899dbfda76618b721cc90c5744de3c6 0x2a25319d3d3d7ee94034aa7804d92f548dba8393aaa7dbd19e861ff9b8fdcc28 0x35ccf6194ebb61073670039d052add84387d5b81ac3c1dc9d9dc6d550881ff1 (-0xb39e7deeeec69ebdb7e9f6520d31ab34f377273e06c718eaba535bf98b21438) 0x6594519a84e9d9d6d62e75431bcf7e12c49c783293c86dc303f34ee56507e0 (-0x29405404b329382110b7d599a9baef36c37840dca355c4575cd3817c38ef978);
Dbl 0x19b4e8b6a36851d8511d22be57d260e7cfe283c3a3094053baddfbe0f7202f51 0x3031a40ab54e1c1c5ff54e0705c7a502b39edf14e57645a368e6e2a4a9e156a0 0x15c4ec09301f5693ada9bbb2c70c89f363a5cb8f417ac86dea022809c769f110 (-0x6a8aeffc693876dfac080efadce6ba64e2acdde9f162af3ad28eb822688556d2) 0xda7e81ee3d917ed3249827827a5489b4497b640b1901952d7a9aeac59380647 (-0x33690ab8a1977fa7d0213cb7f3ffb7b06d83553fea654ddc407dcc114d907bf);
Dbl 0x29653b3ac75cfbb0d11343246f2b263d6937bf4674f55d0b8c2769f3cb743697 0x4feb4a93be9782c6a56ec4a695a6016bf5065cd0bd72980d8cf68e537773c98 0x1b15ad594c2559b0337e9e3a439e2f6ba3c1332b538b6e0ccdf315746b4415fc (-0x6abf25401dddeab284e332e90ef07d529bb9334f38f1b89fb725c2a0cb962be0) 0x23691b2b24927e216d1e588dd226d00980d174f3af9db65b42e748f08a261b7f 0x24f40ec552920006f53eeebd68cc0dd014a58856b6e4f4fc8abce66529dd84f4;
Dbl 0x1f32f77d3ff5368c1f4d7788afbc139230e99f499126bfc54d2bab562e4ab7f9 0x2c51e0ca099b8cb2f352082fbc170f77c081eb7aab4b4c7084d059a045c21118 0x19747befa6c67e80c909df36f08ce5d67edc9e4706e8b1f4498e50dcdb6ce388 0x216093995e7cdc734863e9a69e66b57590568a374784c3dc77d568e66edfb2c8 0x141d57c8fe2aa9387d482a91a98625539faf178f83cb883d7b4f758c91a95b4f (-0x195a7d46605eadee6e8e731f1d218beea731c1d5b7ebd6c9074be89bd2a8f7dc);
Dbl 0x1a9016f2fd92266d1b45e5291954ee7f74026f5df250054cb00f67ed6498b903 0x10f02458a41e73b23f791e2074131df0ce5481e665fce4bf2b7c9130f4d56e0f 0xed6f67408de843fae0c671cdf648faf9bb860e9c172ea1a61bcc812d95e1a91 (-0x5dd38bc44b9423465919187db9ef1648daad797f2dbb61f90da818a308d249f0) 0xe94a68c3768970529c081dc36ffa57208000f26756f722be719f9eb549a08e6 0xf07ba600480f91dc90207aeed6eaf22abd099547cea9c85d8804efcecb16cee;
Adp 0x1801a93613c153016e2ae6bef60796bb67866f65ae2de9259db128799484bf17 0x2bfd1551d347144c940e76f555d3ec61f53bba34b141ae430f463965a1f72cee 0x287befe445e91ef53d238f3ddc1edf4b629f09c16f650673c32ec102515af8c5 (-0x8671908879c701f5202e0141c85bcb1531e820473e76981d05b64b61dc05d35) 0xbe8c6312163a23208351388b236e5d982f6620632e643eae9c898df9f1a9bd5 (-0xd6b5d2cf3e190405937d40c71c663c9173b1f96ee63bbe79493b6155273a629);
Dbl 0x2df04c2dc9f1dd6a0b296b8da1c797148f46ed79b251290cf6a479d6c7b2a460 0x124d2e22393d9d5f407fa20abb04c5607b43132fceebf2d6f3996bf041d520af 0x1f16c1ff22291b958ffd2c46787dc9cb95c1c8f96b5e91cada010382774c28e5 (-0x2b182dfb4b64c6fa679f7b17ee6fe14572c8da9294e6ff9ae28ca2a96eb7e994) 0x2b9c1ff226fa9dc3a7e277aca9007929ac0753cc0ffeec2b04a7c4533ae01163 0x18628bdc5d4ac2279dd251c00f40213648650162832153d076b94ddbce3e815a;
Dbl 0x13cbdf52a74e874e5de6d76341eea0e4c6dfaaf76c2c08f4300327ec10a861a2 0x2c69471ff22aae64c109d7d8eb608eea0554a54f2344a3d270fd5ddec87e4c73 0x8ceae4a0cf15a6b1e43b9f0e36d4b3e887b53bfe4cdee667afd10f2d5da1df 0x4abe6d46b0bfd24d15bb52bb6561b3e2084bf75b4738b604617f3f8149e8807 0x81930feb52bb0cc2af283a8aec0ec28fdeee7b51733190090fbe7fc1395eb35 (-0xaae5d7b4b04239adb907100b09d9a812667031f3431bea08232de0282f5eed4);
Dbl 0x2f1a8d7f619caacd1e7f3109063fa15cfc7550b9e3a7f68c985e1cdd32b1c1c1 0x1b215a85f74776bb55d33e2aabc80c38959f014eeb62335ddff06eceb69b8854 0x254427a1d02bfb415e51be5718d96bc5d848cc6562e7e13a2b42956f6e1da351 (-0x7933e1d1ee080a6d168218c7f0bcfc468e39431f55c35bef5fa3d3d48cbd51db) 0x2dd99391a487b2435aeeff3b0eacfeb658e764809fd6bcb92e214ca04a096301 0x10d22ae63f6672f28b937e2c30e0b4805f66c434ebb90f01602dd6a8542d9cd9;
Adp 0x1ed6a5b2d0f7e34a7f771c4051ab90ecfbbe1eccd3e9580d91d41805bc02aa71 0x1957d1d72aaffc4e3aaf3c303f1fc034132bdddce7b0fa6e64847f553c5c6a43 0x273af2b68b7e5b13c6e361642c1e976587da221fab60b77fdfcb822abe023935 (-0x114a09c3aafda5f398c8a211071060d2c5a772271fc9eb65419707b5d492f80c) 0x13a6fda3183ec6c1495c1f10b69933751631d9e07f87658707cc4e29ebf232ef 0x12392226a81a084ac7e728eb09595bb5ac683f7ee79ecd2bb7fc76f6b0a26ad;
Dbl 0x3f90020ef50ef013183acfa6cbdc41fdddf6464616279bd987de482ab6d8116 0x2369e35d5c270744da58137803ee3e7cf0cc89337037d881befef33f82a5117b 0x12cf959d3b957b7e198f5587bac121b295da0fb51f2bbf6dd73fe6844ae396d9 (-0x216030b0bbecff26dd83a07343d3e21859e67917d6ea0c2bf7984365376a6e09) 0x537d3d6afe98a36ae5a2ca5c20070d7cc133b64bd46378180d7658539dbe85 (-0xd3a49419a0cf2ff250db1ed92ae92f7d9ed7a16496041143a2cc632f161932);
Dbl 0x17b2670480f64263c86f40787394ef11bada6e427a6dbdbe8a5b0ca3379c68b6 0x23c18eba6151f4e9b1c2f9705eefe769a625ec9a6c69f00c4b35b4dde503bc8a 0x20082deb8f4f410ffe4a69d3b7f324334a2f2e737f24a37fd9f06621c96f0b0f (-0x3b5342b243ea9447ce33a08af3d7ff2fd7953ad3c37e6d5be1ecddae7a5ba6c9) 0xb9aa4a87484b1a4a8be739cc07fd49061a3f0e0acffa53033528002ae2150fc (-0x2aee3db39a289efa1580db627eb15e3b73b4f138ee9703236dc6b6f59935de);
Dbl 0x1a10f99b8eb7335dee5cb3987e197b0b1136a3d9613347b91933c8d60b79b440 0x2297fc78778165fb6a8ba896f3282ee16dcf2daa402cb8b6e9c030d7f1b32140 0x2834589f49378448e2d4e25f14355a72e50d05f744843bb19c2dcf14326b4b9 (-0x2cc0429c73f6d11500a6f133811413a19e8264e4eb32270bd4d1eaba75d9d8f4) 0xe0a67c9431cd626174ea67da8d09f91cce9fc93dc09d9c25f363f63a09082f4 0xa04980c7036fc80bbd0717e6bc0b0c73c988a8bc9ca472eed00f4f1c398b88;
Dbl 0x2821929916f7c0550a8820159d9527079e75b13e35f50fe129f7ccd13491b04e 0x1556f8dceed248e05894ca1e4f99b1ccf0c3653766fa49e360969e92c3e772bf 0x80c8397d076ec9be466d96e5017af27a6770625471de15b16f2c70f4df27122 (-0x46059ed7d0598d87d937fc606f13999028bc38ac02db197c0ec2e95adac9689c) 0x2147d51a210a8045fab12dd1aa576a6e0a0cd1033331e3f8acda189e257097d3 0xafdd01bcd9330c78683e3ece71c792d69e6a4535eab70fd15fa921590ca6c75;
Adp 0x2afb6cd8dd4174876fb647624eb274663b462d4f1ff555b5a8f7d8d1b3a4b9f 0x198282b45b2f8645ee19e54bba62643904c077459ce03f67eaf19547b310836d 0x146bb5f7e0767b02af1f340503f78c969b9dc0fb9b8fbd01fc04521935bf6a95 (-0x12f445109373418b8ca3d9a470cdedef935688c6b954867ef155fb4fe76c50e) 0x262d5be4fa31e52406862d938c45b02294009c51db7596a949f03998422ecc (-0x3b432ef9f420c55d19345d411c35350127209977f214b3f40ee55bdedca06f);
Dbl 0x1737025e1ad137f6fcded04796fe7fb752ac3b87651968281128aa35c04b1901 0xda8779079ce159414f3679446edd3697d945c6ecacb08f7547703fe1e7e135e 0x1add333ccdd37d1824d862c2d3d6a2818223da074f0f85c65c8e6d8a9b45d4c (-0x14bff2a3b7de6cbfc9ca868ba7a2cd3ead6aef3d9b401c9aedd8e90440cfede7) 0xb23062493db6f26aed308602564e302ab0a47b6d946102d238e91494be28a6f 0x5af837c33432f2af4da4ab0bb09d44dae7b071dec41d04c7b841b36662f8662;
Dbl 0x17fb9f70320653fbf75b45c642f62e505fa7bb68479573da6587003b01688473 0x2a3ed3e059a4bb9d9c4f59b1734010ebfbd729614d10a7965a32661b5c32e469 0x595d91ea7c37070e0a715ec3b26b96bad4712748aac4e97655e5a5d0d5de091 (-0x9e67af4d31230e1ba63fb219aef1b4ceefbfde6c1e1b6ea23d6a290615e769c) 0xbe2c946161d8db8a0fb98b26e18ce8295e64a9c17a166fd75d1eeac628eed5c (-0xe2af772a1ea5ec93c0f00dbd377df8858f453db5cbd313f5c7a0f60e0240ec2);
Adp 0x16a1c092d3cee3b45250b2840cf56119492a00075dc039fc3f2794accfa8bdc4 0x2b2597eea9c80226ce889e52a83c842f6299f3200bc5a733c6e2673e847cd5c8 0x2d160dffc7261e7e45d208d31d8fd74d9b494a87a44e873e74b5bcdf89348bef (-0x13c1de7adff720ebe1e97c229bd5f97e27192db3f226f466b33b3dcb77f2e4e7) 0xa959deff6276fc1e9ac2a10b90e94008bf6bdb97ca0bf700b990f23d9d5d432 (-0x6beca3453457c96197d43a587ac2372e6aa7ad247e266db7f7810a2e316fe4);
Dbl 0x978ed0826091a030ff17d66de9b007728f79c70e79dcf6c1bec95a922760822 0xf333a97addfd9fb6d2ba72b2e66a7a0ba01b0f58fec937e9ed106aa8ce23290 0x1b79cde0b51c2b45e797ea69ac7dd7060be1cc6e1b7d6e53b94a8e72a842770c (-0x61c2ad78681451e062c65e6fca1d6b74fd701380c3e76b9d79c87dd003b99e9c) 0x1daa99fa3ee0a485a838cd8ea75a842c87d91fde6f424be2e89a020239ba87c 0x5786af0d8e57fa3503058372ed8bd65b587b2dd8ea888837c0d7548b581c863].
Definition hSNARK1_8 : list stp := [
Dbl 0x24fba357ab49d6fcd8778a36d82f44d33f0028512356b6880a935c20f529a9d3 0x202bf3d8c2ac39257332a2414ecae2469085d63ae4efc71caef3c2cd9c3d269a 0x16e04263eb0be6ff45910d989940fb44d2be0817c8dacfe8b43a31d40f6098a3 0x1bac43afe16230aac7ca79770f15129e1e525be07e5a2f1baa76d4446e07caf8 0x1c438bf79ff6f1a28841c584d1d6a260a7c133a40800a73c6f50af7431ad41d9 (-0xcf86941d40a749f31de4740c1c23155c20ca96febf46cb1c90b6fc2dc23252b);
Dbl 0xdbd316a4401ffdabeed844c21edd205758e37604aa6cb722f6e478b9c87bec6 0x2b0ec7887fc1225063a5198eb488b0507fab700c24091849bfbd9cb1ec7c78b8 0x201a2d9664f17f5275faa5064559b6aaa073547a58b38964936576596075ad47 (-0x332cdde91a3339a893fde3293501aed82e2f04d89538a9a2ed1eb9c97cf927f8) 0x3e69311d284d6d27610a8b694c6e8de0e598f4025b1dd4241cf6077c1262708 (-0x31736ebe3f4d26686e9c24a7f4a55a0d6bd8d183c412df14c3f0c4f9cfe60f2);
Dbl 0x1a7cc0a22457ed9f6ed2e7f7677bc3bb4dab9fd2e9600347f1c6ceaab678e1da 0xcabb240622be31c7b7505ae0faf1126a92cacaabe59f194551bb9c879b70ab9 0x25318a5e0969348d53d92ab584218acce87cfdd866f19c76382d0fcb7d242f9a (-0x4fcadad0adb4aa06ee1428bac77cfe5585e53fea0ca5f6aa0e72caff3cc3e98c) 0xe7f73b318fffb68702fbfaa68d68e79cfa34b19284beca28226954cf74a342d 0x10a1e3a7dc07a0d25c9c069e21206a0e0d3617619d471e88c33ef0d907175713;
Adp 0xf2988a755f0d1dfa4239ef3796b5c67f98bf5673759b6ec2264c536a6c09ae0 0x11adedf4c24112f8750826980fb7403b4c9775b29e4609a8779644dd3618137c 0xfcb3478fa3a1edfc10c773d06dd00a1df92ee4ad98396fe1e0ee044295f95d4 (-0x3f8529b3b67741e6943fd3cb2dc499113cce9fe6ad6faacd53a7483063d2758) 0x4c02be476a37736b435815f5cc87d173d5412e80379374fb05561e71a17a8e6 (-0x191c09bf297769eb2b0716e5370ef5ddbcfe934f066690cff286a68a456e082);
Dbl 0xd58ca9f0119e7e72e42775c58b08adb0edc18bc1468c70ea804a27e951600d6 0x3f8c379a3c2612598f62972088f5e530dcff4ce6e31b4825acc1bc68f38eee0 0x682f561e8b79867b6bb2403ef7f4105da1644a3f33b89fb5cb50c35ec451c30 (-0xaaa32d97eea2da1eca26e8580111e07635df17635295a36124dd19527400440) 0x3ae60b2c8947d1d53052e3b4534edcec6a047b51b6d15bfd4bb06e001d15094 0x3c7daf663a8cc4365750fcbbd32dfe8b0c3b16f0c04b197ddf1f1669e29f67c;
Dbl 0x2ed80e8e18149ac7474112b6c2df6503caa5a5fa2cb80204c1f7525563d48bf3 0x54df2c296e01b2f60856dfb17efb02b99ebf65a37f7a3d02702e52e8e4b5bfd 0x132525afd0bb9df5d0bf676aca7e2f247976e653ea726025d207792d73b19ea 0xba0ed9c036e7a494ffc748a015e4007da6250be164d109b44d088fe1b847fe0 0x2d587b4b84d823b0de11b1709e738edd412cb27d49b9bb05703dbb3638ca3fb4 (-0x14a458ad30d9327cd670f838cbee5fcb48a3301d0f689313ad294fd60be27d7);
Dbl 0x1ac8e9774cc1306461b43514a6bb3364f35fa4bb71d65925e9d468ea604d7b47 0x119508293549b1923f2d88adee08351e237a9241cf3e3445f3d920128d0a7cd4 0x2648085f4a2adf1f818cb63a7955501c2201edd8818b0420d0903c70f9b218db (-0x6b755fbb3bd837c52dd2aadaa46b7dec09c0adab187bd0fd84c4e40c0a9cb9) 0xed34ac898ba155a8434b086aa708b3f03ede5dd39aadc18a0421112a67ee585 (-0x6cbb15b8fd9867c4a70c9e1469d5204ec5c9cdc13b24a3c1dc704232847646a);
Dbl 0x404d8b74399422a11a2d0797a26efb8dbffaee4b2177726e8b291bc4f36ad8c 0x1276a37a3ae4a278c51462b8dd959033ddd023aec19bd3dccee5878ff69461b6 0xc9848d9e7de12fb6fa17d3788cf00dfffcc0b71a8957879f150ca5b4f137ccc (-0xcce4910f187c0bd44ebeba653b843da793eccd027cd2ed4d82e98117481e998) 0x55720d3ade5e05eac38d20ea3b0ae41a49f0a0922c4814cf33fd97a5da9e3e (-0x12bc917bd1b94c7cda975b4de9c6e7cfac6fe4c959a1374e5d83ff56dbae49);
Dbl 0x10214e91396aba83b40e731156f4ed3d13f97f6057c787a82aed2b35a03605b2 0x2642e2cdd8e7a891921fc2738cfca16c5294bf06c61c2cfde89793cb36de82be 0x23c85a40bd97855a96033fb5094635f09e2d7d5b2f327bfba535401c155af0f6 (-0xcbcc0f1160d12234837a23b4750fc7ae55dc489b08599ed47b965534e4ae5a4) 0x560648d07336a4fca7fa6b8fd838a666bd569624cfd7dd603d129e998fe2e96 (-0x6995cf9d5a3208c624f4cd8d3dbf9e77e2021070d25835f34db8483e263a91e);
Adm 0xcb251e079264a5708b70ed0c5847ff6100cf85d88a354a6527425fcd6754deb 0xfe81e9a0cacb714900982cfca269aab8c7c44680058bda8edb2e21c8d8f48bd 0x2bad79f057001c3d7c457392bf57fae841771f25bb544382a2628d77aa54c1f1 (-0xa09e2560a102641b8e8f9485eec80d9acea21bc66563553b759974cab58bfc1) 0x354c950372b15e109c9558aeaf38e6ae579248f345cbf561e8a552405748e5b 0x5dd7b6f2490e0e87cf8805ddf3b10feec40639eb01f910e90667283378e50dc;
Dbl 0x16ef2108d833d4701e0af8711ce3d35fc07ef08a3b05501f1182dbf79f977622 0x226d4e0581b9718d91b595954a58199853afe57ecdd4c1e48bc61c2b787e5535 0x20af01c7f492f1fe2037bb56f0ef303f54289cd00e646bea7050db3c9bd936d3 0x19b6c3ccefdd425cd73e53546a7788c476c60f759b6beff3884aa9c9cea9a7cf 0xade79aad2b3c2d30f4e9a6080bcd59b2fb8c55d27a1bec8b9933087169f9203 (-0x8c6f770835d2e56d5b374681f6c59abc2cbc306f93b93d5d0b1a7e54e1d93ac);
Dbl 0x14a235b5fc6daf089defaf9bbe6928f0e9f0a5b93b91587108754895235a79c 0xa70da3cef51fa31931ecf87af96ba99cc88b7d2713a92598c8506ad368fb6ca 0xb5f74263d7ed669178e74fdd2acfb04673927d922270dd47de6fd8d7c55ad1b (-0x47bbf84eae7196cc0e977bad1ef5258683fa5025c766b73ebd94ccdd5ba63ba5) 0x8cc43a9d20c5d85b20a9b60b634741f8966942e99c031c798e9028bc44944 0xa3a3520f2ac19217d2216598869b74a7418ee5adb84eaa5b067cead075c68a;
Dbl 0x28cb70d401b09f03851f69929421b11ef94dec3cbf2ef77770d2bcaa44945047 0x2919c5c2691daf1e7ee5f13d7bff024cf706feac5832310e0e1746437ad84ad4 0x2460cafcf310eb8801acf49d496d7a16d6886296175636e20deaff0a53ed735c 0xc6ab4635c7dbbaf15a7d6edcff18b6cc53bf3db142e6c5127aea89d117899c2 0x2263e74b896a251f67cb873616cda64b30d5f60571283f5747278ee40b4c8aef (-0x19d8b3b080614ce6851eab5c9df8ad3016baa7b481e4d646261e16e5dedc015b);
Dbl 0x2126fa8f847daadc2709260cb3dee099a1d1fd49306040c1b76f4b0a9027312f 0x17fe84d62eb1d9c38df900361f80f362d5cb8e041046323dcfbd07fbe17f6305 0x2460d44b307807b4339e612a28ba84f8e9f6165a55b7655863edeb6df3a9f36b (-0x36e1639fbf06782ca5b94e94b8956b520e9a57b8b023c6b2b92b8d05168551d8) 0x16b6420470114338bdf0c3acc6c1feb0f8eb4d0f2ce82e2717259e8bf01e2c6c 0xbb82365e0fb9f0c8af71e33e65060fd0a708ee042838d6b30610a79017bf3f6;
Adp 0x2d9daf725f5e624349b36d241e2b76fdd7c0d4fe247f31b62cee899d93aa09da 0xa07f122594f302fbec34712fc7454e69a651ca634d28562251abddfda8b557c 0x66c983ec1dd25f75bf5d7fb0c592fdd33365cc1a60329929a36679628d0f1d4 (-0x169e2b92746f3952fe31dc52747cf6350809b1f2060a23a6e144c76549efd189) 0x2affd3ba4581dfe641fcc93311697940e2c727d107a9e4eb86998041d94c4ace 0xd2987fc53bc9e7f80be2893cce5f2b8c457eee198e8017b24338e946f5563bd;
Dbl 0x30b0ae10b636a516786b1cdbea996cb36f1e93c42121f61c4a630f17585adfb 0x22d2b7b3d6ca8e0ab84634a651375d348248e4bd7e550c293749d25c92bc620b 0xb9d72193e6ce13a6f5b1ad223772d6ab9e36d99865ccc30fc6f1406503a4524 (-0x56e10ccd4008d99cfaf373a28b756b737d3a292b423bdc0f54ed084430869c8) 0x30fd863785cd401f6ee2534696bfe1a9aee5bb3078b5df108e89c52251933a (-0x18f1e740090e4923ce803b390f0992440c3ec382f6f529a44e45ed17dd206eb);
Dbl 0x5f6e0c28717df768041ccbcaae066910c988d8a89186cb83723705387d27de7 0x24b63cde13c5288c96695c472d6bdf78dd490aea2038a84aad2333439ca4512f 0xdef22ae37063375b95a4ce8b55b66c0ff09faefaae3797ffd342432516b5c8c (-0x485053f47ee42f3ea1959c8df2b82baea767ed753d74b168823e6ee6dd5a4375) 0xbc30a8d150d0614cff81f0dd4ebfe5c0a0ca3fa2dd3cdcd60517d69d4e8b74 (-0x3b98386d96fe3e35833d7c1ba90b13300a43cdde7afe6e40d6627a0db76d74);
Dbl 0x11fe9234083fb8908883f3b02bd5bc30404aa5c838ed1049137ec2051799314 0x12e8816208542e5b9aa20d14a142cfa1c0ce57ef69319da39955bb2d0e6e6c71 0x2d22e034e6a6ae604475ed6602a768f021463421d61bef97fc38ef4d11cd1e3e (-0x52e7c586f65695420dc5b5d8102e6806e01b58b1819420d00a136a5253fa0f65) 0x6b0f21f4643428ba8909317579c5ca42590ff0dd5cd03c9bd35a44c83bbb7 0x69ec901ce1611cc8c93c7f80714bbab29f6c02887f517706a79779bd652082;
Dbl 0x1430534a1cf0dd920404c54d72420cc0b01aa1e2f227dc8478d3ee704f0ec4ff 0x118b1f458bc1bdd75dfde6607935d47b7d91072a41e09ff49464b2c94e74b0c5 0x218cec0c41ab79f49d5b96ddc2c6ae3465e178930d3e161fc0f2aaf28c69194c 0xf7f3a64e7722a69c8ece109f397c7a4b568f8c667857a84acc75558573beb97 0x86c318f049287014504020b94688919136f1a159defeb6cff7c3be1ea0db5d6 0x91c2b30c92b077368f2b524925d9b31e2cc5df91e5b8e461abab4f5f4acde6;
Dbl 0xcbe277ccb57e222f383ef26dcfc3accb352d541621a9e2a4da2b3e561fd5f3f 0x28f25c7450e83e98acfb129a0eb22fe1cd65001045c838534bc03d01efd07905 0x1bf45b338f60a0a0e0f25db6c0d76d0136b609c151bf86360324db14bfbdd3a6 (-0x16920a03ade9f259dddb31311ccc222ec35a555b9d3b7044e6151a2fd071f05) 0x35b01f71edd31d3f613428045dac4bb208be01769471bdb28df354815bd427e (-0x629a509af20bbee5e42db4074dbaa14b5deb64d8b770789c4a4eeec7f0436be);
Dbl 0x814077acb691a11ebfb492f615853356a954f4cfb107ff83008e27402c14be5 0xaa774a3a7993d740e1cd99992709be7d1a3e1166ab80b168a5ea887b5681aa7 0x1159aafb3d814e10a40b99b30a3a71723b002d439c4857b0eb598aec483b5235 (-0x5e9ba9213206aed0b5e73f7d09122ea9c2d2cd4925ee3d3acdcc1fbb2a3d6db9) 0x159396df94b7c11cb2e452ed9eee18a14a99e06f353e92c0ba255630fb71498 0x50e8ea430e6dcc27bd73c112268592f54f36d579cdeb92044d4fc1a40d8d16d;
Adm 0x1c1aab72fff9e0d6de24bcc4615cb26ca8df807a083d4b28083518b94e61063d 0x11c30133b89d1a8f65c936cbc8cc7d8793cf95dce38c3944054ef8f3d56f685f 0x85efb2a5b495c79b07176accce21196de94841a1dfc51c226dcaa7b91aa1ddd (-0x6300157c85bf14519133dd531eb725d0ccffd18513cb6941ad64f159d1d6971) 0x105265d681a2fcc0e861be7c9b5032dc0a1d4488f8f3f45e172fdf7fea64556e (-0x420ba0b5cf63bd20ea0623e962d20887de5f1b6db198bd40b0b97ad71a3a0c6);
Dbl 0x24286aca76920307ffb7ed28cadf341235bbd10663b66ee4e75ae1b9f74f1ace 0x3f3493e505e063f010906364cbca0bb871f251123b52211ddb61db811f3b54 0x287a31c2247516088fe1885959347a3f1d7f17b937b60142893b62b473666d02 (-0x70c5ef971b010615523b31e5b990f1343b5be1ecb3fe4d543dbdb6c1010d8b1) 0x1b044d1a53c6fc64f70ad306cdb5485f5a01c14721d546ec1594f9425d0b51be 0xd163fdc23b62876d8c67d840e687da5ccb6a342682c4b307da7b32fcbb68fad;
Dbl 0x54a754b90e2e15850234679301e95aa2d2f8f2e00d8144d03ad27ae16dac2c4 0x13bfccbb116f77c97bc5558a3ed082196c0f46593891a938dbe308165f757287 0x17b84e96038f72738a4eec96e26c3974c8d37f036a412b279a0c9bd61a9d5c37 0x8d8e798d0d7aa7d918084300e1f803dfcc26b8927b3e0c24efb90668f5474a0 0x941679ac0be55349296e8cd2df7cfb58bc2d482872ce5069500b4abab8e897 (-0x221dbbb9170152d69046591ef0738806e7edc1cc22bb273f91f3409ef09ea13);
Adm 0x2b1d9fd4221b370faa3b1c2761c0d3c915184a40425752d659ffce861897fd8b 0xb9cfd5d1bda6837e186616ddfad6e387a238215d935250b8b8915ab63f09c43 0x1dec488fa657936020236c69c69c83b701a408288b5bfa8e82b897527dd8973a (-0x1198926d75111b8217b3605972d7d4e59906a332730dae0859c1372016d27baf) 0x266a34992c94186bc13a22e97ef6794034ea5627afa526296f6464f77bcd8ee2 0x73fb9487b1727758d59cfe538f2679b7d5f2e49a362582c92a6d55a5f795e2d;
Dbl 0x840894bc159f017f6ec62b84cb749479f5a4be4724e2a430087e816bafed7e4 0x2039ed193c4c3745eda62697082ac2ca600ee3e163224b99476383397a077674 0x22f5b0ce6d129904f1c4fa1add49382abad352572707ab9c0a658182c088d015 0x1d828b52ddfd27ac1b4839567bfef0f38829fec45cc6102f8dcc56ca8121223 0x1683e64d2e3adbdc1b333f65afa30f1f327c507ae680b5650655fb73754be3a (-0x383dbb708b841d6609dc0f91a457d0c8419b3f4e8b437ce602f18931b9c1bf5);
Dbl 0x13f24d4fa7029dbfe6b1d742cbba3a652228ef29a39601bf122584e0678a9df9 0xa392c430fbcd4c74b1bb4a8677d09b3fdc8bb0ddd147cec7191b61756e0ed59 0x1a850d355b1ff2517afdc6d0c5147e8527b48c2470839f0f88bbafbf6f33651a (-0x239015d767707433a03589af5bc96d6f76932cbd8d126e2373ac13e7ebc7d97a) 0x838c0a9d102aa47cecdb7b39b6f88f0dec7c87dd58fdc8b0701e29e0063a690 0x911bfc4a68e466253131a83d4e839f9aefed1629eea5c8db56715c15eae5c4c;
Adm 0x2b6563110f9d1db370d0ac74dd51deeac8a39649a86403a99f715e982647ab07 0x2f8fb053a5374a54f0fb396eabb7c23d6b9397225ce4ea475f8d1fef28146510 0x1c33efe0a6b31d91b86254a547130bec90575eddaa8bbcdd695b7bc66c5c2967 (-0x92afc839089fbb624451dbb68f7181d3b8b4f99c5b464292fca3aed48fe9354) 0x26ea7f81c483100bf2df78d3dab34cef43f208d77e9d382ac16712b3dba8e181 (-0x217bbb947594243dab802f8d97150d25e4b303559f9de057e14900cfb6f55b6e);
Dbl 0x25bcc5f50aeda3288d964b633677a125d81beca89f9d9f0b9e6d8dae7b3aeaaf 0xbab293c8aecd035a75d828242a26fda80154d114c5c0b7a38f0b1ef418e8f2d 0x1160d5b9280fb8693ac1aa8cd3b5fad21bdd9c466c75856c32f8140f6d42497c (-0x603f836d2a2720332a01b3b7cd7005fac041b2ab7a8caa4a9e3ca05c63f44162) 0x1d6dc2d249fa1ad9fcde297cd9c09bffc9d95334bde4b799170f3814e002fd0c 0x1bfd7d5ff423e046b4ad88767c6c7019b51a8fde29bfefbd2856df22eaa37166;
Dbl 0x8c47adb37d932755efd1f77486e63d7d467c197fe4c80ec201876905037e47e 0x77cfcc2167bd9c74b38b59c1ccf03a7d8bbe13643a25c6148d943a2756ba8b0 0xaa42a5d30d5cb4ab1ba09540684bd92f25f46ebefe12418ba8bfa704683375b (-0x224cdd7e06959dc8f5bef1c14e57be502e36d5da01cd18407aebe67b992b87d) 0x196a61852dc53e9baaf99ab9d9e6f66a8d151b5991c022550f11410c2f2b636 0xc1e424f59124ab7e7ded54e506f6fbf298485e65938c008b3aa3b606d79159;
Dbl 0x2df6f16ad800f5ff58541fddf596a5c1ff20b5d5d7db45df6dc6143bf7c52a24 0x2fa7957d17e6e537fa8b71605ce06ef7ed0861a3e996622a718b86509cbc51ce 0x19cc9a3a7c907f43515393f49bd85efdf9c9f187d480cd73ef2d719e85a24a06 0x10bd24e6b113116af5e6ad2b4ff6f9ca7f290a31708a6ba3a1b54323695cd4a8 0x2ba8bed9f5e322fa24eeb181baf4f8c84c5a997a68eee9d89a781f14f16ae80e (-0x2626d98da97977950210f2c247bd29490d9833740a3ffd3d9bfb01636a31261f);
Adp 0x13ca70ed1693f62710c0bb4f82cbdb564f56d575e64f4a56758ffa257fc3bf8d 0xbef95b1e7bd0fe93124f2fc885c0bd44b4325302b1d5f4d8a4fb66908bb3645 0x2773e8f391affede28b28e55458fd64dde92bc2a482d351ee8ae994cfaa4868 (-0x137d42648456f988c38b2c3e9619b124bd3b1421615db36c5de2365adc189073) 0x818054328e2618a11604d6f317cf878819110fcbc6fc0ba0960a89fb2160e43 0xe9b9e33e3a7dfeb5f6705901998a5e3498abad7aef3c65acc364c2a6f7a8041].
Definition hSNARK1_9 : list stp := [
Dbl 0x5085192402d00d88c817eaa927e8b85a742206abf3092d25f279643c7bc63a5 0x1832efd24c21edfd225df0ea4f1aa050b957aa62bcdfa3059a3ee911741e7eee 0x3bb3b577cb573936082fad9c69c4caab22c73e2a28348a4ea07cd091d255e60 (-0x851b1c30f0875d4724cde0978b1dd7a0fc66250736529aa1ce2e16fbcb9dded) 0x85fa7571c034a29ffbc98b7e72f43440193190533a7660106d2e90fb138897 (-0x14679e0988c18145201cc5884b8f6ed9a8ec18b845251372e203d0ceab51a23);
Dbl 0x300729d4dfec0e9368061084271ee3ff6f7b65d5dbd6d145cffa1c17e8619f01 0x3052b8a947930750261aba5bcc979a5c31b880ccbe6d91505e97af8420ec1cc9 0x72cfb92667a95de97f2c1378aa795b3b12c19d629d66d42d4c72dfd59779878 (-0x1ce57b2e8ea570b9ede7ec7119f25fda2c385f33ab8c35722d44706ecda5ca94) 0x2faab87e3a84b320b84ec5480da7da35b9c18be4885f25fb0e9a1e1e36657fc4 (-0x17f159e2fac9dc006a3ccea0aa87096f361f60b3c9eb7c4fc2de7030389b8635);
Adp 0x2af1cef54eeb9a90f650df2bedcb8cad306b8103a5f00203915c75755f2a4d93 0x139f07b7f4c4f2dc208a6b4ffaf46957341e29e6de13579896308b92a4b32af2 0x2ddba07a15d282376ec17d85dd910e16f2fd6ca948cd70c4a947000073268a4b (-0x2ae233eadea1e0f000516b2f0bb12217098df40a84bf5b5017ce0026ee431f8e) 0x261c4874329f950e14795773f6b9e7314f351f4f89df4324c222e5bcfbb1726b 0x197897e9579da78d401154fd370c81327779439a33da5ff13125624da30e34be;
Dbl 0x1d7d229f53f1a5f29f4afa742aee602667261ae509edf5513c58c154eae7b659 0x121e3d262fed5374c935b0e8450031da8c3c0afd8976956c6052bb15962ba5bf 0x22d09d72ecc1f2391b3f88d8284c789d699fca20ab526a0621aaea3ae65d06a6 0x2005b217ac01633914b81acbf0cc45c022ebd58459c83f9512dad1d1eae6b056 0x11f842d0a5b904ac785da19ccafd4d9b191a4b621aa94249f211db6d3da50542 0xea7b873b9b59be60d65c1bd0da9053df211fc7576fc56fb84013d882fffee6;
Dbl 0x19f7d736c2df69b05b4591a5bc9daae8535a93f0209f71f9eabc8c688b4c33a4 0x29af7d4376a044ef5d22d6397c1e159514d03ac479c7c30d4687559c229ba92a 0x2b84e75721abab433b8f6f75e5daece1d4cccfc2400a8f46dfa0ce269d0210a9 0x1103ae5263b7c7b2aee7747fc1583ec078e2345531a8bb439cbec380f1bdcdeb 0xdef610dd9b607386f989a925f61b7d943d3866799f77e077dc14f111e076458 (-0xca5938a9df4657a5b83263939bb995c9191cd5363d08c63fe861c4e664481cd);
Dbl 0x55e2cd861260cd10efb01220516c167853bfb92083caa9a61296b3f42814b7f 0x1346af2a5e79421d11d43d204c5998aae52144ae83ad341576a0e0391b0d4f70 0x1ebe870ec86748e6a2b15943cf7702c904a03048f85188a009d5eb6dd96a5a9e (-0x62122be5c517cf656ee22a90a0ec55b3ca173f4198364a291a2d14ada4274c12) 0x986e3e16f9e029755e083ae6ece7d0afad264a75e305118ee68f0181dc895b 0x27c5b2d5547550baa60aa569890b2a74717439134e00d846cf9b3a622d71d89;
Dbl 0x2ead7f3b5d3c02d452aea9b0849398e34ab9e53c395c7e3848ac7d5bef5cedcb 0xadcbadff5e1934c4a1b167ffbe91dd9051a68c6be4c7bd61b6556088791534e 0x1d529d93fa225656430a9753ac33d4dba6e47fafe9d1c3b5db9833ef62110c7a 0x244687647bfd74f96c03fa8726ffb83cfb63e301423c655579dbc8b5ac9e2dcc 0x2d063b11f31dccdb31de26b123f6d82ff6450b161a68f46ca8bedb6ad97b265d 0x81da8925f4b20cbae9454e40f0b1bf0718e0890588fa1826ccbef5097512632;
Dbl 0x27a27f000b75d9f04634498fb4b2e0533bd7c7e33669f202ad9cb6cd22c223e9 0x193cfab48d7665194b8fd3d3a88a712d6192d4c0f26e7a31dba8873cfa420233 0xd669272d1541165fea792bd15e5b3d516881e32a9abd32e06a4166cb0d8a04c 0x28b7e334328c4445518a58f3e1f2658d20b164e56f6128770143350c3e85bef8 0x20765e286ef2e2c61b8b30a0435011e42f7e19b8696681dbdaffa13c88d6edae (-0xbc643c7443e828484d77357ecc43a8990b20be7a32076f0e2bc977eb859b1b5);
Dbl 0x953138cc7c4d4a715246cbd33ea21cd8f176f80a1240c48921c0577c92e8fef 0x22882db2b23fca511fddaba475c168f9892d009e70053bf1208a9fbe49561e0f 0xc0ff45745ba98c41a6c343711161866171e0b8e482d6a5d11e8063991239a0b (-0x2252e3d856f4f0af5e2347209ffb035e3aa15b47005a569c1f688e7e51a62c55) 0x1cbf5edae1aca9cb807a0f6495c86ea9ea6c567df80a8470504bc84282f71f4 (-0x1ca715cc1e3349df9950c70d1b0f8d1b8b7d52171b01d7be52bf74404ba2aed);
Adm 0x42820666c5e45a9ab71c06d9165e7926d9befb0b3c77c8a6ccff2035d922d64 0x11d182c0742c0f62e89f5edfac3b8dfe87efd61d532e2886284444493cb15c36 0x1c6139691fc6bd205f9b0d47de59e00b76ab499bc5409cb1c1ba46b52f2dc391 (-0x2f759c560743d530e944fd67e0993d7f9bec1f1c98b6023222a1ea97c7384bd) 0x5b67ee9348e04ff9866bfd8f46413f782df0999f6e310ed95f83d62cd401e6 0x16f870e0d3937abbb8c83960b495c036f6d6701d356d6b50284ebe79ce4f298;
Dbl 0x273021a2296aee1d39768189b1051434b15d423a98cb38ec49d5e97dad435ace 0x1832571a4b21339e3d16ce6e509175be7412fe2d76ef3af75f6bd1ed2970e6d1 0xaabec6cd4ad90e62c04f31082933bf55adb8c9915d6a9b0210fc24a1306e9c6 0x1a480e812e6024f6d1ac5b26a66577d14add7e20bfa2d2b5efbb01056929bf50 0x1fbc15dfb5ff464777cd1497aacb007842777dcb5d50a5669b93a773de73b4c1 (-0x52a46a68c5dcb24e6c22783e6bc11c11f4713ba85750f4ac381e11c9bee0fe7);
Dbl 0x240abf878ffcafcd1c936a1d668c4b9210f7c3f73ef5a4f62bd5925182f34617 0x2901ca12016e191cbb113955fc113efcf6e253316d0910150491dafd176424b8 0x14462fe5de8da467b6f17fe337a973a936384cd1e0f9de1252adb0f1d8aec92e (-0x1466585cf9800077ddea912aa9eb05d335efd573c3d107a5de3ff907eebf1eb9) 0x1ad809168fe8e4679914bae5e4e235291d7097e2fa544b7475e943c0d35a9e11 (-0xc852feb20e82acf3b295f0800ec9c04c4895352a2cf8248223f343bf62bd423);
Dbl 0x22b67915c02d345abcdf4ab250c21047b4a072502b391aa3cbf6e0480453f0e 0x2f90893deedf7b01a4569000a9eb036ef24cfa349f43d22997637f4be3092d10 0x1f05cd915b4363610328283ff71e3e5754487329bafe6a3ab7ddc8b5090252a1 (-0x666df0cbba7c8e61465def1c9770ca8765f3ee429b22b114347198aa6a309688) 0x18e682f33ecd0740a0d890b57e61d72e5181a366e5d2e39864014a9136b19c (-0x4b436135c6b72dcd9e6d95b6b8f52f9e6dbd82c6a95b0c223f99b2a7dd35e9);
Dbl 0x18209d4738ccdd095d0af05ca53336a11ad0552e9497bf7240437b1afb7af20c 0x128455990f2842f5a874c6fc292bba9828acc816d694c93769503685de899f9e 0x2951606f5421bbfa765fc59c402f761df6cf08e92663cf3e303dff2d1ea56f0d (-0x6d51d785b44667b4a5a49ae742d0e9c02de4eb888572dbaf9a436c8159f394d8) 0xc079005cfe5163ce9c9d0d7438a2a270bc0e3b9589e41ea2ef5b87584e0f39e 0xe7b92b0245a0f36f242c39596a6d16c8495fe2cc75e0cc6469734259825ac06;
Dbl 0xc6d5cc2c25578cbfb5a6057c0e876fb6ba0cdd4d7b40f8ac5384d186d7d815d 0x1879d4ae8476d7a93bdc3d35ad324b270b30d4b024b085b15445a8656291b924 0x3fe5822c30073c560deefd1534648ee493f43e0a17f4274e470d21ee7efa48f (-0x8fd802ca8e87654e29b86f7266c32b81d72cf07016de60edd694a39f30516) 0x330fc47e09cd617fe8243e65bd653e3248af74c6bc98ae4e5a0f6bc273bb1cf (-0x187c0c81b8d4235e7f03649fa0eb8bf27ab140465dd418d571db264bb22e366);
Dbl 0xd6ee858e4f024ed74c8811fd6729d56d27e475eeb92e59c4a5ef09258999379 0x1503c5c3bab2ad9a7659c58e0b5d47706da22d5f4f02016b573314efecdf3cde 0x213fbded10afe2950b98f21b6326584f6e02c52a43440e3e32ac45f83619b46a (-0x22ebea56b03d8dd5069bf31258e74d876d66bb0f3f340fd34a5fd18287bbeaee) 0x3ba9de6feec90de0511bc4051a65b719bba5d8f3da543b6c8daa0fb73ca391d 0xf5f6aee28a752bccc96a6c7985fe5adf834551448e86e3d5f79898a247737b;
Dbl 0x265094859027fa50fbb51792d7192618522c54336e097694028e70157d7b1135 0x2efd507363a18a35bff82efd86a1f9074078ca632f672ffb00300e8f31f4aa02 0x115a52aa35ea5a154faea72c1f974826dbdecd8cbfc53e423e293c73195a95bc 0x1945d6ca435ecc9b4fe47d538504128669832e0b57ca1e8f295d44f57f9dc2e8 0x1e560d939e0cc773045fc64182dfc293cf6bdb8cab4b6a46c74ee65476e1166d (-0x1490d95a7c064321b6a15d9fc49b90085f192be28379210f89ba7a45aa89a996);
Dbl 0x1d88921a8368d4ee73ad10a0355afff796ca74747fd1dbaa1e09ee1ab0d11aa4 0x1b9c88df8b874fdc2c069273d21783ffb76d9463e965a3d38f9da8be95e598fc 0xb41edc1793af6ace00e4c566d275851708fad5d900b8e3a9ca0bb360774a6d5 (-0x73b3e28d5f1c37fda248e48b6767f3b3885a13371f814349c5dfcb0ba640fd74) 0x12063563e78abe11b88c576951367524ce9c4ea574fd73a9f0021d73789a9b70 0xbd38f07236a11f07032d66aab4bdf01e0f553487749b3aaa1945f311ae76601;
Dbl 0x2fc5d77504ec52cf143ce624bae3fb43552c8dca9a53fce0ac0f5427037d71fc 0x3b345240dfaf2e495b06985dce9d91a087a34d961dc2b19c568ea32f307f3d7 0x3c75b15909a1702abdfe3fec2b1a09c56638c9ea5e7c602653f488cec1cb06f (-0x190963be74863e4ca83f42c0353a450c2e96d2698c68e1348d73ccb3489d8a68) 0x2f296760a067bb91e1ce7c52cda64cce2f396c318238bf2402e69c6c836e2037 0x179af6eb4c9b93be5bbba45e08e54910d27c63e43729e48be6060d7e221f7498;
Dbl 0x2d1706a6e9bd484093e09ae8129e36c07ffee3204614e19f14e3d278f506b016 0x17c14b0650460217297d8b8ffced936a39f0584a8d1826cdc675e951abb52771 0x2959a52d8393fcd0e4a9c9d33e4dacb74fda1188a25bf24dabc62b8a11ad6b23 0x631674bd349da8e091db87aa93cb1250ebc100af62ea1844d7da74bd899ba17 0x2a036bba21becf50f3b98de9396e7558be475723c3122c069bbf34b0ca3ba593 (-0x12afb7baba372ef04b37cad867ba2b1323cbea5d05b0b1a38466864cc9d32dc2);
Dbl 0x12d801024879727ba748aff9d9291f7516d0094dd6f7909288c155942730bf72 0xd2317bb54363264efbde99123aa1bc386b46959cdcaa65a9c8914e4ad7d19de 0x2ce36f6306145225fcc1219f63615198772aea7fcb27458589108cf641c6a726 (-0x2c7a3488519189094998dbec2bedc09016f33bd1cb935e7d6817c57ef1bb151) 0x75677541f4fe225e4b9f85a233222ac6d96c72d767ca7c12d66c1e76cde5bdc 0x42277769e78efa730e361eba7aae64c0dfe14bb20c23992f8f725677b13aaeb;
Dbl 0x2cff03b756b0e5c41f60a6b9b91b97d9ad0540d758f3ced0cff3628b0a83e3b2 0x299ba585017381eeac5b8ef6766e3343499483e8b9f4a1c2e6efa1ce10bd7430 0x19c0f6ec951a6c225088c535efa5b425612da5c38aa594036c27d48e1aec29a3 0x48c72f8b15bb4a7fef42348543a20951bfdf07804bc336d28c9f7e0eebb37c54 0x29d6b89b497181c82e6736b378e42faa103814501c4ba4cc263838acf4fa0d68 (-0x1a791d08698e56964cb85cb52b68418de75460ef75282cc64661fdc43daee04b);
Dbl 0x22673e958c1e673562ac71786bb884d96c2b41982757d275a1ecec69c9f934dd 0xa723e583d74e082bad60221a00efd94323c962a4265037068e575b90fb49fbd 0x154ad75605b6f1ad3d5523e83041f703ec27c39f18b41cbecf70dff81e78090a (-0x46b505f059390b5491099b419922221148ab4ca3ee201ea73a5d87ac4f5844de) 0x18755a4620fc1bf8ffbaf88418b9a3a6eb4320a89899b76917e6fcc45a2f31f4 0x1627644861bb3da5a96d4f8d8065b5afa18fd0e0090c777295facd832a860f96;
Dbl 0x8d5d1c800dc32d43d15055167e25801cff3b7122659e23da1334715fd3dc2ae 0x106cb30e9e71e72cc8a056e9b8ee9ca315d71741d515595b590e65f1449e39cc 0x1ed9dc2fb1d104bfe204b4ae85b3fc56cfdef309409ce818f046b16f2731e39e 0x1028ad6d6899545dcbcb13b7fe6332b78b8fe8e15565ef200b29b512683459b 0x19cf4c5ddd63906d7e4ea60cd8112ecf0660b830cbbe828e5027aec823cea12 (-0x1176d0e87c005250b0176138493e8b652ade2aabe1b6200d087441cf1343d56);
Dbl 0x896c414dd3e0803d8a35dabc672c9541deb64be0a2485bf8436607ccf393d57 0xe970d5d08a9435126d46d51638ee45addcc4db8e6542237c42681f2fcebc9e9 0x19d52f07ee259199b35fb87a2c35df5a890a1a45f15f52d170d8def106996da0 (-0x5c5cc0006d8cb24e3b57ed4301c9466fda6ca0273980ce4ccd4215e36469554) 0x18640b99b4977d4decd4db10af90119680b6e4a80e1060ef07585bc30a1c170 0x535b3b9cb2a8d0e085f896c9a3521fbb469c9dd188c1803c015ea98c628c61;
Dbl 0x233dc8e6ea4b1280f9a1c57aaa14e3ac2719189926e064ca6e9b21e0e7c431dc 0x2a5c5ef456a1e90378cef7455d22318b635627d5de9b75f9ead7c60dbc51d5dc 0x15f15886aeae8ce16c4edbca1f9dde6b6590cd0234923fb05adb01848ba06e60 0x186dc4a146c04f7395e531349c2d78baebb62b4f6a271300442cffd1fe17834b 0x19aa1d7e068bda42c5adae6e2e2586f120c20ce0a4e6996f34859a263ab6828e (-0x14395c9895565fb5a51c1d8c14273e27a4aecf4286dda77de37d2908608c578c);
Dbl 0x18e1ff19fec26b66704e65d395fb336b13e9fa00bcc14443000c2432f3fde11a 0x1f63a436ebb4f2a562c6ca2b9459114f3cc46aa7c896a464345704a7cba2675 0xb04418ceb8c32f347e3133c0ea784bd1dfd6b7b8c2dab3c3ff55a1f4a494dad (-0x58adbf2b6d82ea7430cfe6e7b50667e1bc3ad57e9dffd4b0e896cfc339f226d0) 0xccb6a753dd81b1d0df48815183be80ca760f7d6b15434bd637300f0d54db751 0x14c5deffc912e3d17239e8e334ee0c6a0e0557a38bb53d78a8626e3f159b39cf;
Dbl 0xa2f22ba685419e652fa540833d16692ee881ca6b7180a3cb871b33ac1590ed7 0x772c1302bff692776c87b4a3b72c345b0cbf8ab935091d9e2aafe2ece76979d 0x2ec1b20435b44ef6fc56760168aaaea2939e443f9353c5e004b0b08e9d8ce3d1 0x465f8c203b6f84a4dbe921276aa4c6fad873f300a5e21b2cd4e63d1fca837fd 0x224acd8f3a02e3144e05ec0272d63b24ede5ebf5d33ca5fcd739d7c59b028a6 (-0x12795a8132a3a022adb36fd0de27a8bc32600e882e7aec07fb0fcd88003b83a);
Dbl 0x4776eff38681dea6005b3ec653f20cdee4dc51a9f9812180656918e93c907f3 0x1f5924777cb78c9acadb1cea2d9dd575ed748aa26e25677b62b0d38a5587019b 0x264c174bcdd4eeb41e62c8d447ed008051cce36eb4093017963abb39ba096117 0x5312759e12062408d8a752f18deee0f340f27b4640a71073fa3e83d81c5b03d 0x6989cbac0d9e15e0d041f8b78255dd4c4d280fe65145e72c0558559d301b8c (-0x234b943886a3d87ac4b0e24bff450e2e1a8451f439a7bcc6977d7675c7b4dee);
Dbl 0xe879c89382024ec9abe14a5fdb25aff73930d02f94c161586564731042e6240 0x1b290f9fbc1f2b07794fae4c3f28b182411e08dea36e11b70e7adc0ef77900cf 0x28a772b7b03b9751c98a94820aa9fe243cdb0a4d2f3a1ddb0b8354d3a09ba7c1 (-0x25ecaa339dc4a618ba16522bd8ce0f53e54c26ee171256af12c59cd5bdab851d) 0x45cd1f13bc7d1003d4720e754ab2ecac0d9b25aef8354a47607300ee55785ad 0x141e4f6b071efa5052b179b863263358432f6edd0e3459697771a3d417e2098;
Dbl 0x923a1c39eb534e5e21c8fdd5e64aed15a8a134b3d3106c008e74f5159082cb7 0x463d92f82a67532c9286a0793b3708efc6d19c0cbe4c2cde3a53c9814675cf 0x91f8d97572d154eb52240240ef3de5cf90fdd81526466dc38da3fbc3bd99c2d (-0x1e605d23bac2984ed8dcb7de95c817d2d11ae627a57ef0ff1dea588ef0eb5ca3) 0x1b9dbc0c1c450178645908b97a9a66aa7838cecd3d9068d3a40a6f3acd0137c 0x513e0576c903c9a2ad16676cfb8f229a299662e3d27da9071f591e660c49f5e;
Dbl 0x1998226536e8378b4aa78829ae2a70367ecfeeef92b0832b00db592053517623 0x2a202ea6d300915fbd7f14494e7a70fd36e5b697ee30ec985602e856e97887d2 0x314dcadff9b95c896cae3a28cded48c42baa7a4f5c1d46615fcbde763819027 0x9a5567dea766bb2fd2dc5aa4455dab4f8b67fdbb9687d1d9224f96aca88effd 0xd8966f7d6b532015056621fb50b6af9298ebb4bb072e1f4ecaeff274ab2685f (-0x162291816cb6370a9cbd929ef01c532c982cf93db8da0296d9d2aef987265fdb)].
Definition hSNARK1_10 : list stp := [
Dbl 0x913318719a23f5d74dbeac8e020ccf7333f4cb0b4c955e4a7d0aed61714adc4 0xffc78613994e4e749fc497e46ccbf14fb14d056bc783d970c01930d9601c790 0xbb9d95eed44d08466bc38cad32b1c475d7ce55a98e9edb3c879569359cc934d (-0x6cdb70f15175ecdbeffb4f9287d3821bafff9ee715a72aae3e9c2ae82b6b7a4c) 0x1b3abd1697d05130bae97c3785e6c1dc983c58fa382633999e3a92162e0a044 0x4e6e78ddee1f9e6431dbb87f0be243d20968cc1a450176b2037c5a86011c84c;
Dbl 0x71a0606656bd5d073d6dcf93c85e95ae6f6ab25db7ef1191f9cced853323de2 0x11d8e8417c7b60d24eee117dabf250b7877b0fbc590859b8345a8be8d34e35ec 0x1bd8a9685a7019760f8a1a922af42e9a207ec7ebbd57bec3033207af2075cfe4 (-0xc66c624e218e308b5fc6c37cc5e183532ebbfbdc370ef76e6ff213276a6a094) 0x10accfe9c8091c59bacc9b7b8686354f6b7ee1a8d307d33c83edd58787af1c8 (-0x45eb2ce306138c8cd0982701de593b4db85e5eb6e4587c0cd7ef23475190cf);
Dbl 0x17b3c8d7a71d652e4a2a6a32036c7530294747b9837130cdead0a329e484a557 0x184097963a0a9b55651325224318253adf1962c8efbaa64dd096b6d411958000 0x199b075faa5a426210531970dde5b3132da855fad93915852685402426fc84b7 0x7881415ab266832963d848ad22a4f2c51814d14fdafe80aa58740456d638178 0xb9bff39914c79dced9fa617bd1bd9c3f22201b2e15604beeced3b04ebc782ff (-0x3231dd9cfb531d13110100e9a02bcdace45178f320937e11db94d38bd95e6e1);
Dbl 0x19d0d0fed800dfed752986167c5f873013011269a177cac9331e51bd73d4e5ab 0x1445028b80c702b04a6dd07717c91b1a958549f4f2183300a71421f853a14ac 0x2a083c981a781106b64de60dad47dbea03c7c2d3084adc058e54f604acccb97 (-0x924bf1cdeec83f3da893cd11ba630dcdac880744000e898fda076e9dc20b14a) 0xdc59e93d94cb57a5cde278c4dc2dd2c761fb65ba36e4598d3c34fa2f8040a8b 0xc431953fbd364c3903424154bcae653d9a3bdd08347556fe8e8e131a66843c2;
Dbl 0x266d8a1ede905128be4166cf5d7be87904123f456a04533ce315af2d4fa6bffc 0x16c372d654908a9ae463a429149fd61b49e61926c29d6b83d6c2945ebebf69f5 0xbd73965d13c74f86c48cf10239fafde44a4c6cd431c0f50e55bfd943ac76190 0x4129da8cab34b8d49363c399c80930eba4366ff9bcf3afdf589f4cad9b97ea8 0x1e83fa81ac3246de2cbd7815b72299c205801c2933a82182c865be85d85e62a5 (-0x1112088b916a8db10fba26a0ef8df872652f4c0215bce3895eb308910eb07d65);
Dbl 0x1df8fcb700d2697efcbecd3051bea54b885fc00fd54077df3637bb19f7608fbb 1 0x30644e72e131a029b85045b68181585d97816a916871ca8d3c208c16d87cfd45 (-0x1174c2d810add357f88f2f234a2e6ded699216772abaae0e690e216cfe82cc1d) 0x129071a71e364ad24dfecdfb9c1fe926e6e824c588b6e40930dc980c43aecae2 0xe195dd29d438e2f206b5489f160ec2e13f1ad06b0555943682ac6d8446711e1].
Definition hSNARK2_0 : list stp := [
Dbl 0x285396b510feb022c442e4c2c1411ef8a8ebd8ce81b428cb077074bdb4682866 0x16da0899cde5a813b37b3d5d4b60a29df9527252e3194a50ea9d977c90e5b080 0x146325ca78f28966e8e8edf65edb3bbf2232f790390a038e76f6022154183685 (-0x912ceb58a394e07d28f0d12384840918c6843fb439555fa7b461a4448976f7c0) 0x219afd96e37ee81cf8e2694cf660ef248cc48a016c1621fe86330bf36bac21a8 0x15488f8a3abf4ebd0406dc4a57c5ecca5927243419c9c03243ed212b3ba8bffa;
Dbl 0x1fcab05bbea71e1fa5f265e9776f21550dd63ce0a678a515c5b57dd3876debb9 0x96b10489d83cfa0ad43c0e9973130f56febd88c544f7efee53dc043cf7400b6 0x13041ea554868c6d75a336c365f3657a3ac7b6f513e02326ce0f8b91fe2afad3 (-0x595f2d87014faa72b541fe0a2984ca8b91a5bb364dcfcff19eea0bbdd87970a) 0x14e2d64efa3a7a72205d60717218888647a80623bc4c5443a465bebe4f86d7ad 0x8d348cb38f1594c30c1a198d36dfa05d2994a075702d37a5fbe3f3d8234164e;
Adm 0x23d6a1e09908b52fcb979f22e770b1d86985617391770542022ff8738af0e7bd 0x210634071ecc217488a43d474332b68fb934df8e008f286d23aae840b7c3fc0b 0x11708301218e833ba35357bd1684f908320d9912441f1c5e6922ae0328a228fb 0x1cdd06fe2f143a4eeddab2537821e0c256f5f8e05a37ac115f339b45a864fb74 0x1a8a9f9fbdd34e58effc42d097a22836d066c6f4315695c723fa3672e15a156e (-0x117b7a300a28bbb62156b5135610db7faede4bd920d17e2981f92bc595a1e279);
Dbl 0x1250aa365412b09f3b1e7becade9318524d12ca49efba6dee86c9e3d18123f25 0x169120a218d1846b66de60192feafe33453135b1a289eca13a65550c7ddcf7f5 0x2b2c4c24024bb7965bedaee6d713188bf0b95658882a4376871dd055aeff6691 (-0x3668e5ea16137d621875afbfa2a564ff2b1d0c4ea4168dd184b9d92c7bd2ccbb) 0x6ee8aecd432742fd2aae32e575d0e8666318f32fce931b6b01d0bceda728942 0x3f534d55a0f367744548b4f2a44f3558532e238319dade0f50d9628cfbe8a4e;
Dbl 0x1bf0cec979377594128ddf8ab907a4ea3e6bcf7a8aca2387a60d3d41879ebc1a 0xa90e3b80218f87e638d30d26e4a6d60073d29085af8d477e634430f57e1c8d6 0x22a8e29614afd22716d4cad31be8d4f9571e2b91ae6c3e8eed8468ce986bae25 0x1248916fb7e6b3cac4bc06fc14ec0bb58d85de1db18bce175a95331c1b2ce42f 0x1021ea5eae489be5458c959ea7013691bd62a0cc0d32cadd570c201e5c0198fc 0x6eddc4999e36699674e7dca3d488b05bd7f54d79a648a95f7c7274d61183c10;
Dbl 0x2fad3a130196ebc6ca2b605e64020931b0c267513b97ceff8ced70b67f630534 0x1b35fd37f394e52d06e5279508ee8b822ce29293c0ed816e65a375826e3c89ae 0x238830a554c3b1c88859431153e840529d1033a906329e370d1339d013889677 0x3d5fbdd5e763f0c9a3fd42572114103e7c69e70ee0ee8b30e720491ac18f82c4 0x2ef8da5719639725a4f63d6b118f7b2d1ab06a32de167def2568dba8bfbbd21a (-0x106620962cfd5322b28905df6ac6a4c5d981b1993d99140507d5b2ca23eee1a4);
Dbl 0x6e8c3f0a3fce70628234bbe4a7a971bf4f2f15e0185586cc81543fb864b6ec8 0x2c32de9e39f099d869a85a61babafb54e8372dea6964f3e8dc698d0b42f6596d 0x1a57c44cfb5a74399ae75df3fd62a630e2b29d477629e48d15515b8294f68dfe (-0x23c18c5f248213138a639842dfeb15969eb4c8b813d5c7f52f7ffd5f3720fe44) 0xfc89fe7ae249d886c09772c3275c34f4657fd86d41209c7f9345d372f9b451 (-0x26ceb8fd21a4f38e54f6960fb73f577d41d9e0a16a44f75898dbb4eae4da16b);
Dbl 0x247ce59a20c5bb60d88767085fa40ab8a687ca13a2509f900f8d3fca7d6eadec 0x2d91e183280ec9e87713edf984f4696e25f4272f276b801047c2b18ed058cee8 0x771e1ef16a3e81a740efca580d97dfa6cb89dd5568e1e1c06660b0a72eab94 (-0x51619c81f36031f9e14dd85f22c363e690296f43565dcc39efe099f584c8513d) 0x1b831f4066520aabcd97360899a4f92b3ab1994093b4e22abdf0e8d88c59a0c2 (-0x108aa6e922845396a451de6d055026aba3b8c250e17597e9cb3473bc8d60d5a);
Adp 0xbfc4e2e2eef4ec75cef9c052b74587429c5495fe8a7cf87f13eabe3571b10fb 0xe85dc03881184db0c060f66dd2f80a2d396c61bf99470ab36b977922a8982c7 0x15e057eec079267c2b54fe4b18eb725ec91715d1799513f3a9f20acf3d0fa3b7 0xb2edb7d4e750e972e76380001fb0f5314579a7d46c05a4d41537e52b601723 0x2f7f34b020386ec756967f9771c97dc5ed21de5f8fd5676f34497425b9641bc 0x7b08be6c4b1bae24ebb8648dee4734fd916782a1cbd5ca7b68ccc7f2e26ba70;
Dbl 0x1b0f519eec791d7bc079512bb0ef4c3b8e6fa0a49cc15748921d76cec9673f74 0x351e1885f805df8c628bc384f7d03936a02df2617e3518801c893f8c58ccdc6 0x2c6217b332e87aca446ef7b7251848dca4ecb448bd487202f27f444232b90f7a 0xb63eb2b9d086de78c656048bb4c09dacc9c353dc0afaf99f3dab01b31f04493 0xf21a1ea27aec9ef4903468965f1654030da317c25407c6afa14d6280c72eae4 0x643b8dcda34b263277105724c00f63aab3d546a6d21b1a97320afe58553e325;
Dbl 0xb7e50b84f3940687eed74761d740a03c7465f27e2337753770ec38616d48e4d 0xf737b5fb95e9fe15b638cd2da3836a4b6b57265d4b175087c487754cbceda73 0x883da6731a49776d0b72f118b56a94d41d95da4aef6ac23e691fb277e7a507a 0x14663fd35a1cacba80213541ca2c9c77937f5e8340be152867c79715f2585448 0x2bad265ac1fe82bf3329adfe59a338526d044135457bb150c66b81545e4b686 (-0x2e19a79c667faecec36d8ecbe6f8b90ea588af7c4b81ec553832603e707d49b);
Adm 0x1a8d5518f0057795d9a4519285b867e8478aee5830f82c56e4c8940f4cc458fa 0x2f0c0fef47955a3bf412bb4263e2432bd8e3170e243472e46ddbab8fb3805267 0x25815e5e7b8e08d698d5399e49ff825134b23f55c4b3b61bfe35a2bd4e3cfcf0 0x1213005c6dadf7af5c952810ed43e119d61565a2ebc4d01e64ba73b81ab2f567 0xe919fcdc973c7b47e7132debc55974678defb5a1de6b8c1dab08f93425d77dc (-0x11561e46ebef6f10616e84136bd390ab18a7bafecfb2cd6fee424c6c7d6e71be);
Dbl 0x1f05d6990a7f8265dbe980d11febfaa74fe4887470bb7e01e8a85a2d5f1390f 0x15308c0248ba56ba5a9e52903ec4f050e7984e9e6fbc0fc7ab67f7e2d84df809 0x1aa0b24f031ac328d72b8e47639ef574544533abb7a8b40cd031d729bc1597cd (-0x8636c05ce32a7d62208d439468419de579349b0168b31d68050c33e3bbc6dfb5) 0x13e35126bf16d4f73389558eae76e4cc7740ec0b8d76031d58709878617aa6 0x10939bba9ca30ddaae90c112258528a288c64910cda5b82dd27bddaa92ca393;
Dbl 0x2352d155a10c2f22b2fecef801af87a963b264d9e0e121de799ccbd582c8e6b6 0x1a4275fcb4524d645bfb35812711aa44fa5cefc3e9a685485cd3fe71eb535cbc 0x1229a6a6a2f1d3b779a27121243336ddff4fadb87fa3bc823faddef3ea6cd801 0xb09d2ac115da93adfa6db14ca10d65a1586db44753e2f1a568596bc9378c9af 0x19c8c90f78e7e91330c90805b6d8b8cdcae9af9fe695949e3f9270040cb191ba (-0x3b368d68ba4ab34aa88c6c350715aaffc81771010c20e1a5f0a77c43552a670);
Dbl 0x1b7b7061679a577deca9e98a2d60d4635f738ebe954a6e1bbb10710e1548b96c 0x1ca0d386078a49353e76e58f0540ce486e102eee2b36f3e8c25222075924ec02 0xb8c882a5ac1a413cb8acc0db61cb0a0067774a0774e60aca4e1ba1346c81ea2 (-0x161e94576f87aedeefd5e50e664923aaa85fbd9f00b768117bd839916f05a5e8) 0xf9b7e6a7e63a548b35178626d3b9409d4e71238f600751c31b3d52a6574d23a (-0x1585c5ab6de5135a0d564c4ee2f474910ca3da16143fb0b28b7c2479b2559fd);
Adp 0x181311a4a300f73478c6017a8ca6f480a45101e6dd3301282b847189917e28b0 0xa3078ba90296f80786461beec75ecc35221b730ae7d45cb7bebd17cdc958ef5 0x1b3fdbb24471223e658b641050ad644ee360470c6334aaa426a88bd372e5a7df 0x9d50b865d06eb9420d82c20c4fdb9303db12b77b69f3d739c9fe97243ce605f 0xbfa11ff704f1a8be99be7ac60129523a20e8001ebeb713e5e63258d1c222ea5 0x92c554bae474380134a63fc2c8ceebe5c9c34bdc036d098bdae60a498cbcd99;
Dbl 0x1bc849ea56850eb346fbfa3619f7e108f03f799f2e05acce3d6d0699863007ce 0x1bb46a949042a62e7127ba2bc3a853d85189db3a65306c664a5746bc6c326759 0x3d8b35450089061eeaf3de15bc13317e1b3d357aac1b7ff09784313228930cd 0x18da2661eab53a9332ad66117fe93f66d73467bdd33d21892251b2c5125d733f 0xff3420a5142eec958bc08cf051b244cdac58e9b24678e04df40a6a05bcf53f7 (-0xa0e4a93320c27b54ee03b9472d471077839116bf10384339a889bd3f77323bc);
Dbl 0x15a4480d805c059c44555354a48ca0bcbc2e54c0fdf3301b3714ad7e95dca767 0x295fc00236d88ae2d719f48e48bc1e454d3d5c7081aeee0e33efecf40238796 0x1abb10fd1a3ce9ec655323c1363586c5c20168a724d4829d36e87cf58bbdb8eb (-0x2c24a9a57433af559dc1a65d84fdc566765474d01d32fbc72556682849343fbb) 0x9adb7935c1a858ef6b79fa63743cc1a18c680ffedf50c012cb547a37fafb20f 0xb3bcf1944183a31720fd04229dffe44106b286532b24b6bf27c98431d1da1db;
Dbl 0x1025b31d91076e2413ad36fcbe0f84a71a2e288aad9fa69da53e1e7656ceb66e 0x21f1161f32a71f7c055180e9b11367885ec98d562da8603c850120ce926293d2 0x7a2bfcaf6ea82811007990d95d75011a1946aa5e0efbb2d7918388ed9f6bd95 0x116ca220ae392add7eabaac99630ea290116b1398277e76615aec3d6e0bb4778 0x56352a007282022d618c181c9abe22a5c7178792afaa44fbdfc08967014348a (-0xa7676b4b070062b65a524391ce7e1e4524ad697f48ddf08ce66bd30d1eaa178);
Dbl 0x1756f59db36c894fa1b4f995051b60541681dc0d2b660d4e893e21b8e52e6620 0x1da9691b5209ea34b54ae0c6dd628491239bc1fa7c8b855fce7416352b20ca37 0x1975d47dc6c21ed1310e8d0fa6312eb1674d73b00719e37a8d9f8b037fa46888 (-0x400dd94026697ce84d3f0f21f6cd5d0552b26a6ee5694052d55ed27c1a8b7214) 0xb41c2db13d03736bdaf627bf27d1caba0889c6c32e42cb9e54010a054407b33 0x21073934b5905e3dcf86ed04324dbdc47ec22c2ceb3d3dc55938a6d4bb52c25;
Adp 0x1a44490432dc396c873124298f658dc06079565fb4cbd754149a550a2c0eb38c 0x21e0f6d04b86179ec544bcb4a8041a10a38a57a23af0de2b76fc6294fe3452a3 0x152fab88405e69de9b9e608511aaacd4f0b580ed7d7da16e9baa1f852e2048ab 0xa2aa2b6ef508d1067bb14db1ce064681d632e7ebc3c75021446f0bc4c088e35 0xe41e4feeb79d0753dddb852568c3ef58ad3f30c5bc98e13a4c61755da46aa10 (-0x249f95a76b3fceb209613d3bf290fd1e5102a7258479a5521c0a9770646a325);
Dbl 0xad51bcc2cc6973eac543df3c90a6da491440cfd4ffd263cd88feae26f30b103 0x64b61ed906a266ff25452f06909bc3140d986274264263f3990a01ada51a1f 0x5a6f50c5285ad4d182e104c1978f9d6f16871c09ca4bae15a3bdf7bb733bb6d (-0x3dab796218808f19f307d8bc85d4545320216331b538e53ccd41c1c755f90c5f) 0x26cc1dc18e84814e5c9935fb7fe7acdabfd62c59e6570689f46c3372690a63c 0x77ee3a352f1c8999f24c349370a72557875aaaeb947029df7cb5e8167f734ec;
Dbl 0x19388d122991534b705555b83ea34789d8b19947b1a9b147eaebc8b858169184 0x1e51f8c2244dd62e39808de495b754deeaa503a87914741aba51278f9f4a8430 0x1ff8d1cbcafb6c5e4e20387a5ddb39a1ff97f97eadd24f21350b70f8db8fbdda 0x5e1cc199f3755524a076edeb854f3c3a082dd8750178da4779399600e5cb233 0xd25084629b606da0a30cb123f25b5613b4b8e9f1183be6d078b587ed92fd84e (-0xf98e76c78a762a4f778a0ead819c031ceda7856a306e7d338389196857d161d);
Adp 0x1839d01204b1baee3d46c348c33ff800a6d47d156b2cf6a894c7d2b249787dea 0x27fa6ffdf650f38fd9304dc65822c0e599fe26e00432a7a6c577288490100ddd 0x29e78632d6b45b7ae67f159e87dbdc3b3d09399def755d854b7698228a65163c 0x90c071c595483b99e5afd68b79e0b6840f5dcdaaf4bb5b56e08dd40d872e92b 0xc20bdabaa41987cc54ed3555e26705cd42fa174d7e781cf12367166c7318567 (-0x4d5c2f6b3b20be1a68bf4c9931dcd02fb2112b3ab245ea4d88cc55a35b16d08);
Dbl 0x2eedfab1e624d222ac8dd996e9cfab1cb4914e3288acca60c14978deb064d5d6 0x2b839b8e40948af565bf5c88b5c5a898df0baa9681b897db6ff57d4911fdb9 0x18dc534bc059b819acec9b3450187a7bf02baefcb75d6cab163e002a039e77f7 (-0x11ce619940a73caf34bd4e72ede3ac74fd3875f0e9df74ab992614c5964cbb1d) 0x2d82f67d1c1d5f61fdbbf426de2ad6d2992f1d7220c168e14fa2d557805b3387 0x269afe2258ecaad0c51a46cb921bc00da14f439cf20f57ae8a12f12db0537b73;
Dbl 0x2bdfa4bbc688d02b7325f0576a0706f2e1a9971b43468e47a6496818fa9eb0b8 0xf3bd8c6012e27763f811ad7e4bae2b14ebbba8280264cd847d2cf6e3ccd11d8 0x1ed2c7a33252367d9b73e4c1ccff28097f7cb70cd785db2f38bfe10087d32535 0x2d13c092494c0470b04f0cabc50a2d0ab902457732b4f32ff5b5a168b078869b 0x27c6f99d63c6e48a6725d6750c6210db9d74eac363910bd3886d67e1bb6f345a (-0xda846f918681f697461b5ae736807eb2110cad921b37ae0a6854a3c7e45eaec);
Dbl 0x2a49a45c74484b25f9060acb7e93293b99272f6cdd504adb5d95944e3fffa73a 0x7d57cc9703fa2fbbcd2b956a8d470f9cf6ac15f32a363979ae285d863fc7b48 0x1a889ec49efcbf259fbc7a84234366c6d9f7660050932201f0a5becd663b0013 0x277bd8bb2fafc8528a9af22c895258d48e2d931d374a558799194e7a5c7fc89c 0x24f417b178db2b607be37a0e90ef2401342f28701086da333c48f085d908fa74 0x677678110543eceb8f7459bb4e99a3a620f6f9c975f20e8fd62056cfbca29e8;
Adm 0x1e1a5e49046edcacdbb3ecbf0fac69a3308005219c82d8b628206eac068d2062 0x1079e041f598241293242b82fec160aafb85b15ab95a9b644093f5ebd3a42b9f 0x25795faca568577bdbd920622090da57a58ac9ff19e148f42292dc6125535d19 0x193ad1a02adb76a517190bfbe77334ab820237af22e8861ff0884b7b6cbcade8 0x12b9e27a18c9d67079e39354e2fa392cd649b75b9f49e5c90e23d9707409a371 (-0x5604189218b5fd5d815ad446d3c01fe1ac39cf460df74aa1f0f7075c937e2b6);
Dbl 0x48a2d5052ed59ccc8c259f2fa5baa224f6413747e0c064567f89205c0adce99 0x1d3ce859c43d5724de915ee0569db80f1a2b1b3e94321d7952e0e842d10a65ac 0xcd859e3d894876a112f0e173c9b98aac60a7d71dcd2286476d8ee6cf2af948a (-0x9cc4165eb4bb21ee5e3681a9e95880e504ff1a7c400327b87c849be87855717) 0x6d06d1b6df62fdd0cdb41d157e8c249c6bdc4d902b8b99738017a14e25d8c1 (-0x1327cf6dd756932563b5e4705df067e7a1b64463475315d2548681946bc2f58);
Dbl 0x26b5c210cd2a1691e308c02025ddf79717b9fb00fc446ffc24cf36bc8aa6d594 0x1650e931a264d5869073ea47c990c665498d11765791da4d282d6892906ee329 0x216c93fe310f21f0264d694ebb1eee392fa286932c17d66b68a0021a00dea02d (-0x20720ef92e516df02cd648b6af1940851b45d489dbe12e38434d3c0fb18bf7e0) 0x1ef718cb483e6a19794dd3e34657cb424d188126cf622a94f3421968fe4043f9 0x589787145774c306cfadf2d4a576174ac8630ec89011b90bd6ef52bd652e053;
Adp 0x48b34ec154cc023a16383535163d09c2c8372dec20f15369f9f759362256a1a 0x42907ce0d96949c2113702d35747a16e77312622737672c9e410ff5d14157f6 0xda94790d1d0f747854f7fac46641610d4e49e5f5900c75b5acc9940137b9c98 0x272ca34ed2b54e6fbd4583e1f6c76cca18bb74a918d8f41d2e14d1ce553613a 0x6d384cf4020389bb4f3317e2d8ad382e4d5555b90ef1703de3d2716f3b9f49 0x1b46a4d6fdbd2ca4be97a88ce8d1c1264715fd942e4270f554be654a6cb08cf;
Dbl 0xef1416b66c169de5267ac18c2c3593b558b9bbf9b824b229f906d8c29555eb9 0x80e3a1c7a624a7b7f68b35f7538d40fd983964f26241a56299cc29dce8f253c 0x2c3ac3c6a370c3895d3d63fd612e76cae96d964cd4d710649351a2e14c1bbfcf 0x75d17bbff25f3a82c78551b2e0ec2e9e8ce8c5dc50ee40f2379a0a153888b5c 0x49d291fd0e91553e712e0981726ca1293fdb560e1cb71fe3aea44e81e31cfaf (-0x133e9f3e64d0cb23329cff3d294851723e33931ab863907c3de8fef1445829b)].
Definition hSNARK2_1 : list stp := [
Dbl 0x20014e57c82a9bd453c86dccd2a64de5014660643997f0adb4decba91481d025 0x2b3ec48c3c8ebb20faccc4d3e54eefd2c94e7596ca5dc5ed7ac62e6ee7c60d79 0x17eea1b1bbf96aa861d9c918fd3249a026c13c4dded64727d34e9ad37f40bb61 0x367b4c849aba576e134945a10105a12cb26ed5534a5b3e96e3d90fb09c2d5e2a 0x152ad74ff638c4b24ee023581126371b2e6565d6543f16db211520b53989db58 (-0x1746042a7769152b4c02b9dc0293c0e209d2ce19d63fe44c137f4390d6482077);
Dbl 0x2853016c0c286e1b11ba906403519156613d043401f485816e83b8b6de9595c8 0x1cc117dd4d37c5146d2855fa68898bdfdc6bd6bc38665a33fd3ffd2594f8a202 0x2a2eca90857773a2ad2df70187e30b726f5f91857bc205e1cff23eeaaf78d5b3 (-0x4c0d95e79d94544ddbb8982cb1ad6488cf42754acc81b39eff3a58e5be4b3d65) 0x219a04c9a7f7d9b103d7100a7deee5e2c924d17695297d2458e582a00f3acc54 0xc1338885f09afbba529028060cbb359cf2854087276aa643bab6edd2c2b83fc;
Adm 0x2eaec9418537bb2a3fb5ea6635ac16aef3f26a8205aed20a7918e081d9f54303 0x14d15652ce2cbe7cda87fa0e57d7a1eb7c2b7f08f4f52be6b85c457a1eaa03f 0x30b76a63db7582aec18a87ec278b744472ce2ecbfc6631066001fe7f542ca1b 0x12f1aa877de74b334821441b8ede2bec40ef1166d78782c6d4ce694445265438 0x2d08b7c5d7679797fc4bcace27de7f0287bedb21ef804b4388604bf300b7926e 0x1a7bcccec2e63040abee6a6c005e1303c5864c16bb57f55d51d64c8a648e4f2d;
Dbl 0x94bc4f9d74bb82ccb36a8ba4a5eac14dbd776530beec2b1ec00d41beca6f78e 0xb3131b2b1fb73aa69abea17599ccdc40e71e6444a67a2a0c6e00c4b7c6bf3ee 0xe5dd866517d76d8d20a8fe185780f1a472b49a421d34e189bc94977de75e86d 0x110999b8a6be1e53d9e2d59b1e7700e6a32f2e7fa184e11ef1105499cafa787 0x1c926286d7984763fb4b50c0cf8f8574ab58159ab451de338cf76e50989bae8 (-0x1e669da329a89ed9d3fefe3e27e3135a75dd88d8998800ade528969ed767996);
Dbl 0x29e93b34f728367efcec5a104937bbfba2752e7bdb970c4237e583b750d0d26e 0xa5574a302f69038216ec469381cb831f41472459ebe25f9e0940a4f8f5a6347 0x132163c9563189718649b874b9f38fb78ac8aa52c1452fc2aeca7935b18cacff 0x111e97923f965cbc4c907f946a40f3397ddc5e4edb9006fbe8de3c25afa60320 0x244c5809e385655acbfdd31167d62a6a0b7f91469b93a78613b784181631ef57 0xbe4f802e1c9c0c3c9a02c185963ffea36826cc25d1d2c6d0fce9e96eeb7ffa;
Adp 0x19d85ed0d8e865c386f4ec8ef8c03d750096c44a2aae9fb03a7c00212928f083 0xbea6898b11518562a399c819c99e6ade0b9cc97cdce53d315fc9836c05d7b10 0x1efb5fd9ff01cf2e2f6373382e4d2bec4e96f718c19d6c35823204ad7b1a9af4 0x14537afa952fbecbde0c4d13018d90de93f790da4a53fc3d92daeccda0c16f75 0xdcdaf09070857bdce62993df113ab2f447c4a8608be20bad60955f380dc4334 (-0xd8472e96ec77d9ef27fd221b82e40cbc90aead1f7d626ff3a3761e9a296cc2);
Dbl 0x2aef615d5189712503ae48f8111d7551522bbad02bb0efda0660a3501087f66 0x28190d2770484cfd04caeec2b4e3bf68c58581760eefdd586be7d99cd2201653 0x2056369c9efc29f70f0d5632dd11e4ac2c3ff074cc4eb3b0378ae7dc2f327556 (-0x55db494e1952420cde1e95d54fa499d0b90ffde6449125cf23f08921a8bf2f0) 0x2617f9541ac8a56775524248c510c385a33cb8eb2d1e1e62d6aa4bc66922c7 (-0x19011b8e426c270cee958673c8fc4ae0e2a4df1a70e060768210a0036a81424);
Dbl 0x2689e95e712fffe714056e014abbc261796e242062c64d084b85325d4eaad50a 0x2c31297849d6cf93553bf8eef0a3c4b98b6f65c35da3adbdbf1e947b68f23da1 0x148dd112351aeda8186697947709e4ac2a0af5ca7b9c92e5ba67c3c74d87b1ae (-0x302bc21103480f61db5fac1a386cc8c88fa18256614a01311a989586a92c4f65) 0x1eb11a9d6a725d76e408bb1cbed763ad86ac484a079defe491206ee32562af7b (-0x342b42d05044a62ba3491a5394e8121164f79fb42d85282e9d163bd6fe08170);
Adm 0x2eb6228b83b20c867b008773a89a008375eae61e910fc005dacd98c0de0e2d56 0x2d255efd79d943153d0e306ec43ec05c2b884d95de465e71d39805c1651ef173 0x1600f27e726c2935713df95020d9a28911123c142af208fa233354ae0fb93407 0x40dcfa6b5cb95a5e18aef1cbab660e703bb5c7101471a49002e18cf2c22e933 0x2d16e6954a483b2d547244ce9efe124d93c7329ca31e3eaeacb4c548cd09cc26 (-0xebbaa98367ed9a8dc7b8a8d22d5489e9b03c778f68bb79cfdf4d640255c237);
Dbl 0x1fb430747bd88cfea389f2119760c5a4b786ce7150924be746a146fe9dd44721 0xa618ed9f77d5c96f7b28973454abb09e2734e90c47dce9781443b7535848dcd 0x1033bf46aa44026ba583eb44f887147b29a3e4f149bc13e2130777a13cd76ee7 (-0x6185aaff1771ea83648a07d900c2437551b5364cf129a0b8972379704ee817eb) 0x14c550a7aeb43b860c96e4070fe7d2116dedb33944b6ed4ab7a3828c92116102 0x16c6b49f42fb056606732683a4a6c2cd3ee3c70a75dd2819dfdaf4958c09a0c8;
Dbl 0xee5ef12e5de2f5480e7dafcf3798901debf1881db032bfa1fe4ab437fca8b93 0x277ee0e39a2d2098f705d4a27b31b7a4f915b597603ed822b6492ef441aa9af 0x98182e4d5b25191035526bee754c2a2856a9e0704b529a261702f16a9dd1c1e 0x34b9674b4ce760888e850d255fcb95aa4732d222165f9f50c5b0288c4971039 0x4962ddf954b25064070224c443b11f4bd11c1b84c0cbecf08b3689c782d55e0 0x26f9f0d0a09e60485347e1772d22c4329b628395a364ca6422e27b604ebc8a3;
Dbl 0x2090240884ba170c3d0e58b382e788b070141b4f51b7d012375fadb303ecb97d 0xe685ce767da30fcc236f368722844c1b1602347093961af85ada22b9e512d7c 0x7854f5403a64fdefa4e7c6350a84f5dc5d14f531361ec0d6bfd370c1ec465fe 0xc6a5594d8d0c68a598356e90697c10f88debd7de0354978fe81f988cb13eccf 0x15e96c1d567a8045649d63bd9ee8842b4a5269708b553e4aafea1817001c23d9 (-0x808af99ee3693fdbe30fba54fd5956ce5381e53f87544607792f3e39e9352a3);
Adm 0x2cad125a7f4db62ebbbeb4587a6f7626bd8632b5b585a57012a4f18af94a59df 0x18fa579016d77f5580cfa0433dd8fd3a05f53283d83cfc8d06b617ed1156da65 0x165efd9e77c819e4e22fae48fe48e4ff7f64f970a978dd8414155266b117bc24 0x1f5feb59096afcd4db48baa41134f6087756b146b9f3c1277257153b7f73019b 0x293ee09d665234e1eb235341cccb66fc4ce370d6462fcce0f291f505ca014116 (-0x9c23369576e4fa176f0665279264c7a167f68d6c4f1d74c318c71ca980e759f);
Dbl 0x2a3fe132f51178fade32ff0455f369833acf5c6fed9e531faada712d07df39c5 0x23cecc2aa3d550f06adf185453b9c8a9736955d54aca146a082aa38463e80837 0x1076b8d286ebb2e50e929eb7506ae1b33052f57471b48588cedff3bcd73e2b34 0x62a552518538006b5cb8a0ee65c3eae13461adc8d0ade1a46b0146a17de7bb 0x24e309d4166d658ae11011034bc2345686b335018ab936de4707e705f038b2a8 (-0x9748d6a58de25988eb6157d959803e4dd144249838f39c4e08557586070257e);
Dbl 0x1aeb3d800e1205f58fc007dfb2b52253648bb4796cb1c98130d98f92368a449d 0x2ac773d08cdd348fb1fe9fda394130eaae61753c221dea6acbf1262af5bb8095 0x11d3cee55b31a59005b1a9bcfed02ceb143136c2499bbe5d7a41afae845d0421 (-0x3d2c06ca88a159f034e62baa559df2f81c245817a727f4b6f7ce06b2fead867d) 0xef96377929e49844d24db54df94827be8d2bdb6eff3475365c46b41e6e2598a (-0x3e0bfe1a81ab795a157217ad41df5510c915199b31654545f927335635fb0ad);
Dbl 0x74196f0b480e2441892a625f0306ab796bd5ef506c47c5374a9408d47a98ed6 0x6a34e626dda9cd6aad23925ce46a17d639c007ce71db4d2841eff55cb721f50 0x1d62813080cfb0022bb35a0f2022e386910f86de7732d974d2a5f81648d5bd8a (-0x6c1b187230af2a6bd269441b1094921696da5f0446ee8027237a4b1e5c3e5a89) 0x1168a3ef21c71696fccaf81562f3d6cd140c4a2da8f7ebc4de17feeff32ff46 0x56b54eca144a8c5413fdae9e52575eb083f496eeb3711c3f0753ce7ffb26165;
Dbl 0x1aace7daef20c6020436e43b29447ad17d70ff6dbfc89f42ebc252cdbab80c63 0x188c2fb2c484b8f95676f009229a3985f825d5ab3321bdd9a66412bb21c187bc 0x1adfaf9f77c06dc5df75ca129e3c9af5a8c7e2c2ca17fe43875f34e365de688d 0x1daa1954a592947b999bdcf1683ae0106d103e68d7ab264e3068c1fbe6106264 0xeb45a403a3a6f1ed9ae16a6e1349fe69cb4adc352b0b3d11002484335cc7b2b (-0x9df5c3d3a742dfb19dc0ac4de55fb8941159c1ac3dcf07e0041cf1f7df50acd);
Dbl 0x183bb614faafc9a588d87ddf7606fe878a7392a550117f3343606b05422d8265 0x23f4eb7346972796794787152b360534461d1c3b8b6049dd8627e46332eee9ff 0x43c75bcdee233baf25025feeca750063db18d54c01f93d0b6a271a31c107b0b (-0xa70fd7e8c94edb2c7568785b7d1621e34713598de905b140295ae8dc39aa4a2) 0xc22a45b8bf43d5eed93360dcbe5b741fe7a80521d36fc7a6d2608414ed6138e (-0x5b69ec29e25236c934f58813a96f4328fe52445c16bbfcd5bb37daf99912941);
Adp 0x2024064634624b87a6c46824f21bd7ef2b393b835d3c845e718e88f100d9aab 0x250813fa94e64e0cb077a96a19b2d673d91e80db63e63665fe57b89679e65e23 0xa23816736fe48dd64a42e318d0ea6c61ad2d3e78a7b3b06303c3b0d36a04f00 0x84254cf3014fbcff513199a3f5597d07ba3657580c846206404736111bbe99 0x1558dcb7b365d8b62f9859c09ccbe31347dcc54bf45fdc42911086352f9527 (-0xb6c0f538b4d815bcf0f9dd7f37e2afca390e212ecffb539ecae4bfb02d8b1);
Dbl 0xf70d1b53193e7df11302e1438c8f5064227f135db56cc6d9159bb1a53ca398c 0x5c633c3d9f79f840fb8830f59f9ed6c30706f41c6ac427d58065fe6e49fec1 0x2ba82b931aca1d7c220adf2f4329191b0132c11ae33e36954c71b27204eae5be (-0x4e8b63e3a075e35497061afd07cae5133f295ec68599b174f6e57c5b1ccccc4d) 0x4ed409399b9ad04bada9defeb3ee7758c1a9410c9a84a41dc4e48f6c5750aaf 0xbb3648797784c7a185ce49991855baf1c284f88b691e031fbb512f178424756;
Dbl 0x2e8c47e691cb5d9420413ce2ce1c3749fa18b7fb801ef961245f14e0e53410fe 0x160fbb40cca2611b25804e1927d824cfb572fd9ec3a4fe6148d217cafe81a830 0x1476a5a284256c2a41cc29b6d0ab87352a29fd44e82db8416cb15e7e3a376711 0x53fa97d8e4875cc7b9828b4e81a364671d989a28afe4ac375e64e5cfa7bd6dd3 0x2cc63d9ac9ff21e92c2de2d690ec55a760e07dc10e2b79598ce7c78d8ed3581e (-0x14dfabd881074cc55ad8bf6a3aa19c627a326f78578bec0a7f88b3c2944e3407);
Adp 0x89eeb720e7da9259ff48c6a1d102a97388b8c9e3a8b12a7cd4abd7191e8987c 0x162fbcc51d64f98b4bf909babde74340948b881cc0b4c7806fe548fdb9fad695 0xb74a4cc1946e2009e637d5d6e7b7d50029c93154e2a71d718b61f07523cebc9 0x4b0cd685defd66c98157a9a43ae404320f1c9445cd24b804551c550c326fcd0 0x189270f4a52354f7b257890ece67da2f6b08c4a53de89b6da87c92bf6f60e53 (-0x5b3a3245fb88d6bf34ea2f67ea234ee14bcb2c21a86bb2609e0dece33a90a);
Dbl 0x6ce2d8ba74ec056b353e993f794d75bd3ec8cccc6de97765292caaa44061679 0x715e483af29195c0dde9c3af65ecec2c1c1ef7140164f1831931e49828326b8 0x26b76a439313336add52330bb63ae6777aad00a2d680b64743c117a67dfc6ae3 (-0x1b4b396c5c5405d6220c9428d24082bab22513978787c3ecb6867342195be70f) 0xf50102288f55b4621e022e4b5a68edc4d4ef25f51bef84d6b10369bcee0fb9 0x21fa830309e8bd3bb3535dafcd5e4cba6711879f0c8aad807599c972644e36f;
Dbl 0x27635ad61f609076175466f528aa813bf9f3190ac7fc1e1d6e91e31b923dee0c 0x1fc691d4a878954e9283bd1e1d8f0f39be0af2283183c3b81e66e9008feb6e9 0xc118841cc3068061c6d848ba79b1dce8875e78be76a0ac6ba215da167a473da 0x3be9da1e66c18a0cc13313e4609094be30805a81552e1e2e62cc697697071338 0x200f4268c6a13c8c38a62af499d8be135ea2da38cf7e7919aaa931f4fa9ef191 0x42695f72b84b45b065de32d2dc9d721923168da778b7a7de885bdd56455a6d1;
Adm 0x1c3987d972e36a516d51abb58433b8608958aea4c7c00ec530fc70fb313b277f 0x295e3f76442590502bffb02a4d824521fd060b54c48fe302553271b693a9f974 0x2ffb2ba428eb6bc3faa5788dae07a3372554dedbea0aa38ee3cdbd7d47956b82 0x1b10ff82a5e32e4079461de872cca5fda3571a91cdfb1e585d44e32fe26c6bca 0x10765209eabd87597d722c89c1951fa2299c1d59c63b0dd2755e5064b93e98b2 (-0x16f845e6a3312ddb475a2a810a76f8e76e7a52598500b38cb7e1f2277a697aa7);
Dbl 0x287161ce5ea4e90156059bf0ee561fe9025962102d1d73bdae693c325b1f4d3d 0xbaefbad4ee3c0c66c8b5878a2fc828ba603008ac66c40dd95a774954fb0d2ba 0xb4ab76f32eec6ffd9c436fb4e0c377bad26af67682117dd975ea78e0a108284 (-0x19e4749c7dc1e4babf00ba14d18c037f2793a0a304bb7b799b71fa8ef6811a64) 0x21ccb7c37f5807737612ab56c2b47b7dbb10a0e30157e0d04e0688c8510a6561 0x18ceff1eef776d9043ab5e6d1c0a23e03a129e7b97358edb1ae4f379defb4554;
Dbl 0x1702cc0724dfc451251a36e3a1227b037e82d63fe4a8b15f7e10680b695ce3a3 0x121e593e862890ff5b797b62e11270446f96c6eb10622dbdb319efee16e39f8a 0x23b5c69be14dc0eb7ed121844e89f3e502cf56d3b9841d3651681716e24b6f51 0x246c079d25e89c9358400f80b2b153d7dede907665ac16410ca9dbc1986f1f4 0xaf1261483d224b249ff55eb0a4bbc62b1154b09ea9a0808a5ad38b06e023e5d (-0x30f57dc71386dc642a6b4507bcba66346088e95311d6f97e8e54775acad1213);
Dbl 0x6830cc996ee9c3c9c6366fde97e97c9a5a1c3000efec8940ef2face8151d8d4 0x3bc8b60f16537966e515855c9704edcb6d45d24b4c28afc853a1322c7b08817 0x4159a5b7655a5ed4c5a3b092f3350f1e76fdf5552dd98e51108b81b5b2f7acd (-0xabda0e10ef4f8a99326ba2b2faaca6c77c1242b9f169add6f325ce7bd5534dc) 0xe05434d06483744feee075e202cc6ece77bd27ad190a57f9acfc9f95a2d2f3 0x1ef727a29f029017dd17c0a4a0e5a95b72bb229df0f1e7713bd613861fc04f2;
Adp 0x273a913bc664f80de993dd4c02523732a471df7626625fc893b27a538ea66753 0x2d4f70a2bc2f04005e8830920295e0b5005910eefc42f781c606fa30bf8781c9 0x1a62099914cbb184ecd47374294f789ef1cbbdf475118e987b52d237bd73437e 0x2433254547082aa820cd301005dbf828c096c319511db3ea624e7b8459fe2a77 0x1fccff152e3fe681241efb9685be2d7acd03b3cf7d1fe2f2bebd48d2a802e9a5 (-0x21b3a6df15d301aae7d7906e38c2f650da0e7e78ab00d0d34510a27501034377);
Dbl 0x91966ce3f14335c03e5e34f74086818454cc0a5bfe964cfad0cd54d3f0f07c4 0x12eb37c8729489ad63c4a291c4b82b97ba0cc535e328b320dae2ec89b1ca5643 0x1ad6383cd4cfef86a52d3e81854e770f8c5572e85a6c71f37d695576459936cf (-0x755a77a825698748d41501bc37aec2c640ea9f5d646d6714cde9c846da9f2ee5) 0x1b600b15529d1298598256b1d8475972e3776065e478d61f5ae86638ffe7b6d 0x4f6634c72b16386b23160eccf2c9abc8178f5d7cab609a3dd1b3a5cf02a44dd;
Dbl 0xbd67649a253e0351bc71cf4922511b08227ca44b9eb1318aa09dc4839f29df0 0x4dae4be234c3d1578553e3807ef0589906e48c898c78e4eca7d9d032323e585 0x157ae6542cccb4d5cd0c5887ea47cc134dbd91790866d2b171719bbce0407bf4 (-0x90f2798aca437b8dc28809211f5a35e2b8e5f32db88ae5cf7b258adb941e72d) 0x2e551f0ab09b818e5b98810e52874a9e56fc0f000ce644989ce2d31bb0c9fe3 0x370b8accf5b52ccba804bb10a1eee24d093b6c0e8bf57876d3495ccff07aa3b;
Adm 0x16f967b9b293d5c3e51565b346e7e714ab0dcc4e62e11fda219dba951d2a112c 0xba6d409a47c4c5eb8e9f597c966acda4a3f785fb588ece32a982b95b40ad9bb 0x234f2c688a9c6191789254831005d01634d74371a63f10867993f9906f691af 0x14ab55f62d43773b244ae3071537e2657b8458406d8f83519f487da164219d0f 0xae83959a27bd162b737dbcb74f6c4d129ddb4b23edc4fb7d60cbf6b916161a6 (-0x33a0abf6bbfe0e15e73f7eb8184ac4de8e55ee92c7e717a9b3779d4ee1f253d)].
Definition hSNARK2_2 : list stp := [
Dbl 0x2a64be7d2a796fe4e9c3c1db27a34f2e9c0cb0cf6c10e70fb6193c87cd52da91 0x2466d1fc17e7dd0c520c991e8d0bb6f9c650f287e2410689aa2e40869a53d2bd 0x1d6cd8f8542919cb1b1738cbb2e7db1354adc83e7f367dfb4e2dcc8060082b7b (-0x48cc0b3ec9839b097656a2c05289d2f6ead5e47b376ddee9c42e866dad15e8b) 0x252384c5d157da32e2ccaa595db577fd56283d34fd5c30646f6a5be7ed8f3fa2 (-0x15aea128f58070f6bb8462f4dbceb4b21d219484d4ea3e407b0959a6dcaca054);
Dbl 0x8606c51fb95d0509fad4f6f1f90d9b0fdc637f7d4510790ee792bb738181da0 0xc7c346ca8600b01037f42dc108c6b2b312d91008dc6fdd9a896db6f5c918dd2 0x1d81f0eaa01c19ec4d7841aae76f6dad80c68eaeaa43f3bcd9fc295c8123f45a (-0x47f5ba49df9255828a72234b89e0427ac187caa533b25e81d5edaed0e03d03cd) 0x173336e68e6cd2301ccd8a88da822b645af42af9015c929152a72b94e2213ac 0x423d40dd9f20d3ccc7d11a3ff7f327ad2a90cfa18f5298288a7b0050738971d;
Adp 0xb40d3d855239ee8212146ad0d890bad03c65386fa9374bd6ddc54634aa7dce2 0x24bb607a1bc3f5d077275d3c90220ee7c24bead8db9a4e30b2a68932f31af28d 0x228595b028d5cd4680d798782b7559d8cdce4ca678f643b4710778c1ed0988f8 0x85991a7eac6d64d5d9798c9ce0a943f961906676daf1519cee72e5d6cd5c9ff 0x29deb5fd01c88e397a2ef75532930b02f8ee83e94c3609a327b051fe1024aa9 (-0x5a370f3b8b6e2aca8a82dd73d0d08ce7482b53d8522769808ad31219a878258);
Dbl 0x23f17a405e3b5d9c6ab1aaf36c07b4cca0c38f3f9f1adaa855ce82fc6a741545 0x28abefd1e1f7e1627e67c04cd8214aec15e9193602a6a9fe4eda66995fe65960 0x2764f3fd21bf6abe54d5b312d33ea55863246c75696d2c7f7f23d3f7676141d8 (-0x205ca70ddf8de2c19aaa33fda0e2222a11ae11e41b090eb3510774ac9bb73fdd) 0x1ab271b697931354a42bf4d4feddd180c081a0abfa274ae27dee4be061439c69 (-0x2ed1cee7d4b681f136e81b3389acc61185099840460c97c96926db4ecbaa559);
Dbl 0x6c1c6f0a55a3c7cedced7f8892a8575577fc71ef2c996e51b8448e42a3f99a9 0x1ae5f4eb808ae2acec33650e9288814103ac013b2f43430be4758a100fb96971 0xa830b8ca3fa3fa87b039140291be8c6c2814653a681b49c1eed7528d6788a56 (-0x5b8c48285231d0f6b4a7bd62fb4442ce844f24df73b34042653f64add64234b0) 0xf1874a97bfd41e23a53b720b3360336c2403b782c4aeda57fc7fe143132fa0 0x1ec54fda34f414b73a73b8449de3d2d3b2a2daac5924699a9cc70d5b8c71c1f;
Dbl 0x23cec25a0a84d19c984a49def5fa95d9f1889bee41db57210b20c97cdd6bfc7f 0x162796cb4d71f1178cb15ae2253082633f63f9ec5f49c5623e4ecc6a6506270a 0x1b1703d4fddfcb35f4d6bdeddf3523ce176cbbbae9bd2e14c7e6fd8f0ffb14b9 (-0x1d4c0be9661c31e4b2f5b7f763acd2c99b0bbf78aa594e9c595c33fd513a5eb9) 0x1a7ef78e6cef9573f2c2330f19c1380a426167e9946b67e834ce20a5f3f6a0c3 0x38293116d4fdb7cd22eb11e6a62724c485da8db9be19348f4b1d5e830f8b6a6;
Dbl 0x8b5847f30deb371a952f72dc0fea86f2e917dd879721a932ff47f380f96f0c6 0xa3b0878e72ab7775a228bb5264415aae9888e693305569d41effedc2efd4dd2 0xa6301c75d03bcea103dd6841f4a25d5dd4295a07fd0e3c89ed3cbfe0d84474e (-0x14ad7baf4d0f75811740fe0798a65af484a177f00cf6ec2b4d29a3658a1c9100) 0x1913ec5dabee2607be6f23311e57e9c96596efb8159ce17735a825f61ba3fd2 0x2255df5975c4c7f1fe7eb5c646a02f365a112fe9992005f72a1f2387595d0ef;
Dbl 0x106fc82f6753b4ecc587d41790082f7effef8703a84157dbaa52df5e6c85535d 0x25b15b8b285ad54713b388b33e24ede8c7431e4063da09a19c97d7b8cb84a5b1 0x2a784e18d6f5bfb3315252402f98d760ff02e05b2de51a9b4108c9693fecc482 0x9138874dc12eb29da6215fb2cc11cdcfb19e01d039739344d789f7b001ff20 0x5953478ea9b31a953d228821a03a3a54c0c0ff89c68022c8694758f06b047ec (-0x953e723748da81bfd8b8dee05cb4c23a845dcc1efbea9282aaed8471e379215);
Dbl 0x78177b18ad3c6113f078a060aace5a2f55d2af1d2a0cfae6898414eaf5f860f 0x1239c27f4f003643b6449c5bc05d19c6324484e1e2de287a1ee123ab3ab65bc9 0x29f726f87995e3db70c210dc3d982ef3f0a072986f13950370deb4919101579a (-0x4ae73d4fea2f24659f828c1f4cbfb035f21f6dcf50d363db4691a6fbfd427a61) 0x12a06a8af10a9f198be535a42726345f8424d7bf33973e649c0da86c621479a 0x304f8fcd99ad1bd34a109d8bf1a42122f38840c32cf316bbd22e93a36aee1a4;
Dbl 0x1ea96549f926acba79fc6f824f3ca6aee745027537ce0ac86e8ba6e013e3b1e2 0x1e63e82a5a6728e49cd30522fb0ea653a370ace51111ac3d86682d4c81733679 0x20a309e10aa095ded9fa20f0b8ab332cfeeeb0154bf86286f8e74d6da18cf383 0x209644684b0bfbabf536fbd438ead64384a9e2aae6bd2db241c47cf4b64dce63 0x136d7b400937ef80cd7803e5905a6571f4d8cc80a7c9a81209a215b6d19c2f3f (-0x7b52a3f6f47069f9df2e3792a93c5f2294542e16078f44b2427807f5d1b0c1b);
Dbl 0x563179c97237f886ffd454587099d2694dbf5c3fbc0e54dc9b4852a52f6f6f8 0x2912dd5014a5bb1e7ff431b6176e8d1e3bee5435687909ce8b6e8c9bceef4371 0x49c7b8420bc76887fedfd0e1a2d51d9b8cc67912bb796b6921eb8dc02e41f5 (-0x31fd3d2457a2c95ce1e17f9f1da603f0a2447aa88151e299948dbbbc737e89a5) 0x9985fffd36381abc52f18d721a18e497d92e560b77cc322a47e9673764bbbb (-0x1307611fd9413c76e9e7f45bcd4b936222192632a7169e5d2b9081f26203888);
Adp 0x880401f55102b0dbd49a220e725a7cd8553e06a54473a3e18381dbd7f0c9b12 0x25b679d2ffede22fb29c7b29ff7ad776a1fb90014316a86ed990e8598e068640 0x19cc19f46de15455fe8fc7e85a02c23b80a4db1f5277bbf96a78975b66113d24 0x1491b673ab7bf0e428e15b5bdadfc36fbae85958a39c6f047a134cbb99381ea 0x17e4d2491efc4d3b0542129ad3e6041392030d6d60d3924803614e503b2d9cb 0x9724ece94dd389601803fa747e294e67a84c77a820a5d35b446cca5995a45f;
Dbl 0xdb8e61c7181af5f430509d29c53660dbe8cb27cf09fc44b2ca350623fc291e8 0x12799dc40ae933006f7e3137cedeca6cbca4fff726cb8485e02461337894e8f1 0x2a9cf5e9f27b257f13ebf3c24ad6488e33d36fb72c12170f4aacddde609c9044 (-0x498a6f160251e789cd06af6aecf332aecf4166c0e48909259c7a2c8d9e281340) 0x3e4233d1e0622c1c091321b9de1f8d1e401a04fc9f1c5f24903cf69841f7839 0x574857388956323c63641b18945cabcf7db1a964b84498bd52fb5a31b654d50;
Dbl 0xb46ea7fb9acf60df0bbd130a20b300682bd34e687534febf182a3f86f16f6da 0x2e0ef73fb4f16b499a38c9148315fb0c81a9325c254e1c519d4704e96ec207de 0x2235f36bd8a7d0d99bc14a9165f22610473f2f609a184a97fa54c0edc8e4f24b (-0x14cad4daa4b777a8109e67d11eca16b62984228ec97f484d2611c6648ffa215) 0x2a0c10d43c9f1efd8dc292d63042e5741153d7bf325320a0ac112ebb40c4afc (-0x66d8babef3c26b303b48a7e77dbe0d401b20200c428d624f0c04415d5270317);
Adp 0x92edb048a98b38861b9c23941fbeb0669f2f7ca07f7298aaa34677fabc090d7 0x152098194a4b2a6ca220aa66e4c3722ff4e0cb78711431a9513b2301d92e50d7 0x1fe23d404a841d3c85f080aebea971c4d8937667397d142407f988f7c92824c3 0x715a92221f2b6a4c6f32cbd0e2f30fc5c694d6aa5e0472f310554929ae3396 0x1be1ba165ddf71be7a025847aad4df8cf7320caca55caa3674dc8c67d797fba 0x4bb2516496c7bff471bbb9e6fd0e717dbf7fdc99f55ee9b3473efd632456f15;
Dbl 0x162116e711acdd701bd13c681dafe1ffb558f240647c962458bbeb4161a7276e 0x23258839897ff96b045d11f3f8760403a68a5880c8285a8c5c4befcef130d6ee 0x233f435faafdbd00030f94416c2cf989fb5d8a88db07d399043e762a8baf6013 0x17d14f93bca36ed3fb3a88b9225794de837eeddb40e53f0fb8c1af673fe2997 0xa1e9b80191f2d4d20c354888fefc692190a4bb27bd12e4d238814e96570a418 (-0x6693280c7d7a80569e2c31cadf1d7f55f76e14f1a3c3fccb66bf4f8d4553a88);
Dbl 0x32fae80de00cceecd4504f1c3bfa9d387b2da2050ae8d97fde80e5a12873470 0x2fce5c677467fed9148f52d8c25de074230a42c4712fb71da002e8e91f944d80 0x2acacbb200facf576399b8a1ece5d5d5f94a18cc9d589fd10428ed79fe2756dd (-0x47f047f0a47507be1820d794f19893eb7fe5cd3cd3c7e0ee33260ce43247a574) 0x35b4f23df0c2bd86382499026b1cc78d6f04699f2ea069c5f35637fee95f3c (-0xd562ae4a0f80761f806ff5a7302e7cada2416d00942ccdd72e696f8dd5f2b0);
Adp 0x7b1461906ce1a473b52301f26599c6b504a23815bedb9e7b290ec08ad5d2c99 0x7b08d267a7d2eb00f627aed89f7bccc749e3febab09c387b406f852353ef12c 0x15ea96fc332868ec4ed71fb7c438b70563593d5771010310db730982951e0558 0x17d5ef322422bf95f4ca2106cecd32fd6e3f2e90a6c967197d957ea2b9df86 0x1390a5237a8a22e3f38ad1466cd86b525b00189471f60924b927a9e3e9fb009 0x660833dee147ead42ceff2a22854be3b949f59c76d5d5419204e91056341189;
Dbl 0x1a6255281dcda49618eff1f3bbfd0898401a85241856188315bdd27168cf8c36 0xf2eddac86080ea2b803d7b4eca130f2fb4baca778c7f26996c6af7bc1f4d573 0x33c42c0bdaa3c899c4fa7af947c46472e1e9a986b9c624dcada43c992283d77 0x143b8fc3525771b54f585bc3a9172c1ad18b1afd7607d550f6435835a4df8210 0xe629621b35e03ffef57e4efb86e35b7383f556a3717f76d7a4a8fc45c24881f (-0x415e6800bedc4d346392c174283b0622d5d23a2042ec8740f9ddce6d3c0346f);
Dbl 0x8070de93df7322b4dc2e7d9c2d9c89db5c5d2b7dbf429afd91e21de66840b91 0x4090e3ecf9aab32d636f5e9a741fdde700a99e3907ed669d6c8a220fd59d469 0x2922f52d822abafe6e7c497c12e4219364b898b46458ad3ecb870fac5345d026 (-0xd37c0212336d331baa7a5641629b58d61d2dc7a2735c06a15c6ace2014ad6eb) 0x154e7f1723aac1d958a18aaef96efa1f4349105be6b82cd0dfbeb7d7ba9d19e 0x1d968b11f07718acce191fdaea23ac21abfb5efca3402f05b8b1ad8fa13c30b;
Dbl 0x1ddac1d726439e37c9a9388eb88d896c92a6cc6b039076120d0d09161494efbe 0x13d7107ce8cdb308d9a69fd19229325735245783922771b732b0f7c0d951ce56 0x15060ccae7049fe5bdeb796c98aea7969f1ef0e25f85d73f10385f85a682be60 0x31bf5b28803005812f2216e86de832a63c4dd73187223696313b365623e599a3 0x126b12081c6715fbc788b9625cd026cccdc14e850a26f4e9d97873975f855544 (-0x9c01df4ef4d5b3d5850395803fe0d74cee941e7766ff122bb7096d1cc0abb34);
Adm 0x26ad21303494936a6a5a58b1124436da7873f6413aa3f0ec83b18e8da9b8d8cc 0x18837aa9345917765fe76af5dfaea4e795984f384cc9c0abff3b96bdc6eac5f1 0x3eb2b1c3d966fcbebc802b9dc322b34c40ea7e51db6d7f34132f4d7f684dc5c 0x16d1c784a7150858d311253ee9e91d0e2a2c0f42363b87aec7a531224eeafd8f 0x1ee94c71f64364e3739211b15154251f1f4f7f9273c8b206ff2676f6a3577c65 (-0x3bc367b56a16d20a40ca81ab17a81dd01bb46e7f063bc4f8152be81307adbc0);
Dbl 0xd5b36e04afe34f985761b30f8ee8f767ca2a3f2d6b90ace21ce2297a7d66911 0x173efe312ef62d4ff0eb89f02d4959e83b8264f38486fe46e10edac37668ff40 0x25a6df5e0a0b9a914fd2aec0e0ceac4a802b6b47d07fca5ca771fc9f0b4db04c (-0x23170db406d5f96e6ffeacb212abd3f74ec7d125cfec44308c3bd765304a6bbd) 0x3afb6f647750c819d30914d22dfbb356e939877cfea793eccde83425a6abb89 0x598f2d74e6378464107fb88764d2f16f5a8ce991b5e1a66abb2db72085199f;
Dbl 0x20b1ad43769676b342855109e4de55a6e53108c99f5045064c36ecb10c349ea6 0x1849eec8c9416fa86e2d4f3ca881867b922b793341bba674e9d916e08fe49fdd 0x3df5257a5b47a30871b8da5b12e3dd4117c7a63bb528def538f9321ecac774d 0x116030b986bc32c02671632a43c8e1c613cc2d6b1784b75670521b9eb75e30f0 0x1616a56d3ded75327bc1ce3bb519036483d389013eb4078fe9d925d406008801 (-0xb458f51177842936f030f64a2ef27eac6412a955b70ccc229b650fd828a8e1);
Dbl 0x2dd2aa7e51594d5ee28e276c47491a9d03280b6a9365c70ced3bb3f26b06d20b 0x2caaa308cc446f5e1eae6c434979c7b85e929c55bf493b0420ef09b009fe693a 0x1c2a9e4752c928d6d23d3297e2f724d8f0feb516c3eff01f9454d9fb5997771a (-0x1d3d4fd42fe3f75d4c6d303a9312aeb35c88eba6a4325ea5980e3bfeddf302db) 0x2b63efcfd7c67bc05ae96377eb442c37a750ff7ed61d31827fca674bd90e4ed3 (-0x134bc5b780e6d6787b2c98bab5e1ea03c27a8cee3e7e6851a81c8c3951ad006a);
Adm 0x2c7e13c78b83232c0c1177fe956de01b00739a8a934cda1d373b232b61515782 0xddf34a7d978c65ed0a786bc0fd49eecd7142f21ec94f932f02dec8f6cd8f2f3 0xd8d73cfcb60c71b0d93b163a2fdb4f99995aeea8c4d94484123e5d5e2935c5e 0x36cd310c2fc741cdc5d88f391c05292aa494fa10720fdd5f10eadb1fe4f0e6d 0x28e848a303a0a5c5ca0dbc5f778b53e5111c21d5327c146a8c2fc09b3c503b67 0x1c5032867abc7d97707ebad86195adf1b3585cd7584d42e0a160da7ddd74e8ba;
Dbl 0xbe5b6cbd46b29c9feb1aa7eeb5e211fb0b939fa8e3fea2fb27ae6c9007fcd21 0x61ac44a55b01b5cfe495a466cc3317737f5c49ea8051717fa3c02991c8a3028 0x13610acfefbec280d9e5472fe862851989bcace8c93c4620764178c507111022 (-0x543fc7573276cfb549498b3506aa52a5f0a68a25b1e94d6838d68accb47c9c9) 0x2eccd02bf609acef535d78e54c0b4363f0ce77b3c3960eb81265b7bf32023b5 0x1e8dd9560ea556e8af2f1138be5f726b5acce3738dee5d31628b34fc94c557d;
Dbl 0x8cc9c41b878f4a96ab0d3c0ab52c070c0baa1a9d6ac047b4e010ef28b78515e 0x65b3150ebd99a5858308fdc3ff80d6cfb49c6e5e23d0506dd7e372f2cad916 0x24cbebe4089916fe2a83f2102355d668cce804f773bd3a82ff034358ebe4ef3d 0x4bcbf01f921511d17e3fa9be6dfe2ea7f72d1369257c477701b1d6ba544a008 0x19999aa82363d65de500e44dd69c9ec0dd7cc58f2b61b4ca393ea2e527648f2 0x109abce2b6eea13eb1128ef9f40966577fab6a258bb51b317a0ed0c36f5c55b;
Dbl 0x20d019e34c13fc69b15952d9b6a250480180231f2dab442b73bac213e4186feb 0x1425ebf2d804be5b8c67080edc3dfe66c8040c7140b1b62f971f0375f30c3089 0x51e268b366d9e9a70ec00ef3e5c897e3228d3de1dfb4de77f164c9877b0862 0x31e42b8bb18643e8617ee57984bb54b1011e9231990f2bd67f0da331ba52381e 0x163fd4b7585c330ea0e63f64efc743375349c67e8c051682a845b68f7bf03adc (-0xd647504d63fc829923972fc906de13c670fe22080f5b5f7a516623e4dcfe350);
Dbl 0x1e12253b6ed874b74fe24bca3647c5f8cadbf4af5c4c378882876b91a3485eb7 0x1d3a8049698581f99f5d0b620c8188a576db02369d791f7a9657a08a9d425efd 0x2070c76c7744ec9314760bcfc1d67f455fe6b2fdbca8ce28d9c8d88b615ac86c (-0x18c4cc5a1b5ab9e62ca8c2c66a7370246f728988b04fb0691cdd7f27104ca8f1) 0x12afa8e6f2372e41d213c7e4ccb190721ed581df6b7c5bb9ed97cde339c23c2e (-0x5a480de352ab0817ad319757b390a82760ec58750a588ba9bcf6009ed99a976);
Dbl 0x1f078741856c942f9297da84f0055c05eaab0de7292251bf019052352b620542 0x13863ba866ebd8309363cea5a270d6e348172d6423a405d8aa0b51054cc90e64 0x26fe295a67e98d0655f418405357687771e1c64e4374087976c009463806f647 (-0xb5bfb6fda14499f38695c8415c305ecb6f207f86a9c00c6e223456f728293bd) 0x13e57bf17db1ce7e7c69c2adbce46e91b494278f50ef52d282faaf05dd62dd2a 0x638f12868c4cee87291aeb8dea8c2424c955a44eade2d272323b6225a700fc9;
Adp 0x24d0b919c32642c279a69bc5ecef296c11bd9385ccb550c42a04335609413f47 0x49b5a6af94fd5d0135689efd74fa061d27c60cffc0ae19516c89dbf8cd0a30 0xcfdf6192e86c32b30e5399725636d9fac2fc8809657437160f6dd2d7b5fe7c6 0x15f630477cc60bffdcfd5bed09afa5c1abdc8d362789b9ccc5aba144b94dc9b4 0x1c0219c6d2a2b93f5813fe348038f3799ce7645d6fa0a1f8c851b1db14a780f1 0xea2753f9eeba531618f863a09ebfdebc36341f1950296ba2c9a2625dab93829].
Definition hSNARK2_3 : list stp := [
Dbl 0x3261f1e342fc7a26a09f6f8b2aaf975dad919475edb069e204a8e4c5c4e4c98 0xc01855730338015fef327c32468bf7eb634528ecf9ce2fe290680c1fa7b9316 0x2c158de21fe58c56c8701eeacbc1a9dae16daa698338409c33a88cfc9bb1c465 0x1af885cde1339e175da3c3a8e4ed65f8097517c472a2dcb71a17820b94e9ee0 0x34748c955e7d0085030829e0044e53ab05066a2f37d37e470fb6e43ac9f3e6 (-0xc333833151951ed3d0cc6bde5a3ed86841d5c4265ff710954d9f590b3e2eed);
Dbl 0x2fc362ea85d2cd60d5632011ce4b99aa5aa2cfa2192d141ac2b5c737738e8754 0x1b2d812c092b14b7574568b2b99e25ae0791b936540c52882b2aa5fdbcbf4a52 0xb50911ffb9f9fc2e06c912df21c9dd2a9a09ec9abad38080783d0b2e9175238 0x4e164f16b96c6227f9eb559c7b057cad812ea62da6343a3fd8e33abb1dc51284 0x2f248e7ffd358b05c07d8ae9095cbf12083762ec759deca4717c386d70e5255e (-0xef98833a82cfa3f24f53603ecef53e14ea1b1f9133a2ca0b9f3739cb42065cb);
Adp 0xa225d3e152e34168af646bb7bb5fedd278520e7c342d5e56ab0e0c470cfefc1 0x2f01f736e3f9f89372da1995701a88d3750361adabf3abe8144424ccd7454b55 0x2a03eb778847fe55520b33b38a4fdb1f95dc717f8275f3f866b9b82fab85ff11 0x471521d4357dd06ea7d0a469064ec64801d527c04ea6a3fcf398d7122c31c45 0x21f5015334706c7a2438072fe58daf5a2494f1a4a53e226b8389152523338cc (-0x4271d548f9db805adbbfa607df35100af354baadd92d9262b60aac4d1f42814);
Dbl 0x15780333fbba489f350471ab79d2a8dbc2058703f11cbbfe6f56b66de7f5fae8 0x210744b19bce77f6c5fcdde84b8ba6c88f8277fb1ac61c2e8fa6eab04776be92 0x22193fb1dc9c9ddabb5729bf7b74be8cd88daabdfb083ab5417e80ba1acbd069 (-0x63b5a7f9c601ccce0194cb5749b4da0eebbc32c26ac0ea4d98655c93972f46cd) 0x986478cc5ea103b703121aedbd9d932c502686a47a5b912a24371d2af236cdc 0x633abfe4a890b08b54db2e130faf2efa0b783c9b429f0daa13c9b0aab22bdd2;
Dbl 0x422e8151f155e504a8e92ef0910c720307cc1d7543b442cf4158df502e9579b 0x4847d9b5f415024993b5b21395c4bd8dbc9b853f926d4ef1f909a736a537703 0x2ed929bfadc973ea7f01024b95e25481af4aa0a90215526e2be6a0125a7854be (-0x3dcc626839eefe48767b734ffa068d58292a1f9fea18233e6094ca446f7af12a) 0x5a82ec01843a08d979a607de585fef3b7b9a898600cc535359110cc0666fbe 0x26fdf5be334fc592f2251847cf1e01d993eb12fbe64d1c69ea88f7ed6d1bc22;
Dbl 0x9f454909c14f50d3523028abc703b98ba39d6435bbd8d271d3edd8092a7f18d 0x3f8c2668ebfe6e723d16eca49013a6b2b03ed83557a531b6a1bc3fb5fdd0e40 0x16a2f3e5fcc7a8708d373b2ac4287e8cf87336a98cdf07404e1f575e459bcd0e 0x120235459e567193bf7cfa0e836b25f32402d88abd319eef565031c7c00b03c7 0x20c33f838374e95fd344cb0ed379a467b73bb4f67b17e095a745e62d8dddf05 0x1cbe4c473576ff302b9ac51101dbb78abca77110e3b73ae9afedbae7ea780d;
Dbl 0x69f4fe62c30a801b64a8482e6d125f651d22928a3e188acf29645ca82684519 0x285b9e4ffd91974819ea41620f01a21ffc5bcf2b46ff334bc460e77153eb9353 0x404817b896c9af072b3e50a8451b9df31ea49e7bdb3874c12ae9685857f6684 0x537b42cfee8e4bab0efd42df3786739745e8796fdaeea7a9bc97900edb93f64 0xe7ffeb101b1d23b34a23976c33fac02295e45dd0bd1a1ac9e99ee683ed6572 (-0x4fab7ba0f3d3d5a6765cba11f57b9ed0ee93773433a4dc2ed5505790a4d45ab);
Dbl 0x1130016b799ba4fa384276bb2c1736198d0db17cedb9334bc30343c5a1ad1643 0x141e4b2324846096a3f794bfdf395b777430cefa80c8cfe8050e46e7ee4c1149 0xd7c11b4bba9a2976a9f28afd503303d0db8f31f64965ac8420b5ab4c499360f (-0x621e89e67a21a13137e16c3ba69dc04bffc0f507f98fc36b38bdda609b40cac5) 0x61ac49b434cfa16be47ba6f72ce88b6d77be901fc6eb987a2c1e111aed55a96 0x73045bb65fff37d7579a32687fe7ac645b3400ce1edc0fb638c9e63d57e311d;
Dbl 0x15e2a1524f3a08aad67544f27bea0af704dbd1daf9209bb3033b640ad4b2d95b 0x2f0965a06ad87cef13bb40fb2bbc0d2fb46a243d6866988896ac8822a1a31318 0x8a568b496618ad62a8b55b325d83db6c61b3119c3c3ab56e04313b7550e4332 (-0xce51dae920e606a35419078b257c8861147006820cdf40527526e0ab44d2a6f) 0x9e5cc42990b4891fcd45d3de3852ab9ae00cdb4925fe3c47949e18437bc4559 (-0xc2c830a75f45502384d4a2041962a67057e0ce53bd8b0b4f94f72b7773a977a);
Adp 0xb8d7ed5effa9385e516895d530078151a1e1c94d2322a774df12a3a5f9a4873 0xeb8fdeec7cb6673dc6ba23fe59cc3f520a5d98f268cdcbdaa7788540a14571d 0x15aff30bfd0d763452826d9164e5bc3dea3c7829d969d266902b93f170003aca 0x52d194d72a51697091b754878e70b2b7f41bd3584aecd928647c4ff923e915 0x2c20d1f4072ef4a9bc50dcaedbffe3f54aff752e0a5e7bff384ae8ad1bbc162 0x7b6e508e86ad8214e796a7daf42be0680bbc935de1a4b84c0048c544c3e0493;
Dbl 0xe232f43946bfee90f5b7c71f91f782c542a5199475ec1250eb069612b5c272b 0x75a83cdd23bfaf66d7393015dd4d85c04662131297d883a58c7d6d9e56153ac 0x152c4ed5aa9d1e0b411575dcca543ac980c76f2042f547df46a67cd4d37c1738 (-0xc40f230687794bdd6bbdc3e30ef627b956d152c14cecc22a24747113568389) 0x42153d879e6ccc7cb19107f4b6d49722275e096bd93e3a27afdcdc890242395 0x227201201408558b23c583d089fea9b52aa5ee2becccb8ce46451fa98b1f7bf;
Dbl 0x15d5b2c9f2ba457706987b617eb686500e94375f8b3323920a9c29e20d71e9e7 0xbcc8556e77c0f831e2aafbf55a31e570157942defee6e576e0f2ff93621ab2d 0x28a3112049d9fce5b0733c4a845406ae77a647bbffa67abd6dd92f1bcf778328 0xfc12c5ce54850f04c1776db64f6ffefd4ec1a29cf3f3b41beeb187290d2a8a0 0x9da1d5445d1a47222aa21f39a3ff7d814a684be1b44e2d483c2299e454deab4 (-0x2017a1c0029a161da4e52a9b258e85dcf0d95da821f34d6af778c8c14cce881);
Dbl 0xfabad563af61e8c53c4e5aeefd82e5aff04385b2bd0929a7abae3cc17daa86c 0x1dc47d5d8f0972049bc7306426923a55fc8a5d919acf37e551fa9e337f1b5808 0x3bf442cef613a9c599099b7a635d757ac215d4805dcd016a7d0d1a0e89aed0a 0x11b035bb0bc83f2a82b615c2c49f2de3fd6f96d59d1bb9109cfefd4fc4009653 0x513179efbc662c77fbf9ca89981db223bc9b72f132409e30a99f18d92846662 (-0x5d198f282d02fac4304cfa60555903b6023b07eb0db2d443e34196782fdf9ba);
Adp 0x208cc3af0b1b37b8ef7db220fa53dd7da29421012dcad856618aa636be55c9c0 0x18aa97ea039753346fbf48f82743501fe4874f8c1e4f760ad23240a91b489415 0x1195e0dc05eb10b493f98dea99980cc604d17220f144e40aa482b302ee71d506 0xc86fbc20debe0431824b534562b91d5688f1e77fc118cf1576688182a8986f7 0x15e4e11a09f896816eb47fd30b364078c4e70d40f67e52c115d8558cab409efb 0x36e630c21386c20c6a10e4dfa50d1f4c123f1c9846ab48f2b94b1c3c7a9df50;
Dbl 0x2486c614b519b3ee86448affbd03568ae706a9b9b6df6e098632554eb516c286 0x1f1f4a7bb96298e343b80caed3b85c6bc9de9e2b08ac9d535ba2ef369d1f8680 0x232a7d4b5bb3acd168fea758339fec7fa39aba3a37e4116b85bb917b62b4ca86 (-0xb2bf82e1e5dff5eceb6c86917212fe9b916147d28ad92d40d710d4e674feb85) 0x1b9206428e5d4b91237b2e7fa4fc7b3ca018ac2684d4fbff2284cc11f093e9b6 (-0x4df777edf45ee54b1598d627b4b5749b17851ea4e39fc22861c7ef58fe7e902);
Dbl 0xa1bacf930b0f6c2b0e278ccf70ec39229f76684b29d2e38400accd7850b34d7 0x1ff17709284be8fa16e3854ebd55a95ae55bc8b397b0a610b32a0092b6ba2630 0x2a1123941e5dd2b204032483c5cbba231ac22512b925a189e3edfb56936e21e4 (-0x2d5b1f10be330e9a40614e6a3a6468506c49941269cbd9180179caa0171c0bb4) 0x21c83d6cde9c1466a35cef4a8d4e3ba6a9e6694d6d3088a2ff478f6b50d2817 (-0x2be6b8d30ad711d8325259a343b4937355ea576899c43392d183c1f078e1f6);
Adm 0x2d24d51a0a5e6600e80635bdb1c6d872db43c5dc6f35cc2faf27f59e1061c871 0x21f0e45e5b2df625278ff9f13511adc325a22b4706bc9c10df3efd7a5d6a95d6 0xee21f39e6e51167831180232cc5f631c481c56d12d5a71dae84111920532958 0xf58383ca1bdaf9fd5dc1f2ea2f8e07c535631e85509d1004d90874727874dc5 0x2a1d2a3d52af3c4c9587e535de8eb998942f3ec9e94e74d7ff84ce9239b2c943 (-0x1dd19eea3b90be9840ffb658c1cdf9b573dcb739dcfa7c6985f20ce2de2996e);
Dbl 0x23e0db992dfdc62ed881f8c320e5637e51ba0441930adf62b3f8857ff34d9273 0x1b6b398ae31a35bbdab385662b331cf35946eb39d9f8c781e4df2430899bb4cd 0x1cd97daab4ba4169414180721c9f80ed62a0117b0ea54357be7cd6d33002f28c (-0x3158dae048b5d1bf6382c80788d597b8329e1fd82d85734652389b4d9cdab984) 0x1a99c7173cc81d91649b3e68726d089763231417239137098ee848ffdec85f50 0x4d5e9f4cbe1fa0172464915343ce4779a71c008108af057a0bf2bdd62f35121;
Dbl 0x2aa32465eb050f1cf414fe6dcf11c696d602b1ce1af061b764ff10d051000043 0x513527812719ba27751a34530523b5d7e5bd6f082d84dc4ed1964a450cbf114 0x254aee7c0bbc3dfd96ade7652eaa07d652a6ecaf669f22e2b6ad5d7e3c4db224 0x43b2f229f199c5959586ae3fd1a3ccc531347baac695b0c0d37ce9feb0a9b4b 0x259129090c8a8412411ec887a3aedc7566a4658c67e86004e681f834726973cd 0x13afb7627a9e17c5839da29f9a3e301fbb5cbe9a8cd62e447cbc0140384316ed;
Dbl 0x2063ad0cc0c566b0d6d51a1ca458f9407a9edab5fc79fb6e7bc95108ba71934f 0x100a9ed53fa6e3c76ecf4ccb81f7a3fc7a19e9da0d705cfd5c02e7224094bb9b 0x98105e70baf042696ec297d5b17ff487224730924bf0f1cf1a730c511951505 0x3052f94018a3910cbe3f7dff2945f39b38c9541b31c09f8bb25493a3466dea38 0x15adbda943ac590d1092125372456986ccedf4406a3343dfb04856380259bd72 (-0x756f7525cf133b047e2c9e876dd702edaf034bd5bc2e47ca5370d288fc1b69e);
Adm 0x219f30bc8993c8c26d38bcfc8d8ee1173e40ed5fe561d095dbba04a0cc98e6bd 0x8eab6c8ca3254244bc77c0c430e0e0767ffbebe1124e12bd2c417337aaa2170 0x242fff4c2ec6a5066f4736db38e52296412b8b0904021d134f66f0794397c4ed 0x1679fa7a59168c970995e232c32eabc9e260359c64c6b42684cdf1e0d1664dcb 0x175c222c291ab4a82463e84a3306a4232c40e2b9f0d20912636fd6c1a29e0508 0x4f338535c0ea0b80a497dde91d204420ba13892b86cb7851e9726a54dcc6a4b;
Dbl 0x1d635eaf06243ea8443598304ebfcf5015419f82608a28894b553a6b8b4fb458 0x91cd123cab3adaeb9245d4678f8aa82f40f448f3d043cebeaf88218fba59acf 0x2670ea998ee33a3fcfeb2c2b8c15716e69291ec1facc5e7d2314209276109494 0x27061d6fab15b0f34d450ad4be60c5945b1d91af0d0eb8d7aa4e04bc2a0e0090 0x11d8e9b8ab684b2de20184b31ec4125906a1434f24857234e2e937f4a96f9f67 (-0x1e6d65338ad681830a231ba74798a4c5bf8ac8952b76d69097760a97e0410f);
Dbl 0x894eff543c29fd4140dfe1968d00bc921c3e68606494d5be15461efbe115e8f 0x1c81e20c6ffcb4f20a7f73c6e452e3f3402cbcbc52c5ab0cf2cdf04f71b5dc38 0x7eea9a2becb0e5fd7fab68ba7f81dee76ae75ef7cdf07f5302f0c6555d9387e 0x87c811759b914da64f67a4b5c7b4858e476a7d8613b1a5325a64ead451eb9a3 0x1859a9f4db4e464f493e06ae9b70f6c443e93ff728310faae88d7d5a156671d (-0x37080ba019bf27c08e06ac8a9611333ee06aaa7616cd29176ce559eb6e90dff);
Dbl 0x1d64c74502c0ce52aaf06eb39300bc65a25b5dd54dc77112e34870dfcf639829 0x172ce0baa6f8962adba105585d12d8d25b12f963b044ecbc2927db2cbeec66db 0x2001df6b412ed63fc5301d1fda1f8831f3127247ca8bf78227dbe50d7f63f4a (-0x28be8a0a760fd55965ce3cd704f041b28cd924edbc277257d84ef882d40a927c) 0x11da9fba266e8b0c5820580541664a6445baa833ebae9fec766e1c5b494cf98a 0x33d1e1286a8a0d435e7cf2ae522bd5f231796a92250a354dc6a08619a6dcd7b;
Adm 0x25c604bc611617847394e48e40e63123a30b3c0209b97c7f45ca53d4409630f0 0x1863e8b8d34139854c33447f385586633efb47870b12de539f94a9386e43830b 0x13142d28abf112cca262aa4b10b2b931327889156f3125951cba7b2527ee00ef 0x13aef461a5a58bc2cb9696a6abbe99d387635d9b3d7f33e8a0b67cc7daf834c5 0x1d7c2ff534e2289395b233f142fc1e6e4f9fc49aaaa5ed8548932943a810518c (-0xf2c89a33a2a3c19dcde56a04a4654b199e02b2fdad56119ca8918c39a1417f);
Dbl 0x1aa0001e0a7ad2fc9ba1b297889c184d6401a4eb032c9cc21ea9b86ff75670e7 0x241a5679920b7f07b102b29ddbab42e6f884c51bc6a653d90f1ffe4e72de26ae 0x6d9d6975a98333f04c4ec0bba38a0709f2a1e28aa99875d2414e709807aaeba (-0xfe295d2f20c31fd82e32c83064093f33ad21412594f6de12047085737a48f9f) 0xea623668a807ed014536ba9dcb8d205817762a76719638b989ea126bf7c616b (-0x671b972ffce1d4698828497a8c0ac117fae853be4dec9a0894e77e5b330c152);
Dbl 0x2f7a12b979063e6cda3ca59767c3615f3e18b04ba161dff1c62e4e9b295dc262 0x17f9367e21d8a2fb6079234eb4f4e1d09641ab009ddec84fb5defb2937709f77 0x15cecd8ccd278a277da304c80c00ee451465b506ba7398db6c484163f5166298 (-0x435c7a246adf88f059792035c9a730e4c1c855afb8b14093f92c68c1f1c5127c) 0x2e9444c5681d26db69b0cfb27c974956813727fc019edcb28c8cb3f925576e47 0xbe66a182d5782c5f281d85709fef4ab16f208a15c40e203109752aeda981064;
Adm 0x2f53310403ecaa2174370552afc5ca1d5ea7381d26109f60150a9f0dc75c9b9b 0x2e95d33b942e811eb163ceec4bf4120a29f8a83e227d25e9997f2544d810a8ff 0xc3ccf2686da35bd36f4e61d646918212b6d2d19e11fafb13aeb0736b4a48715 0x17e147e0cb152836bf7207c0af173eff7ef7fdce04d18fbcfd00d66325923f5a 0x2e4818fee7975db59146c6458d6f2c025a06984b6289dcb46fe42124514e9f7b (-0x161cfed35e0f6d93e90e11f902449af8b8dc8206b4136d00d0e812ff88314f53);
Dbl 0x2ff05bbbafc0ab6f3ceb5e060d509caebdff84ad20900d830ed63dd634fd4e2f 0xf0fd16d9f3d22a2b129595f45e49b33d5dd3114640d2eef064ff5fbc6bca1e6 0x9207029e50eb87633efe9b69bf7a3c57ca97a648e8e43bed268c3f9c94a6879 (-0x6e4ada2906530d125a1c67a20eb93449d791f802c5211eb87e70dfe2ac2e4bcb) 0x2f7d7ed51427da6c6bfbd9df75591980acdf7b851284437ffeabfb6fb4160bdb 0x1f3a79d9b839987527c073fb2fc2b9c011354e04cdd19ede31da7b90760fa42f;
Dbl 0x121da808b758ba19b77e805e746bc6df1a78764f67a9bfba40eedcec3e56ced1 0x2ffc483d0260d622a0c19c8b9adaa509cef44d1cbf79df6eadf2a7b91bac2fe 0xf22e8690a58cf538e72b329b6c4f677cf73028ed0e79d46d613a5fab6672912 (-0x73b01059c8967d7c3457024fc71e805575f6a6d2bf0e897a0bbfbe92e7c13d6) 0x6c8244d737202f3afd52b7dcb9f806d018610c5c6f09d9fe2dd3bf73150f0f1 0x48408fb1b0877e4baac5fbf39367ba114075df2e0428be114930f986effb1bb;
Adp 0x8ece05925b3de525823f3ae8f79d74fd9e7c7c8fb481d42531d8d97e84443e1 0x19731b624092b0860eea9abbc8a3f1b021b155800e40f1dab62003c9f3f12014 0x280211d4d0cc4618efca6bb86f53aa43f2455a4bec3a7b156d9f1b56f026dc08 0x85f454d9ad6df61bd289312e7e7e9e183a219504c58e0f41ff4c7caf60877a7 0x1a56b1ab0dc153c74011bed280a712f070bad1882deb4604b1d77f54916a9cf (-0x4240755b87233ee101c654c2f5719b56d1a70cdb864d8058dff2ac55ca4a510);
Dbl 0x1d2c93f7c3377de455ef1e0448f555c5b6e8157d6c642489a3a84a26f0a400f1 0x3727dc59849796b55b45aabb03f9ebdadd19fb0f4f5978925de8f7c3fc30e45 0x1d358e46ec5aaa882b468b72ddc8f3fffcf1c6ebbc7fb8f76ff29be28c6bc7f0 0x8164d50acc080b0340f5f856e091ddae531a62f38085aeb3c39c727cbf65aa0 0x11969b055067076dd07ccc5df3a8e1f7be678232981d86e3f27b423d50d4b1ec 0xd43c0c86ff3cc52af0ec018132fd46ef68214573ce4e46e908ed29f22069861].
Definition hSNARK2_4 : list stp := [
Dbl 0x2c30cf144066e6fe747a0601b8489ebf000ef690f9dc1e9f8e2aa20d6e2c1848 0x2b754d8b9001a705f6fa7866830f3b27725c1779ecfe9eddd6c27699c77fc8b7 0x1b12c5f2ef52ce2ad5f657cfeec96c85a09a9af8fef4705f4c1a053c917155d1 0x349c2e30564eca2b3b352203d01669b0dae31a4dfe6f45cdacf93dcdaa0971a3 0x285aae677ee54837c2a22237fe4896a86a3a724d06e36b17c8c50474b9bcbc89 (-0x2489938d2d345c780ea8aa7e72d656e6f05656ef72abb6d9d0da2699b66d1827);
Dbl 0x2719ef1dad011ed4d3a0f84be2bb152d1f84e176504fa0aef0a87746a182159f 0x25a34681ce6128a347102028b5d064930042f53d738b89f61ad576acf50f8af9 0x2d91f3de7ff66e2e0ce04425c451097608eec6a990626188b42c5963c4b8a768 (-0x4954dbdf84b8a79c28f1495515f5a9acce004d392a18820c98983e767fe51b03) 0x1f982c9385cdf5d98c9c6202fcd051b4bfe570b2660cfda5e58ebc7c01bbc5d6 0x4b3f6d309c09dadff25368e799cd7006f61a82f99b935eab00126db76efe06f;
Dbl 0x1b0e65f99d8037ffcaad46ace7dc28870565da77992dab683fa6ad1dfe107068 0x2b489157fd5aba1fe0835eeddb989a64959d993a7ccfafb5296ed44d56de1d4 0x14c2023700a5d95614ab125a7989a0d684e7688cb387487cb9dc7a300e4a137c (-0x24dd164f6e3b7c22a4bce617daa0a96b1b79305ff9a88cd700f11681fc70fed5) 0xf209a64f9c80a140eda7ec19feaba15533e1d435bacde7f48c0a992f245ceb6 0x1387f491a808fda5da3a0125b5ff93351fafca1f220f6ec807eaa6d9483474bc;
Dbl 0x22f3615cef3f381c29ad7e0d26be62800d5c6ac6242147ad4a40d7c05e222144 0x2753feae8354d18ca162fc7053da2220d7cecb51ee43371915f1703a89c07112 0x2d2be53da3bd8d4461d1e762e13343b840f2c73d8999b39477b944c843d7169f 0x1d87e100ebba8e081e1ae18aa62f270b256df7749faa2bf2a1c0c8bea9673350 0x193e31265b78ff372c44de437cba4e113624dda027e974c80c27b7187c9f82fa (-0x1a735e9902ff8d0fea77d9114ff8cb0fe32eed3dd0d3eb2ad1fe672f36cb0455);
Dbl 0x1c9011372a584ba230e30e5b650b8a483e7b8889175093fbad8a9dde1697adc0 0x2bb46c40f4b3a213665983b73ccf419627833421babc525521e3d0ab693238dc 0x2208ba3fce2c0bdf3e95a7ee70e4d2407c8cb426cc5cde81ae5f7f08fe10a695 (-0x2a8fe34d667f0d7186198e6ff4e9d5db7569f8fc47d30ebfd64a46fa72114054) 0x10dbdedf0e6a82e8ba305b431e4e03975289c962fca4a737c280870f7bbce300 (-0x29552216382065655176867b954d44bb7d0a7f9a3457cb984d91008d1d53dac);
Adp 0x24e1e18649277a8245eaec7acf9351c25a65aec673c1810135033761e0ba8931 0x1324fdca139b23714f544d766db21b3608e2ddd10323e94ec113a0337e129ba9 0x417ebb031f1360a4d285d3d6bbc86197855af6a1a078ff2db6b12b5b151b424 0x39281111fb659620c0b86c28841023ab3e5abddcea66716d20d9326a7bc137a 0x1c1c3b28cae3e4c2ab776b37225e8c66d0efc55db8f7fb43c7e61bee945d3cba 0x12b80894f093d8c83f9a5e339f70e8ae3e8f6eea4336156e98b268ecdbe65da6;
Dbl 0x56bf1987cef2460db0900ef01682aa9e0c246f865e50618bb5ca06d9350103f 0x2892eeee08b41c558460d61621ef9e8b7bca4481bd0e3a5472f8db984554de51 0x2714e07a70638d32b2e084d6a955693a5e81c4a2158762347e9a4d67d0a650f9 (-0x15cde566001e3759b8abe625e36dc204cd6e15d15c64c966cf92fee94913a2ad) 0x9b80208f0341873218455afc2f34acad147d026d9cd9b4659097da83418e32 (-0x266a0542ac9a8216b75423bde5c7534015fdcf28aecfc2489028d8407623663);
Dbl 0xe6f22792fcbf7a8a614544336a4d10c8d2c8de00ed6fbff2d8433cfb8933d50 0x26e970925acdf819ccfecc15dce5adb5541d42231a3cb80e0737bda4d3aa78be 0x2adb67b2a5483e7620e249abddde74ff4a45828aebe226443ba660c968a3a16c (-0x4ebe3ca9634b4eee8a6238ebe59eab9029421e6dd840a8e8bd347fd632872025) 0x44e2b878b7d22005737d8f71199f46467541525d15a4d8e5dbbc4a9be442f60 0x7eea1eb104f7f55c35541431434a095cf4d6c37f5860863730db39803f929d;
Adm 0x2c1c7add29e9b45f7a7cbf66458140cad49d255f0311a00f8c336a5486e0eb30 0x20479d225754330d2fb917a4e3d7781686d1f48942f22281b09b5a42c2733ad4 0x2fccc0db7049c90d8b335259986efce1b3c813a3883856377757875bfff67df6 0x8a431cbf7b8ae256aad863da7b32ef8b229777ac15102e0a8e84c404113dbe3 0x28359620a02ee0b85d735958f6a86d0c07643b525d2a85303452cccfc6323a98 0x60ba46403f3066273663feb3f406331d3f6fd8caaeb83d5afbbf00d29866892;
Dbl 0x1f43928cf2db604f18f1623e3a3eab666a7a105754fd08425c798915160e139e 0x587641ba1adbabc7cb0530abed43be3d28c65fecb3105efbd97ed76631758cc 0x5cdfa8d8cdd617d2cc7e08cf9fa2a5e191d8582cd3e8f3512fbd5a56e3512df (-0x2d565efe5794a39cce6df66f8b090fccd6f8eb30e025c6adf3e6ca9f6762cb8) 0x1432c6f4e9b6bf67a0b9e864e562b45f73280bbfe1e06523274ff91b873e0870 0x11485a7faf78d5cfc48afac6bc50ccac9981e245b13e77ece344d86a4032b88d;
Dbl 0x11863286eda7e9489bc5a901f2dce21e6d21946bd8d41217f4c983786021020d 0x210411e80c4cc01d3748e5382cc62e7982533459628b67df41f3b27f9e8c37f9 0xb25bd6ca02e674e14aa0021f761170ee63db623c569ce6aa6bcab899ef88d57 0x24f1aedbadc87f99216c9544e65083d20f347ae27d8e56e50394eb480beac5a 0x6589808aaea0459ff66d92d4903350055a49ff6e4cdb743d66d9558e2028828 (-0x9f43430acb8a252284b438aadf86676d2b32b89b829c1ab42547bf536b55809);
Dbl 0x28abba8c4a9e37b8e022702edeeabd5e5ff1c023fc9822172a5356c99d37c0a3 0x8ef1b8720ec8dc7af1ba84520ee5a84ed1fefc953c5952ae36c1d3555004300 0x2bbcb979d1b494176fdb51475055bdb6c2da505b0d77519adfc4d2eef61f3651 (-0x30d6bc7618f279099104f8f52fbc51a095684c3aa7a8b1b27478c360c8b06e6f) 0x222e8486f98b83ab487caee32867cc8aa507bccd0adf8c0f7319699f17d493f1 0x143d54bc231eabbc441da4b6c03b445f852418d48249bc6a1991cacba9021785;
Dbl 0x19d55e99c87da234a45a6c4ae5dace6a8c5c4983f7b704dc0967dda4722db960 0x1a20d0226d48ecc82e15268912e4e379dbbced70be6d472f895bd128d5b2f06f 0xbb5b9699aab52e5cdc5851227c5c3fdcd032abfbe4c843518242686d428db45 0x29bfc9467aaccb36b171b71cfdab506d3f8e050e7066b9d23d5de4e5a1151b40 0xdca7aa44b9df6cf28af1cb5d3e9c1e510ee417cedd2ea58d34b265e16f84a67 (-0x92dce17a8cf13f92834ac1b88e34cfbe97b639ab36945136d4414ad9c1c1f1a);
Dbl 0x2f7be3d8030035a6a74cb84c90ee97dff9551035de492280c7e6da522909de97 0x24c081c36fffaa8b727cca951808f6d7aa2dce20eeda78a13caf68672f3337b5 0x2f3421f39fdbd16f9de402b98671e0d57a8039f0c118f2a7514204963c13a740 (-0x13577ee63d2b375c8ca4c7d3005a1093ac12bfe5d497e186699171a52b8a499b) 0x2e97d57d44b11956da6a50691aa923489c3a5f942d8274c0e9b9f7d04354be92 (-0xa6cab79160002ece09bd4cab29f2f2ea701fc5f706f8babdb88967496704439);
Dbl 0xabdf26e52c641de40da9878c88ca254f7b30e35f2e7a9133b08e21313af914d 0x3182b0ff291d99e6c09713386f64afa3776bcefb47747d826f6a7d15b47251b 0x166b20d7b10942f5da1e34bdfd8217bcc9fdfba72319a4343ca5f6b3558d90d9 (-0x3ec77dbb556a32b40368770720572948768ff75053c293c175f7fcef8b1688bd) 0x2626e619c08d5f5ecf392d725f881e0d25c5a721d3963a7c189dcc6923fa03c 0x778a5fe6c6d799db33584bb35661388ff2df73c4b32955b97d4a699b80c6c7f;
Adp 0x2848b8f2433f119df0cf753e36e9f5f3216d85bd5b6b2b17bbc0c2d552b6656b 0x1a546f29c2c7fa3dcb945e61d72789a50b3bbacde7702bd92dfd27498e705116 0x2a0364f666b61b759341d2323af8490263da756abda45d1221c270796b1701a 0x25b546f0b9fd53723ca2192ae38ded81b453c78180852e4913d5586e184f706f 0x2188e3c2da4eecf7a37d95bc8cd3d619a4ece61463f0b292c7ad3bdfffab77ae (-0x1357abc00cd8a9312a698b157b8d8e392aec029c5ba67f2dde003ea32c6f4544);
Dbl 0x242ae74bf21fc33c649f5629220862714f93ec36bcb06bb95dc50bbaa370b2b0 0x7c00587938bcc30c1841a4d65363d0a2f1936c2a140c2bb5219ab205fd30220 0x226dcfc48ee7c044565f18d645c14bfc20afd05ba2b39a780890a0c68f356168 (-0x270d87b1f96ae2c58554f47afce58a6b991c129c6a595be297fdda5edae458b4) 0x1b08046975e5cf29464884075b149cbcc061185bfd64ca8b3fe7d36d6449cfac 0xde2e5e22a8b2c289dcf6191af3df3de8c27ae3a6ca95489646e397b20297672;
Dbl 0x102b31cea3d88fe5d502013578f7d598818e957530e33064aa2b764704e196b0 0x431762c7c9b408d6746d2a2449b0e6115265c754d9a745bc033f1a9f635bbf8 0x69cb3a71fa4f5626f6801da57c687939afc416616f4a4e8561c850892c2b0fd 0x1348856aa010dbb6737c7d8356f94e1b68d6bf2e5eccaaffb0a01e55c4752500 0x566fe030cbc2b92a58fe94e825454c4938fbdbbaf6b6933302f821723af84f8 0x1303cbfd65dd34ed40ed0a60fa52bcfdfda2e97ca2ea9563a9ff860c0139f8d;
Adm 0x9e63f09cd464133d51c2cc483cfa972121187e5287f40795c3f766300d46bd6 0x1dee5750e696bb94f848afe0068a9804f1d660bf20f614524730951e291d9f11 0x97e15c94191020885b71b5b4f096d7f77e6a6994aed1a531f890a8a7f281b48 0x90aa698963fb6f7620db101d82b9bdfa69a43dfdf706fdb31da2ad5c7c880f6 0x2066cb8fd8964b34645f486e1e8954cecf6e95797f1ed96a4ab89ad7740e343 (-0x543df0f31fb28f65dcb057d64a8b083b721e1d6ecc2b15a10ecae9f7a6d81fd);
Dbl 0xe287a4a037655ee7ec4d68bff50fcf0483dcf7b679ec9740386a5ea683efcd1 0xef1113e5109c2bcc9cda9eed71cef8bbdaa6b170254327976ba3d2fa43e5a30 0x2a95aef0cc5932cf9adb6bcc4e8a5f35f8b5ba32ac37830c4faa63095ebdaba (-0x31fbd801f8e23c2527da551819b2eaf2887cbe25843badfa35efc55eafb1dd15) 0x4246c271f134ad6b18a075d0a11e0907102bf222915264911f86c14bc016eb9 0x462ae44c0b8e80e7569cc7ce6b62a4a6e6405cb77158381e9bcd9ef9ea9ac59;
Dbl 0x9a303bdafe2bc25868144b89ee741706bf9529083a4c9096687a67ab219075b 0xa3e4731c40e9da055c8b95d9ded73ede2df10f0e6f8467d75dcab3915d1975f 0x29764cb921481928dddbb414969a90478ffe6c1711169b38d32cb1ee2e7ed6c3 (-0xcc7c328088b98bcd8c5d0c07aefe0b7a5a23b69d2c86ac94b9e06aae013ad1c) 0x1eb48617cb09777124e2217ab2d563f6e79de370b4ac867ce6ab5321a7ae196 0xef862f33e64cb1c17deb9d25586d615a5d4d2f78f683e2adbfa77036b4fac2;
Adm 0x1be3522abdc30c12d3d85ba0b61adc87fc9391e7e4139b8a8f29df5dd5770aaf 0x2193702723a9bb1f74f7d88a3a410ef41245389c6b1a320233362d5b5f8bbb2a 0x1d84e6f7721e05ee7cde30572fa2ed3521db632062a012a720621b55c5ca0de7 0x15fc1d63ab7cf0e55d1ab8f0e5ce90c47aea022252383fcba2e9855b7c987323 0x10125b2798c7fb8dc05012c9892f334bde02370b73bacadbc632bddf54a76e9e (-0xd724d9bb4880eab195aa1e94a303dccc886238e228cb6a21b4ab8c7d15b3d99);
Dbl 0x12447daa7b277264714ba0be8b3a63e2974823086c4f8cfaab6bbcedbb6f1fa0 0xc81bc9609b98fb0e31d765ef0405a15e8e2e1bd626fb2980593634ccef47d11 0x17eabe700b3c6fc86b1a106d38bb7320fb92b3495e1f465deede30ecb503eaa7 (-0x2f9a18be3d6c13cfb721d40130e96c34983b1eacc563c43c8be21668680e40b4) 0x6e556eaf0a91150f50c0426aa831d913f22435350b3beb17063a3f9167c0c0d 0x7f414bd84c91a4533f0b5334ead393522accd1a2e6416a5e9b607d71988325e;
Dbl 0x2ab541e7a003beefa3cfb2cf5505e00e3f96227bda440841410a82e46f427f20 0xb94f46fcb09e7ef08efba5fadba7fe3fc75dc567873330f4ba7ffe01a7948a8 0x28cd25e92af9f248304813e642debed4fe54d7bcadccca2361ab4ea4cb13adf3 0x2084c360eb46c66f0f543edf40f2d122181069f784fd1870457b5a07248afd3b 0x25b11be29fc5d4d973e40987b8fcdf574dbe153f716806b1f24ac2d50d50f81a 0xd0f8933c8cee2422d13f321f2d169367ee75c750ebbdcf65169d71ec78034a;
Adm 0x10850cd7765648748e7986c57f70a59b8c8e8b4373eeb301908c5cf1251d2e8 0x97cb84ab5dc7c7ba2a877ad3af5510011757b461f1e85f24c8979723d6a6ac0 0x12a8da3fdf9c4b72af517b8e34737318db4b8a3f182a1122ddd6b123fc12ef66 0xc90e3fefe7c49325a2d0803e08f3e0246214c2c057b7b10783786d15d0a374 0x5a3b0750a8c7009a38d6da094d4c3058a5d8a6c12297f3c082b0c7ca0f2de 0xb70e8e4da9679530957b198b53758d08ade658989cf94ce02d095cf990361;
Dbl 0x1021366531614d5106ac6c4e32ed49f695eb61ff8e18115113931f5607812ce6 0x170cb23e3709e9d51bdd619269fc01580206d6cfb0ace45b30f3cbe4f63160d2 0x2714ada118ade00d615b6f97569167121eed7c621f9242efd29ad2ed881baab5 0x6dbf301a4168ab092806485749fadbe8861be4d802ffc17c894ea465c069e78 0x560546fd9777f0e4d6e3e3aea68b89522a5af62722d836eec7c925cba55361e (-0x48543514ac687cfbc3832a0a700886ca5b0539b39674f91c19f28b03b126f01);
Dbl 0x290eb8d67e99501668aa65043c8fb9ff41bc1c4d084c00298e6ae75e8896180e 0x1a2b013f4d176028cf9ca863a12be6db8baa5752a80ecbd59ae763099faf0468 0x27ecadf644e80394f205e8d681ec8f1d73dfdb8d6bfe4f3e94e620bc804afb45 0x216101290a3b4f1f5029650fc3735bef7e370ca3db9e1c4f30d62b08fb00b100 0x22d5b4cb1156b50ae329afa399e5e1476ac6c4185953a10f770083d17f4dcb88 (-0x2a550ee82925f094dcff3bf757f26824df0baa2306921dc43af3a00cf913562);
Dbl 0xbf2a7366825bb28d4379274f7b47485b741839f83db73514e323fce6a6a037b 0x5375d0913b4a172452230ef1bbee1911d83d519d8f723b4923fcb4c3166689f 0x2ab8666989d0b98b1331142614ede9cc485bfca712e2329f50e8ecd21c53c118 (-0x16bc9138a89e5350e4123d90da4eda2174511d1500a0cbb9c9697bf8ec2f20fe) 0x2f32d363115a10dbfeeeb433d12b101f7c0b2e2eb29935e17557059a98a6406 0x52c4648fdb562b9914f73fc3b1a795c734b83efaa57e0de66f3ae7631a5c91a;
Dbl 0x794d67cba6f4ab621da5af3585e52561f4f3eb30ef6246e402475883e0d44db 0x2ecc9a0094ce12f90dbaa55152a2585159838ba2001eb53d3f1051e33c61ae1d 0x1f849da05310eaee332b37e3c94eb42026952ab40fad09074e325f8cc1d5b2c0 0xbb2eb35bdc22695aa752124967b1be392352ae0624651b511f65160d149b54b 0x13010a9cc15b1ff4d346085b1af9fd5191263d76ca00ded9d5d9c525f4d9312 (-0x683c1b6e18b48bdd2d347e17282b251552121a72a0039e3b3bc2221ce27b54e);
Adp 0x1aa2c9ee3c75f2f77ac59e991482e58ed59ca406f8b876897fd4f79edce78fa9 0x10b7139f375bd089e016bdae5891760eaaca41f68fa0924f53abb65ab7e63c5a 0x1de81dcceaf0f78ac52e39420ffd2be497dd88ee43bae8f907af8055c57e99f 0xe068d39a081411d3f1014ff833f48cda97b72081334180cfc6cbed09b109f8 0xea935093b077b2218db5af04e2a9942b7b54b0ba0c4213477922feb5b9a158c 0x108f15821b0c1c16db92164a7bd21b88c43a48c7eda28fe63034277e41a480c4;
Dbl 0x1d78cba25ba93669daa9ae248ed26f485f76ad3c1ecf955bc6cb4f572f61293b 0x13ab02e783f806a979d3f7849d427c2449d1d57efd81cb9cd102981e7bad2483 0x1c6186fb3edb683f1e97878b9a8dd10eb8f0d0b1ed255b8cf5ef3190fc42ff37 (-0xf0b4b4c02ce3a55082a2caf817b8aa9bf4ddc0a6c09182a77416b985688aa4e) 0x11f2f92f780460be85a4ecfaa8961cdc7c956a67921db86b3c8c33c3ac3ddf8e (-0x1cc6231300856946f7bc11e4655d565f7a51cfc6a9cc7ba99d5fa8148254aef);
Dbl 0x149837330534100ea6a06dec2f55204063f7cdeda420b6ed6fa225645363757e 0x14b33e20b84f9f9c948afb36287654179021b89b66d89ee812fc89e5bf2181b2 0x4d82d49c91b1e6fd2c066c223ba2fb4e3b578f948dacf52954348fa409fc29f 0x2cf2ccdc26d2b63448e94838ae52f7e2fd7c6ed73bad5d9c46e9fe9424592f 0x8c3bfe5819d6fa6d7ab3a4436240c7d68eec4af146d76d5ed9500db68445c54 (-0x70739a9c93c99f6a267288f1979f02ceac6bbacc7cda59c7040833b7cb3248)].
Definition hSNARK2_5 : list stp := [
Adm 0x5aea7de9637f1a38aed71370d040aaf61b5ce520e5b018dea5bd33ef683681 0xacbe96eef6e92a203d621fed6ccc5cad75fa3577e9b71a403dc9b11b19c1b72 0x12b49875fac0e9b83097769caadb35a18ad87f86b6b0b34de8160735874d906d 0x34068e682dd09e5d0bc6177a51ed5f0b94158800b7ec2da1878cfb11646be4 0xaacee0e54b1934253a95022dd237c6af94de5f6a338494f21327670ba831 0x129b3eaec0195ff3dcd98674ada6eb58f3e1613e1f7eacbc39a858765efd2c;
Dbl 0xf746b5df95fc8bd5192579c0d94cf1404478068ad3e9ca8b1c12e69a61ba239 0x1c1edd2e758add4a09aba2228e4d9e07ad7cdfcddf9a7157f7f775c424c20105 0x24e269e67769d94376aaa6d26f92d1388c02be49c5d31fad01a9fddcb7905e4a 0x4b8b375b48d8da0a8bd22fb1a2c88de1ce2bad2afd6352e92a5ce912b751cd2 0x4ef8d011ab48c111fbf49f4fecb5279c79d15048612d2d1986df8be9c8684f8 (-0x58860e45bc8f222b08000e4faf3e1eedfe2e62b70ce1c06014cdc84a5620afe);
Dbl 0x9e76a51b2ed59c0ec3a55283dcd7aaf2bff38286cc53c2e78cdc2a961e27b9a 0x46a9fabf91d6010173defb5327253b08db48bab8b564ab57c0e2a1150d446bb 0x104c98c56ab67e8e90eb8ce44d0eb569b6dadaea3667e6d580e00cfb342cdd7 (-0x21ecce89c121e5da269725354090364385554282cd0e21ca3dc8bc1899595a25) 0x206e7327b81ac837792d4d8315d2b4bcf0e96e855581a206d8690d5be7544a9 0x4d9f024cc625af5f1a86871020ca316a223dc0f468f12bb82445cb21f908005;
Dbl 0x944528fb2be267a873353c87977c4c19163b06797e5c00a6ad82aea8d5db8f5 0xd970de8d04e47881c2b7091a1dcd0d2acfe9110c73b8cc95ebea08677820d7d 0x27c050845f82ff20cb4179df965060a99c3ff98050806606ec048af1fdd31c0 (-0xd1ae381403326d88deb792874fd7c149ccd460f6edd9bf954421e770c91413) 0x1c64addeb95d4c425172fe3906c0ecebf68d5160eb71b1c92a2b928de0eef4a (-0x1c1b79c182c31e16db53782dba3a05e8fdd432b21f0ade67ce2b2ebee0e5b37);
Adm 0x29544b6e2965c619a66248dfceec2633b15235f8248aa68bced8f0ed6eb4ead9 0x2d0be46472f5a0b43fdbfba8315fb705a2c7999813bc68144e14638f06e75708 0x1cc7e6c24b5bbe1ddb9d322c40fbfeb3a0dc70a4c77ab8c3d1b635d04d5d5d90 0x1db8fdb32a4783e01481c29aafec5d732449cb55b478f6fa7887dbfa98c09686 0x234c27380fd54e33ed49412b0f3715b6792c9ad3ff75a05a0f4335d2965edfaa (-0x1add90eec0229ecde87adeea4ba9062d98b5746087f75748d724b57a5067d045);
Dbl 0x52664985542ea94b2d0853cb381cbee92d859193fcd746bb31f56ad023887cf 0xd88438bc11919afd2896a1282910c44f34a1842ffb4d5f75d5311868633ffa7 0x3b0158c21317427eee06496715ed05c91d9a6389f9b6ca5db2b304cfbef25af (-0x77abd419832902dda3ad1db5f745e74b9dd9f12ed8f6e560ba42d9febaec3f20) 0x8c4e770e700fa523b549463b744b98d1ec108f97371c720290cf3538b7c406 0x35a937da9a6f4415a7d67e31ce234b68d626d9cf18c8aae1d0bd68993093350;
Dbl 0x294b3741156da3c8742fe1848d05fe977bd05d38ed49844139857a5a98ac21ff 0x1766ef655f893f0eacc57e516e9a5c5b610523c3ce789787c305ae4942b52f12 0x26f11902bbab37220f96528e9ea9389a67feadd0db657f0ee8fa2dfb4c2b6f9e (-0x50f05ca543e5a08113a1932d0a8cb401c085374854a9861275e1b3e570f66c7) 0x233ca6f958c3043463f767843468e348160aa0b3bdf112800790759cfd2af1d7 (-0x86c10821ad640762ca42cd847594aef8808ebe47121fa81a9dcf17f6d872e0e);
Adp 0x2518fab4931336ebd567ec832d9f831d9934196e0c00e3c213b30b27ebf28b3d 0x234ef5e5c7d0420fb6ebaf19b3a6f6224ebf1fb84add6feae16651117a7ecf0a 0x593f1bf1a9b2ad82cbb1853e0b53f30f6b38999310e84c08fa4b8159588455a 0x132847412cb3d2893fd542b816a9084ce01eed12caa5c60b195b39cee0077abf 0x1c7076b96118edaf6b633fae7792670e389c0141d5718d4b92a5c65412ba7d21 (-0x920a44a542fea201bc9d05b69704931632f0994bb4df4ee24ba5bae036cf470);
Dbl 0x7a9230c47d8d04e531d29e95755ab36dce66c554a85e67b2ad0ef736d6ca1f7 0x265206a9fd0e3f0b43db79d2af7809fcce3d718c7b8659c346cfc78a58739721 0x1db0742be631a7c89f8787f275ec680c2e6dec1187d632853ce1c564c136e1f0 (-0x4b855d1c22ad5750a3a55e5c143461564889ef9dedad47bbb368be0199aa5680) 0x136756fc1014790fcb1640cef66bd47dd8962f9ff0df267d0a2d53477d9fe04 (-0x7a105bbe3a51f66bae415ecfd502033b7805a50b5252cbb4eed6924368212d);
Dbl 0x1a2293ca5d28f73dd5a551cf973b9ed9a4acc5371a388e233caa7b159e47951a 0x11090d5947d1278ead0876da1afe744c19a11115d8f4359bdffdf7359f1536ac 0x20679d93e1184e605462d8aa48fcbba39b24c08ed5586ae7ef15fdff726a0d4c (-0x3af771a336a53a4a1df044055260a018a7799f923ef5ed214db0684ea6c6b365) 0xe1d64b5af1f8805bb1cfbe350cd5ce1db395c30d33b88577f44a17d4883d39a 0xb7ed6923822ca3c94dc27ca587d97097603c560c7592f7904999e788436582a;
Dbl 0x28e22c3072b436e841fa78a1140f177fb769331d6c80dea91b0021e30d5c18c9 0x2c70212bb42e6c6516fb05946435ded0e3552b71bead8a4872ff88210756730c 0x2f0c397393344913a7a4dbabc7c396f3ccfcda92754949e9a4dffc4e34eb0f2 0x24c352d844f190c69c6407414234bbc39483af46a9a1d9c40aa2e7dd4788e818 0x228a4582301f69fd6347de1f6273c8385d49b21fd7dcdbff8178269522a149ab (-0x1726a366e0df8bc7738b1cbff3198661bc6eedd18d810c1ad3cf6a8503c1c472);
Adp 0x104fc02548a75c4f84e80d2bdcf03e6aa260882d77ac951e3f21c5b82493590e 0x2e390a61d95377f4ddada7d34d12327c4eaba8ec0bbda60ce5a0488c24192106 0x29d11680d015d4336aedd4cd391ff487f63e4585d373b119af1086aa01555c62 0x1552d2a5401c3ff740fce99ee1a94ba927bb343f1bee4b6b8c4df325fcd1bc3 0x57f87437b4343583ae404146d1e1c7bda6e181e817e8ffe902d559e7363ff34 (-0x9a030a3275f34d3665c65061ba60e398ffe2fe091b171b5210d4d654c22d00);
Dbl 0x21aea0f910cee2aefdecf418981f97d784f3a50feb75aaa722e0bf9a19648833 0x21735a00cc231397d66ea1739aa7e4f19eba6dc17fa4e383655f7d62929002ab 0xf310f069b2231a13b40eb9e98dd1f0d14edfa36cd2010d04221c24d95c0466a (-0x4a3dded8a98267019a197b26ec23283def2099bbf5de1bfdda11aff8892acfa0) 0x17719afeabc7399849ce1221d4fbd13cbc7187825f860fc1d63938fef0828ffe 0x8e3ccef9935919293985beec929737a91b84d5f1a83cde4e133ca1198b7aa83;
Dbl 0x8e3dbcac0dc9d8da65081ee13edd6df5b8a0cb84bd8bc6c919202cd3b2398b6 0x2bf1e191ce61ef1f0eef7000085f3d24ff9dead0654f284c1256f5f5d9daad7f 0x2d198a39231482623f9b179588f67ad68f586570d666bff6ff851bb7f7ea2c43 (-0x3fc932004d36bea7f333d96ea71961544416d87571765d919756776a6d9ed1f5) 0x1a219368930a735c5d1e6b23c947db6229221ef7b1ca03cb4e5401463fc0879 (-0x1ed8afeb59716666162a03cb75544043cceba270d95cfc6b6fd103dea714df3);
Adp 0xbec44d37227f50707057f50abbfbaef3d7fa3a0e56b28a92ee472c7cf24d587 0x2a4bfd4fff7a2bb01ea09c7463e8fe416ab0ea4638a2ad18d6f7becb48b0591a 0x163717f237b4f0cd39e4f43bf17d5d89f3f36674c12994e488a8fda38e9d2526 0x1187d1c32b8773679a202bba136387c24ac5b1cacd6b3b8061ae460c95c6efd 0x2f006ffc37fe3924c8df7b3beab591e79d034c9e39e9d0d2e951b0aad8b6d1e 0x67f26b5bc7f3812209d5c5bef88a5e06e76bd430593ac51178913e955a4556;
Dbl 0x14cef5d1b7c77f3c286b6345dc9dcc2d5868a317d79fc5283dca09656dababc1 0x2049d92795ea5f63b055ae2af5ddfe9f8c758ee26142080f0856731896023fae 0x1709891e8aa04d4575dd2210e1a5995a7857a7e845f5fc335935767e4fa8730e (-0x5bcdb280af2c0637bf6fc53a5b60c912cba8e0c534d5cd1cf0f1ff919a496e60) 0x8f296831c45aa958df3cf3e14764c9ffed9889632b12336349ffb569cec90e9 0x44db7e5a0f4710fcda6014d2c3e7320875ec86f183634988b1a6a04faecd408;
Dbl 0x86566b8e2fc522ba3e97821b1a90ee20dd4b067ef2828fb6b4523a0ff4f7e78 0x17d969ac4ed63d8114ac88f656518019633b1dcc2d9fe7d37e52877483a0f667 0x21f67d9614136c4d52a58721d0fc6b9273866d5774405f5f81840d8cd05ec4e5 (-0x38a3307c6c5c7b9c344d35602eba41905615a3007c6631f55446796bb2ccaef4) 0x174ed249224847f76c8d79df1094318880860eafbf10751e78d9beb147e741b 0x176d73ed69506ffb3d3650601b7c77a1fe10b27196caaef4b5fdc837688c883;
Dbl 0x195360f61e45efd22954e618c6c8e9aa24d21393a8ccec32ecf7673e0c6b6f53 0xf92dad63eca7f3c9b82c1eda996f230541a8d64e7dc5d50e417a1e4ec21a0a 0x2a6af8783db44944b563999c946564819e5ad18c62c0af712939c1a40749c341 0x498cb313790332befe44d49f372461c7a180e39eb146c308b8f3f1e0090dfd 0xd410df9e92de136c6d792f3a841da4d3294a6caa78d4fc25b18c7446122e5e7 0xbf8d7363b907c277c00b988629f81d658bc7a99619d26733c25a5037a9df777;
Dbl 0x83db010869f869e47aed5fd924058fdfdecec7bc747d994aa10e6dbc1f558de 0x17c3ea2e8f95fdf388c510e2eb697d1bd76519ca653aa269afad652076b54d5d 0x25cb095fdb5d19d674f70550aacba80789aa7885ff9e57cfe762bba9ee6dea7e 0xe637536ccad23c24a7fa67887cc7c33ed5ceb91f4612da06f122202da746ff0 0x16745dad21a796fd2c73d663ab548ef353f149366b8766beeba903396ef45d5 (-0x3e1a2e8f4a26ba28f7d1f807a1b46a0463bab22b8f014f37d0604ee6b0222ff);
Dbl 0x24f24587a38eeac2233d0bff67e30b8f74fd026161ddb2d272328536902f5dd9 0xc72b8b22b32b4010df43defcd8e735cb103a0401e1089ffff03210c6aa19046 0x90b18aef7013608c3d76883896f2834e77736908f5c937ae72e4eafba48b8e6 0x16b202b45041ce9a6cf4c203e8e834c34338bdae260d582424b24ce7b8c51037 0x1c353cc5a5c81c5c486721d2e74722f3d0456ad8b2e3011fb814593fa4ac6607 0x8a3f5d193ce307cfd23f3f01e6b8fa88ef002f4aea16a6a3a36154462ec808d;
Adp 0xaf1adf46121a241b528d90d0fa680447847d0b9b87619cb0952a33c792dbc05 0xbe87331447d7d3e62adf8d2b58a402e0bae47b75377684a005395ef706d697c 0xf86be85e9016c22f14aa4ddd14996e368f581a453bc28a37d77a2e74b9a4c6 0x820fc697e40739b1c2a57f0d0e8f688e4ac232eddac68ba52525edc3697f1bb 0x2799d429382306b2de5e9883d19dc1882fce74df24e65854e1e651dfd277ae7 0x1f45540c768d323c298868ca8485ebebfef40c54cf38bdeeae15c526282c8a;
Dbl 0x1fe32bd31f4ca1003a9754dfa806ada7eaa11642c20c2e49ec362bc69ea50665 0x23893fe62f71745d29da1b379e6c919dd9b126ef1aee3e688ec15027f2771030 0x23b3a59ee6e80547fed5ba10fb0c66e8dbd7a0c8df3973d9804713af5b5e4a17 (-0x7830cae7b0f4f4c9306035e2ac5129c6fdf08c497626b0dd6df23be123c9a6c) 0x15030db636e9cd7f45a1c25ebc26cfc0a91e78c2b6bcd5e43f13cc0230442e47 (-0xf91ce5a252d459cb17152eaefb7a005570963acb9d936098506b8acb921c197);
Dbl 0x3010d06de1c328c43056412b8bf7a135fd7bb7d96d3839259ccce3ad3c84030d 0x24cfe47dfbbee61c491840ee7a3130a446ba76d2b0f4bd8f4374a9997ee78cd2 0xed863ac41b2003cea4d7605b8bf0b9cf0f8d73e0a973d8c48b283fe37bc0bec (-0x75d5e9de9725c121cc8f037e06874e5f7e0b1fb05c9bb03e840b0d3f0a48d06) 0x2fbde2764c6c0c31c9700e975866d66415571a8cfe4c44693ca526c0dbfb9251 (-0x1447105fc983b73b38a910ac3e3cd88f314ed44c66db6a7c0aaad5b12bf385b);
Adm 0x16952ab4a71a7979d5a6c58a17849996f77a5cccf6a2c38854face4547c02b4c 0x252971039d92ab44daf384faa360beac768de438a13781eac9aa253073b01249 0x2d08bf9b7e5980a0088a667c288d3425e0239650744b7430451f188faf7ef97e 0x56762057412d9a6c76055ab68e80db1217fe78b212c74310c95bfa0392380f3 0xa89db9c1dc375b82a2094c5bc65f36f9973cbde0350633e3a6141f6dd5ea7d9 (-0x29ca07ed78df509a289466ed4de58bb5bb123a3a0f0509db02b958cb53f752);
Dbl 0x2059c9513763fe1796e7b22fcfe9bc73c711a9d444930ad445ca8bdb2211d83a 0x7da46be1b839b327a006cde8e55deaed373c3792ef71d551886ae6480452725 0x2decfa09b0609f5d301e596be42874ae5d48fe9469f67377f9a0fe259273fb8f (-0x1966dc8ac35d1b6e23e810e71a6cd14cddf55035fbf5e4c03583635b32c8d94d) 0x15a082a166d74253b24c3f24077452b4c7e010c2d1ceac0dfb78c41ee1fe75ab 0x1397fd39b760bf46272efec8e60b087a1459aa11addb0d623f0ea9f44271c78d;
Dbl 0x11a8eea93be6adea59a5138424d4c586add9322edffb3326016912f00dd24b19 0x156cf4c1a4fad2491f0c4f8dd296645a45202f845dc8640ece861feb6ca0c137 0x330212a9b4b39081fc150482ca2fcfb13a71ccbb34ae9363c6ada8fda5ee342 0x1db270abe9fbc3ab4871f5043051d838db65b94b88fff853757f57248687ec85 0x671d9362f3c9bae91af39305e6476bf409c6f9899a6b22a3c8f5c93c0095790 (-0x4f408a9a6eb61ed91b3235ff2b6e40d6c892314c91a22b93642c236f01f2855);
Adp 0x193099136260b3d58bf82072225a4baff1adc801e39b0957178d1e9ae531bbab 0x184b63a784ff66813704a6d3f0d80a66740e2a11cd3c08b7d144d4accbb24823 0x8155d0cc357412a1dbba1875e83519620d72b2fd61e8311c28a4af57a7e0d0f 0xe0976bcfa0506fb098d60411ebfa2e0a1d3991de668b777a2f2fa168dd63ed2 0xd1cbf5633c7bcbc8ee016765805dec95e3a069f114604de16c6a3240e75de1f (-0x17e4d1b5613d0c1630d04a2f8ca361a85f2233334f1e6e3a9c4269c3e0032e3);
Dbl 0x150576c58341c471e9dea55c92570b94c1a4979d010abda09167ba5f07580140 0x2822fb8f192af7df97038483397d7fc44da14bbc671b0ea6eeaa3a00e87dc24c 0x29f513c5ad400a0ee3e45f29ba934d6e5af7c6aafc4f23bf30f484672ddac6dd (-0x1d913c152f71f6a1045fa00dc8c3bf1c5859488e199009942c4fe66db762a1cd) 0x921b369a759522e460a64a7d2b07d7debac8aed2fa64c387a996ecefef29622 (-0x6e1be9156f8bd6f9c05ba9dbcdb80a6c2e3703f83589251f55365a858d8a574);
Dbl 0xab96241eeb4991cce9a4fc2c751a6565cb24b39603867c0aacfcab6c3872cbd 0x34ec8f158d8c27e36add291114517476eb30102cf455caa0529649f43432564 0x1c39acf39ca907ac3076330bdd6b3173219576dc034f8ec939614ddec1ce05ed (-0x5145d57b374b143cbb44781c8399ed0303b4f77383df7394b7b002d2865bf2b2) 0x2606830e97fc20365e166305d58d101ab40a45668006deb958e63f473740c8b 0x82964358aed7792d1b65c5aea4951e6ccd0a5ba03480446a441beaa2f93c892;
Dbl 0x1dbc6dbf0ba55732f8f275e23e6a0a87ed44dd8264701ced72da69fa38ed419b 0x23ccdb8a00a7f3e2de4451e3ba04144ed9a1b914b40500c950dc4f55b00917db 0x10296b038f2d3b2e1cbb996fdc303bf4c9098c76ea08913ec96a9ffb7c9c24b9 0x22027f18a6546178dc244fd378e173826cdf4ff9cca594b4bfe099397ab446c2 0x1245b92f56a6aa7be4f7c5d145ae0f5adba90b2a26928394cadbba8d0aa7481a (-0x13f754bd1ba31860e706b05f0e60b2603b6d190d3a3eadc668662bc9a84b4035);
Dbl 0x7e7afe1d38bf7fa52089154adaf6f8472e8e76ad1ccfc4b5e99970a0cf0b91e 0x23457208be86c5ad825dd0a91778bd453309558dfb60487b650d9446bc8c5156 0x17674b5e6de3dab775d2441deda6b328c8b6725730e1fb499285507020c8419b (-0x4a2cba05906e600a453c82635a99161fd281ab9c615c988301a3c1837a1fa359) 0x14a94205f1656730e396f64cc07d6626481c5a657061bbe68c9875f63cb89c8 0x161ec52e5bd4abd636e7521a7bf9ae7222a5f0917b06abd5419da41dc68cae;
Dbl 0x10419ed0670e54ad07863fd5fb5bb47606a9cb11f5a073a3a536899e46a99be6 0x1bcd6f4aa6693a1938346069ec950626e74b45f868278c3088b12d28ec1f2f0 0x1f7f49c3849f1305ca3ba76d10837482b0bfbdfc76c2b5b996a8ed35241cfc1d (-0x3d66818b3f5b4e06a5c7a6302e8bc7932ba30080254f24627e6a6d4b811a3c98) 0x57604c99e2f7002cc5296edea5e5b8270b1d5bf2b722f85092f119a0607beb8 0xb43d68e6cfadebc1bc92d0647ffc34a2e9cc33c1dbd5b9266096e01fba5d2b4].
Definition hSNARK2_6 : list stp := [
Adm 0x23088d68f9f3b62963b984c326cc864bd36096b7c9ebf2d578d9a3688466d74 0xcbdac17ea4c8e96a723dc4fc6cc9c694973512448ec48e65e9f96c0b1c6e4da 0x6e54227aac2dc382f9f7ce4b20cac4cedbdc227cfd2c5fcb7bcc480af237882 0x21c682642f44130080893bbd550a0cf469a49b104b9460a702c488f57d644f2 0x195ccf9b2816617bc953049ed71e6e4440be065fe163a6a9dfce5e0bbe5c80 (-0x7f7412b1d56ac94968ac5e5f964e0b469c37ebc428bdf3c65a33f0ad0ebda1);
Dbl 0x1a0fc3baefebf1c454d025b4cadaaa69a4877c7155328c65242607cd4a6b820c 0x438c1402126c5d53e846f923684521917cc20260dd002527d1edef31d2c6030 0x1536e9178f82b406dfcfaeda7e4a32aa1a27bbdd709b99e1145a194b11dc8e1d (-0x2a2e3c28d2768850fec1df05a698a2b485e4af32ed1f0163119372d9df0df64) 0xe0919fc1d49acfdb9c5d225e72396bf9279cc7f9e88c0a4e5212376a411e9f4 0x4968a5b92bd7b4a9ccca4d423348046a075e372ca170cc5103224c83e97385f;
Dbl 0xc43ea72a8097d775ec7e51edd959921ed1047667ad55455f7292a25aad100f0 0x5ae2ea71e412a1ac20b71716a57136ca29b3a6e65d177bdb2d4a7f36e76f663 0x2a4261691b9fb61e9b93ad7ae0d44cb505115185b19cf03aa35e13fb3d4c4cb3 0x9a629310849c78036119ea75bd7d0cf2ad8c819819045c0fc3a0850dd80f9a0 0x31bd63e9decdb9b160c2db8eb1c9a59108c2fe9e07c725c44d1b473cc8cce5b (-0x5ea5ee05a85ede92e30ed3a3655ceafb1201a6b745f1aeeb9c43dd5170d060);
Adp 0xb0c697d9931072239955690023c7921585e56bd0c0b101966e22a64c7766f59 0xb3d6c580edc0b377e780e3a74e61f00c079172aaef74cc26b33a703471920b0 0x199ed07c7ce1a379775d477aaff539bf3835695a964dec4d5e2a84a2c5ee6cda 0x9c0673db8b396bf2672d1976d7c0f4bcdf84066c8484ebf6765b225fb830343 0x285c36e00957010a23b5fbdcc6eafa3cf86819ca2a9301c9f15a19eb319eea8 (-0x144f1ca63815a92674ee16622c7162c0fdf218190811bc0718f3b989bc1451e);
Dbl 0x3883a256d227a794c63dc01aea439df6ea1c41964bf28a0a0590122c6fa5522 0xfa5ed3ad49bfc005f739f451594fffcd678d21bdacb225ff52a2576d2d5315d 0x1cbd01b21a28fc5686449731f652deda98d36dc545b125d896b2ac1c57089809 (-0x4178cf0f91d106e708888a6e4b7221d906189cdcf6701a6f9b5b72ab3338628) 0x41fff7faf5ee66c86edf59c395d442809c8f570a8ae11cba8b50aa9ff5d381 (-0x525eb12a6bdb2642eab0a3b80fce42dd834c86ae57bbf5c3a283df9b5006bb);
Dbl 0x693e0f5bd558c562073885e6b3666aa743a95f9e82f716fdd206374700dcb4f 0x2544c111e5c474f33f1569153de22402e9dcb8958340152ee9e92f110571af83 0x250053fa6485dc5d0b6efa6b608362cb8945ca57e0e9a0aca3abddae5dcd16ab (-0x75e1ca17853cb8c78f4d39f121d8240c2d336895bec6b87a70b4490eb02fc4b) 0xe4e1878237f3220f362bbb64f06c729264c08a41f97bab8b69d093ee9f30bc (-0x2f052144e70361e90dc579686e4a6bf8cac0798a1e061945cfeb69df79b8d22);
Dbl 0x23aa407a1fa2bfd907b40b476d41ef61b33e8ceae28f665912605e47b6cf86ee 0xce3c558b4f5c61911ae6c72d77d80a8e5c759d2cb66041100338ed3832aac37 0x146b007992d4f433b78c435de3441f9ecdc253fd8a030af56ed503ccbb7c612d (-0x1f90e2c312defa5c07959c3b2ca2ea84dbe753041f1c07ccc5fa3a3e61f60121) 0x1a490c17040d7f583a08ffc2ffbf7b961245933b539753cf263d075f8b147d41 0x11f7a3d47ef942423f1532176e4daae1f5ab8c02d9e5522b872e2e2863cac0b0;
Dbl 0x25bcc68da61d4020793a869c73a77be104f79efafcfb2b583878451fd6be1ca1 0x91d78556c1d5b2e36124979770c895a11e61055911b5ac539aebaf2a6614e45 0x1a45bdea65523171e98ec71ae8126de20eea4e2997e282d8f1e152abd3f5dce9 0x158b8cbb49413ca6bc1884290b53844317e23a1845469fef066e0f8665e66721 0x1d6dc3c04d8364337955eea1fe1d52db6c46afc9139e04fc8b42ef79e8972402 0x2f18cf2c1535c925970c897dcf49fe6f371a883feef17495eb46a6432e1d604;
Dbl 0x7f2c7bdbedc9da49021a4072f14a046b1cb4e949a59971c7d76dfc087c3bd7 0xbfd15e44a4d68a4cdd103737ee4ccb02bef7f1f304a82472005e8d11db32d9d 0x13b97fd58df9fee08961f345d7a2aa3fca79effe9461332ea03bb9a1e3a1b140 (-0x49c83a27bd3186529c76fbb32af9b9f222726828dfd47dd31686226999f88ab) 0x14e367a43a81e5bcedcca42b361d01857135bd604579bc23e1668e805a546 (-0x78d32c3562cc3c0e14a36b35a95fbc8e6b5453dbf8cce7dbf72cd73b532e7);
Adp 0x135a0aae5e4fb2052965c445707d20e27a694503d7991ed8e74332b31dbf448b 0x16179886e7f415b5eb28bce8052081e9e495fe71a04a3510cffda2bb60e52779 0x1bff7d64805535c84a25be203a52e7a689f3c5fb6622cbc8331b53dc3e3e8844 0xe8eb98ee217e937a146372c1180d02766669e1ef3ac6818277eebd0ca194f36 0x7bd1abf3ba04b405e8946ab736f9b4d07a1d1dd3403ac2207dc3a693e65e07b (-0x40a56317fc85ee6e3f664f2b6c5dc3e8fb2d54cd0ee4759e97c9b3bc25d2848);
Dbl 0x2c809efff4d97ce16ae78e5148526ccd4c798ee3124a1f8fad9fc4ae9a86df44 0x2835a98d40212854a2d55f2109d1746432661d767bf995f001c2abd16b63ea6 0x161b4102789fd18583199f0ce9bcde98d4e3785fca87b2d6d7a65e1247410b0d 0x153d09dd2930a946d29036a9694065ab4044c34b846aa83a002511240d9ae78b 0x28ecf6434045d732f2bc9c9e7f08286635c0a7adbd0ef4f42041e17f51707bc8 0x1201649b769a2e657eeab5ab7ba7eebc085a3e0200ae90b9e2e6ff82c74131ed;
Dbl 0x1761e3fc078048df38b3fbef68cf8145415bf2c20f1d92d2b581edbf93505aa1 0x2dcd490b50d42f688c76f6eaf93355c1c695edd8f400602ee2a000287a265d12 0x1cf6dd796ce638bb2a9dc07d1595acda024e7dc12cfddefaaad65959855a0d06 0x14f8be4727baf55d8ab95adada7e69c735219d12c6fbb82dea4af8072719b422 0xb4c50aac0eb27e7803a068af00e4412200e206380050288b414c39ecbc40f85 (-0x14eaaa3258d00067c13c5be409d24fe3e7eab165a1ae9eb2b0edb8113205a189);
Dbl 0x1e032a667dc24be3db93a43ad025805a7b91e068878c29e5fb0fe97f89266626 0x2b37ce464edcfbe90b3cad2eabbc43c438ae89b21616853e15838e83a4d8c4a1 0x43ecfa1d2e172b6143ed7df6a3966bb9f50a17b5c0b9558435018637e95c581 (-0x5e1fec359ff6fecdccadae98a53947b1a38b1a05ecf86fb27be3b4b460b907dc) 0x129d0f940022e38857beb78404f2d55357c33e6a825820b49aff2b8a26d30da9 0x19a3f0e97fcd13677097eeb8317197df5f86f635f9f878fdea175078d310d49;
Adp 0x42ee3f4d30b915c7969bf44c59febf80cf9c0a599212ccfd17871b8d015227 0xd7d9d96950d1a361197a1cdf38e3b63c98731176e8f26636046a73135fd6b98 0x69ae11df507d76ea2d8a48ae027e2d13e10a2bcf0008f689a4c6d46324c99e0 0x727ea31a6b27d63cf0adb85004f87f5726c57f0736070c9ee7805983b7c0d 0x5c9259c1f86cf0fe4647366e262a48978ff4b5acf87cb6bdbd80952b38fe 0x291da4637dda4d0463dfeb50c5d05ad8db5758b6fc934dd1b7cefae6e39c12;
Dbl 0x19e963f13d288dee1c1446b927b257a2959e547e28fd2efd73a2d97d6749ccad 0x17b59628b49126887acfe92cdd365b9d66d265487e5345f2057b183ca1c70a55 0x203b5cb91340862fbf7550e8b5fa26c0751cb1ee71ceed1bde13ffc83f01224d (-0x4359e148da20f1fa2d1baedffbdf1fba10d2ab60e431b8fd1c53889c2b48a00) 0xddfe325772b659f37c15c35c13f56014a4e10deccc5d69775f5bda7376bfb7c (-0x578bc9f406664f15f571bb6dd55eee533b27e13e026f5ebc5562fa6c73e8dea);
Dbl 0x1a4018342a37a40c0b21f692dd947ec601a98c6cd170183df2250a8310e73302 0xf753e8bcf5559f8ec33ff0d709e517620cacad4210f972a19b780fba9e04f50 0x197a108ffd2641b9f1a39315d9c65e7e6ea53aacc46d4e16fc1697fa26e970f7 0x1eb13897c3db72436e69b79ee0cbd6df2edf31a322f20521cc9a2c42ed15af 0xe3d58ba7bd9d64c4258905290008899c79286243efff82e167a1b45ecc174a6 0x479d9924818d23b95951f3caeb387f70f1c606c6dcc5b364806084612349b0a;
Dbl 0x2f617341bc7ed9a2d379b717d016822f93a7343f57017b2882f62571ba799a73 0x27d1772a423d5f724f06d8fe45a22abdf258bf226596c5f32606da450f953ff7 0x1936ef4354954a1b65823d757936f81ff212cbb7f7d15f5f87ec3637246fc36e 0x2313561b00758af61dbf04de4abde505418bfeff710abe906c2c3e35b5cad6c6 0x2e6400bb411f2aff50a26094911db7678c151fa56faa1fc3918c025607bd475e (-0x17d9e9fe864b57d01e4f046fbac2743ee282070b39e950c5b6d3e9639bce5c46);
Dbl 0x1893c3dca6122dfdce0b42817fdb34ffbcca8884225a6710096e82804e7eaa23 0x6792a18abcb2ad489ae3549d6fb9ac8acb0c02a3fb4097743041ed886477e0a 0x5a882fafdcb8dd360b908aba97781760540ba253da06defdf28fe32cca8ab3f (-0x48adccca02b09af2ca1aa83d757ab53dd7950f6ef35a88ea5f5bebb2bc7493a9) 0xc7b7524e1c7f519260f9e436083406d3a399afea6804cd3da2dfd10ff092b27 0x10ef693c022e206e8278d06261170387a61356881ea53c8db678c138c7d48876;
Adp 0x177a230658848b0a18f542e846f7f9d987140f753e0703a8ff265b5f1dd806ea 0xba14136e9eef9cd583d2ec3f366779684e92e3f55edd4f1fdfd08d1010e4c2e 0x167332bc0debed6ad7bdd3d74db930e6ef4255a340a7a57d0a50e853f7ab6a00 0x14562b912822133af6ff61e6eb62d012832d6b31a141c87e117ea05625d92e82 0xb63cb28e2391d0c5582ea291e28506b5f3ccf8ed632e62ce0f0c7b8cd7a216a (-0x2806fbd033a8f75f406356d4f38f4781534d886a4ce0c711ece939039bfac21);
Dbl 0x2d89978e7e107995f97e3c482acddacccf82277d50a97b0f511ff78a66f850b3 0x2956e1f868bc276eafcc842e8712434e0d07ec47f68542b9cc345789fe5085a8 0x2029fce3869acfdda748822dd63152f37a901d894a8762c7c07e73b149f94cc1 0x21dddb674ecddf69cfc59843897eb9b7a7c46ae593140af4c83f9e78a1237d2c 0x2ad9fa6bb2417a4d39fde5a03c5e4693c92338c06016594da6c14ccf8d29e633 (-0x1bf5041a2f3d62af7121922b14fafac33004fce6a62e12bece7dd032cc066bf9);
Dbl 0xfdc2366ccd972e3c8dcd39bac7d4262941b98eb21c3d87bbd5b006e2b354bec 0x9f98fb599d87669516eaeeb3c4b9f85f0c98d43e161e6d4b86b57787d1bcc8d 0x26e49658e3c60ef27620e08e8c9e67aa621bc4901c62ae01399a1be2c94e724e (-0x54dc841027927b2583fb411b2c73c4d16d0d5a135cd6c92a169130bf561b6bd8) 0x532ab01d365678b8da09860480f7111222ea0686fb05383de508db68eaf5635 0xa4786bf917fed6cb0e0db2b94679180a020789ae08e09268f5ab5cd29d2f103;
Dbl 0x102f20ace2d8fe38d7b98e9326615ca84b2b3e460e08a723dd4a54a3eb58fbfb 0xa3fc0e82c0ada35dae4b2d3d46f8a4cb573887abe840c34c7087b7d2d0c80de 0x1f423c6c1fac1eb50f848421e67df83eb9926bccaf44eade481af53bd20086f6 0x13d8a9751117b8dce4eb18cd6da071c45b6d7c9632338eb7dd771631162470bf 0x5699f29d2084869e53c3d1114c05273d1f62b4e76375eef3082a920f859ad57 (-0x177997cb30c90158cd826a5cc25c5ce5db0fb33c1fef97c737784315d0ce59);
Dbl 0x240eaede53e46235ed3aa656b9d7ba67dfe7a4b51160dbbedf8f0bb3da90d53 0x2358f398ec1d9c8bb6d38acecff0204c4ca0558b841685f210c39f1808748af8 0x1e0ba5451db0509aafae6dc490f1bd6254e0c7a7f9e1f7c2db16bcc40647c128 (-0x399c14f756aedc4db83369c0c381870c28dfdd22f0055db04f734f2c21411b8) 0x1adde5ee149102479162522467f56dbd640d7773044a677fa155001d3188a3 (-0x12b37ef4adad3d53ef6f166a382b2cc98342dfcb9e60cdd879bc9c1e139b114);
Adm 0x26b762ed04ffef4580a0822189caee60b1fbbc8c8fdff132bd7c98d7a7b8ab4b 0x416cc91ddd636e496ac023316b1a1b374a79c14ccc399748f8269004fd46892 0x2a2e38c9ca8280494f37bc91c45670e7c45e4d1eeda9e0bc2f4653c187c5b0f 0xa6faf08bb105c82d54b130d3657a52ba4ff0df6c1a46f8d34897323e4ffa11d 0x1ef9b3c3f9a3c3f2f35179b6b8fdf6151b73ff9099df00d7c2360efc3d47800f 0x190233669beb185bc1ebfcc669ed1499178c951072a2853c69726142ec93227d;
Dbl 0x23c3755e585e54c3c39b2844d7c04ff7513577c408f2b74e6d1c8d987a1af466 0x1faa350ec464efa0d6f9dad9220743d71dedf15fe61c38ce6adb4d07765aaf38 0x118466686786d6a4867d2f432709da68dc224ca94fefed5c42f84ef45f9f57eb 0x2dc2e0d6143a738ee16ad8c09afdd3aee9fdafbadeba334d64d9b27d768b498 0x1a6e40dacb59879b910f4ef10ec91f1ee89dc6d22b62ab2d545f545138202978 (-0x14613003a991a8b4703b6779c19207d131fce9db919eee32c05cee8df6663cf2);
Dbl 0xeeda9a6ff80809f05941c5bf7692deee9580a8db1062624aa68cb116512bdfc 0x1b75491f78f281bdb8d09882ecd26c53faa62c9ac2c1dcea11483be899c7e44b 0x13291b31c47a582803d14db695d74244965f9fb33ee44c4b2db775ca80c94020 (-0x3359f3407d2a060bd003a5ce9a89f77f75b24c44c38caae9804b2bb3e3b9eb28) 0x49af16165072e0aae63a0a4e5aca9463234fe649bdb89834f02df96743c3e83 0x14c381292b3d342817a23a8ae39e196dd18412548410ab778c0139f4f868837;
Adp 0x263b3a3bec45498f319bdd406cd1ff271cd68d684e994d24fab36a37800ba101 0x12fe755544fc6aeee69f22f1009f56275b34e55c2f976801dd5f038ef4c97df5 0x481f38820b8dd7f9f038faa77576a5e204b13c4c0fd6ab9e26b3d2aaa3a9d17 0x1089d3e7d6b700b40219dc96dfbef5b9a91ab05c82297e37bd445f9e5df02c5e 0x1e3447027852b2939d0151b8c6dd890da5a5b5d1960a07c68f6fbd7eb97e3b2d 0x6afdffe198a5d38b7135de4c7617a5c0384f5ca38f7503699b45f9ff19fdb69;
Dbl 0x10693035705b56fc5260d6500589ff4a21825b99081692bbc80620257337baa3 0x2a2564e2a2d84c5e80b7f24ff1012102e50f6eb731fe134f94bef1890e81b437 0x119399aed5c66983a63be69279b85f0a5d9d5b3378c4b07322aad2743a90c801 (-0x134eeede47d1997f45d0130bb23528ac8fb216782d58e3137e33f334a07dad57) 0x590bab3ed09c37945e549e7797219dd3eb9e59fa767135faf270e83b3710318 (-0x7d9f954bfaef76a743a4a6f8d0faa51a03a6f662c46fa70ae8dc4ce3c8fc8f2);
Dbl 0xd26b4e49af70c21e2d38e9620d4227ac05aae16f7d04cc6ab0ac4ce4298092d 0x1a706cc4879cdd4fb12d95957cd0b46c79cf1bf9f0acfbb61fa4d8f078e6b2de 0x224d8a16cdd1f1df3142c02ab6d10b39b720dd8e8ef2253de72125c74af4d5 (-0x6490e01a23cc9bb64178e14827e07aa5a791f8023aae8e3c0d5deedbf9a6b69f) 0x392f3ded2a947733d70cee92f4a9c2b583fdf43856e6518d26df64f6f5d2efb 0x444c21a5ba3c52e05d23f92b217af83b5dfe0b6cfa1e9912eb8758f4220e439;
Dbl 0x2b6596c69f1735dd849c34c3294c2c389959831ad3ab7e872dc10332befb3ba1 0x63b8ca9ad7a32125f32eac6ac28903ae3d5ec76e74b0fd47f9b44ed4b3e3b0f 0x2b285dce311852f22f6127166678b7104c26a003752050f1b71d3df00673b599 (-0x2b18621954ca739baefd1947b6e3a74b9558d7bee3ebc6be68f9976cc3e6044e) 0x26eadc3feb11dab31d9ce4cff30a9fdce82b60324c0f15c5d51108d3106554da 0x121eeec40fb928f232280b7b8a60095f0b30f030b94c56692e7359263c3afab7;
Adm 0x2c597286e23164a3a3e6ffc096ce620ea690df32078e155e89e9351d05e231ce 0x67c682f2028326b159654592bd993739a3359b97d1884640a14e1af0e406ccd 0x1de4a440d1e16ecf4e5a193e985ec1d635d7deb73189625dc7c9c91f10c8321f 0x26a32eb01ae981259423c1cb28a6863c37a5b964b103357405e4029004deb5fc 0x28a50910b69c1cdd0349adfba9829ba50bdc044269718a053531a315fc9f474e (-0x3b708b291d96df80df5135a15256c9737b7473ee0d1bb675eb4c3814c5ac84);
Dbl 0x1689e1a4e8a49cd2678077659add1a5803759e1f61b0d843fe01bb78bd53b711 0x27fe07e378e660e712773506c18bfb4edef5336fd6c8a791deda77862e883119 0x81fdb103c62261781c091a90c5a2204b1c76c6dc83fcdab7e840bd0d873b592 0x193cd600017c53e3ad75c61870b50e5ea85da3529100415b7505e2023aebd2c5 0xa7f55cde4a20c532377016ef4fd97fb038543e0daf68b3550fb52e878bad722 (-0xf9b0c27ea46d8c746d13df6bf1ca645005e74a4431e9e7ba05240817db21fdb)].
Definition hSNARK2_7 : list stp := [
Dbl 0x625cdcfe188b8b1b8a0955c4286380a1689c5065a4b0db0186e966b04262bac 0x7010267e1f2080348027cd586126df4db6882b8d941fb3f727e81a676942b6e 0x272df42a7e58be97b81ce3877d83948d2d592ee54701903600e3e92b7c44f343 (-0x611681e793f65f0b1dddeba8bb59a855236d8530ce99da11b3e3bf4d8c448745) 0xc7ef6b2886876b8b30a9dfc3aaf5d6bca1b867d02abcaf1b9caeedc5f11a90 0x430d9e128e331a861a19b31c0b8eb42d6fe366abe8a89948bb3bd51335bd3f9;
Dbl 0x1a6704c2e82e4346db76ca0900c40fb1b463f1a2bc4f4abada7580581163dd8f 0xa3362921e9b081eef95bd4d9608e6c744657a5d5e19e2e8b6add5b5a2e450c6 0x4e31c1c4b0f3d7df8bf0dd2858ea78f29bfbd6f70bf41a4dab856da5f5de346 0x27b6171433af000c47063c86b136b7b1520e8d490c6c2d49d9b76c7278edbd82 0xe67b2adafbf15e3778bedbb361af6427f8d4ce947cc769ccb85d84c6d828349 (-0x1be80c5ba16d884cee4491bbae7d92313aeceb8afd7ee8a0f4e01ffa3f03447);
Adm 0x22633a33dc1cade8afd96fc4c15d098e7524da8a96ec0d9cb3e958ba0d9fbca0 0x253fdec4f0ad697538fadfc8433bbe3ec8d584d104daaef1b18d4f6ec914bf7a 0x1f1777903e2368c2ee6d14da43da86bdc71a1a7ad3fdda43a958008cda7f953e 0x1b238e866b7313b630d762761e4138112e79bdbd1c997ae16bb2147cd9bf7db9 0x186fa463738a257a536c6a3639c8f4279247814a7aebe4becf1590f821978ab6 (-0x133897df6ecbf52121b75155b97a108de225eccb8704e2367989345c6f7d50dc);
Dbl 0x2219ba2e80161e871da5079277b810c27ea0bb73b563e48b58855b9b35b1e9aa 0x24b742cde56fc03843c10f2ccc869bdda9b2260855905f3f4be24f069d5af5f3 0xc3dca7e751f97dabc5f2646ea9365df3726919363a645cdf9cda94f832dfbcd (-0x2a32f86ce599a7abe16bdf9908970955bde235e68fd7580ed7b72503b8fd794c) 0x18079e66bdc63c28619910ce934ed3937c5e08d71eddbeda8f9d66ab57813a9b 0x6043dcb8d44ab181efb71e8a6b48f73c018ea16ff8de0190a80011dd30130d;
Dbl 0x15e68f8506b395ff160f2c0fa6d1d9c95a85e8415d9990153dc264737aae10bb 0x2adf98fb80557088e30822ac96e9e0595a63b78250b2ac2aec63edcdf9eef78c 0x21fe41f4bcf72d6d605daddadb01da278639ecc4a04286c67715e712343abfd7 (-0x487db8b5ecae7a8c628ca96e3f907e9a3d70c66dd3dc252bb195aad015bb561b) 0x9e95ab047d1314bf24ff02b8281f7dee54cb0c02e4017cdc6b00f66ab362921 (-0x2c96696741b225b711fc7554c0b4ddeea4f6caadcfd7ff745afd8ed4207cde1);
Adp 0x1a9ee502a8bc5b34e5271368c99e91784b14e09232d0bae6b8f31dacbd1504d2 0x22af4a0efe7aa1192e9c00b44b1642f2c357c6de4b1be2d99fdf084ea6657809 0x15405dec5deb5f4ecca4ea719fc1419e873d598e9422cb4cee608ccb2d6b7e58 0x309241e10270f441b005dbed2e146498fab9daf6e91d81bfcb360aaffdbbb8e 0xea4ebe5a2ca2ae5cf6119affc64ba7e5b039117e231332206f536b09f6465cf 0x48131a6a9a3b6c4a1718fd1d05dc2617f9c303cd2ffe9e992ab007c62454601;
Dbl 0x8914fe458209b650b15f527dc58e20baed226bf73e08197f832313063635909 0x1dcdcdd4dc75d4937a6ecf5e5db9cec66d7545c6d469a70abdffca17d4875af7 0x1da3329315bc6c2ee34cde274503ab38cd6191a8394f2fdfe00df0a8f226fd58 (-0x430e3a4fb270786ac69bfd042d2c8962a295b4f85c6e8ff5d635a2ec6ce000a5) 0x18451ba661506dde32506fa64a813a2d0f72fb2fcf666168f8f0cbddfc0d278 0xdd37b308ce9c27db0d3e91c49a56494a95f8474075e6bb230321dbe2d3457e;
Dbl 0x88fdf52752ef04aa92718dabd5874681efe654394c7342f66c349de4d3c6765 0x1684f2f8e82339e88a621fe36da522560499daaffd495184e01da809af865493 0x11b629be97c44606a48a76d7460af5335747ac42db309f64883ec1acd39fa764 (-0x2c947cc7e0cfc1b978d04bb97d8c2ee8ae9945334fa8e775fed58865eb44c1e5) 0x183cf4339b61b99b7b51706d08d36ae73e77db26ddd464ba6b0ed566922cde8 0x149f33efade1bd3609dfd1b4f663f82cb3f1d9240024b3c097633e15c4a7988;
Adm 0x1462b7e2d66afd30a21fedc9165a84f129887ef845d663719b19e997caabd5a6 0x249c4ece20ca4c51a8af6f90263a7af2de80e03a2d86d201bb5fd512f067dff9 0x21b1149bba09a1fa1bb7767eeb1e22ac1691f3417f6d754d5d968a08847d33d1 0xae62a97e553c128150f8899cde4130b16ad760915052bd053a8467e03b2d509 0x8967222826ee0a284b6aac3c63e78de495d53fd6ccc0b6403e1e0568e6ebc9e (-0x5efa450b32b55965335393f7271f233ccef900043efab07ded84020752de05f);
Dbl 0x8e9ddb0134ba967375124738e002dc784ad570e4b1b2067a7a9c4822272a807 0x2ef8f6f7584efb9d9bdace3cc5479057bfe891d79c37332804402a91922114d8 0x23f4d9032959248b9fad61542f82b795ce07751463dbaab8949a07fa914ecfee (-0x46ae50641d15fbf0cc47bf955bdc422ceed20314dd3d8a196e610835616e2a33) 0x1a44f035e5830a05b7045cd68b8fada906c5e2965a5172a6e2da16ed85840e1 (-0x1e89b45bb280089f35769a328dbb964d55518841669b9b660490e5eaa2b4f68);
Dbl 0xc516cc5863ad8bd7f6335b18a4ee0e77965cdb037af1432484b029e357e3c37 0x2e47929684f1093a9376f331595bbe54f6e53455b0fa18eac14c297ee6b9f96a 0x2233d5f59f485de56e2e2c0e7a03d355d126e205c0689958e308c94d851d1280 (-0x767aada4aaec003690f99a75c93addac92516e67a08982f8e9ead3acb39e7fa4) 0x322b3187d12df0f3aae6ccf36bf475b9d17e81ee04805685a931607ba27a911 0x2d27a72b4b872ca77d8cedad2bbefeada3faa15041e052087fe2bae87dae2c;
Dbl 0x127c1ef1614321851127332a4dea3fd2ebdc54de4e411df6221b9e00e8b5da16 0x1cf92200224aeb514b756baadd3e7179ed85d40b9c79ea59b2d209ec4715e4d2 0xbd7e6d42d7105a295226d106d4df0295ce7ac3ab4f379003798b0570d1229db (-0x6aa62a2ec33afb99581e05a80435e2d7f6aa0e5d8f2c2ae3b6bde775d02926f4) 0x70f96d08e4ebbb7ae51ebeace091531b2accc9347e72f340251a95312c432d2 0x69c5a244703bdef684c1d0abeea36eb0b000e6a919eccf95b6a84273fcbe823;
Adm 0xc49b4b6bf5127041727effa2da9868a50a04836ab6723128299bf6e9d25b5c 0x1db6ec42de469fba955c0f66c66de4e1563faaeeedd373eeb8310c3664ea9235 0x151d815a483662ef2bda973717f79d468106c881e1b8ebd9625c3232a4c37acd 0x4ee4eae7ae03d6ebefdf354330f432860050ef01a74ca805e7214e83504dcc 0x31ec652639157ec0de91e224af6d03aff7036a7962a14daaa537030e67aa5 (-0x303149613c227d9000da6eacef1bcd4cb558475175352583e5bfbf721dee4);
Dbl 0x4b97393fa279f24e10c07938da10101be3e859a105478deb0564ccae5ed0dc1 0x11c705d2eaa72b32e7e87950581721773c0ac9f27b8c46036a9146850f2ca432 0x2f92f5310bbd14198673100ec48e05b9ee24653e3beab6796ab7edaeafe7db89 (-0x329d6a64aa87f1d492e6a678d45e5aa80b65508bdde5dd2d283240488625b427) 0x7613b000b82995520e7c9a016409e0ad519b2a24ec7e33af8f5e9946718473 0x12a57c6926afa874aa14c9e1481ff06c1f581157e30e57aadfcc8cde0419a2b;
Dbl 0x15b10be9ef80e4e4250d94c2ed3c9198d4b731438808a6eec7aa4957d5cc4401 0x2535fad66bf2c02b8da83cb3d592e594322744207018eeac2987a1523ac6bf35 0x13e08dd124dfdefffe566dc85648ff3ef17ccdd3537cce39ce39d8b0458664e6 0x170ec2dd65656da1fd3fe64e4f6d56868a8126d6c5412f7a3fd71edf9b79cb0a 0x9b925d6ef2f6c016900ad0252f1380d5d885703f5046fb6b9df884732db1058 (-0x8b6050f52917c203940c2e9fca8de920949b70ce7bc443bbea8e575091ccdfe);
Dbl 0x2845dc445320f30915c1b3581a5e094a95f146b62fd2a39ffa2597c7f7e49ccf 0x48b02be0b29837a7b1579ee6faa5c378c602692c9fe0ec4b145e07b2bf9c920 0x105ba131169d1daab8c68008771b715f6572e7337f5534929891bb4d0b125cab (-0x34c157817c7817570c848d4dcea926e6bbd37de3d5a0692034bfc8df9164e0d1) 0x2184201554d063540aef9b11355fdcc0df516dda264d72a018128f57a78f08f1 0x1b2fdf96645b175b687b3b86aa6553b7500bbed12bea70632b12f79a08c61c46;
Dbl 0x22573ea718012e50cf58a9a6bceebfbbb652ba38fe1a5572bb33eabea23b6587 0x2b28832cd497e14f017ced25d7501dfe9ec380c75dc2b1565e0de5a43be4505 0x20f9b547e0827ea5a9a427039a6d9595ca149e12cccddaa2cbd36381a6ff4617 0x15efdfd67e667968607be39603ccfa95ac87102c96fe35ba8b5e991cc9cc33d6 0x185e9fb4ad2c331f02f40c30b3c07e1e3d037d9dccd19ce9e9b9daadf53720b4 0x14f4a401d398b733446020c88dbbeec7a86d2460fba1a0528b333a781df0f2d;
Dbl 0x2818e716194acc81ab5f7ef0f1b6b9149bffae47d57c4f9346fa3ab25c76b4d0 0x209a73ed668542418d6a31e5c2ff1085d83d893164e9484f00e3dc72d6fbb961 0x47ee09eabcbf3d55664d7890280af52241d5d82a99993cf6df201127c8b7b37 0x36320fa8e30bedf47e5b95f9095ad80b41efc9c697cf6a096b59106dc4d8f6c3 0x213975642509a4ae134169da3d262131f84748fbfb00c9122284b59efbe28443 (-0x18c7aa92cab309a3c6962b6a2fd06c7effb38ec5599ea9b128bc318dcff2b282);
Adp 0x23c1aeb73c43da54f016e74a1edfabd1d9809753d312f890161d54c842cf91d8 0x2ee77b8cd64d7f1f029b9944d4d44ee077bcfbe4371475f22f1461c7ef6e81be 0x2c141ad806c29b55c82de929b4233fd0f7db23232d2a4bb33c2059369745c472 0xbaa8375151a19e5448e2fdfcd2a8faee504167e9fadc10ae6e38da2684c966a 0x1a6ba0e80642b6a0af341ed2af1d9cf13df0675e5c438bd764775e249992c4cd (-0xa911fb9858a19e3896fc5119e1adfabee48464ba2f04b5afbe8a37a4f74d857);
Dbl 0x11c6cf26c93e94136970fa7d88b8abe05a55359a10544bdd004c0337214d093 0xd366729e185e75d4a04133d8262bd002c09207be0ebb871f6c667e6a31e940b 0x76ca5144ade88d49230fe5216d466f569e372577c3e83e2217e5956f75ed451 (-0x865cf2da76265c5e7d171670040915f1ec0cfd6588e10d63ff624b592bcf4ee0) 0x687ba1178c7adeebf4f960cf8af1391ca606d94f0fe5bf4fd323303f1a50e 0xc6066048ca560954236a183c03543d26d09f496d7c76fea94e33d41d7f2dca;
Dbl 0x4cb97bd9400676105b2c7d189209e28781a7f8c6b289cbc91ef73f37bba6366 0x191fe79022574a8ffca09bde82199815508ff44ca64014f51560595c39e84d36 0x1a65114f88214607a3297dcf5aea4654d9b1539a1a8320a8232f23f3030e9868 (-0x959d4c824f267c62687b1b2bc15083ff764e33cc437d2207937f9a8324769a9) 0x79a54b1a5614d2985d91ba8016225e4dc30f6f4741019532425d112a1df9e8 (-0x12e2f0fe518f42c8aa8d37c586c2d8198ad875d0531bf3db6c893e0d0c565cd);
Dbl 0x982a6732144470a0863a58d1d1c5cf607b8c8404b1ef7a1ebbe15a7716e669f 0x19acb0d06787388c312f3cd5875be9a86accd07b0169e2470e390748eb8df9a9 0x293d76045c7e03cafc25920b38e841252b7950ffd5ee72af40ce21a38538fcf8 (-0x1cc243dda904ab48c1c7aef28d71d939f0ce4e5e158d74a893188c4b640c8124) 0x1de7a268d548a1aece195c40c0b4d5077711f3170ddfa0d8c23bee5af818df4 (-0x1bab1e42b75408b84ee8bc5dfa27dd72a0f6cd05be9beabeaba5e6aca1b94b);
Adp 0x20874f8e8bec6e19d699d17b7c60e3de8610e7e1ee40348f8677f7c7a52b920c 0xb54843fa8075210993f3d36604a0ecd92da2f72a07ae54c95a93322eafa594e 0x2cc39bddbabdc472c3c1911ecfcc1be8ceac210d40096f549bc4acf65f4fa718 0xf4534b136c5bb838c9ff74998c6f8797f3dff27e93f7e81f5f1c5cad93894dd 0x15dd8b8efecebeedaec28d685185cfd20956633d269f3086f00932be4e265a95 0x9a46735a39f7aeab25718cd530795ecd733d024e8451bd49409e25b5c20d22c;
Dbl 0x28f641c99b3081e1e40494a9b3d9ecc35da3283756401ce4ad9a09ec0c3363d2 0xfe5d4e06bbbe6b937565fea5a90ee7f8c18af99f3fcd7cd6ecc663f86752064 0x1768d41595dd3684dd5857eacb94da055c7ae28dcd66d3e27a1d974ba1f68b70 0x43d2f8d10ccd5586cb726b9bac5cb5eea4b3c5b398627ae62d736e1e2119c14c 0x22ac3d879fabcd4fe02a3833aecffb4b8f2c9a5d4cc3127c4c9a6f0bf0dba29c (-0x3ddc87d26bad7c1dae69d4505d1c3dc2562b1fc6e101084c7a0a41927fb50cc);
Dbl 0xa598a20a0c3af1a0c7210648f2c325167e3fbd3bb98885a6b08ab2510bd433f 0x8140eb231f136018acbca323e304a2fb7c9c3afbc92c5da910f697f07fda348 0xaaa48fa54fd4a18319d8011ed2faa0f7cae3c5b8d757b5a38d3e2f4d869435a (-0x5a7aa2c33c0dc24a7b3e79be12934f72c27844900d8dfb8522aa3d5dd23f370) 0x236ab122c0f3d9974229dcb72bc1be26813d4056d9da166b0c6fb1e12434387 0x1ac20bee8a2f53664dd71bc014cff4c42a604fdd81d860d448ff005b6a09d16;
Dbl 0x2bbd669afdaf3e4de2091af935d2ea296dec6c475b2e051e71546f06a3c21a1b 0x2c07a691cd485618145eb3813ec99d2a4208b45927c9df57fb8c6756823b38c1 0xdbf0e8e07a942410e380ea1eefef5295f4719b0f95fb5912164a8c563aa0938 0xf3befbcd57646fc6a857e2b1522f44a49faeddacef5ed4475e0876b318afbe4 0x2788fa876bb204afb4e3d1634123799ef87eeeb8167ca9774ffd335d3427a838 (-0x207ed6b2340b4301a1984151948cc90bc0878aaee68bdc50d18618c24b60c983);
Dbl 0x261e92c4b1739e253141cb90ff954253cf03c8cf5676db93214139cce296d9bf 0x25a60bdf729722376fe6682644dfd6617a7fbcfeaeab625bd3bcd116b479830a 0xb54763453bfa1bed45e4e23b467003bda8bdafb000d52f8343466e978022827 (-0x6286d93b9990558513b1cde3e13842c3add86a57a4dafbc6c103d207e2b7a2f5) 0x1e071163bb3d9e0019fdd14128d6e00ad963f2d0a4c212e793fefed4d8f59ee3 0x506d489a94eadef12b6b0eedbbdfd8ffbf9225aef08f91fbdfa3818f4cfa286;
Adp 0x26cf4a6225e79a693a0c0e0526e23270928b2043d352341e0bc664af2ed70def 0x20e67a62cd015c48997a5af8c6f85df366586592b809829345af2163df1a4f8c 0x4289cd02548ad7f0bb22f947a44f1701c01c621c47d67362ee619f6bd79b575 0x89dadefe443d2a1fcb6bad40171c3ac5ff66e9aa0cb5de7bc282f90839ae5ce 0x1f1fff70172f17bd22b5254e768708472cf61d7fc78fbe2daa6410b64cffaf13 0x3cedf76f79eda723bcb27d25f5655b4cf6e47cb9d9e74a9968905ba7321b7ca;
Dbl 0x885f7e7168dc7958876d1e4c3545dfd66b5642e6120c6dd7303ed22bb99ed26 0xb281707465fd5c5df0359f1f3ee3d945e0cbc319892b2d78c61a30be1f56306 0x2d007dd162bc795dc8c4166257ecab660bfd1e8529c955b5dfdb4c0a18888de (-0x41a3a117c8e302ff2b65b01f86dd02536ad63f2f033022de05f8006991c1a56c) 0x180501a2d4e05baff1c650ce179972443d752373dcaf9cfb5e0af2ce8bf0f4a 0x3d46a448bd5d48646aea5de42e7e7bcb4cc186487d910de8671491defccdc67;
Dbl 0x9ac9fa462fe4600dc78f4bf5378bdfd2764e83eed0f3c9c55ef89accc387e70 0x15fb56c8a342cb3a7224400d1b5bced22652e485cf3a06290d20f797326f5f0f 0x17130ba026610f0f56e9bd44f7d27342e42fd9d1ee58dbaa00b9c6b3f1038ef4 (-0x6977fd6ea0f74ff90ba6c870d14ad26c695824aed21551855ce0c6f66903274) 0x1ef1e056a774c55f8d4d7cf4492a15bda04d33d46a79289d95ae7017ec7d373 (-0x22a0486a912b7e4cc26f14edd3cb9eb7aaffdcd047fab8f586c7c1d2da4012e);
Adp 0x137f3ea9fd9b4b3d55fe627fb8512692b46d89114fa3dd9be40307d863903043 0x14f1db7248a5d026531063c1b909c428a190691f97275260973ea45e3e6170c6 0x2568189983c23444e9a890f0b14d9fa2e68687a86741e5c4ba87d5cb07332e8e 0xaa3fddd9bac9597d19d636e67cfdbe2ad12ed5f7760230ab08f54d475c7e630 0x7daf890afdabbd8745781826c1cc45e357b6a0974a0f580642ada88525cb722 0x6af66844e25c089b8bf8566ee7408b9f1f9e6c943ca99a4747862ccf6b3c1f;
Dbl 0x93b8c63b7e975fe8721552fa01fa708deb3ab3029bbf712b775a495b0aec836 0x264d687f63a7a0ec3914acd9e85329c375bd046bc3344d93f945f56ea87dcf7e 0x1c220dd93884f01618efdd4df963f3f3be57aa7373d9d961764ec36a0e5ee434 (-0xcec1256d92d05df3e11ae3f2e4e747c58a7b01559af47b00affd053e3abee5c) 0x1c2f0301303b93b1f407d09fc36f9f87ca1375c03277503e1a062686f5c77d6 (-0x34fc775ceab09ebcfbbe3b08be752412d53d58367823d5204de69d370a186de)].
Definition hSNARK2_8 : list stp := [
Dbl 0x2fe13a5340982be26d10fb793a1a9b9d4388bb37fdd6d91cf26b8bbabe812eb8 0x121d1040c515b5dc3565d9821c7d1f260d3fed8bde6e0a311778f5840af06ca6 0xce61f7e28b1e1bb5afa450ff99c9418a50c14506d4f9ea96f95a8e3e92558c7 (-0x23476464d8e8899ec407fb5b4ed95c6825b92e747588b1d933e857a361595054) 0x2f5f8940dfd971e58754e988bac2da89f0b1ec463a0f235d864c9a29549b3972 0x13f9a8c8975c78e1cea2647ae8592310f5ee6ec4a942f7ebffd5a642ea7b9e13;
Dbl 0x173b2e5b796ab8db1c6e013493f592ba5d069a5ae42f0af623682953447bd996 0x1916bdd031d9490cab6e83bf96107fce842534fd27172e0a9e694e30fb49b4fc 0x2fc7b14f98f25faace4c31fb6aa8d66447692efc63b7d4088373c49f195d1c20 (-0x7f4a1e4fa53840724d89f756972fc4753fac05687ad8d28dffb72da5edb9288) 0xb270730b529f8f1fde34fde27746d8d07e6451ef85f5ad3202ead56cb401b84 (-0x3593d6854ee09a6c9e8df8ed6487205d3befc6c23f6df276f9d9eb84987b1dd);
Dbl 0x19907d5670450581211d96d00408d26db7ce04e25c1c2ebe7fecfceca94cb956 0x584b641c35ade151fd17e41e11ff5d80a232e777da47655a22faf80c79d43e8 0x28be556548e9155785862ac0342673e97904597373b8fbdfadc79741f6f52d8d 0xb75dbf459d682371553ec9fcf543ed2922cb65f7228f951015800488f6f6030 0xd8152035972edffc0ed4163620a24f502aed622be1421661f8eb1f2c1c55edc 0xa56b2475731e9e635e9b9121b46a4fed67c439a02923fd4c5099e720134da1d;
Adp 0x5bc17128e8e932dfd481f5260d61a0b46414f422b2e153eee6887a259e1dd70 0x17db111cd2876163aa644430d5ebd6a4800d4a231d432268879249fcd337a5fd 0x1d10e766cd04799056f64e7a9e4438208988bbdc0be7492905da0658974661d9 0x514acd46de7319986c555d8b8950c207bd6c84aef78210694577d2d3ba0703c 0xadfa48374664e69fc92b63995b2d09ad4ed5cdb7d59ef2db1ce14d8ca1be03 (-0x22c4f4e0c5f77fd73470d8fc4ea8b904d483cc1e78dfa4bae205573c625ccba);
Dbl 0x2c8f7dcbdf264fede9a9cf24a78968a846fa79124e93768fdcba34b8364dd382 0x1364d9b881308bb81362f1cf6da24bc491d26957afae9c54ad511993d504a8a2 0xc3b7cec3511550d975a2b6bd852f409a63b795db560380d5195e5559e370d61 0x123fc4b45b2178fcea1ab7e442a22fb5e7a9a7517ce2f85b64cdac869e81cbef 0x2908547f7a58dc181437cf5437f08ced6cdfbf5baf2e557cc8862b1277f3af58 0x41bc8b94b91ca18d229c9c731ec062c1516a7fe35cedc1c63e77383d1348424;
Dbl 0x2ba5d2818c73e29fdefb9f2d69a57298e8b8d70dbc8c7c676ee73a18daa84b0d 0x20c62403b30253501ad8af0ca6a9bfc8c7cd3905dba30b378273da64c781106b 0x179cfb7de564f5f3f5e10eba544021cc5b755e775a1792c1e754bbcc2b0d2491 (-0x1404a0655a7b8a9212e44d0199cfcaecdaf8b4de0dbffc9c3c6aa3845e361be) 0x275e66561edc5589c351768378f3339c0eee779772ca9d30d7f6a5cb2ab8b036 (-0xc117e2b02a3b5378e2ad151e2146f7ec8616196cd0b958710524af10dfbac21);
Dbl 0x1c7d4e39031ada4b94615a8443b903d356908d9f4732220f2ca18a8f8d20a2ac 0x7814a47ce289c2372e1f0d620eb5a03e1e5516fb2f2663b3afaff51399c8810 0xb6f48ded5e687f662d1422f92b4d5681f8f01d76dfdfcfc7ae6d2e63ea9774a (-0x26c9544fd0ac34b3e442fe39d3be6702b899357d2a19ebb31134fbf0d5874395) 0x10c5c05047ed0a5289b08c9c35a7e0df7c2c0e4a20cc83fdba655dbea71b9d06 0xee05fbaddcd0e74d4e278cfaf3da7b12349519a7ab6734501ed73ad3f89ceef;
Dbl 0x1a2679591b8778fbb18fa44748fefdae64ad4c6e7e9408b779d9fd5285487b17 0x2c633a30efd1d4454f3f8d74a8d7d6c8fa5a6294d6cb5cec5647075a6fa78278 0x2056caf2451de9b393a4913a9ee480edc5c402a55768c7c227eedd793eb3dbcb 0x8ddd146059b1fbdb135f71513b28660dbe8f7ebfb878f030db0477c7070ab54 0xe219a8780d72b2d3c91c41291f1c1e3815edd974e61c09950c780fd2308a33f (-0x13ee4bb43efdcd063bc425b3e29bb73aca318d0d568195bc4e7e4dcde58c84ab);
Dbl 0x340fd6cc8597569fab40799adde50fcdcd65b0329a403528c3259bafd6e9a7b 0x1f271f16861f5bdf13d939d7df2a892e5d3f302b13ebd9b24eafdf61310073ae 0x23971f82a6718e67a215e896c31757ff74e169ccd9e8fc83083b046de323ee36 (-0x75cb932b19e1f4da2cca84a97e85218f3efbae3222c2399ea5013bc3102049e2) 0x3802a04791434f19790ed16f27dc872b3bbb9268876bc60be8908a42127f2d 0xe3d0f8e677021c1e9ac6df6c9907b42fda0de020883e72f05db18f39d6f50b;
Adm 0x510347b31065601aea839e8c638d044830cb0a6010514f3bcad3c9f7ffc30bf 0x242337289b0247908af4a6e7b3b6f53e4203f1ef3d4e60a86f488e0d179cd0b9 0x9ea5545af0dc52073a4536bb28da64643c278f6ebb06da4b11fe4b4a9ccfdf5 0x1cdc1e6a2975c76e81d138028c87165435bedc47901067827b36ba620f44ba1 0x879fa7efd22987dc67609c12baea1a87b840828b50bb390bb30727cf96468c (-0x8584f88fe3f865a227586ec8be870c5eafbd12fddf9322257b72a36bae8da0);
Dbl 0x1c47106cfffed87b8d4c2ea78d5ea060df5f29ca4ca9ec7b56862c4849824094 0x2569c72707ae08b69a031a5430dca55e8b9b8f5c0bb1ffe7f485c4b3db6aa7b0 0x1cdce75791d7d18d02f1f318d26b56b66a2fd1aa9ca68a32eea4796e66ca18d1 (-0x455f0ecd4d89304f978b5825013c6deb6b0ccb5564b0697f6cfd62656c0bdd5d) 0x10861f47c8f636a8019c8e86002fee8b30384d5002e3404da742c2d140f0cf22 (-0xbed35e4365d73521e98ac8b509c0d13fc0c82d924090d5d949a4f747b9b6de);
Dbl 0x1133e95422e79aa6d2a91c5bd89538640a4cdd07983b6297dd0ccb1fa0b9994f 0x23e834a1e8270ab353656afc55eae3115e3b89f8189ebc421d2878fcd160673f 0x12478e0faa55d8fe30193f29601c4ce28ece9065b6ce16e4beda163f4daf3985 (-0x4241439491a85b48dd499979588b365f832ca8d74511c8e7b1d507bbb1a7d0ee) 0x61d8b34873a740394bd598c626a7ba7aa6b2f56c9a92b2e02710f7de92dcb2e 0x89111ebfc31d2d9d37e5831a65c7a486a1d6330e616ed088de574f41175aaf;
Dbl 0x26216ceae0f971a91eeb699a2e786b66c9d1a7f2c61219d7cfa9c13dbae8d26a 0x28263c772d8778b35347718df5cc8c3f033579f0878c6747bcd52c65594615c9 0xd87f01d531792baf162c97fd0e8f857413a7551a822657ec86563b983735753 (-0x331f7a28fe1005134102694c2638ac76038a4e667ce9c0d09b8c37e00eb33229) 0x1e0b8fdedbd15a3dbc50abd87e0d558193fbe3ec3648466cfd879af9856bcdfb (-0x357be365c5e5427538116aa2fe829ae73066c14b967166facc7681772ec3424);
Dbl 0x10ac96aa245097c367308ae6d907ba4f97c01b1aead92b19dfe06ab4deca7526 0x8d527fb43e4aadd0180847bb0168669e143e7cde2f33978ca2a5c2e09d07e16 0x1fcc558aca7b5e3f09bbcb8f83b363d6ba0da7e8a0c170d05acfcfc202707b5e (-0x5a9b98e1e19f0b4120a5ae487df2311e001c519ee5594b1ca91741d6f05ba839) 0x5becf6c6c1167d9fa1ec00f80d293397e0f298ef83d3261a68b57a7cd55b624 0xaca69aaddba1d567d1a398e310e7dd200b6646cff518e480b4289f95f630497;
Adp 0x1a5860b4f1d4b86314dd223f2432b7bc90ab7b883f4e136337924185bb6012c3 0x23164a7f3eeb56ffbaed97bd9d22fe5330a542a95927a269e62d98130c229b2b 0x29bde7940ccd44d4346192edb014e9d893ebe6550d14f5cc87f97d11e34e9526 0x15895eecdfd8b0f8ef2006d80c2bff9a0e8ec6c83e847c462d84306504ba5a73 0xe57bd4185e694586f8cb2b9ff4f8e90299838e3cc08f1384585138d5ad0feee (-0xe4b15e231fa345710e971bb255a11fe179501c989c03a76ee1ee9407e8357e5);
Dbl 0x1dfa5776f2da31495cb83516d1405fad022dd11c5e62f4fb75c96ed27fc35337 0x19ff6963c6aef8384c1c1f931f3fe796ac858481cb70d0c7f01848eac5885c04 0x2ff13d27280195764e7ee46c14eea078b32820b56799da4eb5fdbfcaac57ded9 (-0x189ab0616bcaf02ecb7c0a418ae2d23b4c153d97886d258f381b836fe1879371) 0x12921f39d3d2caa09271203ce411a5ac1e4490e7fa2b907933db48e6291b0051 0x5a17625b2deb3b7b2561e9a029f44bc319b128b4f3775a634cecb5f179d138e;
Dbl 0xaa5b651b57fc6d5e81d85554b03d4253e92960d53c3579a7ad15327c62ae811 0x1febc556bd265e1ff921cb55817ad425be463bdb43a29c1008bbeecf27cd1eb5 0x1ba05bcb83da0bd390dd3186674eab7dca25fc852d359e891f77124c76de9357 (-0x14cdbd0d2596481e3de06c48d705a0fe6d43989711cb91e173d03739625984b2) 0x257b82665fb64e25bca4a6024a725f732c33f809deb9a25aeb0a87f1e99547c (-0x14da245a12d4997b34c2d56f83f17df3c4fbfc3afd743cddcace4054753cd07);
Dbl 0xe06022eff972359fb5b281525fe2bff2713ea0b4a159c7293e54e94609a9553 0x12d054e82ce56e85f14843b18d7ebf0e55acded29207e5b1ccc75639a7228f20 0x12229a3f2cf4c81eeb45d5669e63d57e8b06e6d1b1e98aa844e3256fa1e23e6 (-0x2f282e00a905abb51fe606ca2de850bf7f2e8d69c242e4ca5043bdbffba5ccf7) 0x4105952e92aaeb42a83cebd2347afe62d24d241a9393d16075e64370066c429 0x3cc5f801f5a1ca24ed13c6b5b504926889cfa8aa25f6b86dcf9a9b44ad8795e;
Dbl 0x222f70f53e14a27746f3d3f3277b67552e0bfa5212bc7b05b742dd6209f7dc84 0x54ecd52454f75fb741ccf0aa15b5e54d7a413b25bf96d7954787471f6811ca6 0x27e029d92680695491d2d14f237f6a4bfc05e2027e75abbffba63ed643985b07 (-0x1457878304a0e73e91914871fccc62ee09ad38171bd16ee65adb615afd307ab0) 0x182642675d4a7e1759d634f26553183ba20ec8db7c840c0961f8a5dd8c57fa86 0x98a7e8805c89d27c498cb1a75d4605e551a19a8fbeb0511bb47e931e63591ad;
Dbl 0x2860635ea5de791ebf46d6223c47aabb5fdbe960f5facb0a9214a23bb665f6b1 0x11cb4ecd9f217101a299d09a79bcdf195d8074a7395a6ef98bdbde3ac7436b90 0x202b3b71948ea2362a31466381fe71a22308a54269e3a09488d860d6d951bf71 0x40cb9509eb03834dc3db9058fb688ff7c93ea53f5980930812103d565e7c722e 0x21b0561430a1735a3b944e6b2b2e2e34e2af6c225544a47ee0d8d9000445c0d3 (-0xa6b0eb2fa59e1a3a4e29b4b8e475e8c8ddda968a9c12704602d56f5790fa0ae);
Dbl 0x19d4c54e980348a6c8c91843698430cb4eaeef2c0662017c3cdf791a4c2a75b 0xa8884febe09f13dec8aea4e0ed7042111e6469889608f2a9f6e2d55754d41c8 0x296d9bed7b21541265f3de2601468597f0eeb93c4176c2962dff543427b874e0 (-0x117b9d225fa3f3d4b69275e8421aeba04b56b4e9d6688f36a4cb54f142a50d06) 0xdc9d6fb0c8c1b83dd9ce483b35a8e533476bb4a7f71e195c452550facc787 0x3e034821118bdb4e1586737bd3e4bc71a7283350706a1968581704a3ba1b81;
Adm 0x15505b4dbde4a0b4ef3b246a0358bcbfa57a27976540bc1e368b9b45eba8a699 0x281cd1c9b3207126ab2286e85aa4f1d0b4de804cdd7da2cb71d5456ec81eb70 0x21415122e221206a040606c58c6d1a655ec2759a276168121f939c02461acddb 0x10acb0c5184f8c61eaed947d770bfcec650460630a2bbc90a7e5901ac9a32e91 0x963385d4167d26bbc724dd2001edd08b67d21a5d7fe1accda20e5c9e66a08f5 0x388fd1380236d01efbe7ce846f8b9c77068dc3f5034c2f9d6ab432902fff3bb;
Dbl 0x234d647ee6440b8eb53189ea920aa27d2b47b3c1acc3f5cf7bbe5458dd2f3d22 0x4b1c531e802e923379a1953d13400b71cf26e0c3c491cf16a6156df1e463a4c 0x20cea48d5327463935446ec0feb49e56318e17d6ab86f70b7656bd61fbca7b3f 0x3021595c1b753be980ccd13d5ebc611323b65522b0175a031a75e3070f8c0374 0x19c0de1bde2471b7909d15c93951ac4dcbc2c081d25c1a718707dc996600e9e8 (-0x19880c4a57d6de0a7ae40afdd22c14fae1723de9572d8bff3cedc8bfdbb801e);
Dbl 0x78c8949b9905f6bb57bd12cbd7822ca55c856fe748629e1a349752aa5cf2b13 0x223d7c9d861910d6eaae33d8830cd8161b4f92e936146f4025ebdf9b43f2b18d 0x28fabb836a7830c638494edb48a50732010b382ca69fd9b38aa9c8623f29b682 0x8de93ce92d5ed0751dc1f136f60d39675f0596365756a38673aa5c0f95b7e06 0x12d7830c7bbff58f1a7fae1fb12f0821d00e3c280369bd380dd5a71424bea9c (-0x49bea676c32a5d25007e72b17514c4b17b273912d51060eec99cb369219cecc);
Adm 0x197cefc0c65cee885bed021dde745dbf66aef42df1ffe85efd6c6defff56fbd9 0x2b09c4d45aed20263da6e46815ab293c86b2688940db046f1510af65ec782ea5 0x120778b4ddb3be50e09121bc720ef1643121c44a2361d41311037985aa88fd81 0x77424c6cb1cfcfb7330a0f8c3142ee653e747a026d3245c39122f291b4a29c4 0xd6cb13795ec281b318cede14d25e0ac000906cb936ab28e2b836823a6c8943f (-0x4a247a0e96e6e34147ee7a72d74dfa7d2719cb3335846e49c8e4b8e6c56b14d);
Dbl 0x1bc0f17ccae91cff232726d7c2937d73992f8528b6956f4661a101b2352654b1 0x11dc4b0cb72d5b984a4f8da0144f5aed3eb916904c7db16b7bde58a8a7ffbc4b 0x192051dffab7201fa7ce9dc2f384140addf0bc0039a8c16a454964ff9684be (-0x5e266fa9fa49d98c0caf43a6f7d36a72dee88211aa15bc7c39ad35ac790fec8f) 0xfead3ffaea3e71ec50f5f3fe9581ae48cc59321a5977d7bf3e9725e7967e6d4 0xe709c33903cc137fd9155c86dedfc792bc5beac8aed0385e3e19b3f2c412bad;
Dbl 0x16d52299efec9a43ce9f217e8891decfd822c33d16eebd4ec3617334098cf532 0x52de1b6afa6ae708133b0bb72cb107460e0a00fd928106613ba2410274cc900 0x1d83191d11c474d5e224df3ff613700fa7a9bab66388a5a8e45297eb99dd7449 (-0x13aeef2b2afe0f38e2d2b6a2caf888fe2f962aefdeb8fa89d9f86d1b1f631c35) 0xac5e43977f0d5ef5da3ea6bcb9ddce36c5e27a023531da757e3e5f32d87c162 0x5fbbe758acd5514bf2027556b34ba7062009c3e2db02fcf50fa1371aa7c4be9;
Adm 0x14c78e231b127ffdb82a385f5f6a8ff906d4c0ab51fe9b8946c1c7cd7b0a4a01 0x257fbfc36409238651f69e32350a36c2bac8e803f3df8da32a12deec4748052d 0x26395e6d686d1658fc4668f8494f9bf50d91710ef8f7571d0f375ac41a2c7373 0x128e38490b75d3802c30922d57c1c7d6d5c43f542ba8e04989ccd0ad8001e2a8 0x8ec395cba94e0847f1ff7dca86815ec1173b7e546cc32c9de8750ecab1bc202 (-0xde0cf4409125914f4ad224ae30c1558bd9c5f1b1e2a2dcc4eec0c4aadc09b4f);
Dbl 0x2af65a45b8d8fafa0b82495a7e57c5f09612dc0f7850e68ee367070ab1fc49fa 0x160b06d3c9a998744e2fda3dc6c4a112763b3fd80e8544faebaeaac6adc3c6d6 0x1b4a0ad3dfacf986e5d250b051b33181e7387d0d35dba79cac7d10c2d4816119 (-0x134dbb053ddcf2bd408bc77020354525aa8e408350462d1c23ef54bdb169cf69) 0x2624599c42248e87a12a762c4c49793b6c8d77672095a5274a2ce2b41809bb6c 0xdb8c85d8c0dd15d2fa32a09757a88f72a8835c0c4a377ba369cc0e507cb9646;
Dbl 0x935db38f74276a85fd592c2d94d2134560fbbe1b6026797de725cc1ca67b011 0xac21d0333f738d9bdaf26bf037db2639f58e1ac592cd1b144721a4d9b96f1b8 0x2d706e57ce47c87a276bbd78248f138e1e2edc8bf689a6f19f14660a0fb5ca6a (-0x13bc1c0e04bcff562dd44cc8f34050b33da276793518b5c91647790853ff3ed6) 0x1c0c4d5deef7a07d7b85d573497146d9a8daaeb98a8065695f6190b05771adb 0x225d8339d8a2adcb5ae4acc348ab62fab6e763ae599e5a32be54a5b3c893a2d;
Dbl 0x2b6a1e2444bcd444d6475fbfb71463a3c5d5d39b2eb27e1823a18fdab1f7f4be 0x207c9071a0def32f0fb30393478935e25db18f728e1f0d2f0ef9b2de47477f6a 0x2ff08aa65738181a294b980cb6b8806a3ce421f4ec2e887a363bf9e170d34c85 0x4a5b20b29daf17848c0b9f1b90d6860b42aeef9d7557d49ccf6dcd42e5e8fea8 0x26f2fc10f97a1bf52dfb2c45b97944cfa6d6a3c5d67f2d45e99d40f574048186 (-0x137e546af8fd40c37e10fb460e0a634e66458a442f5c05675ae165464fdd081d);
Adp 0x82e87f03a34b35b96711ee2ec987f39b586186ff6a12993deb2db7e850b9571 0xebd548b1db40cd954a82e4121c5dc015b33b716ddbc08fecf4d1c68aebe6536 0x177eec804f1dbdad977727f60ad071e8376496c327dc7c9bddede0dfd2f0d204 0x2b06c307d317573b6f9d536d8f0e0f3747624945df91e78e1dfb6413383d0a8 0x162210e7d5f1d1b7bec42e98354739f76d286dc667c9c5f2a177aa1c37647ad 0x30023a6251f7bbbe955194832987276e8e2892a10732f00d36998a813f4ffbd].
Definition hSNARK2_9 : list stp := [
Dbl 0x164a99c423f17c401bf122a3d95587aca1c4fefafb54702a5bd3a7f77a7cb001 0x1d4f1fa2633b0085170e67216c7583416579b70bfcb567e009433bbb7cb91d5d 0x12289fa85811598616d3915764dba449a1d52a5733cfac72fb3285f6f85353a0 0x82d8b700a6060c032bb119408722d8dbaba944afd3e4fe9a18d319998df6144 0xa44b64bd0c09eee4ddb9899407c30400a7cdc9f66c998e1c3a1803907970208 (-0x6b61b7ebf44792ecf632f665b0e3a7131ee7c0b75125ac336d5497dbc067d5d);
Dbl 0x298b3827da5dfc73b9363f9069753e0801592c015ada02f0060a16a5b8e5bd0c 0x2d3d59f2c3b594a9da395c8b4fa95a5c715e5ebcd8c00f54b90ba1678552711f 0xd791cf2b9c4aa61c0db415eb716ca000f59bc981cf305a016e11b36692eb11c (-0x16137c1a5cdae5382357e0614e8db40c26d6555a7950b6f3757528c983a9fa4d) 0x23aa36d2bc84e769db0d36c28fc02930a54725897a2079e735c412bd5f866d11 (-0xdad1ca5a0fc372de4ad9eca929e02a70b441865c12bfccacc98f8b2165b8f8c);
Adp 0x212222961d0151a6ad78b15dd0e2ddc69dc4fcb991154edabf7967ababbffc2f 0x28764e51208d2aa8c554164ce96f3061b127bfd37ee260e92727c9d1687d1036 0x27468450ad60e894b77c0c5144f1c197785926d8ad418f608536fbf171943f4a 0x228835cb6e224bde91ccb7095f0c3e8ed1d28d3ca2b1b3abcd97dd193ac5be4 0x16af9f8a1c47210d1664930e19aef939ebe204fd0c6b2375af0c4dbeee8808ca 0x34567d263454273931b12ca78387e60a7cad82a743b9c22f3abc95db93f6317;
Dbl 0x22775ef819a2b372974cbf4089a7362dbaf6e30deae5e2e86e36808cb882326d 0x21b51b7b89250b676c09b4f15a7aa5096eb23052819427f021c306672b5904d0 0x52f3717592d40e9ebc9fc13187f7c1902c4feff1edcbd0d82abffd8e03bef6 (-0x2d8c83febe43bb3cc8aa0304e29953cc291c4796714cc40010917fd70120b598) 0x188c4da694c3946e237b1f715a72b9d3be4d22c606c8eaa070a621171e0e7beb 0x4cf97fe682eb77e8a9b5b646222b7afdece87a1d093abc3c90d2cb86a211562;
Dbl 0x2ede06b482b0c696937a4c04bc68a5e312747ff1e2cb73456a6b92d9bc5790c8 0x252a0c2194eb356b566de21bf58aab666bc1a45df0c23bc369c78781f5199e89 0x520a129f0df8f4de687044e81821ebb650a1fdac64d2c7d0928922f170efea0 (-0x45cf34ee58c960cf7a3e5962f4ba13b89483d878a542aa2f32e1dbf641b1a060) 0x2d640a92c64d87cfb03ef112f6392d34a807ec742fca78d03c595949d1617ab1 (-0x3590f9a8023a5c371612704acc27f29185cfae2c9dec075f412576b346a3ff2);
Dbl 0x148fbff0eb79eaa5a1367454702a0d455d9353b9ee01576fc153cc721169cf52 0x17249fe40905157512d23340f2d73945dd662faad18c9d98088165ad02b5791a 0x4d26c144c9846e0081c8b4cc0be35ac40837ed188d345c373b3d9f05ae097dd (-0x51448156baed2960e5bc9f19626ff74c224b86f19b5a0e38f828d4c68296f075) 0x8bc8cb1aa5969a8787c573e10af789d1fc34844500e39bd8e5e3c3a1d9dab28 0x5f522397eb7028111290a978a89acf76d1ee0fba140c472cd96f4f0f615fbe7;
Dbl 0x1069b4ece06fdeba0e15f12351f3d47c89edc325128080722983e63ae7274712 0x151b1bbdc7a8e7f3ce1efda92ec493955f70211d1ce004a0701843aa17555e4a 0x9d7ef4e761b0f9f0f431b06b4e89c3646d3fc2f6361fdda612935b0b38c2c95 (-0x1deee296a8aa4c6482c03ed277e460be7d981adc09e796d7f88bb189fff5a268) 0x59114b935b468aea702e72259df229066f4a411f99e35e2d528d4d62a08f80a 0xb0e19486049082393409426be5fb9b05a0947703797b45b6fe8f02eeaddf62;
Dbl 0x1216aa7f3deb0763d8c7ba457704931c7d6effbd8ca0801d5b656b7d9419549 0x2c19c114303d57e4b6e961c670f4d26901624c567441c3a3c039ead43d805e8a 0x4d49f141c04531cb86e40c4690f3a62fc46ad0902d9da50d3f5ba1af0596130 (-0x1b27e34f098fb0d3c1490460ccb4e9fdd8d88244439ff192638523d32f035e3e) 0x6c2e975774a77b2d9a56f259bd59f424ca9841160c2ccb67b41ccf3f95c35 (-0x8986388c6dc75f32f633f46cd1694f57fc131bbbb0de95804fa861dad32e53);
Dbl 0xe8e60b94fd8136d3ee7c7f24c41858b8f2e4a0ae0f3b7720fdcba395ac0e3a2 0x14551009feea6f468c354023c0f2e14af1f3a8ab8d706fac724f5c048d271727 0x1b62f2ecc288a35a816ca9db9bf8b13f66b5f0c7bd7fd1da0a1c5e5b11fa84a8 (-0x75a9e82c0c70a192675c585d75768ef76ce9afd4078645b447ff2361ae000c34) 0x460e312d1ba54f79945714a8139202d2bdc495eeb779088d23f6b6de41ccfef 0x72643584527ffe1059395220897232470f7d65a2dcd44ac7075326bd98ee0c2;
Adm 0xd8a8e4fde239683d3f507840b24e7f6c4e7380753f5e66c08db88e25dd4e171 0x1ebe9d61536faea85cc0b2fa2de0c70ea076d0f440627c4144d19e6b38d80672 0x11550d92d8d17ce4dff1954875433b87bc026449b84d33d21bb63e7981e5dc2f 0x7da0cd120848e793fc40ea4b3012ba0c027ea104f80162d8c0ecfca25651da0 0x3ca0749534cb8544136e3bf02d5e18d6ec8e38fb9ccb0ffd663c020f7ba37ee (-0x2e9e3407150bf8929f5a08c3fa6bf97893650ed29508d17e2c758036b01257e);
Dbl 0x1d7c80134c1ea940191a42d96798de5286e50fa76981761a2c35da13e8c1a787 0x1b7302236ce855455c85b3c295471f2f83817082c34a72cae9fcd112e2db26b8 0x1e253b406b0c811f01b07847e2ea145db36b9492c8cd9e1d48cfde6f4a1c3e8b (-0x257a029c46ee109255906f7066d4d23936fab3a896f15371fe5bd7321ab1fa76) 0x11f77cb80b3fe59b57efbc773a137535d2b2e31fa78df98909b7e473f568b443 0x20207b92fb8b076fe14d7fdd04c4cbecba28ae4085926a693bb09cb0f1154c4;
Dbl 0x2ebeb1d84fca513f77c123f2561d2700f021a7dc088bc8a8a85d13333bcca45 0xdcaf810fd202f7c27451b412b12add6f01f04509a617b44da7eb6ef1214499d 0x2c735cea686af9df7cb9c5e71b217cabb9e2caa96bdfa77139ac9ede1c43c53b (-0x2b11f2a2b8909eca9ab4bcbdff8567fe605b43967536c242063e5c689ddbb89e) 0x2d276e840ecc780a3b0df16494d32df22592a4f4964c0112b909d8e843ba14 0xd310ef991734f8b234c09594dfa44e5b95de3c96fbb5a9b93e945b07c4e5f7;
Dbl 0xc63118ff21394fac61370e1af4aa00a3a4e7265983f3d296be1a0af555204ac 0x14f7e5ec52d19c79ebf4b95688959b99f92c42676be4c09cf1a3812a9b84f678 0x2728446b381654ab875cb4c5f892798a657cc03440cd3a1d1b5617151b5a8df0 0xaf6607050625bccaf01671fc90a904259be3e045fb5c875182935c121f87eab 0x32bb50362b17f2d641eff0be4c20b8bccc0f8391cea44229468162741bb9e32 (-0x1d63429b1c4de35021da568c6dd5801cf2da1325ccc518884bf81a3ffa556b9);
Dbl 0x55ed1231539df0d66e906a6506064ea64639caddaf87da53016c103d5d19f48 0x238931c508f4c525888a3f60b6b227a138c27137916c11d9a900dec736a3d652 0x128cf56b097988be89e75220e1cccb0e1bde8c2ae32af5fddeff0ef4ce8f461a (-0x1290dcfd7b19de86385c81da94b9c8152a89f4db089f019f9e58e68172d4c040) 0x9892b301e7133ff78390f8e89f203fff4c9f2587147b28b4272000e5267e12 (-0x19dddb6c27362a88cc3a7647a893139ed7684740008f3673f5c8df60e87dad6);
Dbl 0x2039359e373334c117a550d1160fb7e964604a013680e512779e180bf3e088ef 0x1e968ae2b9491629abb4cb7301061564e5adb60c71a7f9f2df6c6cae524cb38b 0x89d853957bc671ebdbf9794e7deb699ab6a24fa04114d67ac1356ca7d980d29 (-0x3594b005e0a40d159bdb1979e0ae296034b6f439ca1b6be39f9a0d25d0847bc0) 0x15750a1bed5823ed088dd1f80d7a8515457f4e671c87f4f29a41926fb1f70a7e 0x34b725dde7ed711364557564ca4d8c020ee9795d1a60ec3ea47d020887b2a4a;
Dbl 0xf4dafe96ceb589c45418c0b2706cf0ebdb154fb0ced92c59593dc410c32b7cc 0x253e10b69d32859be17338172370d9af672217df7e2db7aec247f46d6438e22d 0xcd3a3f67c13db828eb480374a0a91351f3fa712d461ef81d9adf5a4de412c52 (-0x348de7f120b2a4903e6224a584db8c33e25f3192c99d81c00a770061a6de23d5) 0x4d6eea9666c64471a267237444ae0d69ff3ea6a1c391697fd601f131d4586cb (-0x21ab929ccae099fc255ead0afa199ec88579b0d763a076c4e04dbb762e32855);
Dbl 0x273ac7cebb2584df76b09c8bd8564e9ab6cec7d27c26407ac88a062c1292a80d 0x2e0ca0fdc301d3b9885a231f0c4985529723ed71320ab6cc427ada5c749074d0 0x20a2b0216bf58a7d0c726100b0747b4d3ef32f707a52c2d1a50ab4a5855283ed (-0x41306f403c308ecfdcafb3327fe10418e350d3485a3b2ebd3db01a4c7db088e1) 0x1fcd5790808cd900ba344086668306b98c8d8c8966693829d8380338378a9009 (-0x723b2c6e72d16ce6d454bd96c350058c1135b4ed746febf78a2ae3bda1cfc4a);
Dbl 0xa77f5e8d4dc0f1fb953b8dbe9f4ec4797cdd206e78930bc68615ff37030f43b 0x2afb95ef90ffd5909888eb1d7b251a22a3e722b5ffe59bd84d84818b31828093 0xb267770d2da854062f23b7579d736850b7319a3d87aa1b9bbd8e5655a2fca61 (-0x755733c7e8c9650c8e514e22161d53ee9322f10f0fa98a49e1af5c74af54172e) 0x243c1681d90f323b4df45d7e78f1ca517947bd9fff32461bd608254080fe46a 0xa9d40a41a08aad099e995ab69c09cc70aa27c938f0bd936551f73147ba5eb7;
Dbl 0x2dea290961275d7cc83a6eacabc5eb2e0af90141dbd44c3aa8be100dc8eae4ad 0x127e93dba8fb9b75d76ea93d6987335d9dee028f03533ccc3eae20a36fdf12b6 0x127b1210a68726c4c9cf04972c690a8a20c883bae6cc489c66140d317f5e0b1c (-0x5d603bf5d776804282930403cba9322ff29b62e4a49c22e8c30653c02aa90d57) 0x2b9079bbd958f9669f11a9a5f0651c33ceadfeff00bb9354eea327553924a10b 0x173c1a7152872ac667997cb775e0e414d5bfbc06b6135f6332f9538a02805a44;
Dbl 0x2e42152a6f3b5b6f579e5a20aee31cdc2dc026bad2777556881fb05b9e37074a 0xae68989e722bd377331a3b40fac1837f2edf69d95763ab02bb232a350967259 0x164affcca1ec195cf930e2f6d4cf41415b405858e066da1cdaccc57772e5c412 0xe2089c6911c747bbf64c337f885142e3a9a74a1ac4903d09144830fe71189dc 0x2c37f16543ab781a354a365739f2a96d9aa84f964ee178db73ca2b8e3437dce9 0x74252ebde491a6a0ec9177d21a46b76ece80ae67aa63be5aea48188891c3dac;
Dbl 0xe267c6d34544361136c0bc44dda22cd1f97a292eeea113d24f7a13ae8a39bc8 0x120acbf1e14a64fa86c57a15e9ecd94def3b01eafb679004806e2e1e75f753ff 0x274b14ee2a9f9a3dc2fc75309f9889d763eba5d257c5c3632793620952bdf961 0x5abd550df8bfd4a6b52cab2148710fc1dab0218a9ff055d9a7dfc15dfc998cb 0x42341e42b1154e20282496952d8d5db428d28ea62c51aac633ce2a2f237bb79 (-0x2169abf5caa806403eb0c215de6c33543d5e4b1613fa35a53dd51a8010f1345);
Dbl 0x298a3428b7513104de052bc816772b561728d2f2804a0a9f1dde2669816592ac 0x23f751ef26da64e6dcdcd02460f5e9f17655834be7b9e7ed832c177dc4aa419d 0x97a4d0328c5ced5a94c597a63f7cbe4de3bd3099e43dffc2294f36298e2098 0x2f4769fe8cbc35547d76e2591004959fb62c58d99a3861ef1a588a520bc68d83 0x23a8786fad84382769388d7f5fd7f8f78fb8358a06e9c3d4680ff9231495bce3 (-0xf62d1944c8d1622de4066c914453b818d1cc0aad3cf43d1a081d7a6775e6f57);
Dbl 0x272800708d341d5112fa370a9f73bf86454b76957ccc5b0b41e4a53ebc08c89f 0x1798050a23ab1f3d2031d30df84a2669b7605ee20f30916e0c4a1618c887289f 0xe001ef05f03b84854b9227493d961b9c39aaaf2fc255bb64fac1a47cf5a7379 (-0x4f3bf91136511318d580b02761e5b980232bedf5bc2bfc0c061865deebaad71d) 0x1faeec82d16c6b4436a3b8ec9c777e8e004ae371036ac5aa8c25e3ca3e3a75d8 0xa02d26ee191b8339b8f09b9ecc820c9a621bc1b26cdd1d5eb8a2fcfd9344547;
Dbl 0x2b31889fb5e412a334241544ac00f25d9803c475cb3f39e9f0d0e3708f194dc2 0xb68ffecdaa29626e6639248ea0e21107e076129a983824a4525e1e9206c10f2 0x16194c4cb2c57e0c49620e02b4db2aebbcfe92d9c477407daa8d813be21d5916 (-0x9845d808ec64c3b070f84459c3f4c69dde79ea60354bb1ddeabbbd9759c91a9) 0x268db6fc2a085ad7e3195aa4829fd88aaede5fe775608740bd54136075508e8c 0xadff8377491baf9dbd9e6243b354537b3ac00ae0cc6a2a47c71b07958d4df9d;
Dbl 0x23a6783418c46d8fe38d81e350bcf6c9ad4ddeb14fd06c10a0ad52c4d0a6a0f6 0x1da740f6b23bb46b7b36bab3d2728ad75e1a181e8d6b88c30f94840e891767cf 0x241db1ba2d7f24d565d5d7deffd7364f4e724a1d41ab4b249af4076cbd468109 0x187d444f8a89a268a425279b1bd320a621793e47ceea104d215c6d507d560624 0x1a437923aed1248ef3d46e6cfd412f58ccb7d6c15fb8b0f8f7398b4be48a3c47 (-0xd7093e6f813bfbeec8a45ff2a4e9a628d7384979b3611e8ea669526e3e5641b);
Dbl 0xab5fbfa412261719571ce7a67e26470ced50d81d5011debb5dc7d7778355422 0x8fcd6268d065e44bec18369805bdaf754b4efa43efb64ac0c6be98ac0fa0a30 0x2d4612d86bb1dbab39b9d73d0113fac656d57d381305b69eae83f1407945d43c (-0x268663bbfa43f3de0f245514f4845213eedc67c0fdfa93b27c78d3437485d7c9) 0x25ee6b3eb015f8fe070bd50acc59badbac14f0cf92f96599e7979422e6cf29a 0x492f65f5161390b822506c08e1d4f502097f36a4f274806fc5d27d001dcb3df;
Dbl 0x6fed5a21db40ab32594d4f7c198fc987b0c8c97e598652b6ff12ed7c2c47313 0x138ad3230b49b5101d7426e2754813e685bde575fc738c939768299ea05ae326 0x24c739752d4234b1ec362168198a5be431036677041adabe937d8a9df073fabd 0x814e85869583e73bf348a83f682f5faf82734f1b67a97e26ae240e55313d6d8 0x102e159f22296ccdfa0a28649ea414335505eb374d078c502e40f399f3b4a85 (-0x1869862d3ebb1b68a217de804d5c709964ec79584dae260af5304cddff4cc6d);
Dbl 0xfac269b2af12b5c979669f0b5cd1827421474b6a8341476560d853407896793 0x23d592f1a500367a8844e35fe1ca3302f368271d1fbfc69b065c86403ca24042 0x2fc8e0bc5b65b95a5ce3744b437beabae028c0a5b66bee6ab260e8379d0d1162 0x259a4c6f5c7383247005a0d17f9c4ef0f91b2c091d558ecd4a8a39a30c89ce 0x513662a97f2db67a7fcb58d597833e9802bbc4b3425801358f4a2df99c60acd (-0x546c383711f44535e5c3dd1fd2298bdb4330fb9985216724af824dd8405acb5);
Dbl 0x1fc4d6e145dca4ca171cd7d45efe70aa6a0a51970ff94dce206bbef35be37469 0x21512309705b0399477774e2c989579e25007df5a56f8443f18c7344fec2e19a 0x2d63bac3f92c87f30c10c1a65ef51127e78e05faa829c6d46504d7d28b1a8645 (-0x10dd90a2cb24aca1cb6cf4000fb09a3f6f5a8fbdc3a0414b166d3f6939f78e18) 0x14db276ebacf64dad412f80bddbba9c5069ff22a96f967065f7293bed39a14f5 0x1a7119124c06f5b0aa93aaf81203dcd48a2bf1bb055ec53d97d25e48c9d0737;
Dbl 0x179475ef4a3a5b2d4740501dd96b55e3631284d2ee7fc74f1815762f3901d170 0x26429c77962289a7dab297f44f7b136d066e66415c1741982f10feb97777ef2e 0x416c9f3d0248047f57ac0b6040274f281540cfdaa4a83a0e6ee81422e46a77b (-0x1894953b3665760a198817ef244bf62fff81d26ad24bcd76cdf7e5c5112eae14) 0xb7d6430652dd488772f8a2c92e558d176e5f65cc83e78f98afeb4320e784372 (-0x268a0f6a1da48ca6af34740e2ca646cac894fc85978e3408433f293a676b980);
Dbl 0x2c89b65fe45e525a65b3bf4db502e8035dc03193bf3113776f9d8e18d098b476 0x6a41ab181bc7e30b0df627e765ccf3b3ea3048f5f5310dac445759b75d92291 0x21cc536ad5fbae60c535972cde2c09a7501099112230e5a62044ade2a20a7013 (-0x5338ffb36629481f96445b48a6f90a6346675c729f06e3d57b8727eac61a7158) 0x28fdb09a9f0d84aa33b9ecab8d30de7485e825741a36c153b415b3ad30afee51 0x1d19de0c8609bab3eb7dbc90aa20d39bf050d913bc65569f5e1675a629f8a4b0;
Dbl 0x266875f17510c958024c24880bc57874409d4f0e4517c33dac2889951dcc1b7c 0x154e1cb2f3f08e80616cc41cb3d0eaf37d9e5afdb931c3408d9a742ad94ad7f2 0x26996efec6b89543db45bf06b47366b558e9894a5adeb7171754b2ac4f43fad9 0x32ea91db550e31addf1b8d44d75e68ae8338ab3f7ba8fbd59fca83acb23e6c53 0x1e7bea19d49922c484dd9f9bba69ceb37b4321a13d6eb756ccbf59043f388f24 (-0xba383a0872add74ff39ce972cf228dc070bac0b810eb606bfa809b898aa4bd8)].
Definition hSNARK2_10 : list stp := [
Dbl 0xbb96f6f5181b9aa9fc2575312d1673e5ca4067b692a692ee2dc78f5f1055b3e 0x1b64ab9b7b42cde0457016434ea4a545976046ddf8ec42a13ae7bf9ebcc49d85 0xd94bb6ad02aaa0b5050e774e648245f4bfd75a2db2d089bd3efab6592c4a92a (-0x96f96a3008f7b118ffba42aa9cf648ae01b72f54dcd2da77ca466185ce0a350) 0x2d72fd6ddb3515115da3fa0b683f049b291be079cf9764dccb7a3f11a8abf0d (-0x1799b66cdc16f29f9043a25bc31f06aa3d693c5bac703db24d81979dd1546fb);
Dbl 0x616e640911591bbd40b84372732ba193d487478799d376420100ad881165d61 0xb66731631f2e53e7ac1d915947d21138f4affad4b5971e182f7e07ed32b6f69 0x6ae9178bfffb401e6ae3089fee99907ff35f345e7ee6248c823b0d57a51a279 (-0x2b1a066f200414323b9cdd8ed0fe76b999b8d3de1781f0ccd8ef7c713cf2c451) 0xc42a8e4246d9fc580d75e19a2bed7f5ec34cd2206f5e09046462c92ef91842 0x20333ac8be51bea09f2afbc3636deb370715078a29c92f091657a55061617bf;
Dbl 0x289d040b1a299edabf9903af3d18770e34203a8a3578cd22cc32c3da27ee892f 0x1f83e1f7366864878e5af6efc9dd8b60af9c8d32e3d0844ac6122d47842fcfcc 0x1c5c92098f5d1eb00ab7ae9bf6a57d4ab5d5d049250567866062802afec8f259 0x328a17f4071586979fbdf74ee556a7af89795c6dccf99405b00c19a5172186d 0x2215cde5a92a4bb2d6d6a29f3449a47b5d263eb0194a2347a4489e4129baed65 (-0x10e1b73318913cbeb09663e9602a81243d24d84e7452a8e1816e251b389e1189);
Dbl 0xb318965a3f637596fc1a0cd7676dd5d587beb0c9aacdfa1f0b7fa49bc18117f 0x1bb07f50bdba66d3bb1e95d1ef11812651922b72cf2ee1968ba2cd5ac9788503 0x1db57bd3555860d09babb530ec8e040e98923527b41e130deb68e6e18d6e6dc (-0x3073bd678fa25ffbdd8d30bb1b3ddc2f9897ec2b2d42c61159a1b9ea20a9448e) 0x296d3a46dc86775ec353fadb0abfd9e57fac6992c5abb3b745ba80a5a169f6a 0xe28a9b461b814e74c398a5002a15637c1f6190982280e358aa02a067bf936e;
Dbl 0x2305dd2a9a2455a72aaf0be8d89c1f030e0410aed5a82728763985ab5d0795e0 0x2ea6194d54503076e934777c587dffac9e81213deab19636c7568ea4fc614097 0xf154485ceda174cff3fcc40713ae689bc1e772a0d4eea7defd4f9ee4e59b130 (-0x2cd7e9724042cc7ef71417ac6d51a834caf187392e6e563a733dc66b9441b78d) 0x1958eb3e4548f5d0dd685850f40b0c9efd296b548941e226da802f4849d20105 (-0xdb8b9f36b27140b4758a7b9f93b79e92e01f27117b759d1bdba9ed7bf9f4c14);
Dbl 0xa36f450159fe96946a07eed01c59defc930461489f2e2031f4380dcd46c35c5 0x30644e72e131a029b85045b68181585d97816a916871ca8d3c208c16d87cfd46 0x30644e72e131a029b85045b68181585d97816a916871ca8d3c208c16d87cfd3e (-0x8089cc06113079944937f32b6c2e26d61a387904dabc94959302784278008b95) 0x227f89544bee802d817d946fcc4d7e8baf366f0c3999c9a2f51e619473c1a33 (-0x5e2fc5497e3bcc8866387d691727511b70c09c915d2ede112820796cd24b9f)].
