(** Points of the twist that isValid accepts and that are not of order r: points of a small
    prime order (13 on the default curve, 10069 on the SNARK curves), found in the cofactor. *)
From Coq Require Import ZArith Znumtheory Lia Ring List Bool.
From Verif Require Import Base FpSpec Pock Primes Cfg FpProofs FpM TowerSpec TowerField TowerM Fp2Proofs ParamM ParamProofs Poly EcSpec EcGroup EcM EcProofs EcInst EcFrob EcApi EcZ.
Import ListNotations.
Local Open Scope Z_scope.

Definition pt4 : Type := Z * Z * Z * Z.
Inductive tstp : Type := TD (h : list Z) | TA (h : list Z) | TM (h : list Z).
Definition tBNb : pt4 := (0x13c524969d5e21c142ead18fc50ee04e804613690d654dd5ae5faabe77498658, 0x1dc3353a717b09c23d02106b43ed6dd1c3715758267416d7739add88fd555bb, 0x2225f8aedde7968bedd4b6b7b6b3fd4d7c9b0d0f6328efd93f27ea3081f7ee9b, 0x230ac4aff70fd9ff8b050f543ec4cafc03cb6c6f6f294d57164d8932a416a491).
Definition sBNb : list tstp := [
TD [0x242706b3793ca9ad43851498ea1f6ad2d7230e0a078b7bc9ed6fd8d8597fe56d; 0x788d741129e93917db14ef93d7c5d910770bc2850f0e5383606581f52efe013; 0x99a487cb687e6126fa8c5152a869ee9c926a60164713297d039ec0f9f9c28c7; 0x1e0acbcda18442b7fb42a461fff100eda13d186b2c4afc216d882d78a20ee132; 0x8c8da7e0f7de9a7b65ecb854e256b06fa292b574a4f83e89dd732506546f62f; 0x1f9c961d6a376443bf3f337cd6a162457535f413a9d9758d2fc21a4a6b69d608; 0x14f8bf05af7f9ca97f167de2038cbbd199f8c5b87a0bae9701e1216f076feed1; 0x4c23672e7476aa233281c1c820e9137f0ae6d38af346702d25e2cd6bf86dcb84; 0x21aa0a0b3b60a41573640ed030e166b790c26d6efda0f91d1a0c52adb3c9ab73; 0xeab4850517e02a28ebfb2375ee866663ee22d0fa81d532df62b4e4d8e39a522; 0xf9d739cf54f281e60aa99084b88c4e645adb9da0d0af40ebcf1aca6d5b74518; (-0x195f06d6d742395a6a1724a7836b63829fb94f9ed8b59fb15b096d11a675069b)];
TD [0x1354d47e747171f2667fceb2949153ccab4e51ef954718ef505eb883ca46300a; 0xc2adf3a2efc61db0170874b14c4b16f414ae8cbd960a4fac8afb12d242c59e3; 0x1876d8a0411d9b8a363b250e3b001ed4a0bed42bc64fb630321827c8e6a7989c; 0x19ace8b1e260695326bb6764213a8a417bc3448919278c0e5f8c6617d08e8191; 0x2fd6bd362186975cc5f96c8494c02bae485f2f09cd7103a67d815cf7e081178; 0x2189fd248f026022f2f3e2bc13b350c5d55939090d6b2bc90b276cd5be95b82; 0x35e37f652dc6f2f4dba0da7e91cbc0cef98f897fef0203b4280a29b1b8f17b17; (-0x7f1197f6e94611ce40e669d076858dff924a902276b55afc7f188fba103611e); 0x613790f357b7b884355d103344c37afcc1a149bd84109ca5b88dca9f386f56b; 0xcaabbdfb604b34461a5e90420c1449af09992e6bc77961637088806839cd5fd; (-0x92a9e026f1db1beb6c29d723cdb6d3a8b197f526d0b564e6501ef5834fc29d4); (-0x298965fd6cdadbf1ed2c608952cd92636bf6a1b602da0b7e221c37c06868d45)];
TM [0x0; 0x0; 0x1e0acbcda18442b7fb42a461fff100eda13d186b2c4afc216d882d78a20ee132; 0x99a487cb687e6126fa8c5152a869ee9c926a60164713297d039ec0f9f9c28c7; 0x2225f8aedde7968bedd4b6b7b6b3fd4d7c9b0d0f6328efd93f27ea3081f7ee9b; 0x230ac4aff70fd9ff8b050f543ec4cafc03cb6c6f6f294d57164d8932a416a491; 0x1; 0x1; (-0x2); (-0x1); (-0x1); (-0x1)];
TD [0x1bf3500f8a93d03ca50fc6dcc85f5da203310256c85479f6ee6dba0ef42b088c; 0xa60d17229a380005b7e1c1a2caf124b15a9122e802d549abd08ef8c26f46ce2; 0x19ace8b1e260695326bb6764213a8a417bc3448919278c0e5f8c6617d08e8191; 0x1876d8a0411d9b8a363b250e3b001ed4a0bed42bc64fb630321827c8e6a7989c; 0x8c8da7e0f7de9a7b65ecb854e256b06fa292b574a4f83e89dd732506546f62f; 0x1f9c961d6a376443bf3f337cd6a162457535f413a9d9758d2fc21a4a6b69d608; (-0x21a43bd56cc968ad60b237ea0bd82b7405a36a5348869f208d7285b9a9d38217); 0x19394b6bebb2f8572d8b150905ef4aa1032864b181859a6347c1de48231aa0b0; 0x1222af0dbbc02422d5dd9d8d42b08956c30a479ac56f19c2194fbe5d33a8b36d; 0xf9f11f1b5b18bc6e39acf1954a4a9f4a6fa392cdfbfc96a76ff44bf6d7bdba2; 0x77080f15a292e672707bbe287ec789ea988eb07cd2c8b79b9e1d7ca788a8704; (-0x9f6f160f9ed6cc6f7189f5c68758e07a60a8c4e4ded2c7fc93058e185a05da1)];
TD [0x5fe8684df940bd86c4a0855e672db69268757f9079cb9079e28220657819a3e; 0x1590ed9ae6b230e7151814924508e1f295b08cbbf9d608d73a63002e37a3d1c2; 0x13c524969d5e21c142ead18fc50ee04e804613690d654dd5ae5faabe77498658; 0x1dc3353a717b09c23d02106b43ed6dd1c3715758267416d7739add88fd555bb; 0x2fd6bd362186975cc5f96c8494c02bae485f2f09cd7103a67d815cf7e081178; 0x2189fd248f026022f2f3e2bc13b350c5d55939090d6b2bc90b276cd5be95b82; (-0x26c896efb48d69cc6af133dfc10e09a26c7471823624174960e4c43eedc91d15); (-0x5112a70f75dacc77bacd2bfb634e2afa6dc8bb668ab84d0733b563feeabbf444); (-0xb8e511908f4a72dfa6df8ef7cae0f30a60aedcc764edb5eb4bea9cd8aa053de); 0x6f6316fff2a1fef5445ef92a49b694051a763c409d46222f545b5b84287eb87; (-0xc2c4ac116d8f4b4847d7f8edb6f7465c41a9904b7b8f0fa0c147e35e7861e99); 0x713dd4dd9013f3711f099af34a0f7df852051f4d49ff5fb91ab5d43b0194702]].
Definition tSNARK1 : pt4 := (0x3e953da7f5de0f46bed91ead2b31074ae01ab1632feceb06383f5beb7f9cd81, 0x2652f9e535574316e1481a8520034877a510ac3f104945b09c68293a1450c6bc, 0x22f73067b261e2f84ac50ebd23e53804aedd7103b118657c9b47450f913c2d69, 0x2354d3477e1b1acffb57eb1e018ca257753a25889ce6ec558ce7e0104ba8c65b).
Definition sSNARK1 : list tstp := [
TD [0x6b2426c686889b1f3c4c4292bb3434832dd36029c44a2e076cdd73047bae01d; 0x2c27d84fa71555bf4636c51215e78083d20e3dc9d70cc2dd29824851937a8c57; 0xccefb986b501627535868ebdd8520f72dcea6e0dbf1fb599db998b7f3277972; 0x14ab76814279aa98ea906ab99957410733b5c71de302a3b259cee344e025bbaa; 0x1d5cfcef40036749c42133f1d8f7d1a5a0877e6ddce6dd6443d7ea1e1c506470; 0x5ea9bf973e27e84bc199b329e33ab4f987609e7b7894eee2f596cdcee6163ac; 0x234deb221acad9b91ea2a3ac016a97c9a3707c0d63b4afcc009c7a197367a47b; 0x3700612f6f2b85ed7dca1cae8693d93bdc743be3ee56f79bd38f027abdbb2bcc; (-0x275d1a116eb51d8d534054351593d15939679772c60e57db00ae681804e5a164); 0xc3863af5ae0a5d300aab695f4c43789936ea6b1eedae44a877d44604be0a2cc; (-0x11570dfc5d7dd09fcefd97068d17ffe66473f7065825da933a2788e92808509c); (-0x5acdfa43d4ab246e35c5ab695397ee19d4f1a761eee15153cedc471831c5efc)];
TD [0x2680bd7521f3e05abf1fc816769d653348a393fbef5267ec27fb10c68ff25d99; 0xfde65fac169ce56c4c1e25e9513c05548c4fa81479296f940d49f97d8a19a70; 0x2f36300b766c05bd57ba3d54f28c6cd8bb7cd67b2380841303ae4d4334c5a453; 0x1f460dbb1541f0cd2d93efc07a2440d894638e638e1cb3466d0672c4c8f51f45; 0xd08d1e9fdaf113041511c13b419b4d04cf5dd5570131e564baae9940a55fa2e; 0x87356ba76e6ba9c0410246ac0281ad41fc893c1543b2a7460df15fe625db379; 0x3b2938f0026a9331333a195d9a95874c7115927bd1fe7cb167d89ff089b9c840; (-0x42737ea24f5edb751e9edaa19cd8fec917b1c254af8cec741baceb61a38c260); 0x196e5a4afa3b55cc1aee527fd7446c7dcae522bd20251f3a0f965e78f7f30df6; 0x19407bea6010f4911ab767300496d8f45e94ea5c4b62341fce66cef41ce56a01; (-0x17e5446584acb95f2dd2a0796e4adde3eb7cfeabe227d68d454bd0e237662b01); (-0x13b7efdbe849b4a8ad9267c912b8abbfd22e93ff14c9add9ff5f77f90aa0e008)];
TA [0x206840f949d5e52228e93013b42a4d3fb3594ec15cfb6207f0802b5b0b2ee586; 0xf739f846605423606cbdbeeee8bb2a8c6872716185ef1a4cada2301abe677a4; 0x1c119809fa0376de69f411ea0901ca2d69df4b8a73c3448af5347c8f1906fe1a; 0x2f8d0c31b4d9a52a72d19e93c238404f39b2107d44bc305df30e79005289d87a; 0x2275f348bd41c937ae0c2308fe79a012c5fe2bfb9a9128eb0e4767f48421b882; 0x290574d0de0e0fdb6bf1b53ea98b6be8567865c235b5aa33a17a3816dd0d7b71; (-0x1f3fac678bc32c007f458565c7c85ae867cbb3073b754b3a2f402e145efaaa05); (-0x91ab35c6917b778b0b1598db3deec4c49981956abacd376dc4b0e916444bae0); 0x10c4d40e03c36448a129b27f7c84cc0d96520ce9c4111fec9d87df1c472b80aa; 0x14b2097ca88a60cc26cc99c0c417c2f65682fbf9aeb7c16c36675c4c35a5b3a3; 0x12046253936b8b52416544050e2bac6b5fc726f752c3d3713eeb9572ea3d2716; (-0x4c9cbcda60fb549455f0641e8e8cbc81b5287ef1ec67aa9247697f70fc302bc)];
TD [0x12d7bd6ef26f3ed1cab8b5087f41c6d28fc1a78cd05c9349c99bb81c155c4073; 0x1268c76d346a392251af489db1f29ff942cf14b6be3856e9902c733548343318; 0x2ee914e98fa5a7ab0dfb9be02a9de43cac7d944f295cbf7459c4914b05990072; 0x1b5b1a424504c05f428e45db94f8953391327b8396c0ed7446273d1706adc64f; 0x154241c2d17577fe9d98e043aa8d0b1d77fbe2b64f8ce3d1a95ec6fe7886d206; 0x238fffe7ec9f2d88a251d70f6f3ec43deaf7dd2960fdc0e235868d551097b3ae; 0x56f5319a2a54612ed62ca9625c59ec2a1e040e3ce80df0b98d5df6c4de524504; (-0x6b52388a2e34fb0deb19baa8a08b0b81c8cbb541240722938149ce90ec0516fe); 0x556af213b0e4aed6f62bcb9d3243eea02203773b73466596400f3be41aeaa5; 0xe561c075ef2490caf0a8ed9ab06536e5dc5a8966626df29a93efba80a981fcb; (-0xf04ebc5baec0c4b527b4ff9b4e418d2a8d9190eab63dad07fade69019006628); 0xb21b478fa5f59a2c20f032bcefc87fe0e219c60ff06a7a94920419b010a77e];
TD [0x1b36aded830c8e9d3225f8c3562abfb8416b16f96812ced80878128db1d3533; 0x18445466b5fef57badbb80200c0d4e2ed9f44d5d6ddae0290d459b8e58b7d2b; 0x1008eb7d079af1e6781be11aa761e134476065d10d7e73e2e2b271e21a08b72c; 0x2f4dfc824f98070c0e858fe3f2f08da382d3f6653645d1b4393b92a5df112b72; 0x166777a9f7c98db2ac8aec3d36a440fc2b7b7fc4281958723b5f84ce912c5112; 0x2307c59e53c88e1c4ba4bce6552482b01597a909df0f632d42a523624ff6cf26; (-0x5ac3f429847cd2ef57ac002c291789d7cf4bcd3ded447aec47da6ef7b5a1fd7f); (-0x9b474217f7903f30314b657549902e1d31738f7166ef2b940fb1eb8717573264); 0x3227f4b26963cbdbf5de3fe5d7e1eed3f956de6f85c9c0c7990d7a9d62e20; 0x1b4b1f713f57771d708842f1b7fcfa171dc0b41bd74bf2ac1c8c7cced2e35e; 0x1b5de9ef264180a02df991b2c3e896ad27abedf38fe366fa14989c96c128bed; 0x443c6453d205f244b36b042b3a2be6f6238e405fa70cfe78ced66d0f0589e3];
TD [0x1b398a6f8e6c20ac9ff83e5ad253a9ed1701240205269dafaae50877d212be53; 0x19fe5e6280b9665d6fb3513a00884d480262e377f95ccdb9987e6d3208351030; 0x218d9095431cd9d2e2b9ee4f5265f14cba8aaeda46ef44cb1718f63e987769ec; 0x225936c8a6d1fe04d121272f0a90c08d45977db506a894a2bbc9418e2fa61e93; 0x946932cf585e7a93504fdfb7d27e9925c77bbe1ebea92342a3b4bf5e3973320; 0x120ec7d46d263afe1f789eeb0d3b2d3c2a41a352e3a06f4d7121b246d70158c2; 0x6e5c94cbc78e2c90a630ee8a856a8edf8104dffc5d990c20b6c16da2664992b8; (-0x1e9037c3f05dd02aa30894c428fb36a42ead08574a43726186c68ec9ac7b8474); 0x15a9b6f4ee9178694ff94ae9bcb569947d549994cf22a9e151e6272116483b3; 0x1d3f5dc37241bfc269be8809fd38f2de5f75d4c17042aedbe91920d19dc7398f; (-0x10d09e8331137c6e4a039fc306a2bf30eb639f40618c9f0fb8f11048a13374ae); (-0x21ef0807f5e6ce140e4829b9da23a9e1ca63f32fa9b0682a2e659fcbeef570d)];
TM [0x16b3eaaa0c0619c65b2f12a111f707640ab2c0c7405cf4105a654dcaeed2e2cc; 0x212c31b9d9e304067c7ca6ebda2d810b1bccef9f903b9f4ec2727366a9820a2; 0xfa77547c11f8ebc6a6547876a780c9331ea3fc45fa995732f71be58506026; 0x2e83dba6ea42f10d87fd09c71f3e0cfa6a44969f3d20543a8edc38ca89efcb46; 0x2aa8315bb877c149998e6337a5854815455e612bc363232bf6a31fbdc5435132; 0x5be62116ebef1638dec4908a6c3ad3a645b8a2ea6a15d66249085644fb27f29; (-0xe1397583691277ba64df14e0ca09798de596dd936f9fb051bbde6928cd9586b); 0x985e9621737858847a50cd1a99939da0e24d2564467dcea965cab5fc5df6d5; 0xa8fe4d99f0dcea1fe9451ef069e2ed0c43c952a0b41c082eada6e0697f0003f; 0x1f2025b48c914fd99a2dd7fcf9497af4d5330111f0077db2ebc611e07fc1b0d; 0x103bda8c63395f869e34483865b910a07265db5ef3cd68f6cd669924ee5a5d64; (-0x445e1c4adef694b02f559ddb28935f78aa0e139e0fe248437fb137049097e25)];
TD [0x6ca78756609fb448085fed3dad30111e6a5fd1c44687155e62becc43b529ecf; 0x2cc3af8c75875d1afb4c6362b3cf03ce1a505aef1ed078981e299f675a76d78c; 0xedc0dca4332c04257319b84c83197d82ce3ee24f3a7c28d0eed255acdfabdb5; 0xe3044ad576eea4fb2675af933fcd0691e89d525350c1c80cace71e094e56f2; 0x1fa82df716f31f7def524b7bd391c191e9675726410e86314a1e8eff989eb3b4; 0x799e764cebecda3c03eb1a33108a535a9e10f9bf5d1a0d3da265f35c8cf42a7; 0x877aa2d37ece326aaa61aea752d9e3d90a947680e75454578105afddfb3aa55c; 0x502da472baa85d1ecf1f975bcee9bc982a3fb36ee139162270797710a4c6f52a; (-0x2874b62d46cb752a44ed347a320f6f8d5bd386760cc8f40433b01c49a6aed750); 0xc904fbcafecccbe40ec16b19b45ff89365ad641f9977dcd15f853f1ebecdec6; (-0x2c48e243e11a56796ab2585d13b00442835f49e08199f8f9b8191a4a39806c51); (-0x7493b862b4e0ae474c5be58fe2999ce0a88d58cca14993b0e45a4b8fe6f2628)];
TD [0x1ad0d45fa6b5eb23a57df5c4c0b0db1151f4265ce50146a1f2e27a56750f6f6e; 0x28a1402f96f652d9ca88066106b5e755105b2846764cf8ede1e280adfbae7f00; 0x21b1ca960cfb4c1ca83e84200065d3ce7e8b7b617d2063adb6dbf39b92feb6c9; 0x221cc81e53a5d51c1444a685033ae2e78a0909bfd706591e540797db42b76b99; 0x1676e01ce9c627d37f2589ff29281f32c0cd1258c7940f5be3883cc92f0c24c3; 0x2facc2e24c5095c55ffa6810916166b37d136c6a85b5a5ace013442b84f2c941; 0x8ae4393dc96d2c7aba564161b1ac4ca54d80d7e049cf1fdc04bc7725ecab6e7; 0x3bf2ea875877485d673c0f3de025a8738f931cd5d5a6472a5b5eb248ee25fdd8; (-0x1340da29bafe046a38dcc9a17a372e5deae79871276283776b72c7ff420a8519); 0x2d07741daffa20d567284499bd84d309c0e8d17ac475abdcea9224bd95fcb6e5; 0x11758d797357b4e120db862416de99a4af23f417237fe0747140826f3b2f1707; (-0x2239b55318a710efb26c9bb775eb9fcf8d016d30a854684fdf84e21b3118a706)];
TA [0x27e9a0b21757fc5a68f19a66f1ddc2f687ba2f5561682101a4fae69f9b471d5f; 0x654eef55901bd9fe1b9718f7f0af6e5b167d84cee2b34ccfe67858f2d29d1e3; 0x272ad59377dba6ffd22c54a52de2d951133988a383b3c2395548e06283bce9a8; 0x224eeee70b205970ea5fb9c718bc9d9b0b1c754de686ef4a049aeb70bd7ad586; 0xec4a771215b3fdc18562e622458cab19f3728334a44806f03cb72e4ec441ddb; 0x1c2c60aa0ed26aca9a4ff8609f927e966900936549c15d0067ba5d42c8e89006; (-0x191d949e86c2cd6d46b783c9f98046260400dcb6277ef4fdf174fa6628f526e1); (-0x6c573dc83ba1b13552b06a09f918cbe37407b3049704b0712df6a1f0bb37e3); 0x201734c4cce3a30deb107b221e7c6ce8b779675cca62a837d5b907801c787eca; 0xa71d3b8bb71921b7752ff4fd8aaf1bfa5c36a14a4a23e472e58acf5c67ea1e9; (-0x47cfd7e6fb693160f08fd5f88bd608dd1b125e69dfea57a7e5f22d4cd855e08); (-0xe0ae88cfaade77b1772aee3c62b922c1060f8cdd6562e450aa2fda05d973d1)];
TD [0x29e9bb0f823a6ee167234a08f40412d3b4694c13e8fd133926619dceec705ad; 0x2a79b6b855b46ddb1350cef2ae4bf9f3788f48250eec10ad41f0b35daa4c4ce3; 0x1ef6f9f8b2996ca7a85bc52fc30e2cfa00a686e58f351d1382d07353f1c2a6f5; 0x236ed6ca6668d5d6085d0c63c3a715f894992556fba5544e10d42065787b0f20; 0x4ec15f36145551bc914e72fefaaa1a99d21c7cf604ae31826f406e686e544db; 0x280242920f02111fa3623bc8ede4a325df5f349c18779edc83509ce19ee43d4; (-0x45fde6c31ede1017a77d0b725429fdbe69152919025de8599fe4544e7a4e9636); (-0x89a29e0547f7898e79cd33e0f077fde24177cccfe4d5f447fa62294de5537ace); (-0x2523fe4cfd78dcd8d556885d3758c0252d7d27322399908a88511275254764b3); 0x4993d49d58a5c4f4c74edb6cdea8cfcd719a399bf25b89ad240007b6219854e; 0x16e60716b61b5a712c667301bcc2bf2479dae49d809a181e682333f1b55ba39; 0x7238b62a0828e079913d3d54e76c96a91c996389fa9642d54390c1317761e4b];
TD [0x2bc5e24a64acc92b9834e50d3d70ee884d7d5c21963373cd9b07bca026541b73; 0xdf595807f92246dfcc8f03e923455f5edad512d2174206edffcddde14bc4a42; 0x1adc74ac530bd70e5bd5fc182f42a2029e87e35a6aa53c03f332e2f89e6a187; 0xd39110e2b780dd9d4bf3a6185bc0fa047ae42505101ecdc274ca84c10f8545e; 0x2c4b20b8c45ab0a0fd31de2b35a0cc3aabe93c35f3b2b104ab0290b9a1660eed; 0xa5b8b9bb1144abe18093033af75011c8d81ae77f868f0b8f496e2caa92cdcb4; 0x19dabed700225ffd10e73d13e11707f3e5a8cadca282e051e4d3649da3607941; (-0x80ac31c42f36c4e5d693d01abdf957b6dbea090a00983cfe3e222d4acf8606c4); 0x239177e75b7bbe9a684c06b580f8fcd5256dc9d30ce400b63af50407c3a8932c; 0x1940fea2080d781fe706e48d599e3524a2445b93a2125dbb8494c0fa8118a8e2; 0x1415792139d55027078b19b0530f3d26c59e4625eb19e8017634276486e33572; 0x1c89c21e96a5823be3bcaa26c9ed05de1807be50c68a11392284ca47f1590036];
TA [0x1506ed69225bb1594724fa9a326b55dc32090e013215aa22b5ccb3ca471e04dc; 0x2dffff9b070f7bd59fa40c9e6388b2bcc0fd31a4620351a2c44a2151e24e1d24; 0x2f6c96d73a347d6af6ac365b241bd1d1ba7b94f803e22d98d8881534e4cef78f; 0x4eaeeacf352978e82efadcacf38ac17b2b17ad073d2176811d0b489dff3229d; 0x2fe89b1ecd4bd0c12f5896176f516af33058fb0152b5a34e2a985a4049781b35; 0xc46c5b94b912f310a93cfdea2850d0adba7b9d8a058c4977b2d57fe5056e4dc; (-0x16e3f3f86e88fa1c54c433334a3048bf246a7e1c685403fc9f0671ff7f8b2044); 0xd07771908650601a8da8d174b3767049db0c355d933d499db0853de036185ef; (-0x2296fb6e971b6df1d4d495457785c88127d38bea7e7c123e25fba196428da431); 0x27f9bd11a63445650abafaf500fdbadd7b8abcb1d091b42c016a4a240bbf570f; (-0x1bc5976bbc34eaca89ebf50637c33a87ef2f389cf482440d594140532506fcaa); (-0x27e025d3bfff1aa1cfa924bfc0c5490acc251ed37b4df8517b9d2f6f5a28b68c)];
TD [0x27608dc49308b7ae72caa1694d9d54658a509feeae97ffe1cb28a97b227b2166; 0x24cfd6beed0260cd7c6daa4ba8f23588dce27808504bb54939ff803b1b7310b; 0x15b5e10ffe9ae494311bf74963dcd98e9382a7f58e0c1a47bf3257f2c4176fef; 0x2bc396c915d718e14d6d30319103f18d3faeab8fafcb10d95f26cf980921b97; 0x11a004b6963fb98d629fcdbf8bc2535bd907808fd4c3db40cf6198c0a633c5d8; 0x4aa86c84564153963c850016f2bc9dcc20cee1f2abad2e382a5a40675f85b4d; (-0x3d20b6ec2e1f4aff0cd4651978b87eacc0ca4842b8725562e2797f81087bbaec); (-0x461b0e174fbd595237fac72d6b24c5cefffcd68542a6acb044aa08bbd46cb0c); 0x1feeb28335763151ad5c5aac4b9cf4d1fcbc3340849aa742920e92076eb1fef2; 0x3be8a483a382ab052d99b60d8dfca3b9ca99e570e416cf541e73c04772a33f5; 0x14d1e3675da56fc5d203622ff594b288b6fb383a7674faebee68044d3d8f9387; 0x2ff9905f0a85194a4d40a8f871fee14da7704a14c37837f45cc9f806f248a8d];
TD [0x2d3d35be5d762bb0cefc08cc598eb49307e64f8c5a27a9e1b3fac767b3ec9d7a; 0x1f30115aec6041de66bc21d15e439aea7cfb405fde2ac4574dd288ff96d74190; 0x1d2322ecc92df747d6115cbf1e13d1ef1812bfb5b944336de83a0b5e52de3534; 0x57dbd767c8e00f7619ff8d0f98c1b51f03519ea23c6788d6c3947b4e0fb6379; 0x21a3bcb5ffc73ff68110611a9db433c019a88133777031888b9b5cec12f4f7c5; 0x26399446400e791de263878da0a9cd5cdc3ba7b8e2d2f6b2e8c1c79db1500e8e; (-0x1d14b7e749de291385a26f3f2c30541d96598efbfb4a437b0b82b5fa4cdd790); 0x18145e12dabde59dd6aaa89685333f7fee7a53d955f63df4afb90dbe24f7b202; 0x16311710a79ae381ba7878a51d965677fe6d96db8c2e26a1969b75ebf106e85e; 0x3a4fd04e3a04d1133f6aaca15e913ed917be0878cf0eebd492fcfd1f7105f11f; (-0x52ab264843b2eafda84afda276a889f34da92ce663ce45e880885e1a0f3d029); (-0x75ce1bd68bb497d55aaebed8cee28661495d47d8a9d875b551bbb8e808cc729)];
TA [0x15909f6019df702494f9d79846a2ad1ea1af2464a8901deffd88cc68fb590396; 0x14d6d91f4f5491a559a7eaa0a0405c537365655ed5f4187a8b92b31f8772ee20; 0x165612de6c74f85f5dced333a07aa35e5abae33bf723e1fa6b621f647a6f6be4; 0x24fbb1e5f415fd1cb5a391cd8631568d6068386344693f2a11a719d696093a7e; 0x191abad331d43b1c90b3e0afd8e428652b0dae0ba51228f6e3d78f1748b34ad7; 0xe8ccfcbe7b2a74b096e2a63137fd7a043d7634219a3b5004489a0aa6c2afaa1; (-0x1961666bccb1cdcff418e84c557ccab10158e9c72900520ec783bbbf415937ea); 0x3c4ad253397d7e2540691952ba27ef5ffd9717c0038f5500c184a461aff2bc3; 0xa2c9c0c49eba0e029155c0c2da8d12026f37cbd23d9bf7a23e0deedcf025dd; 0x1292c15c82f0e64b5219f5ee2e305787239b8ea41c556450cce5c8783a54a34b; 0x1097a39be093081637e2354fd5a60b52c6485519d6cc90393a3261b6fdb0f1fc; (-0xb1ae627835f0d205f8f6cbbf05320145864376291cb4e376812864f904c567b)];
TD [0x12fe3fa659e59080b6faff8d856d4cd28b38c18e9424bb9b3413617e0a7c5c73; 0x1039100f7fcb944b9b28813c5a6ea025e596de43c03695574eee40935f56a5b0; 0x152bca3939878a69be6c4b5d5309286542ae1eebf070bb8c97f2b5bbeee87fd; 0x18b259ddbb62ac1cabd92bbba2db425e023f3c6c7dd41e14a361f40768459fa8; 0x264e1c3d43bf1e7b28de1b6b4f5a5926e288b654e1305695215f7ef63e3707a6; 0x215a74fc9b6805ec3743414288bbb213f9a1a217638fb631c754df44f6da7e58; 0x3fd06c0eb0c539e3d84ff3991716a6ccaefe66926036ad7fa5e06d8976c04f2a; (-0x4a2b282ed9f8a9226e8220476acbc8eb851b00164f3dc85b78252434b36529a6); 0x2041815e6618f179bc156e190a599675bcfdecce0f386636e01b729840e27fc; 0xcbc0bbdfc404d8efa6c09cd32760f931ce73de682cd3b9a80c1bf6712fdcaa4; 0x420df687a5892bda194f9bd4bd18e0aaa43a02ce4d1448d1bf8c15280b2b998; 0xbdde0d84b94352b7c67917976fafa56928f4b8740049671a8f41637fcd331bf];
TD [0x56cd157067c5891faedb749fe7ec094bf66af495ae96381a1cd922c346c76a4; 0x2d6099d30f4fd409284ecf32423f8f7a95588ccdc7333252a2aa61a5b58ef465; 0x3e953da7f5de0f46bed91ead2b31074ae01ab1632feceb06383f5beb7f9cd81; 0x2652f9e535574316e1481a8520034877a510ac3f104945b09c68293a1450c6bc; 0xd6d1e0b2ecfbd316d8b36f95d9c2058e8a3f98db7596510a0d947074740cfde; 0xd0f7b2b63168559bcf85a987ff4b60622474508cb8ade37af38ac068cd436ec; (-0x1042742fa772fa76ec75707db96bd3b3d368fadf8822dd33bdad81a66b2a3e8d); 0x4b43b77e32217d5ea82e2bdc872f8066f6d42de3fc29c9a44b53c57d3ff44614; (-0x29f1455459c6182145091a614bf9729f11332c1d4fc728e4e0e8e694065ffb9c); 0xa2c9ba8d3473bb17098dfe6083d3c0169f1d0bd92f3664aea2986c299efcbc4; 0xc7d06dd479e2ebe7af0995458ee18063dd3648ff97c59238b803aa17f43ceb0; (-0x3f46a6b3b9759190855419289e237ca5fa10260f365f8987169371af2e12798)]].
Definition tSNARK2 : pt4 := (0x109f4f13644a4b5e241cd48f148a9f367ed50bd241c6f37220559445ca45bf78, 0x3336f82f2e2b6483aba59b74e3792f6a5af02a953711cb20e337147132ec059, 0x5d903c8d90b2b5dcb18e8e59a51ce95ea900127e6e2b0000fae21e39da094a, 0x16b032a6caac062a4e3e274e251afc83e51414261c0a50feeab21ef4054c81a6).
Definition sSNARK2 : list tstp := [
TD [0x28fe9bd47232cb3846f8305bee7151e9cf784b6cca9be51808247a961e9f3b1; 0x98a36c726d73cd508a9b68df81a8ffce6b5e782872a2e106c1e4e773b40336f; 0x2e88fea06d0ba7b44be45ee820777f37d83e6a30f5570816c9b6b68061d8587a; 0x139ed602e586f7fa0effe9ef08fc62279b32027da32a55ea5b3661dc2be36fe0; 0x147ef56c97b47377ab3b79872ae1661b78af3b1c57c1e68fb21cefc839bead2b; 0x1fc28ce0807dfb3531230e5dafd8463399644a6807e084337ac4780f53cdcd98; (-0x19668b9037b7be20fcf8a39ffdd4e6308496ed2ee75decf3bb5e989d0078ac8b); (-0x40ce4da48266f37a089e0e3a95bcc36d1a4928750498be57242a196a68f08a8); (-0x1beba08a37bcb270b1910b8d01e55cc79c6cff7d4f169b11e1a921ee2f46286); 0x1029c932faeb350bde6e192841513722e20505fa28ac71f140c78f2a7f015b4; 0x1a7352ea6e70d25af2c19fec361bd0035ceed578c9609919b1f35ad96a5e9be; (-0x6c42dfd793962ac5a83f7436475911e7eee54f70cb7ccb35e22c9cc12644b75)];
TD [0x6b421367c41b9cb3115a04556e69cd3f33f8d30baa55ad5d1609358e6ddd9b4; 0xe46b70fba4386f17457b71d69a561b7d212499adf102424dabaf66fe1e3c326; 0x199c0b9f01c944865a9034551625fc3d27d40756b64b7b810fce1d65e3b759bf; 0x2c6da6eedc3c9750e9fdeb6d8ce86d102bb2077194b51a2447339551fcdd9802; 0x14d9b54554077b17b9f75efae05a203d9f6c86457c68dd7758539f4c2d42720d; 0x16a6afc415f62c74ffdb562944f307cf251200a77becd3fcb7ad49292d90f780; (-0x7b71c5d6d6dd4592070a28ae6fc7d20714daa7c9be0c63800166f7abcae6c04c); (-0x5c50426ca1fa7990eb02c4b3a1125e1568b1c0aee1b007ff40806c4c1efe0224); (-0x34875099855226f12cd84f7b94e71f2486dc6966a5cf69e837b218300d46b81); 0x3f48fea7f7648ee6ab8c403c2c2f0c1a53f4cbcbbe5648d5e7d408260196fe2; 0xa37a9e7587b01ce7909a369d8b7ae3f5bf3d72a30ec1efba548710bffe3bb30; 0x2bc9aa92657bbaaed48f62841db03b6a8f979841c64c79bf7156db61ab4192e];
TA [0x93094f960c5d11698024d474a149a3a85d40d45a968df751e8d8d1a97baccec; 0x2502fd7d1c9b0aab79303a824ac52f9a314bbfa762ca8272a0c102aedc01559b; 0x1d9a602cd75835c4314d264bc2dcb5932ba85b7f9f556df1f822463d74c51590; 0x305cdff2f93ff3562e8a0e65e8e1e8ac3a8307249061abfe25ec39b4eccb62c9; 0x68c7324ff53f559b29945aa5c612801dc239f51809528213c87a6c50dd1f7b6; 0x1c56e8af989fc178461d2b27f37dd33556998496b8c9ba97d17df863c6ff1220; 0x1dd34c9a1daa107144adeb41f5b077042066ef0c9e19f4263ee0839d0043e04e; (-0xeb3f646590e5da92b5191e3b2960dd638059e6d834f5e6d0242ea85be8d8a19); (-0x1a90067ad951ee4e040e8ac65e5c6024e398527e81733c900fc53bed365abe70); 0xe0eaa95633007f03e0cf074edc65051c8156a8170bfa845d2a1e8ccb19f0a3c; 0x24036a903bbe1c1a0d5fa6e8ff94082ea8f159671aa05743019518789015782; (-0x3cd2ff7d50fee6df79368e0399256721857e3e7dfe61466e45c964d5059bce9)];
TD [0x27f49198e3d75b09497ee721bae2b115cbc9863d4fd0cf367eb0342c46d79f4d; 0x13121be7779b9cd3d7bb0ca854516c6adb065808d6659cde76a51bba086bae1a; 0x1a5e100a7d7352ac3e3c2c606f67625d515ca79d03d32feb617c312b043060e7; 0x20455e084706eee31f2bb7662532c4b4b1b350e448950303df16d2f48ce55cdd; 0x28282992c4091f3289b3f61bb0a4d0d7da78cd3eb1d54669cf4573cd756a239e; 0x2664922520f8d50374b1865a67abb47f4cb4fd1452a9e86a6bedd8c942e0f4c1; 0x4f26a1e6e2db3326bca150f851a7b1f0d764b0e635f34f68337ca53906a8e499; (-0x7d8d68e1db3986b3c1195bfdea8db7ea897dd19ddbb6f8c3b19826acd8cade98); 0x19795ca84a29b2ffe539f1cd9e2a14a19015d9859215a4d8fbd36b15714e7c92; 0x1f7df49a6b31a36736c68309562f6d5f7166b7d8f423c067869e3c943819d7a3; (-0x3ab8cb007753be40a193e982df14cc727a15a5946e393eac37eb5f62887f451); 0xe8fc175b7a1c5013c64bd8d5c7069cdc694ee01d6a0a62a1eb8d53d3a574013];
TD [0x13ceda5355ffaacdec758580ce3eff9daa140af4d31ebcbf55230a73bca39ba1; 0x18a32924207e90c074419e62f9c016e257e601e0b2c4307ffd63a88e0300f3c0; 0x1d4dabd492f8a048b903dcea2a58e9b5a5799e69ce5716785cb2f5af30b053d0; 0xe3a655686f90401955e436c0f9dd30725f485b0fcbcee0d6fd843d50f8f858d; 0x171624a0996b92130e9279d636da93dd886f6614e51b4b79fa7e6f7854cde94a; 0x270afa788b4a0e6d1854d4c969db2e5d8b637fda091b379a4bf4f5d89e88bc40; 0xf3deb1d62465b546bfcfa4e8df1072d5c43b6ad717ed9b38201a1711d4f039c; (-0x212e8586d373062aa810c7181e92b21a5fff3c5614a76a0859062c7f62f2b740); (-0x46f7bfc73b0c3390f3797316aa11ef9070171b5a5b2344a893eb80faaffbd3b); 0x142b5dd866707188df745f78fd09f321b5e16772cc17c6f0c8b8046e2b863e7f; (-0xa6345f25b045144b3dda568a257cc33901ecf096a147d67d227330b19b34087); 0x5e400e0c65d215b28914f7eb7c8afe9893d1b11e3bea0dce7c81ed0f0d02879];
TD [0xffd048d3010403519efc70899c5685b434f2d821c244dcf34c7e5bd5dd7d383; 0x29ae2c22329436bfc0fc77afa650f488c4dc383b061f640bdca6a022ccd7d771; 0x16aa0ddb42d16a2803d755e032239595cba55bd6433c3b07c46b46d50c15caae; 0x793f69885977850b7aacbc02f44c927247f2813e731d0a2ac0296b1548b690b; 0x171685dad51e45fd4465904bf60becf799c5841f46bfca1648d41cfa7c1f9751; 0x2cc600af6a4bf958ac07f32034b0a5d41f2c1e3082e508412f1a6ef099c43f71; (-0x5caf30eb8b4b0a11a9863a4cdbe00c5d6992d077cf9b0d501a29ff241d5ccb6f); 0xddfb03430ad727d0c5c4922d89e62220041ebb79f15d57e63d4826c6a64deec; (-0x1e9e04edfea75c221ab8c18545207f56daa64487faa29d70baf7e3a91c4d94aa); 0x1b8ab6e32a6b76bf6308d28929bf972a757722ffbc33fae9f9f5adbfc4f290f7; (-0x388c7902964d24b3eedb72cfc0f94775eae17917ee9c7ff5f01fc2dfd4b3131); 0x7ea5ec0f789e495f0148cd8c1412f2086b162902f322e65102a89785733e1f1];
TM [0x15a0c91fccbb7b0e08b1ad1aef42bbbdf0b235da04193393cd41d6191c8bd540; 0x21f099cc912c99bfad16504e9dfc0cb5d58129845d0bf5bf716a6cfb2c1b94c3; 0x12aec6e52325e8d93068860bc9a19bdd67907730a62dd3641ee964f59c690618; 0x81a9bd3e2aadef2d0fbe4ab05242e02a044091b4b8d42ffa138498043b29684; 0x1446fea09e90829a33f4a984b4f0777c284365547ecf69e0e6a984fecae27704; 0x270ba8bf1600c79fa7412359cca8916e49d930750bf48db3545e2511b346fec7; 0x5e9743d0c9d27522eac85143da17e6d446c9aec638b29b47a8050980c68247; (-0x6319f46db238f0a846b26927dfd145b23bb4377657fb499e1e4865a6423f59d); (-0xe2333cf9ae927a409906a17cd458627f29b43ca93235dacd4676c5b9e813481); 0x1e5681334fe0d35ff7689d45b84468feaf0570b061629b2309215f2f571b4fa8; 0x225fc8334085985852e4fab0fa1b2ea5ff7271a36bb2cd5a3eec7a812de33fa; 0x28eb27c7e88c54a5faddedec7595f5bbc12c156fb6cd9925338d1addb0ee9e6];
TD [0x46e1f4d3c3505859cb8ecd8be63162472a4b6c911f3487c238c73f7b944700f; 0x28a4f825a7d8c54aea4364dbd9b30b4c47d74a06dc9267f58dad118017ab1f6d; 0x25c26161cad4b67f27c9381a20a109962e919c39213d14910ed85b185d389a2e; 0xd51ff8fc6863b42f57a60686f24b9f0be4b003a28b08c14cd109b62804976e6; 0x15bd67ebf504f570a3f04f4989c51f962d896f03db771d6b3d1ae8b8abdf557a; 0x2c33c782e7eefd9c676097398e8742ae56dbd85dfe8717b3ae6ade2142f48d54; (-0x4f7185f520071bd796b69abba3106ea4c5d4b2b2f354af549d8cc1bd702e1302); 0x167054cad41f1224ea74b4c252e51f73efe93be316b9058c2651ae14a3c7eeb6; (-0x21bb55498731129b71aa9dd766b31c6fb54c3d0db30d02f933e85f9d4a9331ea); 0x7711aae4f9e0eb5a3d2ffad830c5273f7859b7a5b5f633c1ccb4a27b06f4a68; 0x2a2838b62cc8cdf1ce2cdfc19f9e161826893e4773894846f380842b223b37e; (-0x108000ae1876f7e6d09c409df5dd6e4c7ebcd9f867ae999bc6dfa8a47d368c91)];
TD [0x2cfd5ea1f67e10ab3212f500746ece1d87201c8760c50b0fe23411ec6e458a2; 0xf389448f0e9dc38bd414dd299849e3dc8d1f9ea0f32988558569616cba84f41; 0x20fd0d0e796e2d1c3b62f1251faa8aecdafcdab9f0f3de40ac2e26b922c62028; 0x27efb165d2b46d07c66b783f04ee0398ed0595d77ee6090a4ba86d4e65b98305; 0x879e518cd9be5132aa7578664893567d56181bf97267d34acf90fb536e329c; 0x293536e477728eeeb0954cf00f59c3e605c405f510fd490fb16a0f6e4d058867; (-0x66ab50e0fc023ed40fc37f75059c11e785096ddc6dd1c4db6a723aa8dcc28be0); (-0x2b8c7e494c0e1cafe8071f64f58dd69b7f65f5bc378cf95ce90004c5365556ac); (-0x49fca832abbc1c99a9d414b3d240755ffd4e4379ad52dfdc61420dd86df3bf7); 0x1c4d466692dab58e16e6152e3c0d33d6a68bda27c2699a91ac1cc054ff2d475; 0x8a61ff87d387f6bdb8398951967f9e8b5a488868a114fe16497d8daa3408d43; (-0xbc386c1b2fb39eff567055a45382d2a9d78be33293998b8fe2783839d4b15)];
TA [0x4161dd4bba166e67943645485687fbe825d5346561ed431f46bd54e283712ce; 0x25673b558bfbcf4e2745d88d3740b2080e2f4be4b4affece32b8e984acde7f5b; 0x2dcd4ae4d48377a479560c031da0747c284ce5dec5399704b916120ae765e918; 0x14df0484d97e688ff2ab2aa1733214a9cc4097e0b5bca077bb9069707e94a28; 0x6d8f87e3c9cf8e32fd445eabc971e156d3489c5b3a82585601b989a15d93139; 0x6226866bde5660504c774615710b5d9d1833c27e83d1ac5e6ddf85709ba9a5f; 0x1b02fcd3bd6fdb9ba4026310b10588640906b752f40324e12b3a2511eaa5397a; (-0xfc07d01aa2bc41af0e5de91ca7699395cde906d0df42a898b27b9d520c30791); (-0x1c909910632c231f8e051cb120a8d854177dc05dd07d8b1e1d177b59d79252cb); 0x65123a50700b5970451be430c5856fef5dade31ea9e1b4d09e449f39f61a2a2; (-0x1ef108e1647d94ca1e1e834e3f36aabbcdda3a46c4060acac32d00bea2596f5c); (-0x6a44067d4b3451be9f9d9bc9f627bd073f3d67e7103e7dec0884f52e95329c0)];
TD [0x4b28f5f07503379d3f3e7980c0e9dba515ca757c4556886db0979271261b3cf; 0x2ce1eb4c92aa81b8043a9e9aad7ad20703550dd28b16571bd5122d825f0b581d; 0x2a4bb059a76c0da61afcbf82da4735ecd076c52180dc2debda9b38f385e882cd; 0x159e7557f9697c955a1efa4f43581ea1161ea2c3f0630c19cbd4a3cd37b7e843; 0x2dcb306352b558bbbcdedbcf77a0a8a903df6970643ce31d500f89082aa086fb; 0x154c02e528812fa1ae52c6c2c60908e7e0b510310dceba8eea2e3f0cfb0a8c5b; (-0x8bff00330174b008d03ea93340ea7801234a730d77d1b0e7f90177700bc9c3e8); 0x67c2e6bee649b622cc55f6e473612ab278ac3f313593dec60a3018275df2594; (-0x292bf2630c3359a8713054bcf84273eb033e2cada5d31357f4838fd65a3da073); 0x8b6b40791d693ae9324b6873cd5b481cc438e14f3681988e63b6a360c70aa95; 0x132e84088f1a433a843618513776bcb2fd1969f48641da05c07f1917fc199b80; 0x147af3df78158db7fa3ae0f29442f3fcbad5337e27a5b2160eba128644d4190];
TD [0x174ec48269874c687259243e37435b45159d970307ca167d77da54cf00f73cce; 0x1babf53b783f9cded932a423ebe64343261dc216a9205ee41693a409d02a13d7; 0x198d776a1f9f4dde486ee7af48fe42c488c953d98690f527be5b45b634e2ecc3; 0x8102d56ac05f595445783179c0346aa2a98ea4d1b40d8573f1d3888f54f2be4; 0x1055198d6c3e651886e94dc5e13657a8a97e430511b9f48af76b4997b9ce8c57; 0x29fdf0e4778d47e15dcb85f900de3b16fee9d0dbadd359b700616090fbdcf38a; (-0x3e2bd9036519cf6a031790d321a9348f763208df6ec5ececba89dbc14b40920a); (-0x287c67e27a13f2e7363d52b0d872f673ad57a2d94e4d9fc1a6e3c4a5619def44); (-0x498ed8f354480c85a846daa2e7a56bb512d1284551844f4e07b87a18f1df886); 0x1aa7e8692e63ed0201a2adc51e53a653ea5affc22687c99ac0c7c974165b1e96; 0x500a5f7ee0e05f9174bc28afd924691dbd1de0a29a809056c48ff73d211507; 0x101a6b1574c78dad466b53b8dfb0e0dbeb1aee5b28999f8449b912e7d4bbacf5];
TA [0x2f41c771038fea40acfa88ce486c6ce0f4e816813b6ebf7517c00e0dd6f83d57; 0x12809890de422b2c3033982850141c4350c652b8d9c4b72b3fb9368a6933a224; 0xc0a45515e6dbe7cb585297b173b8b74c3a4e5594f50f5018758787dda85d785; 0x28ba8afa18d301c38aea91ef75e1fbf160a52dd88beb62179442deeac919f3e5; 0x2cec6921d2a8126dd3e0b747f01288c839e3bba75d71776791246f94cea1cdd3; 0x30102b690ee7ffb7feb3754090c79ccd3ff5a5deb0425818955a63025d6a4d63; (-0x6dc9fa51df8c80f3335cff3e3592aa210040846b0e4f3fc0182bd89d0cc5ffc); (-0x829a626d2ad860989af0504638b9c5d86aefab96733e4ac98f827e1c7420173); 0x27130e36632e3c36baebc15e5f85372da8aa9371cddddf42936e3c074b65abb7; 0x24230770b930884e9295b7f9da53b8803b042b0a4f47ccaa8d629785cc7733fa; 0x19af5f6f987644f0ba367a1b155b921460cc1188dfc15b0c73392ae1aa29bf94; (-0x1abba69057d121ec7f689f33312acd2ce0aac0c79870d0d2a3bd6616f6e2ec14)];
TD [0x12bc63244790a01853517c047beedd9a2072f2a8fc533d3a1946bc3baecc04e; 0x23e19bd0011f19c257a9512e298b980d49dd29fd358ee850cf059b57d1e1e94b; 0xe819b6b04b5c24c4dbb96439b5e0fe682d79b768d98c4a1cff3bf54c41e0dc0; 0x102f81b4410aed1e11ef5b29a95a14ae8d752eca4a44b5b1c015fef186dcf633; 0x25f3b11b46f14d750c4fd3a356b03281dc03278a43473fbe5f87b646de57e65a; 0xc879fcb467046f64e01f0bfcf40a76205f723985f7e4523282b423f70e9141c; 0x18bfc9de2d33749b89ec189ca266dd09af46e6dd199d02dda3cd60bd7700f49e; 0x824f185e75100ac06a3194dbf4b0d18e3e0fd400940656d139c5e8b3cc55ce0; (-0x1a93a31a5993c84c77fd1a4a520425421f1e9e92d78b0f02e771d983334c9a89); 0x1bc8cb491c7355737426de882647e302552a3f6a9468aaa844c86a5c8283611; (-0x1241fc66cdcd0052db50721ed8b07292e56cb261fba8ab06044e28034bef48cb); (-0x13c14e68e194d6c8745428a1c6915e299286262efe2034d5562f3865aa28e14)];
TD [0x2d69b5da707d417bab12f0cab4949e1a633fa93c00ebf835074bad0400b9afe6; 0x3a409ee54d454131d1021aa7552f486677567e8d77c148af06315dfe099e97c; 0x7a4920e4aa74868df0c4feb13de70609ebd415dfab3ab8c79d9fd8221208825; 0x57af8fcd8e8688e6c4d1f07b20dbb396412abf01849e913c7373b9bb26eba1a; 0x26b700a1cea8251069409a00af932fbaeeddd6732ea2ff3aa1237480d3840468; 0xffdb986899167ef7e6073bb40d85fe4ff6a886197bf2c41c9f69422e97fcf0c; 0x488a8d458d872513d0ce0592489db2acaa243efccdc9f819920e57e0f77bb7d5; 0x1dbeafebaa673830fd37f82cae84ed900acdb51305f0d99bac074908555a00; 0x2a57ef899ae0425c2b541360c98e8142795ce8e22721427e438122bcb3b01919; 0x6d55445ff93fc5a1627a22a5c4a0b7f0aaf21ffcc8ccc4ea146ecf7497d1930; 0x5a2b13a2311562a8ce5f9bf60de028a7bb03ebdd561766c2ce687920501387c; 0xa900636ddaa58c3e22c9704d71b1d15900606c1a79a59d393e7d0554743098e];
TA [0x1f67b9207f5408f691864ef50cba42d6020740f38c1fd667daf9f2c0d83c83dd; 0x10eace22cb316b66bfa924f57a30a823bd74ee32861af8c2f9045b8e64ecf27f; 0x2438cc53afc0c52dd005f91db956d9f1abf793ff3a0a19294107a136b0293d61; 0x5c73c81c779a0f4384e1582317d77c665d6b6327713ad2c5c41fab5e60c4347; 0x23d831678fb36f7da1b5e997bc3c634741c40f6cebe4802902a83936f104dbe3; 0x3b21d54caddb9948335fffb9a5349b0e5c42594e466e2cbc0e3714174572ba9; 0x69fd34fb9715036c99615b8f74a8c9704b9af55ebe6327a4dd7a2616bd4265c; 0x1a8e8e47877e90e59abe7164e8e40d505ec9c1023d7cb1371552c41244ad45a; 0xe77986af3934b7ad509aaeba45740ae971cd34dc97723d5da5eb4295c7309e6; 0x15f52f1ab21512b6bf66d3bd32b30fb8837ca1b63a5859691838c120c9ccce14; (-0x127166a14a27b5ed9e797478de49f093d51ef10f811210629fb2ad2506c9521c); (-0xa2f28f14b8fc57462b7cf807a6c195f20f69c88f801659699d45358f331a01e)];
TD [0x2f3b4e659e01d54ce6b3053ed6309d4d40afd47a590cf41f0bdc6d1b9fd399d1; 0x10530494537251a403c9b37e646b77126a5dc68ab4e2d21bf28559c5ba6f910d; 0xae8fb4f25e46d986cb0d20e7774acf1fc5b93eae7c583ebe9f11078c17b919; 0x23d51942aa589ec995fb82ca0d6f6898f3b6966ce70aee5774e1a5e9b7366728; 0x2d47cad2c5fad32c113511eaefee8e41baca50075a1bed9f3448cf04a32d7419; 0x215abc16ce4f394c19457d703aaa4b6d333d19444139570ce5ee4bad11ace6ba; (-0xbca6eec3219795dd83329bbf619645327b58433d55bcb2f2cda90bc983876ac); 0x5726bb0f2f7ef55b80ced59a3a5d01e4eca43d4fd17e8cbb34bdf37728354ba; 0x2897b1cb7172e6378057209a9ff77d11a78c10e620277b2331221538f077bb7b; 0x1fdda8827788e8856e7b1990245505f6ac6166b465927b7c003c75db347b225c; 0x2cd387215272a19d928d22ad919efbd685b21daa3ecd9f70421b68cdd42a0c7f; (-0x11583f738352375861e79b414057aa01bbf435723325f06995726db288defc34)];
TD [0x2c00cd819cffdab1c894b46df79c32476fea2ff2fc3d54c4dc13426fbbd3f531; 0x27f9e4a6ada91c5801995106a9f5640b844acc9719b58fbf809c0a05bc885e95; 0x109f4f13644a4b5e241cd48f148a9f367ed50bd241c6f37220559445ca45bf78; 0x3336f82f2e2b6483aba59b74e3792f6a5af02a953711cb20e337147132ec059; 0x3006be3653a0ed73db9eb72827dc3b7438d86a7eea039f8d3b25a9f89ea2f3fd; 0x19b41bcc168599ff6a121e685c665bd9b26d566b4c67798e516e6d22d3307ba1; 0x6acf263698137777d17268e8cc398809eedbf54bd703ce2d8bf4620f55a4392d; 0x8470f5e7bc6c00524e7e9354038286a7873e1c25aa262bb4dcb5bd80c1690932; 0x6fd0afc39eaa9014a613344cda26f250559aa2226bdeeef72f4bca543cb7012; 0x48b38c9e95b8d42394f0dc18fc9398296ef2d9ec0da55de61b6ac4a48761b117; (-0x2973907caf1a7156c7ffa91c9818e71cf24c4d685b23a26753518b66dd1c1e40); 0x1080fca6777449c6d30c17a251e0e31bb6a49f4dd4a86ca1a5f85975b785b1bf]].
Definition tq (c : cfg) : Z := match c with BNb => 13 | _ => 10069 end.
Definition tP (c : cfg) : pt4 := match c with BNb => tBNb | SNARK1 => tSNARK1 | SNARK2 => tSNARK2 end.
Definition ts (c : cfg) : list tstp := match c with BNb => sBNb | SNARK1 => sSNARK1 | SNARK2 => sSNARK2 end.
Definition neg4 (A : pt4) : pt4 := let '(x0, x1, y0, y1) := A in (x0, x1, - y0, - y1).
Section Chk.
Variable p : Z.
Definition eqp (n q : Z) : bool := n =? p * q.
Definition inr (n : Z) : bool := (0 <? n) && (n <? p).
(** certificate check of a doubling *)
Definition dchk (A : pt4) (h : list Z) : option pt4 :=
  let '(x0, x1, y0, y1) := A in
  match h with
  | [l0; l1; u0; u1; v0; v1; q0; q1; q2; q3; q4; q5] =>
      if inr y0 &&
         eqp (2 * (l0 * y0 - l1 * y1) - 3 * ((x0 + x1) * (x0 - x1))) q0 && eqp (2 * (l0 * y1 + l1 * y0) - 6 * (x0 * x1)) q1 &&
         eqp (l0 * l0 - l1 * l1 - 2 * x0 - u0) q2 && eqp (2 * (l0 * l1) - 2 * x1 - u1) q3 &&
         eqp (l0 * (x0 - u0) - l1 * (x1 - u1) - y0 - v0) q4 && eqp (l0 * (x1 - u1) + l1 * (x0 - u0) - y1 - v1) q5
      then Some (u0, u1, v0, v1) else None
  | _ => None
  end.
(** certificate check of an addition *)
Definition achk (A A' : pt4) (h : list Z) : option pt4 :=
  let '(x0, x1, y0, y1) := A in let '(a0, a1, b0, b1) := A' in
  match h with
  | [l0; l1; u0; u1; v0; v1; q0; q1; q2; q3; q4; q5] =>
      if negb ((a0 - x0) mod p =? 0) &&
         eqp (l0 * (a0 - x0) - l1 * (a1 - x1) - (b0 - y0)) q0 && eqp (l0 * (a1 - x1) + l1 * (a0 - x0) - (b1 - y1)) q1 &&
         eqp (l0 * l0 - l1 * l1 - x0 - a0 - u0) q2 && eqp (2 * (l0 * l1) - x1 - a1 - u1) q3 &&
         eqp (l0 * (x0 - u0) - l1 * (x1 - u1) - y0 - v0) q4 && eqp (l0 * (x1 - u1) + l1 * (x0 - u0) - y1 - v1) q5
      then Some (u0, u1, v0, v1) else None
  | _ => None
  end.
Fixpoint tchain (T A : pt4) (n : Z) (hs : list tstp) : option (pt4 * Z) :=
  match hs with
  | [] => Some (A, n)
  | TD h :: t => match dchk A h with Some A' => tchain T A' (2 * n) t | None => None end
  | TA h :: t => match achk A T h with Some A' => tchain T A' (n + 1) t | None => None end
  | TM h :: t => match achk A (neg4 T) h with Some A' => tchain T A' (n - 1) t | None => None end
  end.
End Chk.

Section T.
Variable c : cfg.
Local Notation p := (cp c).
Local Notation KK := (K2F c).
Local Notation K := (K2 c).
Local Notation onT := (on_curve KK (cb2 c)).
Local Notation "A +++ B" := (ec_add KK A B) (at level 50, left associativity).
Local Notation zm := (zmul KK).
Local Notation ZL L := (L KK (cb2 c) (two2 c) (three2 c) (cb2_nz c)).
Definition ee (a b : Z) : K := mk2 (mk p a) (mk p b).
Definition P4 (A : pt4) : ecpt KK := let '(x0, x1, y0, y1) := A in @EAff KK (ee x0 x1) (ee y0 y1).
Section R.
Add Ring KR : (rth K).
Add Ring FR : (rth (FpR (cp c))).
Local Open Scope r_scope.
Lemma ee_add a b a' b' : (ee a b + ee a' b' : K) = ee (a + a') (b + b').
Proof. unfold ee. cbn [radd K2 quad qadd a2 b2]. rewrite !mk_add. reflexivity. Qed.
Lemma ee_sub a b a' b' : (ee a b - ee a' b' : K) = ee (a - a') (b - b').
Proof. unfold ee. cbn [rsub K2 quad qsub a2 b2]. rewrite !mk_sub. reflexivity. Qed.
Lemma ee_mul a b a' b' : (ee a b * ee a' b' : K) = ee (a * a' - b * b') (a * b' + b * a').
Proof.
  unfold ee. rewrite mk_add, mk_sub, !mk_mul. generalize (mk (cp c) a) (mk (cp c) b) (mk (cp c) a') (mk (cp c) b'). intros x y z t. change (car (FpR (cp c))) in x, y, z, t.
  apply F2_eq.
  - change ((x * z + (- (1)) * (y * t) : FpR (cp c)) = x * z - y * t). ring.
  - change ((x * t + y * z : FpR (cp c)) = x * t + y * z). ring.
Qed.
Lemma ee_eq a b a' b' q q' : (a - a' = p * q)%Z -> (b - b' = p * q')%Z -> ee a b = ee a' b'.
Proof.
  intros H H'. pose proof (cp_pos c). unfold ee. f_equal; apply mk_eq.
  - replace a with (a' + q * p)%Z by (rewrite (Z.mul_comm q); rewrite <- H; ring). apply Z.mod_add. lia.
  - replace b with (b' + q' * p)%Z by (rewrite (Z.mul_comm q'); rewrite <- H'; ring). apply Z.mod_add. lia.
Qed.
Lemma ee_1 : (1 : K) = ee 1 0. Proof. reflexivity. Qed.
Lemma ee_opp a b : (- ee a b : K) = ee (- a) (- b).
Proof. unfold ee. cbn [ropp K2 quad qopp a2 b2]. rewrite !mk_opp. reflexivity. Qed.
Lemma ee_nz a b : inr p a = true -> ee a b <> 0.
Proof.
  intros H F. apply andb_prop in H as [H1 H2]. apply Z.ltb_lt in H1, H2. assert (E : mk (cp c) a = mk (cp c) 0) by exact (f_equal a2 F).
  apply mk_eq in E. rewrite !Z.mod_small in E by lia. lia.
Qed.
Lemma dbl_gen (x y l x' y' : K) : y <> 0 -> l * ((1 + 1) * y) = (1 + 1 + 1) * (x * x) -> x' = l * l - x - x -> y' = l * (x - x') - y ->
  @EAff KK x y +++ @EAff KK x y = @EAff KK x' y'.
Proof.
  intros Hy Hl -> ->. cbn [ec_add]. destruct (fdec KK x x) as [_|N]; [|contradiction N; reflexivity].
  match goal with |- context [fdec KK ?u ?v] => destruct (fdec KK u v) as [F|_] end.
  { exfalso. change (y = - y) in F. assert (T : (1 + 1) * y = 0) by (transitivity (y + y); [ring|]; rewrite F at 1; ring).
    apply (field_integral _ (K2_field c)) in T as [T|T]; [exact (two2 c T)|contradiction]. }
  assert (L : rdiv KK ((1 + 1 + 1) * (x * x) : K) ((1 + 1) * y : K) = l).
  { apply (rdiv_eq KK); [|symmetry; exact Hl]. intros T. apply (field_integral _ (K2_field c)) in T as [T|T]; [exact (two2 c T)|contradiction]. }
  unfold ec_chord. cbv zeta. change (rdiv KK ((1 + 1 + 1) * (x * x)) ((1 + 1) * y)) with (rdiv KK ((1 + 1 + 1) * (x * x) : K) ((1 + 1) * y : K)). rewrite L. reflexivity.
Qed.
Lemma add_gen (x y a b l x' y' : K) : x <> a -> l * (a - x) = b - y -> x' = l * l - x - a -> y' = l * (x - x') - y ->
  @EAff KK x y +++ @EAff KK a b = @EAff KK x' y'.
Proof.
  intros Nx Hl -> ->. cbn [ec_add]. destruct (fdec KK x a) as [E|_]; [contradiction|].
  assert (L : rdiv KK (b - y : K) (a - x : K) = l).
  { apply (rdiv_eq KK); [|symmetry; exact Hl]. intros T. apply Nx. change ((a - x : K) = 0) in T. transitivity (a - (a - x)); [ring|]. rewrite T. ring. }
  unfold ec_chord. cbv zeta. change (rdiv KK (b - y) (a - x)) with (rdiv KK (b - y : K) (a - x : K)). rewrite L. reflexivity.
Qed.
End R.
Lemma eqp_ok n q : eqp p n q = true -> n = p * q. Proof. apply Z.eqb_eq. Qed.
Lemma ee_2 : (radd ro ro : K) = ee 2 0. Proof. rewrite ee_1, ee_add. reflexivity. Qed.
Lemma ee_3 : (radd (radd ro ro) ro : K) = ee 3 0. Proof. rewrite ee_2, ee_1, ee_add. reflexivity. Qed.
Ltac certs B :=
  apply andb_prop in B as [B C5]; apply andb_prop in B as [B C4]; apply andb_prop in B as [B C3]; apply andb_prop in B as [B C2]; apply andb_prop in B as [B C1]; apply andb_prop in B as [B C0];
  apply eqp_ok in C0, C1, C2, C3, C4, C5.
Lemma dchk_ok A h A' : dchk p A h = Some A' -> P4 A +++ P4 A = P4 A'.
Proof.
  destruct A as [[[x0 x1] y0] y1]. unfold dchk.
  do 13 (destruct h as [|? h]; try (intros H; discriminate H)).
  match goal with |- (if ?b then _ else _) = _ -> _ => destruct b eqn:B end; intros H; [|discriminate H]. injection H as <-.
  certs B. cbn [P4]. apply (dbl_gen _ _ (ee z z0)).
  - apply ee_nz. exact B.
  - rewrite ee_3, ee_2, !ee_mul. eapply ee_eq; [etransitivity; [|exact C0]; ring|etransitivity; [|exact C1]; ring].
  - rewrite !ee_mul, !ee_sub. symmetry. eapply ee_eq; [etransitivity; [|exact C2]; ring|etransitivity; [|exact C3]; ring].
  - rewrite !ee_sub, !ee_mul, !ee_sub. symmetry. eapply ee_eq; [etransitivity; [|exact C4]; ring|etransitivity; [|exact C5]; ring].
Qed.
Lemma achk_ok A A' h A2 : achk p A A' h = Some A2 -> P4 A +++ P4 A' = P4 A2.
Proof.
  destruct A as [[[x0 x1] y0] y1], A' as [[[a0 a1] b0] b1]. unfold achk.
  do 13 (destruct h as [|? h]; try (intros H; discriminate H)).
  match goal with |- (if ?b then _ else _) = _ -> _ => destruct b eqn:B end; intros H; [|discriminate H]. injection H as <-.
  certs B. cbn [P4]. apply (add_gen _ _ _ _ (ee z z0)).
  - intros F. apply negb_true_iff in B. apply Z.eqb_neq in B. apply B. assert (E : mk (cp c) x0 = mk (cp c) a0) by exact (f_equal a2 F). apply mk_eq in E.
    rewrite Zminus_mod, E, Z.sub_diag. reflexivity.
  - rewrite !ee_sub, !ee_mul. eapply ee_eq; [etransitivity; [|exact C0]; ring|etransitivity; [|exact C1]; ring].
  - rewrite !ee_mul, !ee_sub. symmetry. eapply ee_eq; [etransitivity; [|exact C2]; ring|etransitivity; [|exact C3]; ring].
  - rewrite !ee_sub, !ee_mul, !ee_sub. symmetry. eapply ee_eq; [etransitivity; [|exact C4]; ring|etransitivity; [|exact C5]; ring].
Qed.
Lemma P4_neg A : P4 (neg4 A) = ec_neg KK (P4 A).
Proof. destruct A as [[[x0 x1] y0] y1]. cbn [neg4 P4 ec_neg]. f_equal. symmetry. apply ee_opp. Qed.
Lemma tchain_ok T hs : onT (P4 T) -> forall A n A' n', tchain p T A n hs = Some (A', n') -> P4 A = zm n (P4 T) -> P4 A' = zm n' (P4 T).
Proof.
  intros HT. induction hs as [|[h|h|h] hs IH]; intros A n A' n' H E; cbn [tchain] in H.
  - injection H as <- <-. exact E.
  - destruct (dchk p A h) as [A1|] eqn:D; [|discriminate H]. apply (IH A1 (2 * n) A' n' H). rewrite <- (dchk_ok _ _ _ D), E.
    replace (2 * n) with (n + n) by ring. symmetry. apply (ZL zmul_add). exact HT.
  - destruct (achk p A T h) as [A1|] eqn:D; [|discriminate H]. apply (IH A1 (n + 1) A' n' H). rewrite <- (achk_ok _ _ _ _ D), E.
    rewrite (ZL zmul_add) by exact HT. rewrite zmul_1. reflexivity.
  - destruct (achk p A (neg4 T) h) as [A1|] eqn:D; [|discriminate H]. apply (IH A1 (n - 1) A' n' H). rewrite <- (achk_ok _ _ _ _ D), E, P4_neg.
    unfold Z.sub. rewrite (ZL zmul_add) by exact HT. rewrite (ZL zmul_neg) by exact HT. rewrite zmul_1. reflexivity.
Qed.
(** the object *)
Definition tobj : F3 fp2 := let '(x0, x1, y0, y1) := tP c in mk3 (mk2 (rr c x0) (rr c x1)) (mk2 (rr c y0) (rr c y1)) (f2_1 c).
Lemma tobj_wf : wfP G2 c tobj.
Proof. unfold tobj. destruct (tP c) as [[[x0 x1] y0] y1]. split; [exact (proj1 (i_1 _ _ (impl2 _)))|intros _; split; split; apply can_rr]. Qed.
Section GP.
Add Ring KR'' : (rth K).
Lemma one_mul (x : K) : x = rmul x (rmul ro ro). Proof. ring. Qed.
Lemma one_mul3 (x : K) : x = rmul x (rmul (rmul ro ro) ro). Proof. ring. Qed.
End GP.
Lemma tobj_pt : ptP G2 c tobj = P4 (tP c).
Proof.
  unfold tobj. destruct (tP c) as [[[x0 x1] y0] y1]. assert (R : forall a b, rep2 c (mk2 (rr c a) (rr c b)) (ee a b)).
  { intros a b. apply rep2_can2. split; [split; apply can_rr|]. unfold f2v. cbn [a2 b2]. rewrite !fv_rr. reflexivity. }
  rewrite (ptP_def2 c (mk3 (mk2 (rr c x0) (rr c x1)) (mk2 (rr c y0) (rr c y1)) (f2_1 c)) (ee x0 x1) (ee y0 y1) ro (R _ _) (R _ _) (f2_1_rep_ c)). cbn [P4].
  rewrite (one_mul (ee x0 x1)) at 1. rewrite (one_mul3 (ee y0 y1)) at 1. exact (jac_aff KK (ee x0 x1) (ee y0 y1) ro (field_nz _ (K2_field c))).
Qed.
End T.
Lemma tobj_valid c : isOnTwistECJac3 c (bxi c) (tobj c) = true.
Proof. destruct c; vm_compute; reflexivity. Qed.
Lemma tobj_on c : on_curve (K2F c) (cb2 c) (ptP G2 c (tobj c)).
Proof.
  destruct (paramInit_ok c) as (P & _ & HP). apply (isOnTwistECJac3_ok c P (tobj c) HP (tobj_wf c)).
  rewrite (rep2_inj c _ _ _ (binvxi_rep c P HP) (bxi_rep c)). apply tobj_valid.
Qed.
Definition tend (c : cfg) (o : option (pt4 * Z)) : bool :=
  match o with
  | Some (x0, x1, y0, y1, n) => let '(a0, a1, b0, b1) := tP c in (x0 =? a0) && (x1 =? a1) && (y0 =? cp c - b0) && (y1 =? cp c - b1) && (n =? tq c - 1)
  | None => false
  end.
Lemma tchk c : tend c (tchain (cp c) (tP c) (tP c) 1 (ts c)) = true.
Proof. destruct c; vm_compute; reflexivity. Qed.
Lemma tq_r c : rel_prime (tq c) (cr c).
Proof. apply Zgcd_1_rel_prime. destruct c; vm_compute; reflexivity. Qed.
Section E.
Variable c : cfg.
Local Notation KK := (K2F c).
Local Notation ZL L := (L KK (cb2 c) (two2 c) (three2 c) (cb2_nz c)).
Lemma tobj_q : zmul KK (tq c) (ptP G2 c (tobj c)) = EInf.
Proof.
  pose proof (tobj_on c) as HT. rewrite tobj_pt in *. pose proof (tchk c) as H.
  destruct (tchain (cp c) (tP c) (tP c) 1 (ts c)) as [[[[[x0 x1] y0] y1] n]|] eqn:E; [|discriminate H]. cbn [tend] in H.
  apply (tchain_ok c _ _ HT) in E; [|symmetry; apply zmul_1]. destruct (tP c) as [[[a0 a1] b0] b1] eqn:ET. rewrite !andb_true_iff, !Z.eqb_eq in H. destruct H as [[[[-> ->] ->] ->] ->].
  assert (N : P4 c (a0, a1, cp c - b0, cp c - b1) = ec_neg KK (P4 c (a0, a1, b0, b1))).
  { rewrite <- P4_neg. cbn [P4 neg4]. f_equal. apply (ee_eq c _ _ _ _ 1 1); ring. }
  rewrite N in E. replace (tq c) with (tq c - 1 + 1) by ring. rewrite (ZL zmul_add) by exact HT. rewrite <- E, zmul_1.
  rewrite (ZL z_comm); [apply z_neg|apply ec_neg_on; exact HT|exact HT].
Qed.
Lemma tobj_nz : ptP G2 c (tobj c) <> EInf.
Proof. rewrite tobj_pt. destruct (tP c) as [[[a0 a1] b0] b1]. discriminate. Qed.
Theorem tobj_r : zmul KK (cr c) (ptP G2 c (tobj c)) <> EInf.
Proof.
  intros E. apply tobj_nz. pose proof (tobj_on c) as HT. pose proof (tq_r c) as RP. apply rel_prime_bezout in RP as [u v Huv].
  rewrite <- (zmul_1 KK (ptP G2 c (tobj c))). rewrite <- Huv. rewrite (ZL zmul_add) by exact HT. rewrite !(ZL zmul_mul) by exact HT.
  rewrite E, tobj_q, !(ZL zmul_O). reflexivity.
Qed.
End E.
