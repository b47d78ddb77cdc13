(** * PNG files of the repository, byte for byte, written by tools/gen_png.py

    Two hexadecimal digits for each byte. *)
From Coq Require Import String.
From Verif Require Import Prim.
Local Open Scope string_scope.

(** codegen/src_data/small.png, 4084 bytes *)
Definition small_file : list string := [
"89504e470d0a1a0a0000000d49484452000001a2000001a2080000000080609db300000002624b474400ff878fccbf00";
"0000097048597300000b1300000b1301009a9c180000000774494d4507e40a0b0e2e3362f929a400000f854944415478";
"daed9ddb6ee4300e44cdc5feff2f731fb299a43b2625d2f4a5a94360804114b7d50e4bbcb854da360cc38e996c9b9a43";
"8c3c61e43f78e9d3adf19f48e4ebdf27ce7b913f5117fb6fdfafa69b1567ed95df1fbb2839789b03285a1745f2cf9367";
"47e497f7d7f8b6989f2526be72f78a5f23e6b3d14d5e4641d1aa28faf682bfbe628f6cee485d8cb06394751ff935b7fd";
"6bb56ce5d1ffa3fc671ea0888c6e0f4392c08506239e177324e4f7df73d65fff3b1a8bf6629ebc44e49f7150048a2cef";
"8e62c24357cc8725718d8ffa789cf43eedfde98022501445446d95be99195a740e5e64f3e2e4fcb7d2b7684446078a46";
"de727e2f4c4dc46862befaf2bf192c69f2c9bcdf0514ad8a2235b2b3aff5bc3ae66451118f915af2797694fcea2b6c74";
"ba4191bb12ab59fd68f17d3cbfbf3b13b5eba2bf23a0888cee7c1fee66efcf07146118d6de1ab351df33c74f99f5fb5b";
"24621119dd7dcb830e3cf7a9f91c7511287a9237c6abb078b78dba083b8ea2cacc26e3f79155fdf7dd6d1e4f15b3349d";
"626f74ba8945bfbde189399826b12ac3aefa397928285a17456ae248120c6d8f3360f9719c8daac98cee5cdc8322eaa2";
"baf8e1e560719f97d0fb58b9b16a0245a068cf1fe33c3a29bd8f94a1786ec6c7f61d82a2fe28d2e41512c88d3211a78e";
"8d7ace73999f0328ea8f2229eda9d91ccd68f535aed8e291e5fc8c4ee9d1118b2646462c5149dc4512f7a98c2c5a8a23";
"621175d1f519627703451886b537b4511f38222f1c5a62519f8c4ec8b52e5bd860a3f64491b4f7d5b3ee91d107a22eea";
"892275deef489102aa37925346b5bb1595aa5895188247d73ba3db0e7bc3eb5a1b1ba99d81cff49184baf799068a3a65";
"7496df5fa10f62bdef942183348208f9a7ef5b110fb5e83980a23e195d5ded11d7c1f7786c6744880886e4a475031491";
"d1799e57ab69af97cc5c87df868c0e145d87a17117436f9b87a7daaad445d8e5dd8551972e7bf6490c115b91a6bd0c10";
"5975ba126c545034e355e3112df9b4d1b90cb14fbc2e0ac14605454fb267b32dd8a5876118f63be1efcbebb4399e9f34";
"6b6251978cae56298e8cce9f35678cf74491bd0b556eec0147ebf433f1b5df4594d4f9b570ba3bc7a2fd9f8afbfb914e";
"7765c4f338053ae02268316ae3f113366a471479de18e395da2cd16a6d544d8c65b9de12d4958c1828ea83a2bd35dad7";
"9693941f6f2135d36cfcaa3d157c3e3b0345abd74531df8a2b37aac376d04164abc9cdfc39eb6efc3c9f1b048afac4a2";
"e85a9bc9cefc6ba2cada95a7ad5af3d20b760183a2de283a9231d97551ec337367a5c4673f7f9a3128024535e69d249e";
"1d8976f5720aa856c7ba5a1975bff3001b1514e5bb07d9911c4f359e03e6fa2435cf0d14ad8b222c1e89c8e8300c5b76";
"516ccb467def427fcaacf56d8458d425a3fb3c36ea57ce7415c34f4e3cd31914754191cf467da2f9bc01b98c0981362a";
"287af5aefd9fc732981117d5f662096acbf9a7c15ec3f1f3de8acdce0014f58e459e0ae2e69c7f672b44ca65a745c67a";
"d75ac42cfdf914768c138b465ef7a35a3a9bfd67ef9fd3be12874fe4bd7515732cf6064a38d775d15864799d94e9d3fb";
"799194e07126ffdae314d47080f44ffc1e5f0b8abaa068ec15fbd1e3dede43942baa030dbd0a0ed02b8e66f24450d41b";
"459266743fb9b3178d4555cf0c14ad89224dec223aa2731aafb162d1e87c6c7fdfe17bceef73878dba6e4617a9a67267";
"dec7afd2414517cbe8b6ade69db30ee7071b753d146dcd4e7badd2dbae34508461587b1bb251f7deb54b633dd5ab46e6";
"755b89459f9ed1c9472f10fad85e20fb8b5642d14f8febf3f47aabce553d8e97637303459dbb0be2d4e536b3d4d62cad";
"5675f478aff7472978746b65746228b1e9e629c5651511aabd3472327afd3e2a41d51114fda980e73973b5fe284e54c9";
"f8aacf4297d0bdbc3d189aa88bd8a5d733a31347dd6a9fbde0efa1d952bb749e5999fd3065cf9a1d28ea5517fdad84bc";
"75b832a393c7a0458dd524f20c7c7d7350d411453fdcaf776fb6f710c9e92a6d6798a6942033b148036b0328ea158bf6";
"fc675fb75413a71465b451d5d9519ba9cc74589bbdaf0f7a3aca41510714e9e0ff31ee66dd692cf99123fa24959cd4b9";
"27078a1e6ffc89f813611886dd6db051b76728a0c246ed5b17c146bd7f66a0e8d351a4c3f7f9cfdda7e7f17ceec5574c";
"b715147d3a8ac66baaafd6ab66748bb3516388f5754e7d85e1bff3ab3e01cc7a067bb303451d323a49e8238ef5817288";
"3d3b467dc7df9806507c4403b303459f9fd1fdf5b1d77c4f4ff6f9573447e39787952baaac8aa7008a7a6474f26f8594";
"5dcf8aabdadb8ac031b5e09c7eb6cdc0964424f49fc066e6b5741756ac8bc4c096384a56b19d474fe84848e167d5c428";
"50d401453efba5b2df95cb99eeed66fb6b09bbf440919f87fc7044f7389a779fbe573b0375723049c49cc8dc40510714";
"d991481d6fa95339cd8ef83fafea13680a93c4a256c69f883f118661d8dd2623858d9f0c04366aed88ad94fa7a0db1e8";
"d3eb22dd3e9b91fae4e58bf745aba048127ff54ff0d4ccb7a97d02f31a5ba0a87f2c1a9d2f3ecb6a98cb6fcec6503547";
"3d3a87bdb76fa0a84b2c92a40a8898de737e6c8bf7c6a5ec14641b13e339a3bbd03116f93ea1c91c48777d34c6caf3e3";
"97ff9e540be6ec63cf63357066c44a283aab26caec1512233a8c75c423112797b38983f0a31c2550d403459b999f65b1";
"a72e266af239495fa78731f4fb73f6a324daa86ba1c8d646bddf74a0c12f27e3e8eb77d5c191cf782716ad178b2a6384";
"26aea989453aa88be273f37174d440510714e9642f61ae168fed96fe3d22896be233d3045eb7e01c623aaba088587447";
"37a29781220cc3da9b6cb0441f3e422c225dc07690215ffff81351178dd7d1bbc36c5c43cfaefa6bdf6545aa3c50d401";
"457e675a82a775fb9aa5fe48d457638cb899fd53711c4b481f76efb981a21eb1c866cc8c541def8d53915ef7ef3d896a";
"9cdf5ac12d8dcf0c14f5c9e8ce57acf2fc549c3ccb426b868dea73bab7102baf6a2501459f8f2249f9c1f85cd7680eb6";
"05593639366afcbd94c75df09f2a7b5dd741911eda176a6ba34a5105ef690fe7724029c2d19847078a56cbe8ceaf707c";
"95d178051f63a3ea2fd66d7c06673e1f50d403455e1de14782fb901767a3aadb3bcb6048c31d4c50d415452335d358ce";
"32565ab54634f469956aaae3a793db4f4f2c5a2da3abf28975ac8a410b8a300c5b61c184f179fd88fc39371636eada19";
"1de6751ea27d0732baf550f46cc5d4e8a9b3991edda8628c7532f63a7ea0a83b8a72bd5c09b379327895a0165c351bd5";
"d700da7f3a7b5d7850d43fa3d3533964a3b53b13097c3edc96e0f3547e1bd8a83d5174153fdb674dcb056c54199c2019";
"c37395be1e28ea80a2dc9e80b395e0e6b05fa58daa87aeda020807455d33badcd9dfef6bf8b5f12baf617745bf0436ea";
"7a289283ccee3b2cc7467dc2de4250d4b72ed2f06ed7ab56f5e8ce884a36eaef3c2fa6ef3d7f1f50d4a32eb27d4b52cc";
"4e2d1da9fbacf19cd5f9e93c231636ea8a19dd56e8dbd5795b7f362c28c230acbd4db35167cf9567448a9f28b1a84b46";
"27ec222a7e0ab051d7431118aa5e49d0465d0b45d52c51ebba519fb9ea84effdbef4ebdd6b11e3735f4723a0a84b2cca";
"e02bb73a4b593cf4d8a8f619e7923e11b62a8629b1a8218a462c1b298b1efe1519c5ebf81b612dc6116c5450f4dbb3ec";
"b1aae89163eb799966868d7a762e078ac8e8fefa48e66cfb3a8ff3ce85c86780f0e8b0ab5074bfcf8d3029373f5e94b4";
"40d1193e3ed6c18f76e2f6af89b3519f6aa0a80b8a723e17e3626ad91d46634f4010ef8bfaa1481ee7657f238ede3c83";
"bbee0f8a300c6b6f68a36e57ea9c5afc53d8a87417d6362dd4cadb431428024557d43ff67bd7e848ae32f2f5b7e635f1";
"f6e7068a7aa0e88c1d0112e8e0f9f7afc650fcaa4aad5725162d188b6a19079579d6163a2b7cc6bba351f55b69353ef3";
"c49f6885cdf34b667451b5f95ae465d9a85e25335fe3d42954065ee9b199f2035124039fbc024312387d613432ea21e4";
"62d15123a3eb8da2dcf2575dd947f5e88e7c5b1b2defb3d0b2dd5764746b67747538d2d44ed7ad749f9085246b7761d5";
"39eb6ceaef8fa278f7ec1a1c55b351ab597e6474aba1e80cd58e085b40dd2bec9cee09dfe7f81c40d1ca199d94aa02af";
"9bcc80220cc3da1b6cd4ed381bf535abacbe0fb168e58cee010bc405b9de8ffe56fc2a4e5e590745d7bd10af7c1febbf";
"5bad3db5594fbd6a12452278f3835154fbfeb24e4b7566d6510c791cd6ad54bd68fe9aa9858ef7458fcfe8f422e69b96";
"c6bdec5963f1c8766e24ffef91af8a3d0645d5fb71eead8ba498b819df331133eaa275eb2249beedaff2ee5aace4f80e";
"821e1d283aec7777c6a26a36aab79fd5522b57621128ba054755e8ab65a37aaafade59178ada3d289aca66a27a04354c";
"e77c2cca44293d300f621128aaf6784dfe462527efd96c547417d6cbe8eedfa4dcabcd2b9c028661d87a061b75bb838d";
"1ad1532516f5cfe85886326cd448ef0e14f541d135f54ffcdde63dac9cd7aaac723739daa87d5154cb28b03f33738ee4";
"552a4496efe73af7f30aaca0a80b8ace5018bed3a29a2bb62a96a797953bed991e5d47146574d5c4f457fdb7de4ae8b3";
"e24cb6381b5586b57f2c8ac1000245f358d1d05a9f51d1f27c5fcb1450eb457a610081a2f7e8318f15717fa7b64f2165";
"2c85916272eddc4011b1e8aa3aea4a2ff6d48a336ac1ec8c0045d5f9fdd5fd033123a104d12f0e3274a83d0c8a40d179";
"314a07fefafa7b963eaaaf625c1329f584fc146dd4b55074a534462573bbcb613ea008c3b0f6061bf5b691118fe37b84";
"58445d841dcd374111287aa2a73ea162a2bbb05a77414b3ddbe308e458a21a62b1f9fa71312f9701326c16d2fc3d40d1";
"bab128bb6321fe5e5382a780d97b19a2f71fbd8b1dfd7cee5ea0a8078a7227388aa943228e42496ce5f676f7546aa37e";
"47bc2dc8c8add03b02453d5074dd59e275338863457efd53f3fef35af85aa489078a56ee2e645805b5f7afc3aa0c3ef1";
"cc6e0528a22ebacfea769ecb097b26401175d1d8fb7498ed9d8d21ab2619ddfbef756ad445fa6b5f5f04b74a8f6ed1ba";
"a82a97c96889eaa13bcd8df8f3521391b9794776ac83a295eb222c1f45d100c2306c29838d7ad388cd4c7dbf86584446";
"87597812ba0ba0686a25bdca239f37ab51ed33cf4202451d509453eea861625656e9afdf47dcb9d569c1ee7f578fd344";
"8fae238a466f3762be9ac56476c5b77eaae1f542c2f8b21840fe7dd0462516f91e7c644dd7a26b464c047111a106b6b6";
"dd11f4e840d1d19aa856233fc692c8b2763ced6371efb2a7b1851e1d28fa8c9e834ca8c855ad09f3f8aa3350d4bd2e92";
"8bce20aeab8af2d768f1bd40117551765dd741df6acf2b355117c5b551c59d9b9a7b88e2751b6cd4156391bdde66d6e7";
"e8cfebe34a6ca7ad3f369ef5513d5550b4725df4e4cced930c146118d6defe079dcc77b38e40372f0000000049454e44";
"ae426082"
].

(** codegen/src_data/regular.png, 3171 bytes *)
Definition regular_file : list string := [
"89504e470d0a1a0a0000000d4948445200000202000002020103000000878b378f00000006504c5445ffffff00000055";
"c2d37e00000c184944415478daed9dbf6e1c3912874b4bc3bb41c174e868d7c0bd40019338186ceb51ee111c6e74d046";
"972cb0afb08f708f50ba0ef60037ceaf205f722901250e1ad717906c56b17b46a32e8e64d9b231185b9af930fc57bfaa";
"62910393f10f839dc000c6c703101c3d3e21bd6a9d7e06824bffef42fa6d7ab7a342913ff7dc9e8004ec0330a1f8e47c";
"a0250cbc0fed0984e50110698e805d00f6a36e851f816ff74d087f4e132b427f5b08889180a9557baf7ab29f3a60f817";
"c05b1be1434d1876713433213f80817b62464118a748a033100834c18f91c0cc4ca9878181a7f13c847ed4846e82f8c9";
"532b88aa19d5988014df2d09e4f4684a82e77a343711d48c72e9a799e04324b8505696e732ab1dd4b37a13e1a875c353";
"2cdf37407820dd7cf2fe8333f7c38904bee3770f4078501f46fcf541ffdc51f10ce47b7c684f708990554fbe03575a93";
"bc84a684fc8909a3657363517f24d1ceb68462692b4256bcacfe8e0f108ab5df4af8705311307b4158a93f1405ae0974";
"26821b2bf517afe92631ea67207493eec959fde1704f3623a45790d38459fd572c4e359a5b098b19452e79c3637cccea";
"bf329a3eaccdea7b138e5b57dcac9b76c2fe0b203cfb0ff7ed837604367b206682bb8b50299ec37a3ed809b3c2871829";
"76a158361f60354750e96633028ac81da525ab7afb1c846cc564f6c00760cc9123eb4869e93f98082a52038cbd98adbd";
"8742c041640ed6adfd56c287491292f7d185a43892c0f1ffb30a0b02b5242445275e27b8cafa9e83e0f288d23a01f8fc";
"0414b36a2660194db873343711d48ceac632a37c5ae17975bbb08c1a2aff612be1f4488d3747ee76021db1f40f4560b3";
"ffc05f85ff40e6ecc1490417b6f524723b02d0099e467ef855f537135c008621ae6e5fade2392208459532a1d24d1b01";
"80fd541447660fb06e09adaabf9d10ca4e4bcef4ba90b20659fd33850ef90f9b09b3a5edc6e81566020a8b9f09c7f30f";
"9b091fa6cf6fcb0c4d19ef6ce9a5b5efd2efd708d48890670ba56704dd9373f61f1e9600a8090e807767261055ea5f11";
"ea2cb81ecdcd04e53f782eab3bcfeabcbaf3ca4711a52cfd874d84ed9966b4c6dd7602d2e313beb5fc8347abff701ae1";
"98fa533825836127d416f44e2f8457fd071321af64c068d5a731a93c00ef53d6dba7081208d8017c9c33bd8d0840290a";
"da474b97a3c24cc8162dabb303083db425b890546f48af849861f50cbcc3e215882c6b18da11664beb385aae4cc0f49c";
"095e66322461b6f69b091fa6e98fd89b4164fd058186d48aa05af171c76126fca31561288ab74a40ed050d3b3c0b21ef";
"3c28c23ef5e4031070481e08ad132028428f82f0878d50669458dd795683ac32d2ad181c87ca7fd84c38393a5ecb32ae";
"ecd2da0877294f787cc26ae4d886f0b4f72fec95248a407882d777a8a2a01121e0c616342410c5c8bd1ba34597adca95";
"7f2bde4ffab7bbb112fce7141df5295aae7a76ad979d1acd9f7fb6127ef1c0234765910427543067549dab469381816f";
"dc958d70dd7f628681d953d90152bbd5582235e78a973c13fadf3fdfd808d73fee2fd921cf16dd87c304c4e225e36cfd";
"dfbd0223e1fddf819d6776fb12a953aa58582300d484bffcc74af83e00233063af0908eb84dc93b98a02f8d53b2be1c5";
"eb48a0bebc73eec9bd9e5144a527c9cdebebca4ab8c836629f3207a3c81e0c7a77b213bb20fa331809f7b06e6c8ebbbf";
"0ec273fdc3b3ff001057d8f10c869d401423d29c4d2457761b088131a49d816a5722a94e330271c972932bde6feee56e";
"10510aa8eab326849163169904c18bea3b0c89308acabc860477030c1fe38984acfe28a2564a2ad30d31bb90675221f8";
"cf56c28f7b60071c5b81256b240988c07e281599591122e1dd2b2b21fb0f3c14d57329729615a130e86accd28aec3f6c";
"277c9f3e35d33d086a345fbdb3125ebc06c6aa1572f7491128ad3a3dabafac84ec3f744eec2e08c29c551c62d6ab9bc4";
"ae2548ffc14038d5ba0f66ddfc3a08cffec3f1aa86468411ad1e889d8078c72b693d9be586768491f40e24032fa2f445";
"d51f47356c45984f2524859104151dd25a06a30d61143b2104f1649f1bd37310a7278427a8bd413b01065604ea930a31";
"975d6bd62d6a4d70582ae66904deede2ab763b718281cb0eb1aae26f41b88aea2fab1f250145043d9f4c5404776325e4";
"fc83ac7ec4b54752dc5c9d99d5afe41fb61372fee15402a6d994bd80927fd84eb8609db19bbdc1b13cbb54213c570c70";
"fd198c8443d60dcdba6926e01740385a85d796f07cff83b5a286ce40a0c3eaef8e65331a113a71ea525667d7d5159980";
"9cb207a11d814854cad704b913b25215d98c80a2523e9f76ccd62ea9bfda15a1f311724f3a8a190369ed3ff6e7258ca2";
"15dd584e403a2a567fd815d52352bbb64d08ab3d8985245b81544e733c04213fcb56383c13616d56578ff9868f5cdda0";
"f20f36c2051f58dda8d53f8f1e258ba3f30f46c20955f1476f54684980a745086d094fda7f7076f53711e42d482d09ee";
"7895e561afb521419c962abbc075842cde59d4dfdd5809f8469fb49b09872a8ba0f20e985e5a099717fac4a16c45adfe";
"3942d4842bb8b211ae012e17843c63a4c5edfbd23a27d5ff9f73b5fc56c235c0e59ca55923cceaef34a1a8ff155c1909";
"9717e91d242a2c599fd0ad093af3fff63b2be1f50b91bdc3c304d9939af0c30f56c28bd7c2629026c811253c44f8eead";
"9570715966b1e72541aa3f62cc7601d7fe839170c4cab97b458b76027ca184fdc310be1cff618b02537d6b818de0b665";
"2e9a12eefd70e62cca82f0e68dcee8c95b5cb2fa8fcca5f7b4356c467032abb8a2fe74cbebe7561a1276f21352b164b3";
"fa0fe725bcfcabb0b282206f5f22667d62fd0c04e4959112d90339931db4275c5c89db10519f38455c12e04c045981eb";
"4446efb108f2c4e58313b85440ceb37a14d9ef33124e3e21cff7d2cd5309bdba9be57108874f6c9cea91d8094f32ffe0";
"ccca6b274835dce8bb9c44704259dc70b8fab1541eda092f6169e550542860d0373b2ad56941e08a409aa04631f7de54";
"936c041780bfff2c6a4a8595cfbfcf562edff2e0809b12fc08fcf265e9935dfac4484bd5cb3bd5aa850d08dd140939fa";
"db6782387537670d52c4d88d6d09aa15505a914f9d2ad5037d93412bc2c1d15cf1407c88add6adb0130ece6a5a6f45ac";
"18e6b604b9ba599f4295d903756a6282e68485153df1f69b731036468d4d09cff59347d4beeeedfebefd6027d4d502b9";
"d2eaf4fa876d0479a32dd21db37bb947b689e0ab77a350772732ae0bf507e5131908ac2c08c2fa0d47aa4a7241f06c22";
"388e5e4ebe49a22264a593cabb24808de0d58d35aa170fa97f95c1b013f642dd614950ea2f77aa1a1238e81311083afb";
"bea6fe3a836127dcf24a2b0e10b2faeb56d8091da8db83e69ba714615f292fb5252088559b7783b0da7da84f5d425bc2";
"bd23f5f59b769a1036293fb5256c7a84268427997ff068ad5eb013285833180708bceef9b8bb66dbd08840fa15f3a96b";
"583eab9b25cbaef62f66c258edc4f91582c86e2c6e79e18bff59096ed28ab2dbc5df7ef44bf567771e0250150da69de0";
"10582b0e15823b13c18fe2242ec7d31bd92bca1983b915dc9e203d52451099776041a0c721c8eac86dad384e9857ceb8";
"4248eadf8de904c9ea68b623acb522dfe280003c762bb71f3522383862e5eef600ec843b94ff4eafa011610fd6fc8389";
"f07cffc3a35660de9370d74e4903829f4695c1d8a3f866482ca7d55ddabd9b3a66c77295ff6426bc033c4890b778a61d";
"f53e5bdfa2c0efcd844fbffe367f2284785323e613a622d38e0cdc7591d0c99bb2aeaf7b23a1bffa2faa883513bcf806";
"4d4cdfe4c0cc3db0ae9e873fe16f46c2bf618f6a479c067dca4c7efb1330f7303527a856002d09f9162866e06e5a6985";
"eac94d84ebebfe37dd8a7dd50a2804665812f8d3af56c27bd0a3b92044f5efe1d068c6956522fc348da52a1af4b7b9ce";
"3b7103f43031775d5cdd8872757b33612dcb7a2f8bffc80407ed08606e8589f07cfec248403e03018f9fbc3ca1fec144";
"402a3705d6df6093b304fe56bc7314b7c63521608c0668f9cd152a72a932ce22826f42c8bb3d92906fad986f91dc03bb";
"5be0ae8bb730b52410608942a9b2b4b25a7ed0373a68c5b1118224f0d2da67c22e45ae0bc2b599d04fd3389f2474b06c";
"4556ff3dc69b99796a4eb80e29423d4490b748fae405d43d6925bccf274babd9ab46731f6f905b1f4d3213ea1d411f80";
"a749cfea7c8be42ec459bd54ff368493ab0fef1767d909f0cd10be00ffe1ff05fc648c072b1bc50000000049454e44ae";
"426082"
].

(** codegen/src_data/bold.png, 3283 bytes *)
Definition bold_file : list string := [
"89504e470d0a1a0a0000000d4948445200000202000002020103000000878b378f00000006504c5445ffffff00000055";
"c2d37e00000c884944415478daed9dbf6e1c3912c63f998677034254e8c0581bb81720a0c4c012db7a24871b1db4d125";
"0bdc2bec23dc2394ae835dc083d32bc8975c4a40c13a686c5f40b25964f7fcebe248b22d1b83b647333f0d9b647dc562";
"b106a3f00f414e2040f8780082b68f47d0ecdf6acbebd40908c6876be7e34fe373da82d26b271a810cb52738073243b8";
"a69f3917dfe94b82f220e74f43b02abfabf3911a5ed9fb8e782fd2bd6b42f87d1cf3b36e00f59e268273f901c2467bcb";
"ef643f7620fc01bc93113e724237803696a8f399d0e53bbb511408c68394473f8c81605b125c203894ade80610808db1";
"960cbb93e3d09ee01ca8bfc58c10ffdf0f26d38138a24e40b0582068f62ef66f43756fae221423caf838b3b030aa2b0b";
"3059986254af22ecb4a24e6cedbf0ec203e9e617e13fa81daf5107dd073961a7fad3132034f6611461b2e4f56cd69629";
"2e5533bd31a123a67228d53fb586139c6b4f508c30593c37f7841a13264b5b13ac2bd55fc5f1336bc564ed57133ede55";
"84a4f6a90593fa233ca708348ef9b7e1e35d54bd7604e7e68fa8fe452b4e41e0cfce1e9813f89d6c45d8d50aaef8fb7b";
"f368c2e2884a239a8f6ade9bc5ec5e1cd54711962d57b2306eb56eca09ee09109efd8763ef413bc24a12f340c4044507";
"7dda1de3414e0081940db3b58b0fc766b0622b7700a4f44c379b11ec82754d164e6fe69e514b82f28100ae321e642249";
"1148b3bb695c5342b1524365e50d958429bae396acfd6ac2c79113786f3a9001236c4294cb0cb5668d4c37e5845af538";
"41a528973e2dc1603b61fa7b6242f2ba0a825e9efdd90b1aab68d2d1843fea7854eac9ce0782f19950440ea8f61f5613";
"d6af16e950dd9413b02bcafb400425f61fd4d7e13fd83d3ddd88c015edd0de9c94a7110136abe9de1e35b4341ec404e5";
"03a11ba64872b67c4354e6f49cdeaa9b320240dd1814c76990e191d474d5b9c52721b048898bef52b1352659b47447ed";
"921724224c9656474fccc528b289ade1041088a8f282266bbf9af071fc1c08e3103d10e44f6f285bfb8e40b0e869b6e6";
"1d3fdb46044b998021dfcdba159778204254dd89c47af39404207ac51aa45de849ed184195bb96c6d5bdb99a30dfbff0";
"79442b9f230669e673c2dc7f584558bd529cace22312a608f02312beb5f883d1d2dd87c308bbd4dffa4322187202ec6e";
"4f43d18edfd288906632e2aaa08b965f51d8c5d716a435c89b18f523f4b734f31f4404d8181d1858843d5e9d2a57712a";
"ac9e3797684b503e289c62517e13ad5aa772043645db1535254c96d650b0ee8990ae5d1f57ee3eafce14a1dfccfc87d5";
"848fe3f8dbd412bb40b8bc8f04975b91942711fed5888021788435c1c677199def2800d2de9f84808556d82ebe735312";
"2e8d6e4ed09b2d0413dfe5b7137e9311f2fe059bdd6954c387d9cd675a2290f7f5fec55ac2412b32205898c568424bc2";
"3e8fc3972b96c7203cef5fec89323522587d7ce640e90dca095e874cb7f5e3414eb016d4a7e8c150660e4c3bf658882c";
"020452775282f91c0936afda97b2171623ac00817efa494af8d9800602b98a607c9935a0e2ffa18335cad90477ea5a46";
"b8e93f11614304cad15db790b9c0778d15f388d0fff3f39d8c70f383bb22a50301d5a75f22a419d0a59d6b7a7f0e21e1";
"c33f40ca10299357ec3c7362a915e0ada0bffd574af8ce83348894a582e0b0dc9b1635e1fcbd94f0f22210b425b29c10";
"67fcf4ca85d11ea3acd752c259f2ac0ccb5a88518414214884ee7edb6710128eb06856ac9b72023d01c2b3fff0edf80f";
"6b22297966c909d6823ae468a27371d594b2b63dc88c1575e0bb306d08f7319acba304dcb2b9cbe9c446e9a137220c14";
"08dbd4bff381102328e104494382ba03e19668acd47f96f976095243ccb4285a613e4b093f3890025167ca4f3fcb22b8";
"0fd65fd9ac0881f0fe5c4a48fec3fdc076ea1708b80cd7b46accad48fec37ac2773e46ccfc1184a237cfdf4b092f2f40";
"ba6a856191a38260c34abe1ad5d75242f21fbaa4fe2c13925310675637b25d4b70ff4140f802ceeb7d23842f3b7f52ec";
"3f948441afcc7c6c48d07a5de6a3d1ed0843dc01893b907ddf53f16955ca6caa4e5558df8e309d4a08aba3825044117c";
"6e598e1eb4210cc408080433c4ab67968e40e883f2b526604339fb31129c0bd72933d4e7ec09addb1394a629fbd10d25";
"c10ce5e9161d55a71b1a12ae83fab328514198d4d760ca30285ba1eea484147f3894a06ddd9b29feb09e90e20f3c5ad6";
"f7e59513949e8dea6b29e18ce651437e9a26797e5304b4afa21993ff202060cfe985f5ba2926d8274030fec108cff51f";
"a4110c7b0282ddee69a85d3dde88d0c5d5701169ae3c90146d9cb2f30abd90131657c9f54c639997f3e8c16908fc84ba";
"f1a0db3e2a1ee515dd2908c6cfa31749fd379751f9ed6908236b45da55a84fa2def659718a13fc8d08f59d5c8a626c2e";
"b3e2ecef0b39a12671c2d48a0722f0478a822ef4e6b59470465b66b72bd53ff59ea57c32337f0621e180acf89d9e414b";
"c2313b214f8050780672c297bd7f21577f11a138b9df90a076653e6ef94dd6b62580556ee0917f6d73363faa0a4d6127";
"40dd4909fa753eedc7ad1d16d41f7135555a39fb4a4ab83a5b2614cae7c3aa2d45584bc235ae65841be06a2781abffad";
"5920fc7bca965f4bb801ae4244cb979ec8d48aa8fe1b0532a6ccaacff74146b83a8b5e36cbce570b150c369799a08ac8";
"ffbb1752c2c5cb38537d99d95713fa7e1be1fbefa5849717b9153cc3b126580d322644354ac28b7752c2d915db59613d";
"a998caa7ded39a110aff4148d865e58eaa9c2027ac8e209c98705004414e783afe0389f72fc40425f640d4a37841685c";
"0783576a44aaace34bf51f8872e45fd799246d08537506b73cabed3de577d9d31094cfd9e088bb1d1db37076737a82de";
"3082cf0a94d4df12f1773527185ff666cad0872fb3634f4950d5a94e83ac807cf7e321092e1278562a7f9dc2e908d3a7";
"4edee123118ccfb3bb1bcacc1545db32cde404ecaa00b5af92839cd017b559f69cb233380961bbf29378ff82bee6fd0b";
"55afa61f81806a357d2ac274d2d2e653fbd85d41424ce8b89533b97a01288c6e9b76cb7d39d3f39d1412a89c31d38ab9";
"f612f9a9c4a1b4fc5242cafc4c2ae298d2f0c88a4278a77320adda12cc1057a2942b24241228ab3fd8097d8bb6846e0c";
"84b4faebc04828d5df444f711cda12782bd2e8521448a8d57fd8771fd611786f02b9373b9a13d2881b7d5b021fd54524";
"c9cf096671443520b0d9ad88cdee34aa877964b19a9b4d08b515e556ee48dd1413d4bad55a53c273fee4e1d5c0660af8";
"0084faf484f5c756f35847d05ce9f654766845e82acf57a3ac70ac5276975f582904c27b1981f26cf6b9a28e5a88b298";
"e5952328fbd0eb088ae88d2fa3c89c30653e7282ad0990114cb09ce92e1abe2adea2fef08d098e55d65a202ca9bfa2b6";
"04e2772a116c2614eacf76495a12eea91c25bb083c33b725a143381591a2378647ee126128d5bf1c5172828eabd3f48c";
"194a8219ca8ca2f9cc9213b0ab7a031da0040d092b95bf2961f5cebd9cf045c61f92faaf8ffccb09d64bcf806c21d072";
"f440edcb6cb08d08b678450f507142815f4da5feb112f3cf624259bda227b540e051e0998539fb4b4a506361cd7b6f88";
"e0d18f63a5fe3654c172ae8ef4ca0960d9f7dd807ee802a1ef4335051733ecba9111e83484183de8bb7b46b039ea0dca";
"84ca03694648ad307dd50ae456587d7a02805ea96582625987dbfba20d016aa1378732f371fb885a4f6015c667049e15";
"cdb3605b13eadd486ee514ed555f39615f96c203117665291c56bf5a44783ebff9a81998471268cfc86e4030e3509c52";
"b06aee2d6b0beae2ee5d3712995b9eedf6564c780f9dbfa902a15aa45a882a7a9fafae38e1f5414cf8f4cbafd3b7441a";
"846a915ac72a0a3aabbff7a16a62ba4e849b9b5e48e8afffa70bcfa6ebcb0a1ac9f3f11ebdea29b4c230c2eff8bb90f0";
"1fb84c800fd522f9aa3011c61134f6447e6c4e98b5c28e25215581f21e7d3f2eb46276278f26dcdcf4bf16110cdb55ad";
"002310e604faf48b94f001bad889b3a62244f50f84855684992522bc1d87a962e434bb1921a9bf1f89c631cc6e678aea";
"706242ba5babac2d3d0102da111e395feeb97e949070927ae67a8bf2ef3fc9d194507f7366faab2d480dac8afdc8aac6";
"352168ba78115609b68aeaf2df90b2d45396053f21aee9c73fa584b77fe5950ab76e3c7a604ca87c348ea07146387f23";
"2158687a739eb3f65df90d1df9c45bc7aa09cc14e7f52b09c133023fc552abbfb9dd42b81113fa711ce8f5abbc32ac5b";
"317da3a789d525c625c29b7301e1c60374fe26cfa0d99d4426742e7800f59d04bdfd4b42f800d08f7fe6ddc01921aa7f";
"acd4d5f754f7a605e8e28584c0774553f6e33896a3da38503f806e93473c53ff368455abf687203cd78f7a40ffe1ff01";
"2bd4e674fee5050000000049454e44ae426082"
].

(** doc/short_greeting.png, 915 bytes *)
Definition greeting_file : list string := [
"89504e470d0a1a0a0000000d494844520000015f000000660802000000e3d505070000035a4944415478daeddd3192d3";
"301406602fb7a2e6067b061a7a0a28a968e8b90537a0e65a642633194f64c9922cdb91fc7d93c264b326f16c7ebf67cb";
"f2dbe71fdf2680c0079b00900e807400a403201d00e9004807e065bd2d8e77f8f4f1dda6818bf8fbef8fda01d05900d2";
"01900e807400a403201d00e9004807403a00d201a0341d7e7dff727bd4fd34f3b7ea56d2a9cc0f7be54d84da01900e80";
"74007a5730bfc3bdddfdfaf377ac3d0e7f1a76c88b2f783c59b792a2567ff1d78b9e2ffa50891767ae3ce7b7600bf33b";
"00af513b64ee8d8bfe99f94ef6ab1d8a5eb65ae634d962a076008e569c0ef7f3ede1a38b4f7bdbe5de1ef3377c5f4e3f";
"bfe5fff217c685d201900ea95d62f8c82c346c71503b00d2a151a171cad187f9fb893d0fd201e0bc7470f4a149e1633b";
"a076004e33ce7516a58308ab0762967ea8a237e03a0b8e67ac24b05bedf0e2ec5441ed001c618474304201a403201d4a";
"a81a403a00d201900e476a3e88dba870a4c32062f344574743db15827400a4c3eb7516f71dfee352d1f94492450bf3f5";
"dc17fc313198714652d775046d17a047465203bb7516e9895beaa67539f8f6f34f8d409385b07030c30d8e3bf4e73173";
"64c386c24107a403a9d0b111900e7d4bb406e9a623fd1a900e957dfec6bbdd34bc654ed81a84a9b1da3ecc17540d4887";
"f1fb829cefb98b41910ecdaa86f03e37453bff262b897516f33d7fe9a98a47e1a0b3403a0c5526acf61153f6a90aa504";
"d2217514a0c7d3fb8b13d5c73e4538ec1aa4c3685687332d9ea178aa3b9cb3e022f6badb4dfa6b13bb774bcecd6fa6cd";
"93d3ef7d9d85b9f3e98beb2c16b2a9ee0b1cfeba20406751f3455a7c9cdb594c91910e53f6d8a7c40248878eab86fc4b";
"274acf6b8074d8b4f73e7d379bd911ac7ee163eb31680ae9d09ff42c4f53f6f5da1a0aae60af7316b12f4ffa66f6752b";
"c9797b4faf0c874525fa8844583867c1009cb3487507e95e60f5248520e0eab543175d43fa8b9a591a54bc06d40e2354";
"0ab12bb8f31744036a8771aa869c031099f92214503b8c6cf1a2ecfc05a72a503b8c9f11dbcf5080da61d8c310b1279d";
"a1e0e2cc1c374d25534281cee2dda6019d05807400a403201d00e9004807403a00d201900e807400a403201d00a40320";
"1d00e9004807403a00d201900e807400a403201d00e900480700e900acf80f6c171cbf631f58fc0000000049454e44ae";
"426082"
].

(** doc/goose_poem.png, 12508 bytes *)
Definition poem_file : list string := [
"89504e470d0a1a0a0000000d494844520000015a000000920806000000049d021b0000187b694343504943432050726f";
"66696c650000588595790754144dd36ecfce4660c939231924e79c73ce4154969cc125a3200222491109a26002441005";
"232222204114912441511005041415034940fe21e8f7feef77cfbde7f6393dfd6c7575555775a8a91d0038da48616141";
"285a00824322c8b646babcce2eaebcb829800204400bc40186e4191ea6636d6d0e90f2a7fddf657108409bed0b894d59";
"ffddff7f2df45edee19e00406e08f6f00af70c46703300e824cf30720400587d84ce1f1d11b689fd10cc48462688e043";
"9bd8771b9fdcc41edbb86c8bc7de560fc17500e0a94824b22f00d46d089d37cad31791433d89f4d18778f98720accb08";
"d6f4f4237901c0a18cf0ec0e0e0eddc4480522087f1882b310acecf10f99beff4bbec75ff92492ef5fbc6dd756c1ebfb";
"8787059162ff3f5df3ff2ec141917f74082195ca8f6c6cbb693fe2c39781a1669b980ac173211e96569bbe46f0b2bfd7";
"b6df014051f8451a3b6cf3a3383dc3f510ff0166044b7b91f4cd10cc8960c390204bf31dba878fbfa1098291dd828af1";
"8f30b1df199be61d6e60b723b3981c6a6bf507fb90f57476c65693c85b7a37f9db22031d7476e4bff4f336f923ff679c";
"9fbd138229008029a2fc1d2d114c8d60c6f0403bb36d1e78579c9f9ee51f1e72a4ede6fc0510acec1d62a4bb2d1f76f3";
"211bdaeef0870587ffb1174ef5f337b1dcc185117ef6c6dbfe81af7a92b6e6cf8ae05aef101d873f72bcc39dcdffd8e2";
"e5ad6fb06d3bdced1de2b0632f3c1616a16bbb33763e2cc87a871f8df70e32daa4ef42307b7894ddce58b47a04b239b7";
"e5a3cdc322acedb7e789760f20995a6fcf071d05cc811ed007bc2012a91e20140400ffeeb97b73c8afed1e43400264e0";
"0bbc81c40ee5cf08a7ad9e10e46907e2c067047983f0bfe374b77abd4114425fff4bdd7e4a009faddea8ad1181e00382";
"83811908427e476e8d0af9abcd114c2214ffffd2ee89cc3508a99b7dff4dd34128e63b94c83f727969fe70620db0fa58";
"63ac215614cd8ed644aba1cd91a7365265d1ca68953fb3fd0f3fe603a60ff31e338819c7bcdaef9f44fed75c2cc03822";
"df70c7628f7f5a8c1642642aa075d11a887444329a19cd0e24d0f2881e1db416a25901a1eaedcc7bd376deff839d7f2d";
"f887cf77f808d204148185a04d10f9f7486a316a85bf52363dfa4fff6ccfd5e3af57f5fef6fc5bbfde3ffcec85b466ff";
"e684d3e0db7007fc087e0a37c0f7002fdc04d7c15df0c34dfc770f4d6eeda13fda6cb7e61388c8f1ff2f7da41d9d9b9e";
"0c97ae929e955edbe90311de31119b074c2f342c96ecefeb17c1ab8344016f5e93104fc9ddbcb2d2b232006cc694ed6b";
"ea87ed56ac80987bfe4323213143591639d2baffa185227743753e7234cefc8726849c5d3615006ed97a4692a3b669e8";
"cd0706b90d689013c506b8013f10412c92058a400d680303600aac803d7001fb103ffb21fb990ca2c1217004a4824c70";
"12e483b3e002280515e03ab805ee8106f0083c06cf402f1804af91fd33053e8179b008562108c2414488016283782041";
"481c928594214dc80032876c2117c81df28542a048e810940c6542a7a0b3d025a812ba09dd871e414fa13ee815f40e9a";
"85be43bf50308a0ac588e24209a1a450ca281d9419ca1eb517e58b3a808a43a5a04ea00a5125a86ba85ad423d433d420";
"6a1cf509b5000398126686f960095819d683ad6057d80726c30970065c0097c0d5703db2d22fe071780e5e4163d10c68";
"5eb404b2878dd10e684ff40174023a0b7d165d81ae45b7a15fa0dfa1e7d1bf31440c27461ca38a31c138637c31d19854";
"4c01a61c7317d38e9ca629cc22168b65c60a639590d3e8820dc01ec46661cf616bb0cdd83eec04760187c3b1e1c4711a";
"382b1c0917814bc59dc15dc335e1fa7153b8653c259e072f8b37c4bbe243f049f802fc557c23be1f3f8d5f25d0120409";
"aa042b82172196904d2823d4137a085384550a3a0a610a0d0a7b8a008a23148514d514ed146f287e505252eea254a1b4";
"a1f4a74ca42ca4bc41f984f21de50a153d9518951e951b5524d509aa2b54cd54afa87e10894421a236d19518413c41ac";
"24b612c788cbd40cd492d426d45ed487a98ba86ba9fba9bfd0106804697468f6d1c4d114d0dca6e9a199a325d00ad1ea";
"d1926813688b68efd30ed32ed031d0c9d059d105d365d15da57b4a37438fa317a237a0f7a24fa12fa56fa59f608019f8";
"19f4183c199219ca18da19a618b18cc28c268c018c998cd719bb19e799e899e4991c9962988a981e328d33c3cc42cc26";
"cc41ccd9ccb79887987fb170b1e8b078b3a4b354b3f4b32cb172b06ab37ab366b0d6b00eb2fe62e36533600b64cb61bb";
"c736ca8e661763b7618f663fcfdece3ec7c1c8a1c6e1c991c1718b638413c529c669cb7990b394b38b73818b9bcb882b";
"8ceb0c572bd71c3733b7367700771e7723f72c0f038f268f3f4f1e4f13cf475e265e1dde20de42de36de793e4e3e63be";
"48be4b7cdd7cabbb847739ec4ada55b36b949f825f99df873f8fbf857f5e8047c042e0904095c08820415059d04ff0b4";
"6087e09290b09093d031a17b4233c2acc226c271c255c26f4488225a2207444a440644b1a2caa281a2e7447bc550620a";
"627e6245623de2287145717ff173e27dbb31bb557687ec2ed93d2c4125a12311255125f14e9259d25c3249f29ee41729";
"012957a91ca90ea9dfd20ad241d265d2af65e8654c659264ea65becb8ac97aca16c90ec811e50ce50ecbd5c97d931797";
"f7963f2fff528141c142e198428bc2baa2922259b15a71564940c95da95869589951d95a394bf9890a464557e5b04a83";
"ca8aaaa26a84ea2dd5af6a126a816a57d566d485d5bdd5cbd42734766990342e698c6bf26aba6b5ed41cd7e2d3226995";
"68bdd7e6d7f6d22ed79ed611d509d0b9a6f345575a97ac7b5777494f552f5eaf591fd637d2cfd0ef36a0377030386b30";
"66b8cbd0d7b0ca70de48c1e8a051b331c6d8cc38c778d884cbc4d3a4d264de54c934deb4cd8ccaccceecacd97b733173";
"b279bd05cac2d422d7e28da5a06588e53d2b606562956b356a2d6c7dc0fa810dd6c6daa6c8e683ad8ced21db0e3b06bb";
"fd7657ed16ed75edb3ed5f3b8838443ab438d238ba39563a2e39e93b9d721a7796728e777ee6c2eee2ef52e78a737574";
"2d775dd863b0277fcf949b825baadbd05ee1bd317b9fee63df17b4efe17e9afda4fdb7dd31ee4eee57ddd74856a412d2";
"82878947b1c7bca79ee769cf4f5eda5e795eb3de1adea7bca77d347c4ef9ccf86af8e6facefa69f915f8cdf9ebf99ff5";
"ff16601c70216029d02af04ae0469053504d303ed83df87e087d4860485b2877684c685f9878586ad8f801d503f907e6";
"c966e4f270287c6f785d0423f2f2de1529127934f25d94665451d472b463f4ed18ba989098ae58b1d8f4d8e938c3b8cb";
"07d1073d0fb61ce23b74e4d0bb789df84b0950824742cb61fec32987a7128d122b8e501c093cf23c493ae954d2cf64a7";
"e4fa14ae94c49489a34647ab52a953c9a9c3c7d48e5d4843a7f9a775a7cba59f49ff9de195d199299d5990b996e599d5";
"795ce678e1f18d133e27bab315b3cf9fc49e0c393994a39553718aee54dca9895c8bdcda3cdebc8cbc9ff9fbf39f16c8";
"175c384d713af2f478a17961dd19813327cfac9df53b3b58a45b5453cc599c5ebc74ceeb5cff79edf3d517b82e645ef8";
"75d1ffe2cb4b46976a4b844a0a4ab1a551a51fca1ccb3a2e2b5fae2c672fcf2c5fbf127265bcc2b6a2ad52a9b2f22ae7";
"d5ec2a545564d5ec35b76bbdd7f5afd7554b545faa61aec9bc016e44def878d3fde6d02db35b2db7956f57df11bc537c";
"97e16e462d541b5b3b7fcfefde789d4b5ddf7dd3fb2df56af5771f483eb8d2c0d750f490e961762345634ae346535cd3";
"427358f3dc23df47132dfb5b5eb73ab70eb4d9b475b79bb53f796cf8b8b543a7a3e989c69386a7aa4fef772a77de7ba6";
"f8acb64ba1ebee7385e777bb15bb6b7b947aea7a557aebfbd4fb1afbb5fa1fbdd07ff178c064e0d9a0e560df90c3d0cb";
"61b7e1f1975e2f675e05bdfa361235b2fa3af10de64dc628ed68c118e758c95bd1b735e38ae30fdfe9bfeb7a6ff7fef5";
"84e7c4a7c9f0c9b5a9940fc40f05d33cd39533b2330db386b3bd1ff77c9cfa14f669752ef533dde7e22f225fee7cd5fe";
"da35ef3c3ff58dfc6de37bd60fb61f577ecaff6c59b05e185b0c5e5c5dca58665bae58515ee9f8e5f46b7a357a0db756";
"b82eba5effdbecf79b8de08d8d301299b4f52a002315e5e303c0f72b00105d0060e845de29f66ce77c3b05465e3e5048";
"eb0849429f506d7032da0ea38d15c6b1e359093c141a94965481c493d4f769e6e824e8bd194a192798c55862599bd869";
"389c38cbb87ef0a8f3a6f03de7a713b0153c2ef44c0488ca89f9889fdedd29b12425226d2393285b2537a880529451da";
"ab9ca152abfa4e9da8a1ace9ae95ae7d53e78d1e5e5fd1c0d3f0a4519df198296426606e641160996d75c7faa5cdb21d";
"b3bd9c839563b0d371e76a9767aeeff6ccbb2ded5ddd0fdc29486c1e129e3a5eb6defb7dbc7d497e76feea01bc8150e0";
"785053f0c590e450bf30eb03ca64de707cf8d788a1c8c6a88ae8dc9884d8a0389783268734e29512140fab24ea1c314b";
"724af64e89387a3435ef5859daedf4e68caecca1acb7c7a74f7ccefe7e722167f1d442ee42deaf02f469a6c2dd678cce";
"7a161d2e2e3c577dbee9c2b38b0397464ac64b67cb7e96c357982ac42a75afba55455fcbbb7eabbaafe6db4dba5b72b7";
"edee84df3d595b79afbeeed1fdd6fae6070f1aee3eac69ac6c2a6d3ef728bf25a3f5505b40bbdd63c50ed68e9527e34f";
"7b3a1f3f6bed7af4bca1bba6a7b037bc4faf9fd8ffe245d180cfa0c210666878b8e265d42bed11ec4807b2bf14de4c8f";
"e68ca98d4dbc3d3eae36fee9dd85f7b613f044cda4c3e4ca54de87dd1f9aa66da727678ece4acd4e7eacf814322737b7";
"f0b9e68be757baaf77e7ade73f7c3bf49de5fbe31fd93f4316488b3ec83e9afcd5be2eb9b1b1b5fefcd00d54002c0bcf";
"a06f6212b1ce380dbc0441984298721795345195da86c6933681ee027d23c32c132db3320b89358ded0efb182725971c";
"f71e9e44de4b7c4dbb5ef32f08520af1082b889888ba8bc58ae7eebe29d12539238d96e193559773958f50c8542c53ba";
"affc5ce5bdea4f75ac0687a68c968576904eb6ee0dbd5efdcf8678232e635913035307334ff3108b18cb04ab64eba336";
"a9b6697619f6590e198e294eb1ce7e2ef6aefa7bb4dc0cf7baee8bde9fef7e83d4e2d1e9d9ee75d7bbd8e7a0af939fb4";
"3f95ff5c406f607d506570514876685218f9801b593b9c277c356230f27a546ab4478c41ac749cc041ae436cf14c09b4";
"87b1871713df1fe94cba999c9f127d746faae931fd34f37452c691cccb598f8f8f9df892bd70722967e1d48fdcf9bccf";
"f973055f4e2f9fa13dab5214525c7eaefbfcc485d98b5397de96bc2aed2b7b72b9b1bce14a67c5e7ab7c557baf155f7f";
"55c378c3f2661a727baddc95acf5ba5754d75f8f7920dfb0ffe1d1c6f2a686e6c647575b4eb6c6b745b7273eceee38f7";
"a4f4e9f9ce13cf22bbec9e4b74a3bb477a6ef566f605f4dbbc30183018b419f2188e7c99f2ead848fc6b9f377aa3eca3";
"7363f7df1e1b777e27f11efffec344ebe4b9a9031fb4a7a9a607664a670f7ff4ffe435e7f739f84bd8d7b0f9b06fe4ef";
"513f627f462ff82f1a2dd12cdd5e36587eb6e2baf2f957ef1ad5fac8d6fa8b8336c80c7a89f286b170365a1cdd8389c3";
"4a61677197f17e0429c20a4527e505aa68a22db52c0d35cd22ed2bba66fa4a865cc678265f665b160d56513626b635f6";
"198e7ece46ae6aee529e22de02bebc5dd9fca9025182242103615ee165912ed10b62e1e2c6bbf9245012b392c3524fa4";
"eb65aeca16ca25cabb2ba82862157b94f2959d55d8545ea99e53f35297d5c06a8c69d66a656bfbe9e8eb0ae9d1ea03fd";
"1f06d38643460f8c0b4cbc4d054dc7cd0acdad2c7016ad96c95626d6acd61f6d1a6d73edfcecd51c880e638ed79d0e39";
"9bba30b9bc75add8138ac4ff95bd0ff725eed773c7bbf7918a3d023dd5bda8bc46bcaff81cf055f65df36bf24f0cd00e";
"0481cd414782f542d021eda147c374c2960f54915d90985d196115f133b2304a3d6a2c3a31862be661ac7b1c73dcc8c1";
"aa43c9f1ce0922098b875b13738ff826e9278ba5b01ea54c05a93f8f4da43d4fafc9c8ca2465c91fc71d1f3971233be3";
"64608ed129fa538f73f7e4cee5c5e5eb14e89e4e3b833f9b5134798eedbcec05958b2a97144aa44a45caf82eb395d35d";
"a1a82054d2203b49e39afbf563d5d76b5edc58bb2572dbf5cea9bb7df718eb5cee17d70f37601e8a361a3579341f7e74";
"bea5b1f56ddbc663be0ebd27be4fb33a6f3e1bea5aef16edd9d37bba6fec85ecc0f1c12fc3762fef8ff0bdce1f957a4b";
"fd2e7a327326f6b3e5f7c5159bcdf5dffeef6fb3601501c845f24cc7e3489d0520e71e92673e00808502006b2200f62a";
"0075ac1aa08caa011478f46ffc8090c4138fe49ccc800788027924d33407ae48de1c03d2918cf21a6804fde0035883e8";
"2151481bc90fc3a1e3483ed80e4da020141f4a17e5853a866479fda85f303f6c01c7c115f0301a8f564507a34bd1af30";
"f4183324236bc542586d6c22b60587c199e24ee25ee2f9f041f8fb041cc1895041f845614171896289d292b2820a4de5";
"41d54a1424a613bf50db533720994e0e2da03d403b49e742d7436f48ff904199a1965195b195c9966982399205cb52c0";
"2ac45ac766c936c39ec621c331c17981cb835b9c7b99e7316f3e9fd72e797e2cff6b81db82d94241c26622e2a244d179";
"b141f107bbcf4b2448ba49a948334acfcb3c97bd2a972eefa760aa28a9c4a4b4a1fc59654cb55fad53bd5da34db343ab";
"5b7b44674677511f1860917b0e6f8c3721985299319af359c85b5a5a8558e7d934d84ed9131de41d5d9ce29d2fbab4b9";
"4ebb51ee95dee7b8ff907b19a9db63d94bc0dbcee7a86f83dfaf00bdc033412b219ea1fd070cc90d11f29135d1123137";
"e3d40ff6c6871ee64c1c4aca4b313fba782c2f7d77467b96f709a6ecb739cf7347f3370a79cfaa149b9fdf7f31b6e462";
"d9c81589ca8bd7a4abc76f5ebab3ef1ee5fdea86bd4de22d3ced864f4abaa87a44fa16077286455ef5bd39fff6f4fbfe";
"0feeb32b9fe9bf5efb0e7e4a2faa2c6dac64fcaa5b1d587bb05efa3b6c4369ebfe80b6fe73a0071c4008c8022d6001dc";
"4030480039a00cdc073d600aac43cc9014640af940c95009f4087a8f42a38451e62832ea2caa15f515e684cde043700d";
"3c896647dba233d1ed1808a3813988798059c36a6193b14f71b43817dc65dc77bc0e3e17ff81a046c825cc5118226bbe";
"46e94c7907c984c954034415e2456a4aea18ea691a179a6e5a43da663a4dba267a3dfa4e063b86512433fdc594cd2cc6";
"fc8ce5002b336b2d9b0ddb07f6580e224719a736e724570eb7290f35cf28ef6dbe13bbfcf9750558053e093e143a29ec";
"23a22b2a28462f8edf8d91c04b524bd14bd3c9e065566467e486e53b151e293e52ea547eadf25d8d5a5d5ac346d35f2b";
"429bace3a7ebac67a4af62206fa86c6464bcdf24c1f4925987f9bc25879581752012d3f2ec4edbe73be4395e746a72fe";
"e6aab027d1edf93eeefd11ee3d1efc9e3e5ef9de777dba7d27fd56039803e582ec83a342ce8636877d24b3841b464445";
"5e891a89a18db588cb3ef8325e2821fef0c411df64da94ced488346cfab14c7456da098eecd69ca45ce77cbdd36a67d4";
"8ad4cea95c10bd842e795c1655ce71e561a54715d3b5d1eaf61b3db716eecadc3b74ff59034da37e33b9a5bc6db643f7";
"e9ad2e99eee2ded1fe9f03df86a65f4e8cccbcf9f9167a4731c13825306d3c5b30a7f435e347f952d04af76aca5aebfa";
"cfdf2b5beb8f424e3f1de006124013d8001f100f0ac00dd0053e4204481cb280c85021d40c7d4431a3f45111a872d408";
"4c079bc0297033bc8e5643c7a1ebd16b181d4c0666182b8a3d821dc569e24af0787c287e80a042384781a208a018a4d4";
"a77c40a542f588684dfc409d44c347d34ceb46bb4877925e82fe3943082391b1824997e90d732c0b374b37eb09360f76";
"5d0e314e46ce55ae51ee3a9e53bcc17ce6bba4f95905b0022b82df84be0aff105917a31617d8ad2de12e9928754eba4e";
"e685ec0f79760513c524a556152a5537b51b1a38e45db55167976eae3eb341b591ab099d699ff959cb506b075b59bb11";
"0757c72e676397177b7cdc96f725bb43a4308f412f25ef625f82df91008ac0d2608b5010768f1c1ac11dd91a1d19eb75";
"f04b425962ec91a1a4b514d4517c2aed31b9b4f0f4814c87acd913692725735ee5a6e5ab157c2bac3cbbaf98e2dc950b";
"4a171f966895365fd62fefacb0ae1ca8b2bfd65b6d5873ffa6c8add377f077e36bd7ead2eb851ef43e4c6a526c9e6d29";
"6eb37a8cee78f034fc9978d764f7f95ee77ec617fd83d9c3a62f3746aebdb11a9d791b39befe3e69129e4a9a46cd247f";
"447f3a3cf7e58be1d7d8f973df8e7f8ffca1ff63e9e7d505cb85d78b7e8b8b4b514bb3cb6ecb3d2b7a2b55bf88bfc27e";
"f5af2aac16ae7e5b33592b595b5db75fbffe1bfeedfcfbda06b4e1b0717573fdc37de464b7c20744a50b00666c63e387";
"1000b85300ace76c6cac966c6cac9722c9c61b009a83b6bf276dc51a5a008adf6ea24eb1c1c47f7fcbd9fed6f48f3ce6";
"df2dd88a445b5a9148b45936a312f81f2ff5ea0974ca491900000056655849664d4d002a000000080001876900040000";
"00010000001a000000000003928600070000001200000044a0020004000000010000015aa00300040000000100000092";
"00000000415343494900000053637265656e73686f742eebfa44000001d669545874584d4c3a636f6d2e61646f62652e";
"786d7000000000003c783a786d706d65746120786d6c6e733a783d2261646f62653a6e733a6d6574612f2220783a786d";
"70746b3d22584d5020436f726520352e342e30223e0a2020203c7264663a52444620786d6c6e733a7264663d22687474";
"703a2f2f7777772e77332e6f72672f313939392f30322f32322d7264662d73796e7461782d6e7323223e0a2020202020";
"203c7264663a4465736372697074696f6e207264663a61626f75743d22220a202020202020202020202020786d6c6e73";
"3a657869663d22687474703a2f2f6e732e61646f62652e636f6d2f657869662f312e302f223e0a202020202020202020";
"3c657869663a506978656c5844696d656e73696f6e3e3334363c2f657869663a506978656c5844696d656e73696f6e3e";
"0a2020202020202020203c657869663a55736572436f6d6d656e743e53637265656e73686f743c2f657869663a557365";
"72436f6d6d656e743e0a2020202020202020203c657869663a506978656c5944696d656e73696f6e3e3134363c2f6578";
"69663a506978656c5944696d656e73696f6e3e0a2020202020203c2f7264663a4465736372697074696f6e3e0a202020";
"3c2f7264663a5244463e0a3c2f783a786d706d6574613e0addea1524000015d8494441547801ed5d3bb225590dec21d8";
"14363b600de3e0630ce65838f8b30b7680cdb286101d199de849e7abfadeec881baad22795caaa232e6ffaf3d3cfbffe";
"f2fb37fd920252400a4881c314f8c361c802960252400a4881ff29a045ab17410a48012970b0025ab4070b2c78292005";
"a4c01f2309fefca7bf446ef9a48014900252a0a3c0bffff3af2f19fa46fb451239a480149002b50a68d1d6ea29342920";
"05a4c01705b468bf48228714900252a056012dda5a3d852605a48014f8a28016ed1749e4900252400ad42aa0455baba7";
"d0a4801490025f14d0a2fd22891c52400a48815a05b4686bf5149a14900252e08b02872dda7ffefdaf5f9a7987e58ce4";
"f9ba27df8fcc2b5de227fc89bac44ac8fb3405c23f19363b042f8fbffde3b78f5b9e995ed2255646bac4bac8fb5e0596";
"bfd1e2db051f1a9389ef91c3f2210e8b18ee61e17f9a35fef830779eab15e73cabc73d2c633ee91a33fb39f81e393c17";
"e2b088e11e167e59297047059617ad1fc6bec9e28398dddb2f7f18b27bef07ce932d348116360baefdbcd9bdf73f590f";
"70972e5042f61314d85ab4581826d4ca32403dec5b04e779a4cb8fa72a5d7e68a1abcf526079d1e2d078ebe5433cf2db";
"12421cd6e73ded1e7378ebe7403cf24b17afcaf7ff17f0465dbe4e2acf1b15585eb41003dfd860e187851fb6e747fce9";
"16f3c2fa79e087451cf7b0f0bfc5622e583f17fcb088e31e167e5929f00405b6172dbe99c1faa1cd8f0fc738ff8d8707";
"f3c1f2ec760d4d7c9cefa5cb0fd5deaecb8f4975f54605967f7b975f02fedec4f23e3e2c16b77b9f63fe27fff2f3f87b";
"9bcdfba4cbf727fe89ba3cf95d17f771059617ed788b76a65f32edeccf894a97f8594b97581779efadc0f2a2c50bcfdf";
"42bc0ff72d09b8be95f7941866e6b9bc0ff7ad99b8be95f7941866e6b9bc0ff7ad99b8be95a79814b8930287ff8cd686";
"9d391c2387ed4e02665c30076c94275d22553ef37d899590f72d0a2c7fa38500581666a3a5d28b4735c07eb2edcddd8b";
"4b97f87d7aab2e4f7ed7c5bdaf40e9375a2c8fa86d7440909fd908e7293ecc6b16f345dc91c731e46796739f768d79a5";
"cbd39e9cf8ee28f0d3cfbffef2bb0798f9e7c6b10c3c86ddf361c2016be53306f2d9f7a4ebd69cd2257e929fac4bac88";
"bc4f5420fae7c697166db644b01c7d1cfe11d1503b5333827b460eb8fb5e98c5c7e1f7f9d13d6a676a229c2b7ce0ee7b";
"63161f87dfe747f7a89da98970e49302550a448b76e94707bd97ba17af1ae86e38bdb97bf1bbcd53c5a737772f5ec523";
"c3b1658d4f9623bf14d8516069d15a433b1cf8e03e22c28708df3e321bd58ffaee7250a009e686f573b03fd3037e5f3b";
"732f5dda6a5568dceea0a814f8f66d79d1423cbca8b0e6e7eb2c0f39de227fc602c36af87a06a33a173c60336e88f7ec";
"0a3f6066bd5730776bc00936e38678cfeef251bd14384381eddfde65dfccec30f037b488782f6e353854517dcb070ec8";
"19e183dca32c38f5e6eec58d9f74899fd2aa2e31da77ef1dde9d163fc59ea940f937daece5cffc916c23cbc7d7f99a99";
"7e1eabe21efdbdf5d8887b7f74ef678c72bccfd7ccf4f35815f7e8efadc746dcfba37b3f639493f97cadbfcfeae49702";
"330a6c2f5abc9866f970c06f64d83f436e36977b9ed937e2092ed2e5ffd5b9932e60064eb8979502d50a6c2f5a2c5158";
"23c82f2efbabc94778dcdbe267f70727f485353f73633f6a8eb4dcdbfa9cdd1fb3a12facf9991bfb5173b4bda2e7d133";
"09ff5e0a2cff8cd6bf9c7c58a211a3b8c788ea567cd60bd851df15ccd11af4457eaf7f14f718c0dab5d2e5ab82ac75f4";
"2cbe56c82305e615d8fe46db6ad97b717bf116762f66d847e2f7fab7e23d5ebd780bbb17932e3f14d292fda185ae8e55";
"60e94f861d4b49e852e03c056cd91ef93f6ce74da24e7751a0ec4f86dd6520f19002bb0a68c9ee2aa8fa11050efdd1c1";
"0801e54801292005deae8016eddb9fb0e6930252e07205b4682f7f04222005a4c0db15d0a27dfb13d67c52400a5cae80";
"16ede58f4004a4801478bb025ab46f7fc29a4f0a4881cb1558fe93613de6f8cde0feb7cf64fe1ededbe2d0c1e6f21abd";
"6dd6dd79a09574da5552f5572970c8a2c5c1b86aa8a8ef0ea7230ff891d8910e57faec19d8bca3f64aaeea2d052a1538";
"64d15612acc0da59b2d61f8ba1820bf0aab07a38bbb367f8b3ff03011e3376b647c6557e2970b502af58b438bc9998ad";
"038bda564e862bffb802a6af69ddb340d4f38012b26f50e023fe631896a97f6099dfe7addc033bb38689a563d7599ef7";
"5bee537f61dec8f24cbc6431bfc5ed3afb70bdaea5c0dd14d8fa4b65eca58f0e0d1f0e1f8700decff7c899b1cc05753d";
"4cf0b4bcca5fc0adc434ac6a9ecc0f9ccfe8c17d718d6765f7cc01bc909759aec972e49702672810fda532db3f3ac041";
"f016038dfa396fe5d0f81adcc31a1ff40037d8cc6f71ae47fedb6c6bfe2366354dad27ec680fe47b3b5aaf3c29709502";
"db8bf62ae267f4b503bdf36bb71ebd8f5e84585ce877861dd186e746beb76770550f29b0ab40c9a2c5cb0f32d101f1b1";
"560d728fb2beb7ef03fe667bb9beb6fa1e5caa7119ef8c1edc6ff61acf003cfdfd2c9ef2a5c0d90adce63f86e1f09c2d";
"801d5e1c60dffb2a4ecce30c0e67f4e099a079a63be78e5c9fcd7f849372a4002b50f28d960157afab0edd6affa8ce38";
"551de299f9b8e74c9d9f61a576a68679faded1bde51b7e647dfe0c0f5fab7b297037053efe1b6deb81cc2e9223b02a39";
"b4f89d15c33cdefafebdb8cfd7bd14b8b302fa46db783af8f6d548190ef137342c115fcc3988453ec49e62676718cdcf";
"747c8a2ee2f9390a942cdad6c1c86299ff4ed2571e64c35a9979b5ce741ce5ef798dd65df5ac8cefdd395ea58dfade53";
"8192457bcfd1f659551e68bfcc46d9add6ede057ce6d3c469722cfea6b38363a9bf2a4c05d1428fb192d0e062c06c43d";
"6ce6f771e4ed5a3ba0ab87b492d32ad66add8a6e47f7c273c86c8bf3d1dc5abd159302bb0a942c5a1c02584f0a7e58c4";
"716f16870fb115cb1876cdf7bb782bf55cb3ca65b58e7b67d78c8d67815c8ec1576181eb6d0f1bf9c8f3f7f0cf58c3e0";
"cf4cad72a5c08c02b7f9d1c1eab21d39707e898c0ab45a17e1f37c239c81c175f055d8190e15fd1883759de551a547d4";
"d77ccc8d39eb5a0aec2850f28d7687006aa3171fb1156b07069facbed7b317cf7023ff2ad66a5dc4013e8fc9cb85af7d";
"1eeacfb6d53c8087f703d6e642ecec19d5efdd0a3cfe1bad1d121c0e5e12d163e3386a2ccf63705e84b3e2f33d4631b8";
"6eb4a695c7735b5e342bf7b4fc28a7d5e3acd80a37cc7fd799ced24e7dce55e015df68edd0cc1c1c1cb6486a8bb5e251";
"cd886f1573b52ee2e4b15a9a71ccea7c6d843fea03de0826e78013acf5e3f8487fae1dc9578e14a850a0e41b6deb65cf";
"6299bf62a81686ef8b83078bb859f85a78a3b1552cab03a7d15e519ec718e1e37b576a026cd81e67cfb7551761795fe5";
"2c1e5bf752c02b709b6fb49e58e5bd1d2a7c18d71f5e8bb12faae1fa23aeada7fdf276a517f8030b183c237c99f5b9c0";
"ccf247fcc0f4966b3d678ef9eb995caee53a5c8313e7e95a0aec2a50f28db6eae5c4cbbe3b14d747983dbe168fea18f7";
"c86bf486adead59b3beb833ae663d7f06775de9fe533aeafb1fbaccefca89de1e3ebd033eb83b8ac145855e036df6871";
"605607c9eaf8f0d835df6735e6471e6c2bf78cd82e8fdd7a68021cd82366676cbe8e7a210e1be5443e9fefefa31af9a4";
"c0aa025bff66d86a53d54901292005deaa40f46f86dde61bed5b45d75c52400a48012d5abd0352400a48818315d0a23d";
"5860c14b01292005b468f50e48012920050e56408bf66081052f05a48014d0a2d53b2005a480143858012dda830516bc";
"14900252e0f0456b7f10019fbbcb5df98726aab0a05d055e05c619cf10339fd14b3da4c0190a94fc11dc33881ed5c32f";
"1fbbdffd5342c01cc542fe5133326ec469b6ffae3ecc47d752e01314f8a8453bbb50565f005b44e805cbbe59dc8ac506";
"1eb3bda37cc3aae01461cb2705dea8c0a18b960ff7d907937bf71edc11dc0c93396039b18f79651c2c1fb59c5f799df5";
"f63dc07d34dfd7eb5e0a7caa02db8b1687af27e068deca211ec5668e2b7db87ee4da7a786ef0717fcbb10ffb3c7e2fee";
"f3f99e39b47a704deb7a874b0b573129f05605b617ed1d84c1f2f25ce08745bc62d900ab67b35ed1b2f2beea059971b1";
"19b8d7ea4cbdbacab8d7aa125b5852a05a81572c5a13255b2299bf5ac81d3ce3d85a74d53370af15ecab971cf8c3aecc";
"b0f3bc542b056615285bb43b2f3b0ecc2cf923f299cbce4c23dcacd7193d322edc9bafb37c683392eb3150ebfdfe9eb1";
"47f4e17c8fa57b29701705ca16edc8a1b8cbd0a3877e852f63674bc0fc9cc77da023e21906d764d7c0b03870d897d55d";
"e507c7567fe63f92dfc2524c0a9ca540d9a2bddb4bcf077256ccaa598c83c7f2bcfcbd71655f8431320f63784cbb072f";
"9f37830d8c919a56ee2807ce6be18df0518e14385381b2456b87e0ca979f0fe18c80d59c81073eb0f0cf7043ee8ab6d6";
"0fbd81536d5778790e3d8ee8c1793b5afafeba9702672850f64770eff8f21b277c584cf88ee4ccd8d1357c99f57cf97e";
"f4dab0f1e11af4840ff7def6e2c847de51564bf62865857b9602dbff66181f820ad2471d5ee679548f8af999a7e15570";
"65cc08cfe2993fe290e5afcc1f7183cf38e13ae2b1d24f3552e06805f46f864d286c071c9f89b2ad54bf54a2e5b7d3a0";
"85373a2b38c2eef0618c8c5be6dfe9ab5a2970b602653fa33d9bf84e3f3ee03b3895b5cca972b9302ef8c217f5b158e4";
"b75ad4d9759663b1d95fa3582d6eb33d952f05ce54a06cd18e1e9668383ec0517cc55781b933133883c728d6681ef05b";
"16bd91e3efe147cf2c6e791c433eea572ce3f5eaad1ff2cd56f4eff5545c0a542a50b668af3c0038842bc29c75684739";
"f6f2aaf8f67098075ff7ea569ec16c8df1a9e471b7f966f550fefd15285bb4952f7e956ccce98ac3e47bf27dd58c2338";
"ac432b1f79194fc45b182331c61fc5b43caeb3ebd1da1627c66ce52926057614285bb4552ffeca3015072eea5b3513f8";
"c166bde06fe52167c4cee2f4964e851edc63969fe5737d059f111d952305761578f5efa3dd15c7eaf960cfe0add6cd2e";
"9f194e98c7b8797e7c6f1c98075f73de4a6fd430267c23d6d745b38ce064393bf36598f24b81b2458b1774d5def95160";
"a633381ed1cb30f1e119e0e39e7e91219ffd9c8f78cf720d63f5eaa27854cff8514de6f358fe3eab935f0acc2850b668";
"ad295ef6593b43f88adcd9c387f98deb6ced6c7e4b0fe3c15c906b3df081cf6caf37c7235cc6f2d7a885f5f1d97bc361";
"2cbe5ec19aad51be149851a0ec67b4334dafce9d5d12337c197be5f05bfd4a5d8f638699f9333ccbe719b3bcc89ff55a";
"c5b31e1966d43ff3edf4cf30e59702ac40d9a2dd79e1cf78d15717c4ec5c337da2b967fbf1c3f4d72b5811a70a5c8f71";
"977b9e7745afbbcc211ef756a0ec4707fcc2de75643b48384c231639b3f3709fd9dabbe5af6a3033c7193d223efcce5e";
"c521e225dffb14d8fe4b65de278926fa24056cd96ac97ed2133f7e56fda532c76bac0e0f53404bf6610feca174cb7e74";
"f0d0f9455b0a48012970b8025ab4874bac0652400a7cba025ab49ffe06687e2920050e57408bf67089d5400a48814f57";
"408bf6d3df00cd2f05a4c0e10a68d11e2eb11a480129f0e90a942e5afb3d89fc9bc0af12b7c5a1c5b1155b9965166f36";
"7f85d348cd913c0c7be617b8ccd6cdf450ae14385a81b2457b9783001eb02b02eed4cef4ebf5b1782fa7d70f18bb38bd";
"3e237170801da9d1ef731d5149397757a06cd16683e250cdda0cafe7e783899ebd1a8b732e638cd4aee4a01f6c0b6324";
"a7558f18e3d875f6e1fc5e0e72472ceb0adc5e9de5e9971478ba02258b960f031f268883f8ac45fdac8d388c62ecd48e";
"f6e0bc563f8e413bae1db9368c0a9c915e2339ccc5f27b73f9fc911eca91027753a0ec6fefba72b0d661cd6233fe330e";
"7bc6c77a67b119cd3d4e6b26f46be5ccf4f6b9cc053dd0d3e7f27d2f07585ca36b29700705b6172dbffcd18b1ef96c70";
"d465f119710c0378337547e51a179e0bf76cb3de5c879cc887d88c8d709893c5ed9e7f45f108876b46ae2b30b84f351e";
"63eb5a0aec2ab0fdb777f1c1c4cb0e1fee23922339515de40396c55a3da3daccb78ac97519f68ebf6a3ee3b0c3b59207";
"73f1b8cc7126b6a3b16aa5c08e02d1dfdeb5f58db675088ca8c5fde1d81920abb51ecc05bdb3fc9eff0cce3d0e67c4b3";
"39a165163f831b7a44cf1631d83bf0041759291029b0fc1fc370180d945ff4cc1f35aff2714fc3f4f7557d46704c0b7c";
"908f7bd6c962fe9ef3398e3c58e4f5ace9800fe7429fcc22378bc38fbc116b35f88ce42327eb95f951272b05eea4c0d2";
"8f0e465ef2de5200462f6f55ac597ce45bbf2a4ec0ece18de6cd6a015cd48187f7233e6b813752e77bfa5ac4bddfb0b3";
"98f9a3fc113eca9102472950f6a3037bb9f1f24764af7ef9991b5f475caff61dc9cf3f27eb75d5b3415fcc0b0b3f9e03";
"fcb867eb63be9673752d05eea4c0f2cf68fd4bee0fc195431ab73bf119d5a2c7d96b3e828b1ac6866fa4be3a879fcd2e";
"0f9b6917a37a3ee149814881e545cb607739c4cc69e500f21c8c55710dec155e15fda3bee0348b1f61cd60ecd6cff452";
"ae14b88302db8b960feb1d0e90f1311ecc6b566860ccd665f91917f667da21278b673d9feae76797cd0c4d9e3aa3787f";
"9e025b8b965f781c8ac87796ace80d3bd317fc676a7c6eaf2ff7f0b976cf71c3f639bedfec7dd4c3307cdf0cb7924fc6";
"857bf772467933a6aea5c0150a2c2f5a7fe8fcbd0dd33b28d5038f1c3cf01cc99de56798c0e7dad15e995ea3f5dc33bb";
"8e7a449cb3fa4a7fc4c5f0331d2d761557ebad5f52605581e5453bd2b07241f4facd1ec0d1fc95195093f5607f96cb39";
"bdd9df1c371da0d19be7d46cef56607bd1bef910acccb652c3af985fb0bb78c0f6b8f09b1dedd1c260bcdeb5c7f1f7e0";
"04bf59e3887bc47b7d14970277516079d18e1eceb3061de583c33a9a5fcd1ffd0d9739d835c77c7c8707e372cf1dccd5";
"da1617cf8d3569d5ad72519d14384b81e53f82db226887820f462bb72a867e3d8b7ebd3c1f47dd8e05a661f8a5b283bb";
"5b6bbc463ebb7d56eabd4efe7e05533552e06c0596bfd182282f0ff8ceb6e0306ac16f361f752b16bdac365a161c07be";
"f9a25cc4676d25d66cef2c3f9a9b737dbc5a13eea56b297094024b8bd6bffc19b991bc2c676629cce4a2df4c4d36df8c";
"dffa59efa82f38191ee2f0c1c23fd3d37251dfaa1bc51ec16af5e17adfd3df73ae615a1c3e585fd3eaad9814b85281a5";
"1f1d642fb8f9f9b333180ed30ec615b5e00dcb1c58378be3831c8ec3071be1219659ae696167f595fe512e5e13e300ee";
"b0e015e522262b05eea4c0d2375a1bc0bff4d1502339515d958f0f7715660fc766eef58de25e2bdc73ae5dc3dfe361f1";
"112e2d1ceeddca5b8d797c7f1fcd1acd34abcb2a5fd5498155059617ed6ac3b7d7f96511cdcbcb225a265c83f8082ed7";
"e19a7bc1376aa35af019c5405e54077c1ff3f7c080e5f8aa2ec09295026728b0f4f7d19e414c3da4801490024f5420fa";
"fb68977e46fbc4e1c5590a4801297095025ab45729afbe52400a7c8c025ab41ff3a835a81490025729a0457b95f2ea2b";
"05a4c0c728a045fb318f5a834a01297095025ab45729afbe52400a7c8c025ab41ff3a835a81490025729a0457b95f2ea";
"2b05a4c0c728f05f19151b317f75ee8a0000000049454e44ae426082"
].
