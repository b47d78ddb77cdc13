(** GENERATED by tools/gen_fonts.py from /repo/src/fonts/hanzi.rs -- do not edit.
    MAX_HEIGHT, M3_SEED, match arms, HASH_* and OFFSET_* tables, DATA. *)
From Verif Require Import Prim FontDefs.
From Verif Require Import FontHanziData0 FontHanziData1 FontHanziData2 FontHanziData3.

(** HASH_CJK_SYMBOLS_AND_PUNCTUATION, src/fonts/hanzi.rs:127-160 *)
Definition hanzi_hash_cjk_symbols_and_punctuation : list N :=
  [0x7ef7078; 0x18ffc9d3; 0x20043384; 0x20f4c187; 0x2e47ebd2; 0x2eeb10d3; 0x37b7dc43; 0x3b778e7a;
   0x3cadf704; 0x43fed4fd; 0x5197037b; 0x5dd0aae3; 0x6b765a2c; 0x70c00fc7; 0x88a68cea; 0x890c94fb;
   0x8d9fd2f3; 0x99c6b3b0; 0xbcd74ad2; 0xc573dbde; 0xd0947103; 0xd90177a0; 0xdbaec3c7; 0xdbf98a07;
   0xe044e29f; 0xe3b7574a; 0xe3e2ca01; 0xe553912c; 0xe812c525; 0xe9da14a8; 0xf6735a50; 0xf893f4d4].
(** OFFSET_CJK_SYMBOLS_AND_PUNCTUATION, src/fonts/hanzi.rs:163-196 *)
Definition hanzi_offset_cjk_symbols_and_punctuation : list N :=
  [272250; 273207; 272712; 273075; 272844; 272811; 272976; 272646;
   272943; 272217; 272283; 272778; 272547; 273174; 273108; 272448;
   272481; 273240; 272349; 273141; 272679; 272415; 272613; 272910;
   272745; 272580; 272382; 272316; 272877; 273009; 272514; 273042].
(** HASH_CJK_UNIFIED_IDEOGRAPHS_EXTENSION_A, src/fonts/hanzi.rs:209-291 *)
Definition hanzi_hash_cjk_unified_ideographs_extension_a : list N :=
  [0x819189; 0x12b2eaa; 0x2662af0; 0x303b8a2; 0x3d13e53; 0x6242551; 0x8177b57; 0x86529fc;
   0x95ac6aa; 0xa65f067; 0x12af9fea; 0x156706e8; 0x15e4d72e; 0x1778cee7; 0x1a8566a0; 0x1fbccc5a;
   0x20897a64; 0x2447c21f; 0x292b92c4; 0x29a8fc82; 0x2d9529cb; 0x2e56591b; 0x37bf33ff; 0x3896d409;
   0x4489d71b; 0x460eb030; 0x49077dd8; 0x4d744d21; 0x4dc4a510; 0x5006d5b2; 0x52daed16; 0x536f44f0;
   0x5d3c0a91; 0x5d91c354; 0x5f4f92b6; 0x63bc4849; 0x66b9f44b; 0x67144ebf; 0x6b85e482; 0x6b8c03e9;
   0x79e33977; 0x7e795ff0; 0x81e919b1; 0x82c8a9fe; 0x84c77164; 0x8b7677c8; 0x8bf123c9; 0x8edddb94;
   0x9117df40; 0x926bcd88; 0x952ca5d0; 0x9b37e331; 0x9d4a4e78; 0x9f4b9754; 0xa391c062; 0xa4596dde;
   0xa5053d95; 0xa5e5a60c; 0xa6a38521; 0xaa25e454; 0xb3dc7252; 0xb4ebdc86; 0xb99cf6f7; 0xbc317702;
   0xc0f89ce1; 0xc808b5eb; 0xca1e529b; 0xcd9d5337; 0xce08826b; 0xd3d6ce57; 0xd4795b4a; 0xd98ffb6e;
   0xda706ffe; 0xdb3279b9; 0xe18f6424; 0xec673fdc; 0xee952121; 0xf356a17b; 0xf3771c35; 0xf62c0a55;
   0xf7eac9fb].
(** OFFSET_CJK_UNIFIED_IDEOGRAPHS_EXTENSION_A, src/fonts/hanzi.rs:294-376 *)
Definition hanzi_offset_cjk_unified_ideographs_extension_a : list N :=
  [1452; 297; 594; 429; 231; 957; 1881; 1650;
   2178; 1980; 1584; 2607; 2475; 1221; 825; 1947;
   1485; 858; 1551; 1716; 1155; 2046; 1782; 0;
   1848; 2442; 2277; 2244; 165; 2508; 396; 2112;
   1254; 330; 1386; 561; 990; 1914; 1188; 792;
   693; 462; 363; 1287; 1815; 891; 726; 2409;
   99; 33; 1320; 2145; 1089; 2013; 2541; 2343;
   2640; 1023; 495; 2079; 2574; 66; 759; 1419;
   1353; 528; 1122; 1749; 1617; 2376; 1056; 1518;
   198; 627; 924; 660; 264; 2211; 2310; 132;
   1683].
(** HASH_CJK_UNIFIED_IDEOGRAPHS, src/fonts/hanzi.rs:389-8362 *)
Definition hanzi_hash_cjk_unified_ideographs : list N :=
  [0x33fd; 0xe1f07; 0x121b2e; 0x1fd17b; 0x2182f7; 0x34d4e3; 0x36f434; 0x3d4987;
   0x3eb294; 0x5207a2; 0x54cdef; 0x56a959; 0x8c6aba; 0x94bd55; 0xa15dac; 0xccbd06;
   0xdfab05; 0x1028074; 0x119ecc6; 0x11afa84; 0x121230b; 0x128e1a2; 0x12f8503; 0x13ab113;
   0x13c76d9; 0x13c915b; 0x140614c; 0x15b077d; 0x163e1ee; 0x1651e97; 0x16ccc77; 0x16e60de;
   0x16ff2c4; 0x18b00b1; 0x18f8796; 0x1a8a8a1; 0x1a9d4fe; 0x1b76433; 0x1c15338; 0x1ced252;
   0x1d62cd6; 0x1ddb65f; 0x1e7f28e; 0x200a8fe; 0x20d19a9; 0x20ddabf; 0x2189970; 0x219ed0c;
   0x21daa4c; 0x2258fa6; 0x245961e; 0x2487370; 0x251939a; 0x2534bef; 0x2565555; 0x258b3d9;
   0x258cd2e; 0x25e24db; 0x2654e14; 0x2739354; 0x27943f7; 0x27bf2ef; 0x287bc21; 0x2892e40;
   0x28c9bfd; 0x2941fad; 0x29673c9; 0x29857d9; 0x2b0d85d; 0x2b3be5f; 0x2c108f0; 0x2c35771;
   0x2cc8a17; 0x2ce9fd1; 0x2cf8890; 0x2d50049; 0x2de1eae; 0x2e43849; 0x2eeca5d; 0x2f032d3;
   0x2f5a976; 0x2f7bc5b; 0x308b801; 0x30cd364; 0x310dd74; 0x312fc09; 0x313b827; 0x3158404;
   0x317b923; 0x32423d4; 0x3393e37; 0x33e4cd6; 0x3401e23; 0x34b2b2f; 0x35906aa; 0x35ed849;
   0x366573e; 0x3821679; 0x38311f5; 0x396082f; 0x3986de6; 0x3ab85f0; 0x3b10107; 0x3b9965e;
   0x3d332ff; 0x3d7a638; 0x3e49e77; 0x3ead9c3; 0x3f87ca5; 0x4040ebd; 0x4055f15; 0x409bccb;
   0x414fec0; 0x4171651; 0x4173f43; 0x41c3448; 0x4225255; 0x4245068; 0x42ac07d; 0x42f84b0;
   0x430f077; 0x43f9b31; 0x45314b1; 0x45b321b; 0x46b1674; 0x47d3e3a; 0x4aaea7e; 0x4b10a9f;
   0x4be8120; 0x4d00bd5; 0x4d44ffb; 0x4d549d6; 0x4d5f07a; 0x4d6474b; 0x4dd355a; 0x4e0070a;
   0x5008095; 0x515b263; 0x51ce01a; 0x51e5e36; 0x52399dc; 0x52c532f; 0x52fdf81; 0x5312cc1;
   0x53f77a0; 0x543bd92; 0x5565373; 0x55baf0a; 0x55e21bb; 0x5633bf8; 0x56a3813; 0x56ac310;
   0x5759419; 0x58033cd; 0x586e848; 0x586ee24; 0x58ae6e4; 0x5947154; 0x59879fe; 0x5a311e6;
   0x5ae4c7f; 0x5b17f6c; 0x5c5f4e1; 0x5c659d9; 0x5cbd242; 0x5cf04f9; 0x5d08642; 0x5d4dca7;
   0x5ddd446; 0x5eb1886; 0x5f572a0; 0x60544f0; 0x608ea53; 0x624137b; 0x627cdcb; 0x6289ce9;
   0x62acd52; 0x63b1ef7; 0x64a8b56; 0x64c3cfb; 0x654f0d4; 0x66a363f; 0x679ee21; 0x67d8f64;
   0x6855497; 0x6898585; 0x68d5564; 0x69affbf; 0x69b8a46; 0x6a16fbb; 0x6a18005; 0x6adac6a;
   0x6b1bd76; 0x6b9dad8; 0x6c79caa; 0x6c9a492; 0x6caabd4; 0x6cd2ec1; 0x6cec858; 0x6cee49d;
   0x6dfedd0; 0x6e57d58; 0x6e5ff4e; 0x6e78966; 0x6ee1702; 0x6f5175e; 0x6f5338f; 0x6f75517;
   0x7175b04; 0x726d544; 0x72b2b00; 0x72b9771; 0x72be81b; 0x72d5293; 0x72e9884; 0x7321df0;
   0x736c95e; 0x7424bb7; 0x75c40f4; 0x75c7dca; 0x767f8e2; 0x771cfbe; 0x77ca9cc; 0x7832aeb;
   0x79516cf; 0x79bdcd5; 0x7a33c2c; 0x7a3df70; 0x7b1cd47; 0x7c27eda; 0x7c3ef69; 0x7c3fe8c;
   0x7cd6f82; 0x7cd980a; 0x7ce12ad; 0x7deefdc; 0x7dfaf01; 0x7e9a04d; 0x7e9c14f; 0x7f9f9b0;
   0x7fa8503; 0x8062036; 0x80cc866; 0x80e66ad; 0x81b429c; 0x820394b; 0x829100d; 0x8328a21;
   0x8393131; 0x83ffeaa; 0x84715cb; 0x85414d2; 0x8544380; 0x8940f1f; 0x89e36d7; 0x8a4b211;
   0x8a6c9a6; 0x8ad7437; 0x8b38246; 0x8b67e8b; 0x8c44230; 0x8d63d62; 0x8d81b7c; 0x8d88f1e;
   0x8e2469d; 0x8f22b92; 0x8f5eaa3; 0x8f7dd51; 0x8fd8800; 0x906a5e7; 0x911c827; 0x918849b;
   0x932d69f; 0x93957a4; 0x93be895; 0x9497835; 0x94bcbda; 0x9620450; 0x9654e00; 0x9731a0e;
   0x976204e; 0x9942320; 0x9aba530; 0x9bd8e53; 0x9c96a2d; 0x9cd6ead; 0x9d1b8bd; 0x9e1866f;
   0x9e389c1; 0x9f033aa; 0x9f6a25f; 0xa0775d5; 0xa135538; 0xa1f4a86; 0xa310b9b; 0xa368dbb;
   0xa388a51; 0xa3c28c6; 0xa3c3e25; 0xa41c6ea; 0xa439b56; 0xa480bfe; 0xa58ab60; 0xa64d4d9;
   0xa66d5ee; 0xa6809c1; 0xa6a4387; 0xa6be053; 0xa6f421a; 0xa786942; 0xa812fbc; 0xa83b302;
   0xa934249; 0xa938f52; 0xa9bc643; 0xab668ed; 0xac43a68; 0xacbe1cd; 0xae51c64; 0xae53a48;
   0xaed0d11; 0xaffb057; 0xb113053; 0xb19dec5; 0xb1cace7; 0xb1eafea; 0xb263d2a; 0xb2a63d5;
   0xb2c55a1; 0xb418b0c; 0xb4376ca; 0xb4394e2; 0xb4b5387; 0xb5ba518; 0xb5f2dad; 0xb695d0b;
   0xb6c5b35; 0xb765dc2; 0xb9a0f60; 0xb9bbd78; 0xb9f70f5; 0xba75ec8; 0xbb6a310; 0xbb8e4e5;
   0xbc03b11; 0xbc8f555; 0xbcbc2bf; 0xbcbd505; 0xbce6e1f; 0xbd76990; 0xbda259d; 0xbe9e746;
   0xbea430e; 0xbfc0e8b; 0xc005ca1; 0xc042d3c; 0xc0f0322; 0xc13306d; 0xc14469b; 0xc2ac37e;
   0xc3847d4; 0xc3ac0af; 0xc5611c0; 0xc6e5ca3; 0xc766f97; 0xc7fa77d; 0xc80b3f9; 0xc90d8a3;
   0xc95987e; 0xc98226d; 0xc9d640c; 0xca6a355; 0xca6f7d4; 0xcabb80e; 0xcb19136; 0xcb247d8;
   0xcb54065; 0xcb64e0f; 0xcc12747; 0xcd126e8; 0xce1349a; 0xce2a823; 0xce3afb5; 0xcfafe05;
   0xcfb8660; 0xcfc0bf3; 0xcfc73a9; 0xd07696e; 0xd163df2; 0xd174ba0; 0xd186fa9; 0xd18c6ef;
   0xd1bb649; 0xd1bd8fd; 0xd21c2f3; 0xd2667a6; 0xd270e04; 0xd3839c9; 0xd397057; 0xd4053fa;
   0xd424acd; 0xd47ea15; 0xd52f1af; 0xd551a25; 0xd57f837; 0xd5de98c; 0xd5e90d1; 0xd6635f8;
   0xd6a8c8c; 0xd839f71; 0xd8e58d8; 0xd919c7b; 0xd9613d8; 0xd9b7cfe; 0xd9ddfff; 0xda0af0d;
   0xda91f70; 0xdaa9468; 0xdadb969; 0xdc2325b; 0xdc9911d; 0xdd213b7; 0xddbb34b; 0xdefea7a;
   0xe090ad7; 0xe0fc265; 0xe18eed3; 0xe1d1ec0; 0xe212d0f; 0xe27d0f0; 0xe2f8d56; 0xe3ac8fb;
   0xe4176d9; 0xe449adc; 0xe46249e; 0xe47ef36; 0xe4de0c5; 0xe4efb19; 0xe4fc433; 0xe510cb0;
   0xe5c1af3; 0xe5d822a; 0xe63afc9; 0xe754c6f; 0xe788aa8; 0xe7ccb4a; 0xe907402; 0xe951b4f;
   0xe96ce7c; 0xeb00d13; 0xeb446d6; 0xebb4b90; 0xeda0402; 0xeda8060; 0xee5b9ac; 0xee95438;
   0xef7435b; 0xf11b8c1; 0xf11eb0f; 0xf22a459; 0xf2a09b3; 0xf2dd63f; 0xf3045b5; 0xf3e239b;
   0xf49009a; 0xf54f9d7; 0xf56fc06; 0xf663133; 0xf78c67a; 0xf81212e; 0xf825f13; 0xf82a5ee;
   0xf86a15d; 0xf8cd30a; 0xf9d8ee9; 0xfa77eba; 0xfb22bb1; 0xfc0a271; 0xfc0ced3; 0xfcb285b;
   0xfcdd12b; 0xfd9e020; 0xfdab415; 0xfebbb30; 0x1003c3c1; 0x101a04c3; 0x1021f38e; 0x10322d47;
   0x10430b4b; 0x104cd7dd; 0x104d8554; 0x104fc6ff; 0x105a9838; 0x10654ac9; 0x106d91cc; 0x1074ffda;
   0x107915ee; 0x10829e07; 0x108c0300; 0x1094be30; 0x1095b156; 0x10a2b846; 0x10a80af0; 0x10aad50b;
   0x10afa7d5; 0x10bfaeda; 0x10c8e847; 0x10d27da5; 0x10d3a7b0; 0x10e6f684; 0x10e7b0bb; 0x10e87056;
   0x10f27377; 0x10ff1c59; 0x110b2836; 0x110c23bd; 0x110fa308; 0x11230474; 0x11241129; 0x1126af19;
   0x113fb299; 0x11419612; 0x1147939e; 0x114e101f; 0x11543ea9; 0x1167fcde; 0x1168771b; 0x116a07a0;
   0x116d8c85; 0x116f900f; 0x11786eba; 0x11841cc6; 0x11851072; 0x11985ad7; 0x11b20424; 0x11b2a783;
   0x11c350db; 0x11c72bea; 0x11c949cc; 0x11e78174; 0x11eaba2a; 0x11eb8987; 0x11f17400; 0x11f7d602;
   0x11fe4cc9; 0x1202e111; 0x12037fec; 0x12183b6c; 0x1218a445; 0x121f0a7c; 0x122a36e6; 0x122a3eaf;
   0x122f109f; 0x12317244; 0x1233054b; 0x124b842c; 0x1272e1a4; 0x1275b5e4; 0x1277a093; 0x127cf760;
   0x1285dc37; 0x1296bf65; 0x12ac4a6b; 0x12b3242a; 0x12ba088e; 0x12bfa8a9; 0x12c77705; 0x12d125d2;
   0x12d6c45b; 0x12dd7f02; 0x12dfbf1b; 0x12e2250e; 0x12e68afd; 0x12f0143a; 0x12f57a3b; 0x12f78266;
   0x1308a7cb; 0x1309cc93; 0x130a0a1e; 0x130ddaa3; 0x13110d92; 0x131b4496; 0x131cead6; 0x13209454;
   0x1325749f; 0x13298fb3; 0x132f76b8; 0x13306080; 0x133684c6; 0x135210c4; 0x136d6ede; 0x136e4f0d;
   0x1374bff7; 0x13789be4; 0x1379b0cc; 0x13a454d1; 0x13a4ddc7; 0x13a8622b; 0x13aa6bd7; 0x13b3522d;
   0x13c9dc69; 0x13ddd09b; 0x13e6b2bb; 0x13ee7974; 0x13ef1b10; 0x13f329a2; 0x1404102c; 0x14079dc0;
   0x1408248c; 0x140df6ea; 0x141f2e65; 0x14289064; 0x142aedcc; 0x1430935b; 0x14600e48; 0x1461bb56;
   0x1472f39e; 0x1474c8f5; 0x1486750b; 0x148748ed; 0x14891262; 0x1495eb35; 0x149cb01d; 0x14a951c6;
   0x14ae81d9; 0x14cbf474; 0x14cfa297; 0x14dc9367; 0x14de985a; 0x14dea0fe; 0x14e9100b; 0x14eaf963;
   0x14ee18a1; 0x150526e2; 0x152e13cd; 0x152f0414; 0x153987bc; 0x153aeee0; 0x15594bdf; 0x156ca99d;
   0x15794883; 0x157b44bd; 0x157d2924; 0x1597369b; 0x159bf087; 0x159d1014; 0x15a7b2f1; 0x15a93f48;
   0x15b251f4; 0x15b980f3; 0x15be2d61; 0x15c40e3c; 0x15ca646f; 0x15cd5147; 0x15d6b74b; 0x15df754a;
   0x15eaf311; 0x15ebcbe4; 0x15f14a28; 0x15f857d8; 0x15f92f80; 0x16065926; 0x160eb5b9; 0x161d55e0;
   0x1626bff6; 0x1637ebfe; 0x1640c3cc; 0x164181b0; 0x1646a900; 0x164bb202; 0x1654ace4; 0x166a6f64;
   0x167d3db3; 0x1685d36d; 0x168b648f; 0x168f35d2; 0x168fb564; 0x169690ce; 0x16a821ee; 0x16bae8fa;
   0x16be6525; 0x16c2545f; 0x16c6683c; 0x16dea6f9; 0x16e4dc8e; 0x16e5b0c7; 0x16f1adaf; 0x171077ee;
   0x1722a8ac; 0x1730eb30; 0x173b6e30; 0x173b7a24; 0x173d4e15; 0x174243b0; 0x1747044b; 0x1747dada;
   0x17483f4b; 0x174b43d6; 0x1751fd07; 0x17529241; 0x176dce52; 0x176f8c16; 0x177ce3e5; 0x178031ed;
   0x178e4ba7; 0x17930366; 0x1795a31c; 0x17994029; 0x179de1e7; 0x17b632fb; 0x17b6d7f6; 0x17b853ff;
   0x17ca6173; 0x17d63f85; 0x17e306cb; 0x17e697ef; 0x17e7868b; 0x17ec65f1; 0x17ece41b; 0x17fc9b35;
   0x180e4c8d; 0x1814c0b5; 0x18220075; 0x183dcee0; 0x183efb06; 0x184b8c24; 0x18647573; 0x1879926b;
   0x187b1860; 0x18840a76; 0x188a654e; 0x188db7af; 0x18961ade; 0x189b280b; 0x189fdf91; 0x18bb7c5f;
   0x18c909cd; 0x18d29706; 0x18dbf45a; 0x18e14dd0; 0x18e1ff41; 0x18f02ee4; 0x1903be09; 0x1908d0d1;
   0x1916e068; 0x19193eeb; 0x191ea8d4; 0x192f700c; 0x193ee55a; 0x19433a1c; 0x194684a2; 0x194b030b;
   0x194f0aca; 0x1953be1c; 0x1961f628; 0x1969708d; 0x196bec12; 0x19704615; 0x1978a76c; 0x1990a514;
   0x19a28043; 0x19ad14e4; 0x19b54977; 0x19c380a9; 0x19c8b8a5; 0x19e4b4d0; 0x19f49cb5; 0x19f67e82;
   0x1a01314e; 0x1a091302; 0x1a0988dc; 0x1a1ba1b2; 0x1a290139; 0x1a312342; 0x1a37988f; 0x1a3c0062;
   0x1a4cf4d2; 0x1a653c4e; 0x1a67c07c; 0x1a68f86d; 0x1a820694; 0x1a8ecf32; 0x1a9bdb02; 0x1aa58e4f;
   0x1abf8c0c; 0x1ac206cf; 0x1af39c8a; 0x1af42d59; 0x1af5c5cb; 0x1afa2677; 0x1afc6079; 0x1b0799f8;
   0x1b0ff4b3; 0x1b136a58; 0x1b15e17f; 0x1b398d71; 0x1b3e36d7; 0x1b3ebf01; 0x1b42c677; 0x1b438666;
   0x1b4763eb; 0x1b4a45db; 0x1b6ec9ac; 0x1b6ee2a4; 0x1b7ff384; 0x1b8eb556; 0x1ba3b505; 0x1bb9449e;
   0x1bba472f; 0x1bbee09e; 0x1be90288; 0x1bef44e6; 0x1bf21e7d; 0x1bf876a4; 0x1c04a70c; 0x1c0b7f54;
   0x1c0b84fa; 0x1c0c4544; 0x1c116598; 0x1c17bfa3; 0x1c197ed2; 0x1c21a14f; 0x1c317bc2; 0x1c32f84c;
   0x1c359ded; 0x1c388191; 0x1c423371; 0x1c54a033; 0x1c690ba4; 0x1c816aa1; 0x1c82ed33; 0x1c932827;
   0x1ca00a17; 0x1cb9caae; 0x1cbde158; 0x1cbe606d; 0x1cc56182; 0x1ccfa2ea; 0x1cd74bf8; 0x1ce7a9aa;
   0x1cf1ee5d; 0x1cfef5fe; 0x1d106fe0; 0x1d196428; 0x1d2acd32; 0x1d2b530d; 0x1d2d630c; 0x1d31ada5;
   0x1d35cf74; 0x1d3c9757; 0x1d3e28f0; 0x1d3fd221; 0x1d44844b; 0x1d45a5be; 0x1d4bd3ea; 0x1d4c048a;
   0x1d55ea3d; 0x1d588949; 0x1d5c525e; 0x1d5f9244; 0x1d6111b2; 0x1d62e522; 0x1d6727fa; 0x1d68c2a2;
   0x1d697237; 0x1d6b38ed; 0x1d6d0f7b; 0x1d6e7699; 0x1d7aa51c; 0x1d866390; 0x1d8830a4; 0x1d895cb1;
   0x1da7c7ae; 0x1db20c2e; 0x1dba40e1; 0x1dbbad7c; 0x1dcc4119; 0x1dcd44c0; 0x1dcd72cf; 0x1dce42ec;
   0x1dd41aea; 0x1dd52d69; 0x1ddae8f5; 0x1de86d8d; 0x1dec9e62; 0x1dede431; 0x1df26ffe; 0x1df6200f;
   0x1dfee665; 0x1e057294; 0x1e063fb0; 0x1e07e06e; 0x1e195056; 0x1e25c2a9; 0x1e389602; 0x1e4f4834;
   0x1e722e09; 0x1e77b697; 0x1e7e6429; 0x1e812e01; 0x1e89349c; 0x1e9e1eb1; 0x1ea50c9c; 0x1eaa9608;
   0x1eae2a80; 0x1ec204df; 0x1ec9938d; 0x1ed1fe5d; 0x1ee18891; 0x1ef03168; 0x1f0958dc; 0x1f0a0d4a;
   0x1f0b5a17; 0x1f10d434; 0x1f15ddb2; 0x1f1a0717; 0x1f1b0e22; 0x1f263513; 0x1f344901; 0x1f401f13;
   0x1f44ed03; 0x1f533b48; 0x1f576d9b; 0x1f5c8948; 0x1f5d6239; 0x1f614954; 0x1f64cfc5; 0x1f65aa75;
   0x1f6917d6; 0x1f74ba23; 0x1f7fae95; 0x1f7fbe2c; 0x1f85be40; 0x1f8f17e5; 0x1f97bc9f; 0x1f9e9c20;
   0x1fa55a36; 0x1fa8b2cb; 0x1fabce0a; 0x1fb39500; 0x1fb6db41; 0x1fbd7334; 0x1fcc6676; 0x1fd48dc6;
   0x1fd8e028; 0x1fe0e40f; 0x1ff8bbd0; 0x1ff8f241; 0x1ffebb83; 0x2004b8ee; 0x200a96e7; 0x201209f9;
   0x2018feee; 0x201d612a; 0x201d6ad2; 0x20215294; 0x20275459; 0x202d18bf; 0x2034b3f4; 0x20365571;
   0x20491437; 0x2055197f; 0x206750c6; 0x2069a7fe; 0x20757b60; 0x2083ce51; 0x208aaa23; 0x208e5dd4;
   0x20921e6a; 0x2097f2f5; 0x2097fb0f; 0x20990bc1; 0x20a1e954; 0x20a22605; 0x20a44cd2; 0x20b5110f;
   0x20bbca91; 0x20bc1652; 0x20bd99d5; 0x20be3595; 0x20c64cf9; 0x20c98019; 0x20d3fca8; 0x20d70c07;
   0x20d8cc23; 0x20d9a017; 0x20f58b1b; 0x21054c34; 0x2106fb6d; 0x21078ae1; 0x210c0678; 0x2110a328;
   0x212f57b0; 0x213bd532; 0x2143561a; 0x214ae4b8; 0x2156f77b; 0x215b1ab0; 0x215e1931; 0x2166bae7;
   0x216833eb; 0x217ef51a; 0x21857a26; 0x218ddcfc; 0x21b67486; 0x21c9c77b; 0x21cadc56; 0x21d39cd3;
   0x21d75a3a; 0x21de949a; 0x21e323e6; 0x21e8a275; 0x21edda7d; 0x21f47218; 0x21fd1c20; 0x22083301;
   0x220a5c99; 0x22125648; 0x221e72d4; 0x22259c0b; 0x2231efb2; 0x223f3bc0; 0x2243607d; 0x22471500;
   0x2257d612; 0x22589ad1; 0x2275818e; 0x228bbbbe; 0x228c8297; 0x228dbd2b; 0x229630b2; 0x2296f126;
   0x229a1f48; 0x22a513e0; 0x22bebd37; 0x22c08942; 0x22c4c045; 0x22c652b3; 0x22d166c3; 0x22e060b0;
   0x22e0dc3a; 0x22f350a0; 0x22fa167b; 0x22fda127; 0x22fe86c1; 0x23009488; 0x230181ec; 0x230882f2;
   0x23156deb; 0x231ee825; 0x23219f7a; 0x2321f917; 0x23229287; 0x23291530; 0x2333f034; 0x23363baa;
   0x233767de; 0x2337add8; 0x233a1213; 0x2343d6f1; 0x23460db0; 0x23569529; 0x23590cfa; 0x2360c16d;
   0x23612891; 0x23633609; 0x2371964f; 0x23732b0a; 0x237b9ae2; 0x237de2b8; 0x2385c8cc; 0x23949530;
   0x23a2c30a; 0x23b14843; 0x23b3cf1c; 0x23c22a11; 0x23c3693f; 0x23c45c08; 0x23c632de; 0x23d0d3ee;
   0x23d3b0f1; 0x23e7ce51; 0x23ed5249; 0x23fcc148; 0x23ffa542; 0x2408b104; 0x240d5f91; 0x2415956e;
   0x2417d7c0; 0x2429bd2c; 0x242f98ef; 0x243609d4; 0x2442cedd; 0x24458bf1; 0x24498f4c; 0x244a9da1;
   0x244f844a; 0x2450ca1d; 0x24512f04; 0x2461988d; 0x246e4242; 0x2479a44f; 0x24833daf; 0x2489ae82;
   0x249285ae; 0x249a4503; 0x249fb6e8; 0x24a10dc9; 0x24a31e3e; 0x24c63498; 0x24c800a9; 0x24c9647c;
   0x24cfdcfd; 0x24d02fa4; 0x24e03064; 0x24e45f54; 0x24ed81d1; 0x24f4dbb2; 0x24fb7913; 0x25005367;
   0x250728ba; 0x2510249a; 0x25129557; 0x25208128; 0x252a1e2f; 0x25324a78; 0x2536f469; 0x25398912;
   0x253bd7df; 0x25420806; 0x25473446; 0x25484d38; 0x255e6881; 0x2572627f; 0x2584cbf9; 0x2589e5dc;
   0x258d72c3; 0x25a19ae4; 0x25ab6fab; 0x25b50929; 0x25bc0feb; 0x25bceff6; 0x25bf6f66; 0x25c44403;
   0x25c4b39f; 0x25c4ffce; 0x25c76367; 0x25c7962b; 0x25d3c6f5; 0x25e8ed81; 0x25f3734a; 0x25fa5e39;
   0x2604b241; 0x260c5380; 0x260c7431; 0x260f9290; 0x2610760d; 0x26246048; 0x26373e9e; 0x263bf276;
   0x26577e7f; 0x2658571c; 0x26586ea1; 0x26596ed7; 0x265af170; 0x265e3b50; 0x266bb210; 0x266ca753;
   0x267cd3a3; 0x2681c986; 0x26838cb1; 0x2694714b; 0x269aad8a; 0x269ace73; 0x269e7bd6; 0x26a4f9f6;
   0x26a70d25; 0x26b19930; 0x26b79653; 0x26bd0c92; 0x26c8358d; 0x26d8a767; 0x26dc2d56; 0x26dd876a;
   0x26eee448; 0x26f2a155; 0x26f369a0; 0x26f9f7ec; 0x271631b2; 0x2719f84c; 0x271a8399; 0x271f6c42;
   0x2720853d; 0x27237ff7; 0x2723ae99; 0x275bc152; 0x275c9e8a; 0x2762f383; 0x2765ca4f; 0x2768df04;
   0x276c43c0; 0x276fc39d; 0x278b0dcb; 0x278db4b3; 0x27921f38; 0x2793296d; 0x27962a20; 0x27a43e3d;
   0x27a867b7; 0x27bff82d; 0x27c4e6be; 0x27d09008; 0x27d9c5cc; 0x27dd8e4a; 0x27df166f; 0x27e0caf8;
   0x27f8c532; 0x27fd759d; 0x28102c6b; 0x2819f05a; 0x282ebede; 0x28310c4a; 0x2858d9f3; 0x28619ff4;
   0x28630a7f; 0x28736224; 0x2899a53e; 0x28acca59; 0x28b2f91b; 0x28c357bc; 0x28d0a360; 0x28d0b7c3;
   0x28d97d29; 0x28da0b06; 0x28df367b; 0x28e41245; 0x28f101c2; 0x28f13a14; 0x29130485; 0x29205b5f;
   0x2928ce54; 0x29292c60; 0x292b54fb; 0x292e2ef7; 0x293a32f5; 0x294ebb35; 0x29528f14; 0x295416ce;
   0x295640a3; 0x29598fd1; 0x296dbed6; 0x2970f487; 0x2972ba7d; 0x29816c1c; 0x2987bb1e; 0x298e7611;
   0x2992ab3d; 0x2992dbf9; 0x29a0eb65; 0x29a908a2; 0x29b7415c; 0x29bc2768; 0x29c4f37b; 0x29c61459;
   0x29c68e58; 0x29c851ee; 0x29ca52e7; 0x29cf18a9; 0x29cfe78b; 0x29da26eb; 0x29e24672; 0x29f350a4;
   0x29f882f4; 0x29fbe370; 0x29fd2a5e; 0x2a06648b; 0x2a0759dd; 0x2a195234; 0x2a1990ba; 0x2a19e73c;
   0x2a21de83; 0x2a234b99; 0x2a2aea96; 0x2a2bbb7f; 0x2a2d6a56; 0x2a2dc403; 0x2a305827; 0x2a319551;
   0x2a3950a8; 0x2a3f7c72; 0x2a5829a7; 0x2a5db4d5; 0x2a5e704d; 0x2a677c8e; 0x2a6af7ae; 0x2a7ad2f2;
   0x2a8e4737; 0x2a8f6f4e; 0x2a8fa9e4; 0x2a93de54; 0x2a9ac70a; 0x2a9dc1cd; 0x2a9f151d; 0x2aa8c909;
   0x2ab10a17; 0x2ab2f6a3; 0x2ab57356; 0x2acb0583; 0x2add5d2e; 0x2ade62c5; 0x2ae4c42e; 0x2aeaf07c;
   0x2aed12ae; 0x2aed8e05; 0x2afcf022; 0x2b0321db; 0x2b060758; 0x2b06f4f2; 0x2b0855cf; 0x2b0b0866;
   0x2b0b59fb; 0x2b105392; 0x2b2153e0; 0x2b219d88; 0x2b355f84; 0x2b3a3014; 0x2b3cc263; 0x2b40ba2b;
   0x2b41e6f8; 0x2b5e12ff; 0x2b607335; 0x2b658845; 0x2b68a7d6; 0x2b6fdb67; 0x2b738ee6; 0x2b73ed94;
   0x2b783b5f; 0x2b7b6792; 0x2b8175e2; 0x2b88c2bc; 0x2b8a9b51; 0x2bb62427; 0x2bb98311; 0x2bbffaaf;
   0x2bc29a2e; 0x2be3a27f; 0x2be716dc; 0x2be8ff42; 0x2bef0cc8; 0x2c021d2d; 0x2c0a6403; 0x2c0a71c9;
   0x2c1340fe; 0x2c16cdfd; 0x2c1bdb3d; 0x2c1d4dbb; 0x2c308e48; 0x2c3c5d5e; 0x2c3e25d7; 0x2c442e8e;
   0x2c4958d0; 0x2c4caa09; 0x2c529aa4; 0x2c579a5d; 0x2c5b6ceb; 0x2c5c7968; 0x2c6ed06c; 0x2c6fcf8b;
   0x2c727cf8; 0x2c73a53f; 0x2c7d49b7; 0x2c89661d; 0x2c9cd7e2; 0x2cb273ad; 0x2ccbc4db; 0x2cd048d3;
   0x2d055b44; 0x2d118961; 0x2d14fe82; 0x2d1fa1b2; 0x2d28183b; 0x2d38df6e; 0x2d3e0acc; 0x2d5873f6;
   0x2d7cf493; 0x2d88497a; 0x2d8ea7e6; 0x2d9262c2; 0x2da8b72c; 0x2da8bad8; 0x2dac60e2; 0x2dae7360;
   0x2dd96804; 0x2dda8b19; 0x2ddc5a64; 0x2de99bbe; 0x2df5a93c; 0x2df9a1ef; 0x2e038209; 0x2e0626ea;
   0x2e0e129e; 0x2e10bda8; 0x2e13295b; 0x2e356a2c; 0x2e36dfee; 0x2e3ab324; 0x2e3cdff9; 0x2e4eab3c;
   0x2e50c599; 0x2e50e853; 0x2e56251c; 0x2e5f5b07; 0x2e6149b3; 0x2e698848; 0x2e6a1fdf; 0x2e70bd10;
   0x2e763e6f; 0x2e77320f; 0x2e7f7b72; 0x2e83dda0; 0x2e896d96; 0x2e8d02ea; 0x2e907109; 0x2e9ccb14;
   0x2ea11909; 0x2ebf84c3; 0x2ebfebab; 0x2ecad490; 0x2ee0df35; 0x2ee4b1c2; 0x2ef091c8; 0x2ef1867d;
   0x2ef50299; 0x2f0b6ad7; 0x2f1056a5; 0x2f12018a; 0x2f156ad3; 0x2f1d38dd; 0x2f3bc12f; 0x2f446971;
   0x2f49ff2c; 0x2f4f9bf4; 0x2f5497b4; 0x2f55d6c1; 0x2f55e158; 0x2f561ebb; 0x2f58d5c7; 0x2f5b7945;
   0x2f6f4d13; 0x2f7bae00; 0x2f88b483; 0x2f98e7a2; 0x2f9b04b6; 0x2f9c0942; 0x2fb2ebb0; 0x2fb4d694;
   0x2fbc653b; 0x2fcc4a64; 0x2fe7f17e; 0x2ff4b490; 0x3001c6c2; 0x30067b4f; 0x3013b274; 0x30159694;
   0x3018488f; 0x301d41b8; 0x301f4f91; 0x30294f6e; 0x303dee3a; 0x3044dcd3; 0x305a3cf4; 0x305e6441;
   0x306bf9c5; 0x3089dbcf; 0x309915c3; 0x309f3d38; 0x30adf579; 0x30af2f02; 0x30b2bc88; 0x30ba5963;
   0x30bb30e3; 0x30bc6bd8; 0x30c7d961; 0x30c7dda4; 0x30cf32f3; 0x30e605b7; 0x30f605c9; 0x30f61d2a;
   0x30fcf466; 0x31014ab3; 0x31041a84; 0x310938ba; 0x31104a73; 0x3111cbf5; 0x311f9148; 0x313b9010;
   0x314b16e8; 0x315ca76e; 0x315cd3e4; 0x315cdec9; 0x315d488b; 0x316d1fee; 0x316eb2a7; 0x316ed610;
   0x317db34b; 0x317f0481; 0x31860501; 0x31976ee3; 0x3199abc2; 0x319dbe85; 0x31a6536e; 0x31aacc66;
   0x31ad2887; 0x31c45bec; 0x31c71c4f; 0x31ccdf3d; 0x31e4c695; 0x31ebddfa; 0x3204ff4f; 0x320ff35e;
   0x3219410b; 0x3223d4ee; 0x323844e5; 0x323dbe92; 0x323e89a4; 0x32410557; 0x3265b241; 0x326711d7;
   0x326a78e5; 0x326fab02; 0x327d38de; 0x328a2cc7; 0x3294646c; 0x32987e5e; 0x32a187b0; 0x32a6c3ca;
   0x32af37fa; 0x32b158eb; 0x32b7797e; 0x32ba775f; 0x32bb47c4; 0x32c8fe13; 0x32cc715a; 0x32ebc176;
   0x32f05736; 0x32fd9209; 0x33041539; 0x330e19e2; 0x33195f40; 0x331ad7b3; 0x3321e9db; 0x3335cafd;
   0x33363dc3; 0x3342ae64; 0x337aa811; 0x337fddda; 0x33811e87; 0x33823796; 0x33829a94; 0x3383fd39;
   0x338755be; 0x338e459b; 0x33a4be26; 0x33a61cb0; 0x33ae3c3b; 0x33bb9ef9; 0x33be09a5; 0x33d39b63;
   0x33d8043d; 0x33e30b56; 0x33efae9f; 0x34197c89; 0x342e8909; 0x3431a437; 0x343e3eb0; 0x34401153;
   0x3448b89a; 0x34498f7a; 0x345e44a6; 0x345f1909; 0x3475a687; 0x3484a41e; 0x3486aaf8; 0x3489c84b;
   0x3497a2d9; 0x34a4ec50; 0x34a93921; 0x34b076ca; 0x34b35959; 0x34c1cd71; 0x34cf760d; 0x34d802d9;
   0x34df186a; 0x34e97eb8; 0x3500fe05; 0x350b099e; 0x35124513; 0x3525f6a9; 0x3526388e; 0x3529c6cd;
   0x352a7b7d; 0x3537e0b0; 0x353cb4f4; 0x353d74ee; 0x3542a55c; 0x35439f60; 0x3553eb62; 0x35616d1e;
   0x3570c492; 0x3585f966; 0x3589cfb0; 0x35922491; 0x3597500c; 0x359d822a; 0x35acd8c9; 0x35b86760;
   0x35c90b9e; 0x35d252af; 0x35d43ef5; 0x35d968f4; 0x35dc8805; 0x35e85f0f; 0x35e9abca; 0x35eddb8a;
   0x35f6536f; 0x35f88f25; 0x360a3173; 0x3613b810; 0x3619dbdc; 0x361e82b0; 0x36229821; 0x362523a0;
   0x362d04e9; 0x362ebc82; 0x363e774f; 0x3648437d; 0x365a48e4; 0x365fdc4c; 0x36624b95; 0x36625184;
   0x366b8ea7; 0x366d0a89; 0x366dd9a7; 0x3673b941; 0x3674cf13; 0x367b840f; 0x367be64d; 0x367e4541;
   0x3683e6d4; 0x3687e966; 0x36932b77; 0x36a5c281; 0x36aead15; 0x36b60834; 0x36b7d5c6; 0x36b89431;
   0x36bf5d54; 0x36c266d1; 0x36ca2dba; 0x36cbd44a; 0x36d0801f; 0x36d36d1d; 0x36d98090; 0x36ded6fa;
   0x36e502aa; 0x36e61351; 0x36ec444a; 0x36ef0bc7; 0x36f9ac5f; 0x370d041e; 0x370fffdb; 0x37247d78;
   0x372a814e; 0x37305b79; 0x37336faf; 0x373c90aa; 0x374916e4; 0x3751ef26; 0x37555ee1; 0x3759a7a4;
   0x375b3b8f; 0x375db666; 0x3760086f; 0x3764cb0e; 0x376b6013; 0x37778063; 0x3781572e; 0x378164b2;
   0x37856ca7; 0x378640f8; 0x37881c83; 0x378d83fc; 0x379ad503; 0x37a4a5cb; 0x37b1d8d3; 0x37b67375;
   0x37bec6b8; 0x37c3b045; 0x37c41ef7; 0x37c906ee; 0x37cb5231; 0x37cd8ed8; 0x37cfd415; 0x37d80521;
   0x37dd8c89; 0x37e17d6a; 0x37ec3875; 0x3809129e; 0x38124cd9; 0x381294f3; 0x381446dc; 0x3828dcec;
   0x382b9746; 0x383321dc; 0x383b8423; 0x3843195d; 0x384dafb3; 0x385b0eb2; 0x385edb49; 0x38648e85;
   0x38654a32; 0x3871ddb1; 0x3878876e; 0x38825047; 0x3889b074; 0x388a8afd; 0x388f250f; 0x38aee684;
   0x38afe125; 0x38bd413a; 0x38c67d57; 0x38d3fa53; 0x38dc862e; 0x39256a58; 0x39318112; 0x39403347;
   0x3940a4e3; 0x39432ea8; 0x3944a32b; 0x39554457; 0x396720d2; 0x3978e8ed; 0x397f4765; 0x398d4d95;
   0x398d668a; 0x399f7a71; 0x39b0101b; 0x39b049b4; 0x39c1f3c2; 0x39c7a320; 0x39d05428; 0x39d0cda0;
   0x39d4ff6e; 0x39d836f8; 0x39edaa35; 0x3a0741bb; 0x3a0c53e4; 0x3a0d769c; 0x3a225d3f; 0x3a2e630e;
   0x3a326ebf; 0x3a3a16f9; 0x3a3a281e; 0x3a46acfb; 0x3a4b44fd; 0x3a56706a; 0x3a5c5246; 0x3a6171bc;
   0x3a62e98a; 0x3a67c26a; 0x3a6f7eed; 0x3a6fd8fc; 0x3a73f2ed; 0x3a7831e7; 0x3a804164; 0x3a866259;
   0x3a8d1ac6; 0x3a8d3a46; 0x3a9c7a1d; 0x3a9e110d; 0x3a9f48c5; 0x3aabf8d7; 0x3ac85b5f; 0x3ad2e974;
   0x3ae25574; 0x3ae2f413; 0x3ae7669f; 0x3ae91d54; 0x3af0b2f0; 0x3af95008; 0x3afe8f10; 0x3b109633;
   0x3b21a755; 0x3b273b94; 0x3b40d2c1; 0x3b570d14; 0x3b698a92; 0x3b75248e; 0x3b75933d; 0x3b76b341;
   0x3b77da99; 0x3b794e6b; 0x3b7d18e7; 0x3b7e47b4; 0x3b82edc4; 0x3b84decd; 0x3b8a595b; 0x3b8cceca;
   0x3ba0ad7f; 0x3bac6710; 0x3bacedec; 0x3bb23c9a; 0x3bb94b59; 0x3bc7b7c0; 0x3bd6bea7; 0x3bef84b6;
   0x3bf1b4bd; 0x3bf22e4a; 0x3bf8de67; 0x3bfd9367; 0x3c01d81d; 0x3c03ab87; 0x3c055de6; 0x3c15032f;
   0x3c1a8faf; 0x3c218397; 0x3c2203bd; 0x3c253b8e; 0x3c2697f4; 0x3c3719d2; 0x3c39c6e1; 0x3c400f60;
   0x3c42f8e8; 0x3c49acf6; 0x3c54ccf2; 0x3c6e3c77; 0x3c783eaa; 0x3c8db9e9; 0x3c96964c; 0x3c9a0daf;
   0x3cb259c1; 0x3cbc179b; 0x3cbc33eb; 0x3cbf1835; 0x3cc55478; 0x3ccb4791; 0x3ce67831; 0x3ce9b137;
   0x3ce9ea3e; 0x3cee0318; 0x3cfdc7a2; 0x3d19ea17; 0x3d1cecf8; 0x3d211221; 0x3d23ce7f; 0x3d309829;
   0x3d38e8a3; 0x3d3a4408; 0x3d3db3b5; 0x3d3e8ebf; 0x3d3fc35e; 0x3d47df69; 0x3d58e244; 0x3d65aada;
   0x3d65c5e7; 0x3d6bf9b8; 0x3d783648; 0x3d83ba09; 0x3d8971b4; 0x3d8ecf4e; 0x3d94b46c; 0x3d9cd696;
   0x3d9e3063; 0x3da33357; 0x3dba01cf; 0x3dc54c76; 0x3dd0fb41; 0x3dd186f4; 0x3de54d5f; 0x3e028cd0;
   0x3e05ea47; 0x3e071588; 0x3e0b7f85; 0x3e10b9f3; 0x3e239877; 0x3e2e8bec; 0x3e41e9cc; 0x3e4242dd;
   0x3e504751; 0x3e53aae1; 0x3e5a3b8d; 0x3e611b61; 0x3e713eb8; 0x3e815033; 0x3e830fd4; 0x3e89fcf7;
   0x3e8da578; 0x3e9538e7; 0x3ea46177; 0x3ea580f1; 0x3eb8700e; 0x3eba5d77; 0x3ebefd86; 0x3ec0e650;
   0x3ee13038; 0x3eeaaaef; 0x3ef3c6e2; 0x3ef68c84; 0x3f0238aa; 0x3f0c2c05; 0x3f1839d2; 0x3f1d97fa;
   0x3f1f87a3; 0x3f294306; 0x3f434bd9; 0x3f4405b3; 0x3f4dc6bb; 0x3f4f3bfd; 0x3f55daeb; 0x3f668580;
   0x3f7738db; 0x3f7b416d; 0x3f7c8ecc; 0x3f7ebc75; 0x3f88c7f7; 0x3f8d87df; 0x3f95d678; 0x3f98bfb3;
   0x3f9ae031; 0x3f9e7a31; 0x3fa33844; 0x3fa74d82; 0x3fada35d; 0x3fb9f266; 0x3fbc5a5a; 0x3fbf7327;
   0x3fc74e93; 0x3fcce2a4; 0x3fdbdcc0; 0x3fe2ed50; 0x3fe5e006; 0x3fe83eb9; 0x3ff0d553; 0x3ff6c662;
   0x401e648a; 0x40269aa8; 0x402abf11; 0x402e8868; 0x40312452; 0x405030d5; 0x4050ade5; 0x40515627;
   0x40577e8b; 0x405e56b0; 0x40658323; 0x40681aa3; 0x407cc663; 0x408f9203; 0x40a2c280; 0x40a8bb71;
   0x40b48e5e; 0x40ba73c7; 0x40c25c46; 0x40d288ee; 0x40d9ecb2; 0x40dcb6a3; 0x40e2a6a8; 0x40eacefa;
   0x40fb7ea1; 0x40fe8de0; 0x40fecebf; 0x41067675; 0x410c4e52; 0x4112e9a5; 0x411977b0; 0x411e56ed;
   0x41206cbc; 0x412260eb; 0x4126bc0c; 0x41280100; 0x41306c1e; 0x4135ffa1; 0x4156f559; 0x41691576;
   0x41739069; 0x4187b11f; 0x4189a3af; 0x418aad6c; 0x418e5a8b; 0x418fa1ba; 0x4194bb87; 0x41986667;
   0x419fb388; 0x41a2faa9; 0x41a3b02e; 0x41a5dc42; 0x41b36f58; 0x41b37d03; 0x41bcc4f8; 0x41c1e26d;
   0x41c688cf; 0x41cbe3cd; 0x41d5d090; 0x41d7d6a7; 0x41dd5bec; 0x41e0de2e; 0x41e4695b; 0x41ea3d17;
   0x41eb9f90; 0x42076e48; 0x420eaa00; 0x4226a068; 0x42340773; 0x42340855; 0x423e5ddc; 0x4248a321;
   0x424a4b38; 0x424f115d; 0x4256ab0c; 0x426648f6; 0x426d788f; 0x426d93f5; 0x42735e88; 0x4285bf9d;
   0x4295786d; 0x429c0cd5; 0x429d9427; 0x42a6eebf; 0x42b69736; 0x42c17b16; 0x42c35fe5; 0x42d651ef;
   0x42df4831; 0x42eaaa3a; 0x42f78593; 0x430a44f8; 0x430eada7; 0x430edc99; 0x43281c0d; 0x432af162;
   0x432c1833; 0x432cbf75; 0x432eed1c; 0x43301305; 0x4334a56d; 0x4344eacb; 0x4356e2cf; 0x4358c31b;
   0x435aeb5e; 0x4374678e; 0x4382e7a9; 0x4385050a; 0x438a698a; 0x43903989; 0x4392f27a; 0x4398d0bf;
   0x43a46a1e; 0x43a4b91f; 0x43bbbbd0; 0x43be4f21; 0x43bedf4d; 0x43bf9a4b; 0x43c00014; 0x43c39879;
   0x43c45025; 0x43de9a00; 0x43f67aa1; 0x43f8b770; 0x43fda190; 0x44019171; 0x4404f1c9; 0x440d1a11;
   0x440fe00b; 0x44252241; 0x442b28c9; 0x4435c073; 0x444c7c02; 0x4451726b; 0x445637b9; 0x445ffae8;
   0x44631a97; 0x446448f6; 0x446b93e8; 0x446ee81d; 0x446f8a91; 0x4479bb09; 0x44820ece; 0x4486808a;
   0x448747fe; 0x448aa277; 0x448c3987; 0x44909e08; 0x449636e7; 0x44a5c06b; 0x44a6ecef; 0x44ab3439;
   0x44abcb7e; 0x44b3d334; 0x44bfe5f5; 0x44c170b7; 0x44c1b8f8; 0x44c50d07; 0x44cc0bd4; 0x44eabd3f;
   0x44f129b7; 0x44f4e894; 0x44fdf65c; 0x450b1110; 0x452774ea; 0x452ce8f0; 0x4551acf6; 0x45522d9f;
   0x45585d7d; 0x455accfa; 0x4568aeb4; 0x456bf99b; 0x4571666c; 0x457611b9; 0x457dbcde; 0x45850976;
   0x459721ca; 0x459e81c7; 0x45a1e978; 0x45a4f92d; 0x45aa699e; 0x45ae31ab; 0x45b366a5; 0x45b96487;
   0x45ba01ed; 0x45bb191f; 0x45c1eeca; 0x45c3c35c; 0x45cbb5f3; 0x45cdf9e7; 0x45d33789; 0x45d75db3;
   0x45e79201; 0x45f3f1ec; 0x45f79041; 0x45f9cfc1; 0x45fe7fa3; 0x460a2e58; 0x460d005c; 0x460de3dd;
   0x460f3a41; 0x4614dd6c; 0x46227711; 0x462820e6; 0x4628a56e; 0x462ef0b0; 0x4639c5dc; 0x464480d5;
   0x4654b1ed; 0x466d12fa; 0x466db9be; 0x466e6dcd; 0x467511a1; 0x467889f5; 0x46796728; 0x4687551c;
   0x4688e2cd; 0x468e217f; 0x4694c5ec; 0x46988a82; 0x46990c25; 0x46999319; 0x469af3ed; 0x46a30185;
   0x46ad3d93; 0x46ad993b; 0x46af44ae; 0x46b04bcd; 0x46bfc62a; 0x46cbc43e; 0x46ccd2d8; 0x46ce3405;
   0x46cf3671; 0x46d46efa; 0x46d77945; 0x46e246a3; 0x46f9a8f5; 0x46ff416d; 0x470ae363; 0x470e5537;
   0x4727824b; 0x47286b49; 0x473d9581; 0x47418e38; 0x4746dc3b; 0x474d586a; 0x47519a51; 0x47573dc9;
   0x4764ce9c; 0x4775cbbd; 0x477ebc3e; 0x47832691; 0x478dc4c2; 0x478e2e4d; 0x478ef1be; 0x4797bcd8;
   0x4797e812; 0x47a16808; 0x47b10a3f; 0x47c01ea9; 0x47c8247a; 0x47c94d99; 0x47d003b5; 0x47d0323d;
   0x47d723b7; 0x47da7b3b; 0x47dcfc09; 0x47dd0a13; 0x47e67120; 0x47eaa32c; 0x47ecb6fa; 0x47f85dfe;
   0x4806e0ab; 0x48094dee; 0x480fdd1e; 0x4812d7c4; 0x4816b63a; 0x4821e46b; 0x4822fb56; 0x48239396;
   0x48289aad; 0x4830e5ab; 0x4842bf9b; 0x484e517f; 0x484e5e1e; 0x4854568a; 0x485a92e8; 0x485cf4f3;
   0x48633574; 0x488cdbe9; 0x488e79d4; 0x48937c4e; 0x48967ba9; 0x48981dda; 0x48befc3b; 0x48c5b8c4;
   0x48c6f89c; 0x48d35a44; 0x48d4e9e1; 0x48e742b0; 0x48eb4ea9; 0x48eb7471; 0x48f01512; 0x490069df;
   0x4900ca0d; 0x490cf78f; 0x490d8837; 0x491c92e1; 0x491e6367; 0x492693fc; 0x493094c9; 0x493b3090;
   0x4946eddd; 0x495405eb; 0x4956d61f; 0x495cff07; 0x496a67c1; 0x496d56e4; 0x496df237; 0x497ca2c2;
   0x49921836; 0x4993bd34; 0x49975030; 0x49a7cbb5; 0x49b0c6ce; 0x49b6eb4f; 0x49b89f2c; 0x49be0433;
   0x49c372c8; 0x49c9e9e8; 0x49d18e4c; 0x49e931d6; 0x49f138f9; 0x49ff5325; 0x49ffb84b; 0x49ffd1e6;
   0x4a0e3571; 0x4a12fadf; 0x4a136bc6; 0x4a2f3f32; 0x4a358559; 0x4a3a2627; 0x4a3dd3e0; 0x4a45624c;
   0x4a543927; 0x4a598bff; 0x4a668050; 0x4a66f123; 0x4a6f536f; 0x4a79413e; 0x4a79ce85; 0x4a8c2d73;
   0x4a8c4d33; 0x4a8c7f4c; 0x4aa184b0; 0x4aa50862; 0x4aae9856; 0x4ab8018b; 0x4aba7612; 0x4ad3d5a9;
   0x4ad50787; 0x4adec4f7; 0x4ae9e7ad; 0x4aef4f59; 0x4afa733e; 0x4afdec64; 0x4b01201d; 0x4b04d60f;
   0x4b0507b4; 0x4b057616; 0x4b0aefc9; 0x4b0af631; 0x4b13ae4e; 0x4b150db3; 0x4b29db6b; 0x4b2cdcef;
   0x4b304eaf; 0x4b3c2b53; 0x4b3c432a; 0x4b3ed4b1; 0x4b40670e; 0x4b44d015; 0x4b48b8af; 0x4b4e02d5;
   0x4b4ef6bb; 0x4b515b94; 0x4b58d604; 0x4b5ba45d; 0x4b652677; 0x4b86007c; 0x4b88312d; 0x4b8a644b;
   0x4b932b04; 0x4b934c56; 0x4b9c39e0; 0x4baf066f; 0x4bb79e26; 0x4bba9767; 0x4bbd0060; 0x4bbe5e9c;
   0x4bc5f88d; 0x4bd04816; 0x4bd370f9; 0x4bd5c7bf; 0x4bdc88d2; 0x4be43956; 0x4bfeeeab; 0x4c08f360;
   0x4c1393e0; 0x4c1da633; 0x4c3a9f14; 0x4c3f5fdf; 0x4c3f7676; 0x4c42c4ad; 0x4c482cf5; 0x4c4ec65c;
   0x4c570313; 0x4c5d7db6; 0x4c65f7cb; 0x4c7063d8; 0x4c7fb78f; 0x4c84af4e; 0x4c8f96f2; 0x4c94c4b5;
   0x4c986e01; 0x4c9c0e8d; 0x4ca0b402; 0x4ca5ee0f; 0x4cae9260; 0x4cb700e5; 0x4cbb27dc; 0x4cbeca76;
   0x4ccaee95; 0x4cd4b812; 0x4ce100a6; 0x4ce5a538; 0x4cf4173c; 0x4cf5df63; 0x4cf954f4; 0x4cfb6be4;
   0x4d0a84f3; 0x4d0ed634; 0x4d1d0a91; 0x4d1ee2db; 0x4d241a13; 0x4d2729d6; 0x4d3846e1; 0x4d552429;
   0x4d5c38d1; 0x4d5e3574; 0x4d67f620; 0x4d73a80d; 0x4d7e802b; 0x4d7fe3b4; 0x4d8425f1; 0x4d8b6b87;
   0x4d8cd857; 0x4d8e5081; 0x4d910e6f; 0x4d939dd2; 0x4d95e2ba; 0x4d95f421; 0x4d9c0279; 0x4da0451b;
   0x4da6cd81; 0x4da80d8b; 0x4db65149; 0x4db6727b; 0x4dc64e07; 0x4dc65063; 0x4dd424e7; 0x4e0ccce4;
   0x4e155e4f; 0x4e1e11f4; 0x4e251681; 0x4e2be313; 0x4e2debab; 0x4e5533cf; 0x4e55b6fb; 0x4e55e0f6;
   0x4e57b478; 0x4e5b5e91; 0x4e680d6d; 0x4e7312cf; 0x4e738361; 0x4e7654df; 0x4e7c6dc7; 0x4e8f6b3d;
   0x4eb40a33; 0x4ebe1d1d; 0x4ec071aa; 0x4ec6cb5e; 0x4ec95c8b; 0x4ecde0e6; 0x4ee94627; 0x4ef14fcd;
   0x4efcff27; 0x4f108f6d; 0x4f172e75; 0x4f1eb8fa; 0x4f2cd44a; 0x4f41e6c9; 0x4f4b507a; 0x4f4f825d;
   0x4f564ae5; 0x4f62b980; 0x4f637668; 0x4f643b48; 0x4f6871d9; 0x4f6db47d; 0x4f7850b3; 0x4f7d15b0;
   0x4f896054; 0x4f8ac2c1; 0x4fa4d39d; 0x4faf6ae1; 0x4fc41c59; 0x4fcdee67; 0x4fd49f2a; 0x4fe5da53;
   0x4fef851d; 0x4fefc62e; 0x4ff1a48f; 0x4ff2a309; 0x4ffe58b6; 0x5002b3f1; 0x5004e71e; 0x500b8668;
   0x500bc412; 0x500e0385; 0x5021ae83; 0x502a5f84; 0x502fd533; 0x5033b6eb; 0x50343352; 0x5035f6a6;
   0x503a82ae; 0x504da3aa; 0x504f1c0a; 0x50503cd2; 0x50550640; 0x50589913; 0x505ae6c6; 0x505b59b4;
   0x506f16fe; 0x506f6407; 0x507a2f53; 0x507b5bec; 0x508937c8; 0x50a7ce5c; 0x50c57a9a; 0x50c6e2ef;
   0x50c85c7d; 0x50ce839f; 0x50cec57a; 0x50de4bef; 0x50dfdcaf; 0x50e6ebae; 0x50faa632; 0x50faddc8;
   0x50fb2d8e; 0x510887cf; 0x51147949; 0x511a0294; 0x511fd1da; 0x512341fe; 0x51255e4d; 0x512c6f73;
   0x513716f5; 0x513fc5da; 0x5140e36c; 0x5144dd77; 0x51455f16; 0x515ca72d; 0x517143ed; 0x51768dba;
   0x51771cda; 0x5177e2e9; 0x5190b67f; 0x519c2634; 0x519c452f; 0x519c60de; 0x51a87cfe; 0x51adfa1a;
   0x51b9eeb9; 0x51c7214a; 0x51ca4da3; 0x51d78f30; 0x51dea288; 0x51e0da5f; 0x51ea9a7e; 0x51fb47c8;
   0x520bac44; 0x5214451a; 0x521df22c; 0x521e50d6; 0x52222e0a; 0x52285bf2; 0x523e7f77; 0x52437720;
   0x52463b2a; 0x525e0f92; 0x52704183; 0x528b577c; 0x528f3aa1; 0x52a80147; 0x52b268f2; 0x52b5628e;
   0x52c90b2f; 0x52ce002f; 0x52d514cc; 0x52e4cb93; 0x52ea7a60; 0x52f7b40f; 0x52f7bde6; 0x53187304;
   0x531c4990; 0x531e468b; 0x532dcdb7; 0x533a2f87; 0x533b901b; 0x534290f3; 0x534b42b3; 0x5352bad1;
   0x535a13ef; 0x5362819d; 0x5367e6ae; 0x537e37a2; 0x5383dc49; 0x53942b5a; 0x53a14699; 0x53ab804e;
   0x53b11afe; 0x53ba54d5; 0x53c845dc; 0x53cee1ea; 0x53cef1de; 0x53cfdbd7; 0x53d14b75; 0x53d4eada;
   0x53d56e53; 0x53dc6491; 0x53e67d45; 0x53ec6e87; 0x54028588; 0x5407e770; 0x5407f661; 0x54110432;
   0x54164ebe; 0x541f35ee; 0x54223611; 0x5427ed07; 0x54360e7d; 0x5443bb62; 0x544df645; 0x5457cea1;
   0x546ee402; 0x54718a3e; 0x547ce41b; 0x547feff9; 0x5480f119; 0x548ad6dc; 0x54945687; 0x5496589a;
   0x5497cf81; 0x5497f25d; 0x54b18d72; 0x54b7b2c9; 0x54b91da2; 0x54e01c5e; 0x54e2bb65; 0x54e4699e;
   0x54f2f9a5; 0x55074fb7; 0x550fe962; 0x551c643c; 0x551cf8df; 0x551dc685; 0x55289c70; 0x552cf358;
   0x552f2626; 0x552f3406; 0x553f78c7; 0x5540734a; 0x55486899; 0x554efcfe; 0x554faea2; 0x55542930;
   0x5555ed69; 0x555789eb; 0x5559a7dc; 0x555e4a37; 0x55624362; 0x556327e7; 0x558b7bfa; 0x55af84fe;
   0x55b920dd; 0x55b9da14; 0x55c562d4; 0x55cd58fa; 0x55e96643; 0x55f331b7; 0x56024b5d; 0x56060503;
   0x56090fbc; 0x56118389; 0x5614bfe2; 0x56151093; 0x561764bf; 0x561ca84f; 0x5640f89f; 0x564b5ef4;
   0x564c47f4; 0x565c7b78; 0x56658a3f; 0x566a34ae; 0x568cdf52; 0x569085d9; 0x5694008f; 0x56948153;
   0x5698a85b; 0x569c234d; 0x569de1f2; 0x56adaf93; 0x56adcc9a; 0x56b4a283; 0x56b4faf1; 0x56b5d33f;
   0x56bc7dfe; 0x56bd3831; 0x56c9fb53; 0x56d12cc2; 0x56d761e7; 0x56ddb42c; 0x56ea9a9e; 0x56ff8f95;
   0x5711b0df; 0x571a9441; 0x5726ee30; 0x572d0ea7; 0x57381166; 0x57465c43; 0x5753399b; 0x575b708c;
   0x57657608; 0x5768de19; 0x5775c185; 0x578d213b; 0x57918a95; 0x57961e26; 0x57a348ab; 0x57bc0fe2;
   0x57d81be5; 0x57db269a; 0x57db6a09; 0x57dd6add; 0x57dd916f; 0x57e15f6f; 0x57e84447; 0x57f27bb7;
   0x57f9f236; 0x57fbc269; 0x58012385; 0x5804dd03; 0x580b9121; 0x58163b75; 0x582402a8; 0x5829347f;
   0x583135fb; 0x58385c10; 0x5843692e; 0x584440a6; 0x584756c8; 0x584c06a7; 0x587d08f8; 0x5886ae9d;
   0x5889c1c0; 0x588f07d4; 0x58a55c50; 0x58a6af6a; 0x58b6118b; 0x58be345f; 0x58be6543; 0x58c3dc4b;
   0x58c5f40e; 0x58c67098; 0x58d7fc10; 0x58dc6013; 0x58edb51c; 0x58f279c7; 0x58fe5205; 0x590a83f9;
   0x590b1c0e; 0x590c23d5; 0x591a57e1; 0x59233bea; 0x5930b357; 0x59325107; 0x593a9600; 0x593b6bf2;
   0x59438acb; 0x5952ff24; 0x5964577f; 0x597acd75; 0x597e4125; 0x598e3aeb; 0x598f5d22; 0x59970635;
   0x599ba1ae; 0x59a15958; 0x59a25fa8; 0x59a922c8; 0x59b93659; 0x59ca8e5a; 0x59dd81c4; 0x59ddb8da;
   0x59e04825; 0x59e852b0; 0x59eec12d; 0x59eff092; 0x59f280d4; 0x59f93211; 0x59fb9b4c; 0x59fdef22;
   0x5a03d2be; 0x5a1b2974; 0x5a1d0c83; 0x5a23c84d; 0x5a2f39ef; 0x5a373fbe; 0x5a3771c4; 0x5a386260;
   0x5a3f5dbb; 0x5a4a66e5; 0x5a5c4231; 0x5a615b46; 0x5a68909f; 0x5a6dd1e2; 0x5a85d7c1; 0x5ab55858;
   0x5ad02142; 0x5ad178b7; 0x5ad56d85; 0x5ad5ffcb; 0x5ae3a514; 0x5af21a83; 0x5afe2d7b; 0x5aff51de;
   0x5b02616d; 0x5b053ee7; 0x5b0e8899; 0x5b100902; 0x5b1c5e13; 0x5b284121; 0x5b29057e; 0x5b2be910;
   0x5b2ef2a1; 0x5b31b116; 0x5b31ea06; 0x5b324a58; 0x5b3c10f6; 0x5b45685c; 0x5b4ba372; 0x5b57732d;
   0x5b592241; 0x5b63d9a3; 0x5b78dc37; 0x5b7a3438; 0x5b8015ad; 0x5b86a242; 0x5b86f8da; 0x5b922cbc;
   0x5b93d501; 0x5ba10d34; 0x5baf5555; 0x5bb54e89; 0x5bb7ede8; 0x5bd17906; 0x5bd26550; 0x5be28d52;
   0x5beb4324; 0x5bf6b485; 0x5bfce445; 0x5c05d490; 0x5c07be48; 0x5c243e3b; 0x5c26927f; 0x5c26d70f;
   0x5c289c07; 0x5c2b5eae; 0x5c2e1003; 0x5c30454c; 0x5c31c8a1; 0x5c37c757; 0x5c424aa3; 0x5c4612d0;
   0x5c4a1ae0; 0x5c54e2da; 0x5c5605ce; 0x5c71cdf1; 0x5c874d86; 0x5c922b6e; 0x5c96e7df; 0x5c98a06a;
   0x5ca1d36d; 0x5cd32bfc; 0x5cd3e6e8; 0x5cd42d51; 0x5cd9ef40; 0x5ce7d0dc; 0x5cec64cf; 0x5cee5e96;
   0x5d033cf3; 0x5d06b90e; 0x5d0fca82; 0x5d12cf04; 0x5d2ffa5b; 0x5d35023d; 0x5d372ae1; 0x5d3c2ccc;
   0x5d49970e; 0x5d4cc713; 0x5d4de9e6; 0x5d50b413; 0x5d50e8cc; 0x5d537f00; 0x5d558b5c; 0x5d5a456e;
   0x5d5e5f4f; 0x5d6e4049; 0x5d8e6994; 0x5d92f27f; 0x5d9b7613; 0x5d9e025d; 0x5da39b93; 0x5da4d615;
   0x5db684f2; 0x5dbba677; 0x5dbd3a1d; 0x5dc7ba6d; 0x5dc839cf; 0x5dc83db8; 0x5dc9f710; 0x5dd3a815;
   0x5dd63717; 0x5dd73703; 0x5ddccdd1; 0x5de32e86; 0x5e0216b1; 0x5e04a057; 0x5e1840c1; 0x5e18e589;
   0x5e1eb348; 0x5e24280c; 0x5e33ffd2; 0x5e40669d; 0x5e42815e; 0x5e51ba27; 0x5e541834; 0x5e5651d4;
   0x5e697f62; 0x5e7a23ff; 0x5e7ed8ef; 0x5e7fc5bc; 0x5e87935d; 0x5e8937b2; 0x5e92eca7; 0x5ea0c6c6;
   0x5ea15a29; 0x5eaaa7f6; 0x5eac3f0f; 0x5eb3b543; 0x5ebbb5b8; 0x5ed16fb9; 0x5ee2f75d; 0x5ee9f94d;
   0x5f06b5b0; 0x5f0eb8fe; 0x5f0f8021; 0x5f18540d; 0x5f1e337f; 0x5f1f4fc6; 0x5f287dd3; 0x5f39423e;
   0x5f3ea95d; 0x5f4d775e; 0x5f5b9c9e; 0x5f65f2aa; 0x5f672cde; 0x5f6740e0; 0x5f73842b; 0x5f7dd6e2;
   0x5f81775c; 0x5fa0d508; 0x5fa7ee0d; 0x5fab9b7b; 0x5fad87fb; 0x5fbb36cc; 0x5fd14a22; 0x5fdc7b59;
   0x5fdc9cf8; 0x5fe0b207; 0x5feb265b; 0x5feb7403; 0x5ffeff6e; 0x60117c7c; 0x601abe49; 0x601ff96e;
   0x60279cc5; 0x603690a3; 0x60448c1b; 0x604518aa; 0x60505f79; 0x6080d6cd; 0x60912c41; 0x60a3a8e3;
   0x60a6705e; 0x60a961cd; 0x60acc0cb; 0x60cd59ab; 0x60de24f7; 0x60e27ea7; 0x60f2cfe7; 0x60f5c4d3;
   0x60f6869c; 0x60fd118a; 0x6105ca4f; 0x610b2421; 0x6116c517; 0x6128de7d; 0x613328b3; 0x6133d942;
   0x613a0709; 0x61438c23; 0x6143a1b5; 0x6158b096; 0x615a4971; 0x615c31d7; 0x617327da; 0x61751494;
   0x61755458; 0x617db6be; 0x617e5e71; 0x61823a53; 0x618bdc2e; 0x6196a471; 0x619bf6fc; 0x61a3898e;
   0x61af18be; 0x61b005e6; 0x61c921d2; 0x61cae593; 0x61cb0f80; 0x61d48982; 0x61d58735; 0x61d8210e;
   0x61e02aa2; 0x61ec545e; 0x61ec9670; 0x61f561e5; 0x61fbb5e1; 0x61fc39b0; 0x62054e21; 0x6206d142;
   0x6216a332; 0x62182911; 0x6221a008; 0x622c63b3; 0x626d4d9b; 0x6285ae21; 0x6285fd51; 0x62864b94;
   0x628a0fcf; 0x628be178; 0x628e5d40; 0x629b0d91; 0x629cfc09; 0x629e9703; 0x62a87133; 0x62b5dcac;
   0x62bba407; 0x62bceccb; 0x62c21781; 0x62c5caac; 0x62c6a920; 0x62c78aa9; 0x62cd7a59; 0x62cfe35a;
   0x62dc42b0; 0x62e2e6d2; 0x62e9449e; 0x62fa1e51; 0x62fcab43; 0x62fce989; 0x62fdaa7b; 0x6303e22a;
   0x630e7b9f; 0x631c84f2; 0x631fb544; 0x6324325d; 0x63266613; 0x633afe8d; 0x633f0222; 0x634cd60b;
   0x634f36d3; 0x635f27b5; 0x63623ab6; 0x63790052; 0x637a0e97; 0x63803197; 0x638531a7; 0x63928033;
   0x639ba48d; 0x63a43cc5; 0x63be46c5; 0x63c0aac6; 0x63c3a13a; 0x63c91490; 0x63db2e87; 0x63de3269;
   0x63deb8c1; 0x63e676d6; 0x63fa3d4c; 0x640dd13e; 0x640e4fb1; 0x64156dd0; 0x641d0b6f; 0x64203aa7;
   0x64244dec; 0x642d4dd4; 0x643b5ff7; 0x643d4842; 0x644752df; 0x644a4bce; 0x64551d6e; 0x645ee05b;
   0x6464317c; 0x646ce6ac; 0x647b20fb; 0x6481a229; 0x6483f8c8; 0x6485f247; 0x6493d776; 0x64986bf7;
   0x649a57a4; 0x64aa26f1; 0x64b54043; 0x64b8cd27; 0x64b98e24; 0x64c3f47e; 0x64c56efa; 0x64c66eaa;
   0x64d1ba29; 0x64db87dd; 0x64ea8422; 0x64ee9659; 0x64f522fc; 0x64f71f3f; 0x64fee971; 0x650b4d2a;
   0x65131975; 0x65169b93; 0x65207daa; 0x65226384; 0x65278386; 0x652f0d6f; 0x65323318; 0x6532e79a;
   0x65505070; 0x655fe60e; 0x65687e83; 0x6586d183; 0x658f6c37; 0x659da22d; 0x65a035e6; 0x65a63b5a;
   0x65b4444f; 0x65cb8f06; 0x65e1ecda; 0x65f29386; 0x65f2b755; 0x660ca61b; 0x6616ade5; 0x6617f341;
   0x661ac57c; 0x661d8045; 0x661e378d; 0x661e8f85; 0x661ecc63; 0x6620cf89; 0x66247680; 0x6625b49e;
   0x662ff665; 0x66349937; 0x663558dc; 0x66362a08; 0x663bf97e; 0x6651c810; 0x665545c5; 0x666191a5;
   0x6662b1bd; 0x666350ee; 0x6669c1ae; 0x6671ef04; 0x66793e8a; 0x667cb487; 0x6686845d; 0x66898e50;
   0x668dae0b; 0x6690b27d; 0x6690e297; 0x669248e0; 0x66abfb29; 0x66b53166; 0x66b5b438; 0x66b76f56;
   0x66bad787; 0x66cdf0f5; 0x66d9a005; 0x66e5cf4d; 0x66f63a51; 0x66f7f3d3; 0x66f81285; 0x6704991e;
   0x67066f29; 0x6707cf95; 0x6707e484; 0x671bd7c1; 0x67283334; 0x672ff6cd; 0x67338921; 0x673d573d;
   0x67402ea4; 0x67491aa1; 0x674b5d70; 0x67572f05; 0x675814d9; 0x675f52ab; 0x676703e3; 0x67682bf1;
   0x67685166; 0x6774c92f; 0x67764a2c; 0x6777a14c; 0x6796100e; 0x6799f5ea; 0x679b5e7d; 0x67a0ebc0;
   0x67ad7339; 0x67bc15c5; 0x67beccc8; 0x67c8c6e8; 0x67ce75dc; 0x67d2054f; 0x67da6f55; 0x67f426d9;
   0x67faf6df; 0x6803e053; 0x68040a23; 0x680bec77; 0x680db211; 0x680ef76e; 0x6812d27d; 0x6814a844;
   0x681bbb0a; 0x68298b35; 0x683b34c8; 0x6844762f; 0x685105f9; 0x6853b867; 0x685cd100; 0x68679d95;
   0x6868f905; 0x686dd847; 0x6879f1f6; 0x687ec88e; 0x689911b3; 0x689d3919; 0x68a016bd; 0x68b0bdd9;
   0x68b364e6; 0x68c614ed; 0x68d85817; 0x68e1167a; 0x68febfc5; 0x69013e6c; 0x69041c06; 0x690a1f0c;
   0x6913d9ce; 0x69218544; 0x693c002a; 0x693d99f8; 0x693fb49c; 0x6961bf5b; 0x6966e95f; 0x696a6273;
   0x696a6bf7; 0x696deb6a; 0x69772b47; 0x69808811; 0x6985db35; 0x6986de30; 0x698d7648; 0x699aeadc;
   0x699eefc0; 0x69a127b2; 0x69ba660e; 0x69bd5b4f; 0x69c0afc1; 0x69ccd7a4; 0x69d0bfb1; 0x69da6366;
   0x69db6ff0; 0x69eb9ed4; 0x69f4e523; 0x69fad815; 0x69fc06ad; 0x6a0534dd; 0x6a15d501; 0x6a15f2cc;
   0x6a1ffc16; 0x6a33e210; 0x6a3a89fa; 0x6a4dcdb7; 0x6a5387b5; 0x6a64662f; 0x6a94aa15; 0x6a991179;
   0x6a9970fc; 0x6a9b3136; 0x6a9f6509; 0x6a9feb07; 0x6aa0466b; 0x6aa098d3; 0x6ab2bfba; 0x6ab4c207;
   0x6ab82940; 0x6abb54db; 0x6ac79f8a; 0x6acd2c74; 0x6acfcf5d; 0x6ad051e6; 0x6ad24966; 0x6ad78a4c;
   0x6ae4864d; 0x6aeddb94; 0x6aeeb9e1; 0x6af1fe10; 0x6af79f17; 0x6b060c94; 0x6b0fb231; 0x6b1a8915;
   0x6b1cc6f5; 0x6b1cee45; 0x6b2e3dfd; 0x6b3b32ac; 0x6b3d0707; 0x6b3f2622; 0x6b53b177; 0x6b53b477;
   0x6b5aa408; 0x6b5ad130; 0x6b74e16b; 0x6b78381e; 0x6b7eb767; 0x6b8606b8; 0x6b8cda9e; 0x6b924cbf;
   0x6b9abd9d; 0x6ba02ac7; 0x6bb267c6; 0x6bcc912f; 0x6bed90ec; 0x6bf00d4c; 0x6bfb8acd; 0x6c02c828;
   0x6c0367cb; 0x6c0bfb72; 0x6c124d7e; 0x6c1d1231; 0x6c1f8fee; 0x6c237794; 0x6c2c333e; 0x6c350b25;
   0x6c43ff1f; 0x6c49a3b0; 0x6c54ac3e; 0x6c5d29e2; 0x6c62ffb2; 0x6c66b267; 0x6c67e66d; 0x6c6cdb72;
   0x6c7c636e; 0x6c8f2042; 0x6c920464; 0x6c9bde62; 0x6c9df3f3; 0x6ca0435c; 0x6cc18484; 0x6cc87edb;
   0x6cd225d7; 0x6cd5e889; 0x6cf81810; 0x6d0296ea; 0x6d1bf356; 0x6d1ced81; 0x6d297c01; 0x6d30ab32;
   0x6d42c3f9; 0x6d4480b4; 0x6d566dd2; 0x6d5e6692; 0x6d60e84d; 0x6d64df1b; 0x6d6695ba; 0x6d6d289a;
   0x6d70ed64; 0x6d73c4af; 0x6d740c61; 0x6d88f742; 0x6d9eddaf; 0x6da71b55; 0x6daca006; 0x6dc70b08;
   0x6dd7ba1f; 0x6de6c95c; 0x6deb8e46; 0x6e1a92f3; 0x6e1fda41; 0x6e2871e4; 0x6e351921; 0x6e386527;
   0x6e50757f; 0x6e575419; 0x6e58c1f6; 0x6e640bfe; 0x6e660e92; 0x6e66ff6c; 0x6e713869; 0x6e843a41;
   0x6e846c71; 0x6e85206c; 0x6e92f270; 0x6e943b2b; 0x6e9701fa; 0x6e9e4802; 0x6e9e5339; 0x6ea32480;
   0x6eaca052; 0x6eb2f660; 0x6eb82d14; 0x6eb8eb78; 0x6ec8ebc5; 0x6ed7e94f; 0x6ede7803; 0x6eec2893;
   0x6efac09f; 0x6efaca89; 0x6f003f75; 0x6f05c03f; 0x6f0f74ca; 0x6f1468e1; 0x6f1ae9bd; 0x6f241943;
   0x6f31bd70; 0x6f3f1c4d; 0x6f4134c2; 0x6f43e897; 0x6f55c082; 0x6f59ad81; 0x6f5bc194; 0x6f66f1c7;
   0x6f898020; 0x6f99b081; 0x6f9a8295; 0x6f9eb412; 0x6fa8f76b; 0x6fafcad9; 0x6fbd9037; 0x6fc5387a;
   0x6fce3ee9; 0x6fd3bbbd; 0x6fde56bb; 0x6fe58498; 0x6fe7fb8f; 0x6fedea44; 0x6ff1b18d; 0x6ff743b2;
   0x700cf108; 0x700f75e2; 0x7018ae53; 0x701cf05b; 0x70210521; 0x7025209f; 0x70305631; 0x7034132b;
   0x70642dc3; 0x706562ae; 0x70682a2f; 0x706aec0f; 0x707023d2; 0x7072cc69; 0x707c9572; 0x70820609;
   0x708e0b4f; 0x709095a2; 0x70993cb4; 0x709b1335; 0x70a8e331; 0x70b37b10; 0x70c33258; 0x70d1f664;
   0x70d3617e; 0x70d5d6da; 0x70de4d9b; 0x70e07f56; 0x70e2cddb; 0x70ee618e; 0x70f29cdc; 0x70f6c812;
   0x70fb10e3; 0x7100a715; 0x710c2176; 0x711e01d5; 0x712311da; 0x71246790; 0x712a8530; 0x712dc706;
   0x712e078b; 0x712eced8; 0x713defc3; 0x715cf7d1; 0x716c7ac0; 0x716f14ca; 0x716f2164; 0x71809c6b;
   0x719708d3; 0x71aee05a; 0x71c11d2a; 0x71c13987; 0x71c66144; 0x71cb1de2; 0x71cb5d39; 0x71cbc112;
   0x71cecbbc; 0x71d5959f; 0x71f10756; 0x72040731; 0x72254f24; 0x724156ba; 0x724a4d0b; 0x724bcb1c;
   0x72599df9; 0x7269b12d; 0x726b7394; 0x726d0730; 0x729b9714; 0x729f87d3; 0x729fa1c6; 0x729fa4cb;
   0x72a24baf; 0x72a55079; 0x72aaaf4b; 0x72ae9552; 0x72bc5326; 0x72c0a866; 0x72cb137e; 0x72dc2007;
   0x72e7ebfc; 0x72e7f1f2; 0x72e87d59; 0x72e9cabb; 0x72ed89c6; 0x72f8bddf; 0x7305e376; 0x730a0b63;
   0x730e0a70; 0x7315555b; 0x731c244b; 0x732bab35; 0x732f054a; 0x73341fb5; 0x733d788a; 0x734ba50e;
   0x735c7ca6; 0x735fc7c1; 0x7367311e; 0x7378a2ff; 0x7386d165; 0x738ee483; 0x73950728; 0x739854bb;
   0x739f9877; 0x73adb222; 0x73aea729; 0x73b03a43; 0x73c69f49; 0x73d04913; 0x73d53628; 0x73df4a37;
   0x73e17c7d; 0x73e2fe45; 0x73f75b9d; 0x73f9ac41; 0x73fe605f; 0x7407bbc4; 0x740ac5f8; 0x740cca4a;
   0x741bcc9e; 0x741d5b39; 0x741ef6b4; 0x7424fe25; 0x742a8682; 0x742cacc4; 0x742d2067; 0x744064c0;
   0x7443a424; 0x744c46da; 0x74583ee8; 0x7467e6c5; 0x746a18be; 0x7470a120; 0x747aebae; 0x747b790a;
   0x74aef332; 0x74b0c48a; 0x74b1b9f0; 0x74c72a22; 0x74cfd08e; 0x74ef2b74; 0x74fb6483; 0x74fd79d1;
   0x750e599a; 0x750fc68f; 0x7510ad79; 0x751197ca; 0x75134aa4; 0x7517c8d6; 0x751fe9bb; 0x75220971;
   0x752abee2; 0x752c10e3; 0x753327eb; 0x753c766f; 0x7544c038; 0x75468235; 0x75499520; 0x754c428a;
   0x75520d5f; 0x7559e6b5; 0x7576234b; 0x757bbe7d; 0x757f388a; 0x75816906; 0x75860d34; 0x759170f1;
   0x75935d32; 0x759a89f3; 0x75b3b71a; 0x75be35f1; 0x75c8cecf; 0x75cdecc8; 0x75d68f04; 0x75e4046a;
   0x75f1ef01; 0x75f2d651; 0x75f6d4c2; 0x76056797; 0x764519df; 0x76490f04; 0x764bda13; 0x765aed7f;
   0x765c42b3; 0x76623c63; 0x766cf7a9; 0x766d4269; 0x76733afa; 0x76798042; 0x76874f59; 0x7689422f;
   0x76985648; 0x76ccb795; 0x76d21079; 0x76d6123f; 0x76d65a26; 0x76df6906; 0x76e7dcbc; 0x76f12bf8;
   0x76f4ddc1; 0x76f9e3d1; 0x76fe4667; 0x770b9e9c; 0x772106eb; 0x7731c21a; 0x77404b4b; 0x774412a1;
   0x7746b355; 0x774ddecc; 0x7750df0f; 0x776145ef; 0x77650521; 0x77653466; 0x776b5cd0; 0x776f3dc9;
   0x776fd3c5; 0x777f1f8a; 0x7780f42a; 0x77819998; 0x77953363; 0x77991035; 0x779c2292; 0x77af9fa4;
   0x77b4600e; 0x77bb05d7; 0x77bb0d20; 0x77ce1dd6; 0x77d203fb; 0x77d8287e; 0x77dc0ae2; 0x77de191a;
   0x77dece5f; 0x77e2d6eb; 0x77ef803f; 0x77f77e75; 0x77f7cc1d; 0x77fa6fc5; 0x780caa3a; 0x78141b8d;
   0x781a5717; 0x781e78a8; 0x781ea650; 0x7826eb99; 0x783adaca; 0x783c4ce6; 0x784448f5; 0x784ebb22;
   0x784ef2ed; 0x78515880; 0x78521bb3; 0x785b181c; 0x785c5203; 0x785ed2de; 0x787494ca; 0x7875b98a;
   0x78895810; 0x788fbfe6; 0x7896ff66; 0x789bcfcd; 0x78a2ed6f; 0x78a33c58; 0x78a556db; 0x78a971b6;
   0x78a987f0; 0x78aa6d65; 0x78abd136; 0x78b850b9; 0x78bd209c; 0x78c0331e; 0x78cafbb3; 0x78ccd570;
   0x78d816f1; 0x78dcb07d; 0x78f018c8; 0x78f14ad1; 0x78f4e082; 0x78f4e731; 0x790a319b; 0x790cea67;
   0x791353bb; 0x7919754c; 0x791b7436; 0x792126f4; 0x7921659b; 0x7924c7c5; 0x79286abe; 0x792b1a25;
   0x7930da5b; 0x7933a072; 0x794b6c6e; 0x7957d32d; 0x795f1aae; 0x7964330a; 0x796702d7; 0x798121af;
   0x798760a7; 0x798ec594; 0x799aef0f; 0x799ee1ee; 0x79a316b8; 0x79a4699b; 0x79ae4779; 0x79ae78fd;
   0x79b151ec; 0x79c8c35e; 0x79cf5e0d; 0x79d1389f; 0x79d553cf; 0x79dc614d; 0x79e76a70; 0x79ec3470;
   0x79f710f9; 0x7a09ead5; 0x7a2287ba; 0x7a27e629; 0x7a43effe; 0x7a4a4b2d; 0x7a4f7427; 0x7a51f302;
   0x7a5652cf; 0x7a56c7c7; 0x7a710e4a; 0x7a785908; 0x7a7aaca3; 0x7a7b5aef; 0x7a83e9a7; 0x7a8b1d29;
   0x7aaa6134; 0x7aab4d5d; 0x7ac19a41; 0x7ac7d67f; 0x7ad19758; 0x7ad41d0d; 0x7af17d94; 0x7af9c966;
   0x7b0532c1; 0x7b1ebcc6; 0x7b262b12; 0x7b375494; 0x7b4ee8d6; 0x7b567c57; 0x7b58c391; 0x7b5df564;
   0x7b61da07; 0x7b66f687; 0x7b6f1abb; 0x7b77ad1a; 0x7b7941ef; 0x7b7c526c; 0x7b7fed85; 0x7b8d7589;
   0x7b92cfe0; 0x7ba48d64; 0x7bad3922; 0x7bb08423; 0x7bc6b339; 0x7bcb5214; 0x7bd4cb2f; 0x7bd71de8;
   0x7bdcf06d; 0x7be926e2; 0x7becb58c; 0x7bf1ab6b; 0x7c0f9b90; 0x7c10828e; 0x7c21ab68; 0x7c3c3893;
   0x7c3c6210; 0x7c42f489; 0x7c4822e1; 0x7c4c55e0; 0x7c4cb9ec; 0x7c5d012a; 0x7c718a3a; 0x7c90f485;
   0x7c94c627; 0x7c962ba1; 0x7c9a13ac; 0x7c9a5563; 0x7cade3e4; 0x7cbcfaaa; 0x7cbe6a41; 0x7cc44e3b;
   0x7ccaf431; 0x7ccb24e5; 0x7cdab188; 0x7cdf74da; 0x7cf2c012; 0x7cf35872; 0x7cf588c0; 0x7cf668d7;
   0x7cfe4001; 0x7d027c24; 0x7d0a8751; 0x7d110d63; 0x7d194031; 0x7d21c4f6; 0x7d2af77e; 0x7d2fa41b;
   0x7d38af95; 0x7d507c8d; 0x7d5a20f2; 0x7d6abbff; 0x7d6f791f; 0x7d728fe1; 0x7d7748d2; 0x7d7f9f84;
   0x7d8bc824; 0x7d8e4ff8; 0x7d9fae2e; 0x7da8819a; 0x7db1ae52; 0x7db1ec76; 0x7db4b72e; 0x7dbb1205;
   0x7dbc5cbb; 0x7dc4ddd4; 0x7dcdd505; 0x7dcf340f; 0x7dead20c; 0x7dece74f; 0x7e0a1ef0; 0x7e0c9d04;
   0x7e0ef661; 0x7e1dff8c; 0x7e2020e8; 0x7e22876a; 0x7e2a63ea; 0x7e2ef477; 0x7e320c17; 0x7e337e55;
   0x7e3f3770; 0x7e457dfb; 0x7e492d16; 0x7e5038c5; 0x7e58f6f8; 0x7e6099b9; 0x7e661d90; 0x7e6bcf70;
   0x7e785929; 0x7e7a0731; 0x7e7c29dd; 0x7e838626; 0x7e976ba6; 0x7e98725e; 0x7e9d5269; 0x7e9fc0c0;
   0x7ea37d1e; 0x7ea502ca; 0x7ead4f7e; 0x7ec4375c; 0x7ec78a46; 0x7ece3ed3; 0x7edcfe22; 0x7ede848a;
   0x7efe6c01; 0x7f048dc3; 0x7f0731a7; 0x7f0d2ef7; 0x7f10cb42; 0x7f12fed6; 0x7f14b9f6; 0x7f2bd17c;
   0x7f35eadb; 0x7f36984d; 0x7f3afb34; 0x7f425f3d; 0x7f4b32cb; 0x7f5b38e5; 0x7f8dc064; 0x7f8f8052;
   0x7f92653c; 0x7f9ab346; 0x7f9eb652; 0x7fa4ba82; 0x7fa5be82; 0x7fab8360; 0x7fba350a; 0x7fc2ea87;
   0x7fced62c; 0x7fd5118c; 0x7fefcef6; 0x7ff14774; 0x7ff247e1; 0x7ff80a5e; 0x7ff9af6c; 0x800c6a51;
   0x80126711; 0x802547d2; 0x8025e9ed; 0x8038dcdf; 0x803ac356; 0x8041fc2e; 0x80507d10; 0x8051b58e;
   0x8057eacc; 0x8057fe36; 0x805ce1a5; 0x8069e17f; 0x80788589; 0x80804e9a; 0x8081a711; 0x80824fbf;
   0x80900d92; 0x80997f8d; 0x80a0eb5c; 0x80a1d6f6; 0x80a50924; 0x80a60bda; 0x80bcf5af; 0x80c0a367;
   0x80c74514; 0x80cf2384; 0x80d4a54e; 0x80ecb42a; 0x80f83774; 0x80f8a32b; 0x810180f0; 0x81090a39;
   0x810c3145; 0x810cb4f4; 0x8110c508; 0x813a67ad; 0x8140fc80; 0x8142ef1a; 0x814610d4; 0x814afbe2;
   0x815a31e1; 0x816e04e7; 0x81704187; 0x8179514c; 0x817a36fc; 0x817b1d25; 0x817e35e0; 0x81837348;
   0x8192bdef; 0x81941b34; 0x819515b6; 0x81c1e8da; 0x81c84b65; 0x81c9d234; 0x81cf47b1; 0x81d7b3d6;
   0x81df603b; 0x81ea9083; 0x81ee467a; 0x81fe9403; 0x8207d07d; 0x8208aa71; 0x820eed17; 0x8227c1f9;
   0x824d3776; 0x82692bc3; 0x8270aef3; 0x82942010; 0x829891ea; 0x829b4b3a; 0x829bb72b; 0x829cb5ad;
   0x829d3d4a; 0x82ab78a2; 0x82b213e1; 0x82b8399d; 0x82cbc8bf; 0x82cca639; 0x82ced3ef; 0x82d3bf24;
   0x82e465f2; 0x82fb7831; 0x82fbbcd5; 0x82fbc279; 0x82fcf848; 0x82fd6d3a; 0x82fdd4a6; 0x8307089e;
   0x830fa9f1; 0x83126620; 0x831bcd79; 0x831e702e; 0x8326eb10; 0x8328f88c; 0x832f2af4; 0x833733b6;
   0x8346df01; 0x834b6a3a; 0x834c282f; 0x835c4511; 0x83709664; 0x837b8829; 0x837c3cd5; 0x83889251;
   0x839e6471; 0x83a6f042; 0x83b54059; 0x83bd838a; 0x83c105b2; 0x83c6c753; 0x83db6583; 0x83f13d08;
   0x83f2f6ef; 0x83f55089; 0x83faf4b8; 0x83ff390e; 0x840659cc; 0x841d939c; 0x842490f5; 0x84298c64;
   0x8437fe6a; 0x8446cbd1; 0x8453c3a4; 0x845a02ac; 0x8461a2a2; 0x84633686; 0x8467366f; 0x846d8a12;
   0x84716303; 0x847d0a13; 0x848572e4; 0x848f2afc; 0x849136b0; 0x849a58cb; 0x84b503b0; 0x84ba1d90;
   0x84c23137; 0x84c9f4c5; 0x84e2a6e6; 0x84e4650f; 0x84e5be75; 0x84e8cd78; 0x84eaa432; 0x84f48268;
   0x84fd3aa7; 0x84ff1779; 0x8505accd; 0x85070137; 0x85094c04; 0x85204731; 0x85213ed6; 0x8524067a;
   0x8524f79a; 0x852c4caf; 0x85355b4c; 0x853727b4; 0x8538e8e6; 0x8544d56a; 0x8552b8ac; 0x85546a54;
   0x855f44e2; 0x857e6746; 0x85906633; 0x859348e1; 0x85b23987; 0x85b6390a; 0x85c5c56e; 0x85c74cee;
   0x85c84c39; 0x85cccccb; 0x85d31c01; 0x85d3e60a; 0x85d6f4b5; 0x85dbbec9; 0x85e42002; 0x85e4893c;
   0x85ebdd3b; 0x85efc39e; 0x85f7ea14; 0x85fd4ebf; 0x8605a5ab; 0x860d5444; 0x860f5589; 0x861a8b91;
   0x8622f0a2; 0x863bad96; 0x86404851; 0x864639f3; 0x8648945c; 0x864a5502; 0x864f57cf; 0x8650380b;
   0x8659238b; 0x866c1820; 0x866c21af; 0x8672f8c6; 0x867af11b; 0x86803722; 0x8683c1b9; 0x868b373c;
   0x8696fd61; 0x86972c2a; 0x869ac019; 0x86aba31e; 0x86bdbbc7; 0x86c69a18; 0x86d0c8e5; 0x86d1ead9;
   0x86d68697; 0x86d8ec64; 0x86e87879; 0x86f4aeb4; 0x87064e8e; 0x870eacb1; 0x87194773; 0x871950f9;
   0x871b7c1a; 0x87221cba; 0x87267590; 0x87292a35; 0x872ad03d; 0x87349bd8; 0x8741f53d; 0x8745b933;
   0x874a449a; 0x874f83d6; 0x8753c7b5; 0x8758262d; 0x875933c2; 0x875adf41; 0x8763f02b; 0x876553ce;
   0x87686de6; 0x877253cf; 0x877e2661; 0x8782106f; 0x8790f970; 0x87a20eb5; 0x87a7a5c4; 0x87b0e452;
   0x87b1f96c; 0x87bb5cfd; 0x87c33ebf; 0x87cc553f; 0x87d68a3d; 0x87e1bde5; 0x87e82e4e; 0x87e90315;
   0x87fbc601; 0x8801c3a9; 0x880264ee; 0x880aa98f; 0x880bae21; 0x881e4b14; 0x882bf4e6; 0x88309d49;
   0x88350c69; 0x8837045a; 0x883814bb; 0x88470e0d; 0x8859ff03; 0x885b00a1; 0x885c9def; 0x88637aad;
   0x886921dd; 0x886bc603; 0x8873a815; 0x887d64ee; 0x887e2678; 0x888284af; 0x8889cde6; 0x888a98b2;
   0x88a63206; 0x88a8506f; 0x88b713ee; 0x88c1518d; 0x88ce6088; 0x88d548a9; 0x88dc59c3; 0x88e105f7;
   0x88e5a217; 0x88eaa116; 0x88fd0067; 0x88ff49a1; 0x89065171; 0x8909f58f; 0x890fa6b7; 0x89100839;
   0x891190ee; 0x8927ea6e; 0x893287a9; 0x893b36cc; 0x893cbb4b; 0x894f5386; 0x89539dc8; 0x8953e5b3;
   0x8956b59a; 0x8963e35e; 0x89653d0c; 0x896a7736; 0x896ec62d; 0x8980987b; 0x8989da4d; 0x898dddba;
   0x8997319c; 0x899958cc; 0x89a00212; 0x89a0bff8; 0x89a0e2ce; 0x89b5d52c; 0x89ba4b88; 0x89c921b6;
   0x89cd2350; 0x89e468a5; 0x89e9e740; 0x8a0478ac; 0x8a054cb9; 0x8a1bb2f1; 0x8a1c1ead; 0x8a2a5483;
   0x8a2d60a2; 0x8a2e9f28; 0x8a384b21; 0x8a38f44e; 0x8a3bb1f2; 0x8a4bf625; 0x8a52c521; 0x8a54f1c8;
   0x8a722ff6; 0x8a744422; 0x8a8febc1; 0x8a9736c9; 0x8aa322d3; 0x8aa58eff; 0x8aaee0bc; 0x8ab8d68e;
   0x8ac15297; 0x8acf3c42; 0x8ad14d8a; 0x8ad89368; 0x8ade1b99; 0x8ae5d5eb; 0x8afa51ed; 0x8b10cd31;
   0x8b1e8381; 0x8b23bf7e; 0x8b2c8c50; 0x8b2fce5b; 0x8b3bb4d5; 0x8b3fc35f; 0x8b3fd145; 0x8b4299c4;
   0x8b532a83; 0x8b5b265b; 0x8b5fe5c9; 0x8b684a11; 0x8b689e4a; 0x8b7a34db; 0x8b7f8bca; 0x8ba5a400;
   0x8ba78238; 0x8ba83066; 0x8bac82c1; 0x8bbdd699; 0x8bbfa539; 0x8bc23722; 0x8bc35095; 0x8bd9fb27;
   0x8be38b69; 0x8be94abb; 0x8bea55a9; 0x8bf667d8; 0x8bfb9571; 0x8bfc85df; 0x8bfe018a; 0x8c088e3c;
   0x8c0a9691; 0x8c0b7cfe; 0x8c0f605f; 0x8c1772e8; 0x8c19c1a9; 0x8c2baf64; 0x8c2ff6b4; 0x8c327c8e;
   0x8c3df378; 0x8c421386; 0x8c499cf3; 0x8c511645; 0x8c587d35; 0x8c64df19; 0x8c682b4c; 0x8c729586;
   0x8c75977c; 0x8c76a73e; 0x8c77a98b; 0x8c7f94d9; 0x8c847ba4; 0x8c95cb93; 0x8c99f3f8; 0x8c9deb5a;
   0x8ca1cf12; 0x8cc63f5e; 0x8cc98e17; 0x8ccd7229; 0x8cd8b6d1; 0x8cdd4cb7; 0x8cddcba6; 0x8cee1892;
   0x8cfef0b1; 0x8cfff003; 0x8d04bcb8; 0x8d11aeca; 0x8d135c32; 0x8d15e4ad; 0x8d25b34c; 0x8d34c714;
   0x8d406201; 0x8d545093; 0x8d5a602c; 0x8d655522; 0x8d7614fa; 0x8d7b9b29; 0x8d83ca3a; 0x8d9aa2c9;
   0x8dabe2e6; 0x8dbf1936; 0x8dd44c9e; 0x8dd885a8; 0x8de3e4cc; 0x8dee6e0a; 0x8df401d9; 0x8df6719d;
   0x8e05050c; 0x8e0729eb; 0x8e0f21b4; 0x8e11a81e; 0x8e1238b5; 0x8e272090; 0x8e2779a5; 0x8e2ba6ed;
   0x8e310bc5; 0x8e35f40d; 0x8e37616c; 0x8e395399; 0x8e3dd605; 0x8e438735; 0x8e46305f; 0x8e466d00;
   0x8e4d1471; 0x8e5087cc; 0x8e5408fe; 0x8e54eeaa; 0x8e558c67; 0x8e58e3d4; 0x8e638eb0; 0x8e66a839;
   0x8e7acf54; 0x8e7b39bb; 0x8e860b0a; 0x8e87b341; 0x8e894f05; 0x8e95b923; 0x8ea13764; 0x8eabb508;
   0x8ead432a; 0x8eaf007d; 0x8ec05bd9; 0x8ede5632; 0x8ee964ef; 0x8eecc93c; 0x8eef3b05; 0x8ef400f5;
   0x8f093bf6; 0x8f1c30a7; 0x8f24783e; 0x8f28cc79; 0x8f2d6e03; 0x8f3e811c; 0x8f404a24; 0x8f415d5c;
   0x8f54c24f; 0x8f5a8c79; 0x8f5f2e81; 0x8f69e396; 0x8f6c1547; 0x8f706316; 0x8f75fb94; 0x8f797aab;
   0x8f7c910c; 0x8f7e55b1; 0x8f8250ff; 0x8f8ae6b6; 0x8f8f20b8; 0x8f937259; 0x8f9747a3; 0x8f9b2c50;
   0x8faadd93; 0x8fb344af; 0x8fb6a266; 0x8fb8061e; 0x8fb9a256; 0x8fba7d6f; 0x8fcb0e0b; 0x8fd0c8f0;
   0x8fd5f3be; 0x8fde3a5e; 0x8ff336a0; 0x900385fb; 0x9010f80a; 0x901101e3; 0x9022d76f; 0x90308018;
   0x9038f0b0; 0x90531070; 0x9059f753; 0x905d271a; 0x906585ac; 0x9068ae85; 0x906a79a5; 0x906c7924;
   0x9081bb9f; 0x909bb950; 0x909c8f60; 0x90a5f674; 0x90b77cd6; 0x90c38e0c; 0x90cdd86b; 0x90ce3af4;
   0x90d149f9; 0x90d2b3eb; 0x90d77f82; 0x90dcb070; 0x90e202b6; 0x90e23ed4; 0x9105ddeb; 0x9114b36c;
   0x91306832; 0x913e925a; 0x913f4d3a; 0x914a378e; 0x91500d31; 0x9152dfaa; 0x916f96a8; 0x91717674;
   0x9171ea04; 0x9180714c; 0x9182923b; 0x9183e024; 0x9184905b; 0x918ed870; 0x918f93ff; 0x9192cace;
   0x91a78910; 0x91ae80b6; 0x91b33ce5; 0x91ba3077; 0x91c146e1; 0x91cb0f53; 0x91ce1f76; 0x91d0932c;
   0x91d91cf6; 0x91dfc02a; 0x91e13490; 0x91e562d9; 0x91efea44; 0x91fa79e6; 0x921da502; 0x921e1330;
   0x921e24fa; 0x922f75e9; 0x9240f494; 0x924cbcf1; 0x92507f22; 0x9252b386; 0x925b49d7; 0x925b80da;
   0x9262c380; 0x926923e8; 0x926bf24f; 0x9288b7c8; 0x928f2414; 0x928f2c0c; 0x9290b242; 0x929b556d;
   0x929ba0cf; 0x92a49c8e; 0x92a553dc; 0x92b658e6; 0x92b714cd; 0x92cb41b8; 0x92dbd808; 0x92dcef58;
   0x92eb4a46; 0x92eb5e99; 0x92ee0cc9; 0x92fcfc46; 0x93023bbc; 0x930f1fa9; 0x930f4ff0; 0x93196d2c;
   0x931a6642; 0x932881b1; 0x933d9581; 0x933f037c; 0x9347291c; 0x934c6c13; 0x93519d8c; 0x935560e9;
   0x93576923; 0x936883ef; 0x936efcaa; 0x93811fcf; 0x938478de; 0x9388ef70; 0x93892328; 0x93b4ca1a;
   0x93d435dd; 0x93e350d8; 0x93e9a642; 0x93ef8655; 0x940a5270; 0x94187889; 0x9420e8c3; 0x9421bfff;
   0x942212fd; 0x94269d85; 0x942a368f; 0x942d1872; 0x942f2b0f; 0x94340ee0; 0x943d7e6b; 0x9443ee9b;
   0x944ca703; 0x9451c9e9; 0x94528b11; 0x9460f85f; 0x946cdf8d; 0x94726eb2; 0x947c3476; 0x949f1c66;
   0x94a6dca9; 0x94b07228; 0x94b3dba6; 0x94b45819; 0x94b8a682; 0x94ba0410; 0x94c531ba; 0x94c55932;
   0x94dc3a16; 0x94dca403; 0x94e739ed; 0x94eabace; 0x94efd1c1; 0x94f28812; 0x94f6fe8b; 0x94fd7de5;
   0x9509e061; 0x950a125e; 0x950b0f73; 0x950e3deb; 0x9511a669; 0x95132d16; 0x9526ca15; 0x952702ed;
   0x952983cd; 0x952c3793; 0x95387f7b; 0x954564dc; 0x9546d48d; 0x954a3335; 0x954d9778; 0x955c4091;
   0x955cf24c; 0x956ab9b6; 0x956f3231; 0x957a6704; 0x957bf721; 0x957c54f2; 0x9587beba; 0x95881cd3;
   0x959095b1; 0x95a1dc75; 0x95a830f5; 0x95ab8942; 0x95bbbd13; 0x95bdf15a; 0x95d1ef0b; 0x95ec665b;
   0x95f4b195; 0x95f8653f; 0x95fe6c9b; 0x95fe97d3; 0x9600a8d2; 0x960249af; 0x960f6147; 0x96131a2b;
   0x963504ea; 0x9636be74; 0x964afe55; 0x964ca6e1; 0x964cc3d7; 0x965c8bef; 0x9662ea1d; 0x9665009c;
   0x96673012; 0x9667376f; 0x966a6913; 0x966f0e41; 0x9679621a; 0x967af575; 0x96811d09; 0x9683a73a;
   0x9685a4d7; 0x96867f93; 0x968bea5c; 0x9699951d; 0x96a75858; 0x96a81cd6; 0x96b96c36; 0x96bc29e0;
   0x96bcaca8; 0x96d25e80; 0x96e3873b; 0x96eeec19; 0x96f5290f; 0x96f5f3d6; 0x96f89942; 0x9703fef9;
   0x97088c0d; 0x970c80c0; 0x971069a1; 0x971552f4; 0x971b82cc; 0x971ff3a8; 0x97221c5f; 0x973791b0;
   0x9737bd04; 0x9742d621; 0x9743be3a; 0x97484106; 0x974e7bb0; 0x97521d1a; 0x9758332e; 0x97601800;
   0x97604c4f; 0x9763fddf; 0x9764e411; 0x976f6ccd; 0x978b478f; 0x978bf11c; 0x97a591de; 0x97b11602;
   0x97c334dc; 0x97c4a0b1; 0x97e2f174; 0x97e888df; 0x97fcd652; 0x9802ee97; 0x980ff4c4; 0x9827ecda;
   0x98280915; 0x982d5f82; 0x983d2740; 0x984813b4; 0x98488de5; 0x98542e86; 0x98556838; 0x98595362;
   0x985cdc40; 0x9865d243; 0x987a7f72; 0x987c6adf; 0x98853dba; 0x98968421; 0x989a6fb1; 0x98a1294d;
   0x98a3ff51; 0x98a84f18; 0x98a8ee9f; 0x98b67c7b; 0x98bc3419; 0x98c055ea; 0x98c90c57; 0x98dc4de6;
   0x98ddcccd; 0x98dffd6c; 0x98e08602; 0x98e5f123; 0x98ebf491; 0x98f0df3b; 0x98fc622d; 0x98fdcc77;
   0x99004ee5; 0x99088718; 0x990dc98a; 0x99158770; 0x991e3d21; 0x9921de65; 0x99287e1e; 0x995b5033;
   0x9966c8ca; 0x997393dc; 0x997f8c36; 0x998064e1; 0x9981ab30; 0x9983adfb; 0x998585c3; 0x99a299e4;
   0x99a70209; 0x99c7befa; 0x99d13fd6; 0x99e63508; 0x99ec2087; 0x99f2cff2; 0x99f49699; 0x9a0c30ba;
   0x9a0d61b1; 0x9a140183; 0x9a1a5b8e; 0x9a1eee55; 0x9a2a2462; 0x9a31c222; 0x9a4558f3; 0x9a467a06;
   0x9a6970bb; 0x9a6d5ba1; 0x9a71900f; 0x9a87d22f; 0x9a9a20b5; 0x9a9cad42; 0x9aa8147a; 0x9aac4d3d;
   0x9ac95ade; 0x9ada65c3; 0x9adbd5e9; 0x9af6f343; 0x9afa3307; 0x9b06772c; 0x9b0b28bc; 0x9b0c5cd6;
   0x9b1b101d; 0x9b240e64; 0x9b2b75b3; 0x9b2b7d1d; 0x9b38cf40; 0x9b3ef1d4; 0x9b40af44; 0x9b44967f;
   0x9b569fe2; 0x9b5afd71; 0x9b5d02f3; 0x9b6e55d0; 0x9b75c641; 0x9b7e633d; 0x9b88b71d; 0x9b8b3b8c;
   0x9b8e28a3; 0x9b9c739b; 0x9ba1f244; 0x9ba4fa28; 0x9ba6b51c; 0x9baaa2f5; 0x9bacb4d7; 0x9bb0cf5e;
   0x9bb63997; 0x9bbfe4e5; 0x9bc0f238; 0x9bc1607f; 0x9bc6b98b; 0x9bc966f3; 0x9bcbc17d; 0x9bd7a8e7;
   0x9bd7c1c2; 0x9bd93850; 0x9bda7f55; 0x9be3dad8; 0x9be5ef6b; 0x9bf2d731; 0x9bf844e4; 0x9bf87594;
   0x9c00077b; 0x9c142880; 0x9c15cafe; 0x9c259097; 0x9c2ff65c; 0x9c3c52a4; 0x9c54d1b4; 0x9c5ee326;
   0x9c657e35; 0x9c697039; 0x9c6cf5e6; 0x9c6d8c7f; 0x9c708d02; 0x9c72af60; 0x9c733ec1; 0x9c7a7d4d;
   0x9c80d570; 0x9c8456e4; 0x9c90c68d; 0x9c99df80; 0x9ca3a293; 0x9ca6e426; 0x9ca7cd7f; 0x9caa6d5c;
   0x9cadec41; 0x9cbfdc94; 0x9ccc12bd; 0x9cd0cf8e; 0x9cd4589e; 0x9cd5a36d; 0x9cd62f63; 0x9ce85b45;
   0x9cedc767; 0x9cedd52b; 0x9cef186f; 0x9d0762dd; 0x9d1acfde; 0x9d1b35b4; 0x9d201ccc; 0x9d20a596;
   0x9d337e54; 0x9d4e7688; 0x9d4f406a; 0x9d54f972; 0x9d5bd8ef; 0x9d617fe4; 0x9d63e119; 0x9d64c0bf;
   0x9d67f558; 0x9d78c944; 0x9d824690; 0x9d84e6ad; 0x9d89397b; 0x9d983769; 0x9da5200b; 0x9dafbe75;
   0x9db3b6e9; 0x9db469a1; 0x9dbc7a71; 0x9dc937bd; 0x9dca360d; 0x9dcfc0b6; 0x9dd5d51d; 0x9dd8e9d7;
   0x9de9a169; 0x9dee82b2; 0x9df45e0d; 0x9dff3c27; 0x9e0412e8; 0x9e0724b2; 0x9e127308; 0x9e13f4ff;
   0x9e24ea03; 0x9e2a3040; 0x9e3176d2; 0x9e333d2e; 0x9e364dd7; 0x9e4a307f; 0x9e50d9e9; 0x9e51afae;
   0x9e548c46; 0x9e59f774; 0x9e661fea; 0x9e76b2c6; 0x9e885922; 0x9e93e8d8; 0x9e94ace1; 0x9e952c0d;
   0x9e95e4cf; 0x9e98214b; 0x9ea75fe9; 0x9eaec58f; 0x9ebe7e07; 0x9ebe9f37; 0x9ebea91b; 0x9ec24788;
   0x9ec9939b; 0x9ecd4b78; 0x9ed8b0e8; 0x9eddb8c5; 0x9edea0a2; 0x9ee03e2e; 0x9f0d78f4; 0x9f10af05;
   0x9f1bec0c; 0x9f20bc43; 0x9f223421; 0x9f242e77; 0x9f44d04d; 0x9f4be77e; 0x9f5a87bc; 0x9f5ae739;
   0x9f65e4ee; 0x9f848acb; 0x9f953df6; 0x9fa3c237; 0x9fc16dd1; 0x9fc2e91f; 0x9fdf816b; 0x9fe0078a;
   0x9fff6504; 0xa014fdc9; 0xa01a75ab; 0xa03e23d7; 0xa040c1f9; 0xa0464bd8; 0xa05756d8; 0xa06176a0;
   0xa0639a57; 0xa06ec9e4; 0xa0793d82; 0xa07c38e8; 0xa083d2f1; 0xa088f4ae; 0xa0999ff6; 0xa09f8f5b;
   0xa0a327fb; 0xa0aaf0a0; 0xa0bbbd23; 0xa0c0929d; 0xa0d099af; 0xa0da949d; 0xa0ecdd92; 0xa0ed88d9;
   0xa1014fa7; 0xa1036278; 0xa1149c27; 0xa12508c6; 0xa12fecf4; 0xa135dbf0; 0xa14cafc6; 0xa14cf4da;
   0xa1520f2b; 0xa164e34f; 0xa1671d61; 0xa1777daa; 0xa183d804; 0xa19ab887; 0xa1a10145; 0xa1a3733b;
   0xa1a95be8; 0xa1b07503; 0xa1b0fbd8; 0xa1b370e4; 0xa1c468f8; 0xa1d1699d; 0xa1d1c317; 0xa1d465d0;
   0xa1d922c8; 0xa1e02e1d; 0xa1e0d8f3; 0xa1ed5421; 0xa1ee3fbd; 0xa1f89caa; 0xa1fc9ec9; 0xa202bc65;
   0xa2086036; 0xa2175f67; 0xa2197497; 0xa22a9961; 0xa22d753c; 0xa22e5ea7; 0xa24d7a89; 0xa2504808;
   0xa2582510; 0xa258f419; 0xa25cb0f7; 0xa25e1893; 0xa26baf59; 0xa26edc6a; 0xa286f80a; 0xa29786da;
   0xa2989cb2; 0xa2a33b68; 0xa2aab5e8; 0xa2b4478e; 0xa2b44955; 0xa2baec41; 0xa2bfdd31; 0xa2bfed0e;
   0xa2d5d9b0; 0xa2de4905; 0xa2e0f590; 0xa2e7afd3; 0xa2ea8ecc; 0xa2edc19b; 0xa2f5ae94; 0xa2fc346e;
   0xa2ff79b8; 0xa301ff8a; 0xa30c7e62; 0xa30d9907; 0xa31228b9; 0xa318a028; 0xa3322312; 0xa3401529;
   0xa3601be5; 0xa366202e; 0xa36f3801; 0xa376e9aa; 0xa38a600b; 0xa38e75ed; 0xa38ed133; 0xa3904050;
   0xa39e2b55; 0xa39e88d2; 0xa3a3dbb0; 0xa3a626dd; 0xa3ac5a61; 0xa3b751da; 0xa3bc442e; 0xa3d980b6;
   0xa3dda93f; 0xa3dff3a9; 0xa3e20a81; 0xa3e3eff3; 0xa3f58002; 0xa3fb84af; 0xa3fe9f2d; 0xa4005c7e;
   0xa4084f3b; 0xa4146a1f; 0xa41a31e7; 0xa427d7c2; 0xa431cc20; 0xa4433c01; 0xa4456dac; 0xa4500d11;
   0xa468c75a; 0xa46a3f32; 0xa46b17aa; 0xa46b4963; 0xa46e9057; 0xa47137d8; 0xa47188f5; 0xa4801b49;
   0xa4844b92; 0xa489252c; 0xa48ce09e; 0xa48dbd33; 0xa49295d8; 0xa493c116; 0xa4955208; 0xa49e478c;
   0xa4a330f8; 0xa4a38931; 0xa4a67bf8; 0xa4c2593c; 0xa4c90aa8; 0xa4c9969b; 0xa4cd6d02; 0xa4de866c;
   0xa4e0b94b; 0xa4e12e3c; 0xa4e1594b; 0xa4e8ff71; 0xa4e91675; 0xa4fa555f; 0xa4ffa999; 0xa5021b14;
   0xa50727f9; 0xa509ed1f; 0xa50ba9b8; 0xa50e9848; 0xa5103213; 0xa512c1e4; 0xa5180fd9; 0xa51901dd;
   0xa51b06e5; 0xa530d973; 0xa544de20; 0xa5544a6c; 0xa5667b76; 0xa56e27b3; 0xa57186c4; 0xa5921b86;
   0xa59c0843; 0xa5a4297b; 0xa5aecaad; 0xa5b3968d; 0xa5bf1b2d; 0xa5c224f8; 0xa5c47991; 0xa5c54d2f;
   0xa5d74b2a; 0xa5d946d0; 0xa5e0112b; 0xa5e1a730; 0xa5f947cb; 0xa6150e2d; 0xa623bf69; 0xa6280846;
   0xa62f49d2; 0xa6432408; 0xa64a9398; 0xa64fac51; 0xa655106c; 0xa65990c7; 0xa65afeae; 0xa65bf434;
   0xa66a5401; 0xa66f7419; 0xa670cd09; 0xa6791acf; 0xa67fdb92; 0xa68e0c16; 0xa6904e5b; 0xa6a54669;
   0xa6a6e25f; 0xa6abd219; 0xa6adcb2c; 0xa6cddd73; 0xa6d78f0f; 0xa6d8f877; 0xa6f0467a; 0xa6fafe6a;
   0xa700b194; 0xa703c715; 0xa708e945; 0xa70f4f97; 0xa7147d63; 0xa716b936; 0xa71c7baa; 0xa726459a;
   0xa72d979e; 0xa731e743; 0xa734408f; 0xa737d141; 0xa74f2c05; 0xa751776f; 0xa754a752; 0xa75ba15d;
   0xa75d84d1; 0xa75f6a71; 0xa7769ad1; 0xa77b6d60; 0xa77cf337; 0xa78d01ed; 0xa79a2aae; 0xa79c0fc6;
   0xa79eb898; 0xa7a2c100; 0xa7a551d2; 0xa7b49bd2; 0xa7b89b8d; 0xa7bdea2f; 0xa7be68e8; 0xa7f610c4;
   0xa8195d3b; 0xa81fdc6e; 0xa82da26c; 0xa8433775; 0xa85da392; 0xa86e1bf7; 0xa8741a0d; 0xa8887a3d;
   0xa889dfca; 0xa891a10f; 0xa8957fd2; 0xa8979c3e; 0xa8a59cc3; 0xa8bd0f85; 0xa8c01546; 0xa8c17ccb;
   0xa8c3f544; 0xa8cf48dd; 0xa8d329c5; 0xa8db3fa4; 0xa8e29d71; 0xa8eb399b; 0xa8f6b6f6; 0xa8fba9a5;
   0xa8fee8ce; 0xa90e5db1; 0xa9170215; 0xa92d3970; 0xa95a9bda; 0xa96310e4; 0xa96356b5; 0xa966a302;
   0xa97c5409; 0xa9858030; 0xa992a701; 0xa9982c02; 0xa99b80c2; 0xa99ffdab; 0xa9a9c7c8; 0xa9ad7de7;
   0xa9b2afdf; 0xa9b4bd09; 0xa9c64bec; 0xa9cd6e73; 0xa9d729ba; 0xa9eb0b72; 0xa9eb7a2d; 0xa9ee5f43;
   0xaa03f677; 0xaa052813; 0xaa0cd2a7; 0xaa13b164; 0xaa1b8b3e; 0xaa1e10e7; 0xaa1f8aa1; 0xaa30fceb;
   0xaa3c2935; 0xaa55ad85; 0xaa5b1c7e; 0xaa5e4460; 0xaa6fa55c; 0xaa702fb8; 0xaa8724ac; 0xaa879a97;
   0xaa88f19b; 0xaa8a2802; 0xaa8a7be1; 0xaa967bba; 0xaa9e9a6b; 0xaab54ec4; 0xaab6fc77; 0xaac6895c;
   0xaac77f9d; 0xaacf03ed; 0xaad481e4; 0xaad4e6ce; 0xaad9b923; 0xaae7a409; 0xaaee1673; 0xaaf2b449;
   0xaaf392e2; 0xaaf3cd9e; 0xaafb298c; 0xab049bf7; 0xab05190b; 0xab05a8c9; 0xab0851aa; 0xab0bc79b;
   0xab0fb27b; 0xab228d33; 0xab270103; 0xab2b70cf; 0xab2ea461; 0xab2f973d; 0xab333f50; 0xab37882a;
   0xab3aa525; 0xab414c62; 0xab44fb49; 0xab5683a2; 0xab6e9f23; 0xab700940; 0xab762590; 0xab84167c;
   0xab8565bf; 0xab917708; 0xaba09b40; 0xaba674e4; 0xabbe5667; 0xabc6761d; 0xabc9215c; 0xabccb443;
   0xabd90920; 0xabe5ab15; 0xabe8a333; 0xabeb0da4; 0xabef8f3e; 0xabfa2c41; 0xac002679; 0xac0157bc;
   0xac01c23d; 0xac047535; 0xac13e449; 0xac1efd83; 0xac3e7318; 0xac408bc2; 0xac4ee799; 0xac4f1f0b;
   0xac6184e6; 0xac674c6f; 0xac6cc637; 0xac7c2c3e; 0xac85f994; 0xac8b2959; 0xac90717c; 0xac93e99f;
   0xaca92749; 0xacbad1aa; 0xacc8ab29; 0xaccd0851; 0xacd4e942; 0xacd96c8d; 0xace3e679; 0xacf1a039;
   0xad036b78; 0xad05e42b; 0xad208b73; 0xad3fa46e; 0xad418718; 0xad44e9f7; 0xad657d04; 0xad67ecc6;
   0xad6c2ee4; 0xad722b4c; 0xad73ad9b; 0xad7f46cf; 0xad875ade; 0xad9324ff; 0xad9547b0; 0xada157ae;
   0xada575dc; 0xada5b9c5; 0xadb23753; 0xadb99a9e; 0xadbb15be; 0xadbbe1b0; 0xadc9e6ce; 0xadcbcfdf;
   0xadef85aa; 0xadf1e62e; 0xadf2b42a; 0xadf88a2a; 0xadf89267; 0xadfa68e2; 0xadfb497f; 0xae113943;
   0xae120dbf; 0xae205025; 0xae23afe1; 0xae4881b1; 0xae4b10ec; 0xae4e21b2; 0xae5971e8; 0xae616813;
   0xae6f3ef6; 0xae73e784; 0xae745b4c; 0xae7c02a2; 0xae7ca9d4; 0xae80431b; 0xae834b5b; 0xae85364d;
   0xae873f09; 0xae8980af; 0xae8a4161; 0xae90c46d; 0xae963646; 0xae9be9a3; 0xae9d2818; 0xaeaec79c;
   0xaeb4be3f; 0xaebc2887; 0xaec72aac; 0xaecc710d; 0xaed21f1a; 0xaed43399; 0xaedd1033; 0xaee14157;
   0xaee3c60c; 0xaee52b91; 0xaef3d69a; 0xaf02caa9; 0xaf0b2430; 0xaf134eed; 0xaf145500; 0xaf19da61;
   0xaf20ca68; 0xaf2b4614; 0xaf3c4434; 0xaf3daea0; 0xaf44ffd6; 0xaf4e1374; 0xaf51ce88; 0xaf54a654;
   0xaf5d402d; 0xaf60c608; 0xaf6b8bd5; 0xaf75ada2; 0xaf77573a; 0xaf7f2a6f; 0xaf876e7f; 0xaf8ce835;
   0xaf91d745; 0xaf925c0d; 0xafa582f5; 0xafa99c57; 0xafb46229; 0xafc0e7ab; 0xafc195fa; 0xafc1ab99;
   0xafc66e36; 0xafd49ac7; 0xafd87345; 0xafdba888; 0xafddbf93; 0xafe18d4c; 0xafe35978; 0xafe7ea33;
   0xafe98d22; 0xafea18de; 0xafef167f; 0xaff2e713; 0xb01ad7a9; 0xb020dae3; 0xb0258641; 0xb0326bf1;
   0xb03fda36; 0xb04491b4; 0xb0478208; 0xb0511490; 0xb0540370; 0xb05cf5ba; 0xb05debca; 0xb060056c;
   0xb0619422; 0xb06f6d54; 0xb071a88b; 0xb07aabe6; 0xb081dd73; 0xb08d4dd4; 0xb0ae3568; 0xb0b4367f;
   0xb0b94b12; 0xb0b988d8; 0xb0bce012; 0xb0c049af; 0xb0c78e60; 0xb0e86b04; 0xb0ef8d49; 0xb1032f3b;
   0xb1066940; 0xb108ce3f; 0xb10c034f; 0xb1102e53; 0xb11a49c6; 0xb11d49b2; 0xb11ef9d9; 0xb11fb617;
   0xb125d968; 0xb1294a67; 0xb1400b6e; 0xb140ce90; 0xb14a9785; 0xb14aa91a; 0xb14cfdc5; 0xb14e3a04;
   0xb153f601; 0xb1579140; 0xb15819b3; 0xb15fe4ff; 0xb168fc07; 0xb1781c0e; 0xb17a674a; 0xb19012e4;
   0xb1913956; 0xb193fa4c; 0xb1a483fe; 0xb1ac4cd1; 0xb1ae4b1f; 0xb1bbcd96; 0xb1c01da5; 0xb1c6d9c9;
   0xb1c9f574; 0xb1cde241; 0xb1daecda; 0xb1df5eaa; 0xb1e10851; 0xb1f59b0e; 0xb1fa6e2e; 0xb1fe975f;
   0xb20aa7ac; 0xb20ae209; 0xb20cbdc1; 0xb219d704; 0xb224b841; 0xb23b93af; 0xb244fa43; 0xb2532cc0;
   0xb25461dd; 0xb2548b2c; 0xb260b1ce; 0xb260d493; 0xb262ea58; 0xb264e374; 0xb266e812; 0xb272b4b5;
   0xb27b1ec9; 0xb27deaf8; 0xb282b6ed; 0xb28bbf37; 0xb28ccf13; 0xb296f331; 0xb29f5b14; 0xb29f9745;
   0xb29fd367; 0xb2aa2a36; 0xb2ac2a2e; 0xb2b1db3f; 0xb2b7a679; 0xb2b9b463; 0xb2be4afb; 0xb2bfc3de;
   0xb2c9da02; 0xb2d61ddc; 0xb2dde986; 0xb2e7cc9f; 0xb2e96c12; 0xb2ecf3d6; 0xb2ee5eb3; 0xb3036c21;
   0xb30fa9d2; 0xb321fdbe; 0xb32eb5f5; 0xb32fc75b; 0xb331bddc; 0xb3414e64; 0xb3445b94; 0xb345dba2;
   0xb3475f92; 0xb34c5eab; 0xb3505883; 0xb353afb9; 0xb3553d0c; 0xb35d581a; 0xb35f67df; 0xb3600d86;
   0xb3666b4f; 0xb36bacea; 0xb3776d0b; 0xb381c909; 0xb38925bd; 0xb38e1cfd; 0xb393750a; 0xb3937d22;
   0xb397e269; 0xb3a7ba83; 0xb3aad633; 0xb3ae17d1; 0xb3aff723; 0xb3b76974; 0xb3c0486e; 0xb3c9225e;
   0xb3c9693a; 0xb3ceeab2; 0xb3d3b50e; 0xb3e1f117; 0xb3e535ba; 0xb3e74309; 0xb3eb4899; 0xb3f356b4;
   0xb400ddf8; 0xb4096292; 0xb40a73e4; 0xb410ecfb; 0xb41a3d1c; 0xb41e5e02; 0xb41fa097; 0xb420050a;
   0xb4230f0a; 0xb42dd2f4; 0xb4302ce9; 0xb4502420; 0xb4592dcd; 0xb45ce74a; 0xb4669d97; 0xb46a3969;
   0xb47a8cb0; 0xb47c62af; 0xb47d4bb2; 0xb47f3f61; 0xb48cf6c4; 0xb4918dc5; 0xb4920a45; 0xb4b14f82;
   0xb4c1c7b4; 0xb4c4e007; 0xb4d0ae63; 0xb4dc252f; 0xb4dca994; 0xb4de4a87; 0xb4f98ddf; 0xb4ff1b45;
   0xb4ff4c49; 0xb500afd8; 0xb5032374; 0xb50358d5; 0xb51bab57; 0xb51c2fa4; 0xb5214c20; 0xb536bacd;
   0xb53d4a1e; 0xb53e6b60; 0xb55b14c4; 0xb55f96b0; 0xb5647eae; 0xb5683192; 0xb570685d; 0xb588a035;
   0xb5a991ac; 0xb5ad0bba; 0xb5bfa5e1; 0xb5c04270; 0xb5e1d515; 0xb5e51d54; 0xb5f14301; 0xb5ff17a2;
   0xb60054e9; 0xb601a5da; 0xb60522dc; 0xb61010c0; 0xb6114c2d; 0xb6130af8; 0xb618c8f0; 0xb61bde2f;
   0xb625e990; 0xb62842fb; 0xb62c439d; 0xb6368b68; 0xb65858fe; 0xb675e937; 0xb67a5b34; 0xb67a9a02;
   0xb688dcc4; 0xb689a386; 0xb691fd6a; 0xb69b6a78; 0xb6a9a050; 0xb6be25c5; 0xb6c73607; 0xb6c7cc02;
   0xb6cd1ae6; 0xb6cfc3f0; 0xb6d026c4; 0xb6d37eab; 0xb6d44df9; 0xb6d6c29b; 0xb6d95ce0; 0xb6df82fc;
   0xb6f61536; 0xb6f7eefe; 0xb70476b6; 0xb70f0d26; 0xb71161b0; 0xb71454f0; 0xb7201d01; 0xb7222c5d;
   0xb7437233; 0xb745e2bf; 0xb752f172; 0xb75ef307; 0xb7630f0a; 0xb76cd2e1; 0xb771107e; 0xb774120c;
   0xb781a1db; 0xb7873639; 0xb78fb8f6; 0xb7967f59; 0xb7ada8b2; 0xb7b996cf; 0xb7bcb0d9; 0xb7c16aa9;
   0xb7c26532; 0xb7d5ab56; 0xb7dd504e; 0xb7ea06be; 0xb7ef2100; 0xb7f2838c; 0xb800390b; 0xb80e97ab;
   0xb8157615; 0xb81e66cb; 0xb8321b3b; 0xb837dabf; 0xb83b31c3; 0xb8518ee7; 0xb8572cf0; 0xb858a219;
   0xb863b7fa; 0xb867c933; 0xb86ae8f1; 0xb877240d; 0xb89703b4; 0xb8a68624; 0xb8bae261; 0xb8c16beb;
   0xb8c58d1c; 0xb8cbe316; 0xb8d12800; 0xb8d6a0b3; 0xb8d992aa; 0xb8fdf3e8; 0xb920a44c; 0xb92d2642;
   0xb9308e89; 0xb952a5d9; 0xb95c8410; 0xb974388e; 0xb976aeff; 0xb978c61c; 0xb987af86; 0xb9894ec2;
   0xb991054f; 0xb9a5ded8; 0xb9b509d7; 0xb9bba410; 0xb9be5620; 0xb9bea2aa; 0xb9bf2af5; 0xb9c0aa89;
   0xb9c26d32; 0xb9c94309; 0xb9e9f491; 0xb9f63bc1; 0xb9ff79ae; 0xba07d6ed; 0xba1ed8e9; 0xba2397cd;
   0xba271bd2; 0xba2b0e34; 0xba2b40c0; 0xba302f83; 0xba32368d; 0xba328214; 0xba347864; 0xba40721e;
   0xba426dfb; 0xba48e893; 0xba4efc72; 0xba52a299; 0xba70f2be; 0xba71ec72; 0xba7796c4; 0xba81872b;
   0xba9909c2; 0xba9e50a8; 0xba9f8f53; 0xbaa2be45; 0xbaa367ba; 0xbab348e3; 0xbac59af8; 0xbad9a368;
   0xbaeb96af; 0xbaed986f; 0xbaef3f11; 0xbaf17678; 0xbaf73490; 0xbaf8734b; 0xbb006594; 0xbb028746;
   0xbb1a73da; 0xbb1c7f0b; 0xbb21b24d; 0xbb2821e8; 0xbb3066c6; 0xbb3b4bd4; 0xbb3b6a98; 0xbb3c0c2c;
   0xbb476423; 0xbb4c7d2d; 0xbb4f149a; 0xbb5956d8; 0xbb6da3ef; 0xbb6fc0eb; 0xbb70e6f9; 0xbb711501;
   0xbb7c0d13; 0xbb7d54bf; 0xbb7dea07; 0xbb7ed8ba; 0xbb7edaab; 0xbb814d8e; 0xbb84913c; 0xbb859142;
   0xbb8c2487; 0xbb9e2513; 0xbb9e4d12; 0xbbac944b; 0xbbb4030f; 0xbbbf13f0; 0xbbbf6762; 0xbbc92327;
   0xbbe7c011; 0xbbec635c; 0xbbf16811; 0xbbf36a22; 0xbbf4e098; 0xbc16b4cd; 0xbc19c236; 0xbc1c7377;
   0xbc230502; 0xbc2c5344; 0xbc3899b5; 0xbc44aa54; 0xbc4d3fe9; 0xbc4f3e50; 0xbc507de0; 0xbc53746a;
   0xbc542284; 0xbc56baee; 0xbc7438da; 0xbc7fa6f9; 0xbc9fc53b; 0xbca15382; 0xbcaac5ea; 0xbcb03eda;
   0xbcb1d0f0; 0xbcb4ec19; 0xbcb6a951; 0xbccf8ee6; 0xbcd05810; 0xbcd2ad5d; 0xbcd6cb25; 0xbcde96e0;
   0xbcdec1c7; 0xbce76f04; 0xbcebfee3; 0xbced6931; 0xbcf4eb85; 0xbcf50ba2; 0xbcf74126; 0xbcfdd1e7;
   0xbd001b8d; 0xbd094b5e; 0xbd113272; 0xbd191a1f; 0xbd1cf455; 0xbd330e79; 0xbd3971d4; 0xbd3d0a73;
   0xbd41a2bf; 0xbd43d5c7; 0xbd4531a8; 0xbd4a0d45; 0xbd5f196c; 0xbd62db4c; 0xbd65bbc1; 0xbd664bae;
   0xbd68a461; 0xbd6d269e; 0xbd6ffe77; 0xbd7095cd; 0xbd71e3fc; 0xbd75f749; 0xbd7f3dfa; 0xbd823ca0;
   0xbd8bdffd; 0xbda244d1; 0xbda7939d; 0xbdae28b8; 0xbdb79a32; 0xbdb8f392; 0xbdc30d39; 0xbdcf4a2c;
   0xbdd0a13c; 0xbde0e428; 0xbde6b173; 0xbde6fdfd; 0xbde7f25d; 0xbdeb21f3; 0xbded649d; 0xbdf0c361;
   0xbdf46d12; 0xbe07819b; 0xbe115670; 0xbe15e8ee; 0xbe17d2ef; 0xbe17f8d6; 0xbe2117b9; 0xbe266655;
   0xbe2abc59; 0xbe2ccc43; 0xbe30b6c8; 0xbe3627a8; 0xbe462933; 0xbe48814f; 0xbe59224b; 0xbe73e024;
   0xbe8f5916; 0xbea8172f; 0xbea8d626; 0xbeb2a713; 0xbeb57a07; 0xbeb69c27; 0xbeb84129; 0xbebddf68;
   0xbec47774; 0xbec6f50b; 0xbec88c15; 0xbeca43dd; 0xbeece19b; 0xbeef3056; 0xbf0079d3; 0xbf0dba8d;
   0xbf143c71; 0xbf27ad18; 0xbf2e5252; 0xbf305ff2; 0xbf4b5f6b; 0xbf526c77; 0xbf54d258; 0xbf85b92f;
   0xbf87b0c0; 0xbf8bc9d4; 0xbfad6d51; 0xbfb6ec5e; 0xbfc362f5; 0xbfc45847; 0xbfc6c434; 0xbfca61dd;
   0xbfd44df2; 0xbfd91e26; 0xbfdee026; 0xbfe1ec14; 0xbfe1ecc1; 0xbff12a3f; 0xbff65fac; 0xbff98f72;
   0xbffcd1f9; 0xc00a11dc; 0xc02c4f7f; 0xc0342963; 0xc035bf49; 0xc03a29fc; 0xc0403127; 0xc04515f1;
   0xc061fc20; 0xc0664947; 0xc068bce9; 0xc077d6fb; 0xc084c1a1; 0xc08d52e5; 0xc08fa700; 0xc09960c6;
   0xc0a6c924; 0xc0af8736; 0xc0b258f8; 0xc0b923cd; 0xc0caabfd; 0xc0d284eb; 0xc0dadcd4; 0xc0dee906;
   0xc0e3c135; 0xc0e46e18; 0xc0e5070a; 0xc0ea94f5; 0xc0efb71a; 0xc0f31d61; 0xc0f4f438; 0xc1022ef6;
   0xc105932d; 0xc1081919; 0xc10d90f5; 0xc11470e2; 0xc11c7bf2; 0xc120a72c; 0xc120ce9d; 0xc120da93;
   0xc1237e30; 0xc1251e11; 0xc1327ee4; 0xc133488d; 0xc144b224; 0xc1563da5; 0xc159f5df; 0xc15e5860;
   0xc163b260; 0xc168be89; 0xc16ec53e; 0xc16f12d7; 0xc16fb758; 0xc174a62f; 0xc1835e17; 0xc187c819;
   0xc19792d4; 0xc19b9fe5; 0xc1a2f433; 0xc1b50864; 0xc1b7da35; 0xc1ba687b; 0xc1d5e05c; 0xc1dbc72c;
   0xc1dc963f; 0xc1e21480; 0xc1e27d65; 0xc1e423bc; 0xc1e70b37; 0xc2146504; 0xc21c861c; 0xc21da814;
   0xc222a816; 0xc226e7c9; 0xc2445027; 0xc24c547b; 0xc24ee416; 0xc25082af; 0xc252d6aa; 0xc256b539;
   0xc257b8a3; 0xc259115b; 0xc2620cef; 0xc26ae366; 0xc26b13f0; 0xc26b2aea; 0xc27d820c; 0xc28122be;
   0xc287419f; 0xc28874fa; 0xc28d66ad; 0xc298ad1d; 0xc29cc2df; 0xc2a3d95a; 0xc2ae685e; 0xc2b99431;
   0xc2bdc001; 0xc2d73778; 0xc2da7aef; 0xc2db0a67; 0xc2dd7740; 0xc2df4fd0; 0xc2e23fb4; 0xc2ef2afb;
   0xc2f13eab; 0xc2f9639a; 0xc30ad09f; 0xc314621b; 0xc31686eb; 0xc316cc70; 0xc31707b6; 0xc31e4429;
   0xc32503f6; 0xc32c06a5; 0xc32ef983; 0xc334c2ed; 0xc33f8f3f; 0xc3478045; 0xc34bd8ba; 0xc34e5c5e;
   0xc3532f92; 0xc35aa816; 0xc36bb55f; 0xc3734c78; 0xc384d550; 0xc386a335; 0xc386b96c; 0xc387c8b6;
   0xc387cbc0; 0xc38c7e81; 0xc38f9d55; 0xc3907618; 0xc394d6d2; 0xc3c16a65; 0xc3cb1fac; 0xc3cbde53;
   0xc3d2e829; 0xc3d39f71; 0xc3d6798c; 0xc3eae1a9; 0xc3f09fe1; 0xc3f10a03; 0xc3fe7bd5; 0xc40214e0;
   0xc4176121; 0xc429cc9f; 0xc433ed6c; 0xc43b9492; 0xc43d3f47; 0xc45528dc; 0xc45bef0d; 0xc45fc737;
   0xc4633ced; 0xc46597e2; 0xc46bd644; 0xc47b77cd; 0xc47d7d3e; 0xc4893782; 0xc48bbd5b; 0xc48f6260;
   0xc49f760d; 0xc4adb684; 0xc4b383a6; 0xc4b40a72; 0xc4b8c7f1; 0xc4c40259; 0xc4e17cae; 0xc4e54997;
   0xc4e7dcfa; 0xc4eec4dc; 0xc4f10df6; 0xc5047ee1; 0xc516b4f6; 0xc51847c6; 0xc52c2453; 0xc52c35b5;
   0xc5306dd3; 0xc5419d70; 0xc545e41d; 0xc54a2388; 0xc54c3558; 0xc551dc9b; 0xc5674cef; 0xc56863d6;
   0xc56c6352; 0xc5711834; 0xc57890c0; 0xc57d6c24; 0xc586e147; 0xc5896eba; 0xc58c1a3e; 0xc592c402;
   0xc59e5a9d; 0xc5a225e5; 0xc5a458f8; 0xc5a80fb2; 0xc5af5150; 0xc5bd5a6e; 0xc5bfa7b5; 0xc5c2523d;
   0xc5c30976; 0xc5c74d46; 0xc5cfdd1c; 0xc5d4e735; 0xc5d95dca; 0xc5da0042; 0xc5e1f5c5; 0xc5e8d9ad;
   0xc5ed1d3c; 0xc5f7878b; 0xc6051515; 0xc6096ec2; 0xc615b17a; 0xc62528d8; 0xc632d54f; 0xc638445a;
   0xc6476b3f; 0xc6567bf2; 0xc658d10e; 0xc65db8e9; 0xc6603224; 0xc66569be; 0xc66f44e2; 0xc671054c;
   0xc67659e0; 0xc67b394b; 0xc67c3902; 0xc67e1610; 0xc68ed648; 0xc6982e24; 0xc69ffd67; 0xc6a47f6a;
   0xc6af639a; 0xc6bace24; 0xc6cf0363; 0xc6d4acbf; 0xc6dbb469; 0xc70101b9; 0xc701d4c6; 0xc7073cc8;
   0xc7094534; 0xc7117c5e; 0xc7145fda; 0xc717ead8; 0xc727bd93; 0xc73c6093; 0xc73e411b; 0xc744fd37;
   0xc7489301; 0xc7556b8a; 0xc78747d3; 0xc789fbb8; 0xc78a32cf; 0xc78dc3d2; 0xc79ac9f8; 0xc79bb170;
   0xc7d3bb01; 0xc7d4161b; 0xc7d72633; 0xc7d93efe; 0xc7ec5317; 0xc7f0af3f; 0xc7f2c984; 0xc7f79232;
   0xc7f8a643; 0xc804a2ab; 0xc80fb2a1; 0xc8115020; 0xc814d4c8; 0xc81e90f5; 0xc82826bd; 0xc829bd16;
   0xc82c6ac3; 0xc832aa03; 0xc84535e0; 0xc848d7a9; 0xc85035f8; 0xc8535d21; 0xc86ac98e; 0xc86f8c28;
   0xc874f0c3; 0xc874f12a; 0xc881de8b; 0xc8991c87; 0xc89efbf0; 0xc8a57259; 0xc8a5df9d; 0xc8a6d835;
   0xc8b5743e; 0xc8c0f0c7; 0xc8d3edaf; 0xc8d759fa; 0xc8eb5324; 0xc8ed5bf5; 0xc8f29323; 0xc8fc2088;
   0xc904c575; 0xc90beafc; 0xc90ced0c; 0xc90cfe51; 0xc9206ae3; 0xc92817aa; 0xc931b0f6; 0xc9337bb6;
   0xc933c0e4; 0xc93733ea; 0xc94ae891; 0xc94def3b; 0xc94ffa1e; 0xc96246bf; 0xc96890fe; 0xc96a08c4;
   0xc975d18b; 0xc97cade2; 0xc97d11f3; 0xc9818cd8; 0xc985db2a; 0xc98b7833; 0xc996a41a; 0xc99738ba;
   0xc997750e; 0xc9983d3d; 0xc9b54af0; 0xc9bb078b; 0xc9be66e8; 0xc9e30da9; 0xc9e3de6a; 0xc9e6e7d5;
   0xc9e7e13a; 0xc9e9534e; 0xc9fafd07; 0xc9fe6e80; 0xca0fc86e; 0xca1f6a64; 0xca307276; 0xca325cce;
   0xca3602ee; 0xca43d306; 0xca448740; 0xca58caf2; 0xca64aacb; 0xca711e25; 0xca8e2560; 0xca8fcffe;
   0xca92d079; 0xcab35c25; 0xcabcc900; 0xcac1a8d6; 0xcac2872a; 0xcac48417; 0xcad4425c; 0xcad4d50e;
   0xcad65d90; 0xcad78753; 0xcae24dc2; 0xcae41ba8; 0xcb01d177; 0xcb083107; 0xcb131167; 0xcb153f4a;
   0xcb1928ba; 0xcb1a9ae8; 0xcb28cefd; 0xcb3660a0; 0xcb557a00; 0xcb5b3ef3; 0xcb6a810a; 0xcb776056;
   0xcb80920f; 0xcb861305; 0xcba86e39; 0xcba90f98; 0xcbaae1ff; 0xcbcc4604; 0xcbd4e256; 0xcbdf5bb7;
   0xcbe20b35; 0xcbee2635; 0xcbee45ed; 0xcbeec938; 0xcbf02188; 0xcbf034d6; 0xcbf8c0c3; 0xcbfdc1ff;
   0xcc01079c; 0xcc0501f2; 0xcc060f75; 0xcc132314; 0xcc1473fb; 0xcc1c77af; 0xcc1cf66b; 0xcc35c87d;
   0xcc3afdc6; 0xcc4c9ee9; 0xcc5dca7f; 0xcc63a298; 0xcc76ab81; 0xcc8ba11b; 0xcc8c4c08; 0xcc92aa6c;
   0xcc99cd2d; 0xcca5dd02; 0xccac178c; 0xccb077e6; 0xccb46c3c; 0xccb61395; 0xccb674ad; 0xccb7f038;
   0xccba7bbf; 0xccc00c76; 0xcccbbd71; 0xcce82a86; 0xcceea037; 0xccf8392f; 0xcd00d7c1; 0xcd1ac5a2;
   0xcd1b1ef1; 0xcd23629a; 0xcd2609ba; 0xcd30fc17; 0xcd3471cb; 0xcd36fe81; 0xcd3766f3; 0xcd4d1ce5;
   0xcd630ca5; 0xcd69c99d; 0xcd735f52; 0xcd89f1be; 0xcd8bd1e0; 0xcd90bc1e; 0xcd958899; 0xcd96240c;
   0xcd97f58a; 0xcda75641; 0xcdaf2996; 0xcdc0b1bc; 0xcdc4d2d1; 0xcdd31c74; 0xcdd99f91; 0xcddcaa9f;
   0xcde7a380; 0xcdec3125; 0xcdec6778; 0xcdededa4; 0xcdf52e11; 0xcdf8e4a4; 0xcdfba7ed; 0xce007da9;
   0xce259211; 0xce2bb556; 0xce2e6899; 0xce33fb32; 0xce340916; 0xce369b68; 0xce3b2b30; 0xce45430f;
   0xce49b176; 0xce51f4db; 0xce60cc7a; 0xce694078; 0xce69dc98; 0xce7a5a2a; 0xce800483; 0xce8f5357;
   0xce920619; 0xce941869; 0xce9a8831; 0xcea6c935; 0xceaa95d2; 0xceae4e2e; 0xcebc6251; 0xcebdb54e;
   0xcebe059e; 0xcecc8450; 0xced80b3e; 0xced979d4; 0xcede42d4; 0xcee0f918; 0xcee4c1f2; 0xcee4d4aa;
   0xcee5f854; 0xcee67949; 0xcee8316d; 0xceed2ba2; 0xceef86f1; 0xcefd949f; 0xcf00a365; 0xcf12496d;
   0xcf1b262c; 0xcf3be83f; 0xcf3ff80b; 0xcf417760; 0xcf49e73c; 0xcf503e9f; 0xcf55fceb; 0xcf601f7c;
   0xcf63c810; 0xcf6781cc; 0xcf6be235; 0xcf6ce94c; 0xcf7ea80a; 0xcf8fd379; 0xcf919716; 0xcf92388e;
   0xcf9357c5; 0xcfa31349; 0xcfae797e; 0xcfb445d2; 0xcfb4e283; 0xcfb63bc2; 0xcfc18a32; 0xcfc3f64d;
   0xcfc4e0bf; 0xcfcf6227; 0xcfe6aca2; 0xcff9dab1; 0xcffe5799; 0xcffe5c01; 0xd003e43a; 0xd019e22a;
   0xd01b02fd; 0xd01ef261; 0xd01f3dc0; 0xd020cd59; 0xd0243bd8; 0xd02f1bf7; 0xd032f53a; 0xd03cabfe;
   0xd03d3c10; 0xd05051f3; 0xd05b620c; 0xd05c760a; 0xd05e9a6e; 0xd064f0f9; 0xd06ede54; 0xd074000f;
   0xd0772308; 0xd07e857b; 0xd08b1f41; 0xd0aa2ecb; 0xd0af122f; 0xd0b06e33; 0xd0b2dccf; 0xd0b531fb;
   0xd0c03b65; 0xd0c84650; 0xd0cfe658; 0xd0e83dd5; 0xd0eb2e62; 0xd0f4588d; 0xd10b932e; 0xd116e3c1;
   0xd11c74c5; 0xd123948e; 0xd12ba7c0; 0xd1305afb; 0xd1484b27; 0xd148a091; 0xd14e1c51; 0xd157f746;
   0xd15a5760; 0xd168cdb5; 0xd16af449; 0xd16d5ab6; 0xd1757089; 0xd179a70a; 0xd182b35f; 0xd18b18cb;
   0xd191512c; 0xd1978cd4; 0xd1a22266; 0xd1ac25c1; 0xd1b2f919; 0xd1b6889e; 0xd1d8eea1; 0xd1df9dc4;
   0xd1e203b5; 0xd1e50918; 0xd1e728cb; 0xd1e8a042; 0xd1f0aedd; 0xd1f45ba2; 0xd1fdea21; 0xd200d65c;
   0xd2092b4a; 0xd2174761; 0xd21b410c; 0xd21b6233; 0xd21e462d; 0xd2217919; 0xd225d6bb; 0xd246c5ee;
   0xd24f4d09; 0xd25cd256; 0xd26cb383; 0xd26cf528; 0xd2714201; 0xd273ed0e; 0xd279fb85; 0xd28d9be8;
   0xd28e2203; 0xd2999752; 0xd2a0fcca; 0xd2a34e7a; 0xd2a710ef; 0xd2a7a1a1; 0xd2aa5cdb; 0xd2adfa08;
   0xd2aeabe3; 0xd2bab129; 0xd2bdabd1; 0xd2c031a5; 0xd2c53abb; 0xd2ce04f3; 0xd2da9de3; 0xd2dbf7b2;
   0xd2fd28c6; 0xd2fd385e; 0xd300afbf; 0xd31272ac; 0xd319ee93; 0xd334b768; 0xd3359ce9; 0xd335bb9d;
   0xd336cfb4; 0xd3374751; 0xd337ac1f; 0xd33bf07e; 0xd33f4540; 0xd3467829; 0xd34bcf5e; 0xd354fb94;
   0xd3599af3; 0xd3679f87; 0xd367dc7b; 0xd36d039b; 0xd3721109; 0xd373c202; 0xd373e6a8; 0xd3750b36;
   0xd3841643; 0xd38ae62b; 0xd3930943; 0xd394d013; 0xd39e153e; 0xd39f87b8; 0xd3abd25d; 0xd3b4693c;
   0xd3bb4097; 0xd3bdc423; 0xd3c27b12; 0xd3c58279; 0xd3cf063f; 0xd3da4645; 0xd3df342e; 0xd3e9db2d;
   0xd402e200; 0xd423984a; 0xd424f1ec; 0xd42e41dd; 0xd431648d; 0xd4320989; 0xd46b02ed; 0xd46c52a0;
   0xd470e08a; 0xd47514bd; 0xd47d7a03; 0xd4811f9d; 0xd482847f; 0xd48c183f; 0xd4912cc6; 0xd491ebac;
   0xd4975a7f; 0xd4992ca9; 0xd49fe208; 0xd4a32397; 0xd4a3297a; 0xd4a8f45c; 0xd4a96775; 0xd4b6c610;
   0xd4c84e1d; 0xd4c86c31; 0xd4cd9bdb; 0xd4cfb5f3; 0xd4ee96e7; 0xd4f03b4c; 0xd4f838e1; 0xd500185a;
   0xd50e0c57; 0xd50eb026; 0xd513b9a1; 0xd517ba0b; 0xd51abb83; 0xd51fafbc; 0xd532fd92; 0xd535f284;
   0xd53afe89; 0xd541e348; 0xd55019d1; 0xd556513d; 0xd558b801; 0xd55ca9d7; 0xd55df52f; 0xd56c314c;
   0xd5720b06; 0xd58ab7a4; 0xd59176f0; 0xd5926c03; 0xd592a93a; 0xd59cdf13; 0xd59e1421; 0xd5a8822a;
   0xd5a89651; 0xd5cf2a65; 0xd5d1e3ee; 0xd5d61b4b; 0xd5ec6a1e; 0xd5f251ea; 0xd602a271; 0xd602e1ac;
   0xd6075202; 0xd6078ca6; 0xd6178361; 0xd624cc04; 0xd624dea7; 0xd625eb14; 0xd626d4ae; 0xd6424f0f;
   0xd6516cec; 0xd6521015; 0xd6586df5; 0xd65a3dbe; 0xd6646987; 0xd666391c; 0xd667963d; 0xd677c45b;
   0xd67cb938; 0xd684e245; 0xd6969cc8; 0xd6a18120; 0xd6a6a421; 0xd6acdc00; 0xd6c59fcb; 0xd6c68f40;
   0xd6fadc7c; 0xd6fead7d; 0xd6ff4e63; 0xd70adac4; 0xd710db45; 0xd71bc7cb; 0xd723df5d; 0xd7251323;
   0xd72f1280; 0xd73510bc; 0xd736d537; 0xd742ead5; 0xd7432e77; 0xd74dd18e; 0xd75e55ec; 0xd75e8860;
   0xd768c5b2; 0xd76e8f09; 0xd76f2be2; 0xd78af94f; 0xd7aaad9f; 0xd7ab2505; 0xd7adc408; 0xd7ae143a;
   0xd7afe2bd; 0xd7c7e7b9; 0xd7ce5b24; 0xd7cf987b; 0xd7d5deb9; 0xd7d8d9af; 0xd7ddc25e; 0xd7dfaafc;
   0xd7e391e3; 0xd7ee605b; 0xd7fe69ef; 0xd8010f6e; 0xd809c726; 0xd8192874; 0xd81d60c7; 0xd81f8d6c;
   0xd821a756; 0xd83bf64b; 0xd83c020d; 0xd840d3f1; 0xd84b638c; 0xd84ff838; 0xd857b5fc; 0xd86340c2;
   0xd870ce3e; 0xd876fc04; 0xd87725f5; 0xd87e4adc; 0xd88b0734; 0xd8976605; 0xd89f87c2; 0xd89fa6db;
   0xd8a052f9; 0xd8a35f4e; 0xd8a542ba; 0xd8be1e3b; 0xd8c14bd2; 0xd8c4d27f; 0xd8dd14f1; 0xd8dfda0b;
   0xd8e834bd; 0xd8f89420; 0xd8f937b7; 0xd9089734; 0xd91d4b8d; 0xd92d7342; 0xd93d3b90; 0xd93e1513;
   0xd947095f; 0xd950d034; 0xd9608904; 0xd961d365; 0xd966afad; 0xd967b31c; 0xd96c43b0; 0xd99033dd;
   0xd99431ab; 0xd998c6a0; 0xd99ab61a; 0xd9aaf13b; 0xd9b18b7a; 0xd9b49b4b; 0xd9bbb747; 0xd9cdd9ba;
   0xd9d9e90c; 0xd9e997aa; 0xd9f4944d; 0xda0e7953; 0xda0f3ee9; 0xda0fd0fc; 0xda22ce14; 0xda2eb6c5;
   0xda3b1c98; 0xda3ca537; 0xda4880f2; 0xda4cdf75; 0xda4d6a1b; 0xda4feaf8; 0xda520ae5; 0xda69b1a9;
   0xda6a01b7; 0xda74421a; 0xda75db57; 0xda7d23ef; 0xda8d9d0f; 0xda910536; 0xda92b41c; 0xda94a868;
   0xda9dfa85; 0xda9edc02; 0xdaa522c8; 0xdab50bec; 0xdab748cf; 0xdab9fe95; 0xdaba0f78; 0xdad3cccd;
   0xdadaa17f; 0xdadd4b3a; 0xdae118d3; 0xdae305b0; 0xdae413b9; 0xdae60f9a; 0xdb01186a; 0xdb07ab84;
   0xdb10645f; 0xdb12287d; 0xdb12e7d9; 0xdb185898; 0xdb196e55; 0xdb1a283b; 0xdb1cbf15; 0xdb1d089b;
   0xdb1ee2a9; 0xdb2bbb9d; 0xdb2dc1a4; 0xdb2dfa5a; 0xdb43e3bd; 0xdb533ac0; 0xdb58cc3d; 0xdb61e3d5;
   0xdb683190; 0xdb6cb19b; 0xdb711aeb; 0xdb8124fa; 0xdb97e1c4; 0xdb9a9e19; 0xdba224ff; 0xdba48242;
   0xdbaa0d50; 0xdbb0a90d; 0xdbb2d7a6; 0xdbb71733; 0xdbcbcdc8; 0xdbceb43a; 0xdbcfd91c; 0xdbd7a5b2;
   0xdbffdf93; 0xdc00a919; 0xdc07a10c; 0xdc0d3eab; 0xdc185aa9; 0xdc18f2f2; 0xdc1adc1e; 0xdc2237fa;
   0xdc259960; 0xdc3ae384; 0xdc3ba9e7; 0xdc5629de; 0xdc563336; 0xdc5826ae; 0xdc5cc4a0; 0xdc674c39;
   0xdc7d3f53; 0xdc80c191; 0xdc865a1e; 0xdc86d726; 0xdc8bd61a; 0xdc8c5a46; 0xdc8da033; 0xdc91f946;
   0xdc9af008; 0xdca0407d; 0xdcb02655; 0xdcb4d6b7; 0xdcb5ed22; 0xdcb77317; 0xdcb8c2f3; 0xdcc201f9;
   0xdcc5672c; 0xdcd1529b; 0xdcdd2adf; 0xdcee8319; 0xdcf2d0d4; 0xdcfdff5e; 0xdd0d6758; 0xdd2e340c;
   0xdd2f8043; 0xdd38b096; 0xdd3dbbe3; 0xdd3e8d2c; 0xdd3f5080; 0xdd50468d; 0xdd624bec; 0xdd6a66b9;
   0xdd6fcb18; 0xdd79830b; 0xdd847ba4; 0xdd8d682f; 0xdd97ef13; 0xdd9ba21b; 0xdd9da5f9; 0xdda987dc;
   0xddac0de7; 0xddb06948; 0xddb4ae10; 0xddc19c7c; 0xddc1ba40; 0xddcf8b07; 0xddd1af6d; 0xdddb6436;
   0xdde3d4de; 0xdde82ad2; 0xddf1f889; 0xddf25138; 0xddf4e048; 0xddf50f01; 0xde056bc0; 0xde057387;
   0xde06ca0a; 0xde090228; 0xde0e43dc; 0xde0e6474; 0xde247631; 0xde2a5fb1; 0xde2f4ee1; 0xde3537de;
   0xde3b86cd; 0xde4b4265; 0xde60dff4; 0xde683b6f; 0xde6ccd2f; 0xde79cd53; 0xde7bebad; 0xde806343;
   0xde87bb04; 0xde89f91c; 0xde906f29; 0xde9389d8; 0xde986cd8; 0xde9ba5c3; 0xde9ef6a4; 0xdea62073;
   0xdea9026e; 0xdeb7ca75; 0xdeba1ae3; 0xdebd218c; 0xdebd3b40; 0xdebe8546; 0xdec6ab4d; 0xdec9b8ec;
   0xded68e7c; 0xdee6de91; 0xdeeadfe5; 0xdef1d49b; 0xdf021cc4; 0xdf0eb505; 0xdf10bb4b; 0xdf117865;
   0xdf1e08c6; 0xdf26b9ef; 0xdf29d26d; 0xdf3a241c; 0xdf3c7ea7; 0xdf3e73d1; 0xdf40231b; 0xdf463853;
   0xdf46e0cc; 0xdf4a08fe; 0xdf4a6e61; 0xdf4e4778; 0xdf50e875; 0xdf542805; 0xdf58e363; 0xdf6546fb;
   0xdf66ecf8; 0xdf738d31; 0xdf75f8d3; 0xdf76b75d; 0xdf7d6811; 0xdf852908; 0xdf8d9602; 0xdf8dc6f1;
   0xdf99a104; 0xdf9b4552; 0xdfa1e88c; 0xdfa4a6a0; 0xdfa8ef08; 0xdfa9f137; 0xdfaa0080; 0xdfad50a4;
   0xdfb8b2d1; 0xdfc27e55; 0xdfc2e187; 0xdfc90368; 0xdfce5cee; 0xdfd355f9; 0xdfd6388c; 0xdfd72452;
   0xdfdac439; 0xdfdba063; 0xdfdc5d55; 0xdfe4fe6d; 0xdfe8f07d; 0xdfe956d3; 0xdff07d82; 0xdff14189;
   0xdff2dc56; 0xe00087b3; 0xe006cfa1; 0xe009f319; 0xe00a106e; 0xe00b9ea5; 0xe0136add; 0xe01db7a4;
   0xe01f5841; 0xe0299144; 0xe02c7707; 0xe02c9e56; 0xe030514d; 0xe03d6db9; 0xe04d5c36; 0xe05237a1;
   0xe0536d93; 0xe060548a; 0xe0768515; 0xe07d0b73; 0xe084e359; 0xe08ef31e; 0xe0a4ff0f; 0xe0c8e502;
   0xe0c9b900; 0xe0cf263c; 0xe0d0359b; 0xe0d6cbeb; 0xe0d98c5b; 0xe0de0969; 0xe0dec7b7; 0xe0ec9ea2;
   0xe0f24134; 0xe0f49159; 0xe1095690; 0xe113bfef; 0xe117ead8; 0xe11be740; 0xe143b043; 0xe14658d7;
   0xe14fb750; 0xe152772b; 0xe154316e; 0xe1577fa3; 0xe160a74f; 0xe170cb0e; 0xe1746a5b; 0xe18a107f;
   0xe18ec419; 0xe1911565; 0xe19227db; 0xe19a71ba; 0xe19bedb2; 0xe1aad75b; 0xe1ac37c9; 0xe1ad053a;
   0xe1cf2326; 0xe1d50ba4; 0xe1e0ae7e; 0xe1e8f1d2; 0xe1effbe7; 0xe1fc3f05; 0xe200c769; 0xe20add7c;
   0xe20d2cb9; 0xe21b3c8a; 0xe21bf862; 0xe22295f1; 0xe22996da; 0xe2384a4e; 0xe23c71d8; 0xe247c0f4;
   0xe25460e3; 0xe2555810; 0xe25f89e6; 0xe2669536; 0xe26841bd; 0xe2689d48; 0xe27173e8; 0xe28a7ed5;
   0xe2959e53; 0xe2979a75; 0xe2a05c5b; 0xe2b2cf0b; 0xe2b3da2f; 0xe2b4c4c7; 0xe2b5ff9f; 0xe2bcd351;
   0xe2c3aabe; 0xe2e575ca; 0xe2edad26; 0xe2ffa8b6; 0xe301a3c3; 0xe303ef7a; 0xe30c097f; 0xe311feff;
   0xe312ec2f; 0xe31ab8a9; 0xe3248b76; 0xe327fb00; 0xe33e1068; 0xe341526b; 0xe3526158; 0xe3662bed;
   0xe38064d0; 0xe3a7ac75; 0xe3af87c4; 0xe3b7ee4f; 0xe3bcaf61; 0xe3cbd5f7; 0xe3d51d66; 0xe3ddfc59;
   0xe3ebf6d3; 0xe3ef9ca2; 0xe3f09947; 0xe3f1daa5; 0xe4073624; 0xe412e4b7; 0xe4188c95; 0xe42cef74;
   0xe4378f0b; 0xe4442ccf; 0xe4475332; 0xe4543fc2; 0xe46163c4; 0xe46beda7; 0xe47073b2; 0xe472710e;
   0xe472fb67; 0xe476242d; 0xe47c8665; 0xe47f6ad4; 0xe4823044; 0xe49db4c8; 0xe4a06c46; 0xe4a4c1e6;
   0xe4a69915; 0xe4ab800e; 0xe4ac4a74; 0xe4b53af9; 0xe4bfc725; 0xe4c45482; 0xe4d3699f; 0xe4edd1a1;
   0xe4f4e89a; 0xe4faf6cb; 0xe503658d; 0xe5052780; 0xe50aaf92; 0xe52c23be; 0xe53216e0; 0xe53cba64;
   0xe5507b4e; 0xe5521bbe; 0xe5525bcd; 0xe556944e; 0xe55f9587; 0xe55fe39a; 0xe579225c; 0xe57e3869;
   0xe58942ab; 0xe58cb58f; 0xe58fd21f; 0xe5933ec8; 0xe5a1b2f4; 0xe5b3b16e; 0xe5babf21; 0xe5c79dc7;
   0xe5ca237e; 0xe5cbc2c8; 0xe5cea4e2; 0xe5d18598; 0xe5d20931; 0xe5d48098; 0xe5e0fd9b; 0xe5ebb44b;
   0xe5f3b7e5; 0xe5f93e3d; 0xe60be11b; 0xe60d5de3; 0xe60ffa8a; 0xe6118d22; 0xe613d34c; 0xe6155f0d;
   0xe618a6d1; 0xe61cc036; 0xe61d77e5; 0xe61f0a78; 0xe62a41da; 0xe62c2053; 0xe63da980; 0xe640ca23;
   0xe6426b44; 0xe6479f63; 0xe64bb93e; 0xe6519ce9; 0xe6576721; 0xe66afd5d; 0xe6716097; 0xe6803831;
   0xe68056f2; 0xe682cd9c; 0xe6844265; 0xe6a8be73; 0xe6b805ec; 0xe6c7d734; 0xe6ce8807; 0xe6ced65e;
   0xe6e4d5a5; 0xe6ef9a53; 0xe6f03050; 0xe7007331; 0xe7036191; 0xe7042d82; 0xe70f3a1c; 0xe710fa54;
   0xe712dc59; 0xe71e8982; 0xe71f46fe; 0xe7212a0c; 0xe7236ba1; 0xe72b7151; 0xe72f3d6a; 0xe73cd9c1;
   0xe73d896e; 0xe74cc781; 0xe76695e9; 0xe76f3e14; 0xe77608ec; 0xe78c100b; 0xe78e6a99; 0xe7992a9c;
   0xe79eff34; 0xe7a0012e; 0xe7a38cfb; 0xe7be1151; 0xe7cfabc0; 0xe7ea1fb3; 0xe7ed4747; 0xe803faf2;
   0xe81d0e63; 0xe81fdf13; 0xe828799f; 0xe8288fb7; 0xe82e9bfe; 0xe8308529; 0xe8345caf; 0xe83a08d4;
   0xe83f9cfb; 0xe84681eb; 0xe849a4b5; 0xe853861f; 0xe855a62c; 0xe85b1808; 0xe862984c; 0xe877bb52;
   0xe87992da; 0xe87fbf3b; 0xe891c85c; 0xe891e4f4; 0xe8b33447; 0xe8b3a19d; 0xe8ba9dfd; 0xe8c7b858;
   0xe8c8d690; 0xe8e31ce9; 0xe8e44746; 0xe8e85e1b; 0xe8ea6ec8; 0xe8f45722; 0xe8f62ac6; 0xe8f88153;
   0xe900f3da; 0xe902a052; 0xe90828df; 0xe91c671f; 0xe9235a5e; 0xe937aacc; 0xe9438592; 0xe94b6a38;
   0xe94cf545; 0xe96968f4; 0xe971200d; 0xe9732990; 0xe98aaa94; 0xe999881c; 0xe99a1f97; 0xe9ad62ed;
   0xe9bbe1e0; 0xe9bc8e1d; 0xe9bf602f; 0xe9c7c8d7; 0xe9d02a91; 0xea0b1d92; 0xea140d3c; 0xea15e11b;
   0xea19081a; 0xea1e2ff4; 0xea2ec4d7; 0xea35be48; 0xea3d29f9; 0xea407843; 0xea43b1d9; 0xea466b0a;
   0xea522918; 0xea5d7b4f; 0xea66ee19; 0xea6ba9d4; 0xea786a68; 0xea875691; 0xea8db2a8; 0xea967019;
   0xea981043; 0xeaa567ed; 0xeab5d9ea; 0xeabbd084; 0xeabf98b2; 0xeac3dea6; 0xeac7004c; 0xeac902aa;
   0xeacde836; 0xead611db; 0xeadcf25c; 0xeae706e0; 0xeae7ba87; 0xeae8c590; 0xeaecfdc8; 0xeaf245c7;
   0xeb07117d; 0xeb114636; 0xeb1a9072; 0xeb28e609; 0xeb340032; 0xeb3d818f; 0xeb47f8fb; 0xeb4900e8;
   0xeb4d0601; 0xeb51db10; 0xeb63e89a; 0xeb6c0580; 0xeb6f188b; 0xeb756875; 0xeb7a5325; 0xeb94d9c4;
   0xeb974f02; 0xeb9775b7; 0xeba1bd34; 0xebabfcd2; 0xebac2156; 0xebae5cd7; 0xebb9c4f7; 0xebcc8e81;
   0xebd211ef; 0xebdd69b6; 0xebde0b92; 0xebe122c1; 0xebe13d2d; 0xebe18407; 0xebe606eb; 0xec0183ed;
   0xec0852f6; 0xec17f717; 0xec18c659; 0xec212787; 0xec2ae80e; 0xec306e17; 0xec39daaa; 0xec44671b;
   0xec4a9b27; 0xec509944; 0xec5235df; 0xec540435; 0xec5cb163; 0xec668866; 0xec717f95; 0xec7de3f5;
   0xec7e0ea3; 0xec804f78; 0xec82a3bd; 0xec895158; 0xec8b1b6c; 0xec8b9568; 0xec94df42; 0xec951e1a;
   0xec953463; 0xecb38ea7; 0xecb48798; 0xecc8f316; 0xecccbd4c; 0xecd31a1b; 0xecdaf985; 0xece02930;
   0xece1d707; 0xecea4ce6; 0xecec99df; 0xecf97ff6; 0xed0afae3; 0xed12d88a; 0xed2157be; 0xed2539cf;
   0xed253e25; 0xed3c5c3c; 0xed6f368f; 0xed755007; 0xed77b5c8; 0xed79d101; 0xed9f2268; 0xedbc5b6b;
   0xedbde2e1; 0xedc1db55; 0xedc47b56; 0xedc52d43; 0xedd0f8ff; 0xedd3ff6f; 0xedd6c371; 0xedeb2b69;
   0xedef23b2; 0xedf154b9; 0xedf21344; 0xedf4ef87; 0xedffb709; 0xee026229; 0xee09cccf; 0xee09f034;
   0xee198091; 0xee1b1306; 0xee2d5d2b; 0xee35fa0d; 0xee4137f0; 0xee432b60; 0xee585c99; 0xee5b9ff5;
   0xee623f1b; 0xee65bc75; 0xee6a454e; 0xee770e3b; 0xee79c4d5; 0xee7a5cdf; 0xee90b903; 0xee92846b;
   0xee9cb72f; 0xee9fb8f5; 0xeeac48dc; 0xeec6615d; 0xeec6d016; 0xeed6ca06; 0xeeec0a8a; 0xeef02cc6;
   0xeef64ec6; 0xef004967; 0xef06727c; 0xef10d5a5; 0xef204409; 0xef214cab; 0xef384ff8; 0xef47dfad;
   0xef4cf380; 0xef4cf390; 0xef4d4fa7; 0xef4f8969; 0xef58109d; 0xef642239; 0xef7d3a7a; 0xef82eb17;
   0xef8814c4; 0xef908140; 0xef915d71; 0xef9caafd; 0xef9cafb0; 0xef9e4634; 0xefa057ee; 0xefa12478;
   0xefa74a6a; 0xefaa7a5b; 0xefaf3f84; 0xefb0e92f; 0xefb959f9; 0xefba30f0; 0xefbfca39; 0xefc0b915;
   0xefc653b6; 0xefcb4a02; 0xefcc70e7; 0xefd692df; 0xefdba9c8; 0xefe169e7; 0xefe31714; 0xefe907ea;
   0xefec00cc; 0xeff70976; 0xeffb834b; 0xf0067d92; 0xf00768fd; 0xf00e343e; 0xf00e63b2; 0xf00f12a3;
   0xf0450afc; 0xf056b5c5; 0xf0581ffe; 0xf060ce09; 0xf06a54f2; 0xf06d9a65; 0xf070b485; 0xf07efba8;
   0xf095dbb8; 0xf0a4850c; 0xf0a7671f; 0xf0a990b4; 0xf0aa66bd; 0xf0b5a6b5; 0xf0b76f3d; 0xf0b783d8;
   0xf0b87494; 0xf0bb7e24; 0xf0cf7385; 0xf0df9c6d; 0xf0ebcac4; 0xf0ee701e; 0xf0f186da; 0xf0f388fe;
   0xf0fc0197; 0xf0fd3f6a; 0xf10897f4; 0xf108c9f7; 0xf1111bd4; 0xf1125e3e; 0xf11260e2; 0xf11959c7;
   0xf11ebc9d; 0xf12f5013; 0xf132c4ec; 0xf132ca62; 0xf155d54d; 0xf1587453; 0xf16c3aea; 0xf17dec99;
   0xf18bc523; 0xf18fa3a8; 0xf190ff52; 0xf19fdbed; 0xf1ad62a0; 0xf1cc0adb; 0xf1cd94a0; 0xf1d0799b;
   0xf1d95dc0; 0xf1e405a3; 0xf1f82a21; 0xf1fb6a71; 0xf200159c; 0xf2051491; 0xf20a29db; 0xf220af6b;
   0xf2238cc9; 0xf2365a31; 0xf2481bc2; 0xf24a5c49; 0xf25425da; 0xf2622049; 0xf2679bae; 0xf26b0804;
   0xf26e95c8; 0xf26fe4fb; 0xf27d75d7; 0xf29c1021; 0xf2a04d82; 0xf2a70411; 0xf2b9140e; 0xf2b98d6c;
   0xf2c00181; 0xf2c76f20; 0xf2dc67c7; 0xf2e8f8a3; 0xf2edacbf; 0xf2efa224; 0xf2f685e9; 0xf2fa56d8;
   0xf313545b; 0xf32220a1; 0xf3288e6b; 0xf3346098; 0xf33fc9ac; 0xf34509bf; 0xf34f2620; 0xf36588d1;
   0xf36781b6; 0xf36e0c50; 0xf37034d4; 0xf37dd405; 0xf384a694; 0xf3861f39; 0xf38644cd; 0xf39b051e;
   0xf39ff568; 0xf3b39323; 0xf3b653bc; 0xf3b87cc0; 0xf3b92624; 0xf3bc5016; 0xf3be1abb; 0xf3d69763;
   0xf3d6ec65; 0xf3e369e5; 0xf3feba05; 0xf40000c6; 0xf4015b81; 0xf425c8c9; 0xf429f6fa; 0xf4311d62;
   0xf43da485; 0xf43fe1f2; 0xf444d9f7; 0xf4501bfb; 0xf4530efb; 0xf457e9b2; 0xf45e1a35; 0xf46083be;
   0xf467bdb6; 0xf469772b; 0xf47f75c0; 0xf486cf25; 0xf48f9dc4; 0xf493022f; 0xf4959d0f; 0xf49f0185;
   0xf4a264b2; 0xf4a3db39; 0xf4a710de; 0xf4a8d871; 0xf4a8e5f2; 0xf4adf0fd; 0xf4c73348; 0xf4c84e2f;
   0xf4cb41b9; 0xf4d1cea7; 0xf4da609e; 0xf4ddc032; 0xf4e10edf; 0xf4e27911; 0xf4ec704f; 0xf4ef4b74;
   0xf4f748f6; 0xf4fa5507; 0xf51036f0; 0xf512bc8a; 0xf5154f0f; 0xf527eba0; 0xf534b2fa; 0xf538bfdb;
   0xf53b9357; 0xf53c98d0; 0xf542c9fb; 0xf543f326; 0xf54c5f40; 0xf54f8738; 0xf56b61a4; 0xf58036eb;
   0xf5816004; 0xf5871ebc; 0xf58a9d50; 0xf58f2e0a; 0xf592c783; 0xf5a12b8d; 0xf5b2e5e3; 0xf5b38b2a;
   0xf5bb7021; 0xf5ca934d; 0xf5cedf5e; 0xf5d11184; 0xf5d3b4bb; 0xf5d46bfa; 0xf5d9ebd2; 0xf5e9af7a;
   0xf5ea3c37; 0xf5f170d5; 0xf5f48b3c; 0xf5f9de5d; 0xf610af25; 0xf6264d87; 0xf6339d37; 0xf636ba7e;
   0xf6388d68; 0xf64ae78b; 0xf65ddb8b; 0xf6650813; 0xf6663c5c; 0xf668fe41; 0xf66a048c; 0xf66b7f09;
   0xf673a1cd; 0xf68dd501; 0xf691e459; 0xf699fba1; 0xf69bda0e; 0xf6b1cca7; 0xf6bd3fbd; 0xf6d90a12;
   0xf6d97faa; 0xf6e89550; 0xf6ef74e5; 0xf6fb5c47; 0xf6fc8b4d; 0xf6fd130a; 0xf70204bd; 0xf708ba47;
   0xf7200175; 0xf72786e3; 0xf7350da6; 0xf735dc38; 0xf744ee63; 0xf7579127; 0xf759740d; 0xf76485ca;
   0xf7665d62; 0xf76c7bdf; 0xf775e522; 0xf7792461; 0xf78b46ef; 0xf78eecdd; 0xf797a470; 0xf7a0e694;
   0xf7aa3af4; 0xf7bebe52; 0xf7c2847f; 0xf7ccc647; 0xf7e951ee; 0xf7e97d78; 0xf7eca6b1; 0xf7ef0d6d;
   0xf7f1a6f4; 0xf7f42392; 0xf7fc10d8; 0xf800e200; 0xf80a68f3; 0xf81b847c; 0xf81e9104; 0xf82a64e3;
   0xf83dc3d8; 0xf83f254b; 0xf8443b81; 0xf84db7c9; 0xf8573f42; 0xf86996bd; 0xf870799b; 0xf87d2be8;
   0xf88c2fa8; 0xf890437d; 0xf893cc87; 0xf89bf4a7; 0xf89fb5a0; 0xf8a9d749; 0xf8ac53a7; 0xf8b778a6;
   0xf8b8aa37; 0xf8c17e93; 0xf8c61d37; 0xf8cbd203; 0xf8cd7113; 0xf8d3d0e0; 0xf8d4dcf0; 0xf8ded095;
   0xf8e91743; 0xf906d2a8; 0xf90f3edb; 0xf912135a; 0xf9157e33; 0xf9187801; 0xf91b3c69; 0xf91c1799;
   0xf91d05a4; 0xf920193a; 0xf927246c; 0xf927c5f2; 0xf93d773d; 0xf93f83ac; 0xf94bd4a3; 0xf94ead5d;
   0xf95ec4c9; 0xf96138d5; 0xf9667b32; 0xf96f16f8; 0xf98979fc; 0xf98ea3fc; 0xf992d277; 0xf994c619;
   0xf99613ce; 0xf998ebbc; 0xf9adb0b0; 0xf9be0b0a; 0xf9ca21a0; 0xf9cc8368; 0xf9cfb4ae; 0xf9d28d0e;
   0xf9d6cb70; 0xf9d7a2ea; 0xf9db5fc9; 0xf9e15b21; 0xf9e5e96f; 0xf9f8c674; 0xf9f9b906; 0xfa016c6a;
   0xfa02a5ea; 0xfa08da75; 0xfa0c4e07; 0xfa11a989; 0xfa1c640c; 0xfa1e8916; 0xfa3f2472; 0xfa468410;
   0xfa4fbbf7; 0xfa5321be; 0xfa60b25e; 0xfa68bcd2; 0xfa7e3fdf; 0xfa90fc00; 0xfaa1680d; 0xfaad3b42;
   0xfab3c0d0; 0xfab53402; 0xfab59761; 0xfabe33ba; 0xfac19ba3; 0xfac5f86e; 0xfadc3a72; 0xfae4ff55;
   0xfafa6798; 0xfb0564a0; 0xfb090d0e; 0xfb0c9ae7; 0xfb0e1616; 0xfb1d13dc; 0xfb327217; 0xfb3ba377;
   0xfb4a1a19; 0xfb5a162e; 0xfb622f83; 0xfb80a1f9; 0xfb80f8eb; 0xfb84ab28; 0xfb88a3db; 0xfb9234c4;
   0xfb97498a; 0xfb9bd335; 0xfb9fb80b; 0xfba2a46c; 0xfba2c64b; 0xfba34235; 0xfbd75ade; 0xfbdcd8e5;
   0xfbe17e67; 0xfbe81a34; 0xfbf9599f; 0xfc1d11de; 0xfc1eefdf; 0xfc2373ac; 0xfc258858; 0xfc2e9fd2;
   0xfc384473; 0xfc3e2643; 0xfc4198ad; 0xfc5182b6; 0xfc639cef; 0xfc64c401; 0xfc67a613; 0xfc6a5128;
   0xfc72f346; 0xfc78e93d; 0xfc808826; 0xfc851a29; 0xfc89ebd9; 0xfc911b5f; 0xfc945288; 0xfc9b180e;
   0xfcb3e6cf; 0xfcbe19c2; 0xfcc890fa; 0xfcd2820c; 0xfcd3f227; 0xfcd66e9e; 0xfcdf139c; 0xfce50fa4;
   0xfcf8c8f2; 0xfd08b3c6; 0xfd0b7e7e; 0xfd0c9f35; 0xfd0fbb2c; 0xfd205389; 0xfd221566; 0xfd2b48eb;
   0xfd3043a8; 0xfd3518bf; 0xfd38c6aa; 0xfd3d5ca0; 0xfd4a82c1; 0xfd4b6b55; 0xfd793bfc; 0xfd7b3e4d;
   0xfd9b7138; 0xfd9f3095; 0xfda656d7; 0xfda8f48c; 0xfdb31d96; 0xfdb71fcb; 0xfdcd9db1; 0xfdced783;
   0xfdd32fa4; 0xfdd93ad6; 0xfde4154b; 0xfdec327c; 0xfded484b; 0xfdfa875b; 0xfe036217; 0xfe189f0f;
   0xfe21a09a; 0xfe21f7c9; 0xfe224469; 0xfe2e10ef; 0xfe3839ea; 0xfe383c7b; 0xfe3df753; 0xfe49f457;
   0xfe4a6951; 0xfe5302e9; 0xfe5bf95f; 0xfe6c592b; 0xfe6e0c00; 0xfe7ab31e; 0xfe814b18; 0xfe8b0a57;
   0xfe8e81d9; 0xfe8fbd5a; 0xfe9b619f; 0xfea317fe; 0xfec9f214; 0xfecbdb62; 0xfed580ac; 0xfedfe2a8;
   0xfee5c764; 0xfee624f1; 0xfeecfe96; 0xfef3c128; 0xfefb3590; 0xff0a8060; 0xff1431b3; 0xff1a4021;
   0xff2da737; 0xff367c85; 0xff634ca4; 0xff64c108; 0xff69d7f2; 0xff75a2ec; 0xff79be78; 0xff7af190;
   0xff7e1f35; 0xff8178b6; 0xff89e403; 0xff8ff9fb; 0xff9f113a; 0xffa6caec; 0xffabebd3; 0xffabff3d;
   0xffb5388f; 0xffb7d709; 0xffbb9e95; 0xffbdca85; 0xffc1eeff; 0xffc2c392; 0xffd17b45; 0xffdc085c;
   0xffe89344; 0xffea0f2f; 0xfffcfe70; 0xfffdb221].
(** OFFSET_CJK_UNIFIED_IDEOGRAPHS, src/fonts/hanzi.rs:8365-16338 *)
Definition hanzi_offset_cjk_unified_ideographs : list N :=
  [139887; 122199; 123915; 92367; 188661; 133056; 118338; 163185;
   117282; 60819; 195723; 189552; 236511; 179223; 155001; 245388;
   120087; 65340; 103455; 203808; 116490; 164868; 16962; 120351;
   13695; 255684; 8778; 44781; 199353; 125631; 55044; 245685;
   221496; 91179; 45210; 96954; 185427; 106854; 226281; 224004;
   22704; 125994; 180411; 96558; 161370; 224631; 30228; 8745;
   84843; 64317; 219780; 8811; 103851; 148533; 51645; 119064;
   171534; 163548; 71412; 48543; 3630; 123354; 138435; 265353;
   178167; 24222; 103125; 211299; 13794; 81807; 113487; 39798;
   125202; 51315; 57288; 33297; 41151; 227337; 186219; 167178;
   106524; 188694; 239052; 2937; 211959; 173580; 184998; 29733;
   117117; 193314; 228558; 91245; 242649; 244035; 179553; 165825;
   11517; 150678; 39930; 11979; 253308; 166023; 96987; 81114;
   118899; 51777; 102663; 225126; 187440; 207999; 242946; 137808;
   245883; 227370; 65406; 55209; 200937; 182358; 114213; 136818;
   220242; 67287; 121737; 192984; 77022; 108471; 219153; 98307;
   150183; 32241; 243903; 20559; 230274; 206415; 237402; 75042;
   129459; 182754; 148896; 210606; 230538; 183876; 254331; 231330;
   93951; 85371; 3597; 77979; 37620; 29535; 256542; 250041;
   210309; 26400; 93060; 200112; 190113; 65208; 224532; 78375;
   66297; 74745; 104577; 160644; 143484; 176517; 137478; 181236;
   85833; 211332; 88704; 258786; 34386; 45144; 258951; 250668;
   131241; 191301; 162261; 184470; 154440; 70290; 198627; 86724;
   265419; 160050; 193281; 109758; 141570; 98142; 237567; 106821;
   193974; 134871; 218889; 127512; 6765; 235521; 198396; 158895;
   264957; 27753; 215127; 19998; 34056; 110121; 208857; 97020;
   11616; 103587; 182655; 243639; 55671; 208659; 164373; 194205;
   28413; 185823; 128601; 187077; 47157; 18546; 205887; 132165;
   23661; 96063; 174900; 17061; 111276; 144342; 186714; 149919;
   50886; 17325; 106590; 223707; 139194; 112266; 50457; 116688;
   230868; 131076; 170313; 220671; 161172; 36630; 36498; 214863;
   88737; 238458; 159654; 251229; 156882; 201795; 209253; 59499;
   30327; 198000; 226413; 28578; 94017; 249348; 259809; 4785;
   178233; 131175; 176022; 24156; 192951; 240570; 57024; 257268;
   173184; 21087; 111111; 226710; 238887; 43065; 228426; 202554;
   186384; 105633; 123090; 41712; 117645; 222618; 83292; 9306;
   145563; 235092; 171303; 112002; 89100; 15345; 251493; 168861;
   230373; 211200; 115896; 145860; 99858; 155628; 74415; 122331;
   245025; 186780; 13926; 40458; 62337; 51612; 16500; 104379;
   219516; 240240; 126621; 38511; 126060; 28182; 184173; 75438;
   169125; 168102; 134112; 64515; 177540; 111045; 158862; 141768;
   251295; 177177; 51843; 146190; 44286; 40557; 168663; 197604;
   38346; 262251; 232716; 183348; 20130; 112398; 177738; 157773;
   147939; 219945; 106458; 197571; 194370; 105138; 28809; 58641;
   135465; 261855; 79266; 211398; 128964; 211728; 118140; 76626;
   76131; 178596; 215061; 169752; 15147; 44979; 260832; 100815;
   24057; 139326; 145134; 57123; 5478; 261525; 21879; 64713;
   235620; 105171; 23067; 119955; 40656; 226380; 38742; 209121;
   168531; 156618; 184107; 179982; 250338; 258588; 101640; 19503;
   178464; 263175; 153417; 161535; 171996; 194238; 236247; 37851;
   224037; 17028; 127380; 168168; 198990; 159159; 87318; 68607;
   42966; 104346; 198693; 89067; 2904; 140019; 129657; 67254;
   189453; 133254; 103356; 131571; 233607; 29073; 59202; 243837;
   49962; 89562; 17424; 109725; 61215; 258984; 180345; 97845;
   67089; 98703; 78936; 256278; 135333; 92961; 201729; 97482;
   103488; 201828; 118008; 80190; 43494; 196020; 152328; 156288;
   58146; 13035; 263373; 261261; 81873; 100848; 19470; 128007;
   265056; 244431; 194766; 66330; 119889; 40788; 9009; 251790;
   174339; 225918; 225753; 247731; 213543; 81411; 106920; 51414;
   59433; 85701; 44583; 199749; 222321; 23133; 13002; 21846;
   163944; 162294; 64548; 219417; 18018; 221298; 51711; 94974;
   89133; 92334; 255189; 85734; 246477; 162723; 22737; 47619;
   98967; 61677; 180873; 39303; 216744; 253044; 26004; 133980;
   213147; 11253; 7953; 118536; 101970; 119988; 176847; 93852;
   131406; 36168; 60324; 7029; 126852; 91938; 154077; 213279;
   140349; 120879; 18678; 115533; 229878; 116292; 32604; 199584;
   36036; 92862; 25971; 155232; 221364; 9273; 263802; 30624;
   219450; 134805; 181137; 156783; 188760; 167244; 169356; 26268;
   51546; 180741; 165000; 242121; 255552; 182985; 42504; 252648;
   204798; 138138; 179091; 224466; 33033; 6567; 251064; 229581;
   41052; 37389; 5082; 166551; 204468; 205986; 204270; 109461;
   177573; 172920; 68475; 29700; 58872; 205788; 244365; 170742;
   104973; 224268; 229977; 23430; 137841; 55770; 159324; 46728;
   170610; 157542; 221001; 213576; 88308; 253968; 83193; 92928;
   74184; 103653; 138006; 121143; 83886; 36828; 94578; 258093;
   112959; 231396; 171468; 236412; 262515; 93456; 71280; 229482;
   118932; 241197; 29964; 187176; 190608; 10065; 20394; 75867;
   260601; 132429; 75075; 160710; 84711; 249414; 125235; 196911;
   264528; 90189; 121506; 65142; 121935; 239646; 49830; 82368;
   250866; 235851; 13233; 89463; 115401; 189816; 152361; 210243;
   62766; 46926; 137313; 92037; 136125; 56496; 21417; 86790;
   45738; 143979; 32043; 40755; 10626; 197109; 46233; 5841;
   70917; 32010; 220341; 228063; 146619; 12936; 26202; 53163;
   150942; 3267; 207306; 36267; 77253; 117216; 239580; 42339;
   25212; 236049; 249216; 74448; 181071; 225390; 227073; 108141;
   135762; 87714; 118041; 18975; 162129; 135729; 139656; 36432;
   233013; 237732; 146421; 57849; 211167; 47718; 163812; 209220;
   104907; 146157; 42702; 69135; 187407; 14355; 233970; 100254;
   114939; 127578; 106755; 196218; 71643; 235884; 108669; 76560;
   19932; 132858; 195063; 204369; 111540; 135630; 147213; 208362;
   78276; 218724; 40095; 128337; 206976; 98538; 72138; 174669;
   136620; 95238; 189651; 113850; 171699; 68343; 216414; 152295;
   130812; 208461; 131934; 145167; 4455; 135993; 3927; 193578;
   21153; 158268; 56199; 229548; 189585; 175527; 151734; 183810;
   132231; 96525; 210738; 153351; 170445; 25047; 5346; 97614;
   52569; 223146; 236082; 155694; 46134; 18117; 81378; 12210;
   59961; 32538; 45243; 259083; 118503; 66528; 71148; 186582;
   40029; 71049; 174999; 54087; 221430; 105501; 54912; 42669;
   86658; 172194; 166485; 218823; 141867; 73326; 202422; 192753;
   50952; 54978; 37719; 180015; 262383; 199452; 175131; 176781;
   203115; 256344; 157608; 186846; 38973; 218097; 206382; 42900;
   153219; 36333; 168630; 184833; 205128; 39831; 53295; 9834;
   264066; 259611; 79596; 142197; 195921; 232122; 152526; 67056;
   25014; 211629; 65769; 128898; 200310; 202719; 127479; 149457;
   165495; 211662; 157212; 124641; 5676; 42273; 216843; 132825;
   205623; 243771; 177705; 181104; 93192; 92499; 230307; 156222;
   171039; 123882; 27291; 13464; 189255; 101376; 206448; 145464;
   27819; 48906; 244200; 150480; 114807; 126159; 82236; 48510;
   102465; 216018; 17556; 256410; 265617; 148170; 146223; 199254;
   76890; 153615; 137379; 102432; 196812; 49401; 100122; 202389;
   176946; 40524; 53955; 131439; 230703; 119724; 74811; 120549;
   133716; 140316; 34122; 166848; 255156; 210012; 147147; 125367;
   254232; 105666; 154308; 135828; 170049; 222552; 168036; 111177;
   244497; 113355; 116160; 124410; 174372; 128238; 117381; 157740;
   171633; 250569; 180576; 64383; 159489; 27456; 194007; 4422;
   48642; 57651; 24354; 11352; 20295; 149325; 96294; 56826;
   160545; 191763; 262218; 23166; 173910; 107349; 12705; 51513;
   238986; 158004; 162228; 174075; 26301; 256179; 134178; 43725;
   189189; 49533; 44352; 129294; 34287; 94644; 39072; 73887;
   41184; 262713; 84810; 204864; 250899; 236940; 177210; 190179;
   18183; 48444; 39732; 101013; 145761; 247830; 253902; 60060;
   183480; 139590; 119691; 57684; 171402; 176583; 204336; 128469;
   192093; 110319; 131010; 67617; 134310; 108537; 190872; 56562;
   30921; 168696; 38577; 248226; 221166; 19734; 25113; 199419;
   51480; 264792; 99792; 239811; 214368; 168498; 136191; 101178;
   183282; 43692; 148401; 210210; 5148; 115698; 243276; 61974;
   158994; 238722; 154407; 241626; 109956; 117612; 77583; 131142;
   248490; 197208; 208296; 251031; 214632; 17226; 78078; 19800;
   255024; 212784; 154176; 214137; 136917; 119427; 162525; 212454;
   238227; 49599; 203214; 257895; 3201; 221760; 110253; 257697;
   50688; 91443; 142791; 208329; 32373; 44385; 233442; 114378;
   125598; 41976; 153747; 61578; 91047; 141009; 173547; 186516;
   162492; 15609; 247599; 130152; 210771; 111837; 176682; 192522;
   136884; 144771; 159060; 49731; 12507; 76692; 165165; 92664;
   24420; 264033; 254100; 77517; 232749; 15939; 15807; 253209;
   150546; 255486; 181533; 42108; 81246; 229350; 10230; 81345;
   34617; 113322; 173646; 79497; 186087; 123024; 134904; 77715;
   82269; 15312; 67518; 241065; 131967; 47949; 119460; 39270;
   99462; 26499; 25674; 3003; 206052; 191070; 35145; 88770;
   57552; 52602; 196152; 27027; 168135; 226314; 49203; 101574;
   35574; 84513; 56991; 237369; 250503; 8019; 243375; 74844;
   216381; 217866; 83061; 127413; 6105; 251361; 122496; 27126;
   173679; 19899; 143946; 106260; 156024; 214995; 119559; 38082;
   140844; 80091; 141735; 90948; 73722; 177606; 64680; 77286;
   182523; 45837; 46860; 27951; 208230; 25641; 163614; 59037;
   200772; 159687; 217503; 135234; 152097; 257169; 145068; 196416;
   141273; 101937; 141702; 256938; 96030; 18942; 99561; 88176;
   62832; 41415; 180279; 141405; 38709; 229053; 45441; 40326;
   37125; 218559; 179520; 149523; 14751; 162393; 42240; 105270;
   79365; 259017; 80652; 90981; 67320; 157806; 196680; 75933;
   106557; 237666; 56859; 9438; 29337; 245817; 31647; 260139;
   207372; 214599; 95436; 238194; 41217; 124905; 226974; 120252;
   225621; 87054; 39963; 192027; 103719; 228492; 96393; 119625;
   35970; 143847; 122958; 108273; 232089; 227205; 147279; 85239;
   222288; 37455; 170412; 169191; 133584; 47685; 235653; 236775;
   172953; 140976; 231132; 36300; 225984; 67221; 105996; 221529;
   35211; 145530; 36762; 26796; 150513; 210078; 39534; 217734;
   187044; 59070; 194172; 58740; 70884; 206118; 71610; 36102;
   60852; 114477; 235719; 114114; 120417; 115995; 260271; 160017;
   193347; 88902; 179883; 246378; 124773; 91839; 213378; 220605;
   49005; 68442; 238359; 9075; 223542; 60027; 42075; 235323;
   73524; 189948; 228624; 158136; 144111; 135432; 124542; 206745;
   167838; 105303; 192357; 73986; 149160; 93159; 105798; 36564;
   134772; 146883; 222783; 41250; 57915; 72039; 248622; 23760;
   194832; 221133; 43428; 169983; 206184; 98835; 18150; 210177;
   215325; 213180; 152394; 124146; 38313; 234762; 157443; 264561;
   117447; 259743; 61875; 35871; 259281; 75339; 64020; 186120;
   87186; 217371; 185097; 92400; 109824; 260997; 219318; 42174;
   140415; 88605; 71742; 83919; 89925; 50391; 160611; 116853;
   99528; 75240; 148731; 182160; 52404; 144441; 251592; 202983;
   89265; 248655; 144276; 250371; 123948; 91608; 13431; 249315;
   87945; 259479; 159126; 43857; 121242; 121308; 235290; 33693;
   87615; 221859; 20328; 79200; 173283; 235059; 203148; 166617;
   98010; 135003; 256608; 113388; 186153; 257466; 30096; 49764;
   205755; 140580; 96855; 176187; 151041; 244101; 12441; 17160;
   247104; 91542; 134079; 260436; 193182; 72633; 30063; 49368;
   160908; 188496; 177309; 37323; 142659; 17886; 212883; 45012;
   233244; 99033; 10395; 173349; 205227; 154935; 62568; 244266;
   103620; 171864; 84645; 16698; 164142; 140646; 238557; 129195;
   44913; 96195; 80289; 130581; 74019; 136983; 107811; 16236;
   108405; 81708; 168597; 81444; 231792; 7194; 52371; 226941;
   160809; 97086; 94743; 30888; 111870; 208131; 97284; 202950;
   13827; 133551; 24684; 85998; 3366; 61281; 206580; 16863;
   102102; 187275; 74118; 122892; 161997; 239316; 33990; 116523;
   128139; 11484; 23265; 258126; 187902; 44847; 224301; 223740;
   31911; 197802; 97647; 90057; 85800; 201267; 109659; 221595;
   224862; 210045; 99495; 46893; 223311; 163581; 92994; 209385;
   48708; 159192; 169587; 185493; 52140; 262878; 231231; 54252;
   21384; 252879; 243177; 141306; 186483; 235785; 153120; 111639;
   42009; 223080; 213477; 13167; 40953; 199848; 64911; 135531;
   48213; 88077; 27324; 22077; 250140; 250800; 241395; 261228;
   136587; 210870; 15444; 262548; 130284; 23793; 125730; 81312;
   102531; 29502; 242055; 15378; 162030; 75141; 132528; 48609;
   152130; 95667; 80718; 188034; 47322; 170973; 168960; 10956;
   128832; 255123; 164043; 13629; 151866; 210969; 79860; 240042;
   154572; 78507; 163680; 62106; 102696; 225357; 152460; 258489;
   143154; 60258; 225159; 222816; 128799; 79134; 30756; 184701;
   216876; 218064; 158433; 225885; 231297; 67551; 83985; 257532;
   53130; 32175; 127083; 174504; 15840; 209649; 17721; 166716;
   4917; 77220; 252153; 10791; 133485; 241230; 42834; 87978;
   164274; 22407; 149490; 248424; 38907; 248820; 84282; 127017;
   6072; 259248; 172887; 123321; 143319; 84018; 207042; 159555;
   89793; 134607; 97977; 30954; 249249; 256806; 65109; 86922;
   192126; 207900; 63261; 214797; 211860; 244167; 212355; 171897;
   39864; 94215; 210144; 191664; 228789; 69993; 192786; 254496;
   83556; 222090; 5874; 14190; 244695; 260700; 204006; 149853;
   46398; 234003; 35673; 142494; 193545; 118470; 61149; 8547;
   138600; 112200; 173811; 15708; 241032; 250701; 96888; 240339;
   150282; 258654; 164439; 137676; 248853; 6270; 7590; 174570;
   234531; 212817; 122991; 114312; 28908; 181500; 121671; 47190;
   206283; 239679; 186945; 152889; 144474; 183315; 59895; 67749;
   103752; 157311; 135036; 85470; 227304; 211563; 190212; 160479;
   7887; 206811; 195393; 209088; 232881; 110451; 264891; 207207;
   166749; 70323; 224202; 232386; 16368; 180642; 251097; 145728;
   242187; 221892; 202290; 220572; 89232; 227172; 159456; 240075;
   215820; 201894; 166683; 173976; 154605; 36861; 169224; 109527;
   180906; 157080; 131505; 70158; 126687; 222387; 251823; 12342;
   14817; 159720; 263241; 243804; 127776; 262350; 211002; 204072;
   130614; 133320; 241791; 77319; 10329; 17094; 90519; 162888;
   138468; 32835; 138567; 213081; 30723; 34485; 142065; 139392;
   107679; 117249; 187572; 87813; 192159; 252912; 86163; 196317;
   104445; 245982; 234960; 160875; 19536; 262746; 185196; 235983;
   53988; 177276; 214401; 56001; 203709; 183546; 248754; 114015;
   115764; 204138; 227964; 13893; 178662; 44253; 96228; 35046;
   179289; 80520; 180114; 123783; 108966; 262317; 127974; 126588;
   216315; 264627; 188199; 205722; 126753; 186285; 26334; 227502;
   146916; 235125; 105336; 184239; 187671; 223905; 186747; 55176;
   136323; 104247; 103917; 14487; 169488; 170346; 189486; 214170;
   247665; 97119; 189882; 172722; 39105; 40293; 161634; 216612;
   151272; 111738; 141108; 203874; 89628; 252615; 155100; 165627;
   155265; 145398; 67485; 262152; 195822; 179784; 227997; 89727;
   169158; 230010; 34452; 45474; 207537; 108570; 63987; 149721;
   156453; 85338; 250206; 95832; 141966; 187968; 225225; 149127;
   127809; 26928; 150249; 16269; 105963; 129393; 15114; 233508;
   258753; 213015; 155727; 218460; 30360; 214665; 147444; 12540;
   73656; 52899; 242814; 216051; 4884; 199023; 37191; 139821;
   165066; 263307; 33363; 75504; 187935; 60357; 218856; 32868;
   255585; 40887; 81510; 76494; 177771; 38808; 104841; 194799;
   24651; 63756; 245256; 47058; 234927; 50556; 248358; 184569;
   242385; 199881; 51051; 78408; 103950; 68937; 228855; 95766;
   182886; 207504; 9999; 73194; 16137; 182094; 107778; 182688;
   230208; 4224; 199683; 29469; 36663; 118701; 211827; 82104;
   170577; 37158; 53328; 214533; 37785; 230670; 128667; 196053;
   227469; 25344; 254925; 201960; 18084; 238590; 44055; 38115;
   159621; 92103; 170016; 136158; 133089; 191631; 176286; 245718;
   164010; 252219; 197142; 116127; 67881; 261822; 74052; 252351;
   91146; 50160; 137643; 232914; 44154; 158565; 155892; 88341;
   132396; 240207; 222948; 164934; 7359; 83787; 128568; 46464;
   3828; 246642; 102861; 211464; 70587; 174174; 224334; 105204;
   27390; 46497; 221958; 62865; 124344; 23034; 165132; 225423;
   44418; 150051; 240768; 156123; 56331; 64284; 147741; 218163;
   210375; 102267; 146685; 165297; 146850; 242748; 135300; 195789;
   24618; 103983; 145926; 106986; 65637; 14025; 88473; 30822;
   35112; 131769; 112860; 249645; 127842; 170280; 229152; 58839;
   60588; 50523; 135168; 119031; 28743; 40689; 119493; 227601;
   35706; 254859; 67815; 209880; 82863; 95205; 119229; 258159;
   255288; 262482; 148467; 140448; 60885; 259413; 115335; 10131;
   21318; 233739; 207801; 200640; 37917; 33924; 152559; 185889;
   136455; 220902; 151800; 20526; 118437; 181896; 76923; 207867;
   248919; 196581; 125763; 245124; 142395; 243606; 182853; 229251;
   24816; 61182; 84117; 239085; 217701; 221661; 82665; 136257;
   202158; 206514; 61611; 184371; 170379; 47883; 166518; 147510;
   9042; 24519; 74679; 259842; 93522; 205062; 245553; 190575;
   44451; 249051; 239250; 96690; 255519; 122694; 184635; 243705;
   146058; 264000; 151140; 27786; 50490; 8316; 261723; 191268;
   184602; 219879; 204699; 130251; 33165; 82137; 7491; 264495;
   214104; 8712; 138534; 82170; 250602; 39600; 27654; 243870;
   57750; 45771; 161832; 150150; 5016; 68376; 243210; 20922;
   19833; 90387; 174867; 136389; 8217; 192918; 229449; 166452;
   184404; 49467; 253539; 260205; 225060; 221331; 30129; 109890;
   100452; 55308; 28446; 28611; 33561; 156387; 226743; 135894;
   26466; 20427; 155430; 195228; 228327; 31416; 54219; 195162;
   83160; 81279; 33132; 141042; 257004; 114906; 92301; 20262;
   208956; 35244; 241362; 183414; 169290; 143781; 65802; 222684;
   224367; 49632; 108702; 36366; 49500; 122067; 220110; 176055;
   142230; 108174; 153549; 168762; 205326; 133782; 224235; 24387;
   124014; 217338; 3432; 262449; 63558; 27225; 39006; 112167;
   145431; 87153; 196185; 18315; 59004; 180774; 227634; 166353;
   83325; 28710; 30162; 157707; 229746; 210903; 81939; 16434;
   24090; 125895; 97746; 233937; 49170; 167772; 25542; 15213;
   75900; 171501; 223014; 143649; 35475; 185724; 181962; 52272;
   108207; 237831; 55110; 111441; 208593; 254199; 115302; 19602;
   262812; 202224; 97878; 94446; 192225; 32736; 151602; 162162;
   150381; 6864; 185757; 97416; 196647; 77550; 88572; 103158;
   212685; 51909; 252087; 164967; 186879; 58080; 198330; 247236;
   152031; 129426; 187737; 94677; 6897; 100155; 23958; 79992;
   83490; 62073; 188100; 76230; 176154; 125928; 125532; 204105;
   128997; 66429; 117678; 172821; 177375; 215622; 88638; 66594;
   10593; 56958; 36993; 3102; 23364; 45705; 33594; 89364;
   148665; 199320; 112134; 232848; 161205; 88869; 6666; 79035;
   84480; 125334; 71082; 75537; 244827; 232452; 142758; 102960;
   247632; 13497; 181764; 120219; 242682; 176616; 68145; 137907;
   23331; 238128; 216480; 207702; 126951; 61017; 55605; 260568;
   259578; 212916; 186450; 241461; 58113; 214929; 65274; 196119;
   249018; 140250; 11088; 208065; 238161; 258225; 60225; 92433;
   18810; 49302; 100881; 155661; 58575; 147048; 84579; 196779;
   141603; 213411; 141438; 82731; 13662; 112893; 43461; 175263;
   53559; 176253; 146586; 148335; 21747; 64614; 85404; 139953;
   86559; 163482; 135597; 187836; 121209; 177144; 96096; 70224;
   110352; 178959; 37488; 150909; 181632; 164340; 132693; 95964;
   257499; 254034; 134937; 261096; 202026; 253605; 129624; 215193;
   31251; 108339; 225027; 84150; 6171; 207933; 157872; 158763;
   118965; 25476; 163053; 96327; 86361; 185592; 84975; 179718;
   108306; 211992; 182424; 51975; 126819; 245058; 31944; 37950;
   177870; 141207; 18282; 70257; 151998; 198924; 17127; 116820;
   106953; 99594; 173712; 94347; 34584; 138039; 153450; 80553;
   73095; 3993; 259446; 197307; 34980; 87549; 66132; 130317;
   16104; 69597; 91311; 180081; 255222; 127545; 205458; 141075;
   24024; 79431; 159885; 156684; 34155; 150084; 162624; 189321;
   38214; 75471; 184305; 187209; 263406; 167145; 124245; 221232;
   199122; 228888; 131274; 40425; 199617; 111309; 226578; 219087;
   189420; 90882; 17622; 117513; 109692; 192390; 198561; 6006;
   166221; 236676; 50424; 14982; 111078; 142989; 226182; 142692;
   56100; 122001; 217635; 112035; 78870; 8910; 34518; 169521;
   73293; 80982; 193512; 74151; 116391; 112596; 13860; 47850;
   147708; 169653; 65934; 219549; 193248; 163449; 25278; 89001;
   219252; 249678; 28677; 11022; 260007; 223806; 10098; 108240;
   40227; 63063; 188232; 167013; 173382; 177342; 185691; 80454;
   150579; 78243; 181731; 130416; 202917; 214500; 58377; 208989;
   141240; 234465; 165396; 182952; 247929; 90816; 137214; 144804;
   115830; 126720; 233706; 238656; 56364; 57519; 163317; 240009;
   217239; 148434; 9867; 204039; 204996; 265287; 218328; 100518;
   156486; 115500; 220077; 174801; 143451; 83952; 12177; 61050;
   12804; 215589; 231924; 35013; 105072; 192291; 132627; 176550;
   46662; 17292; 21219; 227436; 100650; 218196; 56727; 56298;
   110649; 71874; 125796; 200343; 223443; 8052; 27423; 175032;
   155067; 175230; 14586; 4158; 164769; 209451; 182127; 197175;
   28974; 150612; 150810; 235191; 227931; 206316; 67386; 68739;
   130020; 61314; 163350; 258390; 65868; 248160; 264396; 172359;
   7095; 191169; 109329; 71478; 216216; 123717; 254298; 114675;
   15543; 64581; 67122; 54813; 108834; 223773; 109395; 91872;
   230637; 164538; 259347; 163977; 16203; 223509; 251625; 258852;
   212256; 49038; 52536; 152196; 151107; 2739; 50754; 167211;
   85272; 57882; 199980; 68904; 89760; 21681; 156849; 238623;
   42042; 66363; 134277; 139722; 208560; 248061; 181401; 54186;
   101739; 59697; 235389; 69828; 98175; 255981; 75735; 192885;
   194304; 211497; 204567; 17919; 137544; 111210; 230802; 105039;
   244563; 137082; 176979; 158730; 47256; 97317; 59136; 215292;
   99231; 129228; 200970; 242847; 210672; 16665; 65241; 147609;
   245157; 230835; 14124; 114180; 240471; 27852; 157905; 171369;
   117711; 253671; 106689; 219384; 231495; 59400; 215886; 28017;
   225819; 82896; 36135; 55572; 97449; 181467; 35376; 58608;
   227733; 49896; 212025; 229383; 45507; 10296; 54549; 54417;
   4026; 43593; 70521; 201102; 143550; 67848; 71247; 124938;
   218394; 24123; 163020; 193446; 49104; 110220; 25575; 178002;
   175065; 215259; 116325; 263769; 191994; 147840; 17787; 59466;
   213939; 9207; 229680; 108900; 33429; 236346; 220308; 194403;
   165924; 158334; 134376; 71313; 41448; 113025; 231759; 64350;
   46695; 224070; 238689; 133914; 171567; 195492; 52338; 29172;
   200178; 89166; 69234; 167475; 120153; 127116; 144507; 12309;
   214005; 121176; 168564; 175329; 225687; 164835; 59598; 66231;
   264990; 190740; 218592; 115929; 215490; 129063; 18051; 185856;
   252450; 36531; 188364; 218262; 149655; 173085; 254727; 10428;
   30591; 70719; 17391; 169719; 252549; 112431; 102927; 243540;
   92763; 3399; 140877; 209187; 234036; 126258; 6501; 31845;
   258423; 177507; 131604; 120186; 238920; 251427; 155793; 256872;
   249084; 32637; 8415; 14685; 228393; 189849; 229218; 90651;
   130911; 230043; 46992; 233673; 220704; 216942; 150645; 94248;
   58542; 130680; 9240; 125433; 209748; 214764; 93786; 126885;
   236214; 70818; 66759; 22341; 44616; 165429; 28941; 222882;
   164505; 95568; 259776; 151701; 146718; 249810; 147246; 85503;
   205392; 57387; 226017; 222651; 246774; 223113; 95601; 106491;
   13365; 93258; 170478; 148104; 173217; 42933; 20823; 264132;
   216282; 40590; 174834; 73359; 16995; 231000; 109263; 198726;
   166188; 142824; 69069; 257961; 187011; 152229; 136785; 232980;
   177936; 91014; 251130; 230736; 135069; 247566; 96822; 29007;
   19965; 261063; 159522; 261789; 263703; 101838; 26664; 7920;
   93225; 233079; 66264; 170808; 94413; 77154; 218658; 162426;
   169554; 226545; 75702; 18777; 14520; 102168; 242781; 198231;
   30789; 124278; 78441; 101508; 81147; 168993; 237996; 160941;
   24585; 254661; 151173; 119130; 67155; 198660; 76791; 233343;
   150744; 174471; 231462; 11286; 249480; 5280; 261756; 179652;
   168795; 2970; 240174; 223872; 169455; 94050; 97713; 171336;
   137940; 53493; 252417; 63591; 222453; 103026; 16533; 235686;
   62205; 52107; 39237; 201168; 15576; 54384; 53394; 62238;
   213741; 122133; 83655; 212157; 174405; 103224; 23001; 189915;
   38676; 215556; 21120; 115665; 131340; 134574; 59796; 138501;
   227568; 247170; 31482; 117546; 259941; 179685; 165198; 41877;
   80256; 250404; 92697; 180972; 112761; 111375; 235026; 206877;
   10461; 13266; 110055; 187473; 126489; 199485; 33231; 21549;
   134673; 94182; 76395; 198066; 213708; 99132; 149193; 141504;
   109626; 138633; 69960; 116919; 256674; 238788; 107382; 31581;
   64482; 182589; 106623; 52833; 25707; 55737; 202356; 144408;
   159423; 264429; 144705; 81048; 229515; 241494; 9141; 180840;
   253737; 114642; 105567; 197637; 9801; 52470; 200541; 14256;
   113883; 153318; 5808; 92829; 183018; 88671; 120615; 246444;
   254397; 121836; 82203; 52767; 259545; 234333; 24948; 179916;
   98670; 225489; 230142; 164604; 4389; 107646; 244662; 240438;
   45606; 129129; 50028; 54681; 232650; 124377; 70455; 61347;
   202059; 178992; 199287; 7062; 181005; 89595; 258291; 114840;
   216249; 98472; 182325; 137709; 130713; 45870; 97779; 19338;
   178926; 123519; 254265; 54318; 119394; 147972; 37092; 141801;
   263934; 191202; 86757; 201399; 200574; 203313; 94776; 21450;
   110484; 11451; 192324; 155562; 146025; 150975; 34749; 20790;
   40623; 256839; 50358; 220143; 196614; 182787; 95700; 235422;
   14718; 244794; 145233; 222354; 113751; 184272; 73458; 201234;
   91344; 138072; 172788; 198099; 216084; 123585; 125070; 226875;
   176451; 239844; 245421; 68211; 139689; 97251; 22242; 199188;
   252186; 11946; 87384; 261030; 255651; 92631; 46068; 148797;
   26763; 105897; 80421; 195756; 207240; 255255; 19371; 205557;
   157179; 48840; 164208; 66858; 80157; 9933; 190377; 128535;
   19206; 215358; 250239; 121605; 56793; 249975; 70488; 67980;
   89892; 101343; 68178; 19074; 234069; 35640; 11550; 224169;
   30987; 100914; 96426; 22110; 210441; 186318; 250965; 6600;
   41349; 29271; 163086; 232155; 200376; 43824; 7623; 209616;
   172524; 169422; 97548; 188892; 185361; 63888; 261129; 125499;
   141339; 240273; 58014; 96492; 145992; 230901; 219483; 189750;
   163878; 237270; 85602; 218427; 56265; 117315; 29139; 68805;
   253704; 200838; 194997; 114708; 119823; 82962; 156156; 198462;
   131736; 137511; 211101; 33264; 56925; 159984; 246675; 195987;
   245454; 221034; 208032; 90354; 132297; 220374; 123453; 92136;
   171072; 189288; 161271; 63030; 153879; 142593; 82434; 231594;
   101904; 70620; 212289; 252747; 225555; 29403; 26433; 178827;
   116061; 102894; 247863; 168069; 122859; 11187; 208527; 232353;
   121869; 5907; 117777; 251856; 36003; 208626; 83424; 136686;
   248391; 21516; 93027; 204171; 69465; 172293; 106029; 105831;
   132726; 94842; 218625; 4092; 95139; 56760; 237237; 21252;
   85140; 173943; 237897; 117183; 151932; 128073; 213675; 171831;
   61116; 175395; 182061; 71841; 33627; 120285; 163152; 167442;
   188562; 98043; 244233; 231165; 10890; 238491; 160149; 204633;
   32340; 138930; 101409; 24288; 116655; 239712; 69861; 97152;
   118404; 240636; 67419; 72534; 173877; 193842; 119295; 253803;
   233640; 203775; 158532; 243936; 232221; 51678; 85074; 244464;
   110022; 33099; 11781; 69564; 146454; 45309; 227271; 69399;
   81609; 120318; 88968; 19635; 51348; 228261; 170115; 121044;
   104214; 43230; 132957; 28281; 242253; 146124; 4257; 162987;
   55803; 39468; 254364; 148962; 171105; 130350; 167079; 252483;
   16632; 87351; 201663; 245586; 65703; 54516; 230439; 229284;
   79398; 195954; 96360; 260502; 20625; 118998; 88935; 237171;
   177012; 34650; 79794; 187638; 144309; 184899; 36399; 94281;
   176880; 261426; 64185; 144177; 217041; 223047; 127677; 127281;
   50325; 197967; 55143; 135663; 112992; 209550; 260964; 201432;
   216711; 204402; 262779; 243474; 172392; 78705; 84216; 38841;
   114246; 181665; 129558; 53922; 227535; 15048; 188430; 111936;
   262119; 74547; 223938; 206250; 183942; 163416; 147345; 258555;
   143121; 223674; 138765; 144144; 34914; 122628; 177078; 85107;
   37059; 122166; 158598; 38874; 76164; 260667; 220638; 36927;
   99363; 226611; 147015; 172425; 140613; 174240; 193677; 261360;
   38148; 217437; 175857; 191367; 171798; 178431; 121110; 201366;
   137775; 152823; 72369; 95403; 175197; 48675; 185526; 4950;
   210276; 67452; 166122; 239448; 194469; 205854; 233409; 113784;
   112101; 240900; 33660; 117150; 247335; 60555; 112464; 190509;
   15774; 69201; 41316; 58905; 103092; 111342; 31284; 209484;
   155199; 39633; 43362; 46299; 184965; 60159; 20856; 10362;
   43296; 134739; 169686; 240702; 98241; 151569; 14289; 128436;
   56133; 74514; 179388; 197901; 84348; 200013; 250074; 46002;
   188463; 68574; 260040; 265089; 257565; 27687; 46167; 194634;
   40491; 240603; 210705; 176913; 30558; 104742; 72666; 151470;
   27621; 210804; 181698; 11220; 246609; 11583; 103290; 156717;
   194931; 126126; 115368; 86526; 149589; 263274; 199815; 29634;
   59169; 16830; 71115; 144903; 81972; 51183; 144672; 17688;
   79332; 191862; 67683; 142626; 228459; 138369; 78474; 236544;
   93984; 257928; 38445; 183843; 94875; 13761; 216447; 55242;
   10857; 221793; 137973; 64086; 237336; 196746; 70983; 240141;
   258357; 136224; 43989; 215985; 119526; 36069; 156750; 240834;
   116952; 210111; 122760; 262977; 31449; 169851; 169323; 54285;
   14553; 48774; 145332; 92235; 265452; 63162; 213246; 104676;
   20196; 82533; 132594; 93819; 170709; 14388; 39996; 138105;
   133650; 35541; 76527; 165231; 242451; 161667; 89694; 62007;
   175428; 135564; 32076; 153054; 86328; 216678; 173415; 109065;
   83358; 193743; 53724; 257301; 53823; 122463; 24783; 102366;
   24453; 23892; 17193; 234498; 243309; 186021; 140085; 191004;
   79299; 258324; 256971; 127314; 234696; 30690; 6204; 27522;
   189618; 155166; 156321; 174207; 141669; 224928; 184536; 37884;
   228030; 165858; 56430; 179586; 54351; 107745; 31317; 231660;
   198165; 45408; 56463; 145365; 18645; 212421; 243342; 93126;
   196350; 133749; 107580; 78837; 106326; 62271; 51744; 18843;
   242715; 13200; 258456; 60621; 88011; 57783; 163119; 85569;
   246246; 112794; 152064; 56628; 232320; 116622; 85932; 78903;
   235587; 233145; 156189; 95172; 4851; 28116; 238854; 139458;
   80322; 106194; 73788; 214830; 141471; 7524; 154275; 242352;
   142923; 22803; 125136; 152988; 231726; 95502; 76857; 178893;
   22770; 24717; 64119; 13563; 97944; 127710; 145101; 152427;
   217272; 20460; 175164; 137181; 98340; 98901; 262845; 33858;
   87120; 251163; 152625; 233904; 86625; 60093; 106227; 178761;
   39204; 192456; 88209; 254166; 214434; 209583; 264198; 132033;
   178365; 140712; 225093; 15510; 51579; 59532; 145827; 97680;
   120516; 123981; 182391; 144573; 147774; 109032; 12078; 5544;
   85767; 8844; 132264; 214236; 73260; 82995; 102630; 214698;
   100749; 123750; 70752; 17457; 59928; 237963; 99660; 121968;
   92730; 162327; 170247; 220836; 185922; 103686; 248127; 246807;
   184800; 11682; 65010; 156816; 239976; 104610; 16896; 247962;
   94479; 201036; 213048; 114345; 165660; 244134; 104280; 161403;
   6798; 123651; 251922; 25410; 126390; 148632; 209352; 190839;
   85965; 253176; 255717; 207438; 95304; 191499; 13068; 27093;
   22011; 162921; 140151; 229845; 263340; 168003; 183711; 9372;
   256905; 129822; 102135; 154836; 225852; 241956; 140481; 43197;
   54615; 106656; 157245; 60126; 56694; 236313; 219846; 188793;
   59268; 99627; 14454; 64779; 88407; 163779; 68013; 127050;
   251559; 197043; 38544; 88440; 209715; 98406; 75834; 107481;
   260799; 220440; 188727; 193083; 147642; 237534; 199056; 171138;
   27357; 115269; 154506; 39171; 253374; 156585; 208164; 170874;
   71808; 126027; 12243; 250008; 30426; 164241; 44517; 230472;
   136851; 209781; 27885; 246213; 138996; 63855; 122595; 263142;
   197505; 141636; 73920; 196845; 90552; 156552; 244629; 130977;
   104082; 132990; 158367; 206910; 246510; 17523; 88374; 16302;
   215160; 216513; 120648; 68871; 70026; 36597; 264363; 82335;
   172656; 64812; 173844; 235917; 46266; 50853; 121902; 89331;
   160842; 129690; 62667; 19668; 237105; 257796; 224895; 124113;
   166089; 208692; 174141; 136290; 166815; 249612; 35607; 195558;
   14949; 49137; 129591; 241923; 81576; 33462; 112926; 179124;
   258027; 51117; 205920; 100089; 29106; 242022; 235356; 127215;
   25080; 43659; 116028; 101805; 253011; 165891; 41481; 54714;
   252582; 175494; 232419; 256311; 160677; 233112; 54648; 32307;
   250536; 145200; 223641; 122925; 256113; 239019; 236709; 72963;
   175659; 130383; 165528; 88110; 118305; 63525; 119097; 141141;
   243441; 139788; 171171; 211233; 180543; 110385; 148566; 254694;
   229812; 176418; 237765; 84777; 75966; 164637; 42372; 4191;
   46596; 154044; 232485; 241263; 108603; 158928; 226677; 211761;
   166782; 161766; 254529; 3069; 26037; 154011; 229317; 149886;
   175989; 113157; 185460; 220803; 22176; 76428; 233838; 129096;
   262086; 21021; 148830; 57453; 212190; 44220; 182259; 19239;
   89199; 92268; 17754; 153087; 164406; 247038; 2838; 14784;
   80058; 22308; 209979; 184041; 226347; 184503; 26235; 87219;
   183744; 259974; 231363; 225951; 94314; 137412; 127149; 45111;
   55902; 68112; 133518; 244530; 199518; 3135; 26895; 69267;
   15279; 31515; 22209; 113454; 139920; 121275; 204897; 50589;
   171930; 239151; 245619; 175692; 174273; 162591; 147906; 162690;
   118734; 93390; 193215; 25146; 78111; 125004; 156255; 81477;
   77484; 178299; 87681; 240372; 29436; 180807; 62997; 134475;
   219582; 238821; 177408; 75405; 80751; 188991; 259149; 182556;
   212850; 245784; 25872; 76065; 94083; 190278; 69762; 81180;
   234300; 217800; 49929; 200409; 205359; 79002; 10494; 260073;
   116886; 56232; 7161; 128040; 224763; 89529; 95271; 63195;
   18579; 39039; 138336; 207966; 152757; 130185; 138666; 104643;
   47784; 263901; 200145; 137247; 80916; 172755; 135696; 48873;
   247467; 263967; 26994; 77946; 8184; 242286; 170676; 261987;
   44088; 215226; 255387; 245751; 200046; 250107; 46563; 131802;
   185394; 228129; 46794; 86823; 48015; 7260; 143616; 79827;
   96129; 125466; 82764; 207108; 76329; 248523; 260469; 79695;
   27984; 145497; 204732; 68838; 60918; 259512; 113652; 224697;
   226083; 191928; 74085; 157674; 21714; 152922; 89991; 194667;
   102828; 215952; 127941; 104115; 169620; 55440; 110748; 48741;
   19107; 44649; 207735; 217569; 167871; 249711; 23100; 12771;
   145266; 168333; 41514; 50094; 154638; 240306; 234630; 243738;
   202752; 57321; 157344; 129030; 215094; 264231; 262416; 40128;
   52701; 183975; 107712; 244959; 166419; 62304; 241758; 265188;
   86856; 218955; 72237; 158499; 16731; 100716; 53064; 132099;
   161238; 78177; 56661; 120054; 201564; 193380; 37554; 11847;
   216810; 181863; 193941; 202587; 183084; 206712; 5247; 242979;
   84381; 201201; 217107; 230340; 102333; 80784; 154374; 199914;
   167541; 153153; 147576; 93093; 66396; 177672; 256014; 137049;
   226215; 193611; 107217; 217206; 30261; 29238; 197472; 236181;
   236610; 36795; 234267; 191037; 29832; 128172; 153483; 147411;
   198858; 99165; 253275; 164175; 193644; 61743; 140514; 174735;
   160380; 245520; 186186; 56034; 103785; 203610; 46035; 106161;
   74646; 99429; 137016; 76824; 78804; 23562; 134145; 111243;
   211926; 200706; 202125; 167376; 132066; 78738; 147675; 257136;
   79167; 141537; 42999; 88836; 46431; 87285; 175890; 87021;
   72501; 78540; 112365; 184734; 49335; 16401; 63789; 175725;
   163218; 155034; 207141; 12969; 89034; 154110; 29568; 210342;
   68970; 203016; 68706; 6138; 65076; 163845; 159588; 118173;
   52800; 72270; 89859; 33957; 264825; 46101; 26697; 171732;
   10032; 110286; 154737; 224103; 18249; 172491; 167508; 60786;
   97911; 72468; 58410; 138270; 172623; 152790; 43791; 128865;
   227139; 124839; 198759; 110418; 119361; 124971; 194700; 143352;
   260898; 206646; 244926; 194601; 57717; 3333; 129261; 4488;
   243408; 152724; 68640; 173448; 82698; 145596; 76725; 111012;
   23496; 90849; 141900; 92004; 80949; 49797; 75768; 187704;
   15246; 87846; 63393; 140745; 23991; 17985; 242088; 222585;
   41613; 178035; 90684; 233541; 14619; 98274; 226842; 102564;
   34716; 177045; 66066; 28479; 19404; 126456; 146091; 14058;
   172458; 179619; 53427; 188826; 127182; 202092; 60720; 201003;
   157509; 140118; 216150; 73953; 225456; 149094; 44550; 129987;
   110814; 167904; 63723; 11154; 193149; 241725; 8118; 64647;
   254892; 190806; 213840; 121473; 191829; 158235; 217833; 111474;
   177639; 127611; 187803; 55374; 100980; 82797; 53691; 42141;
   78012; 90288; 41085; 217965; 113091; 8580; 9669; 98109;
   244002; 7722; 108867; 123849; 109230; 31152; 166155; 11055;
   200211; 146322; 194502; 26136; 179322; 60456; 134013; 16467;
   23694; 249117; 175296; 146289; 232782; 237039; 108504; 73491;
   234729; 196977; 227007; 48345; 28083; 17655; 91509; 259875;
   6039; 43758; 130218; 246147; 86130; 76362; 206613; 199155;
   102069; 20097; 207339; 155991; 4653; 54582; 109296; 262185;
   61413; 90156; 236742; 99759; 146487; 49995; 19701; 75009;
   124311; 44484; 164670; 158103; 101211; 118800; 223476; 193479;
   189387; 226512; 250173; 95469; 261591; 246840; 239910; 71214;
   247137; 124080; 77055; 21186; 133353; 85305; 50820; 157014;
   101475; 132891; 174603; 264924; 233871; 105105; 117942; 217932;
   202488; 176352; 233277; 48312; 134508; 8382; 264858; 161898;
   174306; 85536; 120582; 157839; 62964; 87879; 172062; 249942;
   173481; 184932; 48477; 108042; 232551; 8448; 18480; 110979;
   5511; 21483; 214566; 215919; 117018; 222981; 5049; 170841;
   265386; 128766; 79728; 63426; 246048; 98637; 234234; 208428;
   178860; 45804; 202323; 189684; 7689; 145959; 195855; 139491;
   211365; 52041; 250437; 223575; 44022; 58344; 37752; 200244;
   9900; 102597; 190938; 196482; 208758; 33396; 36465; 251955;
   67584; 231561; 188331; 111705; 236577; 93324; 26565; 158631;
   225654; 42735; 41283; 41019; 190080; 135366; 121572; 5643;
   148302; 255354; 105600; 217140; 32571; 95040; 239481; 54120;
   19305; 225324; 66726; 102036; 87516; 101442; 22935; 91212;
   253341; 136356; 30459; 246873; 26598; 204237; 50655; 16335;
   11715; 77088; 257037; 181797; 134046; 189519; 242319; 107184;
   218526; 135795; 80850; 62634; 180180; 74481; 47289; 123222;
   30657; 86460; 77616; 183513; 209682; 23298; 199716; 62436;
   157047; 153648; 122364; 39699; 227667; 50127; 103257; 26070;
   126291; 134211; 175593; 192258; 41580; 36960; 257070; 213906;
   46761; 112662; 124476; 164901; 236478; 252252; 72006; 34947;
   203973; 261162; 237303; 187605; 144639; 251658; 192852; 52866;
   255783; 76296; 212388; 198198; 86031; 107613; 18381; 247269;
   11649; 185658; 142032; 248193; 60390; 104874; 193809; 199221;
   90618; 234861; 82566; 25443; 62931; 219747; 132462; 202257;
   48378; 177441; 52965; 220176; 130845; 65901; 215457; 245223;
   107250; 165330; 238755; 28644; 219054; 98604; 255618; 174636;
   215721; 5610; 229779; 246708; 181335; 119757; 228162; 220407;
   189024; 7557; 248721; 19569; 146784; 28215; 144870; 10164;
   232584; 251526; 46530; 59103; 219285; 187242; 182721; 168234;
   81906; 167739; 229713; 226908; 202455; 40359; 122298; 234168;
   73689; 139359; 233574; 145893; 162360; 169059; 237930; 121440;
   48180; 130449; 59730; 108108; 203511; 106425; 55968; 78969;
   160578; 63228; 59367; 32802; 159291; 149424; 231990; 5115;
   81774; 141999; 41118; 61776; 132363; 182193; 78672; 163515;
   133155; 121407; 175626; 148764; 123486; 203445; 39336; 155397;
   198132; 243969; 115797; 202191; 173151; 70059; 226479; 99099;
   100947; 28347; 211893; 160083; 224433; 41811; 82038; 81675;
   217899; 226050; 22671; 231858; 214302; 74283; 176748; 238062;
   130746; 249909; 130548; 196878; 125961; 110781; 116226; 116424;
   34353; 62172; 186978; 184008; 36696; 177474; 140283; 160116;
   15972; 162789; 228954; 183216; 156057; 94941; 262614; 225588;
   139029; 240999; 107415; 196251; 210540; 179454; 249183; 218229;
   99957; 248688; 75174; 252318; 255420; 12375; 225291; 155331;
   31020; 61479; 32439; 205095; 130944; 112530; 204765; 55539;
   105369; 157146; 47025; 214269; 31119; 217305; 258720; 190146;
   73161; 232518; 247533; 161865; 44814; 175758; 73623; 55077;
   38610; 73425; 253242; 112233; 197934; 217536; 262284; 7656;
   153945; 215787; 119922; 15477; 91905; 170214; 35805; 147081;
   73557; 74778; 189354; 68277; 209022; 37290; 185031; 58047;
   172161; 181566; 122661; 213345; 217074; 93489; 71676; 253440;
   162558; 122826; 109923; 114411; 161436; 137148; 47421; 88044;
   138732; 5742; 197835; 161139; 124443; 252285; 179157; 65307;
   204303; 97350; 212586; 149787; 133023; 133617; 43395; 166947;
   129360; 113916; 240405; 135399; 74217; 245949; 83094; 241164;
   31878; 212124; 84942; 254133; 15675; 77121; 161304; 204204;
   237633; 265485; 58443; 108009; 167277; 194139; 151536; 13134;
   29601; 180213; 48939; 61710; 172128; 12639; 167805; 165264;
   54483; 230505; 70653; 233178; 220473; 103323; 87417; 143583;
   95634; 259050; 182490; 208725; 30855; 76461; 7425; 100551;
   132561; 121770; 53097; 53229; 93720; 196944; 190905; 38016;
   158070; 191895; 9339; 151503; 159357; 216348; 80025; 145035;
   222189; 180477; 242517; 64977; 155925; 178266; 158697; 251724;
   74382; 190707; 41910; 20592; 88803; 25905; 18711; 94512;
   110616; 12870; 83589; 193017; 240537; 142428; 265650; 35838;
   6963; 189156; 114609; 172854; 265155; 169818; 26367; 203280;
   154143; 31713; 115599; 53757; 115632; 38181; 168300; 74316;
   180246; 109989; 43329; 256707; 89661; 50919; 131868; 51018;
   12738; 170082; 57222; 80223; 31548; 120780; 211596; 179487;
   245322; 77913; 133683; 151437; 195261; 116985; 150843; 74976;
   195426; 246279; 79761; 39567; 65538; 63921; 143385; 86592;
   228525; 101607; 191796; 183249; 86097; 176088; 188166; 223839;
   69498; 6699; 159027; 117975; 6303; 42438; 96624; 126093;
   81840; 76032; 146751; 165099; 241296; 201300; 185790; 121011;
   196449; 150447; 143814; 95997; 64878; 234366; 8250; 21978;
   54021; 172095; 148929; 263670; 241098; 3564; 12903; 134442;
   237204; 122100; 248094; 6468; 202686; 17853; 126786; 176649;
   242583; 171006; 160248; 12144; 58212; 68046; 98802; 217998;
   47355; 249381; 87912; 253935; 58707; 113256; 99693; 70851;
   75273; 26103; 3696; 217008; 120978; 120450; 3498; 260865;
   138864; 35178; 24321; 32109; 164109; 103422; 113223; 263538;
   90915; 42207; 173052; 47388; 41646; 121077; 62700; 5973;
   224961; 16005; 111606; 13530; 222717; 165726; 227403; 39501;
   185988; 168432; 229185; 217470; 26730; 5379; 91113; 178068;
   179949; 195096; 84249; 80586; 257598; 211035; 127875; 222255;
   232815; 241329; 256245; 143913; 61083; 104544; 47520; 197538;
   23529; 45177; 153813; 144606; 95898; 261459; 238392; 205260;
   265683; 150711; 34848; 189123; 213642; 108801; 101079; 251196;
   16599; 118239; 12837; 213444; 259677; 170775; 64218; 242913;
   188133; 222123; 191961; 63096; 149028; 8613; 101145; 265023;
   88539; 248787; 124740; 4554; 118569; 42603; 76956; 35409;
   170148; 134244; 150117; 242616; 248325; 161007; 169026; 231066;
   261195; 212751; 125301; 206844; 234201; 216183; 115236; 182622;
   27060; 80817; 38940; 229614; 65043; 60489; 155859; 162756;
   47916; 45969; 45375; 135498; 232023; 145695; 262581; 254463;
   165033; 101046; 4356; 252978; 49863; 178695; 35079; 224829;
   14157; 55341; 58938; 231033; 179025; 143022; 98439; 40161;
   30393; 124047; 97185; 140679; 22143; 2871; 263637; 76758;
   175824; 89826; 188298; 3036; 127908; 216777; 113586; 71907;
   250734; 45573; 106128; 72996; 5709; 31350; 68409; 29898;
   157575; 52305; 254067; 183777; 167970; 151371; 39435; 165594;
   32934; 96921; 183051; 123684; 154704; 211431; 155133; 203082;
   239283; 110715; 98934; 11319; 115962; 68244; 43956; 167607;
   166650; 114147; 117579; 57189; 131835; 33198; 5445; 262053;
   13728; 167574; 54846; 147180; 91476; 265716; 38280; 190674;
   89397; 6435; 84744; 184437; 135135; 196284; 137280; 200475;
   87252; 115863; 107448; 194106; 7128; 163911; 61248; 119592;
   129888; 141933; 216117; 250833; 91674; 129954; 42471; 31680;
   141834; 197373; 149952; 131373; 135267; 28776; 137610; 203412;
   152856; 126918; 49434; 44121; 86295; 96459; 91806; 132792;
   149754; 154209; 49665; 27159; 265221; 84447; 154902; 49071;
   5313; 242550; 265551; 162459; 255816; 213114; 153681; 93423;
   109560; 212091; 61908; 4719; 232056; 191598; 63954; 23463;
   34683; 259116; 258918; 70554; 213312; 11748; 99066; 218757;
   157938; 73128; 206217; 130515; 258621; 209913; 37653; 95370;
   161469; 24882; 225720; 124608; 92070; 226644; 204501; 66957;
   65373; 184338; 161931; 196086; 53460; 159951; 9570; 2772;
   194337; 45078; 12573; 24255; 188859; 191400; 133419; 259908;
   161040; 195459; 72831; 31053; 252516; 124806; 57816; 207603;
   110088; 205161; 211695; 214203; 84084; 155826; 67782; 212223;
   62403; 115071; 188397; 69300; 147543; 166320; 49566; 239547;
   2805; 129162; 246312; 261492; 159390; 104775; 23199; 218493;
   60192; 209319; 55011; 33330; 29865; 142527; 255057; 103059;
   130053; 126225; 247764; 157971; 229944; 149358; 73227; 129855;
   162096; 76659; 30525; 55275; 180444; 63327; 50226; 207174;
   74250; 66627; 110187; 180675; 189981; 245916; 16797; 200607;
   236148; 10692; 173778; 144837; 168267; 136719; 148599; 152658;
   26862; 236874; 46827; 251328; 248886; 248556; 3465; 246180;
   84909; 52668; 115038; 253506; 8679; 150876; 105765; 246972;
   69696; 98208; 8283; 227766; 33759; 184074; 21054; 111573;
   192489; 218790; 212322; 247500; 33528; 145794; 148500; 224136;
   169257; 159753; 261921; 121704; 160776; 219648; 191565; 78144;
   151239; 240108; 199947; 58179; 264594; 18414; 264660; 198429;
   194568; 121803; 37587; 74877; 61842; 257433; 124872; 227832;
   125664; 262944; 75801; 157410; 245652; 153384; 195327; 122430;
   221265; 257367; 190344; 99924; 214335; 77385; 151833; 58476;
   115170; 6369; 11814; 99726; 155760; 149061; 96723; 233376;
   220011; 258192; 10725; 34221; 90453; 37983; 32505; 235158;
   119163; 46365; 107844; 83853; 144210; 211530; 223410; 123123;
   192555; 252021; 176814; 13332; 233805; 178134; 144738; 21351;
   77847; 93588; 140184; 151008; 105732; 100353; 123816; 74349;
   82599; 128304; 254826; 182820; 171270; 156420; 52173; 72435;
   6930; 66792; 139623; 209055; 61809; 98076; 21912; 114972;
   183579; 208263; 207570; 70389; 168399; 210639; 108999; 62799;
   57057; 250272; 38049; 100320; 212520; 87648; 238953; 86493;
   125268; 244398; 156651; 205689; 50259; 103818; 93621; 236841;
   99891; 181995; 230604; 26532; 29997; 231264; 214896; 113718;
   193908; 75669; 113124; 100188; 160512; 5577; 118272; 78606;
   22473; 69894; 188628; 115731; 105435; 248457; 171204; 99990;
   25608; 217404; 9504; 55704; 123618; 154770; 69168; 263043;
   97053; 50061; 175098; 69795; 18348; 32769; 62502; 245091;
   226149; 258060; 231429; 147807; 247302; 83226; 17820; 62898;
   231099; 131901; 38412; 264165; 248985; 127743; 239349; 43032;
   198891; 7326; 136521; 135102; 65670; 90024; 83127; 207405;
   72402; 195591; 163284; 109428; 237468; 137742; 177837; 240669;
   90321; 40920; 171435; 139854; 140910; 166056; 101277; 14883;
   118833; 41943; 18909; 41745; 176715; 15015; 142164; 223377;
   62139; 57948; 255915; 162954; 93357; 117909; 37422; 32406;
   203181; 53856; 254430; 123255; 260766; 19173; 205953; 107547;
   218691; 82071; 106887; 164076; 87450; 55407; 219120; 62733;
   79926; 108768; 106788; 256476; 51282; 12408; 125565; 136059;
   162657; 236808; 183381; 257862; 231825; 102201; 237006; 125400;
   201069; 200442; 187770; 12045; 178794; 93291; 218130; 197406;
   70191; 110550; 95535; 188265; 43131; 4521; 110583; 172557;
   238524; 54747; 180939; 210408; 146388; 91377; 111969; 165363;
   247368; 12276; 48576; 190443; 200277; 169884; 106095; 92565;
   236016; 246015; 148995; 92169; 265320; 71577; 96756; 175560;
   45903; 249777; 250470; 57585; 116721; 100386; 94908; 239877;
   144012; 79629; 9405; 199551; 213873; 116193; 63492; 200739;
   4587; 264099; 98868; 177969; 136653; 259182; 158961; 143286;
   29766; 259644; 192423; 102300; 39765; 77649; 111771; 42867;
   12111; 254001; 231891; 72930; 13992; 258258; 161799; 185955;
   161700; 252384; 228723; 124707; 190773; 20361; 247797; 183909;
   23628; 93687; 99198; 116457; 161733; 73062; 122232; 136488;
   255849; 179355; 75108; 81543; 208395; 205590; 37257; 55638;
   204666; 129756; 153978; 178563; 53526; 219714; 168201; 47586;
   126192; 63822; 205491; 74943; 56067; 67353; 155463; 91080;
   122562; 196515; 219681; 204600; 236907; 122265; 71973; 146982;
   107085; 224730; 218988; 20229; 174537; 206547; 203577; 256773;
   263835; 220770; 22044; 69927; 24552; 260403; 40062; 134838;
   102399; 176484; 25509; 152493; 133947; 139986; 182292; 117876;
   191103; 116754; 107316; 153846; 85041; 29040; 247071; 190410;
   185229; 91575; 246741; 87483; 52998; 173613; 255090; 246543;
   244992; 226446; 175461; 31185; 9108; 153516; 119856; 162063;
   116358; 197274; 15642; 179751; 215853; 153912; 208098; 178200;
   213774; 93918; 151635; 31812; 185625; 8646; 202521; 168729;
   111507; 197439; 197241; 160215; 239184; 90585; 49698; 167343;
   180378; 220935; 83754; 229911; 5214; 82500; 220737; 264759;
   180048; 260370; 236643; 159258; 254760; 33066; 252681; 10758;
   148005; 245190; 219912; 196383; 85008; 38478; 108636; 23397;
   225786; 234432; 221925; 90420; 230109; 204831; 241428; 184668;
   192720; 195294; 75372; 198792; 19008; 193776; 50193; 220209;
   144969; 263076; 138171; 121638; 78210; 66561; 20988; 56529;
   72336; 215754; 106722; 164703; 49236; 232947; 10659; 62535;
   207636; 61380; 161964; 117051; 246906; 111804; 207768; 27720;
   36729; 62370; 119790; 136422; 195624; 221100; 72600; 224598;
   251691; 72105; 103884; 206151; 79530; 188958; 215424; 213510;
   53196; 230571; 114510; 242418; 167409; 74910; 37356; 158037;
   149688; 243045; 115203; 9735; 94545; 67914; 249513; 161568;
   136092; 86262; 153714; 57156; 87747; 174702; 104313; 3168;
   114444; 165759; 228987; 86427; 203742; 85899; 264693; 112299;
   17589; 93753; 90255; 260931; 51876; 43527; 215688; 136950;
   81213; 149259; 83820; 43164; 138831; 221562; 11880; 165561;
   215391; 32142; 95865; 14421; 165462; 189717; 10197; 238293;
   238326; 181269; 151899; 37026; 198297; 7458; 240867; 94380;
   165957; 141174; 194073; 244068; 203841; 59631; 53889; 64416;
   191697; 234993; 39369; 40722; 4059; 118602; 109857; 19437;
   169092; 143682; 139260; 168366; 3960; 185130; 25245; 183678;
   95799; 170511; 38247; 162822; 28875; 85668; 22539; 86691;
   179817; 184866; 118635; 210507; 125037; 101244; 205425; 219219;
   51084; 180147; 237798; 34320; 245289; 113685; 126654; 139128;
   63129; 150777; 237699; 263868; 197868; 146817; 256575; 251988;
   30294; 85173; 226809; 226248; 235554; 244728; 117843; 242880;
   27588; 143055; 152163; 47751; 20757; 194865; 101112; 108735;
   263109; 140217; 36894; 90783; 80883; 160446; 45342; 254562;
   52008; 256212; 257763; 170907; 215028; 194733; 17259; 52074;
   143880; 256740; 201531; 75570; 66165; 206085; 77418; 156519;
   166254; 230241; 237864; 237072; 24915; 205194; 263604; 221826;
   164802; 75999; 102762; 238425; 250998; 104709; 84051; 167310;
   24750; 129921; 136026; 261657; 59235; 65175; 34419; 110517;
   217767; 120846; 156090; 125169; 265254; 217173; 229647; 221463;
   70686; 258885; 61545; 242220; 96162; 244332; 18612; 174966;
   174438; 132759; 92598; 110154; 40260; 200904; 47652; 83391;
   56166; 64944; 160974; 126984; 67188; 32274; 54153; 82632;
   43560; 225192; 134970; 256047; 216546; 98571; 155529; 221067;
   69036; 140943; 142560; 177243; 115566; 35739; 59334; 112695;
   232617; 21582; 127644; 90090; 104181; 128403; 252714; 78045;
   157476; 120120; 66033; 252813; 243012; 42306; 45540; 241131;
   27192; 218361; 249579; 100584; 260238; 60654; 256080; 3762;
   183117; 219813; 28314; 175956; 158829; 239118; 178728; 253638;
   256377; 71346; 253143; 228096; 224664; 98505; 162855; 45672;
   221694; 234795; 243144; 21285; 125829; 25377; 203643; 160413;
   107943; 73854; 114081; 133815; 26169; 190311; 51942; 51249;
   174933; 233475; 149985; 69432; 236115; 180708; 188001; 99330;
   234102; 100683; 19866; 195129; 235752; 182457; 90486; 27489;
   257103; 22605; 193050; 194040; 124674; 114543; 257730; 82467;
   25938; 126324; 151305; 62469; 159225; 175791; 66825; 22869;
   83622; 69102; 190641; 153285; 68310; 206349; 103521; 190014;
   191532; 140052; 197769; 261690; 146949; 181929; 41679; 112497;
   83721; 227898; 232188; 205656; 111408; 234399; 183612; 85866;
   29667; 160743; 12474; 109494; 262680; 109164; 222750; 69663;
   175362; 159918; 27258; 249876; 128502; 52503; 72897; 211794;
   197076; 199650; 216909; 4620; 199089; 71775; 111903; 74712;
   226116; 15180; 142461; 77781; 70950; 161601; 100287; 69729;
   72732; 35508; 126555; 32208; 235818; 77682; 132000; 67947;
   153252; 133122; 158664; 155298; 146355; 22374; 203247; 58773;
   20955; 91971; 253869; 139557; 23826; 238095; 86229; 2673;
   104511; 45936; 159852; 112728; 249282; 221199; 4818; 147312;
   249150; 92895; 94710; 107514; 108372; 61941; 192819; 134409;
   46959; 53592; 40194; 262647; 242154; 83259; 137577; 64152;
   198363; 192192; 15873; 134706; 38775; 6996; 90750; 79662;
   6732; 255453; 99396; 97581; 52206; 141372; 63690; 205293;
   171963; 5775; 260304; 131538; 95106; 208197; 207471; 253077;
   166386; 178497; 3795; 72765; 91707; 155364; 168828; 7755;
   103554; 77880; 151338; 139293; 51381; 35937; 252054; 19140;
   70422; 195525; 229086; 227106; 124212; 132132; 35904; 200508;
   238260; 55869; 51216; 20889; 92202; 222156; 240735; 46332;
   214731; 83028; 217602; 18876; 85437; 248292; 72567; 166881;
   212619; 91410; 201696; 116094; 160182; 78771; 57618; 28842;
   105402; 16566; 239745; 140547; 186252; 139062; 188067; 179058;
   137115; 82401; 168894; 117480; 252780; 202818; 244893; 41547;
   142098; 185064; 91641; 43890; 247995; 223179; 88242; 197670;
   142857; 250767; 193875; 212652; 85206; 185295; 263439; 265518;
   22836; 164307; 12672; 13959; 125862; 42537; 23727; 151074;
   180609; 223278; 172986; 7227; 180312; 261558; 52437; 224400;
   66099; 192588; 84612; 189090; 52239; 52734; 72204; 70125;
   234564; 206481; 48147; 143220; 250932; 50622; 186681; 93885;
   64746; 167706; 41382; 86196; 86955; 73755; 145002; 47817;
   6237; 212058; 218031; 82302; 194436; 109131; 139524; 43923;
   76593; 21648; 20031; 133188; 220506; 228195; 203346; 56892;
   232287; 104412; 109098; 140382; 50292; 200871; 222849; 91740;
   170544; 90123; 79068; 60951; 66924; 160314; 37521; 121539;
   159819; 129723; 13398; 247698; 99264; 120912; 158169; 87582;
   105699; 130647; 71016; 97218; 164472; 247434; 194898; 187308;
   31779; 67023; 118767; 124179; 198033; 235950; 113619; 243507;
   58311; 157278; 210474; 175923; 91278; 192621; 218922; 208494;
   55473; 129789; 49269; 251394; 190476; 100617; 211134; 77352;
   167673; 114873; 187110; 23925; 109362; 71940; 110946; 207009;
   204963; 59829; 60522; 63657; 127446; 243078; 256443; 84678;
   83457; 99297; 117348; 184140; 207075; 149820; 186054; 129492;
   212982; 28248; 47091; 154869; 246114; 17952; 197010; 238029;
   39666; 67650; 82830; 4752; 151767; 72303; 9768; 34188;
   54780; 202785; 205821; 76989; 128733; 210837; 110913; 170940;
   197340; 185559; 258687; 230934; 149292; 22572; 35277; 90717;
   159093; 248589; 131043; 252846; 163251; 233211; 164736; 263505;
   8976; 260733; 107151; 199386; 81015; 95337; 215655; 14652;
   150216; 77748; 207834; 89496; 157641; 146652; 264330; 131109;
   142296; 88506; 201135; 189783; 149226; 10989; 256509; 169389;
   235488; 110880; 135960; 60753; 181599; 54450; 130086; 26961;
   86064; 138897; 179256; 201465; 88143; 77187; 67716; 93654;
   79959; 171237; 63294; 21813; 186351; 6402; 64845; 138303;
   264462; 222222; 211266; 165693; 231198; 151965; 172689; 247401;
   22440; 9966; 69531; 5181; 73590; 167112; 174009; 198594;
   113817; 178530; 147378; 153186; 250305; 184767; 58806; 241890;
   200673; 114576; 39402; 152955; 219615; 46200; 166914; 198528;
   187143; 104148; 30492; 178332; 60423; 208824; 105864; 191466;
   232683; 115104; 113553; 61644; 17490; 161337; 79563; 33891;
   28050; 146256; 253572; 24981; 98769; 229416; 148137; 234135;
   176319; 183150; 59664; 14850; 214467; 190971; 65472; 89298;
   16170; 154242; 257235; 158400; 3663; 228756; 54879; 38379;
   9471; 203544; 257994; 148038; 186615; 108438; 140811; 243573;
   138798; 47454; 194964; 230175; 201597; 146553; 94611; 241824;
   51810; 8877; 60291; 257334; 201927; 214962; 65505; 6633;
   224994; 14091; 143088; 73821; 209517; 187374; 209814; 131703;
   213807; 230967; 230406; 19272; 44880; 216975; 241857; 92532;
   225522; 129327; 98373; 95073; 97812; 236445; 236973; 80124;
   209847; 163383; 113058; 128106; 157377; 128931; 246939; 166980;
   220968; 16764; 150348; 187539; 193413; 265584; 228921; 251460;
   70356; 15906; 63360; 33825; 68079; 75636; 115434; 113520;
   62040; 34782; 55836; 237435; 154341; 106062; 72171; 142263;
   79233; 130119; 147114; 171765; 201630; 187869; 233046; 256146;
   75603; 66462; 257829; 131307; 133287; 33726; 195657; 34254;
   9636; 99825; 131208; 59763; 239943; 206019; 123189; 240801;
   235455; 227040; 44187; 7854; 208890; 113421; 4983; 25806;
   72072; 250635; 80388; 154803; 107283; 71181; 93555; 101541;
   216579; 221628; 113949; 145299; 254628; 64449; 100221; 263736;
   156354; 113982; 4125; 96657; 224565; 31086; 258522; 193710;
   118074; 154473; 147873; 148368; 231693; 26829; 197736; 94809;
   58278; 194271; 263010; 143517; 152592; 130482; 261294; 166287;
   198957; 74580; 216645; 230076; 14223; 10923; 191136; 154671;
   47553; 20724; 209154; 132330; 96789; 38643; 102234; 198825;
   58674; 231627; 132495; 92466; 257202; 252945; 109593; 173514;
   115467; 264297; 117744; 151206; 144045; 173118; 22902; 161073;
   3234; 116787; 99000; 131670; 185163; 7821; 247203; 47223;
   25773; 158202; 206679; 30195; 264264; 83523; 164571; 107877;
   82005; 24486; 142329; 44682; 121374; 126357; 143187; 82929;
   55935; 138237; 43098; 8085; 79893; 105468; 25839; 254595;
   150315; 53262; 33495; 185328; 159786; 54945; 130878; 81642;
   73029; 122397; 94116; 212949; 9603; 135861; 124509; 51150;
   234597; 228591; 228360; 29205; 104808; 231957; 156981; 76263;
   186648; 138204; 120021; 21945; 148698; 32703; 57420; 123288;
   4323; 218295; 10263; 25311; 220539; 37224; 223344; 230769;
   74613; 20163; 244299; 37818; 239415; 121341; 150018; 28380;
   71709; 259380; 48411; 66693; 241989; 155595; 207273; 11385;
   66198; 66495; 228228; 76197; 65736; 47487; 25740; 190542;
   86889; 112563; 143715; 53031; 100782; 161502; 142362; 36201;
   213213; 211068; 53361; 115005; 201861; 57354; 139425; 257664;
   137874; 203478; 247896; 222519; 221397; 148071; 202653; 81081;
   144243; 85635; 187506; 52635; 212487; 5412; 223245; 59565;
   84414; 203907; 148203; 20658; 72864; 6336; 228822; 128700;
   136554; 77814; 129525; 168465; 70785; 204930; 109791; 187341;
   65604; 120681; 220044; 261624; 209946; 87087; 44748; 181434;
   18447; 122034; 229119; 186813; 208923; 17358; 2706; 239778;
   122529; 62601; 242484; 155958; 44319; 245487; 190047; 61512;
   185262; 118206; 31977; 149556; 26631; 188925; 134640; 204435;
   181170; 183183; 142956; 101772; 41844; 206778; 213972; 50787;
   228294; 68673; 169950; 261888; 110847; 96261; 107910; 28149;
   157113; 214038; 138699; 3729; 54054; 97383; 120483; 205524;
   147477; 260172; 265122; 193116; 3894; 23859; 84315; 262911;
   71445; 78309; 260106; 135927; 239217; 107118; 219978; 196713;
   134541; 259314; 10527; 123057; 116589; 29799; 21780; 42405;
   135201; 8349; 207669; 228657; 14322; 119262; 199782; 203379;
   181302; 46629; 123420; 30030; 253407; 254958; 52932; 261327;
   41778; 108075; 80685; 16038; 257631; 109197; 192687; 178629;
   249744; 9537; 126423; 100023; 183645; 167640; 19041; 236280;
   142890; 34023; 4686; 222486; 153582; 65571; 102498; 112629;
   143253; 50985; 184206; 173250; 37686; 183447; 244596; 64251;
   56397; 234828; 167937; 174768; 260337; 31614; 59994; 104940;
   144375; 212553; 24849; 95931; 75306; 222420; 102795; 39897;
   101706; 181368; 66990; 217668; 123156; 148236; 118107; 69630;
   249546; 32670; 219021; 20493; 3300; 56595; 222915; 84183;
   145662; 178101; 209286; 235224; 131637; 240966; 249843; 28545;
   63459; 53790; 23232; 102003; 191730; 219351; 105930; 200805;
   172590; 179190; 125103; 139755; 172227; 229020; 154539; 48279;
   260634; 188595; 105006; 255948; 195690; 214071; 86394; 110682;
   165990; 101673; 145629; 123552; 195030; 48807; 8151; 29304;
   42768; 117414; 259710; 15741; 76098; 117084; 222024; 43626;
   128370; 243111; 69366; 246345; 144936; 142725; 72699; 68772;
   172260; 202884; 63624; 154968; 127248; 252120; 27918; 78639;
   160281; 58971; 128271; 210936; 247005; 15081; 244860; 116259;
   48972; 95733; 146520; 134343; 182028; 260535; 69333; 241692;
   45045; 172326; 210573; 246576; 179850; 171600; 126522; 91773;
   189057; 142131; 57255; 173316; 227238; 39138; 261954; 31746;
   221727; 188529; 83688; 44715; 40854; 171666; 53658; 263208;
   246411; 177111; 203049; 192060; 105237; 152262; 32472; 245850;
   77451; 178398; 201993; 128634; 90222; 28512; 111144; 245355;
   119658; 200079; 133848; 57981; 203676; 75207; 80619; 44946;
   128205; 7986; 189222; 58509; 177903; 168927; 251757; 18744;
   89958; 220869; 13596; 144540; 22275; 251262; 139095; 155496;
   119328; 254991; 191433; 255321; 186417; 40821; 223608; 251889;
   34089; 195888; 263571; 181830; 36234; 136752; 60984; 227799;
   78342; 227865; 101310; 240933; 96591; 65439; 213609; 92796;
   151404; 103389; 42636; 133452; 255750; 51447; 208791; 153021;
   169917; 47124; 122727; 106392; 104049; 84876; 35772; 58245;
   61446; 88275; 237600; 156915; 132660; 148863; 148269; 35442;
   156948; 223212; 241527; 163713; 246081; 190245; 257400; 253110;
   87780; 202620; 18216; 202851; 78573; 198264; 180510; 158301;
   6831; 220275; 224499; 12606; 243243; 104016; 221991; 130779;
   227700; 66891; 158466; 237138; 97515; 237501; 59301; 198495;
   98736; 173745; 120714; 140778; 219186; 264726; 22638; 133221;
   53625; 120945; 57090; 186912; 48114; 7392; 113190; 163647;
   21615; 81741; 243672; 261393; 48246; 209418; 107019; 158796;
   181203; 112827; 40986; 259215; 253836; 101871; 114048; 19767;
   253770; 133386; 222057; 138402; 160347; 50721; 70092; 181038;
   80487; 3531; 7293; 66660; 191334; 10560; 137346; 59862;
   125697; 143418; 60687; 182226; 105534; 248028; 153780; 20691;
   166584; 225258; 32901; 104478; 152691; 172029; 201498; 6534;
   123387; 65967; 114774; 9174; 107976; 64053; 248259; 195360;
   131472; 23595; 119196; 149622; 249447; 223971; 234894; 236379;
   11418; 174042; 253473; 27555; 192654; 115137; 89430; 241560;
   68508; 120813; 100056; 137445; 22968; 68541; 240504; 35310;
   8481; 215523; 10824; 80355; 29931; 212718; 241593; 106293;
   162195; 127347; 258819; 232254; 55506; 34881; 191235; 139227;
   106359; 48081; 248952; 201333; 20064; 13101; 107052; 11913;
   8514; 84546; 34815; 262020; 5940; 94149; 72798; 16929;
   73392; 112068; 173019; 163746; 165792; 120384; 33000; 118371;
   182919; 102993; 176385; 102729; 100485; 120747; 176121; 234663;
   34551; 117810; 11121; 112332; 45639; 161106; 167046; 256641;
   65835; 194535; 103191; 9702; 233772; 57486; 25179; 179421;
   42570; 132198; 176220; 22506; 18513; 66000; 79464; 139161;
   186549; 144078; 254793; 151668; 201762; 79101; 71379; 100419;
   263472; 206943; 8943; 95007; 231528; 16071; 132924; 32967;
   233310; 118668; 69003; 170181; 150414; 45276; 71511; 111672;
   35343; 239613; 244761; 226776; 204534; 86988; 143748; 4290;
   114279; 177804; 24189; 14916; 40392; 12012; 31218; 47982;
   29370; 241659; 196548; 15411; 114741; 108933; 42801; 138963;
   197703; 124575; 170643; 3861; 31383; 33792; 113289; 255882;
   71544; 195195; 205029; 116556; 174108; 228690; 235257; 122793;
   13299; 169785; 133881; 118866; 43263; 239514; 239382; 7788;
   224796; 203940; 149391; 48048].
(** HASH_HALFWIDTH_AND_FULLWIDTH_FORMS, src/fonts/hanzi.rs:16351-16448 *)
Definition hanzi_hash_halfwidth_and_fullwidth_forms : list N :=
  [0x4303576; 0x4aa89c6; 0x6c61905; 0x83b4da4; 0x8a79b99; 0x944320b; 0x9fe1d85; 0xd7dfa51;
   0x1133a740; 0x13df1433; 0x16035f24; 0x1a395f97; 0x1dc8817e; 0x2063c737; 0x23188403; 0x26712d48;
   0x2a70e3d2; 0x2fc9149e; 0x35b55047; 0x38fbd9da; 0x3b0c3170; 0x42cc4235; 0x4543803d; 0x466abe63;
   0x4bc56329; 0x4ea9f4c2; 0x4eeadf49; 0x51eebd23; 0x546f5046; 0x5473cbd7; 0x57b7f1d3; 0x5b8207b7;
   0x5ea0516c; 0x5f0eea03; 0x66998bd2; 0x67ac907e; 0x6d29cbba; 0x7993cf85; 0x7d393f4d; 0x7f20c37e;
   0x7f4ef1d1; 0x80083d6b; 0x81d615a3; 0x81df8696; 0x82f868a3; 0x8372b81f; 0x83ead297; 0x8d563102;
   0x8e8e3496; 0x8f51d459; 0x93af346c; 0x95dc3c1a; 0x9e2627e8; 0x9f6e561b; 0xa0118a31; 0xa772d541;
   0xa94a76e8; 0xa950d335; 0xabc0bb4a; 0xaf3fb113; 0xb088ca98; 0xb6dde6c1; 0xb74867f2; 0xb96feac7;
   0xbe1260ba; 0xbe276dab; 0xbe2b531f; 0xbe69cefe; 0xbf2cfbbc; 0xc0d6c29c; 0xc2390f24; 0xc30753b9;
   0xc3fce53e; 0xd33c7a2b; 0xd37ac02d; 0xd3e2b2d9; 0xd7698f44; 0xdcf52de2; 0xdeba5df4; 0xdfec2c52;
   0xe39593ac; 0xe4914d90; 0xe75f0a35; 0xeebba9e8; 0xf0410099; 0xf0c08c05; 0xf110b6ab; 0xf2682d42;
   0xf36c2410; 0xf41f1140; 0xf75d5c1c; 0xf84ce380; 0xf9ba0841; 0xfa99eee7; 0xfe34cab8; 0xfffa92e8].
(** OFFSET_HALFWIDTH_AND_FULLWIDTH_FORMS, src/fonts/hanzi.rs:16451-16548 *)
Definition hanzi_offset_halfwidth_and_fullwidth_forms : list N :=
  [275286; 275451; 276408; 276342; 275748; 274923; 274362; 275979;
   273768; 274032; 276012; 276177; 276078; 274692; 275715; 274659;
   273900; 274527; 273933; 276144; 275946; 274494; 274890; 273438;
   275484; 274791; 276276; 274197; 275088; 274230; 275682; 273405;
   273504; 276375; 273273; 274956; 273471; 275220; 276111; 274593;
   275253; 275187; 276309; 273735; 274824; 273306; 273966; 273537;
   275418; 276045; 273867; 273636; 273669; 274725; 273372; 275517;
   275385; 274164; 273999; 275814; 274329; 275352; 275781; 274263;
   273570; 275616; 274131; 274626; 275055; 274560; 275583; 273603;
   274296; 276210; 276243; 274065; 275319; 274395; 273702; 274461;
   274758; 274428; 275649; 273801; 275880; 275550; 275121; 275154;
   274857; 275847; 273339; 274098; 274989; 275913; 273834; 275022].
(** HASH_CJK_UNIFIED_IDEOGRAPHS_EXTENSION_B, src/fonts/hanzi.rs:16561-16598 *)
Definition hanzi_hash_cjk_unified_ideographs_extension_b : list N :=
  [0x58dfa83; 0x89f6681; 0x91f0a6a; 0x1081e251; 0x34f57437; 0x39a29e8c; 0x39ef33ee; 0x40da777c;
   0x444567f6; 0x45e21366; 0x46718814; 0x469db6bd; 0x475a8afb; 0x5816d944; 0x6074f180; 0x62b77127;
   0x7114eec0; 0x787bb86a; 0x79d7de81; 0x7c59d493; 0x8201d366; 0x88c710dd; 0x90826225; 0x9c0dd0e3;
   0xa518f362; 0xa651722b; 0xaaa78818; 0xbaa6dffb; 0xbc3313b9; 0xbf3588b5; 0xc3e3d6cd; 0xc7e0d73b;
   0xc93d9f2d; 0xd577f288; 0xddc7f3de; 0xfdf9bca0].
(** OFFSET_CJK_UNIFIED_IDEOGRAPHS_EXTENSION_B, src/fonts/hanzi.rs:16601-16638 *)
Definition hanzi_offset_cjk_unified_ideographs_extension_b : list N :=
  [266772; 266277; 266376; 266871; 266046; 265980; 266310; 266145;
   266607; 265749; 266541; 265947; 266178; 266739; 266904; 266640;
   266112; 266508; 266013; 265881; 266442; 266805; 266475; 265914;
   265848; 265815; 266673; 266409; 266211; 266838; 266079; 266244;
   266343; 266574; 266706; 265782].
(** HASH_CJK_UNIFIED_IDEOGRAPHS_EXTENSION_C, src/fonts/hanzi.rs:16651-16696 *)
Definition hanzi_hash_cjk_unified_ideographs_extension_c : list N :=
  [0x73fbcb3; 0x9581f57; 0xc2a57e9; 0x168296db; 0x2b13367d; 0x3929f8f9; 0x3c3cd1c0; 0x4ae8e4ef;
   0x54f21035; 0x578ea8f1; 0x58ec2b71; 0x743f0981; 0x75c1d705; 0x823a2bd5; 0x82ad46db; 0x8736d522;
   0x87995773; 0x87fe2fc2; 0x90bcaeb3; 0x94db2ea1; 0x968358c8; 0xa01cae9a; 0xa2001a25; 0xab42700e;
   0xac197338; 0xaf86f6e8; 0xb08ff687; 0xb2af1d4f; 0xb7337d22; 0xbd79fe1c; 0xc16e3a88; 0xc30fc0ec;
   0xc636e492; 0xc97aec4f; 0xd12023c8; 0xd65fb534; 0xdcda0a14; 0xdd0b10d2; 0xdf5d87c5; 0xe181bd1f;
   0xe7f0a9ac; 0xf0039ce9; 0xf61e6c64; 0xf7e33d80].
(** OFFSET_CJK_UNIFIED_IDEOGRAPHS_EXTENSION_C, src/fonts/hanzi.rs:16699-16744 *)
Definition hanzi_offset_cjk_unified_ideographs_extension_c : list N :=
  [267861; 267003; 267729; 267531; 268125; 267300; 267399; 267135;
   267696; 267828; 267795; 267168; 267993; 267498; 268191; 267597;
   268290; 267927; 267267; 266970; 267036; 267663; 267960; 268257;
   268158; 267333; 267762; 267630; 268092; 267234; 267366; 267069;
   268224; 267564; 267432; 268026; 267102; 267894; 267201; 267465;
   268059; 268323; 266937; 268356].
(** HASH_CJK_UNIFIED_IDEOGRAPHS_EXTENSION_D, src/fonts/hanzi.rs:16757-16766 *)
Definition hanzi_hash_cjk_unified_ideographs_extension_d : list N :=
  [0x1be67541; 0x38f37092; 0x4a97d4da; 0x4f865a41; 0x528b926e; 0xbbea2df7; 0xd5e19070; 0xf9b0c51f].
(** OFFSET_CJK_UNIFIED_IDEOGRAPHS_EXTENSION_D, src/fonts/hanzi.rs:16769-16778 *)
Definition hanzi_offset_cjk_unified_ideographs_extension_d : list N :=
  [268488; 268587; 268422; 268554; 268455; 268389; 268521; 268620].
(** HASH_CJK_UNIFIED_IDEOGRAPHS_EXTENSION_E, src/fonts/hanzi.rs:16791-16900 *)
Definition hanzi_hash_cjk_unified_ideographs_extension_e : list N :=
  [0x10a7fbb; 0x34cbcee; 0x68bccf9; 0x92b1300; 0x98a7fb0; 0x9d16f4c; 0x9ec31c3; 0xd713326;
   0xeae3801; 0x10309772; 0x108444c7; 0x17368b03; 0x175b647e; 0x1c540cd3; 0x1f1cdfc2; 0x20501d50;
   0x20de424f; 0x20e03a07; 0x2147bfbd; 0x277fdcc1; 0x2aafe084; 0x2c318130; 0x308be2ff; 0x31f046de;
   0x37808d74; 0x3be44cbd; 0x3c0282b8; 0x3dca8917; 0x3f25507d; 0x42e0be38; 0x42f9c9de; 0x43bfe0e7;
   0x47690663; 0x478ac439; 0x48f1f4b2; 0x4a328dfe; 0x4bf1b10f; 0x4ebc1a37; 0x4f680c05; 0x514bcbca;
   0x517b5307; 0x52c5864a; 0x5493e5f6; 0x5e3b28cf; 0x5fdf5b59; 0x60a3e1e1; 0x61854a9b; 0x627693cc;
   0x62e68019; 0x6434f6e4; 0x678e8176; 0x6846e790; 0x6c084c52; 0x7381c0b2; 0x76ef2abf; 0x77fefe9e;
   0x7a89fa01; 0x7b165929; 0x7e0634fa; 0x7fa248bc; 0x822818fd; 0x8266f2bd; 0x83e7e16a; 0x867e7f45;
   0x87ab9cbb; 0x88d56101; 0x892338f5; 0x8d155c78; 0x8fda2693; 0x93afb16d; 0x948bbc9e; 0x97ee3118;
   0x9bfb7980; 0x9c7ae09a; 0x9c9b91f1; 0x9f02f7f8; 0xa1671f36; 0xa20dc2de; 0xa4a297f0; 0xa72045af;
   0xab81a8e0; 0xac239987; 0xb57b2ad6; 0xb769e69f; 0xbba7cecc; 0xbbbab03a; 0xbdeebf93; 0xcf81da3a;
   0xcf94dd89; 0xd5700429; 0xd7bf3b7d; 0xd7e40665; 0xd9b1102c; 0xdc39f9a9; 0xdcb399b5; 0xdd3f9099;
   0xddb7b088; 0xde8f053f; 0xdfab2151; 0xe067752b; 0xe0b23c0a; 0xe5034edd; 0xe9b70980; 0xea0b9ab9;
   0xef0e11b5; 0xf1e691af; 0xf45053af; 0xfe8af67e].
(** OFFSET_CJK_UNIFIED_IDEOGRAPHS_EXTENSION_E, src/fonts/hanzi.rs:16903-17012 *)
Definition hanzi_offset_cjk_unified_ideographs_extension_e : list N :=
  [270534; 271326; 270633; 270072; 269082; 270336; 271227; 271161;
   271887; 271920; 270567; 272085; 268917; 268818; 271623; 270039;
   270171; 271392; 271656; 269346; 270732; 270930; 269214; 271128;
   270270; 269544; 272184; 268752; 269940; 270600; 272052; 270105;
   269808; 269742; 271062; 268686; 270303; 271458; 271821; 269841;
   271755; 272151; 271953; 268653; 271590; 269280; 270666; 271293;
   269115; 270402; 268950; 270435; 269907; 271194; 270996; 271425;
   269379; 269247; 269610; 269181; 270699; 270864; 268785; 270501;
   271788; 269709; 271491; 269676; 268983; 269577; 269511; 269973;
   269643; 269016; 272019; 271524; 271359; 270237; 271722; 271689;
   269313; 269478; 269148; 268884; 269445; 270765; 269049; 270831;
   271854; 271986; 270369; 269874; 269412; 270897; 270468; 271557;
   271260; 271095; 270204; 268719; 270798; 270006; 270963; 272118;
   271029; 270138; 269775; 268851].
(** DATA, src/fonts/hanzi.rs:17024-67287 *)
Definition hanzi_data : bigarr :=
  hanzi_data_group_0 ++ hanzi_data_group_1 ++ hanzi_data_group_2 ++ hanzi_data_group_3.
(** The arms of the match in get_blit_pattern_offset, src/fonts/hanzi.rs *)
Definition hanzi_blocks : list block :=
  [ Block 0x3000 0x303F [1]
         hanzi_hash_cjk_symbols_and_punctuation
         hanzi_offset_cjk_symbols_and_punctuation;
    Block 0x3400 0x4DBF [1]
         hanzi_hash_cjk_unified_ideographs_extension_a
         hanzi_offset_cjk_unified_ideographs_extension_a;
    Block 0x4E00 0x9FFF [1]
         hanzi_hash_cjk_unified_ideographs
         hanzi_offset_cjk_unified_ideographs;
    Block 0xFF00 0xFFEF [1]
         hanzi_hash_halfwidth_and_fullwidth_forms
         hanzi_offset_halfwidth_and_fullwidth_forms;
    Block 0x20000 0x2A6DF [1]
         hanzi_hash_cjk_unified_ideographs_extension_b
         hanzi_offset_cjk_unified_ideographs_extension_b;
    Block 0x2A700 0x2B73F [1]
         hanzi_hash_cjk_unified_ideographs_extension_c
         hanzi_offset_cjk_unified_ideographs_extension_c;
    Block 0x2B740 0x2B81F [1]
         hanzi_hash_cjk_unified_ideographs_extension_d
         hanzi_offset_cjk_unified_ideographs_extension_d;
    Block 0x2B820 0x2CEAF [1]
         hanzi_hash_cjk_unified_ideographs_extension_e
         hanzi_offset_cjk_unified_ideographs_extension_e ].
Definition hanzi_font : font := Font 32 0 hanzi_blocks hanzi_data.
