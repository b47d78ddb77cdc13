(** GENERATED by tools/gen_fonts.py from /repo/src/fonts/emoji.rs -- do not edit.
    MAX_HEIGHT, M3_SEED, match arms, HASH_* and OFFSET_* tables, DATA. *)
From Verif Require Import Prim FontDefs.
From Verif Require Import FontEmojiData0 FontEmojiData1.

(** HASH_BASIC_LATIN, src/fonts/emoji.rs:314-339 *)
Definition emoji_hash_basic_latin : list N :=
  [0x21a25536; 0x2c953d7d; 0x2e5cdde9; 0x300fb4bb; 0x442d27cc; 0x4e89e733; 0x5e761ba6; 0x65e47778;
   0x65e97307; 0x6b86a043; 0x73d6b0ed; 0x7bd04885; 0x7d608f08; 0x871d14a7; 0x87978481; 0x8e3fc1d4;
   0xb151dfb2; 0xb1a62590; 0xc966d1f9; 0xcdbe2ac2; 0xd77de6b9; 0xd845561e; 0xdbd85c8d; 0xe2af0060].
(** OFFSET_BASIC_LATIN, src/fonts/emoji.rs:342-367 *)
Definition emoji_offset_basic_latin : list N :=
  [90774; 91001; 90807; 91065; 91098; 90968; 90460; 85166;
   90904; 91001; 90460; 91033; 91065; 90710; 90807; 90936;
   90710; 90774; 91033; 85166; 90936; 91098; 90968; 90904].
(** HASH_LATIN_1_SUPPLEMENT, src/fonts/emoji.rs:380-385 *)
Definition emoji_hash_latin_1_supplement : list N :=
  [0x254fd66; 0x58292dae; 0xa7b0fe42; 0xaf8ba02b].
(** OFFSET_LATIN_1_SUPPLEMENT, src/fonts/emoji.rs:388-393 *)
Definition emoji_offset_latin_1_supplement : list N :=
  [91163; 91163; 91130; 91130].
(** HASH_GENERAL_PUNCTUATION, src/fonts/emoji.rs:406-411 *)
Definition emoji_hash_general_punctuation : list N :=
  [0x24f1ebaf; 0x552bc889; 0xd5f4b15f; 0xf1679268].
(** OFFSET_GENERAL_PUNCTUATION, src/fonts/emoji.rs:414-419 *)
Definition emoji_offset_general_punctuation : list N :=
  [84771; 84771; 84789; 84789].
(** HASH_LETTERLIKE_SYMBOLS, src/fonts/emoji.rs:432-437 *)
Definition emoji_hash_letterlike_symbols : list N :=
  [0x3576e554; 0x7bc3fac8; 0xa9620193; 0xb6f492ea].
(** OFFSET_LETTERLIKE_SYMBOLS, src/fonts/emoji.rs:440-445 *)
Definition emoji_offset_letterlike_symbols : list N :=
  [84814; 84831; 84831; 84814].
(** HASH_ARROWS, src/fonts/emoji.rs:458-475 *)
Definition emoji_hash_arrows : list N :=
  [0x3c35d48; 0x2419f05c; 0x2f4da40c; 0x3a987dc6; 0x43829e86; 0x4ae933e9; 0x657ad9c6; 0x6d5e0cb5;
   0x74de1fe4; 0x8ef51186; 0x979c67d2; 0x98b45cce; 0xb4afa17d; 0xe1af7cf5; 0xf5a0fd62; 0xf96fb401].
(** OFFSET_ARROWS, src/fonts/emoji.rs:478-495 *)
Definition emoji_offset_arrows : list N :=
  [84960; 84960; 85025; 85057; 84992; 84863; 84896; 85089;
   85057; 84863; 84928; 84896; 85089; 84992; 85025; 84928].
(** HASH_MISCELLANEOUS_TECHNICAL, src/fonts/emoji.rs:508-542 *)
Definition emoji_hash_miscellaneous_technical : list N :=
  [0x5ffbb41; 0x742dc77; 0x107cec26; 0x1826d1bf; 0x18e57d40; 0x1aec3df6; 0x1e2d2e37; 0x2191065a;
   0x251e18de; 0x2a606080; 0x42b0e5ef; 0x4653a615; 0x4bda9d51; 0x513a82c3; 0x5481bde7; 0x58f31be0;
   0x6dadb78a; 0x6ef490e4; 0x7ef4eccc; 0x820810a1; 0x916472c7; 0x9972bbff; 0xa34e555a; 0xb4d1b3fc;
   0xbdee6717; 0xc4fa38ee; 0xddb57eae; 0xe92351de; 0xea142549; 0xf1ee2dc4; 0xf44a5df2; 0xf99391dd;
   0xfbd75dff].
(** OFFSET_MISCELLANEOUS_TECHNICAL, src/fonts/emoji.rs:545-579 *)
Definition emoji_offset_miscellaneous_technical : list N :=
  [85283; 85250; 85583; 85444; 85380; 85315; 85347; 85380;
   85508; 85532; 85145; 85122; 85562; 85615; 85199; 85508;
   85122; 85199; 85444; 85647; 85476; 85412; 85532; 85583;
   85218; 85412; 85647; 85218; 85145; 85283; 85250; 85562;
   85615].
(** HASH_ENCLOSED_ALPHANUMERICS, src/fonts/emoji.rs:592-595 *)
Definition emoji_hash_enclosed_alphanumerics : list N :=
  [0xa932cde6; 0xd30e07eb].
(** OFFSET_ENCLOSED_ALPHANUMERICS, src/fonts/emoji.rs:598-601 *)
Definition emoji_offset_enclosed_alphanumerics : list N :=
  [85680; 85680].
(** HASH_GEOMETRIC_SHAPES, src/fonts/emoji.rs:614-631 *)
Definition emoji_hash_geometric_shapes : list N :=
  [0xa290cde; 0x22fe882b; 0x2613b7fd; 0x288ce80c; 0x2b31cab0; 0x32cb5539; 0x4249b073; 0x59bfdf0e;
   0x7204136b; 0x733d7805; 0x917fe2c9; 0xb06c9543; 0xb3cfa64b; 0xdd276182; 0xde0b54d9; 0xf7da77d8].
(** OFFSET_GEOMETRIC_SHAPES, src/fonts/emoji.rs:634-651 *)
Definition emoji_offset_geometric_shapes : list N :=
  [85812; 85712; 85835; 85712; 85725; 85812; 85847; 85789;
   85757; 85847; 85835; 85719; 85719; 85789; 85757; 85725].
(** HASH_MISCELLANEOUS_SYMBOLS, src/fonts/emoji.rs:664-857 *)
Definition emoji_hash_miscellaneous_symbols : list N :=
  [0xdabffb; 0x19074a9; 0x453680c; 0x49eb73c; 0x7ded234; 0x81328fe; 0x8a15256; 0xab62f62;
   0xce213c1; 0xd31771a; 0xd406eda; 0xe79c224; 0xe8e96a5; 0xe8f59d4; 0x11464cd9; 0x1535d349;
   0x180bd454; 0x19365be8; 0x19dbc035; 0x1a053817; 0x1acd926b; 0x1aef66df; 0x1b6d560f; 0x1d37309d;
   0x1d7d9665; 0x1e57d100; 0x20e540a7; 0x220b7eda; 0x22db83df; 0x23cb5440; 0x256c5577; 0x25e9b08d;
   0x2662906b; 0x28566b01; 0x2d6a9629; 0x2ef7af9f; 0x2f00a02e; 0x2f8d7d20; 0x2fbb35b5; 0x2fdc6877;
   0x30f9d089; 0x335820ec; 0x341351f4; 0x342e04c8; 0x3498c4c7; 0x359b63b2; 0x384ff018; 0x39369cc8;
   0x3b203ad1; 0x3c311140; 0x3e063c33; 0x41920016; 0x426eb217; 0x4310b4fb; 0x45ab6f01; 0x490b9cc9;
   0x498b82b1; 0x49d43f8d; 0x4ab30e35; 0x4b493fc9; 0x4ded6132; 0x4e1572b2; 0x4feab9c9; 0x509e6224;
   0x51cf8bd0; 0x5342a026; 0x538dbcdf; 0x55bb005b; 0x56223fa4; 0x588c3553; 0x5bed4f7a; 0x5c2565c4;
   0x5c99b5fb; 0x5d22a3f8; 0x5e185d8a; 0x5f9830e6; 0x5f9c0c87; 0x6003db14; 0x6011da1a; 0x62debe97;
   0x63fe4b66; 0x644ca8aa; 0x644e77fc; 0x647754e2; 0x64a8bb66; 0x6564fc8f; 0x657f1e1d; 0x65ab703e;
   0x66254dbf; 0x66b55cf6; 0x67519482; 0x6a164042; 0x6a5736de; 0x6e096bb9; 0x6f68eb3c; 0x707de4a5;
   0x72e9e50e; 0x7381ca02; 0x756e0492; 0x7662cd29; 0x77d7c01d; 0x7a25ad4d; 0x7a26563f; 0x7a9046ea;
   0x7c6dbafe; 0x7d28d2c2; 0x7d5dc873; 0x7e4e968b; 0x81419a4b; 0x8194783a; 0x847b2120; 0x84aa933c;
   0x84eee291; 0x85379b1c; 0x85474115; 0x857594a6; 0x875ac03c; 0x8782a879; 0x87e53b3c; 0x88534bab;
   0x89cfb7d1; 0x8da51e47; 0x8effb53e; 0x8fa9707f; 0x93da2d7b; 0x944b3d1d; 0x9a861156; 0xa02f5cf4;
   0xa02f80d9; 0xa0798c3d; 0xa130109b; 0xa1984dbb; 0xa3813050; 0xa3c7cec4; 0xa5634f62; 0xa78a577b;
   0xa80482d4; 0xaa4810e8; 0xacc7f28b; 0xad93fbc9; 0xae26b17e; 0xaea1e203; 0xb034e5a1; 0xb0870597;
   0xb360f8f2; 0xb4ce8eb9; 0xb60b995f; 0xb64d5b17; 0xb7b9fd11; 0xb8ce3eef; 0xb9b07da2; 0xb9bcdbbd;
   0xbdbd73da; 0xbde49e21; 0xc0c279a8; 0xc1481715; 0xc2d2122b; 0xc2dba5e4; 0xc9437250; 0xc958d381;
   0xc95ee816; 0xd4224855; 0xd839790a; 0xd8f1d25d; 0xda313115; 0xda5a6a75; 0xdcd03a68; 0xde7c9d32;
   0xde9ea5ce; 0xe0bac48f; 0xe32b1456; 0xe4001084; 0xe4fecdec; 0xe5efd4ad; 0xe649f528; 0xe724685c;
   0xe7d7e764; 0xe82856a4; 0xea9989f4; 0xee02c5a9; 0xee2149d4; 0xf02b99d5; 0xf3226416; 0xf5734a16;
   0xf599ec1e; 0xf6aeb049; 0xf7c1982e; 0xf8a0fd33; 0xf9215a69; 0xf9bfae55; 0xfa923457; 0xfd27913a].
(** OFFSET_MISCELLANEOUS_SYMBOLS, src/fonts/emoji.rs:860-1053 *)
Definition emoji_offset_miscellaneous_symbols : list N :=
  [86897; 88865; 86606; 86122; 86292; 87983; 86574; 86574;
   87272; 87574; 88040; 88160; 87074; 86447; 87148; 88491;
   87396; 86929; 88250; 87600; 88007; 87451; 87865; 86994;
   87074; 88980; 86383; 86000; 88951; 88223; 87124; 87396;
   86671; 88665; 85861; 87179; 86703; 88099; 87809; 86152;
   87747; 88894; 87207; 88520; 87865; 87483; 88578; 87421;
   86703; 86671; 86260; 85971; 87696; 87574; 85917; 86321;
   87239; 88607; 88160; 89029; 88464; 88923; 87725; 86090;
   87179; 87547; 87809; 89009; 86383; 86543; 86961; 87547;
   89009; 88250; 87779; 87515; 86767; 85861; 87101; 87747;
   86606; 86350; 86832; 86480; 87303; 87026; 86243; 86800;
   87957; 86188; 86638; 86122; 88007; 88464; 88190; 86350;
   88072; 86480; 87421; 87148; 87272; 86543; 86059; 87207;
   87332; 88404; 86000; 86026; 86735; 88808; 86292; 88722;
   86225; 88837; 87779; 86638; 88129; 86864; 85917; 86170;
   86897; 86961; 88636; 86735; 88693; 87836; 88190; 87364;
   86832; 87663; 87696; 86243; 88313; 86512; 87663; 86260;
   87303; 88072; 86512; 88373; 87124; 87332; 86767; 87047;
   86321; 85944; 86059; 86415; 88433; 88040; 86929; 85944;
   86800; 87483; 88129; 87026; 87895; 87725; 88433; 87451;
   88980; 87836; 87957; 87928; 87515; 87101; 89029; 86207;
   87364; 88751; 85893; 87239; 88779; 88342; 86447; 87047;
   87633; 86090; 87928; 88282; 86994; 86026; 88099; 88223;
   87633; 87983; 88549; 85893; 87600; 85971; 86864; 86415].
(** HASH_DINGBATS, src/fonts/emoji.rs:1066-1140 *)
Definition emoji_hash_dingbats : list N :=
  [0x4181ffc; 0xe875cc7; 0x109ebc40; 0x17f9c9ab; 0x1a9441de; 0x1b19f86e; 0x1c6efdfb; 0x204d7d85;
   0x23fe8ebf; 0x286d3a99; 0x31dc07da; 0x36d36653; 0x38285f4b; 0x3ad2566a; 0x45a9d2fb; 0x45bc8327;
   0x4d157850; 0x5158056b; 0x524be0ca; 0x5295740c; 0x55dc7b7b; 0x57a47d40; 0x5812af50; 0x586e7038;
   0x5976795b; 0x59965594; 0x5a519342; 0x5d07c888; 0x5f26e742; 0x5f42a849; 0x63980999; 0x63c69f4f;
   0x71094db8; 0x721d11be; 0x744944fa; 0x7824d43c; 0x7c8d115f; 0x84f2111c; 0x87ee6db7; 0x8874687a;
   0x89664416; 0x8b7331c3; 0x8fd63ee5; 0x9685c150; 0xa042efee; 0xa3ae57e5; 0xa505dbb7; 0xa54b4c65;
   0xa67aca73; 0xa72843f0; 0xaa4c48c2; 0xaff41609; 0xb123411b; 0xbad67c65; 0xbd89443d; 0xc2753e20;
   0xc661fe43; 0xc7b8a9db; 0xca6453fb; 0xd34b76fe; 0xd4396e04; 0xd526ed06; 0xd71169c8; 0xd7a04279;
   0xe00ce8bc; 0xe8d25baf; 0xedc7da36; 0xf30cf33f; 0xf5ca4e86; 0xf7d94d8c; 0xf885d953; 0xfac8ce7d;
   0xfe6f3735].
(** OFFSET_DINGBATS, src/fonts/emoji.rs:1143-1217 *)
Definition emoji_offset_dingbats : list N :=
  [90345; 89596; 89411; 89578; 89519; 90255; 89981; 89501;
   89539; 89196; 89578; 89870; 90191; 89116; 90035; 89838;
   89145; 89957; 90312; 90226; 89386; 89463; 89485; 89745;
   90064; 89145; 89341; 90156; 89655; 89253; 89625; 89776;
   89056; 89558; 90226; 90281; 89745; 89056; 90013; 90156;
   90096; 89806; 90124; 90288; 90196; 90035; 89282; 89363;
   89925; 90064; 89715; 90013; 89925; 89084; 89893; 90312;
   90370; 89838; 90175; 89776; 89870; 89116; 89437; 89806;
   90196; 89313; 89168; 89225; 90203; 89893; 89981; 89686;
   90203].
(** HASH_SUPPLEMENTAL_ARROWS_B, src/fonts/emoji.rs:1230-1235 *)
Definition emoji_hash_supplemental_arrows_b : list N :=
  [0x9a705aea; 0xaa137d17; 0xbaa3370f; 0xce796779].
(** OFFSET_SUPPLEMENTAL_ARROWS_B, src/fonts/emoji.rs:1238-1243 *)
Definition emoji_offset_supplemental_arrows_b : list N :=
  [90428; 90395; 90428; 90395].
(** HASH_MISCELLANEOUS_SYMBOLS_AND_ARROWS, src/fonts/emoji.rs:1256-1271 *)
Definition emoji_hash_miscellaneous_symbols_and_arrows : list N :=
  [0x3354678; 0x67b8e222; 0x6a74875d; 0x7427c97f; 0x7b9eafd0; 0x806b8cad; 0x94c27713; 0xa343bfdc;
   0xa50ce5f7; 0xb203557e; 0xceb297d1; 0xd65a4415; 0xe8b4eefd; 0xfeda4295].
(** OFFSET_MISCELLANEOUS_SYMBOLS_AND_ARROWS, src/fonts/emoji.rs:1274-1289 *)
Definition emoji_offset_miscellaneous_symbols_and_arrows : list N :=
  [90525; 90589; 90557; 90677; 90525; 90492; 90589; 90557;
   90677; 90622; 90622; 90492; 90650; 90650].
(** HASH_CJK_SYMBOLS_AND_PUNCTUATION, src/fonts/emoji.rs:1302-1307 *)
Definition emoji_hash_cjk_symbols_and_punctuation : list N :=
  [0x8237e8ac; 0xb2cc2921; 0xb69c75ca; 0xcd2bc3cf].
(** OFFSET_CJK_SYMBOLS_AND_PUNCTUATION, src/fonts/emoji.rs:1310-1315 *)
Definition emoji_offset_cjk_symbols_and_punctuation : list N :=
  [90742; 90742; 90752; 90752].
(** HASH_ENCLOSED_CJK_LETTERS_AND_MONTHS, src/fonts/emoji.rs:1328-1333 *)
Definition emoji_hash_enclosed_cjk_letters_and_months : list N :=
  [0x47b35ce1; 0x764c4e31; 0x76ee2eb1; 0xfd600e5e].
(** OFFSET_ENCLOSED_CJK_LETTERS_AND_MONTHS, src/fonts/emoji.rs:1336-1341 *)
Definition emoji_offset_enclosed_cjk_letters_and_months : list N :=
  [90839; 90839; 90871; 90871].
(** HASH_PRIVATE_USE_AREA, src/fonts/emoji.rs:1354-1356 *)
Definition emoji_hash_private_use_area : list N :=
  [0xd1a64133].
(** OFFSET_PRIVATE_USE_AREA, src/fonts/emoji.rs:1359-1361 *)
Definition emoji_offset_private_use_area : list N :=
  [91196].
(** HASH_MAHJONG_TILES, src/fonts/emoji.rs:1374-1377 *)
Definition emoji_hash_mahjong_tiles : list N :=
  [0x3a370578; 0x81cb1e6b].
(** OFFSET_MAHJONG_TILES, src/fonts/emoji.rs:1380-1383 *)
Definition emoji_offset_mahjong_tiles : list N :=
  [0; 0].
(** HASH_PLAYING_CARDS, src/fonts/emoji.rs:1396-1398 *)
Definition emoji_hash_playing_cards : list N :=
  [0x77dd1d57].
(** OFFSET_PLAYING_CARDS, src/fonts/emoji.rs:1401-1403 *)
Definition emoji_offset_playing_cards : list N :=
  [24].
(** HASH_ENCLOSED_ALPHANUMERIC_SUPPLEMENT, src/fonts/emoji.rs:1416-1720 *)
Definition emoji_hash_enclosed_alphanumeric_supplement : list N :=
  [0xfbb95e; 0x2ada3e8; 0x35fae53; 0x4384eda; 0x50c21f9; 0x5180d21; 0x5503199; 0x5763cb6;
   0x60c81f7; 0x690ab29; 0x7990aa4; 0x7bb680d; 0x7bf0ce3; 0x883f72b; 0xa0e5492; 0xb07dbf2;
   0xb2f3dff; 0xf48ef4a; 0x1008fe8f; 0x101b8370; 0x14887a08; 0x156ad024; 0x16645f44; 0x17089d71;
   0x174aa3c3; 0x174ada0b; 0x17dc746c; 0x180a49a2; 0x180fa3f6; 0x18ba5298; 0x1bb203c6; 0x1bd95d45;
   0x1c5adc26; 0x1c61def8; 0x1c862c95; 0x20647523; 0x209baf87; 0x20dd6577; 0x20e3d01a; 0x216028aa;
   0x253b7957; 0x28e9a3d7; 0x2949e54b; 0x2a9ab352; 0x2af35660; 0x2d9f0d8d; 0x2f5963c4; 0x30e9c47d;
   0x329bf210; 0x32b8b643; 0x32cc08df; 0x33fe35c3; 0x3474c037; 0x34ce6525; 0x35186cf8; 0x35303487;
   0x35c0603a; 0x35c8471e; 0x35f886a5; 0x3802528e; 0x38a7fd98; 0x39c88b82; 0x39e23be6; 0x3a4ac730;
   0x3b8d37c6; 0x3b9630c1; 0x3cd11c00; 0x3e14065f; 0x3e85de72; 0x3ebc9948; 0x3f0ccb0f; 0x3f2aa19b;
   0x41480919; 0x426c9bbe; 0x46f3e4d9; 0x4714606b; 0x481bbfda; 0x482494c1; 0x4862eaff; 0x4a824893;
   0x4b5e89cd; 0x4c2c1689; 0x4c346f8b; 0x4c907239; 0x4ce3e753; 0x4e860b40; 0x4ecddc15; 0x4f2b8aee;
   0x4f427609; 0x4fa30078; 0x4fa55e73; 0x50ab7fd3; 0x51a503d3; 0x5210d971; 0x5349d4f5; 0x54c1614a;
   0x55a4546a; 0x56f59cf4; 0x57a0c1da; 0x586dd1c9; 0x5c22b0d6; 0x5cbaab36; 0x5cead120; 0x5d46c885;
   0x5d9eaa7a; 0x5e0ab9c5; 0x5e4f1e18; 0x5fe0c557; 0x607b74ac; 0x619f406e; 0x61d6955e; 0x62b0e591;
   0x641bf059; 0x651b69b1; 0x65b6dc1a; 0x667f209a; 0x66b229ba; 0x68558edc; 0x687d4c2c; 0x699bff57;
   0x6ac91278; 0x6b41d960; 0x6de6d7a9; 0x6f0f854d; 0x722d6085; 0x72df756e; 0x73962828; 0x73fd64f2;
   0x7527e798; 0x754b70c6; 0x7594a8b3; 0x76457ccb; 0x767d1db0; 0x76f8c690; 0x77d99531; 0x78724695;
   0x78c64b9f; 0x78e78bbd; 0x7947e7a7; 0x7ab52289; 0x7b3ebc85; 0x7ba9131a; 0x7bc12faf; 0x7c5d5cd2;
   0x7c935027; 0x7d0d6e23; 0x7dbfd116; 0x7e18717e; 0x7fc5a885; 0x821fae0c; 0x8367262f; 0x836affc9;
   0x84a3c389; 0x85c98843; 0x876ab5b3; 0x891c3045; 0x8a019da7; 0x8a30f399; 0x8b66b4e3; 0x8bfeff7c;
   0x8cfb9454; 0x8d7f5fef; 0x8db659cc; 0x8e0547bd; 0x8f96c2bf; 0x90030baf; 0x9009a14b; 0x900c3ebe;
   0x91f7008b; 0x92a06da5; 0x9309962b; 0x937ecd18; 0x93f1971d; 0x93f969b6; 0x93ff90a9; 0x942ac000;
   0x949316d2; 0x949c04f2; 0x94e4109b; 0x9558fbcb; 0x96f10385; 0x9738551b; 0x9a2e2bc4; 0x9a3d9038;
   0x9a637900; 0x9a709c18; 0x9b0319c6; 0x9c40cd81; 0x9cf41a5c; 0x9eaac803; 0x9fab91bf; 0xa02752df;
   0xa17f57a5; 0xa1b08414; 0xa38b1ca2; 0xa420dbc6; 0xa46cf1da; 0xa4e62682; 0xa50d8205; 0xa5a860a2;
   0xa66d293b; 0xa670102e; 0xa8fb2558; 0xa9f1f5fd; 0xac3cc29a; 0xac5a05c7; 0xac7df596; 0xace47bd3;
   0xad838d75; 0xadc90c7e; 0xadfe5179; 0xaf52a6a3; 0xaf5f0274; 0xaf9184bc; 0xb1d516b0; 0xb2241776;
   0xb2d0f5b2; 0xb38bcb63; 0xb57d5047; 0xb63d5439; 0xb66063fa; 0xb74444bc; 0xb88990f3; 0xb8b1af13;
   0xb9268b8c; 0xb9635b0f; 0xbbd05c00; 0xbc5d0e8c; 0xbcb5db80; 0xbd33d7a0; 0xc03fc22c; 0xc0496bb9;
   0xc2a40b1c; 0xc40173ab; 0xc6193325; 0xc8fa9e1f; 0xc995b23f; 0xca1b9039; 0xca563bf6; 0xcc935b38;
   0xce62f457; 0xd065316a; 0xd0892322; 0xd0b3b135; 0xd0d78ea4; 0xd3ac6adb; 0xd3bf3db8; 0xd5b3b23d;
   0xd5cf99d1; 0xd608ce83; 0xd682b03f; 0xd6b8c988; 0xd75de4a4; 0xd92dd430; 0xd9f3d9d8; 0xda7090ea;
   0xda90ae13; 0xdc2bf5fd; 0xde33fe2b; 0xdf3ea443; 0xe145158e; 0xe147a39e; 0xe26a65d7; 0xe26f7568;
   0xe35fd9c0; 0xe3fc0ca3; 0xe43534da; 0xe4dadeab; 0xe4f38baa; 0xe4fbd644; 0xe5c2d3d1; 0xe611e2ae;
   0xe719dc90; 0xe7a9f677; 0xe9a688a2; 0xe9cb5413; 0xeb01b276; 0xeb26dde5; 0xed296355; 0xede7a415;
   0xef0f0b99; 0xef142420; 0xef566ffb; 0xefa1e010; 0xf2e18c1d; 0xf3714be4; 0xf42c6dca; 0xf442e6e4;
   0xf50e88c8; 0xf5dddb26; 0xf6ec2e32; 0xf73ff4d9; 0xf81c3375; 0xf84b6ded; 0xf8665c15; 0xfaca2392;
   0xfb25c1b8; 0xfb678608; 0xfbbc0c75; 0xfbc7b18d; 0xfc49ec46; 0xfc64b5e6; 0xfd5f5383].
(** OFFSET_ENCLOSED_ALPHANUMERIC_SUPPLEMENT, src/fonts/emoji.rs:1723-2027 *)
Definition emoji_offset_enclosed_alphanumeric_supplement : list N :=
  [4498; 2334; 6402; 1282; 5289; 5153; 3721; 4720;
   4596; 5964; 725; 1448; 5865; 818; 4523; 6522;
   865; 4448; 4620; 6964; 1353; 4040; 3864; 5020;
   6594; 1668; 5361; 1329; 1045; 1932; 6297; 533;
   6713; 4996; 178; 4252; 3193; 2925; 1142; 1716;
   2949; 4645; 48; 2383; 4111; 1167; 2560; 4843;
   7260; 2854; 5760; 3121; 3983; 4473; 7180; 242;
   372; 1424; 1117; 145; 2712; 6914; 2760; 6784;
   2784; 5552; 5575; 1400; 5209; 6106; 1860; 1236;
   6665; 48; 7084; 145; 6249; 7109; 7316; 339;
   5713; 7501; 6059; 5656; 2309; 469; 5457; 5105;
   3511; 4016; 1211; 6129; 3665; 6890; 1305; 6273;
   7453; 605; 6450; 3536; 2736; 5505; 3641; 1836;
   7373; 1094; 5177; 6035; 6426; 3369; 2284; 2239;
   995; 1812; 2011; 4331; 3617; 4134; 3487; 1788;
   3145; 5528; 1070; 501; 2831; 2608; 6012; 4972;
   5044; 6345; 1764; 1884; 7155; 6988; 113; 1020;
   4867; 2034; 4744; 6840; 2901; 6498; 5129; 7060;
   5068; 3463; 5840; 678; 4424; 2536; 7212; 4670;
   275; 6865; 2106; 3911; 841; 4900; 970; 1376;
   1577; 2488; 7236; 2214; 654; 5385; 2688; 5433;
   4181; 4205; 3688; 7130; 7477; 6760; 436; 6082;
   1191; 2808; 1257; 2464; 3241; 6474; 7349; 6177;
   5092; 6689; 1955; 795; 7036; 6617; 2640; 5915;
   4572; 6378; 3066; 557; 3415; 581; 1692; 113;
   3266; 4924; 7429; 2358; 81; 4400; 6641; 7396;
   6201; 4307; 6225; 7021; 4547; 5631; 3840; 3935;
   4354; 2432; 2664; 6939; 5807; 5987; 5599; 5738;
   772; 4819; 2156; 5233; 6153; 3593; 3019; 3345;
   4228; 3745; 4064; 1529; 3769; 81; 4948; 5265;
   3793; 3959; 7292; 2131; 937; 5337; 307; 630;
   3322; 4087; 3888; 4377; 2996; 5783; 3390; 702;
   1979; 1601; 2512; 1553; 5409; 6321; 2181; 6570;
   3561; 5890; 1472; 913; 6546; 2972; 2081; 2584;
   3169; 1740; 4794; 3042; 2057; 5940; 4695; 210;
   3217; 749; 4769; 2262; 3439; 1644; 3298; 2407;
   4158; 5313; 6736; 3817; 1505; 4275; 404; 3089;
   5481; 1908; 1625; 5689; 2877; 6816; 888].
(** HASH_ENCLOSED_IDEOGRAPHIC_SUPPLEMENT, src/fonts/emoji.rs:2040-2060 *)
Definition emoji_hash_enclosed_ideographic_supplement : list N :=
  [0xbc20a8b; 0x192420be; 0x1eb97748; 0x219b8158; 0x22f2c711; 0x239fe46b; 0x25d7cec0; 0x27d9e894;
   0x5b322693; 0x71915627; 0x745142b4; 0x8d3e776e; 0x994f65fe; 0x99d94565; 0xb0118acf; 0xc3070155;
   0xcecab0f4; 0xd9f09a7a; 0xf9906f07].
(** OFFSET_ENCLOSED_IDEOGRAPHIC_SUPPLEMENT, src/fonts/emoji.rs:2063-2083 *)
Definition emoji_offset_enclosed_ideographic_supplement : list N :=
  [7598; 7565; 7791; 7630; 7759; 7598; 7952; 7984;
   7920; 7823; 7727; 7823; 7855; 7533; 7630; 7565;
   7887; 7662; 7694].
(** HASH_MISCELLANEOUS_SYMBOLS_AND_PICTOGRAPHS, src/fonts/emoji.rs:2096-3745 *)
Definition emoji_hash_miscellaneous_symbols_and_pictographs : list N :=
  [0x6f2752; 0xc3c87b; 0x10ee9be; 0x1153be8; 0x145b999; 0x16d38c5; 0x1ac2b76; 0x24a9758;
   0x2a46644; 0x2ab7a02; 0x2b67308; 0x2bea08a; 0x2d0da94; 0x2d5a37e; 0x2e3e6ab; 0x2f2eae5;
   0x32782c6; 0x32a5fa7; 0x34d295b; 0x35278da; 0x36d95a6; 0x3f11c8a; 0x3f761b4; 0x3fecb9b;
   0x4808c7f; 0x4b2a4f4; 0x4d6f257; 0x50870a8; 0x50a3b44; 0x53bf508; 0x5538282; 0x5a810a1;
   0x5ad34bb; 0x5d238e2; 0x5fb9b2a; 0x60c7a3e; 0x62bc481; 0x637a6bc; 0x6405bbc; 0x646a493;
   0x687018c; 0x69f7203; 0x6c3bfe1; 0x6d7fe65; 0x6ff4610; 0x7445e97; 0x745abee; 0x75180b7;
   0x773da7b; 0x7b49df9; 0x7c5e300; 0x7cd7f78; 0x7f21f63; 0x81648b1; 0x834453c; 0x85581f3;
   0x869b5cc; 0x8cf9624; 0x8d91534; 0x8dd22d1; 0x912db2f; 0x95787d4; 0x95a54d9; 0x96ba949;
   0x976ac78; 0x979e625; 0x9b7f2ba; 0x9cdc7bb; 0x9dbb848; 0x9fd18bf; 0xa107c3a; 0xa5a2b48;
   0xa69e0f7; 0xa8ed127; 0xa9e0875; 0xaa45491; 0xb0be3be; 0xb1cb585; 0xb4e1949; 0xb7d0ace;
   0xbd0bf23; 0xbf99526; 0xbfa6384; 0xc025d01; 0xc09803e; 0xc1d7718; 0xc29be00; 0xcb9dad4;
   0xce71c77; 0xd27ff2b; 0xd3cadb4; 0xd85ec24; 0xd96a9dd; 0xddc8c14; 0xdf9b2b6; 0xe1ac7d7;
   0xe2ef45d; 0xe379971; 0xe408bc2; 0xe409bb1; 0xe727eb8; 0xe7641b6; 0xeb4d997; 0xede6e47;
   0xf36e9ba; 0xf5af62a; 0xf748659; 0xfc2575a; 0x105d99e0; 0x107b5b3a; 0x109026d4; 0x10fefee2;
   0x1109456b; 0x1125bd4d; 0x1140c9d7; 0x114a9770; 0x11be7d85; 0x11d6dbe6; 0x11fceb06; 0x121a1c9d;
   0x121ec9e9; 0x12291dd0; 0x1234cd81; 0x12433895; 0x126ef4bf; 0x126f620c; 0x12dd10ea; 0x12f673a6;
   0x12fddc36; 0x13520fdf; 0x135b2a91; 0x1385f386; 0x138f792c; 0x139ce612; 0x13c0a884; 0x14130f22;
   0x1453c757; 0x1474aa1b; 0x148a2717; 0x148f225f; 0x14c4a6f5; 0x14e5e623; 0x14fa6b13; 0x15116aa4;
   0x152fa47e; 0x155d0cc8; 0x156996d1; 0x158d8511; 0x1599ce77; 0x15ca5093; 0x15f22037; 0x1633a5dd;
   0x1638330b; 0x16416c17; 0x16a4c7b1; 0x16f209cc; 0x17780dfa; 0x179f0394; 0x17b0fb1c; 0x17b6ef8c;
   0x17bc8048; 0x17fd1ff7; 0x1807183a; 0x18421379; 0x1871ed0c; 0x18bc72a8; 0x18d4abb6; 0x18e48985;
   0x1911c57e; 0x193f3226; 0x19d34663; 0x1a3a29dc; 0x1a43fc08; 0x1a54d2f8; 0x1a695053; 0x1a6bbbe8;
   0x1a7f3d36; 0x1ab32f25; 0x1aba6a06; 0x1ac7c5f5; 0x1b44223a; 0x1b649e5c; 0x1b84097d; 0x1b97d4d3;
   0x1b9fa314; 0x1ba2ebe1; 0x1baa3573; 0x1bc2a154; 0x1bc323cc; 0x1beabdb6; 0x1c1603ed; 0x1c1ae208;
   0x1c2c4e30; 0x1c8a66d9; 0x1c99e7be; 0x1cb2f060; 0x1cc08ec7; 0x1cde8273; 0x1ce611f5; 0x1d63f0b4;
   0x1da54475; 0x1dbfad7b; 0x1dcdfa8c; 0x1e6f86b0; 0x1ea33e89; 0x1ea69e6d; 0x1ea7c208; 0x1eba85b7;
   0x1ef7c13a; 0x1f075f25; 0x1f131ccd; 0x1f1b2fab; 0x1f28e41b; 0x1f3db05f; 0x1f4fdf22; 0x1f6765c2;
   0x1f724509; 0x1f88e31f; 0x1ff7f561; 0x201cb05d; 0x203c0d09; 0x2042217d; 0x2045d7a2; 0x20512a6e;
   0x2079f43b; 0x20837b06; 0x208f083f; 0x20ab8346; 0x20bd6857; 0x20e22b10; 0x218ea315; 0x21e2665c;
   0x21f07b5f; 0x220c36a7; 0x2241e54f; 0x224a4937; 0x225bd0af; 0x225ce3fe; 0x22725657; 0x228bea4d;
   0x22b8196a; 0x22c0f1c6; 0x22c84d0c; 0x2349c1c1; 0x235e36f8; 0x237d4a94; 0x237e610b; 0x238aee1b;
   0x23b20675; 0x23d74ff5; 0x2406ebcc; 0x245c6410; 0x24a5df1d; 0x24bdc400; 0x24c8d44c; 0x24eacf48;
   0x2506707e; 0x25699409; 0x257299ce; 0x257b3c23; 0x25a12e93; 0x266c8dab; 0x26718a6b; 0x26ed817c;
   0x26edb6c8; 0x2706ff16; 0x27956b93; 0x28065bb6; 0x281aa90b; 0x28376efd; 0x285ada3f; 0x286729bb;
   0x28b53963; 0x28d2e73f; 0x290d486b; 0x2921c841; 0x2923325e; 0x29736454; 0x297ed329; 0x29a72643;
   0x29b352a9; 0x29c36de9; 0x29d00126; 0x2a3cf978; 0x2a544168; 0x2a72faeb; 0x2a8443f7; 0x2ab245f4;
   0x2ac6c788; 0x2b1ad89f; 0x2b1f5d9d; 0x2b33a95c; 0x2b673868; 0x2b730543; 0x2b8846c6; 0x2be7a655;
   0x2c1af39d; 0x2c221f4b; 0x2c5ac143; 0x2c80fce2; 0x2c8a57bf; 0x2c8c17c5; 0x2caa8e4f; 0x2d1e41ce;
   0x2d32d9a2; 0x2d344d27; 0x2d5affbd; 0x2e1a28f7; 0x2e446665; 0x2e5dd8c9; 0x2e6fb323; 0x2e7f74e3;
   0x2e9dfa85; 0x2ebc8273; 0x2ed60680; 0x2f49d7cc; 0x2f9bfcce; 0x30251f19; 0x305c6d51; 0x308ce13b;
   0x3097db82; 0x30a58d63; 0x30bd149e; 0x312bcbd8; 0x312d1b5d; 0x31322a1e; 0x313b6e54; 0x31657e84;
   0x3191e391; 0x31a19781; 0x31b0ea3e; 0x31c3ff97; 0x31c45890; 0x3223464b; 0x329bc076; 0x32a1cd90;
   0x32af87c2; 0x32c59fa2; 0x32cea7f5; 0x330ae8b8; 0x3316b569; 0x33c3d284; 0x344d57e1; 0x34a210fd;
   0x34ae08d5; 0x351ee6e6; 0x354ceeff; 0x3553e91e; 0x3632bfc7; 0x3639b7c1; 0x366c11bf; 0x36864986;
   0x36a8c572; 0x36cc16d3; 0x36de7d96; 0x374f73d7; 0x376f32d8; 0x37a33f6c; 0x37e2d379; 0x37e50c9d;
   0x385a676b; 0x3888a6ca; 0x394e7d19; 0x39601d09; 0x39dbf5a5; 0x3a0cca46; 0x3a13104e; 0x3a4e584b;
   0x3a509f6b; 0x3aabb7b3; 0x3ac69857; 0x3b539297; 0x3b620672; 0x3b7a1d9c; 0x3b996c6b; 0x3b9b8761;
   0x3baad888; 0x3bb89950; 0x3bd7e03a; 0x3bfffc1e; 0x3c63da72; 0x3c7238ff; 0x3c834934; 0x3c9570fe;
   0x3c9e9c0d; 0x3ca5c2a0; 0x3cf5ef0b; 0x3d134be8; 0x3d15043b; 0x3d235c48; 0x3d3ca2f7; 0x3d4e02f2;
   0x3d6b02ed; 0x3d88f2bb; 0x3d972dca; 0x3db3b992; 0x3dd4d19e; 0x3e1e8edc; 0x3ed3a2f9; 0x3ed3f415;
   0x3eff95d2; 0x3f109c76; 0x3f26bc30; 0x3fd18fc5; 0x3fdc0ef1; 0x3ffc208f; 0x400652a3; 0x4083d9dd;
   0x4088f0e3; 0x40b329ec; 0x40d0eda0; 0x410019ff; 0x411c6ab6; 0x4240aaa2; 0x425fd789; 0x42838f3b;
   0x429cf05a; 0x42b47299; 0x42e5fb08; 0x42eba7b5; 0x4326ae44; 0x434955e8; 0x435194d7; 0x4353e59a;
   0x436660a2; 0x43805db8; 0x43c29bb6; 0x43edd463; 0x43f795aa; 0x444e747d; 0x44632f1b; 0x447e33f9;
   0x4483d259; 0x44910fbe; 0x44a37ef2; 0x4505012f; 0x45236216; 0x4584d508; 0x45ef395c; 0x45f33d87;
   0x45f5dc59; 0x45fed4ce; 0x4607fd38; 0x462781ce; 0x4677cdb7; 0x46f96104; 0x4707474f; 0x4730010d;
   0x4733374e; 0x473cda5d; 0x47519bba; 0x47a69603; 0x47a8eeb9; 0x481c52f8; 0x4851a95e; 0x48532da3;
   0x48844286; 0x489aed87; 0x48aff9a9; 0x48cb6817; 0x48e22126; 0x4921c875; 0x4932e325; 0x4962eee7;
   0x499002c7; 0x4998b3dd; 0x4999fdc0; 0x49ad3e68; 0x49de00e7; 0x49e88260; 0x49ebc818; 0x49f2012d;
   0x4a07b1df; 0x4a1f2703; 0x4a27a22b; 0x4a6c07d8; 0x4a6f91ed; 0x4a9be8e5; 0x4a9f6657; 0x4ab9cbb7;
   0x4b33c9a9; 0x4b343e76; 0x4b60bfe6; 0x4ba36b7f; 0x4c29a833; 0x4c7b471a; 0x4ca15b05; 0x4caef25d;
   0x4cccc36b; 0x4cd98885; 0x4cded7cd; 0x4ce60757; 0x4d21a222; 0x4d6a12f6; 0x4d73fae9; 0x4e06cd0f;
   0x4e5de601; 0x4e99e7f0; 0x4eaf2f60; 0x4eb274de; 0x4f254111; 0x4f2d9915; 0x4f2e693d; 0x4f4b337a;
   0x4f61359b; 0x4f8febce; 0x4f9347d1; 0x4f9b44b9; 0x4fba357e; 0x50168005; 0x502020f7; 0x509b3efd;
   0x50c21928; 0x50d164c0; 0x50d1b527; 0x511cde79; 0x5147787d; 0x51575488; 0x517154a4; 0x517f7219;
   0x51e3d7d6; 0x52189ff0; 0x522c2710; 0x522c9a7b; 0x523847d2; 0x52428a18; 0x52452060; 0x52671d9e;
   0x527b5aa6; 0x52af6ff9; 0x52b8fc2d; 0x52c4e133; 0x52c5e02a; 0x52ce25f0; 0x532b3539; 0x536087b8;
   0x5365da29; 0x536df385; 0x537b5f0b; 0x5384d793; 0x5435133a; 0x548ad4a4; 0x54f387e4; 0x5511789f;
   0x552d7e1d; 0x553227ba; 0x555d350e; 0x55662bfa; 0x556a10ca; 0x55a840a6; 0x55df9fb3; 0x55ef37cb;
   0x5615e985; 0x561c7bb1; 0x568dc07c; 0x568e62e8; 0x56b1ceae; 0x56cd0454; 0x5708788c; 0x571e1f41;
   0x5731d21e; 0x5766b00a; 0x577ae286; 0x57819fba; 0x57b3cf02; 0x57cacdb2; 0x57f379d5; 0x580e90f6;
   0x581885e6; 0x586d09f4; 0x58808b06; 0x5891feb1; 0x58cb3876; 0x58fc4350; 0x590598f8; 0x591ac8c3;
   0x591ccab0; 0x5955e6bf; 0x599cc1e0; 0x59b6c3ef; 0x5a008312; 0x5a3753b9; 0x5a5b9cce; 0x5aea2009;
   0x5b18f4b6; 0x5b37c5d5; 0x5c1c512b; 0x5c4a9eb0; 0x5c88d744; 0x5c97bcc0; 0x5cc64810; 0x5cd03927;
   0x5cd1f455; 0x5cf5c72b; 0x5cff026e; 0x5d1b0c0b; 0x5d8a8b57; 0x5d940c78; 0x5d956116; 0x5dafbd8e;
   0x5dbe5184; 0x5dd7e523; 0x5dfc7489; 0x5e0ea225; 0x5e130852; 0x5e3b4246; 0x5e4c2a85; 0x5e79e673;
   0x5e9b1eca; 0x5ed4e79b; 0x5ef49069; 0x5f2f7865; 0x5f3b26d7; 0x5f46a472; 0x5f6f4b02; 0x5f724687;
   0x5f846932; 0x5f90a7ce; 0x5f94b790; 0x5f9c9078; 0x5fb24b5f; 0x5fc72a95; 0x5fd02dc4; 0x60160dd6;
   0x6028d968; 0x6043ef14; 0x6071e1a8; 0x60bc4c83; 0x61132908; 0x6114970e; 0x61158060; 0x611604d6;
   0x6156df7f; 0x616981f0; 0x61a360a8; 0x61c0c5ab; 0x61eb21d3; 0x61fcdab0; 0x624a85f2; 0x629e32ed;
   0x62b695cf; 0x62b85bf0; 0x62ba37e8; 0x62be039e; 0x62c8afa8; 0x6326e194; 0x6331534e; 0x633e5774;
   0x63d6bfa7; 0x63ec664e; 0x6410c099; 0x6416046d; 0x645545c1; 0x6467ff9c; 0x646c9260; 0x6482b385;
   0x649ca150; 0x64af77c1; 0x64b519f4; 0x64c4b920; 0x64d04bec; 0x64eaa1cd; 0x64f5dd10; 0x64fc3521;
   0x65c0f5c0; 0x65e83dce; 0x6621833d; 0x6679f41e; 0x66ccb18c; 0x66cefc04; 0x66d3a315; 0x67056bfc;
   0x67eb803d; 0x67ec7147; 0x67f6e206; 0x680306d2; 0x6818145e; 0x68227ef0; 0x6879c431; 0x68b58bf0;
   0x68c4b77e; 0x68fbb44d; 0x68fd923c; 0x696942c7; 0x699675ab; 0x69b30183; 0x69eea78a; 0x69f44257;
   0x6a3c8fc2; 0x6a40b944; 0x6accdbc9; 0x6afc7924; 0x6b0bf181; 0x6b1e149e; 0x6b60a1e8; 0x6b6a3499;
   0x6b81899a; 0x6b8c8b8c; 0x6b9b273f; 0x6ba9abee; 0x6bb93823; 0x6bbd156d; 0x6bbdb762; 0x6bc7c518;
   0x6bccfb6f; 0x6bcd5f9f; 0x6bd64778; 0x6c0164b4; 0x6c1a185f; 0x6c21e173; 0x6c3346d6; 0x6c69c700;
   0x6cb7bd10; 0x6d57f7aa; 0x6d5b747c; 0x6d71e490; 0x6d724d7d; 0x6d9fbb05; 0x6dba39db; 0x6dce077d;
   0x6e0759d1; 0x6e3d55b7; 0x6ea5828a; 0x6ea646b5; 0x6ef5f228; 0x6efe2192; 0x6f609a5f; 0x6f6a595e;
   0x6f8cfcc2; 0x6f950088; 0x6f96f6c3; 0x6fecf248; 0x7020162f; 0x70552a66; 0x70629768; 0x706776fc;
   0x7076d0c9; 0x70d05a0d; 0x70e2223d; 0x70f7e0ad; 0x7104b0f8; 0x71116e77; 0x711ee63e; 0x713b31f4;
   0x714d1f2e; 0x7151a328; 0x71a2cd15; 0x71ac9fa3; 0x71aefe27; 0x71b7a7ee; 0x71d3674f; 0x71da2db3;
   0x71e0681e; 0x71f55b97; 0x7207a29d; 0x720f7dc8; 0x72518a74; 0x728e55e0; 0x729c27b3; 0x72b9e678;
   0x730501b9; 0x732a8ab9; 0x73368e33; 0x7347f158; 0x73592561; 0x7363dee0; 0x7370eb21; 0x73972841;
   0x73a4131e; 0x73dbeb0c; 0x748fa531; 0x74a9dc44; 0x74c0e8d9; 0x74ccb1d5; 0x7511ada8; 0x7515eda0;
   0x751c55e5; 0x752a80d2; 0x75ab3612; 0x75fe4f97; 0x762cea0d; 0x763d1a2d; 0x7647796e; 0x76623d97;
   0x76647773; 0x766fe273; 0x769c82bf; 0x76a0cf24; 0x76a95e56; 0x76baccd5; 0x76d5125c; 0x7738e9f0;
   0x7751f147; 0x7759dd0f; 0x7794cc9b; 0x77e04203; 0x77f1bd91; 0x783c7028; 0x788b7df9; 0x78bcf250;
   0x78c54943; 0x78d82237; 0x78e16bc0; 0x797ec497; 0x79b780be; 0x79c377ee; 0x7a056b52; 0x7a2cc0fd;
   0x7a2e383b; 0x7ac61030; 0x7af641c7; 0x7b08bdd8; 0x7b186b31; 0x7ba7806d; 0x7be93468; 0x7bfcf391;
   0x7c301051; 0x7c3c6daf; 0x7c755ca8; 0x7ca229fc; 0x7cffcf22; 0x7d3d0f2b; 0x7d518b62; 0x7d8e21c9;
   0x7d9a6ea3; 0x7db771a9; 0x7dbd655e; 0x7ddff6ef; 0x7e04d335; 0x7e23fec7; 0x7e2f79db; 0x7e30a3e6;
   0x7e3e4927; 0x7e4295cb; 0x7e7da586; 0x7e859adf; 0x7eadf38e; 0x7ee101d8; 0x7f3da3ca; 0x7f400d7d;
   0x7fee0c52; 0x80238726; 0x8042856d; 0x8045558e; 0x8046fddf; 0x80557309; 0x80652737; 0x80839c9c;
   0x80dadd5e; 0x80df468a; 0x81556b8a; 0x81b90295; 0x81c7e398; 0x81e67814; 0x81f19432; 0x8202df00;
   0x821e15ce; 0x823b8d9d; 0x82711e32; 0x827b4e33; 0x82d0d12a; 0x83051e75; 0x8352352c; 0x835d82d9;
   0x837d8c4a; 0x83c66620; 0x83d0400c; 0x83d7a17c; 0x83f246a3; 0x8441e70f; 0x849fadf6; 0x84ba13e3;
   0x84cb5af9; 0x84fc04ff; 0x8513cf43; 0x85158bb9; 0x854182b7; 0x855f2bfd; 0x856b0750; 0x857e13e8;
   0x85e070ba; 0x85fc9b87; 0x861dbbf1; 0x86263cdf; 0x8640abe4; 0x8695c62d; 0x86980868; 0x869bec4d;
   0x86d558ce; 0x87127437; 0x871b3275; 0x8761d45d; 0x87e3296e; 0x885cdfd1; 0x885fd396; 0x887723eb;
   0x887c6f70; 0x8892f046; 0x88b31517; 0x88b980c6; 0x88e1159c; 0x88f6bf81; 0x890a6af8; 0x894109f7;
   0x8958ee27; 0x89879229; 0x89c07684; 0x89d06043; 0x89e89fca; 0x89eae7ca; 0x89ecb0bf; 0x89eced4b;
   0x8a390650; 0x8a8aa6d6; 0x8abd8f09; 0x8ae92552; 0x8afe525a; 0x8b6acdf3; 0x8b76815b; 0x8b78b998;
   0x8b90aaae; 0x8b97a907; 0x8b9944eb; 0x8bc1cca0; 0x8bf6a60b; 0x8bf7cd82; 0x8c2e9621; 0x8c5b2814;
   0x8c641347; 0x8c65a6dd; 0x8c8c5807; 0x8c921f26; 0x8cd39d7e; 0x8d07727e; 0x8d4b6f65; 0x8d99b353;
   0x8dc3b268; 0x8de15711; 0x8e68cab1; 0x8e8fe81d; 0x8eba8908; 0x8f63ad2d; 0x8f802069; 0x8f85ceb5;
   0x8fd62dbb; 0x8feba2c8; 0x8ffa4dcb; 0x9012be95; 0x9030fb54; 0x90714fce; 0x90c77bfb; 0x90ec47ea;
   0x90f47102; 0x90f7e910; 0x91347b94; 0x9149f115; 0x9156b388; 0x916e75f9; 0x917225d5; 0x91ab5019;
   0x91c827d9; 0x91f2e7e0; 0x91fef9f9; 0x92558c3d; 0x92576339; 0x92642202; 0x929e395b; 0x92c6e067;
   0x92d743b4; 0x92d9e276; 0x934538ec; 0x935d5e1d; 0x93cd4416; 0x93e9062c; 0x9412b04b; 0x94a91196;
   0x94dc2270; 0x94e16568; 0x94f2dec4; 0x950186ba; 0x9502b602; 0x95102328; 0x952cf3c5; 0x95a881f8;
   0x95d3710d; 0x963457e0; 0x96487207; 0x96dc8afe; 0x977276be; 0x97fa41ec; 0x982ffeae; 0x986da93c;
   0x98848772; 0x98ab042b; 0x98ca0138; 0x98e27d90; 0x98eeb01b; 0x98f341c5; 0x9909ee43; 0x990f0668;
   0x992aad83; 0x995710ca; 0x9970c1b4; 0x9990a894; 0x999bb12d; 0x99a8bd83; 0x99b5c275; 0x99df9cf0;
   0x9a027ac6; 0x9a0a0145; 0x9a174469; 0x9a1c150a; 0x9a227302; 0x9a9d7cba; 0x9a9ec59f; 0x9ac105b1;
   0x9ac874e4; 0x9b1e6b66; 0x9b3b421c; 0x9b71316a; 0x9b9d4b6b; 0x9bc0b4e2; 0x9bf721a2; 0x9bf95620;
   0x9c0bf95f; 0x9c3d25f5; 0x9cbf1cb9; 0x9d15c4ae; 0x9d2de6e1; 0x9d69035d; 0x9dabeb44; 0x9dd68e60;
   0x9e2c53e4; 0x9e4c77be; 0x9e4d3f18; 0x9ed3887e; 0x9ed7673d; 0x9ee5225b; 0x9efb27f6; 0x9f05a446;
   0x9f4e87bc; 0x9f5a02b9; 0x9f6d8e81; 0x9f76d9f8; 0x9f7949e5; 0xa05f42a9; 0xa08995b3; 0xa0af4890;
   0xa0b9c310; 0xa0c6df19; 0xa0f7ca94; 0xa0fe9033; 0xa0ffb2f0; 0xa10b374a; 0xa11046a0; 0xa181cc6d;
   0xa18eed98; 0xa1924194; 0xa22b4f1a; 0xa2afefb7; 0xa2ccac06; 0xa2e24fdb; 0xa30662a8; 0xa368c111;
   0xa3c43a08; 0xa40880aa; 0xa4105139; 0xa4645621; 0xa467c6ae; 0xa4702cf4; 0xa474c70b; 0xa48deb1f;
   0xa4a3f7b3; 0xa4c64911; 0xa4d5eed7; 0xa4e9daa0; 0xa5186eb2; 0xa51cbb93; 0xa5973c48; 0xa5d66095;
   0xa617e715; 0xa61b5ecf; 0xa622f380; 0xa62535d4; 0xa6873c75; 0xa69bebe5; 0xa7360c11; 0xa741ed84;
   0xa7c9b0f4; 0xa80435c9; 0xa807b8f8; 0xa817114d; 0xa8237229; 0xa8cb6b2d; 0xa8da2480; 0xa8f2d34c;
   0xa9186b72; 0xa92c3302; 0xa93aa30b; 0xa9602728; 0xa9719a8c; 0xa9b738f9; 0xa9dcc385; 0xaa1bb216;
   0xaa218f4e; 0xaa2ec8b8; 0xaa3ab064; 0xaa6515f8; 0xaa99077e; 0xab28f9ab; 0xab4b00f4; 0xab4ed301;
   0xab51784d; 0xab8613b1; 0xaba60e7a; 0xabee5426; 0xac14bfb7; 0xac24fd44; 0xac34b794; 0xac508cdd;
   0xac723fc5; 0xac93a7fb; 0xac9bc56c; 0xaca9c591; 0xacbb7cc3; 0xaccdcda6; 0xacffc666; 0xad348546;
   0xae5f0fc2; 0xae82b15f; 0xaeb0c5e2; 0xaec1677e; 0xaec7f68f; 0xaf00a723; 0xaf05c500; 0xaf4ae9a4;
   0xaf9850a5; 0xafae378b; 0xafcfb09e; 0xafd07981; 0xafe1ac1e; 0xb0051843; 0xb0298a1e; 0xb05070d2;
   0xb05a2d59; 0xb05b35f4; 0xb0d1ceb7; 0xb0d3bfba; 0xb0e60c12; 0xb0fbb14d; 0xb1003f49; 0xb12973e4;
   0xb1953e08; 0xb1a67058; 0xb1e69ba5; 0xb213a72b; 0xb2635de8; 0xb29d58bd; 0xb2a9a2bf; 0xb2abdf65;
   0xb2b4634c; 0xb2c9e99a; 0xb3050c5f; 0xb3304314; 0xb3449f99; 0xb35acccf; 0xb38710fb; 0xb3e60e63;
   0xb40d0e1a; 0xb41c7d68; 0xb4756ef3; 0xb499776e; 0xb4e85092; 0xb5d9ebd2; 0xb615b95e; 0xb64bbaee;
   0xb6853153; 0xb68ffb1d; 0xb6a702c9; 0xb6dbfb7b; 0xb71c659c; 0xb74ea892; 0xb7757a00; 0xb7d335f5;
   0xb829b63c; 0xb83052e1; 0xb853ab66; 0xb86afc21; 0xb86ed5f7; 0xb9033460; 0xb926a698; 0xb95733a5;
   0xb9a50a78; 0xb9a9207d; 0xb9dd9973; 0xb9de5ca4; 0xb9fd3a0a; 0xba0cc644; 0xba31e8ce; 0xba5a3b55;
   0xba5f8536; 0xba653580; 0xbaab6161; 0xbac0b686; 0xbadad7a1; 0xbafedac0; 0xbb0d4c7e; 0xbb17599b;
   0xbb29383a; 0xbc4e5a4a; 0xbc9d1e21; 0xbd0303d7; 0xbd0bb876; 0xbd76bc96; 0xbdb8b902; 0xbde6e072;
   0xbe42ff6e; 0xbe66809b; 0xbebcd7eb; 0xbf0d116c; 0xbf180441; 0xbf1fc8e4; 0xbf3122c1; 0xbf48cb51;
   0xbf50c35c; 0xbf5e39fb; 0xbfad8304; 0xc065855f; 0xc083d0c3; 0xc0c821b4; 0xc0ee2541; 0xc0f488d4;
   0xc0f95a9a; 0xc16e0150; 0xc1731064; 0xc1fbcb74; 0xc20ae217; 0xc233c397; 0xc24a8664; 0xc25fdd5a;
   0xc2b0b11c; 0xc2b21d03; 0xc2cd894a; 0xc2dcda01; 0xc2f9e962; 0xc30d0b7b; 0xc32d2a23; 0xc33e86da;
   0xc345c25a; 0xc3583866; 0xc35d5dac; 0xc3b6e4c7; 0xc3d93c39; 0xc44a0e1c; 0xc44ef1a6; 0xc457bebc;
   0xc4b5d326; 0xc4f6d45c; 0xc5095592; 0xc5441e6a; 0xc553d1fb; 0xc57b0e35; 0xc5a74f47; 0xc5c76576;
   0xc6023978; 0xc60fc39d; 0xc6352a35; 0xc67eb8bc; 0xc67f6376; 0xc72082a9; 0xc72323e8; 0xc729e30a;
   0xc72f5067; 0xc74dc032; 0xc7903208; 0xc7d8a1e9; 0xc804cac7; 0xc816b9f2; 0xc8556542; 0xc8d0e81d;
   0xc8dea28a; 0xc8e09bd6; 0xc970411f; 0xca2e0320; 0xca5f4d8f; 0xca7f3b14; 0xca8b73f9; 0xca8c74aa;
   0xcab37d00; 0xcad5b370; 0xcb11dbe6; 0xcb2815fc; 0xcb2fda62; 0xcb944c28; 0xcb9c0a80; 0xcb9c7fa4;
   0xcba072ab; 0xcbab2138; 0xcc2787da; 0xcc763c42; 0xcc787177; 0xcc7c05e2; 0xccaa040a; 0xccb0c104;
   0xcd0f3c1d; 0xcd21fede; 0xcd4c45a0; 0xcd5ca985; 0xcd64519c; 0xcd671c4b; 0xcd820003; 0xcd8618f9;
   0xcd98df72; 0xcd9bf298; 0xcdb607f1; 0xcdf57874; 0xcdfcd059; 0xce061f06; 0xce1197ec; 0xce30cf73;
   0xce456dec; 0xce9963a7; 0xcec33ac4; 0xcec51cb3; 0xcef3d26e; 0xcf018177; 0xcf11dda2; 0xcf196c1c;
   0xcf301a7e; 0xcf3ce8d1; 0xcf7a27f8; 0xcf9336de; 0xcfb3db63; 0xcfb6bc20; 0xcfd4e1ac; 0xd01aac5c;
   0xd05feffb; 0xd0bc02d1; 0xd0c10012; 0xd10827da; 0xd10be133; 0xd1502696; 0xd15935ce; 0xd17682d3;
   0xd1afa267; 0xd1b5b85f; 0xd1b5d607; 0xd1b8436e; 0xd1e4c02b; 0xd1ed34bb; 0xd1eff4cb; 0xd233f0d5;
   0xd259dd9b; 0xd26d27c4; 0xd2b9fa17; 0xd2bf8676; 0xd2ccf84a; 0xd2d2ec64; 0xd2faa0e7; 0xd30419b0;
   0xd35b3c17; 0xd35bedf8; 0xd35e089d; 0xd38d11cc; 0xd3cced15; 0xd3cedd2d; 0xd3fe933b; 0xd417da00;
   0xd4296970; 0xd47f41c4; 0xd4e582d1; 0xd500a6fe; 0xd537273c; 0xd548dd6c; 0xd573b87d; 0xd57ddb14;
   0xd5aa1439; 0xd5be1f6d; 0xd5fd7728; 0xd627fc9b; 0xd68c9f9f; 0xd6b56183; 0xd6c3c90b; 0xd6c3db27;
   0xd6d79bba; 0xd6dfe7a6; 0xd72f9228; 0xd745e3c2; 0xd74bfd11; 0xd75ea380; 0xd7a5b156; 0xd7e9f0b2;
   0xd843f2d0; 0xd8451e92; 0xd84b1c95; 0xd84d54fe; 0xd85c97f7; 0xd87d9ab8; 0xd8ac6275; 0xd8e945d5;
   0xd9054c93; 0xd92501c5; 0xd96fff53; 0xd9824fa7; 0xd9a3298d; 0xd9bf11f4; 0xd9c645f9; 0xda0986c3;
   0xda3cfc7c; 0xdaf4476b; 0xdb03aab2; 0xdb5f5d2d; 0xdb8296a3; 0xdba57db4; 0xdba7e143; 0xdbc4f9d3;
   0xdbe64d3a; 0xdbebac1c; 0xdc068a42; 0xdc14948d; 0xdc399c4e; 0xdc63eb99; 0xdca5d0d6; 0xdcb8c4d8;
   0xdcbba07f; 0xdcf0a781; 0xdd17ad14; 0xdd2c78f6; 0xdd30f7d7; 0xdd37cf5f; 0xdd52833a; 0xdd6d901c;
   0xdda4eae6; 0xddc4b82f; 0xddd344bf; 0xde2a59ff; 0xde5fb585; 0xde756950; 0xde9a23ba; 0xdea6e585;
   0xdf145ab6; 0xdf30948b; 0xdf8a09a8; 0xdf918bdc; 0xdfd99071; 0xe02df33c; 0xe02e2514; 0xe03370f6;
   0xe04c7c10; 0xe0d410f2; 0xe0de5ae1; 0xe114ec0f; 0xe1227f53; 0xe1394d7b; 0xe154b173; 0xe15c418c;
   0xe1b678ba; 0xe1f756f5; 0xe1fe36c5; 0xe2556f14; 0xe277bc54; 0xe2820f64; 0xe2d2799c; 0xe2fdf061;
   0xe302a660; 0xe30a6d0e; 0xe320410f; 0xe3307fc1; 0xe336ddde; 0xe3680d23; 0xe381aef1; 0xe3a10d53;
   0xe3a6eaba; 0xe3b547d4; 0xe3d5ad14; 0xe3ebfc54; 0xe3f24d02; 0xe447ee42; 0xe44b1e99; 0xe44facf3;
   0xe4882423; 0xe4c4a1ea; 0xe5002b30; 0xe5109370; 0xe563c42c; 0xe58eec1c; 0xe5e692e9; 0xe5f42f82;
   0xe6653bb7; 0xe68faa85; 0xe6e4407b; 0xe6f20ca2; 0xe72cb534; 0xe7425f19; 0xe7500f23; 0xe7556006;
   0xe76784cb; 0xe7771a1f; 0xe783b955; 0xe79dac3d; 0xe7a0b906; 0xe7b3b5b8; 0xe7dc4db8; 0xe7dc9cbd;
   0xe82e4d73; 0xe871d6ea; 0xe87438a8; 0xe8d29bdd; 0xe916b3cc; 0xe9221a42; 0xe929958f; 0xe96742a9;
   0xe9c063dc; 0xea19abb6; 0xea454559; 0xea85ebc4; 0xea861a81; 0xea9902d6; 0xeab54b8d; 0xeaffd4da;
   0xeb12714a; 0xeb3f2a9c; 0xeb795375; 0xeb979b50; 0xeba42c21; 0xebdf663c; 0xec288cc3; 0xec48e141;
   0xec7659fe; 0xec8ff279; 0xecb1cd3d; 0xecdb3a59; 0xed0e8302; 0xed40db04; 0xed5b091f; 0xed7f71cd;
   0xedbb4d5e; 0xedcc2ab6; 0xedeb811d; 0xeded1e13; 0xeded4812; 0xee0746ee; 0xee0f9eca; 0xee296dec;
   0xee3741b6; 0xee9a6f26; 0xef2a183c; 0xef30fcff; 0xef36659a; 0xef48d39f; 0xef9b8054; 0xefbe2cf3;
   0xf005e2a8; 0xf04aae16; 0xf059d284; 0xf08f1b19; 0xf0936c3a; 0xf09c6248; 0xf0a44687; 0xf0ae54c0;
   0xf0b53d6d; 0xf0c551dd; 0xf0e02f0c; 0xf0e090c9; 0xf0effd83; 0xf104b5c8; 0xf15b8088; 0xf160a612;
   0xf1c7b136; 0xf1e0c163; 0xf1ec6388; 0xf2578a74; 0xf271146f; 0xf27c923f; 0xf290bc60; 0xf2b61bcf;
   0xf2cf0667; 0xf2e35940; 0xf34482c9; 0xf36509ed; 0xf374f7f9; 0xf3779fd9; 0xf3852875; 0xf407c92a;
   0xf41168de; 0xf4367e20; 0xf439f51a; 0xf448212e; 0xf4905f05; 0xf49eab66; 0xf4a92395; 0xf4bb54b7;
   0xf4c3fd50; 0xf4c4accb; 0xf4d0abd3; 0xf4ff953d; 0xf51e3c35; 0xf52be8f4; 0xf5b1a9e8; 0xf5ee3392;
   0xf625384c; 0xf62e267e; 0xf63be1c9; 0xf65fcae3; 0xf705b58c; 0xf7238398; 0xf7c605af; 0xf7de09db;
   0xf7e47b87; 0xf80a20bd; 0xf8105890; 0xf827e9eb; 0xf868749c; 0xf8dcf4dc; 0xf98abc65; 0xf9d1baab;
   0xf9d81b2d; 0xf9fb1ec0; 0xfa8f38bb; 0xfaaae1d5; 0xfac8a91b; 0xfada1d6f; 0xfb21d885; 0xfb37a465;
   0xfb3b22f5; 0xfb5db9a8; 0xfb9a0ece; 0xfbb0372e; 0xfc2a8478; 0xfce780cb; 0xfd39b0db; 0xfd584b5d;
   0xfd833b6e; 0xfd97ff53; 0xfdd5054e; 0xfdda4dd7; 0xfe4423c5; 0xfe474d4e; 0xfe4788a4; 0xfe60deb9;
   0xfe6980b0; 0xfeda997c; 0xfeffb8e9; 0xff07d2ec; 0xff664b2e; 0xff97c63f; 0xffb0cdc0; 0xffe88987].
(** OFFSET_MISCELLANEOUS_SYMBOLS_AND_PICTOGRAPHS, src/fonts/emoji.rs:3748-5397 *)
Definition emoji_offset_miscellaneous_symbols_and_pictographs : list N :=
  [47478; 46271; 24136; 42507; 46905; 18735; 45368; 22222;
   17362; 30253; 12886; 31839; 24837; 46047; 48717; 20085;
   9345; 8459; 29345; 41594; 19863; 24338; 12738; 13265;
   24710; 8298; 47651; 40939; 39881; 48255; 16051; 28180;
   11960; 48050; 18914; 13356; 36066; 37036; 26692; 32544;
   36141; 17455; 42154; 43018; 46239; 12394; 33745; 41799;
   41338; 42444; 43949; 43078; 12680; 36090; 31863; 23137;
   11599; 37516; 28805; 17962; 36457; 39084; 10409; 45894;
   14595; 44255; 31649; 44093; 45338; 43334; 40215; 11419;
   42338; 39463; 14275; 18351; 40820; 24949; 47424; 15710;
   21822; 24109; 41859; 38593; 17703; 29156; 32770; 37065;
   20473; 23936; 27304; 11062; 48748; 39640; 35796; 44308;
   18537; 25349; 8135; 47669; 40911; 27782; 41565; 41771;
   15896; 17606; 17020; 46207; 29866; 20822; 34836; 8266;
   30152; 43625; 16221; 32893; 13233; 46303; 18678; 9365;
   24505; 43838; 46495; 13086; 29022; 29725; 25679; 33006;
   23223; 12377; 12799; 46271; 43520; 10382; 33346; 25182;
   39291; 38920; 39320; 29132; 16468; 42987; 9009; 24027;
   31734; 27095; 12476; 35566; 26026; 17849; 31180; 46079;
   43226; 16869; 9153; 30580; 42096; 16445; 11993; 25554;
   22446; 25319; 34041; 43687; 37922; 10712; 19923; 8491;
   43545; 10767; 21326; 22946; 30069; 12950; 14499; 20778;
   47532; 22475; 11535; 32515; 34331; 8076; 18883; 35203;
   27687; 33773; 17795; 20517; 42364; 36865; 41655; 42564;
   32842; 28094; 39126; 14816; 30283; 48633; 40714; 16900;
   31973; 24310; 16758; 11867; 13298; 34302; 29698; 29051;
   46591; 26524; 18029; 44999; 18649; 9656; 27655; 34787;
   48551; 37417; 10241; 16665; 40735; 44836; 22326; 37832;
   10295; 46829; 36265; 25847; 13478; 18319; 48452; 41888;
   47886; 9393; 24052; 41934; 39002; 30910; 28552; 9241;
   38751; 48919; 21409; 24648; 28368; 15679; 28520; 35505;
   34606; 16964; 40691; 35718; 11236; 15246; 31484; 13417;
   48183; 26133; 37366; 37210; 16605; 12041; 35173; 34471;
   23996; 11686; 41086; 20233; 21911; 32313; 25370; 40760;
   17535; 8524; 45983; 43805; 18568; 43978; 40309; 24920;
   38162; 20377; 30692; 30438; 16696; 8459; 19779; 42617;
   19702; 22171; 45031; 30862; 12330; 20330; 47134; 49022;
   45862; 26720; 21842; 35061; 14721; 44276; 14848; 37717;
   14531; 35037; 24616; 42391; 10053; 39234; 47505; 21011;
   27495; 13597; 18293; 42066; 44548; 8588; 28426; 27559;
   29614; 11655; 11445; 38840; 18057; 25521; 22251; 15184;
   17141; 14073; 14006; 34130; 43922; 46655; 27873; 9183;
   43283; 8681; 31071; 9510; 37441; 8361; 16113; 22592;
   31621; 47057; 48778; 33717; 16696; 24978; 25084; 43110;
   19811; 37746; 36345; 29265; 47943; 29782; 10322; 46111;
   22889; 37294; 43493; 19371; 37803; 42901; 9183; 20473;
   35323; 19643; 12265; 20845; 20163; 32133; 39930; 23009;
   17394; 31132; 36951; 17558; 8045; 27121; 9455; 48229;
   25584; 20447; 23586; 34911; 39103; 26794; 25155; 36213;
   32219; 30607; 11396; 43048; 46894; 17203; 44580; 9101;
   18979; 9567; 43398; 23384; 43741; 26493; 18597; 9481;
   21494; 22724; 30092; 25764; 46751; 15370; 48778; 40277;
   12886; 13144; 37180; 25400; 45420; 33663; 27274; 19863;
   32188; 46751; 46239; 48076; 20800; 10519; 23167; 45659;
   38810; 12101; 45193; 42245; 44518; 18796; 19169; 43573;
   37120; 45450; 8394; 46014; 12187; 33475; 41028; 19464;
   47794; 10491; 38498; 27751; 16426; 25947; 30884; 33165;
   17110; 19779; 48338; 37567; 8745; 29809; 14943; 31018;
   16577; 30375; 28318; 45128; 34244; 48809; 33924; 8869;
   43708; 48943; 40666; 33976; 24362; 48919; 38530; 14753;
   46855; 8331; 39023; 14050; 47559; 25457; 17173; 45773;
   23905; 14691; 39262; 34188; 33378; 47597; 39378; 9808;
   43048; 8945; 10904; 16932; 20754; 9786; 43334; 19970;
   13893; 30468; 45862; 44223; 32657; 33539; 16869; 34130;
   23843; 46559; 19494; 41985; 11293; 47708; 21941; 32405;
   25898; 27842; 18859; 10920; 29079; 44334; 19288; 34686;
   47045; 27463; 32433; 27719; 44657; 21642; 46079; 20754;
   46527; 43445; 18103; 25127; 17267; 28209; 11314; 42419;
   16148; 8556; 39399; 25971; 48117; 22531; 38071; 25616;
   19993; 27431; 10217; 47161; 26335; 43140; 46783; 21928;
   9268; 37343; 27527; 28488; 27245; 44158; 35892; 9213;
   34550; 23966; 45250; 9625; 25925; 23562; 12418; 42179;
   21768; 14721; 43202; 45309; 47623; 39352; 18125; 30203;
   31565; 36413; 38941; 18216; 20353; 36707; 9319; 20256;
   23782; 30119; 9213; 14115; 40883; 27044; 8427; 9676;
   25649; 47108; 34577; 48867; 41934; 39495; 22838; 12529;
   46917; 28643; 28397; 34861; 21355; 29245; 47570; 32945;
   8168; 26981; 33802; 21551; 11205; 17894; 14179; 26306;
   32973; 33953; 41828; 36503; 41057; 40852; 38101; 16257;
   8621; 36040; 19258; 15617; 45721; 28995; 16349; 28917;
   44374; 28342; 35112; 42617; 39208; 15865; 42717; 32685;
   48867; 39617; 40788; 46783; 36729; 31997; 16388; 9898;
   48838; 41115; 36367; 16487; 16993; 20330; 9298; 39063;
   48502; 16993; 48096; 8427; 25709; 21106; 43657; 28975;
   8777; 41396; 25236; 31206; 18081; 33227; 31592; 48140;
   23429; 24443; 22281; 44612; 46687; 34737; 38192; 9567;
   31361; 36836; 47240; 26580; 17330; 15989; 23693; 46175;
   40184; 47213; 16841; 23362; 46655; 31298; 19555; 44351;
   22807; 23810; 27947; 48425; 41859; 21551; 34986; 34498;
   32922; 39188; 20112; 39855; 34761; 46870; 47766; 38981;
   20730; 38254; 18246; 35748; 46431; 31538; 32282; 25489;
   20588; 16786; 20210; 28582; 27013; 37666; 47824; 16900;
   46987; 38859; 15401; 17582; 32740; 36292; 35143; 47559;
   12558; 45562; 41231; 16818; 19111; 37642; 20612; 17078;
   21200; 8892; 8809; 17485; 31043; 31892; 27812; 45064;
   22859; 36593; 17916; 41294; 36895; 9706; 16519; 40605;
   46815; 26634; 30182; 43520; 30018; 48809; 38656; 23198;
   12217; 20538; 15524; 39560; 19432; 13565; 46940; 8491;
   46999; 38720; 26275; 40004; 32486; 16369; 25261; 45830;
   29963; 12444; 41624; 35011; 22088; 12129; 15524; 39688;
   9425; 20636; 13535; 9866; 27336; 12298; 24805; 42776;
   15586; 10108; 38437; 42675; 12738; 35536; 17424; 14974;
   33106; 44334; 24868; 48526; 14627; 22751; 40028; 19345;
   47069; 38880; 24773; 23643; 46143; 21300; 48162; 46687;
   16841; 16295; 15493; 29919; 9298; 23307; 40060; 13689;
   46335; 39431; 31818; 42476; 28723; 17653; 46207; 27399;
   39758; 38281; 44966; 18155; 27623; 32459; 17734; 10083;
   14307; 36617; 25998; 22387; 32712; 14147; 17703; 36781;
   42870; 42538; 12918; 12706; 42212; 37891; 41686; 15004;
   42310; 39146; 46527; 46463; 20706; 14563; 43170; 12974;
   38561; 35414; 20660; 46929; 33442; 20186; 25007; 10549;
   41476; 17511; 40436; 14785; 10128; 33081; 33633; 8915;
   13807; 37271; 43422; 42806; 36922; 39980; 28611; 28235;
   20947; 9268; 36525; 16312; 29290; 37591; 35354; 16020;
   22501; 9123; 30314; 10820; 47371; 22619; 36389; 40527;
   15064; 30939; 43462; 29560; 37616; 45161; 25874; 18954;
   48967; 15034; 30966; 36115; 30553; 48475; 11150; 44804;
   32057; 22139; 43258; 19833; 45282; 45954; 11750; 14339;
   16932; 8016; 12619; 38010; 26400; 44741; 34008; 19616;
   35940; 43870; 48601; 17826; 22029; 12072; 38041; 38625;
   12950; 35868; 31393; 22059; 28296; 44486; 10268; 31330;
   37318; 9596; 35774; 25105; 16082; 32086; 20496; 43949;
   46975; 48717; 46175; 9836; 24259; 33692; 26217; 19318;
   19584; 31760; 25287; 19882; 37466; 26052; 12498; 24392;
   43312; 8200; 48659; 31103; 16186; 13325; 30721; 38162;
   16786; 18005; 38781; 21384; 23875; 19671; 33136; 42012;
   26368; 22775; 14094; 19033; 14211; 38901; 45595; 43366;
   17049; 43573; 41310; 22310; 35234; 15803; 40588; 10949;
   23478; 21610; 22358; 19058; 12650; 44772; 10876; 21043;
   33902; 24281; 11928; 35384; 39733; 22003; 22202; 44031;
   13828; 40247; 16635; 11396; 42278; 15124; 24559; 33845;
   21705; 44634; 37150; 15958; 19227; 13916; 26663; 18765;
   26432; 16202; 44454; 44710; 19946; 38222; 23725; 20612;
   21247; 39907; 47688; 46623; 13029; 28779; 21578; 23410;
   32629; 28069; 28124; 19525; 44612; 42932; 9737; 11475;
   27591; 9041; 13005; 16728; 10160; 8233; 34662; 10624;
   9759; 27213; 40465; 9537; 34273; 47022; 34525; 11627;
   48452; 26166; 28267; 8681; 13062; 21274; 40122; 10576;
   28458; 13961; 16082; 48580; 35293; 11260; 12418; 47623;
   39832; 44683; 43202; 19402; 26250; 36753; 47532; 16276;
   23335; 44634; 12771; 36808; 19088; 36481; 17762; 19733;
   10603; 26874; 35846; 10438; 8651; 46367; 36319; 20280;
   14435; 28889; 21673; 16240; 31235; 49054; 40090; 14659;
   34635; 11775; 46463; 13938; 32345; 47345; 43493; 18380;
   47856; 42747; 26082; 33286; 21974; 11375; 15432; 11535;
   17235; 42643; 24893; 17734; 29184; 13449; 43366; 36571;
   41744; 21928; 28041; 12476; 21737; 47597; 48659; 43398;
   26555; 10656; 28750; 41425; 44031; 29102; 36980; 33874;
   13721; 12394; 13850; 36186; 26930; 29670; 14029; 47747;
   14243; 9101; 16665; 23532; 48892; 27971; 29588; 35991;
   41457; 15741; 38466; 48393; 48748; 13743; 48283; 12444;
   15154; 21074; 10976; 25735; 36549; 29440; 24217; 45750;
   39042; 17986; 37391; 45894; 16167; 47266; 18520; 48310;
   43545; 41958; 46047; 20869; 20915; 11898; 36435; 13659;
   47451; 45511; 45479; 47034; 12360; 9123; 34105; 11567;
   40371; 47794; 26771; 27990; 16406; 18491; 23279; 48990;
   12918; 25206; 21465; 36661; 22977; 19033; 19140; 19902;
   10794; 42039; 11094; 22670; 29838; 29216; 46964; 10192;
   15308; 20015; 42128; 29754; 48050; 26744; 9069; 16468;
   41370; 38132; 24081; 46623; 47727; 42278; 26106; 32107;
   25791; 42154; 13510; 29990; 12498; 33410; 40403; 42956;
   41142; 33036; 18619; 28697; 10354; 12831; 15215; 21151;
   40970; 45797; 43601; 43922; 46719; 20423; 26196; 19752;
   47886; 21384; 26463; 11126; 41200; 28012; 9153; 17394;
   12589; 42590; 36639; 31423; 47187; 37952; 47570; 14371;
   18267; 14880; 18401; 46303; 23506; 27898; 11718; 16426;
   30777; 46143; 35475; 8102; 16635; 18935; 47292; 14403;
   13175; 17630; 34887; 15648; 11805; 44190; 18186; 44454;
   39664; 22697; 14911; 16549; 14659; 30636; 21436; 40556;
   34442; 43773; 43978; 38962; 30832; 28832; 9991; 40154;
   16758; 31920; 40634; 22561; 44426; 48526; 46882; 47856;
   41171; 48475; 33056; 33821; 29376; 39710; 45785; 20400;
   47010; 15772; 13872; 9958; 36239; 31788; 19993; 22417;
   10463; 29641; 43870; 30229; 39527; 15555; 33197; 35687;
   12360; 10737; 13689; 9929; 21882; 12330; 11346; 9241;
   45394; 16964; 37691; 47969; 47766; 40999; 48203; 19005;
   45691; 45221; 48580; 35445; 48425; 36015; 37241; 43895;
   47996; 25058; 47398; 11174; 29408; 37092; 26817; 24678;
   11835; 16445; 28668; 40341; 45921; 21802; 48688; 27152;
   33571; 13786; 23104; 17676; 42690; 45534; 11507; 17939;
   24584; 35263; 23751; 25818; 34357; 29894; 19197; 21786;
   24165; 46431; 31452; 46952; 8837; 33507; 10850; 31676;
   27924; 34162; 18827; 20979; 48393; 20061; 13118; 44869;
   41264; 8977; 23451; 22111; 46367; 34384; 18186; 39956;
   15339; 29469; 37774; 30665; 30750; 46559; 17299; 24193;
   31509; 44901; 13206; 18859; 48601; 24475; 18431; 18710;
   21175; 32870; 47918; 32600; 30407; 35596; 32250; 23250;
   26954; 35627; 46829; 46335; 48892; 24741; 48364; 12377;
   25426; 44061; 41915; 31943; 35965; 34073; 45096; 35657;
   16132; 36685; 29314; 34936; 17871; 30345; 29501; 38313;
   48551; 34215; 13388; 23611; 11030; 38406; 13629; 46111;
   30804; 29939; 15927; 20139; 32158; 48633; 16331; 46815;
   41505; 26846; 9069; 46495; 16818; 33256; 41537; 48838;
   20682; 24526; 39781; 44126; 44405; 10685; 38345; 21862;
   47082; 32791; 37862; 35918; 15094; 30988; 27065; 37541;
   30498; 28148; 47069; 15277; 46399; 48688; 45761; 14467;
   42839; 23072; 32571; 34812; 31266; 33603; 21128; 21225;
   34712; 20893; 8713; 37007; 36163; 38375; 33316; 28945;
   22915; 8892; 47824; 26900; 32815; 39592; 23042; 48023;
   44934; 30040; 37980; 13984; 34962; 24416; 23673; 12158;
   46719; 46399; 12857; 15463; 34413; 32025; 29533; 27183;
   39807; 21522; 28861; 44009; 22646; 10023; 26607; 18568;
   47319; 20563; 38688; 17558; 15834; 9041; 35820; 12246;
   16728; 12025; 27368; 40497; 46855; 11001; 18459; 30528;
   37492; 39165; 31705; 48502; 45627; 41338; 25035; 41716;
   32377; 24240; 35086; 20039; 20305; 31154; 13763; 46591].
(** HASH_EMOTICONS, src/fonts/emoji.rs:5410-5604 *)
Definition emoji_hash_emoticons : list N :=
  [0x170cdd; 0x38911a; 0x9569b3; 0x309a0df; 0x30fb52b; 0x431f52e; 0x44e67f3; 0x51cefd5;
   0x62d3fec; 0x66bba40; 0x9c42d3e; 0xa166a52; 0xba35ebb; 0xbb365c4; 0xcf5740a; 0xe9c4ddb;
   0xf3db476; 0xf61dd32; 0x1100bfbe; 0x1159c420; 0x11c29dc9; 0x124682c0; 0x13b1d3e1; 0x18dda86e;
   0x1b43650b; 0x1e0d4e55; 0x1eaaa7ea; 0x2272a8e2; 0x2378563a; 0x2452ad6d; 0x25068d30; 0x258eb954;
   0x262bb670; 0x27e892be; 0x29b584a9; 0x29f5f22a; 0x2a690465; 0x2beb40de; 0x2d79a2d2; 0x2e0def26;
   0x2eef5ce9; 0x30de02f5; 0x311c3a4e; 0x34d3dd2c; 0x3682fb54; 0x38e042ac; 0x3a0f7e51; 0x3aa94135;
   0x3b99449f; 0x3c8bfa6d; 0x3fc34ebd; 0x3fcbc65d; 0x40480439; 0x4128727c; 0x4203df04; 0x430ed0e4;
   0x451a1e38; 0x45a75f68; 0x47eef60e; 0x494448d4; 0x4c2982e3; 0x4e4bfd50; 0x5011019d; 0x548b0489;
   0x55b8028c; 0x59abc330; 0x59fcba98; 0x5c7cdd20; 0x61ce18b1; 0x6201f997; 0x62be25c1; 0x639ea53b;
   0x65346fd2; 0x65d8fdb4; 0x664d8a63; 0x66ab7b8b; 0x68bde063; 0x691006be; 0x6a19c814; 0x6c39cf4f;
   0x6dfda468; 0x6f56a025; 0x6fc56b53; 0x705002d6; 0x70cd0c79; 0x71bb4a8d; 0x73a3fa53; 0x75b61505;
   0x767f00a2; 0x79606a37; 0x7a1cff52; 0x7b3175c4; 0x7d105229; 0x7e822f63; 0x7fee0929; 0x826b5fa2;
   0x82c43f34; 0x83540969; 0x86a7c04b; 0x86e5dd9a; 0x8a911b72; 0x8b7366b1; 0x8e95dd30; 0x8ffa4ff5;
   0x90370920; 0x9096ee7e; 0x911656d4; 0x9135b6e0; 0x919ec957; 0x91cce4e4; 0x9227bc03; 0x943e248d;
   0x94de4f9d; 0x96846f5e; 0x96b5bee1; 0x9725371a; 0x97b4223a; 0x97b69076; 0x98d6cb30; 0x9909e7ab;
   0x99f8e342; 0x9ab399d2; 0x9b08b014; 0x9cb63bdd; 0x9d35a157; 0x9e40ef2a; 0x9ef9f81d; 0x9eff1b28;
   0x9f2a4219; 0xa18ff857; 0xa1fcd2c1; 0xa23c7470; 0xa293f932; 0xa313597d; 0xa416884d; 0xa4f4a9a9;
   0xa5131a99; 0xafa80d71; 0xafc33908; 0xb13db254; 0xb1e5b84f; 0xb29d56fd; 0xb2e5b752; 0xb525e855;
   0xb767870d; 0xb8c2ec31; 0xbab2b528; 0xbaf57185; 0xbc0f04ff; 0xbd4b85b6; 0xbe9131b0; 0xbfa08c9c;
   0xc02453e0; 0xc07c3686; 0xc2aca275; 0xc2d5023f; 0xc49a7ede; 0xc5e7609b; 0xc6ca0036; 0xc8a44a9e;
   0xca8cea9b; 0xcb13fe30; 0xcb96f57b; 0xcbf72e7c; 0xce34ca16; 0xcfdb1708; 0xd0a13c46; 0xd1a15c7a;
   0xd1efd05d; 0xd31ef94b; 0xd5896f2f; 0xd5a30866; 0xd5ab97e0; 0xd6202e98; 0xd6f0eece; 0xd7367ef6;
   0xd99216bf; 0xdbbb8e2e; 0xdc4a0bf8; 0xdc533991; 0xde33a387; 0xe129f88f; 0xe15d0047; 0xe2b58a33;
   0xe5cf4262; 0xe9f8f387; 0xecf7ad09; 0xee3482b8; 0xef3cfef2; 0xf0f05dfd; 0xfab87951; 0xfae55330;
   0xff4bf6ea].
(** OFFSET_EMOTICONS, src/fonts/emoji.rs:5607-5801 *)
Definition emoji_offset_emoticons : list N :=
  [54002; 52695; 49201; 54309; 52438; 53885; 49484; 49107;
   49360; 53091; 50107; 50562; 51958; 52117; 52470; 53327;
   52950; 53301; 53697; 51622; 53642; 54239; 49702; 54615;
   51743; 54263; 52341; 51559; 53546; 50718; 53222; 50411;
   54552; 49578; 52919; 53979; 49734; 50533; 52663; 52535;
   54583; 53406; 50970; 50016; 53169; 49828; 49608; 49295;
   52855; 50780; 51928; 53931; 49640; 50321; 51654; 51897;
   50048; 51311; 51251; 49890; 50442; 53196; 54451; 54286;
   53459; 54192; 50656; 53065; 50380; 51094; 52823; 52149;
   53514; 54050; 53380; 52053; 53013; 54428; 54097; 51835;
   52791; 54026; 49265; 50908; 53768; 53955; 54215; 49922;
   49233; 53674; 54499; 53248; 51002; 50139; 51590; 51372;
   50940; 51496; 52759; 50812; 49860; 53792; 50261; 52181;
   49548; 50750; 52405; 49954; 52213; 52599; 54521; 49422;
   52022; 49454; 49516; 54647; 49390; 49578; 51402; 54144;
   52567; 51714; 52887; 52277; 53433; 53610; 51434; 51990;
   53814; 50502; 49139; 53578; 50199; 54475; 51188; 53117;
   51034; 51771; 51866; 49796; 52373; 53745; 51126; 53861;
   51158; 51803; 49672; 53485; 49766; 49077; 50686; 54404;
   50471; 53721; 51281; 53143; 50876; 54073; 54357; 49171;
   50844; 52727; 54168; 51342; 51528; 52631; 49327; 52502;
   52981; 50230; 50351; 54679; 52085; 53837; 52309; 51685;
   54121; 51064; 50170; 54380; 54333; 53354; 50592; 53908;
   50078; 51220; 50624; 50290; 49984; 51464; 53039; 53275;
   52245].
(** HASH_TRANSPORT_AND_MAP_SYMBOLS, src/fonts/emoji.rs:5814-6017 *)
Definition emoji_hash_transport_and_map_symbols : list N :=
  [0x8770f4; 0x25fc370; 0x3cff866; 0x46db145; 0x5dbd6af; 0x6872089; 0x6df90b6; 0x71c011c;
   0x74d3916; 0x82ec9f1; 0x8a9f846; 0x8cc3259; 0x932b278; 0xb5e52e7; 0xca82272; 0xdc7f440;
   0xf3a5893; 0x11b3d3a0; 0x11ef40aa; 0x12ec7461; 0x14c83385; 0x15a8ab02; 0x164fcd58; 0x16a1023f;
   0x18418f53; 0x18a03ef5; 0x195c2fe4; 0x19696d55; 0x1b0af734; 0x1c524f6b; 0x1e1a33db; 0x1edd946b;
   0x1eeccb19; 0x1f80db6c; 0x1fffc6ce; 0x20a2942e; 0x22538bea; 0x23176fe7; 0x24a35a8a; 0x275cfb77;
   0x28e42041; 0x28f19432; 0x28f778a4; 0x2970c951; 0x2ac4f147; 0x2bde97be; 0x2f36f6d1; 0x2fe495ca;
   0x3234312e; 0x3234f795; 0x32f02761; 0x33a0f5ef; 0x33ee4ea7; 0x34a4e7bf; 0x39a87f5b; 0x3add5b8d;
   0x3bb1123e; 0x3c9aeb17; 0x3d36482b; 0x3ddd08ac; 0x3f257f1b; 0x3f4c92e2; 0x416788fe; 0x416da8c4;
   0x43b77c62; 0x443f2fc4; 0x45bdd416; 0x45e18f3a; 0x46458da4; 0x493cca72; 0x4a08f6c4; 0x4b9d464f;
   0x4cd8b1e1; 0x4d4e3320; 0x4fbd5c51; 0x5031122f; 0x5117080d; 0x51641e58; 0x53146f6a; 0x54299eb4;
   0x5590bbde; 0x572fa28e; 0x57f7d479; 0x5874fc29; 0x58e883e7; 0x5b1bd1ba; 0x5beb3804; 0x5c840416;
   0x5dd369f2; 0x5e3c7a30; 0x5ed006d8; 0x5f532674; 0x641020fd; 0x643b7844; 0x68bd8eba; 0x68e201c0;
   0x6a0a9031; 0x6a85411b; 0x6f2d85be; 0x6f68cfcb; 0x710d58eb; 0x72c7233b; 0x73f5ad51; 0x73fd80d8;
   0x754a1fe1; 0x7742479e; 0x7ae22221; 0x7be9269b; 0x7fdf1f48; 0x826b24f9; 0x87182dc9; 0x881fafc9;
   0x886600a1; 0x8923d361; 0x8a2b0dbf; 0x8aba293b; 0x8ba0156d; 0x8cf9fbf8; 0x8def363d; 0x8e032eda;
   0x8f9c5df8; 0x914a3db4; 0x92820b18; 0x9583fc07; 0x97456cde; 0x9840a988; 0x9b7c206e; 0x9ca78196;
   0xa3df547a; 0xa594e73b; 0xa5b1a73c; 0xa6423163; 0xa669f108; 0xa712559c; 0xa873c6e2; 0xadde0b60;
   0xade85bc6; 0xae0282fa; 0xaf3e4b59; 0xaf4f45bd; 0xb4f31348; 0xb6567b64; 0xb97f1ba5; 0xbb05b6fe;
   0xbb451f03; 0xbb45a574; 0xbe8f18bf; 0xbfeff6bd; 0xc02cf32b; 0xc0fb76a9; 0xc16bb1ce; 0xc1a8e441;
   0xc274f23b; 0xc58e6488; 0xc66bf9bb; 0xc7bc55d5; 0xc7db8b90; 0xc96500df; 0xc99f6d05; 0xcaa213bd;
   0xcdd327b2; 0xce70dac3; 0xd2db81ec; 0xd388d21e; 0xd3bbc2a2; 0xd4467c1e; 0xd6eabe45; 0xd749bfc9;
   0xd86af330; 0xd89ac45b; 0xd9996120; 0xd9daa5a6; 0xdcd66728; 0xdd8d43b5; 0xde8bbf98; 0xdf6f604d;
   0xe036f457; 0xe0467484; 0xe0babcad; 0xe150bed1; 0xe4a19c97; 0xe51d4a54; 0xe5dd8c6b; 0xea779037;
   0xeafabf90; 0xeb74528c; 0xebc04ce9; 0xec1a371f; 0xec8cf419; 0xef0fb5d5; 0xf04c6a10; 0xf22b9a22;
   0xf42afa2d; 0xf4480eb4; 0xf544ab29; 0xf802d37d; 0xf80ef49c; 0xf8c121c6; 0xf94ab6da; 0xfa667b82;
   0xfc6a8268; 0xff88c47f].
(** OFFSET_TRANSPORT_AND_MAP_SYMBOLS, src/fonts/emoji.rs:6020-6223 *)
Definition emoji_offset_transport_and_map_symbols : list N :=
  [55183; 58169; 57380; 55054; 56128; 54994; 57899; 57883;
   56502; 56815; 55883; 59115; 58379; 59506; 59094; 54799;
   57663; 56943; 55077; 57789; 55354; 56345; 57851; 54846;
   59448; 58892; 59036; 56437; 55258; 55937; 59067; 59349;
   58839; 57442; 59199; 55964; 57947; 56879; 56269; 56155;
   55991; 59424; 57727; 56751; 58137; 59179; 55482; 56974;
   57411; 58104; 58201; 55109; 59291; 55077; 55307; 57995;
   55288; 57005; 58320; 57979; 54742; 54820; 58700; 57223;
   56101; 57600; 55158; 58259; 59291; 57098; 59179; 55694;
   58563; 56372; 55802; 58531; 54902; 55211; 58072; 56405;
   58784; 57757; 59003; 56074; 56591; 59199; 56018; 55667;
   59405; 56783; 57537; 58290; 59147; 59036; 56558; 58169;
   58680; 58815; 56046; 58438; 55429; 59147; 58860; 56312;
   55382; 59259; 59094; 59067; 57067; 58658; 59322; 56719;
   58815; 57286; 56655; 55829; 59381; 58104; 56193; 57931;
   55138; 55454; 57774; 55546; 55236; 58839; 58072; 58595;
   59533; 59115; 56372; 55183; 58763; 55607; 56470; 55856;
   57160; 56237; 55258; 59230; 58784; 57962; 55514; 56687;
   57914; 55354; 57036; 54935; 58043; 58498; 59477; 56291;
   57568; 55721; 54902; 57866; 57473; 54873; 57835; 54769;
   55635; 57192; 56535; 59322; 56535; 57348; 57695; 58226;
   58409; 55578; 57129; 57505; 57254; 56210; 55334; 58349;
   55021; 58628; 57803; 58628; 57820; 54710; 59554; 55775;
   57317; 58010; 57632; 55404; 58743; 56176; 56911; 55748;
   55910; 57742; 58975; 56623; 58920; 54963; 56847; 58721;
   58946; 58468].
(** HASH_GEOMETRIC_SHAPES_EXTENDED, src/fonts/emoji.rs:6236-6249 *)
Definition emoji_hash_geometric_shapes_extended : list N :=
  [0x32cd13f1; 0x4c5f3e6c; 0x63ea2614; 0x64410db3; 0x7c995bde; 0x9ff9adc4; 0xb0e196ae; 0xd849e4aa;
   0xd9dd09fd; 0xe2b47887; 0xe7d2447f; 0xfdb5e966].
(** OFFSET_GEOMETRIC_SHAPES_EXTENDED, src/fonts/emoji.rs:6252-6265 *)
Definition emoji_offset_geometric_shapes_extended : list N :=
  [59904; 59777; 59744; 59680; 59936; 59841; 59585; 59648;
   59617; 59712; 59872; 59809].
(** HASH_SUPPLEMENTAL_SYMBOLS_AND_PICTOGRAPHS, src/fonts/emoji.rs:6278-7161 *)
Definition emoji_hash_supplemental_symbols_and_pictographs : list N :=
  [0x57bcf3; 0x810c43; 0x967a73; 0xa97d5b; 0xc640c5; 0xd6fc50; 0x1dc34f6; 0x20483b2;
   0x2f211d1; 0x33519e2; 0x34d9c9d; 0x3e5ef58; 0x40630e0; 0x4891074; 0x48e5ba5; 0x4a58eef;
   0x4fa0639; 0x5433731; 0x556bfdd; 0x5c4f0ff; 0x5de3a27; 0x602a2da; 0x60d2eec; 0x6c956b0;
   0x6ea4d5b; 0x6ff5d47; 0x7505299; 0x78f2d59; 0x7aa8164; 0x7d46d88; 0x7db1208; 0x875bacf;
   0x8fb2094; 0x94e5eb3; 0x9c209f7; 0x9e54554; 0xa4791d9; 0xbe698ed; 0xc48f4b9; 0xc838d6f;
   0xcc7e302; 0xce2a1a1; 0xd396f1f; 0xe171bc7; 0xe5b68f2; 0xebd9e0e; 0xebe4a65; 0xf8fa20f;
   0x10532df0; 0x109bc5f9; 0x10b4b172; 0x11eec3fa; 0x12128468; 0x13078dca; 0x13842240; 0x13ca90df;
   0x13e24505; 0x13ef41c3; 0x13efb594; 0x14483979; 0x149213af; 0x14949c8a; 0x155b1e86; 0x155fa6c3;
   0x159443f4; 0x1598af5c; 0x163edb9f; 0x166b64e4; 0x16f8e5b9; 0x17668f82; 0x17782c18; 0x17793641;
   0x178c7a7b; 0x179c81a5; 0x1811a7c5; 0x1950a699; 0x19a0f9f0; 0x19a8729f; 0x19b6ddd3; 0x19e222a9;
   0x19e3590c; 0x19f3656f; 0x1bb14091; 0x1c17c428; 0x1c4d637f; 0x1c54fb25; 0x1ce1dcdb; 0x1d18e43e;
   0x1da0636b; 0x1ddc5138; 0x1e1b9faa; 0x1e21063d; 0x1f107568; 0x1f1c3c76; 0x1f3fa1e3; 0x1f438f44;
   0x1fc4e177; 0x1ffa4852; 0x2015d53d; 0x20a4ba5c; 0x2126482b; 0x221c3fbe; 0x22406613; 0x2283a906;
   0x23433548; 0x234ed357; 0x239c4380; 0x243341d3; 0x243a160c; 0x2487eb4a; 0x2500cd27; 0x251f5919;
   0x255e9a74; 0x257a6592; 0x25aaa64c; 0x25dbe623; 0x26414a9c; 0x26d6d659; 0x26db42c5; 0x26de7419;
   0x26e2f466; 0x2748d4ca; 0x27a5fb53; 0x27d59e0e; 0x27fc39a9; 0x280fc682; 0x283bbd05; 0x2863c51c;
   0x2863d35f; 0x28c66123; 0x28f25ede; 0x29055359; 0x291a2400; 0x298cec44; 0x299ae7ca; 0x299f536c;
   0x29c034ea; 0x2a95806b; 0x2ab39fcb; 0x2ae2d62a; 0x2b204c22; 0x2b31d791; 0x2b6c643d; 0x2bad1b7e;
   0x2bd8d180; 0x2d0fe865; 0x2d1c1d71; 0x2d4806f8; 0x2d764abd; 0x2d8c1465; 0x2da233bd; 0x2e7a0733;
   0x2eb06e2d; 0x2ee65663; 0x2ef81800; 0x2f0daf50; 0x2f36665c; 0x2f6a4e2f; 0x300b2e98; 0x307c8809;
   0x30db65a3; 0x314322eb; 0x316036f7; 0x317f1bbb; 0x3185e72e; 0x31df78d7; 0x31ec3733; 0x321bb5c3;
   0x3298c574; 0x3312e8c3; 0x331509d6; 0x33306047; 0x33487401; 0x337b36c5; 0x338f1e54; 0x33a90039;
   0x33abb4cb; 0x33ec480b; 0x3401ff8d; 0x3449e07e; 0x3478818b; 0x34f3290c; 0x34f89d73; 0x351b01d3;
   0x35aa8dc6; 0x3610056d; 0x36445ed3; 0x3647d05d; 0x3755c520; 0x37edb583; 0x3823c835; 0x382524f8;
   0x38752029; 0x38c48b8a; 0x398e0fe8; 0x39d9793e; 0x39eac29b; 0x3a293835; 0x3a7a1bd1; 0x3ac4e1f6;
   0x3b223814; 0x3b4046ad; 0x3b6128f5; 0x3b6bf5b0; 0x3b8b9d47; 0x3bd04709; 0x3da34d66; 0x3dea90a9;
   0x3dec26d2; 0x3e669c9d; 0x3e9a6333; 0x3ebaa9de; 0x3f58acaf; 0x3f6652ac; 0x3f7ff0eb; 0x3ffcc03a;
   0x408bfa98; 0x40c1ef7a; 0x40e310fb; 0x40e58b76; 0x41174c4d; 0x41f28bf6; 0x4205da98; 0x4352dd20;
   0x43600754; 0x4395bcef; 0x43c8662d; 0x43e5709e; 0x43e8e560; 0x43fc672e; 0x44181ccf; 0x4431d871;
   0x449e5e55; 0x44ed7457; 0x4505507d; 0x455d6f08; 0x45b1d9d1; 0x45c5c7be; 0x460c41da; 0x460dfade;
   0x46a9afb0; 0x46b7cc68; 0x470be297; 0x475f1333; 0x4771b800; 0x48190810; 0x48937542; 0x49954579;
   0x49bb29df; 0x4a26b090; 0x4a87cafc; 0x4ab6a9db; 0x4b6d4fc2; 0x4ba8e81a; 0x4bdca1a4; 0x4c1fbde9;
   0x4c3f6e0f; 0x4cc9c78c; 0x4ccc6cd0; 0x4e6e6c96; 0x4e7b1cd9; 0x4e84ca64; 0x4ee36fcd; 0x4ee3a642;
   0x4eea8163; 0x4f77d838; 0x4faef660; 0x4fb3658f; 0x4ff656e9; 0x5015bc48; 0x5017c981; 0x50801127;
   0x50b3df5d; 0x50bfd580; 0x50fd3369; 0x510eb6cc; 0x5156207f; 0x5173d4a4; 0x517d12f3; 0x51aa81ae;
   0x51db3f96; 0x52076930; 0x5271289f; 0x52b72ae7; 0x530970ab; 0x53acd90e; 0x53cd5ca2; 0x5411a638;
   0x5457e561; 0x5490f275; 0x54fa6201; 0x54fcbab9; 0x55090877; 0x5531599a; 0x55454555; 0x554c599b;
   0x55546dac; 0x558c51bd; 0x566eb891; 0x56baaa34; 0x57249168; 0x57475d3e; 0x57579aef; 0x577fcbf0;
   0x583efd22; 0x587f5260; 0x58a4eb69; 0x58d0fc61; 0x58dda091; 0x58fbab0e; 0x591faf33; 0x5928170e;
   0x594ce576; 0x59ef517d; 0x5a434edc; 0x5a5b5f49; 0x5a8fd6e6; 0x5ad43d26; 0x5b6b74b3; 0x5c229382;
   0x5ca8a469; 0x5ce3fc62; 0x5d6e4cd5; 0x5d7c0088; 0x5dab66ba; 0x5e3e88b7; 0x5f11fb89; 0x5f6eed1a;
   0x5f6f4a94; 0x5f992f65; 0x604966b2; 0x6075c585; 0x608c3c90; 0x61361014; 0x614e35ef; 0x62006575;
   0x62998429; 0x62a4dac9; 0x635a470c; 0x63691504; 0x63b1e781; 0x649f34d9; 0x64b020e2; 0x64e68819;
   0x65892314; 0x65bd021f; 0x65e6a52c; 0x65f13977; 0x664b60e2; 0x665e8eea; 0x6682e3e3; 0x668c2f90;
   0x66a54bec; 0x66c8a0c6; 0x66f1e76b; 0x6720f3ee; 0x6760d863; 0x67b6f390; 0x68031d24; 0x6863b0c5;
   0x68f70405; 0x68fcc9bf; 0x692e4c42; 0x697f76b2; 0x69831ab0; 0x69b4203a; 0x69ff1902; 0x6a92a4c8;
   0x6ae30beb; 0x6b1d63b9; 0x6b2b77fd; 0x6b3088cd; 0x6c14d82c; 0x6ca63759; 0x6cab1d42; 0x6cc29da0;
   0x6d1d3b2b; 0x6d89fc46; 0x6d8ed3bb; 0x6ded1578; 0x6e96d50d; 0x6ed2fa80; 0x6f87056b; 0x6fb67311;
   0x6fcfd7d4; 0x701251e8; 0x7101319f; 0x7148fe74; 0x71c2b31e; 0x71cdf5cd; 0x71ebd5b2; 0x723c5249;
   0x72752e77; 0x72823f6c; 0x72d07b29; 0x730c5672; 0x7344f757; 0x73b2f6f9; 0x73cac324; 0x74680ddc;
   0x747fdc37; 0x74cd9d13; 0x74ce543f; 0x75d00005; 0x761cabbc; 0x762ae47c; 0x7637fed8; 0x763e838b;
   0x764f019b; 0x76e1be52; 0x76eaf20f; 0x774e36ec; 0x77755d30; 0x77944cf5; 0x7839f81f; 0x784d9757;
   0x7958f123; 0x79604c12; 0x79752d1c; 0x797eee4d; 0x79df3e8b; 0x7b12f33c; 0x7b5ec79b; 0x7b65a43e;
   0x7b83d043; 0x7c72cd0a; 0x7cad2634; 0x7cb773a1; 0x7cd2cd40; 0x7cec2061; 0x7d08f492; 0x7d98e52a;
   0x7df23142; 0x7e232d19; 0x7e44169d; 0x7e4d6c47; 0x7e5ad18b; 0x7e65c816; 0x7e6b28a9; 0x7e91fdef;
   0x7f37c38f; 0x807546c1; 0x80ada5f8; 0x80d0a0cb; 0x812d0700; 0x819bdd8e; 0x819c5dcb; 0x81d806fc;
   0x821b1ef2; 0x82a2076c; 0x82dc4427; 0x8304ba7e; 0x8344c512; 0x838129ee; 0x839a7d1e; 0x839ec3c9;
   0x83bafbe6; 0x83dcb402; 0x84401fa4; 0x846d5356; 0x849b2772; 0x849f3af9; 0x84cf947d; 0x84e3ca8c;
   0x84f6f7fb; 0x852b16c3; 0x85616479; 0x856ad6ae; 0x85c30bfc; 0x85c9916f; 0x86f941c3; 0x86fa1b9b;
   0x8742f588; 0x87ccef4a; 0x87e91b51; 0x883905ed; 0x889e6a48; 0x88a3b3bd; 0x88d943cf; 0x89d0c9f7;
   0x89f9c8f7; 0x8a0e8bb9; 0x8a24b1c6; 0x8a4a8cb5; 0x8acbe3d4; 0x8b220010; 0x8b3f1b49; 0x8c30d4bd;
   0x8d195902; 0x8dfe5ea1; 0x8eae792f; 0x8eef48c1; 0x8f0adcbf; 0x8f38048e; 0x8f8ffd0f; 0x90249214;
   0x90f18280; 0x913b81eb; 0x91a518f8; 0x91e99ae4; 0x92081956; 0x9248f6e8; 0x9270c024; 0x927637a4;
   0x9281e5c2; 0x928b0663; 0x93288cc1; 0x93b12354; 0x93f1ccab; 0x9408ae59; 0x947d1aca; 0x947ea4ea;
   0x94a97b7c; 0x94c4a465; 0x94f9d926; 0x9537d6a1; 0x957eced8; 0x96c3476a; 0x97086f30; 0x977d1458;
   0x978e8659; 0x97df4a6a; 0x984d644f; 0x98545ba2; 0x9869cea8; 0x98716a77; 0x987e04a0; 0x9930b16f;
   0x99315c0a; 0x993a8876; 0x994b5eca; 0x9981bcf5; 0x998b4a6d; 0x9a25553f; 0x9a5e989f; 0x9ac5263a;
   0x9ac8e3bb; 0x9aded966; 0x9b0ed4f9; 0x9b545046; 0x9b82726e; 0x9c13656b; 0x9c2e07c7; 0x9ca3423e;
   0x9cb799b8; 0x9d0ab10d; 0x9d0d0060; 0x9d2d55e8; 0x9d399917; 0x9d457955; 0x9eeab105; 0x9f30279c;
   0x9f52590f; 0x9f5cd0e7; 0x9f7c6781; 0x9fa65a5c; 0x9fbcdde2; 0x9fcbb0d2; 0x9fdda281; 0xa06eb1e8;
   0xa091c251; 0xa0cb29aa; 0xa118016c; 0xa13418cd; 0xa1433cbf; 0xa1f74984; 0xa200a940; 0xa228f983;
   0xa2338657; 0xa2409ebf; 0xa25e7e7f; 0xa2f29419; 0xa2f692a4; 0xa38884e3; 0xa393896e; 0xa405d6dc;
   0xa4a1abd5; 0xa4d4abf3; 0xa545fdb2; 0xa61ea102; 0xa675a6f5; 0xa6a8d391; 0xa6b38df9; 0xa6c6e2be;
   0xa70acb2c; 0xa71996a4; 0xa789269d; 0xa8a3481d; 0xa8ceed3a; 0xa9227c54; 0xa92ca089; 0xa9504f13;
   0xa997fccd; 0xa9f4b85b; 0xaa442781; 0xaa83e7f9; 0xaaa120bc; 0xaac9f62e; 0xaafcf2ba; 0xab012e76;
   0xab1c45c7; 0xab30cab3; 0xab4eed99; 0xac0dfa42; 0xac4f92a6; 0xac72ca71; 0xac7dd616; 0xac8f9771;
   0xaca9c86f; 0xacb16d39; 0xacecdcc3; 0xad6d89e6; 0xad74644c; 0xadc08b39; 0xadc67e7e; 0xae32fe8e;
   0xae3e8633; 0xae4ea229; 0xae8cd5c6; 0xaf0c4136; 0xaf509201; 0xaf6b7adb; 0xaf9b3a92; 0xafacb564;
   0xafe7fc18; 0xb0ecc00b; 0xb1034cbb; 0xb126a859; 0xb1c58388; 0xb1c9e3ef; 0xb260d6ee; 0xb2b276c3;
   0xb2e23931; 0xb358149f; 0xb381cf5b; 0xb3dd4009; 0xb44833cc; 0xb477f610; 0xb4bf5fe9; 0xb4ceed98;
   0xb58333df; 0xb5955c05; 0xb5ab999b; 0xb6c30f70; 0xb6d5f094; 0xb6e3fd30; 0xb6fbc8f9; 0xb736e4e6;
   0xb75a38d6; 0xb77602c5; 0xb7889780; 0xb7be7a06; 0xb83b91f3; 0xb8b39bac; 0xb8fe7808; 0xb9251557;
   0xb9331bf7; 0xb974ffcf; 0xb9fd5411; 0xba420936; 0xba5c58cf; 0xbac56462; 0xbad70f25; 0xbb298922;
   0xbb4c7a4b; 0xbb9bd193; 0xbbc674af; 0xbc0ebcb6; 0xbc16e30d; 0xbc192ac0; 0xbc52a55b; 0xbcd0b10f;
   0xbd12b99a; 0xbd9c80ed; 0xbdd10844; 0xbdde3a32; 0xbe23eccb; 0xbeb718f4; 0xbf360185; 0xbf6f5189;
   0xbfe923e2; 0xc019ab67; 0xc0240461; 0xc0c3c658; 0xc0eb4875; 0xc1024470; 0xc142a5e3; 0xc19e92d5;
   0xc1d6e01b; 0xc1da022d; 0xc200a4e4; 0xc208f08a; 0xc29b65fe; 0xc35dff0c; 0xc362c014; 0xc36e6a6f;
   0xc3959cd8; 0xc3ca6823; 0xc4ee5fb5; 0xc567e25d; 0xc5bc7cae; 0xc5c5f509; 0xc625f4a0; 0xc634b690;
   0xc66f8540; 0xc6b98a04; 0xc6d1af45; 0xc7600427; 0xc7c93627; 0xc7ca335a; 0xc7e224f4; 0xca35b93c;
   0xca57d10b; 0xca58ccc8; 0xcaa8ebdb; 0xcb09e943; 0xcbc1db53; 0xcbc5b570; 0xcbee7c19; 0xcc3b8ea7;
   0xcc511483; 0xcc5682dc; 0xcc73b9f6; 0xcc792ed2; 0xcca5b1a3; 0xccc49066; 0xcd8a6be3; 0xcdb3d26b;
   0xcdf7e99b; 0xcf2cd0c6; 0xcfbdd9fe; 0xcffc5f68; 0xd0a146e9; 0xd0b5cbaa; 0xd0ccc0c9; 0xd0dbbc2e;
   0xd14cb0f5; 0xd20285b2; 0xd229ee27; 0xd23c981e; 0xd263532e; 0xd2e1483f; 0xd2f9fffd; 0xd4933d23;
   0xd5b57544; 0xd630cbaa; 0xd6760ca2; 0xd70e8344; 0xd71c164f; 0xd7597bb8; 0xd7d4686f; 0xd7dd2dd3;
   0xd87acde0; 0xd8cf7e70; 0xd9a11c42; 0xd9a9ab29; 0xd9f0008c; 0xd9f08fef; 0xd9f74ebe; 0xda36a68e;
   0xda4bc6ad; 0xda57395d; 0xdb90e687; 0xdbac18bc; 0xdbad0667; 0xdc070def; 0xdc370115; 0xdc3c0ee6;
   0xdc49c08f; 0xdc705755; 0xdc79e8bb; 0xdccf926f; 0xdd06a35d; 0xdd90f070; 0xdd914c68; 0xdd966d97;
   0xddacdf45; 0xddbef8c6; 0xde0e6ce1; 0xde210892; 0xdec2e4e4; 0xded16434; 0xdf212789; 0xdf311db9;
   0xdf3bcc09; 0xdf81bec8; 0xdfa52c6e; 0xdfb769de; 0xdfc08d15; 0xe0a11816; 0xe0af2cd3; 0xe0be636b;
   0xe0d3ebf7; 0xe14eba86; 0xe1ccfae1; 0xe1ff6f12; 0xe2ed644e; 0xe2f862b9; 0xe4b0577a; 0xe4d214a7;
   0xe52a4a18; 0xe5f1dfd9; 0xe6541920; 0xe663cb31; 0xe6b8aad3; 0xe7aa5806; 0xe7e8bc6a; 0xe81968f6;
   0xe8674739; 0xe8931ac3; 0xe8c6eded; 0xe954e5bd; 0xe969d762; 0xe989a3d2; 0xea9b4bf9; 0xeb256d56;
   0xeb570002; 0xeb9e30cc; 0xecaafac8; 0xecb5fcca; 0xed25e8e1; 0xed7f1f29; 0xed91aca9; 0xedcdbbea;
   0xedf58f82; 0xedf9ce81; 0xee627433; 0xef1aa5a1; 0xef226e3c; 0xef2d6409; 0xef6da9f0; 0xef72e91b;
   0xefcb8561; 0xf06129d6; 0xf089e092; 0xf0920d15; 0xf122fb66; 0xf1beba5f; 0xf1ec3896; 0xf24128df;
   0xf250e316; 0xf265a246; 0xf3ab6f81; 0xf463d050; 0xf4b4abaf; 0xf4e31f01; 0xf5499e4b; 0xf553678c;
   0xf6411e67; 0xf6f1112f; 0xf75232e4; 0xf79c7ac3; 0xf7ede269; 0xf8212956; 0xf8747fbd; 0xf8af1ba0;
   0xf8c763c3; 0xf8cd80fa; 0xf9303ba8; 0xf93c660b; 0xf93d9129; 0xf978896e; 0xf981f9b5; 0xf9e681fa;
   0xfa1e2747; 0xfa237666; 0xfa2d783a; 0xfa5c3615; 0xfaa9ed18; 0xfb57039f; 0xfbf86378; 0xfc450e43;
   0xfc703b72; 0xfd236471; 0xfdca4540; 0xfe3bf70e; 0xfea14ea0; 0xfedbcaf3; 0xff167425; 0xff6596ee;
   0xffa96f5b; 0xffce5538].
(** OFFSET_SUPPLEMENTAL_SYMBOLS_AND_PICTOGRAPHS, src/fonts/emoji.rs:7164-8047 *)
Definition emoji_offset_supplemental_symbols_and_pictographs : list N :=
  [81529; 72092; 61767; 75315; 66123; 64379; 79290; 77516;
   71435; 61325; 66334; 79258; 62143; 71641; 80699; 70490;
   63575; 64121; 59969; 72279; 63377; 73138; 78490; 72071;
   64887; 66223; 63303; 60393; 60615; 81827; 76481; 60022;
   72366; 70917; 69712; 78972; 62646; 63902; 67553; 67220;
   61249; 66051; 77540; 74023; 72692; 67073; 67826; 62226;
   64499; 77995; 71676; 76023; 62836; 71168; 63963; 72724;
   78316; 76236; 65207; 78547; 68092; 78909; 71709; 65518;
   83052; 67732; 73607; 71458; 68994; 71879; 80439; 60673;
   67476; 80922; 81767; 61106; 70707; 75226; 65774; 79130;
   74107; 76541; 71964; 63931; 68778; 79719; 78177; 60835;
   60156; 60884; 69464; 79472; 76809; 78699; 78022; 63651;
   63061; 61933; 81263; 69613; 65390; 83240; 67584; 74828;
   77739; 68808; 77836; 73084; 68398; 67170; 72198; 80296;
   60329; 77583; 70865; 73786; 76859; 73635; 68750; 69409;
   60306; 76417; 62811; 69328; 64449; 68574; 61653; 82228;
   68693; 61557; 79585; 64983; 74448; 71731; 62692; 66384;
   69751; 65806; 65266; 74994; 82088; 82824; 79786; 60425;
   74680; 61528; 79099; 83159; 69692; 62351; 77026; 80815;
   67142; 83104; 81409; 70056; 72424; 81159; 67700; 68121;
   80868; 82364; 75367; 74855; 62410; 69206; 62536; 74308;
   64312; 78155; 83188; 77350; 63846; 81289; 62760; 77692;
   74134; 75966; 77855; 83129; 63156; 63230; 82686; 69236;
   71483; 77258; 65900; 62600; 65710; 81707; 73558; 78726;
   63759; 71574; 81559; 80383; 79843; 82320; 65955; 78878;
   62925; 62858; 68862; 71986; 68838; 61980; 80525; 69021;
   81499; 72599; 75814; 65869; 81899; 78405; 80757; 61411;
   74078; 68236; 79321; 79035; 66073; 82935; 77925; 71268;
   64919; 71943; 66097; 73365; 69903; 66671; 79814; 74584;
   77776; 77758; 78636; 64951; 81184; 63730; 71619; 82568;
   71000; 80947; 70291; 73247; 77226; 81001; 73109; 77107;
   82296; 70000; 60691; 78940; 77289; 73994; 77971; 63403;
   80013; 73587; 64759; 74282; 75842; 74385; 66405; 67637;
   81131; 69265; 74159; 64855; 81210; 68636; 70521; 72746;
   74362; 63526; 62903; 75870; 62713; 62097; 61043; 71585;
   60075; 68173; 77412; 73478; 65327; 67280; 77560; 80267;
   62579; 63014; 78075; 66989; 67794; 77164; 70572; 68161;
   61791; 79162; 73941; 67459; 73724; 79226; 81349; 73297;
   80098; 78459; 61909; 66438; 81617; 62440; 60597; 65931;
   76788; 68007; 66271; 73422; 61838; 64642; 71085; 63625;
   72863; 61003; 62381; 76324; 78813; 76188; 69643; 71330;
   60255; 81319; 82883; 70808; 77196; 73849; 79984; 70729;
   82436; 76913; 75146; 65454; 69835; 69879; 80642; 67197;
   67983; 78285; 70550; 82018; 60208; 61815; 66932; 82626;
   71922; 78048; 77796; 76513; 79652; 60862; 71293; 77716;
   80411; 73342; 74468; 82914; 62120; 63817; 82515; 71241;
   65079; 81971; 80973; 66497; 77132; 82206; 80843; 64182;
   75457; 81052; 69773; 80183; 73191; 63279; 63329; 79353;
   66728; 74741; 80154; 69792; 63551; 77638; 75616; 67413;
   72958; 69358; 75171; 82041; 73526; 67884; 80670; 66298;
   68375; 77611; 78263; 68920; 78242; 69296; 66027; 72832;
   70231; 78102; 82707; 79067; 79562; 67764; 74772; 78346;
   66466; 73817; 68265; 69110; 70143; 66696; 60654; 61270;
   82181; 61208; 60130; 71529; 68353; 64268; 70944; 63452;
   60485; 66758; 67112; 68138; 71630; 74967; 83019; 60579;
   79518; 64823; 69079; 73220; 71355; 71596; 83075; 64026;
   71665; 66003; 72629; 75758; 80211; 63037; 65981; 80496;
   63677; 80894; 71189; 76623; 75283; 82956; 72114; 64547;
   82066; 62556; 70030; 73660; 63600; 67908; 79696; 61498;
   74803; 74499; 82251; 71857; 65143; 81796; 75922; 70437;
   72660; 74254; 77381; 63427; 81996; 78609; 62166; 82543;
   64246; 67357; 69048; 68039; 68510; 71794; 79928; 73881;
   75584; 82341; 66783; 62948; 75067; 62669; 65486; 80612;
   81852; 61957; 81469; 70887; 62992; 71219; 75678; 70466;
   63131; 66963; 60517; 65239; 71540; 75995; 68429; 69436;
   71508; 70203; 70349; 73448; 62197; 80240; 61023; 72895;
   65742; 61288; 69183; 82655; 63206; 63182; 70086; 66247;
   72454; 60776; 70786; 69156; 76567; 72512; 67046; 61382;
   60361; 80728; 76354; 79539; 60281; 69383; 62518; 60719;
   75251; 61187; 79871; 81238; 70838; 62478; 79629; 71653;
   76708; 78845; 74648; 66845; 61684; 77491; 74418; 82987;
   68069; 62289; 61468; 60455; 75337; 75732; 77662; 61589;
   81439; 70319; 78667; 76049; 75943; 65358; 67959; 72394;
   76159; 62073; 65047; 65296; 66553; 76652; 80468; 79673;
   75119; 66148; 64426; 79956; 72336; 70379; 76993; 79740;
   80126; 72306; 72482; 68968; 80069; 60185; 69924; 82407;
   69521; 61229; 70407; 69856; 65582; 60746; 70650; 73394;
   64697; 66198; 65111; 68605; 71774; 81588; 73967; 60634;
   64522; 65678; 62970; 62881; 70680; 63108; 79451; 75646;
   77076; 80041; 64595; 81026; 68947; 74616; 76832; 66523;
   63478; 69552; 70261; 68297; 71029; 80786; 70601; 77948;
   71142; 72140; 78578; 66905; 72169; 77816; 79194; 78757;
   73052; 64665; 69813; 75201; 74227; 60907; 81876; 74204;
   61862; 77437; 72050; 61166; 76127; 73273; 64729; 75522;
   60930; 65838; 64619; 74940; 79408; 60104; 76449; 74911;
   62623; 69731; 74051; 78787; 64089; 76386; 82857; 75393;
   71700; 73913; 67093; 67331; 74882; 77901; 75046; 71313;
   80555; 68668; 69942; 62027; 61125; 64334; 76679; 72223;
   67670; 60954; 76079; 68481; 74338; 66314; 64214; 74711;
   71900; 71607; 67521; 69584; 69494; 60806; 73323; 67013;
   67609; 75090; 64572; 82599; 79606; 72928; 79763; 61886;
   78520; 73754; 83217; 79385; 76208; 68543; 64153; 76594;
   69970; 62737; 62050; 62460; 71816; 63085; 73164; 73502;
   65614; 74184; 66617; 65015; 64401; 72007; 71058; 82464;
   60231; 71380; 70115; 61306; 81738; 67934; 72800; 66875;
   71688; 75019; 64791; 76294; 77463; 71837; 67438; 62498;
   81379; 62785; 82158; 61439; 71720; 72774; 77320; 70173;
   79899; 79431; 68329; 62319; 79004; 68720; 74556; 66172;
   67859; 72542; 69128; 81105; 67307; 82739; 66814; 71552;
   69675; 82803; 70759; 82111; 61063; 62257; 82274; 61344;
   81948; 61145; 76736; 78434; 60981; 80353; 68204; 60048;
   72250; 65422; 60547; 63873; 81080; 78198; 71563; 73022;
   61084; 68453; 80324; 67386; 76103; 75785; 71411; 80583;
   62003; 63701; 65175; 71114; 76262; 72990; 76967; 63502;
   66484; 65550; 63353; 63255; 61744; 76887; 72028; 67501;
   64290; 79495; 64474; 78220; 70974; 82136; 71753; 75425;
   82488; 63788; 75552; 78376; 65646; 64058; 72569; 61364;
   74524; 70628; 59994; 66642; 77056; 67251; 64356; 63994;
   77878; 68894; 81924; 82384; 81648; 75489; 82771; 61621;
   81678; 66352; 78129; 66585; 76943; 75703; 75896; 73692;
   61716; 76761].
(** HASH_SYMBOLS_AND_PICTOGRAPHS_EXTENDED_A, src/fonts/emoji.rs:8060-8118 *)
Definition emoji_hash_symbols_and_pictographs_extended_a : list N :=
  [0x296b2e3; 0x49bbc67; 0x524762a; 0xa1a6928; 0xb66a480; 0x18ebaa23; 0x1c11d7b6; 0x2069d861;
   0x2b248faf; 0x2fc6b5e2; 0x304ca9c1; 0x3b72aaf6; 0x3c2ff8d0; 0x3cc6db29; 0x3da24b3a; 0x464d8bc4;
   0x4a0760a4; 0x4ac863cc; 0x4b45d010; 0x53fa6a26; 0x57e83149; 0x581551b0; 0x6293815b; 0x6555c91a;
   0x69e8cfb5; 0x7a346478; 0x7feade75; 0x8427b8bd; 0x85c72968; 0x8bd06f70; 0x8ca9276c; 0x8ea0e1a6;
   0x96e68a5c; 0xa1f6a0bf; 0xa88bb5d0; 0xabeab4be; 0xac516601; 0xaf7b7f7f; 0xb6e2d80a; 0xbe512acc;
   0xc4788884; 0xca5516d3; 0xca7aec06; 0xcaa2ecaf; 0xcb181854; 0xcba7a499; 0xce1af862; 0xd29abb28;
   0xda7b5e06; 0xdbad5566; 0xe0dc67ef; 0xe60b928b; 0xec48623d; 0xee081bcd; 0xf595ba4d; 0xf91e2a8a;
   0xfe3c1358].
(** OFFSET_SYMBOLS_AND_PICTOGRAPHS_EXTENDED_A, src/fonts/emoji.rs:8121-8179 *)
Definition emoji_offset_symbols_and_pictographs_extended_a : list N :=
  [84459; 84185; 83340; 84020; 83932; 83609; 83817; 83383;
   84102; 83638; 84269; 84693; 84587; 84289; 84531; 83756;
   84372; 83701; 83432; 84345; 84040; 84480; 83557; 83657;
   84402; 83464; 83370; 84003; 84072; 84317; 83299; 84432;
   84560; 83786; 84240; 83873; 83403; 84130; 83495; 83903;
   83583; 84156; 84719; 84665; 83847; 83955; 84614; 84639;
   83675; 83316; 84216; 83524; 83731; 84750; 84509; 83984;
   83273].
(** DATA, src/fonts/emoji.rs:8191-24037 *)
Definition emoji_data : bigarr :=
  emoji_data_group_0 ++ emoji_data_group_1.
(** The arms of the match in get_blit_pattern_offset, src/fonts/emoji.rs *)
Definition emoji_blocks : list block :=
  [ Block 0x0 0x7F [3; 2]
         emoji_hash_basic_latin
         emoji_offset_basic_latin;
    Block 0x80 0xFF [2; 1]
         emoji_hash_latin_1_supplement
         emoji_offset_latin_1_supplement;
    Block 0x2000 0x206F [2; 1]
         emoji_hash_general_punctuation
         emoji_offset_general_punctuation;
    Block 0x2100 0x214F [2; 1]
         emoji_hash_letterlike_symbols
         emoji_offset_letterlike_symbols;
    Block 0x2190 0x21FF [2; 1]
         emoji_hash_arrows
         emoji_offset_arrows;
    Block 0x2300 0x23FF [2; 1]
         emoji_hash_miscellaneous_technical
         emoji_offset_miscellaneous_technical;
    Block 0x2460 0x24FF [2; 1]
         emoji_hash_enclosed_alphanumerics
         emoji_offset_enclosed_alphanumerics;
    Block 0x25A0 0x25FF [2; 1]
         emoji_hash_geometric_shapes
         emoji_offset_geometric_shapes;
    Block 0x2600 0x26FF [5; 2; 1]
         emoji_hash_miscellaneous_symbols
         emoji_offset_miscellaneous_symbols;
    Block 0x2700 0x27BF [2; 1]
         emoji_hash_dingbats
         emoji_offset_dingbats;
    Block 0x2900 0x297F [2; 1]
         emoji_hash_supplemental_arrows_b
         emoji_offset_supplemental_arrows_b;
    Block 0x2B00 0x2BFF [2; 1]
         emoji_hash_miscellaneous_symbols_and_arrows
         emoji_offset_miscellaneous_symbols_and_arrows;
    Block 0x3000 0x303F [2; 1]
         emoji_hash_cjk_symbols_and_punctuation
         emoji_offset_cjk_symbols_and_punctuation;
    Block 0x3200 0x32FF [2; 1]
         emoji_hash_enclosed_cjk_letters_and_months
         emoji_offset_enclosed_cjk_letters_and_months;
    Block 0xE000 0xF8FF [1]
         emoji_hash_private_use_area
         emoji_offset_private_use_area;
    Block 0x1F000 0x1F02F [2; 1]
         emoji_hash_mahjong_tiles
         emoji_offset_mahjong_tiles;
    Block 0x1F0A0 0x1F0FF [1]
         emoji_hash_playing_cards
         emoji_offset_playing_cards;
    Block 0x1F100 0x1F1FF [2; 1]
         emoji_hash_enclosed_alphanumeric_supplement
         emoji_offset_enclosed_alphanumeric_supplement;
    Block 0x1F200 0x1F2FF [2; 1]
         emoji_hash_enclosed_ideographic_supplement
         emoji_offset_enclosed_ideographic_supplement;
    Block 0x1F300 0x1F5FF [8; 7; 6; 5; 4; 3; 2; 1]
         emoji_hash_miscellaneous_symbols_and_pictographs
         emoji_offset_miscellaneous_symbols_and_pictographs;
    Block 0x1F600 0x1F64F [5; 4; 2; 1]
         emoji_hash_emoticons
         emoji_offset_emoticons;
    Block 0x1F680 0x1F6FF [5; 4; 2; 1]
         emoji_hash_transport_and_map_symbols
         emoji_offset_transport_and_map_symbols;
    Block 0x1F780 0x1F7FF [1]
         emoji_hash_geometric_shapes_extended
         emoji_offset_geometric_shapes_extended;
    Block 0x1F900 0x1F9FF [7; 5; 4; 3; 2; 1]
         emoji_hash_supplemental_symbols_and_pictographs
         emoji_offset_supplemental_symbols_and_pictographs;
    Block 0x1FA70 0x1FAFF [1]
         emoji_hash_symbols_and_pictographs_extended_a
         emoji_offset_symbols_and_pictographs_extended_a ].
Definition emoji_font : font := Font 32 0 emoji_blocks emoji_data.
